(** The generator multiplication of the 32-bit build next to that of the 64-bit build. *)
Require Import ZArith List Bool Lia.
From Verif Require Import Word Word32 Bytes Spec HashModel FieldModel ScalarModel Field32Model Field32Bytes Scalar32Model Scalar32Ops FieldBytes ScalarProof2 GenTable GroupModel EcmultModel GenModel SpecHash HashProof GenProof W32_Base W32_Group W32_Ecmult W32_Gen W32_Tight W32_SimField W32_SimScalar W32_SimGroup W32_SimEcmult.
Import ListNotations.
Local Open Scope Z_scope.

Lemma rs_of_Z v : 0 <= v < 2 ^ 256 -> rs (fes_of_Z_w32 v) (fes_of_Z v).
Proof.
  intros H. assert (M : forall k, 0 <= k mod 2 ^ 32 < 2 ^ 32) by (intros k; apply Z.mod_pos_bound; reflexivity).
  assert (M' : forall k, 0 <= k mod 2 ^ 64 < 2 ^ 64) by (intros k; apply Z.mod_pos_bound; reflexivity).
  assert (D : forall a, a = a mod 2 ^ 32 + (a / 2 ^ 32) * 2 ^ 32) by (intros a; pose proof (Z.div_mod a (2 ^ 32) ltac:(discriminate)); lia).
  assert (D' : forall a, a = a mod 2 ^ 64 + (a / 2 ^ 64) * 2 ^ 64) by (intros a; pose proof (Z.div_mod a (2 ^ 64) ltac:(discriminate)); lia).
  assert (T : 0 <= v / 2 ^ 224 < 2 ^ 32).
  { split; [apply Z.div_pos; [apply H|reflexivity]|]. apply Z.div_lt_upper_bound; [reflexivity|]. change (2 ^ 224 * 2 ^ 32) with (2 ^ 256). apply H. }
  assert (T' : 0 <= v / 2 ^ 192 < 2 ^ 64).
  { split; [apply Z.div_pos; [apply H|reflexivity]|]. apply Z.div_lt_upper_bound; [reflexivity|]. change (2 ^ 192 * 2 ^ 64) with (2 ^ 256). apply H. }
  split; [|split].
  - unfold fes_of_Z_w32, s26_ok. cbn [q0 q1 q2 q3 q4 q5 q6 q7]. repeat (split; [apply M|]). exact T.
  - unfold fes_of_Z, fes_ok. cbn [s0 s1 s2 s3]. split; [apply M'|]. split; [apply M'|]. split; [apply M'|exact T'].
  - transitivity v.
    + unfold fes_of_Z_w32, s26val. cbn [q0 q1 q2 q3 q4 q5 q6 q7].
      assert (E : forall a b c, 0 < 2 ^ a -> 2 ^ a * 2 ^ 32 = 2 ^ b -> c = v / 2 ^ a -> c = c mod 2 ^ 32 + v / 2 ^ b * 2 ^ 32).
      { intros a b c Ha Hb ->. rewrite <- Hb, <- Z.div_div; [apply D|lia|reflexivity]. }
      pose proof (D v) as E0.
      pose proof (E 32 64 _ eq_refl eq_refl eq_refl) as E1. pose proof (E 64 96 _ eq_refl eq_refl eq_refl) as E2. pose proof (E 96 128 _ eq_refl eq_refl eq_refl) as E3.
      pose proof (E 128 160 _ eq_refl eq_refl eq_refl) as E4. pose proof (E 160 192 _ eq_refl eq_refl eq_refl) as E5. pose proof (E 192 224 _ eq_refl eq_refl eq_refl) as E6.
      clear - E0 E1 E2 E3 E4 E5 E6. revert E0 E1 E2 E3 E4 E5 E6.
      generalize (v mod 2 ^ 32). generalize ((v / 2 ^ 32) mod 2 ^ 32). generalize ((v / 2 ^ 64) mod 2 ^ 32). generalize ((v / 2 ^ 96) mod 2 ^ 32).
      generalize ((v / 2 ^ 128) mod 2 ^ 32). generalize ((v / 2 ^ 160) mod 2 ^ 32). generalize ((v / 2 ^ 192) mod 2 ^ 32).
      generalize (v / 2 ^ 32). generalize (v / 2 ^ 64). generalize (v / 2 ^ 96). generalize (v / 2 ^ 128). generalize (v / 2 ^ 160). generalize (v / 2 ^ 192). generalize (v / 2 ^ 224).
      intros x7 x6 x5 x4 x3 x2 x1 y6 y5 y4 y3 y2 y1 y0 E0 E1 E2 E3 E4 E5 E6. rewrite E0, E1, E2, E3, E4, E5, E6. ring.
    + unfold fes_of_Z, sval. cbn [s0 s1 s2 s3].
      assert (E : forall a b c, 0 < 2 ^ a -> 2 ^ a * 2 ^ 64 = 2 ^ b -> c = v / 2 ^ a -> c = c mod 2 ^ 64 + v / 2 ^ b * 2 ^ 64).
      { intros a b c Ha Hb ->. rewrite <- Hb, <- Z.div_div; [apply D'|lia|reflexivity]. }
      pose proof (D' v) as E0. pose proof (E 64 128 _ eq_refl eq_refl eq_refl) as E1. pose proof (E 128 192 _ eq_refl eq_refl eq_refl) as E2.
      clear - E0 E1 E2. revert E0 E1 E2.
      generalize (v mod 2 ^ 64). generalize ((v / 2 ^ 64) mod 2 ^ 64). generalize ((v / 2 ^ 128) mod 2 ^ 64).
      generalize (v / 2 ^ 64). generalize (v / 2 ^ 128). generalize (v / 2 ^ 192).
      intros x3 x2 x1 y2 y1 y0 E0 E1 E2. rewrite E0, E1, E2. ring.
Qed.
Definition word256 (v : Z) : bool := (0 <=? v) && (v <? 2 ^ 256).
Lemma literal_range : forallb (forallb (fun e => word256 (fst e) && word256 (snd e))) gen_table_literal = true.
Proof. vm_cast_no_check (eq_refl true). Qed.
#[local] Transparent gen_prec_table.
Lemma r_gen_table : Forall2 (Forall2 rgs) gen_prec_table_w32 gen_prec_table.
Proof.
  unfold gen_prec_table_w32, gen_prec_table. pose proof literal_range as L. revert L. generalize gen_table_literal. intros T.
  induction T as [|l T IH]; cbn [map forallb]; [constructor|]. intros H. apply andb_prop in H as [H1 H2]. constructor; [|exact (IH H2)].
  clear - H1. induction l as [|e l IH]; cbn [map]; [constructor|]. cbn [forallb] in H1. apply andb_prop in H1 as [H1 H2]. apply andb_prop in H1 as [Hx Hy].
  constructor; [|exact (IH H2)]. unfold word256 in Hx, Hy. apply andb_prop in Hx as [X1 X2]. apply andb_prop in Hy as [Y1 Y2].
  split; apply rs_of_Z; (split; [apply Z.leb_le; assumption|apply Z.ltb_lt; assumption]).
Qed.
#[local] Opaque gen_prec_table gen_prec_table_w32.

Definition rgen (a : gen_ctx_w32) (b : gen_ctx) : Prop :=
  g_built_w32 a = g_built b /\ same (g_scalar_offset_w32 a) (g_scalar_offset b) /\ RG (g_ge_offset_w32 a) (g_ge_offset b) /\ RF (g_proj_blind_w32 a) (g_proj_blind b).
Lemma same_double_n k : forall a b, same a b -> same (double_n_w32 k a) (double_n k b).
Proof. induction k as [|k IH]; intros a b H; cbn [double_n_w32 double_n]; [exact H|]. apply IH, same_add; exact H. Qed.
Lemma same_diff : same gen_scalar_diff_w32 gen_scalar_diff.
Proof.
  unfold gen_scalar_diff_w32, gen_scalar_diff. cbv zeta. apply same_add; [apply same_double_n, same_one|apply same_negate, same_half, same_one].
Qed.
Lemma r_recode d d' : same d d' -> gen_recode_w32 d = gen_recode d'.
Proof.
  intros H. unfold gen_recode_w32, gen_recode. f_equal. apply map_ext_in. intros i Hi.
  apply same_get_bits_limb32; [exact H| | | | | ]; repeat destruct Hi as [<-|Hi]; try contradiction Hi; first [lia|reflexivity].
Qed.
Lemma r_lookup tab tab' abs : Forall2 rgs tab tab' -> forall index a b, rgs a b -> rgs (gen_lookup_w32 tab index abs a) (gen_lookup tab' index abs b).
Proof.
  induction 1 as [|e e' tab tab' He Ht IH]; intros index a b H; cbn [gen_lookup_w32 gen_lookup]; [exact H|]. apply IH. apply rgs_cmov; [exact H|exact He|apply b2z_01].
Qed.
Definition rst (a : gej_w32 * ge_storage_w32 * bool) (b : gej * ge_storage * bool) : Prop :=
  RJ (fst (fst a)) (fst (fst b)) /\ rgs (snd (fst a)) (snd (fst b)) /\ snd a = snd b.
Lemma land1_01 x : Z.land x 1 = 0 \/ Z.land x 1 = 1.
Proof. assert (E : Z.land x 1 = x mod 2) by exact (Z.land_ones x 1 ltac:(lia)). rewrite E. pose proof (Z.mod_pos_bound x 2 ltac:(lia)). lia. Qed.
Lemma r_blocks c c' recoded : RF (g_proj_blind_w32 c) (g_proj_blind c') -> forall tabs tabs', Forall2 (Forall2 rgs) tabs tabs' -> forall pos st st', rst st st' ->
  rst (gen_blocks_w32 c recoded tabs pos st) (gen_blocks c' recoded tabs' pos st').
Proof.
  intros Hc. induction 1 as [|t t' tabs tabs' Ht Hts IH]; intros pos [[r adds] first] [[r' adds'] first'] (A & B & E); cbn [gen_blocks_w32 gen_blocks]; [split; [exact A|split; [exact B|exact E]]|].
  cbn [fst snd] in A, B, E. subst first'. cbv zeta. apply IH.
  set (sign := Z.land (Z.shiftr _ 5) 1). set (ab := Z.land (Z.lxor _ _) 31).
  pose proof (r_lookup _ _ ab Ht 0 _ _ B) as L. pose proof (rgt_rge _ _ (rgt_from _ _ L)) as (X & Y & I').
  assert (S01 : sign = 0 \/ sign = 1) by apply land1_01.
  assert (AD : RG (mkge_w32 (gx_w32 (ge_from_storage_w32 (gen_lookup_w32 t 0 ab adds))) (f26_cmov (gy_w32 (ge_from_storage_w32 (gen_lookup_w32 t 0 ab adds))) (f26_negate (gy_w32 (ge_from_storage_w32 (gen_lookup_w32 t 0 ab adds))) 1) sign) (ginf_w32 (ge_from_storage_w32 (gen_lookup_w32 t 0 ab adds))))
                  (mkge (gx (ge_from_storage (gen_lookup t' 0 ab adds'))) (fe_cmov (gy (ge_from_storage (gen_lookup t' 0 ab adds'))) (fe_negate (gy (ge_from_storage (gen_lookup t' 0 ab adds'))) 1) sign) (ginf (ge_from_storage (gen_lookup t' 0 ab adds'))))).
  { apply rge_intro; [rgw| |exact I']. apply rf_cmov; [rgw|rgw|lia|exact S01]. }
  split; [|split; [exact L|reflexivity]]. cbn [fst snd]. destruct first.
  - apply (rj_weaken 1 1 1); [apply rj_rescale; [apply rj_set_ge; exact AD|exact Hc]|lia..].
  - apply rj_add_ge; [exact A|exact AD].
Qed.
Lemma r_outer c c' tabs tabs' recoded : RF (g_proj_blind_w32 c) (g_proj_blind c') -> Forall2 (Forall2 rgs) tabs tabs' -> forall k st st', rst st st' ->
  RJ (gen_outer_w32 k c tabs recoded st) (gen_outer k c' tabs' recoded st').
Proof.
  intros Hc Ht. induction k as [|k IH]; intros st st' H; cbn [gen_outer_w32 gen_outer].
  - pose proof (r_blocks c c' recoded Hc _ _ Ht (Z.of_nat 0) _ _ H) as (A & _ & _).
    destruct (gen_blocks_w32 _ _ _ _ _) as [[r adds] first], (gen_blocks _ _ _ _ _) as [[r' adds'] first']. exact A.
  - pose proof (r_blocks c c' recoded Hc _ _ Ht (Z.of_nat (S k)) _ _ H) as (A & B & E).
    destruct (gen_blocks_w32 _ _ _ _ _) as [[r adds] first], (gen_blocks _ _ _ _ _) as [[r' adds'] first']. cbn [fst snd] in A, B, E.
    apply IH. split; [|split; [exact B|exact E]]. cbn [fst snd]. apply (rj_weaken 3 4 1); [apply rj_double; exact A|lia..].
Qed.
Lemma rs_zero : rs (mks26 0 0 0 0 0 0 0 0) (mkfes 0 0 0 0).
Proof. split; [|split; [|reflexivity]]; repeat split; (discriminate || reflexivity). Qed.
Lemma r_ecmult_gen c c' gn gn' : rgen c c' -> same gn gn' -> RJ (ecmult_gen_w32 c gn) (ecmult_gen c' gn').
Proof.
  intros (_ & So & Go & Pb) Hg. unfold ecmult_gen_w32, ecmult_gen. cbv zeta.
  rewrite (r_recode _ _ (same_add _ _ _ _ So Hg)). apply rj_add_ge; [|exact Go].
  apply r_outer; [exact Pb|exact r_gen_table|]. split; [exact rj_inf4|]. split; [split; exact rs_zero|reflexivity].
Qed.

Lemma r_blind c c' seed : rgen c c' -> (forall s, seed = Some s -> byte_list s /\ length s = 32%nat) -> rgen (ecmult_gen_blind_w32 c seed) (ecmult_gen_blind c' seed).
Proof.
  intros Hc Hs. pose proof Hc as (Bu & So & Go & Pb). destruct seed as [s|]; unfold ecmult_gen_blind_w32, ecmult_gen_blind; cbv zeta.
  - destruct (Hs s eq_refl) as [Bs Ls]. clear Hs. rewrite (same_get_b32 _ _ So).
    set (seed := sc_get_b32 (g_scalar_offset c') ++ s).
    assert (B : byte_list seed).
    { unfold seed. rewrite sc_get_b32_ok by apply So. apply byte_list_app. split; [apply be_bytes_byte_list|exact Bs]. }
    assert (L : Z.of_nat (length seed) < 2 ^ 60) by (unfold seed; rewrite app_length, sc_get_b32_length, Ls; reflexivity).
    clearbody seed.
    destruct (rfc6979_generate (rfc6979_initialize seed) 32) as [r1 n1] eqn:E1. destruct (rfc6979_generate r1 32) as [r2 n2] eqn:E2.
    destruct (two_generates seed r1 n1 r2 n2 B L E1 E2) as [-> ->].
    destruct (RFC6979_bytes 0 seed B L) as [B1 L1]. destruct (RFC6979_bytes 1 seed B L) as [B2 L2].
    set (d1 := RFC6979 0 seed) in *. set (d2 := RFC6979 1 seed) in *. clearbody d1 d2.
    pose proof (rt_rf _ _ (rt_set_b32_mod d1 B1 L1)) as F. destruct (same_set_b32 d2 B2 L2) as [Sb _].
    rewrite (rf_nz 1 _ _ F) by lia. rewrite (same_zero_test _ _ Sb).
    assert (F' : RF (f26_cmov (f26_set_b32_mod d1) f26_one (b2z (fe_normalizes_to_zero (fe_set_b32_mod d1)))) (fe_cmov (fe_set_b32_mod d1) fe_one (b2z (fe_normalizes_to_zero (fe_set_b32_mod d1)))))
      by (apply rf_cmov; [exact F|apply rn_rf, rn_one|lia|apply b2z_01]).
    assert (S' : same (s8_cmov (fst (s8_set_b32 d2)) s8_one (b2z (sc_is_zero (fst (sc_set_b32 d2))))) (sc_cmov (fst (sc_set_b32 d2)) sc_one (b2z (sc_is_zero (fst (sc_set_b32 d2))))))
      by (apply same_cmov; [exact Sb|exact same_one|apply b2z_01]).
    cbn [g_built g_scalar_offset g_ge_offset g_proj_blind g_built_w32 g_scalar_offset_w32 g_ge_offset_w32 g_proj_blind_w32].
    split; [exact Bu|]. cbn [g_built g_scalar_offset g_ge_offset g_proj_blind g_built_w32 g_scalar_offset_w32 g_ge_offset_w32 g_proj_blind_w32].
    split; [apply same_add; [apply same_negate; exact S'|exact same_diff]|]. split; [|exact F'].
    apply (rge_weaken 1 1); [apply rg_set_gej|lia|lia]. apply r_ecmult_gen; [|exact S'].
    split; [exact Bu|]. split; [exact So|]. split; [exact Go|exact F'].
  - split; [exact Bu|]. cbn [g_scalar_offset g_ge_offset g_proj_blind g_scalar_offset_w32 g_ge_offset_w32 g_proj_blind_w32].
    split; [apply same_add; [exact same_one|exact same_diff]|]. split; [|apply rn_rf, rn_one].
    apply (rge_weaken 1 2); [apply rg_neg, (rge_weaken 1 1); [exact rg_const_g|lia..]|lia|lia].
Qed.
Lemma r_build c c' : rgen (gen_context_build_w32 c) (gen_context_build c').
Proof.
  unfold gen_context_build_w32, gen_context_build, ecmult_gen_blind_w32, ecmult_gen_blind. cbv zeta.
  split; [reflexivity|]. cbn [g_scalar_offset g_ge_offset g_proj_blind g_scalar_offset_w32 g_ge_offset_w32 g_proj_blind_w32].
  split; [apply same_add; [exact same_one|exact same_diff]|]. split; [|apply rn_rf, rn_one].
  apply (rge_weaken 1 2); [apply rg_neg, (rge_weaken 1 1); [exact rg_const_g|lia..]|lia|lia].
Qed.
Lemma rf_zero : rn (f26_set_int 0) (mkfe 0 0 0 0 0).
Proof. exact (rn_set_int 0 ltac:(lia)). Qed.
Lemma r_clear c c' : rgen (gen_context_clear_w32 c) (gen_context_clear c').
Proof.
  split; [reflexivity|]. split; [exact same_zero|]. split; [|apply rn_rf, rf_zero].
  apply rge_intro; [apply (rf_weaken 1); [apply rn_rf, rf_zero|lia]|apply (rf_weaken 1); [apply rn_rf, rf_zero|lia]|reflexivity].
Qed.
