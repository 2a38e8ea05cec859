(** secp256k1_ecmult for every window size, and its tables. *)
Require Import ZArith List Bool Lia.
From Verif Require Import Word Bytes Spec ZmField Curve FieldModel FieldMul FieldProof FieldProof2 FieldBytes FieldOps ScalarModel ScalarProof ScalarProof2 ScalarSplit
  GroupModel GroupProof GroupProof2 GroupProof3 GroupProof4 GroupProof5 Endo HashModel EcmultModel WnafProof NumTheory Primes EcmultProof EcmultProof2
  SpecRep RepProof RepProof2 WindowModel.
Import ListNotations.
Local Open Scope Z_scope.

Lemma win_loop_ok w pre pre128 t ps qv pre_a g1 g128 v1 v128 Zv i : 2 <= w -> stab_ok 1 (table_size w) pre -> stab_ok (2 ^ 128) (table_size w) pre128 -> t <> f0 -> Forall2 sps_ok ps qv ->
  Forall2 (ge_rep t) pre_a (flat_map odds8 qv) -> Forall (fun g => fe_mag 1 (gy g)) pre_a ->
  wb_ok w (fst g1) (snd g1) v1 -> wb_ok w (fst g128) (snd g128) v128 -> fe_mag 1 Zv -> fv Zv = t ->
  forall r, gej_rep t r (K (comb (from_i i) ps qv + weval (skipn i (fst g1)) + weval (skipn i (fst g128)) * 2 ^ 128)) ->
  gej_rep t (win_loop i pre pre128 ps pre_a (lam_xs pre_a) g1 g128 Zv r) (K (comb (from_i 0) ps qv + v1 + v128 * 2 ^ 128)).
Proof.
  intros HW T1 T2 Ht HP HT HM W1 W128 MZ EZ. induction i as [|i IH]; intros r R; cbn [win_loop].
  - cbn [skipn] in R. destruct W1 as (E1 & _), W128 as (E2 & _). rewrite E1, E2 in R. exact R.
  - apply IH.
    destruct (gej_double_var_ok t r _ Ht R) as [R1 _]. fold (gej_double_var r) in R1. rewrite K_dbl in R1.
    pose proof (strauss_points_ok t i ps Ht qv pre_a _ _ HP HT HM R1) as R2.
    pose proof (strauss_gen_ok t Zv i w g1 v1 pre 1 _ _ Ht HW W1 T1 MZ EZ R2) as R3.
    pose proof (strauss_gen_ok t Zv i w g128 v128 pre128 (2 ^ 128) _ _ Ht HW W128 T2 MZ EZ R3) as R4.
    match goal with R4 : gej_rep _ _ (K ?x) |- gej_rep _ _ (K ?y) => assert (EE : y = x) end.
    { rewrite (comb_step i), (weval_step (fst g1)), (weval_step (fst g128)). ring. }
    rewrite EE. exact R4.
Qed.

Theorem win_strauss_ok w pre pre128 l kvs ng : 2 <= w <= 24 -> stab_ok 1 (table_size w) pre -> stab_ok (2 ^ 128) (table_size w) pre128 ->
  Forall2 (fun an kv => gej_rep f1 (fst an) (K (fst kv)) /\ sc_ok (snd an) /\ sv (snd an) = snd kv) l kvs ->
  opt_ok ng -> gej_rep f1 (win_strauss w pre pre128 l ng) (K (lin kvs + opt_sv ng)).
Proof.
  intros HW T1 T2 HF Hng. unfold win_strauss.
  assert (I0 : prep_inv [] [] (fe_set_int 1) []).
  { split; [constructor|]. split; [exact (fx_mag _ _ _ fx_int1)|]. split; [rewrite (fx_fv _ _ _ fx_int1); exact f1_nz|]. split; [reflexivity|]. eexists. constructor. }
  destruct (strauss_prep_ok l kvs _ _ _ _ HF I0) as (ps & tab & Zv & qv & -> & (HP & MZ & NZ & _ & u0 & ZL) & L). cbn [lin fold_right] in L. fold (lin kvs) in L. rewrite Z.add_0_l in L.
  set (t := fv Zv) in *.
  assert (HT : Forall2 (ge_rep t) (ge_table_set_globalz tab) (flat_map odds8 qv) /\ Forall (fun g => fe_mag 1 (gy g)) (ge_table_set_globalz tab)).
  { destruct tab as [|e tab'].
    - cbn [rev] in ZL. pose proof (zlink_len _ _ _ _ ZL) as E0. rewrite rev_length in E0. destruct (flat_map odds8 qv); [split; constructor|discriminate E0].
    - assert (ZC : zchain t (rev (e :: tab')) (rev (flat_map odds8 qv))).
      { eapply zlink_zchain; [exact ZL|]. cbn [rev]. destruct (rev tab'); discriminate. }
      split; [now apply ge_table_set_globalz_ok|]. eapply globalz_mag1. exact ZC. }
  destruct HT as [HT HM]. set (pre_a := ge_table_set_globalz tab) in *. clearbody pre_a.
  change (map (fun g => fe_mul (gx g) const_beta) pre_a) with (lam_xs pre_a).
  assert (HG : exists g1 g128 v1 v128, match ng with
      | None => (([], 0), ([], 0))
      | Some k => let (k1, k128) := sc_split_128 k in (ecmult_wnaf 129 k1 w, ecmult_wnaf 129 k128 w)
      end = (g1, g128) /\ wb_ok w (fst g1) (snd g1) v1 /\ wb_ok w (fst g128) (snd g128) v128 /\ v1 + v128 * 2 ^ 128 = opt_sv ng).
  { destruct ng as [k|].
    - destruct (sc_split_128_ok k Hng) as (O1 & O2 & E1 & E2). destruct (sc_split_128 k) as [k1 k128]. cbn [fst snd] in *.
      pose proof (sc_ok_range _ Hng) as Rk. assert (Hn : n < 2 ^ 256) by reflexivity.
      assert (B1 : 0 <= sv k1 < 2 ^ 128) by (rewrite E1; apply Z.mod_pos_bound; lia).
      assert (B2 : 0 <= sv k128 < 2 ^ 128) by (rewrite E2; split; [apply Z.div_pos; lia|apply Z.div_lt_upper_bound; lia]).
      assert (G1 : forall q, sc_ok q -> 0 <= sv q < 2 ^ 128 -> sgn_val q = sv q) by (intros q _ Hq; unfold sgn_val; destruct (Z.ltb_spec (sv q) (2 ^ 255)); lia).
      exists (ecmult_wnaf 129 k1 w), (ecmult_wnaf 129 k128 w), (sv k1), (sv k128). split; [reflexivity|].
      split; [apply wb_ok_wnaf; [exact O1|lia|now apply G1|lia]|].
      split; [apply wb_ok_wnaf; [exact O2|lia|now apply G1|lia]|].
      cbn [opt_sv]. rewrite E1, E2. rewrite (Z.div_mod (sv k) (2 ^ 128)) at 3 by lia. ring.
    - exists ([], 0), ([], 0), 0, 0.
      assert (W0 : wb_ok w [] 0 0) by (split; [reflexivity|split; [constructor|split; [lia|intros [|j] _; reflexivity]]]).
      split; [reflexivity|]. split; [exact W0|]. split; [exact W0|reflexivity]. }
  destruct HG as (g1 & g128 & v1 & v128 & -> & W1 & W128 & EG).
  set (bits := Z.max (Z.max (strauss_bits ps) (snd g1)) (snd g128)).
  assert (B0 : 0 <= bits) by (destruct W1 as (_ & _ & B & _); lia).
  assert (R0 : gej_rep t gej_infinity (K (comb (from_i (Z.to_nat bits)) ps qv + weval (skipn (Z.to_nat bits) (fst g1)) + weval (skipn (Z.to_nat bits) (fst g128)) * 2 ^ 128))).
  { rewrite (comb_zero (Z.to_nat bits) ps qv HP).
    - rewrite !weval_zero_tail; [apply gej_infinity_rep| |].
      + intros j Hj. destruct W128 as (_ & _ & _ & Zr). apply Zr. lia.
      + intros j Hj. destruct W1 as (_ & _ & _ & Zr). apply Zr. lia.
    - intros s Hs. pose proof (strauss_bits_ge ps 0 s Hs) as HB. fold (strauss_bits ps) in HB. lia. }
  pose proof (win_loop_ok w pre pre128 t ps qv pre_a g1 g128 v1 v128 Zv (Z.to_nat bits) (proj1 HW) T1 T2 NZ HP HT HM W1 W128 MZ eq_refl _ R0) as RF.
  set (r := win_loop _ _ _ _ _ _ _ _ _ _) in *. clearbody r.
  assert (EK : K (comb (from_i 0) ps qv + v1 + v128 * 2 ^ 128) = K (lin kvs + opt_sv ng)).
  { apply pmul_G_eq. rewrite <- EG. rewrite <- Z.add_assoc. assert (Nn : n <> 0) by (clear; intros E0; discriminate E0).
    rewrite Z.add_mod, (comb_total ps qv HP), L, <- Z.add_mod by exact Nn. reflexivity. }
  rewrite EK in RF. destruct (jinf r) eqn:Ej.
  - pose proof (gej_rep_inf _ _ _ RF Ej) as EI. rewrite EI in *. destruct RF as (M1 & M2 & M3 & OC & _). split; [exact M1|]. split; [exact M2|]. split; [exact M3|]. split; [exact OC|exact Ej].
  - rewrite <- Ej. eapply unframe; [exact NZ|exact RF| |exact MZ]. fold t. ring.
Qed.

Theorem win_ecmult_ok w pre pre128 a na ng P : 2 <= w <= 24 -> stab_ok 1 (table_size w) pre -> stab_ok (2 ^ 128) (table_size w) pre128 -> gej_rep f1 a P -> sc_ok na -> opt_ok ng ->
  gej_rep f1 (win_ecmult w pre pre128 a na ng) (padd (pmul (sv na) P) (pmul (opt_sv ng) G)).
Proof.
  intros HW T1 T2 Ra Hna Hng. destruct (all_points_multiples_of_G P (gej_rep_oc _ _ _ Ra)) as (k & _ & ->).
  pose proof (win_strauss_ok w pre pre128 [(a, na)] [(k, sv na)] ng HW T1 T2) as H. unfold win_ecmult.
  rewrite K_mul, K_add. cbn [lin fold_right fst snd] in H. replace (sv na * k + opt_sv ng) with (sv na * k + 0 + opt_sv ng) by ring.
  apply H; [|exact Hng]. constructor; [|constructor]. cbn [fst snd]. auto.
Qed.

(** ** The tables *)
Lemma loop_prefix m : forall k g d, (m <= k)%nat -> firstn m (compute_table_loop k g d) = compute_table_loop m g d.
Proof. induction m as [|m IH]; intros [|k] g d H; try lia; [reflexivity|reflexivity|]. cbn [compute_table_loop firstn]. now rewrite IH by lia. Qed.
Lemma table_prefix m k gen : (1 <= m <= k)%nat -> firstn m (compute_table k gen) = compute_table m gen.
Proof.
  intros H. unfold compute_table. destruct m as [|m]; [lia|]. cbn [firstn]. rewrite loop_prefix by lia. now replace (S m - 1)%nat with m by lia.
Qed.
Lemma loop_length k : forall g d, length (compute_table_loop k g d) = k.
Proof. induction k as [|k IH]; intros; [reflexivity|]. cbn [compute_table_loop length]. now rewrite IH. Qed.
Lemma table_length k gen : (1 <= k)%nat -> length (compute_table k gen) = k.
Proof. intros H. unfold compute_table. cbn [length]. rewrite loop_length. lia. Qed.
Lemma size_Z w : 2 <= w -> Z.of_nat (table_size w) = 2 ^ (w - 2).
Proof. intros H. unfold table_size. apply Z2Nat.id. apply Z.pow_nonneg. lia. Qed.
Lemma size_mono v w : 2 <= v <= w -> (table_size v <= table_size w)%nat.
Proof. intros H. apply Nat2Z.inj_le. rewrite !size_Z by lia. apply Z.pow_le_mono_r; lia. Qed.
Lemma size_pos w : 2 <= w -> (1 <= table_size w)%nat.
Proof. intros H. apply Nat2Z.inj_le. rewrite size_Z by lia. change (Z.of_nat 1) with (2 ^ 0). apply Z.pow_le_mono_r; lia. Qed.
Lemma firstn_chunk {A} (l : list A) : forall a b, (a <= b)%nat -> firstn a l ++ firstn (b - a) (skipn a l) = firstn b l.
Proof.
  intros a b H. rewrite <- (firstn_skipn a l) at 3. rewrite firstn_app, firstn_firstn, Nat.min_r by exact H.
  destruct (Nat.le_gt_cases a (length l)) as [L | L].
  - rewrite firstn_length, Nat.min_l by exact L. reflexivity.
  - rewrite skipn_all2 by lia. now rewrite !firstn_nil.
Qed.
Lemma chunks_skip k : forall i j w t, w <= i - 1 -> print_chunks k i j w t = [].
Proof.
  induction k as [|k IH]; intros i j w t H; [reflexivity|]. cbn [print_chunks]. rewrite Z.gtb_ltb.
  destruct (Z.ltb_spec (i - 1) w); [lia|]. apply IH. lia.
Qed.
Lemma chunks_ok k : forall i w t, 3 <= i -> i - 1 <= w -> w <= i - 1 + Z.of_nat k ->
  firstn (table_size (i - 1)) t ++ print_chunks k i (table_size (i - 1)) w t = firstn (table_size w) t.
Proof.
  induction k as [|k IH]; intros i w t Hi Hl Hw.
  - replace w with (i - 1) by lia. cbn [print_chunks]. apply app_nil_r.
  - cbn [print_chunks]. rewrite Z.gtb_ltb. pose proof (size_mono (i - 1) i ltac:(lia)) as M. rewrite Nat.max_r by exact M. destruct (Z.ltb_spec (i - 1) w) as [L | L].
    + rewrite app_assoc, firstn_chunk by exact M. replace (table_size i) with (table_size (i + 1 - 1)) by (f_equal; lia). apply IH; lia.
    + rewrite chunks_skip by lia. cbn [app]. rewrite app_nil_r. now replace w with (i - 1) by lia.
Qed.
Lemma print_table_ok gw w t : 2 <= w <= gw -> print_table gw w t = firstn (table_size w) t.
Proof.
  intros H. unfold print_table. change 1%nat with (table_size (3 - 1)). apply chunks_ok; lia.
Qed.
Lemma precomputed_ok built w : 2 <= w -> w <= 15 \/ w <= built -> precomputed built w = compute_two_tables (table_size w) ge_const_g.
Proof.
  intros H1 H2. unfold precomputed, file_window, compute_two_tables. set (gw := if built <? 15 then 15 else built).
  assert (W : 2 <= w <= gw) by (unfold gw; destruct (Z.ltb_spec built 15); lia).
  rewrite !print_table_ok by exact W. pose proof (size_pos w H1). pose proof (size_mono w gw W).
  rewrite !table_prefix by lia. reflexivity.
Qed.
Lemma window_tables w : 2 <= w <= 24 -> stab_ok 1 (table_size w) (fst (compute_two_tables (table_size w) ge_const_g)) /\
  stab_ok (2 ^ 128) (table_size w) (snd (compute_two_tables (table_size w) ge_const_g)).
Proof.
  intros H. apply pre_g_gen. rewrite size_Z by lia. apply Z.le_lt_trans with (2 * 2 ^ 22); [|reflexivity].
  apply Z.mul_le_mono_nonneg_l; [lia|]. apply Z.pow_le_mono_r; lia.
Qed.

(** ** Reads stay in the tables *)
Lemma get_junk w pre junk d : 2 <= w -> length pre = table_size w -> digit_ok w d -> d <> 0 -> table_get_ge_storage (pre ++ junk) d = table_get_ge_storage pre d.
Proof.
  intros Hw L D N. destruct (digit_index w d _ Hw D N eq_refl) as (i & Hi & [(Hp & Ei & Ed) | (Hp & Ei & Ed)]); unfold table_get_ge_storage.
  - rewrite gtb_pos by exact Hp. rewrite Ei, Nat2Z.id. now rewrite app_nth1 by lia.
  - rewrite gtb_neg by exact Hp. rewrite Ei, Nat2Z.id. now rewrite app_nth1 by lia.
Qed.
Lemma gen_junk w pre junk i wb v Zv r : 2 <= w -> length pre = table_size w -> wb_ok w (fst wb) (snd wb) v ->
  strauss_gen i wb (pre ++ junk) Zv r = strauss_gen i wb pre Zv r.
Proof.
  intros Hw L W. unfold strauss_gen. destruct (i <? snd wb); [|reflexivity]. cbn [andb].
  destruct (Z.eqb_spec (nth (Z.to_nat i) (fst wb) 0) 0) as [E | E]; [reflexivity|]. cbn [negb].
  rewrite (get_junk w) by (try assumption; apply (wb_digit _ _ _ _ _ W)). reflexivity.
Qed.
Lemma loop_junk w pre pre128 j1 j2 ps pre_a aux g1 g128 v1 v128 Zv i : 2 <= w -> length pre = table_size w -> length pre128 = table_size w ->
  wb_ok w (fst g1) (snd g1) v1 -> wb_ok w (fst g128) (snd g128) v128 ->
  forall r, win_loop i (pre ++ j1) (pre128 ++ j2) ps pre_a aux g1 g128 Zv r = win_loop i pre pre128 ps pre_a aux g1 g128 Zv r.
Proof.
  intros Hw L1 L2 W1 W2. induction i as [|i IH]; intros r; [reflexivity|]. cbn [win_loop].
  rewrite (gen_junk w pre j1 _ _ v1) by assumption. rewrite (gen_junk w pre128 j2 _ _ v128) by assumption. apply IH.
Qed.
Lemma split_digits w ng : 2 <= w <= 24 -> opt_ok ng -> exists g1 g128 v1 v128, match ng with
      | None => (([], 0), ([], 0))
      | Some k => let (k1, k128) := sc_split_128 k in (ecmult_wnaf 129 k1 w, ecmult_wnaf 129 k128 w)
      end = (g1, g128) /\ wb_ok w (fst g1) (snd g1) v1 /\ wb_ok w (fst g128) (snd g128) v128 /\ v1 + v128 * 2 ^ 128 = opt_sv ng.
Proof.
  intros HW Hng.
  destruct ng as [k|].
    - destruct (sc_split_128_ok k Hng) as (O1 & O2 & E1 & E2). destruct (sc_split_128 k) as [k1 k128]. cbn [fst snd] in *.
      pose proof (sc_ok_range _ Hng) as Rk. assert (Hn : n < 2 ^ 256) by reflexivity.
      assert (B1 : 0 <= sv k1 < 2 ^ 128) by (rewrite E1; apply Z.mod_pos_bound; lia).
      assert (B2 : 0 <= sv k128 < 2 ^ 128) by (rewrite E2; split; [apply Z.div_pos; lia|apply Z.div_lt_upper_bound; lia]).
      assert (G1 : forall q, sc_ok q -> 0 <= sv q < 2 ^ 128 -> sgn_val q = sv q) by (intros q _ Hq; unfold sgn_val; destruct (Z.ltb_spec (sv q) (2 ^ 255)); lia).
      exists (ecmult_wnaf 129 k1 w), (ecmult_wnaf 129 k128 w), (sv k1), (sv k128). split; [reflexivity|].
      split; [apply wb_ok_wnaf; [exact O1|lia|now apply G1|lia]|].
      split; [apply wb_ok_wnaf; [exact O2|lia|now apply G1|lia]|].
      cbn [opt_sv]. rewrite E1, E2. rewrite (Z.div_mod (sv k) (2 ^ 128)) at 3 by lia. ring.
    - exists ([], 0), ([], 0), 0, 0.
      assert (W0 : wb_ok w [] 0 0) by (split; [reflexivity|split; [constructor|split; [lia|intros [|j] _; reflexivity]]]).
      split; [reflexivity|]. split; [exact W0|]. split; [exact W0|reflexivity].
Qed.
Lemma strauss_junk w pre pre128 j1 j2 l ng : 2 <= w <= 24 -> opt_ok ng -> length pre = table_size w -> length pre128 = table_size w ->
  win_strauss w (pre ++ j1) (pre128 ++ j2) l ng = win_strauss w pre pre128 l ng.
Proof.
  intros HW Hng L1 L2. unfold win_strauss. destruct (strauss_prep l [] [] (fe_set_int 1)) as [[ps tab] Zv].
  destruct (split_digits w ng HW Hng) as (g1 & g128 & v1 & v128 & -> & W1 & W128 & _).
  now rewrite (loop_junk w pre pre128 j1 j2 _ _ _ _ _ v1 v128) by (try assumption; lia).
Qed.

(** ** The default window *)
Lemma default_loop i ps pre_a aux g1 g128 Zv : forall r, win_loop i pre_g pre_g_128 ps pre_a aux g1 g128 Zv r = strauss_loop i ps pre_a aux g1 g128 Zv r.
Proof. induction i as [|i IH]; intros r; [reflexivity|]. cbn [win_loop strauss_loop]. apply IH. Qed.
Lemma default_strauss l ng : win_strauss 15 pre_g pre_g_128 l ng = ecmult_strauss_wnaf l ng.
Proof.
  unfold win_strauss, ecmult_strauss_wnaf. change window_g with 15. destruct (strauss_prep l [] [] (fe_set_int 1)) as [[ps tab] Zv].
  destruct (match ng with None => _ | Some k => _ end) as [g1 g128]. now rewrite default_loop.
Qed.
