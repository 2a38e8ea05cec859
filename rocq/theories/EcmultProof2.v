(** secp256k1_ecmult_strauss_wnaf and secp256k1_ecmult compute the linear combination. *)
Require Import ZArith List Bool Lia.
From Verif Require Import Word Bytes Spec ZmField Curve FieldModel FieldMul FieldProof FieldProof2 FieldBytes FieldOps ScalarModel ScalarProof ScalarProof2 ScalarSplit
  GroupModel GroupProof GroupProof2 GroupProof3 GroupProof4 GroupProof5 Endo HashModel EcmultModel WnafProof NumTheory Primes EcmultProof.
Import ListNotations.
Local Open Scope Z_scope.

Lemma zlink_rebase l : forall u Ps v a zr z u1, zlink u (l ++ [(a, zr)]) Ps v -> (u1 * fv z = v)%F -> fe_mag 8 z ->
  zlink u (l ++ [(a, fe_mul zr z)]) Ps u1.
Proof.
  induction l as [|[b w] l IH]; intros u Ps v a zr z u1 H E M; cbn [app] in *.
  - inversion H as [|? u' ? ? ? ? P Ps' R E' M' H']; subst. inversion H'; subst.
    pose proof (fx_mul _ _ _ _ _ _ (fx_of _ _ M') (fx_of _ _ M) eq_refl) as Hm.
    econstructor; [exact R| |mw Hm|constructor]. rewrite (fx_fv _ _ _ Hm). ring.
  - inversion H as [|? u' ? ? ? ? P Ps' R E' M' H']; subst. econstructor; [exact R|reflexivity|exact M'|]. eapply IH; [exact H'|reflexivity|exact M].
Qed.

(** The recoded digits of one half scalar. *)
Definition wb_ok (w : Z) (l : list Z) (b v : Z) : Prop :=
  weval l = v /\ Forall (digit_ok w) l /\ 0 <= b /\ forall j, b <= Z.of_nat j -> nth j l 0 = 0.

Lemma wb_ok_wnaf a w v : sc_ok a -> 2 <= w <= 31 -> sgn_val a = v -> - 2 ^ 128 < v < 2 ^ 128 ->
  wb_ok w (fst (ecmult_wnaf 129 a w)) (snd (ecmult_wnaf 129 a w)) v.
Proof.
  intros Ha Hw E B. destruct (ecmult_wnaf 129 a w) as [l b] eqn:EW. cbn [fst snd].
  destruct (ecmult_wnaf_ok 129 a w l b Ha Hw ltac:(lia) ltac:(lia)) as (L & V & D & Bb & Zr); [|exact EW|].
  - rewrite E. change (2 ^ (Z.of_nat 129 - 1)) with (2 ^ 128). lia.
  - split; [congruence|]. split; [exact D|]. split; [lia|exact Zr].
Qed.

Lemma sgn_val_small a k : sc_ok a -> sv a = k mod n -> - 2 ^ 128 < k < 2 ^ 128 -> sgn_val a = k.
Proof.
  intros Ha E B. unfold sgn_val. pose proof n_big as NB. pose proof (sc_ok_range _ Ha) as R.
  destruct (Z_lt_le_dec k 0) as [L | G0].
  - assert (Em : k mod n = k + n) by (symmetry; apply Z.mod_unique with (-1); lia).
    rewrite E, Em. assert (n > 2 ^ 255 + 2 ^ 128) by reflexivity. destruct (Z.ltb_spec (k + n) (2 ^ 255)); lia.
  - rewrite Z.mod_small in E by lia. rewrite E. destruct (Z.ltb_spec k (2 ^ 255)); lia.
Qed.

Definition sps_ok (s : strauss_ps) (kv : Z * Z) : Prop :=
  fst kv mod n <> 0 /\ exists v1 vl, wb_ok window_a (w_na_1 s) (b_na_1 s) v1 /\ wb_ok window_a (w_na_lam s) (b_na_lam s) vl /\
   (v1 + lambda * vl) mod n = snd kv mod n.

Definition odds8 (kv : Z * Z) : list point := odd_from (fst kv) (fst kv) 8.
Definition lin (l : list (Z * Z)) : Z := fold_right (fun kv acc => snd kv * fst kv + acc) 0 l.
Lemma lin_app a b : lin (a ++ b) = lin a + lin b.
Proof. induction a; cbn [app lin fold_right]; [reflexivity|]. fold (lin (a0 ++ b)). fold (lin a0). rewrite IHa. ring. Qed.

Definition prep_inv (ps : list strauss_ps) (tab : list (ge * fe)) (Zv : fe) (qv : list (Z * Z)) : Prop :=
  Forall2 sps_ok ps qv /\ fe_mag 1 Zv /\ fv Zv <> f0 /\ (ps = [] -> Zv = fe_set_int 1) /\ exists u0, zlink (fv Zv) (rev tab) (rev (flat_map odds8 qv)) u0.

Lemma table_size_a : table_size window_a = 8%nat. Proof. reflexivity. Qed.

Lemma strauss_prep_ok l : forall kvs ps tab Zv qv, Forall2 (fun an kv => gej_rep f1 (fst an) (K (fst kv)) /\ sc_ok (snd an) /\ sv (snd an) = snd kv) l kvs ->
  prep_inv ps tab Zv qv ->
  exists ps' tab' Zv' qv', strauss_prep l ps tab Zv = (ps', tab', Zv') /\ prep_inv ps' tab' Zv' qv' /\ lin qv' mod n = (lin qv + lin kvs) mod n.
Proof.
  induction l as [|[a na] l IH]; intros kvs ps tab Zv qv HF HI; inversion HF as [|? [k v] ? kvs' (Ra & Hna & Ev) HF']; subst; cbn [strauss_prep fst snd] in *.
  - exists ps, tab, Zv, qv. split; [reflexivity|]. split; [exact HI|]. cbn [lin fold_right]. now rewrite Z.add_0_r.
  - cbn [lin fold_right fst snd]. fold (lin kvs').
    destruct (sc_is_zero na || gej_is_infinity a) eqn:Esk.
    + destruct (IH kvs' ps tab Zv qv HF' HI) as (ps' & tab' & Zv' & qv' & E & I & L). exists ps', tab', Zv', qv'. split; [exact E|]. split; [exact I|].
      rewrite L. assert (Z0 : (v * k) mod n = 0).
      { apply orb_true_iff in Esk as [Ez | Ei].
        - rewrite sc_is_zero_spec in Ez by apply Hna. apply Z.eqb_eq in Ez. rewrite <- Ev, Ez. reflexivity.
        - apply (gej_rep_inf _ _ _ Ra) in Ei. apply pmul_G_Inf in Ei. rewrite Z.mul_mod, Ei, Z.mul_0_r by (clear; intros E; discriminate E). reflexivity. }
      assert (Nn : n <> 0) by (clear; intros E0; discriminate E0).
      replace (lin qv + (v * k + lin kvs')) with (v * k + (lin qv + lin kvs')) by ring.
      rewrite (Z.add_mod (v * k)) by exact Nn. rewrite Z0, Z.add_0_l, Z.mod_mod by exact Nn. reflexivity.
    + apply orb_false_iff in Esk as [Ez Ei].
      assert (Nk : k mod n <> 0).
      { intros E0. apply pmul_G_Inf in E0. apply (proj2 (gej_rep_jinf _ _ _ Ra)) in E0. unfold gej_is_infinity in Ei. congruence. }
      pose proof (sc_split_lambda_ok na Hna) as SP. destruct (sc_split_lambda na) as [na_1 na_lam]. cbn [fst snd] in SP.
      destruct SP as (O1 & Ol & k1 & kl & B1 & Bl & E1 & El & Es & _).
      assert (W1 : wb_ok window_a (fst (ecmult_wnaf 129 na_1 window_a)) (snd (ecmult_wnaf 129 na_1 window_a)) k1).
      { apply wb_ok_wnaf; [exact O1|unfold window_a; lia| |lia]. apply sgn_val_small; [exact O1|exact E1|lia]. }
      assert (Wl : wb_ok window_a (fst (ecmult_wnaf 129 na_lam window_a)) (snd (ecmult_wnaf 129 na_lam window_a)) kl).
      { apply wb_ok_wnaf; [exact Ol|unfold window_a; lia| |lia]. apply sgn_val_small; [exact Ol|exact El|lia]. }
      destruct (ecmult_wnaf 129 na_1 window_a) as [w1 b1]. destruct (ecmult_wnaf 129 na_lam window_a) as [wl bl]. cbn [fst snd] in W1, Wl.
      destruct HI as (HP & MZ & NZ & HZ0 & u0 & ZL).
      assert (Vv : v mod n = v) by (apply Z.mod_small; rewrite <- Ev; apply sc_ok_range, Hna).
      assert (SO : sps_ok (mksps w1 b1 wl bl) (k, v)).
      { split; [exact Nk|]. exists k1, kl. split; [exact W1|]. split; [exact Wl|]. cbn [snd]. now rewrite Es, Ev, Vv. }
      set (first := match ps with [] => true | _ => false end).
      assert (Rt : gej_rep f1 (if first then a else gej_rescale a Zv) (K k)).
      { destruct first; [exact Ra|]. apply gej_rescale_ok; [exact Ra| |exact NZ]. clear - MZ. pose proof (fx_of _ _ MZ) as H. mw H. }
      pose proof (odd_multiples_table_ok f1 _ k (table_size window_a) f1_nz Rt Nk ltac:(rewrite table_size_a; lia)) as TB.
      destruct (odd_multiples_table (table_size window_a) (if first then a else gej_rescale a Zv)) as [t Zv1] eqn:ET.
      destruct TB as (ZT & MZ1 & NZ1 & Lt). rewrite table_size_a in ZT, Lt.
      assert (F1 : (fv Zv1 * 1 = fv Zv1)%F) by ring. rewrite F1 in ZT. clear F1.
      assert (GOAL : prep_inv (ps ++ [mksps w1 b1 wl bl]) (tab ++ (if first then t else mul_first_zr t (jz a))) Zv1 (qv ++ [(k, v)])).
      { split; [apply Forall2_app; [exact HP|constructor; [exact SO|constructor]]|]. split; [exact MZ1|]. split; [exact NZ1|].
        split; [intros E0; destruct ps; discriminate E0|].
        rewrite flat_map_app, !rev_app_distr. cbn [flat_map]. rewrite app_nil_r. unfold odds8 at 1. cbn [fst].
        destruct first eqn:EF.
        - assert (ps = []) by (unfold first in EF; destruct ps; [reflexivity|discriminate EF]). subst ps. inversion HP; subst. cbn [flat_map rev] in *.
          assert (tab = []).
          { apply zlink_len in ZL. rewrite rev_length in ZL. destruct tab; [reflexivity|discriminate ZL]. }
          subst tab. cbn [rev]. rewrite !app_nil_r. eexists. exact ZT.
        - exists u0. eapply zlink_app; [|exact ZL].
          destruct t as [|[g0 zr0] t']; [discriminate Lt|]. cbn [mul_first_zr rev] in *.
          destruct (gej_rep_mags _ _ _ Ra) as (_ & _ & Mza & _).
          eapply zlink_rebase; [exact ZT| |mw Mza].
          unfold gej_rescale. cbn [jz]. rewrite (fx_fv _ _ _ (fx_mul _ _ _ _ _ _ Mza (fx_of _ _ MZ) eq_refl)). ring. }
      destruct (IH kvs' _ _ _ _ HF' GOAL) as (ps' & tab' & Zv' & qv' & E & I & L).
      exists ps', tab', Zv', qv'. split; [exact E|]. split; [exact I|]. rewrite L, lin_app. cbn [lin fold_right fst snd]. f_equal. ring.
Qed.

(** ** The main loop *)
Lemma nth_skipn_gen {A} (d : A) i : forall l j, nth j (skipn i l) d = nth (i + j) l d.
Proof. induction i as [|i IH]; intros [|x l] j; cbn [skipn Nat.add nth]; try reflexivity; [destruct j; reflexivity|apply IH]. Qed.
Lemma weval_zero_tail l i : (forall j, (i <= j)%nat -> nth j l 0 = 0) -> weval (skipn i l) = 0.
Proof.
  intros H. assert (G0 : forall m, (forall j, nth j m 0 = 0) -> weval m = 0).
  { induction m as [|x m IH]; intros Hm; [reflexivity|]. cbn [weval]. rewrite IH; [|intros j; exact (Hm (S j))]. specialize (Hm 0%nat). cbn in Hm. lia. }
  apply G0. intros j. rewrite nth_skipn_gen. apply H. lia.
Qed.

Lemma wb_digit w l b v i : wb_ok w l b v -> digit_ok w (nth i l 0).
Proof.
  intros (_ & D & _). destruct (Nat.lt_ge_cases i (length l)) as [L | L]; [|left; now apply nth_overflow].
  rewrite Forall_forall in D. apply D. now apply nth_In.
Qed.

(** What the points contribute at digit position i, and from position i up. *)
Definition at_i (i : nat) (s : strauss_ps) : Z := nth i (w_na_1 s) 0 + lambda * nth i (w_na_lam s) 0.
Definition from_i (i : nat) (s : strauss_ps) : Z := weval (skipn i (w_na_1 s)) + lambda * weval (skipn i (w_na_lam s)).
Fixpoint comb (f : strauss_ps -> Z) (ps : list strauss_ps) (qv : list (Z * Z)) : Z :=
  match ps, qv with s :: ps', kv :: qv' => f s * fst kv + comb f ps' qv' | _, _ => 0 end.
Lemma comb_step i ps : forall qv, comb (from_i i) ps qv = comb (at_i i) ps qv + 2 * comb (from_i (S i)) ps qv.
Proof.
  induction ps as [|s ps IH]; intros [|kv qv]; cbn [comb]; try reflexivity. rewrite IH. unfold from_i, at_i.
  rewrite (weval_step (w_na_1 s)), (weval_step (w_na_lam s)). ring.
Qed.

Lemma cond_add t (r : gej) c (b m : Z) (i : nat) (r' : gej) k : gej_rep t r (K c) -> (b <= Z.of_nat i -> m = 0) ->
  (m <> 0 -> gej_rep t r' (K (c + m * k))) ->
  gej_rep t (if (Z.of_nat i <? b) && negb (m =? 0) then r' else r) (K (c + m * k)).
Proof.
  intros R Hb H. destruct (Z.eqb_spec m 0) as [-> | N].
  - rewrite andb_false_r. replace (c + 0 * k) with c by ring. exact R.
  - destruct (Z.ltb_spec (Z.of_nat i) b) as [L | L]; cbn [andb negb]; [now apply H|]. now rewrite Hb in N.
Qed.

Lemma strauss_points_ok t i ps : t <> f0 -> forall qv pre_a r c, Forall2 sps_ok ps qv ->
  Forall2 (ge_rep t) pre_a (flat_map odds8 qv) -> Forall (fun g => fe_mag 1 (gy g)) pre_a -> gej_rep t r (K c) ->
  gej_rep t (strauss_points (Z.of_nat i) ps pre_a (lam_xs pre_a) r) (K (c + comb (at_i i) ps qv)).
Proof.
  intros Ht. induction ps as [|s ps IH]; intros qv pre_a r c HP HT HM R; inversion HP as [|? kv ? qv' (Nk & v1 & vl & W1 & Wl & _) HP']; subst; cbn [strauss_points comb].
  - now rewrite Z.add_0_r.
  - cbn [flat_map] in HT. rewrite Nat2Z.id.
    assert (TB : tab_ok t (fst kv) (table_size window_a) pre_a) by (eapply tab_ok_intro; [exact HT|exact HM]).
    assert (Lp : (table_size window_a <= length pre_a)%nat).
    { apply Forall2_len in HT. rewrite HT, app_length. unfold odds8, odd_from. rewrite map_length, seq_length, table_size_a. lia. }
    assert (HS : Forall2 (ge_rep t) (skipn (table_size window_a) pre_a) (flat_map odds8 qv')).
    { apply Forall2_app_inv_r in HT as (l1 & l2 & H1 & H2 & ->). apply Forall2_len in H1. unfold odds8, odd_from in H1. rewrite map_length, seq_length in H1.
      rewrite table_size_a, <- H1, skipn_app, skipn_all, Nat.sub_diag. exact H2. }
    assert (HSM : Forall (fun g => fe_mag 1 (gy g)) (skipn (table_size window_a) pre_a)).
    { rewrite <- (firstn_skipn (table_size window_a) pre_a) in HM. now apply Forall_app in HM. }
    assert (EL : skipn (table_size window_a) (lam_xs pre_a) = lam_xs (skipn (table_size window_a) pre_a)) by (unfold lam_xs; now rewrite skipn_map).
    rewrite EL.
    set (m1 := nth i (w_na_1 s) 0). set (ml := nth i (w_na_lam s) 0).
    assert (R1 : gej_rep t (if (Z.of_nat i <? b_na_1 s) && negb (m1 =? 0) then gej_add_ge_var r (table_get_ge pre_a m1) else r) (K (c + m1 * fst kv))).
    { apply cond_add; [exact R|apply W1|]. intros Nm. rewrite <- K_add.
      apply (gej_add_ge_var_ok t r _ _ _ Ht R). apply (table_get_ge_ok t (fst kv) window_a); [unfold window_a; lia|exact TB|apply (wb_digit _ _ _ _ _ W1)|exact Nm]. }
    set (r1 := if (Z.of_nat i <? b_na_1 s) && negb (m1 =? 0) then gej_add_ge_var r (table_get_ge pre_a m1) else r) in *. clearbody r1.
    assert (R2 : gej_rep t (if (Z.of_nat i <? b_na_lam s) && negb (ml =? 0) then gej_add_ge_var r1 (table_get_ge_lambda pre_a (lam_xs pre_a) ml) else r1)
       (K (c + m1 * fst kv + ml * (lambda * fst kv)))).
    { apply cond_add; [exact R1|apply Wl|]. intros Nm. rewrite <- K_add.
      apply (gej_add_ge_var_ok t r1 _ _ _ Ht R1).
      apply (table_get_ge_lambda_ok t (fst kv) window_a); [unfold window_a; lia| |exact Nk|exact Lp|exact TB|apply (wb_digit _ _ _ _ _ Wl)|exact Nm].
      rewrite table_size_a. apply Z.lt_trans with (2 ^ 255); [reflexivity|apply n_big]. }
    pose proof (IH qv' _ _ _ HP' HS HSM R2) as R3.
    assert (EE : c + (at_i i s * fst kv + comb (at_i i) ps qv') = c + m1 * fst kv + ml * (lambda * fst kv) + comb (at_i i) ps qv').
    { unfold at_i. fold m1. fold ml. ring. }
    rewrite EE. exact R3.
Qed.

Lemma strauss_gen_ok t Zv i w wb v pre k r c : t <> f0 -> 2 <= w -> wb_ok w (fst wb) (snd wb) v -> stab_ok k (table_size w) pre -> fe_mag 1 Zv -> fv Zv = t ->
  gej_rep t r (K c) -> gej_rep t (strauss_gen (Z.of_nat i) wb pre Zv r) (K (c + nth i (fst wb) 0 * k)).
Proof.
  intros Ht Hw W T MZ EZ R. unfold strauss_gen. rewrite Nat2Z.id.
  apply cond_add; [exact R|apply W|]. intros Nm. rewrite <- K_add.
  apply (gej_add_zinv_var_ok t f1); [exact Ht|rewrite EZ; ring|pose proof (fx_of _ _ MZ) as H; mw H|exact R|].
  apply (table_get_ge_storage_ok k w); [exact Hw|exact T|apply (wb_digit _ _ _ _ _ W)|exact Nm].
Qed.

Lemma strauss_loop_ok t ps qv pre_a g1 g128 v1 v128 Zv i : t <> f0 -> Forall2 sps_ok ps qv ->
  Forall2 (ge_rep t) pre_a (flat_map odds8 qv) -> Forall (fun g => fe_mag 1 (gy g)) pre_a ->
  wb_ok window_g (fst g1) (snd g1) v1 -> wb_ok window_g (fst g128) (snd g128) v128 -> fe_mag 1 Zv -> fv Zv = t ->
  forall r, gej_rep t r (K (comb (from_i i) ps qv + weval (skipn i (fst g1)) + weval (skipn i (fst g128)) * 2 ^ 128)) ->
  gej_rep t (strauss_loop i ps pre_a (lam_xs pre_a) g1 g128 Zv r) (K (comb (from_i 0) ps qv + v1 + v128 * 2 ^ 128)).
Proof.
  intros Ht HP HT HM W1 W128 MZ EZ. induction i as [|i IH]; intros r R; cbn [strauss_loop].
  - cbn [skipn] in R. destruct W1 as (E1 & _), W128 as (E2 & _). rewrite E1, E2 in R. exact R.
  - apply IH.
    destruct (gej_double_var_ok t r _ Ht R) as [R1 _]. fold (gej_double_var r) in R1. rewrite K_dbl in R1.
    pose proof (strauss_points_ok t i ps Ht qv pre_a _ _ HP HT HM R1) as R2.
    pose proof (strauss_gen_ok t Zv i window_g g1 v1 pre_g 1 _ _ Ht ltac:(unfold window_g; lia) W1 pre_g_ok MZ EZ R2) as R3.
    pose proof (strauss_gen_ok t Zv i window_g g128 v128 pre_g_128 (2 ^ 128) _ _ Ht ltac:(unfold window_g; lia) W128 pre_g_128_ok MZ EZ R3) as R4.
    match goal with R4 : gej_rep _ _ (K ?x) |- gej_rep _ _ (K ?y) => assert (EE : y = x) end.
    { rewrite (comb_step i), (weval_step (fst g1)), (weval_step (fst g128)). ring. }
    rewrite EE. exact R4.
Qed.

Lemma unframe t r P : t <> f0 -> gej_rep t r P -> forall z s, (fv z * s = t)%F -> fe_mag 1 z -> gej_rep s (mkgej (jx r) (jy r) (fe_mul (jz r) z) (jinf r)) P.
Proof.
  intros Ht R z s E M. destruct (gej_rep_mags _ _ _ R) as (Mx & My & Mz & OC).
  pose proof (fx_mul _ _ _ _ _ _ Mz (fx_of _ _ M) eq_refl) as Hm.
  split; [exact (fx_mag _ _ _ Mx)|]. split; [exact (fx_mag _ _ _ My)|]. split; [exact (fx_mag _ _ _ Hm)|]. split; [exact OC|].
  destruct R as (_ & _ & _ & _ & R). destruct P as [|x y]; cbn [jinf]; [exact R|]. destruct R as (F & Nz & R).
  cbv zeta in *. cbn [jx jy jz]. destruct R as [Ex Ey]. rewrite (fx_fv _ _ _ Hm).
  assert (Nzz : fv z <> f0). { intros E0. apply Ht. rewrite <- E, E0. ring. }
  split; [exact F|]. split; [now apply fmul_nz|].
  assert (EE : (fv (jz r) * fv z * s = fv (jz r) * t)%F) by (rewrite <- E; ring). rewrite EE. split; assumption.
Qed.

Lemma from_i_zero i s kv : sps_ok s kv -> b_na_1 s <= Z.of_nat i -> b_na_lam s <= Z.of_nat i -> from_i i s = 0.
Proof.
  intros (_ & v1 & vl & (_ & _ & _ & Z1) & (_ & _ & _ & Zl) & _) H1 Hl. unfold from_i.
  rewrite !weval_zero_tail; [ring| |]; intros j Hj; [apply Zl|apply Z1]; lia.
Qed.
Lemma strauss_bits_ge ps b : forall s, In s ps -> b_na_1 s <= fold_left (fun b s => Z.max (Z.max b (b_na_1 s)) (b_na_lam s)) ps b /\
   b_na_lam s <= fold_left (fun b s => Z.max (Z.max b (b_na_1 s)) (b_na_lam s)) ps b.
Proof.
  revert b. assert (MN : forall (ps : list strauss_ps) b, b <= fold_left (fun b s => Z.max (Z.max b (b_na_1 s)) (b_na_lam s)) ps b).
  { intros qs. induction qs as [|s ps' IH]; intros b; cbn [fold_left]; [lia|]. specialize (IH (Z.max (Z.max b (b_na_1 s)) (b_na_lam s))). lia. }
  induction ps as [|s0 ps IH]; intros b s Hin; [destruct Hin|]. cbn [fold_left]. destruct Hin as [-> | Hin]; [|now apply IH].
  specialize (MN ps (Z.max (Z.max b (b_na_1 s)) (b_na_lam s))). lia.
Qed.
Lemma comb_zero i ps : forall qv, Forall2 sps_ok ps qv -> (forall s, In s ps -> b_na_1 s <= Z.of_nat i /\ b_na_lam s <= Z.of_nat i) -> comb (from_i i) ps qv = 0.
Proof.
  induction ps as [|s ps IH]; intros qv HP H; inversion HP; subst; cbn [comb]; [reflexivity|].
  rewrite (from_i_zero i s y) by (try assumption; apply H; now left). rewrite IH; [ring|assumption|]. intros s' Hs. apply H. now right.
Qed.
Lemma comb_total ps : forall qv, Forall2 sps_ok ps qv -> comb (from_i 0) ps qv mod n = lin qv mod n.
Proof.
  assert (Nn : n <> 0) by (clear; intros E0; discriminate E0).
  induction ps as [|s ps IH]; intros qv HP; inversion HP as [|? kv ? qv' (Nk & v1 & vl & (E1 & _) & (El & _) & E) HP']; subst; cbn [comb lin fold_right]; [reflexivity|].
  fold (lin qv'). change (from_i 0 s) with (weval (w_na_1 s) + lambda * weval (w_na_lam s)).
  rewrite Z.add_mod, (IH _ HP'), Z.mul_mod, E, <- Z.mul_mod, <- Z.add_mod by exact Nn. reflexivity.
Qed.

Definition opt_sv (o : option sc) : Z := match o with Some k => sv k | None => 0 end.
Definition opt_ok (o : option sc) : Prop := match o with Some k => sc_ok k | None => True end.

Theorem ecmult_strauss_wnaf_ok l kvs ng : Forall2 (fun an kv => gej_rep f1 (fst an) (K (fst kv)) /\ sc_ok (snd an) /\ sv (snd an) = snd kv) l kvs ->
  opt_ok ng -> gej_rep f1 (ecmult_strauss_wnaf l ng) (K (lin kvs + opt_sv ng)).
Proof.
  intros HF Hng. unfold ecmult_strauss_wnaf.
  assert (I0 : prep_inv [] [] (fe_set_int 1) []).
  { split; [constructor|]. split; [exact (fx_mag _ _ _ fx_int1)|]. split; [rewrite (fx_fv _ _ _ fx_int1); exact f1_nz|]. split; [reflexivity|]. eexists. constructor. }
  destruct (strauss_prep_ok l kvs _ _ _ _ HF I0) as (ps & tab & Zv & qv & -> & (HP & MZ & NZ & _ & u0 & ZL) & L). cbn [lin fold_right] in L. fold (lin kvs) in L. rewrite Z.add_0_l in L.
  set (t := fv Zv) in *.
  assert (HT : Forall2 (ge_rep t) (ge_table_set_globalz tab) (flat_map odds8 qv) /\ Forall (fun g => fe_mag 1 (gy g)) (ge_table_set_globalz tab)).
  { destruct tab as [|e tab'].
    - cbn [rev] in ZL. pose proof (zlink_len _ _ _ _ ZL) as E0. rewrite rev_length in E0. destruct (flat_map odds8 qv); [split; constructor|discriminate E0].
    - assert (ZC : zchain t (rev (e :: tab')) (rev (flat_map odds8 qv))).
      { eapply zlink_zchain; [exact ZL|]. cbn [rev]. destruct (rev tab'); discriminate. }
      split; [now apply ge_table_set_globalz_ok|]. eapply globalz_mag1. exact ZC. }
  destruct HT as [HT HM]. set (pre_a := ge_table_set_globalz tab) in *. clearbody pre_a.
  change (map (fun g => fe_mul (gx g) const_beta) pre_a) with (lam_xs pre_a).
  assert (HG : exists g1 g128 v1 v128, match ng with
      | None => (([], 0), ([], 0))
      | Some k => let (k1, k128) := sc_split_128 k in (ecmult_wnaf 129 k1 window_g, ecmult_wnaf 129 k128 window_g)
      end = (g1, g128) /\ wb_ok window_g (fst g1) (snd g1) v1 /\ wb_ok window_g (fst g128) (snd g128) v128 /\ v1 + v128 * 2 ^ 128 = opt_sv ng).
  { destruct ng as [k|].
    - destruct (sc_split_128_ok k Hng) as (O1 & O2 & E1 & E2). destruct (sc_split_128 k) as [k1 k128]. cbn [fst snd] in *.
      pose proof (sc_ok_range _ Hng) as Rk. assert (Hn : n < 2 ^ 256) by reflexivity.
      assert (B1 : 0 <= sv k1 < 2 ^ 128) by (rewrite E1; apply Z.mod_pos_bound; lia).
      assert (B2 : 0 <= sv k128 < 2 ^ 128) by (rewrite E2; split; [apply Z.div_pos; lia|apply Z.div_lt_upper_bound; lia]).
      assert (G1 : forall q, sc_ok q -> 0 <= sv q < 2 ^ 128 -> sgn_val q = sv q) by (intros q _ Hq; unfold sgn_val; destruct (Z.ltb_spec (sv q) (2 ^ 255)); lia).
      exists (ecmult_wnaf 129 k1 window_g), (ecmult_wnaf 129 k128 window_g), (sv k1), (sv k128). split; [reflexivity|].
      split; [apply wb_ok_wnaf; [exact O1|unfold window_g; lia|now apply G1|lia]|].
      split; [apply wb_ok_wnaf; [exact O2|unfold window_g; lia|now apply G1|lia]|].
      cbn [opt_sv]. rewrite E1, E2. rewrite (Z.div_mod (sv k) (2 ^ 128)) at 3 by lia. ring.
    - exists ([], 0), ([], 0), 0, 0.
      assert (W0 : wb_ok window_g [] 0 0) by (split; [reflexivity|split; [constructor|split; [lia|intros [|j] _; reflexivity]]]).
      split; [reflexivity|]. split; [exact W0|]. split; [exact W0|reflexivity]. }
  destruct HG as (g1 & g128 & v1 & v128 & -> & W1 & W128 & EG).
  set (bits := Z.max (Z.max (strauss_bits ps) (snd g1)) (snd g128)).
  assert (B0 : 0 <= bits) by (destruct W1 as (_ & _ & B & _); lia).
  assert (R0 : gej_rep t gej_infinity (K (comb (from_i (Z.to_nat bits)) ps qv + weval (skipn (Z.to_nat bits) (fst g1)) + weval (skipn (Z.to_nat bits) (fst g128)) * 2 ^ 128))).
  { rewrite (comb_zero (Z.to_nat bits) ps qv HP).
    - rewrite !weval_zero_tail; [apply gej_infinity_rep| |].
      + intros j Hj. destruct W128 as (_ & _ & _ & Zr). apply Zr. lia.
      + intros j Hj. destruct W1 as (_ & _ & _ & Zr). apply Zr. lia.
    - intros s Hs. pose proof (strauss_bits_ge ps 0 s Hs) as HB. fold (strauss_bits ps) in HB. lia. }
  pose proof (strauss_loop_ok t ps qv pre_a g1 g128 v1 v128 Zv (Z.to_nat bits) NZ HP HT HM W1 W128 MZ eq_refl _ R0) as RF.
  set (r := strauss_loop _ _ _ _ _ _ _ _) in *. clearbody r.
  assert (EK : K (comb (from_i 0) ps qv + v1 + v128 * 2 ^ 128) = K (lin kvs + opt_sv ng)).
  { apply pmul_G_eq. rewrite <- EG. rewrite <- Z.add_assoc. assert (Nn : n <> 0) by (clear; intros E0; discriminate E0).
    rewrite Z.add_mod, (comb_total ps qv HP), L, <- Z.add_mod by exact Nn. reflexivity. }
  rewrite EK in RF. destruct (jinf r) eqn:Ej.
  - pose proof (gej_rep_inf _ _ _ RF Ej) as EI. rewrite EI in *. destruct RF as (M1 & M2 & M3 & OC & _). split; [exact M1|]. split; [exact M2|]. split; [exact M3|]. split; [exact OC|exact Ej].
  - rewrite <- Ej. eapply unframe; [exact NZ|exact RF| |exact MZ]. fold t. ring.
Qed.

Theorem ecmult_ok a na ng P : gej_rep f1 a P -> sc_ok na -> opt_ok ng ->
  gej_rep f1 (ecmult a na ng) (padd (pmul (sv na) P) (pmul (opt_sv ng) G)).
Proof.
  intros Ra Hna Hng. destruct (all_points_multiples_of_G P (gej_rep_oc _ _ _ Ra)) as (k & _ & ->).
  pose proof (ecmult_strauss_wnaf_ok [(a, na)] [(k, sv na)] ng) as H. unfold ecmult.
  rewrite K_mul, K_add. cbn [lin fold_right fst snd] in H. replace (sv na * k + opt_sv ng) with (sv na * k + 0 + opt_sv ng) by ring.
  apply H; [|exact Hng]. constructor; [|constructor]. cbn [fst snd]. auto.
Qed.
