(** Correctness of the field arithmetic model, continued: predicates, byte and
    storage conversions, linear operations, inverse and square root. *)
Require Import ZArith List Bool Lia Znumtheory.
From Verif Require Import Word Spec ZmField Curve FieldModel FieldMul FieldProof NumTheory Primes.
Import ListNotations.
Local Open Scope Z_scope.

Lemma fval_norm_range a : fe_norm a -> 0 <= fval a < p.
Proof.
  intros (H0 & H1 & H2 & H3 & H4 & H5). split; [|assumption]. unfold fval. clear H5. lia.
Qed.

Lemma fv_norm_zv a : fe_norm a -> zv (fv a) = fval a.
Proof. intros H. unfold fv. rewrite zv_toF. apply Z.mod_small. now apply fval_norm_range. Qed.

Lemma fe_normalize_norm r : fe_mag 32 r -> fe_norm (fe_normalize r).
Proof. intros H. now apply fe_normalize_ok. Qed.
Lemma fe_normalize_fv r : fe_mag 32 r -> fv (fe_normalize r) = fv r.
Proof. intros H. unfold fv. destruct (fe_normalize_ok r H) as [_ ->]. apply toF_mod. Qed.
Lemma fe_normalize_fval r : fe_mag 32 r -> fval (fe_normalize r) = zv (fv r).
Proof. intros H. unfold fv. destruct (fe_normalize_ok r H) as [_ ->]. symmetry. apply zv_toF. Qed.

(** Two normalized elements with the same value have the same limbs. *)
Lemma fe_norm_inj a b : fe_norm a -> fe_norm b -> fval a = fval b -> a = b.
Proof.
  destruct a as [a0 a1 a2 a3 a4], b as [b0 b1 b2 b3 b4].
  intros (H0 & H1 & H2 & H3 & H4 & _) (K0 & K1 & K2 & K3 & K4 & _). unfold fval. cbn [n0 n1 n2 n3 n4] in *. intros E.
  assert (a4 = b4) by (fconst; lia). subst b4. assert (a3 = b3) by (fconst; lia). subst b3.
  assert (a2 = b2) by (fconst; lia). subst b2. assert (a1 = b1) by (fconst; lia). subst b1.
  f_equal. lia.
Qed.
Lemma fe_norm_inj_fv a b : fe_norm a -> fe_norm b -> fv a = fv b -> a = b.
Proof.
  intros Ha Hb E. apply fe_norm_inj; try assumption. rewrite <- !fv_norm_zv by assumption. now f_equal.
Qed.

(** ** Zero tests *)
Lemma lor_0_iff a b : Z.lor a b = 0 <-> a = 0 /\ b = 0.
Proof. apply Z.lor_eq_0_iff. Qed.

Lemma lxor_eq_ones52 a c : 0 <= a <= M52 -> 0 <= c <= M52 -> (Z.lxor a c = M52 <-> a = M52 - c).
Proof.
  intros Ha Hc.
  assert (E : Z.lxor M52 c = M52 - c).
  { symmetry. unfold M52 in *. assert (L : Z.ldiff c (2 ^ 52 - 1) = 0).
    { apply Z.bits_inj'. intros i Hi. rewrite Z.ldiff_spec, Z.bits_0.
      replace (2 ^ 52 - 1) with (Z.ones 52) by reflexivity.
      destruct (Z_lt_le_dec i 52).
      - rewrite Z.ones_spec_low by lia. apply andb_false_r.
      - replace (Z.testbit c i) with false; [reflexivity|]. symmetry.
        destruct (Z.eq_dec c 0) as [->|]; [apply Z.bits_0|].
        apply Z.bits_above_log2; [lia|]. apply Z.log2_lt_pow2; [lia|].
        apply Z.lt_le_trans with (2 ^ 52); [lia|]. apply Z.pow_le_mono_r; lia. }
    rewrite Z.sub_nocarry_ldiff by assumption.
    apply Z.bits_inj'. intros i Hi. rewrite Z.ldiff_spec, Z.lxor_spec.
    apply (f_equal (fun z => Z.testbit z i)) in L. rewrite Z.ldiff_spec, Z.bits_0 in L.
    destruct (Z.testbit c i), (Z.testbit (2 ^ 52 - 1) i); try reflexivity; discriminate. }
  split.
  - intros H. rewrite <- E, <- H. rewrite Z.lxor_assoc, Z.lxor_nilpotent, Z.lxor_0_r. reflexivity.
  - intros ->. rewrite <- E. rewrite Z.lxor_assoc, Z.lxor_nilpotent, Z.lxor_0_r. reflexivity.
Qed.

(** The zero test on a value after the first pass. *)
Lemma zero_test t0 t1 t2 t3 t4 :
  0 <= t0 <= M52 -> 0 <= t1 <= M52 -> 0 <= t2 <= M52 -> 0 <= t3 <= M52 -> 0 <= t4 <= M48 + 100 ->
  ((Z.lor (Z.lor (Z.lor (Z.lor t0 t1) t2) t3) t4 =? 0) ||
   (Z.land (Z.land (Z.land (Z.land (Z.lxor t0 0x1000003D0) t1) t2) t3) (Z.lxor t4 0xF000000000000) =? M52))%bool
  = (tval t0 t1 t2 t3 t4 mod p =? 0).
Proof.
  intros H0 H1 H2 H3 H4.
  assert (X0 : 0 <= Z.lxor t0 0x1000003D0 <= M52).
  { split; [apply Z.lxor_nonneg; lia|].
    destruct (Z.eq_dec (Z.lxor t0 0x1000003D0) 0) as [->|N]; [discriminate|].
    assert (Z.lxor t0 0x1000003D0 < 2 ^ 52); [|unfold M52; lia].
    apply Z.log2_lt_cancel. change (Z.log2 (2 ^ 52)) with 52.
    eapply Z.le_lt_trans; [apply Z.log2_lxor; lia|].
    apply Z.max_lub_lt; [|reflexivity].
    destruct (Z.eq_dec t0 0) as [->|]; [reflexivity|]. apply Z.log2_lt_pow2; unfold M52 in *; lia. }
  assert (X4 : 0 <= Z.lxor t4 0xF000000000000 <= M52).
  { split; [apply Z.lxor_nonneg; lia|].
    destruct (Z.eq_dec (Z.lxor t4 0xF000000000000) 0) as [->|N]; [discriminate|].
    assert (Z.lxor t4 0xF000000000000 < 2 ^ 52); [|unfold M52; lia].
    apply Z.log2_lt_cancel. change (Z.log2 (2 ^ 52)) with 52.
    eapply Z.le_lt_trans; [apply Z.log2_lxor; lia|].
    apply Z.max_lub_lt; [|reflexivity].
    destruct (Z.eq_dec t4 0) as [->|]; [reflexivity|]. apply Z.log2_lt_pow2; [lia|]. clear -H4. fconst. lia. }
  destruct (land_ones52 _ t1 X0 H1) as [L1 L1'].
  destruct (land_ones52 _ t2 L1 H2) as [L2 L2'].
  destruct (land_ones52 _ t3 L2 H3) as [L3 L3'].
  destruct (land_ones52 _ _ L3 X4) as [L4 L4'].
  assert (E0 : Z.lxor t0 0x1000003D0 = M52 <-> t0 = P0).
  { rewrite lxor_eq_ones52 by (assumption || (split; discriminate)). change (M52 - 0x1000003D0) with P0. reflexivity. }
  assert (E4 : Z.lxor t4 0xF000000000000 = M52 <-> t4 = M48).
  { rewrite lxor_eq_ones52; [change (M52 - 0xF000000000000) with M48; reflexivity| |split; discriminate].
    clear -H4. fconst. lia. }
  set (z1 := Z.land _ (Z.lxor t4 _)) in *.
  assert (Z1 : z1 = M52 <-> tval t0 t1 t2 t3 t4 = p).
  { rewrite L4', L3', L2', L1', E0, E4. unfold tval. clear -H0 H1 H2 H3 H4.
    change p with (2 ^ 256 - 4294968273). fconst. split; [lia|]. intros K.
    assert (t4 = 281474976710655) by lia. subst t4. assert (t3 = 4503599627370495) by lia. subst t3.
    assert (t2 = 4503599627370495) by lia. subst t2. assert (t1 = 4503599627370495) by lia. subst t1. lia. }
  assert (Z0 : Z.lor (Z.lor (Z.lor (Z.lor t0 t1) t2) t3) t4 = 0 <-> tval t0 t1 t2 t3 t4 = 0).
  { rewrite !lor_0_iff. unfold tval. clear -H0 H1 H2 H3 H4. split; [lia|]. intros. lia. }
  assert (B : 0 <= tval t0 t1 t2 t3 t4 < 2 * p).
  { unfold tval. clear -H0 H1 H2 H3 H4. change p with (2 ^ 256 - 4294968273). fconst. lia. }
  clearbody z1. set (T := tval t0 t1 t2 t3 t4) in *. clearbody T.
  set (z0 := Z.lor _ t4) in *. clearbody z0. clear -Z1 Z0 B.
  assert (M : T mod p = 0 <-> T = 0 \/ T = p).
  { split.
    - intros K. apply Z.mod_divide in K; [|discriminate]. destruct K as [k K].
      assert (k = 0 \/ k = 1) as [-> | ->] by nia; lia.
    - intros [-> | ->]; [reflexivity|]. apply Z_mod_same_full. }
  destruct (Z.eqb_spec z0 0), (Z.eqb_spec z1 M52), (Z.eqb_spec (T mod p) 0); cbn [orb]; try reflexivity; exfalso; tauto.
Qed.

Lemma fv_zero_iff a : fv a = f0 <-> fval a mod p = 0.
Proof. apply toF_0_iff. Qed.

Lemma fe_nz_eq r : fe_mag 32 r -> fe_normalizes_to_zero r = (fval r mod p =? 0) /\ fe_normalizes_to_zero_var r = (fval r mod p =? 0).
Proof.
  intros Hr. destruct (first_pass r Hr) as (x & u4 & c0 & c1 & c2 & c3 & t0 & t1 & t2 & t3 & t4 &
    X1 & X2 & X3 & X4 & X5 & X6 & X7 & X8 & X9 & X10 & X11 & X12 & X13 & X14 & X15 & X16 & X17 & X18 & X19 & X20 & X21 &
    B0 & B1 & B2 & B3 & B4 & BX).
  assert (V : fval r mod p = tval t0 t1 t2 t3 t4 mod p).
  { replace (fval r) with (tval t0 t1 t2 t3 t4 + x * p).
    - apply Z_mod_plus_full.
    - unfold tval, fval. change p with (2 ^ 256 - 4294968273). clear -X3 X5 X9 X13 X17 X21. fconst. lia. }
  rewrite V. rewrite <- (zero_test t0 t1 t2 t3 t4 B0 B1 B2 B3 B4).
  unfold fe_normalizes_to_zero, fe_normalizes_to_zero_var.
  rewrite X1, X2, X4, X6, X7, X8, X10, X11, X12, X14, X15, X16, X18, X19, X20. split; [reflexivity|].
  destruct (negb (t0 =? 0) && negb (Z.lxor t0 0x1000003D0 =? M52)) eqn:C; [|reflexivity].
  apply andb_prop in C as [C1 C2]. rewrite negb_true_iff in C1, C2.
  symmetry. apply orb_false_iff. split.
  - apply Z.eqb_neq. rewrite !lor_0_iff. apply Z.eqb_neq in C1. tauto.
  - apply Z.eqb_neq. apply Z.eqb_neq in C2. intros K. apply C2.
    assert (XX : 0 <= Z.lxor t0 0x1000003D0) by (apply Z.lxor_nonneg; lia).
    assert (XM : Z.land (Z.lxor t0 0x1000003D0) M52 = M52).
    { assert (HB : forall a b, Z.land a b = M52 -> Z.land a M52 = M52).
      { intros a b E. apply Z.bits_inj'. intros i Hi. apply (f_equal (fun z => Z.testbit z i)) in E.
        rewrite Z.land_spec in *. destruct (Z.testbit M52 i), (Z.testbit a i); cbn in *; congruence. }
      rewrite <- !Z.land_assoc in K. exact (HB _ _ K). }
    rewrite <- XM. unfold M52. symmetry. rewrite land_ones_mod by lia. apply Z.mod_small.
    split; [assumption|].
    destruct (Z.eq_dec (Z.lxor t0 0x1000003D0) 0) as [->|N]; [reflexivity|].
    apply Z.log2_lt_cancel. change (Z.log2 (2 ^ 52)) with 52.
    eapply Z.le_lt_trans; [apply Z.log2_lxor; lia|].
    apply Z.max_lub_lt; [|reflexivity].
    destruct (Z.eq_dec t0 0) as [->|]; [reflexivity|]. apply Z.log2_lt_pow2; unfold M52 in *; lia.
Qed.

Lemma fe_normalizes_to_zero_spec r : fe_mag 32 r -> (fe_normalizes_to_zero r = true <-> fv r = f0).
Proof. intros H. rewrite fv_zero_iff. destruct (fe_nz_eq r H) as [-> _]. apply Z.eqb_eq. Qed.
Lemma fe_normalizes_to_zero_var_spec r : fe_mag 32 r -> (fe_normalizes_to_zero_var r = true <-> fv r = f0).
Proof. intros H. rewrite fv_zero_iff. destruct (fe_nz_eq r H) as [_ ->]. apply Z.eqb_eq. Qed.
Lemma fe_normalizes_to_zero_var_eq r : fe_mag 32 r -> fe_normalizes_to_zero_var r = fe_normalizes_to_zero r.
Proof. intros H. destruct (fe_nz_eq r H) as [-> ->]. reflexivity. Qed.

Lemma fe_is_zero_spec a : fe_norm a -> (fe_is_zero a = true <-> fv a = f0).
Proof.
  intros H. unfold fe_is_zero. rewrite Z.eqb_eq, !lor_0_iff, fv_zero_iff.
  pose proof (fval_norm_range a H) as R. rewrite Z.mod_small by assumption.
  destruct H as (H0 & H1 & H2 & H3 & H4 & _). unfold fval. clear R. lia.
Qed.

Lemma fe_is_odd_spec a : fe_norm a -> fe_is_odd a = Z.odd (fval a).
Proof.
  intros _. unfold fe_is_odd, fval. rewrite !Z.odd_add, !Z.odd_mul.
  change (Z.odd (2 ^ 52)) with false. change (Z.odd (2 ^ 104)) with false.
  change (Z.odd (2 ^ 156)) with false. change (Z.odd (2 ^ 208)) with false.
  rewrite !andb_false_r, !xorb_false_r.
  change 1 with (2 ^ 1 - 1). rewrite land_ones_mod by lia. change (2 ^ 1) with 2. rewrite Zmod_odd.
  destruct (Z.odd (n0 a)); reflexivity.
Qed.

Lemma fe_cmp_var_spec a b : fe_norm a -> fe_norm b ->
  fe_cmp_var a b = match fval a ?= fval b with Lt => -1 | Eq => 0 | Gt => 1 end.
Proof.
  intros (H0 & H1 & H2 & H3 & H4 & _) (K0 & K1 & K2 & K3 & K4 & _).
  unfold fe_cmp_var, limbs_cmp, fval.
  destruct a as [a0 a1 a2 a3 a4], b as [b0 b1 b2 b3 b4]. cbn [n0 n1 n2 n3 n4] in *.
  rewrite Z.gtb_ltb.
  destruct (Z.ltb_spec b4 a4).
  { destruct (Z.compare_spec (a0 + a1 * 2 ^ 52 + a2 * 2 ^ 104 + a3 * 2 ^ 156 + a4 * 2 ^ 208) (b0 + b1 * 2 ^ 52 + b2 * 2 ^ 104 + b3 * 2 ^ 156 + b4 * 2 ^ 208)); try reflexivity; exfalso; fconst; lia. }
  destruct (Z.ltb_spec a4 b4).
  { destruct (Z.compare_spec (a0 + a1 * 2 ^ 52 + a2 * 2 ^ 104 + a3 * 2 ^ 156 + a4 * 2 ^ 208) (b0 + b1 * 2 ^ 52 + b2 * 2 ^ 104 + b3 * 2 ^ 156 + b4 * 2 ^ 208)); try reflexivity; exfalso; fconst; lia. }
  assert (a4 = b4) by lia. subst b4. rewrite Z.gtb_ltb.
  destruct (Z.ltb_spec b3 a3).
  { destruct (Z.compare_spec (a0 + a1 * 2 ^ 52 + a2 * 2 ^ 104 + a3 * 2 ^ 156 + a4 * 2 ^ 208) (b0 + b1 * 2 ^ 52 + b2 * 2 ^ 104 + b3 * 2 ^ 156 + a4 * 2 ^ 208)); try reflexivity; exfalso; fconst; lia. }
  destruct (Z.ltb_spec a3 b3).
  { destruct (Z.compare_spec (a0 + a1 * 2 ^ 52 + a2 * 2 ^ 104 + a3 * 2 ^ 156 + a4 * 2 ^ 208) (b0 + b1 * 2 ^ 52 + b2 * 2 ^ 104 + b3 * 2 ^ 156 + a4 * 2 ^ 208)); try reflexivity; exfalso; fconst; lia. }
  assert (a3 = b3) by lia. subst b3. rewrite Z.gtb_ltb.
  destruct (Z.ltb_spec b2 a2).
  { destruct (Z.compare_spec (a0 + a1 * 2 ^ 52 + a2 * 2 ^ 104 + a3 * 2 ^ 156 + a4 * 2 ^ 208) (b0 + b1 * 2 ^ 52 + b2 * 2 ^ 104 + a3 * 2 ^ 156 + a4 * 2 ^ 208)); try reflexivity; exfalso; fconst; lia. }
  destruct (Z.ltb_spec a2 b2).
  { destruct (Z.compare_spec (a0 + a1 * 2 ^ 52 + a2 * 2 ^ 104 + a3 * 2 ^ 156 + a4 * 2 ^ 208) (b0 + b1 * 2 ^ 52 + b2 * 2 ^ 104 + a3 * 2 ^ 156 + a4 * 2 ^ 208)); try reflexivity; exfalso; fconst; lia. }
  assert (a2 = b2) by lia. subst b2. rewrite Z.gtb_ltb.
  destruct (Z.ltb_spec b1 a1).
  { destruct (Z.compare_spec (a0 + a1 * 2 ^ 52 + a2 * 2 ^ 104 + a3 * 2 ^ 156 + a4 * 2 ^ 208) (b0 + b1 * 2 ^ 52 + a2 * 2 ^ 104 + a3 * 2 ^ 156 + a4 * 2 ^ 208)); try reflexivity; exfalso; fconst; lia. }
  destruct (Z.ltb_spec a1 b1).
  { destruct (Z.compare_spec (a0 + a1 * 2 ^ 52 + a2 * 2 ^ 104 + a3 * 2 ^ 156 + a4 * 2 ^ 208) (b0 + b1 * 2 ^ 52 + a2 * 2 ^ 104 + a3 * 2 ^ 156 + a4 * 2 ^ 208)); try reflexivity; exfalso; fconst; lia. }
  assert (a1 = b1) by lia. subst b1. rewrite Z.gtb_ltb.
  destruct (Z.ltb_spec b0 a0).
  { destruct (Z.compare_spec (a0 + a1 * 2 ^ 52 + a2 * 2 ^ 104 + a3 * 2 ^ 156 + a4 * 2 ^ 208) (b0 + a1 * 2 ^ 52 + a2 * 2 ^ 104 + a3 * 2 ^ 156 + a4 * 2 ^ 208)); try reflexivity; exfalso; lia. }
  destruct (Z.ltb_spec a0 b0).
  { destruct (Z.compare_spec (a0 + a1 * 2 ^ 52 + a2 * 2 ^ 104 + a3 * 2 ^ 156 + a4 * 2 ^ 208) (b0 + a1 * 2 ^ 52 + a2 * 2 ^ 104 + a3 * 2 ^ 156 + a4 * 2 ^ 208)); try reflexivity; exfalso; lia. }
  assert (a0 = b0) by lia. subst b0. rewrite Z.compare_refl. reflexivity.
Qed.
