(** The program that computes the table of the generator multiplication is right for
    every configuration that compiles. *)
Require Import ZArith Znumtheory Zpow_facts List Bool Lia.
From Verif Require Import Word Bytes Spec ZmField Primes Curve FieldModel FieldMul FieldProof FieldProof2 FieldBytes FieldOps ScalarModel ScalarProof ScalarProof2 ScalarSplit
  GroupModel GroupProof GroupProof2 GroupProof3 GroupProof4 GroupProof5 SpecHash HashModel HashProof GenTable GenTableProof GenModel GenProof GenAnyModel GenAnyProof.
Import ListNotations.
Local Open Scope Z_scope.

Notation J k u := (gej_rep f1 u (pmul k HG)).
Lemma J_dbl k u : J k u -> J (2 * k) (gej_double_var u).
Proof.
  intros H. replace (2 * k) with (k + k) by ring. rewrite pmul_add by apply HG_on_curve. apply (gej_double_var_ok f1 u _ f1_nz H).
Qed.
Lemma J_add k m u v : J k u -> J m v -> J (k + m) (gej_add_var u v).
Proof. intros A B. rewrite pmul_add by apply HG_on_curve. now apply gej_add_var_ok; [apply f1_nz| |]. Qed.
Lemma J_inf : J 0 gej_infinity. Proof. change (pmul 0 HG) with Inf. apply gej_infinity_rep. Qed.
Lemma J_dbl_n k : forall m u, J m u -> J (2 ^ Z.of_nat k * m) (double_var_n k u).
Proof.
  induction k as [|k IH]; intros m u H; cbn [double_var_n]; [now rewrite Z.mul_1_l|].
  rewrite Nat2Z.inj_succ, Z.pow_succ_r by lia. replace (2 * 2 ^ Z.of_nat k * m) with (2 ^ Z.of_nat k * (2 * m)) by ring. apply IH, J_dbl, H.
Qed.

(** ** Half of the generator *)
Lemma half_ladder_ok h k : sc_ok h -> forall m u, (k <= 256)%nat -> gej_rep f1 u (pmul m G) ->
  gej_rep f1 (half_ladder k h ge_const_g u) (pmul (2 ^ Z.of_nat k * m + sv h mod 2 ^ Z.of_nat k) G).
Proof.
  intros Hh. induction k as [|k IH]; intros m u Hk H; cbn [half_ladder].
  - change (2 ^ Z.of_nat 0) with 1. rewrite Z.mod_1_r, Z.add_0_r, Z.mul_1_l. exact H.
  - rewrite sc_get_bits_limb32_ok; [|apply Hh|lia|lia|lia|f_equal; lia]. change (2 ^ 1) with 2.
    assert (D : gej_rep f1 (gej_double_var u) (pmul (2 * m) G)).
    { replace (2 * m) with (m + m) by ring. rewrite pmul_add by apply on_curve_G. apply (gej_double_var_ok f1 u _ f1_nz H). }
    set (bit := (sv h / 2 ^ Z.of_nat k) mod 2). assert (Hb : bit = 0 \/ bit = 1) by (pose proof (Z.mod_pos_bound (sv h / 2 ^ Z.of_nat k) 2 ltac:(lia)); unfold bit; lia).
    assert (K : gej_rep f1 (if negb (bit =? 0) then gej_add_ge_var (gej_double_var u) ge_const_g else gej_double_var u) (pmul (2 * m + bit) G)).
    { destruct Hb as [-> | ->]; cbn [Z.eqb negb]; [now rewrite Z.add_0_r|].
      rewrite pmul_add by apply on_curve_G. rewrite pmul_1. apply (gej_add_ge_var_ok f1 _ _ _ _ f1_nz D ge_const_g_ok). }
    specialize (IH _ _ ltac:(lia) K).
    replace (2 ^ Z.of_nat (S k) * m + sv h mod 2 ^ Z.of_nat (S k)) with (2 ^ Z.of_nat k * (2 * m + bit) + sv h mod 2 ^ Z.of_nat k); [exact IH|].
    rewrite Nat2Z.inj_succ, Z.pow_succ_r by lia. rewrite (Z.mul_comm 2 (2 ^ _)), Z.rem_mul_r by (try apply Z.pow_nonzero; lia). fold bit. ring.
Qed.
Lemma half_gen_ok : J 1 (half_ladder 256 (sc_half sc_one) ge_const_g gej_infinity).
Proof.
  destruct sc_one_ok as [O1 _]. destruct (sc_half_ok _ O1) as [H1 _].
  pose proof (half_ladder_ok (sc_half sc_one) 256 H1 0 gej_infinity (le_n _) ltac:(apply gej_infinity_rep)) as R.
  set (u := half_ladder _ _ _ _) in *. clearbody u. assert (B : 0 <= half_n < 2 ^ Z.of_nat 256) by (pose proof two_half; pose proof n_pos; assert (n < 2 ^ 256) by reflexivity; change (Z.of_nat 256) with 256; lia).
  rewrite half_sv, Z.mul_0_r, Z.add_0_l, Z.mod_small in R by exact B.
  rewrite HG_pmul, Z.mul_1_l. exact R.
Qed.

(** ** Signed sums *)
Lemma tsum_flip f g base s t k : (t < k)%nat -> f (Z.of_nat t) = false -> g (Z.of_nat t) = true ->
  (forall j, 0 <= j < Z.of_nat k -> j <> Z.of_nat t -> f j = g j) -> tsum g base s k = tsum f base s k + 2 * 2 ^ ((base + Z.of_nat t) * s).
Proof.
  intros Ht Hf Hg. induction k as [|k IH]; intros H; [lia|]. cbn [tsum]. destruct (Nat.eq_dec t k) as [->|N].
  - rewrite Hf, Hg. rewrite (tsum_ext f g) by (intros j Hj; apply H; lia). unfold pm. ring.
  - rewrite (H (Z.of_nat k)) by lia. rewrite IH; [ring|lia|]. intros j Hj Nj. apply H; lia.
Qed.
Lemma pow2_plus_bits i t j : 0 <= t -> 0 <= i < 2 ^ t -> 0 <= j ->
  Z.testbit (2 ^ t + i) j = if j =? t then true else if j <? t then Z.testbit i j else false.
Proof.
  intros Ht Hi Hj. destruct (Z.eqb_spec j t) as [->|N].
  - rewrite Z.testbit_true by lia. replace (2 ^ t + i) with (i + 1 * 2 ^ t) by ring. rewrite Z.div_add, Z.div_small by lia. reflexivity.
  - destruct (Z.ltb_spec j t).
    + rewrite <- (Z.mod_pow2_bits_low (2 ^ t + i) t j) by lia. replace (2 ^ t + i) with (i + 1 * 2 ^ t) by ring. rewrite Z.mod_add, Z.mod_small by lia. reflexivity.
    + apply Z.bits_above_log2; [lia|]. apply Z.log2_lt_pow2; [lia|].
      apply Z.lt_le_trans with (2 ^ (t + 1)); [rewrite Z.pow_add_r by lia; change (2 ^ 1) with 2; lia|apply Z.pow_le_mono_r; lia].
Qed.
Lemma any_coef_flip g b t i : (t < teeth g)%nat -> 0 <= i < 2 ^ Z.of_nat t ->
  any_coef g b (2 ^ Z.of_nat t + i) = any_coef g b i + 2 * 2 ^ ((Z.of_nat (teeth g) * b + Z.of_nat t) * Z.of_nat (spacing g)).
Proof.
  intros Ht Hi. assert (A : forall j, Z.of_nat t <= j -> Z.testbit i j = false).
  { intros j Hj. destruct (Z.eq_dec i 0) as [->|N]; [apply Z.testbit_0_l|]. apply Z.bits_above_log2; [lia|]. apply Z.log2_lt_pow2; [lia|].
    apply Z.lt_le_trans with (2 ^ Z.of_nat t); [lia|apply Z.pow_le_mono_r; lia]. }
  unfold any_coef. apply (tsum_flip (Z.testbit i) (Z.testbit (2 ^ Z.of_nat t + i))); [exact Ht|apply A; lia| |].
  - rewrite pow2_plus_bits by lia. now rewrite Z.eqb_refl.
  - intros j Hj N. rewrite pow2_plus_bits by lia. apply Z.eqb_neq in N. rewrite N. destruct (Z.ltb_spec j (Z.of_nat t)); [reflexivity|apply A; lia].
Qed.
Lemma any_coef_0 g b : any_coef g b 0 = - tsum (fun _ => true) (Z.of_nat (teeth g) * b) (Z.of_nat (spacing g)) (teeth g).
Proof. unfold any_coef. rewrite <- tsum_neg. apply tsum_ext. intros t _. apply Z.testbit_0_l. Qed.

(** ** The loops *)
Section Loops.
  Variable g : comb.
  Hypothesis HG0 : comb_compiles g = true.
  Local Notation T := (Z.of_nat (teeth g)).
  Local Notation s := (Z.of_nat (spacing g)).
  Definition ds_ok (b m : nat) (ds : list gej) : Prop :=
    length ds = m /\ forall j, (j < m)%nat -> J (2 * 2 ^ ((T * Z.of_nat b + Z.of_nat j) * s)) (nth j ds gej_infinity).
  Lemma tooth_loop_ok b k : (b < blocks g)%nat -> forall tooth sum u ds, (tooth + k = teeth g)%nat ->
    J (tsum (fun _ => true) (T * Z.of_nat b) s tooth) sum -> (k <> 0%nat \/ (b + 1 < blocks g)%nat -> J (2 ^ ((T * Z.of_nat b + Z.of_nat tooth) * s)) u) -> ds_ok b tooth ds ->
    let '(sum', u', ds') := tooth_loop k g b tooth sum u ds in
    J (tsum (fun _ => true) (T * Z.of_nat b) s (teeth g)) sum' /\ ((b + 1 < blocks g)%nat -> J (2 ^ ((T * Z.of_nat b + T) * s)) u') /\ ds_ok b (teeth g) ds'.
  Proof.
    intros Hb. destruct (compiles_bounds g HG0) as (HB1 & HT1 & _ & HS1 & _).
    induction k as [|k IH]; intros tooth sum u ds Hk HS HU HD; cbn [tooth_loop].
    - assert (tooth = teeth g) by lia. subst tooth. split; [exact HS|]. split; [|exact HD]. intros L. apply HU. now right.
    - specialize (HU ltac:(left; lia)). cbv zeta.
      apply IH; [lia| | |].
      + replace (tooth + 1)%nat with (S tooth) by lia. cbn [tsum]. unfold pm. rewrite Z.mul_1_l. apply J_add; [exact HS|exact HU].
      + intros C. assert (E : (b + tooth =? blocks g + teeth g - 2)%nat = false) by (apply Nat.eqb_neq; lia). rewrite E. cbn [negb].
        replace (2 ^ ((T * Z.of_nat b + Z.of_nat (tooth + 1)) * s)) with (2 ^ Z.of_nat (spacing g - 1) * (2 * 2 ^ ((T * Z.of_nat b + Z.of_nat tooth) * s))).
        * apply J_dbl_n, J_dbl, HU.
        * rewrite Z.mul_assoc, (Z.mul_comm (2 ^ _) 2), <- Z.pow_succ_r by lia.
          rewrite <- Z.pow_add_r; [f_equal; rewrite Nat2Z.inj_sub by lia; rewrite Nat2Z.inj_add; ring|lia|].
          apply Z.mul_nonneg_nonneg; [|lia]. assert (0 <= T * Z.of_nat b) by (apply Z.mul_nonneg_nonneg; lia). lia.
      + destruct HD as [L D]. split; [rewrite app_length, L; cbn; lia|]. intros j Hj. destruct (Nat.eq_dec j tooth) as [->|N].
        * rewrite app_nth2, L, Nat.sub_diag by lia. cbn [nth]. apply J_dbl, HU.
        * rewrite app_nth1 by lia. apply D. lia.
  Qed.

  Definition vcoef (j : nat) : Z := any_coef g (Z.of_nat (j / points g)) (Z.of_nat (j mod points g)).
  Definition vs_ok (m : nat) (vs : list gej) : Prop := length vs = m /\ forall j, (j < m)%nat -> J (vcoef j) (nth j vs gej_infinity).
  Lemma points_pos : (0 < points g)%nat. Proof. unfold points. apply Nat.neq_0_lt_0, Nat.pow_nonzero. discriminate. Qed.
  Lemma vcoef_at b i : (i < points g)%nat -> vcoef (b * points g + i) = any_coef g (Z.of_nat b) (Z.of_nat i).
  Proof.
    intros Hi. pose proof points_pos. unfold vcoef. rewrite Nat.add_comm, Nat.mod_add, Nat.div_add by lia. now rewrite Nat.div_small, Nat.mod_small by lia.
  Qed.
  Lemma vs_ok_snoc m vs v : vs_ok m vs -> J (vcoef m) v -> vs_ok (S m) (vs ++ [v]).
  Proof.
    intros [L H] V. split; [rewrite app_length, L; cbn; lia|]. intros j Hj. destruct (Nat.eq_dec j m) as [->|N].
    - rewrite app_nth2, L, Nat.sub_diag by lia. exact V.
    - rewrite app_nth1 by lia. apply H. lia.
  Qed.
  Lemma stride_loop_ok b t d : (t + 1 < teeth g)%nat -> J (2 * 2 ^ ((T * Z.of_nat b + Z.of_nat t) * s)) d -> forall k idx vs,
    (idx + k = 2 ^ t)%nat -> vs_ok (b * points g + 2 ^ t + idx) vs -> vs_ok (b * points g + 2 ^ (t + 1)) (stride_loop k (2 ^ t) d vs).
  Proof.
    intros Ht Hd. assert (P2 : (2 ^ (t + 1) = 2 * 2 ^ t)%nat) by (rewrite Nat.add_1_r; apply Nat.pow_succ_r').
    assert (PP : (2 ^ (t + 1) <= points g)%nat) by (unfold points; apply Nat.pow_le_mono_r; lia).
    induction k as [|k IH]; intros idx vs Hk HV; cbn [stride_loop].
    - replace (b * points g + 2 ^ (t + 1))%nat with (b * points g + 2 ^ t + idx)%nat by lia. exact HV.
    - apply (IH (S idx)); [lia|]. replace (b * points g + 2 ^ t + S idx)%nat with (S (b * points g + 2 ^ t + idx)) by lia.
      apply vs_ok_snoc; [exact HV|]. destruct HV as [L H]. rewrite L.
      replace (b * points g + 2 ^ t + idx - 2 ^ t)%nat with (b * points g + idx)%nat by lia.
      replace (b * points g + 2 ^ t + idx)%nat with (b * points g + (2 ^ t + idx))%nat in * by lia.
      rewrite vcoef_at by lia. rewrite Nat2Z.inj_add, Nat2Z.inj_pow. change (Z.of_nat 2) with 2.
      rewrite any_coef_flip; [|lia|].
      + apply J_add; [|exact Hd]. rewrite <- vcoef_at by lia. apply H. lia.
      + assert (E : Z.of_nat (2 ^ t) = 2 ^ Z.of_nat t) by apply Nat2Z.inj_pow. lia.
  Qed.
  Lemma range_loop_ok b ds : ds_ok b (teeth g) ds -> forall k t vs, (t + k = teeth g - 1)%nat -> vs_ok (b * points g + 2 ^ t) vs ->
    vs_ok (b * points g + points g) (range_loop k t ds vs).
  Proof.
    intros [LD HD]. induction k as [|k IH]; intros t vs Hk HV; cbn [range_loop].
    - unfold points at 2. replace (teeth g - 1)%nat with t by lia. exact HV.
    - cbv zeta. apply IH; [lia|]. apply (stride_loop_ok b t _ ltac:(lia) (HD t ltac:(lia)) (2 ^ t) 0); [lia|]. rewrite Nat.add_0_r. exact HV.
  Qed.
  Lemma block_loop_ok k : forall b u vs, (b + k = blocks g)%nat -> (k <> 0%nat -> J (2 ^ (T * Z.of_nat b * s)) u) -> vs_ok (b * points g) vs ->
    vs_ok (blocks g * points g) (block_loop k g b u vs).
  Proof.
    destruct (compiles_bounds g HG0) as (_ & HT1 & _).
    induction k as [|k IH]; intros b u vs Hk HU HV; cbn [block_loop].
    - replace (blocks g) with b by lia. exact HV.
    - specialize (HU ltac:(lia)).
      assert (D0 : ds_ok b 0 []) by (split; [reflexivity|intros; lia]).
      pose proof (tooth_loop_ok b (teeth g) ltac:(lia) 0 gej_infinity u [] eq_refl J_inf ltac:(intros _; change (Z.of_nat 0) with 0; rewrite Z.add_0_r; exact HU) D0) as K.
      destruct (tooth_loop (teeth g) g b 0 gej_infinity u []) as [[sum u'] ds]. destruct K as (K1 & K2 & K3).
      cbv zeta. apply IH; [lia| |].
      + intros Nk. replace (T * Z.of_nat (b + 1) * s) with ((T * Z.of_nat b + T) * s) by lia. apply K2. lia.
      + replace ((b + 1) * points g)%nat with (b * points g + points g)%nat by lia.
        apply (range_loop_ok b ds K3 _ 0); [lia|]. change (2 ^ 0)%nat with 1%nat. rewrite Nat.add_1_r. apply vs_ok_snoc; [exact HV|].
        pose proof (vcoef_at b 0 points_pos) as E. rewrite Nat.add_0_r in E. rewrite E. change (Z.of_nat 0) with 0. rewrite any_coef_0, pmul_neg by apply HG_on_curve.
        now apply gej_neg_ok.
  Qed.

  (** ** No entry is the point at infinity *)
  Lemma tsum_scale f base k : 0 <= base -> tsum f base s k = 2 ^ (base * s) * tsum f 0 s k.
  Proof.
    intros Hb. induction k as [|k IH]; cbn [tsum]; [ring|]. rewrite IH. rewrite Z.mul_add_distr_r, Z.pow_add_r by (apply Z.mul_nonneg_nonneg; lia). rewrite Z.add_0_l. ring.
  Qed.
  Lemma tsum_odd f k : (1 <= spacing g)%nat -> Z.odd (tsum f 0 s (S k)) = true.
  Proof.
    intros Hs. induction k as [|k IH].
    - cbn [tsum]. change (Z.of_nat 0) with 0. change ((0 + 0) * s) with 0. unfold pm. destruct (f 0); reflexivity.
    - change (tsum f 0 s (S (S k))) with (tsum f 0 s (S k) + pm (f (Z.of_nat (S k))) * 2 ^ ((0 + Z.of_nat (S k)) * s)).
      rewrite Z.odd_add, IH, Z.odd_mul. replace ((0 + Z.of_nat (S k)) * s) with (Z.succ (Z.of_nat k * s + (s - 1))) by lia.
      rewrite Z.pow_succ_r by (assert (0 <= Z.of_nat k * s) by (apply Z.mul_nonneg_nonneg; lia); lia). rewrite Z.odd_mul. cbn [Z.odd]. now rewrite andb_false_r.
  Qed.
  Lemma tsum_bound f k : (1 <= spacing g)%nat -> Z.abs (tsum f 0 s (S k)) < 2 ^ (Z.of_nat k * s + 1).
  Proof.
    intros Hs. induction k as [|k IH].
    - cbn [tsum]. change (Z.of_nat 0) with 0. change ((0 + 0) * s) with 0. unfold pm. destruct (f 0); reflexivity.
    - change (tsum f 0 s (S (S k))) with (tsum f 0 s (S k) + pm (f (Z.of_nat (S k))) * 2 ^ ((0 + Z.of_nat (S k)) * s)).
      rewrite Z.add_0_l. assert (0 <= Z.of_nat k * s) by (apply Z.mul_nonneg_nonneg; lia).
      assert (L : 2 ^ (Z.of_nat k * s + 1) <= 2 ^ (Z.of_nat (S k) * s)) by (apply Z.pow_le_mono_r; lia).
      rewrite Z.add_1_r, Z.pow_succ_r by (apply Z.mul_nonneg_nonneg; lia).
      assert (A : Z.abs (pm (f (Z.of_nat (S k))) * 2 ^ (Z.of_nat (S k) * s)) = 2 ^ (Z.of_nat (S k) * s)).
      { assert (0 <= 2 ^ (Z.of_nat (S k) * s)) by (apply Z.pow_nonneg; lia). unfold pm. destruct (f _); lia. }
      lia.
  Qed.
  Lemma width_bound : Z.of_nat (teeth g - 1) * s <= 254.
  Proof.
    destruct (compiles_bounds g HG0) as (HB1 & HT1 & _ & HS1 & _).
    assert (K : (blocks g * teeth g * (spacing g - 1) <= 255)%nat).
    { unfold spacing, ceil_div. replace (1 + (256 - 1) / (blocks g * teeth g) - 1)%nat with (255 / (blocks g * teeth g))%nat by (rewrite Nat.add_comm, Nat.add_sub; reflexivity).
      apply Nat.mul_div_le. intros E. apply Nat.eq_mul_0 in E. lia. }
    assert (K2 : (teeth g * (spacing g - 1) <= 255)%nat).
    { etransitivity; [|exact K]. rewrite <- Nat.mul_assoc. rewrite <- (Nat.mul_1_l (teeth g * (spacing g - 1))) at 1. apply Nat.mul_le_mono_r. exact HB1. }
    clear K. generalize dependent (spacing g). intros sp HS1 K2. generalize dependent (teeth g). intros t HT1 K2.
    assert (C : (t = 1 \/ t = 2 \/ t = 3 \/ t = 4 \/ t = 5 \/ t = 6 \/ t = 7 \/ t = 8)%nat) by lia.
    destruct C as [-> | [-> | [-> | [-> | [-> | [-> | [-> | ->]]]]]]]; lia.
  Qed.
  Lemma any_coef_nz b i : 0 <= b -> any_coef g b i mod n <> 0.
  Proof.
    intros Hb E. destruct (compiles_bounds g HG0) as (_ & HT1 & _ & HS1 & _). apply Z.mod_divide in E; [|discriminate].
    unfold any_coef in E. rewrite tsum_scale in E by (apply Z.mul_nonneg_nonneg; lia).
    assert (R : rel_prime n (2 ^ (T * b * s))).
    { apply rel_prime_Zpower_r; [apply Z.mul_nonneg_nonneg; [apply Z.mul_nonneg_nonneg; lia|lia]|].
      apply bezout_rel_prime. apply (Bezout_intro _ _ _ 1 (- (n / 2))). reflexivity. }
    apply (Gauss _ _ _ E) in R. pose proof width_bound as W.
    replace (teeth g) with (S (teeth g - 1)) in R by lia.
    pose proof (tsum_odd (Z.testbit i) (teeth g - 1) HS1) as O. pose proof (tsum_bound (Z.testbit i) (teeth g - 1) HS1) as B.
    set (x := tsum (Z.testbit i) 0 s (S (teeth g - 1))) in *. clearbody x.
    assert (B2 : 2 ^ (Z.of_nat (teeth g - 1) * s + 1) <= 2 ^ 255) by (apply Z.pow_le_mono_r; lia).
    assert (Hn : 2 ^ 255 < n) by reflexivity.
    assert (NZ : x <> 0) by (intros ->; discriminate O). apply Z.divide_abs_r in R.
    apply Z.divide_pos_le in R; lia.
  Qed.
  Lemma any_coef_fin b i : 0 <= b -> exists x y, on_curve (Aff x y) /\ pmul (any_coef g b i) HG = Aff x y.
  Proof.
    intros Hb. pose proof (on_curve_mul (any_coef g b i) HG HG_on_curve) as OC.
    destruct (pmul (any_coef g b i) HG) as [|x y] eqn:E; [|exists x, y; auto]. exfalso.
    rewrite HG_pmul in E. apply pmul_G_Inf in E. apply (any_coef_nz b i Hb).
    assert (E2 : (2 * (any_coef g b i * half_n)) mod n = 0) by (rewrite <- Z.mul_mod_idemp_r, E by discriminate; reflexivity).
    replace (2 * (any_coef g b i * half_n)) with (any_coef g b i * (2 * half_n)) in E2 by ring. rewrite two_half in E2.
    replace (any_coef g b i * (n + 1)) with (any_coef g b i + any_coef g b i * n) in E2 by ring. now rewrite Z.mod_add in E2 by discriminate.
  Qed.

  (** ** The table *)
  Lemma compute_table_ok : length (compute_table ge_const_g g) = (blocks g * points g)%nat /\
    forall j, (j < blocks g * points g)%nat -> exists x y, on_curve (Aff x y) /\ Aff x y = pmul (vcoef j) HG /\
      ges_ok (nth j (compute_table ge_const_g g) ges0) /\ sval (stx (nth j (compute_table ge_const_g g) ges0)) = x /\ sval (sty (nth j (compute_table ge_const_g g) ges0)) = y.
  Proof.
    unfold compute_table. cbv zeta. set (u := half_ladder _ _ _ _).
    assert (HU : J (2 ^ (T * Z.of_nat 0 * s)) u) by (rewrite Z.mul_0_r, Z.mul_0_l; exact half_gen_ok).
    destruct (block_loop_ok (blocks g) 0 u [] eq_refl (fun _ => HU)) as [L H]. { split; [reflexivity|intros j Hj; exfalso; cbn in Hj; lia]. }
    set (vs := block_loop _ _ _ _ _) in *. clearbody vs u.
    assert (F : Forall2 (gej_rep f1) vs (map (fun j => pmul (vcoef j) HG) (seq 0 (blocks g * points g)))).
    { revert H. rewrite <- L. clear. assert (K : forall (l : list gej) b, (forall j, (j < length l)%nat -> J (vcoef (b + j)) (nth j l gej_infinity)) ->
        Forall2 (gej_rep f1) l (map (fun j => pmul (vcoef j) HG) (seq b (length l)))).
      { induction l as [|a l IH]; intros b H; cbn [length seq map]; constructor.
        - specialize (H 0%nat ltac:(cbn [length]; lia)). rewrite Nat.add_0_r in H. exact H.
        - apply IH. intros j Hj. specialize (H (S j) ltac:(cbn [length]; lia)). rewrite Nat.add_succ_r in H. exact H. }
      intros H. apply (K vs 0%nat). exact H. }
    apply (ge_set_all_gej_var_ok f1 _ _ f1_nz) in F. set (ps := ge_set_all_gej_var vs) in *. clearbody ps.
    assert (LP : length ps = (blocks g * points g)%nat).
    { assert (K : forall {A B} (R : A -> B -> Prop) l m, Forall2 R l m -> length l = length m) by (induction 1; cbn [length]; congruence).
      rewrite (K _ _ _ _ _ F), map_length, seq_length. reflexivity. }
    split; [now rewrite map_length|]. intros j Hj.
    pose proof (Forall2_nth _ ge_infinity (pmul (vcoef 0) HG) _ _ F j ltac:(lia)) as Fj.
    rewrite (map_nth (fun j => pmul (vcoef j) HG)), seq_nth in Fj by lia. change (0 + j)%nat with j in Fj.
    destruct (any_coef_fin (Z.of_nat (j / points g)) (Z.of_nat (j mod points g)) (Nat2Z.is_nonneg _)) as (x & y & OC & E). fold (vcoef j) in E.
    rewrite E in Fj. destruct (ge_to_storage_ok _ x y Fj) as (A & B & C & D).
    exists x, y. split; [exact OC|]. split; [now symmetry|].
    rewrite (nth_indep _ ges0 (ge_to_storage ge_infinity)) by (rewrite map_length; lia). rewrite map_nth. split; [split; assumption|]. split; assumption.
  Qed.
  Lemma nth_firstn {A} (d : A) k : forall l i, (i < k)%nat -> nth i (firstn k l) d = nth i l d.
  Proof. induction k as [|k IH]; intros l i Hi; [lia|]. destruct l; [reflexivity|]. destruct i; [reflexivity|]. cbn [firstn nth]. apply IH. lia. Qed.
  Lemma nth_skipn {A} (d : A) k : forall l i, nth i (skipn k l) d = nth (k + i) l d.
  Proof. induction k as [|k IH]; intros l i; [reflexivity|]. destruct l; [destruct i; reflexivity|]. apply IH. Qed.
  Lemma prec_row_ok b : (b < blocks g)%nat -> any_tab_ok g (Z.of_nat b) (firstn (points g) (skipn (b * points g) (compute_table ge_const_g g))).
  Proof.
    intros Hb. destruct compute_table_ok as [L H].
    assert (M : (b * points g + points g <= blocks g * points g)%nat).
    { replace (b * points g + points g)%nat with ((b + 1) * points g)%nat by lia. apply Nat.mul_le_mono_r. lia. }
    set (tab := compute_table ge_const_g g) in *. clearbody tab.
    assert (LR : length (firstn (points g) (skipn (b * points g) tab)) = points g) by (rewrite firstn_length, skipn_length; lia).
    assert (N : forall i, (i < points g)%nat -> nth i (firstn (points g) (skipn (b * points g) tab)) ges0 = nth (b * points g + i) tab ges0).
    { intros i Hi. now rewrite nth_firstn, nth_skipn by exact Hi. }
    split; [exact LR|]. split.
    - apply Forall_forall. intros e He. apply (In_nth _ _ ges0) in He as (i & Hi & <-). rewrite LR in Hi. rewrite N by exact Hi.
      destruct (H (b * points g + i)%nat ltac:(lia)) as (x & y & _ & _ & K & _). exact K.
    - intros i Hi. rewrite N by exact Hi. destruct (H (b * points g + i)%nat ltac:(lia)) as (x & y & A & B & _ & C & D).
      rewrite vcoef_at in B by exact Hi. exists x, y. auto.
  Qed.
  Lemma prec_table_ok : any_tabs_ok g 0 (prec_table g) /\ length (prec_table g) = blocks g.
  Proof.
    split; [|unfold prec_table; now rewrite map_length, seq_length]. unfold prec_table.
    assert (K : forall k b, (b + k <= blocks g)%nat ->
      any_tabs_ok g (Z.of_nat b) (map (fun b => firstn (points g) (skipn (b * points g) (compute_table ge_const_g g))) (seq b k))).
    { induction k as [|k IH]; intros b Hb; cbn [seq map any_tabs_ok]; [exact I|]. split; [apply prec_row_ok; lia|].
      replace (Z.of_nat b + 1) with (Z.of_nat (S b)) by lia. apply IH. lia. }
    apply (K (blocks g) 0%nat). lia.
  Qed.
End Loops.

(** ** The entries determine the table *)
Lemma sval_inj a b : fes_ok a -> fes_ok b -> sval a = sval b -> a = b.
Proof.
  destruct a as [a0 a1 a2 a3], b as [b0 b1 b2 b3]. unfold fes_ok, sval. cbn [s0 s1 s2 s3]. intros. f_equal; lia.
Qed.
Lemma any_tab_unique g b t1 t2 : any_tab_ok g b t1 -> any_tab_ok g b t2 -> t1 = t2.
Proof.
  intros (L1 & F1 & E1) (L2 & F2 & E2). apply (nth_ext _ _ ges0 ges0); [lia|]. intros i Hi. rewrite L1 in Hi.
  destruct (E1 i Hi) as (x & y & _ & P1 & X1 & Y1). destruct (E2 i Hi) as (x' & y' & _ & P2 & X2 & Y2).
  assert (E : Aff x y = Aff x' y') by congruence. injection E as <- <-. rewrite Forall_forall in F1, F2.
  specialize (F1 (nth i t1 ges0) ltac:(apply nth_In; lia)). specialize (F2 (nth i t2 ges0) ltac:(apply nth_In; lia)).
  destruct (nth i t1 ges0) as [a b'], (nth i t2 ges0) as [c d]. cbn [stx sty] in *. destruct F1, F2. cbn [stx sty] in *.
  f_equal; apply sval_inj; congruence.
Qed.
Lemma any_tabs_unique g t1 : forall b t2, length t1 = length t2 -> any_tabs_ok g b t1 -> any_tabs_ok g b t2 -> t1 = t2.
Proof.
  induction t1 as [|a t1 IH]; intros b [|c t2] L H1 H2; try discriminate L; [reflexivity|]. destruct H1, H2. f_equal.
  - eapply any_tab_unique; eassumption.
  - eapply IH; [|eassumption|eassumption]. now injection L.
Qed.
Definition default_comb : comb := mkcomb 11 6.
Lemma default_coef b i : any_coef default_comb b i = tab_coef b i.
Proof.
  unfold any_coef, default_comb. change (spacing (mkcomb 11 6)) with 4%nat. cbn [teeth tsum]. unfold tab_coef, tooth_coef, pm.
  change (Z.of_nat 4) with 4. change (Z.of_nat 6) with 6. change (Z.of_nat 5) with 5. change (Z.of_nat 3) with 3. change (Z.of_nat 2) with 2. change (Z.of_nat 1) with 1. change (Z.of_nat 0) with 0. ring.
Qed.
Lemma default_tabs_ok tabs : forall b, tabs_ok b tabs -> any_tabs_ok default_comb b tabs.
Proof.
  induction tabs as [|t tabs IH]; intros b H; [exact I|]. destruct H as [(A & B & C) H]. split; [|now apply IH].
  split; [exact A|]. split; [exact B|]. intros i Hi. rewrite default_coef. apply C. exact Hi.
Qed.
Lemma default_table : prec_table default_comb = gen_prec_table.
Proof.
  destruct (prec_table_ok default_comb eq_refl) as [A L]. destruct gen_prec_table_ok as [B M].
  apply (any_tabs_unique default_comb _ 0); [rewrite L, M; reflexivity|exact A|now apply default_tabs_ok].
Qed.
