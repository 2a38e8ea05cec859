(** The constant time division steps of Modinv32Model.v perform exactly the steps of Safegcd.v.  Same
    argument as ModinvProof.v, for 32-bit words. *)
Require Import ZArith Lia List Bool Znumtheory.
From Verif Require Import Word Word32 Int128Model SpecWords Int128Proof Scalar32Proof Scalar32Proof2 ModinvModel JacobiModel Modinv32Model Safegcd ModinvProof.
Import ListNotations.
Local Open Scope Z_scope.

Definition is_i32 (x : Z) : Prop := - 2 ^ 31 <= x < 2 ^ 31.
Lemma i32_id x : is_i32 x -> i32 x = Some x.
Proof. intros [A B]. unfold i32. replace (- 2 ^ 31 <=? x) with true by (symmetry; now apply Z.leb_le). now replace (x <? 2 ^ 31) with true by (symmetry; now apply Z.ltb_lt). Qed.
Lemma to_i32_id x : is_i32 x -> to_i32 x = x.
Proof.
  unfold is_i32, to_i32, w32. change (2 ^ 31) with 2147483648. change (2 ^ 32) with 4294967296. intros [A B].
  destruct (Z.ltb_spec x 0) as [N|N].
  - assert (E : x mod 4294967296 = x + 4294967296) by (symmetry; apply (Z.mod_unique x 4294967296 (-1)); lia).
    rewrite E. destruct (Z.ltb_spec (x + 4294967296) 2147483648); lia.
  - rewrite Z.mod_small by lia. destruct (Z.ltb_spec x 2147483648); lia.
Qed.
Lemma w32_w32 x : w32 (w32 x) = w32 x. Proof. apply Z.mod_mod. discriminate. Qed.
Lemma to_i32_w32 x : to_i32 (w32 x) = to_i32 x. Proof. unfold to_i32. now rewrite w32_w32. Qed.
Lemma w32_add_w32 x y : w32 (x + w32 y) = w32 (x + y). Proof. unfold w32. now rewrite Zplus_mod_idemp_r. Qed.
Lemma w32_add_w32l x y : w32 (w32 x + y) = w32 (x + y). Proof. unfold w32. now rewrite Zplus_mod_idemp_l. Qed.
Lemma w32_sub_w32 x y : w32 (x - w32 y) = w32 (x - y). Proof. unfold w32. now rewrite Zminus_mod_idemp_r. Qed.
Lemma w32_mul_l x y : w32 (w32 x * y) = w32 (x * y). Proof. unfold w32. now rewrite Zmult_mod_idemp_l. Qed.
Lemma cong_w32' k a : 0 <= k <= 32 -> cong k (w32 a) a.
Proof.
  intros Hk. apply (cong_le k 32); [lia|]. unfold cong, w32. exists (- (a / 2 ^ 32)).
  pose proof (Z.div_mod a (2 ^ 32)). lia.
Qed.

Definition word32 (x : Z) : Prop := 0 <= x < 2 ^ 32.
Definition ones32 : Z := 2 ^ 32 - 1.

Lemma w32_word x : word32 (w32 x). Proof. apply w32_range. Qed.
Lemma lxor_mask_neg32 x : word32 x -> w32 (Z.lxor x ones32 - ones32) = w32 (- x).
Proof.
  intros H. unfold ones32. rewrite lxor_ones32 by exact H. unfold not32. f_equal. lia.
Qed.
Lemma lxor_mask_032 x : word32 x -> w32 (Z.lxor x 0 - 0) = x.
Proof. intros H. rewrite Z.lxor_0_r, Z.sub_0_r. apply w32_id, H. Qed.
Lemma land_ones_word32 x : word32 x -> Z.land x ones32 = x.
Proof. intros H. apply land_all32, H. Qed.
Lemma sign_mask32 c : - 2 ^ 31 <= c < 2 ^ 31 -> Z.shiftr c 31 = if c <? 0 then -1 else 0.
Proof.
  intros H. rewrite shiftr_div by lia. destruct (Z.ltb_spec c 0).
  - symmetry. apply (Z.div_unique c (2 ^ 31) (-1) (c + 2 ^ 31)); lia.
  - apply Z.div_small. lia.
Qed.
Lemma w32_m1 : w32 (-1) = ones32. Proof. reflexivity. Qed.
Lemma w32_0 : w32 0 = 0. Proof. reflexivity. Qed.
Lemma w32_add x y : w32 (w32 x + w32 y) = w32 (x + y).
Proof. unfold w32. now rewrite <- Zplus_mod. Qed.
Lemma w32_shl1 x : w32 (Z.shiftl x 1) = w32 (2 * x).
Proof. rewrite Z.shiftl_mul_pow2 by lia. f_equal. lia. Qed.

(** One step, spelled out. *)
Definition step_words32 (s : dvars) : dvars :=
  let z := dzeta s in
  if Z.odd (dg s) then
    if z <? 0 then
      mkdv (- z - 2) (dg s) (w32 (dg s - df s) / 2) (w32 (2 * dq s)) (w32 (2 * dr s)) (w32 (dq s - du s)) (w32 (dr s - dv s))
    else
      mkdv (z - 1) (df s) (w32 (dg s + df s) / 2) (w32 (2 * du s)) (w32 (2 * dv s)) (w32 (dq s + du s)) (w32 (dr s + dv s))
  else mkdv (z - 1) (df s) (dg s / 2) (w32 (2 * du s)) (w32 (2 * dv s)) (dq s) (dr s).

Definition words732 (s : dvars) : Prop :=
  word32 (df s) /\ word32 (dg s) /\ word32 (du s) /\ word32 (dv s) /\ word32 (dq s) /\ word32 (dr s).

Lemma divstep_30_eq s : words732 s -> - 2 ^ 30 <= dzeta s < 2 ^ 30 -> divstep_30 s = step_words32 s.
Proof.
  intros (Hf & Hg & Hu & Hv & Hq & Hr) Hz. destruct s as [z f g u v q r]. cbn [dzeta df dg du dv dq dr] in *.
  unfold divstep_30, step_words32. cbn [dzeta df dg du dv dq dr].
  rewrite sign_mask32 by lia. rewrite land_1_odd.
  assert (Hzz : forall b, to_i32 (w32 (Z.lxor (w32 z) (if b : bool then ones32 else 0) - 1)) = if b then - z - 2 else z - 1).
  { intros b. rewrite to_i32_w32. destruct b.
    - unfold ones32. rewrite lxor_ones32 by apply w32_range. unfold not32.
      replace (2 ^ 32 - 1 - w32 z - 1) with (2 ^ 32 - 2 - w32 z) by ring.
      rewrite <- to_i32_w32, w32_sub_w32, to_i32_w32.
      replace (2 ^ 32 - 2 - z) with (- z - 2 + 1 * 2 ^ 32) by ring.
      rewrite <- to_i32_w32. unfold w32 at 1. rewrite Z.mod_add by discriminate. change ((- z - 2) mod 2 ^ 32) with (w32 (- z - 2)).
      rewrite to_i32_w32. apply to_i32_id. unfold is_i32. lia.
    - rewrite Z.lxor_0_r, <- to_i32_w32. unfold Z.sub at 1. rewrite w32_add_w32l, to_i32_w32.
      apply to_i32_id. unfold is_i32. lia. }
  assert (Rg : w32 (g + 0) = g) by (rewrite Z.add_0_r; apply w32_id, Hg).
  assert (Rq : w32 (q + 0) = q) by (rewrite Z.add_0_r; apply w32_id, Hq).
  assert (Rr : w32 (r + 0) = r) by (rewrite Z.add_0_r; apply w32_id, Hr).
  assert (Rf : w32 (f + 0) = f) by (rewrite Z.add_0_r; apply w32_id, Hf).
  assert (Ru : w32 (u + 0) = u) by (rewrite Z.add_0_r; apply w32_id, Hu).
  assert (Rv : w32 (v + 0) = v) by (rewrite Z.add_0_r; apply w32_id, Hv).
  destruct (Z.odd g); destruct (z <? 0); change (- (1)) with (-1); change (- (0)) with 0; rewrite ?w32_m1, ?w32_0;
    cbv zeta; rewrite ?lxor_mask_neg32, ?lxor_mask_032 by assumption;
    rewrite ?Z.land_0_r, ?Z.land_0_l; rewrite ?(land_ones_word32 ones32) by (unfold word32, ones32; lia);
    rewrite ?land_ones_word32 by (apply w32_word || assumption);
    rewrite ?(Hzz true), ?(Hzz false), ?Rg, ?Rq, ?Rr, ?Rf, ?Ru, ?Rv, ?w32_shl1, ?shiftr_div by lia;
    change (2 ^ 1) with 2; rewrite ?w32_add_w32.
  - assert (E : forall a b, word32 a -> word32 b -> w32 (a + (b + w32 (- a))) = b).
    { intros a b Ha Hb. rewrite Z.add_assoc, w32_add_w32. replace (a + b + - a) with b by ring. apply w32_id, Hb. }
    rewrite !E by assumption. reflexivity.
  - reflexivity.
  - reflexivity.
  - reflexivity.
Qed.

Definition reps32 (k : Z) (s : dvars) (t : ivars) : Prop :=
  dzeta s = ic t /\ words732 s /\ cong k (df s) (iF t) /\ cong k (dg s) (iG t) /\
  du s = w32 (iU t) /\ dv s = w32 (iV t) /\ dq s = w32 (iQ t) /\ dr s = w32 (iR t).

Lemma word_half32 x : word32 x -> word32 (x / 2).
Proof. unfold word32. intros H. split; [apply Z.div_pos; lia|]. apply Z.div_lt_upper_bound; lia. Qed.

Lemma step_reps32 k s t : 1 <= k <= 32 -> Z.odd (iF t) = true -> - 2 ^ 30 <= ic t < 2 ^ 30 -> reps32 k s t ->
  reps32 (k - 1) (divstep_30 s) (istep t).
Proof.
  intros Hk Of Hc (Ez & Hw & Cf & Cg & Eu & Ev & Eq & Er).
  rewrite divstep_30_eq by (assumption || lia). destruct Hw as (Hf & Hg & Hu & Hv & Hq & Hr).
  pose proof (cong_odd k _ _ ltac:(lia) Cf) as Of'. rewrite Of in Of'.
  pose proof (cong_odd k _ _ ltac:(lia) Cg) as Og'.
  unfold step_words32, istep. rewrite Og', Ez.
  destruct (Z.odd (iG t)) eqn:Og; [destruct (ic t <? 0)|].
  - assert (Hd : cong k (w32 (dg s - df s)) (iG t - iF t)).
    { eapply cong_trans; [apply cong_w32'; lia|]. now apply cong_sub. }
    refine (conj eq_refl (conj _ (conj _ (conj _ (conj _ (conj _ (conj _ _))))))); cbn [df dg du dv dq dr iF iG iU iV iQ iR].
    + repeat split; cbn [df dg du dv dq dr]; try apply w32_word; try apply word_half32, w32_word; try apply Hg.
    + apply (cong_le (k - 1) k); [lia|exact Cg].
    + apply cong_half; [lia|exact Hd|]. rewrite (cong_odd k _ _ ltac:(lia) Hd), Z.odd_sub, Og, Of. reflexivity.
    + rewrite Eq, Z.mul_comm, w32_mul_l. f_equal. ring.
    + rewrite Er, Z.mul_comm, w32_mul_l. f_equal. ring.
    + rewrite Eq, Eu, w32_sub_w32. unfold Z.sub. now rewrite w32_add_w32l.
    + rewrite Er, Ev, w32_sub_w32. unfold Z.sub. now rewrite w32_add_w32l.
  - assert (Hd : cong k (w32 (dg s + df s)) (iG t + iF t)).
    { eapply cong_trans; [apply cong_w32'; lia|]. now apply cong_add. }
    refine (conj eq_refl (conj _ (conj _ (conj _ (conj _ (conj _ (conj _ _))))))); cbn [df dg du dv dq dr iF iG iU iV iQ iR].
    + repeat split; cbn [df dg du dv dq dr]; try apply w32_word; try apply word_half32, w32_word; try apply Hf.
    + apply (cong_le (k - 1) k); [lia|exact Cf].
    + apply cong_half; [lia|exact Hd|]. rewrite (cong_odd k _ _ ltac:(lia) Hd), Z.odd_add, Og, Of. reflexivity.
    + rewrite Eu, Z.mul_comm, w32_mul_l. f_equal. ring.
    + rewrite Ev, Z.mul_comm, w32_mul_l. f_equal. ring.
    + rewrite Eq, Eu. apply w32_add.
    + rewrite Er, Ev. apply w32_add.
  - refine (conj eq_refl (conj _ (conj _ (conj _ (conj _ (conj _ (conj _ _))))))); cbn [df dg du dv dq dr iF iG iU iV iQ iR].
    + repeat split; cbn [df dg du dv dq dr]; try apply w32_word; try apply (word_half32 (dg s) Hg); try apply Hf; try apply Hq; try apply Hr.
    + apply (cong_le (k - 1) k); [lia|exact Cf].
    + apply cong_half; [lia|exact Cg|]. rewrite (cong_odd k _ _ ltac:(lia) Cg). exact Og.
    + rewrite Eu, Z.mul_comm, w32_mul_l. f_equal. ring.
    + rewrite Ev, Z.mul_comm, w32_mul_l. f_equal. ring.
    + exact Eq.
    + exact Er.
Qed.

Lemma loop_reps32 F0 G0 : forall j k m s t, Z.of_nat j <= k <= 32 -> 0 <= m -> Z.odd (iF t) = true ->
  - (2 ^ 29 - 2 * Z.of_nat j) <= ic t <= 2 ^ 29 - 2 * Z.of_nat j ->
  reps32 k s t -> lin_ok F0 G0 m t ->
  exists t', reps32 (k - Z.of_nat j) (divstep30_loop j s) t' /\ lin_ok F0 G0 (m + Z.of_nat j) t' /\
    core t' = dsteps 1 j (core t) /\ Z.odd (iF t') = true.
Proof.
  induction j as [|j IH]; intros k m s t Hk Hm Of Hc Hr Hl.
  - exists t. rewrite Z.sub_0_r, Z.add_0_r. auto.
  - rewrite Nat2Z.inj_succ in *. cbn [divstep30_loop dsteps].
    destruct (IH (k - 1) (m + 1) (divstep_30 s) (istep t)) as (t' & A1 & A2 & A3 & A4).
    + lia.
    + lia.
    + now apply istep_odd.
    + pose proof (istep_bound t (2 ^ 29 - 2 * Z.succ (Z.of_nat j)) ltac:(lia)). lia.
    + apply step_reps32; auto; lia.
    + apply istep_lin; auto.
    + exists t'. replace (k - Z.succ (Z.of_nat j)) with (k - 1 - Z.of_nat j) by lia.
      replace (m + Z.succ (Z.of_nat j)) with (m + 1 + Z.of_nat j) by lia.
      rewrite <- istep_core. auto.
Qed.

(** The matrix of 30 constant time steps. *)
Theorem divsteps_30_ok zeta F0 G0 f0 g0 : Z.odd F0 = true -> - 2 ^ 28 <= zeta <= 2 ^ 28 ->
  word32 f0 -> word32 g0 -> cong 30 f0 F0 -> cong 30 g0 G0 ->
  exists F G zeta', dsteps 1 30 (zeta, F0, G0) = (zeta', F, G) /\ fst (divsteps_30 zeta f0 g0) = zeta' /\
  let t := snd (divsteps_30 zeta f0 g0) in
  tu t * F0 + tv t * G0 = 2 ^ 30 * F /\ tq t * F0 + tr t * G0 = 2 ^ 30 * G /\
  Z.abs (tu t) + Z.abs (tv t) <= 2 ^ 30 /\ Z.abs (tq t) + Z.abs (tr t) <= 2 ^ 30.
Proof.
  intros Of Hz Wf Wg Cf Cg.
  destruct (loop_reps32 F0 G0 30 30 0 (mkdv zeta f0 g0 1 0 0 1) (mkiv zeta F0 G0 1 0 0 1)) as (t' & A1 & A2 & A3 & A4).
  - cbn. lia.
  - lia.
  - exact Of.
  - cbn [ic]. lia.
  - refine (conj eq_refl (conj _ (conj Cf (conj Cg _)))); [|repeat split].
    repeat split; cbn [df dg du dv dq dr]; try apply Wf; try apply Wg; lia.
  - unfold lin_ok. cbn [iU iV iQ iR iF iG]. change (2 ^ 0) with 1. repeat split; lia.
  - unfold core in A3. cbn [ic iF iG] in A3.
    exists (iF t'), (iG t'), (ic t'). split; [now symmetry|].
    unfold divsteps_30. set (s := divstep30_loop 30 _) in *. clearbody s. cbn [fst snd tu tv tq tr].
    destruct A1 as (E1 & _ & _ & _ & E2 & E3 & E4 & E5). split; [exact E1|].
    rewrite E2, E3, E4, E5, !to_i32_w32. change (0 + Z.of_nat 30) with 30 in A2.
    destruct A2 as (B1 & B2 & B3 & B4).
    rewrite !to_i32_id by (unfold is_i32; lia). auto.
Qed.
