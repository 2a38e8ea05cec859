(** The constant time division steps of ModinvModel.v perform exactly the steps of Safegcd.v. *)
Require Import ZArith Lia List Bool Znumtheory.
From Verif Require Import Word Int128Model SpecWords Int128Proof ScalarProof2 ModinvModel Safegcd.
Import ListNotations.
Local Open Scope Z_scope.

Definition word (x : Z) : Prop := 0 <= x < 2 ^ 64.
Definition ones : Z := 2 ^ 64 - 1.

Lemma w64_word x : word (w64 x). Proof. apply w64_range. Qed.
Lemma lxor_mask_neg x : word x -> w64 (Z.lxor x ones - ones) = w64 (- x).
Proof.
  intros H. unfold ones. rewrite lxor_ones by exact H. unfold not64. f_equal. lia.
Qed.
Lemma lxor_mask_0 x : word x -> w64 (Z.lxor x 0 - 0) = x.
Proof. intros H. rewrite Z.lxor_0_r, Z.sub_0_r. apply w64_id, H. Qed.
Lemma land_ones_word x : word x -> Z.land x ones = x.
Proof. intros H. apply land_all, H. Qed.
Lemma sign_mask c : - 2 ^ 63 <= c < 2 ^ 63 -> Z.shiftr c 63 = if c <? 0 then -1 else 0.
Proof.
  intros H. rewrite shiftr_div by lia. destruct (Z.ltb_spec c 0).
  - symmetry. apply (Z.div_unique c (2 ^ 63) (-1) (c + 2 ^ 63)); lia.
  - apply Z.div_small. lia.
Qed.
Lemma w64_m1 : w64 (-1) = ones. Proof. reflexivity. Qed.
Lemma w64_0 : w64 0 = 0. Proof. reflexivity. Qed.
Lemma land_1_odd x : Z.land x 1 = if Z.odd x then 1 else 0.
Proof.
  rewrite land_1. rewrite Zmod_odd. reflexivity.
Qed.
Lemma w64_add x y : w64 (w64 x + w64 y) = w64 (x + y).
Proof. unfold w64. now rewrite <- Zplus_mod. Qed.
Lemma w64_shl1 x : w64 (Z.shiftl x 1) = w64 (2 * x).
Proof. rewrite Z.shiftl_mul_pow2 by lia. f_equal. lia. Qed.

(** One step, spelled out. *)
Definition step_words (s : dvars) : dvars :=
  let z := dzeta s in
  if Z.odd (dg s) then
    if z <? 0 then
      mkdv (- z - 2) (dg s) (w64 (dg s - df s) / 2) (w64 (2 * dq s)) (w64 (2 * dr s)) (w64 (dq s - du s)) (w64 (dr s - dv s))
    else
      mkdv (z - 1) (df s) (w64 (dg s + df s) / 2) (w64 (2 * du s)) (w64 (2 * dv s)) (w64 (dq s + du s)) (w64 (dr s + dv s))
  else mkdv (z - 1) (df s) (dg s / 2) (w64 (2 * du s)) (w64 (2 * dv s)) (dq s) (dr s).

Definition words7 (s : dvars) : Prop :=
  word (df s) /\ word (dg s) /\ word (du s) /\ word (dv s) /\ word (dq s) /\ word (dr s).

Lemma divstep_59_eq s : words7 s -> - 2 ^ 62 <= dzeta s < 2 ^ 62 -> divstep_59 s = step_words s.
Proof.
  intros (Hf & Hg & Hu & Hv & Hq & Hr) Hz. destruct s as [z f g u v q r]. cbn [dzeta df dg du dv dq dr] in *.
  unfold divstep_59, step_words. cbn [dzeta df dg du dv dq dr].
  rewrite sign_mask by lia. rewrite land_1_odd.
  assert (Hzz : forall b, to_i64 (w64 (Z.lxor (w64 z) (if b : bool then ones else 0) - 1)) = if b then - z - 2 else z - 1).
  { intros b. rewrite to_i64_w64. destruct b.
    - unfold ones. rewrite lxor_ones by apply w64_range. unfold not64.
      replace (2 ^ 64 - 1 - w64 z - 1) with (2 ^ 64 - 2 - w64 z) by ring.
      rewrite <- to_i64_w64, w64_sub_w64, to_i64_w64.
      replace (2 ^ 64 - 2 - z) with (- z - 2 + 1 * 2 ^ 64) by ring.
      rewrite <- to_i64_w64. unfold w64 at 1. rewrite Z.mod_add by discriminate. change ((- z - 2) mod 2 ^ 64) with (w64 (- z - 2)).
      rewrite to_i64_w64. apply to_i64_id. unfold is_i64. lia.
    - rewrite Z.lxor_0_r, <- to_i64_w64. unfold Z.sub at 1. rewrite w64_add_w64l, to_i64_w64.
      apply to_i64_id. unfold is_i64. lia. }
  assert (Rg : w64 (g + 0) = g) by (rewrite Z.add_0_r; apply w64_id, Hg).
  assert (Rq : w64 (q + 0) = q) by (rewrite Z.add_0_r; apply w64_id, Hq).
  assert (Rr : w64 (r + 0) = r) by (rewrite Z.add_0_r; apply w64_id, Hr).
  assert (Rf : w64 (f + 0) = f) by (rewrite Z.add_0_r; apply w64_id, Hf).
  assert (Ru : w64 (u + 0) = u) by (rewrite Z.add_0_r; apply w64_id, Hu).
  assert (Rv : w64 (v + 0) = v) by (rewrite Z.add_0_r; apply w64_id, Hv).
  destruct (Z.odd g); destruct (z <? 0); change (- (1)) with (-1); change (- (0)) with 0; rewrite ?w64_m1, ?w64_0;
    cbv zeta; rewrite ?lxor_mask_neg, ?lxor_mask_0 by assumption;
    rewrite ?Z.land_0_r, ?Z.land_0_l; rewrite ?(land_ones_word ones) by (unfold word, ones; lia);
    rewrite ?land_ones_word by (apply w64_word || assumption);
    rewrite ?(Hzz true), ?(Hzz false), ?Rg, ?Rq, ?Rr, ?Rf, ?Ru, ?Rv, ?w64_shl1, ?shiftr_div by lia;
    change (2 ^ 1) with 2; rewrite ?w64_add_w64.
  - assert (E : forall a b, word a -> word b -> w64 (a + (b + w64 (- a))) = b).
    { intros a b Ha Hb. rewrite Z.add_assoc, w64_add_w64. replace (a + b + - a) with b by ring. apply w64_id, Hb. }
    rewrite !E by assumption. reflexivity.
  - reflexivity.
  - reflexivity.
  - reflexivity.
Qed.

(** What the words stand for after j steps from (c0, F0, G0). *)
Definition cong (k a b : Z) : Prop := (2 ^ k | a - b).

Lemma cong_refl k a : cong k a a. Proof. unfold cong. rewrite Z.sub_diag. apply Z.divide_0_r. Qed.
Lemma cong_add k a b c d : cong k a b -> cong k c d -> cong k (a + c) (b + d).
Proof. unfold cong. intros H1 H2. replace (a + c - (b + d)) with ((a - b) + (c - d)) by ring. now apply Z.divide_add_r. Qed.
Lemma cong_opp k a b : cong k a b -> cong k (- a) (- b).
Proof. unfold cong. intros H. replace (- a - - b) with (- (a - b)) by ring. now apply Z.divide_opp_r. Qed.
Lemma cong_sub k a b c d : cong k a b -> cong k c d -> cong k (a - c) (b - d).
Proof. intros. apply cong_add; [assumption|]. now apply cong_opp. Qed.
Lemma cong_mul k a b c d : cong k a b -> cong k c d -> cong k (a * c) (b * d).
Proof. unfold cong. intros H1 H2. replace (a * c - b * d) with ((a - b) * c + b * (c - d)) by ring. apply Z.divide_add_r; [now apply Z.divide_mul_l|now apply Z.divide_mul_r]. Qed.
Lemma cong_trans k a b c : cong k a b -> cong k b c -> cong k a c.
Proof. unfold cong. intros H1 H2. replace (a - c) with ((a - b) + (b - c)) by ring. now apply Z.divide_add_r. Qed.
Lemma cong_sym k a b : cong k a b -> cong k b a.
Proof. unfold cong. intros H. replace (b - a) with (- (a - b)) by ring. now apply Z.divide_opp_r. Qed.
Lemma cong_le k k' a b : 0 <= k <= k' -> cong k' a b -> cong k a b.
Proof.
  unfold cong. intros Hk H. eapply Z.divide_trans; [|exact H]. exists (2 ^ (k' - k)).
  rewrite <- Z.pow_add_r by lia. f_equal. lia.
Qed.
Lemma cong_w64 k a : 0 <= k <= 64 -> cong k (w64 a) a.
Proof.
  intros Hk. apply (cong_le k 64); [lia|]. unfold cong, w64. exists (- (a / 2 ^ 64)).
  pose proof (Z.div_mod a (2 ^ 64)). lia.
Qed.
Lemma cong_odd k a b : 1 <= k -> cong k a b -> Z.odd a = Z.odd b.
Proof.
  intros Hk H. apply (cong_le 1) in H; [|lia]. destruct H as [q Hq]. change (2 ^ 1) with 2 in Hq.
  replace a with (b + 2 * q) by lia. rewrite Z.odd_add, Z.odd_mul. change (Z.odd 2) with false. cbn [andb]. apply xorb_false_r.
Qed.
Lemma cong_half k a b : 1 <= k -> cong k a b -> Z.odd a = false -> cong (k - 1) (a / 2) (b / 2).
Proof.
  intros Hk H Ha. pose proof (cong_odd _ _ _ Hk H) as Hb. rewrite Ha in Hb. symmetry in Hb.
  rewrite Zodd_even_bool in Ha, Hb. apply negb_false_iff, Z.even_spec in Ha. apply negb_false_iff, Z.even_spec in Hb.
  destruct Ha as [a' ->], Hb as [b' ->]. rewrite !(Z.mul_comm 2), !Z.div_mul by lia.
  destruct H as [q Hq]. exists q. replace (2 ^ k) with (2 * 2 ^ (k - 1)) in Hq; [lia|].
  replace k with (Z.succ (k - 1)) at 2 by lia. rewrite Z.pow_succ_r by lia. reflexivity.
Qed.

(** Integers, as opposed to the words: one step of matrix and values. *)
Record ivars : Type := mkiv { ic : Z; iF : Z; iG : Z; iU : Z; iV : Z; iQ : Z; iR : Z }.

Definition lin_ok (F0 G0 k : Z) (t : ivars) : Prop :=
  iU t * F0 + iV t * G0 = 2 ^ k * iF t /\ iQ t * F0 + iR t * G0 = 2 ^ k * iG t /\
  Z.abs (iU t) + Z.abs (iV t) <= 2 ^ k /\ Z.abs (iQ t) + Z.abs (iR t) <= 2 ^ k.

Definition reps (k : Z) (s : dvars) (t : ivars) : Prop :=
  dzeta s = ic t /\ words7 s /\ cong k (df s) (iF t) /\ cong k (dg s) (iG t) /\
  du s = w64 (iU t) /\ dv s = w64 (iV t) /\ dq s = w64 (iQ t) /\ dr s = w64 (iR t).

Definition istep (t : ivars) : ivars :=
  if Z.odd (iG t) then
    if ic t <? 0 then
      mkiv (- ic t - 2) (iG t) ((iG t - iF t) / 2) (2 * iQ t) (2 * iR t) (iQ t - iU t) (iR t - iV t)
    else mkiv (ic t - 1) (iF t) ((iG t + iF t) / 2) (2 * iU t) (2 * iV t) (iQ t + iU t) (iR t + iV t)
  else mkiv (ic t - 1) (iF t) (iG t / 2) (2 * iU t) (2 * iV t) (iQ t) (iR t).

Definition core (t : ivars) : Z * Z * Z := (ic t, iF t, iG t).
Lemma istep_core t : core (istep t) = dstep 1 (core t).
Proof. destruct t as [c F G U V Q R]. unfold istep, core, dstep. cbn. destruct (Z.odd G), (c <? 0); reflexivity. Qed.

Lemma even_half a : Z.odd a = false -> 2 * (a / 2) = a.
Proof.
  intros H. rewrite Zodd_even_bool in H. apply negb_false_iff, Z.even_spec in H. destruct H as [b ->].
  rewrite (Z.mul_comm 2 b), Z.div_mul by lia. ring.
Qed.

Lemma istep_lin F0 G0 k t : 0 <= k -> Z.odd (iF t) = true -> lin_ok F0 G0 k t -> lin_ok F0 G0 (k + 1) (istep t).
Proof.
  intros Hk Of (E1 & E2 & B1 & B2). unfold lin_ok, istep.
  rewrite Z.pow_add_r, Z.pow_1_r by lia. set (p2 := 2 ^ k) in *. clearbody p2.
  destruct (Z.odd (iG t)) eqn:Og; [destruct (ic t <? 0)|]; cbn [iU iV iQ iR iF iG].
  - pose proof (even_half (iG t - iF t)) as Hh. rewrite Z.odd_sub, Og, Of in Hh. specialize (Hh eq_refl).
    repeat split; try lia.
  - pose proof (even_half (iG t + iF t)) as Hh. rewrite Z.odd_add, Og, Of in Hh. specialize (Hh eq_refl).
    repeat split; try lia.
  - pose proof (even_half (iG t) Og) as Hh. repeat split; try lia.
Qed.

Lemma istep_odd t : Z.odd (iF t) = true -> Z.odd (iF (istep t)) = true.
Proof. intros H. unfold istep. destruct (Z.odd (iG t)) eqn:Og; [destruct (ic t <? 0)|]; cbn [iF]; assumption. Qed.

Lemma istep_bound t B : - B <= ic t <= B -> - (B + 2) <= ic (istep t) <= B + 2.
Proof. intros H. unfold istep. destruct (Z.odd (iG t)); [destruct (ic t <? 0)|]; cbn [ic]; lia. Qed.

Lemma word_half x : word x -> word (x / 2).
Proof. unfold word. intros H. split; [apply Z.div_pos; lia|]. apply Z.div_lt_upper_bound; lia. Qed.

Lemma step_reps k s t : 1 <= k <= 64 -> Z.odd (iF t) = true -> - 2 ^ 62 <= ic t < 2 ^ 62 -> reps k s t ->
  reps (k - 1) (divstep_59 s) (istep t).
Proof.
  intros Hk Of Hc (Ez & Hw & Cf & Cg & Eu & Ev & Eq & Er).
  rewrite divstep_59_eq by (assumption || lia). destruct Hw as (Hf & Hg & Hu & Hv & Hq & Hr).
  pose proof (cong_odd k _ _ ltac:(lia) Cf) as Of'. rewrite Of in Of'.
  pose proof (cong_odd k _ _ ltac:(lia) Cg) as Og'.
  unfold step_words, istep. rewrite Og', Ez.
  destruct (Z.odd (iG t)) eqn:Og; [destruct (ic t <? 0)|].
  - assert (Hd : cong k (w64 (dg s - df s)) (iG t - iF t)).
    { eapply cong_trans; [apply cong_w64; lia|]. now apply cong_sub. }
    refine (conj eq_refl (conj _ (conj _ (conj _ (conj _ (conj _ (conj _ _))))))); cbn [df dg du dv dq dr iF iG iU iV iQ iR].
    + repeat split; cbn [df dg du dv dq dr]; try apply w64_word; try apply word_half, w64_word; try apply Hg.
    + apply (cong_le (k - 1) k); [lia|exact Cg].
    + apply cong_half; [lia|exact Hd|]. rewrite (cong_odd k _ _ ltac:(lia) Hd), Z.odd_sub, Og, Of. reflexivity.
    + rewrite Eq, Z.mul_comm, w64_mul_l. f_equal. ring.
    + rewrite Er, Z.mul_comm, w64_mul_l. f_equal. ring.
    + rewrite Eq, Eu, w64_sub_w64. unfold Z.sub. now rewrite w64_add_w64l.
    + rewrite Er, Ev, w64_sub_w64. unfold Z.sub. now rewrite w64_add_w64l.
  - assert (Hd : cong k (w64 (dg s + df s)) (iG t + iF t)).
    { eapply cong_trans; [apply cong_w64; lia|]. now apply cong_add. }
    refine (conj eq_refl (conj _ (conj _ (conj _ (conj _ (conj _ (conj _ _))))))); cbn [df dg du dv dq dr iF iG iU iV iQ iR].
    + repeat split; cbn [df dg du dv dq dr]; try apply w64_word; try apply word_half, w64_word; try apply Hf.
    + apply (cong_le (k - 1) k); [lia|exact Cf].
    + apply cong_half; [lia|exact Hd|]. rewrite (cong_odd k _ _ ltac:(lia) Hd), Z.odd_add, Og, Of. reflexivity.
    + rewrite Eu, Z.mul_comm, w64_mul_l. f_equal. ring.
    + rewrite Ev, Z.mul_comm, w64_mul_l. f_equal. ring.
    + rewrite Eq, Eu. apply w64_add.
    + rewrite Er, Ev. apply w64_add.
  - refine (conj eq_refl (conj _ (conj _ (conj _ (conj _ (conj _ (conj _ _))))))); cbn [df dg du dv dq dr iF iG iU iV iQ iR].
    + repeat split; cbn [df dg du dv dq dr]; try apply w64_word; try apply (word_half (dg s) Hg); try apply Hf; try apply Hq; try apply Hr.
    + apply (cong_le (k - 1) k); [lia|exact Cf].
    + apply cong_half; [lia|exact Cg|]. rewrite (cong_odd k _ _ ltac:(lia) Cg). exact Og.
    + rewrite Eu, Z.mul_comm, w64_mul_l. f_equal. ring.
    + rewrite Ev, Z.mul_comm, w64_mul_l. f_equal. ring.
    + exact Eq.
    + exact Er.
Qed.

Lemma loop_reps F0 G0 : forall j k m s t, Z.of_nat j <= k <= 64 -> 0 <= m -> Z.odd (iF t) = true ->
  - (2 ^ 61 - 2 * Z.of_nat j) <= ic t <= 2 ^ 61 - 2 * Z.of_nat j ->
  reps k s t -> lin_ok F0 G0 m t ->
  exists t', reps (k - Z.of_nat j) (divstep_loop j s) t' /\ lin_ok F0 G0 (m + Z.of_nat j) t' /\
    core t' = dsteps 1 j (core t) /\ Z.odd (iF t') = true.
Proof.
  induction j as [|j IH]; intros k m s t Hk Hm Of Hc Hr Hl.
  - exists t. rewrite Z.sub_0_r, Z.add_0_r. auto.
  - rewrite Nat2Z.inj_succ in *. cbn [divstep_loop dsteps].
    destruct (IH (k - 1) (m + 1) (divstep_59 s) (istep t)) as (t' & A1 & A2 & A3 & A4).
    + lia.
    + lia.
    + now apply istep_odd.
    + pose proof (istep_bound t (2 ^ 61 - 2 * Z.succ (Z.of_nat j)) ltac:(lia)). lia.
    + apply step_reps; auto; lia.
    + apply istep_lin; auto.
    + exists t'. replace (k - Z.succ (Z.of_nat j)) with (k - 1 - Z.of_nat j) by lia.
      replace (m + Z.succ (Z.of_nat j)) with (m + 1 + Z.of_nat j) by lia.
      rewrite <- istep_core. auto.
Qed.

(** The matrix of 59 constant time steps, scaled by 2^62. *)
Theorem divsteps_59_ok zeta F0 G0 f0 g0 : Z.odd F0 = true -> - 2 ^ 60 <= zeta <= 2 ^ 60 ->
  word f0 -> word g0 -> cong 62 f0 F0 -> cong 62 g0 G0 ->
  exists F G zeta', dsteps 1 59 (zeta, F0, G0) = (zeta', F, G) /\ fst (divsteps_59 zeta f0 g0) = zeta' /\
  let t := snd (divsteps_59 zeta f0 g0) in
  tu t * F0 + tv t * G0 = 2 ^ 62 * F /\ tq t * F0 + tr t * G0 = 2 ^ 62 * G /\
  Z.abs (tu t) + Z.abs (tv t) <= 2 ^ 62 /\ Z.abs (tq t) + Z.abs (tr t) <= 2 ^ 62.
Proof.
  intros Of Hz Wf Wg Cf Cg.
  destruct (loop_reps F0 G0 59 62 3 (mkdv zeta f0 g0 8 0 0 8) (mkiv zeta F0 G0 8 0 0 8)) as (t' & A1 & A2 & A3 & A4).
  - cbn. lia.
  - lia.
  - exact Of.
  - cbn [ic]. lia.
  - refine (conj eq_refl (conj _ (conj Cf (conj Cg _)))); [|repeat split].
    repeat split; cbn [df dg du dv dq dr]; try apply Wf; try apply Wg; lia.
  - unfold lin_ok. cbn [iU iV iQ iR iF iG]. change (2 ^ 3) with 8. repeat split; lia.
  - unfold core in A3. cbn [ic iF iG] in A3.
    exists (iF t'), (iG t'), (ic t'). split; [now symmetry|].
    unfold divsteps_59. set (s := divstep_loop 59 _) in *. clearbody s. cbn [fst snd tu tv tq tr].
    destruct A1 as (E1 & _ & _ & _ & E2 & E3 & E4 & E5). split; [exact E1|].
    rewrite E2, E3, E4, E5, !to_i64_w64. change (3 + Z.of_nat 59) with 62 in A2.
    destruct A2 as (B1 & B2 & B3 & B4).
    rewrite !to_i64_id by (unfold is_i64; lia). auto.
Qed.
