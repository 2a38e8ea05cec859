(** The limb multiplication and squaring: values modulo p and limb bounds. *)
Require Import ZArith List Bool Lia Znumtheory.
From Verif Require Import Word Spec  FieldModel.
Import ListNotations.
Local Open Scope Z_scope.

(** src/field_5x52.h:25-33: the magnitude and normalization invariants. *)
Definition fe_mag (m : Z) (a : fe) : Prop :=
  0 <= n0 a <= 2 * m * M52 /\ 0 <= n1 a <= 2 * m * M52 /\ 0 <= n2 a <= 2 * m * M52 /\
  0 <= n3 a <= 2 * m * M52 /\ 0 <= n4 a <= 2 * m * M48.
Definition fe_norm (a : fe) : Prop :=
  0 <= n0 a <= M52 /\ 0 <= n1 a <= M52 /\ 0 <= n2 a <= M52 /\ 0 <= n3 a <= M52 /\ 0 <= n4 a <= M48 /\
  fval a < p.

Lemma p_val : p = 0xFFFFFFFFFFFFFFFFFFFFFFFFFFFFFFFFFFFFFFFFFFFFFFFFFFFFFFFEFFFFFC2F.
Proof. reflexivity. Qed.

(** Literal forms of the constants, for lia. *)
Ltac fconst :=
  change M52 with 4503599627370495 in *; change M48 with 281474976710655 in *;
  change P0 with 4503595332402223 in *; change RED with 4294968273 in *;
  change R52 with 68719492368 in *;
  change (2 ^ 52) with 4503599627370496 in *; change (2 ^ 48) with 281474976710656 in *;
  change (2 ^ 64) with 18446744073709551616 in *;
  change (2 ^ 128) with 340282366920938463463374607431768211456 in *.

(** Steps of the accumulator proofs. *)
Lemma s_mul d a b v : d = u128_mul a b -> v = a * b -> 0 <= v < 2 ^ 128 -> d = v.
Proof. unfold u128_mul. intros -> -> H. now apply w128_id. Qed.
Lemma s_acc d d' a b v : d = u128_accum_mul d' a b -> v = d' + a * b -> 0 <= v < 2 ^ 128 -> d = v.
Proof. unfold u128_accum_mul. intros -> -> H. now apply w128_id. Qed.

Lemma land_w64_52 x : Z.land (w64 x) M52 = x mod 2 ^ 52.
Proof.
  unfold w64, M52. rewrite land_ones_mod by lia.
  change (2 ^ 64) with (2 ^ 52 * 2 ^ 12). rewrite Z.rem_mul_r by (compute; congruence || reflexivity).
  rewrite (Z.mul_comm (2 ^ 52)), Z_mod_plus_full. apply Zmod_mod.
Qed.

Lemma split52 x : 0 <= x -> exists q r, x = q * 2 ^ 52 + r /\ 0 <= r < 2 ^ 52 /\ 0 <= q /\
  u128_rshift x 52 = q /\ Z.land (u128_to_u64 x) M52 = r.
Proof.
  intros Hx. exists (x / 2 ^ 52), (x mod 2 ^ 52). unfold u128_to_u64. rewrite land_w64_52.
  repeat split; try (apply Z.mod_pos_bound; reflexivity).
  - rewrite Z.mul_comm. apply Z.div_mod. discriminate.
  - apply Z.div_pos; [lia|reflexivity].
  - unfold u128_rshift. now apply shiftr_div.
Qed.

Lemma split64 x : 0 <= x -> exists q r, x = q * 2 ^ 64 + r /\ 0 <= r < 2 ^ 64 /\ 0 <= q /\
  u128_rshift x 64 = q /\ u128_to_u64 x = r.
Proof.
  intros Hx. exists (x / 2 ^ 64), (x mod 2 ^ 64). 
  repeat split; try (apply Z.mod_pos_bound; reflexivity).
  - rewrite Z.mul_comm. apply Z.div_mod. discriminate.
  - apply Z.div_pos; [lia|reflexivity].
  - unfold u128_rshift. now apply shiftr_div.
Qed.

Lemma prod_bound a b A B : 0 <= a <= A -> 0 <= b <= B -> 0 <= a * b <= A * B.
Proof. intros. nia. Qed.

(** The generic accumulator algorithm: everything in terms of the nine column sums. *)
Lemma reduce_columns p0 p1 p2 p3 p4 p5 p6 p7 c8 r0 r1 r2 r3 r4 t3 q3 t4 q4 tx t4' u0 q5 d6 q6 d7h d7l
  c8h c8l c1 c2 c3 c4 :
  c8 = c8h * 2 ^ 64 + c8l ->
  p3 + R52 * c8l = q3 * 2 ^ 52 + t3 ->
  q3 + p4 + R52 * 2 ^ 12 * c8h = q4 * 2 ^ 52 + t4 ->
  t4 = tx * 2 ^ 48 + t4' ->
  q4 + p5 = q5 * 2 ^ 52 + u0 ->
  p0 + (tx + u0 * 2 ^ 4) * RED = c1 * 2 ^ 52 + r0 ->
  q5 + p6 = q6 * 2 ^ 52 + d6 ->
  c1 + p1 + d6 * R52 = c2 * 2 ^ 52 + r1 ->
  q6 + p7 = d7h * 2 ^ 64 + d7l ->
  c2 + p2 + R52 * d7l = c3 * 2 ^ 52 + r2 ->
  c3 + R52 * 2 ^ 12 * d7h + t3 = c4 * 2 ^ 52 + r3 ->
  r4 = c4 + t4' ->
  exists k, p0 + p1 * 2 ^ 52 + p2 * 2 ^ 104 + p3 * 2 ^ 156 + p4 * 2 ^ 208 + p5 * 2 ^ 260 + p6 * 2 ^ 312
    + p7 * 2 ^ 364 + c8 * 2 ^ 416 = r0 + r1 * 2 ^ 52 + r2 * 2 ^ 104 + r3 * 2 ^ 156 + r4 * 2 ^ 208 + k * p.
Proof.
  intros. exists (16 * (c8l * 2 ^ 156 + c8h * 2 ^ 220) + (tx + u0 * 2 ^ 4) + 16 * (d6 * 2 ^ 52 + d7l * 2 ^ 104 + d7h * 2 ^ 168)).
  change p with 0xFFFFFFFFFFFFFFFFFFFFFFFFFFFFFFFFFFFFFFFFFFFFFFFFFFFFFFFEFFFFFC2F.
  change R52 with 0x1000003D10 in *. change RED with 0x1000003D1 in *.
  lia.
Qed.

(** Bounds for multiplication inputs: magnitude 8. *)
Definition mul_in (a : fe) : Prop :=
  0 <= n0 a < 2 ^ 56 /\ 0 <= n1 a < 2 ^ 56 /\ 0 <= n2 a < 2 ^ 56 /\ 0 <= n3 a < 2 ^ 56 /\ 0 <= n4 a < 2 ^ 52.

Lemma mag_mul_in m a : fe_mag m a -> m <= 8 -> mul_in a.
Proof. unfold fe_mag, mul_in. fconst. change (2 ^ 56) with 72057594037927936. lia. Qed.

Lemma u0_merge u tx : 0 <= u < 2 ^ 52 -> 0 <= tx < 2 ^ 4 -> Z.lor (w64 (Z.shiftl u 4)) tx = tx + u * 2 ^ 4.
Proof.
  intros Hu Htx. rewrite Z.shiftl_mul_pow2 by lia. rewrite w64_id.
  - apply lor_disjoint'; lia.
  - change (2 ^ 4) with 16. change (2 ^ 52) with 4503599627370496 in *. change (2 ^ 64) with 18446744073709551616. lia.
Qed.

Lemma split48 t : 0 <= t < 2 ^ 52 -> exists tx t', t = tx * 2 ^ 48 + t' /\ 0 <= t' < 2 ^ 48 /\ 0 <= tx < 2 ^ 4 /\
  Z.shiftr t 48 = tx /\ Z.land t (Z.shiftr M52 4) = t'.
Proof.
  intros Ht. change (Z.shiftr M52 4) with (2 ^ 48 - 1).
  destruct (split_word t 48) as (q & r & E & Hr & Hq & E1 & E2); [lia|lia|].
  exists q, r. change (2 ^ 4) with 16. fconst. repeat split; try assumption; lia.
Qed.


(** Interval propagation: every variable has a hypothesis [0 <= v <= N] with a
    literal [N]; each step computes the bound of its result. *)
Lemma acc_b x d a b D A B : x = u128_accum_mul d a b -> 0 <= d <= D -> 0 <= a <= A -> 0 <= b <= B ->
  (D + A * B <? 2 ^ 128) = true -> x = d + a * b /\ 0 <= x <= D + A * B.
Proof.
  intros -> Hd Ha Hb HX. apply Z.ltb_lt in HX. unfold u128_accum_mul.
  pose proof (prod_bound a b A B Ha Hb). rewrite w128_id by lia. lia.
Qed.
Lemma acu_b x d a D A : x = u128_accum_u64 d a -> 0 <= d <= D -> 0 <= a <= A ->
  (D + A <? 2 ^ 128) = true -> x = d + a /\ 0 <= x <= D + A.
Proof.
  intros -> Hd Ha HX. apply Z.ltb_lt in HX. unfold u128_accum_u64. rewrite w128_id by lia. lia.
Qed.
Lemma mul_b x a b A B : x = u128_mul a b -> 0 <= a <= A -> 0 <= b <= B ->
  (A * B <? 2 ^ 128) = true -> x = a * b /\ 0 <= x <= A * B.
Proof.
  intros -> Ha Hb HX. apply Z.ltb_lt in HX. unfold u128_mul.
  pose proof (prod_bound a b A B Ha Hb). rewrite w128_id by lia. lia.
Qed.
Lemma dbl_b x a A : x = w64 (a * 2) -> 0 <= a <= A -> (A * 2 <? 2 ^ 64) = true -> x = a * 2 /\ 0 <= x <= A * 2.
Proof. intros -> Ha HX. apply Z.ltb_lt in HX. rewrite w64_id by lia. lia. Qed.
Lemma split52_b x X : 0 <= x <= X -> exists q r, x = q * 2 ^ 52 + r /\
  u128_rshift x 52 = q /\ Z.land (u128_to_u64 x) M52 = r /\ 0 <= r <= 2 ^ 52 - 1 /\ 0 <= q <= X / 2 ^ 52.
Proof.
  intros H. destruct (split52 x) as (q & r & E & H1 & H2 & E1 & E2); [lia|].
  exists q, r. repeat split; try assumption; try lia.
  rewrite <- E1. unfold u128_rshift. rewrite shiftr_div by lia. apply Z.div_le_mono; [reflexivity|lia].
Qed.
Lemma split64_b x X : 0 <= x <= X -> (X / 2 ^ 64 <? 2 ^ 64) = true -> exists q r, x = q * 2 ^ 64 + r /\
  u128_rshift x 64 = q /\ u128_to_u64 x = r /\ u128_to_u64 q = q /\ 0 <= r <= 2 ^ 64 - 1 /\ 0 <= q <= X / 2 ^ 64.
Proof.
  intros H HX. apply Z.ltb_lt in HX. destruct (split64 x) as (q & r & E & H1 & H2 & E1 & E2); [lia|].
  assert (q <= X / 2 ^ 64).
  { rewrite <- E1. unfold u128_rshift. rewrite shiftr_div by lia. apply Z.div_le_mono; [reflexivity|lia]. }
  exists q, r. repeat split; try assumption; try lia. apply w64_id. lia.
Qed.

Ltac norm_bound H :=
  match type of H with 0 <= ?x <= ?B => let B' := eval vm_compute in B in change (0 <= x <= B') in H end.
Ltac bnd v k :=
  lazymatch v with
  | R52 => let H := fresh in assert (H : 0 <= R52 <= 68719492368) by (split; discriminate); k H
  | RED => let H := fresh in assert (H : 0 <= RED <= 4294968273) by (split; discriminate); k H
  | R52 * 2 ^ 12 => let H := fresh in assert (H : 0 <= R52 * 2 ^ 12 <= 281475040739328) by (split; discriminate); k H
  | _ => match goal with H : 0 <= v <= _ |- _ => k H end
  end.
Ltac fin E x T := 
  let B := fresh "B" x in destruct T as [E B]; norm_bound B.
Ltac step_acc E :=
  lazymatch type of E with
  | ?x = u128_accum_mul ?d ?a ?b =>
    bnd d ltac:(fun Hd => bnd a ltac:(fun Ha => bnd b ltac:(fun Hb =>
      let T := fresh in pose proof (acc_b _ _ _ _ _ _ _ E Hd Ha Hb eq_refl) as T; clear E; fin E x T)))
  | ?x = u128_accum_u64 ?d ?a =>
    bnd d ltac:(fun Hd => bnd a ltac:(fun Ha =>
      let T := fresh in pose proof (acu_b _ _ _ _ _ E Hd Ha eq_refl) as T; clear E; fin E x T))
  | ?x = u128_mul ?a ?b =>
    bnd a ltac:(fun Ha => bnd b ltac:(fun Hb =>
      let T := fresh in pose proof (mul_b _ _ _ _ _ E Ha Hb eq_refl) as T; clear E; fin E x T))
  | ?x = w64 (?a * 2) =>
    bnd a ltac:(fun Ha =>
      let T := fresh in pose proof (dbl_b _ _ _ E Ha eq_refl) as T; clear E; fin E x T)
  end.
Ltac step_split52 x q r S Eq Er :=
  bnd x ltac:(fun Hx =>
    let H1 := fresh "B" in let H2 := fresh "B" in
    destruct (split52_b x _ Hx) as (q & r & S & Eq & Er & H1 & H2); norm_bound H1; norm_bound H2).
Ltac step_split64 x q r S Eq Er Eq' :=
  bnd x ltac:(fun Hx =>
    let H1 := fresh "B" in let H2 := fresh "B" in
    destruct (split64_b x _ Hx eq_refl) as (q & r & S & Eq & Er & Eq' & H1 & H2); norm_bound H1; norm_bound H2).

Lemma lt_le x N : 0 <= x < N -> 0 <= x <= N - 1.
Proof. lia. Qed.

Lemma fe_mul_inner_ok a b : mul_in a -> mul_in b -> forall r, fe_mul a b = r ->
  (exists k, fval a * fval b = fval r + k * p) /\
  0 <= n0 r <= M52 /\ 0 <= n1 r <= M52 /\ 0 <= n2 r <= M52 /\ 0 <= n3 r <= M52 /\ 0 <= n4 r <= 2 * M48.
Proof.
  destruct a as [a0 a1 a2 a3 a4], b as [b0 b1 b2 b3 b4]. unfold mul_in, fval.
  cbn [n0 n1 n2 n3 n4]. intros (A0 & A1 & A2 & A3 & A4) (B0 & B1 & B2 & B3 & B4) r H.
  apply lt_le in A0, A1, A2, A3, A4, B0, B1, B2, B3, B4.
  norm_bound A0. norm_bound A1. norm_bound A2. norm_bound A3. norm_bound A4.
  norm_bound B0. norm_bound B1. norm_bound B2. norm_bound B3. norm_bound B4.
  change (fe_mul_inner a0 a1 a2 a3 a4 b0 b1 b2 b3 b4 = r) in H. cbv beta delta [fe_mul_inner] in H.
  let_steps H.
  change (w64 (Z.shiftl R52 12)) with (R52 * 2 ^ 12) in *. change (Z.shiftr R52 4) with RED in *.
  step_acc Ed_1. step_acc Ed_2. step_acc Ed_3. step_acc Ed_4. step_acc Ec_1.
  step_split64 c_1 c8h c8l S8 X1 X2 X3. rewrite X1 in Ec_2. subst c_2. rewrite X2 in Ed_5. rewrite X3 in Ed_12.
  step_acc Ed_5.
  step_split52 d_5 q3 t3 S3 Y1 Y2. rewrite Y1 in Ed_6. rewrite Y2 in Et3_1. subst d_6 t3_1.
  step_acc Ed_7. step_acc Ed_8. step_acc Ed_9. step_acc Ed_10. step_acc Ed_11. step_acc Ed_12.
  step_split52 d_12 q4 t4 S4 Y3 Y4. rewrite Y3 in Ed_13. rewrite Y4 in Et4_1. subst d_13 t4_1.
  destruct (split48 t4) as (tx & t4' & S4' & H4' & Htx & E7 & E8); [lia|].
  rewrite E7 in Etx_1. rewrite E8 in Et4_2. subst tx_1 t4_2.
  step_acc Ec_3. step_acc Ed_14. step_acc Ed_15. step_acc Ed_16. step_acc Ed_17.
  step_split52 d_17 q5 u0 S5 Y5 Y6. rewrite Y5 in Ed_18. rewrite Y6 in Eu0_1. subst d_18 u0_1.
  rewrite (u0_merge u0 tx) in Eu0_2 by lia.
  assert (BU : 0 <= u0_2 <= 72057594037927935) by (change (2 ^ 4) with 16 in *; lia).
  step_acc Ec_4.
  step_split52 c_4 c1 r0' S0 Y7 Y8. rewrite Y7 in Ec_5. rewrite Y8 in Er0. subst c_5 r0.
  step_acc Ec_6. step_acc Ec_7. step_acc Ed_19. step_acc Ed_20. step_acc Ed_21.
  step_split52 d_21 q6 d6 S6 Y9 Y10. rewrite Y9 in Ed_22. rewrite Y10 in Ec_8. subst d_22.
  step_acc Ec_8.
  step_split52 c_8 c2 r1' S1 Y11 Y12. rewrite Y11 in Ec_9. rewrite Y12 in Er1. subst c_9 r1.
  step_acc Ec_10. step_acc Ec_11. step_acc Ec_12. step_acc Ed_23. step_acc Ed_24.
  step_split64 d_24 d7h d7l S7 X4 X5 X6. rewrite X4 in Ed_25. subst d_25. rewrite X5 in Ec_13. rewrite X6 in Ec_15.
  step_acc Ec_13.
  step_split52 c_13 c3 r2' S2 Y13 Y14. rewrite Y13 in Ec_14. rewrite Y14 in Er2. subst c_14 r2.
  step_acc Ec_15. step_acc Ec_16.
  step_split52 c_16 c4 r3' SS3 Y15 Y16. rewrite Y15 in Ec_17. rewrite Y16 in Er3. subst c_17 r3.
  bnd c4 ltac:(fun Hc4 => assert (C4 : u128_to_u64 c4 = c4) by (apply w64_id; clear - Hc4; lia);
    rewrite C4 in Er4; rewrite w64_id in Er4 by (clear - Hc4 H4'; lia);
    assert (BR4 : 0 <= r4 <= 2 * M48) by (clear - Hc4 H4' Er4; change M48 with 281474976710655; lia)).
  rewrite <- H. cbn [n0 n1 n2 n3 n4]. change M52 with 4503599627370495.
  split; [|repeat split; lia].
  destruct (reduce_columns (a0 * b0) (a0 * b1 + a1 * b0) (a0 * b2 + a1 * b1 + a2 * b0)
    (a0 * b3 + a1 * b2 + a2 * b1 + a3 * b0) (a0 * b4 + a1 * b3 + a2 * b2 + a3 * b1 + a4 * b0)
    (a1 * b4 + a2 * b3 + a3 * b2 + a4 * b1) (a2 * b4 + a3 * b3 + a4 * b2) (a3 * b4 + a4 * b3) (a4 * b4)
    r0' r1' r2' r3' r4 t3 q3 t4 q4 tx t4' u0 q5 d6 q6 d7h d7l c8h c8l c1 c2 c3 c4) as [k Hk].
  - rewrite <- S8. symmetry. exact Ec_1.
  - rewrite <- S3, Ed_5, Ed_4, Ed_3, Ed_2, Ed_1. ring.
  - rewrite <- S4, Ed_12, Ed_11, Ed_10, Ed_9, Ed_8, Ed_7. ring.
  - exact S4'.
  - rewrite <- S5, Ed_17, Ed_16, Ed_15, Ed_14. ring.
  - rewrite <- S0, Ec_4, Ec_3, Eu0_2. ring.
  - rewrite <- S6, Ed_21, Ed_20, Ed_19. ring.
  - rewrite <- S1, Ec_8, Ec_7, Ec_6. ring.
  - rewrite <- S7, Ed_24, Ed_23. ring.
  - rewrite <- S2, Ec_13, Ec_12, Ec_11, Ec_10. ring.
  - rewrite <- SS3, Ec_16, Ec_15. ring.
  - exact Er4.
  - exists k. etransitivity; [|exact Hk]. ring.
Qed.

Lemma fe_sqr_inner_ok a : mul_in a -> forall r, fe_sqr a = r ->
  (exists k, fval a * fval a = fval r + k * p) /\
  0 <= n0 r <= M52 /\ 0 <= n1 r <= M52 /\ 0 <= n2 r <= M52 /\ 0 <= n3 r <= M52 /\ 0 <= n4 r <= 2 * M48.
Proof.
  destruct a as [a0 a1 a2 a3 a4]. unfold mul_in, fval.
  cbn [n0 n1 n2 n3 n4]. intros (A0 & A1 & A2 & A3 & A4) r H.
  apply lt_le in A0, A1, A2, A3, A4.
  norm_bound A0. norm_bound A1. norm_bound A2. norm_bound A3. norm_bound A4.
  change (fe_sqr_inner a0 a1 a2 a3 a4 = r) in H. cbv beta delta [fe_sqr_inner] in H.
  let_steps H.
  change (w64 (Z.shiftl R52 12)) with (R52 * 2 ^ 12) in *. change (Z.shiftr R52 4) with RED in *.
  assert (V0 : exists v, v = w64 (a0 * 2)) by eauto. destruct V0 as [v0 V0]. rewrite <- V0 in *. step_acc V0.
  assert (V1 : exists v, v = w64 (a1 * 2)) by eauto. destruct V1 as [v1 V1]. rewrite <- V1 in *. step_acc V1.
  assert (V2 : exists v, v = w64 (a2 * 2)) by eauto. destruct V2 as [v2 V2]. rewrite <- V2 in *. step_acc V2.
  step_acc Ea4_1.
  step_acc Ed_1. step_acc Ed_2. step_acc Ec_1.
  step_split64 c_1 c8h c8l S8 X1 X2 X3. rewrite X1 in Ec_2. subst c_2. rewrite X2 in Ed_3. rewrite X3 in Ed_8.
  step_acc Ed_3.
  step_split52 d_3 q3 t3 S3 Y1 Y2. rewrite Y1 in Ed_4. rewrite Y2 in Et3_1. subst d_4 t3_1.
  step_acc Ed_5. step_acc Ed_6. step_acc Ed_7. step_acc Ed_8.
  step_split52 d_8 q4 t4 S4 Y3 Y4. rewrite Y3 in Ed_9. rewrite Y4 in Et4_1. subst d_9 t4_1.
  destruct (split48 t4) as (tx & t4' & S4' & H4' & Htx & E7 & E8); [lia|].
  rewrite E7 in Etx_1. rewrite E8 in Et4_2. subst tx_1 t4_2.
  step_acc Ec_3. step_acc Ed_10. step_acc Ed_11.
  step_split52 d_11 q5 u0 S5 Y5 Y6. rewrite Y5 in Ed_12. rewrite Y6 in Eu0_1. subst d_12 u0_1.
  rewrite (u0_merge u0 tx) in Eu0_2 by lia.
  assert (BU : 0 <= u0_2 <= 72057594037927935) by (change (2 ^ 4) with 16 in *; lia).
  step_acc Ec_4.
  step_split52 c_4 c1 r0' S0 Y7 Y8. rewrite Y7 in Ec_5. rewrite Y8 in Er0. subst c_5 r0.
  subst a0_1. 
  step_acc Ec_6. step_acc Ed_13. step_acc Ed_14.
  step_split52 d_14 q6 d6 S6 Y9 Y10. rewrite Y9 in Ed_15. rewrite Y10 in Ec_7. subst d_15.
  step_acc Ec_7.
  step_split52 c_7 c2 r1' S1 Y11 Y12. rewrite Y11 in Ec_8. rewrite Y12 in Er1. subst c_8 r1.
  step_acc Ec_9. step_acc Ec_10. step_acc Ed_16.
  step_split64 d_16 d7h d7l S7 X4 X5 X6. rewrite X4 in Ed_17. subst d_17. rewrite X5 in Ec_11. rewrite X6 in Ec_13.
  step_acc Ec_11.
  step_split52 c_11 c3 r2' S2 Y13 Y14. rewrite Y13 in Ec_12. rewrite Y14 in Er2. subst c_12 r2.
  step_acc Ec_13. step_acc Ec_14.
  step_split52 c_14 c4 r3' SS3 Y15 Y16. rewrite Y15 in Ec_15. rewrite Y16 in Er3. subst c_15 r3.
  bnd c4 ltac:(fun Hc4 => assert (C4 : u128_to_u64 c4 = c4) by (apply w64_id; clear - Hc4; lia);
    rewrite C4 in Er4; rewrite w64_id in Er4 by (clear - Hc4 H4'; lia);
    assert (BR4 : 0 <= r4 <= 2 * M48) by (clear - Hc4 H4' Er4; change M48 with 281474976710655; lia)).
  rewrite <- H. cbn [n0 n1 n2 n3 n4]. change M52 with 4503599627370495.
  split; [|repeat split; lia].
  destruct (reduce_columns (a0 * a0) (2 * a0 * a1) (2 * a0 * a2 + a1 * a1)
    (2 * a0 * a3 + 2 * a1 * a2) (2 * a0 * a4 + 2 * a1 * a3 + a2 * a2)
    (2 * a1 * a4 + 2 * a2 * a3) (2 * a2 * a4 + a3 * a3) (2 * a3 * a4) (a4 * a4)
    r0' r1' r2' r3' r4 t3 q3 t4 q4 tx t4' u0 q5 d6 q6 d7h d7l c8h c8l c1 c2 c3 c4) as [k Hk].
  - rewrite <- S8. symmetry. exact Ec_1.
  - rewrite <- S3, Ed_3, Ed_2, Ed_1, V0, V1. ring.
  - rewrite <- S4, Ed_8, Ed_7, Ed_6, Ed_5, Ea4_1, V1. ring.
  - exact S4'.
  - rewrite <- S5, Ed_11, Ed_10, Ea4_1, V2. ring.
  - rewrite <- S0, Ec_4, Ec_3, Eu0_2. ring.
  - rewrite <- S6, Ed_14, Ed_13, Ea4_1. ring.
  - rewrite <- S1, Ec_7, Ec_6, V0. ring.
  - rewrite <- S7, Ed_16, Ea4_1. ring.
  - rewrite <- S2, Ec_11, Ec_10, Ec_9, V0. ring.
  - rewrite <- SS3, Ec_14, Ec_13. ring.
  - exact Er4.
  - exists k. etransitivity; [|exact Hk]. ring.
Qed.
