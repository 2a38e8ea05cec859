(** 32-bit field multiplication and squaring: values modulo p and limb bounds. *)
Require Import ZArith List Bool Lia.
From Verif Require Import Word Word32 Spec FieldModel Field32Model.
Import ListNotations.
Local Open Scope Z_scope.

(** src/field_10x26.h:15-17: the integer represented. *)
Definition val26 (t0 t1 t2 t3 t4 t5 t6 t7 t8 t9 : Z) : Z :=
  t0 + t1 * 2 ^ 26 + t2 * 2 ^ 52 + t3 * 2 ^ 78 + t4 * 2 ^ 104 + t5 * 2 ^ 130 + t6 * 2 ^ 156 + t7 * 2 ^ 182 + t8 * 2 ^ 208 + t9 * 2 ^ 234.
Definition f26val (a : fe26) : Z := val26 (m0 a) (m1 a) (m2 a) (m3 a) (m4 a) (m5 a) (m6 a) (m7 a) (m8 a) (m9 a).
(** src/field_10x26.h:24-32: the magnitude and normalization invariants. *)
Definition f26_mag (m : Z) (a : fe26) : Prop :=
  0 <= m0 a <= 2 * m * M26 /\ 0 <= m1 a <= 2 * m * M26 /\ 0 <= m2 a <= 2 * m * M26 /\ 0 <= m3 a <= 2 * m * M26 /\ 0 <= m4 a <= 2 * m * M26 /\ 0 <= m5 a <= 2 * m * M26 /\ 0 <= m6 a <= 2 * m * M26 /\ 0 <= m7 a <= 2 * m * M26 /\ 0 <= m8 a <= 2 * m * M26 /\ 0 <= m9 a <= 2 * m * M22.
Definition f26_norm (a : fe26) : Prop :=
  0 <= m0 a <= M26 /\ 0 <= m1 a <= M26 /\ 0 <= m2 a <= M26 /\ 0 <= m3 a <= M26 /\ 0 <= m4 a <= M26 /\ 0 <= m5 a <= M26 /\ 0 <= m6 a <= M26 /\ 0 <= m7 a <= M26 /\ 0 <= m8 a <= M26 /\ 0 <= m9 a <= M22 /\ f26val a < p.

(** Literal forms of the constants, for lia. *)
Ltac f26const :=
  change M26 with 67108863 in *; change M22 with 4194303 in *; change RA26 with 15632 in *; change RB26 with 1024 in *;
  change (2 ^ 26) with 67108864 in *; change (2 ^ 22) with 4194304 in *; change (2 ^ 32) with 4294967296 in *.
Ltac f26pow :=
  change (2 ^ 26) with 67108864 in *; change (2 ^ 52) with 4503599627370496 in *; change (2 ^ 78) with 302231454903657293676544 in *; change (2 ^ 104) with 20282409603651670423947251286016 in *; change (2 ^ 130) with 1361129467683753853853498429727072845824 in *; change (2 ^ 156) with 91343852333181432387730302044767688728495783936 in *; change (2 ^ 182) with 6129982163463555433433388108601236734474956488734408704 in *; change (2 ^ 208) with 411376139330301510538742295639337626245683966408394965837152256 in *; change (2 ^ 234) with 27606985387162255149739023449108101809804435888681546220650096895197184 in *.
Lemma p_26 : p = 0xFFFFFFFFFFFFFFFFFFFFFFFFFFFFFFFFFFFFFFFFFFFFFFFFFFFFFFFEFFFFFC2F.
Proof. reflexivity. Qed.

(** The reduction in terms of the nineteen column sums. *)

Lemma reduce_columns26 p0 p1 p2 p3 p4 p5 p6 p7 p8 p9 p10 p11 p12 p13 p14 p15 p16 p17 p18 d2 d4 d6 d8 d10 d12 d14 d16 d18 d20 u0 u1 u2 u3 u4 u5 u6 u7 u8
  e0 e1 e2 e3 e4 e5 e6 e7 e8 t0 t1 t2 t3 t4 t5 t6 t7 r8 t9 c c' r9 f0 f1 r0 r1 r2 :
  p9 = d2 * 2 ^ 26 + t9 ->

  d2 + p10 = d4 * 2 ^ 26 + u0 ->
  d4 + p11 = d6 * 2 ^ 26 + u1 ->
  d6 + p12 = d8 * 2 ^ 26 + u2 ->
  d8 + p13 = d10 * 2 ^ 26 + u3 ->
  d10 + p14 = d12 * 2 ^ 26 + u4 ->
  d12 + p15 = d14 * 2 ^ 26 + u5 ->
  d14 + p16 = d16 * 2 ^ 26 + u6 ->
  d16 + p17 = d18 * 2 ^ 26 + u7 ->
  d18 + p18 = d20 * 2 ^ 26 + u8 ->
  p0 + u0 * RA26 = e0 * 2 ^ 26 + t0 ->
  e0 + u0 * RB26 + p1 + u1 * RA26 = e1 * 2 ^ 26 + t1 ->
  e1 + u1 * RB26 + p2 + u2 * RA26 = e2 * 2 ^ 26 + t2 ->
  e2 + u2 * RB26 + p3 + u3 * RA26 = e3 * 2 ^ 26 + t3 ->
  e3 + u3 * RB26 + p4 + u4 * RA26 = e4 * 2 ^ 26 + t4 ->
  e4 + u4 * RB26 + p5 + u5 * RA26 = e5 * 2 ^ 26 + t5 ->
  e5 + u5 * RB26 + p6 + u6 * RA26 = e6 * 2 ^ 26 + t6 ->
  e6 + u6 * RB26 + p7 + u7 * RA26 = e7 * 2 ^ 26 + t7 ->
  e7 + u7 * RB26 + p8 + u8 * RA26 = e8 * 2 ^ 26 + r8 ->
  e8 + u8 * RB26 + d20 * RA26 + t9 = c * 2 ^ 22 + r9 ->
  c' = c + d20 * (RB26 * 2 ^ 4) ->
  c' * 977 + t0 = f0 * 2 ^ 26 + r0 ->
  f0 + c' * 64 + t1 = f1 * 2 ^ 26 + r1 ->
  r2 = f1 + t2 ->
  p0 + p1 * 2 ^ 26 + p2 * 2 ^ 52 + p3 * 2 ^ 78 + p4 * 2 ^ 104 + p5 * 2 ^ 130 + p6 * 2 ^ 156 + p7 * 2 ^ 182 + p8 * 2 ^ 208 + p9 * 2 ^ 234 + p10 * 2 ^ 260 + p11 * 2 ^ 286 + p12 * 2 ^ 312 + p13 * 2 ^ 338 + p14 * 2 ^ 364 + p15 * 2 ^ 390 + p16 * 2 ^ 416 + p17 * 2 ^ 442 + p18 * 2 ^ 468
  = val26 r0 r1 r2 t3 t4 t5 t6 t7 r8 r9 + (16 * (u0 + u1 * 2 ^ 26 + u2 * 2 ^ 52 + u3 * 2 ^ 78 + u4 * 2 ^ 104 + u5 * 2 ^ 130 + u6 * 2 ^ 156 + u7 * 2 ^ 182 + u8 * 2 ^ 208 + d20 * 2 ^ 234) + c') * p.
Proof.
  intros. unfold val26. rewrite p_26. change RA26 with 15632 in *. change RB26 with 1024 in *. lia.
Qed.

Lemma sp26 d x y D : 0 <= d <= D -> x = Z.land d M26 -> y = Z.shiftr d 26 ->
  d = y * 2 ^ 26 + x /\ 0 <= x <= 67108863 /\ 0 <= y <= D / 2 ^ 26.
Proof.
  intros H Hx Hy. destruct (split_b d D 26 H eq_refl) as (q & r & E & E1 & E2 & B1 & B2).
  change (2 ^ 26 - 1) with M26 in *. rewrite E2 in Hx. rewrite E1 in Hy. subst x y. split; [exact E|]. split; [exact B1|exact B2].
Qed.
Lemma sp26w d x y D : 0 <= d <= D -> x = w32 (Z.land d M26) -> y = Z.shiftr d 26 ->
  d = y * 2 ^ 26 + x /\ 0 <= x <= 67108863 /\ 0 <= y <= D / 2 ^ 26.
Proof.
  intros H Hx Hy. apply (sp26 d x y D H); [|exact Hy]. rewrite Hx. apply w32_id.
  destruct (sp26 d _ _ D H eq_refl eq_refl) as (_ & B & _). clear -B. f26const. lia.
Qed.
Lemma sp22w d x y D : 0 <= d <= D -> x = w32 (Z.land d (Z.shiftr M26 4)) -> y = Z.shiftr d 22 ->
  d = y * 2 ^ 22 + x /\ 0 <= x <= 4194303 /\ 0 <= y <= D / 2 ^ 22.
Proof.
  intros H Hx Hy. destruct (split_b d D 22 H eq_refl) as (q & r & E & E1 & E2 & B1 & B2).
  change (Z.shiftr M26 4) with (2 ^ 22 - 1) in *. rewrite E2 in Hx. rewrite E1 in Hy.
  rewrite w32_id in Hx by (clear -B1; f26const; lia). subst x y. split; [exact E|]. split; [exact B1|exact B2].
Qed.
Ltac sp L d x y S :=
  lazymatch goal with Bd : 0 <= d <= _, Ex : x = _, Ey : y = Z.shiftr d _ |- _ =>
    let B1 := fresh "B" x in let B2 := fresh "B" y in
    destruct (L d x y _ Bd Ex Ey) as (S & B1 & B2); clear Ex Ey; norm_ub B2 end.

(** Bounds for multiplication inputs: magnitude 8. *)
Definition mul_in26 (a : fe26) : Prop :=
  0 <= m0 a <= 1073741823 /\ 0 <= m1 a <= 1073741823 /\ 0 <= m2 a <= 1073741823 /\ 0 <= m3 a <= 1073741823 /\ 0 <= m4 a <= 1073741823 /\ 0 <= m5 a <= 1073741823 /\ 0 <= m6 a <= 1073741823 /\ 0 <= m7 a <= 1073741823 /\ 0 <= m8 a <= 1073741823 /\ 0 <= m9 a <= 67108863.
Lemma mag_mul_in26 m a : f26_mag m a -> m <= 8 -> mul_in26 a.
Proof.
  unfold f26_mag, mul_in26. intros (H0 & H1 & H2 & H3 & H4 & H5 & H6 & H7 & H8 & H9) Hm.
  change M26 with 67108863 in *. change M22 with 4194303 in *.
  repeat split; lia.
Qed.

Lemma f26_mul_inner_ok a b : mul_in26 a -> mul_in26 b -> forall r, f26_mul a b = r ->
  (exists k, f26val a * f26val b = f26val r + k * p) /\
  0 <= m0 r <= M26 /\ 0 <= m1 r <= M26 /\ 0 <= m2 r <= 2 * M26 /\ 0 <= m3 r <= M26 /\ 0 <= m4 r <= M26 /\ 0 <= m5 r <= M26 /\ 0 <= m6 r <= M26 /\ 0 <= m7 r <= M26 /\ 0 <= m8 r <= M26 /\ 0 <= m9 r <= M22.
Proof.
  destruct a as [a0 a1 a2 a3 a4 a5 a6 a7 a8 a9], b as [b0 b1 b2 b3 b4 b5 b6 b7 b8 b9]. unfold mul_in26, f26val.
  cbn [m0 m1 m2 m3 m4 m5 m6 m7 m8 m9]. intros (A0 & A1 & A2 & A3 & A4 & A5 & A6 & A7 & A8 & A9) (B0 & B1 & B2 & B3 & B4 & B5 & B6 & B7 & B8 & B9) r H.
  change (f26_mul_inner a0 a1 a2 a3 a4 a5 a6 a7 a8 a9 b0 b1 b2 b3 b4 b5 b6 b7 b8 b9 = r) in H. cbv beta delta [f26_mul_inner] in H.
  letb_steps H.
  ib_step Ed_1.
  sp sp26w d_1 t9_1 d_2 S_t9_1.
  ib_step Ec_1.
  ib_step Ed_3.
  sp sp26 d_3 u0_1 d_4 S_u0_1.
  ib_step Ec_2.
  sp sp26w c_2 t0_1 c_3 S_t0_1.
  ib_step Ec_4.
  ib_step Ec_5.
  ib_step Ed_5.
  sp sp26 d_5 u1_1 d_6 S_u1_1.
  ib_step Ec_6.
  sp sp26w c_6 t1_1 c_7 S_t1_1.
  ib_step Ec_8.
  ib_step Ec_9.
  ib_step Ed_7.
  sp sp26 d_7 u2_1 d_8 S_u2_1.
  ib_step Ec_10.
  sp sp26w c_10 t2_1 c_11 S_t2_1.
  ib_step Ec_12.
  ib_step Ec_13.
  ib_step Ed_9.
  sp sp26 d_9 u3_1 d_10 S_u3_1.
  ib_step Ec_14.
  sp sp26w c_14 t3_1 c_15 S_t3_1.
  ib_step Ec_16.
  ib_step Ec_17.
  ib_step Ed_11.
  sp sp26 d_11 u4_1 d_12 S_u4_1.
  ib_step Ec_18.
  sp sp26w c_18 t4_1 c_19 S_t4_1.
  ib_step Ec_20.
  ib_step Ec_21.
  ib_step Ed_13.
  sp sp26 d_13 u5_1 d_14 S_u5_1.
  ib_step Ec_22.
  sp sp26w c_22 t5_1 c_23 S_t5_1.
  ib_step Ec_24.
  ib_step Ec_25.
  ib_step Ed_15.
  sp sp26 d_15 u6_1 d_16 S_u6_1.
  ib_step Ec_26.
  sp sp26w c_26 t6_1 c_27 S_t6_1.
  ib_step Ec_28.
  ib_step Ec_29.
  ib_step Ed_17.
  sp sp26 d_17 u7_1 d_18 S_u7_1.
  ib_step Ec_30.
  sp sp26w c_30 t7_1 c_31 S_t7_1.
  ib_step Ec_32.
  ib_step Ec_33.
  ib_step Ed_19.
  sp sp26 d_19 u8_1 d_20 S_u8_1.
  ib_step Ec_34.
  sp sp26w c_34 r8 c_35 S_r8.
  ib_step Ec_36.
  ib_step Ec_37.
  sp sp22w c_37 r9 c_38 S_r9.
  ib_step Ec_39.
  ib_step Ed_21.
  sp sp26w d_21 r0 d_22 S_r0.
  ib_step Ed_23.
  sp sp26w d_23 r1 d_24 S_r1.
  ib_step Ed_25.
  ib_step Er2.
  rewrite <- H. cbn [m0 m1 m2 m3 m4 m5 m6 m7 m8 m9]. change M26 with 67108863. change M22 with 4194303.
  split; [|repeat (split; [first [assumption|clear -Br2; lia]|]); assumption].
  eexists. etransitivity; [|apply (reduce_columns26 (a0 * b0) (a0 * b1 + a1 * b0) (a0 * b2 + a1 * b1 + a2 * b0) (a0 * b3 + a1 * b2 + a2 * b1 + a3 * b0) (a0 * b4 + a1 * b3 + a2 * b2 + a3 * b1 + a4 * b0) (a0 * b5 + a1 * b4 + a2 * b3 + a3 * b2 + a4 * b1 + a5 * b0) (a0 * b6 + a1 * b5 + a2 * b4 + a3 * b3 + a4 * b2 + a5 * b1 + a6 * b0) (a0 * b7 + a1 * b6 + a2 * b5 + a3 * b4 + a4 * b3 + a5 * b2 + a6 * b1 + a7 * b0) (a0 * b8 + a1 * b7 + a2 * b6 + a3 * b5 + a4 * b4 + a5 * b3 + a6 * b2 + a7 * b1 + a8 * b0) (a0 * b9 + a1 * b8 + a2 * b7 + a3 * b6 + a4 * b5 + a5 * b4 + a6 * b3 + a7 * b2 + a8 * b1 + a9 * b0) (a1 * b9 + a2 * b8 + a3 * b7 + a4 * b6 + a5 * b5 + a6 * b4 + a7 * b3 + a8 * b2 + a9 * b1) (a2 * b9 + a3 * b8 + a4 * b7 + a5 * b6 + a6 * b5 + a7 * b4 + a8 * b3 + a9 * b2) (a3 * b9 + a4 * b8 + a5 * b7 + a6 * b6 + a7 * b5 + a8 * b4 + a9 * b3) (a4 * b9 + a5 * b8 + a6 * b7 + a7 * b6 + a8 * b5 + a9 * b4) (a5 * b9 + a6 * b8 + a7 * b7 + a8 * b6 + a9 * b5) (a6 * b9 + a7 * b8 + a8 * b7 + a9 * b6) (a7 * b9 + a8 * b8 + a9 * b7) (a8 * b9 + a9 * b8) (a9 * b9)
    d_2 d_4 d_6 d_8 d_10 d_12 d_14 d_16 d_18 d_20 u0_1 u1_1 u2_1 u3_1 u4_1 u5_1 u6_1 u7_1 u8_1
    c_3 c_7 c_11 c_15 c_19 c_23 c_27 c_31 c_35 t0_1 t1_1 t2_1 t3_1 t4_1 t5_1 t6_1 t7_1 r8 t9_1 c_38 c_39 r9 d_22 d_24 r0 r1 r2)].
  - unfold val26. ring.
  - rewrite <- S_t9_1, Ed_1. ring.
  - rewrite <- S_u0_1, Ed_3. ring.
  - rewrite <- S_u1_1, Ed_5. ring.
  - rewrite <- S_u2_1, Ed_7. ring.
  - rewrite <- S_u3_1, Ed_9. ring.
  - rewrite <- S_u4_1, Ed_11. ring.
  - rewrite <- S_u5_1, Ed_13. ring.
  - rewrite <- S_u6_1, Ed_15. ring.
  - rewrite <- S_u7_1, Ed_17. ring.
  - rewrite <- S_u8_1, Ed_19. ring.
  - rewrite <- S_t0_1, Ec_2, Ec_1. change RA26 with 15632. ring.
  - rewrite <- S_t1_1, Ec_6, Ec_5, Ec_4. change RA26 with 15632. change RB26 with 1024. ring.
  - rewrite <- S_t2_1, Ec_10, Ec_9, Ec_8. change RA26 with 15632. change RB26 with 1024. ring.
  - rewrite <- S_t3_1, Ec_14, Ec_13, Ec_12. change RA26 with 15632. change RB26 with 1024. ring.
  - rewrite <- S_t4_1, Ec_18, Ec_17, Ec_16. change RA26 with 15632. change RB26 with 1024. ring.
  - rewrite <- S_t5_1, Ec_22, Ec_21, Ec_20. change RA26 with 15632. change RB26 with 1024. ring.
  - rewrite <- S_t6_1, Ec_26, Ec_25, Ec_24. change RA26 with 15632. change RB26 with 1024. ring.
  - rewrite <- S_t7_1, Ec_30, Ec_29, Ec_28. change RA26 with 15632. change RB26 with 1024. ring.
  - rewrite <- S_r8, Ec_34, Ec_33, Ec_32. change RA26 with 15632. change RB26 with 1024. ring.
  - rewrite <- S_r9, Ec_37, Ec_36. change RA26 with 15632. change RB26 with 1024. ring.
  - rewrite Ec_39. reflexivity.
  - rewrite <- S_r0, Ed_21. reflexivity.
  - rewrite <- S_r1, Ed_23. change (1024 / 2 ^ 4) with 64. ring.
  - rewrite Er2, Ed_25. reflexivity.
Qed.

Lemma f26_sqr_inner_ok a : mul_in26 a -> forall r, f26_sqr a = r ->
  (exists k, f26val a * f26val a = f26val r + k * p) /\
  0 <= m0 r <= M26 /\ 0 <= m1 r <= M26 /\ 0 <= m2 r <= 2 * M26 /\ 0 <= m3 r <= M26 /\ 0 <= m4 r <= M26 /\ 0 <= m5 r <= M26 /\ 0 <= m6 r <= M26 /\ 0 <= m7 r <= M26 /\ 0 <= m8 r <= M26 /\ 0 <= m9 r <= M22.
Proof.
  destruct a as [a0 a1 a2 a3 a4 a5 a6 a7 a8 a9]. unfold mul_in26, f26val.
  cbn [m0 m1 m2 m3 m4 m5 m6 m7 m8 m9]. intros (A0 & A1 & A2 & A3 & A4 & A5 & A6 & A7 & A8 & A9) r H.
  change (f26_sqr_inner a0 a1 a2 a3 a4 a5 a6 a7 a8 a9 = r) in H. cbv beta delta [f26_sqr_inner] in H.
  letb_steps H.
  ib_step Ed_1.
  sp sp26w d_1 t9_1 d_2 S_t9_1.
  ib_step Ec_1.
  ib_step Ed_3.
  sp sp26 d_3 u0_1 d_4 S_u0_1.
  ib_step Ec_2.
  sp sp26w c_2 t0_1 c_3 S_t0_1.
  ib_step Ec_4.
  ib_step Ec_5.
  ib_step Ed_5.
  sp sp26 d_5 u1_1 d_6 S_u1_1.
  ib_step Ec_6.
  sp sp26w c_6 t1_1 c_7 S_t1_1.
  ib_step Ec_8.
  ib_step Ec_9.
  ib_step Ed_7.
  sp sp26 d_7 u2_1 d_8 S_u2_1.
  ib_step Ec_10.
  sp sp26w c_10 t2_1 c_11 S_t2_1.
  ib_step Ec_12.
  ib_step Ec_13.
  ib_step Ed_9.
  sp sp26 d_9 u3_1 d_10 S_u3_1.
  ib_step Ec_14.
  sp sp26w c_14 t3_1 c_15 S_t3_1.
  ib_step Ec_16.
  ib_step Ec_17.
  ib_step Ed_11.
  sp sp26 d_11 u4_1 d_12 S_u4_1.
  ib_step Ec_18.
  sp sp26w c_18 t4_1 c_19 S_t4_1.
  ib_step Ec_20.
  ib_step Ec_21.
  ib_step Ed_13.
  sp sp26 d_13 u5_1 d_14 S_u5_1.
  ib_step Ec_22.
  sp sp26w c_22 t5_1 c_23 S_t5_1.
  ib_step Ec_24.
  ib_step Ec_25.
  ib_step Ed_15.
  sp sp26 d_15 u6_1 d_16 S_u6_1.
  ib_step Ec_26.
  sp sp26w c_26 t6_1 c_27 S_t6_1.
  ib_step Ec_28.
  ib_step Ec_29.
  ib_step Ed_17.
  sp sp26 d_17 u7_1 d_18 S_u7_1.
  ib_step Ec_30.
  sp sp26w c_30 t7_1 c_31 S_t7_1.
  ib_step Ec_32.
  ib_step Ec_33.
  ib_step Ed_19.
  sp sp26 d_19 u8_1 d_20 S_u8_1.
  ib_step Ec_34.
  sp sp26w c_34 r8 c_35 S_r8.
  ib_step Ec_36.
  ib_step Ec_37.
  sp sp22w c_37 r9 c_38 S_r9.
  ib_step Ec_39.
  ib_step Ed_21.
  sp sp26w d_21 r0 d_22 S_r0.
  ib_step Ed_23.
  sp sp26w d_23 r1 d_24 S_r1.
  ib_step Ed_25.
  ib_step Er2.
  rewrite <- H. cbn [m0 m1 m2 m3 m4 m5 m6 m7 m8 m9]. change M26 with 67108863. change M22 with 4194303.
  split; [|repeat (split; [first [assumption|clear -Br2; lia]|]); assumption].
  eexists. etransitivity; [|apply (reduce_columns26 (a0 * a0) (a0 * a1 + a1 * a0) (a0 * a2 + a1 * a1 + a2 * a0) (a0 * a3 + a1 * a2 + a2 * a1 + a3 * a0) (a0 * a4 + a1 * a3 + a2 * a2 + a3 * a1 + a4 * a0) (a0 * a5 + a1 * a4 + a2 * a3 + a3 * a2 + a4 * a1 + a5 * a0) (a0 * a6 + a1 * a5 + a2 * a4 + a3 * a3 + a4 * a2 + a5 * a1 + a6 * a0) (a0 * a7 + a1 * a6 + a2 * a5 + a3 * a4 + a4 * a3 + a5 * a2 + a6 * a1 + a7 * a0) (a0 * a8 + a1 * a7 + a2 * a6 + a3 * a5 + a4 * a4 + a5 * a3 + a6 * a2 + a7 * a1 + a8 * a0) (a0 * a9 + a1 * a8 + a2 * a7 + a3 * a6 + a4 * a5 + a5 * a4 + a6 * a3 + a7 * a2 + a8 * a1 + a9 * a0) (a1 * a9 + a2 * a8 + a3 * a7 + a4 * a6 + a5 * a5 + a6 * a4 + a7 * a3 + a8 * a2 + a9 * a1) (a2 * a9 + a3 * a8 + a4 * a7 + a5 * a6 + a6 * a5 + a7 * a4 + a8 * a3 + a9 * a2) (a3 * a9 + a4 * a8 + a5 * a7 + a6 * a6 + a7 * a5 + a8 * a4 + a9 * a3) (a4 * a9 + a5 * a8 + a6 * a7 + a7 * a6 + a8 * a5 + a9 * a4) (a5 * a9 + a6 * a8 + a7 * a7 + a8 * a6 + a9 * a5) (a6 * a9 + a7 * a8 + a8 * a7 + a9 * a6) (a7 * a9 + a8 * a8 + a9 * a7) (a8 * a9 + a9 * a8) (a9 * a9)
    d_2 d_4 d_6 d_8 d_10 d_12 d_14 d_16 d_18 d_20 u0_1 u1_1 u2_1 u3_1 u4_1 u5_1 u6_1 u7_1 u8_1
    c_3 c_7 c_11 c_15 c_19 c_23 c_27 c_31 c_35 t0_1 t1_1 t2_1 t3_1 t4_1 t5_1 t6_1 t7_1 r8 t9_1 c_38 c_39 r9 d_22 d_24 r0 r1 r2)].
  - unfold val26. ring.
  - rewrite <- S_t9_1, Ed_1. ring.
  - rewrite <- S_u0_1, Ed_3. ring.
  - rewrite <- S_u1_1, Ed_5. ring.
  - rewrite <- S_u2_1, Ed_7. ring.
  - rewrite <- S_u3_1, Ed_9. ring.
  - rewrite <- S_u4_1, Ed_11. ring.
  - rewrite <- S_u5_1, Ed_13. ring.
  - rewrite <- S_u6_1, Ed_15. ring.
  - rewrite <- S_u7_1, Ed_17. ring.
  - rewrite <- S_u8_1, Ed_19. ring.
  - rewrite <- S_t0_1, Ec_2, Ec_1. change RA26 with 15632. ring.
  - rewrite <- S_t1_1, Ec_6, Ec_5, Ec_4. change RA26 with 15632. change RB26 with 1024. ring.
  - rewrite <- S_t2_1, Ec_10, Ec_9, Ec_8. change RA26 with 15632. change RB26 with 1024. ring.
  - rewrite <- S_t3_1, Ec_14, Ec_13, Ec_12. change RA26 with 15632. change RB26 with 1024. ring.
  - rewrite <- S_t4_1, Ec_18, Ec_17, Ec_16. change RA26 with 15632. change RB26 with 1024. ring.
  - rewrite <- S_t5_1, Ec_22, Ec_21, Ec_20. change RA26 with 15632. change RB26 with 1024. ring.
  - rewrite <- S_t6_1, Ec_26, Ec_25, Ec_24. change RA26 with 15632. change RB26 with 1024. ring.
  - rewrite <- S_t7_1, Ec_30, Ec_29, Ec_28. change RA26 with 15632. change RB26 with 1024. ring.
  - rewrite <- S_r8, Ec_34, Ec_33, Ec_32. change RA26 with 15632. change RB26 with 1024. ring.
  - rewrite <- S_r9, Ec_37, Ec_36. change RA26 with 15632. change RB26 with 1024. ring.
  - rewrite Ec_39. reflexivity.
  - rewrite <- S_r0, Ed_21. reflexivity.
  - rewrite <- S_r1, Ed_23. change (1024 / 2 ^ 4) with 64. ring.
  - rewrite Er2, Ed_25. reflexivity.
Qed.
