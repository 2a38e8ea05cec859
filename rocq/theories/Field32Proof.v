(** 32-bit field normalization and zero tests. *)
Require Import ZArith List Bool Lia.
From Verif Require Import Word Word32 Spec FieldModel Field32Model Field32Mul.
Import ListNotations.
Local Open Scope Z_scope.

Lemma sp26e a t D : 0 <= a <= D -> t = Z.land a M26 ->
  exists c, Z.shiftr a 26 = c /\ a = c * 2 ^ 26 + t /\ 0 <= t <= 67108863 /\ 0 <= c <= D / 2 ^ 26.
Proof.
  intros H E. destruct (sp26 a t _ D H E eq_refl) as (S1 & S2 & S3). exists (Z.shiftr a 26). auto.
Qed.
Lemma sp22e a t D : 0 <= a <= D -> t = Z.land a M22 ->
  exists c, Z.shiftr a 22 = c /\ a = c * 2 ^ 22 + t /\ 0 <= t <= 4194303 /\ 0 <= c <= D / 2 ^ 22.
Proof.
  intros H E. destruct (split_b a D 22 H eq_refl) as (q & r & E1 & E2 & E3 & B1 & B2).
  change (2 ^ 22 - 1) with M22 in *. rewrite E3 in E. subst r. exists q. auto.
Qed.
(** Splits [a] at bit 26, where [t = a & M26], naming the carry. *)
Ltac spe L a t c S :=
  lazymatch goal with Ba : 0 <= a <= _, Et : t = Z.land a _ |- _ =>
    let X := fresh in let B1 := fresh "B" t in let B2 := fresh "B" c in
    destruct (L a t _ Ba Et) as (c & X & S & B1 & B2); clear Et; norm_ub B2; try rewrite X in *; clear X end.

Lemma first_pass26 r0 r1 r2 r3 r4 r5 r6 r7 r8 r9 x u9 a0 a1 a2 a3 a4 a5 a6 a7 a8 b1 t0 t1 t2 t3 t4 t5 t6 t7 t8 t9 :
  0 <= r0 <= 4160749506 -> 0 <= r1 <= 4160749506 -> 0 <= r2 <= 4160749506 -> 0 <= r3 <= 4160749506 -> 0 <= r4 <= 4160749506 -> 0 <= r5 <= 4160749506 -> 0 <= r6 <= 4160749506 -> 0 <= r7 <= 4160749506 -> 0 <= r8 <= 4160749506 -> 0 <= r9 <= 260046786 ->
  x = Z.shiftr r9 22 -> u9 = Z.land r9 M22 ->
  a0 = w32 (r0 + w32 (x * 0x3D1)) -> b1 = w32 (r1 + w32 (Z.shiftl x 6)) -> a1 = w32 (b1 + Z.shiftr a0 26) -> t0 = Z.land a0 M26 ->
  a2 = w32 (r2 + Z.shiftr a1 26) -> t1 = Z.land a1 M26 -> a3 = w32 (r3 + Z.shiftr a2 26) -> t2 = Z.land a2 M26 -> a4 = w32 (r4 + Z.shiftr a3 26) -> t3 = Z.land a3 M26 -> a5 = w32 (r5 + Z.shiftr a4 26) -> t4 = Z.land a4 M26 -> a6 = w32 (r6 + Z.shiftr a5 26) -> t5 = Z.land a5 M26 -> a7 = w32 (r7 + Z.shiftr a6 26) -> t6 = Z.land a6 M26 -> a8 = w32 (r8 + Z.shiftr a7 26) -> t7 = Z.land a7 M26 ->
  t9 = w32 (u9 + Z.shiftr a8 26) -> t8 = Z.land a8 M26 ->
  val26 r0 r1 r2 r3 r4 r5 r6 r7 r8 r9 = val26 t0 t1 t2 t3 t4 t5 t6 t7 t8 t9 + x * p /\
  0 <= t0 <= 67108863 /\ 0 <= t1 <= 67108863 /\ 0 <= t2 <= 67108863 /\ 0 <= t3 <= 67108863 /\ 0 <= t4 <= 67108863 /\ 0 <= t5 <= 67108863 /\ 0 <= t6 <= 67108863 /\ 0 <= t7 <= 67108863 /\ 0 <= t8 <= 67108863 /\ 0 <= t9 <= 4194367.
Proof.
  intros R0 R1 R2 R3 R4 R5 R6 R7 R8 R9 Ex Eu9 Ea0 Eb1 Ea1 Et0 Ea2 Et1 Ea3 Et2 Ea4 Et3 Ea5 Et4 Ea6 Et5 Ea7 Et6 Ea8 Et7 Et9 Et8.
  symmetry in Ex. spe sp22e r9 u9 x' S9. subst x'.
  ib_step Ea0. ib_step Eb1.
  spe sp26e a0 t0 c0 S0. ib_step Ea1.
  spe sp26e a1 t1 c1 S1. ib_step Ea2.
  spe sp26e a2 t2 c2 S2. ib_step Ea3.
  spe sp26e a3 t3 c3 S3. ib_step Ea4.
  spe sp26e a4 t4 c4 S4. ib_step Ea5.
  spe sp26e a5 t5 c5 S5. ib_step Ea6.
  spe sp26e a6 t6 c6 S6. ib_step Ea7.
  spe sp26e a7 t7 c7 S7. ib_step Ea8.
  spe sp26e a8 t8 c8 S8. ib_step Et9.
  split; [|clear -Bt0 Bt1 Bt2 Bt3 Bt4 Bt5 Bt6 Bt7 Bt8 Bt9; repeat split; lia].
  unfold val26. rewrite p_26. clear -S9 S0 S1 S2 S3 S4 S5 S6 S7 S8  Ea0 Eb1 Ea1 Ea2 Ea3 Ea4 Ea5 Ea6 Ea7 Ea8 Et9. f26pow. f26const. lia.
Qed.

Lemma mag31_limbs a : f26_mag 31 a ->
  0 <= m0 a <= 4160749506 /\ 0 <= m1 a <= 4160749506 /\ 0 <= m2 a <= 4160749506 /\ 0 <= m3 a <= 4160749506 /\ 0 <= m4 a <= 4160749506 /\ 0 <= m5 a <= 4160749506 /\ 0 <= m6 a <= 4160749506 /\ 0 <= m7 a <= 4160749506 /\ 0 <= m8 a <= 4160749506 /\ 0 <= m9 a <= 260046786.
Proof. unfold f26_mag. change (2 * 31 * M26) with 4160749506. change (2 * 31 * M22) with 260046786. tauto. Qed.

Lemma f26_normalize_weak_ok r : f26_mag 31 r ->
  f26_mag 1 (f26_normalize_weak r) /\ exists k, f26val r = f26val (f26_normalize_weak r) + k * p.
Proof.
  intros Hr. destruct (mag31_limbs r Hr) as (L0 & L1 & L2 & L3 & L4 & L5 & L6 & L7 & L8 & L9).
  destruct (f26_normalize_weak r) as [s0 s1 s2 s3 s4 s5 s6 s7 s8 s9] eqn:H. unfold f26_normalize_weak in H. letb_steps H.
  injection H as ? ? ? ? ? ? ? ? ? ?. subst s0 s1 s2 s3 s4 s5 s6 s7 s8 s9.
  pose proof (first_pass26 _ _ _ _ _ _ _ _ _ _ _ _ _ _ _ _ _ _ _ _ _ _ _ _ _ _ _ _ _ _ _ _ L0 L1 L2 L3 L4 L5 L6 L7 L8 L9 Ex Eu9 Ea0 Eb1 Ea1 Et0 Ea2 Et1 Ea3 Et2 Ea4 Et3 Ea5 Et4 Ea6 Et5 Ea7 Et6 Ea8 Et7 Et9 Et8) as (V & B).
  split.
  - unfold f26_mag. cbn [m0 m1 m2 m3 m4 m5 m6 m7 m8 m9]. clear -B. f26const. destruct B as (B0 & B1 & B2 & B3 & B4 & B5 & B6 & B7 & B8 & B9). repeat split; lia.
  - exists x. exact V.
Qed.

(** All-ones test of a conjunction. *)
Lemma land_ones26 a b : 0 <= a <= 67108863 -> 0 <= b <= 67108863 -> 0 <= Z.land a b <= 67108863 /\ (Z.land a b = 67108863 <-> a = 67108863 /\ b = 67108863).
Proof.
  intros Ha Hb.
  assert (La : Z.land a b <= a). { apply land_le; lia. }
  assert (Lb : Z.land a b <= b). { rewrite Z.land_comm. apply land_le; lia. }
  assert (0 <= Z.land a b) by (apply Z.land_nonneg; lia).
  split; [lia|]. split; [lia|]. intros [-> ->]. reflexivity.
Qed.

(** The final comparison with p. *)
Lemma cmp26 t0 t1 t2 t3 t4 t5 t6 t7 t8 t9 c : 0 <= t0 <= 67108863 -> 0 <= t1 <= 67108863 -> 0 <= t2 <= 67108863 -> 0 <= t3 <= 67108863 -> 0 <= t4 <= 67108863 -> 0 <= t5 <= 67108863 -> 0 <= t6 <= 67108863 -> 0 <= t7 <= 67108863 -> 0 <= t8 <= 67108863 -> 0 <= t9 <= 4194367 -> t0 + 977 = c * 67108864 + (t0 + 977) mod 67108864 ->
  p <= val26 t0 t1 t2 t3 t4 t5 t6 t7 t8 t9 <-> 4194303 < t9 \/ (t9 = 4194303 /\ t2 = 67108863 /\ t3 = 67108863 /\ t4 = 67108863 /\ t5 = 67108863 /\ t6 = 67108863 /\ t7 = 67108863 /\ t8 = 67108863 /\ 67108863 < t1 + 64 + c).
Proof.
  intros H0 H1 H2 H3 H4 H5 H6 H7 H8 H9 E. unfold val26. rewrite p_26. pose proof (Z.mod_pos_bound (t0 + 977) 67108864 eq_refl) as Bm.
  set (u := (t0 + 977) mod 67108864) in *. clearbody u. f26pow. split.
  - intros K. assert (t9 < 4194303 \/ t9 = 4194303 \/ 4194303 < t9) as [T|[T|T]] by lia; [lia| |left; exact T].
    right. subst t9.
    assert (T8 : t8 = 67108863) by (clear -K H0 H1 H2 H3 H4 H5 H6 H7 H8 H9; lia). subst t8. assert (T7 : t7 = 67108863) by (clear -K H0 H1 H2 H3 H4 H5 H6 H7 H8 H9; lia). subst t7. assert (T6 : t6 = 67108863) by (clear -K H0 H1 H2 H3 H4 H5 H6 H7 H8 H9; lia). subst t6. assert (T5 : t5 = 67108863) by (clear -K H0 H1 H2 H3 H4 H5 H6 H7 H8 H9; lia). subst t5. assert (T4 : t4 = 67108863) by (clear -K H0 H1 H2 H3 H4 H5 H6 H7 H8 H9; lia). subst t4. assert (T3 : t3 = 67108863) by (clear -K H0 H1 H2 H3 H4 H5 H6 H7 H8 H9; lia). subst t3. assert (T2 : t2 = 67108863) by (clear -K H0 H1 H2 H3 H4 H5 H6 H7 H8 H9; lia). subst t2.
    repeat split. lia.
  - intros [K|(K9 & K2 & K3 & K4 & K5 & K6 & K7 & K8 & K1)]; [lia|]. subst. lia.
Qed.

Lemma final_w26 t0 t1 t2 t3 t4 t5 t6 t7 t8 t9 k2 k3 k4 k5 k6 k7 k8 w : 0 <= t0 <= 67108863 -> 0 <= t1 <= 67108863 -> 0 <= t2 <= 67108863 -> 0 <= t3 <= 67108863 -> 0 <= t4 <= 67108863 -> 0 <= t5 <= 67108863 -> 0 <= t6 <= 67108863 -> 0 <= t7 <= 67108863 -> 0 <= t8 <= 67108863 -> 0 <= t9 <= 4194367 ->
  k2 = t2 -> k3 = Z.land k2 t3 -> k4 = Z.land k3 t4 -> k5 = Z.land k4 t5 -> k6 = Z.land k5 t6 -> k7 = Z.land k6 t7 -> k8 = Z.land k7 t8 ->
  w = Z.lor (Z.shiftr t9 22) (Z.land (Z.land (b2z (t9 =? M22)) (b2z (k8 =? M26)))
        (b2z (w32 (w32 (t1 + 0x40) + Z.shiftr (w32 (t0 + 0x3D1)) 26) >? M26))) ->
  w = b2z (p <=? val26 t0 t1 t2 t3 t4 t5 t6 t7 t8 t9).
Proof.
  intros H0 H1 H2 H3 H4 H5 H6 H7 H8 H9 E2 E3 E4 E5 E6 E7 E8 Ew. subst k2.
  destruct (land_ones26 t2 t3 H2 H3) as [L3 N3]; rewrite <- E3 in L3, N3. destruct (land_ones26 k3 t4 L3 H4) as [L4 N4]; rewrite <- E4 in L4, N4. destruct (land_ones26 k4 t5 L4 H5) as [L5 N5]; rewrite <- E5 in L5, N5. destruct (land_ones26 k5 t6 L5 H6) as [L6 N6]; rewrite <- E6 in L6, N6. destruct (land_ones26 k6 t7 L6 H7) as [L7 N7]; rewrite <- E7 in L7, N7. destruct (land_ones26 k7 t8 L7 H8) as [L8 N8]; rewrite <- E8 in L8, N8.
  rewrite (w32_id (t0 + 0x3D1)) in Ew by (clear -H0; lia).
  rewrite (w32_id (t1 + 0x40)) in Ew by (clear -H1; lia).
  rewrite (shiftr_div (t0 + 0x3D1)) in Ew by lia. rewrite (shiftr_div t9) in Ew by lia.
  pose proof (Z.div_mod (t0 + 0x3D1) 67108864 ltac:(discriminate)) as D.
  change (2 ^ 26) with 67108864 in *. change (2 ^ 22) with 4194304 in *.
  rewrite w32_id in Ew by (clear -H0 H1; pose proof (Z.div_pos (t0 + 0x3D1) 67108864); pose proof (Z.div_le_upper_bound (t0 + 0x3D1) 67108864 2); lia).
  rewrite (Z.mul_comm 67108864) in D. remember ((t0 + 0x3D1) / 67108864) as c eqn:Ec. clear Ec.
  pose proof (cmp26 t0 t1 t2 t3 t4 t5 t6 t7 t8 t9 c H0 H1 H2 H3 H4 H5 H6 H7 H8 H9 D) as HP.
  change M22 with 4194303 in Ew. change M26 with 67108863 in Ew.
  assert (K8 : k8 = 67108863 <-> t2 = 67108863 /\ t3 = 67108863 /\ t4 = 67108863 /\ t5 = 67108863 /\ t6 = 67108863 /\ t7 = 67108863 /\ t8 = 67108863) by (clear -N3 N4 N5 N6 N7 N8; tauto).
  assert (Q : (t9 / 4194304 = 0 /\ t9 <= 4194303) \/ (t9 / 4194304 = 1 /\ 4194303 < t9)).
  { clear -H9. pose proof (Z.div_mod t9 4194304 ltac:(discriminate)). pose proof (Z.mod_pos_bound t9 4194304 eq_refl). lia. }
  remember (val26 t0 t1 t2 t3 t4 t5 t6 t7 t8 t9) as V eqn:EV. clear -Ew HP K8 Q.
  assert (HP' : p <= V <-> 4194303 < t9 \/ t9 = 4194303 /\ k8 = 67108863 /\ 67108863 < t1 + 64 + c) by (rewrite HP, K8; tauto).
  clear HP K8. destruct Q as [[Q1 Q2]|[Q1 Q2]]; rewrite Q1 in Ew; subst w.
  - rewrite Z.lor_0_l.
    destruct (Z.eqb_spec t9 4194303), (Z.eqb_spec k8 67108863), (Z.gtb_spec (t1 + 64 + c) 67108863); cbn [b2z];
      rewrite ?Z.land_0_r, ?Z.land_0_l; destruct (Z.leb_spec p V) as [K|K]; cbn [b2z]; try reflexivity; exfalso;
      try (apply HP' in K; lia); apply Z.lt_nge in K; apply K; apply HP'; right; repeat split; (assumption || lia).
  - replace (t9 =? 4194303) with false by (symmetry; apply Z.eqb_neq; lia). cbn [b2z]. rewrite !Z.land_0_l, Z.lor_0_r.
    replace (p <=? V) with true; [reflexivity|]. symmetry. apply Z.leb_le. apply HP'. left. exact Q2.
Qed.

(** The final subtraction of p. *)
Lemma final_pass26 t0 t1 t2 t3 t4 t5 t6 t7 t8 t9 w f1 e0 e1 e2 e3 e4 e5 e6 e7 e8 e9 v0 v1 v2 v3 v4 v5 v6 v7 v8 v9 : 0 <= t0 <= 67108863 -> 0 <= t1 <= 67108863 -> 0 <= t2 <= 67108863 -> 0 <= t3 <= 67108863 -> 0 <= t4 <= 67108863 -> 0 <= t5 <= 67108863 -> 0 <= t6 <= 67108863 -> 0 <= t7 <= 67108863 -> 0 <= t8 <= 67108863 -> 0 <= t9 <= 4194367 ->
  w = b2z (p <=? val26 t0 t1 t2 t3 t4 t5 t6 t7 t8 t9) ->
  e0 = w32 (t0 + w32 (w * 0x3D1)) -> f1 = w32 (t1 + w32 (Z.shiftl w 6)) -> e1 = w32 (f1 + Z.shiftr e0 26) -> v0 = Z.land e0 M26 ->
  e2 = w32 (t2 + Z.shiftr e1 26) -> v1 = Z.land e1 M26 -> e3 = w32 (t3 + Z.shiftr e2 26) -> v2 = Z.land e2 M26 -> e4 = w32 (t4 + Z.shiftr e3 26) -> v3 = Z.land e3 M26 -> e5 = w32 (t5 + Z.shiftr e4 26) -> v4 = Z.land e4 M26 -> e6 = w32 (t6 + Z.shiftr e5 26) -> v5 = Z.land e5 M26 -> e7 = w32 (t7 + Z.shiftr e6 26) -> v6 = Z.land e6 M26 -> e8 = w32 (t8 + Z.shiftr e7 26) -> v7 = Z.land e7 M26 -> e9 = w32 (t9 + Z.shiftr e8 26) -> v8 = Z.land e8 M26 -> v9 = Z.land e9 M22 ->
  val26 v0 v1 v2 v3 v4 v5 v6 v7 v8 v9 = val26 t0 t1 t2 t3 t4 t5 t6 t7 t8 t9 - w * p /\ 0 <= v0 <= 67108863 /\ 0 <= v1 <= 67108863 /\ 0 <= v2 <= 67108863 /\ 0 <= v3 <= 67108863 /\ 0 <= v4 <= 67108863 /\ 0 <= v5 <= 67108863 /\ 0 <= v6 <= 67108863 /\ 0 <= v7 <= 67108863 /\ 0 <= v8 <= 67108863 /\ 0 <= v9 <= 4194303 /\ val26 v0 v1 v2 v3 v4 v5 v6 v7 v8 v9 < p.
Proof.
  intros T0 T1 T2 T3 T4 T5 T6 T7 T8 T9 Ew Ee0 Ef1 Ee1 Ev0 Ee2 Ev1 Ee3 Ev2 Ee4 Ev3 Ee5 Ev4 Ee6 Ev5 Ee7 Ev6 Ee8 Ev7 Ee9 Ev8 Ev9.
  assert (HX : (w = 1 /\ p <= val26 t0 t1 t2 t3 t4 t5 t6 t7 t8 t9) \/ (w = 0 /\ val26 t0 t1 t2 t3 t4 t5 t6 t7 t8 t9 < p)).
  { rewrite Ew. destruct (Z.leb_spec p (val26 t0 t1 t2 t3 t4 t5 t6 t7 t8 t9)); [left|right]; split; try assumption; reflexivity. }
  clear Ew. assert (Bw : 0 <= w <= 1) by (clear -HX; lia).
  ib_step Ee0. ib_step Ef1.
  spe sp26e e0 v0 c0 S0. ib_step Ee1.
  spe sp26e e1 v1 c1 S1. ib_step Ee2.
  spe sp26e e2 v2 c2 S2. ib_step Ee3.
  spe sp26e e3 v3 c3 S3. ib_step Ee4.
  spe sp26e e4 v4 c4 S4. ib_step Ee5.
  spe sp26e e5 v5 c5 S5. ib_step Ee6.
  spe sp26e e6 v6 c6 S6. ib_step Ee7.
  spe sp26e e7 v7 c7 S7. ib_step Ee8.
  spe sp26e e8 v8 c8 S8. ib_step Ee9.
  spe sp22e e9 v9 c9 S9.
  unfold val26 in *. rewrite p_26 in *.
  assert (Q : c9 = w).
  { clear -HX Bw S0 S1 S2 S3 S4 S5 S6 S7 S8 S9 Ef1 Ee0 Ee1 Ee2 Ee3 Ee4 Ee5 Ee6 Ee7 Ee8 Ee9 T0 T1 T2 T3 T4 T5 T6 T7 T8 T9 Bv0 Bv1 Bv2 Bv3 Bv4 Bv5 Bv6 Bv7 Bv8 Bv9 Bc9. f26pow. f26const. lia. }
  subst c9.
  match goal with |- ?V = ?W - w * ?p /\ _ => assert (HV : V = W - w * p) end.
  { clear -S0 S1 S2 S3 S4 S5 S6 S7 S8 S9 Ef1 Ee0 Ee1 Ee2 Ee3 Ee4 Ee5 Ee6 Ee7 Ee8 Ee9. f26pow. f26const. lia. }
  split; [exact HV|]. split; [exact Bv0|].
  split; [exact Bv1|]. split; [exact Bv2|]. split; [exact Bv3|]. split; [exact Bv4|]. split; [exact Bv5|]. split; [exact Bv6|]. split; [exact Bv7|]. split; [exact Bv8|]. split; [exact Bv9|].
  rewrite HV. clear -HX T0 T1 T2 T3 T4 T5 T6 T7 T8 T9. f26pow. lia.
Qed.

Lemma norm26 r k v0 v1 v2 v3 v4 v5 v6 v7 v8 v9 : val26 v0 v1 v2 v3 v4 v5 v6 v7 v8 v9 = f26val r - k * p ->
  0 <= v0 <= 67108863 /\ 0 <= v1 <= 67108863 /\ 0 <= v2 <= 67108863 /\ 0 <= v3 <= 67108863 /\ 0 <= v4 <= 67108863 /\ 0 <= v5 <= 67108863 /\ 0 <= v6 <= 67108863 /\ 0 <= v7 <= 67108863 /\ 0 <= v8 <= 67108863 /\ 0 <= v9 <= 4194303 /\ val26 v0 v1 v2 v3 v4 v5 v6 v7 v8 v9 < p ->
  f26_norm (mkf26 v0 v1 v2 v3 v4 v5 v6 v7 v8 v9) /\ f26val (mkf26 v0 v1 v2 v3 v4 v5 v6 v7 v8 v9) = f26val r mod p.
Proof.
  intros E (H0 & H1 & H2 & H3 & H4 & H5 & H6 & H7 & H8 & H9 & H10). unfold f26_norm. unfold f26val at 1 2. cbn [m0 m1 m2 m3 m4 m5 m6 m7 m8 m9].
  split; [repeat split; f26const; lia|].
  apply Z.mod_unique with k; [|lia]. left. split; [|assumption]. unfold val26. lia.
Qed.

Lemma f26_normalize_ok r : f26_mag 31 r -> f26_norm (f26_normalize r) /\ f26val (f26_normalize r) = f26val r mod p.
Proof.
  intros Hr. destruct (mag31_limbs r Hr) as (L0 & L1 & L2 & L3 & L4 & L5 & L6 & L7 & L8 & L9).
  destruct (f26_normalize r) as [s0 s1 s2 s3 s4 s5 s6 s7 s8 s9] eqn:H. unfold f26_normalize in H. letb_steps H.
  injection H as ? ? ? ? ? ? ? ? ? ?. subst s0 s1 s2 s3 s4 s5 s6 s7 s8 s9.
  pose proof (first_pass26 _ _ _ _ _ _ _ _ _ _ _ _ _ _ _ _ _ _ _ _ _ _ _ _ _ _ _ _ _ _ _ _ L0 L1 L2 L3 L4 L5 L6 L7 L8 L9 Ex Eu9 Ea0 Eb1 Ea1 Et0 Ea2 Et1 Ea3 Et2 Ea4 Et3 Ea5 Et4 Ea6 Et5 Ea7 Et6 Ea8 Et7 Et9 Et8) as (V & B0 & B1 & B2 & B3 & B4 & B5 & B6 & B7 & B8 & B9).
  pose proof (final_w26 _ _ _ _ _ _ _ _ _ _ _ _ _ _ _ _ _ _ B0 B1 B2 B3 B4 B5 B6 B7 B8 B9 Ek2 Ek3 Ek4 Ek5 Ek6 Ek7 Ek8 Ew) as W.
  pose proof (final_pass26 _ _ _ _ _ _ _ _ _ _ _ _ _ _ _ _ _ _ _ _ _ _ _ _ _ _ _ _ _ _ _ _ B0 B1 B2 B3 B4 B5 B6 B7 B8 B9 W Ee0 Ef1 Ee1 Ev0 Ee2 Ev1 Ee3 Ev2 Ee4 Ev3 Ee5 Ev4 Ee6 Ev5 Ee7 Ev6 Ee8 Ev7 Ee9 Ev8 Ev9) as (V' & B').
  apply norm26 with (k := x + w); [|exact B'].
  rewrite V'. unfold f26val. rewrite V. ring.
Qed.

Lemma f26_normalize_var_ok r : f26_mag 31 r -> f26_norm (f26_normalize_var r) /\ f26val (f26_normalize_var r) = f26val r mod p.
Proof.
  intros Hr. destruct (mag31_limbs r Hr) as (L0 & L1 & L2 & L3 & L4 & L5 & L6 & L7 & L8 & L9).
  destruct (f26_normalize_var r) as [s0 s1 s2 s3 s4 s5 s6 s7 s8 s9] eqn:H. unfold f26_normalize_var in H. letb_steps H.
  pose proof (first_pass26 _ _ _ _ _ _ _ _ _ _ _ _ _ _ _ _ _ _ _ _ _ _ _ _ _ _ _ _ _ _ _ _ L0 L1 L2 L3 L4 L5 L6 L7 L8 L9 Ex Eu9 Ea0 Eb1 Ea1 Et0 Ea2 Et1 Ea3 Et2 Ea4 Et3 Ea5 Et4 Ea6 Et5 Ea7 Et6 Ea8 Et7 Et9 Et8) as (V & B0 & B1 & B2 & B3 & B4 & B5 & B6 & B7 & B8 & B9).
  pose proof (final_w26 _ _ _ _ _ _ _ _ _ _ _ _ _ _ _ _ _ _ B0 B1 B2 B3 B4 B5 B6 B7 B8 B9 Ek2 Ek3 Ek4 Ek5 Ek6 Ek7 Ek8 Ew) as W.
  destruct (Z.leb_spec p (val26 t0 t1 t2 t3 t4 t5 t6 t7 t8 t9)) as [K|K]; cbn [b2z] in W.
  - rewrite W in H. change (1 =? 0) with false in H. cbv iota in H. letb_steps H.
    injection H as ? ? ? ? ? ? ? ? ? ?. subst s0 s1 s2 s3 s4 s5 s6 s7 s8 s9.
    assert (W' : 1 = b2z (p <=? val26 t0 t1 t2 t3 t4 t5 t6 t7 t8 t9)) by (apply Z.leb_le in K; rewrite K; reflexivity).
    pose proof (final_pass26 _ _ _ _ _ _ _ _ _ _ _ _ _ _ _ _ _ _ _ _ _ _ _ _ _ _ _ _ _ _ _ _ B0 B1 B2 B3 B4 B5 B6 B7 B8 B9 W' Ee0 Ef1 Ee1 Ev0 Ee2 Ev1 Ee3 Ev2 Ee4 Ev3 Ee5 Ev4 Ee6 Ev5 Ee7 Ev6 Ee8 Ev7 Ee9 Ev8 Ev9) as (V' & B').
    apply norm26 with (k := x + 1); [|exact B'].
    rewrite V'. unfold f26val. rewrite V. ring.
  - rewrite W in H. change (0 =? 0) with true in H. cbv iota in H.
    injection H as ? ? ? ? ? ? ? ? ? ?. subst s0 s1 s2 s3 s4 s5 s6 s7 s8 s9.
    apply norm26 with (k := x); [unfold f26val; rewrite V; ring|].
    split; [exact B0|]. split; [exact B1|]. split; [exact B2|]. split; [exact B3|]. split; [exact B4|]. split; [exact B5|]. split; [exact B6|]. split; [exact B7|]. split; [exact B8|].
    split; [|exact K]. clear -B0 B1 B2 B3 B4 B5 B6 B7 B8 B9 K. unfold val26 in K. rewrite p_26 in K. f26pow. lia.
Qed.

(** ** Zero tests *)
Lemma lxor_lt26 a c : 0 <= a < 2 ^ 26 -> 0 <= c < 2 ^ 26 -> 0 <= Z.lxor a c <= 67108863.
Proof.
  intros Ha Hc. split; [apply Z.lxor_nonneg; lia|].
  destruct (Z.eq_dec (Z.lxor a c) 0) as [->|N]; [discriminate|].
  assert (Z.lxor a c < 2 ^ 26); [|change (2 ^ 26) with 67108864 in *; lia].
  assert (L : forall y, 0 <= y < 2 ^ 26 -> Z.log2 y < 26).
  { intros y Hy. destruct (Z.eq_dec y 0) as [->|]; [reflexivity|]. apply Z.log2_lt_pow2; lia. }
  apply Z.log2_lt_cancel. change (Z.log2 (2 ^ 26)) with 26.
  eapply Z.le_lt_trans; [apply Z.log2_lxor; lia|]. apply Z.max_lub_lt; apply L; assumption.
Qed.
Lemma lxor_ones26 a c : Z.lxor 67108863 c = 67108863 - c -> (Z.lxor a c = 67108863 <-> a = 67108863 - c).
Proof.
  intros E. split.
  - intros H. rewrite <- E, <- H. rewrite Z.lxor_assoc, Z.lxor_nilpotent, Z.lxor_0_r. reflexivity.
  - intros ->. rewrite <- E. rewrite Z.lxor_assoc, Z.lxor_nilpotent, Z.lxor_0_r. reflexivity.
Qed.

Lemma zero_test26 t0 t1 t2 t3 t4 t5 t6 t7 t8 t9 y0 y1 y2 y3 y4 y5 y6 y7 y8 y9 z0 z1 z2 z3 z4 z5 z6 z7 z8 z9 : 0 <= t0 <= 67108863 -> 0 <= t1 <= 67108863 -> 0 <= t2 <= 67108863 -> 0 <= t3 <= 67108863 -> 0 <= t4 <= 67108863 -> 0 <= t5 <= 67108863 -> 0 <= t6 <= 67108863 -> 0 <= t7 <= 67108863 -> 0 <= t8 <= 67108863 -> 0 <= t9 <= 4194367 ->
  y0 = t0 -> z0 = Z.lxor t0 0x3D0 -> y1 = Z.lor y0 t1 -> z1 = Z.land z0 (Z.lxor t1 0x40) ->
  y2 = Z.lor y1 t2 -> z2 = Z.land z1 t2 -> y3 = Z.lor y2 t3 -> z3 = Z.land z2 t3 -> y4 = Z.lor y3 t4 -> z4 = Z.land z3 t4 -> y5 = Z.lor y4 t5 -> z5 = Z.land z4 t5 -> y6 = Z.lor y5 t6 -> z6 = Z.land z5 t6 -> y7 = Z.lor y6 t7 -> z7 = Z.land z6 t7 -> y8 = Z.lor y7 t8 -> z8 = Z.land z7 t8 ->
  y9 = Z.lor y8 t9 -> z9 = Z.land z8 (Z.lxor t9 0x3C00000) ->
  ((y9 =? 0) || (z9 =? M26))%bool = (val26 t0 t1 t2 t3 t4 t5 t6 t7 t8 t9 mod p =? 0) /\
  ((negb (y0 =? 0) && negb (z0 =? M26))%bool = true -> (val26 t0 t1 t2 t3 t4 t5 t6 t7 t8 t9 mod p =? 0) = false).
Proof.
  intros H0 H1 H2 H3 H4 H5 H6 H7 H8 H9 Y0 Z0 Y1 Z1 Y2 Z2 Y3 Z3 Y4 Z4 Y5 Z5 Y6 Z6 Y7 Z7 Y8 Z8 Y9 Z9.
  assert (X0 : 0 <= z0 <= 67108863) by (subst z0; apply lxor_lt26; [clear -H0; f26const; lia|split; [discriminate|reflexivity]]).
  assert (X1 : 0 <= Z.lxor t1 0x40 <= 67108863) by (apply lxor_lt26; [clear -H1; f26const; lia|split; [discriminate|reflexivity]]).
  assert (X9 : 0 <= Z.lxor t9 0x3C00000 <= 67108863) by (apply lxor_lt26; [clear -H9; f26const; lia|split; [discriminate|reflexivity]]).
  destruct (land_ones26 _ _ X0 X1) as [L1 N1]; rewrite <- Z1 in L1, N1.
  destruct (land_ones26 _ t2 L1 H2) as [L2 N2]; rewrite <- Z2 in L2, N2. destruct (land_ones26 _ t3 L2 H3) as [L3 N3]; rewrite <- Z3 in L3, N3. destruct (land_ones26 _ t4 L3 H4) as [L4 N4]; rewrite <- Z4 in L4, N4. destruct (land_ones26 _ t5 L4 H5) as [L5 N5]; rewrite <- Z5 in L5, N5. destruct (land_ones26 _ t6 L5 H6) as [L6 N6]; rewrite <- Z6 in L6, N6. destruct (land_ones26 _ t7 L6 H7) as [L7 N7]; rewrite <- Z7 in L7, N7. destruct (land_ones26 _ t8 L7 H8) as [L8 N8]; rewrite <- Z8 in L8, N8.
  destruct (land_ones26 _ _ L8 X9) as [L9 N9]; rewrite <- Z9 in L9, N9.
  rewrite lxor_ones26 in N1, N9 by reflexivity.
  assert (N0 : z0 = 67108863 <-> t0 = 67107887) by (rewrite Z0; apply (lxor_ones26 t0 0x3D0 eq_refl)).
  change (67108863 - 64) with 67108799 in *. change (67108863 - 62914560) with 4194303 in *.
  assert (C1 : z9 = 67108863 <-> val26 t0 t1 t2 t3 t4 t5 t6 t7 t8 t9 = p).
  { assert (C : z9 = 67108863 <-> t9 = 4194303 /\ t8 = 67108863 /\ t7 = 67108863 /\ t6 = 67108863 /\ t5 = 67108863 /\ t4 = 67108863 /\ t3 = 67108863 /\ t2 = 67108863 /\ t1 = 67108799 /\ t0 = 67107887)
      by (clear -N0 N1 N2 N3 N4 N5 N6 N7 N8 N9; tauto).
    rewrite C. unfold val26. rewrite p_26. clear -H0 H1 H2 H3 H4 H5 H6 H7 H8 H9. f26pow. split; [lia|]. intros K.
    assert (t9 = 4194303) by (clear -K H0 H1 H2 H3 H4 H5 H6 H7 H8 H9; lia). subst t9.
    assert (t8 = 67108863) by (clear -K H0 H1 H2 H3 H4 H5 H6 H7 H8; lia). subst t8. assert (t7 = 67108863) by (clear -K H0 H1 H2 H3 H4 H5 H6 H7; lia). subst t7. assert (t6 = 67108863) by (clear -K H0 H1 H2 H3 H4 H5 H6; lia). subst t6. assert (t5 = 67108863) by (clear -K H0 H1 H2 H3 H4 H5; lia). subst t5. assert (t4 = 67108863) by (clear -K H0 H1 H2 H3 H4; lia). subst t4. assert (t3 = 67108863) by (clear -K H0 H1 H2 H3; lia). subst t3. assert (t2 = 67108863) by (clear -K H0 H1 H2; lia). subst t2.
    assert (t1 = 67108799) by (clear -K H0 H1; lia). subst t1. repeat split. lia. }
  assert (C0 : y9 = 0 <-> val26 t0 t1 t2 t3 t4 t5 t6 t7 t8 t9 = 0).
  { rewrite Y9, Y8, Y7, Y6, Y5, Y4, Y3, Y2, Y1, Y0. rewrite !Z.lor_eq_0_iff. unfold val26. clear -H0 H1 H2 H3 H4 H5 H6 H7 H8 H9. f26pow. split; [lia|]. intros. repeat split; lia. }
  assert (B : 0 <= val26 t0 t1 t2 t3 t4 t5 t6 t7 t8 t9 < 2 * p).
  { unfold val26. rewrite p_26. clear -H0 H1 H2 H3 H4 H5 H6 H7 H8 H9. f26pow. lia. }
  assert (D0 : val26 t0 t1 t2 t3 t4 t5 t6 t7 t8 t9 = 0 -> y0 = 0).
  { rewrite Y0. unfold val26. clear -H0 H1 H2 H3 H4 H5 H6 H7 H8 H9. f26pow. lia. }
  assert (D1 : val26 t0 t1 t2 t3 t4 t5 t6 t7 t8 t9 = p -> z0 = 67108863) by (rewrite <- C1; clear -N0 N1 N2 N3 N4 N5 N6 N7 N8 N9; tauto).
  change M26 with 67108863.
  set (T := val26 t0 t1 t2 t3 t4 t5 t6 t7 t8 t9) in *. clearbody T. clear -C0 C1 B D0 D1.
  assert (M : T mod p = 0 <-> T = 0 \/ T = p).
  { split.
    - intros K. apply Z.mod_divide in K; [|discriminate]. destruct K as [k K].
      assert (k = 0 \/ k = 1) as [-> | ->] by nia; lia.
    - intros [-> | ->]; [reflexivity|]. apply Z_mod_same_full. }
  destruct (Z.eqb_spec (T mod p) 0), (Z.eqb_spec y9 0), (Z.eqb_spec z9 67108863), (Z.eqb_spec y0 0), (Z.eqb_spec z0 67108863);
    cbn [orb andb negb]; split; intros; try reflexivity; try discriminate; exfalso; tauto.
Qed.

Ltac nm t E v := destruct (ex_intro (fun z => z = v) v eq_refl) as [t E].
Lemma f26_nz_ok r : f26_mag 31 r -> f26_normalizes_to_zero r = (f26val r mod p =? 0).
Proof.
  intros Hr. destruct (mag31_limbs r Hr) as (L0 & L1 & L2 & L3 & L4 & L5 & L6 & L7 & L8 & L9).
  destruct (ex_intro (fun z => f26_normalizes_to_zero r = z) _ eq_refl) as [b H]. rewrite H. unfold f26_normalizes_to_zero in H. letb_steps H. transitivity ((y9 =? 0) || (z9 =? M26))%bool; [symmetry; exact H|]. clear H b.
  pose proof (first_pass26 _ _ _ _ _ _ _ _ _ _ _ _ _ _ _ _ _ _ _ _ _ _ _ _ _ _ _ _ _ _ _ _ L0 L1 L2 L3 L4 L5 L6 L7 L8 L9 Ex Eu9 Ea0 Eb1 Ea1 Et0 Ea2 Et1 Ea3 Et2 Ea4 Et3 Ea5 Et4 Ea6 Et5 Ea7 Et6 Ea8 Et7 Et9 Et8) as (V & B0 & B1 & B2 & B3 & B4 & B5 & B6 & B7 & B8 & B9).
  unfold f26val. rewrite V, Z_mod_plus_full.
  exact (proj1 (zero_test26 _ _ _ _ _ _ _ _ _ _ _ _ _ _ _ _ _ _ _ _ _ _ _ _ _ _ _ _ _ _ B0 B1 B2 B3 B4 B5 B6 B7 B8 B9 Ey0 Ez0 Ey1 Ez1 Ey2 Ez2 Ey3 Ez3 Ey4 Ez4 Ey5 Ez5 Ey6 Ez6 Ey7 Ez7 Ey8 Ez8 Ey9 Ez9)).
Qed.
Lemma f26_nz_var_ok r : f26_mag 31 r -> f26_normalizes_to_zero_var r = (f26val r mod p =? 0).
Proof.
  intros Hr. destruct (mag31_limbs r Hr) as (L0 & L1 & L2 & L3 & L4 & L5 & L6 & L7 & L8 & L9).
    remember (f26_normalizes_to_zero_var r) as b eqn:H. symmetry in H. unfold f26_normalizes_to_zero_var in H. letb_steps H.
    destruct (negb (y0 =? 0) && negb (z0 =? M26))%bool eqn:K.
    + subst b.
      nm u9 Eu9 (Z.land (m9 r) M22). nm b1 Eb1 (w32 (m1 r + w32 (Z.shiftl x 6))). nm a1 Ea1 (w32 (b1 + Z.shiftr a0 26)).
      nm a2 Ea2 (w32 (m2 r + Z.shiftr a1 26)). nm t1 Et1 (Z.land a1 M26). nm a3 Ea3 (w32 (m3 r + Z.shiftr a2 26)). nm t2 Et2 (Z.land a2 M26). nm a4 Ea4 (w32 (m4 r + Z.shiftr a3 26)). nm t3 Et3 (Z.land a3 M26). nm a5 Ea5 (w32 (m5 r + Z.shiftr a4 26)). nm t4 Et4 (Z.land a4 M26). nm a6 Ea6 (w32 (m6 r + Z.shiftr a5 26)). nm t5 Et5 (Z.land a5 M26). nm a7 Ea7 (w32 (m7 r + Z.shiftr a6 26)). nm t6 Et6 (Z.land a6 M26). nm a8 Ea8 (w32 (m8 r + Z.shiftr a7 26)). nm t7 Et7 (Z.land a7 M26).
      nm t9 Et9 (w32 (u9 + Z.shiftr a8 26)). nm t8 Et8 (Z.land a8 M26).
      nm y1 Ey1 (Z.lor y0 t1). nm z1 Ez1 (Z.land z0 (Z.lxor t1 0x40)).
      nm y2 Ey2 (Z.lor y1 t2). nm z2 Ez2 (Z.land z1 t2). nm y3 Ey3 (Z.lor y2 t3). nm z3 Ez3 (Z.land z2 t3). nm y4 Ey4 (Z.lor y3 t4). nm z4 Ez4 (Z.land z3 t4). nm y5 Ey5 (Z.lor y4 t5). nm z5 Ez5 (Z.land z4 t5). nm y6 Ey6 (Z.lor y5 t6). nm z6 Ez6 (Z.land z5 t6). nm y7 Ey7 (Z.lor y6 t7). nm z7 Ez7 (Z.land z6 t7). nm y8 Ey8 (Z.lor y7 t8). nm z8 Ez8 (Z.land z7 t8).
      nm y9 Ey9 (Z.lor y8 t9). nm z9 Ez9 (Z.land z8 (Z.lxor t9 0x3C00000)).
      pose proof (first_pass26 _ _ _ _ _ _ _ _ _ _ _ _ _ _ _ _ _ _ _ _ _ _ _ _ _ _ _ _ _ _ _ _ L0 L1 L2 L3 L4 L5 L6 L7 L8 L9 Ex Eu9 Ea0 Eb1 Ea1 Ey0 Ea2 Et1 Ea3 Et2 Ea4 Et3 Ea5 Et4 Ea6 Et5 Ea7 Et6 Ea8 Et7 Et9 Et8) as (V & B0 & B1 & B2 & B3 & B4 & B5 & B6 & B7 & B8 & B9).
      unfold f26val. rewrite V, Z_mod_plus_full. symmetry.
      exact (proj2 (zero_test26 _ _ _ _ _ _ _ _ _ _ _ _ _ _ _ _ _ _ _ _ _ _ _ _ _ _ _ _ _ _ B0 B1 B2 B3 B4 B5 B6 B7 B8 B9 eq_refl Ez0 Ey1 Ez1 Ey2 Ez2 Ey3 Ez3 Ey4 Ez4 Ey5 Ez5 Ey6 Ez6 Ey7 Ez7 Ey8 Ez8 Ey9 Ez9) K).
    + clear K. letb_steps H.
      pose proof (first_pass26 _ _ _ _ _ _ _ _ _ _ _ _ _ _ _ _ _ _ _ _ _ _ _ _ _ _ _ _ _ _ _ _ L0 L1 L2 L3 L4 L5 L6 L7 L8 L9 Ex Eu9 Ea0 Eb1 Ea1 Ey0 Ea2 Et1 Ea3 Et2 Ea4 Et3 Ea5 Et4 Ea6 Et5 Ea7 Et6 Ea8 Et7 Et9 Et8) as (V & B0 & B1 & B2 & B3 & B4 & B5 & B6 & B7 & B8 & B9).
      unfold f26val. rewrite V, Z_mod_plus_full. rewrite <- H.
      exact (proj1 (zero_test26 _ _ _ _ _ _ _ _ _ _ _ _ _ _ _ _ _ _ _ _ _ _ _ _ _ _ _ _ _ _ B0 B1 B2 B3 B4 B5 B6 B7 B8 B9 eq_refl Ez0 Ey1 Ez1 Ey2 Ez2 Ey3 Ez3 Ey4 Ez4 Ey5 Ez5 Ey6 Ez6 Ey7 Ez7 Ey8 Ez8 Ey9 Ez9)).
Qed.
