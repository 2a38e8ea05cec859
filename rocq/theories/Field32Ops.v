(** 32-bit field: linear operations, comparison, bytes and storage. *)
Require Import ZArith List Bool Lia.
From Verif Require Import Word Word32 Bytes Spec FieldModel FieldBytes FieldOps Field32Model Field32Mul Field32Proof.
Import ListNotations.
Local Open Scope Z_scope.

Lemma f26val_norm_range a : f26_norm a -> 0 <= f26val a < p.
Proof.
  intros (H0 & H1 & H2 & H3 & H4 & H5 & H6 & H7 & H8 & H9 & H10). split; [|assumption]. unfold f26val, val26. clear H10. lia.
Qed.
Lemma f26_mag_weaken m k a : f26_mag m a -> m <= k -> f26_mag k a.
Proof.
  unfold f26_mag. f26const. intros (H0 & H1 & H2 & H3 & H4 & H5 & H6 & H7 & H8 & H9) L. repeat split; lia.
Qed.
Lemma f26_norm_mag a : f26_norm a -> f26_mag 1 a.
Proof.
  unfold f26_norm, f26_mag. f26const. intros (H0 & H1 & H2 & H3 & H4 & H5 & H6 & H7 & H8 & H9 & H10). repeat split; lia.
Qed.
(** Two normalized elements with the same value have the same limbs. *)
Lemma f26_norm_inj a b : f26_norm a -> f26_norm b -> f26val a = f26val b -> a = b.
Proof.
  destruct a as [a0 a1 a2 a3 a4 a5 a6 a7 a8 a9], b as [b0 b1 b2 b3 b4 b5 b6 b7 b8 b9].
  intros (H0 & H1 & H2 & H3 & H4 & H5 & H6 & H7 & H8 & H9 & _) (K0 & K1 & K2 & K3 & K4 & K5 & K6 & K7 & K8 & K9 & _). unfold f26val, val26. cbn [m0 m1 m2 m3 m4 m5 m6 m7 m8 m9] in *. intros E.
  f26const. f26pow.
  assert (a9 = b9) by (clear -E H0 K0 H1 K1 H2 K2 H3 K3 H4 K4 H5 K5 H6 K6 H7 K7 H8 K8 H9 K9; lia). subst b9. assert (a8 = b8) by (clear -E H0 K0 H1 K1 H2 K2 H3 K3 H4 K4 H5 K5 H6 K6 H7 K7 H8 K8; lia). subst b8. assert (a7 = b7) by (clear -E H0 K0 H1 K1 H2 K2 H3 K3 H4 K4 H5 K5 H6 K6 H7 K7; lia). subst b7. assert (a6 = b6) by (clear -E H0 K0 H1 K1 H2 K2 H3 K3 H4 K4 H5 K5 H6 K6; lia). subst b6. assert (a5 = b5) by (clear -E H0 K0 H1 K1 H2 K2 H3 K3 H4 K4 H5 K5; lia). subst b5. assert (a4 = b4) by (clear -E H0 K0 H1 K1 H2 K2 H3 K3 H4 K4; lia). subst b4. assert (a3 = b3) by (clear -E H0 K0 H1 K1 H2 K2 H3 K3; lia). subst b3. assert (a2 = b2) by (clear -E H0 K0 H1 K1 H2 K2; lia). subst b2. assert (a1 = b1) by (clear -E H0 K0 H1 K1; lia). subst b1.
  f_equal. lia.
Qed.

Lemma f26_add_ok m k a b : f26_mag m a -> f26_mag k b -> 0 <= m -> 0 <= k -> m + k <= 32 ->
  f26_mag (m + k) (f26_add a b) /\ f26val (f26_add a b) = f26val a + f26val b.
Proof.
  intros (A0 & A1 & A2 & A3 & A4 & A5 & A6 & A7 & A8 & A9) (B0 & B1 & B2 & B3 & B4 & B5 & B6 & B7 & B8 & B9) Hm Hk Hs. unfold f26_add, f26_mag, f26val. cbn [m0 m1 m2 m3 m4 m5 m6 m7 m8 m9].
  rewrite (w32_id (m0 a + m0 b)) by (clear -A0 B0 Hm Hk Hs; f26const; lia). rewrite (w32_id (m1 a + m1 b)) by (clear -A1 B1 Hm Hk Hs; f26const; lia). rewrite (w32_id (m2 a + m2 b)) by (clear -A2 B2 Hm Hk Hs; f26const; lia). rewrite (w32_id (m3 a + m3 b)) by (clear -A3 B3 Hm Hk Hs; f26const; lia). rewrite (w32_id (m4 a + m4 b)) by (clear -A4 B4 Hm Hk Hs; f26const; lia). rewrite (w32_id (m5 a + m5 b)) by (clear -A5 B5 Hm Hk Hs; f26const; lia). rewrite (w32_id (m6 a + m6 b)) by (clear -A6 B6 Hm Hk Hs; f26const; lia). rewrite (w32_id (m7 a + m7 b)) by (clear -A7 B7 Hm Hk Hs; f26const; lia). rewrite (w32_id (m8 a + m8 b)) by (clear -A8 B8 Hm Hk Hs; f26const; lia). rewrite (w32_id (m9 a + m9 b)) by (clear -A9 B9 Hm Hk Hs; f26const; lia).
  split; [|unfold val26; ring].
  split; [clear -A0 B0; lia|]. split; [clear -A1 B1; lia|]. split; [clear -A2 B2; lia|]. split; [clear -A3 B3; lia|]. split; [clear -A4 B4; lia|]. split; [clear -A5 B5; lia|]. split; [clear -A6 B6; lia|]. split; [clear -A7 B7; lia|]. split; [clear -A8 B8; lia|]. clear -A9 B9. lia.
Qed.
Lemma f26_add_int_ok m k a : f26_mag m a -> 0 <= k <= 0x7FFF -> 0 <= m <= 31 ->
  f26_mag (m + 1) (f26_add_int a k) /\ f26val (f26_add_int a k) = f26val a + k.
Proof.
  intros (A0 & A1 & A2 & A3 & A4 & A5 & A6 & A7 & A8 & A9) Hk Hm. unfold f26_add_int, f26_mag, f26val. cbn [m0 m1 m2 m3 m4 m5 m6 m7 m8 m9].
  rewrite w32_id by (clear -A0 Hm Hk; f26const; lia).
  split; [|unfold val26; ring]. f26const.
  split; [clear -A0 Hk; lia|]. split; [clear -A1 Hk; lia|]. split; [clear -A2 Hk; lia|]. split; [clear -A3 Hk; lia|]. split; [clear -A4 Hk; lia|]. split; [clear -A5 Hk; lia|]. split; [clear -A6 Hk; lia|]. split; [clear -A7 Hk; lia|]. split; [clear -A8 Hk; lia|]. clear -A9. lia.
Qed.
Lemma neg_word26 C m x K : 0 <= C < 2 ^ 26 -> 0 <= m <= 31 -> 0 <= x <= 2 * m * K -> m * K <= (m + 1) * C ->
  w32 (w32 (w32 (C * 2) * (m + 1)) - x) = C * 2 * (m + 1) - x.
Proof.
  intros HC Hm Hx HM.
  assert (0 <= C * 2 * (m + 1) < 2 ^ 32) by nia.
  rewrite (w32_id (C * 2)) by lia. rewrite (w32_id (C * 2 * (m + 1))) by lia. apply w32_id. lia.
Qed.
Lemma f26_negate_ok m a : f26_mag m a -> 0 <= m <= 31 ->
  f26_mag (m + 1) (f26_negate a m) /\ f26val (f26_negate a m) = 2 * (m + 1) * p - f26val a.
Proof.
  intros (A0 & A1 & A2 & A3 & A4 & A5 & A6 & A7 & A8 & A9) Hm. unfold f26_negate, f26_mag, f26val. cbn [m0 m1 m2 m3 m4 m5 m6 m7 m8 m9].
  rewrite (neg_word26 0x3FFFC2F m (m0 a) M26), (neg_word26 0x3FFFFBF m (m1 a) M26), (neg_word26 M26 m (m2 a) M26), (neg_word26 M26 m (m3 a) M26), (neg_word26 M26 m (m4 a) M26), (neg_word26 M26 m (m5 a) M26), (neg_word26 M26 m (m6 a) M26), (neg_word26 M26 m (m7 a) M26), (neg_word26 M26 m (m8 a) M26), (neg_word26 M22 m (m9 a) M22);
    try assumption; try (split; [discriminate|reflexivity]); try discriminate; try (clear -Hm; f26const; lia).
  split.
  - f26const. split; [clear -A0 Hm; lia|]. split; [clear -A1 Hm; lia|]. split; [clear -A2 Hm; lia|]. split; [clear -A3 Hm; lia|]. split; [clear -A4 Hm; lia|]. split; [clear -A5 Hm; lia|]. split; [clear -A6 Hm; lia|]. split; [clear -A7 Hm; lia|]. split; [clear -A8 Hm; lia|]. clear -A9 Hm. lia.
  - change p with (0x3FFFC2F + 0x3FFFFBF * 2 ^ 26 + M26 * 2 ^ 52 + M26 * 2 ^ 78 + M26 * 2 ^ 104 + M26 * 2 ^ 130 + M26 * 2 ^ 156 + M26 * 2 ^ 182 + M26 * 2 ^ 208 + M22 * 2 ^ 234). unfold val26. ring.
Qed.
Lemma f26_mul_int_ok m k a : f26_mag m a -> 0 <= m -> 0 <= k -> m * k <= 32 ->
  f26_mag (m * k) (f26_mul_int a k) /\ f26val (f26_mul_int a k) = f26val a * k.
Proof.
  intros (A0 & A1 & A2 & A3 & A4 & A5 & A6 & A7 & A8 & A9) Hm Hk Hs. unfold f26_mul_int, f26_mag, f26val. cbn [m0 m1 m2 m3 m4 m5 m6 m7 m8 m9].
  assert (P : forall x K, 0 <= x <= 2 * m * K -> 0 <= x * k <= 2 * (m * k) * K).
  { intros x K Hx. split; [nia|]. replace (2 * (m * k) * K) with (2 * m * K * k) by ring. nia. }
  pose proof (P _ _ A0) as B0. pose proof (P _ _ A1) as B1. pose proof (P _ _ A2) as B2. pose proof (P _ _ A3) as B3. pose proof (P _ _ A4) as B4. pose proof (P _ _ A5) as B5. pose proof (P _ _ A6) as B6. pose proof (P _ _ A7) as B7. pose proof (P _ _ A8) as B8. pose proof (P _ _ A9) as B9.
  set (mk := m * k) in *. clearbody mk.
  rewrite (w32_id (m0 a * k)) by (clear -B0 Hs; f26const; lia). rewrite (w32_id (m1 a * k)) by (clear -B1 Hs; f26const; lia). rewrite (w32_id (m2 a * k)) by (clear -B2 Hs; f26const; lia). rewrite (w32_id (m3 a * k)) by (clear -B3 Hs; f26const; lia). rewrite (w32_id (m4 a * k)) by (clear -B4 Hs; f26const; lia). rewrite (w32_id (m5 a * k)) by (clear -B5 Hs; f26const; lia). rewrite (w32_id (m6 a * k)) by (clear -B6 Hs; f26const; lia). rewrite (w32_id (m7 a * k)) by (clear -B7 Hs; f26const; lia). rewrite (w32_id (m8 a * k)) by (clear -B8 Hs; f26const; lia). rewrite (w32_id (m9 a * k)) by (clear -B9 Hs; f26const; lia).
  split; [tauto|unfold val26; ring].
Qed.
Lemma f26_set_int_ok k : 0 <= k <= 0x7FFF -> f26_norm (f26_set_int k) /\ f26val (f26_set_int k) = k.
Proof.
  intros H. unfold f26_set_int, f26_norm, f26val, val26. cbn [m0 m1 m2 m3 m4 m5 m6 m7 m8 m9]. rewrite p_26. f26const. lia.
Qed.
Lemma f26_cmov_ok m r a flag : f26_mag m r -> f26_mag m a -> 0 <= m <= 32 -> flag = 0 \/ flag = 1 ->
  f26_cmov r a flag = if flag =? 0 then r else a.
Proof.
  intros (A0 & A1 & A2 & A3 & A4 & A5 & A6 & A7 & A8 & A9) (B0 & B1 & B2 & B3 & B4 & B5 & B6 & B7 & B8 & B9) Hm Hf. unfold f26_cmov.
  rewrite (cmov32_spec (m0 r) (m0 a) flag) by (exact Hf || (clear -A0 B0 Hm; f26const; lia)). rewrite (cmov32_spec (m1 r) (m1 a) flag) by (exact Hf || (clear -A1 B1 Hm; f26const; lia)). rewrite (cmov32_spec (m2 r) (m2 a) flag) by (exact Hf || (clear -A2 B2 Hm; f26const; lia)). rewrite (cmov32_spec (m3 r) (m3 a) flag) by (exact Hf || (clear -A3 B3 Hm; f26const; lia)). rewrite (cmov32_spec (m4 r) (m4 a) flag) by (exact Hf || (clear -A4 B4 Hm; f26const; lia)). rewrite (cmov32_spec (m5 r) (m5 a) flag) by (exact Hf || (clear -A5 B5 Hm; f26const; lia)). rewrite (cmov32_spec (m6 r) (m6 a) flag) by (exact Hf || (clear -A6 B6 Hm; f26const; lia)). rewrite (cmov32_spec (m7 r) (m7 a) flag) by (exact Hf || (clear -A7 B7 Hm; f26const; lia)). rewrite (cmov32_spec (m8 r) (m8 a) flag) by (exact Hf || (clear -A8 B8 Hm; f26const; lia)). rewrite (cmov32_spec (m9 r) (m9 a) flag) by (exact Hf || (clear -A9 B9 Hm; f26const; lia)).
  destruct r, a; destruct Hf as [-> | ->]; reflexivity.
Qed.

(** Halving. *)
Lemma half_limb26 t u : 0 <= t < 2 ^ 32 -> 0 <= u < 2 ^ 32 -> exists th tb ub, t = 2 * th + tb /\ 0 <= tb <= 1 /\ 0 <= th /\
  Z.land u 1 = ub /\ 0 <= ub <= 1 /\ Z.land t 1 = tb /\
  w32 (Z.shiftr t 1 + w32 (Z.shiftl (Z.land u 1) 25)) = th + ub * 2 ^ 25 /\ Z.shiftr t 1 = th.
Proof.
  intros Ht Hu. exists (t / 2), (t mod 2), (u mod 2).
  pose proof (Z.div_mod t 2 ltac:(discriminate)) as D. pose proof (Z.mod_pos_bound t 2 eq_refl) as B.
  pose proof (Z.mod_pos_bound u 2 eq_refl) as B'.
  rewrite !land_1.
  rewrite shiftr_div by lia. rewrite Z.shiftl_mul_pow2 by lia. change (2 ^ 1) with 2.
  split; [exact D|]. split; [lia|]. split; [lia|]. split; [reflexivity|]. split; [lia|]. split; [reflexivity|].
  rewrite (w32_id (u mod 2 * 2 ^ 25)) by lia. split; [apply w32_id; lia|reflexivity].
Qed.
Lemma f26_half_ok m a : f26_mag m a -> 0 <= m <= 31 ->
  f26_mag (m / 2 + 1) (f26_half a) /\ exists k, 2 * f26val (f26_half a) = f26val a + k * p.
Proof.
  intros (A0 & A1 & A2 & A3 & A4 & A5 & A6 & A7 & A8 & A9) Hm.
  assert (exists o, (o = 0 \/ o = 1) /\ Z.land (m0 a) 1 = o /\ exists h, m0 a = 2 * h + o) as (o & Ho & Eo & h & Eh).
  { destruct (odd_word (m0 a) ltac:(lia)) as [[E [h H]]|[E [h H]]]; rewrite E; [exists 0|exists 1]; (split; [auto|]); (split; [reflexivity|]); exists h; lia. }
  assert (Em : Z.shiftr (w32 (- o)) 6 = o * M26 /\ Z.land 0x3FFFC2F (o * M26) = o * 0x3FFFC2F /\ Z.land 0x3FFFFBF (o * M26) = o * 0x3FFFFBF /\ Z.shiftr (o * M26) 4 = o * M22).
  { destruct Ho as [-> | ->]; repeat split. }
  destruct Em as (E1 & E2 & E3 & E4).
  assert (L : 2 * m < 2 * (m / 2 + 1) * 2 /\ (m + 1) <= 2 * (m / 2 + 1)).
  { pose proof (Z.div_mod m 2 ltac:(discriminate)). pose proof (Z.mod_pos_bound m 2 eq_refl). lia. }
  unfold f26_half. rewrite Eo, E1, E2, E3, E4. cbv zeta.
  set (m' := m / 2 + 1) in *. clearbody m'.
  assert (T0 : 0 <= m0 a + o * 0x3FFFC2F <= (2 * m + 1) * M26) by (clear -A0 Ho; f26const; destruct Ho; subst; lia).
  assert (T1 : 0 <= m1 a + o * 0x3FFFFBF <= (2 * m + 1) * M26) by (clear -A1 Ho; f26const; destruct Ho; subst; lia).
  assert (T2 : 0 <= m2 a + o * M26 <= (2 * m + 1) * M26) by (clear -A2 Ho; f26const; destruct Ho; subst; lia). assert (T3 : 0 <= m3 a + o * M26 <= (2 * m + 1) * M26) by (clear -A3 Ho; f26const; destruct Ho; subst; lia). assert (T4 : 0 <= m4 a + o * M26 <= (2 * m + 1) * M26) by (clear -A4 Ho; f26const; destruct Ho; subst; lia). assert (T5 : 0 <= m5 a + o * M26 <= (2 * m + 1) * M26) by (clear -A5 Ho; f26const; destruct Ho; subst; lia). assert (T6 : 0 <= m6 a + o * M26 <= (2 * m + 1) * M26) by (clear -A6 Ho; f26const; destruct Ho; subst; lia). assert (T7 : 0 <= m7 a + o * M26 <= (2 * m + 1) * M26) by (clear -A7 Ho; f26const; destruct Ho; subst; lia). assert (T8 : 0 <= m8 a + o * M26 <= (2 * m + 1) * M26) by (clear -A8 Ho; f26const; destruct Ho; subst; lia).
  assert (T9 : 0 <= m9 a + o * M22 <= (2 * m + 1) * M22) by (clear -A9 Ho; f26const; destruct Ho; subst; lia).
  assert (MM1 : 0 <= (2 * m + 1) * M26 < 2 ^ 32) by (clear -Hm; f26const; lia).
  assert (MM2 : 0 <= (2 * m + 1) * M22 < 2 ^ 32) by (clear -Hm; f26const; lia).
  rewrite (w32_id (m0 a + o * 0x3FFFC2F)) by (clear -T0 MM1; lia). rewrite (w32_id (m1 a + o * 0x3FFFFBF)) by (clear -T1 MM1; lia).
  rewrite (w32_id (m2 a + o * M26)) by (clear -T2 MM1; lia). rewrite (w32_id (m3 a + o * M26)) by (clear -T3 MM1; lia). rewrite (w32_id (m4 a + o * M26)) by (clear -T4 MM1; lia). rewrite (w32_id (m5 a + o * M26)) by (clear -T5 MM1; lia). rewrite (w32_id (m6 a + o * M26)) by (clear -T6 MM1; lia). rewrite (w32_id (m7 a + o * M26)) by (clear -T7 MM1; lia). rewrite (w32_id (m8 a + o * M26)) by (clear -T8 MM1; lia). rewrite (w32_id (m9 a + o * M22)) by (clear -T9 MM2; lia).
  assert (EV : exists z, m0 a + o * 0x3FFFC2F = 2 * z).
  { exists (h + o * (0x3FFFC2F + 1) / 2). rewrite Eh. clear -Ho. destruct Ho as [-> | ->].
    - change (0 * (0x3FFFC2F + 1) / 2) with 0. lia.
    - change (1 * (0x3FFFC2F + 1) / 2) with 33553944. lia. }
  assert (FV : f26val a + o * p = val26 (m0 a + o * 0x3FFFC2F) (m1 a + o * 0x3FFFFBF) (m2 a + o * M26) (m3 a + o * M26) (m4 a + o * M26) (m5 a + o * M26) (m6 a + o * M26) (m7 a + o * M26) (m8 a + o * M26) (m9 a + o * M22)).
  { change p with (0x3FFFC2F + 0x3FFFFBF * 2 ^ 26 + M26 * 2 ^ 52 + M26 * 2 ^ 78 + M26 * 2 ^ 104 + M26 * 2 ^ 130 + M26 * 2 ^ 156 + M26 * 2 ^ 182 + M26 * 2 ^ 208 + M22 * 2 ^ 234). unfold f26val, val26. ring. }
  set (t0 := m0 a + o * 0x3FFFC2F) in *. set (t1 := m1 a + o * 0x3FFFFBF) in *. set (t2 := m2 a + o * M26) in *. set (t3 := m3 a + o * M26) in *. set (t4 := m4 a + o * M26) in *. set (t5 := m5 a + o * M26) in *. set (t6 := m6 a + o * M26) in *. set (t7 := m7 a + o * M26) in *. set (t8 := m8 a + o * M26) in *. set (t9 := m9 a + o * M22) in *.
  clearbody t0 t1 t2 t3 t4 t5 t6 t7 t8 t9. clear E1 E2 E3 E4 Eo A0 A1 A2 A3 A4 A5 A6 A7 A8 A9 Eh.
  destruct (half_limb26 t0 t1 ltac:(clear -T0 MM1; lia) ltac:(clear -T1 MM1 MM2; lia)) as (h0 & b0 & c1 & X0 & Y0 & Z0 & U0 & V0 & W0 & -> & _). destruct (half_limb26 t1 t2 ltac:(clear -T1 MM1; lia) ltac:(clear -T2 MM1 MM2; lia)) as (h1 & b1 & c2 & X1 & Y1 & Z1 & U1 & V1 & W1 & -> & _). destruct (half_limb26 t2 t3 ltac:(clear -T2 MM1; lia) ltac:(clear -T3 MM1 MM2; lia)) as (h2 & b2 & c3 & X2 & Y2 & Z2 & U2 & V2 & W2 & -> & _). destruct (half_limb26 t3 t4 ltac:(clear -T3 MM1; lia) ltac:(clear -T4 MM1 MM2; lia)) as (h3 & b3 & c4 & X3 & Y3 & Z3 & U3 & V3 & W3 & -> & _). destruct (half_limb26 t4 t5 ltac:(clear -T4 MM1; lia) ltac:(clear -T5 MM1 MM2; lia)) as (h4 & b4 & c5 & X4 & Y4 & Z4 & U4 & V4 & W4 & -> & _). destruct (half_limb26 t5 t6 ltac:(clear -T5 MM1; lia) ltac:(clear -T6 MM1 MM2; lia)) as (h5 & b5 & c6 & X5 & Y5 & Z5 & U5 & V5 & W5 & -> & _). destruct (half_limb26 t6 t7 ltac:(clear -T6 MM1; lia) ltac:(clear -T7 MM1 MM2; lia)) as (h6 & b6 & c7 & X6 & Y6 & Z6 & U6 & V6 & W6 & -> & _). destruct (half_limb26 t7 t8 ltac:(clear -T7 MM1; lia) ltac:(clear -T8 MM1 MM2; lia)) as (h7 & b7 & c8 & X7 & Y7 & Z7 & U7 & V7 & W7 & -> & _). destruct (half_limb26 t8 t9 ltac:(clear -T8 MM1; lia) ltac:(clear -T9 MM1 MM2; lia)) as (h8 & b8 & c9 & X8 & Y8 & Z8 & U8 & V8 & W8 & -> & _).
  destruct (half_limb26 t9 t9 ltac:(clear -T9 MM2; lia) ltac:(clear -T9 MM2; lia)) as (h9 & b9 & c10 & X9 & Y9 & Z9 & U9 & V9 & W9 & _ & ->).
  assert (Q1 : c1 = b1) by (clear -U0 W1; congruence). clear U0 W1. subst c1. assert (Q2 : c2 = b2) by (clear -U1 W2; congruence). clear U1 W2. subst c2. assert (Q3 : c3 = b3) by (clear -U2 W3; congruence). clear U2 W3. subst c3. assert (Q4 : c4 = b4) by (clear -U3 W4; congruence). clear U3 W4. subst c4. assert (Q5 : c5 = b5) by (clear -U4 W5; congruence). clear U4 W5. subst c5. assert (Q6 : c6 = b6) by (clear -U5 W6; congruence). clear U5 W6. subst c6. assert (Q7 : c7 = b7) by (clear -U6 W7; congruence). clear U6 W7. subst c7. assert (Q8 : c8 = b8) by (clear -U7 W8; congruence). clear U7 W8. subst c8. assert (Q9 : c9 = b9) by (clear -U8 W9; congruence). clear U8 W9. subst c9.
  assert (Q0 : b0 = 0) by (clear -EV X0 Y0; destruct EV; lia). clear W0. subst b0.
  unfold f26_mag. cbn [m0 m1 m2 m3 m4 m5 m6 m7 m8 m9]. split.
  - f26const. change (2 ^ 25) with 33554432. split; [clear -L T0 X0 Y0 Y1 Z0; lia|]. split; [clear -L T1 X1 Y1 Y2 Z1; lia|]. split; [clear -L T2 X2 Y2 Y3 Z2; lia|]. split; [clear -L T3 X3 Y3 Y4 Z3; lia|]. split; [clear -L T4 X4 Y4 Y5 Z4; lia|]. split; [clear -L T5 X5 Y5 Y6 Z5; lia|]. split; [clear -L T6 X6 Y6 Y7 Z6; lia|]. split; [clear -L T7 X7 Y7 Y8 Z7; lia|]. split; [clear -L T8 X8 Y8 Y9 Z8; lia|]. clear -L T9 X9 Y9 Z9. lia.
  - exists o. rewrite FV. unfold f26val, val26. cbn [m0 m1 m2 m3 m4 m5 m6 m7 m8 m9]. rewrite X0, X1, X2, X3, X4, X5, X6, X7, X8, X9. ring.
Qed.

(** ** Comparison *)
Fixpoint horner (B acc : Z) (l : list Z) : Z := match l with [] => acc | x :: l => horner B (acc * B + x) l end.
Lemma horner_lt B la lb : 0 < B -> length la = length lb -> Forall (fun x => 0 <= x < B) la -> Forall (fun x => 0 <= x < B) lb ->
  forall x y, x < y -> horner B x la < horner B y lb.
Proof.
  intros HB. revert lb. induction la as [|a la IH]; intros [|b lb] HL HA HH x y Hxy; try discriminate HL; [exact Hxy|].
  inversion HA; inversion HH; subst. cbn [horner]. apply IH; auto. nia.
Qed.
Lemma limbs_cmp_horner B la lb acc : 0 < B -> length la = length lb -> Forall (fun x => 0 <= x < B) la -> Forall (fun x => 0 <= x < B) lb ->
  limbs_cmp la lb = match horner B acc la ?= horner B acc lb with Lt => -1 | Eq => 0 | Gt => 1 end.
Proof.
  intros HB. revert lb acc. induction la as [|a la IH]; intros [|b lb] acc HL HA HH; try discriminate HL.
  - cbn. now rewrite Z.compare_refl.
  - inversion HA; inversion HH; subst. injection HL as HL. cbn [limbs_cmp horner]. rewrite Z.gtb_ltb.
    destruct (Z.ltb_spec b a).
    + pose proof (horner_lt B lb la HB ltac:(auto) ltac:(assumption) ltac:(assumption) (acc * B + b) (acc * B + a) ltac:(lia)) as K.
      apply Z.lt_gt in K. unfold Z.gt in K. now rewrite K.
    + destruct (Z.ltb_spec a b).
      * pose proof (horner_lt B la lb HB ltac:(auto) ltac:(assumption) ltac:(assumption) (acc * B + a) (acc * B + b) ltac:(lia)) as K.
        unfold Z.lt in K. now rewrite K.
      * assert (a = b) by lia. subst b. now apply IH.
Qed.
Lemma f26_cmp_var_ok a b : f26_norm a -> f26_norm b ->
  f26_cmp_var a b = match f26val a ?= f26val b with Lt => -1 | Eq => 0 | Gt => 1 end.
Proof.
  intros (H0 & H1 & H2 & H3 & H4 & H5 & H6 & H7 & H8 & H9 & _) (K0 & K1 & K2 & K3 & K4 & K5 & K6 & K7 & K8 & K9 & _). unfold f26_cmp_var.
  rewrite (limbs_cmp_horner (2 ^ 26) _ _ 0); [|reflexivity|reflexivity| |].
  - replace (horner (2 ^ 26) 0 [m9 a; m8 a; m7 a; m6 a; m5 a; m4 a; m3 a; m2 a; m1 a; m0 a]) with (f26val a) by (unfold f26val, val26; cbn [horner]; ring).
    replace (horner (2 ^ 26) 0 [m9 b; m8 b; m7 b; m6 b; m5 b; m4 b; m3 b; m2 b; m1 b; m0 b]) with (f26val b) by (unfold f26val, val26; cbn [horner]; ring).
    reflexivity.
  - f26const. repeat (apply Forall_cons; [lia|]). apply Forall_nil.
  - f26const. repeat (apply Forall_cons; [lia|]). apply Forall_nil.
Qed.
Lemma f26_is_zero_ok a : f26_norm a -> f26_is_zero a = (f26val a =? 0).
Proof.
  intros (H0 & H1 & H2 & H3 & H4 & H5 & H6 & H7 & H8 & H9 & _). unfold f26_is_zero, f26val, val26. apply eq_true_iff_eq. rewrite !Z.eqb_eq, !Z.lor_eq_0_iff. lia.
Qed.
Lemma f26_is_odd_ok a : f26_is_odd a = Z.odd (f26val a).
Proof.
  unfold f26_is_odd, f26val, val26. rewrite !Z.odd_add, !Z.odd_mul.
  change (Z.odd (2 ^ 26)) with false. change (Z.odd (2 ^ 52)) with false. change (Z.odd (2 ^ 78)) with false. change (Z.odd (2 ^ 104)) with false. change (Z.odd (2 ^ 130)) with false. change (Z.odd (2 ^ 156)) with false. change (Z.odd (2 ^ 182)) with false. change (Z.odd (2 ^ 208)) with false. change (Z.odd (2 ^ 234)) with false.
  rewrite !andb_false_r, !xorb_false_r.
  change 1 with (2 ^ 1 - 1). rewrite land_ones_mod by lia. change (2 ^ 1) with 2. rewrite Zmod_odd.
  destruct (Z.odd (m0 a)); reflexivity.
Qed.
