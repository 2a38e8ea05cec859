(** Inverses of scalars and field elements in the 32-bit build: conversions and the link to the
    specification.  Same argument as ModinvProof5.v. *)
Require Import ZArith Lia List Bool Znumtheory.
From Verif Require Import Word Word32 Spec Primes Field32Model Scalar32Model SpecRep32 SpecScalar32 Int128Model SpecWords Int128Proof ScalarProof2
  ModinvModel JacobiModel Modinv32Model Safegcd SafegcdBound ModinvProof ModinvProof2 ModinvProof3 ModinvProof4 ModinvProof5
  Modinv32Proof Modinv32Proof2 Modinv32Proof3 Modinv32Proof4.
Import ListNotations.
Local Open Scope Z_scope.

(** ** Repacking of limbs *)
Lemma w32_shl_mod y s : 0 <= s <= 32 -> w32 (Z.shiftl y s) = 2 ^ s * (y mod 2 ^ (32 - s)).
Proof.
  intros Hs. rewrite Z.shiftl_mul_pow2 by lia. unfold w32.
  replace (2 ^ 32) with (2 ^ (32 - s) * 2 ^ s) by (rewrite <- Z.pow_add_r by lia; f_equal; lia).
  rewrite Z.mul_mod_distr_r; [ring|apply Z.pow_nonzero; lia|apply Z.pow_nonzero; lia].
Qed.
Lemma join32 a y s : 0 <= s <= 32 -> 0 <= a < 2 ^ s -> Z.lor a (w32 (Z.shiftl y s)) = a + 2 ^ s * (y mod 2 ^ (32 - s)).
Proof. intros Hs Ha. rewrite w32_shl_mod by lia. apply lor_mul; [lia|exact Ha|apply Z.mod_pos_bound, Z.pow_pos_nonneg; lia]. Qed.
Lemma joinc32 a y s c : 0 <= s <= c -> c <= 32 -> 0 <= a < 2 ^ s ->
  Z.land (Z.lor a (w32 (Z.shiftl y s))) (2 ^ c - 1) = a + 2 ^ s * (y mod 2 ^ (c - s)).
Proof.
  intros Hs Hc Ha. rewrite join32 by lia. replace (2 ^ c - 1) with (Z.ones c) by (rewrite Z.ones_equiv; lia).
  rewrite Z.land_ones by lia.
  assert (P : 0 < 2 ^ s) by (apply Z.pow_pos_nonneg; lia). assert (Pc : 0 < 2 ^ (c - s)) by (apply Z.pow_pos_nonneg; lia).
  replace (2 ^ c) with (2 ^ s * 2 ^ (c - s)) by (rewrite <- Z.pow_add_r by lia; f_equal; lia).
  rewrite Z.rem_mul_r by lia. rewrite (Z.mul_comm (2 ^ s)), Z.mod_add, Z.div_add by lia.
  rewrite Z.mod_small, (Z.div_small a) by lia. rewrite Z.add_0_l, mod_mod_pow by lia. ring.
Qed.

Definition limbs30 (v : Z) (l : list Z) : Prop := length l = 9%nat /\ canon30 l /\ small (2 ^ 30) l /\ lval30 l = v.

Lemma limbs30_intro a0 a1 a2 a3 a4 a5 a6 a7 a8 v : 0 <= a0 < 2 ^ 30 -> 0 <= a1 < 2 ^ 30 -> 0 <= a2 < 2 ^ 30 -> 0 <= a3 < 2 ^ 30 ->
  0 <= a4 < 2 ^ 30 -> 0 <= a5 < 2 ^ 30 -> 0 <= a6 < 2 ^ 30 -> 0 <= a7 < 2 ^ 30 -> 0 <= a8 < 2 ^ 30 ->
  a0 + 2 ^ 30 * a1 + 2 ^ 60 * a2 + 2 ^ 90 * a3 + 2 ^ 120 * a4 + 2 ^ 150 * a5 + 2 ^ 180 * a6 + 2 ^ 210 * a7 + 2 ^ 240 * a8 = v ->
  limbs30 v [to_i32 a0; to_i32 a1; to_i32 a2; to_i32 a3; to_i32 a4; to_i32 a5; to_i32 a6; to_i32 a7; to_i32 a8].
Proof.
  intros H0 H1 H2 H3 H4 H5 H6 H7 H8 E. rewrite !to_i32_id by (unfold is_i32; lia). split; [reflexivity|]. split; [cbn; lia|]. split.
  - repeat constructor; lia.
  - cbn [lval30]. rewrite <- E. ring.
Qed.

Lemma canon9 l : length l = 9%nat -> canon30 l -> exists a0 a1 a2 a3 a4 a5 a6 a7 a8, l = [a0; a1; a2; a3; a4; a5; a6; a7; a8] /\
  0 <= a0 < 2 ^ 30 /\ 0 <= a1 < 2 ^ 30 /\ 0 <= a2 < 2 ^ 30 /\ 0 <= a3 < 2 ^ 30 /\ 0 <= a4 < 2 ^ 30 /\ 0 <= a5 < 2 ^ 30 /\
  0 <= a6 < 2 ^ 30 /\ 0 <= a7 < 2 ^ 30.
Proof.
  intros L C. destruct l as [|a0 [|a1 [|a2 [|a3 [|a4 [|a5 [|a6 [|a7 [|a8 [|a9 l]]]]]]]]]]; try discriminate L.
  exists a0, a1, a2, a3, a4, a5, a6, a7, a8. cbn in C. tauto.
Qed.

Lemma div_lt a k b c : 0 <= a < 2 ^ b -> 0 <= k -> c = b - k -> 0 <= c -> 0 <= a / 2 ^ k < 2 ^ c.
Proof. intros Ha Hk -> Hc. apply div_range; lia. Qed.

Lemma s8_to_ok x : scalar8_words x -> limbs30 (scalar8_int x) (scalar_to_signed30 x).
Proof.
  intros (W0 & W1 & W2 & W3 & W4 & W5 & W6 & W7). destruct x as [x0 x1 x2 x3 x4 x5 x6 x7]. cbn [sd0 sd1 sd2 sd3 sd4 sd5 sd6 sd7] in *.
  unfold scalar_to_signed30, M30. cbn [sd0 sd1 sd2 sd3 sd4 sd5 sd6 sd7]. rewrite !shiftr_div by lia.
  pose proof (div_lt x0 30 32 2 W0 ltac:(lia) eq_refl ltac:(lia)). pose proof (div_lt x1 28 32 4 W1 ltac:(lia) eq_refl ltac:(lia)).
  pose proof (div_lt x2 26 32 6 W2 ltac:(lia) eq_refl ltac:(lia)). pose proof (div_lt x3 24 32 8 W3 ltac:(lia) eq_refl ltac:(lia)).
  pose proof (div_lt x4 22 32 10 W4 ltac:(lia) eq_refl ltac:(lia)). pose proof (div_lt x5 20 32 12 W5 ltac:(lia) eq_refl ltac:(lia)).
  pose proof (div_lt x6 18 32 14 W6 ltac:(lia) eq_refl ltac:(lia)). pose proof (div_lt x7 16 32 16 W7 ltac:(lia) eq_refl ltac:(lia)).
  rewrite !joinc32 by lia. rewrite mask_c by lia.
  change (30 - 2) with 28. change (30 - 4) with 26. change (30 - 6) with 24. change (30 - 8) with 22. change (30 - 10) with 20.
  change (30 - 12) with 18. change (30 - 14) with 16.
  dm x0 30. dm x1 28. dm x2 26. dm x3 24. dm x4 22. dm x5 20. dm x6 18. dm x7 16.
  apply limbs30_intro; try (match goal with |- 0 <= _ < _ => clear - H H0 H1 H2 H3 H4 H5 H6 H7 H8 H9 H10 H11 H12 H13 H14; lia end).
  unfold scalar8_int. cbn [sd0 sd1 sd2 sd3 sd4 sd5 sd6 sd7]. clear - DM DM0 DM1 DM2 DM3 DM4 DM5 DM6. lia.
Qed.

Lemma s8_from_ok l v : limbs30 v l -> 0 <= v < 2 ^ 256 -> scalar8_words (scalar_from_signed30 l) /\ scalar8_int (scalar_from_signed30 l) = v.
Proof.
  intros (Ll & Cl & Sl & Vl) Hv. destruct (canon9 l Ll Cl) as (a0 & a1 & a2 & a3 & a4 & a5 & a6 & a7 & a8 & -> & A0 & A1 & A2 & A3 & A4 & A5 & A6 & A7).
  assert (A8 : 0 <= a8 < 2 ^ 16) by (clear Sl; cbn [lval30] in Vl; lia).
  clear Sl Ll Cl.
  unfold scalar_from_signed30, lm. cbn [nth].
  rewrite (w32_id a0), (w32_id a1), (w32_id a2), (w32_id a3), (w32_id a4), (w32_id a5), (w32_id a6), (w32_id a7), (w32_id a8) by (split; lia).
  rewrite !shiftr_div by lia.
  pose proof (div_lt a1 2 30 28 A1 ltac:(lia) eq_refl ltac:(lia)). pose proof (div_lt a2 4 30 26 A2 ltac:(lia) eq_refl ltac:(lia)).
  pose proof (div_lt a3 6 30 24 A3 ltac:(lia) eq_refl ltac:(lia)). pose proof (div_lt a4 8 30 22 A4 ltac:(lia) eq_refl ltac:(lia)).
  pose proof (div_lt a5 10 30 20 A5 ltac:(lia) eq_refl ltac:(lia)). pose proof (div_lt a6 12 30 18 A6 ltac:(lia) eq_refl ltac:(lia)).
  pose proof (div_lt a7 14 30 16 A7 ltac:(lia) eq_refl ltac:(lia)).
  rewrite !join32 by lia. change (32 - 30) with 2. change (32 - 28) with 4. change (32 - 26) with 6. change (32 - 24) with 8.
  change (32 - 22) with 10. change (32 - 20) with 12. change (32 - 18) with 14. change (32 - 16) with 16.
  dm a1 2. dm a2 4. dm a3 6. dm a4 8. dm a5 10. dm a6 12. dm a7 14. rewrite (Z.mod_small a8) by lia.
  cbn [lval30] in Vl. unfold scalar8_words, scalar8_int. cbn [sd0 sd1 sd2 sd3 sd4 sd5 sd6 sd7].
  split; [clear - A0 A8 H H0 H1 H2 H3 H4 H5 H6 H7 H8 H9 H10 H11 H12; repeat split; lia|].
  clear - Vl DM DM0 DM1 DM2 DM3 DM4 DM5. lia.
Qed.

Lemma f26_to_ok x : normalized26 x -> limbs30 (fe26_int x) (fe_to_signed30 x).
Proof.
  intros (W0 & W1 & W2 & W3 & W4 & W5 & W6 & W7 & W8 & W9 & Wp). destruct x as [x0 x1 x2 x3 x4 x5 x6 x7 x8 x9].
  clear Wp. cbn [m0 m1 m2 m3 m4 m5 m6 m7 m8 m9] in *.
  unfold fe_to_signed30, M30. cbn [m0 m1 m2 m3 m4 m5 m6 m7 m8 m9]. rewrite !shiftr_div by lia.
  pose proof (div_lt x1 4 26 22 W1 ltac:(lia) eq_refl ltac:(lia)). pose proof (div_lt x2 8 26 18 W2 ltac:(lia) eq_refl ltac:(lia)).
  pose proof (div_lt x3 12 26 14 W3 ltac:(lia) eq_refl ltac:(lia)). pose proof (div_lt x4 16 26 10 W4 ltac:(lia) eq_refl ltac:(lia)).
  pose proof (div_lt x5 20 26 6 W5 ltac:(lia) eq_refl ltac:(lia)). pose proof (div_lt x6 24 26 2 W6 ltac:(lia) eq_refl ltac:(lia)).
  pose proof (div_lt x8 2 26 24 W8 ltac:(lia) eq_refl ltac:(lia)). pose proof (div_lt x9 6 22 16 W9 ltac:(lia) eq_refl ltac:(lia)).
  rewrite (join64 (x6 / 2 ^ 24) x7 2) by lia. change (64 - 2) with 62. rewrite (Z.mod_small x7) by lia.
  assert (H7 : 0 <= x6 / 2 ^ 24 + 2 ^ 2 * x7 < 2 ^ 28) by lia.
  rewrite !joinc by lia.
  change (30 - 26) with 4. change (30 - 22) with 8. change (30 - 18) with 12. change (30 - 14) with 16. change (30 - 10) with 20.
  change (30 - 6) with 24. change (30 - 28) with 2. change (30 - 24) with 6.
  dm x1 4. dm x2 8. dm x3 12. dm x4 16. dm x5 20. dm x6 24. dm x8 2. dm x9 6.
  apply limbs30_intro; try (match goal with |- 0 <= _ < _ => clear - W0 H H0 H1 H2 H3 H4 H5 H6 H7 H8 H9 H10 H11 H12 H13 H14 H15; lia end).
  unfold fe26_int. cbn [m0 m1 m2 m3 m4 m5 m6 m7 m8 m9]. clear - DM DM0 DM1 DM2 DM3 DM4 DM5 DM6. lia.
Qed.

Lemma f26_from_ok l v : limbs30 v l -> 0 <= v < p -> normalized26 (fe_from_signed30 l) /\ fe26_int (fe_from_signed30 l) = v.
Proof.
  intros (Ll & Cl & Sl & Vl) Hv. destruct (canon9 l Ll Cl) as (a0 & a1 & a2 & a3 & a4 & a5 & a6 & a7 & a8 & -> & A0 & A1 & A2 & A3 & A4 & A5 & A6 & A7).
  assert (Hp : p < 2 ^ 256) by reflexivity.
  assert (A8 : 0 <= a8 < 2 ^ 16) by (clear Sl; cbn [lval30] in Vl; lia).
  clear Sl Ll Cl Hp.
  unfold fe_from_signed30, lm. cbn [nth].
  rewrite (w32_id a0), (w32_id a1), (w32_id a2), (w32_id a3), (w32_id a4), (w32_id a5), (w32_id a6), (w32_id a7), (w32_id a8) by (split; lia).
  rewrite !shiftr_div by lia.
  pose proof (div_lt a0 26 30 4 A0 ltac:(lia) eq_refl ltac:(lia)). pose proof (div_lt a1 22 30 8 A1 ltac:(lia) eq_refl ltac:(lia)).
  pose proof (div_lt a2 18 30 12 A2 ltac:(lia) eq_refl ltac:(lia)). pose proof (div_lt a3 14 30 16 A3 ltac:(lia) eq_refl ltac:(lia)).
  pose proof (div_lt a4 10 30 20 A4 ltac:(lia) eq_refl ltac:(lia)). pose proof (div_lt a5 6 30 24 A5 ltac:(lia) eq_refl ltac:(lia)).
  pose proof (div_lt a6 2 30 28 A6 ltac:(lia) eq_refl ltac:(lia)). pose proof (div_lt a6 28 30 2 A6 ltac:(lia) eq_refl ltac:(lia)).
  pose proof (div_lt a7 24 30 6 A7 ltac:(lia) eq_refl ltac:(lia)).
  change M26 with (2 ^ 26 - 1). rewrite !joinc32 by lia. rewrite !mask_c by lia. rewrite join32 by lia.
  change (26 - 4) with 22. change (26 - 8) with 18. change (26 - 12) with 14. change (26 - 16) with 10. change (26 - 20) with 6.
  change (26 - 24) with 2. change (26 - 2) with 24. change (32 - 6) with 26.
  assert (E6 : a6 / 2 ^ 28 = a6 / 2 ^ 2 / 2 ^ 26) by (rewrite Z.div_div; [reflexivity|discriminate|reflexivity]).
  rewrite E6 in *. clear E6.
  dm a0 26. dm a1 22. dm a2 18. dm a3 14. dm a4 10. dm a5 6. dm a6 2. dm (a6 / 2 ^ 2) 26. dm a7 24. rewrite (Z.mod_small a8) by lia.
  cbn [lval30] in Vl. unfold normalized26, fe26_int. cbn [m0 m1 m2 m3 m4 m5 m6 m7 m8 m9].
  match goal with |- _ /\ ?x = v => assert (V : x = v) end.
  { clear - Vl DM DM0 DM1 DM2 DM3 DM4 DM5 DM6 DM7. lia. }
  rewrite V. split; [|reflexivity].
  clear V Vl DM DM0 DM1 DM2 DM3 DM4 DM5 DM6 DM7. repeat split; lia.
Qed.

(** ** The two moduli *)
Lemma mod_ok30_scalar : mod_ok30 modinfo30_scalar n.
Proof.
  unfold mod_ok30. refine (conj eq_refl (conj _ (conj _ (conj _ (conj _ (conj _ _)))))).
  - repeat constructor; lia.
  - reflexivity.
  - unfold word32. cbn [modulus_inv30 modinfo30_scalar]. lia.
  - reflexivity.
  - split; vm_compute; discriminate.
  - reflexivity.
Qed.
Lemma mod_ok30_fe : mod_ok30 modinfo30_fe p.
Proof.
  unfold mod_ok30. refine (conj eq_refl (conj _ (conj _ (conj _ (conj _ (conj _ _)))))).
  - repeat constructor; lia.
  - reflexivity.
  - unfold word32. cbn [modulus_inv30 modinfo30_fe]. lia.
  - reflexivity.
  - split; vm_compute; discriminate.
  - reflexivity.
Qed.

Lemma from_list30 v l : length l = 9%nat -> canon30 l -> lval30 l = v -> 0 <= v < 2 ^ 256 -> limbs30 v l.
Proof.
  intros Ll Cl Vl Hv. split; [exact Ll|]. split; [exact Cl|]. split; [|exact Vl]. apply canon_small30; [exact Cl|].
  apply canon_last30; [exact Cl|]. rewrite Ll. change (30 * Z.of_nat 9) with 270. lia.
Qed.
