(** Field, scalar and point arithmetic: C39, C40, C42, C44, C45. *)
Require Import ZArith List Bool.
From Verif Require Import Spec SpecApi SpecRep FieldModel ScalarModel GroupModel Curve RepProof RepProof2.
Import ListNotations.
Local Open Scope Z_scope.

(** C39: multiplication takes magnitudes up to 8 and returns magnitude 1, with the exact product modulo p. *)
Theorem C39_mul a b : magnitude 8 a -> magnitude 8 b ->
  magnitude 1 (fe_mul a b) /\ fe_res (fe_mul a b) = (fe_int a * fe_int b) mod p.
Proof. exact (prop_fe_mul a b). Qed.
Print Assumptions C39_mul.
(** C39: squaring. *)
Theorem C39_sqr a : magnitude 8 a -> magnitude 1 (fe_sqr a) /\ fe_res (fe_sqr a) = (fe_int a ^ 2) mod p.
Proof. exact (prop_fe_sqr a). Qed.
Print Assumptions C39_sqr.
(** C39: addition adds the magnitudes and is exact on the integers. *)
Theorem C39_add m k a b : magnitude m a -> magnitude k b -> 0 <= m -> 0 <= k -> m + k <= 32 ->
  magnitude (m + k) (fe_add a b) /\ fe_int (fe_add a b) = fe_int a + fe_int b.
Proof. exact (prop_fe_add m k a b). Qed.
Print Assumptions C39_add.
(** C39: adding a small integer. *)
Theorem C39_add_int m k a : magnitude m a -> 0 <= k <= 0x7FFF -> 0 <= m <= 31 ->
  magnitude (m + 1) (fe_add_int a k) /\ fe_int (fe_add_int a k) = fe_int a + k.
Proof. exact (prop_fe_add_int m k a). Qed.
Print Assumptions C39_add_int.
(** C39: negation. *)
Theorem C39_negate m a : magnitude m a -> 0 <= m <= 31 ->
  magnitude (m + 1) (fe_negate a m) /\ fe_res (fe_negate a m) = (- fe_int a) mod p.
Proof. exact (prop_fe_negate m a). Qed.
Print Assumptions C39_negate.
(** C39: multiplication by a small integer. *)
Theorem C39_mul_int m k a : magnitude m a -> 0 <= m -> 0 <= k -> m * k <= 32 ->
  magnitude (m * k) (fe_mul_int a k) /\ fe_int (fe_mul_int a k) = fe_int a * k.
Proof. exact (prop_fe_mul_int m k a). Qed.
Print Assumptions C39_mul_int.
(** C39: halving. *)
Theorem C39_half m a : magnitude m a -> 0 <= m <= 31 ->
  magnitude (m / 2 + 1) (fe_half a) /\ (2 * fe_int (fe_half a)) mod p = fe_res a.
Proof. exact (prop_fe_half m a). Qed.
Print Assumptions C39_half.
(** C39: normalization (constant time, variable time, weak) and the zero tests. *)
Theorem C39_normalize a : magnitude 32 a ->
  normalized (fe_normalize a) /\ fe_int (fe_normalize a) = fe_res a /\ fe_normalize_var a = fe_normalize a /\
  magnitude 1 (fe_normalize_weak a) /\ fe_res (fe_normalize_weak a) = fe_res a /\
  fe_normalizes_to_zero a = (fe_res a =? 0) /\ fe_normalizes_to_zero_var a = (fe_res a =? 0).
Proof. exact (prop_fe_normalize a). Qed.
Print Assumptions C39_normalize.
(** C39: comparison, zero and parity of normalized elements. *)
Theorem C39_compare a b : normalized a -> normalized b ->
  fe_cmp_var a b = (if fe_int a <? fe_int b then -1 else if fe_int a =? fe_int b then 0 else 1) /\
  fe_is_zero a = (fe_int a =? 0) /\ fe_is_odd a = Z.odd (fe_int a).
Proof. exact (prop_fe_compare a b). Qed.
Print Assumptions C39_compare.
(** C39: equality of unnormalized elements. *)
Theorem C39_equal m a b : magnitude 1 a -> magnitude m b -> 0 <= m <= 30 -> fe_equal a b = (fe_res a =? fe_res b).
Proof. exact (prop_fe_equal m a b). Qed.
Print Assumptions C39_equal.
(** C39: conversion to and from 32 big-endian bytes. *)
Theorem C39_bytes a l : (normalized a -> fe_get_b32 a = be_bytes 32 (fe_int a)) /\
  (byte_list l -> length l = 32%nat ->
     fe_int (fe_set_b32_mod l) = be_val l /\ magnitude 1 (fe_set_b32_mod l) /\
     (be_val l < p -> normalized (fe_set_b32_mod l) /\ fe_get_b32 (fe_set_b32_mod l) = l) /\
     fe_set_b32_limit l = (be_val l <? p, fe_set_b32_mod l)).
Proof. exact (prop_fe_bytes a l). Qed.
Print Assumptions C39_bytes.
(** C39: the packed storage form. *)
Theorem C39_storage a : normalized a -> fe_from_storage (fe_to_storage a) = a.
Proof. exact (prop_fe_storage a). Qed.
Print Assumptions C39_storage.
(** C39: square roots. *)
Theorem C39_sqrt a : magnitude 8 a ->
  (fst (fe_sqrt a) = true <-> exists y, (y * y) mod p = fe_res a) /\
  (fst (fe_sqrt a) = true -> (fe_int (snd (fe_sqrt a)) ^ 2) mod p = fe_res a) /\ magnitude 1 (snd (fe_sqrt a)).
Proof. exact (prop_fe_sqrt a). Qed.
Print Assumptions C39_sqrt.
Example C39_example : magnitude 8 big_fe /\ ~ normalized big_fe.
Proof. exact big_fe_mag. Qed.
Example C39_example_norm : normalized (mkfe 0xFFFFEFFFFFC2E (2 ^ 52 - 1) (2 ^ 52 - 1) (2 ^ 52 - 1) (2 ^ 48 - 1)).
Proof. exact p1_norm. Qed.

(** C40: addition; the flag reports that the sum reached n. *)
Theorem C40_add a b : scalar_valid a -> scalar_valid b ->
  scalar_valid (fst (sc_add_ov a b)) /\ scalar_int (fst (sc_add_ov a b)) = (scalar_int a + scalar_int b) mod n /\
  snd (sc_add_ov a b) = (if n <=? scalar_int a + scalar_int b then 1 else 0).
Proof. exact (prop_sc_add a b). Qed.
Print Assumptions C40_add.
(** C40: multiplication, also for unreduced words. *)
Theorem C40_mul a b : scalar_words a -> scalar_words b ->
  scalar_valid (sc_mul a b) /\ scalar_int (sc_mul a b) = (scalar_int a * scalar_int b) mod n.
Proof. exact (prop_sc_mul a b). Qed.
Print Assumptions C40_mul.
(** C40: the reduction of any 512-bit product. *)
Theorem C40_reduce_512 l0 l1 l2 l3 l4 l5 l6 l7 : Forall (fun x => 0 <= x < 2 ^ 64) [l0; l1; l2; l3; l4; l5; l6; l7] ->
  forall r, sc_reduce_512 (mkl8 l0 l1 l2 l3 l4 l5 l6 l7) = r ->
  scalar_valid r /\ scalar_int r = (l0 + 2 ^ 64 * l1 + 2 ^ 128 * l2 + 2 ^ 192 * l3 + 2 ^ 256 * l4 + 2 ^ 320 * l5 + 2 ^ 384 * l6 + 2 ^ 448 * l7) mod n.
Proof. exact (prop_sc_reduce_512 l0 l1 l2 l3 l4 l5 l6 l7). Qed.
Print Assumptions C40_reduce_512.
(** C40: negation and conditional negation. *)
Theorem C40_negate a : scalar_valid a ->
  scalar_valid (sc_negate a) /\ scalar_int (sc_negate a) = (- scalar_int a) mod n /\
  sc_cond_negate a 0 = (a, 1) /\ sc_cond_negate a 1 = (sc_negate a, -1).
Proof. exact (prop_sc_negate a). Qed.
Print Assumptions C40_negate.
(** C40: halving. *)
Theorem C40_half a : scalar_valid a -> scalar_valid (sc_half a) /\ (2 * scalar_int (sc_half a)) mod n = scalar_int a.
Proof. exact (prop_sc_half a). Qed.
Print Assumptions C40_half.
(** C40: conditional addition of a power of two. *)
Theorem C40_cadd_bit a bit flag : scalar_words a -> 0 <= bit < 256 -> flag = 0 \/ flag = 1 -> scalar_int a + flag * 2 ^ bit < 2 ^ 256 ->
  scalar_words (sc_cadd_bit a bit flag) /\ scalar_int (sc_cadd_bit a bit flag) = scalar_int a + flag * 2 ^ bit.
Proof. exact (prop_sc_cadd_bit a bit flag). Qed.
Print Assumptions C40_cadd_bit.
(** C40: the predicates. *)
Theorem C40_tests a b : scalar_words a -> scalar_words b ->
  sc_is_zero a = (scalar_int a =? 0) /\ sc_is_one a = (scalar_int a =? 1) /\ sc_is_even a = Z.even (scalar_int a) /\
  sc_is_high a = (n / 2 <? scalar_int a) /\ sc_eq a b = (scalar_int a =? scalar_int b) /\ sc_check_overflow a = (n <=? scalar_int a).
Proof. exact (prop_sc_tests a b). Qed.
Print Assumptions C40_tests.
(** C40: bit extraction. *)
Theorem C40_bits a offset count : scalar_words a -> 0 <= offset -> 1 <= count <= 32 -> offset + count <= 256 ->
  sc_get_bits_var a offset count = (scalar_int a / 2 ^ offset) mod 2 ^ count /\
  ((offset + count - 1) / 64 = offset / 64 -> sc_get_bits_limb32 a offset count = (scalar_int a / 2 ^ offset) mod 2 ^ count).
Proof. exact (prop_sc_bits a offset count). Qed.
Print Assumptions C40_bits.
(** C40: the rounded shifting multiplication, for the shift the library uses. *)
Theorem C40_mul_shift a b : scalar_words a -> scalar_words b ->
  scalar_words (sc_mul_shift_var a b 384) /\ scalar_int (sc_mul_shift_var a b 384) = (scalar_int a * scalar_int b + 2 ^ 383) / 2 ^ 384.
Proof. exact (prop_sc_mul_shift a b). Qed.
Print Assumptions C40_mul_shift.
(** C40: conversion to and from 32 big-endian bytes. *)
Theorem C40_bytes a l : (scalar_words a -> sc_get_b32 a = be_bytes 32 (scalar_int a)) /\
  (byte_list l -> length l = 32%nat ->
     scalar_valid (fst (sc_set_b32 l)) /\ scalar_int (fst (sc_set_b32 l)) = be_val l mod n /\ snd (sc_set_b32 l) = (n <=? be_val l) /\
     snd (sc_set_b32_seckey l) = ((0 <? be_val l) && (be_val l <? n))).
Proof. exact (prop_sc_bytes a l). Qed.
Print Assumptions C40_bytes.
(** C40: splitting into two halves. *)
Theorem C40_split_128 k : scalar_valid k ->
  scalar_valid (fst (sc_split_128 k)) /\ scalar_valid (snd (sc_split_128 k)) /\
  scalar_int (fst (sc_split_128 k)) = scalar_int k mod 2 ^ 128 /\ scalar_int (snd (sc_split_128 k)) = scalar_int k / 2 ^ 128.
Proof. exact (prop_sc_split_128 k). Qed.
Print Assumptions C40_split_128.
Example C40_example : scalar_valid (mksc (N_0 - 1) N_1 N_2 N_3) /\ scalar_int (mksc (N_0 - 1) N_1 N_2 N_3) = n - 1.
Proof. exact big_sc. Qed.

(** C42: doubling, both routines. *)
Theorem C42_double a P : jacobian_point a P -> jacobian_point (gej_double a) (padd P P) /\ jacobian_point (gej_double_var a) (padd P P).
Proof. exact (prop_double a P). Qed.
Print Assumptions C42_double.
(** C42: Jacobian plus Jacobian. *)
Theorem C42_add_var a b P Q : jacobian_point a P -> jacobian_point b Q -> jacobian_point (gej_add_var a b) (padd P Q).
Proof. exact (prop_add_var a b P Q). Qed.
Print Assumptions C42_add_var.
(** C42: Jacobian plus affine. *)
Theorem C42_add_ge_var a b P Q : jacobian_point a P -> affine_point b Q -> jacobian_point (gej_add_ge_var a b) (padd P Q).
Proof. exact (prop_add_ge_var a b P Q). Qed.
Print Assumptions C42_add_ge_var.
(** C42: the constant-time unified addition; its contract excludes an infinite second operand. *)
Theorem C42_add_ge a b P Q : jacobian_point a P -> affine_point b Q -> Q <> Inf -> jacobian_point (gej_add_ge a b) (padd P Q).
Proof. exact (prop_add_ge a b P Q). Qed.
Print Assumptions C42_add_ge.
(** C42: addition of a point whose Z coordinate is known by its inverse. *)
Theorem C42_add_zinv_var a b z bzinv P Q : jacobian_point a P -> jacobian_point (mkgej (gx b) (gy b) z (ginf b)) Q -> magnitude 3 (gy b) ->
  magnitude 8 bzinv -> (fe_int z * fe_int bzinv) mod p = 1 -> jacobian_point (gej_add_zinv_var a b bzinv) (padd P Q).
Proof. exact (prop_add_zinv_var a b z bzinv P Q). Qed.
Print Assumptions C42_add_zinv_var.
(** C42: negation. *)
Theorem C42_neg a b P : (jacobian_point a P -> jacobian_point (gej_neg a) (pneg P)) /\ (affine_point b P -> affine_point (ge_neg b) (pneg P)).
Proof. exact (prop_neg a b P). Qed.
Print Assumptions C42_neg.
(** C42: conversion to affine coordinates. *)
Theorem C42_set_gej a P : jacobian_point a P -> affine_point (ge_set_gej a) P /\ affine_point (ge_set_gej_var a) P.
Proof. exact (prop_set_gej a P). Qed.
Print Assumptions C42_set_gej.
(** C42: batch conversion to affine coordinates, with infinities anywhere in the list. *)
Theorem C42_set_all_gej_var l Ps : Forall2 jacobian_point l Ps -> Forall2 affine_point (ge_set_all_gej_var l) Ps.
Proof. exact (prop_set_all l Ps). Qed.
Print Assumptions C42_set_all_gej_var.
(** C42: comparison of points. *)
Theorem C42_eq_var a b P Q : jacobian_point a P -> jacobian_point b Q -> (gej_eq_var a b = true <-> P = Q).
Proof. exact (prop_eq_var a b P Q). Qed.
Print Assumptions C42_eq_var.
(** C42: decompression of a coordinate. *)
Theorem C42_set_xo_var x odd : magnitude 4 x ->
  (fst (ge_set_xo_var x odd) = true <-> is_square_mod_p (fe_int x ^ 3 + 7)) /\
  (fst (ge_set_xo_var x odd) = true -> exists y, affine_point (snd (ge_set_xo_var x odd)) (Aff (fe_res x) y) /\ Z.odd y = odd).
Proof. exact (prop_set_xo x odd). Qed.
Print Assumptions C42_set_xo_var.
Example C42_example : jacobian_point (gej_set_ge ge_const_g) G /\ affine_point ge_const_g G.
Proof. exact (conj g_jacobian g_affine). Qed.
Example C42_example_special : jacobian_point (gej_neg (gej_set_ge ge_const_g)) (pneg G) /\ jacobian_point gej_infinity Inf.
Proof. exact g_opposite. Qed.

(** C44: the split halves recombine to k, and each or its negative is below 2^128. *)
Theorem C44_split_lambda k : scalar_valid k -> forall r1 r2, sc_split_lambda k = (r1, r2) ->
  scalar_valid r1 /\ scalar_valid r2 /\ (scalar_int r1 + lambda * scalar_int r2) mod n = scalar_int k /\
  (scalar_int r1 < 2 ^ 128 \/ n - scalar_int r1 < 2 ^ 128) /\ (scalar_int r2 < 2 ^ 128 \/ n - scalar_int r2 < 2 ^ 128).
Proof. exact (prop_split k). Qed.
Print Assumptions C44_split_lambda.
(** C44: multiplying the x coordinate by beta is multiplication by lambda. *)
Theorem C44_mul_lambda a P : affine_point a P -> affine_point (ge_mul_lambda a) (pmul lambda P).
Proof. exact (prop_mul_lambda a P). Qed.
Print Assumptions C44_mul_lambda.

(** C45: every curve point is a multiple of the generator, and n kills every point; n is prime. *)
Theorem C45_cyclic P : on_curve P -> exists k, 0 <= k < n /\ P = pmul k G.
Proof. exact (all_points_multiples_of_G P). Qed.
Print Assumptions C45_cyclic.
Theorem C45_order P : on_curve P -> pmul n P = Inf.
Proof. exact (pmul_n_any P). Qed.
Print Assumptions C45_order.
Theorem C45_exact_order a b : pmul a G = pmul b G <-> a mod n = b mod n.
Proof. exact (pmul_G_eq a b). Qed.
Print Assumptions C45_exact_order.
Theorem C45_prime : Znumtheory.prime n.
Proof. exact Primes.prime_n. Qed.
Print Assumptions C45_prime.
Example C45_example : on_curve G. Proof. exact on_curve_G. Qed.
