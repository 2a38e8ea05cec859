(** C55: the 32-bit scalar code computes exact arithmetic modulo the group order and agrees
    with the 64-bit code. *)
Require Import ZArith List Bool.
From Verif Require Import Word Spec Bytes ScalarModel Scalar32Model SpecScalar32 Scalar32Props.
Import ListNotations.
Local Open Scope Z_scope.

(** C55: addition of valid scalars, with the overflow flag. *)
Theorem C55_add a b : scalar8_valid a -> scalar8_valid b ->
  scalar8_valid (fst (s8_add_ov a b)) /\ scalar8_int (fst (s8_add_ov a b)) = (scalar8_int a + scalar8_int b) mod n /\
  snd (s8_add_ov a b) = (if n <=? scalar8_int a + scalar8_int b then 1 else 0).
Proof. exact (prop8_add a b). Qed.
Print Assumptions C55_add.
(** C55: multiplication, also for unreduced words. *)
Theorem C55_mul a b : scalar8_words a -> scalar8_words b ->
  scalar8_valid (s8_mul a b) /\ scalar8_int (s8_mul a b) = (scalar8_int a * scalar8_int b) mod n.
Proof. exact (prop8_mul a b). Qed.
Print Assumptions C55_mul.
(** C55: the reduction of any 512-bit product. *)
Theorem C55_reduce_512 l0 l1 l2 l3 l4 l5 l6 l7 l8 l9 l10 l11 l12 l13 l14 l15 :
  Forall (fun x => 0 <= x < 2 ^ 32) [l0; l1; l2; l3; l4; l5; l6; l7; l8; l9; l10; l11; l12; l13; l14; l15] ->
  forall r, s8_reduce_512 [l0; l1; l2; l3; l4; l5; l6; l7; l8; l9; l10; l11; l12; l13; l14; l15] = r ->
  scalar8_valid r /\ scalar8_int r =
    (l0 + 2 ^ 32 * l1 + 2 ^ 64 * l2 + 2 ^ 96 * l3 + 2 ^ 128 * l4 + 2 ^ 160 * l5 + 2 ^ 192 * l6 + 2 ^ 224 * l7 + 2 ^ 256 * l8 + 2 ^ 288 * l9 + 2 ^ 320 * l10 + 2 ^ 352 * l11 + 2 ^ 384 * l12 + 2 ^ 416 * l13 + 2 ^ 448 * l14 + 2 ^ 480 * l15) mod n.
Proof. exact (prop8_reduce_512 l0 l1 l2 l3 l4 l5 l6 l7 l8 l9 l10 l11 l12 l13 l14 l15). Qed.
Print Assumptions C55_reduce_512.
(** C55: negation and conditional negation. *)
Theorem C55_negate a : scalar8_valid a ->
  scalar8_valid (s8_negate a) /\ scalar8_int (s8_negate a) = (- scalar8_int a) mod n /\
  s8_cond_negate a 0 = (a, 1) /\ s8_cond_negate a 1 = (s8_negate a, -1).
Proof. exact (prop8_negate a). Qed.
Print Assumptions C55_negate.
(** C55: halving. *)
Theorem C55_half a : scalar8_valid a -> scalar8_valid (s8_half a) /\ (2 * scalar8_int (s8_half a)) mod n = scalar8_int a.
Proof. exact (prop8_half a). Qed.
Print Assumptions C55_half.
(** C55: conditional addition of a power of two. *)
Theorem C55_cadd_bit a bit flag : scalar8_words a -> 0 <= bit < 256 -> flag = 0 \/ flag = 1 -> scalar8_int a + flag * 2 ^ bit < 2 ^ 256 ->
  scalar8_words (s8_cadd_bit a bit flag) /\ scalar8_int (s8_cadd_bit a bit flag) = scalar8_int a + flag * 2 ^ bit.
Proof. exact (prop8_cadd_bit a bit flag). Qed.
Print Assumptions C55_cadd_bit.
(** C55: the predicates. *)
Theorem C55_tests a b : scalar8_words a -> scalar8_words b ->
  s8_is_zero a = (scalar8_int a =? 0) /\ s8_is_one a = (scalar8_int a =? 1) /\ s8_is_even a = Z.even (scalar8_int a) /\
  s8_is_high a = (n / 2 <? scalar8_int a) /\ s8_eq a b = (scalar8_int a =? scalar8_int b) /\ s8_check_overflow a = (n <=? scalar8_int a).
Proof. exact (prop8_tests a b). Qed.
Print Assumptions C55_tests.
(** C55: bit extraction, within one 32-bit word or across two. *)
Theorem C55_bits a offset count : scalar8_words a -> 0 <= offset -> 1 <= count <= 32 -> offset + count <= 256 ->
  s8_get_bits_var a offset count = (scalar8_int a / 2 ^ offset) mod 2 ^ count /\
  ((offset + count - 1) / 32 = offset / 32 -> s8_get_bits_limb32 a offset count = (scalar8_int a / 2 ^ offset) mod 2 ^ count).
Proof. exact (prop8_bits a offset count). Qed.
Print Assumptions C55_bits.
(** C55: the rounded shifting multiplication, for the shift the library uses. *)
Theorem C55_mul_shift a b : scalar8_words a -> scalar8_words b ->
  scalar8_words (s8_mul_shift_var a b 384) /\ scalar8_int (s8_mul_shift_var a b 384) = (scalar8_int a * scalar8_int b + 2 ^ 383) / 2 ^ 384.
Proof. exact (prop8_mul_shift a b). Qed.
Print Assumptions C55_mul_shift.
(** C55: conversion to and from 32 big-endian bytes. *)
Theorem C55_bytes a l : (scalar8_words a -> s8_get_b32 a = be_bytes 32 (scalar8_int a)) /\
  (byte_list l -> length l = 32%nat ->
     scalar8_valid (fst (s8_set_b32 l)) /\ scalar8_int (fst (s8_set_b32 l)) = be_val l mod n /\ snd (s8_set_b32 l) = (n <=? be_val l) /\
     snd (s8_set_b32_seckey l) = ((0 <? be_val l) && (be_val l <? n))).
Proof. exact (prop8_bytes a l). Qed.
Print Assumptions C55_bytes.
(** C55: splitting into two halves. *)
Theorem C55_split_128 k : scalar8_valid k ->
  scalar8_valid (fst (s8_split_128 k)) /\ scalar8_valid (snd (s8_split_128 k)) /\
  scalar8_int (fst (s8_split_128 k)) = scalar8_int k mod 2 ^ 128 /\ scalar8_int (snd (s8_split_128 k)) = scalar8_int k / 2 ^ 128.
Proof. exact (prop8_split_128 k). Qed.
Print Assumptions C55_split_128.
(** C55: constant-time selection. *)
Theorem C55_cmov r a flag : scalar8_words r -> scalar8_words a -> flag = 0 \/ flag = 1 -> s8_cmov r a flag = if flag =? 0 then r else a.
Proof. exact (prop8_cmov r a flag). Qed.
Print Assumptions C55_cmov.
(** C55: the split halves recombine to k, and each or its negative is below 2^128. *)
Theorem C55_split_lambda k : scalar8_valid k -> forall r1 r2, s8_split_lambda k = (r1, r2) ->
  scalar8_valid r1 /\ scalar8_valid r2 /\ (scalar8_int r1 + lambda * scalar8_int r2) mod n = scalar8_int k /\
  (scalar8_int r1 < 2 ^ 128 \/ n - scalar8_int r1 < 2 ^ 128) /\ (scalar8_int r2 < 2 ^ 128 \/ n - scalar8_int r2 < 2 ^ 128).
Proof. exact (prop8_split_lambda k). Qed.
Print Assumptions C55_split_lambda.
(** C55: any computation over the scalar operations gives the same bytes, the same predicates and the same window digits in the two builds. *)
Theorem C55_agree e : sx_ok e ->
  s8_get_b32 (srun32 e) = sc_get_b32 (srun64 e) /\
  s8_is_zero (srun32 e) = sc_is_zero (srun64 e) /\ s8_is_one (srun32 e) = sc_is_one (srun64 e) /\
  s8_is_even (srun32 e) = sc_is_even (srun64 e) /\ s8_is_high (srun32 e) = sc_is_high (srun64 e) /\
  (forall offset count, 0 <= offset -> 1 <= count <= 32 -> offset + count <= 256 ->
     s8_get_bits_var (srun32 e) offset count = sc_get_bits_var (srun64 e) offset count).
Proof. exact (prop8_agree e). Qed.
Print Assumptions C55_agree.
(** Cases: the largest valid scalar meets the hypotheses; the extreme product is computed. *)
Example C55_example : scalar8_valid (mks8 (S8_N_0 - 1) S8_N_1 S8_N_2 S8_N_3 S8_N_4 S8_N_5 S8_N_6 S8_N_7) /\
  scalar8_int (mks8 (S8_N_0 - 1) S8_N_1 S8_N_2 S8_N_3 S8_N_4 S8_N_5 S8_N_6 S8_N_7) = n - 1.
Proof. exact big_s8. Qed.
Example C55_example_mul : let m := mks8 (S8_N_0 - 1) S8_N_1 S8_N_2 S8_N_3 S8_N_4 S8_N_5 S8_N_6 S8_N_7 in
  s8_mul m m = mks8 1 0 0 0 0 0 0 0.
Proof. vm_compute. reflexivity. Qed.
Example C55_agree_case :
  let x := SBytes (be_bytes 32 (2 ^ 255 + 12345)) in
  let e := SAdd (SMul (SHalf x) (SNeg (SLambda1 x))) (SSelect (SLambda2 (SHigh128 x)) (SCondNeg (SInt 7) true) true) in
  sx_ok e /\ s8_get_b32 (srun32 e) = sc_get_b32 (srun64 e).
Proof.
  assert (H : byte_list (be_bytes 32 (2 ^ 255 + 12345))) by apply be_bytes_byte_list.
  assert (K : sx_ok (SAdd (SMul (SHalf (SBytes (be_bytes 32 (2 ^ 255 + 12345)))) (SNeg (SLambda1 (SBytes (be_bytes 32 (2 ^ 255 + 12345))))))
     (SSelect (SLambda2 (SHigh128 (SBytes (be_bytes 32 (2 ^ 255 + 12345))))) (SCondNeg (SInt 7) true) true))).
  { cbn [sx_ok]. repeat split; try assumption; try reflexivity; vm_compute; discriminate. }
  split; [exact K|]. exact (proj1 (C55_agree _ K)).
Qed.
