(** Selection helpers and two-word 128-bit arithmetic: C47, C48. *)
Require Import ZArith List Bool.
From Verif Require Import Word Spec SpecRep FieldModel ScalarModel GroupModel EcdsaModel Int128Model SpecWords Int128Proof SelectProof.
Import ListNotations.
Local Open Scope Z_scope.

(** C47: every conditional move returns exactly one of its two inputs, according to the
    flag, for every bit pattern of the words (also those no computation produces). *)
Theorem C47_field_move r a flag : fe_words r -> fe_words a -> flag = 0 \/ flag = 1 -> fe_cmov r a flag = chosen flag r a.
Proof. exact (sel_fe r a flag). Qed.
Print Assumptions C47_field_move.
Theorem C47_field_storage_move r a flag : fes_words r -> fes_words a -> flag = 0 \/ flag = 1 -> fe_storage_cmov r a flag = chosen flag r a.
Proof. exact (sel_fes r a flag). Qed.
Print Assumptions C47_field_storage_move.
Theorem C47_scalar_move r a flag : scalar_words r -> scalar_words a -> flag = 0 \/ flag = 1 -> sc_cmov r a flag = chosen flag r a.
Proof. exact (sel_sc r a flag). Qed.
Print Assumptions C47_scalar_move.
Theorem C47_group_move r a flag : gej_words r -> gej_words a -> flag = 0 \/ flag = 1 -> gej_cmov r a flag = chosen flag r a.
Proof. exact (sel_gej r a flag). Qed.
Print Assumptions C47_group_move.
Theorem C47_group_storage_move r a flag : ges_words r -> ges_words a -> flag = 0 \/ flag = 1 -> ge_storage_cmov r a flag = chosen flag r a.
Proof. exact (sel_ges r a flag). Qed.
Print Assumptions C47_group_storage_move.
Theorem C47_int_move r a flag : 0 <= r < 2 ^ 31 -> 0 <= a < 2 ^ 31 -> flag = 0 \/ flag = 1 -> int_cmov r a flag = chosen flag r a.
Proof. exact (sel_int r a flag). Qed.
Print Assumptions C47_int_move.
(** C47: conditional zeroing of any number of bytes. *)
Theorem C47_zero l flag : byte_list l -> flag = 0 \/ flag = 1 -> memczero l flag = chosen flag l (repeat 0 (length l)).
Proof. exact (sel_zero l flag). Qed.
Print Assumptions C47_zero.
(** C47: conditional negation of a scalar, and the sign it returns. *)
Theorem C47_negate a flag : scalar_valid a -> flag = 0 \/ flag = 1 ->
  scalar_valid (fst (sc_cond_negate a flag)) /\ scalar_int (fst (sc_cond_negate a flag)) = chosen flag (scalar_int a) ((- scalar_int a) mod n) /\
  snd (sc_cond_negate a flag) = chosen flag 1 (-1).
Proof. exact (sel_negate a flag). Qed.
Print Assumptions C47_negate.
Example C47_example : let r := mkfe 0 (2 ^ 64 - 1) 5 6 7 in let a := mkfe (2 ^ 63) 1 2 3 4 in
  fe_words r /\ fe_words a /\ fe_cmov r a 1 = a /\ fe_cmov r a 0 = r /\ byte_list [255; 0; 128] /\ memczero [255; 0; 128] 1 = [0; 0; 0] /\ scalar_valid sc_one.
Proof.
  cbv zeta. split; [repeat split; discriminate|]. split; [repeat split; discriminate|]. split; [reflexivity|]. split; [reflexivity|].
  split; [repeat constructor; discriminate|]. split; [reflexivity|]. repeat split; discriminate.
Qed.

(** C48: unsigned operations on two words are exact, modulo 2^128 for accumulation. *)
Theorem C48_mul a b : is_u64 a -> is_u64 b -> words (s_u128_mul a b) /\ uval (s_u128_mul a b) = a * b.
Proof. exact (prop_u128_mul a b). Qed.
Print Assumptions C48_mul.
Theorem C48_accumulate_mul r a b : words r -> is_u64 a -> is_u64 b ->
  words (s_u128_accum_mul r a b) /\ uval (s_u128_accum_mul r a b) = (uval r + a * b) mod 2 ^ 128.
Proof. exact (prop_u128_accum_mul r a b). Qed.
Print Assumptions C48_accumulate_mul.
Theorem C48_accumulate r a : words r -> is_u64 a -> words (s_u128_accum_u64 r a) /\ uval (s_u128_accum_u64 r a) = (uval r + a) mod 2 ^ 128.
Proof. exact (prop_u128_accum_u64 r a). Qed.
Print Assumptions C48_accumulate.
Theorem C48_shift r k : words r -> 0 <= k < 128 -> words (s_u128_rshift r k) /\ uval (s_u128_rshift r k) = uval r / 2 ^ k.
Proof. exact (prop_u128_rshift r k). Qed.
Print Assumptions C48_shift.
Theorem C48_parts r a : words r -> is_u64 a -> s_u128_to_u64 r = uval r mod 2 ^ 64 /\ s_u128_hi_u64 r = uval r / 2 ^ 64 /\
  words (s_u128_from_u64 a) /\ uval (s_u128_from_u64 a) = a.
Proof. exact (prop_u128_parts r a). Qed.
Print Assumptions C48_parts.
Theorem C48_check_bits r k : words r -> 0 <= k < 128 -> s_u128_check_bits r k = (uval r <? 2 ^ k).
Proof. exact (prop_u128_check_bits r k). Qed.
Print Assumptions C48_check_bits.
(** C48: signed operations, also free of signed overflow for all operands (the outcome
    [None]); accumulation is exact when the exact result is a signed 128-bit number. *)
Theorem C48_signed_mul a b : is_i64 a -> is_i64 b -> exists r, s_i128_mul a b = Some r /\ words r /\ ival r = a * b.
Proof. exact (prop_i128_mul a b). Qed.
Print Assumptions C48_signed_mul.
Theorem C48_signed_accumulate r a b : words r -> is_i64 a -> is_i64 b -> exists r', s_i128_accum_mul r a b = Some r' /\ words r' /\
  uval r' = (ival r + a * b) mod 2 ^ 128 /\ (is_i128 (ival r + a * b) -> ival r' = ival r + a * b).
Proof. exact (prop_i128_accum_mul r a b). Qed.
Print Assumptions C48_signed_accumulate.
Theorem C48_signed_subtract r a b : words r -> is_i64 a -> is_i64 b -> exists r', s_i128_dissip_mul r a b = Some r' /\ words r' /\
  uval r' = (ival r - a * b) mod 2 ^ 128 /\ (is_i128 (ival r - a * b) -> ival r' = ival r - a * b).
Proof. exact (prop_i128_dissip_mul r a b). Qed.
Print Assumptions C48_signed_subtract.
Theorem C48_determinant a b c d : is_i64 a -> is_i64 b -> is_i64 c -> is_i64 d -> exists r, s_i128_det a b c d = Some r /\ words r /\
  uval r = (a * d - b * c) mod 2 ^ 128 /\ (is_i128 (a * d - b * c) -> ival r = a * d - b * c).
Proof. exact (prop_i128_det a b c d). Qed.
Print Assumptions C48_determinant.
Theorem C48_signed_shift r k : words r -> 0 <= k < 128 -> words (s_i128_rshift r k) /\ ival (s_i128_rshift r k) = ival r / 2 ^ k.
Proof. exact (prop_i128_rshift r k). Qed.
Print Assumptions C48_signed_shift.
Theorem C48_signed_parts r a hi lo : words r -> is_i64 a -> is_i64 hi -> is_u64 lo ->
  s_i128_to_u64 r = ival r mod 2 ^ 64 /\ (is_i64 (ival r) -> s_i128_to_i64 r = ival r) /\
  words (s_i128_from_i64 a) /\ ival (s_i128_from_i64 a) = a /\ words (s_i128_load hi lo) /\ ival (s_i128_load hi lo) = hi * 2 ^ 64 + lo.
Proof. exact (prop_i128_parts r a hi lo). Qed.
Print Assumptions C48_signed_parts.
Theorem C48_signed_compare r s k sign : words r -> words s -> 0 <= k < 127 -> sign = 1 \/ sign = -1 ->
  s_i128_eq_var r s = (ival r =? ival s) /\ s_i128_check_pow2 r k sign = (ival r =? sign * 2 ^ k).
Proof. exact (fun R S K G => conj (prop_i128_eq r s R S) (prop_i128_check_pow2 r k sign R K G)). Qed.
Print Assumptions C48_signed_compare.
(** C48: hence the same as the native type, as modelled in the field and scalar code. *)
Theorem C48_agrees_with_native r a b k : words r -> is_u64 a -> is_u64 b -> 0 <= k < 128 ->
  uval (s_u128_mul a b) = u128_mul a b /\ uval (s_u128_accum_mul r a b) = u128_accum_mul (uval r) a b /\ uval (s_u128_accum_u64 r a) = u128_accum_u64 (uval r) a /\
  uval (s_u128_rshift r k) = u128_rshift (uval r) k /\ s_u128_to_u64 r = u128_to_u64 (uval r).
Proof. exact (prop_native r a b k). Qed.
Print Assumptions C48_agrees_with_native.
Example C48_example : let r := mkw (2 ^ 64 - 1) 5 in words r /\ ival r = 5 - 2 ^ 64 /\ is_u64 (2 ^ 64 - 1) /\ is_i64 (- 2 ^ 63) /\
  s_i128_mul (- 2 ^ 63) (- 2 ^ 63) = Some (mkw (2 ^ 62) 0) /\ s_u128_accum_u64 r (2 ^ 64 - 1) = mkw 0 4.
Proof. vm_compute. repeat split; discriminate. Qed.
