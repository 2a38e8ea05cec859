(** C54: the field arithmetic of the 32-bit build (10 limbs of 26 bits) is exact and computes
    what the 64-bit build computes.  Vocabulary: SpecRep32. *)
Require Import ZArith List Bool.
From Verif Require Import Bytes Spec FieldModel Field32Model SpecRep32 Field32Props.
Import ListNotations.
Local Open Scope Z_scope.

(** Multiplication: for every two elements of magnitude at most 8. *)
Theorem C54_mul a b : magnitude26 8 a -> magnitude26 8 b ->
  magnitude26 1 (f26_mul a b) /\ fe26_res (f26_mul a b) = (fe26_int a * fe26_int b) mod p.
Proof. exact (prop32_mul a b). Qed.
Print Assumptions C54_mul.
Example C54_mul_case : magnitude26 8 (mkf26 (2 ^ 30 - 16) (2 ^ 30 - 16) (2 ^ 30 - 16) (2 ^ 30 - 16) (2 ^ 30 - 16) (2 ^ 30 - 16) (2 ^ 30 - 16) (2 ^ 30 - 16) (2 ^ 30 - 16) (2 ^ 26 - 16)).
Proof. exact mag26_example. Qed.

(** Squaring. *)
Theorem C54_sqr a : magnitude26 8 a -> magnitude26 1 (f26_sqr a) /\ fe26_res (f26_sqr a) = (fe26_int a ^ 2) mod p.
Proof. exact (prop32_sqr a). Qed.
Print Assumptions C54_sqr.
Example C54_sqr_case : magnitude26 8 (mkf26 (2 ^ 30 - 16) (2 ^ 30 - 16) (2 ^ 30 - 16) (2 ^ 30 - 16) (2 ^ 30 - 16) (2 ^ 30 - 16) (2 ^ 30 - 16) (2 ^ 30 - 16) (2 ^ 30 - 16) (2 ^ 26 - 16)).
Proof. exact mag26_example. Qed.

(** Addition, adding a small integer, negation, multiplication by a small integer, halving. *)
Theorem C54_linear m k j a b : magnitude26 m a -> magnitude26 k b -> 0 <= m -> 0 <= k -> 0 <= j ->
  (m + k <= 32 -> magnitude26 (m + k) (f26_add a b) /\ fe26_int (f26_add a b) = fe26_int a + fe26_int b) /\
  (m <= 31 -> j <= 0x7FFF -> magnitude26 (m + 1) (f26_add_int a j) /\ fe26_int (f26_add_int a j) = fe26_int a + j) /\
  (m <= 31 -> magnitude26 (m + 1) (f26_negate a m) /\ fe26_res (f26_negate a m) = (- fe26_int a) mod p) /\
  (m * j <= 32 -> magnitude26 (m * j) (f26_mul_int a j) /\ fe26_int (f26_mul_int a j) = fe26_int a * j) /\
  (m <= 31 -> magnitude26 (m / 2 + 1) (f26_half a) /\ (2 * fe26_int (f26_half a)) mod p = fe26_res a).
Proof. exact (prop32_linear m k j a b). Qed.
Print Assumptions C54_linear.
Example C54_linear_case : magnitude26 8 (mkf26 (2 ^ 30 - 16) (2 ^ 30 - 16) (2 ^ 30 - 16) (2 ^ 30 - 16) (2 ^ 30 - 16) (2 ^ 30 - 16) (2 ^ 30 - 16) (2 ^ 30 - 16) (2 ^ 30 - 16) (2 ^ 26 - 16)).
Proof. exact mag26_example. Qed.

(** The three normalizations and the two zero tests, for every magnitude up to 31. *)
Theorem C54_normalize a : magnitude26 31 a ->
  normalized26 (f26_normalize a) /\ fe26_int (f26_normalize a) = fe26_res a /\ f26_normalize_var a = f26_normalize a /\
  magnitude26 1 (f26_normalize_weak a) /\ fe26_res (f26_normalize_weak a) = fe26_res a /\
  f26_normalizes_to_zero a = (fe26_res a =? 0) /\ f26_normalizes_to_zero_var a = (fe26_res a =? 0).
Proof. exact (prop32_normalize a). Qed.
Print Assumptions C54_normalize.
Example C54_normalize_case :
  let a := mkf26 (62 * 0x3FFFFFF) (62 * 0x3FFFFFF) (62 * 0x3FFFFFF) (62 * 0x3FFFFFF) (62 * 0x3FFFFFF)
                 (62 * 0x3FFFFFF) (62 * 0x3FFFFFF) (62 * 0x3FFFFFF) (62 * 0x3FFFFFF) (62 * 0x3FFFFF) in
  fe26_int (f26_normalize a) = (62 * (2 ^ 256 - 1)) mod p /\ f26_normalizes_to_zero a = false.
Proof. vm_compute. split; reflexivity. Qed.

(** Magnitude 32, the largest src/field.h allows, is not covered: a 32-bit limb overflows. *)
Theorem C54_normalize_32_refuted : exists a, magnitude26 32 a /\
  fe26_int (f26_normalize a) <> fe26_res a /\ fe26_int (f26_normalize_var a) <> fe26_res a /\ fe26_res (f26_normalize_weak a) <> fe26_res a.
Proof. exact prop32_normalize_32. Qed.
Print Assumptions C54_normalize_32_refuted.

(** Comparison, zero and parity of normalized elements. *)
Theorem C54_compare a b : normalized26 a -> normalized26 b ->
  f26_cmp_var a b = (if fe26_int a <? fe26_int b then -1 else if fe26_int a =? fe26_int b then 0 else 1) /\
  f26_is_zero a = (fe26_int a =? 0) /\ f26_is_odd a = Z.odd (fe26_int a).
Proof. exact (prop32_compare a b). Qed.
Print Assumptions C54_compare.
Example C54_compare_case : normalized26 (mkf26 0x3FFFC2E 0x3FFFFBF 0x3FFFFFF 0x3FFFFFF 0x3FFFFFF 0x3FFFFFF 0x3FFFFFF 0x3FFFFFF 0x3FFFFFF 0x3FFFFF).
Proof. exact norm26_example. Qed.

(** Equality of residues; the second operand may have any magnitude up to 29. *)
Theorem C54_equal m a b : magnitude26 1 a -> magnitude26 m b -> 0 <= m <= 29 -> f26_equal a b = (fe26_res a =? fe26_res b).
Proof. exact (prop32_equal m a b). Qed.
Print Assumptions C54_equal.
Example C54_equal_case : f26_equal (f26_set_int 7) (f26_negate (f26_negate (f26_set_int 7) 1) 2) = true /\
  f26_equal (f26_set_int 7) (f26_set_int 8) = false.
Proof. vm_compute. split; reflexivity. Qed.

(** Conversion to and from 32 big-endian bytes. *)
Theorem C54_bytes a l : (normalized26 a -> f26_get_b32 a = be_bytes 32 (fe26_int a)) /\
  (byte_list l -> length l = 32%nat ->
     fe26_int (f26_set_b32_mod l) = be_val l /\ magnitude26 1 (f26_set_b32_mod l) /\
     (be_val l < p -> normalized26 (f26_set_b32_mod l) /\ f26_get_b32 (f26_set_b32_mod l) = l) /\
     f26_set_b32_limit l = (be_val l <? p, f26_set_b32_mod l)).
Proof. exact (prop32_bytes a l). Qed.
Print Assumptions C54_bytes.
Example C54_bytes_case : fst (f26_set_b32_limit (be_bytes 32 (p - 1))) = true /\ fst (f26_set_b32_limit (be_bytes 32 p)) = false /\
  f26_get_b32 (f26_set_b32_mod (be_bytes 32 (p - 1))) = be_bytes 32 (p - 1).
Proof. vm_compute. repeat split; reflexivity. Qed.

(** The compact storage form. *)
Theorem C54_storage a s : (normalized26 a -> storage26_words (f26_to_storage a) /\ storage26_int (f26_to_storage a) = fe26_int a /\
    f26_from_storage (f26_to_storage a) = a) /\
  (storage26_words s -> fe26_int (f26_from_storage s) = storage26_int s /\ magnitude26 1 (f26_from_storage s)).
Proof. exact (prop32_storage a s). Qed.
Print Assumptions C54_storage.
Example C54_storage_case : storage26_int (f26_to_storage (f26_set_b32_mod (be_bytes 32 (p - 1)))) = p - 1.
Proof. vm_compute. reflexivity. Qed.

(** Constant-time selection. *)
Theorem C54_select m r a flag s t : magnitude26 m r -> magnitude26 m a -> 0 <= m <= 32 -> flag = 0 \/ flag = 1 ->
  storage26_words s -> storage26_words t ->
  f26_cmov r a flag = (if flag =? 0 then r else a) /\ f26_storage_cmov s t flag = (if flag =? 0 then s else t).
Proof. exact (prop32_cmov m r a flag s t). Qed.
Print Assumptions C54_select.
Example C54_select_case : f26_cmov (f26_set_int 1) (f26_set_int 2) 1 = f26_set_int 2.
Proof. vm_compute. reflexivity. Qed.

(** Small integers. *)
Theorem C54_set_int k : 0 <= k <= 0x7FFF -> normalized26 (f26_set_int k) /\ fe26_int (f26_set_int k) = k.
Proof. exact (prop32_set_int k). Qed.
Print Assumptions C54_set_int.
Example C54_set_int_case : fe26_int (f26_set_int 0x7FFF) = 0x7FFF.
Proof. vm_compute. reflexivity. Qed.

(** Square root: success exactly on squares, and then a root. *)
Theorem C54_sqrt a : magnitude26 8 a ->
  (fst (f26_sqrt a) = true <-> exists y, (y * y) mod p = fe26_res a) /\
  (fst (f26_sqrt a) = true -> (fe26_int (snd (f26_sqrt a)) ^ 2) mod p = fe26_res a) /\ magnitude26 1 (snd (f26_sqrt a)).
Proof. exact (prop32_sqrt a). Qed.
Print Assumptions C54_sqrt.
Example C54_sqrt_case : fst (f26_sqrt (f26_set_int 4)) = true.
Proof.
  apply C54_sqrt; [repeat split; vm_compute; discriminate|]. exists 2. vm_compute. reflexivity.
Qed.

(** Any computation over the field operations gives the same bytes and the same zero test
    in the two builds, and these are the bytes of its value modulo p. *)
Theorem C54_agree e : fx_ok e ->
  f26_get_b32 (f26_normalize (run32 e)) = be_bytes 32 (fx_val e mod p) /\
  fe_get_b32 (fe_normalize (run64 e)) = be_bytes 32 (fx_val e mod p) /\
  f26_normalizes_to_zero (run32 e) = fe_normalizes_to_zero (run64 e).
Proof. exact (prop32_agree e). Qed.
Print Assumptions C54_agree.
Example C54_agree_case :
  let x := FBytes (be_bytes 32 (2 ^ 255 + 12345)) in
  let e := FAdd (FMul (FSqr x) (FNeg x 1)) (FMulInt (FHalf (FAddInt (FMul x x) 7)) 4) in
  fx_ok e /\ f26_get_b32 (f26_normalize (run32 e)) = fe_get_b32 (fe_normalize (run64 e)).
Proof.
  split; [|vm_compute; reflexivity].
  assert (H : byte_list (be_bytes 32 (2 ^ 255 + 12345))) by apply be_bytes_byte_list.
  cbn [fx_ok fx_mag]. repeat split; try assumption; try reflexivity; vm_compute; discriminate.
Qed.
