(** Model of the scalar arithmetic modulo the group order on eight 32-bit limbs, the code of
    the 32-bit build (src/scalar_8x32_impl.h).  [w32] and [w64] are the wraps of uint32_t and
    uint64_t arithmetic.  Inversion is modelled in Modinv32Model.v. *)
Require Import ZArith List Bool.
From Verif Require Import Word Word32 Spec HashModel ScalarModel.
Import ListNotations.
Local Open Scope Z_scope.
Local Open Scope c_scope.
Local Open Scope c32_scope.

(** src/scalar_8x32.h:12-15 (secp256k1_scalar): eight limbs, least significant first. *)
Record sc8 := mks8 { sd0 : Z; sd1 : Z; sd2 : Z; sd3 : Z; sd4 : Z; sd5 : Z; sd6 : Z; sd7 : Z }.

(** src/scalar_8x32_impl.h:14-39: the order, 2^256 minus the order, and half the order. *)
Definition S8_N_0 : Z := 0xD0364141.
Definition S8_N_1 : Z := 0xBFD25E8C.
Definition S8_N_2 : Z := 0xAF48A03B.
Definition S8_N_3 : Z := 0xBAAEDCE6.
Definition S8_N_4 : Z := 0xFFFFFFFE.
Definition S8_N_5 : Z := 0xFFFFFFFF.
Definition S8_N_6 : Z := 0xFFFFFFFF.
Definition S8_N_7 : Z := 0xFFFFFFFF.
Definition S8_NC_0 : Z := not32 S8_N_0 +% 1.
Definition S8_NC_1 : Z := not32 S8_N_1.
Definition S8_NC_2 : Z := not32 S8_N_2.
Definition S8_NC_3 : Z := not32 S8_N_3.
Definition S8_NC_4 : Z := 1.
Definition S8_NH_0 : Z := 0x681B20A0.
Definition S8_NH_1 : Z := 0xDFE92F46.
Definition S8_NH_2 : Z := 0x57A4501D.
Definition S8_NH_3 : Z := 0x5D576E73.
Definition S8_NH_4 : Z := 0xFFFFFFFF.
Definition S8_NH_5 : Z := 0xFFFFFFFF.
Definition S8_NH_6 : Z := 0xFFFFFFFF.
Definition S8_NH_7 : Z := 0x7FFFFFFF.

(** The limbs as an array. *)
Definition limbs8 (a : sc8) : list Z := [sd0 a; sd1 a; sd2 a; sd3 a; sd4 a; sd5 a; sd6 a; sd7 a].
Definition limb8 (a : sc8) (i : Z) : Z := nth (Z.to_nat i) (limbs8 a) 0.
(** src/scalar_8x32.h:17 SECP256K1_SCALAR_CONST: the limbs of a constant. *)
Definition s8_of_Z (v : Z) : sc8 :=
  mks8 (v mod 2 ^ 32) (v / 2 ^ 32 mod 2 ^ 32) (v / 2 ^ 64 mod 2 ^ 32) (v / 2 ^ 96 mod 2 ^ 32)
       (v / 2 ^ 128 mod 2 ^ 32) (v / 2 ^ 160 mod 2 ^ 32) (v / 2 ^ 192 mod 2 ^ 32) (v / 2 ^ 224).

(** src/scalar_8x32_impl.h:41-52 secp256k1_scalar_set_int. *)
Definition s8_set_int (v : Z) : sc8 := mks8 v 0 0 0 0 0 0 0.

(** src/scalar_8x32_impl.h:54-60 secp256k1_scalar_get_bits_limb32. *)
Definition s8_get_bits_limb32 (a : sc8) (offset count : Z) : Z :=
  (limb8 a (offset >>! 5) >>! (offset &! 0x1F)) &! (0xFFFFFFFF >>! (32 - count)).
(** src/scalar_8x32_impl.h:62-73 secp256k1_scalar_get_bits_var. *)
Definition s8_get_bits_var (a : sc8) (offset count : Z) : Z :=
  if ((offset + count - 1) >>! 5) =? (offset >>! 5) then s8_get_bits_limb32 a offset count
  else ((limb8 a (offset >>! 5) >>! (offset &! 0x1F))
        |! (limb8 a ((offset >>! 5) + 1) <<% (32 - (offset &! 0x1F)))) &! (0xFFFFFFFF >>! (32 - count)).

(** src/scalar_8x32_impl.h:75-91 secp256k1_scalar_check_overflow.  The C ints yes
    and no only hold 0 or 1; [x & ~no] is conjunction with the negation. *)
Definition s8_check_overflow (a : sc8) : bool :=
  let yes := false in
  let no := false in
  let no := no || (sd7 a <? S8_N_7) in
  let no := no || (sd6 a <? S8_N_6) in
  let no := no || (sd5 a <? S8_N_5) in
  let no := no || (sd4 a <? S8_N_4) in
  let yes := yes || ((sd4 a >? S8_N_4) && negb no) in
  let no := no || ((sd3 a <? S8_N_3) && negb yes) in
  let yes := yes || ((sd3 a >? S8_N_3) && negb no) in
  let no := no || ((sd2 a <? S8_N_2) && negb yes) in
  let yes := yes || ((sd2 a >? S8_N_2) && negb no) in
  let no := no || ((sd1 a <? S8_N_1) && negb yes) in
  let yes := yes || ((sd1 a >? S8_N_1) && negb no) in
  let yes := yes || ((sd0 a >=? S8_N_0) && negb no) in
  yes.

(** src/scalar_8x32_impl.h:93-116 secp256k1_scalar_reduce. *)
Definition s8_reduce (r : sc8) (overflow : Z) : sc8 :=
  let! t0 := sd0 r +! (overflow *% S8_NC_0) in
  let! r0 := t0 &! 0xFFFFFFFF in
  let! t1 := (t0 >>! 32) +! (sd1 r +! (overflow *% S8_NC_1)) in
  let! r1 := t1 &! 0xFFFFFFFF in
  let! t2 := (t1 >>! 32) +! (sd2 r +! (overflow *% S8_NC_2)) in
  let! r2 := t2 &! 0xFFFFFFFF in
  let! t3 := (t2 >>! 32) +! (sd3 r +! (overflow *% S8_NC_3)) in
  let! r3 := t3 &! 0xFFFFFFFF in
  let! t4 := (t3 >>! 32) +! (sd4 r +! (overflow *% S8_NC_4)) in
  let! r4 := t4 &! 0xFFFFFFFF in
  let! t5 := (t4 >>! 32) +! (sd5 r) in
  let! r5 := t5 &! 0xFFFFFFFF in
  let! t6 := (t5 >>! 32) +! (sd6 r) in
  let! r6 := t6 &! 0xFFFFFFFF in
  let! t7 := (t6 >>! 32) +! (sd7 r) in
  let! r7 := t7 &! 0xFFFFFFFF in
  mks8 r0 r1 r2 r3 r4 r5 r6 r7.

(** src/scalar_8x32_impl.h:118-145 secp256k1_scalar_add: the sum and the overflow flag. *)
Definition s8_add_ov (a b : sc8) : sc8 * Z :=
  let! t0 := sd0 a +! sd0 b in
  let! r0 := t0 &! 0xFFFFFFFF in
  let! t1 := (t0 >>! 32) +! (sd1 a +! sd1 b) in
  let! r1 := t1 &! 0xFFFFFFFF in
  let! t2 := (t1 >>! 32) +! (sd2 a +! sd2 b) in
  let! r2 := t2 &! 0xFFFFFFFF in
  let! t3 := (t2 >>! 32) +! (sd3 a +! sd3 b) in
  let! r3 := t3 &! 0xFFFFFFFF in
  let! t4 := (t3 >>! 32) +! (sd4 a +! sd4 b) in
  let! r4 := t4 &! 0xFFFFFFFF in
  let! t5 := (t4 >>! 32) +! (sd5 a +! sd5 b) in
  let! r5 := t5 &! 0xFFFFFFFF in
  let! t6 := (t5 >>! 32) +! (sd6 a +! sd6 b) in
  let! r6 := t6 &! 0xFFFFFFFF in
  let! t7 := (t6 >>! 32) +! (sd7 a +! sd7 b) in
  let! r7 := t7 &! 0xFFFFFFFF in
  let! r := mks8 r0 r1 r2 r3 r4 r5 r6 r7 in
  let! overflow := w32 ((t7 >>! 32) +! b2z (s8_check_overflow r)) in
  (s8_reduce r overflow, overflow).

Definition s8_add (a b : sc8) : sc8 := fst (s8_add_ov a b).

(** src/scalar_8x32_impl.h:147-173 secp256k1_scalar_cadd_bit. *)
Definition s8_cadd_bit (r : sc8) (bit flag : Z) : sc8 :=
  let! bit1 := bit +% ((flag -% 1) &! 0x100) in
  let! t0 := sd0 r +! (b2z ((bit1 >>! 5) =? 0) <<% (bit1 &! 0x1F)) in
  let! r0 := t0 &! 0xFFFFFFFF in
  let! t1 := (t0 >>! 32) +! (sd1 r +! (b2z ((bit1 >>! 5) =? 1) <<% (bit1 &! 0x1F))) in
  let! r1 := t1 &! 0xFFFFFFFF in
  let! t2 := (t1 >>! 32) +! (sd2 r +! (b2z ((bit1 >>! 5) =? 2) <<% (bit1 &! 0x1F))) in
  let! r2 := t2 &! 0xFFFFFFFF in
  let! t3 := (t2 >>! 32) +! (sd3 r +! (b2z ((bit1 >>! 5) =? 3) <<% (bit1 &! 0x1F))) in
  let! r3 := t3 &! 0xFFFFFFFF in
  let! t4 := (t3 >>! 32) +! (sd4 r +! (b2z ((bit1 >>! 5) =? 4) <<% (bit1 &! 0x1F))) in
  let! r4 := t4 &! 0xFFFFFFFF in
  let! t5 := (t4 >>! 32) +! (sd5 r +! (b2z ((bit1 >>! 5) =? 5) <<% (bit1 &! 0x1F))) in
  let! r5 := t5 &! 0xFFFFFFFF in
  let! t6 := (t5 >>! 32) +! (sd6 r +! (b2z ((bit1 >>! 5) =? 6) <<% (bit1 &! 0x1F))) in
  let! r6 := t6 &! 0xFFFFFFFF in
  let! t7 := (t6 >>! 32) +! (sd7 r +! (b2z ((bit1 >>! 5) =? 7) <<% (bit1 &! 0x1F))) in
  let! r7 := t7 &! 0xFFFFFFFF in
  mks8 r0 r1 r2 r3 r4 r5 r6 r7.

(** src/scalar_8x32_impl.h:175-191 secp256k1_scalar_set_b32: the scalar and the overflow flag. *)
Definition s8_set_b32 (b : list Z) : sc8 * bool :=
  let r := mks8 (read_be32 b 28) (read_be32 b 24) (read_be32 b 20) (read_be32 b 16)
                (read_be32 b 12) (read_be32 b 8) (read_be32 b 4) (read_be32 b 0) in
  let over := s8_check_overflow r in
  (s8_reduce r (b2z over), over).

(** src/scalar_8x32_impl.h:193-204 secp256k1_scalar_get_b32. *)
Definition s8_get_b32 (a : sc8) : list Z :=
  write_be32 (sd7 a) ++ write_be32 (sd6 a) ++ write_be32 (sd5 a) ++ write_be32 (sd4 a) ++
  write_be32 (sd3 a) ++ write_be32 (sd2 a) ++ write_be32 (sd1 a) ++ write_be32 (sd0 a).

(** src/scalar_8x32_impl.h:206-210 secp256k1_scalar_is_zero. *)
Definition s8_is_zero (a : sc8) : bool :=
  (sd0 a |! sd1 a |! sd2 a |! sd3 a |! sd4 a |! sd5 a |! sd6 a |! sd7 a) =? 0.

(** src/scalar_8x32_impl.h:212-234 secp256k1_scalar_negate. *)
Definition s8_negate (a : sc8) : sc8 :=
  let! nonzero := 0xFFFFFFFF *% b2z (negb (s8_is_zero a)) in
  let! t0 := not32 (sd0 a) +! S8_N_0 +! 1 in
  let! r0 := t0 &! nonzero in
  let! t1 := (t0 >>! 32) +! (not32 (sd1 a) +! S8_N_1) in
  let! r1 := t1 &! nonzero in
  let! t2 := (t1 >>! 32) +! (not32 (sd2 a) +! S8_N_2) in
  let! r2 := t2 &! nonzero in
  let! t3 := (t2 >>! 32) +! (not32 (sd3 a) +! S8_N_3) in
  let! r3 := t3 &! nonzero in
  let! t4 := (t3 >>! 32) +! (not32 (sd4 a) +! S8_N_4) in
  let! r4 := t4 &! nonzero in
  let! t5 := (t4 >>! 32) +! (not32 (sd5 a) +! S8_N_5) in
  let! r5 := t5 &! nonzero in
  let! t6 := (t5 >>! 32) +! (not32 (sd6 a) +! S8_N_6) in
  let! r6 := t6 &! nonzero in
  let! t7 := (t6 >>! 32) +! (not32 (sd7 a) +! S8_N_7) in
  let! r7 := t7 &! nonzero in
  mks8 r0 r1 r2 r3 r4 r5 r6 r7.

(** src/scalar_8x32_impl.h:236-282 secp256k1_scalar_half. *)
Definition s8_half (a : sc8) : sc8 :=
  let! mask := w32 (- (sd0 a &! 1)) in
  let! t0 := ((sd0 a >>! 1) |! (sd1 a <<% 31)) +! ((S8_NH_0 +% 1) &! mask) in
  let! r0 := w32 t0 in
  let! t1 := (t0 >>! 32) +! ((sd1 a >>! 1) |! (sd2 a <<% 31)) +! (S8_NH_1 &! mask) in
  let! r1 := w32 t1 in
  let! t2 := (t1 >>! 32) +! ((sd2 a >>! 1) |! (sd3 a <<% 31)) +! (S8_NH_2 &! mask) in
  let! r2 := w32 t2 in
  let! t3 := (t2 >>! 32) +! ((sd3 a >>! 1) |! (sd4 a <<% 31)) +! (S8_NH_3 &! mask) in
  let! r3 := w32 t3 in
  let! t4 := (t3 >>! 32) +! ((sd4 a >>! 1) |! (sd5 a <<% 31)) +! (S8_NH_4 &! mask) in
  let! r4 := w32 t4 in
  let! t5 := (t4 >>! 32) +! ((sd5 a >>! 1) |! (sd6 a <<% 31)) +! (S8_NH_5 &! mask) in
  let! r5 := w32 t5 in
  let! t6 := (t5 >>! 32) +! ((sd6 a >>! 1) |! (sd7 a <<% 31)) +! (S8_NH_6 &! mask) in
  let! r6 := w32 t6 in
  let! r7 := w32 (t6 >>! 32) +% (sd7 a >>! 1) +% (S8_NH_7 &! mask) in
  mks8 r0 r1 r2 r3 r4 r5 r6 r7.

(** src/scalar_8x32_impl.h:284-288 secp256k1_scalar_is_one. *)
Definition s8_is_one (a : sc8) : bool :=
  ((sd0 a ^! 1) |! sd1 a |! sd2 a |! sd3 a |! sd4 a |! sd5 a |! sd6 a |! sd7 a) =? 0.

(** src/scalar_8x32_impl.h:290-308 secp256k1_scalar_is_high. *)
Definition s8_is_high (a : sc8) : bool :=
  let yes := false in
  let no := false in
  let no := no || (sd7 a <? S8_NH_7) in
  let yes := yes || ((sd7 a >? S8_NH_7) && negb no) in
  let no := no || ((sd6 a <? S8_NH_6) && negb yes) in
  let no := no || ((sd5 a <? S8_NH_5) && negb yes) in
  let no := no || ((sd4 a <? S8_NH_4) && negb yes) in
  let no := no || ((sd3 a <? S8_NH_3) && negb yes) in
  let yes := yes || ((sd3 a >? S8_NH_3) && negb no) in
  let no := no || ((sd2 a <? S8_NH_2) && negb yes) in
  let yes := yes || ((sd2 a >? S8_NH_2) && negb no) in
  let no := no || ((sd1 a <? S8_NH_1) && negb yes) in
  let yes := yes || ((sd1 a >? S8_NH_1) && negb no) in
  let yes := yes || ((sd0 a >? S8_NH_0) && negb no) in
  yes.

(** src/scalar_8x32_impl.h:310-337 secp256k1_scalar_cond_negate: the scalar and the sign. *)
Definition s8_cond_negate (r : sc8) (flag : Z) : sc8 * Z :=
  let! mask := w32 (- flag) in
  let! nonzero := 0xFFFFFFFF *% b2z (negb (s8_is_zero r)) in
  let! t0 := (sd0 r ^! mask) +! ((S8_N_0 +% 1) &! mask) in
  let! r0 := t0 &! nonzero in
  let! t1 := (t0 >>! 32) +! ((sd1 r ^! mask) +! (S8_N_1 &! mask)) in
  let! r1 := t1 &! nonzero in
  let! t2 := (t1 >>! 32) +! ((sd2 r ^! mask) +! (S8_N_2 &! mask)) in
  let! r2 := t2 &! nonzero in
  let! t3 := (t2 >>! 32) +! ((sd3 r ^! mask) +! (S8_N_3 &! mask)) in
  let! r3 := t3 &! nonzero in
  let! t4 := (t3 >>! 32) +! ((sd4 r ^! mask) +! (S8_N_4 &! mask)) in
  let! r4 := t4 &! nonzero in
  let! t5 := (t4 >>! 32) +! ((sd5 r ^! mask) +! (S8_N_5 &! mask)) in
  let! r5 := t5 &! nonzero in
  let! t6 := (t5 >>! 32) +! ((sd6 r ^! mask) +! (S8_N_6 &! mask)) in
  let! r6 := t6 &! nonzero in
  let! t7 := (t6 >>! 32) +! ((sd7 r ^! mask) +! (S8_N_7 &! mask)) in
  let! r7 := t7 &! nonzero in
  (mks8 r0 r1 r2 r3 r4 r5 r6 r7, 2 * b2z (mask =? 0) - 1).

(** src/scalar_8x32_impl.h:343-355 the macro muladd, on the accumulator (c0,c1,c2). *)
Definition muladd32 (c : acc3) (a b : Z) : acc3 :=
  let '(c0, c1, c2) := c in
  let t := a *! b in
  let th := w32 (t >>! 32) in
  let tl := w32 t in
  let c0 := c0 +% tl in
  let th := th +% b2z (c0 <? tl) in
  let c1 := c1 +% th in
  let c2 := c2 +% b2z (c1 <? th) in
  (c0, c1, c2).
(** src/scalar_8x32_impl.h:358-369 the macro muladd_fast. *)
Definition muladd_fast32 (c : acc3) (a b : Z) : acc3 :=
  let '(c0, c1, c2) := c in
  let t := a *! b in
  let th := w32 (t >>! 32) in
  let tl := w32 t in
  let c0 := c0 +% tl in
  let th := th +% b2z (c0 <? tl) in
  let c1 := c1 +% th in
  (c0, c1, c2).
(** src/scalar_8x32_impl.h:372-378 the macro sumadd. *)
Definition sumadd32 (c : acc3) (a : Z) : acc3 :=
  let '(c0, c1, c2) := c in
  let c0 := c0 +% a in
  let over := b2z (c0 <? a) in
  let c1 := c1 +% over in
  let c2 := c2 +% b2z (c1 <? over) in
  (c0, c1, c2).
(** src/scalar_8x32_impl.h:381-386 the macro sumadd_fast. *)
Definition sumadd_fast32 (c : acc3) (a : Z) : acc3 :=
  let '(c0, c1, c2) := c in
  let c0 := c0 +% a in
  let c1 := c1 +% b2z (c0 <? a) in
  (c0, c1, c2).
(** src/scalar_8x32_impl.h:389-394 the macro extract: the limb and the shifted accumulator. *)
Definition extract_limb32 (c : acc3) : Z := fst (fst c).
Definition extract_rest32 (c : acc3) : acc3 := let '(c0, c1, c2) := c in (c1, c2, 0).
(** src/scalar_8x32_impl.h:397-402 the macro extract_fast. *)
Definition extract_fast_rest32 (c : acc3) : acc3 := let '(c0, c1, c2) := c in (c1, 0, c2).

(** src/scalar_8x32_impl.h:404-544 secp256k1_scalar_reduce_512, in its three steps:
    512 bits into 385, ... *)
Definition s8_reduce_385 (l : list Z) : list Z :=
  let! n0 := nth 8 l 0 in
  let! n1 := nth 9 l 0 in
  let! n2 := nth 10 l 0 in
  let! n3 := nth 11 l 0 in
  let! n4 := nth 12 l 0 in
  let! n5 := nth 13 l 0 in
  let! n6 := nth 14 l 0 in
  let! n7 := nth 15 l 0 in
  let! c1 := ((nth 0 l 0), 0, 0) in
  let! c2 := muladd_fast32 c1 n0 S8_NC_0 in
  let! m0 := extract_limb32 c2 in
  let! c3 := extract_fast_rest32 c2 in
  let! c4 := sumadd_fast32 c3 (nth 1 l 0) in
  let! c5 := muladd32 c4 n1 S8_NC_0 in
  let! c6 := muladd32 c5 n0 S8_NC_1 in
  let! m1 := extract_limb32 c6 in
  let! c7 := extract_rest32 c6 in
  let! c8 := sumadd32 c7 (nth 2 l 0) in
  let! c9 := muladd32 c8 n2 S8_NC_0 in
  let! c10 := muladd32 c9 n1 S8_NC_1 in
  let! c11 := muladd32 c10 n0 S8_NC_2 in
  let! m2 := extract_limb32 c11 in
  let! c12 := extract_rest32 c11 in
  let! c13 := sumadd32 c12 (nth 3 l 0) in
  let! c14 := muladd32 c13 n3 S8_NC_0 in
  let! c15 := muladd32 c14 n2 S8_NC_1 in
  let! c16 := muladd32 c15 n1 S8_NC_2 in
  let! c17 := muladd32 c16 n0 S8_NC_3 in
  let! m3 := extract_limb32 c17 in
  let! c18 := extract_rest32 c17 in
  let! c19 := sumadd32 c18 (nth 4 l 0) in
  let! c20 := muladd32 c19 n4 S8_NC_0 in
  let! c21 := muladd32 c20 n3 S8_NC_1 in
  let! c22 := muladd32 c21 n2 S8_NC_2 in
  let! c23 := muladd32 c22 n1 S8_NC_3 in
  let! c24 := sumadd32 c23 n0 in
  let! m4 := extract_limb32 c24 in
  let! c25 := extract_rest32 c24 in
  let! c26 := sumadd32 c25 (nth 5 l 0) in
  let! c27 := muladd32 c26 n5 S8_NC_0 in
  let! c28 := muladd32 c27 n4 S8_NC_1 in
  let! c29 := muladd32 c28 n3 S8_NC_2 in
  let! c30 := muladd32 c29 n2 S8_NC_3 in
  let! c31 := sumadd32 c30 n1 in
  let! m5 := extract_limb32 c31 in
  let! c32 := extract_rest32 c31 in
  let! c33 := sumadd32 c32 (nth 6 l 0) in
  let! c34 := muladd32 c33 n6 S8_NC_0 in
  let! c35 := muladd32 c34 n5 S8_NC_1 in
  let! c36 := muladd32 c35 n4 S8_NC_2 in
  let! c37 := muladd32 c36 n3 S8_NC_3 in
  let! c38 := sumadd32 c37 n2 in
  let! m6 := extract_limb32 c38 in
  let! c39 := extract_rest32 c38 in
  let! c40 := sumadd32 c39 (nth 7 l 0) in
  let! c41 := muladd32 c40 n7 S8_NC_0 in
  let! c42 := muladd32 c41 n6 S8_NC_1 in
  let! c43 := muladd32 c42 n5 S8_NC_2 in
  let! c44 := muladd32 c43 n4 S8_NC_3 in
  let! c45 := sumadd32 c44 n3 in
  let! m7 := extract_limb32 c45 in
  let! c46 := extract_rest32 c45 in
  let! c47 := muladd32 c46 n7 S8_NC_1 in
  let! c48 := muladd32 c47 n6 S8_NC_2 in
  let! c49 := muladd32 c48 n5 S8_NC_3 in
  let! c50 := sumadd32 c49 n4 in
  let! m8 := extract_limb32 c50 in
  let! c51 := extract_rest32 c50 in
  let! c52 := muladd32 c51 n7 S8_NC_2 in
  let! c53 := muladd32 c52 n6 S8_NC_3 in
  let! c54 := sumadd32 c53 n5 in
  let! m9 := extract_limb32 c54 in
  let! c55 := extract_rest32 c54 in
  let! c56 := muladd32 c55 n7 S8_NC_3 in
  let! c57 := sumadd32 c56 n6 in
  let! m10 := extract_limb32 c57 in
  let! c58 := extract_rest32 c57 in
  let! c59 := sumadd_fast32 c58 n7 in
  let! m11 := extract_limb32 c59 in
  let! c60 := extract_fast_rest32 c59 in
  let! m12 := extract_limb32 c60 in
  [m0; m1; m2; m3; m4; m5; m6; m7; m8; m9; m10; m11; m12].
(** ... 385 into 258, ... *)
Definition s8_reduce_258 (m : list Z) : list Z :=
  let! m0 := nth 0 m 0 in
  let! m1 := nth 1 m 0 in
  let! m2 := nth 2 m 0 in
  let! m3 := nth 3 m 0 in
  let! m4 := nth 4 m 0 in
  let! m5 := nth 5 m 0 in
  let! m6 := nth 6 m 0 in
  let! m7 := nth 7 m 0 in
  let! m8 := nth 8 m 0 in
  let! m9 := nth 9 m 0 in
  let! m10 := nth 10 m 0 in
  let! m11 := nth 11 m 0 in
  let! m12 := nth 12 m 0 in
  let! c1 := (m0, 0, 0) in
  let! c2 := muladd_fast32 c1 m8 S8_NC_0 in
  let! p0 := extract_limb32 c2 in
  let! c3 := extract_fast_rest32 c2 in
  let! c4 := sumadd_fast32 c3 m1 in
  let! c5 := muladd32 c4 m9 S8_NC_0 in
  let! c6 := muladd32 c5 m8 S8_NC_1 in
  let! p1 := extract_limb32 c6 in
  let! c7 := extract_rest32 c6 in
  let! c8 := sumadd32 c7 m2 in
  let! c9 := muladd32 c8 m10 S8_NC_0 in
  let! c10 := muladd32 c9 m9 S8_NC_1 in
  let! c11 := muladd32 c10 m8 S8_NC_2 in
  let! p2 := extract_limb32 c11 in
  let! c12 := extract_rest32 c11 in
  let! c13 := sumadd32 c12 m3 in
  let! c14 := muladd32 c13 m11 S8_NC_0 in
  let! c15 := muladd32 c14 m10 S8_NC_1 in
  let! c16 := muladd32 c15 m9 S8_NC_2 in
  let! c17 := muladd32 c16 m8 S8_NC_3 in
  let! p3 := extract_limb32 c17 in
  let! c18 := extract_rest32 c17 in
  let! c19 := sumadd32 c18 m4 in
  let! c20 := muladd32 c19 m12 S8_NC_0 in
  let! c21 := muladd32 c20 m11 S8_NC_1 in
  let! c22 := muladd32 c21 m10 S8_NC_2 in
  let! c23 := muladd32 c22 m9 S8_NC_3 in
  let! c24 := sumadd32 c23 m8 in
  let! p4 := extract_limb32 c24 in
  let! c25 := extract_rest32 c24 in
  let! c26 := sumadd32 c25 m5 in
  let! c27 := muladd32 c26 m12 S8_NC_1 in
  let! c28 := muladd32 c27 m11 S8_NC_2 in
  let! c29 := muladd32 c28 m10 S8_NC_3 in
  let! c30 := sumadd32 c29 m9 in
  let! p5 := extract_limb32 c30 in
  let! c31 := extract_rest32 c30 in
  let! c32 := sumadd32 c31 m6 in
  let! c33 := muladd32 c32 m12 S8_NC_2 in
  let! c34 := muladd32 c33 m11 S8_NC_3 in
  let! c35 := sumadd32 c34 m10 in
  let! p6 := extract_limb32 c35 in
  let! c36 := extract_rest32 c35 in
  let! c37 := sumadd_fast32 c36 m7 in
  let! c38 := muladd_fast32 c37 m12 S8_NC_3 in
  let! c39 := sumadd_fast32 c38 m11 in
  let! p7 := extract_limb32 c39 in
  let! c40 := extract_fast_rest32 c39 in
  let! p8 := extract_limb32 c40 +% m12 in
  [p0; p1; p2; p3; p4; p5; p6; p7; p8].
(** ... and 258 into 256. *)
Definition s8_reduce_256 (p : list Z) : sc8 :=
  let! p0 := nth 0 p 0 in
  let! p1 := nth 1 p 0 in
  let! p2 := nth 2 p 0 in
  let! p3 := nth 3 p 0 in
  let! p4 := nth 4 p 0 in
  let! p5 := nth 5 p 0 in
  let! p6 := nth 6 p 0 in
  let! p7 := nth 7 p 0 in
  let! p8 := nth 8 p 0 in
  let! t0 := p0 +! (S8_NC_0 *! p8) in
  let! r0 := t0 &! 0xFFFFFFFF in
  let! t1 := (t0 >>! 32) +! (p1 +! (S8_NC_1 *! p8)) in
  let! r1 := t1 &! 0xFFFFFFFF in
  let! t2 := (t1 >>! 32) +! (p2 +! (S8_NC_2 *! p8)) in
  let! r2 := t2 &! 0xFFFFFFFF in
  let! t3 := (t2 >>! 32) +! (p3 +! (S8_NC_3 *! p8)) in
  let! r3 := t3 &! 0xFFFFFFFF in
  let! t4 := (t3 >>! 32) +! (p4 +! p8) in
  let! r4 := t4 &! 0xFFFFFFFF in
  let! t5 := (t4 >>! 32) +! (p5) in
  let! r5 := t5 &! 0xFFFFFFFF in
  let! t6 := (t5 >>! 32) +! (p6) in
  let! r6 := t6 &! 0xFFFFFFFF in
  let! t7 := (t6 >>! 32) +! (p7) in
  let! r7 := t7 &! 0xFFFFFFFF in
  let! r := mks8 r0 r1 r2 r3 r4 r5 r6 r7 in
  s8_reduce r (w32 ((t7 >>! 32) +! b2z (s8_check_overflow r))).
Definition s8_reduce_512 (l : list Z) : sc8 := s8_reduce_256 (s8_reduce_258 (s8_reduce_385 l)).

(** src/scalar_8x32_impl.h:546-632 secp256k1_scalar_mul_512: the sixteen limbs l[0..15]. *)
Definition s8_mul_512 (a b : sc8) : list Z :=
  let! c0 := (0, 0, 0) in
  let! c1 := muladd_fast32 c0 (sd0 a) (sd0 b) in
  let! x0 := extract_limb32 c1 in
  let! c2 := extract_fast_rest32 c1 in
  let! c3 := muladd32 c2 (sd0 a) (sd1 b) in
  let! c4 := muladd32 c3 (sd1 a) (sd0 b) in
  let! x1 := extract_limb32 c4 in
  let! c5 := extract_rest32 c4 in
  let! c6 := muladd32 c5 (sd0 a) (sd2 b) in
  let! c7 := muladd32 c6 (sd1 a) (sd1 b) in
  let! c8 := muladd32 c7 (sd2 a) (sd0 b) in
  let! x2 := extract_limb32 c8 in
  let! c9 := extract_rest32 c8 in
  let! c10 := muladd32 c9 (sd0 a) (sd3 b) in
  let! c11 := muladd32 c10 (sd1 a) (sd2 b) in
  let! c12 := muladd32 c11 (sd2 a) (sd1 b) in
  let! c13 := muladd32 c12 (sd3 a) (sd0 b) in
  let! x3 := extract_limb32 c13 in
  let! c14 := extract_rest32 c13 in
  let! c15 := muladd32 c14 (sd0 a) (sd4 b) in
  let! c16 := muladd32 c15 (sd1 a) (sd3 b) in
  let! c17 := muladd32 c16 (sd2 a) (sd2 b) in
  let! c18 := muladd32 c17 (sd3 a) (sd1 b) in
  let! c19 := muladd32 c18 (sd4 a) (sd0 b) in
  let! x4 := extract_limb32 c19 in
  let! c20 := extract_rest32 c19 in
  let! c21 := muladd32 c20 (sd0 a) (sd5 b) in
  let! c22 := muladd32 c21 (sd1 a) (sd4 b) in
  let! c23 := muladd32 c22 (sd2 a) (sd3 b) in
  let! c24 := muladd32 c23 (sd3 a) (sd2 b) in
  let! c25 := muladd32 c24 (sd4 a) (sd1 b) in
  let! c26 := muladd32 c25 (sd5 a) (sd0 b) in
  let! x5 := extract_limb32 c26 in
  let! c27 := extract_rest32 c26 in
  let! c28 := muladd32 c27 (sd0 a) (sd6 b) in
  let! c29 := muladd32 c28 (sd1 a) (sd5 b) in
  let! c30 := muladd32 c29 (sd2 a) (sd4 b) in
  let! c31 := muladd32 c30 (sd3 a) (sd3 b) in
  let! c32 := muladd32 c31 (sd4 a) (sd2 b) in
  let! c33 := muladd32 c32 (sd5 a) (sd1 b) in
  let! c34 := muladd32 c33 (sd6 a) (sd0 b) in
  let! x6 := extract_limb32 c34 in
  let! c35 := extract_rest32 c34 in
  let! c36 := muladd32 c35 (sd0 a) (sd7 b) in
  let! c37 := muladd32 c36 (sd1 a) (sd6 b) in
  let! c38 := muladd32 c37 (sd2 a) (sd5 b) in
  let! c39 := muladd32 c38 (sd3 a) (sd4 b) in
  let! c40 := muladd32 c39 (sd4 a) (sd3 b) in
  let! c41 := muladd32 c40 (sd5 a) (sd2 b) in
  let! c42 := muladd32 c41 (sd6 a) (sd1 b) in
  let! c43 := muladd32 c42 (sd7 a) (sd0 b) in
  let! x7 := extract_limb32 c43 in
  let! c44 := extract_rest32 c43 in
  let! c45 := muladd32 c44 (sd1 a) (sd7 b) in
  let! c46 := muladd32 c45 (sd2 a) (sd6 b) in
  let! c47 := muladd32 c46 (sd3 a) (sd5 b) in
  let! c48 := muladd32 c47 (sd4 a) (sd4 b) in
  let! c49 := muladd32 c48 (sd5 a) (sd3 b) in
  let! c50 := muladd32 c49 (sd6 a) (sd2 b) in
  let! c51 := muladd32 c50 (sd7 a) (sd1 b) in
  let! x8 := extract_limb32 c51 in
  let! c52 := extract_rest32 c51 in
  let! c53 := muladd32 c52 (sd2 a) (sd7 b) in
  let! c54 := muladd32 c53 (sd3 a) (sd6 b) in
  let! c55 := muladd32 c54 (sd4 a) (sd5 b) in
  let! c56 := muladd32 c55 (sd5 a) (sd4 b) in
  let! c57 := muladd32 c56 (sd6 a) (sd3 b) in
  let! c58 := muladd32 c57 (sd7 a) (sd2 b) in
  let! x9 := extract_limb32 c58 in
  let! c59 := extract_rest32 c58 in
  let! c60 := muladd32 c59 (sd3 a) (sd7 b) in
  let! c61 := muladd32 c60 (sd4 a) (sd6 b) in
  let! c62 := muladd32 c61 (sd5 a) (sd5 b) in
  let! c63 := muladd32 c62 (sd6 a) (sd4 b) in
  let! c64 := muladd32 c63 (sd7 a) (sd3 b) in
  let! x10 := extract_limb32 c64 in
  let! c65 := extract_rest32 c64 in
  let! c66 := muladd32 c65 (sd4 a) (sd7 b) in
  let! c67 := muladd32 c66 (sd5 a) (sd6 b) in
  let! c68 := muladd32 c67 (sd6 a) (sd5 b) in
  let! c69 := muladd32 c68 (sd7 a) (sd4 b) in
  let! x11 := extract_limb32 c69 in
  let! c70 := extract_rest32 c69 in
  let! c71 := muladd32 c70 (sd5 a) (sd7 b) in
  let! c72 := muladd32 c71 (sd6 a) (sd6 b) in
  let! c73 := muladd32 c72 (sd7 a) (sd5 b) in
  let! x12 := extract_limb32 c73 in
  let! c74 := extract_rest32 c73 in
  let! c75 := muladd32 c74 (sd6 a) (sd7 b) in
  let! c76 := muladd32 c75 (sd7 a) (sd6 b) in
  let! x13 := extract_limb32 c76 in
  let! c77 := extract_rest32 c76 in
  let! c78 := muladd_fast32 c77 (sd7 a) (sd7 b) in
  let! x14 := extract_limb32 c78 in
  let! c79 := extract_fast_rest32 c78 in
  let! x15 := extract_limb32 c79 in
  [x0; x1; x2; x3; x4; x5; x6; x7; x8; x9; x10; x11; x12; x13; x14; x15].

(** src/scalar_8x32_impl.h:641-650 secp256k1_scalar_mul. *)
Definition s8_mul (a b : sc8) : sc8 := s8_reduce_512 (s8_mul_512 a b).

(** src/scalar_8x32_impl.h:652-674 secp256k1_scalar_split_128. *)
Definition s8_split_128 (k : sc8) : sc8 * sc8 :=
  (mks8 (sd0 k) (sd1 k) (sd2 k) (sd3 k) 0 0 0 0, mks8 (sd4 k) (sd5 k) (sd6 k) (sd7 k) 0 0 0 0).

(** src/scalar_8x32_impl.h:676-681 secp256k1_scalar_eq. *)
Definition s8_eq (a b : sc8) : bool :=
  ((sd0 a ^! sd0 b) |! (sd1 a ^! sd1 b) |! (sd2 a ^! sd2 b) |! (sd3 a ^! sd3 b) |!
   (sd4 a ^! sd4 b) |! (sd5 a ^! sd5 b) |! (sd6 a ^! sd6 b) |! (sd7 a ^! sd7 b)) =? 0.

(** src/scalar_8x32_impl.h:683-707 secp256k1_scalar_mul_shift_var. *)
Definition s8_mul_shift_var (a b : sc8) (shift : Z) : sc8 :=
  let l := s8_mul_512 a b in
  let at_ i := nth (Z.to_nat i) l 0 in
  let shiftlimbs := shift >>! 5 in
  let shiftlow := shift &! 0x1F in
  let shifthigh := 32 - shiftlow in
  let part lim1 lim2 i :=
    if shift <? lim1 then
      (at_ (i + shiftlimbs) >>! shiftlow)
      |! (if (shift <? lim2) && negb (shiftlow =? 0) then at_ (i + 1 + shiftlimbs) <<% shifthigh else 0)
    else 0 in
  let r := mks8 (part 512 480 0) (part 480 448 1) (part 448 416 2) (part 416 384 3)
                (part 384 352 4) (part 352 320 5) (part 320 288 6)
                (if shift <? 288 then at_ (7 + shiftlimbs) >>! shiftlow else 0) in
  s8_cadd_bit r 0 ((at_ ((shift - 1) >>! 5) >>! ((shift - 1) &! 0x1F)) &! 1).

(** src/scalar_8x32_impl.h:709-727 secp256k1_scalar_cmov (flag is 0 or 1). *)
Definition s8_cmov (r a : sc8) (flag : Z) : sc8 :=
  mks8 (cmov32 (sd0 r) (sd0 a) flag) (cmov32 (sd1 r) (sd1 a) flag) (cmov32 (sd2 r) (sd2 a) flag) (cmov32 (sd3 r) (sd3 a) flag)
       (cmov32 (sd4 r) (sd4 a) flag) (cmov32 (sd5 r) (sd5 a) flag) (cmov32 (sd6 r) (sd6 a) flag) (cmov32 (sd7 r) (sd7 a) flag).

(** src/scalar_8x32_impl.h:810-814 secp256k1_scalar_is_even. *)
Definition s8_is_even (a : sc8) : bool := (sd0 a &! 1) =? 0.

(** src/scalar_impl.h:34-40 secp256k1_scalar_set_b32_seckey: the scalar and validity. *)
Definition s8_set_b32_seckey (bin : list Z) : sc8 * bool :=
  let '(r, overflow) := s8_set_b32 bin in
  (r, negb overflow && negb (s8_is_zero r)).

(** src/scalar_impl.h:67-78, 83-86 secp256k1_scalar_split_lambda, with the constants of ScalarModel. *)
Definition s8_split_lambda (k : sc8) : sc8 * sc8 :=
  let c1 := s8_mul_shift_var k (s8_of_Z g1) 384 in
  let c2 := s8_mul_shift_var k (s8_of_Z g2) 384 in
  let c1 := s8_mul c1 (s8_of_Z minus_b1) in
  let c2 := s8_mul c2 (s8_of_Z minus_b2) in
  let r2 := s8_add c1 c2 in
  let r1 := s8_mul r2 (s8_of_Z lambda) in
  let r1 := s8_negate r1 in
  let r1 := s8_add r1 k in
  (r1, r2).
