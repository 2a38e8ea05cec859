(** Model of the scalar arithmetic modulo the group order, four 64-bit limbs
    (the SECP256K1_WIDEMUL_INT128 configuration, portable C path: the x86_64
    assembly alternative of mul_512 and reduce_512 is not modelled). *)
Require Import ZArith List Bool.
From Verif Require Import Word Spec FieldModel.
Import ListNotations.
Local Open Scope Z_scope.
Local Open Scope c_scope.

(** src/scalar_4x64.h:13-15 (secp256k1_scalar): four limbs, least significant first. *)
Record sc := mksc { d0 : Z; d1 : Z; d2 : Z; d3 : Z }.

(** src/scalar_4x64_impl.h:16-30: the order, 2^256 minus the order, and half the order. *)
Definition N_0 : Z := 0xBFD25E8CD0364141.
Definition N_1 : Z := 0xBAAEDCE6AF48A03B.
Definition N_2 : Z := 0xFFFFFFFFFFFFFFFE.
Definition N_3 : Z := 0xFFFFFFFFFFFFFFFF.
Definition N_C_0 : Z := w64 (not64 N_0 + 1).
Definition N_C_1 : Z := not64 N_1.
Definition N_C_2 : Z := 1.
Definition N_H_0 : Z := 0xDFE92F46681B20A0.
Definition N_H_1 : Z := 0x5D576E7357A4501D.
Definition N_H_2 : Z := 0xFFFFFFFFFFFFFFFF.
Definition N_H_3 : Z := 0x7FFFFFFFFFFFFFFF.

(** The integer a scalar stands for. *)
Definition sv (a : sc) : Z := d0 a + d1 a * 2 ^ 64 + d2 a * 2 ^ 128 + d3 a * 2 ^ 192.
Definition limb (a : sc) (i : Z) : Z :=
  if i =? 0 then d0 a else if i =? 1 then d1 a else if i =? 2 then d2 a else d3 a.

(** src/scalar_4x64.h:17 SECP256K1_SCALAR_CONST: the limbs of a constant. *)
Definition sc_of_Z (v : Z) : sc :=
  mksc (v mod 2 ^ 64) (v / 2 ^ 64 mod 2 ^ 64) (v / 2 ^ 128 mod 2 ^ 64) (v / 2 ^ 192).
(** src/scalar_impl.h:27-28 (secp256k1_scalar_one, secp256k1_scalar_zero). *)
Definition sc_one : sc := sc_of_Z 1.
Definition sc_zero : sc := sc_of_Z 0.

(** src/scalar_4x64_impl.h:32-39 secp256k1_scalar_set_int. *)
Definition sc_set_int (v : Z) : sc := mksc v 0 0 0.

(** src/scalar_4x64_impl.h:41-47 secp256k1_scalar_get_bits_limb32. *)
Definition sc_get_bits_limb32 (a : sc) (offset count : Z) : Z :=
  w32 ((limb a (offset >>! 6) >>! (offset &! 0x3F)) &! (0xFFFFFFFF >>! (32 - count))).

(** src/scalar_4x64_impl.h:49-60 secp256k1_scalar_get_bits_var. *)
Definition sc_get_bits_var (a : sc) (offset count : Z) : Z :=
  if ((offset + count - 1) >>! 6) =? (offset >>! 6) then sc_get_bits_limb32 a offset count
  else w32 (((limb a (offset >>! 6) >>! (offset &! 0x3F))
             |! (limb a ((offset >>! 6) + 1) <<! (64 - (offset &! 0x3F)))) &! (0xFFFFFFFF >>! (32 - count))).

(** src/scalar_4x64_impl.h:62-72 secp256k1_scalar_check_overflow.  The C ints yes
    and no only hold 0 or 1; [x & ~no] is conjunction with the negation. *)
Definition sc_check_overflow (a : sc) : bool :=
  let yes := false in
  let no := false in
  let no := no || (d3 a <? N_3) in
  let no := no || (d2 a <? N_2) in
  let yes := yes || ((d2 a >? N_2) && negb no) in
  let no := no || (d1 a <? N_1) in
  let yes := yes || ((d1 a >? N_1) && negb no) in
  let yes := yes || ((d0 a >=? N_0) && negb no) in
  yes.

(** src/scalar_4x64_impl.h:74-92 secp256k1_scalar_reduce. *)
Definition sc_reduce (r : sc) (overflow : Z) : sc :=
  let t := d0 r in
  let t := u128_accum_u64 t (overflow *! N_C_0) in
  let r0 := u128_to_u64 t in let t := u128_rshift t 64 in
  let t := u128_accum_u64 t (d1 r) in
  let t := u128_accum_u64 t (overflow *! N_C_1) in
  let r1 := u128_to_u64 t in let t := u128_rshift t 64 in
  let t := u128_accum_u64 t (d2 r) in
  let t := u128_accum_u64 t (overflow *! N_C_2) in
  let r2 := u128_to_u64 t in let t := u128_rshift t 64 in
  let t := u128_accum_u64 t (d3 r) in
  let r3 := u128_to_u64 t in
  mksc r0 r1 r2 r3.

(** src/scalar_4x64_impl.h:94-118 secp256k1_scalar_add: the sum and the overflow flag. *)
Definition sc_add_ov (a b : sc) : sc * Z :=
  let t := d0 a in
  let t := u128_accum_u64 t (d0 b) in
  let r0 := u128_to_u64 t in let t := u128_rshift t 64 in
  let t := u128_accum_u64 t (d1 a) in
  let t := u128_accum_u64 t (d1 b) in
  let r1 := u128_to_u64 t in let t := u128_rshift t 64 in
  let t := u128_accum_u64 t (d2 a) in
  let t := u128_accum_u64 t (d2 b) in
  let r2 := u128_to_u64 t in let t := u128_rshift t 64 in
  let t := u128_accum_u64 t (d3 a) in
  let t := u128_accum_u64 t (d3 b) in
  let r3 := u128_to_u64 t in let t := u128_rshift t 64 in
  let r := mksc r0 r1 r2 r3 in
  let overflow := u128_to_u64 t + b2z (sc_check_overflow r) in
  (sc_reduce r overflow, overflow).
Definition sc_add (a b : sc) : sc := fst (sc_add_ov a b).

(** src/scalar_4x64_impl.h:120-142 secp256k1_scalar_cadd_bit. *)
Definition sc_cadd_bit (r : sc) (bit flag : Z) : sc :=
  let bit := w32 (bit + (w32 (flag - 1) &! 0x100)) in
  let t := d0 r in
  let t := u128_accum_u64 t (b2z ((bit >>! 6) =? 0) <<! (bit &! 0x3F)) in
  let r0 := u128_to_u64 t in let t := u128_rshift t 64 in
  let t := u128_accum_u64 t (d1 r) in
  let t := u128_accum_u64 t (b2z ((bit >>! 6) =? 1) <<! (bit &! 0x3F)) in
  let r1 := u128_to_u64 t in let t := u128_rshift t 64 in
  let t := u128_accum_u64 t (d2 r) in
  let t := u128_accum_u64 t (b2z ((bit >>! 6) =? 2) <<! (bit &! 0x3F)) in
  let r2 := u128_to_u64 t in let t := u128_rshift t 64 in
  let t := u128_accum_u64 t (d3 r) in
  let t := u128_accum_u64 t (b2z ((bit >>! 6) =? 3) <<! (bit &! 0x3F)) in
  let r3 := u128_to_u64 t in
  mksc r0 r1 r2 r3.

(** src/util.h:416-425 secp256k1_read_be64, of the bytes from position [i]. *)
Definition read_be64 (p : list Z) (i : nat) : Z :=
  (byte_at p i <<! 56) |! (byte_at p (i + 1) <<! 48) |! (byte_at p (i + 2) <<! 40)
  |! (byte_at p (i + 3) <<! 32) |! (byte_at p (i + 4) <<! 24) |! (byte_at p (i + 5) <<! 16)
  |! (byte_at p (i + 6) <<! 8) |! byte_at p (i + 7).
(** src/util.h:428-437 secp256k1_write_be64. *)
Definition write_be64 (x : Z) : list Z :=
  [w8 (x >>! 56); w8 (x >>! 48); w8 (x >>! 40); w8 (x >>! 32);
   w8 (x >>! 24); w8 (x >>! 16); w8 (x >>! 8); w8 x].

(** src/scalar_4x64_impl.h:144-156 secp256k1_scalar_set_b32: the scalar and the overflow flag. *)
Definition sc_set_b32 (b : list Z) : sc * bool :=
  let r := mksc (read_be64 b 24) (read_be64 b 16) (read_be64 b 8) (read_be64 b 0) in
  let over := sc_check_overflow r in
  (sc_reduce r (b2z over), over).

(** src/scalar_4x64_impl.h:158-165 secp256k1_scalar_get_b32. *)
Definition sc_get_b32 (a : sc) : list Z :=
  write_be64 (d3 a) ++ write_be64 (d2 a) ++ write_be64 (d1 a) ++ write_be64 (d0 a).

(** src/scalar_4x64_impl.h:167-171 secp256k1_scalar_is_zero. *)
Definition sc_is_zero (a : sc) : bool := (d0 a |! d1 a |! d2 a |! d3 a) =? 0.

(** src/scalar_4x64_impl.h:173-192 secp256k1_scalar_negate. *)
Definition sc_negate (a : sc) : sc :=
  let nonzero := 0xFFFFFFFFFFFFFFFF *! b2z (negb (sc_is_zero a)) in
  let t := not64 (d0 a) in
  let t := u128_accum_u64 t (N_0 +! 1) in
  let r0 := u128_to_u64 t &! nonzero in let t := u128_rshift t 64 in
  let t := u128_accum_u64 t (not64 (d1 a)) in
  let t := u128_accum_u64 t N_1 in
  let r1 := u128_to_u64 t &! nonzero in let t := u128_rshift t 64 in
  let t := u128_accum_u64 t (not64 (d2 a)) in
  let t := u128_accum_u64 t N_2 in
  let r2 := u128_to_u64 t &! nonzero in let t := u128_rshift t 64 in
  let t := u128_accum_u64 t (not64 (d3 a)) in
  let t := u128_accum_u64 t N_3 in
  let r3 := u128_to_u64 t &! nonzero in
  mksc r0 r1 r2 r3.

(** src/scalar_4x64_impl.h:194-233 secp256k1_scalar_half. *)
Definition sc_half (a : sc) : sc :=
  let mask := w64 (- (d0 a &! 1)) in
  let t := (d0 a >>! 1) |! (d1 a <<! 63) in
  let t := u128_accum_u64 t ((N_H_0 +! 1) &! mask) in
  let r0 := u128_to_u64 t in let t := u128_rshift t 64 in
  let t := u128_accum_u64 t ((d1 a >>! 1) |! (d2 a <<! 63)) in
  let t := u128_accum_u64 t (N_H_1 &! mask) in
  let r1 := u128_to_u64 t in let t := u128_rshift t 64 in
  let t := u128_accum_u64 t ((d2 a >>! 1) |! (d3 a <<! 63)) in
  let t := u128_accum_u64 t (N_H_2 &! mask) in
  let r2 := u128_to_u64 t in let t := u128_rshift t 64 in
  let r3 := u128_to_u64 t +! (d3 a >>! 1) +! (N_H_3 &! mask) in
  mksc r0 r1 r2 r3.

(** src/scalar_4x64_impl.h:235-239 secp256k1_scalar_is_one. *)
Definition sc_is_one (a : sc) : bool := ((d0 a ^! 1) |! d1 a |! d2 a |! d3 a) =? 0.

(** src/scalar_4x64_impl.h:241-253 secp256k1_scalar_is_high. *)
Definition sc_is_high (a : sc) : bool :=
  let yes := false in
  let no := false in
  let no := no || (d3 a <? N_H_3) in
  let yes := yes || ((d3 a >? N_H_3) && negb no) in
  let no := no || ((d2 a <? N_H_2) && negb yes) in
  let no := no || ((d1 a <? N_H_1) && negb yes) in
  let yes := yes || ((d1 a >? N_H_1) && negb no) in
  let yes := yes || ((d0 a >? N_H_0) && negb no) in
  yes.

(** src/scalar_4x64_impl.h:255-279 secp256k1_scalar_cond_negate: the scalar and the sign. *)
Definition sc_cond_negate (r : sc) (flag : Z) : sc * Z :=
  let mask := w64 (- flag) in
  let nonzero := w64 (b2z (sc_is_zero r) - 1) in
  let t := d0 r ^! mask in
  let t := u128_accum_u64 t ((N_0 +! 1) &! mask) in
  let r0 := u128_to_u64 t &! nonzero in let t := u128_rshift t 64 in
  let t := u128_accum_u64 t (d1 r ^! mask) in
  let t := u128_accum_u64 t (N_1 &! mask) in
  let r1 := u128_to_u64 t &! nonzero in let t := u128_rshift t 64 in
  let t := u128_accum_u64 t (d2 r ^! mask) in
  let t := u128_accum_u64 t (N_2 &! mask) in
  let r2 := u128_to_u64 t &! nonzero in let t := u128_rshift t 64 in
  let t := u128_accum_u64 t (d3 r ^! mask) in
  let t := u128_accum_u64 t (N_3 &! mask) in
  let r3 := u128_to_u64 t &! nonzero in
  (mksc r0 r1 r2 r3, 2 * b2z (mask =? 0) - 1).

(** The accumulator (c0,c1,c2) of the macros below.  [w2] is the width of c2:
    64 bits in reduce_512, 32 bits in mul_512. *)
Definition acc3 := (Z * Z * Z)%type.
(** src/scalar_4x64_impl.h:284-298 the macro muladd. *)
Definition muladd (w2 : Z -> Z) (c : acc3) (a b : Z) : acc3 :=
  let '(c0, c1, c2) := c in
  let t := u128_mul a b in
  let th := t >>! 64 in
  let tl := u128_to_u64 t in
  let c0 := c0 +! tl in
  let th := th +! b2z (c0 <? tl) in
  let c1 := c1 +! th in
  let c2 := w2 (c2 + b2z (c1 <? th)) in
  (c0, c1, c2).
(** src/scalar_4x64_impl.h:300-313 the macro muladd_fast. *)
Definition muladd_fast (c : acc3) (a b : Z) : acc3 :=
  let '(c0, c1, c2) := c in
  let t := u128_mul a b in
  let th := t >>! 64 in
  let tl := u128_to_u64 t in
  let c0 := c0 +! tl in
  let th := th +! b2z (c0 <? tl) in
  let c1 := c1 +! th in
  (c0, c1, c2).
(** src/scalar_4x64_impl.h:315-322 the macro sumadd. *)
Definition sumadd (w2 : Z -> Z) (c : acc3) (a : Z) : acc3 :=
  let '(c0, c1, c2) := c in
  let c0 := c0 +! a in
  let over := b2z (c0 <? a) in
  let c1 := c1 +! over in
  let c2 := w2 (c2 + b2z (c1 <? over)) in
  (c0, c1, c2).
(** src/scalar_4x64_impl.h:324-330 the macro sumadd_fast. *)
Definition sumadd_fast (c : acc3) (a : Z) : acc3 :=
  let '(c0, c1, c2) := c in
  let c0 := c0 +! a in
  let c1 := c1 +! b2z (c0 <? a) in
  (c0, c1, c2).
(** src/scalar_4x64_impl.h:332-338 the macro extract: the limb and the shifted accumulator. *)
Definition extract_limb (c : acc3) : Z := fst (fst c).
Definition extract_rest (c : acc3) : acc3 := let '(c0, c1, c2) := c in (c1, c2, 0).
(** src/scalar_4x64_impl.h:340-346 the macro extract_fast. *)
Definition extract_fast_rest (c : acc3) : acc3 := let '(c0, c1, c2) := c in (c1, 0, c2).

(** Eight limbs. *)
Record l8 := mkl8 { l_0 : Z; l_1 : Z; l_2 : Z; l_3 : Z; l_4 : Z; l_5 : Z; l_6 : Z; l_7 : Z }.
Definition lv (l : l8) : Z :=
  l_0 l + l_1 l * 2 ^ 64 + l_2 l * 2 ^ 128 + l_3 l * 2 ^ 192 +
  l_4 l * 2 ^ 256 + l_5 l * 2 ^ 320 + l_6 l * 2 ^ 384 + l_7 l * 2 ^ 448.

(** src/scalar_4x64_impl.h:678-846 secp256k1_scalar_mul_512 (portable C path). *)
Definition sc_mul_512 (a b : sc) : l8 :=
  let c := (0, 0, 0) in
  let c := muladd_fast c (d0 a) (d0 b) in
  let x0 := extract_limb c in let c := extract_fast_rest c in
  let c := muladd w32 c (d0 a) (d1 b) in
  let c := muladd w32 c (d1 a) (d0 b) in
  let x1 := extract_limb c in let c := extract_rest c in
  let c := muladd w32 c (d0 a) (d2 b) in
  let c := muladd w32 c (d1 a) (d1 b) in
  let c := muladd w32 c (d2 a) (d0 b) in
  let x2 := extract_limb c in let c := extract_rest c in
  let c := muladd w32 c (d0 a) (d3 b) in
  let c := muladd w32 c (d1 a) (d2 b) in
  let c := muladd w32 c (d2 a) (d1 b) in
  let c := muladd w32 c (d3 a) (d0 b) in
  let x3 := extract_limb c in let c := extract_rest c in
  let c := muladd w32 c (d1 a) (d3 b) in
  let c := muladd w32 c (d2 a) (d2 b) in
  let c := muladd w32 c (d3 a) (d1 b) in
  let x4 := extract_limb c in let c := extract_rest c in
  let c := muladd w32 c (d2 a) (d3 b) in
  let c := muladd w32 c (d3 a) (d2 b) in
  let x5 := extract_limb c in let c := extract_rest c in
  let c := muladd_fast c (d3 a) (d3 b) in
  let x6 := extract_limb c in let c := extract_fast_rest c in
  let x7 := extract_limb c in
  mkl8 x0 x1 x2 x3 x4 x5 x6 x7.

(** src/scalar_4x64_impl.h:347-676 secp256k1_scalar_reduce_512 (portable C path), in its
    three steps: 512 bits into 385, 385 into 258, 258 into 256. *)
Definition sc_reduce_385 (l : l8) : Z * Z * Z * Z * Z * Z * Z :=
  let n0 := l_4 l in let n1 := l_5 l in let n2 := l_6 l in let n3 := l_7 l in
  let c := (l_0 l, 0, 0) in
  let c := muladd_fast c n0 N_C_0 in
  let m0 := extract_limb c in let c := extract_fast_rest c in
  let c := sumadd_fast c (l_1 l) in
  let c := muladd w64 c n1 N_C_0 in
  let c := muladd w64 c n0 N_C_1 in
  let m1 := extract_limb c in let c := extract_rest c in
  let c := sumadd w64 c (l_2 l) in
  let c := muladd w64 c n2 N_C_0 in
  let c := muladd w64 c n1 N_C_1 in
  let c := sumadd w64 c n0 in
  let m2 := extract_limb c in let c := extract_rest c in
  let c := sumadd w64 c (l_3 l) in
  let c := muladd w64 c n3 N_C_0 in
  let c := muladd w64 c n2 N_C_1 in
  let c := sumadd w64 c n1 in
  let m3 := extract_limb c in let c := extract_rest c in
  let c := muladd w64 c n3 N_C_1 in
  let c := sumadd w64 c n2 in
  let m4 := extract_limb c in let c := extract_rest c in
  let c := sumadd_fast c n3 in
  let m5 := extract_limb c in let c := extract_fast_rest c in
  let m6 := w32 (extract_limb c) in
  (m0, m1, m2, m3, m4, m5, m6).
Definition sc_reduce_258 (m0 m1 m2 m3 m4 m5 m6 : Z) : Z * Z * Z * Z * Z :=
  let c := (m0, 0, 0) in
  let c := muladd_fast c m4 N_C_0 in
  let p0 := extract_limb c in let c := extract_fast_rest c in
  let c := sumadd_fast c m1 in
  let c := muladd w64 c m5 N_C_0 in
  let c := muladd w64 c m4 N_C_1 in
  let p1 := extract_limb c in let c := extract_rest c in
  let c := sumadd w64 c m2 in
  let c := muladd w64 c m6 N_C_0 in
  let c := muladd w64 c m5 N_C_1 in
  let c := sumadd w64 c m4 in
  let p2 := extract_limb c in let c := extract_rest c in
  let c := sumadd_fast c m3 in
  let c := muladd_fast c m6 N_C_1 in
  let c := sumadd_fast c m5 in
  let p3 := extract_limb c in let c := extract_fast_rest c in
  let p4 := w32 (extract_limb c + m6) in
  (p0, p1, p2, p3, p4).
Definition sc_reduce_256 (p0 p1 p2 p3 p4 : Z) : sc :=
  let t := p0 in
  let t := u128_accum_mul t N_C_0 p4 in
  let r0 := u128_to_u64 t in let t := u128_rshift t 64 in
  let t := u128_accum_u64 t p1 in
  let t := u128_accum_mul t N_C_1 p4 in
  let r1 := u128_to_u64 t in let t := u128_rshift t 64 in
  let t := u128_accum_u64 t p2 in
  let t := u128_accum_u64 t p4 in
  let r2 := u128_to_u64 t in let t := u128_rshift t 64 in
  let t := u128_accum_u64 t p3 in
  let r3 := u128_to_u64 t in
  let cc := t >>! 64 in
  let r := mksc r0 r1 r2 r3 in
  sc_reduce r (w32 (cc + b2z (sc_check_overflow r))).
Definition sc_reduce_512 (l : l8) : sc :=
  let '(m0, m1, m2, m3, m4, m5, m6) := sc_reduce_385 l in
  let '(p0, p1, p2, p3, p4) := sc_reduce_258 m0 m1 m2 m3 m4 m5 m6 in
  sc_reduce_256 p0 p1 p2 p3 p4.

(** src/scalar_4x64_impl.h:855-864 secp256k1_scalar_mul. *)
Definition sc_mul (a b : sc) : sc := sc_reduce_512 (sc_mul_512 a b).

(** src/scalar_4x64_impl.h:866-880 secp256k1_scalar_split_128. *)
Definition sc_split_128 (k : sc) : sc * sc := (mksc (d0 k) (d1 k) 0 0, mksc (d2 k) (d3 k) 0 0).

(** src/scalar_4x64_impl.h:882-887 secp256k1_scalar_eq. *)
Definition sc_eq (a b : sc) : bool :=
  ((d0 a ^! d0 b) |! (d1 a ^! d1 b) |! (d2 a ^! d2 b) |! (d3 a ^! d3 b)) =? 0.

Definition l8_limb (l : l8) (i : Z) : Z :=
  nth (Z.to_nat i) [l_0 l; l_1 l; l_2 l; l_3 l; l_4 l; l_5 l; l_6 l; l_7 l] 0.
(** src/scalar_4x64_impl.h:889-909 secp256k1_scalar_mul_shift_var. *)
Definition sc_mul_shift_var (a b : sc) (shift : Z) : sc :=
  let l := sc_mul_512 a b in
  let shiftlimbs := shift >>! 6 in
  let shiftlow := shift &! 0x3F in
  let shifthigh := 64 - shiftlow in
  let part lim1 lim2 i :=
    if shift <? lim1 then
      (l8_limb l (i + shiftlimbs) >>! shiftlow)
      |! (if (shift <? lim2) && negb (shiftlow =? 0) then l8_limb l (i + 1 + shiftlimbs) <<! shifthigh else 0)
    else 0 in
  let r := mksc (part 512 448 0) (part 448 384 1) (part 384 320 2)
             (if shift <? 320 then l8_limb l (3 + shiftlimbs) >>! shiftlow else 0) in
  sc_cadd_bit r 0 ((l8_limb l ((shift - 1) >>! 6) >>! ((shift - 1) &! 0x3F)) &! 1).

(** src/scalar_4x64_impl.h:911-925 secp256k1_scalar_cmov (flag is 0 or 1). *)
Definition sc_cmov (r a : sc) (flag : Z) : sc :=
  mksc (cmov64 (d0 r) (d0 a) flag) (cmov64 (d1 r) (d1 a) flag)
       (cmov64 (d2 r) (d2 a) flag) (cmov64 (d3 r) (d3 a) flag).

(** src/scalar_4x64_impl.h:964-977 secp256k1_scalar_inverse (and _var).
    SIMPLIFICATION: the divstep computation (modinv64_impl.h) is replaced by the
    modular inverse itself, the inverse of 0 being 0; the code is modelled in
    ModinvModel.v and proved equal to this (C41_scalar). *)
Definition sc_inverse (x : sc) : sc := sc_of_Z (inv_mod (sv x) n).
(** src/scalar_4x64_impl.h:979-992 secp256k1_scalar_inverse_var. *)
Definition sc_inverse_var (x : sc) : sc := sc_inverse x.

(** src/scalar_4x64_impl.h:994-998 secp256k1_scalar_is_even. *)
Definition sc_is_even (a : sc) : bool := (d0 a &! 1) =? 0.

(** src/scalar_impl.h:34-40 secp256k1_scalar_set_b32_seckey: the scalar and validity. *)
Definition sc_set_b32_seckey (bin : list Z) : sc * bool :=
  let '(r, overflow) := sc_set_b32 bin in
  (r, negb overflow && negb (sc_is_zero r)).

(** src/scalar_impl.h:83-86 (secp256k1_const_lambda). *)
Definition lambda : Z := 0x5363AD4CC05C30E0A5261C028812645A122E22EA20816678DF02967C1B23BD72.
Definition const_lambda : sc := sc_of_Z lambda.

(** src/scalar_impl.h:67-78 secp256k1_scalar_split_lambda. *)
Definition minus_b1 : Z := 0xE4437ED6010E88286F547FA90ABFE4C3.
Definition minus_b2 : Z := 0xFFFFFFFFFFFFFFFFFFFFFFFFFFFFFFFE8A280AC50774346DD765CDA83DB1562C.
Definition g1 : Z := 0x3086D221A7D46BCDE86C90E49284EB153DAA8A1471E8CA7FE893209A45DBB031.
Definition g2 : Z := 0xE4437ED6010E88286F547FA90ABFE4C4221208AC9DF506C61571B4AE8AC47F71.
Definition sc_split_lambda (k : sc) : sc * sc :=
  let c1 := sc_mul_shift_var k (sc_of_Z g1) 384 in
  let c2 := sc_mul_shift_var k (sc_of_Z g2) 384 in
  let c1 := sc_mul c1 (sc_of_Z minus_b1) in
  let c2 := sc_mul c2 (sc_of_Z minus_b2) in
  let r2 := sc_add c1 c2 in
  let r1 := sc_mul r2 const_lambda in
  let r1 := sc_negate r1 in
  let r1 := sc_add r1 k in
  (r1, r2).
