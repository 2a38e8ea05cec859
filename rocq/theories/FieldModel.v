(** Model of the field arithmetic: 5x52-bit limbs with 128-bit products
    (src/field_5x52.h, src/field_5x52_impl.h, src/field_5x52_int128_impl.h,
    src/field_impl.h), the representation used on 64-bit platforms.

    Every limb operation wraps modulo 2^64 (or 2^128) as in C.  C ints used as
    flags are modelled by [bool]; in-place updates by returning the new value.
    The VERIFY-only fields [magnitude] and [normalized] are not stored: they
    appear as the predicates [fe_mag] and [fe_norm] of the proofs. *)
Require Import ZArith List Bool.
From Verif Require Import Word Spec.
Import ListNotations.
Local Open Scope Z_scope.
Local Open Scope c_scope.

(** src/field_5x52.h:15-37 (secp256k1_fe). *)
Record fe : Type := mkfe { n0 : Z; n1 : Z; n2 : Z; n3 : Z; n4 : Z }.

(** src/field_5x52.h:48-50 (secp256k1_fe_storage). *)
Record fe_storage : Type := mkfes { s0 : Z; s1 : Z; s2 : Z; s3 : Z }.

Definition M52 : Z := 2 ^ 52 - 1.        (* 0xFFFFFFFFFFFFF *)
Definition M48 : Z := 2 ^ 48 - 1.        (* 0x0FFFFFFFFFFFF *)
Definition P0 : Z := 0xFFFFEFFFFFC2F.    (* lowest limb of p *)
Definition RED : Z := 0x1000003D1.       (* 2^256 mod p *)
Definition R52 : Z := 0x1000003D10.      (* R in field_5x52_int128_impl.h:22 *)

(** The integer represented (src/field_5x52.h:16-18). *)
Definition fval (a : fe) : Z :=
  n0 a + n1 a * 2 ^ 52 + n2 a * 2 ^ 104 + n3 a * 2 ^ 156 + n4 a * 2 ^ 208.
Definition sval (a : fe_storage) : Z := s0 a + s1 a * 2 ^ 64 + s2 a * 2 ^ 128 + s3 a * 2 ^ 192.

(** src/int128_native_impl.h:6-25: 128-bit helpers. *)
Definition u128_mul (a b : Z) : Z := w128 (a * b).
Definition u128_accum_mul (r a b : Z) : Z := w128 (r + a * b).
Definition u128_accum_u64 (r a : Z) : Z := w128 (r + a).
Definition u128_to_u64 (a : Z) : Z := w64 a.
Definition u128_rshift (r k : Z) : Z := Z.shiftr r k.

(** src/field_5x52_int128_impl.h:18-152 secp256k1_fe_mul_inner; each [let] is one C
    statement, [d_3] is the third value assigned to [d]. *)
Definition fe_mul_inner (a0 a1 a2 a3 a4 b0 b1 b2 b3 b4 : Z) : fe :=
  let d_1 := u128_mul (a0) (b3) in
  let d_2 := u128_accum_mul d_1 (a1) (b2) in
  let d_3 := u128_accum_mul d_2 (a2) (b1) in
  let d_4 := u128_accum_mul d_3 (a3) (b0) in
  let c_1 := u128_mul (a4) (b4) in
  let d_5 := u128_accum_mul d_4 (R52) (u128_to_u64 c_1) in
  let c_2 := u128_rshift c_1 64 in
  let t3_1 := u128_to_u64 d_5 &! M52 in
  let d_6 := u128_rshift d_5 52 in
  let d_7 := u128_accum_mul d_6 (a0) (b4) in
  let d_8 := u128_accum_mul d_7 (a1) (b3) in
  let d_9 := u128_accum_mul d_8 (a2) (b2) in
  let d_10 := u128_accum_mul d_9 (a3) (b1) in
  let d_11 := u128_accum_mul d_10 (a4) (b0) in
  let d_12 := u128_accum_mul d_11 (R52 <<! 12) (u128_to_u64 c_2) in
  let t4_1 := u128_to_u64 d_12 &! M52 in
  let d_13 := u128_rshift d_12 52 in
  let tx_1 := t4_1 >>! 48 in
  let t4_2 := t4_1 &! (M52 >>! 4) in
  let c_3 := u128_mul (a0) (b0) in
  let d_14 := u128_accum_mul d_13 (a1) (b4) in
  let d_15 := u128_accum_mul d_14 (a2) (b3) in
  let d_16 := u128_accum_mul d_15 (a3) (b2) in
  let d_17 := u128_accum_mul d_16 (a4) (b1) in
  let u0_1 := u128_to_u64 d_17 &! M52 in
  let d_18 := u128_rshift d_17 52 in
  let u0_2 := (u0_1 <<! 4) |! tx_1 in
  let c_4 := u128_accum_mul c_3 (u0_2) (R52 >>! 4) in
  let r0 := u128_to_u64 c_4 &! M52 in
  let c_5 := u128_rshift c_4 52 in
  let c_6 := u128_accum_mul c_5 (a0) (b1) in
  let c_7 := u128_accum_mul c_6 (a1) (b0) in
  let d_19 := u128_accum_mul d_18 (a2) (b4) in
  let d_20 := u128_accum_mul d_19 (a3) (b3) in
  let d_21 := u128_accum_mul d_20 (a4) (b2) in
  let c_8 := u128_accum_mul c_7 (u128_to_u64 d_21 &! M52) (R52) in
  let d_22 := u128_rshift d_21 52 in
  let r1 := u128_to_u64 c_8 &! M52 in
  let c_9 := u128_rshift c_8 52 in
  let c_10 := u128_accum_mul c_9 (a0) (b2) in
  let c_11 := u128_accum_mul c_10 (a1) (b1) in
  let c_12 := u128_accum_mul c_11 (a2) (b0) in
  let d_23 := u128_accum_mul d_22 (a3) (b4) in
  let d_24 := u128_accum_mul d_23 (a4) (b3) in
  let c_13 := u128_accum_mul c_12 (R52) (u128_to_u64 d_24) in
  let d_25 := u128_rshift d_24 64 in
  let r2 := u128_to_u64 c_13 &! M52 in
  let c_14 := u128_rshift c_13 52 in
  let c_15 := u128_accum_mul c_14 (R52 <<! 12) (u128_to_u64 d_25) in
  let c_16 := u128_accum_u64 c_15 t3_1 in
  let r3 := u128_to_u64 c_16 &! M52 in
  let c_17 := u128_rshift c_16 52 in
  let r4 := u128_to_u64 c_17 +! t4_2 in
  mkfe r0 r1 r2 r3 r4.

(** src/field_5x52_int128_impl.h:154-272 secp256k1_fe_sqr_inner. *)
Definition fe_sqr_inner (a0 a1 a2 a3 a4 : Z) : fe :=
  let d_1 := u128_mul (a0 *! 2) (a3) in
  let d_2 := u128_accum_mul d_1 (a1 *! 2) (a2) in
  let c_1 := u128_mul (a4) (a4) in
  let d_3 := u128_accum_mul d_2 (R52) (u128_to_u64 c_1) in
  let c_2 := u128_rshift c_1 64 in
  let t3_1 := u128_to_u64 d_3 &! M52 in
  let d_4 := u128_rshift d_3 52 in
  let a4_1 := a4 *! 2 in
  let d_5 := u128_accum_mul d_4 (a0) (a4_1) in
  let d_6 := u128_accum_mul d_5 (a1 *! 2) (a3) in
  let d_7 := u128_accum_mul d_6 (a2) (a2) in
  let d_8 := u128_accum_mul d_7 (R52 <<! 12) (u128_to_u64 c_2) in
  let t4_1 := u128_to_u64 d_8 &! M52 in
  let d_9 := u128_rshift d_8 52 in
  let tx_1 := t4_1 >>! 48 in
  let t4_2 := t4_1 &! (M52 >>! 4) in
  let c_3 := u128_mul (a0) (a0) in
  let d_10 := u128_accum_mul d_9 (a1) (a4_1) in
  let d_11 := u128_accum_mul d_10 (a2 *! 2) (a3) in
  let u0_1 := u128_to_u64 d_11 &! M52 in
  let d_12 := u128_rshift d_11 52 in
  let u0_2 := (u0_1 <<! 4) |! tx_1 in
  let c_4 := u128_accum_mul c_3 (u0_2) (R52 >>! 4) in
  let r0 := u128_to_u64 c_4 &! M52 in
  let c_5 := u128_rshift c_4 52 in
  let a0_1 := a0 *! 2 in
  let c_6 := u128_accum_mul c_5 (a0_1) (a1) in
  let d_13 := u128_accum_mul d_12 (a2) (a4_1) in
  let d_14 := u128_accum_mul d_13 (a3) (a3) in
  let c_7 := u128_accum_mul c_6 (u128_to_u64 d_14 &! M52) (R52) in
  let d_15 := u128_rshift d_14 52 in
  let r1 := u128_to_u64 c_7 &! M52 in
  let c_8 := u128_rshift c_7 52 in
  let c_9 := u128_accum_mul c_8 (a0_1) (a2) in
  let c_10 := u128_accum_mul c_9 (a1) (a1) in
  let d_16 := u128_accum_mul d_15 (a3) (a4_1) in
  let c_11 := u128_accum_mul c_10 (R52) (u128_to_u64 d_16) in
  let d_17 := u128_rshift d_16 64 in
  let r2 := u128_to_u64 c_11 &! M52 in
  let c_12 := u128_rshift c_11 52 in
  let c_13 := u128_accum_mul c_12 (R52 <<! 12) (u128_to_u64 d_17) in
  let c_14 := u128_accum_u64 c_13 t3_1 in
  let r3 := u128_to_u64 c_14 &! M52 in
  let c_15 := u128_rshift c_14 52 in
  let r4 := u128_to_u64 c_15 +! t4_2 in
  mkfe r0 r1 r2 r3 r4.

(** src/field_5x52_impl.h:341-343 secp256k1_fe_impl_mul, 345-347 secp256k1_fe_impl_sqr. *)
Definition fe_mul (a b : fe) : fe :=
  fe_mul_inner (n0 a) (n1 a) (n2 a) (n3 a) (n4 a) (n0 b) (n1 b) (n2 b) (n3 b) (n4 b).
Definition fe_sqr (a : fe) : fe :=
  fe_sqr_inner (n0 a) (n1 a) (n2 a) (n3 a) (n4 a).

(** src/field_5x52_impl.h:43-78 secp256k1_fe_impl_normalize. *)
Definition fe_normalize (r : fe) : fe :=
  let x := n4 r >>! 48 in
  let t4 := n4 r &! M48 in
  let t0 := n0 r +! (x *! RED) in
  let t1 := n1 r +! (t0 >>! 52) in let t0 := t0 &! M52 in
  let t2 := n2 r +! (t1 >>! 52) in let t1 := t1 &! M52 in let m := t1 in
  let t3 := n3 r +! (t2 >>! 52) in let t2 := t2 &! M52 in let m := m &! t2 in
  let t4 := t4 +! (t3 >>! 52) in let t3 := t3 &! M52 in let m := m &! t3 in
  let x := (t4 >>! 48) |! (b2z (t4 =? M48) &! b2z (m =? M52) &! b2z (t0 >=? P0)) in
  let t0 := t0 +! (x *! RED) in
  let t1 := t1 +! (t0 >>! 52) in let t0 := t0 &! M52 in
  let t2 := t2 +! (t1 >>! 52) in let t1 := t1 &! M52 in
  let t3 := t3 +! (t2 >>! 52) in let t2 := t2 &! M52 in
  let t4 := t4 +! (t3 >>! 52) in let t3 := t3 &! M52 in
  let t4 := t4 &! M48 in
  mkfe t0 t1 t2 t3 t4.

(** src/field_5x52_impl.h:80-97 secp256k1_fe_impl_normalize_weak. *)
Definition fe_normalize_weak (r : fe) : fe :=
  let x := n4 r >>! 48 in
  let t4 := n4 r &! M48 in
  let t0 := n0 r +! (x *! RED) in
  let t1 := n1 r +! (t0 >>! 52) in let t0 := t0 &! M52 in
  let t2 := n2 r +! (t1 >>! 52) in let t1 := t1 &! M52 in
  let t3 := n3 r +! (t2 >>! 52) in let t2 := t2 &! M52 in
  let t4 := t4 +! (t3 >>! 52) in let t3 := t3 &! M52 in
  mkfe t0 t1 t2 t3 t4.

(** src/field_5x52_impl.h:99-135 secp256k1_fe_impl_normalize_var. *)
Definition fe_normalize_var (r : fe) : fe :=
  let x := n4 r >>! 48 in
  let t4 := n4 r &! M48 in
  let t0 := n0 r +! (x *! RED) in
  let t1 := n1 r +! (t0 >>! 52) in let t0 := t0 &! M52 in
  let t2 := n2 r +! (t1 >>! 52) in let t1 := t1 &! M52 in let m := t1 in
  let t3 := n3 r +! (t2 >>! 52) in let t2 := t2 &! M52 in let m := m &! t2 in
  let t4 := t4 +! (t3 >>! 52) in let t3 := t3 &! M52 in let m := m &! t3 in
  let x := (t4 >>! 48) |! (b2z (t4 =? M48) &! b2z (m =? M52) &! b2z (t0 >=? P0)) in
  if x =? 0 then mkfe t0 t1 t2 t3 t4
  else
    let t0 := t0 +! RED in
    let t1 := t1 +! (t0 >>! 52) in let t0 := t0 &! M52 in
    let t2 := t2 +! (t1 >>! 52) in let t1 := t1 &! M52 in
    let t3 := t3 +! (t2 >>! 52) in let t2 := t2 &! M52 in
    let t4 := t4 +! (t3 >>! 52) in let t3 := t3 &! M52 in
    let t4 := t4 &! M48 in
    mkfe t0 t1 t2 t3 t4.

(** src/field_5x52_impl.h:137-158 secp256k1_fe_impl_normalizes_to_zero. *)
Definition fe_normalizes_to_zero (r : fe) : bool :=
  let x := n4 r >>! 48 in
  let t4 := n4 r &! M48 in
  let t0 := n0 r +! (x *! RED) in
  let t1 := n1 r +! (t0 >>! 52) in let t0 := t0 &! M52 in
  let z0 := t0 in let z1 := t0 ^! 0x1000003D0 in
  let t2 := n2 r +! (t1 >>! 52) in let t1 := t1 &! M52 in
  let z0 := z0 |! t1 in let z1 := z1 &! t1 in
  let t3 := n3 r +! (t2 >>! 52) in let t2 := t2 &! M52 in
  let z0 := z0 |! t2 in let z1 := z1 &! t2 in
  let t4 := t4 +! (t3 >>! 52) in let t3 := t3 &! M52 in
  let z0 := z0 |! t3 in let z1 := z1 &! t3 in
  let z0 := z0 |! t4 in let z1 := z1 &! (t4 ^! 0xF000000000000) in
  (z0 =? 0) || (z1 =? M52).

(** src/field_5x52_impl.h:160-199 secp256k1_fe_impl_normalizes_to_zero_var. *)
Definition fe_normalizes_to_zero_var (r : fe) : bool :=
  let t0 := n0 r in
  let t4 := n4 r in
  let x := t4 >>! 48 in
  let t0 := t0 +! (x *! RED) in
  let z0 := t0 &! M52 in
  let z1 := z0 ^! 0x1000003D0 in
  if negb (z0 =? 0) && negb (z1 =? M52) then false
  else
    let t1 := n1 r in let t2 := n2 r in let t3 := n3 r in
    let t4 := t4 &! M48 in
    let t1 := t1 +! (t0 >>! 52) in
    let t2 := t2 +! (t1 >>! 52) in let t1 := t1 &! M52 in
    let z0 := z0 |! t1 in let z1 := z1 &! t1 in
    let t3 := t3 +! (t2 >>! 52) in let t2 := t2 &! M52 in
    let z0 := z0 |! t2 in let z1 := z1 &! t2 in
    let t4 := t4 +! (t3 >>! 52) in let t3 := t3 &! M52 in
    let z0 := z0 |! t3 in let z1 := z1 &! t3 in
    let z0 := z0 |! t4 in let z1 := z1 &! (t4 ^! 0xF000000000000) in
    (z0 =? 0) || (z1 =? M52).

(** src/field_5x52_impl.h:201-204 secp256k1_fe_impl_set_int (0 <= a <= 0x7FFF). *)
Definition fe_set_int (a : Z) : fe := mkfe a 0 0 0 0.

(** src/field_5x52_impl.h:206-209 secp256k1_fe_impl_is_zero. *)
Definition fe_is_zero (a : fe) : bool :=
  (n0 a |! n1 a |! n2 a |! n3 a |! n4 a) =? 0.

(** src/field_5x52_impl.h:211-213 secp256k1_fe_impl_is_odd. *)
Definition fe_is_odd (a : fe) : bool := negb ((n0 a &! 1) =? 0).

(** src/field_5x52_impl.h:215-226 secp256k1_fe_impl_cmp_var: limbs from the top. *)
Fixpoint limbs_cmp (l m : list Z) : Z :=
  match l, m with
  | x :: l', y :: m' => if x >? y then 1 else if x <? y then -1 else limbs_cmp l' m'
  | _, _ => 0
  end.
Definition fe_cmp_var (a b : fe) : Z :=
  limbs_cmp [n4 a; n3 a; n2 a; n1 a; n0 a] [n4 b; n3 b; n2 b; n1 b; n0 b].

(** src/field_5x52_impl.h:228-263 secp256k1_fe_impl_set_b32_mod. *)
Definition fe_set_b32_mod (a : list Z) : fe :=
  mkfe
    (byte_at a 31
     |! (byte_at a 30 <<! 8)
     |! (byte_at a 29 <<! 16)
     |! (byte_at a 28 <<! 24)
     |! (byte_at a 27 <<! 32)
     |! (byte_at a 26 <<! 40)
     |! ((byte_at a 25 &! 0xF) <<! 48))
    (((byte_at a 25 >>! 4) &! 0xF)
     |! (byte_at a 24 <<! 4)
     |! (byte_at a 23 <<! 12)
     |! (byte_at a 22 <<! 20)
     |! (byte_at a 21 <<! 28)
     |! (byte_at a 20 <<! 36)
     |! (byte_at a 19 <<! 44))
    (byte_at a 18
     |! (byte_at a 17 <<! 8)
     |! (byte_at a 16 <<! 16)
     |! (byte_at a 15 <<! 24)
     |! (byte_at a 14 <<! 32)
     |! (byte_at a 13 <<! 40)
     |! ((byte_at a 12 &! 0xF) <<! 48))
    (((byte_at a 12 >>! 4) &! 0xF)
     |! (byte_at a 11 <<! 4)
     |! (byte_at a 10 <<! 12)
     |! (byte_at a 9 <<! 20)
     |! (byte_at a 8 <<! 28)
     |! (byte_at a 7 <<! 36)
     |! (byte_at a 6 <<! 44))
    (byte_at a 5
     |! (byte_at a 4 <<! 8)
     |! (byte_at a 3 <<! 16)
     |! (byte_at a 2 <<! 24)
     |! (byte_at a 1 <<! 32)
     |! (byte_at a 0 <<! 40)).

(** src/field_5x52_impl.h:265-268 secp256k1_fe_impl_set_b32_limit: the element and
    whether it was below p. *)
Definition fe_set_b32_limit (a : list Z) : bool * fe :=
  let r := fe_set_b32_mod a in
  (negb ((n4 r =? M48) && ((n3 r &! n2 r &! n1 r) =? M52) && (n0 r >=? P0)), r).

(** src/field_5x52_impl.h:271-304 secp256k1_fe_impl_get_b32. *)
Definition fe_get_b32 (a : fe) : list Z :=
  [
   (n4 a >>! 40) &! 0xFF;
   (n4 a >>! 32) &! 0xFF;
   (n4 a >>! 24) &! 0xFF;
   (n4 a >>! 16) &! 0xFF;
   (n4 a >>! 8) &! 0xFF;
   n4 a &! 0xFF;
   (n3 a >>! 44) &! 0xFF;
   (n3 a >>! 36) &! 0xFF;
   (n3 a >>! 28) &! 0xFF;
   (n3 a >>! 20) &! 0xFF;
   (n3 a >>! 12) &! 0xFF;
   (n3 a >>! 4) &! 0xFF;
   ((n2 a >>! 48) &! 0xF) |! ((n3 a &! 0xF) <<! 4);
   (n2 a >>! 40) &! 0xFF;
   (n2 a >>! 32) &! 0xFF;
   (n2 a >>! 24) &! 0xFF;
   (n2 a >>! 16) &! 0xFF;
   (n2 a >>! 8) &! 0xFF;
   n2 a &! 0xFF;
   (n1 a >>! 44) &! 0xFF;
   (n1 a >>! 36) &! 0xFF;
   (n1 a >>! 28) &! 0xFF;
   (n1 a >>! 20) &! 0xFF;
   (n1 a >>! 12) &! 0xFF;
   (n1 a >>! 4) &! 0xFF;
   ((n0 a >>! 48) &! 0xF) |! ((n1 a &! 0xF) <<! 4);
   (n0 a >>! 40) &! 0xFF;
   (n0 a >>! 32) &! 0xFF;
   (n0 a >>! 24) &! 0xFF;
   (n0 a >>! 16) &! 0xFF;
   (n0 a >>! 8) &! 0xFF;
   n0 a &! 0xFF].

(** src/field_5x52_impl.h:306-319 secp256k1_fe_impl_negate_unchecked. *)
Definition fe_negate (a : fe) (m : Z) : fe :=
  mkfe ((P0 *! 2 *! (m + 1)) -! n0 a) ((M52 *! 2 *! (m + 1)) -! n1 a)
       ((M52 *! 2 *! (m + 1)) -! n2 a) ((M52 *! 2 *! (m + 1)) -! n3 a)
       ((M48 *! 2 *! (m + 1)) -! n4 a).

(** src/field_5x52_impl.h:321-327 secp256k1_fe_impl_mul_int_unchecked. *)
Definition fe_mul_int (r : fe) (a : Z) : fe :=
  mkfe (n0 r *! a) (n1 r *! a) (n2 r *! a) (n3 r *! a) (n4 r *! a).

(** src/field_5x52_impl.h:329-331 secp256k1_fe_impl_add_int. *)
Definition fe_add_int (r : fe) (a : Z) : fe :=
  mkfe (n0 r +! a) (n1 r) (n2 r) (n3 r) (n4 r).

(** src/field_5x52_impl.h:333-339 secp256k1_fe_impl_add. *)
Definition fe_add (r a : fe) : fe :=
  mkfe (n0 r +! n0 a) (n1 r +! n1 a) (n2 r +! n2 a) (n3 r +! n3 a) (n4 r +! n4 a).

(** src/field_5x52_impl.h:349-360 secp256k1_fe_impl_cmov (flag is 0 or 1). *)
Definition fe_cmov (r a : fe) (flag : Z) : fe :=
  mkfe (cmov64 (n0 r) (n0 a) flag) (cmov64 (n1 r) (n1 a) flag) (cmov64 (n2 r) (n2 a) flag)
       (cmov64 (n3 r) (n3 a) flag) (cmov64 (n4 r) (n4 a) flag).

(** src/field_5x52_impl.h:362-414 secp256k1_fe_impl_half. *)
Definition fe_half (r : fe) : fe :=
  let mask := w64 (- (n0 r &! 1)) >>! 12 in
  let t0 := n0 r +! (P0 &! mask) in
  let t1 := n1 r +! mask in
  let t2 := n2 r +! mask in
  let t3 := n3 r +! mask in
  let t4 := n4 r +! (mask >>! 4) in
  mkfe ((t0 >>! 1) +! ((t1 &! 1) <<! 51))
       ((t1 >>! 1) +! ((t2 &! 1) <<! 51))
       ((t2 >>! 1) +! ((t3 &! 1) <<! 51))
       ((t3 >>! 1) +! ((t4 &! 1) <<! 51))
       (t4 >>! 1).

(** src/field_5x52_impl.h:416-426 secp256k1_fe_storage_cmov. *)
Definition fe_storage_cmov (r a : fe_storage) (flag : Z) : fe_storage :=
  mkfes (cmov64 (s0 r) (s0 a) flag) (cmov64 (s1 r) (s1 a) flag)
        (cmov64 (s2 r) (s2 a) flag) (cmov64 (s3 r) (s3 a) flag).

(** src/field_5x52_impl.h:428-433 secp256k1_fe_impl_to_storage. *)
Definition fe_to_storage (a : fe) : fe_storage :=
  mkfes (n0 a |! (n1 a <<! 52)) ((n1 a >>! 12) |! (n2 a <<! 40))
        ((n2 a >>! 24) |! (n3 a <<! 28)) ((n3 a >>! 36) |! (n4 a <<! 16)).

(** src/field_5x52_impl.h:435-441 secp256k1_fe_impl_from_storage. *)
Definition fe_from_storage (a : fe_storage) : fe :=
  mkfe (s0 a &! M52)
       ((s0 a >>! 52) |! ((s1 a <<! 12) &! M52))
       ((s1 a >>! 40) |! ((s2 a <<! 24) &! M52))
       ((s2 a >>! 28) |! ((s3 a <<! 36) &! M52))
       (s3 a >>! 16).

(** The normalized limbs of an integer in [0, p); field_5x52.h:40-46
    SECP256K1_FE_CONST_INNER, used for constants. *)
Definition fe_of_Z (v : Z) : fe :=
  mkfe (v mod 2 ^ 52) (v / 2 ^ 52 mod 2 ^ 52) (v / 2 ^ 104 mod 2 ^ 52)
       (v / 2 ^ 156 mod 2 ^ 52) (v / 2 ^ 208).

(** src/field_5x52_impl.h:479-487 secp256k1_fe_impl_inv and secp256k1_fe_impl_inv_var.
    SIMPLIFICATION: the divstep computation (modinv64_impl.h) is replaced by the
    modular inverse itself (the inverse of 0 being 0); the result is normalized.
    The divstep code is modelled in ModinvModel.v and proved equal to this (C41_field). *)
Definition fe_inv (x : fe) : fe := fe_of_Z (inv_mod (fval (fe_normalize x)) p).
Definition fe_inv_var (x : fe) : fe := fe_of_Z (inv_mod (fval (fe_normalize_var x)) p).

(** src/field_impl.h:25-35 secp256k1_fe_equal. *)
Definition fe_equal (a b : fe) : bool :=
  fe_normalizes_to_zero (fe_add (fe_negate a 1) b).

(** The [for (j=0; j<k; j++) secp256k1_fe_sqr(&x, &x)] loops of fe_sqrt. *)
Fixpoint fe_sqr_n (k : nat) (x : fe) : fe :=
  match k with O => x | S k' => fe_sqr_n k' (fe_sqr x) end.

(** src/field_impl.h:37-146 secp256k1_fe_sqrt: whether [a] is a square, and the
    candidate root. *)
Definition fe_sqrt (a : fe) : bool * fe :=
  let x2 := fe_mul (fe_sqr a) a in
  let x3 := fe_mul (fe_sqr x2) a in
  let x6 := fe_mul (fe_sqr_n 3 x3) x3 in
  let x9 := fe_mul (fe_sqr_n 3 x6) x3 in
  let x11 := fe_mul (fe_sqr_n 2 x9) x2 in
  let x22 := fe_mul (fe_sqr_n 11 x11) x11 in
  let x44 := fe_mul (fe_sqr_n 22 x22) x22 in
  let x88 := fe_mul (fe_sqr_n 44 x44) x44 in
  let x176 := fe_mul (fe_sqr_n 88 x88) x88 in
  let x220 := fe_mul (fe_sqr_n 44 x176) x44 in
  let x223 := fe_mul (fe_sqr_n 3 x220) x3 in
  let t1 := fe_mul (fe_sqr_n 23 x223) x22 in
  let t1 := fe_mul (fe_sqr_n 6 t1) x2 in
  let r := fe_sqr (fe_sqr t1) in
  (fe_equal (fe_sqr r) a, r).

(** src/field_5x52_impl.h:499-520 secp256k1_fe_impl_is_square_var.
    The fallback of the code, the square root, is taken always.  JacobiModel.v
    models the function with its Jacobi symbol computation; theorem C53_square
    (Props_Jacobi.v) shows that both give the same result. *)
Definition fe_is_square_var (x : fe) : bool :=
  let tmp := fe_normalize_var x in
  if fe_is_zero tmp then true else fst (fe_sqrt tmp).

(** src/field.h:68-72 (secp256k1_fe_one and secp256k1_const_beta). *)
Definition fe_one : fe := fe_of_Z 1.
Definition const_beta : fe :=
  fe_of_Z 0x7ae96a2b657c07106e64479eac3434e99cf0497512f58995c1396c28719501ee.
