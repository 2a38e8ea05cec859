(** Model of the field arithmetic of 32-bit builds: ten limbs of 26 bits
    (src/field_10x26.h, src/field_10x26_impl.h), the representation used when the
    compiler has no 128-bit integer type.

    Limbs are uint32_t and wrap modulo 2^32; the accumulators of the multiplication
    are uint64_t and wrap modulo 2^64.  The C literals with suffix UL are taken as
    32-bit, as on a 32-bit platform.  C ints used as flags are modelled by [bool].
    The assembly version for ARM (USE_EXTERNAL_ASM) is not modelled. *)
Require Import ZArith List Bool.
From Verif Require Import Word Word32 Spec FieldModel.
Import ListNotations.
Local Open Scope Z_scope.
Local Open Scope c_scope.
Local Open Scope c32_scope.

(** src/field_10x26.h:14-34 (secp256k1_fe). *)
Record fe26 : Type := mkf26 { m0 : Z; m1 : Z; m2 : Z; m3 : Z; m4 : Z; m5 : Z; m6 : Z; m7 : Z; m8 : Z; m9 : Z }.

(** src/field_10x26.h:50-52 (secp256k1_fe_storage). *)
Record fes26 : Type := mks26 { q0 : Z; q1 : Z; q2 : Z; q3 : Z; q4 : Z; q5 : Z; q6 : Z; q7 : Z }.

Definition M26 : Z := 0x3FFFFFF.
Definition M22 : Z := 0x03FFFFF.
Definition RA26 : Z := 0x3D10.     (* R0 in field_10x26_impl.h:405 *)
Definition RB26 : Z := 0x400.      (* R1 in field_10x26_impl.h:405 *)

(** src/field_10x26_impl.h:401-729 secp256k1_fe_mul_inner; each [let] is one C assignment,
    [d_3] is the third value assigned to [d]. *)
Definition f26_mul_inner (a0 a1 a2 a3 a4 a5 a6 a7 a8 a9 b0 b1 b2 b3 b4 b5 b6 b7 b8 b9 : Z) : fe26 :=
  let! d_1 := (a0 *! b9) +! (a1 *! b8) +! (a2 *! b7) +! (a3 *! b6) +! (a4 *! b5) +! (a5 *! b4) +! (a6 *! b3) +! (a7 *! b2) +! (a8 *! b1) +! (a9 *! b0) in
  let! t9_1 := w32 (d_1 &! M26) in
  let! d_2 := d_1 >>! 26 in
  let! c_1 := (a0 *! b0) in
  let! d_3 := d_2 +! ((a1 *! b9) +! (a2 *! b8) +! (a3 *! b7) +! (a4 *! b6) +! (a5 *! b5) +! (a6 *! b4) +! (a7 *! b3) +! (a8 *! b2) +! (a9 *! b1)) in
  let! u0_1 := d_3 &! M26 in
  let! d_4 := d_3 >>! 26 in
  let! c_2 := c_1 +! (u0_1 *! RA26) in
  let! t0_1 := w32 (c_2 &! M26) in
  let! c_3 := c_2 >>! 26 in
  let! c_4 := c_3 +! (u0_1 *! RB26) in
  let! c_5 := c_4 +! ((a0 *! b1) +! (a1 *! b0)) in
  let! d_5 := d_4 +! ((a2 *! b9) +! (a3 *! b8) +! (a4 *! b7) +! (a5 *! b6) +! (a6 *! b5) +! (a7 *! b4) +! (a8 *! b3) +! (a9 *! b2)) in
  let! u1_1 := d_5 &! M26 in
  let! d_6 := d_5 >>! 26 in
  let! c_6 := c_5 +! (u1_1 *! RA26) in
  let! t1_1 := w32 (c_6 &! M26) in
  let! c_7 := c_6 >>! 26 in
  let! c_8 := c_7 +! (u1_1 *! RB26) in
  let! c_9 := c_8 +! ((a0 *! b2) +! (a1 *! b1) +! (a2 *! b0)) in
  let! d_7 := d_6 +! ((a3 *! b9) +! (a4 *! b8) +! (a5 *! b7) +! (a6 *! b6) +! (a7 *! b5) +! (a8 *! b4) +! (a9 *! b3)) in
  let! u2_1 := d_7 &! M26 in
  let! d_8 := d_7 >>! 26 in
  let! c_10 := c_9 +! (u2_1 *! RA26) in
  let! t2_1 := w32 (c_10 &! M26) in
  let! c_11 := c_10 >>! 26 in
  let! c_12 := c_11 +! (u2_1 *! RB26) in
  let! c_13 := c_12 +! ((a0 *! b3) +! (a1 *! b2) +! (a2 *! b1) +! (a3 *! b0)) in
  let! d_9 := d_8 +! ((a4 *! b9) +! (a5 *! b8) +! (a6 *! b7) +! (a7 *! b6) +! (a8 *! b5) +! (a9 *! b4)) in
  let! u3_1 := d_9 &! M26 in
  let! d_10 := d_9 >>! 26 in
  let! c_14 := c_13 +! (u3_1 *! RA26) in
  let! t3_1 := w32 (c_14 &! M26) in
  let! c_15 := c_14 >>! 26 in
  let! c_16 := c_15 +! (u3_1 *! RB26) in
  let! c_17 := c_16 +! ((a0 *! b4) +! (a1 *! b3) +! (a2 *! b2) +! (a3 *! b1) +! (a4 *! b0)) in
  let! d_11 := d_10 +! ((a5 *! b9) +! (a6 *! b8) +! (a7 *! b7) +! (a8 *! b6) +! (a9 *! b5)) in
  let! u4_1 := d_11 &! M26 in
  let! d_12 := d_11 >>! 26 in
  let! c_18 := c_17 +! (u4_1 *! RA26) in
  let! t4_1 := w32 (c_18 &! M26) in
  let! c_19 := c_18 >>! 26 in
  let! c_20 := c_19 +! (u4_1 *! RB26) in
  let! c_21 := c_20 +! ((a0 *! b5) +! (a1 *! b4) +! (a2 *! b3) +! (a3 *! b2) +! (a4 *! b1) +! (a5 *! b0)) in
  let! d_13 := d_12 +! ((a6 *! b9) +! (a7 *! b8) +! (a8 *! b7) +! (a9 *! b6)) in
  let! u5_1 := d_13 &! M26 in
  let! d_14 := d_13 >>! 26 in
  let! c_22 := c_21 +! (u5_1 *! RA26) in
  let! t5_1 := w32 (c_22 &! M26) in
  let! c_23 := c_22 >>! 26 in
  let! c_24 := c_23 +! (u5_1 *! RB26) in
  let! c_25 := c_24 +! ((a0 *! b6) +! (a1 *! b5) +! (a2 *! b4) +! (a3 *! b3) +! (a4 *! b2) +! (a5 *! b1) +! (a6 *! b0)) in
  let! d_15 := d_14 +! ((a7 *! b9) +! (a8 *! b8) +! (a9 *! b7)) in
  let! u6_1 := d_15 &! M26 in
  let! d_16 := d_15 >>! 26 in
  let! c_26 := c_25 +! (u6_1 *! RA26) in
  let! t6_1 := w32 (c_26 &! M26) in
  let! c_27 := c_26 >>! 26 in
  let! c_28 := c_27 +! (u6_1 *! RB26) in
  let! c_29 := c_28 +! ((a0 *! b7) +! (a1 *! b6) +! (a2 *! b5) +! (a3 *! b4) +! (a4 *! b3) +! (a5 *! b2) +! (a6 *! b1) +! (a7 *! b0)) in
  let! d_17 := d_16 +! ((a8 *! b9) +! (a9 *! b8)) in
  let! u7_1 := d_17 &! M26 in
  let! d_18 := d_17 >>! 26 in
  let! c_30 := c_29 +! (u7_1 *! RA26) in
  let! t7_1 := w32 (c_30 &! M26) in
  let! c_31 := c_30 >>! 26 in
  let! c_32 := c_31 +! (u7_1 *! RB26) in
  let! c_33 := c_32 +! ((a0 *! b8) +! (a1 *! b7) +! (a2 *! b6) +! (a3 *! b5) +! (a4 *! b4) +! (a5 *! b3) +! (a6 *! b2) +! (a7 *! b1) +! (a8 *! b0)) in
  let! d_19 := d_18 +! (a9 *! b9) in
  let! u8_1 := d_19 &! M26 in
  let! d_20 := d_19 >>! 26 in
  let! c_34 := c_33 +! (u8_1 *! RA26) in
  let! r8 := w32 (c_34 &! M26) in
  let! c_35 := c_34 >>! 26 in
  let! c_36 := c_35 +! (u8_1 *! RB26) in
  let! c_37 := c_36 +! ((d_20 *! RA26) +! t9_1) in
  let! r9 := w32 (c_37 &! (M26 >>! 4)) in
  let! c_38 := c_37 >>! 22 in
  let! c_39 := c_38 +! (d_20 *! (RB26 <<% 4)) in
  let! d_21 := (c_39 *! (RA26 >>! 4)) +! t0_1 in
  let! r0 := w32 (d_21 &! M26) in
  let! d_22 := d_21 >>! 26 in
  let! d_23 := d_22 +! ((c_39 *! (RB26 >>! 4)) +! t1_1) in
  let! r1 := w32 (d_23 &! M26) in
  let! d_24 := d_23 >>! 26 in
  let! d_25 := d_24 +! (t2_1) in
  let! r2 := w32 d_25 in
  mkf26 r0 r1 r2 t3_1 t4_1 t5_1 t6_1 t7_1 r8 r9.

(** src/field_10x26_impl.h:731-1003 secp256k1_fe_sqr_inner. *)
Definition f26_sqr_inner (a0 a1 a2 a3 a4 a5 a6 a7 a8 a9 : Z) : fe26 :=
  let! d_1 := ((a0 *% 2) *! a9) +! ((a1 *% 2) *! a8) +! ((a2 *% 2) *! a7) +! ((a3 *% 2) *! a6) +! ((a4 *% 2) *! a5) in
  let! t9_1 := w32 (d_1 &! M26) in
  let! d_2 := d_1 >>! 26 in
  let! c_1 := (a0 *! a0) in
  let! d_3 := d_2 +! (((a1 *% 2) *! a9) +! ((a2 *% 2) *! a8) +! ((a3 *% 2) *! a7) +! ((a4 *% 2) *! a6) +! (a5 *! a5)) in
  let! u0_1 := d_3 &! M26 in
  let! d_4 := d_3 >>! 26 in
  let! c_2 := c_1 +! (u0_1 *! RA26) in
  let! t0_1 := w32 (c_2 &! M26) in
  let! c_3 := c_2 >>! 26 in
  let! c_4 := c_3 +! (u0_1 *! RB26) in
  let! c_5 := c_4 +! ((a0 *% 2) *! a1) in
  let! d_5 := d_4 +! (((a2 *% 2) *! a9) +! ((a3 *% 2) *! a8) +! ((a4 *% 2) *! a7) +! ((a5 *% 2) *! a6)) in
  let! u1_1 := d_5 &! M26 in
  let! d_6 := d_5 >>! 26 in
  let! c_6 := c_5 +! (u1_1 *! RA26) in
  let! t1_1 := w32 (c_6 &! M26) in
  let! c_7 := c_6 >>! 26 in
  let! c_8 := c_7 +! (u1_1 *! RB26) in
  let! c_9 := c_8 +! (((a0 *% 2) *! a2) +! (a1 *! a1)) in
  let! d_7 := d_6 +! (((a3 *% 2) *! a9) +! ((a4 *% 2) *! a8) +! ((a5 *% 2) *! a7) +! (a6 *! a6)) in
  let! u2_1 := d_7 &! M26 in
  let! d_8 := d_7 >>! 26 in
  let! c_10 := c_9 +! (u2_1 *! RA26) in
  let! t2_1 := w32 (c_10 &! M26) in
  let! c_11 := c_10 >>! 26 in
  let! c_12 := c_11 +! (u2_1 *! RB26) in
  let! c_13 := c_12 +! (((a0 *% 2) *! a3) +! ((a1 *% 2) *! a2)) in
  let! d_9 := d_8 +! (((a4 *% 2) *! a9) +! ((a5 *% 2) *! a8) +! ((a6 *% 2) *! a7)) in
  let! u3_1 := d_9 &! M26 in
  let! d_10 := d_9 >>! 26 in
  let! c_14 := c_13 +! (u3_1 *! RA26) in
  let! t3_1 := w32 (c_14 &! M26) in
  let! c_15 := c_14 >>! 26 in
  let! c_16 := c_15 +! (u3_1 *! RB26) in
  let! c_17 := c_16 +! (((a0 *% 2) *! a4) +! ((a1 *% 2) *! a3) +! (a2 *! a2)) in
  let! d_11 := d_10 +! (((a5 *% 2) *! a9) +! ((a6 *% 2) *! a8) +! (a7 *! a7)) in
  let! u4_1 := d_11 &! M26 in
  let! d_12 := d_11 >>! 26 in
  let! c_18 := c_17 +! (u4_1 *! RA26) in
  let! t4_1 := w32 (c_18 &! M26) in
  let! c_19 := c_18 >>! 26 in
  let! c_20 := c_19 +! (u4_1 *! RB26) in
  let! c_21 := c_20 +! (((a0 *% 2) *! a5) +! ((a1 *% 2) *! a4) +! ((a2 *% 2) *! a3)) in
  let! d_13 := d_12 +! (((a6 *% 2) *! a9) +! ((a7 *% 2) *! a8)) in
  let! u5_1 := d_13 &! M26 in
  let! d_14 := d_13 >>! 26 in
  let! c_22 := c_21 +! (u5_1 *! RA26) in
  let! t5_1 := w32 (c_22 &! M26) in
  let! c_23 := c_22 >>! 26 in
  let! c_24 := c_23 +! (u5_1 *! RB26) in
  let! c_25 := c_24 +! (((a0 *% 2) *! a6) +! ((a1 *% 2) *! a5) +! ((a2 *% 2) *! a4) +! (a3 *! a3)) in
  let! d_15 := d_14 +! (((a7 *% 2) *! a9) +! (a8 *! a8)) in
  let! u6_1 := d_15 &! M26 in
  let! d_16 := d_15 >>! 26 in
  let! c_26 := c_25 +! (u6_1 *! RA26) in
  let! t6_1 := w32 (c_26 &! M26) in
  let! c_27 := c_26 >>! 26 in
  let! c_28 := c_27 +! (u6_1 *! RB26) in
  let! c_29 := c_28 +! (((a0 *% 2) *! a7) +! ((a1 *% 2) *! a6) +! ((a2 *% 2) *! a5) +! ((a3 *% 2) *! a4)) in
  let! d_17 := d_16 +! ((a8 *% 2) *! a9) in
  let! u7_1 := d_17 &! M26 in
  let! d_18 := d_17 >>! 26 in
  let! c_30 := c_29 +! (u7_1 *! RA26) in
  let! t7_1 := w32 (c_30 &! M26) in
  let! c_31 := c_30 >>! 26 in
  let! c_32 := c_31 +! (u7_1 *! RB26) in
  let! c_33 := c_32 +! (((a0 *% 2) *! a8) +! ((a1 *% 2) *! a7) +! ((a2 *% 2) *! a6) +! ((a3 *% 2) *! a5) +! (a4 *! a4)) in
  let! d_19 := d_18 +! (a9 *! a9) in
  let! u8_1 := d_19 &! M26 in
  let! d_20 := d_19 >>! 26 in
  let! c_34 := c_33 +! (u8_1 *! RA26) in
  let! r8 := w32 (c_34 &! M26) in
  let! c_35 := c_34 >>! 26 in
  let! c_36 := c_35 +! (u8_1 *! RB26) in
  let! c_37 := c_36 +! ((d_20 *! RA26) +! t9_1) in
  let! r9 := w32 (c_37 &! (M26 >>! 4)) in
  let! c_38 := c_37 >>! 22 in
  let! c_39 := c_38 +! (d_20 *! (RB26 <<% 4)) in
  let! d_21 := (c_39 *! (RA26 >>! 4)) +! t0_1 in
  let! r0 := w32 (d_21 &! M26) in
  let! d_22 := d_21 >>! 26 in
  let! d_23 := d_22 +! ((c_39 *! (RB26 >>! 4)) +! t1_1) in
  let! r1 := w32 (d_23 &! M26) in
  let! d_24 := d_23 >>! 26 in
  let! d_25 := d_24 +! (t2_1) in
  let! r2 := w32 d_25 in
  mkf26 r0 r1 r2 t3_1 t4_1 t5_1 t6_1 t7_1 r8 r9.

(** src/field_10x26_impl.h:1006-1008 secp256k1_fe_impl_mul, 1010-1012 secp256k1_fe_impl_sqr. *)
Definition f26_mul (a b : fe26) : fe26 :=
  f26_mul_inner (m0 a) (m1 a) (m2 a) (m3 a) (m4 a) (m5 a) (m6 a) (m7 a) (m8 a) (m9 a)
    (m0 b) (m1 b) (m2 b) (m3 b) (m4 b) (m5 b) (m6 b) (m7 b) (m8 b) (m9 b).
Definition f26_sqr (a : fe26) : fe26 :=
  f26_sqr_inner (m0 a) (m1 a) (m2 a) (m3 a) (m4 a) (m5 a) (m6 a) (m7 a) (m8 a) (m9 a).

(** Normalization.  Each assignment of a C variable gets a name of its own: a_i are the
    limbs with their carry, t_i the limbs after the first pass, k_i the running
    conjunction m, w the second x, e_i and v_i the limbs of the final reduction. *)
(** src/field_10x26_impl.h:53-100 secp256k1_fe_impl_normalize. *)
Definition f26_normalize (r : fe26) : fe26 :=
  let! x := m9 r >>! 22 in let! u9 := m9 r &! M22 in let! a0 := m0 r +% (x *% 0x3D1) in
  let! b1 := m1 r +% (x <<% 6) in let! a1 := b1 +% (a0 >>! 26) in let! t0 := a0 &! M26 in
  let! a2 := m2 r +% (a1 >>! 26) in let! t1 := a1 &! M26 in let! a3 := m3 r +% (a2 >>! 26) in
  let! t2 := a2 &! M26 in let! k2 := t2 in let! a4 := m4 r +% (a3 >>! 26) in let! t3 := a3 &! M26 in
  let! k3 := k2 &! t3 in let! a5 := m5 r +% (a4 >>! 26) in let! t4 := a4 &! M26 in
  let! k4 := k3 &! t4 in let! a6 := m6 r +% (a5 >>! 26) in let! t5 := a5 &! M26 in
  let! k5 := k4 &! t5 in let! a7 := m7 r +% (a6 >>! 26) in let! t6 := a6 &! M26 in
  let! k6 := k5 &! t6 in let! a8 := m8 r +% (a7 >>! 26) in let! t7 := a7 &! M26 in
  let! k7 := k6 &! t7 in let! t9 := u9 +% (a8 >>! 26) in let! t8 := a8 &! M26 in
  let! k8 := k7 &! t8 in
  let! w := (t9 >>! 22) |! (b2z (t9 =? M22) &! b2z (k8 =? M26)
              &! b2z ((t1 +% 0x40 +% ((t0 +% 0x3D1) >>! 26)) >? M26)) in
  let! e0 := t0 +% (w *% 0x3D1) in let! f1 := t1 +% (w <<% 6) in let! e1 := f1 +% (e0 >>! 26) in
  let! v0 := e0 &! M26 in let! e2 := t2 +% (e1 >>! 26) in let! v1 := e1 &! M26 in
  let! e3 := t3 +% (e2 >>! 26) in let! v2 := e2 &! M26 in let! e4 := t4 +% (e3 >>! 26) in
  let! v3 := e3 &! M26 in let! e5 := t5 +% (e4 >>! 26) in let! v4 := e4 &! M26 in
  let! e6 := t6 +% (e5 >>! 26) in let! v5 := e5 &! M26 in let! e7 := t7 +% (e6 >>! 26) in
  let! v6 := e6 &! M26 in let! e8 := t8 +% (e7 >>! 26) in let! v7 := e7 &! M26 in
  let! e9 := t9 +% (e8 >>! 26) in let! v8 := e8 &! M26 in let! v9 := e9 &! M22 in
  mkf26 v0 v1 v2 v3 v4 v5 v6 v7 v8 v9.

(** src/field_10x26_impl.h:102-126 secp256k1_fe_impl_normalize_weak. *)
Definition f26_normalize_weak (r : fe26) : fe26 :=
  let! x := m9 r >>! 22 in let! u9 := m9 r &! M22 in let! a0 := m0 r +% (x *% 0x3D1) in
  let! b1 := m1 r +% (x <<% 6) in let! a1 := b1 +% (a0 >>! 26) in let! t0 := a0 &! M26 in
  let! a2 := m2 r +% (a1 >>! 26) in let! t1 := a1 &! M26 in let! a3 := m3 r +% (a2 >>! 26) in
  let! t2 := a2 &! M26 in let! a4 := m4 r +% (a3 >>! 26) in let! t3 := a3 &! M26 in
  let! a5 := m5 r +% (a4 >>! 26) in let! t4 := a4 &! M26 in let! a6 := m6 r +% (a5 >>! 26) in
  let! t5 := a5 &! M26 in let! a7 := m7 r +% (a6 >>! 26) in let! t6 := a6 &! M26 in
  let! a8 := m8 r +% (a7 >>! 26) in let! t7 := a7 &! M26 in let! t9 := u9 +% (a8 >>! 26) in
  let! t8 := a8 &! M26 in mkf26 t0 t1 t2 t3 t4 t5 t6 t7 t8 t9.

(** src/field_10x26_impl.h:128-176 secp256k1_fe_impl_normalize_var. *)
Definition f26_normalize_var (r : fe26) : fe26 :=
  let! x := m9 r >>! 22 in let! u9 := m9 r &! M22 in let! a0 := m0 r +% (x *% 0x3D1) in
  let! b1 := m1 r +% (x <<% 6) in let! a1 := b1 +% (a0 >>! 26) in let! t0 := a0 &! M26 in
  let! a2 := m2 r +% (a1 >>! 26) in let! t1 := a1 &! M26 in let! a3 := m3 r +% (a2 >>! 26) in
  let! t2 := a2 &! M26 in let! k2 := t2 in let! a4 := m4 r +% (a3 >>! 26) in let! t3 := a3 &! M26 in
  let! k3 := k2 &! t3 in let! a5 := m5 r +% (a4 >>! 26) in let! t4 := a4 &! M26 in
  let! k4 := k3 &! t4 in let! a6 := m6 r +% (a5 >>! 26) in let! t5 := a5 &! M26 in
  let! k5 := k4 &! t5 in let! a7 := m7 r +% (a6 >>! 26) in let! t6 := a6 &! M26 in
  let! k6 := k5 &! t6 in let! a8 := m8 r +% (a7 >>! 26) in let! t7 := a7 &! M26 in
  let! k7 := k6 &! t7 in let! t9 := u9 +% (a8 >>! 26) in let! t8 := a8 &! M26 in
  let! k8 := k7 &! t8 in
  let! w := (t9 >>! 22) |! (b2z (t9 =? M22) &! b2z (k8 =? M26)
              &! b2z ((t1 +% 0x40 +% ((t0 +% 0x3D1) >>! 26)) >? M26)) in
  if w =? 0 then mkf26 t0 t1 t2 t3 t4 t5 t6 t7 t8 t9
  else
    let! e0 := t0 +% 0x3D1 in let! f1 := t1 +% (w <<% 6) in let! e1 := f1 +% (e0 >>! 26) in
    let! v0 := e0 &! M26 in let! e2 := t2 +% (e1 >>! 26) in let! v1 := e1 &! M26 in
    let! e3 := t3 +% (e2 >>! 26) in let! v2 := e2 &! M26 in let! e4 := t4 +% (e3 >>! 26) in
    let! v3 := e3 &! M26 in let! e5 := t5 +% (e4 >>! 26) in let! v4 := e4 &! M26 in
    let! e6 := t6 +% (e5 >>! 26) in let! v5 := e5 &! M26 in let! e7 := t7 +% (e6 >>! 26) in
    let! v6 := e6 &! M26 in let! e8 := t8 +% (e7 >>! 26) in let! v7 := e7 &! M26 in
    let! e9 := t9 +% (e8 >>! 26) in let! v8 := e8 &! M26 in let! v9 := e9 &! M22 in
    mkf26 v0 v1 v2 v3 v4 v5 v6 v7 v8 v9.

(** src/field_10x26_impl.h:178-205 secp256k1_fe_impl_normalizes_to_zero; y_i and z_i are
    the successive values of z0 and z1. *)
Definition f26_normalizes_to_zero (r : fe26) : bool :=
  let! x := m9 r >>! 22 in let! u9 := m9 r &! M22 in let! a0 := m0 r +% (x *% 0x3D1) in
  let! b1 := m1 r +% (x <<% 6) in let! a1 := b1 +% (a0 >>! 26) in let! t0 := a0 &! M26 in
  let! y0 := t0 in let! z0 := t0 ^! 0x3D0 in let! a2 := m2 r +% (a1 >>! 26) in
  let! t1 := a1 &! M26 in let! y1 := y0 |! t1 in let! z1 := z0 &! (t1 ^! 0x40) in
  let! a3 := m3 r +% (a2 >>! 26) in let! t2 := a2 &! M26 in let! y2 := y1 |! t2 in
  let! z2 := z1 &! t2 in let! a4 := m4 r +% (a3 >>! 26) in let! t3 := a3 &! M26 in
  let! y3 := y2 |! t3 in let! z3 := z2 &! t3 in let! a5 := m5 r +% (a4 >>! 26) in
  let! t4 := a4 &! M26 in let! y4 := y3 |! t4 in let! z4 := z3 &! t4 in
  let! a6 := m6 r +% (a5 >>! 26) in let! t5 := a5 &! M26 in let! y5 := y4 |! t5 in
  let! z5 := z4 &! t5 in let! a7 := m7 r +% (a6 >>! 26) in let! t6 := a6 &! M26 in
  let! y6 := y5 |! t6 in let! z6 := z5 &! t6 in let! a8 := m8 r +% (a7 >>! 26) in
  let! t7 := a7 &! M26 in let! y7 := y6 |! t7 in let! z7 := z6 &! t7 in
  let! t9 := u9 +% (a8 >>! 26) in let! t8 := a8 &! M26 in let! y8 := y7 |! t8 in
  let! z8 := z7 &! t8 in let! y9 := y8 |! t9 in let! z9 := z8 &! (t9 ^! 0x3C00000) in
  (y9 =? 0) || (z9 =? M26).

(** src/field_10x26_impl.h:207-257 secp256k1_fe_impl_normalizes_to_zero_var. *)
Definition f26_normalizes_to_zero_var (r : fe26) : bool :=
  let! x := m9 r >>! 22 in let! a0 := m0 r +% (x *% 0x3D1) in
  let! y0 := a0 &! M26 in let! z0 := y0 ^! 0x3D0 in
  if negb (y0 =? 0) && negb (z0 =? M26) then false
  else
    let! u9 := m9 r &! M22 in let! b1 := m1 r +% (x <<% 6) in let! a1 := b1 +% (a0 >>! 26) in
    let! a2 := m2 r +% (a1 >>! 26) in let! t1 := a1 &! M26 in let! y1 := y0 |! t1 in
    let! z1 := z0 &! (t1 ^! 0x40) in let! a3 := m3 r +% (a2 >>! 26) in let! t2 := a2 &! M26 in
    let! y2 := y1 |! t2 in let! z2 := z1 &! t2 in let! a4 := m4 r +% (a3 >>! 26) in
    let! t3 := a3 &! M26 in let! y3 := y2 |! t3 in let! z3 := z2 &! t3 in
    let! a5 := m5 r +% (a4 >>! 26) in let! t4 := a4 &! M26 in let! y4 := y3 |! t4 in
    let! z4 := z3 &! t4 in let! a6 := m6 r +% (a5 >>! 26) in let! t5 := a5 &! M26 in
    let! y5 := y4 |! t5 in let! z5 := z4 &! t5 in let! a7 := m7 r +% (a6 >>! 26) in
    let! t6 := a6 &! M26 in let! y6 := y5 |! t6 in let! z6 := z5 &! t6 in
    let! a8 := m8 r +% (a7 >>! 26) in let! t7 := a7 &! M26 in let! y7 := y6 |! t7 in
    let! z7 := z6 &! t7 in let! t9 := u9 +% (a8 >>! 26) in let! t8 := a8 &! M26 in
    let! y8 := y7 |! t8 in let! z8 := z7 &! t8 in let! y9 := y8 |! t9 in
    let! z9 := z8 &! (t9 ^! 0x3C00000) in (y9 =? 0) || (z9 =? M26).

(** src/field_10x26_impl.h:259-262 secp256k1_fe_impl_set_int (0 <= a <= 0x7FFF). *)
Definition f26_set_int (a : Z) : fe26 := mkf26 a 0 0 0 0 0 0 0 0 0.

(** src/field_10x26_impl.h:264-267 secp256k1_fe_impl_is_zero. *)
Definition f26_is_zero (a : fe26) : bool :=
  (m0 a |! m1 a |! m2 a |! m3 a |! m4 a |! m5 a |! m6 a |! m7 a |! m8 a |! m9 a) =? 0.

(** src/field_10x26_impl.h:269-271 secp256k1_fe_impl_is_odd. *)
Definition f26_is_odd (a : fe26) : bool := negb ((m0 a &! 1) =? 0).

(** src/field_10x26_impl.h:273-284 secp256k1_fe_impl_cmp_var: limbs from the top. *)
Definition f26_cmp_var (a b : fe26) : Z :=
  limbs_cmp [m9 a; m8 a; m7 a; m6 a; m5 a; m4 a; m3 a; m2 a; m1 a; m0 a]
            [m9 b; m8 b; m7 b; m6 b; m5 b; m4 b; m3 b; m2 b; m1 b; m0 b].

(** src/field_10x26_impl.h:286-297 secp256k1_fe_impl_set_b32_mod. *)
Definition f26_set_b32_mod (a : list Z) : fe26 :=
  mkf26
    (byte_at a 31 |! (byte_at a 30 <<% 8) |! (byte_at a 29 <<% 16) |! ((byte_at a 28 &! 0x3) <<% 24))
    (((byte_at a 28 >>! 2) &! 0x3f) |! (byte_at a 27 <<% 6) |! (byte_at a 26 <<% 14) |! ((byte_at a 25 &! 0xf) <<% 22))
    (((byte_at a 25 >>! 4) &! 0xf) |! (byte_at a 24 <<% 4) |! (byte_at a 23 <<% 12) |! ((byte_at a 22 &! 0x3f) <<% 20))
    (((byte_at a 22 >>! 6) &! 0x3) |! (byte_at a 21 <<% 2) |! (byte_at a 20 <<% 10) |! (byte_at a 19 <<% 18))
    (byte_at a 18 |! (byte_at a 17 <<% 8) |! (byte_at a 16 <<% 16) |! ((byte_at a 15 &! 0x3) <<% 24))
    (((byte_at a 15 >>! 2) &! 0x3f) |! (byte_at a 14 <<% 6) |! (byte_at a 13 <<% 14) |! ((byte_at a 12 &! 0xf) <<% 22))
    (((byte_at a 12 >>! 4) &! 0xf) |! (byte_at a 11 <<% 4) |! (byte_at a 10 <<% 12) |! ((byte_at a 9 &! 0x3f) <<% 20))
    (((byte_at a 9 >>! 6) &! 0x3) |! (byte_at a 8 <<% 2) |! (byte_at a 7 <<% 10) |! (byte_at a 6 <<% 18))
    (byte_at a 5 |! (byte_at a 4 <<% 8) |! (byte_at a 3 <<% 16) |! ((byte_at a 2 &! 0x3) <<% 24))
    (((byte_at a 2 >>! 2) &! 0x3f) |! (byte_at a 1 <<% 6) |! (byte_at a 0 <<% 14)).

(** src/field_10x26_impl.h:299-302 secp256k1_fe_impl_set_b32_limit: the element and
    whether it was below p. *)
Definition f26_set_b32_limit (a : list Z) : bool * fe26 :=
  let r := f26_set_b32_mod a in
  (negb ((m9 r =? M22) && ((m8 r &! m7 r &! m6 r &! m5 r &! m4 r &! m3 r &! m2 r) =? M26)
         && ((m1 r +% 0x40 +% ((m0 r +% 0x3D1) >>! 26)) >? M26)), r).

(** src/field_10x26_impl.h:305-338 secp256k1_fe_impl_get_b32. *)
Definition f26_get_b32 (a : fe26) : list Z :=
  [
   (m9 a >>! 14) &! 0xff;
   (m9 a >>! 6) &! 0xff;
   ((m9 a &! 0x3F) <<% 2) |! ((m8 a >>! 24) &! 0x3);
   (m8 a >>! 16) &! 0xff;
   (m8 a >>! 8) &! 0xff;
   m8 a &! 0xff;
   (m7 a >>! 18) &! 0xff;
   (m7 a >>! 10) &! 0xff;
   (m7 a >>! 2) &! 0xff;
   ((m7 a &! 0x3) <<% 6) |! ((m6 a >>! 20) &! 0x3f);
   (m6 a >>! 12) &! 0xff;
   (m6 a >>! 4) &! 0xff;
   ((m6 a &! 0xf) <<% 4) |! ((m5 a >>! 22) &! 0xf);
   (m5 a >>! 14) &! 0xff;
   (m5 a >>! 6) &! 0xff;
   ((m5 a &! 0x3f) <<% 2) |! ((m4 a >>! 24) &! 0x3);
   (m4 a >>! 16) &! 0xff;
   (m4 a >>! 8) &! 0xff;
   m4 a &! 0xff;
   (m3 a >>! 18) &! 0xff;
   (m3 a >>! 10) &! 0xff;
   (m3 a >>! 2) &! 0xff;
   ((m3 a &! 0x3) <<% 6) |! ((m2 a >>! 20) &! 0x3f);
   (m2 a >>! 12) &! 0xff;
   (m2 a >>! 4) &! 0xff;
   ((m2 a &! 0xf) <<% 4) |! ((m1 a >>! 22) &! 0xf);
   (m1 a >>! 14) &! 0xff;
   (m1 a >>! 6) &! 0xff;
   ((m1 a &! 0x3f) <<% 2) |! ((m0 a >>! 24) &! 0x3);
   (m0 a >>! 16) &! 0xff;
   (m0 a >>! 8) &! 0xff;
   m0 a &! 0xff].

(** src/field_10x26_impl.h:340-359 secp256k1_fe_impl_negate_unchecked. *)
Definition f26_negate (a : fe26) (m : Z) : fe26 :=
  mkf26
    ((0x3FFFC2F *% 2 *% (m + 1)) -% m0 a)
    ((0x3FFFFBF *% 2 *% (m + 1)) -% m1 a)
    ((M26 *% 2 *% (m + 1)) -% m2 a)
    ((M26 *% 2 *% (m + 1)) -% m3 a)
    ((M26 *% 2 *% (m + 1)) -% m4 a)
    ((M26 *% 2 *% (m + 1)) -% m5 a)
    ((M26 *% 2 *% (m + 1)) -% m6 a)
    ((M26 *% 2 *% (m + 1)) -% m7 a)
    ((M26 *% 2 *% (m + 1)) -% m8 a)
    ((M22 *% 2 *% (m + 1)) -% m9 a).

(** src/field_10x26_impl.h:361-372 secp256k1_fe_impl_mul_int_unchecked. *)
Definition f26_mul_int (r : fe26) (a : Z) : fe26 :=
  mkf26 (m0 r *% a) (m1 r *% a) (m2 r *% a) (m3 r *% a) (m4 r *% a) (m5 r *% a) (m6 r *% a) (m7 r *% a) (m8 r *% a) (m9 r *% a).

(** src/field_10x26_impl.h:374-385 secp256k1_fe_impl_add. *)
Definition f26_add (r a : fe26) : fe26 :=
  mkf26 (m0 r +% m0 a) (m1 r +% m1 a) (m2 r +% m2 a) (m3 r +% m3 a) (m4 r +% m4 a) (m5 r +% m5 a) (m6 r +% m6 a) (m7 r +% m7 a) (m8 r +% m8 a) (m9 r +% m9 a).

(** src/field_10x26_impl.h:387-389 secp256k1_fe_impl_add_int. *)
Definition f26_add_int (r : fe26) (a : Z) : fe26 :=
  mkf26 (m0 r +% a) (m1 r) (m2 r) (m3 r) (m4 r) (m5 r) (m6 r) (m7 r) (m8 r) (m9 r).

(** src/field_10x26_impl.h:1014-1030 secp256k1_fe_impl_cmov (flag is 0 or 1). *)
Definition f26_cmov (r a : fe26) (flag : Z) : fe26 :=
  mkf26 (cmov32 (m0 r) (m0 a) flag) (cmov32 (m1 r) (m1 a) flag) (cmov32 (m2 r) (m2 a) flag) (cmov32 (m3 r) (m3 a) flag) (cmov32 (m4 r) (m4 a) flag) (cmov32 (m5 r) (m5 a) flag) (cmov32 (m6 r) (m6 a) flag) (cmov32 (m7 r) (m7 a) flag) (cmov32 (m8 r) (m8 a) flag) (cmov32 (m9 r) (m9 a) flag).

(** src/field_10x26_impl.h:1032-1095 secp256k1_fe_impl_half. *)
Definition f26_half (r : fe26) : fe26 :=
  let mask := w32 (- (m0 r &! 1)) >>! 6 in
  let t0 := m0 r +% (0x3FFFC2F &! mask) in
  let t1 := m1 r +% (0x3FFFFBF &! mask) in
  let t2 := m2 r +% mask in
  let t3 := m3 r +% mask in
  let t4 := m4 r +% mask in
  let t5 := m5 r +% mask in
  let t6 := m6 r +% mask in
  let t7 := m7 r +% mask in
  let t8 := m8 r +% mask in
  let t9 := m9 r +% (mask >>! 4) in
  mkf26
    ((t0 >>! 1) +% ((t1 &! 1) <<% 25))
    ((t1 >>! 1) +% ((t2 &! 1) <<% 25))
    ((t2 >>! 1) +% ((t3 &! 1) <<% 25))
    ((t3 >>! 1) +% ((t4 &! 1) <<% 25))
    ((t4 >>! 1) +% ((t5 &! 1) <<% 25))
    ((t5 >>! 1) +% ((t6 &! 1) <<% 25))
    ((t6 >>! 1) +% ((t7 &! 1) <<% 25))
    ((t7 >>! 1) +% ((t8 &! 1) <<% 25))
    ((t8 >>! 1) +% ((t9 &! 1) <<% 25))
    (t9 >>! 1).

(** src/field_10x26_impl.h:1097-1111 secp256k1_fe_storage_cmov. *)
Definition f26_storage_cmov (r a : fes26) (flag : Z) : fes26 :=
  mks26 (cmov32 (q0 r) (q0 a) flag) (cmov32 (q1 r) (q1 a) flag) (cmov32 (q2 r) (q2 a) flag) (cmov32 (q3 r) (q3 a) flag) (cmov32 (q4 r) (q4 a) flag) (cmov32 (q5 r) (q5 a) flag) (cmov32 (q6 r) (q6 a) flag) (cmov32 (q7 r) (q7 a) flag).

(** src/field_10x26_impl.h:1113-1122 secp256k1_fe_impl_to_storage. *)
Definition f26_to_storage (a : fe26) : fes26 :=
  mks26 (m0 a |! (m1 a <<% 26))
        ((m1 a >>! 6) |! (m2 a <<% 20))
        ((m2 a >>! 12) |! (m3 a <<% 14))
        ((m3 a >>! 18) |! (m4 a <<% 8))
        ((m4 a >>! 24) |! (m5 a <<% 2) |! (m6 a <<% 28))
        ((m6 a >>! 4) |! (m7 a <<% 22))
        ((m7 a >>! 10) |! (m8 a <<% 16))
        ((m8 a >>! 16) |! (m9 a <<% 10)).

(** src/field_10x26_impl.h:1124-1135 secp256k1_fe_impl_from_storage. *)
Definition f26_from_storage (a : fes26) : fe26 :=
  mkf26 (q0 a &! M26)
        ((q0 a >>! 26) |! ((q1 a <<% 6) &! M26))
        ((q1 a >>! 20) |! ((q2 a <<% 12) &! M26))
        ((q2 a >>! 14) |! ((q3 a <<% 18) &! M26))
        ((q3 a >>! 8) |! ((q4 a <<% 24) &! M26))
        ((q4 a >>! 2) &! M26)
        ((q4 a >>! 28) |! ((q5 a <<% 4) &! M26))
        ((q5 a >>! 22) |! ((q6 a <<% 10) &! M26))
        ((q6 a >>! 16) |! ((q7 a <<% 16) &! M26))
        (q7 a >>! 10).

(** src/field_impl.h:25-35 secp256k1_fe_equal. *)
Definition f26_equal (a b : fe26) : bool :=
  f26_normalizes_to_zero (f26_add (f26_negate a 1) b).

(** The [for (j=0; j<k; j++) secp256k1_fe_sqr(&x, &x)] loops of fe_sqrt. *)
Fixpoint f26_sqr_n (k : nat) (x : fe26) : fe26 :=
  match k with O => x | S k' => f26_sqr_n k' (f26_sqr x) end.

(** src/field_impl.h:37-146 secp256k1_fe_sqrt: whether [a] is a square, and the
    candidate root. *)
Definition f26_sqrt (a : fe26) : bool * fe26 :=
  let! x2 := f26_mul (f26_sqr a) a in
  let! x3 := f26_mul (f26_sqr x2) a in
  let! x6 := f26_mul (f26_sqr_n 3 x3) x3 in
  let! x9 := f26_mul (f26_sqr_n 3 x6) x3 in
  let! x11 := f26_mul (f26_sqr_n 2 x9) x2 in
  let! x22 := f26_mul (f26_sqr_n 11 x11) x11 in
  let! x44 := f26_mul (f26_sqr_n 22 x22) x22 in
  let! x88 := f26_mul (f26_sqr_n 44 x44) x44 in
  let! x176 := f26_mul (f26_sqr_n 88 x88) x88 in
  let! x220 := f26_mul (f26_sqr_n 44 x176) x44 in
  let! x223 := f26_mul (f26_sqr_n 3 x220) x3 in
  let! t1 := f26_mul (f26_sqr_n 23 x223) x22 in
  let! t2 := f26_mul (f26_sqr_n 6 t1) x2 in
  let! r := f26_sqr (f26_sqr t2) in
  (f26_equal (f26_sqr r) a, r).
