(** The 32-bit build: constants of the field and scalar layers, and its inversion functions as
    total functions. *)
Require Import ZArith List Bool.
From Verif Require Import Word Word32 Spec ScalarModel Field32Model Scalar32Model Modinv32Model.
Import ListNotations.
Local Open Scope Z_scope.
Local Open Scope c_scope.

(** src/field_10x26.h:37-48 SECP256K1_FE_CONST_INNER (and src/field.h:66-66 SECP256K1_FE_CONST): a
    constant given by its eight 32-bit words, here the words of [v]. *)
Definition f26_const (d7 d6 d5 d4 d3 d2 d1 d0 : Z) : fe26 :=
  mkf26 (d0 &! 0x3FFFFFF)
        ((d0 >>! 26) |! w32 (Z.shiftl (d1 &! 0xFFFFF) 6))
        ((d1 >>! 20) |! w32 (Z.shiftl (d2 &! 0x3FFF) 12))
        ((d2 >>! 14) |! w32 (Z.shiftl (d3 &! 0xFF) 18))
        ((d3 >>! 8) |! w32 (Z.shiftl (d4 &! 0x3) 24))
        ((d4 >>! 2) &! 0x3FFFFFF)
        ((d4 >>! 28) |! w32 (Z.shiftl (d5 &! 0x3FFFFF) 4))
        ((d5 >>! 22) |! w32 (Z.shiftl (d6 &! 0xFFFF) 10))
        ((d6 >>! 16) |! w32 (Z.shiftl (d7 &! 0x3FF) 16))
        (d7 >>! 10).
Definition f26_of_Z (v : Z) : fe26 :=
  f26_const (v / 2 ^ 224) (v / 2 ^ 192 mod 2 ^ 32) (v / 2 ^ 160 mod 2 ^ 32) (v / 2 ^ 128 mod 2 ^ 32)
            (v / 2 ^ 96 mod 2 ^ 32) (v / 2 ^ 64 mod 2 ^ 32) (v / 2 ^ 32 mod 2 ^ 32) (v mod 2 ^ 32).
(** src/field.h:68-72 (secp256k1_fe_one and secp256k1_const_beta). *)
Definition f26_one : fe26 := f26_of_Z 1.
Definition const_beta_w32 : fe26 := f26_of_Z 0x7ae96a2b657c07106e64479eac3434e99cf0497512f58995c1396c28719501ee.
(** src/scalar_impl.h:27-28 (secp256k1_scalar_one and secp256k1_scalar_zero). *)
Definition s8_one : sc8 := s8_of_Z 1.
Definition s8_zero : sc8 := s8_of_Z 0.

(** The inversion and square test of Modinv32Model.v.  There [None] is undefined behaviour, which
    C56_field, C56_scalar and C56_square exclude; here the value is then 0 or false.  25 rounds
    are enough for the variable-time inversion (C56_field, C56_scalar); src/modinv32_impl.h:659-663
    JACOBI32_ITERATIONS is 50. *)
Definition f26_inv_w32 (x : fe26) : fe26 := match f26_inv x with Some r => r | None => f26_set_int 0 end.
Definition f26_inv_var_w32 (x : fe26) : fe26 := match f26_inv_var 25 x with Some r => r | None => f26_set_int 0 end.
Definition f26_is_square_w32 (x : fe26) : bool := match f26_is_square_var 50 x with Some b => b | None => false end.
Definition s8_inverse_w32 (x : sc8) : sc8 := match s8_inverse x with Some r => r | None => s8_set_int 0 end.
Definition s8_inverse_var_w32 (x : sc8) : sc8 := match s8_inverse_var 25 x with Some r => r | None => s8_set_int 0 end.
