(** What the limb-level objects of the 32-bit build stand for.  The definitions only
    mention the layout of the objects and plain integers; they are the vocabulary of
    Props_Field32. *)
Require Import ZArith List.
From Verif Require Import Spec Bytes FieldModel Field32Model.
Import ListNotations.
Local Open Scope Z_scope.

(** src/field_10x26.h:14-17: a field element is the integer  sum of n[i] * 2^(26 i)  modulo p. *)
Definition fe26_int (a : fe26) : Z :=
  m0 a + 2 ^ 26 * m1 a + 2 ^ 52 * m2 a + 2 ^ 78 * m3 a + 2 ^ 104 * m4 a +
  2 ^ 130 * m5 a + 2 ^ 156 * m6 a + 2 ^ 182 * m7 a + 2 ^ 208 * m8 a + 2 ^ 234 * m9 a.
(** src/field_10x26.h:24-27: magnitude m means n[0..8] <= 2 m (2^26 - 1) and n[9] <= 2 m (2^22 - 1). *)
Definition magnitude26 (m : Z) (a : fe26) : Prop :=
  (0 <= m0 a <= 2 * m * (2 ^ 26 - 1)) /\ (0 <= m1 a <= 2 * m * (2 ^ 26 - 1)) /\ (0 <= m2 a <= 2 * m * (2 ^ 26 - 1)) /\
  (0 <= m3 a <= 2 * m * (2 ^ 26 - 1)) /\ (0 <= m4 a <= 2 * m * (2 ^ 26 - 1)) /\ (0 <= m5 a <= 2 * m * (2 ^ 26 - 1)) /\
  (0 <= m6 a <= 2 * m * (2 ^ 26 - 1)) /\ (0 <= m7 a <= 2 * m * (2 ^ 26 - 1)) /\ (0 <= m8 a <= 2 * m * (2 ^ 26 - 1)) /\
  (0 <= m9 a <= 2 * m * (2 ^ 22 - 1)).
(** src/field_10x26.h:29-33: normalized means the limbs do not overlap and the integer is below p. *)
Definition normalized26 (a : fe26) : Prop :=
  (0 <= m0 a < 2 ^ 26) /\ (0 <= m1 a < 2 ^ 26) /\ (0 <= m2 a < 2 ^ 26) /\ (0 <= m3 a < 2 ^ 26) /\ (0 <= m4 a < 2 ^ 26) /\
  (0 <= m5 a < 2 ^ 26) /\ (0 <= m6 a < 2 ^ 26) /\ (0 <= m7 a < 2 ^ 26) /\ (0 <= m8 a < 2 ^ 26) /\ (0 <= m9 a < 2 ^ 22) /\
  fe26_int a < p.
(** The residue a field element stands for. *)
Definition fe26_res (a : fe26) : Z := fe26_int a mod p.
(** src/field_10x26.h:50-52: the storage form is eight 32-bit words, least significant first. *)
Definition storage26_int (s : fes26) : Z :=
  q0 s + 2 ^ 32 * q1 s + 2 ^ 64 * q2 s + 2 ^ 96 * q3 s + 2 ^ 128 * q4 s + 2 ^ 160 * q5 s + 2 ^ 192 * q6 s + 2 ^ 224 * q7 s.
Definition storage26_words (s : fes26) : Prop :=
  (0 <= q0 s < 2 ^ 32) /\ (0 <= q1 s < 2 ^ 32) /\ (0 <= q2 s < 2 ^ 32) /\ (0 <= q3 s < 2 ^ 32) /\
  (0 <= q4 s < 2 ^ 32) /\ (0 <= q5 s < 2 ^ 32) /\ (0 <= q6 s < 2 ^ 32) /\ (0 <= q7 s < 2 ^ 32).

(** ** Programs over field elements
    A computation made of the operations of src/field.h.  [fx_val] is its meaning as an
    integer modulo p, [fx_mag] the magnitude the comments of src/field.h give its result,
    and [fx_ok] says every step meets the limits those comments state (32 replaced by 31). *)
Inductive fexpr : Type :=
| FBytes (l : list Z)
| FInt (k : Z)
| FAdd (a b : fexpr)
| FAddInt (a : fexpr) (k : Z)
| FNeg (a : fexpr) (m : Z)
| FMulInt (a : fexpr) (k : Z)
| FHalf (a : fexpr)
| FMul (a b : fexpr)
| FSqr (a : fexpr)
| FWeak (a : fexpr)
| FNorm (a : fexpr)
| FRoot (a : fexpr).

Fixpoint fx_val (e : fexpr) : Z :=
  match e with
  | FBytes l => be_val l
  | FInt k => k
  | FAdd a b => fx_val a + fx_val b
  | FAddInt a k => fx_val a + k
  | FNeg a _ => - fx_val a
  | FMulInt a k => fx_val a * k
  | FHalf a => fx_val a * ((p + 1) / 2)
  | FMul a b => fx_val a * fx_val b
  | FSqr a => fx_val a * fx_val a
  | FWeak a | FNorm a => fx_val a
  | FRoot a => fx_val a ^ ((p + 1) / 4)
  end.

Fixpoint fx_mag (e : fexpr) : Z :=
  match e with
  | FBytes _ | FInt _ | FMul _ _ | FSqr _ | FWeak _ | FNorm _ | FRoot _ => 1
  | FAdd a b => fx_mag a + fx_mag b
  | FAddInt a _ => fx_mag a + 1
  | FNeg _ m => m + 1
  | FMulInt a k => fx_mag a * k
  | FHalf a => fx_mag a / 2 + 1
  end.

Fixpoint fx_ok (e : fexpr) : Prop :=
  match e with
  | FBytes l => byte_list l /\ length l = 32%nat
  | FInt k => 0 <= k <= 0x7FFF
  | FAdd a b => fx_ok a /\ fx_ok b /\ fx_mag a + fx_mag b <= 31
  | FAddInt a k => fx_ok a /\ 0 <= k <= 0x7FFF /\ fx_mag a <= 30
  | FNeg a m => fx_ok a /\ fx_mag a <= m <= 30
  | FMulInt a k => fx_ok a /\ 0 <= k /\ fx_mag a * k <= 31
  | FHalf a => fx_ok a
  | FMul a b => fx_ok a /\ fx_ok b /\ fx_mag a <= 8 /\ fx_mag b <= 8
  | FSqr a | FRoot a => fx_ok a /\ fx_mag a <= 8
  | FWeak a | FNorm a => fx_ok a
  end.

(** The computation run with the functions of the 64-bit and of the 32-bit build. *)
Fixpoint run64 (e : fexpr) : fe :=
  match e with
  | FBytes l => fe_set_b32_mod l
  | FInt k => fe_set_int k
  | FAdd a b => fe_add (run64 a) (run64 b)
  | FAddInt a k => fe_add_int (run64 a) k
  | FNeg a m => fe_negate (run64 a) m
  | FMulInt a k => fe_mul_int (run64 a) k
  | FHalf a => fe_half (run64 a)
  | FMul a b => fe_mul (run64 a) (run64 b)
  | FSqr a => fe_sqr (run64 a)
  | FWeak a => fe_normalize_weak (run64 a)
  | FNorm a => fe_normalize (run64 a)
  | FRoot a => snd (fe_sqrt (run64 a))
  end.
Fixpoint run32 (e : fexpr) : fe26 :=
  match e with
  | FBytes l => f26_set_b32_mod l
  | FInt k => f26_set_int k
  | FAdd a b => f26_add (run32 a) (run32 b)
  | FAddInt a k => f26_add_int (run32 a) k
  | FNeg a m => f26_negate (run32 a) m
  | FMulInt a k => f26_mul_int (run32 a) k
  | FHalf a => f26_half (run32 a)
  | FMul a b => f26_mul (run32 a) (run32 b)
  | FSqr a => f26_sqr (run32 a)
  | FWeak a => f26_normalize_weak (run32 a)
  | FNorm a => f26_normalize (run32 a)
  | FRoot a => snd (f26_sqrt (run32 a))
  end.
