(** What the eight-word scalars of the 32-bit build stand for, and programs over scalars:
    the vocabulary of Props_Scalar32. *)
Require Import ZArith List.
From Verif Require Import Spec Bytes ScalarModel Scalar32Model.
Import ListNotations.
Local Open Scope Z_scope.

(** src/scalar_8x32.h:12-15: a scalar is eight 32-bit words, least significant first; it is
    valid when the integer is below the group order. *)
Definition scalar8_int (a : sc8) : Z :=
  sd0 a + 2 ^ 32 * sd1 a + 2 ^ 64 * sd2 a + 2 ^ 96 * sd3 a + 2 ^ 128 * sd4 a + 2 ^ 160 * sd5 a + 2 ^ 192 * sd6 a + 2 ^ 224 * sd7 a.
Definition scalar8_words (a : sc8) : Prop :=
  (0 <= sd0 a < 2 ^ 32) /\ (0 <= sd1 a < 2 ^ 32) /\ (0 <= sd2 a < 2 ^ 32) /\ (0 <= sd3 a < 2 ^ 32) /\
  (0 <= sd4 a < 2 ^ 32) /\ (0 <= sd5 a < 2 ^ 32) /\ (0 <= sd6 a < 2 ^ 32) /\ (0 <= sd7 a < 2 ^ 32).
Definition scalar8_valid (a : sc8) : Prop := scalar8_words a /\ scalar8_int a < n.

(** ** Programs over scalars
    A computation made of the operations of src/scalar.h, run by the 64-bit code and by the
    32-bit code. *)
Inductive sexpr : Type :=
| SBytes (l : list Z)
| SInt (k : Z)
| SAdd (a b : sexpr)
| SMul (a b : sexpr)
| SNeg (a : sexpr)
| SCondNeg (a : sexpr) (flag : bool)
| SHalf (a : sexpr)
| SSelect (a b : sexpr) (flag : bool)
| SLow128 (a : sexpr)
| SHigh128 (a : sexpr)
| SLambda1 (a : sexpr)
| SLambda2 (a : sexpr).
(** The only conditions: byte strings have 32 bytes, small integers fit an unsigned int. *)
Fixpoint sx_ok (e : sexpr) : Prop :=
  match e with
  | SBytes l => byte_list l /\ length l = 32%nat
  | SInt k => 0 <= k < 2 ^ 32
  | SAdd a b | SMul a b | SSelect a b _ => sx_ok a /\ sx_ok b
  | SNeg a | SCondNeg a _ | SHalf a | SLow128 a | SHigh128 a | SLambda1 a | SLambda2 a => sx_ok a
  end.
Definition flag_int (b : bool) : Z := if b then 1 else 0.
Fixpoint srun64 (e : sexpr) : sc :=
  match e with
  | SBytes l => fst (sc_set_b32 l)
  | SInt k => sc_set_int k
  | SAdd a b => sc_add (srun64 a) (srun64 b)
  | SMul a b => sc_mul (srun64 a) (srun64 b)
  | SNeg a => sc_negate (srun64 a)
  | SCondNeg a f => fst (sc_cond_negate (srun64 a) (flag_int f))
  | SHalf a => sc_half (srun64 a)
  | SSelect a b f => sc_cmov (srun64 a) (srun64 b) (flag_int f)
  | SLow128 a => fst (sc_split_128 (srun64 a))
  | SHigh128 a => snd (sc_split_128 (srun64 a))
  | SLambda1 a => fst (sc_split_lambda (srun64 a))
  | SLambda2 a => snd (sc_split_lambda (srun64 a))
  end.
Fixpoint srun32 (e : sexpr) : sc8 :=
  match e with
  | SBytes l => fst (s8_set_b32 l)
  | SInt k => s8_set_int k
  | SAdd a b => s8_add (srun32 a) (srun32 b)
  | SMul a b => s8_mul (srun32 a) (srun32 b)
  | SNeg a => s8_negate (srun32 a)
  | SCondNeg a f => fst (s8_cond_negate (srun32 a) (flag_int f))
  | SHalf a => s8_half (srun32 a)
  | SSelect a b f => s8_cmov (srun32 a) (srun32 b) (flag_int f)
  | SLow128 a => fst (s8_split_128 (srun32 a))
  | SHigh128 a => snd (s8_split_128 (srun32 a))
  | SLambda1 a => fst (s8_split_lambda (srun32 a))
  | SLambda2 a => snd (s8_split_lambda (srun32 a))
  end.
