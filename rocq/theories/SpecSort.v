(** Specification vocabulary for comparing and sorting public keys. *)
Require Import ZArith List Bool Sorted Permutation.
From Verif Require Import Spec SpecApi.
Import ListNotations.
Local Open Scope Z_scope.

(** Lexicographic order on byte strings. *)
Fixpoint lex (a b : list Z) : comparison :=
  match a, b with
  | [], [] => Eq
  | [], _ :: _ => Lt
  | _ :: _, [] => Gt
  | x :: a', y :: b' => match x ?= y with Eq => lex a' b' | c => c end
  end.
(** The 33 bytes a pointer to a public key object stands for when keys are compared: the
    compressed encoding of a valid key; zeros for NULL and for invalid objects, which
    are those with x coordinate zero (no point has it). *)
Inductive key_encoding : option (list Z) -> list Z -> Prop :=
| ke_valid pk x y : pubkey_holds pk (Aff x y) -> key_encoding (Some pk) (enc_compressed x y)
| ke_null : key_encoding None (repeat 0 33)
| ke_invalid ybytes : bytes_n 32 ybytes -> key_encoding (Some (repeat 0 32 ++ ybytes)) (repeat 0 33).
Definition key_valid (pk : option (list Z)) : Prop := exists l x y, pk = Some l /\ pubkey_holds l (Aff x y).
(** [a] may stand before [b] in a sorted array. *)
Definition key_le (a b : option (list Z)) : Prop := exists ea eb, key_encoding a ea /\ key_encoding b eb /\ lex ea eb <> Gt.
(** A comparison function (negative, zero, positive) that is a total preorder. *)
Definition total_preorder {A} (cmp : A -> A -> Z) : Prop :=
  (forall x y, Z.sgn (cmp x y) = - Z.sgn (cmp y x)) /\ (forall x y z, cmp x y <= 0 -> cmp y z <= 0 -> cmp x z <= 0).
