(** Specification of ElligatorSwift (BIP 324): the map XSwiftEC from pairs of field
    elements to x coordinates.  Plain integers modulo p; nothing here refers to the code. *)
Require Import ZArith List Bool.
From Verif Require Import Spec SpecApi.
Import ListNotations.
Local Open Scope Z_scope.

(** A square root of -3 modulo p (the constant of BIP 324). *)
Definition sqrt_m3 : Z := 0xa2d2ba93507f1df233770c2a797962cc61f6d15da14ecd47d8d27ae1cd5f852.
(** [x] is the x coordinate of a point. *)
Definition valid_x (x : Z) : Prop := is_square_mod_p (x ^ 3 + 7).
(** [x] is the first element of the list that is the x coordinate of a point. *)
Fixpoint first_valid (l : list Z) (x : Z) : Prop :=
  match l with
  | [] => False
  | a :: l' => (valid_x a /\ x = a) \/ (~ valid_x a /\ first_valid l' x)
  end.
(** XSwiftEC(u, t) = x. *)
Definition xswiftec (u t x : Z) : Prop :=
  let u := if u mod p =? 0 then 1 else u in
  let t := if t mod p =? 0 then 1 else t in
  let t := if (u ^ 3 + t ^ 2 + 7) mod p =? 0 then 2 * t else t in
  let X := (u ^ 3 + 7 - t ^ 2) * inv_mod (2 * t) p in
  let Y := (X + t) * inv_mod (sqrt_m3 * u) p in
  first_valid [ (u + 4 * Y ^ 2) mod p; ((- X * inv_mod Y p - u) * inv_mod 2 p) mod p; ((X * inv_mod Y p - u) * inv_mod 2 p) mod p ] x.

(** The point that a 64-byte encoding stands for: x from XSwiftEC, the parity of y from t. *)
Definition ell_u (ell : list Z) : Z := be_val (firstn 32 ell).
Definition ell_t (ell : list Z) : Z := be_val (skipn 32 ell).
Definition ell_point (ell : list Z) (Q : point) : Prop :=
  match Q with
  | Inf => False
  | Aff x y => on_curve (Aff x y) /\ xswiftec (ell_u ell) (ell_t ell) x /\ Z.odd y = Z.odd (ell_t ell mod p)
  end.
