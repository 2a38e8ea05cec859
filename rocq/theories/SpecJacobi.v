(** The symbols of Legendre and Jacobi, on plain integers. *)
Require Import ZArith List Znumtheory.
Import ListNotations.
Local Open Scope Z_scope.

(** The Legendre symbol of a modulo an odd prime q, by Euler's criterion. *)
Definition legendre (a q : Z) : Z :=
  let e := (a ^ ((q - 1) / 2)) mod q in if e =? 0 then 0 else if e =? 1 then 1 else -1.
(** The Jacobi symbol of a modulo the product of the odd primes qs. *)
Definition jacobi_symbol (a : Z) (qs : list Z) : Z := fold_right Z.mul 1 (map (legendre a) qs).
(** qs is a list of odd primes with product M. *)
Definition factorization (M : Z) (qs : list Z) : Prop :=
  Forall (fun q => prime q /\ q <> 2) qs /\ fold_right Z.mul 1 qs = M.
