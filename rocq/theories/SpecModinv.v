(** What modular inversion is supposed to compute, on plain integers. *)
Require Import ZArith List.
From Verif Require Import ModinvModel.
Import ListNotations.
Local Open Scope Z_scope.

(** src/modinv64.h:16-21: five limbs stand for the sum of v[i] * 2^(62 i). *)
Definition limbs_int (l : list Z) : Z :=
  nth 0 l 0 + 2 ^ 62 * nth 1 l 0 + 2 ^ 124 * nth 2 l 0 + 2 ^ 186 * nth 3 l 0 + 2 ^ 248 * nth 4 l 0.
(** Limbs as the inversion takes and returns them. *)
Definition five_limbs (l : list Z) : Prop :=
  length l = 5%nat /\ forall i, (i < 5)%nat -> 0 <= nth i l 0 < 2 ^ 62.
(** src/modinv64.h:23-29: the description of a modulus: an odd number M from 3 to 2^256, in five
    signed limbs, and the inverse of M modulo 2^62. *)
Definition describes (mi : modinfo) (M : Z) : Prop :=
  length (modulus mi) = 5%nat /\ (forall i, (i < 5)%nat -> - 2 ^ 62 < nth i (modulus mi) 0 < 2 ^ 62) /\
  limbs_int (modulus mi) = M /\ Z.odd M = true /\ 3 <= M <= 2 ^ 256 /\
  0 <= modulus_inv62 mi < 2 ^ 64 /\ (M * modulus_inv62 mi) mod 2 ^ 62 = 1.
(** r is the inverse of x modulo M; 0 is mapped to 0. *)
Definition is_inverse (M x r : Z) : Prop :=
  0 <= r < M /\ (x = 0 -> r = 0) /\ (Z.gcd x M = 1 -> (x * r) mod M = 1).

(** A division step (Bernstein and Yang 2019, with delta starting at 1, and the variant with delta
    starting at 1/2; [d] is 2 delta). *)
Definition divstep (dfg : Z * Z * Z) : Z * Z * Z :=
  let '(d, f, g) := dfg in
  if Z.odd g then if 0 <? d then (2 - d, g, (g - f) / 2) else (2 + d, f, (g + f) / 2)
  else (2 + d, f, g / 2).
Definition divsteps (k : nat) (dfg : Z * Z * Z) : Z * Z * Z := Nat.iter k divstep dfg.
