(** What the modular inversion of the 32-bit build works on; the results are stated with
    [is_inverse] of SpecModinv and [jacobi_symbol] of SpecJacobi. *)
Require Import ZArith List.
From Verif Require Import Modinv32Model.
Import ListNotations.
Local Open Scope Z_scope.

(** src/modinv32.h:12-17: nine limbs stand for the sum of v[i] * 2^(30 i). *)
Definition limbs30_int (l : list Z) : Z :=
  nth 0 l 0 + 2 ^ 30 * nth 1 l 0 + 2 ^ 60 * nth 2 l 0 + 2 ^ 90 * nth 3 l 0 + 2 ^ 120 * nth 4 l 0 +
  2 ^ 150 * nth 5 l 0 + 2 ^ 180 * nth 6 l 0 + 2 ^ 210 * nth 7 l 0 + 2 ^ 240 * nth 8 l 0.
(** Limbs as the inversion takes and returns them. *)
Definition nine_limbs (l : list Z) : Prop :=
  length l = 9%nat /\ forall i, (i < 9)%nat -> 0 <= nth i l 0 < 2 ^ 30.
(** src/modinv32.h:19-25: the description of a modulus: an odd number M from 3 to 2^256, in nine
    signed limbs, and the inverse of M modulo 2^30. *)
Definition describes30 (mi : modinfo30) (M : Z) : Prop :=
  length (modulus30 mi) = 9%nat /\ (forall i, (i < 9)%nat -> - 2 ^ 30 < nth i (modulus30 mi) 0 < 2 ^ 30) /\
  limbs30_int (modulus30 mi) = M /\ Z.odd M = true /\ 3 <= M <= 2 ^ 256 /\
  0 <= modulus_inv30 mi < 2 ^ 32 /\ (M * modulus_inv30 mi) mod 2 ^ 30 = 1.
