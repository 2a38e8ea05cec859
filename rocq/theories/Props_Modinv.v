(** Modular inversion: C41. *)
Require Import ZArith List Bool.
From Verif Require Import Word Spec SpecRep FieldModel ScalarModel ModinvModel SpecModinv ModinvProps.
Import ListNotations.
Local Open Scope Z_scope.

(** C41: the constant time inversion, for every modulus it accepts and every input: no signed
    intermediate overflows, and the ten rounds are enough to reach the inverse. *)
Theorem C41_modinv mi M x : describes mi M -> five_limbs x -> limbs_int x < M ->
  exists r, modinv64 x mi = Some r /\ five_limbs r /\ is_inverse M (limbs_int x) (limbs_int r).
Proof. exact (prop_modinv mi M x). Qed.
Print Assumptions C41_modinv.
(** C41: the variable time inversion ends after at most twelve rounds, with the inverse. *)
Theorem C41_modinv_var mi M x rounds : describes mi M -> five_limbs x -> limbs_int x < M -> (12 <= rounds)%nat ->
  exists r, modinv64_var rounds x mi = Some r /\ five_limbs r /\ is_inverse M (limbs_int x) (limbs_int r).
Proof. exact (prop_modinv_var mi M x rounds). Qed.
Print Assumptions C41_modinv_var.
(** C41: the two moduli of the library are described correctly. *)
Theorem C41_moduli : describes modinfo_scalar n /\ describes modinfo_fe p.
Proof. exact (conj describes_scalar describes_fe). Qed.
Print Assumptions C41_moduli.
(** C41: scalars.  The result is the same in constant and in variable time, and it is the inverse the
    rest of the model computes with. *)
Theorem C41_scalar x : scalar_valid x -> exists r, scalar_inverse x = Some r /\ scalar_valid r /\
  (scalar_int x = 0 -> scalar_int r = 0) /\ (scalar_int x <> 0 -> (scalar_int x * scalar_int r) mod n = 1) /\
  sc_inverse x = r /\ forall rounds, (12 <= rounds)%nat -> scalar_inverse_var rounds x = Some r.
Proof. exact (prop_scalar x). Qed.
Print Assumptions C41_scalar.
(** C41: field elements of any magnitude. *)
Theorem C41_field x : magnitude 32 x -> exists r, fe_impl_inv x = Some r /\ normalized r /\
  (fe_res x = 0 -> fe_int r = 0) /\ (fe_res x <> 0 -> (fe_int x * fe_int r) mod p = 1) /\
  fe_inv x = r /\ fe_inv_var x = r /\ forall rounds, (12 <= rounds)%nat -> fe_impl_inv_var rounds x = Some r.
Proof. exact (prop_field x). Qed.
Print Assumptions C41_field.
(** C41: how many division steps are enough for every pair of numbers up to 2^256. *)
Theorem C41_590_steps m x : Z.odd m = true -> 0 <= x <= m -> m <= 2 ^ 256 ->
  exists d f, divsteps 590 (1, m, x) = (d, f, 0) /\ Z.abs f = Z.gcd m x.
Proof. exact (prop_590 m x). Qed.
Print Assumptions C41_590_steps.
Theorem C41_744_steps m x : Z.odd m = true -> 0 <= x <= m -> m <= 2 ^ 256 ->
  exists d f, divsteps 744 (2, m, x) = (d, f, 0) /\ Z.abs f = Z.gcd m x.
Proof. exact (prop_744 m x). Qed.
Print Assumptions C41_744_steps.
(** C41: counting trailing zeros with the multiplication and table, for every non-zero word. *)
Theorem C41_trailing_zeros x k : 0 < x < 2 ^ 64 ->
  (ctz64_debruijn x = Some k <-> 0 <= k /\ (2 ^ k | x) /\ ~ (2 ^ (k + 1) | x)).
Proof. exact (prop_ctz x k). Qed.
Print Assumptions C41_trailing_zeros.
Theorem C41_trailing_zeros_32 x k : 0 < x < 2 ^ 32 ->
  (ctz32_debruijn x = Some k <-> 0 <= k /\ (2 ^ k | x) /\ ~ (2 ^ (k + 1) | x)).
Proof. exact (prop_ctz32 x k). Qed.
Print Assumptions C41_trailing_zeros_32.
Example C41_example : let x := sc_of_Z 3 in
  describes modinfo_scalar n /\ scalar_valid x /\ five_limbs (scalar_to_signed62 x) /\ limbs_int (scalar_to_signed62 x) = 3 /\
  (exists r, scalar_inverse x = Some r /\ 3 * scalar_int r = 2 * n + 1) /\ scalar_inverse_var 12 x = scalar_inverse x /\
  scalar_inverse sc_zero = Some sc_zero /\ ctz64_debruijn 0x5000000000000000 = Some 60.
Proof.
  cbv zeta. split; [exact describes_scalar|]. split; [repeat split; discriminate|].
  split; [split; [reflexivity|intros i Hi; do 5 (destruct i as [|i]; [split; [discriminate|reflexivity]|]); exfalso; revert Hi; apply Nat.nlt_ge; do 5 apply le_n_S; apply Nat.le_0_l]|].
  split; [reflexivity|]. split; [eexists; split; vm_compute; reflexivity|].
  split; [vm_compute; reflexivity|]. split; vm_compute; reflexivity.
Qed.
