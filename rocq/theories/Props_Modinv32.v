(** C56: modular inversion, the Jacobi symbol and the square test of the 32-bit build. *)
Require Import ZArith List Bool.
From Verif Require Import Word Spec SpecRep FieldModel ScalarModel Field32Model Scalar32Model SpecRep32 SpecScalar32
  ModinvModel JacobiModel Modinv32Model SpecModinv SpecModinv32 SpecJacobi Modinv32Props.
Import ListNotations.
Local Open Scope Z_scope.

(** The constant time inversion, for every modulus it accepts and every input: no signed
    intermediate overflows, and the twenty rounds are enough to reach the inverse. *)
Theorem C56_modinv mi M x : describes30 mi M -> nine_limbs x -> limbs30_int x < M ->
  exists r, modinv32 x mi = Some r /\ nine_limbs r /\ is_inverse M (limbs30_int x) (limbs30_int r).
Proof. exact (prop30_modinv mi M x). Qed.
Print Assumptions C56_modinv.
(** The variable time inversion ends after at most twenty-five rounds, with the inverse. *)
Theorem C56_modinv_var mi M x rounds : describes30 mi M -> nine_limbs x -> limbs30_int x < M -> (25 <= rounds)%nat ->
  exists r, modinv32_var rounds x mi = Some r /\ nine_limbs r /\ is_inverse M (limbs30_int x) (limbs30_int r).
Proof. exact (prop30_modinv_var mi M x rounds). Qed.
Print Assumptions C56_modinv_var.
(** The two moduli of the library are described correctly. *)
Theorem C56_moduli : describes30 modinfo30_scalar n /\ describes30 modinfo30_fe p.
Proof. exact (conj describes30_scalar describes30_fe). Qed.
Print Assumptions C56_moduli.
(** Scalars.  The result is the same in constant and in variable time, and the 64-bit code returns the
    same number. *)
Theorem C56_scalar x : scalar8_valid x -> exists r, s8_inverse x = Some r /\ scalar8_valid r /\
  (scalar8_int x = 0 -> scalar8_int r = 0) /\ (scalar8_int x <> 0 -> (scalar8_int x * scalar8_int r) mod n = 1) /\
  (forall rounds, (25 <= rounds)%nat -> s8_inverse_var rounds x = Some r) /\
  (forall y, scalar_valid y -> scalar_int y = scalar8_int x -> exists s, scalar_inverse y = Some s /\ scalar_int s = scalar8_int r).
Proof. exact (prop30_scalar x). Qed.
Print Assumptions C56_scalar.
(** Field elements of any magnitude up to 31. *)
Theorem C56_field x : magnitude26 31 x -> exists r, f26_inv x = Some r /\ normalized26 r /\
  (fe26_res x = 0 -> fe26_int r = 0) /\ (fe26_res x <> 0 -> (fe26_int x * fe26_int r) mod p = 1) /\
  (forall rounds, (25 <= rounds)%nat -> f26_inv_var rounds x = Some r) /\
  (forall y, magnitude 32 y -> fe_res y = fe26_res x -> exists s, fe_impl_inv y = Some s /\ fe_int s = fe26_int r).
Proof. exact (prop30_field x). Qed.
Print Assumptions C56_field.
(** The Jacobi symbol: for every modulus and every number coprime to it, the computation gives up
    (zero) or returns the symbol.  The bits of the two low limbs of the modulus have to be joinable, as
    they are for the modulus of the field. *)
Theorem C56_jacobi mi M qs x rounds : describes30 mi M -> factorization M qs ->
  0 <= nth 0 (modulus30 mi) 0 \/ nth 1 (modulus30 mi) 0 mod 4 = 0 ->
  nine_limbs x -> 0 < limbs30_int x < M -> Z.gcd (limbs30_int x) M = 1 -> (rounds <= 4000)%nat ->
  exists r, jacobi32_maybe_var rounds x mi = Some r /\ (r = 0 \/ r = jacobi_symbol (limbs30_int x) qs).
Proof. exact (prop30_jacobi mi M qs x rounds). Qed.
Print Assumptions C56_jacobi.
(** Without the condition on the low limbs the result can be wrong: a square gets the symbol -1. *)
Theorem C56_low_limbs_refuted : exists mi M qs x r, describes30 mi M /\ factorization M qs /\ nine_limbs x /\ 0 < limbs30_int x < M /\
  Z.gcd (limbs30_int x) M = 1 /\ jacobi32_maybe_var 50 x mi = Some r /\ r <> 0 /\ r <> jacobi_symbol (limbs30_int x) qs.
Proof. exact prop30_refuted. Qed.
Print Assumptions C56_low_limbs_refuted.
(** The square test, for any number of rounds (50, or 25 in a VERIFY build); the 64-bit code answers
    the same. *)
Theorem C56_square x rounds : magnitude26 31 x -> (rounds <= 4000)%nat ->
  exists b, f26_is_square_var rounds x = Some b /\ (b = true <-> exists y, (y * y) mod p = fe26_res x) /\
  (forall z rounds', magnitude 32 z -> fe_res z = fe26_res x -> (rounds' <= 4000)%nat -> fe_impl_is_square_var rounds' z = Some b).
Proof. exact (prop30_square x rounds). Qed.
Print Assumptions C56_square.

(** 3 as a scalar meets the hypotheses; its inverse is (2 n + 1) / 3. *)
Example C56_example : let x := s8_set_int 3 in
  scalar8_valid x /\ limbs30_int (scalar_to_signed30 x) = 3 /\ (exists r, s8_inverse x = Some r /\ 3 * scalar8_int r = 2 * n + 1).
Proof.
  cbv zeta. split; [repeat split; discriminate|]. split; [reflexivity|].
  exists (mks8 3760466817 2145490013 3392170706 3519670425 2863311529 2863311530 2863311530 2863311530). split; [|reflexivity].
  match goal with |- _ = ?o => vm_cast_no_check (eq_refl o) end.
Qed.
(** 5 modulo 7, with a small modulus; 3 is no square modulo 7. *)
Example C56_example_small : let mi := mkmod30 [7; 0; 0; 0; 0; 0; 0; 0; 0] 920350135 in
  describes30 mi 7 /\ modinv32_var 25 [5; 0; 0; 0; 0; 0; 0; 0; 0] mi = Some [3; 0; 0; 0; 0; 0; 0; 0; 0] /\
  jacobi32_maybe_var 50 [3; 0; 0; 0; 0; 0; 0; 0; 0] mi = Some (-1) /\ magnitude26 31 (f26_set_int 3).
Proof.
  cbv zeta. split; [|split; [reflexivity|split; [reflexivity|repeat split; discriminate]]].
  refine (conj eq_refl (conj _ (conj eq_refl (conj eq_refl (conj _ (conj _ eq_refl)))))); [|split; discriminate|split; [discriminate|reflexivity]].
  intros i Hi. do 9 (destruct i as [|i]; [split; reflexivity|]). exfalso. revert Hi. apply Nat.nlt_ge. do 9 apply le_n_S. apply Nat.le_0_l.
Qed.
