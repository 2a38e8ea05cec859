(** The square test of field elements: C53. *)
Require Import ZArith List Bool.
From Verif Require Import Word Spec SpecRep FieldModel ModinvModel SpecModinv JacobiModel SpecJacobi JacobiProps.
Import ListNotations.
Local Open Scope Z_scope.

(** C53: field elements of any magnitude, and any number of rounds (25, or 12 in a VERIFY build): the
    square test never overflows and answers whether there is a square root; it is the test the rest of
    the model computes with. *)
Theorem C53_square x rounds : magnitude 32 x -> (rounds <= 4000)%nat ->
  exists b, fe_impl_is_square_var rounds x = Some b /\ (b = true <-> exists y, (y * y) mod p = fe_res x) /\ fe_is_square_var x = b.
Proof. exact (prop_square x rounds). Qed.
Print Assumptions C53_square.
(** C53: for every modulus and every number coprime to it, the computation gives up (zero) or returns
    the Jacobi symbol.  The two low limbs of the modulus have to be such that their bits can be joined,
    as they are for the modulus of the field. *)
Theorem C53_jacobi mi M qs x rounds : describes mi M -> factorization M qs ->
  0 <= nth 0 (modulus mi) 0 \/ nth 1 (modulus mi) 0 mod 4 = 0 ->
  five_limbs x -> 0 < limbs_int x < M -> Z.gcd (limbs_int x) M = 1 -> (rounds <= 4000)%nat ->
  exists r, jacobi64_maybe_var rounds x mi = Some r /\ (r = 0 \/ r = jacobi_symbol (limbs_int x) qs).
Proof. exact (prop_jacobi mi M qs x rounds). Qed.
Print Assumptions C53_jacobi.
(** Without the condition on the low limbs the result can be wrong: here the modulus is the group
    order, written with a negative lowest limb. *)
Theorem C53_low_limbs_refuted : exists mi M qs x r, describes mi M /\ factorization M qs /\ five_limbs x /\ 0 < limbs_int x < M /\
  Z.gcd (limbs_int x) M = 1 /\ jacobi64_maybe_var 25 x mi = Some r /\ r <> 0 /\ r <> jacobi_symbol (limbs_int x) qs.
Proof. exact prop_refuted. Qed.
Print Assumptions C53_low_limbs_refuted.

(** 2^61 is found to be a square in one round; 3 is found to be no square, but not in one round. *)
Example C53_example :
  magnitude 32 (mkfe 0 (2 ^ 9) 0 0 0) /\ magnitude 32 (mkfe 3 0 0 0 0) /\
  jacobi64_maybe_var 1 (fe_to_signed62 (mkfe 0 (2 ^ 9) 0 0 0)) modinfo_fe = Some 1 /\
  jacobi64_maybe_var 1 (fe_to_signed62 (mkfe 3 0 0 0 0)) modinfo_fe = Some 0 /\
  jacobi64_maybe_var jacobi64_iterations (fe_to_signed62 (mkfe 3 0 0 0 0)) modinfo_fe = Some (-1).
Proof.
  refine (conj _ (conj _ (conj _ (conj _ _)))); [repeat split; discriminate|repeat split; discriminate| | |];
  [vm_cast_no_check (eq_refl (Some 1))|vm_cast_no_check (eq_refl (Some 0))|vm_cast_no_check (eq_refl (Some (-1)))].
Qed.
(** The field modulus meets the hypotheses. *)
Example C53_example_modulus : describes modinfo_fe p /\ nth 1 (modulus modinfo_fe) 0 mod 4 = 0.
Proof. exact (conj ModinvProps.describes_fe eq_refl). Qed.
