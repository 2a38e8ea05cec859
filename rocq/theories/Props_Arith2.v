(** Point arithmetic, continued: C42. *)
Require Import ZArith List Bool.
From Verif Require Import Spec SpecRep FieldModel GroupModel RepProof RepProof3.
Local Open Scope Z_scope.

(** C42: multiplying the coordinates by a blinding factor does not change the point. *)
Theorem C42_rescale a s P : jacobian_point a P -> magnitude 8 s -> fe_res s <> 0 -> jacobian_point (gej_rescale a s) P.
Proof. exact (prop_rescale a s P). Qed.
Print Assumptions C42_rescale.
(** C42: comparison of a value with the x coordinate of a finite Jacobian point. *)
Theorem C42_eq_x_var x a x0 y0 : jacobian_point a (Aff x0 y0) -> magnitude 8 x -> (gej_eq_x_var x a = true <-> fe_res x = x0).
Proof. exact (prop_eq_x_var x a x0 y0). Qed.
Print Assumptions C42_eq_x_var.
(** C42: whether the fraction xn / xd is the x coordinate of a point; [X] is that fraction modulo p. *)
Theorem C42_x_frac_on_curve_var xn xd X : magnitude 8 xn -> magnitude 8 xd -> fe_res xd <> 0 -> (X * fe_int xd) mod p = fe_res xn ->
  (ge_x_frac_on_curve_var xn xd = true <-> is_square_mod_p (X ^ 3 + 7)).
Proof. exact (prop_x_frac xn xd X). Qed.
Print Assumptions C42_x_frac_on_curve_var.
Example C42_example_rescale : magnitude 8 (mkfe 6 0 0 0 0) /\ magnitude 8 (mkfe 2 0 0 0 0) /\ fe_res (mkfe 2 0 0 0 0) <> 0 /\
  (3 * fe_int (mkfe 2 0 0 0 0)) mod p = fe_res (mkfe 6 0 0 0 0).
Proof. unfold magnitude, fe_res, fe_int. cbn. repeat split; try discriminate. Qed.
