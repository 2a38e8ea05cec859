(** Rescaling and the two curve tests that avoid an inversion, read through SpecRep. *)
Require Import ZArith List Bool Lia Ring Field.
From Verif Require Import Spec ZmField Curve FieldModel FieldMul FieldProof FieldProof2 FieldOps GroupModel GroupProof GroupProof2 GroupProof4 SpecRep RepProof.
Import ListNotations.
Local Open Scope Z_scope.

Lemma prop_rescale a s P : jacobian_point a P -> magnitude 8 s -> fe_res s <> 0 -> jacobian_point (gej_rescale a s) P.
Proof. rewrite !jac_iff, mag_iff, res_nz. apply gej_rescale_ok. Qed.
Lemma prop_eq_x_var x a x0 y0 : jacobian_point a (Aff x0 y0) -> magnitude 8 x -> (gej_eq_x_var x a = true <-> fe_res x = x0).
Proof.
  rewrite jac_iff, mag_iff. intros J M. rewrite (gej_eq_x_var_ok x a _ J ltac:(discriminate) M). cbn [xcoord].
  destruct J as (_ & _ & _ & (R & _) & _). split; intro E.
  - rewrite res_zv, E, zv_toF. apply Z.mod_small, R.
  - rewrite <- toF_res, E. reflexivity.
Qed.
Lemma prop_x_frac xn xd X : magnitude 8 xn -> magnitude 8 xd -> fe_res xd <> 0 -> (X * fe_int xd) mod p = fe_res xn ->
  (ge_x_frac_on_curve_var xn xd = true <-> is_square_mod_p (X ^ 3 + 7)).
Proof.
  rewrite !mag_iff, res_nz. intros M1 M2 N E. rewrite (ge_x_frac_on_curve_var_ok xn xd M1 M2 N).
  assert (EX : toF X = (fv xn / fv xd)%F).
  { symmetry in E. apply res_inv in E. rewrite E, toF_mul, fe_int_eq. change (toF (fval xd)) with (fv xd). field. exact N. }
  assert (EE : (zv (fv xn / fv xd)%F * zv (fv xn / fv xd)%F * zv (fv xn / fv xd)%F + 7) mod p = (X ^ 3 + 7) mod p).
  { rewrite <- EX, zv_toF. replace (X ^ 3) with (X * X * X) by ring. apply toF_inj. now rewrite !toF_add, !toF_mul, !toF_mod. }
  unfold is_square_mod_p. rewrite EE. reflexivity.
Qed.
