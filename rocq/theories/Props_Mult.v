(** The multiplication algorithms: C43. *)
Require Import ZArith List Bool.
From Verif Require Import Spec SpecApi SpecRep FieldModel ScalarModel GroupModel Curve EcmultModel GenModel ApiModel ApiVocab RepProof RepProof2.
Import ListNotations.
Local Open Scope Z_scope.

(** C43: the double multiplication used by verification. *)
Theorem C43_ecmult a na ng P : jacobian_point a P -> scalar_valid na -> opt_valid ng ->
  jacobian_point (ecmult a na ng) (padd (pmul (scalar_int na) P) (pmul (opt_int ng) G)).
Proof. exact (prop_ecmult a na ng P). Qed.
Print Assumptions C43_ecmult.
(** C43: the interleaved multiplication of any number of points. *)
Theorem C43_strauss l m ng : Forall2 term_of l m -> opt_valid ng ->
  jacobian_point (ecmult_strauss_wnaf l ng) (padd (lin_comb m) (pmul (opt_int ng) G)).
Proof. exact (prop_strauss l m ng). Qed.
Print Assumptions C43_strauss.
(** C43: the constant-time multiplication. *)
Theorem C43_ecmult_const a q P : affine_point a P -> scalar_valid q -> jacobian_point (ecmult_const a q) (pmul (scalar_int q) P).
Proof. exact (prop_ecmult_const a q P). Qed.
Print Assumptions C43_ecmult_const.
(** C43: the constant-time multiplication of a point given by a fraction for its x coordinate, which also tells whether there is such a point. *)
Theorem C43_ecmult_const_xonly nn d q koc x : magnitude 8 nn -> (forall d', d = Some d' -> magnitude 8 d') -> opt_den d mod p <> 0 ->
  scalar_valid q -> scalar_int q <> 0 -> 0 <= x < p -> (x * opt_den d) mod p = fe_res nn ->
  (koc = true -> is_square_mod_p (x ^ 3 + 7)) ->
  match ecmult_const_xonly nn d q koc with
  | None => ~ is_square_mod_p (x ^ 3 + 7)
  | Some r => is_square_mod_p (x ^ 3 + 7) /\ magnitude 1 r /\
      forall y, on_curve (Aff x y) -> fe_res r = xcoord (pmul (scalar_int q) (Aff x y))
  end.
Proof. exact (prop_ecmult_const_xonly nn d q koc x). Qed.
Print Assumptions C43_ecmult_const_xonly.
(** C43: generator multiplication, for every context a program can obtain. *)
Theorem C43_ecmult_gen ctx q : usable_context ctx -> scalar_valid q -> jacobian_point (ecmult_gen (c_gen ctx) q) (pmul (scalar_int q) G).
Proof. exact (prop_ecmult_gen ctx q). Qed.
Print Assumptions C43_ecmult_gen.
Example C43_example : jacobian_point (gej_set_ge ge_const_g) G /\ scalar_valid (mksc (N_0 - 1) N_1 N_2 N_3).
Proof. exact (conj g_jacobian (proj1 big_sc)). Qed.
Example C43_example_terms : Forall2 term_of [(gej_set_ge ge_const_g, mksc (N_0 - 1) N_1 N_2 N_3)] [(n - 1, G)].
Proof. constructor; [exact (conj g_jacobian big_sc)|constructor]. Qed.
Example C43_example_context : usable_context KeyProps2.w_ctx. Proof. exact KeyProps2.w_ctx_ok. Qed.
