(** Window sizes of the multiplication: C62. *)
Require Import ZArith List Bool.
From Verif Require Import Spec SpecRep FieldModel ScalarModel GroupModel Curve EcmultModel ApiModel RepProof2 WindowModel SpecWindow WindowProps.
Import ListNotations.
Local Open Scope Z_scope.

(** C62: the checks at compile time accept exactly the documented window sizes. *)
Theorem C62_accepted_windows built w : program_compiles built w = true <-> window_allowed built w.
Proof. exact (prop_windows built w). Qed.
Print Assumptions C62_accepted_windows.
(** C62: the preprocessor leaves exactly as many entries as the arrays have. *)
Theorem C62_table_lengths built w : window_allowed built w ->
  Z.of_nat (length (fst (precomputed built w))) = 2 ^ (w - 2) /\ Z.of_nat (length (snd (precomputed built w))) = 2 ^ (w - 2).
Proof. exact (prop_win_lengths built w). Qed.
Print Assumptions C62_table_lengths.
(** C62: entry i of the two arrays is (2i+1) G and (2i+1) 2^128 G. *)
Theorem C62_table_entries built w i : window_allowed built w -> Z.of_nat i < 2 ^ (w - 2) ->
  affine_point (ge_from_storage (nth i (fst (precomputed built w)) (mkges (mkfes 0 0 0 0) (mkfes 0 0 0 0)))) (pmul (2 * Z.of_nat i + 1) G) /\
  affine_point (ge_from_storage (nth i (snd (precomputed built w)) (mkges (mkfes 0 0 0 0) (mkfes 0 0 0 0)))) (pmul ((2 * Z.of_nat i + 1) * 2 ^ 128) G).
Proof. exact (prop_win_entries built w i). Qed.
Print Assumptions C62_table_entries.
(** C62: for every window size the interleaved multiplication of any number of points is exact. *)
Theorem C62_strauss built w l m ng : window_allowed built w -> Forall2 term_of l m -> opt_valid ng ->
  jacobian_point (win_strauss w (fst (precomputed built w)) (snd (precomputed built w)) l ng) (padd (lin_comb m) (pmul (opt_int ng) G)).
Proof. exact (prop_win_strauss built w l m ng). Qed.
Print Assumptions C62_strauss.
(** C62: for every window size the double multiplication of verification is exact. *)
Theorem C62_ecmult built w a na ng P : window_allowed built w -> jacobian_point a P -> scalar_valid na -> opt_valid ng ->
  jacobian_point (win_ecmult w (fst (precomputed built w)) (snd (precomputed built w)) a na ng) (padd (pmul (scalar_int na) P) (pmul (opt_int ng) G)).
Proof. exact (prop_win_ecmult built w a na ng P). Qed.
Print Assumptions C62_ecmult.
(** C62: two programs compiled with different window sizes and table files compute the same point, byte for byte. *)
Theorem C62_windows_agree b1 w1 b2 w2 a na ng P : window_allowed b1 w1 -> window_allowed b2 w2 ->
  jacobian_point a P -> scalar_valid na -> opt_valid ng ->
  let r1 := win_ecmult w1 (fst (precomputed b1 w1)) (snd (precomputed b1 w1)) a na ng in
  let r2 := win_ecmult w2 (fst (precomputed b2 w2)) (snd (precomputed b2 w2)) a na ng in
  gej_is_infinity r1 = gej_is_infinity r2 /\
  (gej_is_infinity r1 = false -> pubkey_save (ge_set_gej_var r1) = pubkey_save (ge_set_gej_var r2)).
Proof. exact (prop_win_agree b1 w1 b2 w2 a na ng P). Qed.
Print Assumptions C62_windows_agree.
(** C62: the arrays are never read behind their end: what lies there changes nothing. *)
Theorem C62_reads_in_bounds w pre pre128 behind behind128 l ng : 2 <= w <= 24 -> opt_valid ng ->
  Z.of_nat (length pre) = 2 ^ (w - 2) -> Z.of_nat (length pre128) = 2 ^ (w - 2) ->
  win_strauss w (pre ++ behind) (pre128 ++ behind128) l ng = win_strauss w pre pre128 l ng.
Proof. exact (prop_win_bounds w pre pre128 behind behind128 l ng). Qed.
Print Assumptions C62_reads_in_bounds.
(** C62: the program that the other claims speak about is the one with window size 15. *)
Theorem C62_default_is_instance built l a na ng :
  win_strauss 15 (fst (precomputed built 15)) (snd (precomputed built 15)) l ng = ecmult_strauss_wnaf l ng /\
  win_ecmult 15 (fst (precomputed built 15)) (snd (precomputed built 15)) a na ng = ecmult a na ng.
Proof. exact (prop_win_default_mult built l a na ng). Qed.
Print Assumptions C62_default_is_instance.
Example C62_example_windows : window_allowed 15 2 /\ window_allowed 15 15 /\ window_allowed 24 24 /\ window_allowed 2 15 /\ ~ window_allowed 15 16 /\ ~ window_allowed 24 25.
Proof. exact ex_windows. Qed.
Example C62_example_inputs : jacobian_point (gej_set_ge ge_const_g) G /\ scalar_valid (mksc (N_0 - 1) N_1 N_2 N_3) /\ opt_valid (Some (mksc (N_0 - 1) N_1 N_2 N_3)).
Proof. exact (conj g_jacobian (conj (proj1 big_sc) (proj1 big_sc))). Qed.
Example C62_example_terms : Forall2 term_of [(gej_set_ge ge_const_g, mksc (N_0 - 1) N_1 N_2 N_3)] [(n - 1, G)].
Proof. constructor; [exact (conj g_jacobian big_sc)|constructor]. Qed.
