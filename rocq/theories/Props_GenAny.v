(** Table configurations of the generator multiplication: C61. *)
Require Import ZArith List Bool.
From Verif Require Import Spec SpecRep FieldModel ScalarModel GroupModel GenModel GenAnyModel ApiModel SpecGenAny GenAnyProps GenAnyTable GenAnyBounds.
Import ListNotations.
Local Open Scope Z_scope.

(** C61: the checks at compile time accept exactly the documented configurations. *)
Theorem C61_accepted_configurations g : comb_compiles g = true <-> allowed g.
Proof. exact (prop_allowed g). Qed.
Print Assumptions C61_accepted_configurations.
(** C61: entry i of block b of the computed table is the point P with
    2 P = (sum of +- 2^((b teeth + t) spacing)) G, finite and in canonical form. *)
Theorem C61_table_entries g s b i : allowed g -> spacing_is g s -> (b < blocks g)%nat -> (i < 2 ^ (teeth g - 1))%nat ->
  exists P, stored_point (nth i (nth b (prec_table g) []) (mkges (mkfes 0 0 0 0) (mkfes 0 0 0 0))) P /\ padd P P = pmul (comb_coefficient g s b i) G.
Proof. exact (prop_table g s b i). Qed.
Print Assumptions C61_table_entries.
(** C61: for 11 blocks and 6 teeth the computed table is, word for word, the table that is checked in. *)
Theorem C61_checked_in_table : prec_table (mkcomb 11 6) = gen_prec_table.
Proof. exact default_table. Qed.
Print Assumptions C61_checked_in_table.
(** C61: in every configuration, under every blinding, the generator is multiplied exactly. *)
Theorem C61_multiplication g c a : allowed g -> gen_context_of g c -> scalar_valid a ->
  jacobian_point (any_ecmult_gen g (prec_table g) c a) (pmul (scalar_int a) G).
Proof. exact (prop_multiplication g c a). Qed.
Print Assumptions C61_multiplication.
(** C61: two programs compiled with different configurations produce the same public key object. *)
Theorem C61_configurations_agree g1 g2 c1 c2 a : allowed g1 -> allowed g2 -> gen_context_of g1 c1 -> gen_context_of g2 c2 ->
  scalar_valid a -> 0 < scalar_int a ->
  pubkey_save (ge_set_gej (any_ecmult_gen g1 (prec_table g1) c1 a)) = pubkey_save (ge_set_gej (any_ecmult_gen g2 (prec_table g2) c2 a)).
Proof. exact (prop_agree g1 g2 c1 c2 a). Qed.
Print Assumptions C61_configurations_agree.
(** C61: the program that the other claims speak about is the one with 11 blocks and 6 teeth. *)
Theorem C61_default_is_instance c a seed :
  any_ecmult_gen (mkcomb 11 6) (prec_table (mkcomb 11 6)) c a = ecmult_gen c a /\
  any_blind (mkcomb 11 6) (prec_table (mkcomb 11 6)) c seed = ecmult_gen_blind c seed.
Proof. exact (conj (prop_default_mult c a) (prop_default_blind c seed)). Qed.
Print Assumptions C61_default_is_instance.
(** C61: the comb never reads the recoded scalar behind the end of its array: what lies there changes nothing. *)
Theorem C61_reads_in_bounds g c tabs d st behind : allowed g -> length tabs = blocks g ->
  any_outer (spacing g - 1) g c tabs (any_recode g d ++ behind) st = any_outer (spacing g - 1) g c tabs (any_recode g d) st.
Proof. exact (prop_reads_in_bounds g c tabs d st behind). Qed.
Print Assumptions C61_reads_in_bounds.
Example C61_example_tables : allowed (mkcomb 2 5) /\ length (prec_table (mkcomb 2 5)) = blocks (mkcomb 2 5).
Proof. split; [exact (proj1 ex_allowed)|]. unfold prec_table. now rewrite map_length, seq_length. Qed.
Example C61_example_configurations : allowed (mkcomb 2 5) /\ allowed (mkcomb 11 6) /\ allowed (mkcomb 43 6) /\ allowed (mkcomb 1 8) /\ allowed (mkcomb 256 1) /\
  ~ allowed (mkcomb 12 6).
Proof. exact ex_allowed. Qed.
Example C61_example_context : gen_context_of (mkcomb 43 6) (any_blind (mkcomb 43 6) (prec_table (mkcomb 43 6))
  (any_context_build (mkcomb 43 6) (prec_table (mkcomb 43 6)) (mkgen false (mksc 1 2 3 4) ge_const_g fe_one)) (Some (repeat 7 32))).
Proof. exact ex_context. Qed.
Example C61_example_coefficient : comb_coefficient (mkcomb 2 5) 26 1 5 = 2 ^ 130 - 2 ^ 156 + 2 ^ 182 - 2 ^ 208 - 2 ^ 234 /\ spacing_is (mkcomb 2 5) 26.
Proof. exact ex_coefficient. Qed.
