(** Constant-time selection helpers (C47). *)
Require Import ZArith List Bool Lia.
From Verif Require Import Word Spec SpecRep FieldModel ScalarModel GroupModel EcdsaModel ScalarProof ScalarProof2 RepProof ApiProof Int128Model SpecWords.
Local Open Scope Z_scope.

Lemma cm r a flag : is_u64 r -> is_u64 a -> flag = 0 \/ flag = 1 -> cmov64 r a flag = chosen flag r a.
Proof. intros R A F. rewrite cmov64_spec by assumption. destruct F as [-> | ->]; reflexivity. Qed.
Lemma sel_fe r a flag : fe_words r -> fe_words a -> flag = 0 \/ flag = 1 -> fe_cmov r a flag = chosen flag r a.
Proof.
  intros (A & B & C & D & E) (A' & B' & C' & D' & E') F. unfold fe_cmov. rewrite !cm by assumption. destruct r, a. now destruct F as [-> | ->].
Qed.
Lemma sel_fes r a flag : fes_words r -> fes_words a -> flag = 0 \/ flag = 1 -> fe_storage_cmov r a flag = chosen flag r a.
Proof.
  intros (A & B & C & D) (A' & B' & C' & D') F. unfold fe_storage_cmov. rewrite !cm by assumption. destruct r, a. now destruct F as [-> | ->].
Qed.
Lemma sel_gej r a flag : gej_words r -> gej_words a -> flag = 0 \/ flag = 1 -> gej_cmov r a flag = chosen flag r a.
Proof.
  intros (A & B & C) (A' & B' & C') F. unfold gej_cmov. rewrite !sel_fe by assumption. destruct r as [x y z [|]], a as [x' y' z' [|]]; now destruct F as [-> | ->].
Qed.
Lemma sel_ges r a flag : ges_words r -> ges_words a -> flag = 0 \/ flag = 1 -> ge_storage_cmov r a flag = chosen flag r a.
Proof.
  intros (A & B) (A' & B') F. unfold ge_storage_cmov. rewrite !sel_fes by assumption. destruct r, a. now destruct F as [-> | ->].
Qed.
Lemma sel_sc r a flag : scalar_words r -> scalar_words a -> flag = 0 \/ flag = 1 -> sc_cmov r a flag = chosen flag r a.
Proof. intros R A F. rewrite prop_sc_cmov by assumption. destruct F as [-> | ->]; reflexivity. Qed.
Lemma sel_int r a flag : 0 <= r < 2 ^ 31 -> 0 <= a < 2 ^ 31 -> flag = 0 \/ flag = 1 -> int_cmov r a flag = chosen flag r a.
Proof.
  intros Hr Ha [-> | ->]; unfold int_cmov, chosen; cbv zeta; cbn [Z.eqb Pos.eqb].
  - change (w32 (0 + (2 ^ 32 - 1))) with (2 ^ 32 - 1). rewrite Z.sub_diag, Z.land_0_r, Z.lor_0_r. rewrite land_ones_mod by lia. apply Z.mod_small. change (2 ^ 31) with 2147483648 in *. change (2 ^ 32) with 4294967296. lia.
  - change (w32 (1 + (2 ^ 32 - 1))) with 0. rewrite Z.sub_0_r, Z.land_0_r, Z.lor_0_l. rewrite land_ones_mod by lia. apply Z.mod_small. change (2 ^ 31) with 2147483648 in *. change (2 ^ 32) with 4294967296. lia.
Qed.
Lemma sel_zero l flag : byte_list l -> flag = 0 \/ flag = 1 -> memczero l flag = chosen flag l (repeat 0 (length l)).
Proof. intros B [-> | ->]; [now apply memczero_false|apply memczero_true]. Qed.
Lemma sel_negate a flag : scalar_valid a -> flag = 0 \/ flag = 1 ->
  scalar_valid (fst (sc_cond_negate a flag)) /\ scalar_int (fst (sc_cond_negate a flag)) = chosen flag (scalar_int a) ((- scalar_int a) mod n) /\
  snd (sc_cond_negate a flag) = chosen flag 1 (-1).
Proof.
  intros V F. pose proof (proj1 (valid_iff a) V) as V'. rewrite sc_cond_negate_ok by assumption. destruct (sc_negate_ok a V') as [A B]. rewrite valid_iff, !scalar_int_eq.
  destruct F as [-> | ->]; cbn [fst snd Z.eqb chosen]; auto.
Qed.
