(** The multiplication of src/ecmult_impl.h for every window size a program can be compiled
    with (ECMULT_WINDOW_SIZE), and the tables of src/precomputed_ecmult.c.  EcmultModel has the default
    size 15. *)
Require Import ZArith List Bool.
From Verif Require Import Word FieldModel ScalarModel GroupModel EcmultModel.
Import ListNotations.
Local Open Scope Z_scope.

(** src/ecmult.h:37-39 (the check of ECMULT_WINDOW_SIZE at compile time). *)
Definition window_compiles (w : Z) : bool := negb ((w <? 2) || (w >? 24)).

(** src/precompute_ecmult.c:21-42 print_table, and what the preprocessor leaves of its output when
    WINDOW_G is [w]: [print_chunks] is the loop over i, one chunk between #if and #endif for each
    turn ([k] is the number of turns left). *)
Fixpoint print_chunks (k : nat) (i : Z) (j : nat) (w : Z) (table : list ge_storage) : list ge_storage :=
  match k with
  | O => []
  | S k' =>
    let chunk := firstn (table_size i - j) (skipn j table) in
    (if w >? i - 1 then chunk else []) ++ print_chunks k' (i + 1) (Nat.max j (table_size i)) w table
  end.
Definition print_table (window_g : Z) (w : Z) (table : list ge_storage) : list ge_storage :=
  firstn 1 table ++ print_chunks (Z.to_nat (window_g - 2)) 3 1 w table.
(** src/precompute_ecmult.c:57-96 main: the window size the table file is made for by a generator compiled
    with ECMULT_WINDOW_SIZE [built] (line 59), and the checks a program compiled with [w] must pass: those of ecmult.h
    in both programs and the #error main writes into the file (lines 77-79). *)
Definition file_window (built : Z) : Z := if built <? 15 then 15 else built.
Definition program_compiles (built w : Z) : bool :=
  window_compiles built && window_compiles w && negb (w >? file_window built).
(** src/precompute_ecmult.c:44-55 print_two_tables with [window_g] as chosen by main of the
    generator compiled for window size [built], included in a program compiled for [w]. *)
Definition precomputed (built w : Z) : list ge_storage * list ge_storage :=
  let window_g := file_window built in
  let (table, table_128) := compute_two_tables (table_size window_g) ge_const_g in
  (print_table window_g w table, print_table window_g w table_128).

(** src/ecmult_impl.h:237-347 secp256k1_ecmult_strauss_wnaf with WINDOW_G [w] and the arrays
    secp256k1_pre_g, secp256k1_pre_g_128 as arguments.  The loop over the digits (lines 319-342). *)
Fixpoint win_loop (i : nat) (pre pre128 : list ge_storage) (ps : list strauss_ps) (pre_a : list ge) (aux : list fe)
  (g1 g128 : list Z * Z) (Zv : fe) (r : gej) : gej :=
  match i with
  | O => r
  | S i' =>
    let r := gej_double_var r in
    let r := strauss_points (Z.of_nat i') ps pre_a aux r in
    let r := strauss_gen (Z.of_nat i') g1 pre Zv r in
    let r := strauss_gen (Z.of_nat i') g128 pre128 Zv r in
    win_loop i' pre pre128 ps pre_a aux g1 g128 Zv r
  end.
(** src/ecmult_impl.h:237-347 secp256k1_ecmult_strauss_wnaf. *)
Definition win_strauss (w : Z) (pre pre128 : list ge_storage) (l : list (gej * sc)) (ng : option sc) : gej :=
  let '(ps, tab, Zv) := strauss_prep l [] [] (fe_set_int 1) in
  let pre_a := ge_table_set_globalz tab in
  let aux := map (fun g => fe_mul (gx g) const_beta) pre_a in
  let '(g1, g128) :=
    match ng with
    | None => (([], 0), ([], 0))
    | Some k => let (k1, k128) := sc_split_128 k in (ecmult_wnaf 129 k1 w, ecmult_wnaf 129 k128 w)
    end in
  let bits := Z.max (Z.max (strauss_bits ps) (snd g1)) (snd g128) in
  let r := win_loop (Z.to_nat bits) pre pre128 ps pre_a aux g1 g128 Zv gej_infinity in
  if jinf r then r else mkgej (jx r) (jy r) (fe_mul (jz r) Zv) (jinf r).
(** src/ecmult_impl.h:349-359 secp256k1_ecmult. *)
Definition win_ecmult (w : Z) (pre pre128 : list ge_storage) (a : gej) (na : sc) (ng : option sc) : gej :=
  win_strauss w pre pre128 [(a, na)] ng.
