(** Comparing and sorting public keys: C17, C18. *)
Require Import ZArith List Bool Permutation Sorted.
From Verif Require Import Spec SpecApi SpecSort ApiModel HsortModel SortProof KeyProps2.
Import ListNotations.
Local Open Scope Z_scope.

(** C17: the sign of the result is that of the lexicographic comparison of the
    compressed encodings, and no callback is called for valid keys. *)
Theorem C17_cmp_is_lexicographic a b ea eb : key_encoding a ea -> key_encoding b eb ->
  exists c ill, ec_pubkey_cmp a b = Some (mkres c ill tt) /\ (c ?= 0) = lex ea eb /\ (key_valid a -> key_valid b -> ill = 0).
Proof. exact (prop_cmp a b ea eb). Qed.
Print Assumptions C17_cmp_is_lexicographic.
(** C17: for all pointers whatever, including to garbage: antisymmetric and transitive;
    zero only on equal keys. *)
Theorem C17_cmp_total_order a b c : exists ab ba bc ac i1 i2 i3 i4,
  ec_pubkey_cmp a b = Some (mkres ab i1 tt) /\ ec_pubkey_cmp b a = Some (mkres ba i2 tt) /\ ec_pubkey_cmp b c = Some (mkres bc i3 tt) /\
  ec_pubkey_cmp a c = Some (mkres ac i4 tt) /\ Z.sgn ba = - Z.sgn ab /\ (ab <= 0 -> bc <= 0 -> ac <= 0) /\
  (ab = 0 -> key_valid a -> key_valid b -> a = b).
Proof. exact (prop_cmp_order a b c). Qed.
Print Assumptions C17_cmp_total_order.
Example C17_example : key_encoding (Some w_pk) (enc_compressed Gx Gy) /\ key_encoding None (repeat 0 33).
Proof. exact (conj (ke_valid _ _ _ w_pk_ok) ke_null). Qed.

(** C18: sorting the first keys of an array ends, stays inside the array (the outcome
    [None] is an access outside or a loop that does not end), permutes them, sorts
    them and leaves the rest of the memory alone. *)
Theorem C18_pubkey_sort pks rest : Forall (fun pk => exists e, key_encoding pk e) pks ->
  exists pks' ill, ec_pubkey_sort (Some (pks ++ rest)) (length pks) = Some (mkres 1 ill (Some (pks' ++ rest))) /\
    Permutation pks pks' /\ StronglySorted key_le pks' /\ (Forall key_valid (pks ++ rest) -> ill = 0).
Proof. exact (prop_sort pks rest). Qed.
Print Assumptions C18_pubkey_sort.
Example C18_example : Forall (fun pk => exists e, key_encoding pk e) [Some w_pk; None; Some (repeat 0 64)].
Proof. exact w_keys. Qed.
(** C18: the same for elements of any type; a permutation for any comparison function. *)
Theorem C18_hsort {A} (cmp : A -> A -> Z) arr rest :
  exists arr', hsort (fun x y => (cmp x y, 0)) (arr ++ rest) (length arr) = Some (arr' ++ rest, 0) /\ Permutation arr arr' /\
    (total_preorder cmp -> StronglySorted (fun a b => cmp a b <= 0) arr').
Proof. exact (prop_hsort cmp arr rest). Qed.
Print Assumptions C18_hsort.
Example C18_example_preorder : total_preorder (fun x y : Z => x / 2 - y / 2). Proof. exact w_preorder. Qed.
(** C18: the swap of two elements of [stride] bytes, in chunks of 64 bytes. *)
Theorem C18_heap_swap P x Q y R i j stride : Z.of_nat (length x) = stride -> Z.of_nat (length y) = stride ->
  Z.of_nat (length P) = i * stride -> Z.of_nat (length (P ++ x ++ Q)) = j * stride ->
  heap_swap_bytes (P ++ x ++ Q ++ y ++ R) i j stride = Some (P ++ y ++ Q ++ x ++ R) /\
  heap_swap_bytes (P ++ x ++ Q ++ y ++ R) j i stride = Some (P ++ y ++ Q ++ x ++ R).
Proof. exact (prop_heap_swap P x Q y R i j stride). Qed.
Print Assumptions C18_heap_swap.
Example C18_example_swap : heap_swap_bytes ([1; 2] ++ [3; 4] ++ [5; 6] ++ [7; 8] ++ []) 1 3 2 = Some [1; 2; 7; 8; 5; 6; 3; 4].
Proof. reflexivity. Qed.
