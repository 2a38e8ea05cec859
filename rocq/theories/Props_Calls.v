(** Argument checks and contexts: C37, C50. *)
Require Import ZArith List Bool.
From Verif Require Import Word Spec SpecApi ApiModel ApiVocab EcdhModel CallsVocab KeyProps2 CallsProps.
Import ListNotations.
Local Open Scope Z_scope.

(** C37: a call of any of the functions whose arguments satisfy the documented conditions
    never calls the illegal-argument callback. *)
Theorem C37_legal_never_reported c r ill : typed c -> args_ok c -> run_call c = Some (r, ill) -> ill = 0.
Proof. exact (prop_legal c r ill). Qed.
Print Assumptions C37_legal_never_reported.
Example C37_legal_example : exists c, typed c /\ args_ok c /\ exists r, run_call c = Some (r, 0).
Proof.
  exists (Call_ec_pubkey_create w_ctx (Some []) (Some (w_key 5))). split; [exact (proj1 w_legal_call)|]. split; [exact (proj2 w_legal_call)|]. exists 1.
  cbn [run_call]. destruct (w_create 5 [] (w_small 5 w_5)) as (pk & E & _). rewrite E. reflexivity.
Qed.

(** C37: otherwise the function calls it exactly once and returns 0, without undefined
    behaviour, except that four functions return 0 beforehand when the remaining arguments
    are such that no public key (no other argument, for nonce generation) would help. *)
Theorem C37_illegal_reported c : typed c -> ~ args_ok c -> ~ goes_on c ->
  run_call c = Some (0, 1) \/ (run_call c = Some (0, 0) /\ rejected_anyway c).
Proof. exact (prop_illegal c). Qed.
Print Assumptions C37_illegal_reported.
Example C37_illegal_example : exists c, typed c /\ ~ args_ok c /\ ~ goes_on c.
Proof. exact (ex_intro _ _ w_illegal_call). Qed.

(** C37: the functions that go on after an invalid key object (comparison, sorting,
    combination, ECDH) do report it, and all return 0 when a pointer is missing.  Sorting
    an array with invalid objects is left out of the first of these: whether all are
    looked at depends on the order of the comparisons. *)
Theorem C37_going_on_reports c : typed c -> ~ args_ok c -> goes_on c -> (forall pks count, c <> Call_ec_pubkey_sort (Some pks) count) ->
  exists r ill, run_call c = Some (r, ill) /\ 0 < ill.
Proof. exact (prop_goes_on c). Qed.
Print Assumptions C37_going_on_reports.
Theorem C37_missing_pointer c : missing c -> exists ill, run_call c = Some (0, ill) /\ 0 < ill.
Proof. exact (prop_missing c). Qed.
Print Assumptions C37_missing_pointer.
Example C37_going_on_example : let c := Call_ec_pubkey_cmp (Some (repeat 0 64)) None in typed c /\ ~ args_ok c /\ goes_on c.
Proof. split; [exact (conj w_zero_typed I)|]. split; [|exact I]. intros H. exact (w_zero_bad (proj1 H)). Qed.
Example C37_missing_example : missing (Call_ec_pubkey_combine (Some (repeat 0 64)) (Some [Some (repeat 0 64); None])).
Proof. right. intros [_ H]. inversion H as [|x l A B]. inversion B as [|y l' A' B']. exact A'. Qed.

(** C37: "and returns 0" is false for two of these: given an invalid key object,
    combination and (with a caller's hash function) ECDH call the callback, then use
    the object and return 1. *)
Theorem C37_combine_returns_0_refuted : exists c, typed c /\ ~ args_ok c /\ run_call c = Some (1, 1).
Proof. exact prop_combine_refuted. Qed.
Print Assumptions C37_combine_returns_0_refuted.
Theorem C37_ecdh_returns_0_refuted : exists out key hash, bytes_n 32 key /\ 1 <= be_val key < n /\
  typed (Call_ecdh out (Some (repeat 0 64)) (Some key) hash) /\ ~ args_ok (Call_ecdh out (Some (repeat 0 64)) (Some key) hash) /\
  run_call (Call_ecdh out (Some (repeat 0 64)) (Some key) hash) = Some (1, 1).
Proof. exact prop_ecdh_refuted. Qed.
Print Assumptions C37_ecdh_returns_0_refuted.

(** C50: after any history of context operations and calls the static context is
    unchanged, and every live context is one that was created or cloned, then only
    randomized and given callbacks; such a context gives the same results as a fresh
    one (C19). *)
Theorem C50_static_unchanged_others_usable ops w : Forall op_ok ops -> run_ops ops init_world = Some w ->
  w_static w = context_static /\ forall k c, w_heap w k = Some c -> usable_context c.
Proof. exact (prop_history_usable ops w). Qed.
Print Assumptions C50_static_unchanged_others_usable.
Example C50_example : Forall op_ok w_ops /\ exists w c, run_ops w_ops init_world = Some w /\ w_heap w 1%nat = Some c /\ c_illegal c = mkcb 7 8 /\ c_error c = mkcb 3 4.
Proof.
  split; [|exact w_ops_run]. unfold w_ops. repeat (constructor; [first [exact I|intros s E; discriminate E|intros s E; injection E as <-; exact (proj1 (w_key_ok 5 (w_small 5 w_5)))]|]). constructor.
Qed.

(** C50: over any history in which place [k] is not destroyed or reused, the blinding of
    the context there changes only by randomizing it, and its callbacks are the last ones
    set on it. *)
Theorem C50_changes_only_by_randomize_and_setters ops w w' k c : run_ops ops w = Some w' -> w_heap w k = Some c ->
  (forall op, In op ops -> ~ makes op k /\ op <> Op_destroy (Heap k)) ->
  exists c', w_heap w' k = Some c' /\ c_declassify c' = c_declassify c /\
    ((forall seed, ~ In (Op_randomize (Heap k) seed) ops) -> c_gen c' = c_gen c) /\
    c_illegal c' = last_set (sets_illegal k) ops (c_illegal c) /\ c_error c' = last_set (sets_error k) ops (c_error c).
Proof. exact (prop_history_fields ops w w' k c). Qed.
Print Assumptions C50_changes_only_by_randomize_and_setters.
Example C50_changes_example : let ops := [Op_set_illegal (Heap 1) 3 4; Op_clone (Heap 1) 2 context_static] in forall op, In op ops -> ~ makes op 1 /\ op <> Op_destroy (Heap 1).
Proof. intros ops op [<-|[<-|[]]]; (split; [first [exact (fun x => x)|discriminate]|discriminate]). Qed.

(** C50: a clone is the same context in another place. *)
Theorem C50_clone_is_equal w p k mem c w' : deref w p = Some c -> usable_context c -> run_ops [Op_clone p k mem] w = Some w' -> w_heap w' k = Some c.
Proof. exact (prop_clone w p k mem c w'). Qed.
Print Assumptions C50_clone_is_equal.
Example C50_clone_example : exists w', run_ops [Op_clone (Heap 0) 1 context_static] (mkworld context_static (fun k => Some w_ctx)) = Some w'.
Proof. eexists. exact eq_refl. Qed.

(** C50: every function that computes with the generator refuses the static context. *)
Theorem C50_static_cannot_sign c : typed c -> call_context c = Some context_static ->
  run_call c = Some (0, 1) \/ (run_call c = Some (0, 0) /\ rejected_anyway c).
Proof. exact (prop_static_refused c). Qed.
Print Assumptions C50_static_cannot_sign.
Example C50_static_example : typed (Call_ec_pubkey_create context_static (Some []) (Some (w_key 5))) /\ call_context (Call_ec_pubkey_create context_static (Some []) (Some (w_key 5))) = Some context_static.
Proof. exact (conj (proj1 w_illegal_call) eq_refl). Qed.
