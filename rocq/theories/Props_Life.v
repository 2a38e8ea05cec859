(** Creating, cloning and destroying contexts: C63. *)
Require Import ZArith List Bool String.
From Verif Require Import Spec SpecApi SpecHash SpecBip340 GenModel ApiModel ApiVocab LifeModel SpecLife LifeProof.
Import ListNotations.
Local Open Scope Z_scope.

(** C63: the self test never reports anything: its 32 bytes are the SHA-256 of its sentence and the code computes them. *)
Theorem C63_selftest : SHA256 selftest_input = selftest_output /\ selftest_passes = true /\ selftest = [].
Proof. exact prop_selftest. Qed.
Print Assumptions C63_selftest.
(** C63: the size functions answer with the size for valid flags and usable contexts, and otherwise report and answer 0. *)
Theorem C63_sizes size checkmem flags c :
  (flags_valid checkmem flags -> preallocated_size size checkmem flags = (size, [])) /\ (~ flags_valid checkmem flags -> preallocated_size size checkmem flags = (0, [Illegal default_cb])) /\
  (usable_context c -> preallocated_clone_size size c = (size, [])) /\ preallocated_clone_size size context_static = (0, [Illegal default_cb]).
Proof. exact (prop_sizes size checkmem flags c). Qed.
Print Assumptions C63_sizes.
(** C63: with valid flags and memory, secp256k1_context_create returns a context in one new block and reports nothing. *)
Theorem C63_create_valid size checkmem malloc mem flags : size <> 0 -> flags_valid checkmem flags -> malloc size = Some mem ->
  exists c, life_create size checkmem malloc flags = Done [] 1 (Some c) /\ usable_context c /\ c_illegal c = default_cb /\ c_error c = default_cb.
Proof. exact (prop_create_valid size checkmem malloc mem flags). Qed.
Print Assumptions C63_create_valid.
(** C63: with other flags it returns NULL, keeps no memory and reports the flags twice (and an out-of-memory error between
    if malloc(0) returns NULL, which C allows). *)
Theorem C63_create_invalid size checkmem malloc flags : size <> 0 -> ~ flags_valid checkmem flags ->
  life_create size checkmem malloc flags =
    Done ([Illegal default_cb] ++ (match malloc 0 with None => [Error default_cb] | Some _ => [] end) ++ [Illegal default_cb]) 0 None.
Proof. exact (prop_create_invalid size checkmem malloc flags). Qed.
Print Assumptions C63_create_invalid.
(** C63: without memory it reports to the default error callback; should that return, the code writes through NULL. *)
Theorem C63_create_out_of_memory size checkmem malloc flags : size <> 0 -> flags_valid checkmem flags -> malloc size = None ->
  life_create size checkmem malloc flags = Undefined [Error default_cb].
Proof. exact (prop_create_oom size checkmem malloc flags). Qed.
Print Assumptions C63_create_out_of_memory.
(** C63: creation in the caller's memory takes no block, whatever that memory held. *)
Theorem C63_preallocated_create size checkmem mem flags : size <> 0 ->
  (flags_valid checkmem flags -> exists c, life_preallocated_create size checkmem (Some mem) flags = Done [] 0 (Some c) /\ usable_context c /\ c_illegal c = default_cb /\ c_error c = default_cb) /\
  (~ flags_valid checkmem flags -> forall prealloc, life_preallocated_create size checkmem prealloc flags = Done [Illegal default_cb] 0 None).
Proof. exact (prop_prealloc_create size checkmem mem flags). Qed.
Print Assumptions C63_preallocated_create.
(** C63: cloning copies the context into one new block; without memory it reports to the context's own callbacks and returns NULL. *)
Theorem C63_clone size malloc c : usable_context c ->
  life_clone size malloc c = match malloc size with Some _ => Done [] 1 (Some c) | None => Done [Error (c_error c); Illegal (c_illegal c)] 0 None end.
Proof. exact (prop_clone size malloc c). Qed.
Print Assumptions C63_clone.
(** C63: cloning into the caller's memory takes no block. *)
Theorem C63_preallocated_clone c prealloc : usable_context c ->
  life_preallocated_clone c prealloc = match prealloc with Some _ => Done [] 0 (Some c) | None => Done [Illegal (c_illegal c)] 0 None end.
Proof. exact (prop_prealloc_clone c prealloc). Qed.
Print Assumptions C63_preallocated_clone.
(** C63: destroying frees the one block; the preallocated variant frees nothing and leaves no blinding value behind. *)
Theorem C63_destroy c : usable_context c -> life_destroy (Some c) = Done [] (-1) None /\
  (exists c', life_preallocated_destroy (Some c) = Done [] 0 (Some c') /\ c_gen c' = c_gen context_static).
Proof. exact (prop_destroy c). Qed.
Print Assumptions C63_destroy.
(** C63: the static context is neither cloned nor freed, and the attempt is reported; destroying NULL does nothing. *)
Theorem C63_static_and_null size malloc : life_clone size malloc context_static = Done [Illegal default_cb] 0 None /\
  life_destroy (Some context_static) = Done [Illegal default_cb] 0 (Some context_static) /\ life_destroy None = Done [] 0 None /\
  (forall prealloc, life_preallocated_clone context_static prealloc = Done [Illegal default_cb] 0 None) /\
  life_preallocated_destroy (Some context_static) = Done [Illegal default_cb] 0 (Some context_static) /\ life_preallocated_destroy None = Done [] 0 None.
Proof. exact (prop_static size malloc). Qed.
Print Assumptions C63_static_and_null.
(** C63: after every history, whatever malloc returned, the blocks in use are exactly the contexts held, and each of them is usable. *)
Theorem C63_histories size ops s : size <> 0 -> Forall life_ok ops -> life_run size ops life_start = Some s ->
  l_blocks s = holding (l_ctx s) /\ (forall i c, held s i = Some c -> usable_context c).
Proof. exact (prop_histories size ops s). Qed.
Print Assumptions C63_histories.
Example C63_example_history : Forall life_ok w_ops /\ exists s c, life_run 200 w_ops life_start = Some s /\ l_blocks s = 1 /\ l_ctx s = [None; Some c; None] /\
  l_reports s = [Error (mkcb 5 6); Illegal default_cb; Illegal default_cb].
Proof. exact w_run. Qed.
Example C63_example_flags : flags_valid false 1 /\ flags_valid false 0x301 /\ flags_valid true 0x401 /\ ~ flags_valid false 0x401 /\ ~ flags_valid true 0x102.
Proof. exact w_flags. Qed.
