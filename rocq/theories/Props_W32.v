(** C57: the 32-bit build and the 64-bit build give the same answers. *)
Require Import ZArith List Bool.
From Verif Require Import Spec SpecApi GenModel ApiModel ApiVocab CallsVocab KeyProps2 W32_Api W32_Gen W32_Vocab W32_Props.
Import ListNotations.
Local Open Scope Z_scope.

(** Any sequence of calls (contexts made, cloned, randomized, destroyed and used) is answered alike by a
    library built with the 5x52/4x64 field and scalar code and one built with the 10x26/8x32 code, whatever
    the two builds' memory held before. Objects passed in are typed: a signature object is one some call wrote. *)
Theorem C57_builds_agree mem32 mem64 ops : Forall operation_typed ops ->
  observe32 mem32 init_world32 ops = observe64 mem64 init_world ops.
Proof. intros H. exact (prop_w32 mem32 mem64 ops H init_world32 init_world r_init). Qed.
Print Assumptions C57_builds_agree.

(** The typing asked of signature objects is met by every signature object the library writes. *)
Theorem C57_signature_objects mem ops p k l a : Forall operation_typed ops -> call_typed k ->
  observe64 mem init_world (ops ++ [O_call p k]) = Some (l ++ [a]) -> ans_illegal a = 0 ->
  forall b, In (Buf (Some b)) (ans_out a) -> (writes_signature k -> sig_object b) /\ (writes_recsig k -> recsig_object b).
Proof. exact (prop_sig_objects mem ops p k l a). Qed.
Print Assumptions C57_signature_objects.

(** A history that creates a context, checks a key, makes its public key, misuses the static context and
    destroys the context: all five answers on the 32-bit build. *)
Example C57_history mem : Forall operation_typed w_history /\
  exists pk, pubkey_holds pk (pmul 5 G) /\
    observe32 mem init_world32 w_history =
    Some [mkanswer 1 0 []; mkanswer 1 0 []; mkanswer 1 0 [Buf (Some pk)]; mkanswer 0 1 [Buf None]; mkanswer 0 0 []].
Proof.
  split; [exact w_history_typed|]. destruct (w_history_seen context_static) as (pk & P & E). exists pk. split; [exact P|].
  rewrite <- E. exact (C57_builds_agree mem context_static w_history w_history_typed).
Qed.
(** A call that writes a signature object: parsing the compact signature (7, 9). *)
Example C57_parse_compact mem : call_typed (W_ecdsa_signature_parse_compact (Some []) (Some w_compact)) /\
  writes_signature (W_ecdsa_signature_parse_compact (Some []) (Some w_compact)) /\
  observe64 mem init_world ([] ++ [O_call Static (W_ecdsa_signature_parse_compact (Some []) (Some w_compact))]) =
  Some ([] ++ [mkanswer 1 0 [Buf (Some ([7] ++ zeros 31 ++ [9] ++ zeros 31))]]).
Proof. split; [exact (proj1 (w_compact_seen mem))|]. split; [exact I|exact (proj2 (w_compact_seen mem))]. Qed.
