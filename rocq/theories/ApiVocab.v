(** Vocabulary of the property statements that refers to the modelled API: which
    contexts a program can have, what is assumed of a nonce callback. *)
Require Import ZArith List Bool.
From Verif Require Import Spec SpecApi ApiModel.
Import ListNotations.
Local Open Scope Z_scope.

(** A context obtained by creating one, then any number of randomizations (with any
    seed, or NULL), clones and callback changes. *)
Inductive usable_context : context -> Prop :=
| uc_create checkmem mem flags c : context_create checkmem mem flags = Some c -> usable_context c
| uc_randomize c seed : usable_context c -> (forall s, seed = Some s -> bytes_n 32 s) -> usable_context (r_out (context_randomize c seed))
| uc_clone c mem c' : usable_context c -> r_out (context_clone c mem) = Some c' -> usable_context c'
| uc_illegal c fn data : usable_context c -> usable_context (r_out (context_set_illegal_callback false c fn data))
| uc_error c fn data : usable_context c -> usable_context (r_out (context_set_error_callback false c fn data)).

(** The nonce function used when the caller passes NULL is the RFC 6979 one. *)
Definition the_nonce (nf : option nonce_function) : nonce_function := match nf with Some f => f | None => nonce_function_rfc6979 end.
(** The nonce function writes 32 bytes. *)
Definition nonce_bytes (nf : nonce_function) (msg key : list Z) (nd : option (list Z)) : Prop := forall c l, nf msg key None nd c = Some l -> bytes_n 32 l.
(** Optional arguments. *)
Definition opt_bytes (k : nat) (o : option (list Z)) : Prop := forall l, o = Some l -> bytes_n k l.
Definition opt_cat (o : option (list Z)) : list Z := match o with Some l => l | None => [] end.
(** The SEC 1 encoding chosen by a flag. *)
Definition pubkey_enc (compressed : bool) (x y : Z) : list Z := if compressed then enc_compressed x y else enc_uncompressed x y.
