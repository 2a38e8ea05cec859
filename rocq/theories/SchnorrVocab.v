(** Vocabulary of the Schnorr property statements that refers to the modelled API. *)
Require Import ZArith List Bool String.
From Verif Require Import Spec SpecApi SpecBip340 ApiModel ApiVocab SchnorrModel.
Import ListNotations.
Local Open Scope Z_scope.

(** The algo argument of the nonce function. *)
Definition algo_bytes : list Z := ascii_bytes "BIP0340/nonce".
(** The nonce callback writes 32 bytes. *)
Definition hnonce_bytes (nf : nonce_function_hardened) (nd : option (list Z)) : Prop :=
  forall m key pk, bytes_n 32 (snd (nf (repeat 0 32) m key pk (Some algo_bytes) nd)).
(** The nonce function and its data in the optional extra parameters; the magic bytes of
    SECP256K1_SCHNORRSIG_EXTRAPARAMS_INIT. *)
Definition extra_nf (extra : option extraparams) : option nonce_function_hardened := match extra with Some ep => ep_noncefp ep | None => None end.
Definition extra_nd (extra : option extraparams) : option (list Z) := match extra with Some ep => ep_ndata ep | None => None end.
(** What is assumed of the callback: a caller's function writes 32 bytes; the built-in one
    gets 32 bytes of auxiliary data or none. *)
Definition nonce_assumption (nf : option nonce_function_hardened) (nd : option (list Z)) : Prop :=
  match nf with Some f => f = nonce_function_bip340 /\ opt_bytes 32 nd \/ hnonce_bytes f nd | None => opt_bytes 32 nd end.
Definition extra_magic (extra : option extraparams) : Prop := forall ep, extra = Some ep -> ep_magic ep = [0xda; 0x6f; 0xb3; 0x8c].
