(** Keys and signatures under every table configuration: C61. *)
Require Import ZArith List Bool.
From Verif Require Import Spec SpecApi SpecHash SpecRep SpecBip340 FieldModel ScalarModel GroupModel GenModel GenAnyModel ApiModel ApiVocab ExtrakeysModel SchnorrModel SchnorrVocab RecoveryModel EllswiftModel
  SpecGenAny GenApiModel GenApiProof.
From Verif Require KeyProps2 SchnorrProps.
Import ListNotations.
Local Open Scope Z_scope.

(** C61: a secret key has the same public key, byte for byte, in every build and every blinding. *)
Theorem C61_pubkey_create g ctx ctx' pk key : allowed g -> gen_context_of g (c_gen ctx) -> usable_context ctx' -> bytes_n 32 key ->
  ec_pubkey_create_by (any_ecmult_gen g (prec_table g)) ctx (Some pk) (Some key) = ec_pubkey_create ctx' (Some pk) (Some key).
Proof. exact (prop_any_create g ctx ctx' pk key). Qed.
Print Assumptions C61_pubkey_create.
(** C61: ECDSA signing gives the same signature in every build, for every nonce function that writes 32 bytes. *)
Theorem C61_ecdsa_sign g ctx ctx' fuel sig msg key nf nd : allowed g -> gen_context_of g (c_gen ctx) -> usable_context ctx' -> nonce_bytes (the_nonce nf) msg key nd ->
  ecdsa_sign_by (any_ecmult_gen g (prec_table g)) fuel ctx sig (Some msg) (Some key) nf nd = ecdsa_sign fuel ctx' sig (Some msg) (Some key) nf nd.
Proof. exact (prop_any_sign g ctx ctx' fuel sig msg key nf nd). Qed.
Print Assumptions C61_ecdsa_sign.
(** C61: Schnorr signing gives the same signature in every build. *)
Theorem C61_schnorrsig_sign g ctx ctx' init msg len m kp d nf nd nret nonce : allowed g -> gen_context_of g (c_gen ctx) -> usable_context ctx' ->
  is_message msg len m -> keypair_holds kp d ->
  let P := pmul d G in
  (match nf with Some f => f | None => nonce_function_bip340 end) (repeat 0 32) m
     (be_bytes 32 (if Z.odd (ycoord P) then n - d else d)) (be_bytes 32 (xcoord P)) (Some algo_bytes) nd = (nret, nonce) -> bytes_n 32 nonce ->
  schnorrsig_sign_internal_by (any_ecmult_gen g (prec_table g)) ctx (Some init) msg len (Some kp) nf nd = schnorrsig_sign_internal ctx' (Some init) msg len (Some kp) nf nd.
Proof. exact (prop_any_schnorr g ctx ctx' init msg len m kp d nf nd nret nonce). Qed.
Print Assumptions C61_schnorrsig_sign.
(** C61: so do key pairs, recoverable signatures and ElligatorSwift encodings. *)
Theorem C61_keypair_create g ctx ctx' kp key : allowed g -> gen_context_of g (c_gen ctx) -> usable_context ctx' -> bytes_n 32 key ->
  keypair_create_by (any_ecmult_gen g (prec_table g)) ctx (Some kp) (Some key) = keypair_create ctx' (Some kp) (Some key).
Proof. exact (prop_any_keypair g ctx ctx' kp key). Qed.
Print Assumptions C61_keypair_create.
Theorem C61_sign_recoverable g ctx ctx' fuel sig msg key nf nd : allowed g -> gen_context_of g (c_gen ctx) -> usable_context ctx' -> nonce_bytes (the_nonce nf) msg key nd ->
  ecdsa_sign_recoverable_by (any_ecmult_gen g (prec_table g)) fuel ctx sig (Some msg) (Some key) nf nd = ecdsa_sign_recoverable fuel ctx' sig (Some msg) (Some key) nf nd.
Proof. exact (prop_any_recoverable g ctx ctx' fuel sig msg key nf nd). Qed.
Print Assumptions C61_sign_recoverable.
Theorem C61_ellswift_create g ctx ctx' fuel ell key aux : allowed g -> gen_context_of g (c_gen ctx) -> usable_context ctx' -> bytes_n 32 key ->
  ellswift_create_by (any_ecmult_gen g (prec_table g)) fuel ctx (Some ell) (Some key) aux = ellswift_create fuel ctx' (Some ell) (Some key) aux.
Proof. exact (prop_any_ellswift g ctx ctx' fuel ell key aux). Qed.
Print Assumptions C61_ellswift_create.
(** C61: with the default multiplication the six functions are, for all arguments, those of the other claims. *)
Theorem C61_default_functions fuel ctx sig msg len key kp nf nd hnf hnd :
  ec_pubkey_create_by ecmult_gen ctx sig key = ec_pubkey_create ctx sig key /\
  ecdsa_sign_by ecmult_gen fuel ctx sig msg key nf nd = ecdsa_sign fuel ctx sig msg key nf nd /\
  schnorrsig_sign_internal_by ecmult_gen ctx sig msg len kp hnf hnd = schnorrsig_sign_internal ctx sig msg len kp hnf hnd /\
  keypair_create_by ecmult_gen ctx sig key = keypair_create ctx sig key /\
  ecdsa_sign_recoverable_by ecmult_gen fuel ctx sig msg key nf nd = ecdsa_sign_recoverable fuel ctx sig msg key nf nd /\
  ellswift_create_by ecmult_gen fuel ctx sig key nd = ellswift_create fuel ctx sig key nd.
Proof. exact (prop_default_functions fuel ctx sig msg len key kp nf nd hnf hnd). Qed.
Print Assumptions C61_default_functions.
Example C61_example_inputs : allowed (mkcomb 2 5) /\
  gen_context_of (mkcomb 2 5) (c_gen (mkctx (any_context_build (mkcomb 2 5) (prec_table (mkcomb 2 5)) (mkgen false (mksc 1 2 3 4) ge_const_g fe_one)) default_cb default_cb false)) /\
  usable_context KeyProps2.w_ctx.
Proof. exact (conj (proj1 GenAnyProps.ex_allowed) (conj (Built _ _) KeyProps2.w_ctx_ok)). Qed.
Example C61_example_nonces msg key nd : nonce_bytes (the_nonce (Some KeyProps2.w_nonce)) msg key nd /\
  keypair_holds (SchnorrProps.w_kp 5) 5 /\ is_message (Some [1; 2; 3; 4]) 3 [1; 2; 3].
Proof. exact (conj (KeyProps2.w_nonce_ok msg key nd) (conj (proj2 (SchnorrProps.w_kp_ok 5 (KeyProps2.w_small 5 KeyProps2.w_5))) SchnorrProps.w_msg)). Qed.
