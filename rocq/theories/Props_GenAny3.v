(** MuSig nonces under every table configuration: C61. *)
Require Import ZArith List Bool.
From Verif Require Import Spec SpecApi SpecHash SpecRep SpecBip340 SpecMusig FieldModel ScalarModel GroupModel GenModel GenAnyModel ApiModel ApiVocab ExtrakeysModel MusigModel MusigVocab
  SpecGenAny GenMusigModel GenMusigProof.
From Verif Require KeyProps2 SchnorrProps MusigWitness.
Import ListNotations.
Local Open Scope Z_scope.

(** C61: the secret and public nonces of a MuSig session are the same in every build and every blinding. *)
Theorem C61_musig_nonce_gen g ctx ctx' sn0 pn0 rand sk pk P m cache aggpk extra : allowed g -> gen_context_of g (c_gen ctx) ->
  usable_context ctx' -> bytes_n 32 rand -> opt_bytes 32 sk -> pubkey_holds pk P -> opt_bytes 32 m -> cache_arg cache aggpk -> opt_bytes 32 extra ->
  nonce_gen_k rand sk (cbytes P) aggpk m extra 0 <> 0 -> nonce_gen_k rand sk (cbytes P) aggpk m extra 1 <> 0 ->
  musig_nonce_gen_by (any_ecmult_gen g (prec_table g)) ctx sn0 (Some pn0) (Some rand) sk (Some pk) m cache extra = musig_nonce_gen ctx' sn0 (Some pn0) (Some rand) sk (Some pk) m cache extra.
Proof. exact (prop_any_musig g ctx ctx' sn0 pn0 rand sk pk P m cache aggpk extra). Qed.
Print Assumptions C61_musig_nonce_gen.
(** C61: likewise when the nonces come from a counter. *)
Theorem C61_musig_nonce_gen_counter g ctx ctx' sn0 pn0 cnt kp d m cache aggpk extra : allowed g -> gen_context_of g (c_gen ctx) ->
  usable_context ctx' -> 0 <= cnt < 2 ^ 64 -> keypair_holds kp d -> opt_bytes 32 m -> cache_arg cache aggpk -> opt_bytes 32 extra ->
  let rand := be_bytes 8 cnt ++ repeat 0 24 in
  nonce_gen_k rand (Some (be_bytes 32 d)) (cbytes (pmul d G)) aggpk m extra 0 <> 0 -> nonce_gen_k rand (Some (be_bytes 32 d)) (cbytes (pmul d G)) aggpk m extra 1 <> 0 ->
  musig_nonce_gen_counter_by (any_ecmult_gen g (prec_table g)) ctx sn0 (Some pn0) cnt (Some kp) m cache extra = musig_nonce_gen_counter ctx' sn0 (Some pn0) cnt (Some kp) m cache extra.
Proof. exact (prop_any_musig_counter g ctx ctx' sn0 pn0 cnt kp d m cache aggpk extra). Qed.
Print Assumptions C61_musig_nonce_gen_counter.
(** C61: with the default multiplication these are, for all arguments, the functions of the other claims. *)
Theorem C61_musig_default_functions ctx secnonce pubnonce rand cnt sk pk kp m cache extra :
  musig_nonce_gen_by ecmult_gen ctx secnonce pubnonce rand sk pk m cache extra = musig_nonce_gen ctx secnonce pubnonce rand sk pk m cache extra /\
  musig_nonce_gen_counter_by ecmult_gen ctx secnonce pubnonce cnt kp m cache extra = musig_nonce_gen_counter ctx secnonce pubnonce cnt kp m cache extra.
Proof. exact (conj (prop_musig_default ctx secnonce pubnonce rand sk pk m cache extra) (prop_musig_counter_default ctx secnonce pubnonce cnt kp m cache extra)). Qed.
Print Assumptions C61_musig_default_functions.
Example C61_example_musig : usable_context KeyProps2.w_ctx /\ bytes_n 32 (repeat 1 32) /\ pubkey_holds KeyProps2.w_pk G /\
  (forall i, i = 0 \/ i = 1 -> nonce_gen_k (repeat 1 32) (Some (KeyProps2.w_key 1)) (cbytes G) None None None i <> 0) /\
  keypair_holds (SchnorrProps.w_kp 1) 1 /\
  (forall i, i = 0 \/ i = 1 -> nonce_gen_k (be_bytes 8 3 ++ repeat 0 24) (Some (be_bytes 32 1)) (cbytes (pmul 1 G)) None None None i <> 0).
Proof.
  exact (conj KeyProps2.w_ctx_ok (conj (proj1 MusigWitness.w_rand) (conj KeyProps2.w_pk_ok (conj MusigWitness.w_nonces (conj (proj2 (SchnorrProps.w_kp_ok 1 MusigWitness.w_1)) MusigWitness.w_nonces_counter))))).
Qed.
