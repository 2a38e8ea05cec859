(** C58: timing does not depend on secrets. *)
Require Import ZArith List String.
From Verif Require Import CtLang CtCheck CtReach Ct64_Code Ct32_Code CtProps.
Import ListNotations.
Local Open Scope string_scope.
Local Open Scope list_scope.
Local Open Scope Z_scope.

(** In both builds, the branches taken, the addresses read and written, the operands of divisions, the arguments of
    library functions and the functions called by these API functions do not depend on the contents of secret memory:
    secret keys, nonces, and everything computed from them. *)
Theorem C58_nothing_seen f :
  In f ["secp256k1_ec_seckey_verify"; "secp256k1_ec_pubkey_create"; "secp256k1_ec_seckey_negate"; "secp256k1_ec_seckey_tweak_add";
        "secp256k1_ec_seckey_tweak_mul"; "secp256k1_context_randomize"; "secp256k1_keypair_sec"; "secp256k1_keypair_create";
        "secp256k1_ecdh"; "secp256k1_ellswift_xdh"] ->
  keeps_secrets c64_program [] f /\ keeps_secrets c32_program [] f.
Proof. exact (prop_nothing_seen f). Qed.
Print Assumptions C58_nothing_seen.

(** ECDSA signing: only whether the nonce was valid, and, at the end of an attempt, whether it gave a signature. *)
Theorem C58_ecdsa_sign f :
  In f ["secp256k1_ecdsa_sign"; "secp256k1_ecdsa_sign_recoverable"] ->
  let seen := ["secp256k1_ecdsa_sign_inner: is_nonce_valid"; "secp256k1_ecdsa_sign_inner: ret"] in
  keeps_secrets c64_program seen f /\ keeps_secrets c32_program seen f.
Proof. exact (prop_ecdsa_sign_seen f). Qed.
Print Assumptions C58_ecdsa_sign.

(** Schnorr signing: only whether the keypair holds a valid key, its public key, and the public nonce, which is half of the signature. *)
Theorem C58_schnorrsig_sign f :
  In f ["secp256k1_schnorrsig_sign32"; "secp256k1_schnorrsig_sign_custom"] ->
  let seen := ["secp256k1_keypair_seckey_load: ret"; "secp256k1_keypair_load: pubkey"; "secp256k1_schnorrsig_sign_internal: &r"] in
  keeps_secrets c64_program seen f /\ keeps_secrets c32_program seen f.
Proof. exact (prop_schnorrsig_seen f). Qed.
Print Assumptions C58_schnorrsig_sign.

(** Tweaking a keypair: only whether it holds a valid key, its public key, and the result. *)
Theorem C58_keypair_tweak :
  let seen := ["secp256k1_keypair_seckey_load: ret"; "secp256k1_keypair_load: pubkey"; "secp256k1_keypair_xonly_tweak_add: ret"] in
  keeps_secrets c64_program seen "secp256k1_keypair_xonly_tweak_add" /\ keeps_secrets c32_program seen "secp256k1_keypair_xonly_tweak_add".
Proof. exact prop_keypair_tweak_seen. Qed.
Print Assumptions C58_keypair_tweak.

(** Making an ElligatorSwift key: only the public key and a hash of the secret key. *)
Theorem C58_ellswift_create :
  let seen := ["secp256k1_ellswift_create: &p"; "secp256k1_ellswift_create: &hash"] in
  keeps_secrets c64_program seen "secp256k1_ellswift_create" /\ keeps_secrets c32_program seen "secp256k1_ellswift_create".
Proof. exact prop_ellswift_create_seen. Qed.
Print Assumptions C58_ellswift_create.

(** MuSig nonces: only whether the session randomness is zero, the tag and public key in the secret nonce, and the public nonce. *)
Theorem C58_musig_nonce_gen :
  let seen := ["secp256k1_musig_secnonce_invalidate: secnonce->data"; "secp256k1_musig_secnonce_invalidate: &secnonce->data[68]";
               "secp256k1_musig_nonce_gen_internal: &nonce_pts[i]"; "secp256k1_musig_nonce_gen: ret"] in
  keeps_secrets c64_program seen "secp256k1_musig_nonce_gen" /\ keeps_secrets c32_program seen "secp256k1_musig_nonce_gen".
Proof. exact prop_musig_nonce_gen_seen. Qed.
Print Assumptions C58_musig_nonce_gen.

(** MuSig nonces from a counter, which may be secret: the same, and whether the keypair holds a valid key. *)
Theorem C58_musig_nonce_gen_counter :
  let seen := ["secp256k1_musig_secnonce_invalidate: secnonce->data"; "secp256k1_musig_secnonce_invalidate: &secnonce->data[68]";
               "secp256k1_musig_nonce_gen_internal: &nonce_pts[i]"; "secp256k1_musig_nonce_gen_counter: secret key is valid"] in
  keeps_secrets c64_program seen "secp256k1_musig_nonce_gen_counter" /\ keeps_secrets c32_program seen "secp256k1_musig_nonce_gen_counter".
Proof. exact prop_musig_nonce_gen_counter_seen. Qed.
Print Assumptions C58_musig_nonce_gen_counter.

(** MuSig partial signing: only whether the secret nonce was used before, whether the keypair holds a valid key, and its public key. *)
Theorem C58_musig_partial_sign :
  let seen := ["secp256k1_musig_secnonce_load: is_zero"; "secp256k1_keypair_seckey_load: ret"; "secp256k1_keypair_load: pubkey"] in
  keeps_secrets c64_program seen "secp256k1_musig_partial_sign" /\ keeps_secrets c32_program seen "secp256k1_musig_partial_sign".
Proof. exact prop_musig_partial_sign_seen. Qed.
Print Assumptions C58_musig_partial_sign.

(** The translated code runs: key checks on the secret keys 0, 1, n - 1, n and n + 1 give the right answers, and 106 (95) events that are the same for all. *)
Example C58_runs :
  let n := 0xFFFFFFFFFFFFFFFFFFFFFFFFFFFFFFFEBAAEDCE6AF48A03BBFD25E8CD0364141 in
  let keys := [0; 1; n - 1; n; n + 1] in
  map (fun k => fst (fst (verify_key c64_program k))) keys = [Returned 0; Returned 1; Returned 1; Returned 0; Returned 0] /\
  map (fun k => fst (fst (verify_key c32_program k))) keys = [Returned 0; Returned 1; Returned 1; Returned 0; Returned 0] /\
  map (fun k => List.length (snd (verify_key c64_program k))) keys = repeat 106%nat 5 /\
  map (fun k => snd (verify_key c32_program k)) keys = repeat (snd (verify_key c32_program 1)) 5.
Proof. vm_compute. repeat split. Qed.
(** Functions that branch on a secret, use it as an index or divide it do not keep it. *)
Example C58_leaks : ~ keeps_secrets [leak_branch] [] "leak" /\ ~ keeps_secrets [leak_index] [] "leak" /\ ~ keeps_secrets [leak_divide] [] "leak".
Proof. split; [|split]; apply leaks; first [reflexivity|split; [reflexivity|exact I]|vm_compute; discriminate]. Qed.
