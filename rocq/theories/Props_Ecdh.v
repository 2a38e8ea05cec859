(** ECDH and public key recovery: C20 - C22, and C19 for recoverable signing. *)
Require Import ZArith List Bool.
From Verif Require Import Spec SpecApi SpecHash SpecRec GenModel ApiModel ApiVocab EcdhModel RecoveryModel KeyProps2 EcdhProof.
Import ListNotations.
Local Open Scope Z_scope.

(** C20: secp256k1_ecdh hands the 32-byte coordinates of d * Q to the hash function (the
    default one if NULL is passed), for every valid secret key d and public key Q; an
    invalid secret key gives 0. *)
Theorem C20_ecdh_exact out pk Q key hf : pubkey_holds pk Q -> bytes_n 32 key ->
  (1 <= be_val key < n /\ exists x y, pmul (be_val key) Q = Aff x y /\
     forall ret out', (match hf with Some f => f | None => ecdh_hash_function_sha256 end) (be_bytes 32 x) (be_bytes 32 y) out = (ret, out') ->
       ecdh (Some out) (Some pk) (Some key) hf = mkres (if ret =? 0 then 0 else 1) 0 (Some out')) \/
  (~ 1 <= be_val key < n /\ r_ret (ecdh (Some out) (Some pk) (Some key) hf) = 0 /\ r_ill (ecdh (Some out) (Some pk) (Some key) hf) = 0).
Proof. exact (ecdh_ok out pk Q key hf). Qed.
Print Assumptions C20_ecdh_exact.
(** C20: both sides of an exchange get the same return value and the same output, for
    every hash function. *)
Theorem C20_ecdh_symmetric ctx ctx' i i' ka kb pka pkb out hf : usable_context ctx -> usable_context ctx' -> bytes_n 32 ka -> bytes_n 32 kb ->
  ec_pubkey_create ctx (Some i) (Some ka) = mkres 1 0 (Some pka) -> ec_pubkey_create ctx' (Some i') (Some kb) = mkres 1 0 (Some pkb) ->
  ecdh (Some out) (Some pkb) (Some ka) hf = ecdh (Some out) (Some pka) (Some kb) hf.
Proof. exact (prop_ecdh_symmetric ctx ctx' i i' ka kb pka pkb out hf). Qed.
Print Assumptions C20_ecdh_symmetric.
(** C20: the default hash function writes SHA256 of the compressed point. *)
Theorem C20_default_hash x y out : (32 <= length out)%nat ->
  ecdh_hash_function_sha256 (be_bytes 32 x) (be_bytes 32 y) out = (1, SHA256 (enc_compressed x y) ++ skipn 32 out).
Proof. exact (prop_ecdh_default x y out). Qed.
Print Assumptions C20_default_hash.
Example C20_example_key : exists pk, ec_pubkey_create w_ctx (Some []) (Some (w_key 5)) = mkres 1 0 (Some pk) /\ pubkey_holds pk (pmul 5 G).
Proof. exact (w_create 5 [] (w_small 5 w_5)). Qed.

(** C21: recovering from a signature made with a secret key gives its public key. *)
Theorem C21_recover_after_sign fuel ctx ctx' init init' init2 msg key nf nd sig pk : usable_context ctx -> usable_context ctx' ->
  bytes_n 32 msg -> bytes_n 32 key -> nonce_bytes (the_nonce nf) msg key nd ->
  ecdsa_sign_recoverable fuel ctx (Some init) (Some msg) (Some key) nf nd = Some (mkres 1 0 (Some sig)) ->
  ec_pubkey_create ctx' (Some init') (Some key) = mkres 1 0 (Some pk) ->
  ecdsa_recover (Some init2) (Some sig) (Some msg) = mkres 1 0 (Some pk).
Proof. exact (prop_recover_sign fuel ctx ctx' init init' init2 msg key nf nd sig pk). Qed.
Print Assumptions C21_recover_after_sign.
(** C21: recoverable signing either succeeds with a valid key or returns 0 and zeros. *)
Theorem C21_sign_result fuel ctx init msg key nf nd r : usable_context ctx -> bytes_n 32 msg -> bytes_n 32 key -> nonce_bytes (the_nonce nf) msg key nd ->
  ecdsa_sign_recoverable fuel ctx (Some init) (Some msg) (Some key) nf nd = Some r ->
  (1 <= be_val key < n /\ exists sig, r = mkres 1 0 (Some sig)) \/ r = mkres 0 0 (Some (repeat 0 65)).
Proof. exact (prop_sign_recoverable_total fuel ctx init msg key nf nd r). Qed.
Print Assumptions C21_sign_result.
(** C21: it succeeds exactly when secp256k1_ecdsa_sign does, with the same signature. *)
Theorem C21_sign_agrees fuel ctx init init' init2 msg key nf nd ret sig' : usable_context ctx -> bytes_n 32 msg -> bytes_n 32 key -> nonce_bytes (the_nonce nf) msg key nd ->
  ecdsa_sign fuel ctx (Some init') (Some msg) (Some key) nf nd = Some (mkres ret 0 (Some sig')) ->
  exists sig, ecdsa_sign_recoverable fuel ctx (Some init) (Some msg) (Some key) nf nd = Some (mkres ret 0 (Some sig)) /\
    recoverable_signature_convert (Some init2) (Some sig) = mkres 1 0 (Some sig').
Proof. exact (prop_convert_rev fuel ctx init init' init2 msg key nf nd ret sig'). Qed.
Print Assumptions C21_sign_agrees.
Theorem C21_sign_agrees_rev fuel ctx init init' init2 msg key nf nd ret sig : usable_context ctx -> bytes_n 32 msg -> bytes_n 32 key -> nonce_bytes (the_nonce nf) msg key nd ->
  ecdsa_sign_recoverable fuel ctx (Some init) (Some msg) (Some key) nf nd = Some (mkres ret 0 (Some sig)) ->
  exists sig', ecdsa_sign fuel ctx (Some init') (Some msg) (Some key) nf nd = Some (mkres ret 0 (Some sig')) /\
    recoverable_signature_convert (Some init2) (Some sig) = mkres 1 0 (Some sig').
Proof. exact (prop_convert fuel ctx init init' init2 msg key nf nd ret sig). Qed.
Print Assumptions C21_sign_agrees_rev.
(** C21: the compact encoding with its recovery id. *)
Theorem C21_compact init init' recid0 inp v : bytes_n 64 inp ->
  let r := be_val (firstn 32 inp) in let s := be_val (skipn 32 inp) in
  (0 <= v <= 3 /\ r < n /\ s < n /\ exists sig, recoverable_signature_parse_compact (Some init) (Some inp) v = mkres 1 0 (Some sig) /\ recsig_holds sig r s v /\
     recoverable_signature_serialize_compact (Some init') (Some recid0) (Some sig) = mkres 1 0 (Some inp, Some v)) \/
  (0 <= v <= 3 /\ ~ (r < n /\ s < n) /\ recoverable_signature_parse_compact (Some init) (Some inp) v = mkres 0 0 (Some (repeat 0 65))) \/
  (~ 0 <= v <= 3 /\ recoverable_signature_parse_compact (Some init) (Some inp) v = mkres 0 1 (Some init)).
Proof. exact (prop_rec_compact init init' recid0 inp v). Qed.
Print Assumptions C21_compact.
Example C21_example : exists sig, ecdsa_sign_recoverable 1 w_ctx (Some []) (Some (repeat 0 32)) (Some (w_key 1)) (Some w_nonce) None = Some (mkres 1 0 (Some sig)).
Proof. exact (w_rec_sign []). Qed.
Example C21_example_compact : bytes_n 64 (be_bytes 32 7 ++ be_bytes 32 n). Proof. exact w_compact. Qed.

(** C22: recovery returns the key given by the textbook equation, or 0 and zeros if there
    is none. *)
Theorem C22_recover_exact init sig r s v msg : recsig_holds sig r s v -> bytes_n 32 msg ->
  (exists Q pk, ecdsa_recover (Some init) (Some sig) (Some msg) = mkres 1 0 (Some pk) /\ recovers r s v (be_val msg) Q /\ pubkey_holds pk Q) \/
  (ecdsa_recover (Some init) (Some sig) (Some msg) = mkres 0 0 (Some (repeat 0 64)) /\ forall Q, ~ recovers r s v (be_val msg) Q).
Proof. exact (prop_recover_exact init sig r s v msg). Qed.
Print Assumptions C22_recover_exact.
(** C22: a recovered key satisfies the ECDSA equation, and the signature without its
    recovery id verifies after normalization; r and s are not zero. *)
Theorem C22_recovered_key_verifies init init2 init3 sig r s v msg pk : recsig_holds sig r s v -> bytes_n 32 msg ->
  ecdsa_recover (Some init) (Some sig) (Some msg) = mkres 1 0 (Some pk) ->
  exists Q, pubkey_holds pk Q /\ 1 <= r /\ 1 <= s /\ ecdsa_valid Q (be_val msg) r s /\
    exists sig1 sig2 ret, recoverable_signature_convert (Some init2) (Some sig) = mkres 1 0 (Some sig1) /\
      ecdsa_signature_normalize (Some init3) (Some sig1) = mkres ret 0 (Some sig2) /\
      ecdsa_verify (Some sig2) (Some msg) (Some pk) = mkres 1 0 tt.
Proof. exact (prop_recovered_verifies init init2 init3 sig r s v msg pk). Qed.
Print Assumptions C22_recovered_key_verifies.
Example C22_example : recsig_holds (le_enc 32 7 ++ le_enc 32 (n - 9) ++ [3]) 7 (n - 9) 3. Proof. exact w_recsig. Qed.
Example C22_example_recovers : recovers (ecdsa_r 1) (ecdsa_low_s 1 0 1) (ecdsa_recid 1 0 1) 0 (pmul 1 G). Proof. exact w_recovers. Qed.

(** C19: recoverable signing does not depend on the history of the context. *)
Theorem C19_sign_recoverable_blinding fuel c1 c2 init msg key nf nd : usable_context c1 -> usable_context c2 ->
  bytes_n 32 msg -> bytes_n 32 key -> nonce_bytes (the_nonce nf) msg key nd ->
  ecdsa_sign_recoverable fuel c1 (Some init) (Some msg) (Some key) nf nd = ecdsa_sign_recoverable fuel c2 (Some init) (Some msg) (Some key) nf nd.
Proof. exact (prop_sign_recoverable_indep fuel c1 c2 init msg key nf nd). Qed.
Print Assumptions C19_sign_recoverable_blinding.
Example C19_example_recoverable : usable_context w_ctx /\ usable_context (r_out (context_randomize (r_out (context_randomize w_ctx (Some (w_key 77)))) None)).
Proof. exact w_randomized. Qed.
