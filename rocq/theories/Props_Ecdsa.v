(** ECDSA and the context blinding: C01 - C04, C09, C19. *)
Require Import ZArith List Bool Permutation.
From Verif Require Import Spec SpecApi SpecHash GenModel ApiModel ApiVocab EcdsaProof2 KeyProps KeyProps2.
Import ListNotations.
Local Open Scope Z_scope.

(** C01: a signature that was produced verifies under the public key made from the same
    secret key, and is in lower-S form.  [fuel] bounds the number of nonces tried; the
    result [None] (not finished) is excluded by the hypothesis. *)
Theorem C01_sign_then_verify fuel ctx ctx' init init' msg key nf nd sig pk : usable_context ctx -> usable_context ctx' ->
  bytes_n 32 msg -> bytes_n 32 key -> nonce_bytes (the_nonce nf) msg key nd ->
  ecdsa_sign fuel ctx (Some init) (Some msg) (Some key) nf nd = Some (mkres 1 0 (Some sig)) ->
  ec_pubkey_create ctx' (Some init') (Some key) = mkres 1 0 (Some pk) ->
  ecdsa_verify (Some sig) (Some msg) (Some pk) = mkres 1 0 tt /\ exists r s, sig_holds sig r s /\ 1 <= r /\ 1 <= s <= n / 2.
Proof. exact (prop_sign_valid fuel ctx ctx' init init' msg key nf nd sig pk). Qed.
Print Assumptions C01_sign_then_verify.
(** The hypothesis on the nonce function holds for the default one. *)
Theorem C01_default_nonce msg key nd : bytes_n 32 msg -> bytes_n 32 key -> opt_bytes 32 nd -> nonce_bytes (the_nonce None) msg key nd.
Proof. exact (default_nonce_bytes msg key nd). Qed.
Print Assumptions C01_default_nonce.
Example C01_example : exists sig, ecdsa_sign 1 w_ctx (Some []) (Some (repeat 0 32)) (Some (w_key 1)) (Some w_nonce) None = Some (mkres 1 0 (Some sig)).
Proof. exact (w_sign []). Qed.
Example C01_example_key : exists pk, ec_pubkey_create w_ctx (Some []) (Some (w_key 1)) = mkres 1 0 (Some pk) /\ pubkey_holds pk (pmul 1 G).
Proof. exact (w_create 1 [] (w_small 1 w_1)). Qed.
(** C01: signing with a valid key succeeds as soon as the nonce function returns a
    usable nonce, with the textbook r and (lower) s for that nonce. *)
Theorem C01_sign_succeeds fuel ctx init msg key f nd i nonce : usable_context ctx -> bytes_n 32 msg -> seckey_valid key -> nonce_bytes f msg key nd ->
  Z.of_nat i < 2 ^ 32 -> (i < fuel)%nat ->
  f msg key None nd (Z.of_nat i) = Some nonce -> nonce_usable (be_val key) (be_val msg) nonce ->
  (forall j, (j < i)%nat -> exists l, f msg key None nd (Z.of_nat j) = Some l /\ ~ nonce_usable (be_val key) (be_val msg) l) ->
  exists sig, ecdsa_sign fuel ctx (Some init) (Some msg) (Some key) (Some f) nd = Some (mkres 1 0 (Some sig)) /\
    sig_holds sig (ecdsa_r (be_val nonce)) (ecdsa_low_s (be_val key) (be_val msg) (be_val nonce)).
Proof. exact (prop_sign_succeeds fuel ctx init msg key f nd i nonce). Qed.
Print Assumptions C01_sign_succeeds.
Example C01_example_usable : nonce_usable 1 0 (be_bytes 32 1). Proof. exact w_usable. Qed.

(** C02: verification accepts exactly the lower-S solutions of the ECDSA equation. *)
Theorem C02_verify_exact sig r s msg pk Q : sig_holds sig r s -> bytes_n 32 msg -> pubkey_holds pk Q ->
  (ecdsa_verify (Some sig) (Some msg) (Some pk) = mkres 1 0 tt /\ s <= n / 2 /\ ecdsa_valid Q (be_val msg) r s) \/
  (ecdsa_verify (Some sig) (Some msg) (Some pk) = mkres 0 0 tt /\ ~ (s <= n / 2 /\ ecdsa_valid Q (be_val msg) r s)).
Proof. exact (EcdsaProof.ecdsa_verify_ok sig r s msg pk Q). Qed.
Print Assumptions C02_verify_exact.
Example C02_example : sig_holds (le_enc 32 7 ++ le_enc 32 9) 7 9 /\ pubkey_holds w_pk G. Proof. exact (conj w_sig w_pk_ok). Qed.

(** C03: normalization. *)
Theorem C03_normalize init sig r s : sig_holds sig r s ->
  exists sig', sig_holds sig' r (if n / 2 <? s then n - s else s) /\
    ecdsa_signature_normalize (Some init) (Some sig) = mkres (if n / 2 <? s then 1 else 0) 0 (Some sig') /\
    ecdsa_signature_normalize None (Some sig) = mkres (if n / 2 <? s then 1 else 0) 0 None /\
    (if n / 2 <? s then n - s else s) <= n / 2 /\
    (forall init', ecdsa_signature_normalize (Some init') (Some sig') = mkres 0 0 (Some sig')) /\
    (forall Q m, on_curve Q -> (ecdsa_valid Q m r (if n / 2 <? s then n - s else s) <-> ecdsa_valid Q m r s)) /\
    (forall msg pk Q, bytes_n 32 msg -> pubkey_holds pk Q ->
       (ecdsa_verify (Some sig') (Some msg) (Some pk) = mkres 1 0 tt <-> ecdsa_valid Q (be_val msg) r s)).
Proof. exact (prop_normalize init sig r s). Qed.
Print Assumptions C03_normalize.
Example C03_example : sig_holds (le_enc 32 7 ++ le_enc 32 (n - 1)) 7 (n - 1) /\ (n / 2 <? n - 1) = true. Proof. exact w_high. Qed.

(** C04: signing fails closed. *)
Theorem C04_sign_result fuel ctx init msg key nf nd r : usable_context ctx -> bytes_n 32 msg -> bytes_n 32 key -> nonce_bytes (the_nonce nf) msg key nd ->
  ecdsa_sign fuel ctx (Some init) (Some msg) (Some key) nf nd = Some r ->
  (exists sig, r = mkres 1 0 (Some sig)) \/ r = mkres 0 0 (Some (repeat 0 64)).
Proof. exact (prop_sign_total fuel ctx init msg key nf nd r). Qed.
Print Assumptions C04_sign_result.
Theorem C04_sign_invalid_key fuel ctx init msg key nf nd r : usable_context ctx -> bytes_n 32 msg -> bytes_n 32 key -> nonce_bytes (the_nonce nf) msg key nd ->
  ~ 1 <= be_val key < n -> ecdsa_sign fuel ctx (Some init) (Some msg) (Some key) nf nd = Some r -> r = mkres 0 0 (Some (repeat 0 64)).
Proof. exact (prop_sign_bad_key fuel ctx init msg key nf nd r). Qed.
Print Assumptions C04_sign_invalid_key.
Theorem C04_sign_nonce_fails fuel ctx init msg key f nd i : usable_context ctx -> bytes_n 32 msg -> bytes_n 32 key -> nonce_bytes f msg key nd ->
  Z.of_nat i < 2 ^ 32 -> (i < fuel)%nat -> f msg key None nd (Z.of_nat i) = None ->
  (forall j l, (j < i)%nat -> f msg key None nd (Z.of_nat j) = Some l -> ~ nonce_usable (be_val key) (be_val msg) l) ->
  1 <= be_val key < n ->
  ecdsa_sign fuel ctx (Some init) (Some msg) (Some key) (Some f) nd = Some (mkres 0 0 (Some (repeat 0 64))).
Proof. exact (prop_sign_nonce_fails fuel ctx init msg key f nd i). Qed.
Print Assumptions C04_sign_nonce_fails.
Theorem C04_zero_signature_rejected msg pk Q : bytes_n 32 msg -> pubkey_holds pk Q -> ecdsa_verify (Some (repeat 0 64)) (Some msg) (Some pk) = mkres 0 0 tt.
Proof. exact (zero_sig_rejected msg pk Q). Qed.
Print Assumptions C04_zero_signature_rejected.
(** An invalid key (zero) and a nonce function that fails at the first call. *)
Example C04_example : bytes_n 32 (repeat 0 32) /\ ~ 1 <= be_val (repeat 0 32) < n /\ nonce_bytes (fun _ _ _ _ _ => None) (repeat 0 32) (w_key 1) None.
Proof. exact w_bad_key. Qed.

(** C09: the 64-byte compact encoding. *)
Theorem C09_compact init init' inp : bytes_n 64 inp ->
  let r := be_val (firstn 32 inp) in let s := be_val (skipn 32 inp) in
  ((r < n /\ s < n) /\ exists sig, ecdsa_signature_parse_compact (Some init) (Some inp) = mkres 1 0 (Some sig) /\ sig_holds sig r s /\
     ecdsa_signature_serialize_compact (Some init') (Some sig) = mkres 1 0 (Some inp)) \/
  (~ (r < n /\ s < n) /\ ecdsa_signature_parse_compact (Some init) (Some inp) = mkres 0 0 (Some (repeat 0 64)) /\
   forall msg pk Q, bytes_n 32 msg -> pubkey_holds pk Q -> ecdsa_verify (Some (repeat 0 64)) (Some msg) (Some pk) = mkres 0 0 tt).
Proof. exact (prop_compact init init' inp). Qed.
Print Assumptions C09_compact.
Example C09_example : bytes_n 64 (be_bytes 32 7 ++ be_bytes 32 n). Proof. exact w_compact. Qed.

(** C19: key generation and signing do not depend on the history of the context
    (creation, randomization with any seeds, cloning). *)
Theorem C19_pubkey_create_blinding c1 c2 init key : usable_context c1 -> usable_context c2 -> bytes_n 32 key ->
  ec_pubkey_create c1 (Some init) (Some key) = ec_pubkey_create c2 (Some init) (Some key).
Proof. exact (prop_create_indep c1 c2 init key). Qed.
Print Assumptions C19_pubkey_create_blinding.
Theorem C19_ecdsa_sign_blinding fuel c1 c2 init msg key nf nd : usable_context c1 -> usable_context c2 ->
  bytes_n 32 msg -> bytes_n 32 key -> nonce_bytes (the_nonce nf) msg key nd ->
  ecdsa_sign fuel c1 (Some init) (Some msg) (Some key) nf nd = ecdsa_sign fuel c2 (Some init) (Some msg) (Some key) nf nd.
Proof. exact (prop_sign_indep fuel c1 c2 init msg key nf nd). Qed.
Print Assumptions C19_ecdsa_sign_blinding.
Example C19_example : usable_context w_ctx /\ usable_context (r_out (context_randomize (r_out (context_randomize w_ctx (Some (w_key 77)))) None)).
Proof. exact w_randomized. Qed.
