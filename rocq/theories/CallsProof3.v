Require Import ZArith List Bool Lia.
From Verif Require Import Word Bytes Spec SpecApi FieldModel FieldMul FieldOps FieldProof2 FieldBytes ScalarModel ScalarProof2 GroupModel GroupProof5 GenModel HashModel EcmultModel EcdsaModel ApiModel ApiVocab ApiProof ApiProof2 RecoveryModel EcdhModel HsortModel SortProof ExtrakeysModel ExtrakeysProof SchnorrModel EllswiftModel MusigModel CallsVocab CallsProof CallsProof2.
Import ListNotations.
Local Open Scope Z_scope.
Local Opaque pubkey_load fe_get_b32 sc_set_b32 sc_set_b32_seckey eckey_pubkey_serialize eckey_pubkey_parse ecmult ecmult_gen keypair_load keypair_load_pk
  keyagg_cache_load musig_pubnonce_load musig_aggnonce_load musig_session_load musig_partial_sig_load musig_secnonce_load
  ecdsa_sign_inner ec_pubkey_create_helper ec_pubkey_tweak_add_helper ec_seckey_tweak_add_helper memcmp_var.

Lemma some_inj (a b r i : Z) : Some (a, b) = Some (r, i) -> b = i.
Proof. intros H. now injection H. Qed.

(** Split the optional pointers, drop the cases where a required one is NULL. *)
Ltac opts := repeat match goal with
  | o : option _ |- _ => destruct o
  end; cbn [to given optional typed args_ok rejected_anyway goes_on] in *.
Ltac conj := repeat match goal with H : _ /\ _ |- _ => destruct H | H : True |- _ => clear H | H : False |- _ => destruct H end.
Ltac loads_t := repeat match goal with
  | B : bytes_n 64 ?pk, H : pk_ok ?pk |- context [pubkey_load ?pk] => let g := fresh "g" in let E := fresh "E" in destruct (load_t pk B H) as [g E]; rewrite E; clear E
  | B : bytes_n 96 ?kp, H : kp_ok ?kp |- context [keypair_load ?kp] => let g := fresh "g" in let E := fresh "E" in destruct (kp_t kp B H) as [g E]; rewrite E; clear E
  | B : bytes_n 96 ?kp, H : kp_pk_ok ?kp |- context [keypair_load_pk ?kp] => let g := fresh "g" in let E := fresh "E" in destruct (kp_pk_t kp B H) as [g E]; rewrite E; clear E
  | B : bytes_n 197 ?c, H : cache_ok ?c |- context [keyagg_cache_load ?c] => let g := fresh "g" in let E := fresh "E" in destruct (cache_t c B H) as [g E]; rewrite E; clear E
  | B : bytes_n 132 ?c, H : pubnonce_ok ?c |- context [musig_pubnonce_load ?c] => let g := fresh "g" in let h := fresh "g" in let E := fresh "E" in destruct (pubnonce_t c B H) as (g & h & E); rewrite E; clear E
  | B : bytes_n 132 ?c, H : aggnonce_ok ?c |- context [musig_aggnonce_load ?c] => let g := fresh "g" in let h := fresh "g" in let E := fresh "E" in destruct (aggnonce_t c B H) as (g & h & E); rewrite E; clear E
  | B : bytes_n 133 ?c, H : session_ok ?c |- context [musig_session_load ?c] => let g := fresh "g" in let E := fresh "E" in destruct (session_t c B H) as [g E]; rewrite E; clear E
  | B : bytes_n 36 ?c, H : psig_ok ?c |- context [musig_partial_sig_load ?c] => let g := fresh "g" in let E := fresh "E" in destruct (psig_t c B H) as [g E]; rewrite E; clear E
  end.
Ltac splits := repeat match goal with
  | |- context [match ?x with _ => _ end] => lazymatch x with context [match _ with _ => _ end] => fail | _ => destruct x end
  end.
Ltac done0 := cbn [rr ro r_ret r_ill arg_fail]; let H := fresh in intros ? ? H; apply some_inj in H; symmetry; exact H.

Definition legal (c : api_call) : Prop := forall r i, run_call c = Some (r, i) -> i = 0.
Ltac go_legal f := unfold legal; cbn [run_call]; unfold f; cbv beta iota zeta; opts; conj; cbv beta iota zeta; loads_t; cbv beta iota zeta; cbn [negb]; splits; try discriminate; done0.

Lemma l_context_randomize ctx seed : args_ok (Call_context_randomize ctx seed) -> legal (Call_context_randomize ctx seed).
Proof. intros H. cbn in H. unfold ctx_ok in H. unfold legal. cbn [run_call]. unfold context_randomize, context_is_proper. rewrite H. done0. Qed.
Ltac ctxs := unfold ctx_ok, context_is_proper in *; try match goal with H : g_built _ = true |- _ => rewrite !H in * end; cbn [negb].
Ltac L := let H := fresh "H" in let T := fresh "T" in intros T H; cbn [args_ok typed] in H, T; unfold legal; cbn [run_call].
Ltac R := cbv beta iota zeta; opts; conj; ctxs; cbv beta iota zeta; loads_t; cbv beta iota zeta; cbn [negb]; splits; try (discriminate || (cbn [ro]; intros ? ? ?; discriminate)); try done0.
Definition legal_ok c := typed c -> args_ok c -> legal c.
Lemma l1 : forall a b, legal_ok (Call_context_clone a b). Proof. intros a b. L. unfold context_clone, context_preallocated_clone. R. Qed.
Lemma l2 : forall a b, legal_ok (Call_context_preallocated_clone a b). Proof. intros a b. L. unfold context_preallocated_clone. R. Qed.
Lemma l3 : forall a, legal_ok (Call_context_preallocated_destroy a). Proof. intros a. L. unfold context_preallocated_destroy. R. Qed.
Lemma l4 : forall s a b c, legal_ok (Call_context_set_illegal_callback s a b c). Proof. intros s a b c. L. subst s. unfold context_set_illegal_callback. R. Qed.
Lemma l5 : forall s a b c, legal_ok (Call_context_set_error_callback s a b c). Proof. intros s a b c. L. subst s. unfold context_set_error_callback. R. Qed.
Lemma l6 : forall a b, legal_ok (Call_ec_pubkey_parse a b). Proof. intros a b. L. unfold ec_pubkey_parse. R. Qed.
Lemma l7 : forall a b c d, legal_ok (Call_ec_pubkey_serialize a b c d).
Proof.
  intros a b c d. L. destruct T as [T1 T2], H as (H1 & H2 & H3 & H4). destruct a as [out|]; [|destruct H2]. destruct b as [len|]; [|destruct H1].
  destruct c as [pk|]; [|destruct H3]. specialize (T2 _ _ eq_refl eq_refl). cbn [to optional] in *.
  destruct (ser_t out len pk d T1 H3 T2 H1 H4) as (o & E & _). rewrite E. done0.
Qed.
Lemma l8 : forall a b, legal_ok (Call_signature_parse_der a b). Proof. intros a b. L. unfold ecdsa_signature_parse_der. R. Qed.
Lemma l9 : forall a b, legal_ok (Call_signature_parse_compact a b). Proof. intros a b. L. unfold ecdsa_signature_parse_compact. R. Qed.
Lemma l10 : forall a b c, legal_ok (Call_signature_serialize_der a b c). Proof. intros a b c. L. unfold ecdsa_signature_serialize_der. R. Qed.
Lemma l11 : forall a b, legal_ok (Call_signature_serialize_compact a b). Proof. intros a b. L. unfold ecdsa_signature_serialize_compact. R. Qed.
Lemma l12 : forall a b, legal_ok (Call_signature_normalize a b). Proof. intros a b. L. unfold ecdsa_signature_normalize. R. Qed.
Lemma l13 : forall a b c, legal_ok (Call_ecdsa_verify a b c). Proof. intros a b c. L. unfold ecdsa_verify. R. Qed.
Lemma l14 : forall a b c d e f g, legal_ok (Call_ecdsa_sign a b c d e f g). Proof. intros a b c d e f g. L. unfold ecdsa_sign. R. Qed.
Lemma l15 : forall a, legal_ok (Call_ec_seckey_verify a). Proof. intros a. L. unfold ec_seckey_verify. R. Qed.
Lemma l16 : forall a b c, legal_ok (Call_ec_pubkey_create a b c). Proof. intros a b c. L. unfold ec_pubkey_create. R. Qed.
Lemma l17 : forall a, legal_ok (Call_ec_seckey_negate a). Proof. intros a. L. unfold ec_seckey_negate. R. Qed.
Lemma l18 : forall a, legal_ok (Call_ec_pubkey_negate a). Proof. intros a. L. unfold ec_pubkey_negate. R. Qed.
Lemma l19 : forall a b, legal_ok (Call_ec_seckey_tweak_add a b). Proof. intros a b. L. unfold ec_seckey_tweak_add. R. Qed.
Lemma l20 : forall a b, legal_ok (Call_ec_pubkey_tweak_add a b). Proof. intros a b. L. unfold ec_pubkey_tweak_add. R. Qed.
Lemma l21 : forall a b, legal_ok (Call_ec_seckey_tweak_mul a b). Proof. intros a b. L. unfold ec_seckey_tweak_mul. R. Qed.
Lemma l22 : forall a b, legal_ok (Call_ec_pubkey_tweak_mul a b). Proof. intros a b. L. unfold ec_pubkey_tweak_mul. R. Qed.
Lemma l23 : forall a b c, legal_ok (Call_tagged_sha256 a b c). Proof. intros a b c. L. unfold api_tagged_sha256. R. Qed.
Lemma l24 : forall a b c d, legal_ok (Call_ecdh a b c d). Proof. intros a b c d. L. unfold ecdh. R. Qed.
Lemma l25 : forall a b c, legal_ok (Call_recoverable_parse_compact a b c).
Proof.
  intros a b c. L. unfold recoverable_signature_parse_compact. destruct H as (? & ? & ?).
  replace ((c >=? 0) && (c <=? 3)) with true by (symmetry; apply andb_true_iff; split; lia). R.
Qed.
Lemma l26 : forall a b c, legal_ok (Call_recoverable_serialize_compact a b c). Proof. intros a b c. L. unfold recoverable_signature_serialize_compact. R. Qed.
Lemma l27 : forall a b, legal_ok (Call_recoverable_convert a b). Proof. intros a b. L. unfold recoverable_signature_convert. R. Qed.
Lemma l28 : forall a b c d e f g, legal_ok (Call_ecdsa_sign_recoverable a b c d e f g). Proof. intros a b c d e f g. L. unfold ecdsa_sign_recoverable. R. Qed.
Lemma l29 : forall a b c, legal_ok (Call_ecdsa_recover a b c). Proof. intros a b c. L. unfold ecdsa_recover. R. Qed.
Lemma l30 : forall a b, legal_ok (Call_xonly_parse a b). Proof. intros a b. L. unfold xonly_pubkey_parse. R. Qed.
Lemma l31 : forall a b, legal_ok (Call_xonly_serialize a b). Proof. intros a b. L. unfold xonly_pubkey_serialize, xonly_pubkey_load. R. Qed.
Lemma l32 : forall a b c, legal_ok (Call_xonly_from_pubkey a b c). Proof. intros a b c. L. unfold xonly_pubkey_from_pubkey. R. Qed.
Lemma l33 : forall a b c, legal_ok (Call_xonly_tweak_add a b c). Proof. intros a b c. L. unfold xonly_pubkey_tweak_add, xonly_pubkey_load. R. Qed.
Lemma l34 : forall a b c d, legal_ok (Call_xonly_tweak_add_check a b c d). Proof. intros a b c d. L. unfold xonly_pubkey_tweak_add_check, xonly_pubkey_load. R. Qed.
Lemma l35 : forall a b c, legal_ok (Call_keypair_create a b c). Proof. intros a b c. L. unfold keypair_create. R. Qed.
Lemma l36 : forall a b, legal_ok (Call_keypair_sec a b). Proof. intros a b. L. unfold keypair_sec. R. Qed.
Lemma l37 : forall a b, legal_ok (Call_keypair_pub a b). Proof. intros a b. L. unfold keypair_pub. R. Qed.
Lemma l38 : forall a b c, legal_ok (Call_keypair_xonly_pub a b c). Proof. intros a b c. L. unfold keypair_xonly_pub. R. Qed.
Lemma l39 : forall a b, legal_ok (Call_keypair_xonly_tweak_add a b). Proof. intros a b. L. unfold keypair_xonly_tweak_add. R. Qed.
