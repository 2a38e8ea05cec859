Require Import ZArith List Bool Lia.
From Verif Require Import Word Bytes Spec SpecApi FieldModel FieldMul FieldOps FieldProof2 FieldBytes ScalarModel ScalarProof2 GroupModel GroupProof5 GenModel HashModel EcmultModel EcdsaModel ApiModel ApiVocab ApiProof ApiProof2 RecoveryModel EcdhModel HsortModel SortProof ExtrakeysModel ExtrakeysProof SchnorrModel EllswiftModel MusigModel CallsVocab CallsProof CallsProof2 CallsProof3.
Import ListNotations.
Local Open Scope Z_scope.
Local Opaque pubkey_load fe_get_b32 sc_set_b32 sc_set_b32_seckey eckey_pubkey_serialize eckey_pubkey_parse ecmult ecmult_gen keypair_load keypair_load_pk
  keyagg_cache_load musig_pubnonce_load musig_aggnonce_load musig_session_load musig_partial_sig_load musig_secnonce_load
  ecdsa_sign_inner ec_pubkey_create_helper ec_pubkey_tweak_add_helper ec_seckey_tweak_add_helper memcmp_var
  schnorrsig_challenge nonce_function_bip340 elligatorswift_var xswiftec_frac_var ecmult_const_xonly swiftec_var nonce_function_musig musig_nonce_process_internal sha256_write sha256_finalize gej_add_ge effective_nonce musig_keyaggcoef.

Lemma sign_internal_legal ctx sig msg msglen kp nf nd : ctx_ok ctx -> given sig -> (given msg \/ msglen = 0) -> to kp_ok kp -> optional (bytes_n 96) kp ->
  r_ill (schnorrsig_sign_internal ctx sig msg msglen kp nf nd) = 0.
Proof.
  unfold ctx_ok. intros C HS M K B. unfold schnorrsig_sign_internal. rewrite C. cbn [negb]. destruct sig; [|destruct HS].
  replace (negb ((match msg with Some _ => true | None => false end) || (msglen =? 0))) with false.
  2:{ symmetry. destruct msg; [reflexivity|]. destruct M as [[]|M]. subst. reflexivity. }
  destruct kp as [kp|]; [|destruct K]. cbn [to optional] in *. destruct (kp_t kp B K) as [sk E]. rewrite E.
  cbv beta iota zeta. splits; reflexivity.
Qed.
Lemma l40 : forall a b c d e, legal_ok (Call_schnorrsig_sign32 a b c d e).
Proof.
  intros a b c d e. L. unfold schnorrsig_sign32. unfold rr. intros r i E. apply some_inj in E. rewrite <- E. destruct H as (? & ? & ? & ?).
  apply sign_internal_legal; auto.
Qed.
Lemma l41 : forall a b c d e f, legal_ok (Call_schnorrsig_sign_custom a b c d e f).
Proof.
  intros a b c d e f. L. unfold schnorrsig_sign_custom. destruct H as (H1 & H2 & H3 & H4 & H5), T as [T1 T2]. destruct f as [ep|]; cbn [optional] in *.
  - replace (memcmp_var (ep_magic ep) schnorrsig_extraparams_magic =? 0) with true.
    2:{ symmetry. apply memcmp_eq; [now rewrite (proj2 T2)|]. exact H5. }
    cbn [negb]. intros r i E. apply some_inj in E. rewrite <- E. apply sign_internal_legal; auto.
  - intros r i E. apply some_inj in E. rewrite <- E. apply sign_internal_legal; auto.
Qed.
Lemma l42 : forall a b c d, legal_ok (Call_schnorrsig_verify a b c d).
Proof.
  intros a b c d. L. unfold schnorrsig_verify, xonly_pubkey_load. destruct H as (H1 & H2 & H3). destruct a; [|destruct H1].
  replace (negb ((match b with Some _ => true | None => false end) || (c =? 0))) with false.
  2:{ symmetry. destruct b; [reflexivity|]. destruct H2 as [[]|M]. subst. reflexivity. }
  clear H2. R.
Qed.
Lemma l43 : forall a b c d, legal_ok (Call_ellswift_encode a b c d). Proof. intros a b c d. L. unfold ellswift_encode. R. Qed.
Lemma l44 : forall a b c d e, legal_ok (Call_ellswift_create a b c d e). Proof. intros a b c d e. L. unfold ellswift_create. R. Qed.
Lemma l45 : forall a b, legal_ok (Call_ellswift_decode a b). Proof. intros a b. L. unfold ellswift_decode. R. Qed.
Lemma l46 : forall a b c d e f, legal_ok (Call_ellswift_xdh a b c d e f). Proof. intros a b c d e f. L. unfold ellswift_xdh. R. Qed.
Lemma l47 : forall a b c, legal_ok (Call_musig_pubkey_agg a b c).
Proof.
  intros a b c. L. unfold musig_pubkey_agg, musig_compute_pks_hash. destruct c as [[|pk0 rest]|]; cbn [to optional] in *; try tauto.
  destruct H as [_ H]. inversion T; subst. inversion H; subst. destruct (second_t pk0 rest) as [g E]; [assumption..|]. rewrite E.
  destruct (pks_t (pk0 :: rest) T H musig_keyagglist_sha256) as [s E2]. rewrite E2.
  destruct (ecmult_multi_var_noscratch _ _ _); done0.
Qed.
Lemma l48 : forall a b, legal_ok (Call_musig_pubkey_get a b). Proof. intros a b. L. unfold musig_pubkey_get. R. Qed.
Lemma l49 : forall a b c, legal_ok (Call_musig_pubkey_ec_tweak_add a b c). Proof. intros a b c. L. unfold musig_pubkey_ec_tweak_add, musig_pubkey_tweak_add_internal. R. Qed.
Lemma l50 : forall a b c, legal_ok (Call_musig_pubkey_xonly_tweak_add a b c). Proof. intros a b c. L. unfold musig_pubkey_xonly_tweak_add, musig_pubkey_tweak_add_internal. R. Qed.
Lemma l51 : forall a b, legal_ok (Call_musig_pubnonce_parse a b). Proof. intros a b. L. unfold musig_pubnonce_parse. R. Qed.
Lemma l52 : forall a b, legal_ok (Call_musig_pubnonce_serialize a b). Proof. intros a b. L. unfold musig_pubnonce_serialize. R. Qed.
Lemma l53 : forall a b, legal_ok (Call_musig_aggnonce_parse a b). Proof. intros a b. L. unfold musig_aggnonce_parse. R. Qed.
Lemma l54 : forall a b, legal_ok (Call_musig_aggnonce_serialize a b). Proof. intros a b. L. unfold musig_aggnonce_serialize. R. Qed.
Lemma l55 : forall a b, legal_ok (Call_musig_partial_sig_parse a b). Proof. intros a b. L. unfold musig_partial_sig_parse. R. Qed.
Lemma l56 : forall a b, legal_ok (Call_musig_partial_sig_serialize a b).
Proof.
  intros a b. L. unfold musig_partial_sig_serialize, partial_sig_magic. destruct a, b; cbn [to given optional] in *; try tauto. destruct H as [_ H].
  rewrite (tag_t _ _ 36 T H ltac:(lia) eq_refl). done0.
Qed.
Lemma gen_internal_legal ctx sn pn nonce sk pk msg cache extra : ctx_ok ctx -> given pn -> to pk_ok pk -> optional cache_ok cache ->
  optional (bytes_n 64) pk -> optional (bytes_n 197) cache -> r_ill (musig_nonce_gen_internal ctx sn pn nonce sk pk msg cache extra) = 0.
Proof.
  unfold ctx_ok. intros C P K HC B1 B2. unfold musig_nonce_gen_internal. rewrite C. cbn [negb]. destruct pn; [|destruct P]. destruct pk as [pk|]; [|destruct K].
  cbn [to] in *. destruct (load_t pk B1 K) as [g E]. rewrite E. cbn [negb]. destruct cache as [c|]; cbn [optional] in *.
  - destruct (cache_t c B2 HC) as [ci E2]. rewrite E2. cbv beta iota zeta. splits; reflexivity.
  - cbv beta iota zeta. splits; reflexivity.
Qed.
Lemma l57 : forall a b c d e f g h i, legal_ok (Call_musig_nonce_gen a b c d e f g h i).
Proof.
  intros a b c d e f g h i. L. unfold musig_nonce_gen. destruct H as (H1 & H2 & H3 & H4 & H5 & H6), T as (T1 & T2 & T3).
  destruct b; [|destruct H2]. destruct d as [rand|]; [|destruct H4]. destruct (is_zero_array (firstn 32 rand)); [done0|]. cbv zeta. unfold rr. cbn [r_ill].
  intros r j E. apply some_inj in E. rewrite <- E. now apply gen_internal_legal.
Qed.
Lemma l58 : forall a b c d e f g h, legal_ok (Call_musig_nonce_gen_counter a b c d e f g h).
Proof.
  intros a b c d e f g h. L. unfold musig_nonce_gen_counter. destruct H as (H1 & H2 & H3 & H5 & H6), T as (T2 & T3).
  destruct b; [|destruct H2]. destruct e as [kp|]; [|destruct H5]. cbv zeta. unfold rr. cbn [r_ill].
  intros r j E. apply some_inj in E. rewrite <- E. cbn [optional to] in *. destruct (kp_parts kp T2) as (_ & B & F).
  apply gen_internal_legal; try assumption; unfold keypair_pub; cbn [r_out to optional]; rewrite F; assumption.
Qed.
Lemma l59 : forall a b, legal_ok (Call_musig_nonce_agg a b).
Proof.
  intros a b. L. unfold musig_nonce_agg, musig_sum_pubnonces. destruct a as [oa|]; [|cbn in H; tauto]. destruct b as [[|x l]|]; cbn [to optional] in *; try tauto. destruct H as (_ & _ & H).
  destruct (sum_t _ T H gej_infinity gej_infinity) as [[s0 s1] E]. rewrite E. splits; done0.
Qed.
Lemma l60 : forall a b c d, legal_ok (Call_musig_nonce_process a b c d). Proof. intros a b c d. L. unfold musig_nonce_process. R. Qed.
Lemma l61 : forall a b c d e, legal_ok (Call_musig_partial_sign a b c d e).
Proof.
  intros a b c d e. L. destruct T as (T1 & T2 & T3 & T4), H as (H1 & H2 & H3 & H4 & H5 & H6). unfold musig_partial_sign.
  destruct a; [|destruct H1]. destruct b as [sn|]; [|destruct H2]. destruct c as [kp|]; [|destruct H3]. destruct d as [ca|]; [|destruct H4]. destruct e as [se|]; [|destruct H5].
  cbn [to optional] in *. specialize (H6 _ _ eq_refl eq_refl). apply secnonce_iff in H2; [|assumption]. destruct H2 as (k0 & k1 & E). rewrite E.
  destruct (kp_t kp T2 H3) as [sk E2]. rewrite E2. cbn [negb]. apply matches_iff in H6; [|assumption..]. rewrite H6. cbn [negb]. R.
Qed.
Lemma l62 : forall a b c d e, legal_ok (Call_musig_partial_sig_verify a b c d e). Proof. intros a b c d e. L. unfold musig_partial_sig_verify. R. Qed.
Lemma l63 : forall a b c, legal_ok (Call_musig_partial_sig_agg a b c).
Proof.
  intros a b c. L. unfold musig_partial_sig_agg. destruct a as [oa|]; [|cbn in H; tauto]. destruct b as [se|]; [|cbn in H; tauto]. destruct c as [[|x l]|]; cbn [to optional] in *; try tauto.
  destruct H as (_ & H1 & _ & H), T as [T1 T2]. destruct (session_t se T1 H1) as [si E1]. rewrite E1.
  destruct (agg_t _ T2 H (si_s_part si)) as [s E]. rewrite E. done0.
Qed.

(** Comparison, combination, sorting. *)
Lemma cmp_key_ill pk : optional (bytes_n 64) pk -> exists o i, cmp_key pk = Some (o, i) /\ (to pk_ok pk -> i = 0) /\ (~ to pk_ok pk -> i = 1).
Proof.
  intros B. unfold cmp_key. destruct pk as [pk|]; cbn [to optional] in *.
  - destruct (pk_ok_dec pk) as [K|K].
    + destruct (ser33_t pk B K) as ([o l] & E & N). rewrite E. cbn [r_out r_ret r_ill fst] in *. destruct o as [o|]; [|congruence]. eexists _, 0. split; [reflexivity|]. tauto.
    + destruct (ser33_f pk B K) as ([o l] & E & N). rewrite E. cbn [r_out r_ret r_ill fst] in *. destruct o as [o|]; [|congruence]. eexists _, 1. split; [reflexivity|]. tauto.
  - unfold ec_pubkey_serialize. cbn. eexists _, 1. split; [reflexivity|]. tauto.
Qed.
Lemma xcmp_key_ill pk : optional (bytes_n 64) pk -> exists o i, xcmp_key pk = (o, i) /\ (to pk_ok pk -> i = 0) /\ (~ to pk_ok pk -> i = 1).
Proof.
  intros B. unfold xcmp_key, xonly_pubkey_serialize, xonly_pubkey_load. destruct pk as [pk|]; cbn [to optional] in *.
  - destruct (pk_ok_dec pk) as [K|K].
    + destruct (load_t pk B K) as [g E]. rewrite E. cbn [negb r_out r_ret r_ill]. eexists _, 0. split; [reflexivity|]. tauto.
    + destruct (load_f pk B K) as [g E]. rewrite E. cbn [negb r_out r_ret r_ill]. eexists _, 1. split; [reflexivity|]. tauto.
  - cbn. eexists _, 1. split; [reflexivity|]. tauto.
Qed.
Lemma l64 : forall a b, legal_ok (Call_ec_pubkey_cmp a b).
Proof.
  intros a b. L. unfold ec_pubkey_cmp. destruct T as [T1 T2], H as [H1 H2]. destruct (cmp_key_ill a T1) as (o & i & E & A & _). destruct (cmp_key_ill b T2) as (o' & i' & E' & A' & _).
  rewrite E, E'. rewrite A, A' by assumption. done0.
Qed.
Lemma l65 : forall a b, legal_ok (Call_xonly_cmp a b).
Proof.
  intros a b. L. unfold xonly_pubkey_cmp. destruct T as [T1 T2], H as [H1 H2]. destruct (xcmp_key_ill a T1) as (o & i & E & A & _). destruct (xcmp_key_ill b T2) as (o' & i' & E' & A' & _).
  rewrite E, E'. rewrite A, A' by assumption. done0.
Qed.
Lemma l66 : forall a b, legal_ok (Call_ec_pubkey_sort a b).
Proof.
  intros a b. L. unfold ec_pubkey_sort. destruct a as [l|]; cbn [to optional] in *; [|tauto]. destruct T as [T L].
  destruct (hsort_list None ec_pubkey_sort_cmp (firstn b l) (skipn b l)) as (pks' & ill & E & P & NI & ST).
  rewrite firstn_skipn, firstn_length, Nat.min_l in E by assumption. rewrite E. unfold ro, rr. cbn [r_ill r_ret]. intros r i Q. apply some_inj in Q. rewrite <- Q.
  apply NI. rewrite firstn_skipn. intros x y X Y. rewrite Forall_forall in T, H. unfold ec_pubkey_sort_cmp, ec_pubkey_cmp.
  destruct (cmp_key_ill x (T _ X)) as (o & j & E1 & A & _). destruct (cmp_key_ill y (T _ Y)) as (o' & j' & E2 & A' & _). rewrite E1, E2. cbn [snd r_ill].
  rewrite A, A' by auto. reflexivity.
Qed.
Lemma combine_t l : Forall (optional (bytes_n 64)) l -> Forall (to pk_ok) l -> forall q i, exists q', combine_loop l q i = inl (q', i).
Proof.
  induction 1 as [|[pk|] l B Bl IH]; intros K q i; cbn [combine_loop]; [eauto| |]; inversion K; subst; cbn [to optional] in *; [|tauto].
  destruct (load_t pk B) as [g E]; [assumption|]. rewrite E. now apply IH.
Qed.
Lemma combine_f l : Forall (optional (bytes_n 64)) l -> forall q i, 0 <= i -> (~ Forall (to pk_ok) l \/ 0 < i) ->
  (exists q' i', combine_loop l q i = inl (q', i') /\ 0 < i') \/ (exists i', combine_loop l q i = inr i' /\ 0 < i').
Proof.
  induction 1 as [|[pk|] l B Bl IH]; intros q i I K; cbn [combine_loop].
  - left. destruct K as [K|K]; [destruct K; constructor|]. eauto.
  - cbn [optional] in B. destruct (pk_ok_dec pk) as [P|P].
    + destruct (load_t pk B P) as [g E]. rewrite E. apply IH; [assumption|]. destruct K as [K|K]; [left|now right]. intros Q. apply K. now constructor.
    + destruct (load_f pk B P) as [g E]. rewrite E. apply IH; lia.
  - right. exists (i + 1). split; [reflexivity|lia].
Qed.
Lemma l67 : forall a b, legal_ok (Call_ec_pubkey_combine a b).
Proof.
  intros a b. L. unfold ec_pubkey_combine. destruct a as [oa|]; [|cbn in H; tauto]. destruct b as [[|x l]|]; cbn [to optional] in *; try tauto. destruct H as (_ & _ & H).
  destruct (combine_t (x :: l) T H gej_infinity 0) as [q E]. rewrite E. destruct (gej_is_infinity q); done0.
Qed.
Lemma l68 ctx seed : legal_ok (Call_context_randomize ctx seed).
Proof. intros _ H. now apply l_context_randomize. Qed.
Theorem all_legal c : legal_ok c.
Proof.
  destruct c;
  [apply l68|apply l1|apply l2|apply l3|apply l4|apply l5|apply l6|apply l7|apply l64|apply l66|apply l8|apply l9|apply l10|apply l11|apply l12|apply l13|apply l14|apply l15|apply l16
  |apply l17|apply l18|apply l19|apply l20|apply l21|apply l22|apply l67|apply l23|apply l24|apply l25|apply l26|apply l27|apply l28|apply l29|apply l30|apply l31|apply l65|apply l32|apply l33|apply l34
  |apply l35|apply l36|apply l37|apply l38|apply l39|apply l40|apply l41|apply l42|apply l43|apply l44|apply l45|apply l46|apply l47|apply l48|apply l49|apply l50|apply l51|apply l52|apply l53|apply l54|apply l55|apply l56
  |apply l57|apply l58|apply l59|apply l60|apply l61|apply l62|apply l63].
Qed.
