Require Import ZArith List Bool Lia.
From Verif Require Import Word Bytes Spec SpecApi FieldModel FieldMul FieldOps FieldProof2 FieldBytes ScalarModel ScalarProof2 GroupModel GroupProof5 GenModel HashModel EcmultModel EcdsaModel ApiModel ApiVocab ApiProof ApiProof2 RecoveryModel EcdhModel HsortModel SortProof ExtrakeysModel ExtrakeysProof SchnorrModel EllswiftModel MusigModel CallsVocab CallsProof CallsProof2 CallsProof3 CallsProof4.
Import ListNotations.
Local Open Scope Z_scope.
Local Opaque pubkey_load fe_get_b32 sc_set_b32 sc_set_b32_seckey eckey_pubkey_serialize eckey_pubkey_parse ecmult ecmult_gen keypair_load keypair_load_pk
  keyagg_cache_load musig_pubnonce_load musig_aggnonce_load musig_session_load musig_partial_sig_load musig_secnonce_load
  ecdsa_sign_inner ec_pubkey_create_helper ec_pubkey_tweak_add_helper ec_seckey_tweak_add_helper memcmp_var
  schnorrsig_challenge nonce_function_bip340 elligatorswift_var xswiftec_frac_var ecmult_const_xonly swiftec_var nonce_function_musig musig_nonce_process_internal sha256_write sha256_finalize gej_add_ge effective_nonce musig_keyaggcoef.

Definition illegal_ok c := typed c -> ~ args_ok c -> ~ goes_on c -> run_call c = Some (0, 1) \/ (run_call c = Some (0, 0) /\ rejected_anyway c).
Ltac done1 := left; cbv beta iota zeta delta [rr ro r_ret r_ill arg_fail b2z negb andb]; lazymatch goal with |- Some (0, 1) = Some (0, 1) => exact eq_refl end.
Ltac ctxcase := unfold ctx_ok, context_is_proper in *; repeat match goal with
  | |- context [g_built (c_gen ?c)] => let E := fresh "E" in destruct (g_built (c_gen c)) eqn:E; cbn [negb]
  end.
Ltac dec1 := match goal with
  | B : bytes_n 64 ?pk |- context [pubkey_load ?pk] => let g := fresh "g" in let E := fresh "E" in let P := fresh "P" in destruct (pk_ok_dec pk) as [P|P]; [destruct (load_t pk B P) as [g E]|destruct (load_f pk B P) as [g E]]; rewrite E; clear E
  | B : bytes_n 96 ?kp |- context [keypair_load ?kp] => let g := fresh "g" in let E := fresh "E" in let P := fresh "P" in destruct (kp_ok_dec kp) as [P|P]; [destruct (kp_t kp B P) as [g E]|pose proof (kp_f kp B P) as E]; rewrite E; clear E
  | B : bytes_n 96 ?kp |- context [keypair_load_pk ?kp] => let g := fresh "g" in let E := fresh "E" in let P := fresh "P" in destruct (pk_ok_dec (skipn 32 kp)) as [P|P]; change (pk_ok (skipn 32 kp)) with (kp_pk_ok kp) in P; [destruct (kp_pk_t kp B P) as [g E]|destruct (kp_pk_f kp B P) as [g E]]; rewrite E; clear E
  | B : bytes_n 197 ?c |- context [keyagg_cache_load ?c] => let g := fresh "g" in let E := fresh "E" in let P := fresh "P" in destruct (tag_dec _ c : {cache_ok c} + {~ cache_ok c}) as [P|P]; [destruct (cache_t c B P) as [g E]|pose proof (cache_f c B P) as E]; rewrite E; clear E
  | B : bytes_n 132 ?c |- context [musig_pubnonce_load ?c] => let g := fresh "g" in let h := fresh "g" in let E := fresh "E" in let P := fresh "P" in destruct (tag_dec _ c : {pubnonce_ok c} + {~ pubnonce_ok c}) as [P|P]; [destruct (pubnonce_t c B P) as (g & h & E)|pose proof (pubnonce_f c B P) as E]; rewrite E; clear E
  | B : bytes_n 132 ?c |- context [musig_aggnonce_load ?c] => let g := fresh "g" in let h := fresh "g" in let E := fresh "E" in let P := fresh "P" in destruct (tag_dec _ c : {aggnonce_ok c} + {~ aggnonce_ok c}) as [P|P]; [destruct (aggnonce_t c B P) as (g & h & E)|pose proof (aggnonce_f c B P) as E]; rewrite E; clear E
  | B : bytes_n 133 ?c |- context [musig_session_load ?c] => let g := fresh "g" in let E := fresh "E" in let P := fresh "P" in destruct (tag_dec _ c : {session_ok c} + {~ session_ok c}) as [P|P]; [destruct (session_t c B P) as [g E]|pose proof (session_f c B P) as E]; rewrite E; clear E
  | B : bytes_n 36 ?c |- context [musig_partial_sig_load ?c] => let g := fresh "g" in let E := fresh "E" in let P := fresh "P" in destruct (tag_dec _ c : {psig_ok c} + {~ psig_ok c}) as [P|P]; [destruct (psig_t c B P) as [g E]|pose proof (psig_f c B P) as E]; rewrite E; clear E
  end; cbv beta iota zeta; cbn [negb andb].
Ltac NL := let H := fresh "H" in let T := fresh "T" in let G := fresh "G" in intros T H G; cbn [args_ok typed goes_on rejected_anyway] in *; clear G; cbn [run_call].
Ltac bad := exfalso; first [tauto | match goal with H : ~ _ |- _ => apply H; repeat split; (assumption || exact I || reflexivity) end].
Ltac NR := cbv beta iota zeta; opts; ctxcase; conj; cbv beta iota zeta; try done1; try bad; repeat (dec1; try done1; try bad); try (splits; done1).
Lemma i1 : forall a b, illegal_ok (Call_context_clone a b). Proof. intros a b. NL. unfold context_clone, context_preallocated_clone. NR. Qed.
Lemma i2 : forall a b, illegal_ok (Call_context_preallocated_clone a b). Proof. intros a b. NL. unfold context_preallocated_clone. NR. Qed.
Lemma i3 : forall a, illegal_ok (Call_context_preallocated_destroy a). Proof. intros a. NL. unfold context_preallocated_destroy. NR. Qed.
Lemma i4 : forall s a b c, illegal_ok (Call_context_set_illegal_callback s a b c). Proof. intros s a b c. NL. unfold context_set_illegal_callback. destruct s; NR. Qed.
Lemma i5 : forall s a b c, illegal_ok (Call_context_set_error_callback s a b c). Proof. intros s a b c. NL. unfold context_set_error_callback. destruct s; NR. Qed.
Lemma i6 : forall a b, illegal_ok (Call_ec_pubkey_parse a b). Proof. intros a b. NL. unfold ec_pubkey_parse. NR. Qed.
Lemma i8 : forall a b, illegal_ok (Call_signature_parse_der a b). Proof. intros a b. NL. unfold ecdsa_signature_parse_der. NR. Qed.
Lemma i9 : forall a b, illegal_ok (Call_signature_parse_compact a b). Proof. intros a b. NL. unfold ecdsa_signature_parse_compact. NR. Qed.
Lemma i10 : forall a b c, illegal_ok (Call_signature_serialize_der a b c). Proof. intros a b c. NL. unfold ecdsa_signature_serialize_der. NR. Qed.
Lemma i11 : forall a b, illegal_ok (Call_signature_serialize_compact a b). Proof. intros a b. NL. unfold ecdsa_signature_serialize_compact. NR. Qed.
Lemma i12 : forall a b, illegal_ok (Call_signature_normalize a b). Proof. intros a b. NL. unfold ecdsa_signature_normalize. NR. Qed.
Lemma i14 : forall a b c d e f g, illegal_ok (Call_ecdsa_sign a b c d e f g). Proof. intros a b c d e f g. NL. unfold ecdsa_sign. NR. Qed.
Lemma i15 : forall a, illegal_ok (Call_ec_seckey_verify a). Proof. intros a. NL. unfold ec_seckey_verify. NR. Qed.
Lemma i16 : forall a b c, illegal_ok (Call_ec_pubkey_create a b c). Proof. intros a b c. NL. unfold ec_pubkey_create. NR. Qed.
Lemma i17 : forall a, illegal_ok (Call_ec_seckey_negate a). Proof. intros a. NL. unfold ec_seckey_negate. NR. Qed.
Lemma i18 : forall a, illegal_ok (Call_ec_pubkey_negate a). Proof. intros a. NL. unfold ec_pubkey_negate. NR. Qed.
Lemma i19 : forall a b, illegal_ok (Call_ec_seckey_tweak_add a b). Proof. intros a b. NL. unfold ec_seckey_tweak_add. NR. Qed.
Lemma i20 : forall a b, illegal_ok (Call_ec_pubkey_tweak_add a b). Proof. intros a b. NL. unfold ec_pubkey_tweak_add. NR. Qed.
Lemma i21 : forall a b, illegal_ok (Call_ec_seckey_tweak_mul a b). Proof. intros a b. NL. unfold ec_seckey_tweak_mul. NR. Qed.
Lemma i23 : forall a b c, illegal_ok (Call_tagged_sha256 a b c). Proof. intros a b c. NL. unfold api_tagged_sha256. NR. Qed.
Lemma i26 : forall a b c, illegal_ok (Call_recoverable_serialize_compact a b c). Proof. intros a b c. NL. unfold recoverable_signature_serialize_compact. NR. Qed.
Lemma i27 : forall a b, illegal_ok (Call_recoverable_convert a b). Proof. intros a b. NL. unfold recoverable_signature_convert. NR. Qed.
Lemma i28 : forall a b c d e f g, illegal_ok (Call_ecdsa_sign_recoverable a b c d e f g). Proof. intros a b c d e f g. NL. unfold ecdsa_sign_recoverable. NR. Qed.
Lemma i29 : forall a b c, illegal_ok (Call_ecdsa_recover a b c). Proof. intros a b c. NL. unfold ecdsa_recover. NR. Qed.
Lemma i30 : forall a b, illegal_ok (Call_xonly_parse a b). Proof. intros a b. NL. unfold xonly_pubkey_parse. NR. Qed.
Lemma i31 : forall a b, illegal_ok (Call_xonly_serialize a b). Proof. intros a b. NL. unfold xonly_pubkey_serialize, xonly_pubkey_load. NR. Qed.
Lemma i32 : forall a b c, illegal_ok (Call_xonly_from_pubkey a b c). Proof. intros a b c. NL. unfold xonly_pubkey_from_pubkey. NR. Qed.
Lemma i33 : forall a b c, illegal_ok (Call_xonly_tweak_add a b c). Proof. intros a b c. NL. unfold xonly_pubkey_tweak_add, xonly_pubkey_load. NR. Qed.
Lemma i34 : forall a b c d, illegal_ok (Call_xonly_tweak_add_check a b c d). Proof. intros a b c d. NL. unfold xonly_pubkey_tweak_add_check, xonly_pubkey_load. NR. Qed.
Lemma i35 : forall a b c, illegal_ok (Call_keypair_create a b c). Proof. intros a b c. NL. unfold keypair_create. NR. Qed.
Lemma i36 : forall a b, illegal_ok (Call_keypair_sec a b). Proof. intros a b. NL. unfold keypair_sec. NR. Qed.
Lemma i37 : forall a b, illegal_ok (Call_keypair_pub a b). Proof. intros a b. NL. unfold keypair_pub. NR. Qed.
Lemma i38 : forall a b c, illegal_ok (Call_keypair_xonly_pub a b c). Proof. intros a b c. NL. unfold keypair_xonly_pub. NR. Qed.
Lemma i39 : forall a b, illegal_ok (Call_keypair_xonly_tweak_add a b). Proof. intros a b. NL. unfold keypair_xonly_tweak_add. NR. Qed.
Lemma i43 : forall a b c d, illegal_ok (Call_ellswift_encode a b c d). Proof. intros a b c d. NL. unfold ellswift_encode. NR. Qed.
Lemma i44 : forall a b c d e, illegal_ok (Call_ellswift_create a b c d e). Proof. intros a b c d e. NL. unfold ellswift_create. NR. Qed.
Lemma i45 : forall a b, illegal_ok (Call_ellswift_decode a b). Proof. intros a b. NL. unfold ellswift_decode. NR. Qed.
Lemma i46 : forall a b c d e f, illegal_ok (Call_ellswift_xdh a b c d e f). Proof. intros a b c d e f. NL. unfold ellswift_xdh. NR. Qed.
Lemma i48 : forall a b, illegal_ok (Call_musig_pubkey_get a b). Proof. intros a b. NL. unfold musig_pubkey_get. NR. Qed.
Lemma i49 : forall a b c, illegal_ok (Call_musig_pubkey_ec_tweak_add a b c). Proof. intros a b c. NL. unfold musig_pubkey_ec_tweak_add, musig_pubkey_tweak_add_internal. NR. Qed.
Lemma i50 : forall a b c, illegal_ok (Call_musig_pubkey_xonly_tweak_add a b c). Proof. intros a b c. NL. unfold musig_pubkey_xonly_tweak_add, musig_pubkey_tweak_add_internal. NR. Qed.
Lemma i51 : forall a b, illegal_ok (Call_musig_pubnonce_parse a b). Proof. intros a b. NL. unfold musig_pubnonce_parse. NR. Qed.
Lemma i52 : forall a b, illegal_ok (Call_musig_pubnonce_serialize a b). Proof. intros a b. NL. unfold musig_pubnonce_serialize. NR. Qed.
Lemma i53 : forall a b, illegal_ok (Call_musig_aggnonce_parse a b). Proof. intros a b. NL. unfold musig_aggnonce_parse. NR. Qed.
Lemma i54 : forall a b, illegal_ok (Call_musig_aggnonce_serialize a b). Proof. intros a b. NL. unfold musig_aggnonce_serialize. NR. Qed.
Lemma i55 : forall a b, illegal_ok (Call_musig_partial_sig_parse a b). Proof. intros a b. NL. unfold musig_partial_sig_parse. NR. Qed.
Lemma i60 : forall a b c d, illegal_ok (Call_musig_nonce_process a b c d). Proof. intros a b c d. NL. unfold musig_nonce_process. NR. Qed.
Lemma i62 : forall a b c d e, illegal_ok (Call_musig_partial_sig_verify a b c d e). Proof. intros a b c d e. NL. unfold musig_partial_sig_verify. NR. Qed.
Lemma i0 : forall a b, illegal_ok (Call_context_randomize a b). Proof. intros a b. NL. unfold context_randomize. NR. Qed.
Lemma i13 : forall a b c, illegal_ok (Call_ecdsa_verify a b c).
Proof.
  intros a b c. NL. unfold ecdsa_verify. destruct b; [|done1]. destruct a as [sg|]; [|done1]. destruct c as [pk|]; [|done1]. cbn [given to optional] in *.
  destruct (signature_load sg) as [r s]. destruct (sc_is_high s).
  - right. split; [reflexivity|]. intros [pk'|] P; [reflexivity|destruct P].
  - dec1; [bad|done1].
Qed.
Lemma i22 : forall a b, illegal_ok (Call_ec_pubkey_tweak_mul a b).
Proof.
  intros a b. NL. unfold ec_pubkey_tweak_mul. destruct a as [pk|]; [|done1]. destruct b as [tw|]; [|done1]. cbn [given to optional] in *.
  destruct (sc_set_b32 tw) as [f []].
  - right. split; [reflexivity|]. intros [pk'|] P; [reflexivity|destruct P].
  - dec1; [bad|done1].
Qed.
Lemma i25 : forall a b c, illegal_ok (Call_recoverable_parse_compact a b c).
Proof.
  intros a b c. NL. unfold recoverable_signature_parse_compact. destruct a; [|done1]. destruct b; [|done1]. cbn [given to] in *.
  replace ((c >=? 0) && (c <=? 3)) with false by (symmetry; apply andb_false_iff; rewrite !Z.geb_leb, !Z.leb_gt; lia). done1.
Qed.
Lemma i7 : forall a b c d, illegal_ok (Call_ec_pubkey_serialize a b c d).
Proof.
  intros a b c d. NL. destruct T as [T1 T2]. destruct b as [len|]; [|left; reflexivity].
  destruct (Z_lt_dec len (if Z.land d 256 =? 0 then 65 else 33)) as [G|G].
  - unfold ec_pubkey_serialize. replace (len >=? (if negb (Z.land d 256 =? 0) then 33 else 65)) with false; [left; reflexivity|].
    symmetry. rewrite Z.geb_leb. apply Z.leb_gt. destruct (Z.land d 256 =? 0); exact G.
  - assert (G' : len >= (if Z.land d 256 =? 0 then 65 else 33)) by lia. clear G.
    assert (P : 33 <= len) by (destruct (Z.land d 256 =? 0); lia).
    assert (GE : negb (len >=? (if negb (Z.land d 256 =? 0) then 33 else 65)) = false) by (apply negb_false_iff, Z.geb_le; destruct (Z.land d 256 =? 0); cbn [negb]; lia).
    destruct a as [out|]; [|left; unfold ec_pubkey_serialize; rewrite GE; reflexivity]. specialize (T2 _ _ eq_refl eq_refl).
    assert (W : wr_n out 0 (repeat 0 (Z.to_nat len)) = Some (copy_at (Z.to_nat 0) (repeat 0 (Z.to_nat len)) out)) by (apply wr_n_some; [lia|rewrite repeat_length; lia]).
    destruct c as [pk|]; [|left; unfold ec_pubkey_serialize; rewrite GE, W; reflexivity]. cbn [to given optional] in *.
    destruct (Z.eq_dec (Z.land d 0xFF) 2) as [F|F].
    + destruct (pk_ok_dec pk) as [K|K]; [exfalso; apply H; tauto|]. destruct (ser_f out len pk d T1 K T2 G' F) as (o & E & _). rewrite E. done1.
    + unfold ec_pubkey_serialize. rewrite GE, W. apply Z.eqb_neq in F. rewrite F. done1.
Qed.
Lemma sign_internal_illegal ctx sig msg msglen kp nf nd : ~ (ctx_ok ctx /\ given sig /\ (given msg \/ msglen = 0) /\ to kp_ok kp) -> optional (bytes_n 96) kp ->
  rr (schnorrsig_sign_internal ctx sig msg msglen kp nf nd) = Some (0, 1).
Proof.
  unfold ctx_ok. intros H B. unfold schnorrsig_sign_internal. destruct (g_built (c_gen ctx)); cbn [negb]; [|reflexivity]. destruct sig; [|reflexivity].
  destruct (negb ((match msg with Some _ => true | None => false end) || (msglen =? 0))) eqn:M; [reflexivity|].
  apply negb_false_iff, orb_true_iff in M. destruct kp as [kp|]; [|reflexivity]. cbn [to given optional] in *.
  destruct (kp_ok_dec kp) as [K|K].
  - exfalso. apply H. refine (conj eq_refl (conj I (conj _ K))). destruct M as [M|M]; [left; destruct msg; [exact I|discriminate M]|right; now apply Z.eqb_eq].
  - rewrite (kp_f kp B K). cbv beta iota zeta. cbn [andb]. set (x := (if nf then _ else _)) in *. clearbody x.
    match goal with |- context [let (_, _) := ?u in _] => destruct u end. cbn [r_ret r_ill rr]. reflexivity.
Qed.
Lemma i40 : forall a b c d e, illegal_ok (Call_schnorrsig_sign32 a b c d e).
Proof.
  intros a b c d e. NL. left. unfold schnorrsig_sign32. apply sign_internal_illegal; [|assumption]. intros (? & ? & M & ?). apply H.
  destruct M as [M|M]; [tauto|discriminate M].
Qed.
Lemma i41 : forall a b c d e f, illegal_ok (Call_schnorrsig_sign_custom a b c d e f).
Proof.
  intros a b c d e f. NL. left. destruct T as [T1 T2]. unfold schnorrsig_sign_custom. destruct f as [ep|]; cbn [optional] in *.
  - destruct (memcmp_var (ep_magic ep) schnorrsig_extraparams_magic =? 0) eqn:E; cbn [negb]; [|reflexivity].
    apply memcmp_eq in E; [|now rewrite (proj2 T2)]. apply sign_internal_illegal; [|assumption]. intros (? & ? & ? & ?). apply H. repeat split; assumption.
  - apply sign_internal_illegal; [|assumption]. tauto.
Qed.
Lemma i42 : forall a b c d, illegal_ok (Call_schnorrsig_verify a b c d).
Proof.
  intros a b c d. NL. unfold schnorrsig_verify, xonly_pubkey_load. destruct a as [sig|]; [|done1].
  destruct (negb ((match b with Some _ => true | None => false end) || (c =? 0))) eqn:M; [done1|]. destruct d as [pk|]; [|done1]. cbn [given to optional] in *.
  destruct (fe_set_b32_limit (firstn 32 sig)) as [[] rx]; cbn [negb].
  2: { right. split; [reflexivity|]. intros [pk'|] P; [reflexivity|destruct P]. }
  destruct (sc_set_b32 (firstn 32 (skipn 32 sig))) as [s []].
  { right. split; [reflexivity|]. intros [pk'|] P; [reflexivity|destruct P]. }
  apply negb_false_iff, orb_true_iff in M.
  dec1; [|done1]. exfalso. apply H. repeat split; [|assumption]. destruct M as [M|M]; [left; destruct b; [exact I|discriminate M]|right; now apply Z.eqb_eq].
Qed.
Lemma pks_ok_dec l : {Forall pk_ok l} + {~ Forall pk_ok l}.
Proof. apply Forall_dec, pk_ok_dec. Qed.
Lemma i47 : forall a b c, illegal_ok (Call_musig_pubkey_agg a b c).
Proof.
  intros a b c. NL. left. unfold musig_pubkey_agg, musig_compute_pks_hash. destruct c as [[|pk0 rest]|]; [reflexivity| |reflexivity]. cbn [to optional] in *.
  destruct (second_pk_loop pk0 rest); [|reflexivity]. rewrite pks_f; [reflexivity|assumption|]. intros F. apply H. split; [discriminate|assumption].
Qed.
Lemma i56 : forall a b, illegal_ok (Call_musig_partial_sig_serialize a b).
Proof.
  intros a b. NL. left. unfold musig_partial_sig_serialize, partial_sig_magic. destruct a; [|reflexivity]. destruct b; [|reflexivity]. cbn [to given optional] in *.
  rewrite (tag_f _ _ 36 T) by (lia || reflexivity || (intros Q; apply H; split; [exact I|exact Q])). reflexivity.
Qed.
Lemma gen_internal_illegal ctx sn pn nonce sk pk msg cache extra : ~ (ctx_ok ctx /\ given pn /\ to pk_ok pk /\ optional cache_ok cache) ->
  optional (bytes_n 64) pk -> optional (bytes_n 197) cache -> let r := musig_nonce_gen_internal ctx sn pn nonce sk pk msg cache extra in r_ret r = 0 /\ r_ill r = 1.
Proof.
  unfold ctx_ok. intros H B1 B2. unfold musig_nonce_gen_internal. destruct pn; [|split; reflexivity]. destruct pk as [pk|]; [|split; reflexivity].
  destruct (g_built (c_gen ctx)); cbn [negb]; [|split; reflexivity]. cbn [to given optional] in *.
  destruct cache as [c|]; cbn [optional] in *.
  - destruct (tag_dec _ c : {cache_ok c} + {~ cache_ok c}) as [K|K].
    + destruct (cache_t c B2 K) as [ci E]. rewrite E. destruct (pk_ok_dec pk) as [P|P]; [exfalso; tauto|].
      destruct (load_f pk B1 P) as [g E2]. rewrite E2. split; reflexivity.
    + rewrite (cache_f c B2 K). split; reflexivity.
  - destruct (pk_ok_dec pk) as [P|P]; [exfalso; tauto|]. destruct (load_f pk B1 P) as [g E2]. rewrite E2. split; reflexivity.
Qed.
Lemma i57 : forall a b c d e f g h i, illegal_ok (Call_musig_nonce_gen a b c d e f g h i).
Proof.
  intros a b c d e f g h i. NL. unfold musig_nonce_gen. destruct T as (T1 & T2 & T3).
  destruct b; [|done1]. destruct d as [rand|]; [|done1]. destruct (is_zero_array (firstn 32 rand)).
  - right. split; [reflexivity|]. reflexivity.
  - left. cbv zeta. unfold rr. cbn [r_ret r_ill]. cbn [given to] in H.
    destruct (gen_internal_illegal a (zeros 132) c rand e f g h i) as [E1 E2]; [tauto|assumption..|]. now rewrite E1, E2.
Qed.
Lemma i58 : forall a b c d e f g h, illegal_ok (Call_musig_nonce_gen_counter a b c d e f g h).
Proof.
  intros a b c d e f g h. NL. left. unfold musig_nonce_gen_counter. destruct T as (T2 & T3).
  destruct b; [|reflexivity]. destruct e as [kp|]; [|reflexivity]. cbv zeta. unfold rr. cbn [r_ret r_ill]. cbn [optional to given] in *.
  destruct (kp_parts kp T2) as (_ & B & F). unfold keypair_pub. cbn [r_out]. rewrite F.
  match goal with |- context [musig_nonce_gen_internal a ?s c ?n ?k ?p f g h] => destruct (gen_internal_illegal a s c n k p f g h) as [E1 E2] end.
  - intros (? & ? & ? & ?). apply H. repeat split; assumption.
  - exact B.
  - exact T3.
  - now rewrite E1, E2.
Qed.
Lemma i59 : forall a b, illegal_ok (Call_musig_nonce_agg a b).
Proof.
  intros a b. NL. left. unfold musig_nonce_agg, musig_sum_pubnonces. destruct a; [|reflexivity]. destruct b as [[|x l0]|]; [reflexivity| |reflexivity]. cbn [to given optional] in *.
  rewrite sum_f; [reflexivity|assumption|]. intros Q. apply H. repeat split; [discriminate|assumption].
Qed.
Lemma i61 : forall a b c d e, illegal_ok (Call_musig_partial_sign a b c d e).
Proof.
  intros a b c d e. NL. left. destruct T as (T1 & T2 & T3 & T4). unfold musig_partial_sign. destruct b as [sn|]; [|reflexivity]. cbn [to given optional] in *.
  destruct (secnonce_dec sn) as [S0|S0]; [|rewrite (secnonce_f sn T1 S0); reflexivity]. pose proof (proj1 (secnonce_iff sn T1) S0) as (k0 & k1 & E). rewrite E.
  destruct a; [|reflexivity]. destruct c as [kp|]; [|reflexivity]. destruct d as [ca|]; [|reflexivity]. destruct e as [se|]; [|reflexivity]. cbn [to given optional] in *.
  destruct (kp_ok_dec kp) as [K|K]; [|rewrite (kp_f kp T2 K); reflexivity]. destruct (kp_t kp T2 K) as [sk E2]. rewrite E2. cbn [negb].
  match goal with |- context [negb ?u] => destruct u eqn:M end; cbn [negb]; [|reflexivity]. apply matches_iff in M; [|assumption..].
  destruct (tag_dec _ ca : {cache_ok ca} + {~ cache_ok ca}) as [C|C]; [|rewrite (cache_f ca T3 C); reflexivity]. destruct (cache_t ca T3 C) as [ci E3]. rewrite E3.
  destruct (tag_dec _ se : {session_ok se} + {~ session_ok se}) as [D|D]; [|rewrite (session_f se T4 D); reflexivity].
  exfalso. apply H. refine (conj I (conj S0 (conj K (conj C (conj D _))))). intros sn' kp' E4 E5. injection E4 as <-. injection E5 as <-. exact M.
Qed.
Lemma i63 : forall a b c, illegal_ok (Call_musig_partial_sig_agg a b c).
Proof.
  intros a b c. NL. left. unfold musig_partial_sig_agg. destruct T as [T1 T2]. destruct a; [|reflexivity]. destruct b as [se|]; [|reflexivity]. destruct c as [[|x l0]|]; [reflexivity| |reflexivity].
  cbn [to given optional] in *. destruct (tag_dec _ se : {session_ok se} + {~ session_ok se}) as [D|D]; [|rewrite (session_f se T1 D); reflexivity].
  destruct (session_t se T1 D) as [si E1]. rewrite E1. rewrite agg_f; [reflexivity|assumption|]. intros Q. apply H. repeat split; [assumption|discriminate|assumption].
Qed.
Theorem all_illegal c : illegal_ok c.
Proof.
  destruct c; try (intros _ _ G; destruct G; exact I);
  [apply i0|apply i1|apply i2|apply i3|apply i4|apply i5|apply i6|apply i7|apply i8|apply i9|apply i10|apply i11|apply i12|apply i13|apply i14|apply i15|apply i16
  |apply i17|apply i18|apply i19|apply i20|apply i21|apply i22|apply i23|apply i25|apply i26|apply i27|apply i28|apply i29|apply i30|apply i31|apply i32|apply i33|apply i34
  |apply i35|apply i36|apply i37|apply i38|apply i39|apply i40|apply i41|apply i42|apply i43|apply i44|apply i45|apply i46|apply i47|apply i48|apply i49|apply i50|apply i51|apply i52|apply i53|apply i54|apply i55|apply i56
  |apply i57|apply i58|apply i59|apply i60|apply i61|apply i62|apply i63].
Qed.
