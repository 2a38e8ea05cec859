Require Import ZArith List Bool Lia.
From Verif Require Import Word Bytes Spec SpecApi FieldModel FieldMul FieldOps FieldProof2 FieldBytes ScalarModel ScalarProof2 GroupModel GroupProof5 GenModel HashModel EcdsaModel ApiModel ApiVocab ApiProof RecoveryModel EcdhModel HsortModel ExtrakeysModel ExtrakeysProof SchnorrModel EllswiftModel MusigModel CallsVocab.
Import ListNotations.
Local Open Scope Z_scope.

Lemma le_val_0 l : byte_list l -> (le_val l = 0 <-> l = repeat 0 (length l)).
Proof.
  induction 1 as [|b l Hb Hl IH]; [easy|]. cbn [le_val length repeat]. pose proof (le_val_range l Hl) as R. split.
  - intros E. assert (b = 0) by lia. assert (le_val l = 0) by lia. subst b. f_equal. now apply IH.
  - intros E. injection E as -> E. apply IH in E. rewrite E. reflexivity.
Qed.
Lemma load_iff pk : bytes_n 64 pk -> (fst (pubkey_load pk) = true <-> pk_ok pk).
Proof.
  intros [B L]. unfold pubkey_load, pk_ok. cbn [fst ge_from_bytes ge_from_storage gx stx].
  assert (B1 : byte_list (firstn 32 pk)) by now apply byte_list_firstn.
  assert (L1 : length (firstn 32 pk) = 32%nat) by (rewrite firstn_length, L; reflexivity).
  destruct (fes_of_bytes_ok _ B1 L1) as [K V]. destruct (fe_from_storage_ok _ K) as (W & M & _).
  pose proof (le_val_0 _ B1) as Z0. rewrite L1 in Z0. rewrite <- Z0, <- V, <- W.
  unfold ge_from_bytes, ge_from_storage. cbn [gx stx]. revert M. generalize (fe_from_storage (fes_of_bytes (firstn 32 pk))). clear.
  intros a (H0 & H1 & H2 & H3 & H4). rewrite negb_true_iff. unfold fe_is_zero. rewrite Z.eqb_neq, !lor_0_iff. unfold fval. lia.
Qed.
Lemma load_t pk : bytes_n 64 pk -> pk_ok pk -> exists g, pubkey_load pk = (true, g).
Proof. intros B H. apply load_iff in H; [|assumption]. destruct (pubkey_load pk) as [b g]. cbn [fst] in H. subst b. now exists g. Qed.
Lemma load_f pk : bytes_n 64 pk -> ~ pk_ok pk -> exists g, pubkey_load pk = (false, g).
Proof.
  intros B H. rewrite <- load_iff in H by assumption. destruct (pubkey_load pk) as [[] g]; cbn [fst] in H; [now destruct H|]. now exists g.
Qed.
Lemma pk_ok_dec pk : {pk_ok pk} + {~ pk_ok pk}.
Proof. unfold pk_ok. destruct (list_eq_dec Z.eq_dec (firstn 32 pk) (repeat 0 32)); [right|left]; tauto. Qed.
Lemma kp_parts kp : bytes_n 96 kp -> bytes_n 32 (firstn 32 kp) /\ bytes_n 64 (skipn 32 kp) /\ firstn 64 (skipn 32 kp) = skipn 32 kp.
Proof.
  intros [B L]. assert (L2 : length (skipn 32 kp) = 64%nat) by (rewrite skipn_length, L; reflexivity). split; [|split].
  - split; [now apply byte_list_firstn|]. rewrite firstn_length, L. reflexivity.
  - split; [now apply byte_list_skipn|assumption].
  - apply firstn_all2. lia.
Qed.
Lemma kp_pk_t kp : bytes_n 96 kp -> kp_pk_ok kp -> exists g, keypair_load_pk kp = (true, g).
Proof.
  intros B H. destruct (kp_parts kp B) as (_ & B2 & _). destruct (load_t _ B2 H) as [g E]. exists g. unfold keypair_load_pk. now rewrite E.
Qed.
Lemma kp_pk_f kp : bytes_n 96 kp -> ~ kp_pk_ok kp -> exists g, keypair_load_pk kp = (false, g).
Proof.
  intros B H. destruct (kp_parts kp B) as (_ & B2 & _). destruct (load_f _ B2 H) as [g E]. exists ge_const_g. unfold keypair_load_pk. now rewrite E.
Qed.
Lemma kp_t kp : bytes_n 96 kp -> kp_ok kp -> exists sk, keypair_load kp = (true, sk, snd (pubkey_load (skipn 32 kp))).
Proof.
  intros B [H R]. destruct (kp_parts kp B) as (B1 & B2 & _). destruct (load_t _ B2 H) as [g E]. unfold keypair_load, keypair_seckey_load. rewrite E.
  destruct (sc_set_b32_seckey_ok _ (proj1 B1) (proj2 B1)) as (_ & _ & O). destruct (sc_set_b32_seckey (firstn 32 kp)) as [sk b]. cbn [snd] in *.
  exists sk. replace b with true; [reflexivity|]. rewrite O. symmetry. apply andb_true_iff. rewrite !Z.ltb_lt. lia.
Qed.
Lemma kp_f kp : bytes_n 96 kp -> ~ kp_ok kp -> keypair_load kp = (false, sc_one, ge_const_g).
Proof.
  intros B H. destruct (kp_parts kp B) as (B1 & B2 & _). unfold keypair_load, keypair_seckey_load.
  destruct (pk_ok_dec (skipn 32 kp)) as [P|P].
  - destruct (load_t _ B2 P) as [g E]. rewrite E.
    destruct (sc_set_b32_seckey_ok _ (proj1 B1) (proj2 B1)) as (_ & _ & O). destruct (sc_set_b32_seckey (firstn 32 kp)) as [sk b]. cbn [snd] in *.
    replace b with false; [reflexivity|]. rewrite O. symmetry. apply not_true_iff_false. rewrite andb_true_iff, !Z.ltb_lt. intros K. apply H. split; [exact P|]. lia.
  - destruct (load_f _ B2 P) as [g E]. now rewrite E.
Qed.
(** The MuSig objects. *)
Lemma tag_iff magic obj : length magic = 4%nat -> (4 <= length obj)%nat -> ((memcmp_var (take 0 4 obj) magic =? 0) = true <-> tag_ok magic obj).
Proof. intros L K. unfold take, tag_ok. cbn [skipn]. apply memcmp_eq. rewrite firstn_length. lia. Qed.
Lemma tag_t magic obj k : bytes_n k obj -> tag_ok magic obj -> (4 <= k)%nat -> length magic = 4%nat -> (memcmp_var (take 0 4 obj) magic =? 0) = true.
Proof. intros [_ B] H K L. apply tag_iff; [assumption|lia|assumption]. Qed.
Lemma tag_f magic obj k : bytes_n k obj -> ~ tag_ok magic obj -> (4 <= k)%nat -> length magic = 4%nat -> (memcmp_var (take 0 4 obj) magic =? 0) = false.
Proof. intros [_ B] H K L. apply not_true_iff_false. rewrite tag_iff; [assumption|assumption|lia]. Qed.
Lemma tag_dec magic obj : {tag_ok magic obj} + {~ tag_ok magic obj}.
Proof. apply list_eq_dec, Z.eq_dec. Qed.
Lemma cache_t c : bytes_n 197 c -> cache_ok c -> exists ci, keyagg_cache_load c = Some ci.
Proof. intros B H. unfold keyagg_cache_load, keyagg_cache_magic. rewrite (tag_t _ _ 197 B H ltac:(lia) eq_refl). eauto. Qed.
Lemma cache_f c : bytes_n 197 c -> ~ cache_ok c -> keyagg_cache_load c = None.
Proof. intros B H. unfold keyagg_cache_load, keyagg_cache_magic. rewrite (tag_f _ _ 197 B H ltac:(lia) eq_refl). reflexivity. Qed.
Lemma pubnonce_t c : bytes_n 132 c -> pubnonce_ok c -> exists g0 g1, musig_pubnonce_load c = Some (g0, g1).
Proof. intros B H. unfold musig_pubnonce_load, pubnonce_magic. rewrite (tag_t _ _ 132 B H ltac:(lia) eq_refl). eauto. Qed.
Lemma pubnonce_f c : bytes_n 132 c -> ~ pubnonce_ok c -> musig_pubnonce_load c = None.
Proof. intros B H. unfold musig_pubnonce_load, pubnonce_magic. rewrite (tag_f _ _ 132 B H ltac:(lia) eq_refl). reflexivity. Qed.
Lemma aggnonce_t c : bytes_n 132 c -> aggnonce_ok c -> exists g0 g1, musig_aggnonce_load c = Some (g0, g1).
Proof. intros B H. unfold musig_aggnonce_load, aggnonce_magic. rewrite (tag_t _ _ 132 B H ltac:(lia) eq_refl). eauto. Qed.
Lemma aggnonce_f c : bytes_n 132 c -> ~ aggnonce_ok c -> musig_aggnonce_load c = None.
Proof. intros B H. unfold musig_aggnonce_load, aggnonce_magic. rewrite (tag_f _ _ 132 B H ltac:(lia) eq_refl). reflexivity. Qed.
Lemma session_t c : bytes_n 133 c -> session_ok c -> exists si, musig_session_load c = Some si.
Proof. intros B H. unfold musig_session_load, session_cache_magic. rewrite (tag_t _ _ 133 B H ltac:(lia) eq_refl). eauto. Qed.
Lemma session_f c : bytes_n 133 c -> ~ session_ok c -> musig_session_load c = None.
Proof. intros B H. unfold musig_session_load, session_cache_magic. rewrite (tag_f _ _ 133 B H ltac:(lia) eq_refl). reflexivity. Qed.
Lemma psig_t c : bytes_n 36 c -> psig_ok c -> exists s, musig_partial_sig_load c = Some s.
Proof. intros B H. unfold musig_partial_sig_load, partial_sig_magic. rewrite (tag_t _ _ 36 B H ltac:(lia) eq_refl). eauto. Qed.
Lemma psig_f c : bytes_n 36 c -> ~ psig_ok c -> musig_partial_sig_load c = None.
Proof. intros B H. unfold musig_partial_sig_load, partial_sig_magic. rewrite (tag_f _ _ 36 B H ltac:(lia) eq_refl). reflexivity. Qed.
Lemma fold_lor_0 l a : fold_left Z.lor l a = 0 <-> a = 0 /\ l = repeat 0 (length l).
Proof.
  revert a. induction l as [|b l IH]; intros a; cbn [fold_left length repeat]; [tauto|]. rewrite IH, lor_0_iff. split.
  - intros [[-> ->] E]. split; [reflexivity|]. now rewrite <- E.
  - intros [-> E]. injection E as -> E. now split.
Qed.
Lemma is_zero_array_iff l : is_zero_array l = true <-> l = repeat 0 (length l).
Proof. unfold is_zero_array. rewrite Z.eqb_eq, fold_lor_0. tauto. Qed.
Lemma secnonce_iff c : bytes_n 132 c -> (secnonce_ok c <-> exists k0 k1, musig_secnonce_load c = Some (k0, k1, ge_from_bytes (take 68 64 c))).
Proof.
  intros B. unfold musig_secnonce_load, secnonce_ok, secnonce_magic. destruct (tag_dec [0x22; 0x0e; 0xdc; 0xf1] c) as [T|T].
  - rewrite (tag_t _ _ 132 B T ltac:(lia) eq_refl). cbn [negb]. destruct (is_zero_array (take 4 64 c)) eqn:E.
    + apply is_zero_array_iff in E. unfold take in E. replace (length (firstn 64 (skipn 4 c))) with 64%nat in E by (rewrite firstn_length, skipn_length, (proj2 B); reflexivity).
      split; [tauto|]. intros (? & ? & K). discriminate K.
    + apply not_true_iff_false in E. rewrite is_zero_array_iff in E. unfold take in E. replace (length (firstn 64 (skipn 4 c))) with 64%nat in E by (rewrite firstn_length, skipn_length, (proj2 B); reflexivity).
      split; [eauto|]. intros _. tauto.
  - rewrite (tag_f _ _ 132 B T ltac:(lia) eq_refl). cbn [negb]. split; [tauto|]. intros (? & ? & K). discriminate K.
Qed.
Lemma secnonce_f c : bytes_n 132 c -> ~ secnonce_ok c -> musig_secnonce_load c = None.
Proof.
  intros B H. rewrite secnonce_iff in H by assumption. unfold musig_secnonce_load in *.
  destruct (negb _); [reflexivity|]. destruct (is_zero_array _); [reflexivity|]. destruct H. eauto.
Qed.
Lemma secnonce_dec c : {secnonce_ok c} + {~ secnonce_ok c}.
Proof.
  unfold secnonce_ok. destruct (tag_dec [0x22; 0x0e; 0xdc; 0xf1] c); [|tauto].
  destruct (list_eq_dec Z.eq_dec (firstn 64 (skipn 4 c)) (repeat 0 64)); tauto.
Qed.
Lemma kp_ok_dec kp : {kp_ok kp} + {~ kp_ok kp}.
Proof.
  unfold kp_ok, kp_pk_ok. destruct (pk_ok_dec (skipn 32 kp)); [|tauto].
  destruct (Z_le_dec 1 (be_val (firstn 32 kp))); [|tauto]. destruct (Z_lt_dec (be_val (firstn 32 kp)) n); tauto.
Qed.
