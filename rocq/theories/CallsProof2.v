Require Import ZArith List Bool Lia.
From Verif Require Curve.
From Verif Require Import Word Bytes Spec SpecApi FieldModel FieldMul FieldProof FieldOps FieldProof2 FieldBytes ScalarModel ScalarProof2 GroupModel GroupProof5 GenModel HashModel EcmultModel EcdsaModel ApiModel ApiVocab ApiProof ApiProof2 RecoveryModel EcdhModel HsortModel SortProof ExtrakeysModel ExtrakeysProof SchnorrModel EllswiftModel MusigModel CallsVocab CallsProof.
Import ListNotations.
Local Open Scope Z_scope.

Lemma load_inf pk : ginf (snd (pubkey_load pk)) = false.
Proof. reflexivity. Qed.
Lemma fe_get_b32_length a : length (fe_get_b32 a) = 32%nat.
Proof. reflexivity. Qed.
Lemma eckey_ser_some g c : ginf g = false -> exists b, eckey_pubkey_serialize g c = Some b /\ length b = (if c then 33 else 65)%nat.
Proof.
  intros H. unfold eckey_pubkey_serialize, ge_is_infinity. rewrite H. destruct c; eexists; (split; [reflexivity|]).
  - cbn [length]. now rewrite fe_get_b32_length.
  - cbn [length]. now rewrite app_length, !fe_get_b32_length.
Qed.
Local Opaque pubkey_load fe_get_b32 sc_set_b32 sc_set_b32_seckey eckey_pubkey_serialize ecmult ecmult_gen keypair_load keypair_load_pk.

Lemma ser_t out len pk flags : bytes_n 64 pk -> pk_ok pk -> len <= Z.of_nat (length out) ->
  len >= (if Z.land flags 256 =? 0 then 65 else 33) -> Z.land flags 0xFF = 2 ->
  exists o, ec_pubkey_serialize (Some out) (Some len) (Some pk) flags = Some (mkres 1 0 o) /\ fst o <> None.
Proof.
  intros B K L G F. unfold ec_pubkey_serialize. rewrite F.
  set (c := negb (Z.land flags 256 =? 0)). assert (G' : len >= (if c then 33 else 65)) by (unfold c; destruct (Z.land flags 256 =? 0); exact G). clearbody c. clear G.
  replace (len >=? (if c then 33 else 65)) with true by (symmetry; apply Z.geb_le; lia). cbn [negb].
  assert (P : 33 <= len) by (destruct c; lia).
  assert (L0 : Z.of_nat (length (repeat 0 (Z.to_nat len))) = len) by (rewrite repeat_length; lia).
  rewrite wr_n_some by lia. destruct (load_t pk B K) as [g E]. rewrite E. cbn [negb Z.eqb Pos.eqb].
  pose proof (load_inf pk) as I. rewrite E in I. cbn [snd] in I. destruct (eckey_ser_some g c I) as (b & Eb & Lb). rewrite Eb.
  assert (LO : Z.of_nat (length (copy_at (Z.to_nat 0) (repeat 0 (Z.to_nat len)) out)) = Z.of_nat (length out)).
  { unfold copy_at. cbn [Z.to_nat]. rewrite !app_length, firstn_length, skipn_length, repeat_length. lia. }
  rewrite wr_n_some; [|lia|rewrite LO, Lb; destruct c; lia]. eexists. split; [reflexivity|]. discriminate.
Qed.
Lemma ser_f out len pk flags : bytes_n 64 pk -> ~ pk_ok pk -> len <= Z.of_nat (length out) ->
  len >= (if Z.land flags 256 =? 0 then 65 else 33) -> Z.land flags 0xFF = 2 ->
  exists o, ec_pubkey_serialize (Some out) (Some len) (Some pk) flags = Some (mkres 0 1 o) /\ fst o <> None.
Proof.
  intros B K L G F. unfold ec_pubkey_serialize. rewrite F.
  set (c := negb (Z.land flags 256 =? 0)). assert (G' : len >= (if c then 33 else 65)) by (unfold c; destruct (Z.land flags 256 =? 0); exact G). clearbody c. clear G.
  replace (len >=? (if c then 33 else 65)) with true by (symmetry; apply Z.geb_le; lia). cbn [negb].
  assert (P : 33 <= len) by (destruct c; lia).
  assert (L0 : Z.of_nat (length (repeat 0 (Z.to_nat len))) = len) by (rewrite repeat_length; lia).
  rewrite wr_n_some by lia. destruct (load_f pk B K) as [g E]. rewrite E. cbn [negb Z.eqb Pos.eqb]. eexists. split; [reflexivity|]. discriminate.
Qed.
Lemma ser33_t pk : bytes_n 64 pk -> pk_ok pk -> exists o, ec_pubkey_serialize (Some (zeros 33)) (Some 33) (Some pk) EC_COMPRESSED = Some (mkres 1 0 o) /\ fst o <> None.
Proof. intros B K. apply ser_t; [assumption..|reflexivity| |reflexivity]. cbn. lia. Qed.
Lemma ser33_f pk : bytes_n 64 pk -> ~ pk_ok pk -> exists o, ec_pubkey_serialize (Some (zeros 33)) (Some 33) (Some pk) EC_COMPRESSED = Some (mkres 0 1 o) /\ fst o <> None.
Proof. intros B K. apply ser_f; [assumption..|reflexivity| |reflexivity]. cbn. lia. Qed.

(** Lists of objects. *)
Lemma pks_t l : Forall (bytes_n 64) l -> Forall pk_ok l -> forall sha, exists s, pks_hash_loop sha l = inl s.
Proof.
  induction 1 as [|pk l B Bl IH]; intros K sha; cbn [pks_hash_loop]; [eauto|]. inversion K; subst.
  destruct (ser33_t pk B) as (o & E & _); [assumption|]. rewrite E. cbn [r_ret Z.eqb]. now apply IH.
Qed.
Lemma pks_f l : Forall (bytes_n 64) l -> ~ Forall pk_ok l -> forall sha, pks_hash_loop sha l = inr 1.
Proof.
  induction 1 as [|pk l B Bl IH]; intros K sha; cbn [pks_hash_loop]; [destruct K; constructor|].
  destruct (pk_ok_dec pk) as [P|P].
  - destruct (ser33_t pk B P) as (o & E & _). rewrite E. cbn [r_ret Z.eqb]. apply IH. intros Q. apply K. now constructor.
  - destruct (ser33_f pk B P) as (o & E & _). rewrite E. reflexivity.
Qed.
Lemma second_t pk0 l : Forall (bytes_n 64) l -> Forall pk_ok l -> exists g, second_pk_loop pk0 l = Some g.
Proof.
  induction 1 as [|pk l B Bl IH]; intros K; cbn [second_pk_loop]; [eauto|]. inversion K; subst.
  destruct (negb (memcmp_var pk0 pk =? 0)); [|now apply IH].
  destruct (load_t pk B) as (g & E); [assumption|]. rewrite E. cbn [negb]. eauto.
Qed.
Lemma sum_t l : Forall (bytes_n 132) l -> Forall pubnonce_ok l -> forall a b, exists s, sum_pubnonces_loop a b l = Some s.
Proof.
  induction 1 as [|x l B Bl IH]; intros K a b; cbn [sum_pubnonces_loop]; [eauto|]. inversion K; subst.
  destruct (pubnonce_t x B) as (g0 & g1 & E); [assumption|]. rewrite E. now apply IH.
Qed.
Lemma sum_f l : Forall (bytes_n 132) l -> ~ Forall pubnonce_ok l -> forall a b, sum_pubnonces_loop a b l = None.
Proof.
  induction 1 as [|x l B Bl IH]; intros K a b; cbn [sum_pubnonces_loop]; [destruct K; constructor|].
  destruct (tag_dec [0xf5; 0x7a; 0x3d; 0xa0] x) as [P|P].
  - destruct (pubnonce_t x B P) as (g0 & g1 & E). rewrite E. apply IH. intros Q. apply K. now constructor.
  - now rewrite (pubnonce_f x B P).
Qed.
Lemma agg_t l : Forall (bytes_n 36) l -> Forall psig_ok l -> forall a, exists s, partial_sig_agg_loop a l = Some s.
Proof.
  induction 1 as [|x l B Bl IH]; intros K a; cbn [partial_sig_agg_loop]; [eauto|]. inversion K; subst.
  destruct (psig_t x B) as (g0 & E); [assumption|]. rewrite E. now apply IH.
Qed.
Lemma agg_f l : Forall (bytes_n 36) l -> ~ Forall psig_ok l -> forall a, partial_sig_agg_loop a l = None.
Proof.
  induction 1 as [|x l B Bl IH]; intros K a; cbn [partial_sig_agg_loop]; [destruct K; constructor|].
  destruct (tag_dec [0xeb; 0xfb; 0x1a; 0x32] x) as [P|P].
  - destruct (psig_t x B P) as (g0 & E). rewrite E. apply IH. intros Q. apply K. now constructor.
  - now rewrite (psig_f x B P).
Qed.
Lemma multi_total f k : forall idx r, exists j, multi_simple_loop (fun i => Some (f i)) idx k r = Some j.
Proof. induction k; intros idx r; cbn [multi_simple_loop]; [eauto|]. destruct (f idx). apply IHk. Qed.
(** Whose nonce it is. *)
Lemma fes_fv b : byte_list b -> length b = 32%nat -> fe_mag 1 (fe_from_storage (fes_of_bytes b)) /\ fval (fe_from_storage (fes_of_bytes b)) = le_val b.
Proof.
  intros B L. destruct (fes_of_bytes_ok b B L) as [K V]. destruct (fe_from_storage_ok _ K) as (W & M & _). split; [assumption|]. now rewrite W.
Qed.
Lemma gx_take off b : gx (ge_from_bytes (take off 64 b)) = fe_from_storage (fes_of_bytes (firstn 32 (skipn off b))).
Proof. unfold ge_from_bytes, ge_from_storage, take. cbn [gx stx]. rewrite firstn_firstn. reflexivity. Qed.
Lemma gy_take off b : gy (ge_from_bytes (take off 64 b)) = fe_from_storage (fes_of_bytes (firstn 32 (skipn (off + 32) b))).
Proof.
  unfold ge_from_bytes, ge_from_storage, take. cbn [gy sty]. rewrite skipn_firstn_comm. cbn [Nat.sub]. now rewrite skipn_add.
Qed.
Lemma eq_bytes a b : byte_list a -> byte_list b -> length a = 32%nat -> length b = 32%nat ->
  fe_equal (fe_from_storage (fes_of_bytes a)) (fe_from_storage (fes_of_bytes b)) = true <-> le_val a mod p = le_val b mod p.
Proof.
  intros A B La Lb. destruct (fes_fv a A La) as [Ma Va]. destruct (fes_fv b B Lb) as [Mb Vb].
  rewrite (fe_equal_spec 1) by (assumption || lia). unfold fv. rewrite Va, Vb. split; [apply Curve.toF_inj|apply Curve.toF_eq].
Qed.
Lemma matches_iff sn kp : bytes_n 132 sn -> bytes_n 96 kp ->
  (fe_equal (gx (ge_from_bytes (take 68 64 sn))) (gx (snd (pubkey_load (skipn 32 kp)))) &&
   fe_equal (gy (ge_from_bytes (take 68 64 sn))) (gy (snd (pubkey_load (skipn 32 kp)))) = true <-> nonce_matches sn kp).
Proof.
  intros [Bs Ls] BK. destruct (kp_parts kp BK) as (_ & _ & E). destruct BK as [Bk Lk]. Local Transparent pubkey_load.
  unfold pubkey_load. cbn [snd]. rewrite <- E. change (firstn 64 (skipn 32 kp)) with (take 32 64 kp).
  rewrite andb_true_iff, !gx_take, !gy_take. unfold nonce_matches, coord. cbn [Nat.add].
  rewrite !eq_bytes by (try (apply byte_list_firstn, byte_list_skipn; assumption); rewrite firstn_length, skipn_length; lia).
  reflexivity.
Qed.
