(** The public interface of src/secp256k1.c in the 32-bit build: the same results as in the 64-bit build. *)
Require Import ZArith List Bool Lia.
From Verif Require Import Word Word32 Bytes Spec SpecApi HashModel FieldModel ScalarModel Field32Model Field32Bytes Scalar32Model Scalar32Ops FieldBytes ScalarProof ScalarProof2 GenTable GroupModel EcmultModel GenModel EcdsaModel ApiModel ApiVocab SpecHash HashProof KeyProps W32_Base W32_Group W32_Ecmult W32_Gen W32_Ecdsa W32_Api W32_Tight W32_SimField W32_SimScalar W32_SimGroup W32_SimEcmult W32_SimGen W32_SimEcdsa.
Import ListNotations.
Local Open Scope Z_scope.

Definition rctx (c : context_w32) (c' : context) : Prop :=
  rgen (c_gen_w32 c) (c_gen c') /\ c_illegal_w32 c = c_illegal c' /\ c_error_w32 c = c_error c' /\ c_declassify_w32 c = c_declassify c'.
Definition rres {A B} (R : A -> B -> Prop) (a : res A) (b : res B) : Prop := r_ret a = r_ret b /\ r_ill a = r_ill b /\ R (r_out a) (r_out b).
(** The 64 bytes of a signature object: two scalars below the order. *)
Definition sig_obj (l : list Z) : Prop := bytes_n 64 l /\ le_val (firstn 32 l) < n /\ le_val (skipn 32 l) < n.
Definition opt_sig (o : option (list Z)) : Prop := forall l, o = Some l -> sig_obj l.

(* Contexts *)
Lemma r_static : rctx context_static_w32 context_static.
Proof. split; [|split; [reflexivity|split; reflexivity]]. exact (r_clear (c_gen_w32 context_static_w32) (c_gen context_static)). Qed.
Lemma r_proper c c' : rctx c c' -> context_is_proper_w32 c = context_is_proper c'. Proof. intros ((E & _) & _). exact E. Qed.
Lemma r_prealloc_create cm m m' flags : ropt rctx (context_preallocated_create_w32 cm m flags) (context_preallocated_create cm m' flags).
Proof.
  unfold context_preallocated_create_w32, context_preallocated_create. destruct (preallocated_size_ok cm flags); [|exact I].
  split; [|split; [reflexivity|split; reflexivity]]. apply r_build.
Qed.
Lemma r_create cm m m' flags : ropt rctx (context_create_w32 cm m flags) (context_create cm m' flags).
Proof. apply r_prealloc_create. Qed.
Lemma r_prealloc_clone c c' m m' : rctx c c' -> ropt rctx m m' -> rres (ropt rctx) (context_preallocated_clone_w32 c m) (context_preallocated_clone c' m').
Proof.
  intros Hc Hm. unfold context_preallocated_clone_w32, context_preallocated_clone. destruct m as [m|], m' as [m'|]; try contradiction Hm; [|split; [reflexivity|split; [reflexivity|exact I]]].
  rewrite (r_proper _ _ Hc). destruct (negb _); (split; [reflexivity|]; split; [reflexivity|]); [exact I|exact Hc].
Qed.
Lemma r_clone c c' m m' : rctx c c' -> rctx m m' -> rres (ropt rctx) (context_clone_w32 c m) (context_clone c' m').
Proof.
  intros Hc Hm. unfold context_clone_w32, context_clone. pose proof (r_prealloc_clone c c' (Some m) (Some m') Hc Hm) as H.
  rewrite (r_proper _ _ Hc). destruct (negb _); [split; [reflexivity|]; split; [reflexivity|exact I]|exact H].
Qed.
Lemma r_destroy c c' : rctx c c' -> rres rctx (context_preallocated_destroy_w32 c) (context_preallocated_destroy c').
Proof.
  intros Hc. unfold context_preallocated_destroy_w32, context_preallocated_destroy. rewrite (r_proper _ _ Hc). destruct (negb _); (split; [reflexivity|]; split; [reflexivity|]); [exact Hc|].
  destruct Hc as (_ & H1 & H2 & H3). split; [apply r_clear|]. split; [exact H1|]. split; [exact H2|exact H3].
Qed.
Lemma r_set_illegal st c c' fn data : rctx c c' -> rres rctx (context_set_illegal_callback_w32 st c fn data) (context_set_illegal_callback st c' fn data).
Proof.
  intros Hc. unfold context_set_illegal_callback_w32, context_set_illegal_callback. destruct st; (split; [reflexivity|]; split; [reflexivity|]); [exact Hc|].
  destruct Hc as (H0 & H1 & H2 & H3). split; [exact H0|]. split; [reflexivity|]. split; [exact H2|exact H3].
Qed.
Lemma r_set_error st c c' fn data : rctx c c' -> rres rctx (context_set_error_callback_w32 st c fn data) (context_set_error_callback st c' fn data).
Proof.
  intros Hc. unfold context_set_error_callback_w32, context_set_error_callback. destruct st; (split; [reflexivity|]; split; [reflexivity|]); [exact Hc|].
  destruct Hc as (H0 & H1 & H2 & H3). split; [exact H0|]. split; [exact H1|]. split; [reflexivity|exact H3].
Qed.
Lemma r_randomize c c' seed : rctx c c' -> opt_bytes 32 seed -> rres rctx (context_randomize_w32 c seed) (context_randomize c' seed).
Proof.
  intros Hc Hs. unfold context_randomize_w32, context_randomize. rewrite (r_proper _ _ Hc). destruct (negb _); [split; [reflexivity|]; split; [reflexivity|exact Hc]|].
  destruct Hc as (H0 & H1 & H2 & H3). pose proof H0 as (E & _). rewrite E. destruct (g_built _); (split; [reflexivity|]; split; [reflexivity|]); (split; [|split; [exact H1|split; [exact H2|exact H3]]]); [|exact H0].
  apply r_blind; [exact H0|exact Hs].
Qed.

(* Public keys *)
Lemma r_load pk : bytes_n 64 pk -> fst (pubkey_load_w32 pk) = fst (pubkey_load pk) /\ rge 1 1 (snd (pubkey_load_w32 pk)) (snd (pubkey_load pk)).
Proof.
  intros [B L]. pose proof (rgt_from_bytes pk B L) as H. unfold pubkey_load_w32, pubkey_load. cbv zeta. cbn [fst snd]. split; [|exact (rgt_rge _ _ H)].
  f_equal. apply rt_is_zero. apply H.
Qed.
Ltac rload pk H :=
  let L1 := fresh "L" in let L2 := fresh "L" in let ok := fresh "ok" in let q := fresh "q" in
  destruct (r_load pk H) as [L1 L2]; destruct (pubkey_load_w32 pk) as [ok q]; destruct (pubkey_load pk) as [? ?]; cbn [fst snd] in L1, L2; subst ok.
Lemma r_save a b : RG a b -> pubkey_save_w32 a = pubkey_save b. Proof. exact (r_to_bytes a b). Qed.
Lemma rg44 mx my a b : rge mx my a b -> mx <= 4 -> my <= 4 -> RG a b. Proof. apply rge_weaken. Qed.
Lemma a_pubkey_parse o inp : (forall l, inp = Some l -> byte_list l) -> ec_pubkey_parse_w32 o inp = ec_pubkey_parse o inp.
Proof.
  intros B. unfold ec_pubkey_parse_w32, ec_pubkey_parse. destruct o; [|reflexivity]. destruct inp as [l0|]; [|reflexivity].
  pose proof (r_pubkey_parse l0 (B _ eq_refl)) as H. destruct (eckey_pubkey_parse_w32 l0) as [Q|], (eckey_pubkey_parse l0) as [Q'|]; try contradiction H; [|reflexivity].
  rewrite (r_save Q Q'); [reflexivity|apply (rg44 1 2); [exact H|lia|lia]].
Qed.
Lemma a_pubkey_serialize out len pk flags : opt_bytes 64 pk -> ec_pubkey_serialize_w32 out len pk flags = ec_pubkey_serialize out len pk flags.
Proof.
  intros B. unfold ec_pubkey_serialize_w32, ec_pubkey_serialize. cbv zeta. destruct len; [|reflexivity]. destruct (negb _); [reflexivity|]. destruct out; [|reflexivity].
  destruct (wr_n _ _ _); [|reflexivity]. destruct pk as [pk|]; [|reflexivity]. destruct (negb _); [reflexivity|]. rload pk (B _ eq_refl).
  destruct b; [|reflexivity]. rewrite (r_pubkey_serialize _ _ _ (rg44 1 1 _ _ L0 ltac:(lia) ltac:(lia))). reflexivity.
Qed.
Lemma a_cmp_key pk : opt_bytes 64 pk -> cmp_key_w32 pk = cmp_key pk.
Proof. intros B. unfold cmp_key_w32, cmp_key. rewrite a_pubkey_serialize by exact B. reflexivity. Qed.
Lemma a_pubkey_cmp a b : opt_bytes 64 a -> opt_bytes 64 b -> ec_pubkey_cmp_w32 a b = ec_pubkey_cmp a b.
Proof. intros A B. unfold ec_pubkey_cmp_w32, ec_pubkey_cmp. rewrite !a_cmp_key by assumption. reflexivity. Qed.

(* Signatures *)
Lemma r_sig_load sg : sig_obj sg -> same (fst (signature_load_w32 sg)) (fst (signature_load sg)) /\ same (snd (signature_load_w32 sg)) (snd (signature_load sg)).
Proof.
  intros ([B L] & H1 & H2). split; apply same_of_bytes;
    [apply byte_list_firstn, B|rewrite firstn_length; lia|exact H1|apply byte_list_skipn, B|rewrite skipn_length; lia|exact H2].
Qed.
Ltac rsig sg H :=
  let L1 := fresh "L" in let L2 := fresh "L" in
  destruct (r_sig_load sg H) as [L1 L2]; destruct (signature_load_w32 sg) as [? ?]; destruct (signature_load sg) as [? ?]; cbn [fst snd] in L1, L2.
Lemma r_sig_save a b c d : same a b -> same c d -> signature_save_w32 a c = signature_save b d.
Proof. intros H K. unfold signature_save_w32, signature_save. rewrite (same_bytes _ _ H), (same_bytes _ _ K). reflexivity. Qed.
Lemma a_parse_der sg inp : (forall l, inp = Some l -> byte_list l) -> ecdsa_signature_parse_der_w32 sg inp = ecdsa_signature_parse_der sg inp.
Proof.
  intros B. unfold ecdsa_signature_parse_der_w32, ecdsa_signature_parse_der. destruct sg; [|reflexivity]. destruct inp as [l0|]; [|reflexivity].
  pose proof (r_sig_parse l0 (B _ eq_refl)) as H. destruct (ecdsa_sig_parse_w32 l0) as [| |[r s]], (ecdsa_sig_parse l0) as [| |[r' s']]; try contradiction H; try reflexivity.
  destruct H as [H K]. cbn [fst snd] in H, K. rewrite (r_sig_save _ _ _ _ H K). reflexivity.
Qed.
Lemma bytes_first k m l : bytes_n (k + m) l -> bytes_n k (firstn k l). Proof. intros [B L]. split; [apply byte_list_firstn, B|rewrite firstn_length; lia]. Qed.
Lemma bytes_skip k m l : bytes_n (k + m) l -> bytes_n m (skipn k l). Proof. intros [B L]. split; [apply byte_list_skipn, B|rewrite skipn_length; lia]. Qed.
Lemma a_parse_compact sg inp : opt_bytes 64 inp -> ecdsa_signature_parse_compact_w32 sg inp = ecdsa_signature_parse_compact sg inp.
Proof.
  intros B. unfold ecdsa_signature_parse_compact_w32, ecdsa_signature_parse_compact. destruct sg; [|reflexivity]. destruct inp as [l0|]; [|reflexivity].
  destruct (bytes_first 32 32 l0 (B _ eq_refl)) as [B1 L1]. destruct (bytes_skip 32 32 l0 (B _ eq_refl)) as [B2 L2].
  destruct (same_set_b32 _ B1 L1) as [S1 S2]. destruct (same_set_b32 _ B2 L2) as [S3 S4].
  destruct (s8_set_b32 (firstn 32 l0)), (sc_set_b32 (firstn 32 l0)), (s8_set_b32 (skipn 32 l0)), (sc_set_b32 (skipn 32 l0)). cbn [fst snd] in S1, S2, S3, S4. subst. cbv zeta.
  destruct (_ && _); [|reflexivity]. rewrite (r_sig_save _ _ _ _ S1 S3). reflexivity.
Qed.
Lemma a_serialize_der out len sg : opt_sig sg -> ecdsa_signature_serialize_der_w32 out len sg = ecdsa_signature_serialize_der out len sg.
Proof.
  intros B. unfold ecdsa_signature_serialize_der_w32, ecdsa_signature_serialize_der. destruct out; [|reflexivity]. destruct len; [|reflexivity]. destruct sg as [sg|]; [|reflexivity].
  rsig sg (B _ eq_refl). rewrite (r_sig_serialize _ _ _ _ _ _ L L0). reflexivity.
Qed.
Lemma a_serialize_compact out sg : opt_sig sg -> ecdsa_signature_serialize_compact_w32 out sg = ecdsa_signature_serialize_compact out sg.
Proof.
  intros B. unfold ecdsa_signature_serialize_compact_w32, ecdsa_signature_serialize_compact. destruct out; [|reflexivity]. destruct sg as [sg|]; [|reflexivity].
  rsig sg (B _ eq_refl). rewrite (same_get_b32 _ _ L), (same_get_b32 _ _ L0). reflexivity.
Qed.
Lemma a_normalize out sg : opt_sig sg -> ecdsa_signature_normalize_w32 out sg = ecdsa_signature_normalize out sg.
Proof.
  intros B. unfold ecdsa_signature_normalize_w32, ecdsa_signature_normalize. destruct sg as [sg|]; [|reflexivity]. rsig sg (B _ eq_refl). cbv zeta.
  rewrite (same_is_high _ _ L0). destruct out; [|reflexivity]. destruct (sc_is_high _).
  - rewrite (r_sig_save _ _ _ _ L (same_negate _ _ L0)). reflexivity.
  - rewrite (r_sig_save _ _ _ _ L L0). reflexivity.
Qed.
Lemma a_verify sg msg pk : opt_sig sg -> opt_bytes 32 msg -> opt_bytes 64 pk -> ecdsa_verify_w32 sg msg pk = ecdsa_verify sg msg pk.
Proof.
  intros Bs Bm Bp. unfold ecdsa_verify_w32, ecdsa_verify. destruct msg as [msg|]; [|reflexivity]. destruct sg as [sg|]; [|reflexivity]. destruct pk as [pk|]; [|reflexivity]. cbv zeta.
  destruct (Bm _ eq_refl) as [B1 L1]. destruct (same_set_b32 _ B1 L1) as [Sm _]. rsig sg (Bs _ eq_refl). rewrite (same_is_high _ _ L0). destruct (sc_is_high _); [reflexivity|].
  rload pk (Bp _ eq_refl). destruct b; [|reflexivity].
  rewrite (r_sig_verify _ _ _ _ _ _ _ _ L L0 (rg44 1 1 _ _ L3 ltac:(lia) ltac:(lia)) Sm). reflexivity.
Qed.
Lemma a_nonce msg key algo data cnt : bytes_n 32 msg -> nonce_function_rfc6979_w32 msg key algo data cnt = nonce_function_rfc6979 msg key algo data cnt.
Proof.
  intros [B L]. destruct (same_set_b32 _ B L) as [Sm _]. unfold nonce_function_rfc6979_w32, nonce_function_rfc6979. cbv zeta. rewrite (same_get_b32 _ _ Sm). reflexivity.
Qed.
Definition rsst (a : sc8 * sc8 * Z) (b : sc * sc * Z) : Prop := same (fst (fst a)) (fst (fst b)) /\ same (snd (fst a)) (snd (fst b)) /\ snd a = snd b.
Lemma r_sign_loop c c' sec sec' m m' msg key nf nf' nd : rgen c c' -> same sec sec' -> same m m' -> (forall k, nf msg key None nd k = nf' msg key None nd k) -> nonce_bytes nf' msg key nd ->
  forall fuel cnt st st', rsst st st' ->
  ropt (fun a b => fst a = fst b /\ rsst (snd a) (snd b)) (sign_loop_w32 fuel c sec m msg key nf nd cnt st) (sign_loop fuel c' sec' m' msg key nf' nd cnt st').
Proof.
  intros Hc Hs Hm Hf Hn. induction fuel as [|fuel IH]; intros cnt st st' Hst; cbn [sign_loop_w32 sign_loop]; [exact I|].
  rewrite Hf. destruct (nf' msg key None nd cnt) as [k|] eqn:E; [|split; [reflexivity|exact Hst]]. destruct (Hn _ _ E) as [B L].
  destruct (same_set_b32_seckey k B L) as [S1 S2]. destruct (s8_set_b32_seckey k) as [non ok], (sc_set_b32_seckey k) as [non' ok']. cbn [fst snd] in S1, S2. subst ok'.
  destruct ok; [|apply IH; exact Hst]. destruct (r_sig_sign _ _ _ _ _ _ _ _ Hc Hs Hm S1) as (R1 & R2 & R3 & R4).
  destruct (ecdsa_sig_sign_w32 c sec m non) as [[[ret r] s] recid], (ecdsa_sig_sign c' sec' m' non') as [[[ret' r'] s'] recid']. cbn [fst snd] in R1, R2, R3, R4. subst ret' recid'.
  destruct ret; [split; [reflexivity|]|apply IH]; (split; [exact R2|split; [exact R3|reflexivity]]).
Qed.
Lemma r_sign_inner fuel c c' msg key nf nd : rgen c c' -> bytes_n 32 msg -> bytes_n 32 key -> nonce_bytes (the_nonce nf) msg key nd ->
  ropt (fun a b => fst (fst (fst a)) = fst (fst (fst b)) /\ same (snd (fst (fst a))) (snd (fst (fst b))) /\ same (snd (fst a)) (snd (fst b)) /\ snd a = snd b)
    (ecdsa_sign_inner_w32 fuel c msg key nf nd) (ecdsa_sign_inner fuel c' msg key nf nd).
Proof.
  intros Hc Hm Hk Hn. unfold ecdsa_sign_inner_w32, ecdsa_sign_inner. cbv zeta.
  destruct (same_set_b32 msg (proj1 Hm) (proj2 Hm)) as [Sm _]. destruct (same_set_b32_seckey key (proj1 Hk) (proj2 Hk)) as [S1 S2].
  destruct (s8_set_b32_seckey key) as [sec ok], (sc_set_b32_seckey key) as [sec' ok']. cbn [fst snd] in S1, S2. subst ok'.
  assert (Ss : same (s8_cmov sec s8_one (b2z (negb ok))) (sc_cmov sec' sc_one (b2z (negb ok)))) by (apply same_cmov; [exact S1|exact same_one|apply b2z_01]).
  assert (Hf : forall k, (match nf with Some f => f | None => nonce_function_rfc6979_w32 end) msg key None nd k = the_nonce nf msg key None nd k).
  { intros k. destruct nf; [reflexivity|]. apply a_nonce. exact Hm. }
  pose proof (r_sign_loop c c' _ _ _ _ msg key _ _ nd Hc Ss Sm Hf Hn fuel 0 (s8_zero, s8_zero, 0) (sc_zero, sc_zero, 0)) as R.
  assert (Z0 : rsst (s8_zero, s8_zero, 0) (sc_zero, sc_zero, 0)) by (split; [exact same_zero|split; [exact same_zero|reflexivity]]).
  specialize (R Z0). unfold the_nonce in R.
  destruct (sign_loop_w32 _ _ _ _ _ _ _ _ _ _) as [[ret [[r s] recid]]|], (sign_loop _ _ _ _ _ _ _ _ _ _) as [[ret' [[r' s'] recid']]|]; try contradiction R; [|exact I].
  destruct R as (R1 & R2 & R3 & R4). cbn [fst snd] in R1, R2, R3, R4. subst ret' recid'. cbn [fst snd ropt].
  split; [reflexivity|]. split; [apply same_cmov; [exact R2|exact same_zero|apply b2z_01]|]. split; [apply same_cmov; [exact R3|exact same_zero|apply b2z_01]|reflexivity].
Qed.
Lemma a_sign fuel c c' sg msg key nf nd : rctx c c' -> opt_bytes 32 msg -> opt_bytes 32 key -> (forall m k, msg = Some m -> key = Some k -> nonce_bytes (the_nonce nf) m k nd) ->
  ecdsa_sign_w32 fuel c sg msg key nf nd = ecdsa_sign fuel c' sg msg key nf nd.
Proof.
  intros (Hc & _) Bm Bk Hn. unfold ecdsa_sign_w32, ecdsa_sign. pose proof Hc as (E & _). rewrite E. destruct (negb _); [reflexivity|].
  destruct msg as [msg|]; [|reflexivity]. destruct sg; [|reflexivity]. destruct key as [key|]; [|reflexivity].
  pose proof (r_sign_inner fuel _ _ msg key nf nd Hc (Bm _ eq_refl) (Bk _ eq_refl) (Hn _ _ eq_refl eq_refl)) as R.
  destruct (ecdsa_sign_inner_w32 _ _ _ _ _ _) as [[[[ret r] s] recid]|], (ecdsa_sign_inner _ _ _ _ _ _) as [[[[ret' r'] s'] recid']|]; try contradiction R; [|reflexivity].
  destruct R as (R1 & R2 & R3 & R4). cbn [fst snd] in R1, R2, R3, R4. subst. rewrite (r_sig_save _ _ _ _ R2 R3). reflexivity.
Qed.

(* Keys *)
Lemma r_seckey key : bytes_n 32 key -> same (fst (s8_set_b32_seckey key)) (fst (sc_set_b32_seckey key)) /\ snd (s8_set_b32_seckey key) = snd (sc_set_b32_seckey key).
Proof. intros [B L]. exact (same_set_b32_seckey key B L). Qed.
Ltac rkey key H :=
  let S1 := fresh "S" in let S2 := fresh "S" in let ok := fresh "ok" in let s := fresh "s" in
  destruct (r_seckey key H) as [S1 S2]; destruct (s8_set_b32_seckey key) as [s ok]; destruct (sc_set_b32_seckey key) as [? ?]; cbn [fst snd] in S1, S2; subst ok.
Lemma r_set l : bytes_n 32 l -> same (fst (s8_set_b32 l)) (fst (sc_set_b32 l)) /\ snd (s8_set_b32 l) = snd (sc_set_b32 l).
Proof. intros [B L]. exact (same_set_b32 l B L). Qed.
Ltac rscal l H :=
  let S1 := fresh "S" in let S2 := fresh "S" in let ok := fresh "ok" in let s := fresh "s" in
  destruct (r_set l H) as [S1 S2]; destruct (s8_set_b32 l) as [s ok]; destruct (sc_set_b32 l) as [? ?]; cbn [fst snd] in S1, S2; subst ok.
Lemma a_seckey_verify key : opt_bytes 32 key -> ec_seckey_verify_w32 key = ec_seckey_verify key.
Proof. intros B. unfold ec_seckey_verify_w32, ec_seckey_verify. destruct key as [key|]; [|reflexivity]. destruct (r_seckey key (B _ eq_refl)) as [_ E]. rewrite E. reflexivity. Qed.
Lemma r_create_helper c c' key : rgen c c' -> bytes_n 32 key ->
  fst (fst (ec_pubkey_create_helper_w32 c key)) = fst (fst (ec_pubkey_create_helper c' key)) /\
  same (snd (fst (ec_pubkey_create_helper_w32 c key))) (snd (fst (ec_pubkey_create_helper c' key))) /\
  rge 1 1 (snd (ec_pubkey_create_helper_w32 c key)) (snd (ec_pubkey_create_helper c' key)).
Proof.
  intros Hc Hk. unfold ec_pubkey_create_helper_w32, ec_pubkey_create_helper. rkey key Hk. cbv zeta. cbn [fst snd].
  assert (Ss : same (s8_cmov s s8_one (b2z (negb b))) (sc_cmov s0 sc_one (b2z (negb b)))) by (apply same_cmov; [exact S|exact same_one|apply b2z_01]).
  split; [reflexivity|]. split; [exact Ss|]. apply rg_set_gej, r_ecmult_gen; assumption.
Qed.
Lemma a_pubkey_create c c' pk key : rctx c c' -> opt_bytes 32 key -> ec_pubkey_create_w32 c pk key = ec_pubkey_create c' pk key.
Proof.
  intros (Hc & _) B. unfold ec_pubkey_create_w32, ec_pubkey_create. destruct pk; [|reflexivity]. pose proof Hc as (E & _). rewrite E. destruct (negb _); [reflexivity|].
  destruct key as [key|]; [|reflexivity]. destruct (r_create_helper _ _ key Hc (B _ eq_refl)) as (R1 & R2 & R3).
  destruct (ec_pubkey_create_helper_w32 _ key) as [[ret s] q], (ec_pubkey_create_helper _ key) as [[ret' s'] q']. cbn [fst snd] in R1, R2, R3. subst ret'.
  rewrite (r_save _ _ (rg44 1 1 _ _ R3 ltac:(lia) ltac:(lia))). reflexivity.
Qed.
Lemma a_seckey_negate key : opt_bytes 32 key -> ec_seckey_negate_w32 key = ec_seckey_negate key.
Proof.
  intros B. unfold ec_seckey_negate_w32, ec_seckey_negate. destruct key as [key|]; [|reflexivity]. rkey key (B _ eq_refl). cbv zeta.
  rewrite (same_get_b32 _ (sc_negate (sc_cmov s0 sc_zero (b2z (negb b))))); [reflexivity|].
  apply same_negate, same_cmov; [exact S|exact same_zero|apply b2z_01].
Qed.
Lemma a_pubkey_negate pk : opt_bytes 64 pk -> ec_pubkey_negate_w32 pk = ec_pubkey_negate pk.
Proof.
  intros B. unfold ec_pubkey_negate_w32, ec_pubkey_negate. destruct pk as [pk|]; [|reflexivity]. rload pk (B _ eq_refl). destruct b; [|reflexivity].
  rewrite (r_save _ (ge_neg g)); [reflexivity|]. apply (rg44 1 2); [apply rg_neg, (rge_weaken 1 1); [exact L0|lia|lia]|lia|lia].
Qed.
Lemma r_seckey_tweak_helper s s' tw : same s s' -> bytes_n 32 tw ->
  fst (ec_seckey_tweak_add_helper_w32 s tw) = fst (ec_seckey_tweak_add_helper s' tw) /\ same (snd (ec_seckey_tweak_add_helper_w32 s tw)) (snd (ec_seckey_tweak_add_helper s' tw)).
Proof.
  intros Hs Ht. unfold ec_seckey_tweak_add_helper_w32, ec_seckey_tweak_add_helper. rscal tw Ht. destruct (r_priv_tweak_add _ _ _ _ Hs S) as [R1 R2].
  destruct (eckey_privkey_tweak_add_w32 _ _), (eckey_privkey_tweak_add _ _). cbn [fst snd] in R1, R2 |- *. subst. split; [reflexivity|exact R2].
Qed.
Lemma a_seckey_tweak_add key tw : opt_bytes 32 key -> opt_bytes 32 tw -> ec_seckey_tweak_add_w32 key tw = ec_seckey_tweak_add key tw.
Proof.
  intros B T. unfold ec_seckey_tweak_add_w32, ec_seckey_tweak_add. destruct key as [key|]; [|reflexivity]. destruct tw as [tw|]; [|reflexivity].
  rkey key (B _ eq_refl). destruct (r_seckey_tweak_helper _ _ tw S (T _ eq_refl)) as [R1 R2].
  destruct (ec_seckey_tweak_add_helper_w32 _ _) as [r2 s1], (ec_seckey_tweak_add_helper _ _) as [r2' s1']. cbn [fst snd] in R1, R2. subst r2'. cbv zeta.
  rewrite (same_get_b32 _ (sc_cmov s1' sc_zero (b2z (negb (b && r2))))); [reflexivity|]. apply same_cmov; [exact R2|exact same_zero|apply b2z_01].
Qed.
Lemma r_pubkey_tweak_helper q q' tw : RG q q' -> bytes_n 32 tw -> ropt (rge 1 1) (ec_pubkey_tweak_add_helper_w32 q tw) (ec_pubkey_tweak_add_helper q' tw).
Proof.
  intros Hq Ht. unfold ec_pubkey_tweak_add_helper_w32, ec_pubkey_tweak_add_helper. rscal tw Ht. destruct b; [exact I|]. apply r_pub_tweak_add; assumption.
Qed.
Lemma a_pubkey_tweak_add pk tw : opt_bytes 64 pk -> opt_bytes 32 tw -> ec_pubkey_tweak_add_w32 pk tw = ec_pubkey_tweak_add pk tw.
Proof.
  intros B T. unfold ec_pubkey_tweak_add_w32, ec_pubkey_tweak_add. destruct pk as [pk|]; [|reflexivity]. destruct tw as [tw|]; [|reflexivity].
  rload pk (B _ eq_refl). destruct b; [|reflexivity]. pose proof (r_pubkey_tweak_helper _ _ tw (rg44 1 1 _ _ L0 ltac:(lia) ltac:(lia)) (T _ eq_refl)) as R.
  destruct (ec_pubkey_tweak_add_helper_w32 _ _), (ec_pubkey_tweak_add_helper _ _); try contradiction R; [|reflexivity].
  rewrite (r_save _ _ (rg44 1 1 _ _ R ltac:(lia) ltac:(lia))). reflexivity.
Qed.
Lemma a_seckey_tweak_mul key tw : opt_bytes 32 key -> opt_bytes 32 tw -> ec_seckey_tweak_mul_w32 key tw = ec_seckey_tweak_mul key tw.
Proof.
  intros B T. unfold ec_seckey_tweak_mul_w32, ec_seckey_tweak_mul. destruct key as [key|]; [|reflexivity]. destruct tw as [tw|]; [|reflexivity].
  rscal tw (T _ eq_refl). rkey key (B _ eq_refl). destruct (r_priv_tweak_mul _ _ _ _ S0 S) as [R1 R2].
  destruct (eckey_privkey_tweak_mul_w32 _ _) as [r2 s5], (eckey_privkey_tweak_mul _ _) as [r2' s5']. cbn [fst snd] in R1, R2. subst r2'. cbv zeta.
  rewrite (same_get_b32 _ (sc_cmov s5' sc_zero (b2z (negb (b0 && (negb b && r2)))))); [reflexivity|]. apply same_cmov; [exact R2|exact same_zero|apply b2z_01].
Qed.
Lemma a_pubkey_tweak_mul pk tw : opt_bytes 64 pk -> opt_bytes 32 tw -> ec_pubkey_tweak_mul_w32 pk tw = ec_pubkey_tweak_mul pk tw.
Proof.
  intros B T. unfold ec_pubkey_tweak_mul_w32, ec_pubkey_tweak_mul. destruct pk as [pk|]; [|reflexivity]. destruct tw as [tw|]; [|reflexivity].
  rscal tw (T _ eq_refl). destruct b; [reflexivity|]. rload pk (B _ eq_refl). destruct b; [|reflexivity].
  pose proof (r_pub_tweak_mul _ _ _ _ (rg44 1 1 _ _ L0 ltac:(lia) ltac:(lia)) S) as R.
  destruct (eckey_pubkey_tweak_mul_w32 _ _), (eckey_pubkey_tweak_mul _ _); try contradiction R; [|reflexivity].
  rewrite (r_save _ _ (rg44 1 1 _ _ R ltac:(lia) ltac:(lia))). reflexivity.
Qed.
Definition rcomb (a : (gej_w32 * Z) + Z) (b : (gej * Z) + Z) : Prop :=
  match a, b with inl x, inl y => RJ (fst x) (fst y) /\ snd x = snd y | inr x, inr y => x = y | _, _ => False end.
Lemma r_combine_loop keys : Forall (opt_bytes 64) keys -> forall q q' ill, RJ q q' -> rcomb (combine_loop_w32 keys q ill) (combine_loop keys q' ill).
Proof.
  induction 1 as [|[pk|] keys B Bs IH]; intros q q' ill Hq; cbn [combine_loop_w32 combine_loop]; [split; [exact Hq|reflexivity]| |reflexivity].
  rload pk (B _ eq_refl). apply IH. apply rj_add_ge; [exact Hq|apply (rg44 1 1); [exact L0|lia|lia]].
Qed.
Lemma a_pubkey_combine out keys : (forall l, keys = Some l -> Forall (opt_bytes 64) l) -> ec_pubkey_combine_w32 out keys = ec_pubkey_combine out keys.
Proof.
  intros B. unfold ec_pubkey_combine_w32, ec_pubkey_combine. destruct out; [|reflexivity]. destruct keys as [[|k keys]|]; [reflexivity| |reflexivity].
  pose proof (r_combine_loop (k :: keys) (B _ eq_refl) _ _ 0 rj_inf4) as R.
  destruct (combine_loop_w32 _ _ _) as [[q ill]|ill], (combine_loop _ _ _) as [[q' ill']|ill']; try contradiction R; [|cbn in R; subst; reflexivity].
  destruct R as [R E]. cbn [fst snd] in R, E. subst ill'. unfold gej_is_infinity_w32, gej_is_infinity. rewrite (r_jinf _ _ _ _ _ R). destruct (jinf _); [reflexivity|].
  rewrite (r_save _ _ (rg44 1 1 _ _ (rg_set_gej _ _ R) ltac:(lia) ltac:(lia))). reflexivity.
Qed.
