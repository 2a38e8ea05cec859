(** The extrakeys and schnorrsig modules of the 32-bit build: the same results as in the 64-bit build. *)
Require Import ZArith List Bool Lia.
From Verif Require Import Word Word32 Bytes Spec SpecApi HashModel FieldModel ScalarModel Field32Model Field32Bytes Scalar32Model Scalar32Ops FieldBytes ScalarProof ScalarProof2 GenTable GroupModel EcmultModel GenModel EcdsaModel ApiModel ExtrakeysModel SchnorrModel ApiVocab SpecHash HashProof KeyProps W32_Base W32_Group W32_Ecmult W32_Gen W32_Ecdsa W32_Api W32_Extrakeys W32_Schnorr W32_Tight W32_SimField W32_SimScalar W32_SimGroup W32_SimEcmult W32_SimGen W32_SimEcdsa W32_SimApi.
Import ListNotations.
Local Open Scope Z_scope.

(* Hash outputs are 32 bytes whatever was hashed *)
Definition hash8 (h : sha256) : Prop := length (sh_s h) = 8%nat.
Lemma rounds_read_len k : forall t buf regs, length (rounds_read k t buf regs) = length regs.
Proof. induction k as [|k IH]; intros t buf regs; cbn [rounds_read]; [reflexivity|]. rewrite IH. unfold c_round. rewrite !HashProof.upd_length. reflexivity. Qed.
Lemma rounds_sched_len k : forall t w regs, length (rounds_sched k t w regs) = length regs.
Proof. induction k as [|k IH]; intros t w regs; cbn [rounds_sched]; [reflexivity|]. cbv zeta. rewrite IH. unfold c_round. rewrite !HashProof.upd_length. reflexivity. Qed.
Lemma transform_len s buf : length (sha256_transform s buf) = length s.
Proof. unfold sha256_transform. cbv zeta. rewrite map_length, combine_length, rounds_sched_len, rounds_read_len. apply Nat.min_id. Qed.
Lemma write_loop_len fuel : forall s buf k data, length (fst (fst (fst (sha256_write_loop fuel s buf k data)))) = length s.
Proof.
  induction fuel as [|fuel IH]; intros s buf k data; cbn [sha256_write_loop]; [reflexivity|]. destruct (Nat.leb _ _); [|reflexivity]. cbv zeta. rewrite IH. apply transform_len.
Qed.
Lemma write_hash8 h d : hash8 h -> hash8 (sha256_write h d).
Proof.
  unfold hash8. intros H. unfold sha256_write. cbv zeta. pose proof (write_loop_len (S (length d)) (sh_s h) (sh_buf h) (Z.to_nat (Z.land (sh_bytes h) 63)) d) as L.
  destruct (sha256_write_loop _ _ _ _ _) as [[[s buf] k] data]. cbn [fst snd sh_s] in L |- *. rewrite L. exact H.
Qed.
Lemma finalize_bytes h : hash8 h -> bytes_n 32 (sha256_finalize h).
Proof.
  intros H. unfold sha256_finalize. cbv zeta. assert (K : forall s, length s = 8%nat -> bytes_n 32 (flat_map write_be32 s)).
  { intros s L. split.
    - clear L. induction s as [|x s IH]; cbn [flat_map]; [constructor|]. apply byte_list_app. split; [|exact IH]. rewrite write_be32_ok. apply be_bytes_byte_list.
    - do 8 (destruct s as [|? s]; [discriminate L|]). destruct s; [reflexivity|discriminate L]. }
  apply K. change (hash8 (sha256_write (sha256_write h (firstn (Z.to_nat (1 + (119 - sh_bytes h mod 64) mod 64)) (128 :: repeat 0 63)))
    (write_be32 (w32 (Z.shiftr (sh_bytes h) 29)) ++ write_be32 (w32 (w64 (Z.shiftl (sh_bytes h) 3)))))). apply write_hash8, write_hash8, H.
Qed.

(* x-only keys *)
Lemma t_load pk : bytes_n 64 pk -> fst (pubkey_load_w32 pk) = fst (pubkey_load pk) /\ rgt (snd (pubkey_load_w32 pk)) (snd (pubkey_load pk)).
Proof.
  intros [B L]. pose proof (rgt_from_bytes pk B L) as H. unfold pubkey_load_w32, pubkey_load. cbv zeta. cbn [fst snd]. split; [|exact H].
  f_equal. apply rt_is_zero. apply H.
Qed.
Ltac tload pk H :=
  let L1 := fresh "L" in let L2 := fresh "L" in let ok := fresh "ok" in let q := fresh "q" in
  destruct (t_load pk H) as [L1 L2]; destruct (pubkey_load_w32 pk) as [ok q]; destruct (pubkey_load pk) as [? ?]; cbn [fst snd] in L1, L2; subst ok.
Ltac rlim l B L :=
  let F := fresh "F" in let T := fresh "T" in let N := fresh "N" in let o := fresh "o" in
  destruct (rt_set_b32_limit l B L) as (F & T & N); destruct (f26_set_b32_limit l) as [o ?], (fe_set_b32_limit l) as [? ?]; cbn [fst snd] in F, T, N; subst o.
Lemma a_xonly_parse o inp : opt_bytes 32 inp -> xonly_pubkey_parse_w32 o inp = xonly_pubkey_parse o inp.
Proof.
  intros B. unfold xonly_pubkey_parse_w32, xonly_pubkey_parse. destruct o; [|reflexivity]. destruct inp as [inp|]; [|reflexivity]. destruct (B _ eq_refl) as [B1 L1].
  rlim inp B1 L1. destruct b; cbn [negb]; [|reflexivity].
  pose proof (rt_rf _ _ T) as X. pose proof (r_set_xo_fst _ _ false (rf_weaken 1 8 _ _ X ltac:(lia))) as F. pose proof (rg_set_xo 1 _ _ false X ltac:(lia)) as R.
  destruct (ge_set_xo_var_w32 _ _) as [o g], (ge_set_xo_var _ _) as [o' g']. cbn [fst snd] in F, R. subst o'. destruct (negb o); [reflexivity|].
  unfold xonly_pubkey_save_w32, xonly_pubkey_save. rewrite (r_save _ _ (rg44 1 2 _ _ R ltac:(lia) ltac:(lia))). reflexivity.
Qed.
Lemma a_xonly_serialize o pk : opt_bytes 64 pk -> xonly_pubkey_serialize_w32 o pk = xonly_pubkey_serialize o pk.
Proof.
  intros B. unfold xonly_pubkey_serialize_w32, xonly_pubkey_serialize, xonly_pubkey_load_w32, xonly_pubkey_load. destruct o; [|reflexivity]. destruct pk as [pk|]; [|reflexivity].
  tload pk (B _ eq_refl). destruct (negb b); [reflexivity|]. rewrite (rt_get_b32 _ _ (proj1 L0)). reflexivity.
Qed.
Lemma a_xcmp_key pk : opt_bytes 64 pk -> xcmp_key_w32 pk = xcmp_key pk.
Proof. intros B. unfold xcmp_key_w32, xcmp_key. rewrite a_xonly_serialize by exact B. reflexivity. Qed.
Lemma a_xonly_cmp a b : opt_bytes 64 a -> opt_bytes 64 b -> xonly_pubkey_cmp_w32 a b = xonly_pubkey_cmp a b.
Proof. intros A B. unfold xonly_pubkey_cmp_w32, xonly_pubkey_cmp. rewrite !a_xcmp_key by assumption. reflexivity. Qed.
Lemma r_even_y a b : rgt a b -> rge 1 2 (fst (extrakeys_ge_even_y_w32 a)) (fst (extrakeys_ge_even_y b)) /\ snd (extrakeys_ge_even_y_w32 a) = snd (extrakeys_ge_even_y b).
Proof.
  intros H. pose proof H as (X & Y & E). unfold extrakeys_ge_even_y_w32, extrakeys_ge_even_y. rewrite (rt_is_odd _ _ Y). destruct (fe_is_odd (gy b)); cbn [fst snd]; (split; [|reflexivity]).
  - apply rge_intro; [exact (rt_rf _ _ X)| |exact E]. pose proof (rt_rf _ _ Y). rgo.
  - apply (rge_weaken 1 1); [exact (rgt_rge _ _ H)|lia|lia].
Qed.
Ltac even L :=
  let R1 := fresh "R" in let R2 := fresh "R" in let g := fresh "g" in let y := fresh "y" in
  destruct (r_even_y _ _ L) as [R1 R2]; destruct (extrakeys_ge_even_y_w32 _) as [g y], (extrakeys_ge_even_y _) as [? ?]; cbn [fst snd] in R1, R2; subst y.
Lemma a_from_pubkey o par pk : opt_bytes 64 pk -> xonly_pubkey_from_pubkey_w32 o par pk = xonly_pubkey_from_pubkey o par pk.
Proof.
  intros B. unfold xonly_pubkey_from_pubkey_w32, xonly_pubkey_from_pubkey. destruct o; [|reflexivity]. destruct pk as [pk|]; [|reflexivity].
  tload pk (B _ eq_refl). destruct (negb b); [reflexivity|]. even L0. unfold xonly_pubkey_save_w32, xonly_pubkey_save. rewrite (r_save _ _ (rg44 1 2 _ _ R ltac:(lia) ltac:(lia))). reflexivity.
Qed.
Lemma a_xonly_tweak_add o ipk tw : opt_bytes 64 ipk -> opt_bytes 32 tw -> xonly_pubkey_tweak_add_w32 o ipk tw = xonly_pubkey_tweak_add o ipk tw.
Proof.
  intros B T. unfold xonly_pubkey_tweak_add_w32, xonly_pubkey_tweak_add, xonly_pubkey_load_w32, xonly_pubkey_load. destruct o; [|reflexivity]. destruct ipk as [pk|]; [|reflexivity]. destruct tw as [tw|]; [|reflexivity].
  tload pk (B _ eq_refl). destruct (negb b); [reflexivity|]. pose proof (r_pubkey_tweak_helper _ _ tw (rg44 1 1 _ _ (rgt_rge _ _ L0) ltac:(lia) ltac:(lia)) (T _ eq_refl)) as R.
  destruct (ec_pubkey_tweak_add_helper_w32 _ _), (ec_pubkey_tweak_add_helper _ _); try contradiction R; [|reflexivity].
  rewrite (r_save _ _ (rg44 1 1 _ _ R ltac:(lia) ltac:(lia))). reflexivity.
Qed.
Lemma a_tweak_add_check tpk par ipk tw : opt_bytes 64 ipk -> opt_bytes 32 tw -> xonly_pubkey_tweak_add_check_w32 tpk par ipk tw = xonly_pubkey_tweak_add_check tpk par ipk tw.
Proof.
  intros B T. unfold xonly_pubkey_tweak_add_check_w32, xonly_pubkey_tweak_add_check, xonly_pubkey_load_w32, xonly_pubkey_load. destruct ipk as [pk|]; [|reflexivity]. destruct tpk as [tpk|]; [|reflexivity]. destruct tw as [tw|]; [|reflexivity].
  tload pk (B _ eq_refl). destruct (negb b); [reflexivity|]. pose proof (r_pubkey_tweak_helper _ _ tw (rg44 1 1 _ _ (rgt_rge _ _ L0) ltac:(lia) ltac:(lia)) (T _ eq_refl)) as R.
  destruct (ec_pubkey_tweak_add_helper_w32 _ _), (ec_pubkey_tweak_add_helper _ _); try contradiction R; [|reflexivity]. cbv zeta. destruct R as (X & Y & _).
  rewrite (rn_get_b32 _ _ (rn_normalize_var 1 _ _ X ltac:(lia))), (rn_is_odd _ _ (rn_normalize_var 1 _ _ Y ltac:(lia))). reflexivity.
Qed.

(* Key pairs *)
Lemma r_keypair_save s s' g g' : same s s' -> RG g g' -> keypair_save_w32 s g = keypair_save s' g'.
Proof. intros H K. unfold keypair_save_w32, keypair_save. rewrite (same_get_b32 _ _ H), (r_save _ _ K). reflexivity. Qed.
Lemma rgt_g : rgt ge_const_g_w32 ge_const_g.
Proof. split; [|split; [|reflexivity]]; apply rn_rt, rn_of_Z; vm_compute; reflexivity. Qed.
Lemma r_seckey_load kp : bytes_n 96 kp -> fst (keypair_seckey_load_w32 kp) = fst (keypair_seckey_load kp) /\ same (snd (keypair_seckey_load_w32 kp)) (snd (keypair_seckey_load kp)).
Proof.
  intros H. unfold keypair_seckey_load_w32, keypair_seckey_load. destruct (r_seckey _ (bytes_first 32 64 kp H)) as [S1 S2].
  destruct (s8_set_b32_seckey _), (sc_set_b32_seckey _). cbn [fst snd] in *. split; assumption.
Qed.
Lemma r_keypair_load kp : bytes_n 96 kp -> fst (fst (keypair_load_w32 kp)) = fst (fst (keypair_load kp)) /\
  same (snd (fst (keypair_load_w32 kp))) (snd (fst (keypair_load kp))) /\ rgt (snd (keypair_load_w32 kp)) (snd (keypair_load kp)).
Proof.
  intros H. unfold keypair_load_w32, keypair_load. tload (skipn 32 kp) (bytes_skip 32 64 kp H). destruct b; cbn [fst snd]; [|split; [reflexivity|split; [exact same_one|exact rgt_g]]].
  destruct (r_seckey_load kp H) as [R1 R2]. destruct (keypair_seckey_load_w32 kp) as [r s], (keypair_seckey_load kp) as [r' s']. cbn [fst snd] in R1, R2. subst r'.
  destruct r; cbn [fst snd]; (split; [reflexivity|]); [split; [exact R2|exact L0]|split; [exact same_one|exact rgt_g]].
Qed.
Lemma r_keypair_load_pk kp : bytes_n 96 kp -> fst (keypair_load_pk_w32 kp) = fst (keypair_load_pk kp) /\ rgt (snd (keypair_load_pk_w32 kp)) (snd (keypair_load_pk kp)).
Proof.
  intros H. unfold keypair_load_pk_w32, keypair_load_pk. tload (skipn 32 kp) (bytes_skip 32 64 kp H). destruct b; cbn [fst snd]; (split; [reflexivity|]); [exact L0|exact rgt_g].
Qed.
Lemma a_keypair_create c c' kp key : rctx c c' -> opt_bytes 32 key -> keypair_create_w32 c kp key = keypair_create c' kp key.
Proof.
  intros (Hc & _) B. unfold keypair_create_w32, keypair_create. destruct kp; [|reflexivity]. pose proof Hc as (E & _). rewrite E. destruct (negb _); [reflexivity|].
  destruct key as [key|]; [|reflexivity]. destruct (r_create_helper _ _ key Hc (B _ eq_refl)) as (R1 & R2 & R3).
  destruct (ec_pubkey_create_helper_w32 _ key) as [[ret s] q], (ec_pubkey_create_helper _ key) as [[ret' s'] q']. cbn [fst snd] in R1, R2, R3. subst ret'.
  rewrite (r_keypair_save _ _ _ _ R2 (rg44 1 1 _ _ R3 ltac:(lia) ltac:(lia))). reflexivity.
Qed.
Lemma a_xonly_pub o par kp : opt_bytes 96 kp -> keypair_xonly_pub_w32 o par kp = keypair_xonly_pub o par kp.
Proof.
  intros B. unfold keypair_xonly_pub_w32, keypair_xonly_pub. destruct o; [|reflexivity]. destruct kp as [kp|]; [|reflexivity].
  destruct (r_keypair_load_pk kp (B _ eq_refl)) as [R1 L]. destruct (keypair_load_pk_w32 kp) as [r g], (keypair_load_pk kp) as [r' g']. cbn [fst snd] in R1, L. subst r'.
  destruct (negb r); [reflexivity|]. even L. unfold xonly_pubkey_save_w32, xonly_pubkey_save. rewrite (r_save _ _ (rg44 1 2 _ _ R ltac:(lia) ltac:(lia))). reflexivity.
Qed.
Lemma a_keypair_tweak kp tw : opt_bytes 96 kp -> opt_bytes 32 tw -> keypair_xonly_tweak_add_w32 kp tw = keypair_xonly_tweak_add kp tw.
Proof.
  intros B T. unfold keypair_xonly_tweak_add_w32, keypair_xonly_tweak_add. destruct kp as [kp|]; [|reflexivity]. destruct tw as [tw|]; [|reflexivity].
  destruct (r_keypair_load kp (B _ eq_refl)) as (R1 & S1 & L). destruct (keypair_load_w32 kp) as [[r s] g], (keypair_load kp) as [[r' s'] g']. cbn [fst snd] in R1, S1, L. subst r'. cbv zeta.
  even L. assert (Ss : same (if z =? 1 then s8_negate s else s) (if z =? 1 then sc_negate s' else s')) by (destruct (z =? 1); [apply same_negate|]; exact S1).
  destruct (r_seckey_tweak_helper _ _ tw Ss (T _ eq_refl)) as [H1 H2].
  destruct (ec_seckey_tweak_add_helper_w32 _ _) as [r1 s1], (ec_seckey_tweak_add_helper _ _) as [r1' s1']. cbn [fst snd] in H1, H2. subst r1'.
  pose proof (r_pubkey_tweak_helper _ _ tw (rg44 1 2 _ _ R ltac:(lia) ltac:(lia)) (T _ eq_refl)) as R'.
  destruct (ec_pubkey_tweak_add_helper_w32 _ _), (ec_pubkey_tweak_add_helper _ _); try contradiction R'; [|reflexivity].
  destruct (_ && _); [|reflexivity]. rewrite (r_keypair_save _ _ _ _ H2 (rg44 1 1 _ _ R' ltac:(lia) ltac:(lia))). reflexivity.
Qed.

(* Schnorr signatures *)
Lemma same_challenge r m pk : same (schnorrsig_challenge_w32 r m pk) (schnorrsig_challenge r m pk).
Proof. unfold schnorrsig_challenge_w32, schnorrsig_challenge. cbv zeta. apply r_set, finalize_bytes. do 3 apply write_hash8. reflexivity. Qed.
(** The nonce function writes 32 bytes. *)
Definition hardened_bytes (nf : nonce_function_hardened) (nd : option (list Z)) : Prop := forall m key pk, bytes_n 32 (snd (nf (zeros 32) m key pk (Some bip340_algo) nd)).
Lemma bip340_bytes nd : hardened_bytes nonce_function_bip340 nd.
Proof. intros m key pk. unfold nonce_function_bip340. cbv zeta. destruct nd; cbn [snd]; apply finalize_bytes; do 3 apply write_hash8; reflexivity. Qed.
Lemma a_sign_internal c c' sg msg len kp nf nd : rctx c c' -> opt_bytes 96 kp -> (forall f, nf = Some f -> hardened_bytes f nd) ->
  schnorrsig_sign_internal_w32 c sg msg len kp nf nd = schnorrsig_sign_internal c' sg msg len kp nf nd.
Proof.
  intros (Hc & _) B Hn. unfold schnorrsig_sign_internal_w32, schnorrsig_sign_internal. pose proof Hc as (E & _). rewrite E. destruct (negb _); [reflexivity|].
  destruct sg; [|reflexivity]. destruct (negb _); [reflexivity|]. destruct kp as [kp|]; [|reflexivity]. cbv zeta.
  assert (Hf : hardened_bytes (match nf with Some f => f | None => nonce_function_bip340 end) nd) by (destruct nf; [apply Hn; reflexivity|apply bip340_bytes]).
  revert Hf. generalize (match nf with Some f => f | None => nonce_function_bip340 end). intros f Hf.
  destruct (r_keypair_load kp (B _ eq_refl)) as (R1 & S1 & (X & Y & _)). destruct (keypair_load_w32 kp) as [[r s] g], (keypair_load kp) as [[r' s'] g']. cbn [fst snd] in R1, S1, X, Y. subst r'.
  rewrite (rt_is_odd _ _ Y), (rt_get_b32 _ _ X).
  assert (Ss : same (if fe_is_odd (gy g') then s8_negate s else s) (if fe_is_odd (gy g') then sc_negate s' else s')) by (destruct (fe_is_odd _); [apply same_negate|]; exact S1).
  revert Ss. generalize (if fe_is_odd (gy g') then s8_negate s else s). generalize (if fe_is_odd (gy g') then sc_negate s' else s'). intros t' t Ss.
  rewrite (same_get_b32 _ _ Ss). specialize (Hf (msg_bytes msg len) (sc_get_b32 t') (fe_get_b32 (gx g'))).
  destruct (f (zeros 32) (msg_bytes msg len) (sc_get_b32 t') (fe_get_b32 (gx g')) (Some bip340_algo) nd) as [nret buf]. cbn [snd] in Hf.
  destruct (r_set buf Hf) as [Sk _]. rewrite (same_zero_test _ _ Sk). set (ret := r && negb (nret =? 0) && negb (sc_is_zero (fst (sc_set_b32 buf)))).
  assert (Sk' : same (s8_cmov (fst (s8_set_b32 buf)) s8_one (b2z (negb ret))) (sc_cmov (fst (sc_set_b32 buf)) sc_one (b2z (negb ret)))) by (apply same_cmov; [exact Sk|exact same_one|apply b2z_01]).
  revert Sk'. generalize (s8_cmov (fst (s8_set_b32 buf)) s8_one (b2z (negb ret))). generalize (sc_cmov (fst (sc_set_b32 buf)) sc_one (b2z (negb ret))). intros k' k Sk'.
  destruct (rg_set_gej _ _ (r_ecmult_gen _ _ _ _ Hc Sk')) as (X1 & Y1 & _).
  rewrite (rn_is_odd _ _ (rn_normalize_var 1 _ _ Y1 ltac:(lia))), (rn_get_b32 _ _ (rn_normalize_var 1 _ _ X1 ltac:(lia))).
  set (odd := fe_is_odd _). set (r32 := fe_get_b32 (fe_normalize_var _)). set (px := fe_get_b32 (gx g')).
  assert (So : same (if odd then s8_negate k else k) (if odd then sc_negate k' else k')) by (destruct odd; [apply same_negate|]; exact Sk').
  rewrite (same_get_b32 _ (sc_add (sc_mul (schnorrsig_challenge r32 (msg_bytes msg len) px) t') (if odd then sc_negate k' else k'))); [reflexivity|].
  apply same_add; [apply same_mul'; [apply same_challenge|exact Ss]|exact So].
Qed.
Lemma a_sign32 c c' sg msg kp aux : rctx c c' -> opt_bytes 96 kp -> schnorrsig_sign32_w32 c sg msg kp aux = schnorrsig_sign32 c' sg msg kp aux.
Proof. intros Hc B. apply a_sign_internal; [exact Hc|exact B|]. intros f E. injection E as <-. apply bip340_bytes. Qed.
Lemma a_sign_custom c c' sg msg len kp ep : rctx c c' -> opt_bytes 96 kp -> (forall e f, ep = Some e -> ep_noncefp e = Some f -> hardened_bytes f (ep_ndata e)) ->
  schnorrsig_sign_custom_w32 c sg msg len kp ep = schnorrsig_sign_custom c' sg msg len kp ep.
Proof.
  intros Hc B Hn. unfold schnorrsig_sign_custom_w32, schnorrsig_sign_custom. destruct ep as [e|].
  - destruct (negb _); [reflexivity|]. apply a_sign_internal; [exact Hc|exact B|]. intros f E. exact (Hn e f eq_refl E).
  - apply a_sign_internal; [exact Hc|exact B|]. intros f E. discriminate E.
Qed.
Lemma a_schnorr_verify sg msg len pk : opt_bytes 64 sg -> opt_bytes 64 pk -> schnorrsig_verify_w32 sg msg len pk = schnorrsig_verify sg msg len pk.
Proof.
  intros Bs Bp. unfold schnorrsig_verify_w32, schnorrsig_verify, xonly_pubkey_load_w32, xonly_pubkey_load. destruct sg as [sg|]; [|reflexivity]. destruct (negb _); [reflexivity|]. destruct pk as [pk|]; [|reflexivity]. cbv zeta.
  destruct (bytes_first 32 32 sg (Bs _ eq_refl)) as [B1 L1]. rlim (firstn 32 sg) B1 L1. destruct b; cbn [negb]; [|reflexivity].
  assert (B2 : bytes_n 32 (firstn 32 (skipn 32 sg))) by exact (bytes_first 32 0 _ (bytes_skip 32 32 sg (Bs _ eq_refl))).
  destruct (r_set _ B2) as [S1 S2]. destruct (s8_set_b32 _) as [s o], (sc_set_b32 _) as [s' o']. cbn [fst snd] in S1, S2. subst o'. destruct o; [reflexivity|].
  tload pk (Bp _ eq_refl). destruct b; cbn [negb]; [|reflexivity]. rewrite (rt_get_b32 _ _ (proj1 L0)).
  assert (Rr : rge 1 1 (ge_set_gej_var_w32 (ecmult_w32 (gej_set_ge_w32 q) (s8_negate (schnorrsig_challenge_w32 (firstn 32 sg) (msg_bytes msg len) (fe_get_b32 (gx g)))) (Some s)))
                       (ge_set_gej_var (ecmult (gej_set_ge g) (sc_negate (schnorrsig_challenge (firstn 32 sg) (msg_bytes msg len) (fe_get_b32 (gx g)))) (Some s')))).
  { apply rg_set_gej_var, r_ecmult; [apply rj_set_ge, (rg44 1 1); [exact (rgt_rge _ _ L0)|lia|lia]|apply same_negate, same_challenge|exact S1]. }
  revert Rr. generalize (ge_set_gej_var_w32 (ecmult_w32 (gej_set_ge_w32 q) (s8_negate (schnorrsig_challenge_w32 (firstn 32 sg) (msg_bytes msg len) (fe_get_b32 (gx g)))) (Some s))).
  generalize (ge_set_gej_var (ecmult (gej_set_ge g) (sc_negate (schnorrsig_challenge (firstn 32 sg) (msg_bytes msg len) (fe_get_b32 (gx g)))) (Some s'))). intros h' h (X & Y & E).
  unfold ge_is_infinity_w32, ge_is_infinity. rewrite E. destruct (ginf h'); [reflexivity|].
  rewrite (rn_is_odd _ _ (rn_normalize_var 1 _ _ Y ltac:(lia))), (rf_equal 1 _ _ _ _ (rt_rf _ _ T) X ltac:(lia)). reflexivity.
Qed.
