(** Contexts that can be used for signing, and the key and ECDSA properties in the form
    in which they are stated in the Props files. *)
Require Import ZArith List Bool Lia Permutation Field.
From Verif Require Import NumTheory Spec SpecApi SpecHash Primes ZmField Curve NField Word Bytes.
From Verif Require Import FieldModel FieldMul FieldProof FieldProof2 FieldBytes FieldOps.
From Verif Require Import ScalarModel ScalarProof ScalarProof2 ScalarMul.
From Verif Require Import GroupModel GroupProof GroupProof2 GroupProof3 GroupProof4 GroupProof5.
From Verif Require Import HashModel HashProof GenModel GenProof EcmultModel EcmultProof EcmultProof2 EcdsaModel ApiModel ApiVocab ApiProof ApiProof2 ApiProof3 EcdsaProof EcdsaProof2.
Import ListNotations.
Local Open Scope Z_scope.

(** ** Contexts *)
Lemma blind_built c s : g_built (ecmult_gen_blind c s) = g_built c.
Proof.
  unfold ecmult_gen_blind. destruct s as [s|]; [|reflexivity].
  destruct (rfc6979_generate _ 32) as [rng1 n1]. destruct (rfc6979_generate _ 32) as [rng2 n2]. reflexivity.
Qed.
Lemma usable_ctx c : usable_context c -> gen_ctx_ok (c_gen c) /\ g_built (c_gen c) = true.
Proof.
  induction 1 as [cm mem fl c E|c seed U [H1 H2] HS|c mem c' U [H1 H2] E|c fn dt U [H1 H2]|c fn dt U [H1 H2]].
  - unfold context_create, context_preallocated_create in E. destruct (preallocated_size_ok cm fl); [|discriminate]. apply Some_inj in E. subst c.
    cbn [c_gen]. split; [apply gen_build_ok|]. reflexivity.
  - unfold context_randomize, context_is_proper. rewrite H2. cbn [negb r_out c_gen]. split; [|rewrite blind_built; exact H2].
    apply gen_blind_ok; [exact H1|]. exact HS.
  - unfold context_clone, context_preallocated_clone, context_is_proper in E. rewrite H2 in E. cbn [negb r_out] in E. apply Some_inj in E. subst c'. auto.
  - cbn [context_set_illegal_callback r_out c_gen]. auto.
  - cbn [context_set_error_callback r_out c_gen]. auto.
Qed.
Lemma fresh_context : exists c, context_create false context_static 1 = Some c. Proof. eexists. reflexivity. Qed.

(** ** The default nonce function *)
Lemma gen_times_nth k : forall rng out, gen_times (S k) rng out = snd (rng_nth k rng).
Proof.
  assert (A : forall k rng out, gen_times (S (S k)) rng out = gen_times (S k) (fst (rfc6979_generate rng 32)) (snd (rfc6979_generate rng 32))).
  { intros k0 rng out. cbn [gen_times]. now destruct (rfc6979_generate rng 32). }
  assert (B : forall k rng, rng_nth (S k) rng = rng_nth k (fst (rfc6979_generate rng 32))).
  { clear. induction k as [|k IH]; intros rng; [reflexivity|]. rewrite rng_nth_S, IH, <- rng_nth_S. reflexivity. }
  induction k as [|k IH]; intros rng out.
  - cbn [gen_times]. rewrite rng_nth_0. now destruct (rfc6979_generate rng 32).
  - now rewrite A, IH, B.
Qed.
Lemma opt_firstn k o : opt_bytes k o -> match o with Some d => firstn k d | None => [] end = opt_cat o.
Proof. destruct o as [l|]; intros H; [|reflexivity]. change (firstn k l = l). apply firstn_all2. rewrite (proj2 (H l eq_refl)). apply le_n. Qed.
Lemma RFC6979_bytes k seed : byte_list seed -> Z.of_nat (length seed) < 2 ^ 60 -> bytes_n 32 (RFC6979 k seed).
Proof. intros A B. destruct (rng_nth_ok seed k A B) as (_ & _ & _ & (_ & _ & C & D)). split; assumption. Qed.
Lemma nonce_rfc6979_ok msg key algo data c : bytes_n 32 msg -> bytes_n 32 key -> opt_bytes 16 algo -> opt_bytes 32 data ->
  let seed := key ++ be_bytes 32 (be_val msg mod n) ++ opt_cat data ++ opt_cat algo in
  nonce_function_rfc6979 msg key algo data c = Some (RFC6979 (Z.to_nat c) seed) /\ bytes_n 32 (RFC6979 (Z.to_nat c) seed).
Proof.
  intros HM HK HA HD seed. destruct (sc_set_b32_case msg HM) as (KM & EM & _).
  assert (BS : byte_list seed /\ Z.of_nat (length seed) < 2 ^ 60).
  { assert (OB : forall k o, opt_bytes k o -> byte_list (opt_cat o) /\ (length (opt_cat o) <= k)%nat).
    { intros k [l|] H; [destruct (H l eq_refl); split; [assumption|cbn [opt_cat]; lia]|split; [apply byte_list_nil|cbn; lia]]. }
    destruct (OB _ _ HA), (OB _ _ HD), HK. unfold seed. split.
    - apply byte_list_app; split; [assumption|]. apply byte_list_app; split; [apply be_bytes_byte_list|]. apply byte_list_app; split; assumption.
    - rewrite !app_length, be_bytes_length. lia. }
  assert (E : nonce_function_rfc6979 msg key algo data c = Some (gen_times (S (Z.to_nat c)) (rfc6979_initialize seed) (zeros 32))).
  { unfold nonce_function_rfc6979. cbv zeta. rewrite sc_get_b32_ok by exact (proj1 KM). rewrite EM. unfold seed.
    rewrite (opt_firstn 32 data HD), (opt_firstn 16 algo HA).
    rewrite <- !app_assoc. reflexivity. }
  rewrite E, gen_times_nth, (proj1 (rng_nth_ok seed (Z.to_nat c) (proj1 BS) (proj2 BS))). split; [reflexivity|]. exact (RFC6979_bytes _ seed (proj1 BS) (proj2 BS)).
Qed.
Lemma default_nonce_bytes msg key nd : bytes_n 32 msg -> bytes_n 32 key -> opt_bytes 32 nd -> nonce_bytes (the_nonce None) msg key nd.
Proof.
  intros A B C c l E. unfold the_nonce in E. destruct (nonce_rfc6979_ok msg key None nd c A B ltac:(discriminate) C) as [E1 E2].
  rewrite E1 in E. apply Some_inj in E. now subst l.
Qed.

(** ** C01, C04, C19 *)
(** What signing does, for a usable context: attempts 0, 1, 2, ... are made with the
    nonces the nonce function returns for these counters until it fails or a nonce is
    usable. *)
Lemma prop_sign_valid fuel ctx ctx' init init' msg key nf nd sig pk : usable_context ctx -> usable_context ctx' ->
  bytes_n 32 msg -> bytes_n 32 key -> nonce_bytes (the_nonce nf) msg key nd ->
  ecdsa_sign fuel ctx (Some init) (Some msg) (Some key) nf nd = Some (mkres 1 0 (Some sig)) ->
  ec_pubkey_create ctx' (Some init') (Some key) = mkres 1 0 (Some pk) ->
  ecdsa_verify (Some sig) (Some msg) (Some pk) = mkres 1 0 tt /\ exists r s, sig_holds sig r s /\ 1 <= r /\ 1 <= s <= n / 2.
Proof.
  intros U U' HM HK NB HS HP. destruct (usable_ctx _ U) as [A B]. destruct (usable_ctx _ U') as [A' B'].
  split; [exact (sign_then_verify _ _ _ _ _ _ _ _ _ _ _ A B A' B' HM HK NB HS HP)|].
  destruct (ecdsa_sign_ok _ _ _ _ _ _ _ _ A B HM HK NB HS) as (i & _ & [(l & sig' & _ & (U1 & U2 & U3) & _ & SH & E)|(_ & E)]); [|discriminate E].
  apply (f_equal r_out) in E. cbn [r_out] in E. apply Some_inj in E. subst sig'. eexists _, _. split; [exact SH|].
  split; [pose proof (ecdsa_r_range (be_val l)); lia|]. now apply ecdsa_low_s_range.
Qed.
Lemma sig_zero : sig_holds (repeat 0 64) 0 0.
Proof. split; [split; [lia|reflexivity]|]. split; [split; [lia|reflexivity]|]. reflexivity. Qed.
Lemma zero_sig_rejected msg pk Q : bytes_n 32 msg -> pubkey_holds pk Q -> ecdsa_verify (Some (repeat 0 64)) (Some msg) (Some pk) = mkres 0 0 tt.
Proof.
  intros HM HP. destruct (ecdsa_verify_ok _ _ _ _ _ _ sig_zero HM HP) as [(_ & _ & V)|(V & _)]; [|exact V]. exfalso. destruct V as [V _]. clear - V. lia.
Qed.
(** The two ways in which signing can end. *)
Lemma prop_sign_total fuel ctx init msg key nf nd r : usable_context ctx -> bytes_n 32 msg -> bytes_n 32 key -> nonce_bytes (the_nonce nf) msg key nd ->
  ecdsa_sign fuel ctx (Some init) (Some msg) (Some key) nf nd = Some r ->
  (exists sig, r = mkres 1 0 (Some sig)) \/ r = mkres 0 0 (Some (repeat 0 64)).
Proof.
  intros U HM HK NB E. destruct (usable_ctx _ U) as [A B].
  destruct (ecdsa_sign_ok _ _ _ _ _ _ _ _ A B HM HK NB E) as (i & _ & [(l & sig' & _ & _ & _ & _ & ->)|(_ & ->)]); eauto.
Qed.
Lemma prop_sign_bad_key fuel ctx init msg key nf nd r : usable_context ctx -> bytes_n 32 msg -> bytes_n 32 key -> nonce_bytes (the_nonce nf) msg key nd ->
  ~ 1 <= be_val key < n -> ecdsa_sign fuel ctx (Some init) (Some msg) (Some key) nf nd = Some r -> r = mkres 0 0 (Some (repeat 0 64)).
Proof.
  intros U HM HK NB NV E. destruct (usable_ctx _ U) as [A B].
  destruct (ecdsa_sign_ok _ _ _ _ _ _ _ _ A B HM HK NB E) as (i & _ & [(l & sig' & _ & _ & C & _)|(_ & ->)]); [contradiction|reflexivity].
Qed.
(** The nonce function fails at attempt [i] and no nonce before was usable. *)
Lemma prop_sign_nonce_fails fuel ctx init msg key f nd i : usable_context ctx -> bytes_n 32 msg -> bytes_n 32 key -> nonce_bytes f msg key nd ->
  Z.of_nat i < 2 ^ 32 -> (i < fuel)%nat -> f msg key None nd (Z.of_nat i) = None ->
  (forall j l, (j < i)%nat -> f msg key None nd (Z.of_nat j) = Some l -> ~ nonce_usable (be_val key) (be_val msg) l) ->
  1 <= be_val key < n ->
  ecdsa_sign fuel ctx (Some init) (Some msg) (Some key) (Some f) nd = Some (mkres 0 0 (Some (repeat 0 64))).
Proof.
  intros U HM HK NB Hi Hf FN FR VK. destruct (usable_ctx _ U) as [A B].
  assert (LS : loop_stops (the_nonce (Some f) msg key None nd) (sign_d key) (be_val msg) 0 i).
  { left. cbn [the_nonce]. rewrite Z.add_0_l, Z.mod_small by lia. exact FN. }
  destruct (ecdsa_sign_stops fuel ctx init msg key (Some f) nd i A B HM HK NB Hf LS) as [r E]. rewrite E. f_equal.
  destruct (ecdsa_sign_ok _ _ _ _ _ (Some f) _ _ A B HM HK NB E) as (i' & RJ & [(l & sig' & FS & US & _ & _ & ER)|(_ & ->)]); [exfalso|reflexivity].
  cbn [the_nonce] in *. assert (SD : sign_d key = be_val key).
  { unfold sign_d. rewrite (proj2 (Z.ltb_lt 0 (be_val key))) by lia. rewrite (proj2 (Z.ltb_lt (be_val key) n)) by lia. reflexivity. }
  destruct (Nat.lt_trichotomy i' i) as [L|[->|L]].
  - rewrite Z.mod_small in FS by lia. exact (FR i' l L FS US).
  - rewrite Z.mod_small in FS by lia. congruence.
  - destruct (RJ i L) as (l' & F1 & _). rewrite Z.mod_small in F1 by lia. congruence.
Qed.


(** Signing and key generation do not depend on the blinding state. *)
Lemma sig_sign_indep g1 g2 sec msg non : gen_ctx_ok g1 -> gen_ctx_ok g2 -> sc_ok sec -> sc_ok msg -> sc_ok non -> 1 <= sv non < n ->
  ecdsa_sig_sign g1 sec msg non = ecdsa_sig_sign g2 sec msg non.
Proof.
  intros G1 G2 KS KM KN RN.
  pose proof (sig_sign_ok g1 sec msg non _ _ _ G1 KS KM KN eq_refl eq_refl eq_refl RN) as A.
  pose proof (sig_sign_ok g2 sec msg non _ _ _ G2 KS KM KN eq_refl eq_refl eq_refl RN) as B.
  destruct (ecdsa_sig_sign g1 sec msg non) as [[[t1 r1] s1] i1]. destruct (ecdsa_sig_sign g2 sec msg non) as [[[t2 r2] s2] i2].
  destruct A as (A1 & A2 & A3 & A4 & A5 & A6). destruct B as (B1 & B2 & B3 & B4 & B5 & B6).
  rewrite (sc_ok_inj r1 r2 A1 B1) by congruence. rewrite (sc_ok_inj s1 s2 A2 B2) by congruence. congruence.
Qed.
Lemma sign_loop_indep g1 g2 sec msg msg32 key nf nd : gen_ctx_ok g1 -> gen_ctx_ok g2 -> sc_ok sec -> sc_ok msg -> nonce_bytes nf msg32 key nd ->
  forall fuel c st, sign_loop fuel g1 sec msg msg32 key nf nd c st = sign_loop fuel g2 sec msg msg32 key nf nd c st.
Proof.
  intros G1 G2 KS KM NB. induction fuel as [|fuel IH]; intros c st; [reflexivity|]. cbn [sign_loop].
  destruct (nf msg32 key None nd c) as [l|] eqn:EN; [|reflexivity]. pose proof (NB _ _ EN) as BL.
  destruct (sc_set_b32_seckey_ok l (proj1 BL) (proj2 BL)) as (KN & VN & OK).
  destruct (sc_set_b32_seckey l) as [non valid]. cbn [fst snd] in *. destruct valid; [|apply IH].
  symmetry in OK. apply andb_true_iff in OK as [O1 O2]. apply Z.ltb_lt in O1, O2. rewrite Z.mod_small in VN by lia.
  rewrite (sig_sign_indep g1 g2 sec msg non G1 G2 KS KM KN) by lia.
  destruct (ecdsa_sig_sign g2 sec msg non) as [[[ok r1] s1] rec1]. destruct ok; [reflexivity|apply IH].
Qed.
Lemma sign_inner_indep fuel g1 g2 msg key nf nd : gen_ctx_ok g1 -> gen_ctx_ok g2 -> bytes_n 32 msg -> bytes_n 32 key -> nonce_bytes (the_nonce nf) msg key nd ->
  ecdsa_sign_inner fuel g1 msg key nf nd = ecdsa_sign_inner fuel g2 msg key nf nd.
Proof.
  intros G1 G2 HM HK NB. unfold ecdsa_sign_inner. fold (the_nonce nf). pose proof (sign_inner_setup key HK) as S.
  destruct (sc_set_b32_seckey key) as [sec ok]. destruct S as (KS & _ & _). destruct (sc_set_b32_case msg HM) as (KM & _ & _). cbv zeta.
  now rewrite (sign_loop_indep g1 g2 _ _ _ _ _ _ G1 G2 KS KM NB).
Qed.
Lemma prop_sign_indep fuel c1 c2 init msg key nf nd : usable_context c1 -> usable_context c2 ->
  bytes_n 32 msg -> bytes_n 32 key -> nonce_bytes (the_nonce nf) msg key nd ->
  ecdsa_sign fuel c1 (Some init) (Some msg) (Some key) nf nd = ecdsa_sign fuel c2 (Some init) (Some msg) (Some key) nf nd.
Proof.
  intros U1 U2 HM HK NB. destruct (usable_ctx _ U1) as [A1 B1]. destruct (usable_ctx _ U2) as [A2 B2].
  unfold ecdsa_sign. rewrite B1, B2. cbn [negb]. now rewrite (sign_inner_indep fuel _ _ _ _ _ _ A1 A2 HM HK NB).
Qed.
Lemma prop_create ctx init key : usable_context ctx -> bytes_n 32 key ->
  (1 <= be_val key < n /\ pmul (be_val key) G <> Inf /\ exists pk, ec_pubkey_create ctx (Some init) (Some key) = mkres 1 0 (Some pk) /\ pubkey_holds pk (pmul (be_val key) G)) \/
  (~ 1 <= be_val key < n /\ ec_pubkey_create ctx (Some init) (Some key) = mkres 0 0 (Some (repeat 0 64))).
Proof.
  intros U HK. destruct (usable_ctx _ U) as [A B]. destruct (pubkey_create_ok ctx init key A B HK) as (pk & E1 & E2 & C).
  destruct (ec_pubkey_create ctx (Some init) (Some key)) as [rt il out]. cbn [r_ret r_ill r_out] in *. subst il out.
  destruct C as [(V & -> & H)|(V & -> & ->)]; [left|right].
  - split; [exact V|]. split; [now apply pmul_G_nInf|]. exists pk. split; [reflexivity|exact H].
  - split; [exact V|reflexivity].
Qed.
Lemma prop_create_indep c1 c2 init key : usable_context c1 -> usable_context c2 -> bytes_n 32 key ->
  ec_pubkey_create c1 (Some init) (Some key) = ec_pubkey_create c2 (Some init) (Some key).
Proof.
  intros U1 U2 HK.
  destruct (prop_create c1 init key U1 HK) as [(V1 & _ & pk1 & E1 & H1)|(V1 & E1)]; destruct (prop_create c2 init key U2 HK) as [(V2 & _ & pk2 & E2 & H2)|(V2 & E2)];
    try contradiction; rewrite E1, E2; [|reflexivity]. now rewrite (pubkey_holds_inj _ _ _ H1 H2).
Qed.
(** Creating a key succeeds exactly with the key's point. *)
Lemma create_inv ctx init key pk : usable_context ctx -> bytes_n 32 key -> ec_pubkey_create ctx (Some init) (Some key) = mkres 1 0 (Some pk) ->
  1 <= be_val key < n /\ pubkey_holds pk (pmul (be_val key) G).
Proof.
  intros U HK E. destruct (prop_create ctx init key U HK) as [(V & _ & pk' & E' & H)|(_ & E')]; rewrite E in E'; [|discriminate E'].
  apply (f_equal r_out) in E'. cbn [r_out] in E'. apply Some_inj in E'. subst pk'. auto.
Qed.
Lemma create_intro ctx init key d pk : usable_context ctx -> bytes_n 32 key -> 1 <= be_val key < n -> be_val key = d -> pubkey_holds pk (pmul d G) ->
  ec_pubkey_create ctx (Some init) (Some key) = mkres 1 0 (Some pk).
Proof.
  intros U HK V <- H. destruct (prop_create ctx init key U HK) as [(_ & _ & pk' & E' & H')|(V' & _)]; [|contradiction].
  now rewrite E', (pubkey_holds_inj _ _ _ H H').
Qed.
Lemma key_bytes v : 0 <= v < n -> bytes_n 32 (be_bytes 32 v) /\ be_val (be_bytes 32 v) = v.
Proof.
  intros H. split; [split; [apply be_bytes_byte_list|apply be_bytes_length]|]. apply be_bytes_32_val. assert (n < 2 ^ 256) by reflexivity. lia.
Qed.

(** ** C13, C14, C15 *)
Lemma prop_tweak_add ctx init init' key pk tw : usable_context ctx -> bytes_n 32 key -> bytes_n 32 tw ->
  ec_pubkey_create ctx (Some init) (Some key) = mkres 1 0 (Some pk) ->
  ((be_val tw < n /\ (be_val key + be_val tw) mod n <> 0) /\
   exists key' pk', ec_seckey_tweak_add (Some key) (Some tw) = mkres 1 0 (Some key') /\ ec_pubkey_tweak_add (Some pk) (Some tw) = mkres 1 0 (Some pk') /\
     seckey_is key' ((be_val key + be_val tw) mod n) /\ ec_pubkey_create ctx (Some init') (Some key') = mkres 1 0 (Some pk')) \/
  (~ (be_val tw < n /\ (be_val key + be_val tw) mod n <> 0) /\
   ec_seckey_tweak_add (Some key) (Some tw) = mkres 0 0 (Some (repeat 0 32)) /\ ec_pubkey_tweak_add (Some pk) (Some tw) = mkres 0 0 (Some (repeat 0 64))).
Proof.
  intros U HK HT HC. destruct (create_inv _ _ _ _ U HK HC) as [V HP].
  destruct (seckey_tweak_add_ok key tw HK HT) as [(C & E)|(C & E)]; destruct (pubkey_tweak_add_ok pk _ tw HP HT) as [(D & pk' & E' & H')|(D & E')].
  - left. split; [tauto|]. exists (be_bytes 32 ((be_val key + be_val tw) mod n)), pk'. split; [exact E|]. split; [exact E'|].
    pose proof (mod_n_range (be_val key + be_val tw)) as R. destruct (key_bytes _ R) as [K1 K2]. split; [split; [exact K1|split; [exact K2|lia]]|].
    apply (create_intro _ _ _ ((be_val key + be_val tw) mod n)); [exact U|exact K1|rewrite K2; lia|exact K2|].
    rewrite pmul_mod_G, <- K_add. exact H'.
  - exfalso. apply D. split; [tauto|]. rewrite K_add, pmul_G_Inf. tauto.
  - exfalso. apply C. split; [exact V|]. split; [tauto|]. rewrite K_add, pmul_G_Inf in D. tauto.
  - right. split; [|auto]. intros F. apply C. tauto.
Qed.
Lemma prop_tweak_mul ctx init init' key pk tw : usable_context ctx -> bytes_n 32 key -> bytes_n 32 tw ->
  ec_pubkey_create ctx (Some init) (Some key) = mkres 1 0 (Some pk) ->
  (1 <= be_val tw < n /\
   exists key' pk', ec_seckey_tweak_mul (Some key) (Some tw) = mkres 1 0 (Some key') /\ ec_pubkey_tweak_mul (Some pk) (Some tw) = mkres 1 0 (Some pk') /\
     seckey_is key' ((be_val key * be_val tw) mod n) /\ ec_pubkey_create ctx (Some init') (Some key') = mkres 1 0 (Some pk')) \/
  (~ 1 <= be_val tw < n /\
   ec_seckey_tweak_mul (Some key) (Some tw) = mkres 0 0 (Some (repeat 0 32)) /\ ec_pubkey_tweak_mul (Some pk) (Some tw) = mkres 0 0 (Some (repeat 0 64))).
Proof.
  intros U HK HT HC. destruct (create_inv _ _ _ _ U HK HC) as [V HP].
  destruct (seckey_tweak_mul_ok key tw HK HT) as [(C & E)|(C & E)]; destruct (pubkey_tweak_mul_ok pk _ tw HP HT) as [(D & pk' & E' & H')|(D & E')]; try tauto.
  left. split; [tauto|]. exists (be_bytes 32 ((be_val key * be_val tw) mod n)), pk'. split; [exact E|]. split; [exact E'|].
  pose proof (mod_n_range (be_val key * be_val tw)) as R. destruct (key_bytes _ R) as [K1 K2].
  assert (NZ : (be_val key * be_val tw) mod n <> 0) by (intros Z0; apply mod_n_0_mul in Z0; clear - Z0 V D; lia).
  split; [split; [exact K1|split; [exact K2|lia]]|].
  apply (create_intro _ _ _ ((be_val key * be_val tw) mod n)); [exact U|exact K1|rewrite K2; lia|exact K2|].
  rewrite pmul_mod_G, Z.mul_comm, <- K_mul. exact H'.
Qed.
Lemma prop_negate ctx init init' key pk : usable_context ctx -> bytes_n 32 key ->
  ec_pubkey_create ctx (Some init) (Some key) = mkres 1 0 (Some pk) ->
  exists key' pk', ec_seckey_negate (Some key) = mkres 1 0 (Some key') /\ ec_pubkey_negate (Some pk) = mkres 1 0 (Some pk') /\
    seckey_is key' (n - be_val key) /\ pubkey_holds pk' (pneg (pmul (be_val key) G)) /\
    ec_pubkey_create ctx (Some init') (Some key') = mkres 1 0 (Some pk') /\
    ec_seckey_negate (Some key') = mkres 1 0 (Some key) /\ ec_pubkey_negate (Some pk') = mkres 1 0 (Some pk).
Proof.
  intros U HK HC. destruct (create_inv _ _ _ _ U HK HC) as [V HP].
  destruct (seckey_negate_ok key HK) as [(_ & E)|(C & _)]; [|contradiction]. destruct (pubkey_negate_ok pk _ HP) as (pk' & E' & H').
  destruct (key_bytes (n - be_val key) ltac:(lia)) as [K1 K2]. exists (be_bytes 32 (n - be_val key)), pk'.
  split; [exact E|]. split; [exact E'|]. split; [split; [exact K1|split; [exact K2|lia]]|]. split; [exact H'|]. split; [|split].
  - apply (create_intro _ _ _ (n - be_val key)); [exact U|exact K1|rewrite K2; lia|exact K2|].
    rewrite pmul_sub by exact on_curve_G. rewrite n_times_G, padd_Inf_l. exact H'.
  - destruct (seckey_negate_ok _ K1) as [(_ & E2)|(C & _)]; [|exfalso; apply C; rewrite K2; lia]. rewrite E2, K2. do 2 f_equal.
    replace (n - (n - be_val key)) with (be_val key) by lia. f_equal. symmetry. apply be_bytes_unique; [apply HK|apply HK|reflexivity].
  - destruct (pubkey_negate_ok pk' _ H') as (pk2 & E2 & H2). rewrite E2. do 2 f_equal.
    rewrite pneg_involutive in H2 by (apply on_curve_mul; exact on_curve_G). exact (pubkey_holds_inj _ _ _ H2 HP).
Qed.

(** ** C16: the order does not matter *)
Lemma psum_perm l l' : Permutation l l' -> Forall on_curve l -> psum l = psum l'.
Proof.
  induction 1 as [|P l l' H IH|P Q l|l l' l'' H1 IH1 H2 IH2]; intros F.
  - reflexivity.
  - inversion F; subst. cbn [psum fold_right]. fold (psum l). fold (psum l'). now rewrite IH.
  - inversion F as [|? ? O1 F1]; subst. inversion F1 as [|? ? O2 F2]; subst. cbn [psum fold_right]. fold (psum l).
    assert (O3 : on_curve (psum l)) by now apply on_curve_psum. rewrite <- !padd_assoc by assumption. now rewrite (padd_comm Q P).
  - rewrite IH1 by exact F. apply IH2. apply Forall_forall. intros x Hx. rewrite Forall_forall in F. apply F. now apply (Permutation_in _ (Permutation_sym H1)).
Qed.
Lemma combine_perm init init' pks pks' Qs : Forall2 pubkey_holds pks Qs -> pks <> [] -> Permutation pks pks' ->
  ec_pubkey_combine (Some init) (Some (map Some pks)) = ec_pubkey_combine (Some init') (Some (map Some pks')).
Proof.
  intros F NE PM. destruct (Permutation_Forall2 PM F) as (Qs' & PQ & F').
  assert (NE' : pks' <> []) by (intros ->; apply NE; now apply Permutation_sym, Permutation_nil in PM).
  assert (OC : Forall on_curve Qs) by (clear - F; induction F as [|? ? ? ? H]; constructor; [now apply pubkey_holds_oc in H|assumption]).
  destruct (pubkey_combine_ok init pks Qs F NE) as [(N1 & pk & E1 & H1)|(N1 & E1)]; destruct (pubkey_combine_ok init' pks' Qs' F' NE') as [(N2 & pk2 & E2 & H2)|(N2 & E2)];
    rewrite (psum_perm _ _ PQ OC) in N1; try rewrite (psum_perm _ _ PQ OC) in H1; try contradiction; rewrite E1, E2; [|reflexivity]. now rewrite (pubkey_holds_inj _ _ _ H1 H2).
Qed.

(** ** C03 *)
Lemma ecdsa_valid_neg Q m r s : on_curve Q -> 1 <= s < n -> (ecdsa_valid Q m r s <-> ecdsa_valid Q m r (n - s)).
Proof.
  assert (A : forall s, on_curve Q -> 1 <= s < n -> ecdsa_valid Q m r s -> ecdsa_valid Q m r (n - s)).
  { clear s. intros s HQ RS (R1 & _ & NI & EX). split; [exact R1|]. split; [lia|]. cbv zeta in *.
    assert (E : forall a, toN (a * inv_mod (n - s) n) = toN (- (a * inv_mod s n))).
    { intros a. push_toN. assert (NS : toN s <> nz0) by (now apply toN_small_nz). field. split; [exact NS|].
      intros F. apply NS. transitivity (- - toN s)%Fn; [ring|]. rewrite F. ring. }
    assert (EQ : padd (pmul (m * inv_mod (n - s) n) G) (pmul (r * inv_mod (n - s) n) Q) = pneg (padd (pmul (m * inv_mod s n) G) (pmul (r * inv_mod s n) Q))).
    { rewrite (pmul_eqN _ _ G on_curve_G (E m)), (pmul_eqN _ _ Q HQ (E r)), !pmul_neg by (exact HQ || exact on_curve_G).
      now rewrite pneg_add by (apply on_curve_mul; exact HQ || exact on_curve_G). }
    rewrite EQ. split; [|now rewrite xcoord_neg]. destruct (padd _ _); [congruence|discriminate]. }
  intros HQ RS. split; [now apply A|]. intros V. replace s with (n - (n - s)) by lia. apply A; [exact HQ|lia|exact V].
Qed.
Lemma prop_normalize init sig r s : sig_holds sig r s ->
  exists sig', sig_holds sig' r (if n / 2 <? s then n - s else s) /\
    ecdsa_signature_normalize (Some init) (Some sig) = mkres (if n / 2 <? s then 1 else 0) 0 (Some sig') /\
    ecdsa_signature_normalize None (Some sig) = mkres (if n / 2 <? s then 1 else 0) 0 None /\
    (if n / 2 <? s then n - s else s) <= n / 2 /\
    (forall init', ecdsa_signature_normalize (Some init') (Some sig') = mkres 0 0 (Some sig')) /\
    (forall Q m, on_curve Q -> (ecdsa_valid Q m r (if n / 2 <? s then n - s else s) <-> ecdsa_valid Q m r s)) /\
    (forall msg pk Q, bytes_n 32 msg -> pubkey_holds pk Q ->
       (ecdsa_verify (Some sig') (Some msg) (Some pk) = mkres 1 0 tt <-> ecdsa_valid Q (be_val msg) r s)).
Proof.
  intros H. destruct (normalize_ok (Some init) sig r s H) as (sig' & H' & E). destruct (normalize_ok None sig r s H) as (_ & _ & E0).
  destruct half_pos as [P1 P2]. assert (RS := proj1 (proj2 H)).
  assert (LS : (if n / 2 <? s then n - s else s) <= n / 2) by (destruct (Z.ltb_spec (n / 2) s); lia).
  assert (VI : forall Q m, on_curve Q -> (ecdsa_valid Q m r (if n / 2 <? s then n - s else s) <-> ecdsa_valid Q m r s)).
  { intros Q m HQ. destruct (Z.ltb_spec (n / 2) s); [|reflexivity]. symmetry. apply ecdsa_valid_neg; [exact HQ|lia]. }
  exists sig'. split; [exact H'|]. split; [exact E|]. split; [exact E0|]. split; [exact LS|]. split; [|split; [exact VI|]].
  - intros init'. destruct (normalize_ok (Some init') sig' _ _ H') as (sig2 & H2 & E2). rewrite E2. cbv zeta in *.
    set (s' := if n / 2 <? s then n - s else s) in *. rewrite (proj2 (Z.ltb_ge (n / 2) s')) in * by exact LS.
    now rewrite (sig_holds_inj _ _ _ _ H2 H').
  - intros msg pk Q HM HP. rewrite <- (VI Q (be_val msg)) by apply (pubkey_holds_oc _ _ HP).
    destruct (ecdsa_verify_ok sig' _ _ msg pk Q H' HM HP) as [(E1 & _ & V)|(E1 & NV)]; rewrite E1.
    + split; auto.
    + split; [discriminate|]. intros V. exfalso. apply NV. split; assumption.
Qed.

(** ** C09 *)
Lemma prop_compact init init' inp : bytes_n 64 inp ->
  let r := be_val (firstn 32 inp) in let s := be_val (skipn 32 inp) in
  ((r < n /\ s < n) /\ exists sig, ecdsa_signature_parse_compact (Some init) (Some inp) = mkres 1 0 (Some sig) /\ sig_holds sig r s /\
     ecdsa_signature_serialize_compact (Some init') (Some sig) = mkres 1 0 (Some inp)) \/
  (~ (r < n /\ s < n) /\ ecdsa_signature_parse_compact (Some init) (Some inp) = mkres 0 0 (Some (repeat 0 64)) /\
   forall msg pk Q, bytes_n 32 msg -> pubkey_holds pk Q -> ecdsa_verify (Some (repeat 0 64)) (Some msg) (Some pk) = mkres 0 0 tt).
Proof.
  intros HI r s. destruct (parse_compact_ok init inp HI) as [(C & sig & E & H)|(C & E)]; [left|right].
  - split; [exact C|]. exists sig. split; [exact E|]. split; [exact H|]. rewrite (serialize_compact_ok init' sig _ _ H). do 2 f_equal.
    destruct HI as [HB HL]. rewrite <- (firstn_skipn 32 inp) at 3. f_equal; symmetry; apply be_bytes_unique; try reflexivity.
    + rewrite firstn_length. lia. + now apply byte_list_firstn. + rewrite skipn_length. lia. + now apply byte_list_skipn.
  - split; [exact C|]. split; [exact E|]. intros msg pk Q A B. exact (zero_sig_rejected msg pk Q A B).
Qed.

(** ** C11 *)
Lemma prop_serialize init buf pk x y (compressed : bool) : pubkey_holds pk (Aff x y) ->
  let enc := pubkey_enc compressed x y in
  let len := if compressed then 33%nat else 65%nat in
  length enc = len /\
  ((len <= length buf)%nat ->
   ec_pubkey_serialize (Some buf) (Some (Z.of_nat (length buf))) (Some pk) (if compressed then EC_COMPRESSED else EC_UNCOMPRESSED) =
   Some (mkres 1 0 (Some (enc ++ repeat 0 (length buf - len)), Some (Z.of_nat len)))) /\
  ec_pubkey_parse (Some init) (Some enc) = mkres 1 0 (Some pk).
Proof.
  intros H enc len. assert (OC := proj1 (pubkey_holds_oc _ _ H)).
  assert (L : length enc = len) by (unfold enc, len, pubkey_enc, enc_compressed, enc_uncompressed; destruct compressed; cbn [length]; rewrite ?app_length, !be_bytes_length; reflexivity).
  split; [exact L|]. split.
  - intros HB. set (flags := if compressed then EC_COMPRESSED else EC_UNCOMPRESSED).
    pose proof (pubkey_serialize_ok buf (Z.of_nat (length buf)) pk x y flags H) as S. cbv zeta in S.
    assert (EE : (if Z.land flags 256 =? 0 then enc_uncompressed x y else enc_compressed x y) = enc) by (unfold flags; destruct compressed; reflexivity).
    rewrite EE in S. rewrite S; [|unfold flags; destruct compressed; reflexivity|lia|lia].
    rewrite Nat2Z.id, L, skipn_all, app_nil_r. reflexivity.
  - assert (EN : encodes_point enc (Aff x y)) by (split; [exact OC|]; unfold enc, pubkey_enc; destruct compressed; auto).
    destruct (parse_of_encoding enc (Aff x y) init EN) as (pk' & E & H'). rewrite E. now rewrite (pubkey_holds_inj _ _ _ H H').
Qed.
Lemma prop_serialize_inj pk x y pk' x' y' (c : bool) : pubkey_holds pk (Aff x y) -> pubkey_holds pk' (Aff x' y') -> pubkey_enc c x y = pubkey_enc c x' y' -> pk = pk'.
Proof.
  intros H H' E. destruct (prop_serialize pk [] pk x y c H) as (_ & _ & P1). destruct (prop_serialize pk [] pk' x' y' c H') as (_ & _ & P2).
  rewrite E, P2 in P1. apply (f_equal r_out) in P1. cbn [r_out] in P1. apply Some_inj in P1. auto.
Qed.
