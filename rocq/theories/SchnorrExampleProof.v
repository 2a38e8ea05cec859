(** C64: the Schnorr example program. *)
Require Import ZArith List Bool String Lia.
From Verif Require Import Spec SpecApi SpecHash SpecBip340 Curve Bytes HashProof GenModel EcdsaModel ApiModel ApiVocab ApiProof KeyProps KeyProps2 RepProof2 ExtrakeysModel ExtrakeysProof SchnorrModel SchnorrVocab SchnorrProps LifeProof ExampleModel ExampleProof SchnorrExampleModel.
Import ListNotations.
Local Open Scope Z_scope.
Local Opaque p n pmul SHA256 be_bytes.
Local Notation length := List.length.

Local Notation schnorr_hash := (tagged_hash (ascii_bytes "my_fancy_protocol"%string) (ascii_bytes "Hello World!"%string)).
Lemma tag_ascii : schnorr_tag = ascii_bytes "my_fancy_protocol"%string. Proof. reflexivity. Qed.
Lemma msg_ascii : schnorr_msg = ascii_bytes "Hello World!"%string. Proof. reflexivity. Qed.
Lemma schnorr_hash_ok buf : api_tagged_sha256 (Some buf) (Some schnorr_tag) (Some schnorr_msg) = mkres 1 0 (Some schnorr_hash).
Proof.
  unfold tagged_hash. rewrite <- tag_ascii, <- msg_ascii. apply prop_tagged; try reflexivity; unfold byte_list, schnorr_tag, schnorr_msg; repeat constructor; lia. Qed.

Lemma schnorr_runs mem rnd key aux kp0 pk0 ser0 h0 sig0 : bytes_n 32 rnd -> bytes_n 32 key -> bytes_n 32 aux ->
  (1 <= be_val key < n /\
   schnorr_main mem (Some rnd) (Some key) (Some aux) kp0 pk0 ser0 h0 sig0 =
     match bip340_sign (be_val key) schnorr_hash aux with
     | Some sig => Success [[1]; key; be_bytes 32 (xcoord (pmul (be_val key) G)); sig]
     | None => Killed
     end) \/
  (~ 1 <= be_val key < n /\ schnorr_main mem (Some rnd) (Some key) (Some aux) kp0 pk0 ser0 h0 sig0 = Failure).
Proof.
  intros HR HK HA. unfold schnorr_main. destruct (start mem) as (ctx & -> & U).
  match goal with |- context [asserted (context_randomize ctx (Some rnd)) ?f] => destruct (randomized ctx rnd f U HR) as (cx & U' & ->) end.
  destruct (keypair_create_ok cx kp0 key U' HK) as [(V & kp & E & H)|(V & E)]; rewrite E; [|right; split; [exact V|reflexivity]]. rewrite (required_ok _ _ _ eq_refl). left. split; [exact V|].
  destruct (keypair_xonly_ok pk0 None kp _ H) as (xpk & EX & HX). rewrite EX, (asserted_ok _ _ _ eq_refl). cbn [fst].
  assert (XX : exists x y, xonly_holds xpk (Aff x y) /\ xcoord (pmul (be_val key) G) = x).
  { destruct (pmul (be_val key) G) as [|x y] eqn:GP; [exfalso; exact (proj2 (pubkey_holds_oc _ _ (proj1 HX)) eq_refl)|]. unfold even_y in HX. destruct (Z.odd (ycoord (Aff x y))); eexists _, _; split; try exact HX; reflexivity. }
  destruct XX as (x & y & HX2 & <-). destruct (prop_xonly_reparse ser0 xpk xpk _ y HX2) as [S1 S2]. rewrite S1, (asserted_ok _ _ _ eq_refl), schnorr_hash_ok, (asserted_ok _ _ _ eq_refl).
  assert (HB : bytes_n 32 schnorr_hash) by (split; [apply SHA256_bytes|apply SHA256_length]).
  pose proof (prop_sign32_exact cx sig0 schnorr_hash kp _ (Some aux) U' HB H ltac:(intros a Ea; congruence)) as SG. cbn iota beta in SG.
  destruct (bip340_sign (be_val key) schnorr_hash aux) as [sig|]; rewrite SG; [|reflexivity].
  rewrite (asserted_ok _ _ _ eq_refl), S2, (required_ok _ _ _ eq_refl), schnorr_hash_ok, (asserted_ok _ _ _ eq_refl).
  rewrite (prop_sign32_verifies cx sig0 schnorr_hash kp _ (Some aux) 1 0 sig pk0 None None xpk U' HB H ltac:(intros a Ea; congruence) SG ltac:(discriminate) EX). reflexivity.
Qed.
(** Only a nonce hash that is 0 modulo the order makes the program fail its assertion. *)
Lemma schnorr_killed mem rnd key aux kp0 pk0 ser0 h0 sig0 : opt_bytes 32 rnd -> opt_bytes 32 key -> opt_bytes 32 aux ->
  schnorr_main mem rnd key aux kp0 pk0 ser0 h0 sig0 = Killed ->
  exists k a, key = Some k /\ aux = Some a /\ 1 <= be_val k < n /\ be_val (bip340_nonce (be_val k) schnorr_hash a) mod n = 0.
Proof.
  intros HR HK HA. destruct rnd as [rnd|]; [|discriminate]. pose proof (HR _ eq_refl) as R. destruct key as [k|].
  - pose proof (HK _ eq_refl) as K1. destruct aux as [a|].
    + destruct (schnorr_runs mem rnd k a kp0 pk0 ser0 h0 sig0 R K1 (HA _ eq_refl)) as [(V & ->)|(V & ->)]; [|discriminate].
      unfold bip340_sign, bip340_sign_with. destruct (Z.eqb_spec (be_val (bip340_nonce (be_val k) schnorr_hash a) mod n) 0) as [Q|Q]; [|discriminate]. intros _. exists k, a. auto.
    + intros Q. exfalso. revert Q. unfold schnorr_main. destruct (start mem) as (ctx & -> & U).
      match goal with |- context [asserted (context_randomize ctx (Some rnd)) ?f] => destruct (randomized ctx rnd f U R) as (cx & U' & ->) end.
      destruct (keypair_create_ok cx kp0 k U' K1) as [(V & kp & E & H)|(V & E)]; rewrite E; [|discriminate]. rewrite (required_ok _ _ _ eq_refl).
      destruct (keypair_xonly_ok pk0 None kp _ H) as (xpk & EX & HX). rewrite EX, (asserted_ok _ _ _ eq_refl). cbn [fst].
      assert (XX : exists x y, xonly_holds xpk (Aff x y)).
      { destruct (even_y (pmul (be_val k) G)) as [|x y] eqn:GP; [exfalso; exact (proj2 (pubkey_holds_oc _ _ (proj1 HX)) eq_refl)|]. exists x, y. exact HX. }
      destruct XX as (x & y & HX2). destruct (prop_xonly_reparse ser0 xpk xpk _ y HX2) as [S1 S2]. rewrite S1, (asserted_ok _ _ _ eq_refl), schnorr_hash_ok. discriminate.
  - unfold schnorr_main. destruct (start mem) as (ctx & -> & U).
    match goal with |- context [asserted (context_randomize ctx (Some rnd)) ?f] => destruct (randomized ctx rnd f U R) as (cx & U' & ->) end. discriminate.
Qed.
