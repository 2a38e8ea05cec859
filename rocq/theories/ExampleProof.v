(** C64: the example programs never fail an assertion. *)
Require Import ZArith List Bool Lia.
From Verif Require Import Spec SpecApi SpecHash ZmField Curve Word Bytes HashProof GenModel GenProof EcmultProof EcdsaModel ApiModel ApiVocab ApiProof EcdsaProof EcdsaProof2 KeyProps KeyProps2 EcdhModel EcdhProof LifeProof ExampleModel.
Import ListNotations.
Local Open Scope Z_scope.
Local Opaque p n pmul SHA256 be_bytes.
Local Notation length := List.length.

Lemma asserted_ok {A} (r : res A) (o : A) next : r = mkres 1 0 o -> asserted r next = next o. Proof. intros ->. reflexivity. Qed.
Lemma required_ok {A} (r : res A) (o : A) next : r = mkres 1 0 o -> required r next = next o. Proof. intros ->. reflexivity. Qed.
Lemma start mem : exists ctx, context_create false mem 1 = Some ctx /\ usable_context ctx.
Proof. destruct (fresh false mem 1) as (c & E & U & _); [vm_compute; auto|]. exists c. auto. Qed.
Lemma randomized ctx rnd next : usable_context ctx -> bytes_n 32 rnd -> exists c, usable_context c /\ asserted (context_randomize ctx (Some rnd)) next = next c.
Proof.
  intros U H. assert (U' : usable_context (r_out (context_randomize ctx (Some rnd)))) by (apply uc_randomize; [exact U|intros s E; congruence]).
  exists (r_out (context_randomize ctx (Some rnd))). split; [exact U'|]. apply asserted_ok. unfold context_randomize in *. destruct (usable_ctx _ U) as [_ B]. unfold context_is_proper. rewrite B. reflexivity.
Qed.
Lemma serialized_ok buf pk x y next : length buf = 33%nat -> pubkey_holds pk (Aff x y) -> serialized buf pk next = next (enc_compressed x y).
Proof.
  intros L H. destruct (prop_serialize [] buf pk x y true H) as (LE & S & _). specialize (S ltac:(rewrite L; auto)). rewrite L in S.
  unfold serialized. change 33 with (Z.of_nat 33). rewrite S, (asserted_ok _ _ _ eq_refl). cbn [snd fst got got_len]. rewrite Nat.sub_diag. cbn [repeat]. rewrite app_nil_r. reflexivity.
Qed.
Definition valid_key (key : list Z) : Prop := 1 <= be_val key < n.

Lemma ecdh_runs mem rnd k1 k2 pk1 pk2 c1 c2 s1 s2 : bytes_n 32 rnd -> bytes_n 32 k1 -> bytes_n 32 k2 -> length c1 = 33%nat -> length c2 = 33%nat -> length s1 = 32%nat -> length s2 = 32%nat ->
  (valid_key k1 /\ valid_key k2 /\ exists x1 y1 x2 y2 x y, pmul (be_val k1) G = Aff x1 y1 /\ pmul (be_val k2) G = Aff x2 y2 /\ pmul (be_val k1) (Aff x2 y2) = Aff x y /\
     ecdh_main mem (Some rnd) (Some k1) (Some k2) pk1 pk2 c1 c2 s1 s2 = Success [k1; enc_compressed x1 y1; k2; enc_compressed x2 y2; SHA256 (enc_compressed x y)]) \/
  (~ (valid_key k1 /\ valid_key k2) /\ ecdh_main mem (Some rnd) (Some k1) (Some k2) pk1 pk2 c1 c2 s1 s2 = Failure).
Proof.
  intros HR H1 H2 L1 L2 L3 L4. unfold ecdh_main. destruct (start mem) as (ctx & -> & U).
  match goal with |- context [asserted (context_randomize ctx (Some rnd)) ?f] => destruct (randomized ctx rnd f U HR) as (c & U' & ->) end.
  destruct (prop_seckey_verify k1 H1) as [(V1 & E1)|(V1 & E1)]; rewrite E1; [|right; split; [intros [Q _]; exact (V1 Q)|reflexivity]]. rewrite (required_ok _ _ _ eq_refl).
  destruct (prop_seckey_verify k2 H2) as [(V2 & E2)|(V2 & E2)]; rewrite E2; [|right; split; [intros [_ Q]; exact (V2 Q)|reflexivity]]. rewrite (required_ok _ _ _ eq_refl).
  destruct (prop_create c pk1 k1 U' H1) as [(_ & _ & p1 & C1 & P1)|(Q & _)]; [|contradiction]. destruct (prop_create c pk2 k2 U' H2) as [(_ & _ & p2 & C2 & P2)|(Q & _)]; [|contradiction].
  rewrite C1, (asserted_ok _ _ _ eq_refl), C2, (asserted_ok _ _ _ eq_refl). cbn [got].
  assert (EX : pmul (be_val k1) (pmul (be_val k2) G) = pmul (be_val k2) (pmul (be_val k1) G)) by (change (pmul (be_val k2) G) with (K (be_val k2)) at 1; change (pmul (be_val k1) G) with (K (be_val k1)); now rewrite !K_mul, Z.mul_comm).
  destruct (ecdh_ok s1 p2 _ k1 None P2 H1) as [(_ & x & y & EP & T1)|(Q & _)]; [|contradiction].
  destruct (ecdh_ok s2 p1 _ k2 None P1 H2) as [(_ & x' & y' & EP' & T2)|(Q & _)]; [|contradiction]. rewrite <- EX, EP in EP'. injection EP' as <- <-.
  pose proof (prop_ecdh_default x y s1 ltac:(rewrite L3; auto)) as D1. pose proof (prop_ecdh_default x y s2 ltac:(rewrite L4; auto)) as D2.
  rewrite skipn_all2, app_nil_r in D1 by (rewrite L3; auto). rewrite skipn_all2, app_nil_r in D2 by (rewrite L4; auto).
  pose proof (T1 _ _ D1) as F1. pose proof (T2 _ _ D2) as F2. change (if 1 =? 0 then 0 else 1) with 1 in F1, F2.
  destruct (pmul (be_val k1) G) as [|x1 y1] eqn:G1; [destruct P1|]. destruct (pmul (be_val k2) G) as [|x2 y2] eqn:G2; [destruct P2|].
  left. split; [exact V1|]. split; [exact V2|]. exists x1, y1, x2, y2, x, y. split; [reflexivity|]. split; [reflexivity|]. split; [exact EP|].
  rewrite (serialized_ok c1 p1 x1 y1 _ L1 P1), (serialized_ok c2 p2 x2 y2 _ L2 P2), F1, (asserted_ok _ _ _ eq_refl), F2, (asserted_ok _ _ _ eq_refl). cbn [got].
  rewrite memcmp_refl. reflexivity.
Qed.
Lemma prop_ecdh_alive mem rnd k1 k2 pk1 pk2 c1 c2 s1 s2 : opt_bytes 32 rnd -> opt_bytes 32 k1 -> opt_bytes 32 k2 -> length c1 = 33%nat -> length c2 = 33%nat -> length s1 = 32%nat -> length s2 = 32%nat ->
  ecdh_main mem rnd k1 k2 pk1 pk2 c1 c2 s1 s2 <> Killed.
Proof.
  intros HR H1 H2 L1 L2 L3 L4. destruct rnd as [rnd|]; [|discriminate].
  assert (N : forall a b, (a = None \/ b = None) -> ecdh_main mem (Some rnd) a b pk1 pk2 c1 c2 s1 s2 <> Killed).
  { intros a b O. unfold ecdh_main. destruct (start mem) as (ctx & -> & U). match goal with |- context [asserted (context_randomize ctx (Some rnd)) ?f] => destruct (randomized ctx rnd f U (HR _ eq_refl)) as (c & U' & ->) end.
    destruct a, b; destruct O; congruence. }
  destruct k1 as [k1|]; [|apply N; auto]. destruct k2 as [k2|]; [|apply N; auto].
  destruct (ecdh_runs mem rnd k1 k2 pk1 pk2 c1 c2 s1 s2 (HR _ eq_refl) (H1 _ eq_refl) (H2 _ eq_refl) L1 L2 L3 L4) as [(_ & _ & x1 & y1 & x2 & y2 & x & y & _ & _ & _ & ->)|(_ & ->)]; discriminate.
Qed.

Lemma hash_bytes : bytes_n 32 example_hash.
Proof. split; [|reflexivity]. unfold byte_list, example_hash. repeat constructor; cbv; discriminate || reflexivity. Qed.
Lemma compact_ok sig r s init init' : sig_holds sig r s ->
  ecdsa_signature_serialize_compact (Some init') (Some sig) = mkres 1 0 (Some (be_bytes 32 r ++ be_bytes 32 s)) /\
  ecdsa_signature_parse_compact (Some init) (Some (be_bytes 32 r ++ be_bytes 32 s)) = mkres 1 0 (Some sig).
Proof.
  intros (R & S & ->). destruct (key_bytes r R) as [B1 V1]. destruct (key_bytes s S) as [B2 V2].
  assert (B : bytes_n 64 (be_bytes 32 r ++ be_bytes 32 s)) by (destruct B1, B2; split; [apply Forall_app; auto|rewrite app_length; lia]).
  assert (F1 : firstn 32 (be_bytes 32 r ++ be_bytes 32 s) = be_bytes 32 r) by (rewrite firstn_app, (proj2 B1), firstn_all2 by (rewrite (proj2 B1); lia); apply app_nil_r).
  assert (F2 : skipn 32 (be_bytes 32 r ++ be_bytes 32 s) = be_bytes 32 s) by (rewrite skipn_app, (proj2 B1), skipn_all2 by (rewrite (proj2 B1); lia); reflexivity).
  destruct (prop_compact init init' _ B) as [(_ & sig & E & (_ & _ & H) & E2)|(C & _)].
  - rewrite F1, F2, V1, V2 in H. rewrite <- H. auto.
  - exfalso. apply C. rewrite F1, F2, V1, V2. lia.
Qed.

Lemma ecdsa_runs fuel mem rnd key pk c sg ser : bytes_n 32 rnd -> bytes_n 32 key -> length c = 33%nat ->
  (valid_key key /\ ((exists ctx, usable_context ctx /\ ecdsa_sign fuel ctx (Some sg) (Some example_hash) (Some key) None None = None /\
                        ecdsa_main fuel mem (Some rnd) (Some key) pk c sg ser = Running) \/
     exists x y r s, pmul (be_val key) G = Aff x y /\ 1 <= r < n /\ 1 <= s <= n / 2 /\ ecdsa_valid (Aff x y) (be_val example_hash) r s /\
       ecdsa_main fuel mem (Some rnd) (Some key) pk c sg ser = Success [[1]; key; enc_compressed x y; be_bytes 32 r ++ be_bytes 32 s])) \/
  (~ valid_key key /\ ecdsa_main fuel mem (Some rnd) (Some key) pk c sg ser = Failure).
Proof.
  intros HR HK LC. unfold ecdsa_main. destruct (start mem) as (ctx & -> & U).
  match goal with |- context [asserted (context_randomize ctx (Some rnd)) ?f] => destruct (randomized ctx rnd f U HR) as (cx & U' & ->) end.
  destruct (prop_seckey_verify key HK) as [(V & E)|(V & E)]; rewrite E; [|right; split; [exact V|reflexivity]]. rewrite (required_ok _ _ _ eq_refl).
  destruct (prop_create cx pk key U' HK) as [(_ & _ & p1 & C1 & P1)|(Q & _)]; [|contradiction]. rewrite C1, (asserted_ok _ _ _ eq_refl). cbn [got].
  destruct (pmul (be_val key) G) as [|x y] eqn:GP; [destruct P1|]. rewrite (serialized_ok c p1 x y _ LC P1). left. split; [exact V|].
  destruct (ecdsa_sign fuel cx (Some sg) (Some example_hash) (Some key) None None) as [res|] eqn:ES; [right|left; exists cx; auto].
  pose proof (default_nonce_bytes example_hash key None hash_bytes HK ltac:(discriminate)) as NB. destruct (usable_ctx _ U') as [A B].
  destruct (ecdsa_sign_ok _ _ _ _ _ _ _ _ A B hash_bytes HK NB ES) as (i & _ & [(l & sig & _ & _ & _ & _ & ER)|([N|N] & _)]); [|exfalso|contradiction].
  2:{ unfold the_nonce in N. pose proof (proj1 (nonce_rfc6979_ok example_hash key None None (Z.of_nat i mod 2 ^ 32) hash_bytes HK ltac:(discriminate) ltac:(discriminate))) as N2. rewrite N2 in N. discriminate N. }
  rewrite ER in ES. destruct (prop_sign_valid _ _ _ _ _ _ _ _ _ _ _ U' U' hash_bytes HK NB ES C1) as (VF & r & s & SH & R1 & S1).
  destruct (compact_ok sig r s sig ser SH) as [K1 K2]. destruct (prop_serialize p1 c p1 x y true P1) as (_ & _ & PP). change (pubkey_enc true x y) with (enc_compressed x y) in PP.
  exists x, y, r, s. split; [reflexivity|]. split; [destruct SH; lia|]. split; [exact S1|].
  split; [|rewrite ER, (asserted_ok _ _ _ eq_refl), K1, (asserted_ok _ _ _ eq_refl), K2, (required_ok _ _ _ eq_refl), PP, (required_ok _ _ _ eq_refl), VF; reflexivity].
  destruct (ecdsa_verify_ok sig r s example_hash p1 (Aff x y) SH hash_bytes P1) as [(_ & _ & W)|(W & _)]; [exact W|rewrite W in VF; discriminate VF].
Qed.
Lemma prop_ecdsa_alive fuel mem rnd key pk c sg ser : opt_bytes 32 rnd -> opt_bytes 32 key -> length c = 33%nat -> ecdsa_main fuel mem rnd key pk c sg ser <> Killed.
Proof.
  intros HR HK LC. destruct rnd as [rnd|]; [|discriminate]. destruct key as [key|].
  - destruct (ecdsa_runs fuel mem rnd key pk c sg ser (HR _ eq_refl) (HK _ eq_refl) LC) as [(_ & [(ctx & _ & _ & ->)|(x & y & r & s & _ & _ & _ & _ & ->)])|(_ & ->)]; discriminate.
  - unfold ecdsa_main. destruct (start mem) as (ctx & -> & U). match goal with |- context [asserted (context_randomize ctx (Some rnd)) ?f] => destruct (randomized ctx rnd f U (HR _ eq_refl)) as (cx & U' & ->) end. discriminate.
Qed.
Lemma key_of v : 0 <= v < n -> bytes_n 32 (be_bytes 32 v) /\ be_val (be_bytes 32 v) = v. Proof. exact (key_bytes v). Qed.
Lemma keys_in_range : 1 <= 1 < n /\ 1 <= 2 < n. Proof. pose proof n_big. lia. Qed.
