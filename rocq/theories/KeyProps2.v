(** The accepted public key encodings spelled out, and concrete objects that meet the
    hypotheses of the theorems. *)
Require Import ZArith List Bool Lia Permutation.
From Verif Require Import NumTheory Spec SpecApi SpecHash Primes ZmField Curve NField Word Bytes.
From Verif Require Import FieldModel FieldMul FieldProof FieldProof2 FieldBytes FieldOps.
From Verif Require Import ScalarModel ScalarProof ScalarProof2 ScalarMul.
From Verif Require Import GroupModel GroupProof GroupProof2 GroupProof3 GroupProof4 GroupProof5.
From Verif Require Import HashModel HashProof GenModel GenProof EcmultModel EcmultProof EcmultProof2 EcdsaModel ApiModel ApiVocab ApiProof ApiProof2 ApiProof3 EcdsaProof EcdsaProof2 KeyProps.
Import ListNotations.
Local Open Scope Z_scope.

Lemma lift_square x (odd : bool) : 0 <= x < p -> is_square_mod_p (x * x * x + 7) -> exists y, on_curve (Aff x y) /\ Z.odd y = odd.
Proof.
  intros Hx [b Hb].
  assert (OC : on_curve (Aff x (b mod p))).
  { split; [exact Hx|]. split; [apply Z.mod_pos_bound; reflexivity|]. rewrite <- Zmult_mod. exact Hb. }
  pose proof (y_neq_0 _ _ OC) as NZ. set (y := b mod p) in *. assert (RY := proj1 (proj2 OC)). cbn [on_curve] in RY.
  destruct (Bool.bool_dec (Z.odd y) odd) as [E|E]; [now exists y|].
  exists (p - y). split.
  - pose proof (on_curve_neg _ OC) as ON. cbn [pneg] in ON. replace (p - y) with ((- y) mod p); [exact ON|].
    symmetry. apply Z.mod_unique_pos with (q := -1); lia.
  - rewrite Z.odd_sub. change (Z.odd p) with true. destruct (Z.odd y), odd; cbn; congruence.
Qed.
Lemma cube x : x ^ 3 = x * x * x. Proof. ring. Qed.
Lemma square x : x ^ 2 = x * x. Proof. ring. Qed.
Lemma fn_app_exact {A} (l m : list A) k : length l = k -> firstn k (l ++ m) = l.
Proof. intros <-. rewrite firstn_app, Nat.sub_diag, firstn_O, app_nil_r. apply firstn_all. Qed.
Lemma sk_app_exact {A} (l m : list A) k : length l = k -> skipn k (l ++ m) = m.
Proof. intros <-. rewrite skipn_app, Nat.sub_diag, skipn_all. reflexivity. Qed.
Lemma coord_bytes x : 0 <= x < p -> be_val (be_bytes 32 x) = x.
Proof. intros H. apply be_bytes_32_val. assert (p < 2 ^ 256) by reflexivity. lia. Qed.
Lemma be_split32 l : byte_list l -> length l = 64%nat -> l = be_bytes 32 (be_val (firstn 32 l)) ++ be_bytes 32 (be_val (skipn 32 l)).
Proof.
  intros B L. rewrite <- (firstn_skipn 32 l) at 1. f_equal; apply be_bytes_unique; try reflexivity.
  - rewrite firstn_length. lia. - now apply byte_list_firstn. - rewrite skipn_length. lia. - now apply byte_list_skipn.
Qed.
Lemma acceptable_iff inp : byte_list inp -> (pubkey_acceptable inp <-> exists Q, encodes_point inp Q).
Proof.
  intros HB. split.
  - destruct inp as [|tag rest]; [intros []|]. apply byte_list_cons in HB as [HT HB]. intros [(L & T & X & S)|(L & X & Y & E & T)].
    + rewrite cube in S. pose proof (be_val_range rest HB) as R.
      destruct (lift_square (be_val rest) (tag =? 3) ltac:(lia) S) as (y & OC & OD). exists (Aff (be_val rest) y). split; [exact OC|]. left.
      unfold enc_compressed. rewrite OD. f_equal; [destruct T as [-> | ->]; reflexivity|]. apply be_bytes_unique; [exact L|exact HB|reflexivity].
    + cbv zeta in *. rewrite cube, square in E.
      pose proof (be_val_range _ (byte_list_firstn 32 _ HB)) as R1. pose proof (be_val_range _ (byte_list_skipn 32 _ HB)) as R2.
      pose proof (be_split32 rest HB L) as ER. set (x := be_val (firstn 32 rest)) in *. set (y := be_val (skipn 32 rest)) in *.
      exists (Aff x y). split; [repeat split; (lia || assumption)|]. right. unfold enc_uncompressed, enc_hybrid. rewrite ER.
      destruct T as [-> |[[-> ->]|[-> ->]]]; auto.
  - intros [[|x y] EN]; [contradiction|]. destruct EN as [OC EN]. pose proof OC as (RX & RY & EC).
    destruct EN as [-> |[-> | ->]]; unfold enc_compressed, enc_uncompressed, enc_hybrid, pubkey_acceptable.
    + left. rewrite be_bytes_length, coord_bytes, cube by exact RX. split; [reflexivity|]. split; [destruct (Z.odd y); auto|]. split; [lia|]. now exists y.
    + right. rewrite app_length, !be_bytes_length, fn_app_exact, sk_app_exact by apply be_bytes_length. cbv zeta. rewrite !coord_bytes, cube, square by assumption.
      split; [reflexivity|]. split; [lia|]. split; [lia|]. split; [exact EC|]. auto.
    + right. rewrite app_length, !be_bytes_length, fn_app_exact, sk_app_exact by apply be_bytes_length. cbv zeta. rewrite !coord_bytes, cube, square by assumption.
      split; [reflexivity|]. split; [lia|]. split; [lia|]. split; [exact EC|]. destruct (Z.odd y); auto.
Qed.
Lemma prop_parse init inp : byte_list inp ->
  (pubkey_acceptable inp /\ exists Q pk, ec_pubkey_parse (Some init) (Some inp) = mkres 1 0 (Some pk) /\ encodes_point inp Q /\ pubkey_holds pk Q) \/
  (~ pubkey_acceptable inp /\ ec_pubkey_parse (Some init) (Some inp) = mkres 0 0 (Some (repeat 0 64))).
Proof.
  intros HB. rewrite (acceptable_iff inp HB). destruct (pubkey_parse_ok init inp HB) as [(Q & pk & A & B & C)|(A & B)].
  - left. split; [now exists Q|]. exists Q, pk. auto.
  - right. split; [|exact B]. intros [Q H]. exact (A Q H).
Qed.

(** ** Concrete objects *)
Definition w_key (d : Z) : list Z := be_bytes 32 d.
Lemma w_key_ok d : 1 <= d < n -> seckey_is (w_key d) d.
Proof. intros H. destruct (key_bytes d ltac:(lia)) as [A B]. split; [exact A|]. split; [exact B|exact H]. Qed.
Lemma w_small d : 1 <= d < 2 ^ 64 -> 1 <= d < n.
Proof. assert (2 ^ 64 < n) by reflexivity. lia. Qed.
Definition w_pk : list Z := le_enc 32 Gx ++ le_enc 32 Gy.
Lemma w_pk_ok : pubkey_holds w_pk G. Proof. split; [exact on_curve_G|reflexivity]. Qed.
Definition w_ctx : context := match context_create false context_static 1 with Some c => c | None => context_static end.
Lemma w_ctx_ok : usable_context w_ctx.
Proof. destruct fresh_context as [c E]. unfold w_ctx. rewrite E. exact (uc_create _ _ _ _ E). Qed.
Lemma w_create d init : 1 <= d < n -> exists pk, ec_pubkey_create w_ctx (Some init) (Some (w_key d)) = mkres 1 0 (Some pk) /\ pubkey_holds pk (pmul d G).
Proof.
  intros H. destruct (w_key_ok d H) as (A & B & C). destruct (prop_create w_ctx init (w_key d) w_ctx_ok A) as [(_ & _ & pk & E & F)|(F & _)].
  - exists pk. rewrite B in F. auto.
  - exfalso. apply F. now rewrite B.
Qed.
(** A nonce function that always returns 1. *)
Definition w_nonce : nonce_function := fun _ _ _ _ _ => Some (be_bytes 32 1).
Lemma w_nonce_ok msg key nd : nonce_bytes (the_nonce (Some w_nonce)) msg key nd.
Proof. intros c l E. apply Some_inj in E. subst l. apply key_bytes. split; [lia|reflexivity]. Qed.
Lemma w_usable : nonce_usable 1 0 (be_bytes 32 1).
Proof.
  assert (E : be_val (be_bytes 32 1) = 1) by reflexivity. unfold nonce_usable. rewrite E. split; [split; [lia|reflexivity]|].
  assert (R : ecdsa_r 1 = Gx mod n) by reflexivity. assert (NR : Gx mod n <> 0) by (vm_compute; discriminate).
  split; [rewrite R; exact NR|]. unfold ecdsa_s. rewrite R, Z.add_0_l, Z.mul_1_r.
  replace (inv_mod 1 n) with 1 by (vm_compute; reflexivity). rewrite Z.mul_1_l, Z.mod_mod by (vm_compute; discriminate). exact NR.
Qed.
Lemma w_sign init : exists sig, ecdsa_sign 1 w_ctx (Some init) (Some (repeat 0 32)) (Some (w_key 1)) (Some w_nonce) None = Some (mkres 1 0 (Some sig)).
Proof.
  assert (HM : bytes_n 32 (repeat 0 32)) by (split; [repeat constructor; lia|reflexivity]).
  destruct (w_key_ok 1 ltac:(split; [lia|reflexivity])) as (HK & VK & RK). destruct (usable_ctx _ w_ctx_ok) as [A B].
  assert (VM : be_val (repeat 0 32) = 0) by reflexivity.
  assert (SD : sign_d (w_key 1) = 1) by reflexivity.
  assert (LS : loop_stops (the_nonce (Some w_nonce) (repeat 0 32) (w_key 1) None None) (sign_d (w_key 1)) (be_val (repeat 0 32)) 0 0).
  { right. exists (be_bytes 32 1). split; [reflexivity|]. rewrite SD, VM. exact w_usable. }
  destruct (ecdsa_sign_stops 1 w_ctx init (repeat 0 32) (w_key 1) (Some w_nonce) None 0 A B HM HK (w_nonce_ok _ _ _) ltac:(lia) LS) as [r E].
  destruct (ecdsa_sign_ok _ _ _ _ _ _ _ _ A B HM HK (w_nonce_ok _ _ _) E) as (i & _ & [(l & sig & _ & _ & _ & _ & ->)|([F|F] & _)]).
  - now exists sig.
  - discriminate F.
  - exfalso. apply F. now rewrite VK.
Qed.

Lemma w_5 : 1 <= 5 < 2 ^ 64. Proof. lia. Qed.
Lemma w_1 : 1 <= 1 < 2 ^ 64. Proof. lia. Qed.
Lemma w_hybrid : byte_list (enc_hybrid Gx Gy) /\ encodes_point (enc_hybrid Gx Gy) G.
Proof.
  split; [|split; [exact on_curve_G|auto]]. unfold enc_hybrid. apply byte_list_cons. split; [destruct (Z.odd Gy); lia|].
  apply byte_list_app. split; apply be_bytes_byte_list.
Qed.
Lemma w_two : Forall2 pubkey_holds [w_pk; w_pk] [G; G]. Proof. constructor; [exact w_pk_ok|]. constructor; [exact w_pk_ok|constructor]. Qed.
Lemma w_sig : sig_holds (le_enc 32 7 ++ le_enc 32 9) 7 9.
Proof. split; [split; [lia|reflexivity]|]. split; [split; [lia|reflexivity]|reflexivity]. Qed.
Lemma w_high : sig_holds (le_enc 32 7 ++ le_enc 32 (n - 1)) 7 (n - 1) /\ (n / 2 <? n - 1) = true.
Proof.
  split; [|reflexivity]. split; [split; [lia|reflexivity]|]. split; [pose proof n_gt2; lia|reflexivity].
Qed.
Lemma w_bad_key : bytes_n 32 (repeat 0 32) /\ ~ 1 <= be_val (repeat 0 32) < n /\ nonce_bytes (fun _ _ _ _ _ => None) (repeat 0 32) (w_key 1) None.
Proof.
  split; [split; [repeat constructor; lia|reflexivity]|]. split; [change (be_val (repeat 0 32)) with 0; lia|]. intros c l E. discriminate.
Qed.
Lemma w_compact : bytes_n 64 (be_bytes 32 7 ++ be_bytes 32 n).
Proof. split; [apply byte_list_app; split; apply be_bytes_byte_list|]. now rewrite app_length, !be_bytes_length. Qed.
Lemma w_randomized : usable_context w_ctx /\ usable_context (r_out (context_randomize (r_out (context_randomize w_ctx (Some (w_key 77)))) None)).
Proof.
  split; [exact w_ctx_ok|]. apply uc_randomize; [|discriminate]. apply uc_randomize; [exact w_ctx_ok|]. intros s E. apply Some_inj in E. subst s.
  apply w_key_ok. apply w_small. lia.
Qed.

Lemma prop_seckey_verify key : bytes_n 32 key ->
  (1 <= be_val key < n /\ ec_seckey_verify (Some key) = mkres 1 0 tt) \/ (~ 1 <= be_val key < n /\ ec_seckey_verify (Some key) = mkres 0 0 tt).
Proof.
  intros H. destruct (seckey_verify_ok key H) as (A & B & C). destruct (ec_seckey_verify (Some key)) as [rt il []]. cbn [r_ret r_ill] in *. subst il.
  destruct B as [-> | ->]; [right|left]; (split; [|reflexivity]); [intros F; apply C in F; discriminate|now apply C].
Qed.
Lemma prop_pubkey_negate pk x y : pubkey_holds pk (Aff x y) ->
  exists pk', ec_pubkey_negate (Some pk) = mkres 1 0 (Some pk') /\ pubkey_holds pk' (Aff x ((- y) mod p)) /\ ec_pubkey_negate (Some pk') = mkres 1 0 (Some pk).
Proof.
  intros H. destruct (pubkey_negate_ok pk _ H) as (pk' & E & H'). exists pk'. split; [exact E|]. split; [exact H'|].
  destruct (pubkey_negate_ok pk' _ H') as (pk2 & E2 & H2). rewrite E2. do 2 f_equal.
  rewrite pneg_involutive in H2 by apply (pubkey_holds_oc _ _ H). exact (pubkey_holds_inj _ _ _ H2 H).
Qed.
Lemma prop_seckey_negate_invalid key : bytes_n 32 key -> ~ 1 <= be_val key < n -> ec_seckey_negate (Some key) = mkres 0 0 (Some (repeat 0 32)).
Proof. intros H N. destruct (seckey_negate_ok key H) as [(V & _)|(_ & E)]; [contradiction|exact E]. Qed.
Lemma sign_d_valid key : 1 <= be_val key < n -> sign_d key = be_val key.
Proof.
  intros V. unfold sign_d. rewrite (proj2 (Z.ltb_lt 0 (be_val key))) by lia. rewrite (proj2 (Z.ltb_lt (be_val key) n)) by lia. reflexivity.
Qed.
Lemma prop_sign_succeeds fuel ctx init msg key f nd i nonce : usable_context ctx -> bytes_n 32 msg -> seckey_valid key -> nonce_bytes f msg key nd ->
  Z.of_nat i < 2 ^ 32 -> (i < fuel)%nat ->
  f msg key None nd (Z.of_nat i) = Some nonce -> nonce_usable (be_val key) (be_val msg) nonce ->
  (forall j, (j < i)%nat -> exists l, f msg key None nd (Z.of_nat j) = Some l /\ ~ nonce_usable (be_val key) (be_val msg) l) ->
  exists sig, ecdsa_sign fuel ctx (Some init) (Some msg) (Some key) (Some f) nd = Some (mkres 1 0 (Some sig)) /\
    sig_holds sig (ecdsa_r (be_val nonce)) (ecdsa_low_s (be_val key) (be_val msg) (be_val nonce)).
Proof.
  intros U HM [HK VK] NB Hi Hf FN UN FR. destruct (usable_ctx _ U) as [A B].
  assert (LS : loop_stops (the_nonce (Some f) msg key None nd) (sign_d key) (be_val msg) 0 i).
  { right. exists nonce. cbn [the_nonce]. rewrite Z.add_0_l, Z.mod_small, sign_d_valid by lia. auto. }
  destruct (ecdsa_sign_stops fuel ctx init msg key (Some f) nd i A B HM HK NB Hf LS) as [r E]. rewrite E.
  destruct (ecdsa_sign_ok _ _ _ _ _ (Some f) _ _ A B HM HK NB E) as (i' & RJ & C). cbn [the_nonce] in *. rewrite sign_d_valid in RJ by exact VK.
  assert (II : i' = i).
  { destruct (Nat.lt_trichotomy i' i) as [L|[L|L]]; [exfalso|exact L|exfalso].
    - destruct (FR i' L) as (l' & F1 & F2). rewrite Z.mod_small in C by lia. destruct C as [(l & sig & FS & US & _)|([FS|N] & _)]; [|congruence|contradiction].
      rewrite F1 in FS. apply Some_inj in FS. subst l'. contradiction.
    - destruct (RJ i L) as (l' & F1 & F2). rewrite Z.mod_small in F1 by lia. rewrite FN in F1. apply Some_inj in F1. subst l'. contradiction. }
  subst i'. rewrite Z.mod_small in C by lia. destruct C as [(l & sig & FS & US & _ & SH & ->)|([FS|N] & _)]; [|congruence|contradiction].
  rewrite FN in FS. apply Some_inj in FS. subst l. exists sig. auto.
Qed.
