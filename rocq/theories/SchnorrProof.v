(** Schnorr signatures. *)
Require Import ZArith List Bool Lia Field String.
From Verif Require Import NumTheory Spec SpecApi SpecHash SpecBip340 Primes ZmField Curve NField Word Bytes.
From Verif Require Import FieldModel FieldMul FieldProof FieldProof2 FieldBytes FieldOps.
From Verif Require Import ScalarModel ScalarProof ScalarProof2 ScalarMul.
From Verif Require Import GroupModel GroupProof GroupProof2 GroupProof3 GroupProof4 GroupProof5.
From Verif Require Import HashModel HashProof GenModel GenProof EcmultModel EcmultProof EcmultProof2 EcdsaModel ApiModel ApiVocab ApiProof ApiProof2 ApiProof3 EcdsaProof EcdsaProof2 KeyProps KeyProps2 EcdhProof.
From Verif Require Import ExtrakeysModel ExtrakeysProof SchnorrModel.
Import ListNotations.
Local Open Scope Z_scope.
Local Opaque p n.
Local Notation length := List.length.

(** ** The midstate constants *)
Definition mid_check (s : list Z) (tag : list Z) : bool :=
  let t := SHA256 tag in
  match st_of s, compress IV (t ++ t) with
  | S8 a b c d e f g h, S8 a' b' c' d' e' f' g' h' =>
    (a =? a') && (b =? b') && (c =? c') && (d =? d') && (e =? e') && (f =? f') && (g =? g') && (h =? h')
  end && (length s =? 8)%nat && forallb (fun w => (0 <=? w) && (w <? 2 ^ 32)) s.
Lemma mid_check_at s tag : mid_check s tag = true -> sha_at (set_midstate s) (SHA256 tag ++ SHA256 tag).
Proof.
  unfold mid_check. cbv zeta. intros H. apply andb_true_iff in H as [H W]. apply andb_true_iff in H as [H L].
  apply midstate_at.
  - now rewrite app_length, SHA256_length.
  - now apply Nat.eqb_eq.
  - apply Forall_forall. intros x Hx. apply forallb_forall with (x := x) in W; [|exact Hx]. apply andb_true_iff in W as [A B]. apply Z.leb_le in A. apply Z.ltb_lt in B. split; assumption.
  - reflexivity.
  - apply byte_list_repeat. lia.
  - destruct (st_of s) as [a b c d e f g h], (compress IV _) as [a' b' c' d' e' f' g' h'].
    do 7 (apply andb_true_iff in H; destruct H as [H E]; apply Z.eqb_eq in E; rewrite E; clear E). apply Z.eqb_eq in H. now rewrite H.
Qed.
Lemma mid_challenge : mid_check (sh_s schnorrsig_sha256_tagged) (ascii_bytes "BIP0340/challenge"%string) = true. Proof. vm_cast_no_check (eq_refl true). Qed.
Lemma mid_nonce : mid_check (sh_s nonce_function_bip340_sha256_tagged) (ascii_bytes "BIP0340/nonce"%string) = true. Proof. vm_cast_no_check (eq_refl true). Qed.
Lemma mid_aux : mid_check (sh_s nonce_function_bip340_sha256_tagged_aux) (ascii_bytes "BIP0340/aux"%string) = true. Proof. vm_cast_no_check (eq_refl true). Qed.
Lemma zero_mask : tagged_hash (ascii_bytes "BIP0340/aux"%string) (repeat 0 32) = ZERO_MASK. Proof. vm_cast_no_check (eq_refl ZERO_MASK). Qed.
Local Opaque SHA256 be_bytes.
Lemma tag_app tag m : (SHA256 tag ++ SHA256 tag) ++ m = SHA256 tag ++ SHA256 tag ++ m. Proof. now rewrite app_assoc. Qed.
Lemma tag_len tag m : Z.of_nat (length m) < 2 ^ 61 - 64 -> Z.of_nat (length (SHA256 tag ++ SHA256 tag ++ m)) < 2 ^ 61.
Proof. intros H. rewrite !app_length, !SHA256_length. lia. Qed.
Lemma tagged_1 h tag a : sha_at h (SHA256 tag ++ SHA256 tag) -> byte_list a -> Z.of_nat (length a) < 2 ^ 61 - 64 ->
  sha256_finalize (sha256_write h a) = tagged_hash tag a.
Proof.
  intros H HA L. unfold tagged_hash. apply finalize_ok; [|now apply tag_len]. rewrite <- tag_app. now apply write_at.
Qed.
Lemma tagged_3 h tag a b c : sha_at h (SHA256 tag ++ SHA256 tag) -> byte_list a -> byte_list b -> byte_list c ->
  Z.of_nat (length (a ++ b ++ c)) < 2 ^ 61 - 64 ->
  sha256_finalize (sha256_write (sha256_write (sha256_write h a) b) c) = tagged_hash tag (a ++ b ++ c).
Proof.
  intros H HA HB HC L. unfold tagged_hash. apply finalize_ok; [|now apply tag_len].
  rewrite <- tag_app, (app_assoc a b c), (app_assoc _ (a ++ b) c), (app_assoc _ a b). apply write_at; [|exact HC]. apply write_at; [|exact HB]. now apply write_at.
Qed.
Lemma tagged_bytes tag m : bytes_n 32 (tagged_hash tag m).
Proof. split; [apply SHA256_bytes|apply SHA256_length]. Qed.

(** ** The challenge *)
Lemma challenge_ok rx px m : byte_list m -> Z.of_nat (length m) < 2 ^ 61 - 128 ->
  sc_ok (schnorrsig_challenge (be_bytes 32 rx) m (be_bytes 32 px)) /\
  sv (schnorrsig_challenge (be_bytes 32 rx) m (be_bytes 32 px)) = bip340_challenge rx px m.
Proof.
  intros HM L. unfold schnorrsig_challenge, bip340_challenge. cbv zeta.
  rewrite (tagged_3 _ (ascii_bytes "BIP0340/challenge"%string)).
  - destruct (sc_set_b32_case _ (tagged_bytes (ascii_bytes "BIP0340/challenge"%string) (be_bytes 32 rx ++ be_bytes 32 px ++ m))) as (K & E & _). auto.
  - exact (mid_check_at _ _ mid_challenge).
  - apply be_bytes_byte_list.
  - apply be_bytes_byte_list.
  - exact HM.
  - rewrite !app_length, !be_bytes_length. lia.
Qed.

(** ** Verification *)
Lemma verify_ok sig msg mlen pk P : let m := msg_bytes msg mlen in
  bytes_n 64 sig -> (msg <> None \/ mlen = 0) -> byte_list m -> Z.of_nat (length m) < 2 ^ 61 - 128 -> pubkey_holds pk P ->
  (bip340_valid P m sig /\ schnorrsig_verify (Some sig) msg mlen (Some pk) = mkres 1 0 tt) \/
  (~ bip340_valid P m sig /\ schnorrsig_verify (Some sig) msg mlen (Some pk) = mkres 0 0 tt).
Proof.
  intros m [HB HL] HMP HM LM HP.
  assert (B1 : bytes_n 32 (firstn 32 sig)) by (split; [now apply byte_list_firstn|rewrite firstn_length; lia]).
  assert (B2 : bytes_n 32 (skipn 32 sig)) by (split; [now apply byte_list_skipn|rewrite skipn_length; lia]).
  unfold schnorrsig_verify, bip340_valid. fold m.
  replace (negb _) with false; [|symmetry; apply negb_false_iff; destruct msg; [reflexivity|destruct HMP as [H| ->]; [now destruct H|reflexivity]]].
  rewrite (firstn_all2 (skipn 32 sig)) by (destruct B2; lia).
  assert (ER : firstn 32 sig = be_bytes 32 (be_val (firstn 32 sig))) by (apply be_bytes_unique; apply B1 || reflexivity).
  set (r32 := firstn 32 sig) in *. set (s32 := skipn 32 sig) in *. set (r := be_val r32) in *. cbv zeta.
  destruct (set_limit_case r32 B1) as [(C & E & N & V)|(C & E)]; destruct (fe_set_b32_limit r32) as [ok rx]; cbn [fst snd] in *; subst ok; cbn [negb].
  2: { right. split; [unfold r; lia|reflexivity]. }
  destruct (sc_set_b32_case s32 B2) as (K & _ & [(CS & E & VS)|(CS & E)]); destruct (sc_set_b32 s32) as [s ov]; cbn [fst snd] in *; subst ov.
  2: { right. split; [lia|reflexivity]. }
  destruct (pubkey_load_ok _ _ HP) as (LD & RP & NX & NY). destruct (pubkey_holds_oc _ _ HP) as (OC & NI). unfold xonly_pubkey_load.
  destruct (pubkey_load pk) as [ok g]. cbn [fst snd] in *. subst ok. cbn [negb].
  assert (EX : fe_get_b32 (gx g) = be_bytes 32 (xcoord P)) by (rewrite fe_get_b32_ok by exact NX; destruct P as [|x y]; [congruence|]; now rewrite (fval_of_rep _ _ _ RP NX)).
  rewrite EX, ER. clear EX. destruct (challenge_ok r (xcoord P) m HM LM) as [KE VE]. set (e := schnorrsig_challenge _ _ _) in *. clearbody e.
  destruct (sc_negate_ok e KE) as [KN EN].
  pose proof (ecmult_ok2 (gej_set_ge g) _ s P (gej_set_ge_ok _ _ _ RP) KN K) as M.
  assert (EM : padd (pmul (sv (sc_negate e)) P) (pmul (sv s) G) = padd (pmul (be_val s32) G) (pneg (pmul (bip340_challenge r (xcoord P) m) P))).
  { rewrite EN, VE, VS. set (ee := bip340_challenge _ _ _). clearbody ee. set (ss := be_val s32). clearbody ss. clear -OC.
    rewrite (pmul_mod _ P OC), (pmul_neg ee P OC). apply padd_comm; auto with curve. }
  rewrite EM in M. clear EM.
  set (R := padd _ _) in *. apply ge_set_gej_var_ok in M as (M & MX & MY). set (gr := ge_set_gej_var _) in *. clearbody gr R.
  unfold ge_is_infinity. pose proof (ge_rep_ginf _ _ _ M) as GI. destruct (ginf gr).
  { right. split; [|reflexivity]. intros (_ & _ & NR & _). apply NR. now apply GI. }
  destruct R as [|x y]; [exfalso; assert (false = true) by (now apply GI); discriminate|].
  destruct (ge_rep_zv _ _ _ M) as [_ EY]. destruct (ge_rep1_aff _ _ _ M) as (_ & FX & _). pose proof (ge_rep_oc _ _ _ M) as OCR.
  rewrite fe_normalize_var_eq by (eapply mag_weaken; [eassumption|lia]). rewrite fe_is_odd_spec, EY by (apply fe_normalize_norm; eapply mag_weaken; [eassumption|lia]).
  cbn [xcoord ycoord].
  assert (EQ : fe_equal rx (gx gr) = true <-> x = r).
  { rewrite (fe_equal_spec 1) by (assumption || lia || now apply norm_mag). rewrite FX. split.
    - intros H. unfold r. rewrite <- V, H, zv_toF. symmetry. apply Z.mod_small. apply OCR.
    - intros ->. unfold r. rewrite <- V. now rewrite toF_zv. }
  destruct (Z.odd y) eqn:OY; cbn [negb andb].
  { right. split; [|reflexivity]. intros (_ & _ & _ & F & _). discriminate. }
  destruct (fe_equal rx (gx gr)).
  - left. split; [|reflexivity]. split; [exact C|]. split; [exact CS|]. split; [discriminate|]. split; [reflexivity|]. now apply EQ.
  - right. split; [|reflexivity]. intros (_ & _ & _ & _ & F). apply EQ in F. discriminate.
Qed.

(** ** The nonce function *)
Lemma xor_comm a : forall b, xor_bytes a b = xor_bytes b a.
Proof. unfold xor_bytes. induction a as [|x a IH]; intros [|y b]; cbn [combine map fst snd]; [reflexivity..|]. now rewrite IH, Z.lxor_comm. Qed.
Lemma xor_byte_list a : forall b, byte_list a -> byte_list b -> byte_list (xor_bytes a b).
Proof.
  unfold xor_bytes. induction a as [|x a IH]; intros [|y b] HA HB; cbn [combine map fst snd]; try constructor.
  - apply lxor_byte; [inversion HA|inversion HB]; assumption.
  - apply IH; [inversion HA|inversion HB]; assumption.
Qed.
Lemma xor_length a b : length a = length b -> length (xor_bytes a b) = length a.
Proof. intros L. unfold xor_bytes. rewrite map_length, combine_length. lia. Qed.
Lemma nonce_bip340_ok nonce32 m key pk algo data : bytes_n 32 key -> bytes_n 32 pk -> byte_list m -> Z.of_nat (length m) < 2 ^ 61 - 128 -> opt_bytes 32 data ->
  byte_list algo -> Z.of_nat (length algo) < 2 ^ 61 ->
  nonce_function_bip340 nonce32 m key pk (Some algo) data =
  (1, tagged_hash algo (xor_bytes key (tagged_hash (ascii_bytes "BIP0340/aux"%string) (match data with Some a => a | None => repeat 0 32 end)) ++ pk ++ m)).
Proof.
  intros [BK LK] [BP LP] BM LM HD BA LA. unfold nonce_function_bip340. cbv zeta. f_equal.
  assert (EK : match data with
      | Some d => xor_bytes (sha256_finalize (sha256_write nonce_function_bip340_sha256_tagged_aux (firstn 32 d))) key
      | None => xor_bytes key ZERO_MASK end = xor_bytes key (tagged_hash (ascii_bytes "BIP0340/aux"%string) (match data with Some a => a | None => repeat 0 32 end))).
  { destruct data as [d|].
    - destruct (HD d eq_refl) as [BD LD]. rewrite firstn_all2 by lia. rewrite (tagged_1 _ (ascii_bytes "BIP0340/aux"%string)); [apply xor_comm| |exact BD|rewrite LD; reflexivity].
      exact (mid_check_at _ _ mid_aux).
    - now rewrite zero_mask. }
  rewrite EK. set (mk := xor_bytes _ _). assert (BMK : byte_list mk) by (apply xor_byte_list; [exact BK|apply tagged_bytes]).
  assert (LMK : length mk = 32%nat) by (unfold mk; rewrite xor_length; [exact LK|rewrite LK; symmetry; apply tagged_bytes]).
  apply tagged_3; [|exact BMK|exact BP|exact BM|rewrite !app_length, LMK, LP; lia].
  destruct (_ && _) eqn:E; [|now apply tagged_at].
  apply andb_true_iff in E as [E1 E2]. apply Z.eqb_eq in E1. apply memcmp_eq in E2; [|lia]. subst algo. exact (mid_check_at _ _ mid_nonce).
Qed.

(** ** Signing *)
Definition msg_ok (msg : option (list Z)) (mlen : Z) : bool := (match msg with Some _ => true | None => false end) || (mlen =? 0).
Definition the_hnonce (nf : option nonce_function_hardened) : nonce_function_hardened := match nf with None => nonce_function_bip340 | Some f => f end.
Definition sign_nonce (nf : option nonce_function_hardened) (m : list Z) (d : Z) (nd : option (list Z)) : Z * list Z :=
  the_hnonce nf (repeat 0 32) m (be_bytes 32 (even_sec d)) (be_bytes 32 (xcoord (pmul d G))) (Some (ascii_bytes "BIP0340/nonce"%string)) nd.
Lemma sign_ok ctx init msg mlen kp d nf nd : usable_context ctx -> msg_ok msg mlen = true -> keypair_holds kp d ->
  let m := msg_bytes msg mlen in byte_list m -> Z.of_nat (length m) < 2 ^ 61 - 128 ->
  forall nret nonce, sign_nonce nf m d nd = (nret, nonce) -> bytes_n 32 nonce ->
  schnorrsig_sign_internal ctx (Some init) msg mlen (Some kp) nf nd =
    match (if nret =? 0 then None else bip340_sign_with d m (be_val nonce mod n)) with
    | Some sig => mkres 1 0 (Some sig)
    | None => mkres 0 0 (Some (repeat 0 64))
    end.
Proof.
  intros HC HMP HK m HM LM nret nonce EN BN. destruct (usable_ctx _ HC) as [GC BU]. unfold schnorrsig_sign_internal. rewrite BU. cbn [negb].
  fold (msg_ok msg mlen). rewrite HMP. cbn [negb]. fold m.
  assert (Rd : 1 <= d < n) by apply HK. destruct (keypair_load_ok _ _ HK) as (sk & pk & -> & K & ES & RG & N1 & N2).
  destruct (even_sec_load sk pk d K ES Rd RG N2) as [K' ES'].
  assert (EO : (snd (extrakeys_ge_even_y pk) =? 1) = fe_is_odd (gy pk)) by (unfold extrakeys_ge_even_y; destruct (fe_is_odd _); reflexivity).
  rewrite EO in *. clear EO. cbv zeta in K', ES'. set (sk' := if fe_is_odd (gy pk) then _ else _) in *. clearbody sk'.
  assert (EP : fe_get_b32 (gx pk) = be_bytes 32 (xcoord (pmul d G))).
  { rewrite fe_get_b32_ok by exact N1. destruct (pmul d G) as [|x y] eqn:E; [destruct (pmul_G_nInf d Rd E)|]. now rewrite (fval_of_rep _ _ _ RG N1). }
  rewrite EP, sc_get_b32_ok, ES' by apply K'. cbv zeta.
  change (match nf with Some f => f | None => nonce_function_bip340 end) with (the_hnonce nf).
  change bip340_algo with (ascii_bytes "BIP0340/nonce"%string). change (zeros 32) with (repeat 0 32). fold (sign_nonce nf m d nd). rewrite EN.
  destruct (sc_set_b32_case nonce BN) as (KN & VN & _). set (k0 := fst (sc_set_b32 nonce)) in *. clearbody k0. cbn [andb].
  rewrite sc_is_zero_spec, VN by apply KN. set (kz := be_val nonce mod n) in *.
  set (ret := negb (nret =? 0) && negb (kz =? 0)).
  rewrite sc_cmov_b by (try assumption; apply sc_one_ok).
  set (k1 := if negb ret then sc_one else k0).
  assert (KK : sc_ok k1 /\ sv k1 = (if ret then kz else 1)) by (unfold k1; destruct ret; cbn [negb]; [auto|exact sc_one_ok]).
  destruct KK as [KK VK]. clearbody k1.
  assert (R1 : 1 <= sv k1 < n).
  { rewrite VK. unfold ret. pose proof (Z.mod_pos_bound (be_val nonce) n ltac:(reflexivity)) as B. fold kz in B.
    destruct (Z.eqb_spec kz 0), (nret =? 0); cbn [negb andb]; try lia; split; try lia; reflexivity. }
  pose proof (ecmult_gen_ok _ k1 GC KK) as M. apply ge_set_gej_ok in M as (M & MX & MY).
  set (gr := ge_set_gej _) in *. clearbody gr. 
  destruct (pmul (sv k1) G) as [|x y] eqn:ER; [destruct (pmul_G_nInf _ R1 ER)|]. destruct (ge_rep_zv _ _ _ M) as [EX EY].
  rewrite !fe_normalize_var_eq by (eapply mag_weaken; [eassumption|lia]). rewrite fe_get_b32_ok, EX, fe_is_odd_spec, EY by (apply fe_normalize_norm; eapply mag_weaken; [eassumption|lia]).
  set (k2 := if Z.odd y then sc_negate k1 else k1).
  assert (K2 : sc_ok k2 /\ sv k2 = if Z.odd y then n - sv k1 else sv k1).
  { unfold k2. destruct (Z.odd y); [|auto]. destruct (sc_negate_ok k1 KK) as [A B]. split; [exact A|]. rewrite B. rewrite Z.mod_opp_l_nz; rewrite ?(Z.mod_small (sv k1)) by lia; lia. }
  destruct K2 as [K2 V2]. clearbody k2. destruct (challenge_ok x (xcoord (pmul d G)) m HM LM) as [KE VE]. set (e := schnorrsig_challenge _ _ _) in *. clearbody e.
  pose proof (sc_mul_ok e sk' (proj1 KE) (proj1 K')) as KM. pose proof (sc_mul_sv e sk' (proj1 KE) (proj1 K')) as VM.
  pose proof (sc_add_ok _ _ KM K2) as KA. pose proof (sc_add_sv _ _ KM K2) as VA. set (sg := sc_add _ _) in *. clearbody sg.
  rewrite sc_get_b32_ok by apply KA.
  assert (E0 : match (if nret =? 0 then None else bip340_sign_with d m kz) with Some sig => mkres 1 0 (Some sig) | None => mkres 0 0 (Some (repeat 0 64)) end =
    if ret then match bip340_sign_with d m kz with Some sig => mkres 1 0 (Some sig) | None => mkres 0 0 (Some (repeat 0 64)) end else mkres 0 0 (Some (repeat 0 64))).
  { unfold ret, bip340_sign_with. destruct (nret =? 0); [reflexivity|]. destruct (kz =? 0); reflexivity. }
  rewrite E0. clear E0. assert (RN : ret = true -> kz <> 0) by (unfold ret; rewrite andb_true_iff; intros [_ F]; destruct (Z.eqb_spec kz 0); [discriminate|assumption]).
  destruct ret; cbn [negb b2z].
  - unfold bip340_sign_with. destruct (Z.eqb_spec kz 0) as [F|_]; [now destruct (RN eq_refl)|]. rewrite <- VK, ER. cbv zeta. cbn [xcoord ycoord]. fold (even_sec d).
    rewrite memczero_false; [|apply byte_list_app; split; apply be_bytes_byte_list].
    assert (EF : sv sg = ((if Z.odd y then n - sv k1 else sv k1) + bip340_challenge x (xcoord (pmul d G)) m * even_sec d) mod n).
    { rewrite VA, VM, V2, VE, ES', Z.add_comm. rewrite Zplus_mod_idemp_r. reflexivity. }
    rewrite EF. reflexivity.
  - rewrite memczero_true, app_length, !be_bytes_length. reflexivity.
Qed.
(** Signing is sound (BIP 340). *)
Lemma sign_with_valid d m k sig : 1 <= d < n -> 0 <= k < n -> bip340_sign_with d m k = Some sig ->
  bip340_valid (even_y (pmul d G)) m sig /\ bytes_n 64 sig.
Proof.
  intros Rd Rk. unfold bip340_sign_with. cbv zeta. destruct (Z.eqb_spec k 0) as [|NZ]; [discriminate|]. fold (even_sec d) (even_sec k).
  assert (R1 : 1 <= k < n) by lia. set (e := bip340_challenge _ _ _). set (s := (even_sec k + e * even_sec d) mod n).
  intros E. assert (E' : sig = be_bytes 32 (xcoord (pmul k G)) ++ be_bytes 32 s) by congruence. clear E. subst sig.
  assert (OC : on_curve (pmul k G)) by auto with curve. pose proof (pmul_G_nInf k R1) as NI.
  assert (RX : 0 <= xcoord (pmul k G) < p) by (destruct (pmul k G); [congruence|apply OC]).
  assert (RS : 0 <= s < n) by (apply Z.mod_pos_bound; reflexivity).
  split; [|split; [apply byte_list_app; split; apply be_bytes_byte_list|rewrite app_length, !be_bytes_length; reflexivity]].
  unfold bip340_valid. rewrite fn_app_exact, sk_app_exact by apply be_bytes_length. rewrite coord_bytes by exact RX.
  destruct (key_bytes s RS) as [_ ->]. cbv zeta. split; [lia|]. split; [lia|]. rewrite even_y_x. fold e.
  assert (ER : padd (pmul s G) (pneg (pmul e (even_y (pmul d G)))) = even_y (pmul k G)).
  { rewrite <- !even_sec_pub. rewrite K_mul, <- (pmul_neg _ G on_curve_G), K_add. apply NField.K_eq. unfold s. push_toN. ring. }
  rewrite ER. split; [now apply even_y_ninf|]. split; [now apply even_y_odd|apply even_y_x].
Qed.

(** Every key pair object, valid or not. *)
Lemma fe_get_len a : length (fe_get_b32 a) = 32%nat. Proof. reflexivity. Qed.
Lemma sc_get_len a : length (sc_get_b32 a) = 32%nat. Proof. reflexivity. Qed.
Lemma sign_closed ctx init msg mlen kp nf nd : g_built (c_gen ctx) = true -> msg_ok msg mlen = true -> bytes_n 96 kp ->
  let r := schnorrsig_sign_internal ctx (Some init) msg mlen (Some kp) nf nd in
  (r_ret r = 1 /\ r_ill r = 0 /\ 1 <= be_val (firstn 32 kp) < n) \/
  (r_ret r = 0 /\ r_out r = Some (repeat 0 64) /\ (r_ill r = 0 \/ r_ill r = 1)).
Proof.
  intros BU HMP HK r. unfold r, schnorrsig_sign_internal. rewrite BU. cbn [negb].
  fold (msg_ok msg mlen). rewrite HMP. cbn [negb].
  assert (LD : fst (fst (keypair_load kp)) = true -> 1 <= be_val (firstn 32 kp) < n).
  { unfold keypair_load, keypair_seckey_load. destruct HK as [B L]. assert (B1 : bytes_n 32 (firstn 32 kp)) by (split; [now apply byte_list_firstn|rewrite firstn_length; lia]).
    destruct (pubkey_load _) as [[] g]; [|discriminate]. destruct (seckey_cases _ B1) as [_ C]. destruct (sc_set_b32_seckey _) as [s rr]. cbn [fst snd] in *.
    destruct C as [(V & -> & _)|(_ & ->)]; [intros _; apply V|discriminate]. }
  destruct (keypair_load kp) as [[ok sk] pk]. cbn [fst snd] in *. cbv zeta. destruct (_ (zeros 32) _ _ _ _ _) as [nret nonce].
  set (ret := _ && _ && _). assert (RO : ret = true -> ok = true) by (unfold ret; rewrite !andb_true_iff; tauto). clearbody ret.
  destruct ret; cbn [negb b2z r_ret r_ill r_out].
  - left. rewrite (RO eq_refl). auto.
  - right. split; [reflexivity|]. split; [|destruct ok; auto]. rewrite memczero_true, app_length, fe_get_len, sc_get_len. reflexivity.
Qed.
Lemma sign_invalid ctx init msg mlen kp nf nd : g_built (c_gen ctx) = true -> msg_ok msg mlen = true -> bytes_n 96 kp ->
  ~ 1 <= be_val (firstn 32 kp) < n \/ firstn 32 (skipn 32 kp) = repeat 0 32 ->
  schnorrsig_sign_internal ctx (Some init) msg mlen (Some kp) nf nd = mkres 0 1 (Some (repeat 0 64)).
Proof.
  intros BU HMP HK HI. unfold schnorrsig_sign_internal. rewrite BU. cbn [negb].
  fold (msg_ok msg mlen). rewrite HMP. cbn [negb].
  assert (LD : keypair_load kp = (false, sc_one, ge_const_g)).
  { unfold keypair_load, keypair_seckey_load. destruct HK as [B L]. assert (B1 : bytes_n 32 (firstn 32 kp)) by (split; [now apply byte_list_firstn|rewrite firstn_length; lia]).
    destruct HI as [HI|HI].
    - destruct (pubkey_load _) as [[] g]; [|reflexivity]. destruct (seckey_cases _ B1) as [_ C]. destruct (sc_set_b32_seckey _) as [s rr]. cbn [fst snd] in *.
      destruct C as [(V & -> & _)|(_ & ->)]; [now destruct (HI (proj2 V))|reflexivity].
    - assert (E : fst (pubkey_load (skipn 32 kp)) = false).
      { rewrite <- (firstn_skipn 32 (skipn 32 kp)), HI. unfold pubkey_load. cbv zeta. cbn [fst]. apply negb_false_iff. unfold ge_from_bytes. reflexivity. }
      destruct (pubkey_load _) as [ok g]. cbn [fst] in E. now subst ok. }
  rewrite LD. cbv zeta. destruct (_ (zeros 32) _ _ _ _ _) as [nret nonce]. cbn [andb negb b2z].
  rewrite memczero_true, app_length, fe_get_len, sc_get_len. reflexivity.
Qed.
