(** Verification and recovery are exact for every window size. *)
Require Import ZArith List Bool Lia Field String.
From Verif Require Import NumTheory Spec SpecApi SpecHash SpecRec SpecBip340 Primes ZmField Curve NField Word Bytes.
From Verif Require Import FieldModel FieldMul FieldProof FieldProof2 FieldBytes FieldOps.
From Verif Require Import ScalarModel ScalarProof ScalarProof2 ScalarMul.
From Verif Require Import GroupModel GroupProof GroupProof2 GroupProof3 GroupProof4 GroupProof5.
From Verif Require Import HashModel HashProof GenModel GenProof EcmultModel EcmultProof EcmultProof2 EcdsaModel ApiModel ApiVocab ApiProof ApiProof2 ApiProof3 EcdsaProof EcdsaProof2 KeyProps KeyProps2 EcdhProof.
From Verif Require Import ExtrakeysModel ExtrakeysProof SchnorrModel SchnorrProof RecoveryModel WindowApiModel.
Import ListNotations.
Local Open Scope Z_scope.
Local Opaque p n SHA256.
Local Notation length := List.length.

Section By.
  Variable mul : gej -> sc -> option sc -> gej.
  Hypothesis mul_ok : forall a na ng P, gej_rep f1 a P -> sc_ok na -> sc_ok ng -> gej_rep f1 (mul a na (Some ng)) (padd (pmul (sv na) P) (pmul (sv ng) G)).
Lemma by_verify_point sn a q msg Q m w : sc_ok sn -> sv sn = w -> sc_ok a -> sc_ok msg -> ge_rep f1 q Q -> toN (sv msg) = toN m ->
  gej_rep f1 (mul (gej_set_ge q) (sc_mul sn a) (Some (sc_mul sn msg))) (padd (pmul (m * w) G) (pmul (sv a * w) Q)).
Proof.
  intros KI EI KA KM RQ EM. pose proof (ge_rep_oc _ _ _ RQ) as OC.
  pose proof (sc_mul_ok sn msg (proj1 KI) (proj1 KM)) as KU1. pose proof (sc_mul_sv sn msg (proj1 KI) (proj1 KM)) as EU1.
  pose proof (sc_mul_ok sn a (proj1 KI) (proj1 KA)) as KU2. pose proof (sc_mul_sv sn a (proj1 KI) (proj1 KA)) as EU2.
  pose proof (mul_ok (gej_set_ge q) (sc_mul sn a) (sc_mul sn msg) Q (gej_set_ge_ok _ _ _ RQ) KU2 KU1) as M.
  rewrite EU1, EU2, !pmul_mod, EI in M by (exact on_curve_G || exact OC).
  assert (ER : padd (pmul (w * sv a) Q) (pmul (w * sv msg) G) = padd (pmul (m * w) G) (pmul (sv a * w) Q)).
  { rewrite padd_comm by auto with curve. f_equal; [|f_equal; ring]. apply NField.K_eq. push_toN. rewrite EM. ring. }
  rewrite ER in M. exact M.
Qed.
Lemma by_sig_verify_unfold a b q msg : ecdsa_sig_verify_by mul a b q msg =
  if sc_is_zero a || sc_is_zero b then false
  else if gej_is_infinity (mul (gej_set_ge q) (sc_mul (sc_inverse b) a) (Some (sc_mul (sc_inverse b) msg))) then false
  else x_check (sc_get_b32 a) (mul (gej_set_ge q) (sc_mul (sc_inverse b) a) (Some (sc_mul (sc_inverse b) msg))).
Proof. unfold ecdsa_sig_verify_by, x_check, sc_inverse_var. cbv zeta. reflexivity. Qed.
Lemma by_sig_verify_ok a b q msg Q m : sc_ok a -> sc_ok b -> sc_ok msg -> ge_rep f1 q Q -> toN (sv msg) = toN m ->
  (ecdsa_sig_verify_by mul a b q msg = true <-> ecdsa_valid Q m (sv a) (sv b)).
Proof.
  intros KA KB KM RQ EM. pose proof (sc_ok_range a KA) as RA. pose proof (sc_ok_range b KB) as RB.
  rewrite by_sig_verify_unfold. unfold ecdsa_valid. rewrite !sc_is_zero_spec by (apply KA || apply KB).
  destruct (Z.eqb_spec (sv a) 0) as [A0|A0]; cbn [orb]; [split; [discriminate|lia]|].
  destruct (Z.eqb_spec (sv b) 0) as [B0|B0]; [split; [discriminate|lia]|].
  destruct (sc_inverse_ok b) as [KI EI].
  pose proof (by_verify_point _ a q msg Q m _ KI EI KA KM RQ EM) as M. cbv zeta.
  set (pr := mul _ _ _) in *. clearbody pr. set (R := padd _ _) in *. clearbody R.
  pose proof (gej_rep_jinf _ _ _ M) as JI. unfold gej_is_infinity.
  destruct (jinf pr) eqn:EJ.
  { split; [discriminate|]. intros (_ & _ & NI & _). exfalso. apply NI. now apply JI. }
  assert (NI : R <> Inf) by (intros E; apply JI in E; discriminate).
  rewrite sc_get_b32_ok by apply KA. rewrite (x_check_ok _ _ _ RA M NI).
  split; [intros E; repeat split; (lia || assumption)|tauto].
Qed.
Lemma by_ecdsa_verify_ok sig r s msg pk Q : sig_holds sig r s -> bytes_n 32 msg -> pubkey_holds pk Q ->
  (ecdsa_verify_by mul (Some sig) (Some msg) (Some pk) = mkres 1 0 tt /\ s <= n / 2 /\ ecdsa_valid Q (be_val msg) r s) \/
  (ecdsa_verify_by mul (Some sig) (Some msg) (Some pk) = mkres 0 0 tt /\ ~ (s <= n / 2 /\ ecdsa_valid Q (be_val msg) r s)).
Proof.
  intros HS HM HP. destruct (sig_load_ok _ _ _ HS) as (K1 & K2 & E1 & E2). destruct (pubkey_load_ok _ _ HP) as (L & R & _).
  destruct (sc_set_b32_case msg HM) as (KM & EM & _).
  unfold ecdsa_verify_by. destruct (signature_load sig) as [a b]. destruct (pubkey_load pk) as [ok q]. cbn [fst snd] in *. cbv zeta. subst ok.
  rewrite sc_is_high_spec, E2 by apply K2. destruct (Z.ltb_spec (n / 2) s) as [LT|LT].
  { right. split; [reflexivity|]. lia. }
  pose proof (by_sig_verify_ok a b q _ Q (be_val msg) K1 K2 KM R ltac:(rewrite EM; push_toN; reflexivity)) as V. rewrite E1, E2 in V.
  destruct (ecdsa_sig_verify_by mul _ _ _ _).
  - left. split; [reflexivity|]. split; [exact LT|]. now apply V.
  - right. split; [reflexivity|]. intros [_ V']. apply V in V'. discriminate.
Qed.
Lemma by_schnorr_ok sig msg mlen pk P : let m := msg_bytes msg mlen in
  bytes_n 64 sig -> (msg <> None \/ mlen = 0) -> byte_list m -> Z.of_nat (length m) < 2 ^ 61 - 128 -> pubkey_holds pk P ->
  (bip340_valid P m sig /\ schnorrsig_verify_by mul (Some sig) msg mlen (Some pk) = mkres 1 0 tt) \/
  (~ bip340_valid P m sig /\ schnorrsig_verify_by mul (Some sig) msg mlen (Some pk) = mkres 0 0 tt).
Proof.
  intros m [HB HL] HMP HM LM HP.
  assert (B1 : bytes_n 32 (firstn 32 sig)) by (split; [now apply byte_list_firstn|rewrite firstn_length; lia]).
  assert (B2 : bytes_n 32 (skipn 32 sig)) by (split; [now apply byte_list_skipn|rewrite skipn_length; lia]).
  unfold schnorrsig_verify_by, bip340_valid. fold m.
  replace (negb _) with false; [|symmetry; apply negb_false_iff; destruct msg; [reflexivity|destruct HMP as [H| ->]; [now destruct H|reflexivity]]].
  rewrite (firstn_all2 (skipn 32 sig)) by (destruct B2; lia).
  assert (ER : firstn 32 sig = be_bytes 32 (be_val (firstn 32 sig))) by (apply be_bytes_unique; apply B1 || reflexivity).
  set (r32 := firstn 32 sig) in *. set (s32 := skipn 32 sig) in *. set (r := be_val r32) in *. cbv zeta.
  destruct (set_limit_case r32 B1) as [(C & E & N & V)|(C & E)]; destruct (fe_set_b32_limit r32) as [ok rx]; cbn [fst snd] in *; subst ok; cbn [negb].
  2: { right. split; [unfold r; lia|reflexivity]. }
  destruct (sc_set_b32_case s32 B2) as (K & _ & [(CS & E & VS)|(CS & E)]); destruct (sc_set_b32 s32) as [s ov]; cbn [fst snd] in *; subst ov.
  2: { right. split; [lia|reflexivity]. }
  destruct (pubkey_load_ok _ _ HP) as (LD & RP & NX & NY). destruct (pubkey_holds_oc _ _ HP) as (OC & NI). unfold xonly_pubkey_load.
  destruct (pubkey_load pk) as [ok g]. cbn [fst snd] in *. subst ok. cbn [negb].
  assert (EX : fe_get_b32 (gx g) = be_bytes 32 (xcoord P)) by (rewrite fe_get_b32_ok by exact NX; destruct P as [|x y]; [congruence|]; now rewrite (fval_of_rep _ _ _ RP NX)).
  rewrite EX, ER. clear EX. destruct (challenge_ok r (xcoord P) m HM LM) as [KE VE]. set (e := schnorrsig_challenge _ _ _) in *. clearbody e.
  destruct (sc_negate_ok e KE) as [KN EN].
  pose proof (mul_ok (gej_set_ge g) _ s P (gej_set_ge_ok _ _ _ RP) KN K) as M.
  assert (EM : padd (pmul (sv (sc_negate e)) P) (pmul (sv s) G) = padd (pmul (be_val s32) G) (pneg (pmul (bip340_challenge r (xcoord P) m) P))).
  { rewrite EN, VE, VS. set (ee := bip340_challenge _ _ _). clearbody ee. set (ss := be_val s32). clearbody ss. clear -OC.
    rewrite (pmul_mod _ P OC), (pmul_neg ee P OC). apply padd_comm; auto with curve. }
  rewrite EM in M. clear EM.
  set (R := padd _ _) in *. apply ge_set_gej_var_ok in M as (M & MX & MY). set (gr := ge_set_gej_var _) in *. clearbody gr R.
  unfold ge_is_infinity. pose proof (ge_rep_ginf _ _ _ M) as GI. destruct (ginf gr).
  { right. split; [|reflexivity]. intros (_ & _ & NR & _). apply NR. now apply GI. }
  destruct R as [|x y]; [exfalso; assert (false = true) by (now apply GI); discriminate|].
  destruct (ge_rep_zv _ _ _ M) as [_ EY]. destruct (ge_rep1_aff _ _ _ M) as (_ & FX & _). pose proof (ge_rep_oc _ _ _ M) as OCR.
  rewrite fe_normalize_var_eq by (eapply mag_weaken; [eassumption|lia]). rewrite fe_is_odd_spec, EY by (apply fe_normalize_norm; eapply mag_weaken; [eassumption|lia]).
  cbn [xcoord ycoord].
  assert (EQ : fe_equal rx (gx gr) = true <-> x = r).
  { rewrite (fe_equal_spec 1) by (assumption || lia || now apply norm_mag). rewrite FX. split.
    - intros H. unfold r. rewrite <- V, H, zv_toF. symmetry. apply Z.mod_small. apply OCR.
    - intros ->. unfold r. rewrite <- V. now rewrite toF_zv. }
  destruct (Z.odd y) eqn:OY; cbn [negb andb].
  { right. split; [|reflexivity]. intros (_ & _ & _ & F & _). discriminate. }
  destruct (fe_equal rx (gx gr)).
  - left. split; [|reflexivity]. split; [exact C|]. split; [exact CS|]. split; [discriminate|]. split; [reflexivity|]. now apply EQ.
  - right. split; [|reflexivity]. intros (_ & _ & _ & _ & F). apply EQ in F. discriminate.
Qed.
Lemma by_recover_point rn sgs msg g R m w s : sc_ok rn -> sv rn = w -> sc_ok sgs -> sv sgs = s -> sc_ok msg -> toN (sv msg) = toN m -> ge_rep f1 g R ->
  gej_rep f1 (mul (gej_set_ge g) (sc_mul rn sgs) (Some (sc_negate (sc_mul rn msg)))) (padd (pmul (w * s) R) (pmul (- (w * m)) G)).
Proof.
  intros KI EI KA EA KM EM RQ. pose proof (ge_rep_oc _ _ _ RQ) as OC.
  pose proof (sc_mul_ok rn msg (proj1 KI) (proj1 KM)) as KU1. pose proof (sc_mul_sv rn msg (proj1 KI) (proj1 KM)) as EU1.
  pose proof (sc_mul_ok rn sgs (proj1 KI) (proj1 KA)) as KU2. pose proof (sc_mul_sv rn sgs (proj1 KI) (proj1 KA)) as EU2.
  destruct (sc_negate_ok _ KU1) as [KN EN].
  pose proof (mul_ok (gej_set_ge g) _ _ R (gej_set_ge_ok _ _ _ RQ) KU2 KN) as M.
  rewrite EU2, pmul_mod, EN, EI, EA in M by exact OC.
  assert (ER : pmul ((- sv (sc_mul rn msg)) mod n) G = pmul (- (w * m)) G).
  { apply NField.K_eq. rewrite EU1. push_toN. rewrite EM, EI. reflexivity. }
  rewrite ER in M. exact M.
Qed.
Lemma by_sig_recover_ok a b msg v m : sc_ok a -> sc_ok b -> sc_ok msg -> toN (sv msg) = toN m -> 0 <= v <= 3 ->
  (exists Q g, ecdsa_sig_recover_by mul a b msg v = Some g /\ ge_rep f1 g Q /\ recovers (sv a) (sv b) v m Q) \/
  (ecdsa_sig_recover_by mul a b msg v = None /\ forall Q, ~ recovers (sv a) (sv b) v m Q).
Proof.
  intros KA KB KM EM HV. pose proof (sc_ok_range a KA) as RA. pose proof (sc_ok_range b KB) as RB.
  unfold ecdsa_sig_recover_by, recovers. rewrite !sc_is_zero_spec by (apply KA || apply KB).
  destruct (Z.eqb_spec (sv a) 0) as [A0|A0]; cbn [orb]; [right; split; [reflexivity|intros Q (? & _); lia]|].
  destruct (Z.eqb_spec (sv b) 0) as [B0|B0]; [right; split; [reflexivity|intros Q (_ & ? & _); lia]|]. cbv zeta.
  rewrite sc_get_b32_ok by apply KA. pose proof (recover_x (sv a) v RA HV) as RX. cbv zeta in RX.
  set (x := sv a + (if 2 <=? v then n else 0)) in *.
  destruct (if negb (Z.land v 2 =? 0) then _ else _) as [f|].
  2:{ right. split; [reflexivity|]. intros Q (_ & _ & x' & y & OC & -> & _). destruct OC as (OC & _). lia. }
  destruct RX as (RX & MF & VF). rewrite recid_land1.
  destruct (ge_set_xo_var_ok f (Z.odd v) MF) as (SQ & _ & _ & _ & ST). cbv zeta in SQ, ST. rewrite VF in SQ, ST.
  destruct (ge_set_xo_var f (Z.odd v)) as [ok g]. cbn [fst snd] in *. destruct ok.
  2:{ right. split; [reflexivity|]. intros Q (_ & _ & x' & y & OC & -> & _). pose proof (proj2 SQ (on_curve_square _ _ OC)). discriminate. }
  destruct (ST eq_refl) as (y & RG & OY).
  destruct (sc_inverse_ok a) as [KI EI]. unfold sc_inverse_var.
  pose proof (by_recover_point _ b msg g (Aff x y) m _ (sv b) KI EI KB eq_refl KM EM RG) as M.
  set (qj := mul _ _ _) in *. clearbody qj. set (Q := padd _ _) in M.
  pose proof (gej_rep_jinf _ _ _ M) as JI. unfold gej_is_infinity. destruct (jinf qj) eqn:EJ.
  - right. split; [reflexivity|]. intros Q' (_ & _ & x' & y' & OC & -> & OY' & EQ & NI). apply NI.
    assert (y' = y) as -> by (apply (same_x_parity x); [exact OC|exact (ge_rep_oc _ _ _ RG)|congruence]). rewrite EQ. fold Q. now apply JI.
  - left. exists Q, (ge_set_gej_var qj). split; [reflexivity|]. split; [now apply ge_set_gej_var_ok|].
    split; [lia|]. split; [lia|]. exists x, y. split; [exact (ge_rep_oc _ _ _ RG)|]. split; [reflexivity|]. split; [exact OY|]. split; [reflexivity|].
    intro E. apply JI in E. discriminate.
Qed.
Lemma by_recover_ok init sig r s v msg : recsig_holds sig r s v -> bytes_n 32 msg ->
  (exists Q pk, recovers r s v (be_val msg) Q /\ pubkey_holds pk Q /\ ecdsa_recover_by mul (Some init) (Some sig) (Some msg) = mkres 1 0 (Some pk)) \/
  ((forall Q, ~ recovers r s v (be_val msg) Q) /\ ecdsa_recover_by mul (Some init) (Some sig) (Some msg) = mkres 0 0 (Some (repeat 0 64))).
Proof.
  intros H HM. pose proof (recsig_load_ok _ _ _ _ H) as L. unfold ecdsa_recover_by. destruct (recoverable_signature_load sig) as [[a b] c].
  destruct L as (KA & KB & <- & <- & ->). destruct (sc_set_b32_case msg HM) as (KM & EM & _).
  destruct H as (_ & _ & HV & _).
  destruct (by_sig_recover_ok a b _ v (be_val msg) KA KB KM ltac:(rewrite EM; apply toN_mod) HV) as [(Q & g & E & RG & RC)|(E & RC)]; rewrite E.
  - left. exists Q, (pubkey_save g). split; [exact RC|]. split; [|reflexivity]. apply pubkey_save_ok; [exact RG|].
    destruct RC as (_ & _ & x & y & _ & _ & _ & _ & NI). exact NI.
  - right. split; [exact RC|reflexivity].
Qed.
End By.
