(** MuSig2: partial signatures. *)
Require Import ZArith List Bool Lia Field String.
From Verif Require Import NumTheory Spec SpecApi SpecHash SpecBip340 SpecMusig Primes ZmField Curve NField Word Bytes.
From Verif Require Import FieldModel FieldMul FieldProof FieldProof2 FieldBytes FieldOps.
From Verif Require Import ScalarModel ScalarProof ScalarProof2 ScalarMul.
From Verif Require Import GroupModel GroupProof GroupProof2 GroupProof3 GroupProof4 GroupProof5.
From Verif Require Import HashModel HashProof GenModel GenProof EcmultModel EcmultProof EcmultProof2 EcdsaModel ApiModel ApiVocab ApiProof ApiProof2 ApiProof3 EcdsaProof EcdsaProof2 KeyProps KeyProps2 EcdhProof.
From Verif Require Import ExtrakeysModel ExtrakeysProof SchnorrModel SchnorrProof EllswiftProof2 MusigModel MusigVocab MusigProof MusigProof2 MusigProof3.
Import ListNotations.
Local Open Scope Z_scope.
Local Opaque p n.
Local Notation length := List.length.
Local Opaque SHA256 be_bytes tagged_hash pmul.

Lemma sign_flag ci Ps c : cache_int ci Ps c -> fe_norm (gy (ci_pk ci)) ->
  negb (b2z (fe_is_odd (gy (ci_pk ci))) =? ci_parity_acc ci) = (sign_factor c =? -1) /\ (sign_factor c = 1 \/ sign_factor c = -1).
Proof.
  intros CI NY. rewrite (agg_odd_ok _ _ _ CI NY). destruct CI as (_ & _ & _ & _ & _ & _ & _ & EG & EP). rewrite EP. unfold sign_factor.
  destruct (Z.odd (ycoord (ac_Q c))), EG as [-> | ->]; cbn; auto.
Qed.
Lemma ge_same_iff a b P Q : ge_rep f1 a P -> ge_rep f1 b Q -> P <> Inf -> Q <> Inf -> fe_norm (gx a) -> fe_norm (gy a) -> fe_norm (gx b) -> fe_norm (gy b) ->
  (fe_equal (gx a) (gx b) && fe_equal (gy a) (gy b) = true <-> P = Q).
Proof.
  intros RA RB NP NQ NX NY NX2 NY2. rewrite andb_true_iff, !(fe_equal_spec 1) by (lia || now apply norm_mag).
  destruct P as [|x1 y1]; [congruence|]. destruct Q as [|x2 y2]; [congruence|].
  destruct (ge_rep1_aff _ _ _ RA) as (_ & -> & ->). destruct (ge_rep1_aff _ _ _ RB) as (_ & -> & ->).
  destruct (ge_rep_oc _ _ _ RA) as (A1 & A2 & _). destruct (ge_rep_oc _ _ _ RB) as (B1 & B2 & _).
  rewrite !toF_x_iff by assumption. split; [intros [-> ->]; reflexivity|]. intros E. injection E as -> ->. auto.
Qed.
Lemma parity_flag (b : bool) : (if b then 1 else 0) =? 0 = negb b. Proof. now destruct b. Qed.
Lemma neg_sc (b : bool) s v : sc_ok s -> sv s = v -> sc_ok (if negb b then s else sc_negate s) /\ toN (sv (if negb b then s else sc_negate s)) = toN (neg_if b v).
Proof.
  intros K <-. destruct b; cbn [negb neg_if]; [|auto]. destruct (sc_negate_ok _ K) as (KN & ->). split; [exact KN|]. now push_toN.
Qed.
Lemma toN_neg_if b v : toN (neg_if b v) = nmul (toN (if b then -1 else 1)) (toN v).
Proof. destruct b; cbn [neg_if]; rewrite <- toN_mul; f_equal; ring. Qed.
Theorem partial_sign_ok ps0 sn k1 k2 P kp d cache Ps c obj s : secnonce_holds sn k1 k2 P -> keypair_holds kp d -> cache_holds cache Ps c -> session_holds obj s ->
  (P = pmul d G /\ exists ps, musig_partial_sign (Some ps0) (Some sn) (Some kp) (Some cache) (Some obj) = mkres 1 0 (Some ps, Some (repeat 0 132)) /\
     psig_holds ps (partial_sig Ps c s k1 k2 d)) \/
  (P <> pmul d G /\ musig_partial_sign (Some ps0) (Some sn) (Some kp) (Some cache) (Some obj) = mkres 0 1 (Some ps0, Some (repeat 0 132))).
Proof.
  intros HN HK HC HS. destruct (secnonce_load_ok _ _ _ _ HN) as (s1 & s2 & g & EN & K1 & E1 & K2 & E2 & RG & NGX & NGY). destruct HN as (_ & _ & (_ & NP) & _).
  destruct (keypair_load_ok _ _ HK) as (sk & pk & EK & KD & ED & RP & NPX & NPY). assert (NI : pmul d G <> Inf) by (apply pmul_G_nInf; destruct HK; lia).
  destruct (cache_load_ok _ _ _ HC) as (ci & EC & CI & NX & NY). destruct (session_load_ok _ _ HS) as (si & ES & (KR & SP & _ & KB & EB & KE & EE & _ & _)).
  unfold musig_partial_sign. rewrite EN. cbv zeta. rewrite EK. cbn [negb]. pose proof (ge_same_iff _ _ _ _ RG RP NP NI NGX NGY NPX NPY) as SAME.
  destruct (fe_equal (gx g) (gx pk) && fe_equal (gy g) (gy pk)); cbn [negb].
  2: { right. split; [|reflexivity]. intros E. apply SAME in E. discriminate. }
  left. assert (P = pmul d G) as -> by now apply SAME. split; [reflexivity|]. clear SAME EN EK. rewrite EC, ES. destruct (sign_flag _ _ _ CI NY) as (-> & SF). rewrite SP, !parity_flag.
  destruct CI as (_ & _ & KP & R2 & EH & _ & _ & _ & _). unfold musig_keyaggcoef. rewrite EH. destruct (coef_ok Ps g _ _ KP RG NI R2) as (KM & EM). cbv zeta in KM, EM. clear HK HC HS EC ES.
  set (mu := musig_keyaggcoef_internal _ _ _) in *. clearbody mu. set (par := Z.odd (ycoord (ss_R s))) in *.
  destruct (neg_sc par _ _ K1 E1) as (KA & EA). destruct (neg_sc par _ _ K2 E2) as (KC & EC). set (a := if negb par then s1 else _) in *. set (cc := if negb par then s2 else _) in *. clearbody a cc.
  set (sk' := if sign_factor c =? -1 then sc_negate sk else sk).
  assert (SK : sc_ok sk' /\ toN (sv sk') = toN (sign_factor c * d)).
  { unfold sk'. destruct SF as [-> | ->]; cbn [Z.eqb Pos.eqb]; [change (1 =? -1) with false|change (-1 =? -1) with true]; cbv iota; [rewrite ED; split; [exact KD|f_equal; ring]|].
    destruct (sc_negate_ok _ KD) as (KN & ->). split; [exact KN|]. rewrite ED, toN_mod. apply (f_equal toN). ring. }
  destruct SK as (KSK & ESK). clearbody sk'.
  pose proof (sc_mul_ok _ _ (proj1 KSK) (proj1 KM)) as KX. pose proof (sc_mul_sv _ _ (proj1 KSK) (proj1 KM)) as VX. set (x := sc_mul sk' mu) in *. clearbody x.
  pose proof (sc_mul_ok _ _ (proj1 KE) (proj1 KX)) as KY. pose proof (sc_mul_sv _ _ (proj1 KE) (proj1 KX)) as VY. set (y := sc_mul _ x) in *. clearbody y.
  pose proof (sc_mul_ok _ _ (proj1 KB) (proj1 KC)) as KZ. pose proof (sc_mul_sv _ _ (proj1 KB) (proj1 KC)) as VZ. set (z := sc_mul _ cc) in *. clearbody z.
  eexists. split; [reflexivity|]. apply psig_save_ok; [apply sc_add_ok; [exact KY|now apply sc_add_ok]|]. rewrite sc_add_sv, sc_add_sv by (assumption || now apply sc_add_ok).
  unfold partial_sig. fold par. apply toN_small_inj; [apply Z.mod_pos_bound, n_pos|apply Z.mod_pos_bound, n_pos|].
  rewrite VY, VX, VZ. push_toN. rewrite EA, EC, ESK, EM, EB, EE, !toN_neg_if. push_toN. ring.
Qed.
Theorem partial_verify_ok ps v pn R1 R2 pk P cache Ps c obj s : psig_holds ps v -> pubnonce_holds pn R1 R2 -> pubkey_holds pk P -> cache_holds cache Ps c -> session_holds obj s ->
  (partial_sig_valid Ps c s R1 R2 P v /\ musig_partial_sig_verify (Some ps) (Some pn) (Some pk) (Some cache) (Some obj) = mkres 1 0 tt) \/
  (~ partial_sig_valid Ps c s R1 R2 P v /\ musig_partial_sig_verify (Some ps) (Some pn) (Some pk) (Some cache) (Some obj) = mkres 0 0 tt).
Proof.
  intros HV HN HP HC HS. destruct (psig_load_ok _ _ HV) as (sg & EV & KV & VV). destruct (pubnonce_load_ok _ _ _ HN) as (g1 & g2 & EN & G1 & G2).
  destruct (pubkey_load_ok _ _ HP) as (LD & RP & NPX & NPY). destruct (pubkey_holds_oc _ _ HP) as (OC & NI).
  destruct (cache_load_ok _ _ _ HC) as (ci & EC & CI & NX & NY). destruct (session_load_ok _ _ HS) as (si & ES & (KR & SP & _ & KB & EB & KE & EE & _ & _)).
  unfold musig_partial_sig_verify. rewrite ES, EN. cbv zeta. destruct (pubkey_load pk) as [ok g]. cbn [fst snd] in *. subst ok. cbn [negb]. rewrite EC, EV.
  destruct (sign_flag _ _ _ CI NY) as (-> & SF). rewrite SP, parity_flag.
  destruct CI as (_ & _ & KP & R2' & EH & _ & _ & _ & _). unfold musig_keyaggcoef. rewrite EH. destruct (coef_ok Ps g _ _ KP RP NI R2') as (KM & EM). cbv zeta in KM, EM. clear HV HN HP HC HS EC ES EV EN.
  set (mu := musig_keyaggcoef_internal _ _ _) in *. clearbody mu. unfold partial_sig_valid. cbv zeta. set (par := Z.odd (ycoord (ss_R s))) in *.
  pose proof (eff_ok _ _ (si_noncecoef si) _ _ G1 G2 KB) as RE. rewrite EB in RE. set (rj := effective_nonce _ _ _) in *. clearbody rj. set (Re := nonce_sum _ _ _) in *. clearbody Re.
  pose proof (sc_mul_ok _ _ (proj1 KE) (proj1 KM)) as KX. pose proof (sc_mul_sv _ _ (proj1 KE) (proj1 KM)) as VX. set (x := sc_mul _ mu) in *. clearbody x.
  set (x' := if sign_factor c =? -1 then sc_negate x else x).
  assert (SK : sc_ok x' /\ toN (sv x') = toN (ss_e s * key_coef Ps P * sign_factor c)).
  { unfold x'. destruct SF as [-> | ->]; [change (1 =? -1) with false|change (-1 =? -1) with true]; cbv iota; [split; [exact KX|]; rewrite VX, EM, EE; push_toN; ring|].
    destruct (sc_negate_ok _ KX) as (KN & ->). split; [exact KN|]. rewrite VX, EM, EE. push_toN. change (-1) with (- (1)). push_toN. ring. }
  destruct SK as (KX' & EX'). clearbody x'. destruct (sc_negate_ok _ KV) as (KNV & ENV). set (nv := sc_negate sg) in *. clearbody nv.
  pose proof (ecmult_ok2 _ _ nv P (gej_set_ge_ok _ _ _ RP) KX' KNV) as M. set (tmp := ecmult _ _ _) in *. clearbody tmp.
  assert (RJ : gej_rep f1 (if negb par then rj else gej_neg rj) (if par then pneg Re else Re)) by (destruct par; cbn [negb]; [now apply gej_neg_ok|exact RE]).
  set (rj' := if negb par then rj else _) in *. clearbody rj'. set (Re' := if par then pneg Re else Re) in *. clearbody Re'.
  pose proof (gej_add_var_ok f1 _ _ _ _ f1_nz M RJ) as A. set (sum := gej_add_var tmp rj') in *. clearbody sum. unfold gej_is_infinity. pose proof (gej_rep_jinf _ _ _ A) as JI.
  assert (EQ : padd (padd (pmul (sv x') P) (pmul (sv nv) G)) Re' = Inf <-> pmul v G = padd Re' (pmul (ss_e s * key_coef Ps P * sign_factor c) P)).
  { destruct (all_points_multiples_of_G P OC) as (kp & _ & ->). destruct (all_points_multiples_of_G Re' (gej_rep_oc _ _ _ RJ)) as (kr & _ & ->).
    rewrite !K_mul, !K_add, pmul_G_Inf, pmul_G_eq. set (w := ss_e s * _ * _) in *. clearbody w.
    assert (T : toN (sv x' * kp + sv nv + kr) = toN (w * kp - v + kr)) by (push_toN; rewrite EX', ENV, VV; push_toN; ring).
    apply toN_inj in T. rewrite T. split; intros H.
    - replace (kr + w * kp) with (v + (w * kp - v + kr)) by ring. rewrite <- Zplus_mod_idemp_r, H. f_equal. ring.
    - replace (w * kp - v + kr) with ((kr + w * kp) - v) by ring. rewrite <- Zminus_mod_idemp_l, <- H, Zminus_mod_idemp_l. now rewrite Z.sub_diag. }
  destruct (jinf sum); [left|right]; (split; [|reflexivity]).
  - apply EQ. now apply JI.
  - intros H. apply EQ in H. apply JI in H. discriminate.
Qed.
Lemma agg_loop_ok pss vs : Forall2 psig_holds pss vs -> forall s, sc_ok s ->
  exists r, partial_sig_agg_loop s pss = Some r /\ sc_ok r /\ sv r = (sv s + fold_right Z.add 0 vs) mod n.
Proof.
  induction 1 as [|ps v pss vs H _ IH]; intros s K; cbn [partial_sig_agg_loop fold_right].
  - exists s. split; [reflexivity|]. split; [exact K|]. rewrite Z.add_0_r. symmetry. apply Z.mod_small, sc_ok_range, K.
  - destruct (psig_load_ok _ _ H) as (t & -> & KT & ET). destruct (IH (sc_add s t) (sc_add_ok _ _ K KT)) as (r & E & KR & ER). exists r. split; [exact E|]. split; [exact KR|].
    rewrite ER, sc_add_sv, ET, Zplus_mod_idemp_l by assumption. f_equal. ring.
Qed.
Theorem partial_agg_ok sig0 obj s pss vs : session_holds obj s -> Forall2 psig_holds pss vs -> vs <> [] ->
  musig_partial_sig_agg (Some sig0) (Some obj) (Some pss) = mkres 1 0 (Some (aggregate_sig s vs)).
Proof.
  intros HS H NE. destruct (session_load_ok _ _ HS) as (si & ES & (_ & _ & SF & _ & _ & _ & _ & KS & VS)). unfold musig_partial_sig_agg. destruct pss as [|ps pss]; [inversion H; subst; congruence|].
  rewrite ES. destruct (agg_loop_ok _ _ H _ KS) as (r & -> & KR & ER). rewrite SF, (sc_save _ _ KR ER), VS. reflexivity.
Qed.
