(** ECDSA: signature objects, verification, signing. *)
Require Import ZArith List Bool Lia.
From Verif Require Import NumTheory Spec SpecApi Primes ZmField Curve NField Word Bytes.
From Verif Require Import FieldModel FieldMul FieldProof FieldProof2 FieldBytes FieldOps.
From Verif Require Import ScalarModel ScalarProof ScalarProof2 ScalarMul.
From Verif Require Import GroupModel GroupProof GroupProof2 GroupProof3 GroupProof4 GroupProof5.
From Verif Require Import HashModel GenModel GenProof EcmultModel EcmultProof EcmultProof2 EcdsaModel ApiModel ApiProof ApiProof2 ApiProof3.
Import ListNotations.
Local Open Scope Z_scope.

(** ** Signature objects *)
Lemma sc_bytes_ok a : sc_lim a -> sc_bytes a = le_bytes 32 (sv a).
Proof.
  intros (H0 & H1 & H2 & H3). apply le_bytes_unique.
  - unfold sc_bytes. rewrite !app_length, !le_bytes_length. reflexivity.
  - unfold sc_bytes. rewrite !byte_list_app. repeat split; apply le_bytes_byte_list.
  - unfold sc_bytes, sv, wd in *. rewrite !le_val_app, !le_bytes_length, !le_val_le_bytes. change (256 ^ Z.of_nat 8) with (2 ^ 64).
    rewrite !Z.mod_small by assumption. ring.
Qed.
Lemma sc_of_bytes_ok v : 0 <= v < n -> sc_ok (sc_of_bytes (le_bytes 32 v)) /\ sv (sc_of_bytes (le_bytes 32 v)) = v.
Proof.
  intros R. pose proof (fes_of_bytes_ok (le_bytes 32 v) (le_bytes_byte_list _ _) (le_bytes_length _ _)) as [(H0 & H1 & H2 & H3) V].
  assert (NN : n < 256 ^ Z.of_nat 32) by reflexivity.
  rewrite le_val_le_bytes, Z.mod_small in V by lia. unfold sval, fes_of_bytes in V. unfold fes_of_bytes in H0, H1, H2, H3. cbn [s0 s1 s2 s3] in *.
  assert (E : sv (sc_of_bytes (le_bytes 32 v)) = v) by exact V.
  split; [|exact E]. split; [exact (conj H0 (conj H1 (conj H2 H3)))|]. rewrite E. apply R.
Qed.
Lemma sig_load_ok sig r s : sig_holds sig r s ->
  sc_ok (fst (signature_load sig)) /\ sc_ok (snd (signature_load sig)) /\ sv (fst (signature_load sig)) = r /\ sv (snd (signature_load sig)) = s.
Proof.
  intros (R1 & R2 & ->). rewrite !le_enc_eq. unfold signature_load. cbn [fst snd].
  rewrite firstn_app, skipn_app, le_bytes_length, firstn_all2, skipn_all2 by (rewrite le_bytes_length; lia).
  change (32 - 32)%nat with 0%nat. rewrite firstn_O, skipn_O, app_nil_r. cbn [app].
  destruct (sc_of_bytes_ok r R1), (sc_of_bytes_ok s R2). auto.
Qed.
Lemma sig_save_ok a b : sc_ok a -> sc_ok b -> sig_holds (signature_save a b) (sv a) (sv b).
Proof.
  intros A B. pose proof (sc_ok_range a A). pose proof (sc_ok_range b B). split; [assumption|]. split; [assumption|].
  unfold signature_save. rewrite !le_enc_eq, !sc_bytes_ok by (apply A || apply B). reflexivity.
Qed.
Lemma sig_holds_inj sig sig' r s : sig_holds sig r s -> sig_holds sig' r s -> sig = sig'.
Proof. intros (_ & _ & ->) (_ & _ & ->). reflexivity. Qed.
Lemma sig_holds_fun sig r s r' s' : sig_holds sig r s -> sig_holds sig r' s' -> r = r' /\ s = s'.
Proof. intros H H'. destruct (sig_load_ok _ _ _ H) as (_ & _ & <- & <-). destruct (sig_load_ok _ _ _ H') as (_ & _ & <- & <-). auto. Qed.
Lemma sig_holds_bytes sig r s : sig_holds sig r s -> bytes_n 64 sig.
Proof.
  intros (_ & _ & ->). rewrite !le_enc_eq. split; [apply byte_list_app; split; apply le_bytes_byte_list|]. now rewrite app_length, !le_bytes_length.
Qed.

(** ** C09 *)
Lemma parse_compact_ok init inp : bytes_n 64 inp ->
  let r := be_val (firstn 32 inp) in let s := be_val (skipn 32 inp) in
  ((r < n /\ s < n) /\ exists sig, ecdsa_signature_parse_compact (Some init) (Some inp) = mkres 1 0 (Some sig) /\ sig_holds sig r s) \/
  (~ (r < n /\ s < n) /\ ecdsa_signature_parse_compact (Some init) (Some inp) = mkres 0 0 (Some (repeat 0 64))).
Proof.
  intros H r s. destruct (bytes_n_split 32 32 inp H) as [B1 B2].
  destruct (sc_set_b32_case _ B1) as (K1 & _ & C1). destruct (sc_set_b32_case _ B2) as (K2 & _ & C2). fold r in C1. fold s in C2.
  unfold ecdsa_signature_parse_compact. destruct (sc_set_b32 (firstn 32 inp)) as [a ova]. destruct (sc_set_b32 (skipn 32 inp)) as [b ovb]. cbn [fst snd] in *.
  destruct C1 as [(L1 & -> & E1)|(L1 & ->)]; [|right; split; [lia|reflexivity]].
  destruct C2 as [(L2 & -> & E2)|(L2 & ->)]; [|right; split; [lia|reflexivity]].
  left. split; [auto|]. cbn [negb andb]. exists (signature_save a b). split; [reflexivity|]. rewrite <- E1, <- E2. now apply sig_save_ok.
Qed.
Lemma serialize_compact_ok init sig r s : sig_holds sig r s ->
  ecdsa_signature_serialize_compact (Some init) (Some sig) = mkres 1 0 (Some (be_bytes 32 r ++ be_bytes 32 s)).
Proof.
  intros H. destruct (sig_load_ok _ _ _ H) as (K1 & K2 & E1 & E2). unfold ecdsa_signature_serialize_compact.
  destruct (signature_load sig) as [a b]. cbn [fst snd] in *. now rewrite !sc_get_b32_ok, E1, E2 by (apply K1 || apply K2).
Qed.

(** ** C03 *)
Lemma normalize_ok sigout sig r s : sig_holds sig r s ->
  let high := n / 2 <? s in
  exists sig', sig_holds sig' r (if high then n - s else s) /\
  ecdsa_signature_normalize sigout (Some sig) = mkres (if high then 1 else 0) 0 (match sigout with Some _ => Some sig' | None => None end).
Proof.
  intros H. destruct (sig_load_ok _ _ _ H) as (K1 & K2 & E1 & E2). unfold ecdsa_signature_normalize.
  destruct (signature_load sig) as [a b]. cbn [fst snd] in *. rewrite sc_is_high_spec, E2 by apply K2. cbv zeta.
  destruct (Z.ltb_spec (n / 2) s) as [L|L].
  - exists (signature_save a (sc_negate b)). destruct (sc_negate_ok b K2) as [K3 E3]. split.
    + pose proof (sig_save_ok a _ K1 K3) as S. rewrite E1, E3, E2 in S. replace (n - s) with ((- s) mod n); [exact S|].
      destruct H as (_ & R & _). assert (0 < n / 2) by reflexivity. rewrite Z.mod_opp_l_nz; rewrite ?(Z.mod_small s) by lia; lia.
    + now destruct sigout.
  - exists (signature_save a b). split.
    + pose proof (sig_save_ok a _ K1 K2) as S. now rewrite E1, E2 in S.
    + now destruct sigout.
Qed.

(** ** C02 *)
Lemma x_mod_n_cases X r : 0 <= X < p -> 0 <= r < n -> (X mod n = r <-> X = r \/ (r < p - n /\ X = r + n)).
Proof.
  intros RX Rr. assert (PN : p < n + n) by reflexivity. split.
  - intros E. destruct (Z_lt_le_dec X n) as [L|L].
    + left. now rewrite Z.mod_small in E by lia.
    + right. replace (X mod n) with (X - n) in E; [lia|]. replace X with ((X - n) + 1 * n) at 2 by ring. rewrite Z_mod_plus_full, Z.mod_small by lia. reflexivity.
  - intros [-> |[L ->]]; [now apply Z.mod_small|]. replace (r + n) with (r + 1 * n) by ring. rewrite Z_mod_plus_full. now apply Z.mod_small.
Qed.
Lemma xcoord_range P : on_curve P -> 0 <= xcoord P < p.
Proof. destruct P as [|x y]; [intros _; split; [reflexivity|exact p_pos]|]. intros H. apply H. Qed.
Lemma toF_x_iff a x : 0 <= a < p -> 0 <= x < p -> (toF a = toF x <-> a = x).
Proof. intros Ha Hx. split; [now apply toF_range_eq|congruence]. Qed.

Lemma const_pmo : const_p_minus_order = fe_of_Z (p - n).
Proof. unfold const_p_minus_order. apply f_equal. vm_cast_no_check (eq_refl (p - n)). Qed.
Lemma const_oaf : const_order_as_fe = fe_of_Z n.
Proof. unfold const_order_as_fe. apply f_equal. vm_cast_no_check (eq_refl n). Qed.
Global Opaque const_p_minus_order const_order_as_fe.
Lemma cmp_ge x y : (match x ?= y with Eq => 0 | Lt => -1 | Gt => 1 end >=? 0) = negb (x <? y).
Proof. unfold Z.ltb. destruct (x ?= y); reflexivity. Qed.
Lemma fe_add_n_fv xr r : fe_norm xr -> fval xr = r -> fe_mag 8 (fe_add xr (fe_of_Z n)) /\ fv (fe_add xr (fe_of_Z n)) = toF (r + n).
Proof.
  intros N E. assert (RN : 0 <= n < p) by (split; [discriminate|reflexivity]). destruct (fe_of_Z_ok n RN) as [NN VN].
  destruct (fe_add_ok 1 1 xr (fe_of_Z n) (fe_norm_mag _ N) (fe_norm_mag _ NN)) as [MA VA]; [lia..|].
  split; [eapply mag_weaken; [exact MA|lia]|]. unfold fv. now rewrite VA, E, VN.
Qed.
Lemma fe_cmp_pmo xr r : fe_norm xr -> fval xr = r -> (fe_cmp_var xr (fe_of_Z (p - n)) >=? 0) = negb (r <? p - n).
Proof.
  intros N E. assert (PO : 0 <= p - n < p) by (split; [discriminate|reflexivity]). destruct (fe_of_Z_ok (p - n) PO) as [NPO VPO].
  rewrite (fe_cmp_var_spec _ _ N NPO), VPO, E. apply cmp_ge.
Qed.
(** The comparison of r with the x coordinate, without inversion. *)
Definition x_check (c : list Z) (pr : gej) : bool :=
  let xr := snd (fe_set_b32_limit c) in
  if gej_eq_x_var xr pr then true
  else if fe_cmp_var xr const_p_minus_order >=? 0 then false
  else gej_eq_x_var (fe_add xr const_order_as_fe) pr.
Lemma x_check_ok r pr R : 0 <= r < n -> gej_rep f1 pr R -> R <> Inf -> (x_check (be_bytes 32 r) pr = true <-> xcoord R mod n = r).
Proof.
  intros RA M NI. unfold x_check. cbv zeta. pose proof (xcoord_range R (gej_rep_oc _ _ _ M)) as RX. rewrite (x_mod_n_cases _ _ RX RA).
  assert (NP : n < p) by exact n_lt_p. assert (RP : 0 <= r < p) by (clear - RA NP; lia).
  destruct (set_limit_case _ (bytes_n_be 32 r)) as [(C & _ & N & V)|(C & _)]; rewrite x32 in * by exact RP; [|clear - C RP; lia].
  set (xr := snd (fe_set_b32_limit (be_bytes 32 r))) in *. clearbody xr.
  assert (FX : fv xr = toF r) by (rewrite <- V; symmetry; apply toF_zv).
  assert (FVX : fval xr = r) by (unfold fv in V; rewrite zv_toF, Z.mod_small in V; [exact V|exact (fval_norm_range _ N)]).
  pose proof (gej_eq_x_var_ok xr pr R M NI (norm_mag_k 8 _ N ltac:(clear; lia))) as E1. rewrite FX, (toF_x_iff _ _ RP RX) in E1.
  destruct (gej_eq_x_var xr pr) eqn:G1.
  { split; [|reflexivity]. intros _. left. symmetry. now apply E1. }
  assert (NE : r <> xcoord R) by (intros E; apply E1 in E; discriminate). clear E1 G1.
  rewrite const_pmo, (fe_cmp_pmo _ _ N FVX). destruct (Z.ltb_spec r (p - n)) as [LT|LT]; cbn [negb].
  2: { split; [discriminate|]. intros [E|[E _]]; [congruence|clear - E LT; lia]. }
  rewrite const_oaf. destruct (fe_add_n_fv _ _ N FVX) as [MA VA].
  rewrite (gej_eq_x_var_ok _ pr R M NI MA), VA, toF_x_iff by (exact RX || (clear - LT RA; lia)). split.
  - intros E. right. split; [exact LT|congruence].
  - intros [E|[_ E]]; congruence.
Qed.
Lemma ecmult_ok2 a na ng P : gej_rep f1 a P -> sc_ok na -> sc_ok ng ->
  gej_rep f1 (ecmult a na (Some ng)) (padd (pmul (sv na) P) (pmul (sv ng) G)).
Proof. intros H1 H2 H3. exact (ecmult_ok a na (Some ng) P H1 H2 H3). Qed.
Lemma verify_point sn a q msg Q m w : sc_ok sn -> sv sn = w -> sc_ok a -> sc_ok msg -> ge_rep f1 q Q -> toN (sv msg) = toN m ->
  gej_rep f1 (ecmult (gej_set_ge q) (sc_mul sn a) (Some (sc_mul sn msg))) (padd (pmul (m * w) G) (pmul (sv a * w) Q)).
Proof.
  intros KI EI KA KM RQ EM. pose proof (ge_rep_oc _ _ _ RQ) as OC.
  pose proof (sc_mul_ok sn msg (proj1 KI) (proj1 KM)) as KU1. pose proof (sc_mul_sv sn msg (proj1 KI) (proj1 KM)) as EU1.
  pose proof (sc_mul_ok sn a (proj1 KI) (proj1 KA)) as KU2. pose proof (sc_mul_sv sn a (proj1 KI) (proj1 KA)) as EU2.
  pose proof (ecmult_ok2 (gej_set_ge q) (sc_mul sn a) (sc_mul sn msg) Q (gej_set_ge_ok _ _ _ RQ) KU2 KU1) as M.
  rewrite EU1, EU2, !pmul_mod, EI in M by (exact on_curve_G || exact OC).
  assert (ER : padd (pmul (w * sv a) Q) (pmul (w * sv msg) G) = padd (pmul (m * w) G) (pmul (sv a * w) Q)).
  { rewrite padd_comm by auto with curve. f_equal; [|f_equal; ring]. apply K_eq. push_toN. rewrite EM. ring. }
  rewrite ER in M. exact M.
Qed.
Lemma sig_verify_unfold a b q msg : ecdsa_sig_verify a b q msg =
  if sc_is_zero a || sc_is_zero b then false
  else if gej_is_infinity (ecmult (gej_set_ge q) (sc_mul (sc_inverse b) a) (Some (sc_mul (sc_inverse b) msg))) then false
  else x_check (sc_get_b32 a) (ecmult (gej_set_ge q) (sc_mul (sc_inverse b) a) (Some (sc_mul (sc_inverse b) msg))).
Proof. unfold ecdsa_sig_verify, x_check, sc_inverse_var. cbv zeta. reflexivity. Qed.
Lemma sig_verify_ok a b q msg Q m : sc_ok a -> sc_ok b -> sc_ok msg -> ge_rep f1 q Q -> toN (sv msg) = toN m ->
  (ecdsa_sig_verify a b q msg = true <-> ecdsa_valid Q m (sv a) (sv b)).
Proof.
  intros KA KB KM RQ EM. pose proof (sc_ok_range a KA) as RA. pose proof (sc_ok_range b KB) as RB.
  rewrite sig_verify_unfold. unfold ecdsa_valid. rewrite !sc_is_zero_spec by (apply KA || apply KB).
  destruct (Z.eqb_spec (sv a) 0) as [A0|A0]; cbn [orb]; [split; [discriminate|lia]|].
  destruct (Z.eqb_spec (sv b) 0) as [B0|B0]; [split; [discriminate|lia]|].
  destruct (sc_inverse_ok b) as [KI EI].
  pose proof (verify_point _ a q msg Q m _ KI EI KA KM RQ EM) as M. cbv zeta.
  set (pr := ecmult _ _ _) in *. clearbody pr. set (R := padd _ _) in *. clearbody R.
  pose proof (gej_rep_jinf _ _ _ M) as JI. unfold gej_is_infinity.
  destruct (jinf pr) eqn:EJ.
  { split; [discriminate|]. intros (_ & _ & NI & _). exfalso. apply NI. now apply JI. }
  assert (NI : R <> Inf) by (intros E; apply JI in E; discriminate).
  rewrite sc_get_b32_ok by apply KA. rewrite (x_check_ok _ _ _ RA M NI).
  split; [intros E; repeat split; (lia || assumption)|tauto].
Qed.

Lemma ecdsa_verify_ok sig r s msg pk Q : sig_holds sig r s -> bytes_n 32 msg -> pubkey_holds pk Q ->
  (ecdsa_verify (Some sig) (Some msg) (Some pk) = mkres 1 0 tt /\ s <= n / 2 /\ ecdsa_valid Q (be_val msg) r s) \/
  (ecdsa_verify (Some sig) (Some msg) (Some pk) = mkres 0 0 tt /\ ~ (s <= n / 2 /\ ecdsa_valid Q (be_val msg) r s)).
Proof.
  intros HS HM HP. destruct (sig_load_ok _ _ _ HS) as (K1 & K2 & E1 & E2). destruct (pubkey_load_ok _ _ HP) as (L & R & _).
  destruct (sc_set_b32_case msg HM) as (KM & EM & _).
  unfold ecdsa_verify. destruct (signature_load sig) as [a b]. destruct (pubkey_load pk) as [ok q]. cbn [fst snd] in *. cbv zeta. subst ok.
  rewrite sc_is_high_spec, E2 by apply K2. destruct (Z.ltb_spec (n / 2) s) as [LT|LT].
  { right. split; [reflexivity|]. lia. }
  pose proof (sig_verify_ok a b q _ Q (be_val msg) K1 K2 KM R ltac:(rewrite EM; push_toN; reflexivity)) as V. rewrite E1, E2 in V.
  destruct (ecdsa_sig_verify _ _ _ _).
  - left. split; [reflexivity|]. split; [exact LT|]. now apply V.
  - right. split; [reflexivity|]. intros [_ V']. apply V in V'. discriminate.
Qed.
