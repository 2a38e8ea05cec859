(** Key tweaking, negation, combination; contexts. *)
Require Import ZArith List Bool Lia.
From Verif Require Import NumTheory Spec SpecApi Primes ZmField Curve Word Bytes.
From Verif Require Import FieldModel FieldMul FieldProof FieldProof2 FieldBytes FieldOps.
From Verif Require Import ScalarModel ScalarProof ScalarProof2 ScalarMul.
From Verif Require Import GroupModel GroupProof GroupProof2 GroupProof3 GroupProof4 GroupProof5.
From Verif Require Import HashModel GenModel GenProof EcmultModel EcmultProof EcmultProof2 EcdsaModel ApiModel ApiProof ApiProof2.
Import ListNotations.
Local Open Scope Z_scope.

Lemma seckey_range key : bytes_n 32 key -> 0 <= be_val key < 2 ^ 256.
Proof. intros [H L]. now apply be_val_32. Qed.
Lemma not_valid key : bytes_n 32 key -> ~ seckey_valid key -> ~ 1 <= be_val key < n.
Proof. intros H V R. apply V. split; assumption. Qed.
Lemma get_zero : sc_get_b32 sc_zero = repeat 0 32. Proof. reflexivity. Qed.

(** ** C15 *)
Lemma seckey_negate_ok key : bytes_n 32 key ->
  (1 <= be_val key < n /\ ec_seckey_negate (Some key) = mkres 1 0 (Some (be_bytes 32 (n - be_val key)))) \/
  (~ 1 <= be_val key < n /\ ec_seckey_negate (Some key) = mkres 0 0 (Some (repeat 0 32))).
Proof.
  intros H. destruct (seckey_cases key H) as [K C]. unfold ec_seckey_negate.
  destruct (sc_set_b32_seckey key) as [s ret]. cbn [fst snd] in *.
  rewrite sc_cmov_b by (try assumption; apply sc_zero_ok).
  destruct C as [(V & -> & E)|(V & ->)]; cbn [negb b2z].
  - left. split; [apply V|]. destruct (sc_negate_ok s K) as [K' E']. rewrite sc_get_b32_ok by apply K'. rewrite E', E.
    f_equal. f_equal. f_equal. rewrite Z.mod_opp_l_nz; rewrite ?(Z.mod_small (be_val key)) by (destruct V; lia); destruct V; lia.
  - right. split; [now apply not_valid|]. reflexivity.
Qed.
Lemma pubkey_negate_ok pk Q : pubkey_holds pk Q -> exists pk', ec_pubkey_negate (Some pk) = mkres 1 0 (Some pk') /\ pubkey_holds pk' (pneg Q).
Proof.
  intros H. destruct (pubkey_load_ok pk Q H) as (L & R & _). unfold ec_pubkey_negate. destruct (pubkey_load pk) as [ok q]. cbn [fst snd] in *. subst ok.
  exists (pubkey_save (ge_neg q)). split; [reflexivity|]. apply pubkey_save_ok; [now apply ge_neg_ok|].
  destruct (pubkey_holds_oc _ _ H) as [_ NI]. destruct Q; [congruence|discriminate].
Qed.

(** ** C13 *)
Lemma seckey_tweak_add_ok key tw : bytes_n 32 key -> bytes_n 32 tw ->
  let s := (be_val key + be_val tw) mod n in
  ((1 <= be_val key < n /\ be_val tw < n /\ s <> 0) /\ ec_seckey_tweak_add (Some key) (Some tw) = mkres 1 0 (Some (be_bytes 32 s))) \/
  (~ (1 <= be_val key < n /\ be_val tw < n /\ s <> 0) /\ ec_seckey_tweak_add (Some key) (Some tw) = mkres 0 0 (Some (repeat 0 32))).
Proof.
  intros H HT s. destruct (seckey_cases key H) as [K C]. destruct (sc_set_b32_case tw HT) as (KT & _ & CT).
  unfold ec_seckey_tweak_add, ec_seckey_tweak_add_helper, eckey_privkey_tweak_add.
  destruct (sc_set_b32_seckey key) as [sec ret]. destruct (sc_set_b32 tw) as [term ov]. cbn [fst snd] in *. cbv zeta.
  pose proof (sc_add_ok _ _ K KT) as KA. pose proof (sc_add_sv _ _ K KT) as EA. rewrite sc_is_zero_spec by apply KA.
  rewrite sc_cmov_b by (try assumption; apply sc_zero_ok).
  destruct C as [(V & -> & E)|(V & ->)].
  2: { right. split; [intros (R & _); apply V; split; assumption|]. reflexivity. }
  destruct CT as [(L & -> & ET)|(L & ->)].
  2: { right. split; [intros (_ & R & _); lia|]. reflexivity. }
  rewrite E, ET in EA. fold s in EA. destruct (Z.eqb_spec (sv (sc_add sec term)) 0) as [Z0|Z0]; rewrite EA in Z0.
  - right. split; [tauto|]. reflexivity.
  - left. split; [split; [apply V|]; tauto|]. cbn [negb andb b2z]. rewrite sc_get_b32_ok by apply KA. now rewrite EA.
Qed.
Lemma pubkey_tweak_add_ok pk Q tw : pubkey_holds pk Q -> bytes_n 32 tw ->
  let R := padd Q (pmul (be_val tw) G) in
  ((be_val tw < n /\ R <> Inf) /\ exists pk', ec_pubkey_tweak_add (Some pk) (Some tw) = mkres 1 0 (Some pk') /\ pubkey_holds pk' R) \/
  (~ (be_val tw < n /\ R <> Inf) /\ ec_pubkey_tweak_add (Some pk) (Some tw) = mkres 0 0 (Some (repeat 0 64))).
Proof.
  intros H HT R. destruct (pubkey_load_ok pk Q H) as (L & RQ & _). destruct (sc_set_b32_case tw HT) as (KT & _ & CT).
  unfold ec_pubkey_tweak_add, ec_pubkey_tweak_add_helper, eckey_pubkey_tweak_add.
  destruct (pubkey_load pk) as [ok q]. destruct (sc_set_b32 tw) as [term ov]. cbn [fst snd] in *. subst ok.
  destruct CT as [(LT & -> & ET)|(LT & ->)].
  2: { right. split; [intros [? _]; lia|reflexivity]. }
  cbv zeta. pose proof (ecmult_ok (gej_set_ge q) sc_one (Some term) Q (gej_set_ge_ok _ _ _ RQ) (proj1 sc_one_ok) KT) as M.
  set (pt := ecmult _ _ _) in *. clearbody pt. rewrite (proj2 sc_one_ok), pmul_1 in M. cbn [opt_sv] in M. rewrite ET in M. fold R in M.
  unfold gej_is_infinity. pose proof (gej_rep_jinf _ _ _ M) as JI. destruct (jinf pt).
  - right. split; [|reflexivity]. intros [_ NI]. apply NI. now apply JI.
  - assert (NI : R <> Inf) by (intros E; apply JI in E; discriminate). left. split; [auto|].
    exists (pubkey_save (ge_set_gej pt)). split; [reflexivity|]. apply pubkey_save_ok; [now apply ge_set_gej_ok|exact NI].
Qed.

(** ** C14 *)
Lemma mod_n_0_mul a b : 1 <= a < n -> 0 <= b < n -> (a * b) mod n = 0 -> b = 0.
Proof.
  intros Ha Hb E. apply Z.mod_divide in E; [|clear; intros E0; discriminate E0]. apply Znumtheory.prime_mult in E; [|exact prime_n].
  destruct E as [E|E]; (apply Z.mod_divide in E; [|clear; intros E0; discriminate E0]); rewrite Z.mod_small in E by lia; lia.
Qed.
Lemma seckey_tweak_mul_ok key tw : bytes_n 32 key -> bytes_n 32 tw ->
  ((1 <= be_val key < n /\ 1 <= be_val tw < n) /\
   ec_seckey_tweak_mul (Some key) (Some tw) = mkres 1 0 (Some (be_bytes 32 ((be_val key * be_val tw) mod n)))) \/
  (~ (1 <= be_val key < n /\ 1 <= be_val tw < n) /\ ec_seckey_tweak_mul (Some key) (Some tw) = mkres 0 0 (Some (repeat 0 32))).
Proof.
  intros H HT. destruct (seckey_cases key H) as [K C]. destruct (sc_set_b32_case tw HT) as (KT & _ & CT). pose proof (seckey_range _ HT) as RT.
  unfold ec_seckey_tweak_mul, eckey_privkey_tweak_mul.
  destruct (sc_set_b32_seckey key) as [sec ret]. destruct (sc_set_b32 tw) as [term ov]. cbn [fst snd] in *. cbv zeta.
  pose proof (sc_mul_ok _ _ (proj1 K) (proj1 KT)) as KA. pose proof (sc_mul_sv _ _ (proj1 K) (proj1 KT)) as EA. rewrite sc_is_zero_spec by apply KT.
  rewrite sc_cmov_b by (try assumption; apply sc_zero_ok).
  destruct C as [(V & -> & E)|(V & ->)].
  2: { right. split; [intros (R & _); apply V; split; assumption|]. reflexivity. }
  destruct CT as [(L & -> & ET)|(L & ->)].
  2: { right. split; [intros (_ & R); lia|]. reflexivity. }
  rewrite E, ET in EA. rewrite ET. destruct (Z.eqb_spec (be_val tw) 0) as [Z0|Z0].
  - right. split; [intros (_ & R); lia|]. reflexivity.
  - left. split; [split; [apply V|lia]|]. cbn [negb andb b2z]. rewrite sc_get_b32_ok by apply KA. now rewrite EA.
Qed.
Lemma pmul_nInf k Q : on_curve Q -> Q <> Inf -> 1 <= k < n -> pmul k Q <> Inf.
Proof.
  intros OC NI R E. destruct (all_points_multiples_of_G Q OC) as (q & Rq & ->). rewrite <- pmul_mul in E by exact on_curve_G.
  apply pmul_G_Inf in E. rewrite Z.mul_comm in E. destruct (Z.eq_dec q 0) as [-> |NQ]; [now apply NI|].
  apply mod_n_0_mul in E; lia.
Qed.
Lemma pubkey_tweak_mul_ok pk Q tw : pubkey_holds pk Q -> bytes_n 32 tw ->
  (1 <= be_val tw < n /\ exists pk', ec_pubkey_tweak_mul (Some pk) (Some tw) = mkres 1 0 (Some pk') /\ pubkey_holds pk' (pmul (be_val tw) Q)) \/
  (~ 1 <= be_val tw < n /\ ec_pubkey_tweak_mul (Some pk) (Some tw) = mkres 0 0 (Some (repeat 0 64))).
Proof.
  intros H HT. destruct (pubkey_load_ok pk Q H) as (L & RQ & _). destruct (sc_set_b32_case tw HT) as (KT & _ & CT). pose proof (seckey_range _ HT) as RT.
  destruct (pubkey_holds_oc _ _ H) as [OC NI].
  unfold ec_pubkey_tweak_mul, eckey_pubkey_tweak_mul.
  destruct (pubkey_load pk) as [ok q]. destruct (sc_set_b32 tw) as [term ov]. cbn [fst snd] in *. subst ok.
  destruct CT as [(LT & -> & ET)|(LT & ->)].
  2: { right. split; [lia|reflexivity]. }
  rewrite sc_is_zero_spec, ET by apply KT. destruct (Z.eqb_spec (be_val tw) 0) as [Z0|Z0].
  { right. split; [lia|reflexivity]. }
  left. split; [lia|]. cbv zeta.
  pose proof (ecmult_ok (gej_set_ge q) term (Some sc_zero) Q (gej_set_ge_ok _ _ _ RQ) KT (proj1 sc_zero_ok)) as M.
  set (pt := ecmult _ _ _) in *. clearbody pt. cbn [opt_sv] in M. rewrite (proj2 sc_zero_ok), pmul_0, padd_Inf_r, ET in M.
  exists (pubkey_save (ge_set_gej pt)). split; [reflexivity|]. apply pubkey_save_ok; [now apply ge_set_gej_ok|]. apply pmul_nInf; [assumption..|lia].
Qed.

(** ** C16 *)
Lemma on_curve_psum Qs : Forall on_curve Qs -> on_curve (psum Qs).
Proof. induction 1 as [|Q Qs HQ HQs IH]; [exact I|]. cbn [psum fold_right]. now apply on_curve_add. Qed.
Lemma combine_loop_ok pks Qs : Forall2 pubkey_holds pks Qs -> forall Qj P ill, gej_rep f1 Qj P ->
  exists Qj', combine_loop (map Some pks) Qj ill = inl (Qj', ill) /\ gej_rep f1 Qj' (padd P (psum Qs)).
Proof.
  induction 1 as [|pk Q pks Qs H HS IH]; intros Qj P ill R; cbn [map combine_loop psum fold_right].
  - exists Qj. rewrite padd_Inf_r. auto.
  - destruct (pubkey_load_ok pk Q H) as (L & RQ & _). destruct (pubkey_load pk) as [ok q]. cbn [fst snd] in *. subst ok.
    destruct (pubkey_holds_oc _ _ H) as [OC NI].
    assert (GI : ginf q = false) by (destruct Q as [|x y]; [congruence|apply (ge_rep1_aff _ _ _ RQ)]).
    destruct (IH _ _ ill (gej_add_ge_ok _ _ _ _ _ f1_nz R RQ GI)) as (Qj' & E & R'). exists Qj'. split; [exact E|].
    fold (psum Qs). rewrite <- padd_assoc; [exact R'|exact (gej_rep_oc _ _ _ R)|exact OC|].
    apply on_curve_psum. clear -HS. induction HS; constructor; auto. now destruct (pubkey_holds_oc _ _ H).
Qed.
Lemma pubkey_combine_ok init pks Qs : Forall2 pubkey_holds pks Qs -> pks <> [] ->
  (psum Qs <> Inf /\ exists pk, ec_pubkey_combine (Some init) (Some (map Some pks)) = mkres 1 0 (Some pk) /\ pubkey_holds pk (psum Qs)) \/
  (psum Qs = Inf /\ ec_pubkey_combine (Some init) (Some (map Some pks)) = mkres 0 0 (Some (repeat 0 64))).
Proof.
  intros H NE. unfold ec_pubkey_combine. destruct pks as [|pk pks]; [congruence|].
  assert (RI : gej_rep f1 gej_infinity Inf) by apply gej_infinity_rep.
  destruct (combine_loop_ok _ _ H _ _ 0 RI) as (Qj & E & R). rewrite padd_Inf_l in R.
  cbn [map] in E |- *. rewrite E. unfold gej_is_infinity. pose proof (gej_rep_jinf _ _ _ R) as JI. destruct (jinf Qj).
  - right. split; [now apply JI|reflexivity].
  - assert (NI : psum Qs <> Inf) by (intros E'; apply JI in E'; discriminate). left. split; [exact NI|].
    eexists. split; [reflexivity|]. apply pubkey_save_ok; [now apply ge_set_gej_ok|exact NI].
Qed.
