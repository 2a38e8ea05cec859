(** X-only public keys and key pairs. *)
Require Import ZArith List Bool Lia.
From Verif Require Import NumTheory Spec SpecApi SpecHash SpecBip340 SpecSort Primes ZmField Curve NField Word Bytes.
From Verif Require Import FieldModel FieldMul FieldProof FieldProof2 FieldBytes FieldOps.
From Verif Require Import ScalarModel ScalarProof ScalarProof2 ScalarMul.
From Verif Require Import GroupModel GroupProof GroupProof2 GroupProof3 GroupProof4 GroupProof5.
From Verif Require Import GenModel GenProof EcmultModel EcmultProof EcmultProof2 EcdsaModel ApiModel ApiVocab ApiProof ApiProof2 ApiProof3 EcdsaProof EcdsaProof2 KeyProps KeyProps2 SortProof EcdhProof.
From Verif Require Import ExtrakeysModel.
Import ListNotations.
Local Open Scope Z_scope.
Local Opaque p n.

(** ** Points with even y *)
Lemma even_y_odd P : on_curve P -> Z.odd (ycoord (even_y P)) = false.
Proof.
  intro OC. unfold even_y. destruct P as [|x y]; [reflexivity|]. cbn [ycoord]. destruct (Z.odd y) eqn:E; [|exact E]. cbn [pneg ycoord].
  rewrite (odd_neg _ _ OC), E. reflexivity.
Qed.
Lemma even_y_oc P : on_curve P -> on_curve (even_y P).
Proof. intros H. unfold even_y. destruct (Z.odd _); [now apply on_curve_neg|exact H]. Qed.
Lemma even_y_ninf P : P <> Inf -> even_y P <> Inf.
Proof. intros H. unfold even_y. destruct P as [|x y]; [congruence|]. destruct (Z.odd _); discriminate. Qed.
Lemma even_y_x P : xcoord (even_y P) = xcoord P.
Proof. unfold even_y. destruct P as [|x y]; [now destruct (Z.odd _)|]. now destruct (Z.odd _). Qed.
Lemma even_y_id P : Z.odd (ycoord P) = false -> even_y P = P.
Proof. unfold even_y. now intros ->. Qed.

Lemma norm_val a : fe_norm a -> 0 <= fval a < p.
Proof. unfold fe_norm, fval. fconst. change p with 0xFFFFFFFFFFFFFFFFFFFFFFFFFFFFFFFFFFFFFFFFFFFFFFFFFFFFFFFEFFFFFC2F in *. lia. Qed.
Lemma fval_of_rep g x y : ge_rep f1 g (Aff x y) -> fe_norm (gx g) -> fval (gx g) = x.
Proof.
  intros R N. destruct (ge_rep1_aff _ _ _ R) as (_ & EX & _). rewrite <- (Z.mod_small (fval (gx g)) p) by now apply norm_val. rewrite <- zv_toF. fold (fv (gx g)). rewrite EX, zv_toF.
  apply Z.mod_small. apply (ge_rep_oc _ _ _ R).
Qed.
Lemma fval_of_rep_y g x y : ge_rep f1 g (Aff x y) -> fe_norm (gy g) -> fval (gy g) = y.
Proof.
  intros R N. destruct (ge_rep1_aff _ _ _ R) as (_ & _ & EX). rewrite <- (Z.mod_small (fval (gy g)) p) by now apply norm_val. rewrite <- zv_toF. fold (fv (gy g)). rewrite EX, zv_toF.
  apply Z.mod_small. apply (ge_rep_oc _ _ _ R).
Qed.
Lemma ge_even_y_ok g Q : ge_rep f1 g Q -> Q <> Inf -> fe_norm (gy g) ->
  ge_rep f1 (fst (extrakeys_ge_even_y g)) (even_y Q) /\ snd (extrakeys_ge_even_y g) = (if Z.odd (ycoord Q) then 1 else 0) /\
  gx (fst (extrakeys_ge_even_y g)) = gx g.
Proof.
  intros R NI N. unfold extrakeys_ge_even_y. rewrite (fe_is_odd_spec _ N). destruct Q as [|x y]; [congruence|].
  pose proof (fval_of_rep_y _ _ _ R N) as EY.
  rewrite EY. unfold even_y. cbn [ycoord].
  destruct (Z.odd y); [|cbn [fst snd]; auto]. cbn [fst snd]. split; [|split; reflexivity].
  destruct R as (M1 & M2 & OC & I & X & Y). split; [exact M1|]. cbn [gx gy ginf pneg].
  assert (MN : fe_mag 1 (gy g)) by (now apply norm_mag). split; [eapply mag_weaken; [apply (fe_negate_mag 1 _ MN); lia|lia]|].
  split; [now apply (on_curve_neg (Aff x y))|]. split; [exact I|]. split; [exact X|].
  rewrite (fe_negate_fv 1 _ MN) by lia. rewrite Y, toF_pneg_y. ring.
Qed.

(** ** Loading *)
(** C26 *)
Lemma xonly_parse_ok init inp : bytes_n 32 inp ->
  (be_val inp < p /\ is_square_mod_p (be_val inp * be_val inp * be_val inp + 7) /\ exists y pk, xonly_pubkey_parse (Some init) (Some inp) = mkres 1 0 (Some pk) /\ xonly_holds pk (Aff (be_val inp) y)) \/
  (~ (be_val inp < p /\ is_square_mod_p (be_val inp * be_val inp * be_val inp + 7)) /\ xonly_pubkey_parse (Some init) (Some inp) = mkres 0 0 (Some (repeat 0 64))).
Proof.
  intros H. unfold xonly_pubkey_parse. destruct (set_limit_case inp H) as [(C & E & N & V)|(C & E)].
  - pose proof (set_xo_sound inp false H E) as S1.
    destruct (ge_set_xo_var_ok (snd (fe_set_b32_limit inp)) false (norm_mag_k 4 _ N ltac:(lia))) as (SQ & _). rewrite V in SQ.
    destruct (fe_set_b32_limit inp) as [ok x]. cbn [fst snd] in *. subst ok. cbn [negb]. destruct (ge_set_xo_var x false) as [ok g]. cbn [fst snd] in *.
    destruct ok; cbn [negb].
    + left. split; [exact C|]. split; [now apply SQ|]. destruct (S1 eq_refl) as (y & R & O & _). exists y, (pubkey_save g). split; [reflexivity|].
      split; [apply pubkey_save_ok; [exact R|discriminate]|exact O].
    + right. split; [|reflexivity]. intros [_ Q]. apply SQ in Q. discriminate.
  - right. destruct (fe_set_b32_limit inp) as [ok x]. cbn [fst snd] in *. subst ok. split; [lia|reflexivity].
Qed.
Lemma xonly_serialize_ok init pk x y : pubkey_holds pk (Aff x y) -> xonly_pubkey_serialize (Some init) (Some pk) = mkres 1 0 (Some (be_bytes 32 x)).
Proof.
  intros H. destruct (pubkey_load_ok _ _ H) as (L & R & N & _). unfold xonly_pubkey_serialize, xonly_pubkey_load. destruct (pubkey_load pk) as [ok g]. cbn [fst snd] in *. subst ok. cbn [negb].
  rewrite fe_get_b32_ok by exact N. now rewrite (fval_of_rep _ _ _ R N).
Qed.
Lemma from_pubkey_ok init par pk Q : pubkey_holds pk Q ->
  exists xpk, xonly_pubkey_from_pubkey (Some init) par (Some pk) = mkres 1 0 (Some xpk, match par with Some _ => Some (if Z.odd (ycoord Q) then 1 else 0) | None => None end) /\
    xonly_holds xpk (even_y Q).
Proof.
  intros H. destruct (pubkey_load_ok _ _ H) as (L & R & _ & N). destruct (pubkey_holds_oc _ _ H) as (OC & NI). unfold xonly_pubkey_from_pubkey.
  destruct (pubkey_load pk) as [ok g]. cbn [fst snd] in *. subst ok. cbn [negb]. destruct (ge_even_y_ok _ _ R NI N) as (R' & EP & _).
  destruct (extrakeys_ge_even_y g) as [g' par']. cbn [fst snd] in *. subst par'. exists (pubkey_save g'). split; [reflexivity|].
  split; [apply pubkey_save_ok; [exact R'|now apply even_y_ninf]|now apply even_y_odd].
Qed.

(** ** Tweaking *)
Lemma tweak_helper_ok g Q tw : ge_rep f1 g Q -> bytes_n 32 tw ->
  let R := padd Q (pmul (be_val tw) G) in
  ((be_val tw < n /\ R <> Inf) /\ exists g', ec_pubkey_tweak_add_helper g tw = Some g' /\ ge_rep f1 g' R) \/
  (~ (be_val tw < n /\ R <> Inf) /\ ec_pubkey_tweak_add_helper g tw = None).
Proof.
  intros RQ HT R. destruct (sc_set_b32_case tw HT) as (KT & _ & CT).
  unfold ec_pubkey_tweak_add_helper, eckey_pubkey_tweak_add.
  destruct (sc_set_b32 tw) as [term ov]. cbn [fst snd] in *.
  destruct CT as [(LT & -> & ET)|(LT & ->)].
  2: { right. split; [intros [? _]; lia|reflexivity]. }
  cbv zeta. pose proof (ecmult_ok (gej_set_ge g) sc_one (Some term) Q (gej_set_ge_ok _ _ _ RQ) (proj1 sc_one_ok) KT) as M.
  set (pt := ecmult _ _ _) in *. clearbody pt. rewrite (proj2 sc_one_ok), pmul_1 in M. cbn [opt_sv] in M. rewrite ET in M. fold R in M.
  unfold gej_is_infinity. pose proof (gej_rep_jinf _ _ _ M) as JI. destruct (jinf pt).
  - right. split; [|reflexivity]. intros [_ NI]. apply NI. now apply JI.
  - assert (NI : R <> Inf) by (intros E; apply JI in E; discriminate). left. split; [auto|].
    exists (ge_set_gej pt). split; [reflexivity|]. now apply ge_set_gej_ok.
Qed.
Lemma xonly_tweak_ok init pk P tw : pubkey_holds pk P -> bytes_n 32 tw ->
  let R := padd P (pmul (be_val tw) G) in
  ((be_val tw < n /\ R <> Inf) /\ exists pk', xonly_pubkey_tweak_add (Some init) (Some pk) (Some tw) = mkres 1 0 (Some pk') /\ pubkey_holds pk' R) \/
  (~ (be_val tw < n /\ R <> Inf) /\ xonly_pubkey_tweak_add (Some init) (Some pk) (Some tw) = mkres 0 0 (Some (repeat 0 64))).
Proof.
  intros H HT R. destruct (pubkey_load_ok _ _ H) as (L & RQ & _). unfold xonly_pubkey_tweak_add, xonly_pubkey_load.
  destruct (pubkey_load pk) as [ok g]. cbn [fst snd] in *. subst ok. cbn [negb].
  destruct (tweak_helper_ok g P tw RQ HT) as [(C & g' & E & RG)|(C & E)]; rewrite E.
  - left. split; [exact C|]. exists (pubkey_save g'). split; [reflexivity|]. apply pubkey_save_ok; [exact RG|apply C].
  - right. split; [exact C|reflexivity].
Qed.
Lemma memcmp_eq a b : length a = length b -> (memcmp_var a b =? 0) = true <-> a = b.
Proof.
  intros L. pose proof (memcmp_lex a b L) as H. rewrite Z.eqb_eq. split.
  - intros E. rewrite E in H. cbn in H. apply lex_eq. now symmetry.
  - intros ->. clear. induction b as [|x b IH]; [reflexivity|]. cbn [memcmp_var]. rewrite Z.sub_diag. exact IH.
Qed.
Lemma tweak_check_ok tpk par pk P tw : pubkey_holds pk P -> bytes_n 32 tw -> bytes_n 32 tpk ->
  let R := padd P (pmul (be_val tw) G) in
  exists ret, xonly_pubkey_tweak_add_check (Some tpk) par (Some pk) (Some tw) = mkres (if ret : bool then 1 else 0) 0 tt /\
   (ret = true <-> be_val tw < n /\ R <> Inf /\ be_val tpk = xcoord R /\ par = (if Z.odd (ycoord R) then 1 else 0)).
Proof.
  intros H HT HP R. destruct (pubkey_load_ok _ _ H) as (L & RQ & _). unfold xonly_pubkey_tweak_add_check, xonly_pubkey_load.
  destruct (pubkey_load pk) as [ok g]. cbn [fst snd] in *. subst ok. cbn [negb].
  destruct (tweak_helper_ok g P tw RQ HT) as [(C & g' & E & RG)|(C & E)]; rewrite E.
  2: { exists false. split; [reflexivity|]. split; [discriminate|]. intros (A & B & _). destruct C. auto. }
  cbv zeta. fold R in RG, C. clearbody R. destruct C as [LT NI]. destruct R as [|x y]; [congruence|]. destruct (ge_rep_zv _ _ _ RG) as [EX EY].
  pose proof (ge_rep_oc _ _ _ RG) as OC. destruct RG as (M1 & M2 & _).
  assert (W1 : fe_mag 32 (gx g')) by (eapply mag_weaken; [eassumption|lia]). assert (W2 : fe_mag 32 (gy g')) by (eapply mag_weaken; [eassumption|lia]).
  rewrite !fe_normalize_var_eq by assumption. rewrite fe_get_b32_ok, EX by now apply fe_normalize_norm.
  rewrite fe_is_odd_spec, EY by now apply fe_normalize_norm.
  set (c := _ && _). exists c. split; [destruct c; reflexivity|]. unfold c. rewrite andb_true_iff.
  destruct HP as [HB HL]. rewrite memcmp_eq by now rewrite be_bytes_length. cbn [xcoord ycoord]. rewrite Z.eqb_eq.
  split.
  - intros [E1 E2]. split; [exact LT|]. split; [discriminate|]. split; [rewrite <- E1; apply coord_bytes; apply OC|]. rewrite <- E2. destruct (Z.odd y); reflexivity.
  - intros (_ & _ & E1 & E2). split; [symmetry; apply be_bytes_unique; assumption|]. rewrite E2. destruct (Z.odd y); reflexivity.
Qed.

(** ** Key pairs *)
Lemma keypair_load_ok kp d : keypair_holds kp d ->
  exists sk pk, keypair_load kp = (true, sk, pk) /\ sc_ok sk /\ sv sk = d /\ ge_rep f1 pk (pmul d G) /\ fe_norm (gx pk) /\ fe_norm (gy pk).
Proof.
  intros (Rd & pk & H & ->). destruct (key_bytes d ltac:(lia)) as [BK EK]. destruct (pubkey_load_ok _ _ H) as (L & R & N).
  unfold keypair_load, keypair_seckey_load. rewrite sk_app_exact, fn_app_exact by apply be_bytes_length.
  destruct (pubkey_load pk) as [ok g]. cbn [fst snd] in *. subst ok. destruct (seckey_cases _ BK) as [K C].
  destruct (sc_set_b32_seckey (be_bytes 32 d)) as [s r]. cbn [fst snd] in *. destruct C as [(_ & -> & E)|(F & _)].
  - exists s, g. rewrite E, EK. tauto.
  - exfalso. apply F. split; [exact BK|]. now rewrite EK.
Qed.
Lemma keypair_save_ok s g d : sc_ok s -> sv s = d -> 1 <= d < n -> ge_rep f1 g (pmul d G) -> keypair_holds (keypair_save s g) d.
Proof.
  intros K E R RG. split; [exact R|]. exists (pubkey_save g). split; [apply pubkey_save_ok; [exact RG|now apply pmul_G_nInf]|].
  unfold keypair_save. rewrite sc_get_b32_ok by apply K. now rewrite E.
Qed.
Lemma keypair_save_length s g : sc_ok s -> length (keypair_save s g) = 96%nat.
Proof. intros K. unfold keypair_save. rewrite app_length, pubkey_save_length, sc_get_b32_ok, be_bytes_length by apply K. reflexivity. Qed.
Lemma keypair_bytes kp d : keypair_holds kp d -> bytes_n 96 kp.
Proof.
  intros (R & pk & H & ->). destruct (pubkey_holds_bytes _ _ H) as [B L]. destruct (key_bytes d ltac:(lia)) as [[B' L'] _].
  split; [apply byte_list_app; auto|]. rewrite app_length, L, L'. reflexivity.
Qed.
Lemma keypair_create_ok ctx init key : usable_context ctx -> bytes_n 32 key ->
  (1 <= be_val key < n /\ exists kp, keypair_create ctx (Some init) (Some key) = mkres 1 0 (Some kp) /\ keypair_holds kp (be_val key)) \/
  (~ 1 <= be_val key < n /\ keypair_create ctx (Some init) (Some key) = mkres 0 0 (Some (repeat 0 96))).
Proof.
  intros HC HK. destruct (usable_ctx _ HC) as [B A]. unfold keypair_create. rewrite A. cbn [negb].
  pose proof (pubkey_create_helper_ok (c_gen ctx) key B HK) as P. destruct (ec_pubkey_create_helper (c_gen ctx) key) as [[ret s] q].
  destruct P as (K & R & NI & [(V & -> & E)|(V & -> & E)]).
  - left. split; [apply V|]. exists (keypair_save s q). cbn [negb b2z].
    assert (H : keypair_holds (keypair_save s q) (be_val key)) by (apply keypair_save_ok; [exact K|exact E|apply V|now rewrite <- E]).
    rewrite memczero_false by apply (keypair_bytes _ _ H). auto.
  - right. split; [intros ?; apply V; split; assumption|]. cbn [negb b2z]. rewrite memczero_true, keypair_save_length by exact K. reflexivity.
Qed.
Lemma keypair_parts init kp d pk : keypair_holds kp d -> pubkey_holds pk (pmul d G) ->
  keypair_sec (Some init) (Some kp) = mkres 1 0 (Some (be_bytes 32 d)) /\ keypair_pub (Some init) (Some kp) = mkres 1 0 (Some pk).
Proof.
  intros (Rd & pk' & H & ->) H'. unfold keypair_sec, keypair_pub. rewrite sk_app_exact, fn_app_exact by apply be_bytes_length.
  rewrite (pubkey_holds_inj _ _ _ H' H). rewrite firstn_all2; [auto|]. destruct (pubkey_holds_bytes _ _ H) as [_ L]. lia.
Qed.
Lemma keypair_xonly_ok init par kp d : keypair_holds kp d ->
  exists xpk, keypair_xonly_pub (Some init) par (Some kp) = mkres 1 0 (Some xpk, match par with Some _ => Some (if Z.odd (ycoord (pmul d G)) then 1 else 0) | None => None end) /\
    xonly_holds xpk (even_y (pmul d G)).
Proof.
  intros (Rd & pk & H & ->). destruct (pubkey_load_ok _ _ H) as (L & R & _ & N). destruct (pubkey_holds_oc _ _ H) as (OC & NI).
  unfold keypair_xonly_pub, keypair_load_pk. rewrite sk_app_exact by apply be_bytes_length.
  destruct (pubkey_load pk) as [ok g]. cbn [fst snd] in *. subst ok. cbn [negb]. destruct (ge_even_y_ok _ _ R NI N) as (R' & EP & _).
  destruct (extrakeys_ge_even_y g) as [g' par']. cbn [fst snd] in *. subst par'. exists (pubkey_save g'). split; [reflexivity|].
  split; [apply pubkey_save_ok; [exact R'|now apply even_y_ninf]|now apply even_y_odd].
Qed.
(** The secret key whose public key has an even y coordinate. *)
Definition even_sec (d : Z) : Z := if Z.odd (ycoord (pmul d G)) then n - d else d.

Lemma even_sec_range d : 1 <= d < n -> 1 <= even_sec d < n.
Proof. unfold even_sec. destruct (Z.odd _); lia. Qed.
Lemma even_sec_pub d : pmul (even_sec d) G = even_y (pmul d G).
Proof.
  unfold even_sec, even_y. destruct (Z.odd _); [|reflexivity]. rewrite <- (pmul_neg d G on_curve_G). apply pmul_G_eq.
  replace (n - d) with (- d + 1 * n) by ring. apply Z.mod_add. discriminate.
Qed.
Lemma seckey_helper_ok s tw : sc_ok s -> bytes_n 32 tw ->
  let t := (sv s + be_val tw) mod n in
  (be_val tw < n /\ t <> 0 /\ exists s', ec_seckey_tweak_add_helper s tw = (true, s') /\ sc_ok s' /\ sv s' = t) \/
  (~ (be_val tw < n /\ t <> 0) /\ fst (ec_seckey_tweak_add_helper s tw) = false).
Proof.
  intros K HT t. destruct (sc_set_b32_case tw HT) as (KT & _ & CT). unfold ec_seckey_tweak_add_helper, eckey_privkey_tweak_add.
  destruct (sc_set_b32 tw) as [term ov]. cbn [fst snd] in *. cbv zeta.
  pose proof (sc_add_ok _ _ K KT) as KA. pose proof (sc_add_sv _ _ K KT) as EA. rewrite sc_is_zero_spec by apply KA.
  destruct CT as [(L & -> & ET)|(L & ->)].
  2: { right. split; [lia|reflexivity]. }
  rewrite ET in EA. fold t in EA. destruct (Z.eqb_spec (sv (sc_add s term)) 0) as [Z0|Z0]; rewrite EA in Z0.
  - right. split; [tauto|]. reflexivity.
  - left. split; [exact L|]. split; [exact Z0|]. exists (sc_add s term). auto.
Qed.
Lemma even_sec_load sk pk d : sc_ok sk -> sv sk = d -> 1 <= d < n -> ge_rep f1 pk (pmul d G) -> fe_norm (gy pk) ->
  let sk' := if snd (extrakeys_ge_even_y pk) =? 1 then sc_negate sk else sk in sc_ok sk' /\ sv sk' = even_sec d.
Proof.
  intros K E R RG N. destruct (ge_even_y_ok _ _ RG (pmul_G_nInf d R) N) as (_ & -> & _). unfold even_sec. destruct (Z.odd _); cbv zeta.
  - change (1 =? 1) with true. destruct (sc_negate_ok sk K) as [K' E']. split; [exact K'|]. rewrite E', E. rewrite Z.mod_opp_l_nz; rewrite ?(Z.mod_small d) by lia; lia.
  - change (0 =? 1) with false. auto.
Qed.
Lemma keypair_tweak_ok kp d tw : keypair_holds kp d -> bytes_n 32 tw ->
  let t := (even_sec d + be_val tw) mod n in
  (be_val tw < n /\ t <> 0 /\ exists kp', keypair_xonly_tweak_add (Some kp) (Some tw) = mkres 1 0 (Some kp') /\ keypair_holds kp' t) \/
  (~ (be_val tw < n /\ t <> 0) /\ keypair_xonly_tweak_add (Some kp) (Some tw) = mkres 0 0 (Some (repeat 0 96))).
Proof.
  intros H HT t. assert (Rd : 1 <= d < n) by apply H. destruct (keypair_load_ok _ _ H) as (sk & pk & E & K & ES & RG & N1 & N2). unfold keypair_xonly_tweak_add. rewrite E.
  cbv zeta. destruct (even_sec_load sk pk d K ES Rd RG N2) as [K' ES']. destruct (ge_even_y_ok _ _ RG (pmul_G_nInf d Rd) N2) as (RE & _ & _).
  destruct (extrakeys_ge_even_y pk) as [pk' par]. cbn [fst snd] in *. set (sk' := if par =? 1 then _ else _) in *. clearbody sk'.
  assert (ET : padd (even_y (pmul d G)) (pmul (be_val tw) G) = pmul t G).
  { rewrite <- even_sec_pub, K_add. unfold t. now rewrite pmul_mod by exact on_curve_G. }
  assert (NZ : t <> 0 <-> pmul t G <> Inf).
  { split; intros A B; apply A.
    - apply pmul_G_Inf in B. unfold t in *. rewrite Z.mod_mod in B by discriminate. exact B.
    - rewrite B. reflexivity. }
  destruct (seckey_helper_ok sk' tw K' HT) as [(L & T & s' & E1 & K1 & V1)|(C & E1)]; rewrite ES' in *; fold t in T || fold t in C.
  - rewrite E1. destruct (tweak_helper_ok _ _ tw RE HT) as [(C2 & g' & E2 & RG2)|(C2 & E2)]; rewrite E2; rewrite ET in *.
    + left. split; [exact L|]. split; [exact T|]. exists (keypair_save s' g'). split; [reflexivity|]. apply keypair_save_ok; [exact K1|exact V1| |exact RG2].
      pose proof (Z.mod_pos_bound (even_sec d + be_val tw) n ltac:(reflexivity)) as B. fold t in B. lia.
    + exfalso. apply C2. split; [exact L|]. now apply NZ.
  - right. split; [exact C|]. destruct (ec_seckey_tweak_add_helper sk' tw) as [r1 s']. cbn [fst] in E1. subst r1. destruct (ec_pubkey_tweak_add_helper pk' tw); reflexivity.
Qed.
