(** MuSig2: aggregated signatures verify. *)
Require Import ZArith List Bool Lia Field String.
From Verif Require Import NumTheory Spec SpecApi SpecHash SpecBip340 SpecMusig Primes ZmField Curve NField Word Bytes.
From Verif Require Import FieldModel FieldMul FieldProof FieldProof2 FieldBytes FieldOps.
From Verif Require Import ScalarModel ScalarProof ScalarProof2 ScalarMul.
From Verif Require Import GroupModel GroupProof GroupProof2 GroupProof3 GroupProof4 GroupProof5.
From Verif Require Import HashModel HashProof GenModel GenProof EcmultModel EcmultProof EcmultProof2 EcdsaModel ApiModel ApiVocab ApiProof ApiProof2 ApiProof3 EcdsaProof EcdsaProof2 KeyProps KeyProps2 EcdhProof.
From Verif Require Import ExtrakeysModel ExtrakeysProof SchnorrModel SchnorrProof EllswiftProof2 MusigModel MusigVocab MusigProof MusigProof2 MusigProof3 MusigProof4 MusigProof5.
Import ListNotations.
Local Open Scope Z_scope.
Local Opaque p n.
Local Notation length := List.length.
Local Opaque SHA256 be_bytes tagged_hash pmul.

Lemma made_nonce_ok ctx kp d pk sn pn : usable_context ctx -> keypair_holds kp d -> pubkey_holds pk (pmul d G) -> made_nonce ctx kp d pk sn pn ->
  exists k1 k2, secnonce_holds sn k1 k2 (pmul d G) /\ pubnonce_holds pn (pmul k1 G) (pmul k2 G).
Proof.
  intros U HK HP H. destruct H as [sn0 pn0 rand sk m cache aggpk extra ill o BR NR BS BM HC BE NZ E|sn0 pn0 cnt m cache aggpk extra ill RC BM HC BE NZ E|k1 k2 A B]; [| |eauto].
  - destruct (nonce_gen_ok ctx sn0 pn0 rand sk pk (pmul d G) m cache aggpk extra U BR NR BS HP BM HC BE (NZ 0 (or_introl eq_refl)) (NZ 1 (or_intror eq_refl))) as (sn' & pn' & PN & [(_ & SN & E')|(_ & E')]);
      rewrite E in E'; apply res_inv in E' as (ER & _ & EO); [|discriminate]. assert (A : sn = sn') by (apply (f_equal (fun x => fst (fst x))) in EO; cbn [fst] in EO; congruence).
    assert (B : pn = pn') by (apply (f_equal (fun x => snd (fst x))) in EO; cbn [fst snd] in EO; congruence). subst sn' pn'. eauto.
  - destruct (nonce_gen_counter_ok ctx sn0 pn0 cnt kp d m cache aggpk extra U RC HK BM HC BE (NZ 0 (or_introl eq_refl)) (NZ 1 (or_intror eq_refl))) as (sn' & pn' & PN & SN & E').
    rewrite E in E'. apply res_inv in E' as (_ & _ & EO). assert (A : sn = sn') by (apply (f_equal fst) in EO; cbn [fst] in EO; congruence). assert (B : pn = pn') by (apply (f_equal snd) in EO; cbn [snd] in EO; congruence). subst sn' pn'. eauto.
Qed.
Lemma honest_nonce ctx pks tws m an s : usable_context ctx -> honest_signer ctx pks tws m an s ->
  exists k, secnonce_holds (sg_sn s) (fst k) (snd k) (pmul (sg_d s) G) /\ pubnonce_holds (sg_pn s) (pmul (fst k) G) (pmul (snd k) G).
Proof. intros U (HK & HP & HN & _). destruct (made_nonce_ok _ _ _ _ _ _ U HK HP HN) as (k1 & k2 & A & B). exists (k1, k2). auto. Qed.
Lemma honest_nonces ctx pks tws m an l : usable_context ctx -> Forall (honest_signer ctx pks tws m an) l ->
  exists ks, Forall2 (fun s k => secnonce_holds (sg_sn s) (fst k) (snd k) (pmul (sg_d s) G) /\ pubnonce_holds (sg_pn s) (pmul (fst k) G) (pmul (snd k) G)) l ks.
Proof.
  intros U. induction 1 as [|s l H _ (ks & IH)]; [exists []; constructor|]. destruct (honest_nonce _ _ _ _ _ _ U H) as (k & Hk). exists (k :: ks). now constructor.
Qed.
Lemma apply_tweaks_fun c tws c1 c2 : apply_tweaks c tws = Some c1 -> apply_tweaks c tws = Some c2 -> c1 = c2. Proof. congruence. Qed.
Lemma honest_psig ctx pks Ps tws m an s k c R1 R2 : Forall2 pubkey_holds pks Ps -> 33 * Z.of_nat (length Ps) < 2 ^ 61 - 64 -> key_agg Ps <> Inf -> bytes_n 32 m ->
  apply_tweaks (agg_start Ps) (tweak_vals tws) = Some c -> aggnonce_holds an R1 R2 ->
  secnonce_holds (sg_sn s) (fst k) (snd k) (pmul (sg_d s) G) -> honest_signer ctx pks tws m an s ->
  psig_holds (sg_psig s) (partial_sig Ps c (session_of c R1 R2 m) (fst k) (snd k) (sg_d s)).
Proof.
  intros HPS HL NI BM EC HA SN (HK & HP & _ & cache & sess & sess0 & ps0 & i1 & i2 & o & HH & EN & ES).
  destruct (history_ok _ _ _ _ HPS HL NI HH) as (c' & EC' & HC). assert (c' = c) as -> by congruence.
  destruct (nonce_process_ok sess0 an cache m Ps c R1 R2 HC HA BM) as (obj & EO & HS). rewrite EN in EO. apply res_inv in EO as (_ & _ & EO). assert (sess = obj) as -> by congruence.
  destruct (partial_sign_ok ps0 _ _ _ _ _ _ _ _ _ _ _ SN HK HC HS) as [(_ & ps & EP & PH)|(NE & _)]; [|congruence].
  rewrite ES in EP. apply res_inv in EP as (_ & _ & EP). apply (f_equal fst) in EP. cbn [fst] in EP. assert (sg_psig s = ps) as -> by congruence. exact PH.
Qed.
Lemma honest_psigs ctx pks Ps tws m an c R1 R2 : Forall2 pubkey_holds pks Ps -> 33 * Z.of_nat (length Ps) < 2 ^ 61 - 64 -> key_agg Ps <> Inf -> bytes_n 32 m ->
  apply_tweaks (agg_start Ps) (tweak_vals tws) = Some c -> aggnonce_holds an R1 R2 -> forall l ks,
  Forall2 (fun s k => secnonce_holds (sg_sn s) (fst k) (snd k) (pmul (sg_d s) G) /\ pubnonce_holds (sg_pn s) (pmul (fst k) G) (pmul (snd k) G)) l ks -> Forall (honest_signer ctx pks tws m an) l ->
  Forall2 psig_holds (map sg_psig l) (map (fun sk => partial_sig Ps c (session_of c R1 R2 m) (fst (snd sk)) (snd (snd sk)) (sg_d (fst sk))) (combine l ks)).
Proof.
  intros HPS HL NI BM EC HA. induction 1 as [|s k l ks (SN & _) _ IH]; intros F; cbn [map combine]; [constructor|]. inversion F as [|? ? F1 F2]. subst. constructor; [|now apply IH].
  cbn [fst snd]. exact (honest_psig _ _ _ _ _ _ _ _ _ _ _ HPS HL NI BM EC HA SN F1).
Qed.

(** ** The algebra *)
Definition zsum (l : list Z) : Z := fold_right Z.add 0 l.
Lemma psum_K (ks : list Z) : psum (map (fun k => pmul k G) ks) = pmul (zsum ks) G.
Proof. induction ks as [|k ks IH]; [reflexivity|]. cbn [map]. rewrite psum_cons, IH, K_add. reflexivity. Qed.
Lemma key_agg_K Ps ds : psum (map (fun P => pmul (key_coef Ps P) P) (map (fun d => pmul d G) ds)) = pmul (zsum (map (fun d => key_coef Ps (pmul d G) * d) ds)) G.
Proof. induction ds as [|d ds IH]; [reflexivity|]. cbn [map]. rewrite psum_cons, IH, K_mul, K_add. reflexivity. Qed.
Lemma zsum_lin a b (x y : list Z) : length x = length y -> zsum (map (fun xy => a * fst xy + b * snd xy) (combine x y)) = a * zsum x + b * zsum y.
Proof. revert y. induction x as [|x0 x IH]; intros [|y0 y] L; cbn in L; try discriminate; cbn [combine map zsum fold_right fst snd]; [ring|]. fold (zsum (map (fun xy => a * fst xy + b * snd xy) (combine x y))). rewrite IH by lia. unfold zsum. ring. Qed.
Lemma psig_sum Ps c s l ks : length l = length ks ->
  toN (zsum (map (fun sk => partial_sig Ps c s (fst (snd sk)) (snd (snd sk)) (sg_d (fst sk))) (combine l ks))) =
  toN ((if Z.odd (ycoord (ss_R s)) then -1 else 1) * (zsum (map fst ks) + ss_b s * zsum (map snd ks)) + ss_e s * sign_factor c * zsum (map (fun d => key_coef Ps (pmul d G) * d) (map sg_d l))).
Proof.
  revert ks. induction l as [|a l IH]; intros [|k ks] L; cbn in L; try discriminate; cbn [combine map zsum fold_right fst snd].
  - f_equal. ring.
  - specialize (IH ks ltac:(lia)). unfold zsum in IH. rewrite toN_add, IH. unfold partial_sig. rewrite toN_mod, (toN_add (neg_if _ _)), toN_neg_if.
    set (par := if Z.odd (ycoord (ss_R s)) then -1 else 1). set (kc := key_coef Ps (pmul (sg_d a) G)). clearbody par kc. push_toN. ring.
Qed.
Lemma sigma_sq (b : bool) : (if b then -1 else 1) * (if b then -1 else 1) = 1. Proof. now destruct b. Qed.
Lemma final_valid q r s m : pmul q G <> Inf -> pmul r G <> Inf -> 0 <= s < n ->
  let Q := pmul q G in let R := pmul r G in let e := bip340_challenge (xcoord R) (xcoord Q) m in
  toN s = toN ((if Z.odd (ycoord R) then -1 else 1) * r + e * ((if Z.odd (ycoord Q) then -1 else 1) * q)) ->
  bip340_valid (even_y Q) m (be_bytes 32 (xcoord R) ++ be_bytes 32 s).
Proof.
  intros NQ NR RS Q R e ES. assert (OQ : on_curve Q) by (unfold Q; auto with curve). assert (OR : on_curve R) by (unfold R; auto with curve). pose proof (xcoord_range _ OR) as RX.
  unfold bip340_valid. rewrite firstn_app, skipn_app, !be_bytes_length, Nat.sub_diag, firstn_O, skipn_O, app_nil_r, firstn_all2, skipn_all2 by (rewrite be_bytes_length; lia). cbn [app].
  assert (p < 2 ^ 256) by reflexivity. rewrite (be_bytes_32_val (xcoord R)) by lia. rewrite (val32 s RS). cbv zeta. rewrite even_y_x. fold e.
  assert (EQ : padd (pmul s G) (pneg (pmul e (even_y Q))) = even_y R).
  { rewrite (even_pmul Q OQ), (even_pmul R OR). set (a := if Z.odd (ycoord Q) then -1 else 1) in *. set (b := if Z.odd (ycoord R) then -1 else 1) in *. clearbody a b e. unfold Q, R.
    rewrite !K_mul, <- (pmul_neg _ G on_curve_G), K_add. apply NField.K_eq. rewrite toN_add, ES. push_toN. ring. }
  rewrite EQ. split; [lia|]. split; [lia|]. split; [now apply even_y_ninf|]. split; [now apply even_y_odd|]. apply even_y_x.
Qed.
Lemma aggregate_valid Ps c ds ks K1 K2 m q0 vs :
  agg_inv (pmul q0 G) c -> K1 = zsum (map fst ks) -> K2 = zsum (map snd ks) -> q0 = zsum (map (fun d => key_coef Ps (pmul d G) * d) ds) ->
  let R1 := pmul K1 G in let R2 := pmul K2 G in nonce_sum R1 R2 (nonce_coef R1 R2 (ac_Q c) m) <> Inf ->
  let s := session_of c R1 R2 m in
  toN (zsum vs) = toN ((if Z.odd (ycoord (ss_R s)) then -1 else 1) * (K1 + ss_b s * K2) + ss_e s * sign_factor c * q0) ->
  bip340_valid (even_y (ac_Q c)) m (aggregate_sig s vs) /\ bytes_n 64 (aggregate_sig s vs).
Proof.
  intros (OC & NI & HG & HT & EQ) _ _ _ R1 R2 NS s EV. split.
  2: { unfold aggregate_sig. split; [apply byte_list_app; split; apply be_bytes_byte_list|]. rewrite app_length, !be_bytes_length. reflexivity. }
  unfold s, session_of, aggregate_sig in *. cbv zeta in *. cbn [ss_R ss_b ss_e ss_s0] in *. set (b := nonce_coef R1 R2 (ac_Q c) m) in *. clearbody b.
  assert (ER : nonce_sum R1 R2 b = pmul (K1 + b * K2) G) by (unfold nonce_sum, R1, R2; now rewrite K_mul, K_add). clear s. rewrite ER in *. clear ER R1 R2.
  set (r := K1 + b * K2) in *. assert (ER : match pmul r G with Inf => G | Aff x y => Aff x y end = pmul r G) by (destruct (pmul r G); [congruence|reflexivity]). rewrite ER in *. clear ER. clearbody r.
  rewrite K_mul, K_add in EQ. rewrite EQ in *. set (q := ac_gacc c * q0 + ac_tacc c) in *.
  apply (final_valid q r); [exact NI|exact NS|apply Z.mod_pos_bound, n_pos|]. set (e := bip340_challenge _ _ m) in *. clearbody e.
  unfold sign_factor in EV. rewrite EQ in EV. set (a := Z.odd (ycoord (pmul q G))) in *. clearbody a. set (g := Z.odd (ycoord (pmul r G))) in *. clearbody g. fold (zsum vs).
  rewrite toN_mod, toN_add, EV. unfold q. rewrite !toN_mod. destruct a; cbn [neg_if]; push_toN; change (-1) with (- (1)); push_toN; ring.
Qed.
Theorem musig_end_to_end ctx signers tws m an0 an i0 cache session0 session i1 sig0 sig i2 pk0 aggpk i3 x0 par xpk o i4 :
  let pks := map sg_pk signers in let Ps := map (fun s => pmul (sg_d s) G) signers in
  usable_context ctx -> 33 * Z.of_nat (length signers) < 2 ^ 61 - 64 -> bytes_n 32 m -> key_agg Ps <> Inf ->
  musig_nonce_agg (Some an0) (Some (map sg_pn signers)) = mkres 1 i0 (Some an) ->
  Forall (honest_signer ctx pks tws m an) signers ->
  agg_history pks cache tws ->
  musig_nonce_process (Some session0) (Some an) (Some m) (Some cache) = mkres 1 i1 (Some session) ->
  musig_partial_sig_agg (Some sig0) (Some session) (Some (map sg_psig signers)) = mkres 1 i2 (Some sig) ->
  musig_pubkey_get (Some pk0) (Some cache) = mkres 1 i3 (Some aggpk) ->
  xonly_pubkey_from_pubkey (Some x0) par (Some aggpk) = mkres 1 i4 (Some xpk, o) ->
  (forall Q R1 R2, pubkey_holds aggpk Q -> aggnonce_holds an R1 R2 -> nonce_sum R1 R2 (nonce_coef R1 R2 Q m) <> Inf) ->
  schnorrsig_verify (Some sig) (Some m) 32 (Some xpk) = mkres 1 0 tt.
Proof.
  intros pks Ps U HL BM NI EN HF HH EP ES EG EX ND.
  assert (HPS : Forall2 pubkey_holds pks Ps). { unfold pks, Ps. clear -HF. induction HF as [|s l H _ IH]; cbn [map]; constructor; [apply H|]. exact IH. }
  assert (LPS : 33 * Z.of_nat (length Ps) < 2 ^ 61 - 64) by (unfold Ps; rewrite map_length; exact HL).
  destruct (honest_nonces _ _ _ _ _ _ U HF) as (ks & HK).
  assert (NE : signers <> []) by (intros ->; cbv in EN; congruence).
  set (Rs := map (fun k => (pmul (fst k) G, pmul (snd k) G)) ks). set (K1 := zsum (map fst ks)). set (K2 := zsum (map snd ks)).
  assert (HN : Forall2 (fun pn R => pubnonce_holds pn (fst R) (snd R)) (map sg_pn signers) Rs). { unfold Rs. clear -HK. induction HK as [|s k l ks (_ & H) _ IH]; cbn [map]; constructor; [exact H|exact IH]. }
  assert (NR : Rs <> []). { unfold Rs. destruct signers as [|s0 l0]; [congruence|]. inversion HK. subst. discriminate. }
  destruct (nonce_agg_ok an0 _ _ HN NR) as (an' & EA & HA). rewrite EN in EA. apply res_inv in EA as (_ & _ & EA). assert (an' = an) as -> by congruence. clear EA.
  assert (E1 : psum (map fst Rs) = pmul K1 G). { unfold Rs, K1. rewrite map_map. cbn [fst]. rewrite <- psum_K, map_map. reflexivity. }
  assert (E2 : psum (map snd Rs) = pmul K2 G). { unfold Rs, K2. rewrite map_map. cbn [snd]. rewrite <- psum_K, map_map. reflexivity. }
  rewrite E1, E2 in HA. clear E1 E2.
  destruct (history_inv _ _ _ _ HPS LPS NI HH) as (c & EC & HC & INV).
  destruct (nonce_process_ok session0 an cache m Ps c _ _ HC HA BM) as (obj & EO & HS). rewrite EP in EO. apply res_inv in EO as (_ & _ & EO). assert (session = obj) as -> by congruence. clear EO.
  pose proof (honest_psigs _ _ _ _ _ _ _ _ _ HPS LPS NI BM EC HA _ _ HK HF) as HV.
  set (s := session_of c (pmul K1 G) (pmul K2 G) m) in *.
  pose proof (psig_sum Ps c s signers ks (Forall2_len _ _ _ HK)) as SUM. fold K1 K2 in SUM. set (vs := map _ (combine signers ks)) in *.
  assert (NV : vs <> []). { unfold vs. destruct signers as [|s0 l0]; [congruence|]. inversion HK. subst. discriminate. }
  rewrite (partial_agg_ok sig0 _ _ _ _ HS HV NV) in ES. apply res_inv in ES as (_ & _ & ES). assert (sig = aggregate_sig s vs) as -> by congruence. clear ES.
  destruct (pubkey_get_ok pk0 _ _ _ HC) as (apk & EG' & HAP). rewrite EG in EG'. apply res_inv in EG' as (_ & _ & EG'). assert (apk = aggpk) as -> by congruence. clear EG'.
  destruct (from_pubkey_ok x0 par _ _ HAP) as (xpk' & EX' & HX). rewrite EX in EX'. apply res_inv in EX' as (_ & _ & EX'). apply (f_equal fst) in EX'. cbn [fst] in EX'. assert (xpk' = xpk) as -> by congruence. clear EX'.
  assert (EKA : key_agg Ps = pmul (zsum (map (fun d => key_coef Ps (pmul d G) * d) (map sg_d signers))) G). { rewrite <- key_agg_K. unfold key_agg. unfold Ps at 3. rewrite (map_map sg_d). reflexivity. }
  rewrite EKA in INV.
  destruct (aggregate_valid Ps c (map sg_d signers) ks K1 K2 m _ vs INV eq_refl eq_refl eq_refl (ND _ _ _ HAP HA) SUM) as (VAL & BSIG). fold s in VAL, BSIG.
  assert (EM : msg_bytes (Some m) 32 = m). { unfold msg_bytes. destruct BM as [_ LM]. apply firstn_all2. rewrite LM. reflexivity. }
  pose proof (SchnorrProof.verify_ok (aggregate_sig s vs) (Some m) 32 xpk (even_y (ac_Q c)) BSIG) as V. cbv zeta in V. rewrite EM in V.
  destruct V as [(_ & V)|(V & _)]; [left; discriminate|apply BM|rewrite (proj2 BM); reflexivity|apply HX|exact V|contradiction].
Qed.
(** An honest partial signature is valid, and valid values are unique. *)
Lemma honest_valid Ps c s k1 k2 d : (sign_factor c = 1 \/ sign_factor c = -1) -> partial_sig_valid Ps c s (pmul k1 G) (pmul k2 G) (pmul d G) (partial_sig Ps c s k1 k2 d).
Proof.
  intros _. unfold partial_sig_valid, partial_sig, nonce_sum. cbv zeta. rewrite !K_mul, K_add.
  assert (E : (if Z.odd (ycoord (ss_R s)) then pneg (pmul (k1 + ss_b s * k2) G) else pmul (k1 + ss_b s * k2) G) = pmul (neg_if (Z.odd (ycoord (ss_R s))) (k1 + ss_b s * k2)) G).
  { destruct (Z.odd (ycoord (ss_R s))); cbn [neg_if]; [now rewrite (pmul_neg _ G on_curve_G)|reflexivity]. }
  rewrite E, K_add. apply NField.K_eq. rewrite toN_mod. apply (f_equal toN). ring.
Qed.
Lemma valid_unique Ps c s R1 R2 P v v' : 0 <= v < n -> 0 <= v' < n -> partial_sig_valid Ps c s R1 R2 P v -> partial_sig_valid Ps c s R1 R2 P v' -> v = v'.
Proof. unfold partial_sig_valid. cbv zeta. intros H1 H2 <- E. apply pmul_G_eq in E. rewrite !Z.mod_small in E by assumption. now symmetry. Qed.
