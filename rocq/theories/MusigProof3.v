(** MuSig2: nonce generation, nonce aggregation, sessions and partial signatures. *)
Require Import ZArith List Bool Lia Field String.
From Verif Require Import NumTheory Spec SpecApi SpecHash SpecBip340 SpecMusig Primes ZmField Curve NField Word Bytes.
From Verif Require Import FieldModel FieldMul FieldProof FieldProof2 FieldBytes FieldOps.
From Verif Require Import ScalarModel ScalarProof ScalarProof2 ScalarMul.
From Verif Require Import GroupModel GroupProof GroupProof2 GroupProof3 GroupProof4 GroupProof5.
From Verif Require Import HashModel HashProof GenModel GenProof EcmultModel EcmultProof EcmultProof2 EcdsaModel ApiModel ApiVocab ApiProof ApiProof2 ApiProof3 EcdsaProof EcdsaProof2 KeyProps KeyProps2 EcdhProof.
From Verif Require Import ExtrakeysModel ExtrakeysProof SchnorrModel SchnorrProof EllswiftProof2 MusigModel MusigVocab MusigProof MusigProof2.
Import ListNotations.
Local Open Scope Z_scope.
Local Opaque p n.
Local Notation length := List.length.
Local Opaque SHA256 be_bytes tagged_hash pmul.

Lemma secnonce_save_ok s1 s2 g k1 k2 P : sc_ok s1 -> sv s1 = k1 -> k1 <> 0 -> sc_ok s2 -> sv s2 = k2 -> k2 <> 0 -> ge_rep f1 g P -> P <> Inf ->
  secnonce_holds (musig_secnonce_save s1 s2 g) k1 k2 P.
Proof.
  intros K1 E1 N1 K2 E2 N2 R NI. pose proof (sc_ok_range _ K1). pose proof (sc_ok_range _ K2). split; [lia|]. split; [lia|]. split; [split; [exact (ge_rep_oc _ _ _ R)|exact NI]|].
  unfold musig_secnonce_save. now rewrite (sc_save _ _ K1 E1), (sc_save _ _ K2 E2), (save64 _ _ R NI).
Qed.
Lemma secnonce_bytes sn k1 k2 P : secnonce_holds sn k1 k2 P -> bytes_n 132 sn.
Proof.
  intros (_ & _ & _ & ->). split.
  - apply byte_list_app. split; [repeat constructor; lia|]. apply byte_list_app. split; [apply be_bytes_byte_list|]. apply byte_list_app. split; [apply be_bytes_byte_list|apply point64_bytes].
  - rewrite !app_length, !be_bytes_length, point64_length. reflexivity.
Qed.
Lemma agg_x_ok ci Ps c : cache_int ci Ps c -> fe_norm (gx (ci_pk ci)) -> fe_get_b32 (gx (ci_pk ci)) = be_bytes 32 (xcoord (ac_Q c)).
Proof.
  intros (RQ & NI & _) NX. rewrite fe_get_b32_ok by exact NX. destruct (ac_Q c) as [|x y]; [congruence|]. now rewrite (fval_of_rep _ _ _ RQ NX).
Qed.
Lemma agg_odd_ok ci Ps c : cache_int ci Ps c -> fe_norm (gy (ci_pk ci)) -> fe_is_odd (gy (ci_pk ci)) = Z.odd (ycoord (ac_Q c)).
Proof.
  intros (RQ & NI & _) NY. rewrite fe_is_odd_spec by exact NY. destruct (ac_Q c) as [|x y]; [congruence|]. now rewrite (fval_of_rep_y _ _ _ RQ NY).
Qed.
Lemma gen_internal_ok ctx sn0 pn0 rand sk pk P m cache aggpk extra :
  usable_context ctx -> bytes_n 32 rand -> opt_bytes 32 sk -> pubkey_holds pk P -> opt_bytes 32 m -> cache_arg cache aggpk -> opt_bytes 32 extra ->
  let k1 := nonce_gen_k rand sk (cbytes P) aggpk m extra 0 in let k2 := nonce_gen_k rand sk (cbytes P) aggpk m extra 1 in
  k1 <> 0 -> k2 <> 0 ->
  exists sn pn, pubnonce_holds pn (pmul k1 G) (pmul k2 G) /\
    ((sk_valid sk /\ secnonce_holds sn k1 k2 P /\ musig_nonce_gen_internal ctx sn0 (Some pn0) rand sk (Some pk) m cache extra = mkres 1 0 (sn, Some pn)) \/
     (~ sk_valid sk /\ sn = repeat 0 132 /\ musig_nonce_gen_internal ctx sn0 (Some pn0) rand sk (Some pk) m cache extra = mkres 0 0 (sn, Some pn))).
Proof.
  intros U HR HS HP HM HC HE k1 k2 N1 N2. destruct (usable_ctx _ U) as (GC & GB). destruct (pubkey_load_ok _ _ HP) as (LD & RP & _). destruct (pubkey_holds_oc _ _ HP) as (OC & NI).
  unfold musig_nonce_gen_internal. rewrite GB. cbn [negb].
  assert (EC : match cache with Some cache => match keyagg_cache_load cache with Some ci => Some (Some (fe_get_b32 (gx (ci_pk ci)))) | None => None end | None => Some None end = Some aggpk).
  { unfold cache_arg in HC. destruct cache as [obj|]; [|now rewrite HC]. destruct HC as (Ps & c & H & ->). destruct (cache_load_ok _ _ _ H) as (ci & -> & CI & NX & _). now rewrite (agg_x_ok _ _ _ CI NX). }
  assert (HA : opt_bytes 32 aggpk).
  { unfold cache_arg in HC. destruct cache as [obj|]; [|now rewrite HC]. destruct HC as (Ps & c & _ & ->). intros l E. assert (l = be_bytes 32 (xcoord (ac_Q c))) as -> by congruence. apply be32_bytes. }
  rewrite EC. clear EC HC. destruct (pubkey_load pk) as [ok g]. cbn [fst snd] in *. subst ok. cbn [negb]. rewrite (ser_ok _ _ RP NI).
  assert (BP : bytes_n 33 (cbytes P)) by (split; [apply cbytes_bytes|apply cbytes_length]).
  destruct (nonce_fun_ok rand m sk (cbytes P) aggpk extra HR HM HS BP HA HE) as (s1 & s2 & -> & (K1 & E1) & (K2 & E2)). fold k1 in E1. fold k2 in E2. clearbody k1 k2.
  pose proof (ecmult_gen_ok _ _ GC K1) as M1. pose proof (ecmult_gen_ok _ _ GC K2) as M2. rewrite E1 in M1. rewrite E2 in M2.
  pose proof (sc_ok_range _ K1) as R1. pose proof (sc_ok_range _ K2) as R2. rewrite E1 in R1. rewrite E2 in R2.
  assert (I1 : pmul k1 G <> Inf) by (apply pmul_G_nInf; lia). assert (I2 : pmul k2 G <> Inf) by (apply pmul_G_nInf; lia).
  pose proof (secnonce_save_ok s1 s2 g k1 k2 P K1 E1 N1 K2 E2 N2 RP NI) as SN. destruct (secnonce_bytes _ _ _ _ SN) as [BSN LSN].
  set (j1 := ecmult_gen (c_gen ctx) s1) in *. set (j2 := ecmult_gen (c_gen ctx) s2) in *. clearbody j1 j2.
  assert (F : Forall2 (ge_rep f1) (ge_set_all_gej [j1; j2]) [pmul k1 G; pmul k2 G]).
  { apply ge_set_all_gej_ok; [constructor; [exact M1|constructor; [exact M2|constructor]]|]. pose proof (gej_rep_jinf _ _ _ M1) as J1. pose proof (gej_rep_jinf _ _ _ M2) as J2.
    constructor; [destruct (jinf j1); [exfalso; apply I1; now apply J1|reflexivity]|]. constructor; [destruct (jinf j2); [exfalso; apply I2; now apply J2|reflexivity]|constructor]. }
  set (l := ge_set_all_gej [j1; j2]) in *. clearbody l. inversion F as [|g1 ? l1 ? RG1 F1]. subst. inversion F1 as [|g2 ? l2 ? RG2 F2]. subst. inversion F2. subst.
  pose proof (pubnonce_save_ok _ _ _ _ RG1 I1 RG2 I2) as PN.
  set (sn := musig_secnonce_save s1 s2 g) in *. clearbody sn.
  assert (SK : (sk_valid sk /\ match sk with Some s => snd (sc_set_b32_seckey s) | None => true end = true) \/ (~ sk_valid sk /\ match sk with Some s => snd (sc_set_b32_seckey s) | None => true end = false)).
  { destruct sk as [s|]; [|left; split; [exact I|reflexivity]]. destruct (seckey_cases s (HS s eq_refl)) as (_ & [(V & -> & _)|(V & ->)]); [left|right]; split; auto. }
  unfold musig_secnonce_invalidate. destruct SK as [(V & ->)|(V & ->)]; cbn [negb b2z].
  - exists sn, (musig_pubnonce_save g1 g2). split; [exact PN|]. left. split; [exact V|]. split; [exact SN|]. rewrite (memczero_false sn BSN). reflexivity.
  - exists (repeat 0 132), (musig_pubnonce_save g1 g2). split; [exact PN|]. right. split; [exact V|]. split; [reflexivity|]. rewrite memczero_true, LSN. reflexivity.
Qed.
Theorem nonce_gen_ok ctx sn0 pn0 rand sk pk P m cache aggpk extra :
  usable_context ctx -> bytes_n 32 rand -> rand <> repeat 0 32 -> opt_bytes 32 sk -> pubkey_holds pk P -> opt_bytes 32 m -> cache_arg cache aggpk -> opt_bytes 32 extra ->
  let k1 := nonce_gen_k rand sk (cbytes P) aggpk m extra 0 in let k2 := nonce_gen_k rand sk (cbytes P) aggpk m extra 1 in
  k1 <> 0 -> k2 <> 0 ->
  exists sn pn, pubnonce_holds pn (pmul k1 G) (pmul k2 G) /\
    ((sk_valid sk /\ secnonce_holds sn k1 k2 P /\ musig_nonce_gen ctx (Some sn0) (Some pn0) (Some rand) sk (Some pk) m cache extra = mkres 1 0 (Some sn, Some pn, Some (repeat 0 32))) \/
     (~ sk_valid sk /\ musig_nonce_gen ctx (Some sn0) (Some pn0) (Some rand) sk (Some pk) m cache extra = mkres 0 0 (Some (repeat 0 132), Some pn, Some rand))).
Proof.
  intros U HR NR HS HP HM HC HE k1 k2 N1 N2. destruct (gen_internal_ok ctx (zeros 132) pn0 rand sk pk P m cache aggpk extra U HR HS HP HM HC HE N1 N2) as (sn & pn & PN & C).
  exists sn, pn. split; [exact PN|]. unfold musig_nonce_gen. destruct HR as [BR LR]. rewrite (firstn_all2 rand) by lia.
  assert (Z : is_zero_array rand = false).
  { unfold is_zero_array. apply Z.eqb_neq. intros H. apply NR. destruct (lor_fold_0 _ _ H) as [_ F]. rewrite <- LR. clear -F. induction F as [|b l -> F IH]; [reflexivity|]. cbn [length repeat]. now rewrite <- IH. }
  rewrite Z. cbv zeta. rewrite skipn_all2, app_nil_r by lia. destruct C as [(V & SN & ->)|(V & -> & ->)]; cbn [r_ret r_ill r_out fst snd].
  - left. split; [exact V|]. split; [exact SN|]. rewrite memczero_true, LR. reflexivity.
  - right. split; [exact V|]. rewrite (memczero_false rand BR). reflexivity.
Qed.
Theorem nonce_gen_zero ctx sn0 pn0 sk pk m cache extra : musig_nonce_gen ctx (Some sn0) pn0 (Some (repeat 0 32)) sk pk m cache extra = mkres 0 0 (Some (repeat 0 132), pn0, Some (repeat 0 32)).
Proof. reflexivity. Qed.
Theorem nonce_gen_counter_ok ctx sn0 pn0 cnt kp d m cache aggpk extra :
  usable_context ctx -> 0 <= cnt < 2 ^ 64 -> keypair_holds kp d -> opt_bytes 32 m -> cache_arg cache aggpk -> opt_bytes 32 extra ->
  let rand := be_bytes 8 cnt ++ repeat 0 24 in let P := pmul d G in let sk := Some (be_bytes 32 d) in
  let k1 := nonce_gen_k rand sk (cbytes P) aggpk m extra 0 in let k2 := nonce_gen_k rand sk (cbytes P) aggpk m extra 1 in
  k1 <> 0 -> k2 <> 0 ->
  exists sn pn, pubnonce_holds pn (pmul k1 G) (pmul k2 G) /\ secnonce_holds sn k1 k2 P /\
    musig_nonce_gen_counter ctx (Some sn0) (Some pn0) cnt (Some kp) m cache extra = mkres 1 0 (Some sn, Some pn).
Proof.
  intros U HN (Rd & pk & HP & ->) HM HC HE rand P sk k1 k2 N1 N2.
  assert (BR : bytes_n 32 rand). { split; [apply byte_list_app; split; [apply be_bytes_byte_list|apply byte_list_repeat; lia]|]. unfold rand. rewrite app_length, be_bytes_length, repeat_length. reflexivity. }
  assert (BS : opt_bytes 32 sk). { intros l E. assert (l = be_bytes 32 d) as -> by (unfold sk in E; congruence). apply be32_bytes. }
  destruct (gen_internal_ok ctx (zeros 132) pn0 rand sk pk P m cache aggpk extra U BR BS HP HM HC HE N1 N2) as (sn & pn & PN & C).
  exists sn, pn. split; [exact PN|]. destruct C as [(_ & SN & E)|(V & _)].
  2: { exfalso. apply V. unfold sk_valid, sk, seckey_valid. rewrite val32 by lia. first [lia|split; [apply be32_bytes|lia]]. }
  split; [exact SN|]. unfold musig_nonce_gen_counter. change (zeros 24) with (repeat 0 24). fold rand. cbv zeta. unfold keypair_sec, keypair_pub. cbn [r_out].
  rewrite firstn_app, be_bytes_length, Nat.sub_diag, firstn_O, app_nil_r, (firstn_all2 (be_bytes 32 d)) by (rewrite be_bytes_length; lia).
  rewrite skipn_app, be_bytes_length, Nat.sub_diag, (skipn_all2 (be_bytes 32 d)), skipn_O by (rewrite be_bytes_length; lia). cbn [app].
  rewrite (firstn_all2 pk) by (rewrite (proj2 (pubkey_holds_bytes _ _ HP)); lia). fold sk. rewrite E. reflexivity.
Qed.

(** ** Nonce aggregation *)
Lemma psum_cons P l : psum (P :: l) = padd P (psum l). Proof. reflexivity. Qed.
Lemma psum_oc l : Forall on_curve l -> on_curve (psum l).
Proof. induction 1 as [|P l H _ IH]; [exact I|]. rewrite psum_cons. now apply on_curve_add. Qed.
Lemma sum_loop_ok pns : forall Rs, Forall2 (fun pn R => pubnonce_holds pn (fst R) (snd R)) pns Rs -> forall j1 j2 S1 S2, gej_rep f1 j1 S1 -> gej_rep f1 j2 S2 ->
  exists r1 r2, sum_pubnonces_loop j1 j2 pns = Some (r1, r2) /\ gej_rep f1 r1 (padd S1 (psum (map fst Rs))) /\ gej_rep f1 r2 (padd S2 (psum (map snd Rs))).
Proof.
  induction pns as [|pn pns IH]; intros Rs H j1 j2 S1 S2 G1 G2; inversion H as [|? R ? Rs' HP HR]; subst; cbn [sum_pubnonces_loop map].
  - exists j1, j2. rewrite !padd_Inf_r. auto.
  - destruct (pubnonce_load_ok _ _ _ HP) as (g1 & g2 & -> & Q1 & Q2). unfold gej_add_ge_var.
    destruct (gej_add_ge_var_ok f1 j1 g1 S1 (fst R) f1_nz G1 Q1) as (A1 & _). destruct (gej_add_ge_var_ok f1 j2 g2 S2 (snd R) f1_nz G2 Q2) as (A2 & _).
    destruct (IH _ HR _ _ _ _ A1 A2) as (r1 & r2 & E & B1 & B2). exists r1, r2. split; [exact E|]. rewrite !psum_cons.
    assert (F : Forall on_curve (map fst Rs') /\ Forall on_curve (map snd Rs')).
    { clear -HR. induction HR as [|pn' R' l1 l2 H _ [I1 I2]]; [split; constructor|]. destruct H as ((O1 & _) & (O2 & _) & _). split; constructor; assumption. }
    destruct F as [F1 F2]. apply psum_oc in F1. apply psum_oc in F2. pose proof (gej_rep_oc _ _ _ G1). pose proof (gej_rep_oc _ _ _ G2). pose proof (ge_rep_oc _ _ _ Q1). pose proof (ge_rep_oc _ _ _ Q2).
    rewrite padd_assoc in B1, B2 by assumption. split; assumption.
Qed.
Theorem nonce_agg_ok an0 pns Rs : Forall2 (fun pn R => pubnonce_holds pn (fst R) (snd R)) pns Rs -> Rs <> [] ->
  exists an, musig_nonce_agg (Some an0) (Some pns) = mkres 1 0 (Some an) /\ aggnonce_holds an (psum (map fst Rs)) (psum (map snd Rs)).
Proof.
  intros H NE. destruct (sum_loop_ok pns Rs H _ _ _ _ (gej_infinity_rep f1) (gej_infinity_rep f1)) as (r1 & r2 & E & B1 & B2). unfold musig_nonce_agg, musig_sum_pubnonces.
  destruct pns as [|pn pns]; [inversion H; subst; congruence|]. rewrite E. clear E. set (A := psum (map fst Rs)) in *. set (B := psum (map snd Rs)) in *. clearbody A B.
  change (padd Inf A) with A in B1. change (padd Inf B) with B in B2.
  assert (F : Forall2 (ge_rep f1) (ge_set_all_gej_var [r1; r2]) [A; B]) by (apply ge_set_all_gej_var_ok; [exact f1_nz|]; constructor; [exact B1|constructor; [exact B2|constructor]]).
  set (l := ge_set_all_gej_var [r1; r2]) in *. clearbody l. inversion F as [|g1 ? l1 ? RG1 F1]. subst. inversion F1 as [|g2 ? l2 ? RG2 F2]. subst. inversion F2. subst.
  eexists. split; [reflexivity|]. now apply aggnonce_save_ok.
Qed.

(** ** Sessions *)
Lemma noncehash_ok a0 a1 R1 R2 x m : ge_rep f1 a0 R1 -> ge_rep f1 a1 R2 -> bytes_n 32 m ->
  musig_compute_noncehash a0 a1 (be_bytes 32 x) m = tagged_hash (ascii_bytes "MuSig/noncecoef"%string) (cbytes R1 ++ cbytes R2 ++ be_bytes 32 x ++ m).
Proof.
  intros H1 H2 [BM LM]. unfold musig_compute_noncehash. cbv zeta. rewrite (ser_ext_ok _ _ H1), (ser_ext_ok _ _ H2), firstn_all2 by lia. rewrite tagged_unfold.
  apply finalize_ok.
  - rewrite <- tag_app, !app_assoc. apply write_at; [|exact BM]. apply write_at; [|apply be_bytes_byte_list]. apply write_at; [|apply cbytes_bytes]. apply write_at; [|apply cbytes_bytes]. exact (mid_check_at _ _ mid_noncecoef).
  - apply tag_len. rewrite !app_length, !cbytes_length, be_bytes_length, LM. reflexivity.
Qed.
Lemma eff_ok n0 n1 b R1 R2 : ge_rep f1 n0 R1 -> ge_rep f1 n1 R2 -> sc_ok b -> gej_rep f1 (effective_nonce n0 n1 b) (nonce_sum R1 R2 (sv b)).
Proof.
  intros H1 H2 K. unfold effective_nonce, nonce_sum, gej_add_ge_var.
  pose proof (ecmult_ok (gej_set_ge n1) b None R2 (gej_set_ge_ok _ _ _ H2) K I) as M. cbn [opt_sv] in M. change (pmul 0 G) with Inf in M. rewrite padd_Inf_r in M.
  destruct (gej_add_ge_var_ok f1 _ _ _ _ f1_nz M H1) as (A & _). pose proof (ge_rep_oc _ _ _ H1). pose proof (ge_rep_oc _ _ _ H2). rewrite padd_comm; auto with curve.
Qed.
Definition final_nonce (T : point) : point := match T with Inf => G | Aff x y => Aff x y end.
Lemma G_nInf : G <> Inf. Proof. discriminate. Qed.
Lemma final_nonce_key S : on_curve S -> key_point (final_nonce S).
Proof. intros H. destruct S as [|x y]; [split; [exact on_curve_G|exact G_nInf]|split; [exact H|discriminate]]. Qed.
Definition proc_out (g : ge) (s : sc) : Z * list Z * sc :=
  let fin_nonce_pt := if ge_is_infinity g then ge_const_g else g in
  let x := fe_normalize_var (gx fin_nonce_pt) in
  let fin_nonce := fe_get_b32 x in
  let y := fe_normalize_var (gy fin_nonce_pt) in
  (b2z (fe_is_odd y), fin_nonce, s).
Lemma proc_out_ok g s T : ge_rep f1 g T ->
  proc_out g s = (if Z.odd (ycoord (final_nonce T)) then 1 else 0, be_bytes 32 (xcoord (final_nonce T)), s) /\ key_point (final_nonce T).
Proof.
  intros M. unfold proc_out. cbv zeta. unfold ge_is_infinity. pose proof (ge_rep_ginf _ _ _ M) as GI.
  assert (KP : key_point (final_nonce T)) by (apply final_nonce_key; exact (ge_rep_oc _ _ _ M)).
  assert (MF : ge_rep f1 (if ginf g then ge_const_g else g) (final_nonce T)).
  { destruct (ginf g). - assert (T = Inf) as -> by now apply GI. exact ge_const_g_ok. - destruct T as [|tx ty]; [assert (false = true) by (now apply GI); discriminate|exact M]. }
  set (gf := if ginf g then _ else _) in *. clearbody gf. destruct (norm_ge _ _ MF (proj2 KP)) as (RN & NX & NY). cbv zeta in RN, NX, NY. cbn [gx gy] in NX, NY.
  split; [|exact KP]. set (R := final_nonce T) in *. clearbody R. destruct R as [|rx ry]; [destruct KP; congruence|].
  pose proof (fval_of_rep _ _ _ RN NX) as VX. pose proof (fval_of_rep_y _ _ _ RN NY) as VY. cbn [gx gy] in VX, VY. rewrite fe_get_b32_ok, VX, fe_is_odd_spec, VY by assumption. cbn [xcoord ycoord].
  unfold b2z. reflexivity.
Qed.
Lemma process_internal_eq a0 a1 x m h : musig_compute_noncehash a0 a1 x m = h ->
  musig_nonce_process_internal a0 a1 x m = proc_out (ge_set_gej (effective_nonce a0 a1 (fst (sc_set_b32 h)))) (fst (sc_set_b32 h)).
Proof. intros <-. reflexivity. Qed.
Lemma process_internal_ok a0 a1 R1 R2 x m : ge_rep f1 a0 R1 -> ge_rep f1 a1 R2 -> bytes_n 32 m ->
  let b := be_val (tagged_hash (ascii_bytes "MuSig/noncecoef"%string) (cbytes R1 ++ cbytes R2 ++ be_bytes 32 x ++ m)) mod n in let R := final_nonce (nonce_sum R1 R2 b) in
  exists s, musig_nonce_process_internal a0 a1 (be_bytes 32 x) m = (if Z.odd (ycoord R) then 1 else 0, be_bytes 32 (xcoord R), s) /\ sc_ok s /\ sv s = b /\ key_point R.
Proof.
  intros H1 H2 HM. cbv zeta. pose proof (process_internal_eq _ _ _ _ _ (noncehash_ok _ _ _ _ x m H1 H2 HM)) as EP. rewrite EP. clear EP.
  set (h := tagged_hash _ _). assert (BH : bytes_n 32 h) by apply tagged_bytes. clearbody h. destruct (sc_mod_set h BH) as (K & E).
  set (s := fst (sc_set_b32 h)) in *. clearbody s. rewrite <- E. pose proof (eff_ok _ _ s _ _ H1 H2 K) as M. apply ge_set_gej_ok in M as (M & _ & _).
  destruct (proc_out_ok _ s _ M) as (EO & KP). rewrite EO. exists s. auto.
Qed.
Theorem nonce_process_ok s0 an cache m Ps c R1 R2 : cache_holds cache Ps c -> aggnonce_holds an R1 R2 -> bytes_n 32 m ->
  exists obj, musig_nonce_process (Some s0) (Some an) (Some m) (Some cache) = mkres 1 0 (Some obj) /\ session_holds obj (session_of c R1 R2 m).
Proof.
  intros HC HA HM. destruct (cache_load_ok _ _ _ HC) as (ci & E & CI & NX & NY). destruct (aggnonce_load_ok _ _ _ HA) as (g1 & g2 & EA & G1 & G2).
  unfold musig_nonce_process. rewrite E, EA. cbv zeta. rewrite (agg_x_ok _ _ _ CI NX), (agg_odd_ok _ _ _ CI NY).
  destruct (process_internal_ok g1 g2 R1 R2 (xcoord (ac_Q c)) m G1 G2 HM) as (s & -> & KS & ES & KR). cbv zeta in ES, KR |- *.
  unfold session_of. cbv zeta. fold (nonce_coef R1 R2 (ac_Q c) m) in ES, KR |- *.
  change (match nonce_sum R1 R2 (nonce_coef R1 R2 (ac_Q c) m) with Inf => G | Aff x y => Aff x y end) with (final_nonce (nonce_sum R1 R2 (nonce_coef R1 R2 (ac_Q c) m))).
  set (b := nonce_coef R1 R2 (ac_Q c) m) in *. clearbody b. set (R := final_nonce (nonce_sum R1 R2 b)) in *. clearbody R.
  destruct HM as [BM LM]. rewrite (firstn_all2 m) by lia. destruct (challenge_ok (xcoord R) (xcoord (ac_Q c)) m BM) as (KE & EE); [rewrite LM; reflexivity|].
  set (e := schnorrsig_challenge _ _ _) in *. clearbody e. destruct CI as (_ & _ & _ & _ & _ & KT & ET & _ & _).
  eexists. split; [reflexivity|]. apply session_save_ok. unfold session_int. cbn [si_fin_nonce_parity si_fin_nonce si_noncecoef si_challenge si_s_part ss_R ss_b ss_e ss_s0].
  split; [exact KR|]. split; [reflexivity|]. split; [reflexivity|]. split; [exact KS|]. split; [exact ES|]. split; [exact KE|]. split; [exact EE|]. rewrite <- EE, <- ET.
  rewrite sc_is_zero_spec by apply KT. pose proof (sc_mul_ok _ _ (proj1 KE) (proj1 KT)) as KM. pose proof (sc_mul_sv _ _ (proj1 KE) (proj1 KT)) as VM.
  destruct (sv (ci_tweak ci) =? 0) eqn:Z0; cbn [negb].
  - apply Z.eqb_eq in Z0. rewrite Z0, Z.mul_0_r. destruct (sc_set_int_ok 0) as (K0 & E0); [lia|]. split; [exact K0|]. rewrite E0. destruct (Z.odd _); reflexivity.
  - destruct (Z.odd (ycoord (ac_Q c))); cbn [neg_if].
    + destruct (sc_negate_ok _ KM) as (KN & EN). split; [exact KN|]. rewrite EN, VM. apply toN_small_inj; [apply Z.mod_pos_bound, n_pos|apply Z.mod_pos_bound, n_pos|]. push_toN. reflexivity.
    + split; [exact KM|exact VM].
Qed.
