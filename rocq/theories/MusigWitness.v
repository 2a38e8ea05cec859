(** MuSig2: a concrete session with two signers and two tweaks. *)
Require Import ZArith List Bool Lia Field String.
From Verif Require Import NumTheory Spec SpecApi SpecHash SpecBip340 SpecMusig Primes ZmField Curve NField Word Bytes.
From Verif Require Import FieldModel FieldMul FieldProof FieldProof2 FieldBytes FieldOps.
From Verif Require Import ScalarModel ScalarProof ScalarProof2 ScalarMul.
From Verif Require Import GroupModel GroupProof GroupProof2 GroupProof3 GroupProof4 GroupProof5.
From Verif Require Import HashModel HashProof GenModel GenProof EcmultModel EcmultProof EcmultProof2 EcdsaModel ApiModel ApiVocab ApiProof ApiProof2 ApiProof3 EcdsaProof EcdsaProof2 KeyProps KeyProps2 EcdhProof.
From Verif Require Import ExtrakeysModel ExtrakeysProof SchnorrModel SchnorrProof EllswiftProof2 MusigModel MusigVocab MusigProof MusigProof2 MusigProof3 MusigProof4 MusigProof5 MusigProof6 SchnorrProps MusigProps.
Import ListNotations.
Local Open Scope Z_scope.
Local Opaque p n.
Local Notation length := List.length.
Local Opaque SHA256 be_bytes tagged_hash pmul.

Definition w_neg : point := Aff Gx (p - Gy).
Definition w_mpk : list Z := point64 w_neg.
Definition w_coef : Z := 54724744104807661600842333423541003916814304449559668617274579958036175301426.
Lemma w_coef_ok : key_coef [G; w_neg] G = w_coef. Proof. vm_cast_no_check (eq_refl w_coef). Qed.
Lemma w_coef2_ok : key_coef [G; w_neg] w_neg = 1. Proof. vm_cast_no_check (eq_refl 1). Qed.
Lemma w_neg_eq : w_neg = pneg G. Proof. vm_cast_no_check (eq_refl w_neg). Qed.
Lemma w_neg_K : w_neg = pmul (- (1)) G. Proof. rewrite (pmul_neg 1 G on_curve_G), pmul_1. exact w_neg_eq. Qed.
Lemma w_G_K : G = pmul 1 G. Proof. symmetry. apply pmul_1. Qed.
Lemma w_neg_key : key_point w_neg. Proof. split; [rewrite w_neg_eq; auto with curve|discriminate]. Qed.
Lemma w_G_key : key_point G. Proof. split; [exact on_curve_G|discriminate]. Qed.
Lemma w_G1 : pmul 1 G = G. Proof. apply pmul_1. Qed.
Lemma w_Gm1 : pmul (n - 1) G = w_neg.
Proof. rewrite w_neg_K. apply pmul_G_eq. replace (- (1)) with ((n - 1) + (-1) * n) by ring. now rewrite Z_mod_plus_full. Qed.
Lemma w_nm1 : 1 <= n - 1 < n. Proof. assert (2 < n) by reflexivity. lia. Qed.
Lemma w_1 : 1 <= 1 < n. Proof. assert (2 < n) by reflexivity. lia. Qed.
Lemma w_mpk_ok : pubkey_holds w_mpk w_neg. Proof. split; [exact (proj1 w_neg_key)|reflexivity]. Qed.
Lemma w_agg : key_agg [G; w_neg] = pmul (w_coef - 1) G.
Proof.
  unfold key_agg. cbn [List.map]. rewrite w_coef_ok, w_coef2_ok, psum_cons, psum_cons, pmul_1. change (psum []) with Inf. rewrite padd_Inf_r, w_neg_K. rewrite K_add. exact eq_refl.
Qed.
Lemma nz_point k : k mod n <> 0 -> pmul k G <> Inf. Proof. intros H E. apply H. now apply pmul_G_Inf. Qed.
Lemma w_tweak c q t x : ac_Q c = pmul q G -> 0 <= t < n -> (q + t) mod n <> 0 -> (t - q) mod n <> 0 ->
  exists c', apply_tweak c t x = Some c' /\ (ac_Q c' = pmul (q + t) G \/ ac_Q c' = pmul (t - q) G).
Proof.
  intros E RT N1 N2. unfold apply_tweak. cbv zeta. rewrite E. replace (n <=? t) with false by (symmetry; apply Z.leb_gt; lia).
  assert (C : forall g, g = 1 \/ g = -1 -> padd (pmul g (pmul q G)) (pmul t G) = pmul (q + t) G \/ padd (pmul g (pmul q G)) (pmul t G) = pmul (t - q) G).
  { intros g [-> | ->]; [left|right]; rewrite K_mul, K_add; f_equal; lia. }
  set (g := if x && Z.odd (ycoord (pmul q G)) then -1 else 1). specialize (C g). assert (HG : g = 1 \/ g = -1) by (unfold g; destruct (x && _); auto). specialize (C HG). clearbody g.
  set (Q := padd _ _) in *. clearbody Q. assert (NQ : Q <> Inf) by (destruct C as [-> | ->]; now apply nz_point). destruct Q as [|qx qy]; [contradiction|]. eexists. split; [reflexivity|]. exact C.
Qed.
Lemma w_tw d : 1 <= d < 2 ^ 64 -> bytes_n 32 (w_key d) /\ be_val (w_key d) = d.
Proof. intros H. destruct (w_key_ok d (w_small d H)) as (B & E & _). split; assumption. Qed.
Lemma w_2 : 2 mod n <> 0. Proof. now vm_compute. Qed.
Lemma w_tw5 : bytes_n 32 (w_key 5) /\ be_val (w_key 5) = 5. Proof. apply w_tw. lia. Qed.
Lemma w_tw7 : bytes_n 32 (w_key 7) /\ be_val (w_key 7) = 7. Proof. apply w_tw. lia. Qed.
Lemma w_lt5 : 0 <= 5 < n. Proof. split; [lia|reflexivity]. Qed.
Lemma w_lt7 : 0 <= 7 < n. Proof. split; [lia|reflexivity]. Qed.
Lemma w_nz : (w_coef - 1) mod n <> 0 /\ (w_coef - 1 + 5) mod n <> 0 /\ (5 - (w_coef - 1)) mod n <> 0 /\
  (w_coef - 1 + 5 + 7) mod n <> 0 /\ (7 - (w_coef - 1 + 5)) mod n <> 0 /\ (5 - (w_coef - 1) + 7) mod n <> 0 /\ (7 - (5 - (w_coef - 1))) mod n <> 0.
Proof. now vm_compute. Qed.
(** The two signers: keys 1 and n - 1, nonces (1, 1) and (1, n - 1). *)
Definition w_secnonce (k1 k2 : Z) (P : point) : list Z := [0x22; 0x0e; 0xdc; 0xf1] ++ be_bytes 32 k1 ++ be_bytes 32 k2 ++ point64 P.
Definition w_pubnonce (R1 R2 : point) : list Z := [0xf5; 0x7a; 0x3d; 0xa0] ++ point64 R1 ++ point64 R2.
Lemma w_sn1 : secnonce_holds (w_secnonce 1 1 G) 1 1 G. Proof. split; [exact w_1|]. split; [exact w_1|]. split; [exact w_G_key|reflexivity]. Qed.
Lemma w_sn2 : secnonce_holds (w_secnonce 1 (n - 1) w_neg) 1 (n - 1) w_neg. Proof. split; [exact w_1|]. split; [exact w_nm1|]. split; [exact w_neg_key|reflexivity]. Qed.
Lemma w_pn1 : pubnonce_holds (w_pubnonce G G) G G. Proof. split; [exact w_G_key|]. split; [exact w_G_key|reflexivity]. Qed.
Lemma w_pn2 : pubnonce_holds (w_pubnonce G w_neg) G w_neg. Proof. split; [exact w_G_key|]. split; [exact w_neg_key|reflexivity]. Qed.
Definition w_keys : list (list Z) := [w_pk; w_mpk].
Lemma w_keys_ok : Forall2 pubkey_holds w_keys [G; w_neg]. Proof. constructor; [exact w_pk_ok|]. constructor; [exact w_mpk_ok|constructor]. Qed.
Lemma w_agg_nz : key_agg [G; w_neg] <> Inf. Proof. rewrite w_agg. apply nz_point. exact (proj1 w_nz). Qed.
Lemma w_keys_len : 33 * Z.of_nat (length [G; w_neg]) < 2 ^ 61 - 64. Proof. reflexivity. Qed.
Definition w_tweaks : list (list Z * bool) := [(w_key 5, false); (w_key 7, true)].
(** A history of key aggregation, a plain tweak and an x-only tweak. *)
Lemma w_history : exists cache c, agg_history w_keys cache w_tweaks /\ cache_holds cache [G; w_neg] c.
Proof.
  destruct (pubkey_agg_ok None (Some []) w_keys [G; w_neg] w_keys_ok ltac:(discriminate) w_keys_len w_agg_nz) as (xpk & cache0 & E0 & _ & H0). cbv iota in E0.
  destruct w_nz as (_ & N1 & N2 & N3 & N4 & N5 & N6). destruct w_tw5 as (B5 & V5), w_tw7 as (B7 & V7).
  pose proof w_lt5 as R5. pose proof w_lt7 as R7.
  destruct (w_tweak (agg_start [G; w_neg]) (w_coef - 1) 5 false w_agg R5 N1 N2) as (c1 & T1 & Q1).
  pose proof (tweak_add_ok None cache0 [G; w_neg] _ (w_key 5) false H0 B5) as E1. rewrite V5, T1 in E1. destruct E1 as (pk1 & cache1 & E1 & _ & H1). cbv iota in E1.
  assert (exists c2, apply_tweak c1 7 true = Some c2) as (c2 & T2).
  { destruct Q1 as [Q1|Q1]; [destruct (w_tweak c1 _ 7 true Q1 R7 N3 N4) as (c2 & T2 & _)|destruct (w_tweak c1 _ 7 true Q1 R7 N5 N6) as (c2 & T2 & _)]; exists c2; exact T2. }
  pose proof (tweak_add_ok None cache1 [G; w_neg] _ (w_key 7) true H1 B7) as E2. rewrite V7, T2 in E2. destruct E2 as (pk2 & cache2 & E2 & _ & H2). cbv iota in E2.
  exists cache2, c2. split; [|exact H2]. unfold w_tweaks. change [(w_key 5, false); (w_key 7, true)] with (([] ++ [(w_key 5, false)]) ++ [(w_key 7, true)]).
  exact (ah_xonly _ _ _ _ _ _ _ _ (ah_plain _ _ _ _ _ _ _ _ (ah_agg _ _ _ _ _ _ E0) B5 E1) B7 E2).
Qed.
Definition w_message : list Z := repeat 42 32.
Lemma w_message_ok : bytes_n 32 w_message. Proof. split; [|reflexivity]. apply Forall_forall. intros x H. apply repeat_spec in H. subst. lia. Qed.
Lemma w_aggnonce : exists an, musig_nonce_agg (Some []) (Some [w_pubnonce G G; w_pubnonce G w_neg]) = mkres 1 0 (Some an) /\ aggnonce_holds an (pmul 2 G) Inf.
Proof.
  destruct (nonce_agg_ok [] [w_pubnonce G G; w_pubnonce G w_neg] [(G, G); (G, w_neg)]) as (an & E & H); [constructor; [exact w_pn1|constructor; [exact w_pn2|constructor]]|discriminate|].
  exists an. split; [exact E|]. cbn [List.map fst snd] in H. rewrite !psum_cons in H. change (psum []) with Inf in H. rewrite !padd_Inf_r in H.
  assert (E1 : padd G G = pmul 2 G). { pose proof (K_add 1 1) as E1. rewrite <- w_G_K in E1. exact E1. }
  assert (E2 : padd G w_neg = Inf). { pose proof (K_add 1 (- (1))) as E2. rewrite <- w_G_K, <- w_neg_K in E2. rewrite E2. apply pmul_0. }
  rewrite E1, E2 in H. exact H.
Qed.
Definition w_session_goal (ctx : context) (signers : list signer) (tws : list (list Z * bool)) (m an cache session sig aggpk xpk : list Z) : Prop :=
  let pks := List.map sg_pk signers in let Ps := List.map (fun s => pmul (sg_d s) G) signers in
  usable_context ctx /\ 33 * Z.of_nat (length signers) < 2 ^ 61 - 64 /\ bytes_n 32 m /\ key_agg Ps <> Inf /\
  musig_nonce_agg (Some []) (Some (List.map sg_pn signers)) = mkres 1 0 (Some an) /\
  Forall (honest_signer ctx pks tws m an) signers /\
  agg_history pks cache tws /\
  musig_nonce_process (Some []) (Some an) (Some m) (Some cache) = mkres 1 0 (Some session) /\
  musig_partial_sig_agg (Some []) (Some session) (Some (List.map sg_psig signers)) = mkres 1 0 (Some sig) /\
  musig_pubkey_get (Some []) (Some cache) = mkres 1 0 (Some aggpk) /\
  (exists par, xonly_pubkey_from_pubkey (Some []) None (Some aggpk) = mkres 1 0 (Some xpk, par)) /\
  (forall Q R1 R2, pubkey_holds aggpk Q -> aggnonce_holds an R1 R2 -> nonce_sum R1 R2 (nonce_coef R1 R2 Q m) <> Inf).
Lemma w_session : exists signers an cache session sig aggpk xpk, length signers = 2%nat /\ w_session_goal w_ctx signers w_tweaks w_message an cache session sig aggpk xpk.
Proof.
  destruct w_history as (cache & c & HH & HC). destruct w_aggnonce as (an & EA & HA).
  destruct (nonce_process_ok [] an cache w_message [G; w_neg] c _ _ HC HA w_message_ok) as (session & ES & HS).
  destruct (w_kp_ok 1 w_1) as (_ & K1), (w_kp_ok (n - 1) w_nm1) as (_ & K2).
  destruct (partial_sign_ok [] _ _ _ _ _ _ _ _ _ _ _ w_sn1 K1 HC HS) as [(_ & ps1 & E1 & V1)|(F & _)]; [|exfalso; apply F; symmetry; exact w_G1].
  destruct (partial_sign_ok [] _ _ _ _ _ _ _ _ _ _ _ w_sn2 K2 HC HS) as [(_ & ps2 & E2 & V2)|(F & _)]; [|exfalso; apply F; symmetry; exact w_Gm1].
  set (v1 := partial_sig _ _ _ 1 1 _) in *. set (v2 := partial_sig _ _ _ 1 (n - 1) _) in *. clearbody v1 v2.
  pose proof (partial_agg_ok [] session _ [ps1; ps2] [v1; v2] HS ltac:(constructor; [exact V1|constructor; [exact V2|constructor]]) ltac:(discriminate)) as EG. set (sig := aggregate_sig _ _) in EG. clearbody sig.
  destruct (pubkey_get_ok [] cache _ _ HC) as (aggpk & EK & HK). set (s := session_of _ _ _ _) in *. clearbody s.
  destruct (from_pubkey_ok [] None aggpk _ HK) as (xpk & EX & _). cbv iota in EX.
  set (sg1 := mksigner (w_kp 1) 1 w_pk (w_secnonce 1 1 G) (w_pubnonce G G) ps1). set (sg2 := mksigner (w_kp (n - 1)) (n - 1) w_mpk (w_secnonce 1 (n - 1) w_neg) (w_pubnonce G w_neg) ps2).
  assert (M1 : List.map sg_pk [sg1; sg2] = w_keys) by exact eq_refl.
  assert (M2 : List.map (fun s => pmul (sg_d s) G) [sg1; sg2] = [G; w_neg]). { cbn [List.map sg_d sg1 sg2]. rewrite w_G1, w_Gm1. exact eq_refl. }
  exists [sg1; sg2], an, cache, session, sig, aggpk, xpk. split; [exact eq_refl|]. unfold w_session_goal. cbv zeta. rewrite M1, M2.
  split; [exact w_ctx_ok|]. split; [exact w_keys_len|]. split; [exact w_message_ok|]. split; [exact w_agg_nz|]. split; [exact EA|]. split.
  { constructor; [|constructor; [|constructor]].
    - split; [exact K1|]. cbn [sg_d sg_pk sg_kp sg_sn sg_pn sg_psig sg1]. rewrite w_G1. split; [exact w_pk_ok|]. split; [apply (mn_pair _ _ _ _ _ _ 1 1); rewrite w_G1; [exact w_sn1|exact w_pn1]|].
      exists cache, session, [], [], 0, 0, (Some (repeat 0 132)). split; [exact HH|]. split; [exact ES|exact E1].
    - split; [exact K2|]. cbn [sg_d sg_pk sg_kp sg_sn sg_pn sg_psig sg2]. rewrite w_Gm1. split; [exact w_mpk_ok|]. split; [apply (mn_pair _ _ _ _ _ _ 1 (n - 1)); rewrite w_Gm1; [exact w_sn2|rewrite w_G1; exact w_pn2]|].
      exists cache, session, [], [], 0, 0, (Some (repeat 0 132)). split; [exact HH|]. split; [exact ES|exact E2]. }
  split; [exact HH|]. split; [exact ES|]. split; [exact EG|]. split; [exact EK|]. split; [exists None; exact EX|].
  intros Q R1 R2 _ HA'. destruct (aggnonce_fun _ _ _ _ _ HA HA') as (<- & <-). unfold nonce_sum. rewrite pmul_Inf, padd_Inf_r. apply nz_point. exact w_2.
Qed.
(** Derived nonces. *)
Lemma w_nonces i : i = 0 \/ i = 1 -> nonce_gen_k (repeat 1 32) (Some (w_key 1)) (cbytes G) None None None i <> 0.
Proof. intros [-> | ->]; now vm_compute. Qed.
Lemma w_rand : bytes_n 32 (repeat 1 32) /\ repeat 1 32 <> repeat 0 32. Proof. split; [|discriminate]. split; [|reflexivity]. apply Forall_forall. intros x H. apply repeat_spec in H. subst. lia. Qed.
Lemma w_nonces_counter i : i = 0 \/ i = 1 -> nonce_gen_k (be_bytes 8 3 ++ repeat 0 24) (Some (be_bytes 32 1)) (cbytes (pmul 1 G)) None None None i <> 0.
Proof. rewrite w_G1. intros [-> | ->]; now vm_compute. Qed.
(** A complete run on one secnonce: generate, sign, try to sign again. *)
Lemma w_nonce_run : exists cache session sn0,
  List.map (fun x => (is_sign (fst x), fst (fst (fst (snd x))), snd (fst (fst (snd x))))) (run_ops sn0 [Op_sign (Some []) (Some (w_kp 1)) (Some cache) (Some session); Op_sign (Some []) (Some (w_kp 1)) (Some cache) (Some session)]) = [(true, 1, 0); (true, 0, 1)].
Proof.
  destruct w_history as (cache & c & HH & HC). destruct w_aggnonce as (an & EA & HA). destruct (nonce_process_ok [] an cache w_message [G; w_neg] c _ _ HC HA w_message_ok) as (session & ES & HS). destruct (w_kp_ok 1 w_1) as (_ & K1).
  destruct (partial_sign_ok [] _ _ _ _ _ _ _ _ _ _ _ w_sn1 K1 HC HS) as [(_ & ps1 & E1 & V1)|(F & _)]; [|exfalso; apply F; symmetry; exact w_G1].
  exists cache, session, (w_secnonce 1 1 G). cbn [run_ops run_op fst snd List.map is_sign]. rewrite E1. cbn [r_ret r_ill r_out fst snd]. rewrite sign_dead. exact eq_refl.
Qed.
Lemma w_psig : psig_holds ([0xeb; 0xfb; 0x1a; 0x32] ++ be_bytes 32 7) 7. Proof. split; [exact w_lt7|reflexivity]. Qed.
Lemma w_parts : exists cache c session s, cache_holds cache [G; w_neg] c /\ session_holds session s.
Proof. destruct w_history as (cache & c & HH & HC). destruct w_aggnonce as (an & EA & HA). destruct (nonce_process_ok [] an cache w_message [G; w_neg] c _ _ HC HA w_message_ok) as (session & ES & HS). exists cache, c, session. eexists. split; [exact HC|exact HS]. Qed.
Lemma w_parse66 : bytes_n 66 (cbytes G ++ cbytes w_neg) /\ bytes_n 66 (repeat 0 33 ++ cbytes G) /\ bytes_n 32 (be_bytes 32 n).
Proof.
  assert (A : forall P Q, bytes_n 66 (cbytes P ++ cbytes Q)) by (intros P Q; split; [apply byte_list_app; split; apply cbytes_bytes|rewrite app_length, !cbytes_length; reflexivity]).
  split; [apply A|]. split; [exact (A Inf G)|]. apply be32_bytes.
Qed.
