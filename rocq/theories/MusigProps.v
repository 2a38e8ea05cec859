(** MuSig2: the statements of the properties, and concrete cases. *)
Require Import ZArith List Bool Lia Field String.
From Verif Require Import NumTheory Spec SpecApi SpecHash SpecBip340 SpecMusig Primes ZmField Curve NField Word Bytes.
From Verif Require Import FieldModel FieldMul FieldProof FieldProof2 FieldBytes FieldOps.
From Verif Require Import ScalarModel ScalarProof ScalarProof2 ScalarMul.
From Verif Require Import GroupModel GroupProof GroupProof2 GroupProof3 GroupProof4 GroupProof5.
From Verif Require Import HashModel HashProof GenModel GenProof EcmultModel EcmultProof EcmultProof2 EcdsaModel ApiModel ApiVocab ApiProof ApiProof2 ApiProof3 EcdsaProof EcdsaProof2 KeyProps KeyProps2 EcdhProof.
From Verif Require Import ExtrakeysModel ExtrakeysProof SchnorrModel SchnorrProof EllswiftProof2 MusigModel MusigVocab MusigProof MusigProof2 MusigProof3 MusigProof4 MusigProof5 MusigProof6 SchnorrProps.
Import ListNotations.
Local Open Scope Z_scope.
Local Opaque p n.
Local Notation length := List.length.
Local Opaque SHA256 be_bytes tagged_hash pmul.

(** ** C29 *)
Lemma prop_honest_accepted ctx kp d pk sn pn cache Ps c obj s ps0 ps o i : usable_context ctx -> keypair_holds kp d -> pubkey_holds pk (pmul d G) -> made_nonce ctx kp d pk sn pn ->
  cache_holds cache Ps c -> session_holds obj s -> musig_partial_sign (Some ps0) (Some sn) (Some kp) (Some cache) (Some obj) = mkres 1 i (Some ps, o) ->
  musig_partial_sig_verify (Some ps) (Some pn) (Some pk) (Some cache) (Some obj) = mkres 1 0 tt.
Proof.
  intros U HK HP HN HC HS E. destruct (made_nonce_ok _ _ _ _ _ _ U HK HP HN) as (k1 & k2 & SN & PN). destruct (partial_sign_ok ps0 _ _ _ _ _ _ _ _ _ _ _ SN HK HC HS) as [(_ & ps' & EP & PH)|(NE & _)]; [|congruence].
  rewrite E in EP. apply res_inv in EP as (_ & _ & EP). apply (f_equal fst) in EP. cbn [fst] in EP. assert (ps' = ps) as -> by congruence.
  destruct (partial_verify_ok _ _ _ _ _ _ _ _ _ _ _ _ PH PN HP HC HS) as [(_ & V)|(V & _)]; [exact V|]. exfalso. apply V. apply honest_valid.
  destruct (cache_load_ok _ _ _ HC) as (ci & _ & CI & _ & NY). exact (proj2 (sign_flag _ _ _ CI NY)).
Qed.
Lemma prop_psig_unique ps ps' v v' pn R1 R2 pk P cache Ps c obj s : psig_holds ps v -> psig_holds ps' v' -> pubnonce_holds pn R1 R2 -> pubkey_holds pk P -> cache_holds cache Ps c -> session_holds obj s ->
  r_ret (musig_partial_sig_verify (Some ps) (Some pn) (Some pk) (Some cache) (Some obj)) = 1 -> r_ret (musig_partial_sig_verify (Some ps') (Some pn) (Some pk) (Some cache) (Some obj)) = 1 -> ps = ps'.
Proof.
  intros H H' HN HP HC HS E E'. destruct (partial_verify_ok _ _ _ _ _ _ _ _ _ _ _ _ H HN HP HC HS) as [(V & _)|(_ & F)]; [|rewrite F in E; discriminate E].
  destruct (partial_verify_ok _ _ _ _ _ _ _ _ _ _ _ _ H' HN HP HC HS) as [(V' & _)|(_ & F)]; [|rewrite F in E'; discriminate E'].
  destruct H as (R & ->), H' as (R' & ->). now rewrite (valid_unique _ _ _ _ _ _ _ _ R R' V V').
Qed.
(** ** C30 *)
Lemma prop_signed_from_zero ops : (signed (run_ops (repeat 0%Z 132) ops) <= generated (run_ops (repeat 0%Z 132) ops))%nat.
Proof. pose proof (signed_le_generated ops (repeat 0 132)) as H. rewrite alive_zeros in H. exact H. Qed.
Lemma only_signs_generated ops : forall sn, Forall (fun o => is_sign o = true) ops -> generated (run_ops sn ops) = 0%nat.
Proof.
  induction ops as [|o ops IH]; intros sn H; [reflexivity|]. inversion H as [|? ? H1 H2]. subst. cbn [run_ops]. cbv zeta. specialize (IH (snd (run_op sn o)) H2). unfold generated in *. cbn [filter fst snd]. rewrite H1. cbn [negb andb]. exact IH.
Qed.
Lemma prop_signs_at_most_once sn ops : Forall (fun o => is_sign o = true) ops -> (signed (run_ops sn ops) <= 1)%nat.
Proof. intros H. pose proof (signed_le_generated ops sn) as L. rewrite (only_signs_generated ops sn H) in L. pose proof (alive_le sn). lia. Qed.
(** ** C49 *)
Lemma prop_history pks Ps cache tws : Forall2 pubkey_holds pks Ps -> 33 * Z.of_nat (length Ps) < 2 ^ 61 - 64 -> key_agg Ps <> Inf -> agg_history pks cache tws ->
  exists Q g t, apply_tweaks (agg_start Ps) (tweak_vals tws) = Some (mkaggctx Q g t) /\ cache_holds cache Ps (mkaggctx Q g t) /\
    (g = 1 \/ g = -1) /\ 0 <= t < n /\ Q <> Inf /\ Q = padd (pmul g (key_agg Ps)) (pmul t G) /\
    forall init, exists pk, musig_pubkey_get (Some init) (Some cache) = mkres 1 0 (Some pk) /\ pubkey_holds pk Q.
Proof.
  intros HP HL NI H. destruct (history_inv _ _ _ _ HP HL NI H) as ([Q g t] & E & HC & (_ & NQ & HG & HT & EQ)). cbn [ac_Q ac_gacc ac_tacc] in *. exists Q, g, t. split; [exact E|]. split; [exact HC|]. split; [exact HG|]. split; [exact HT|]. split; [exact NQ|]. split; [exact EQ|].
  intros init. exact (pubkey_get_ok init cache Ps _ HC).
Qed.
(** ** C51 *)
Lemma prop_pubnonce_roundtrip init inp out pn i : bytes_n 66 inp -> musig_pubnonce_parse (Some init) (Some inp) = mkres 1 i (Some pn) -> musig_pubnonce_serialize (Some out) (Some pn) = mkres 1 0 (Some inp).
Proof.
  intros B E. destruct (pubnonce_parse_ok init inp B) as [(R1 & R2 & pn' & _ & _ & EI & EP & H)|(_ & EP)]; rewrite E in EP; apply res_inv in EP as (ER & _ & EP); [|discriminate ER].
  assert (pn' = pn) as -> by congruence. rewrite EI. now apply pubnonce_serialize_ok.
Qed.
Lemma prop_aggnonce_roundtrip init inp out an i : bytes_n 66 inp -> musig_aggnonce_parse (Some init) (Some inp) = mkres 1 i (Some an) -> musig_aggnonce_serialize (Some out) (Some an) = mkres 1 0 (Some inp).
Proof.
  intros B E. destruct (aggnonce_parse_ok init inp B) as [(R1 & R2 & pn' & _ & _ & EI & EP & H)|(_ & EP)]; rewrite E in EP; apply res_inv in EP as (ER & _ & EP); [|discriminate ER].
  assert (pn' = an) as -> by congruence. rewrite EI. now apply aggnonce_serialize_ok.
Qed.
Lemma prop_psig_roundtrip init inp out ps i : bytes_n 32 inp -> musig_partial_sig_parse (Some init) (Some inp) = mkres 1 i (Some ps) -> musig_partial_sig_serialize (Some out) (Some ps) = mkres 1 0 (Some inp).
Proof.
  intros B E. destruct (psig_parse_ok init inp B) as [(R & ps' & EP & H)|(_ & EP)]; rewrite E in EP; apply res_inv in EP as (ER & _ & EP); [|discriminate ER].
  assert (ps' = ps) as -> by congruence. rewrite (psig_serialize_ok out ps _ H). do 2 f_equal. symmetry. apply be_bytes_unique; [apply B|apply B|reflexivity].
Qed.
Lemma prop_pubnonce_reparse init out pn R1 R2 : pubnonce_holds pn R1 R2 ->
  musig_pubnonce_serialize (Some out) (Some pn) = mkres 1 0 (Some (cbytes R1 ++ cbytes R2)) /\ musig_pubnonce_parse (Some init) (Some (cbytes R1 ++ cbytes R2)) = mkres 1 0 (Some pn).
Proof.
  intros H. split; [now apply pubnonce_serialize_ok|]. destruct H as (K1 & K2 & EP).
  assert (B : bytes_n 66 (cbytes R1 ++ cbytes R2)) by (split; [apply byte_list_app; split; apply cbytes_bytes|rewrite app_length, !cbytes_length; reflexivity]).
  destruct (pubnonce_parse_ok init _ B) as [(S1 & S2 & pn' & L1 & L2 & EI & E & (_ & _ & EP'))|(F & _)]; [|exfalso; apply F; eauto].
  destruct (app_33 _ _ _ _ (cbytes_length R1) (cbytes_length S1) EI) as (E1 & E2). apply cbytes_inj in E1; [|apply K1|apply L1]. apply cbytes_inj in E2; [|apply K2|apply L2]. subst S1 S2. rewrite E, EP, EP'. reflexivity.
Qed.
Lemma prop_aggnonce_reparse init out an R1 R2 : aggnonce_holds an R1 R2 ->
  musig_aggnonce_serialize (Some out) (Some an) = mkres 1 0 (Some (cbytes R1 ++ cbytes R2)) /\ musig_aggnonce_parse (Some init) (Some (cbytes R1 ++ cbytes R2)) = mkres 1 0 (Some an).
Proof.
  intros H. split; [now apply aggnonce_serialize_ok|]. destruct H as (K1 & K2 & EP).
  assert (B : bytes_n 66 (cbytes R1 ++ cbytes R2)) by (split; [apply byte_list_app; split; apply cbytes_bytes|rewrite app_length, !cbytes_length; reflexivity]).
  destruct (aggnonce_parse_ok init _ B) as [(S1 & S2 & pn' & L1 & L2 & EI & E & (_ & _ & EP'))|(F & _)]; [|exfalso; apply F; eauto].
  destruct (app_33 _ _ _ _ (cbytes_length R1) (cbytes_length S1) EI) as (E1 & E2). apply cbytes_inj in E1; [|exact K1|exact L1]. apply cbytes_inj in E2; [|exact K2|exact L2]. subst S1 S2. rewrite E, EP, EP'. reflexivity.
Qed.
Lemma aggnonce_fun an R1 R2 S1 S2 : aggnonce_holds an R1 R2 -> aggnonce_holds an S1 S2 -> R1 = S1 /\ R2 = S2.
Proof.
  intros H H'. pose proof (aggnonce_serialize_ok [] _ _ _ H) as E. rewrite (aggnonce_serialize_ok [] _ _ _ H') in E. apply res_inv in E as (_ & _ & E). assert (E' : cbytes S1 ++ cbytes S2 = cbytes R1 ++ cbytes R2) by congruence.
  destruct (app_33 _ _ _ _ (cbytes_length S1) (cbytes_length R1) E') as (E1 & E2). destruct H as (A & B & _), H' as (A' & B' & _). split; symmetry; now apply cbytes_inj.
Qed.
(** ** C19 *)
Lemma pubnonce_fun pn pn' R1 R2 : pubnonce_holds pn R1 R2 -> pubnonce_holds pn' R1 R2 -> pn = pn'. Proof. intros (_ & _ & ->) (_ & _ & ->). reflexivity. Qed.
Lemma secnonce_fun sn sn' k1 k2 P : secnonce_holds sn k1 k2 P -> secnonce_holds sn' k1 k2 P -> sn = sn'. Proof. intros (_ & _ & _ & ->) (_ & _ & _ & ->). reflexivity. Qed.
Lemma prop_nonce_gen_blinding ctx ctx' sn0 pn0 rand sk pk P m cache aggpk extra : usable_context ctx -> usable_context ctx' ->
  bytes_n 32 rand -> opt_bytes 32 sk -> pubkey_holds pk P -> opt_bytes 32 m -> cache_arg cache aggpk -> opt_bytes 32 extra ->
  (forall i, i = 0 \/ i = 1 -> nonce_gen_k rand sk (cbytes P) aggpk m extra i <> 0) ->
  musig_nonce_gen ctx (Some sn0) (Some pn0) (Some rand) sk (Some pk) m cache extra = musig_nonce_gen ctx' (Some sn0) (Some pn0) (Some rand) sk (Some pk) m cache extra.
Proof.
  intros U U' BR BS HP BM HC BE NZ. destruct (list_eq_dec Z.eq_dec rand (repeat 0 32)) as [-> |NR]; [now rewrite !nonce_gen_zero|].
  destruct (nonce_gen_ok ctx sn0 pn0 rand sk pk P m cache aggpk extra U BR NR BS HP BM HC BE (NZ 0 (or_introl eq_refl)) (NZ 1 (or_intror eq_refl))) as (sn & pn & PN & C).
  destruct (nonce_gen_ok ctx' sn0 pn0 rand sk pk P m cache aggpk extra U' BR NR BS HP BM HC BE (NZ 0 (or_introl eq_refl)) (NZ 1 (or_intror eq_refl))) as (sn' & pn' & PN' & C').
  pose proof (pubnonce_fun _ _ _ _ PN PN') as <-. destruct C as [(V & SN & ->)|(V & ->)], C' as [(V' & SN' & ->)|(V' & ->)]; [|contradiction|contradiction|reflexivity].
  pose proof (secnonce_fun _ _ _ _ _ SN SN') as <-. reflexivity.
Qed.
Lemma prop_nonce_gen_counter_blinding ctx ctx' sn0 pn0 cnt kp d m cache aggpk extra : usable_context ctx -> usable_context ctx' ->
  0 <= cnt < 2 ^ 64 -> keypair_holds kp d -> opt_bytes 32 m -> cache_arg cache aggpk -> opt_bytes 32 extra ->
  (forall i, i = 0 \/ i = 1 -> nonce_gen_k (be_bytes 8 cnt ++ repeat 0 24) (Some (be_bytes 32 d)) (cbytes (pmul d G)) aggpk m extra i <> 0) ->
  musig_nonce_gen_counter ctx (Some sn0) (Some pn0) cnt (Some kp) m cache extra = musig_nonce_gen_counter ctx' (Some sn0) (Some pn0) cnt (Some kp) m cache extra.
Proof.
  intros U U' RC HK BM HC BE NZ.
  destruct (nonce_gen_counter_ok ctx sn0 pn0 cnt kp d m cache aggpk extra U RC HK BM HC BE (NZ 0 (or_introl eq_refl)) (NZ 1 (or_intror eq_refl))) as (sn & pn & PN & SN & E).
  destruct (nonce_gen_counter_ok ctx' sn0 pn0 cnt kp d m cache aggpk extra U' RC HK BM HC BE (NZ 0 (or_introl eq_refl)) (NZ 1 (or_intror eq_refl))) as (sn' & pn' & PN' & SN' & E').
  rewrite E, E', (pubnonce_fun _ _ _ _ PN PN'), (secnonce_fun _ _ _ _ _ SN SN'). reflexivity.
Qed.
