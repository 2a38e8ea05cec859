(** Nonce generation of MuSig does not depend on the table configuration. *)
Require Import ZArith List Bool Lia String.
From Verif Require Import NumTheory Spec SpecApi SpecHash SpecBip340 SpecMusig Primes ZmField Curve NField Word Bytes.
From Verif Require Import FieldModel FieldMul FieldProof FieldProof2 FieldBytes FieldOps ScalarModel ScalarProof ScalarProof2 ScalarMul
  GroupModel GroupProof GroupProof2 GroupProof3 GroupProof4 GroupProof5 HashModel HashProof GenModel GenProof EcmultModel EcmultProof EcmultProof2 EcdsaModel ApiModel ApiVocab ApiProof ApiProof2 ApiProof3
  EcdsaProof EcdsaProof2 KeyProps KeyProps2 EcdhProof ExtrakeysModel ExtrakeysProof SchnorrModel SchnorrProof EllswiftProof2 MusigModel MusigVocab MusigProof MusigProof2 MusigProof3
  RepProof SpecRep GenAnyModel GenAnyProof GenAnyTable SpecGenAny GenAnyProps GenApiModel GenApiProof GenMusigModel.
Import ListNotations.
Local Open Scope Z_scope.
Local Opaque p n.
Local Notation length := List.length.
Local Opaque SHA256 be_bytes tagged_hash pmul.

Lemma pair_save a b P Q : gej_rep f1 a P -> gej_rep f1 b Q -> P <> Inf -> Q <> Inf ->
  exists g1 g2, ge_set_all_gej [a; b] = [g1; g2] /\ pubnonce_holds (musig_pubnonce_save g1 g2) P Q.
Proof.
  intros M1 M2 I1 I2.
  assert (F : Forall2 (ge_rep f1) (ge_set_all_gej [a; b]) [P; Q]).
  { apply ge_set_all_gej_ok; [constructor; [exact M1|constructor; [exact M2|constructor]]|]. pose proof (gej_rep_jinf _ _ _ M1) as J1. pose proof (gej_rep_jinf _ _ _ M2) as J2.
    constructor; [destruct (jinf a); [exfalso; apply I1; now apply J1|reflexivity]|]. constructor; [destruct (jinf b); [exfalso; apply I2; now apply J2|reflexivity]|constructor]. }
  set (l := ge_set_all_gej [a; b]) in *. clearbody l. inversion F as [|g1 ? l1 ? RG1 F1]. subst. inversion F1 as [|g2 ? l2 ? RG2 F2]. subst. inversion F2. subst.
  exists g1, g2. split; [reflexivity|]. exact (pubnonce_save_ok _ _ _ _ RG1 I1 RG2 I2).
Qed.
Lemma internal_by g ctx ctx' sn0 pn0 rand sk pk P m cache aggpk extra : allowed g -> gen_context_of g (c_gen ctx) ->
  usable_context ctx' -> bytes_n 32 rand -> opt_bytes 32 sk -> pubkey_holds pk P -> opt_bytes 32 m -> cache_arg cache aggpk -> opt_bytes 32 extra ->
  nonce_gen_k rand sk (cbytes P) aggpk m extra 0 <> 0 -> nonce_gen_k rand sk (cbytes P) aggpk m extra 1 <> 0 ->
  musig_nonce_gen_internal_by (gen_of g) ctx sn0 (Some pn0) rand sk (Some pk) m cache extra = musig_nonce_gen_internal ctx' sn0 (Some pn0) rand sk (Some pk) m cache extra.
Proof.
  intros A H U HR HS HP HM HC HE. set (k1 := nonce_gen_k _ _ _ _ _ _ 0). set (k2 := nonce_gen_k _ _ _ _ _ _ 1). intros N1 N2.
  destruct (usable_ctx _ U) as (GC & GB). destruct (pubkey_load_ok _ _ HP) as (LD & RP & _). destruct (pubkey_holds_oc _ _ HP) as (OC & NI).
  unfold musig_nonce_gen_internal_by, musig_nonce_gen_internal. rewrite (context_built _ _ H), GB. cbn [negb].
  assert (EC : match cache with Some cache => match keyagg_cache_load cache with Some ci => Some (Some (fe_get_b32 (gx (ci_pk ci)))) | None => None end | None => Some None end = Some aggpk).
  { unfold cache_arg in HC. destruct cache as [obj|]; [|now rewrite HC]. destruct HC as (Ps & c & HH & ->). destruct (cache_load_ok _ _ _ HH) as (ci & -> & CI & NX & _). now rewrite (agg_x_ok _ _ _ CI NX). }
  assert (HA : opt_bytes 32 aggpk).
  { unfold cache_arg in HC. destruct cache as [obj|]; [|now rewrite HC]. destruct HC as (Ps & c & _ & ->). intros l E. assert (l = be_bytes 32 (xcoord (ac_Q c))) as -> by congruence. apply be32_bytes. }
  rewrite EC. clear EC HC. destruct (pubkey_load pk) as [ok q]. cbn [fst snd] in *. subst ok. cbn [negb]. rewrite (ser_ok _ _ RP NI).
  assert (BP : bytes_n 33 (cbytes P)) by (split; [apply cbytes_bytes|apply cbytes_length]).
  destruct (nonce_fun_ok rand m sk (cbytes P) aggpk extra HR HM HS BP HA HE) as (s1 & s2 & -> & (K1 & E1) & (K2 & E2)). fold k1 in E1. fold k2 in E2. clearbody k1 k2.
  pose proof (sc_ok_range _ K1) as R1. pose proof (sc_ok_range _ K2) as R2. rewrite E1 in R1. rewrite E2 in R2.
  assert (I1 : pmul (sv s1) G <> Inf) by (rewrite E1; apply pmul_G_nInf; lia). assert (I2 : pmul (sv s2) G <> Inf) by (rewrite E2; apply pmul_G_nInf; lia).
  destruct (pair_save _ _ _ _ (ecmult_gen_ok _ _ GC K1) (ecmult_gen_ok _ _ GC K2) I1 I2) as (a1 & a2 & -> & (_ & _ & ->)).
  destruct (pair_save _ _ _ _ (gen_of_ok g _ A H s1 K1) (gen_of_ok g _ A H s2 K2) I1 I2) as (b1 & b2 & -> & (_ & _ & ->)). reflexivity.
Qed.
Lemma prop_any_musig g ctx ctx' sn0 pn0 rand sk pk P m cache aggpk extra : allowed g -> gen_context_of g (c_gen ctx) ->
  usable_context ctx' -> bytes_n 32 rand -> opt_bytes 32 sk -> pubkey_holds pk P -> opt_bytes 32 m -> cache_arg cache aggpk -> opt_bytes 32 extra ->
  nonce_gen_k rand sk (cbytes P) aggpk m extra 0 <> 0 -> nonce_gen_k rand sk (cbytes P) aggpk m extra 1 <> 0 ->
  musig_nonce_gen_by (any_ecmult_gen g (prec_table g)) ctx sn0 (Some pn0) (Some rand) sk (Some pk) m cache extra = musig_nonce_gen ctx' sn0 (Some pn0) (Some rand) sk (Some pk) m cache extra.
Proof.
  intros A H U HR HS HP HM HC HE N1 N2. fold (gen_of g). unfold musig_nonce_gen_by, musig_nonce_gen. destruct sn0 as [sn0|]; [|reflexivity].
  rewrite (internal_by g ctx ctx' _ _ _ _ _ P _ _ aggpk _ A H U HR HS HP HM HC HE N1 N2). reflexivity.
Qed.
Lemma prop_musig_default ctx secnonce pubnonce rand sk pk m cache extra :
  musig_nonce_gen_by ecmult_gen ctx secnonce pubnonce rand sk pk m cache extra = musig_nonce_gen ctx secnonce pubnonce rand sk pk m cache extra.
Proof. unfold musig_nonce_gen_by, musig_nonce_gen, musig_nonce_gen_internal_by, musig_nonce_gen_internal. reflexivity. Qed.
Lemma prop_any_musig_counter g ctx ctx' sn0 pn0 cnt kp d m cache aggpk extra : allowed g -> gen_context_of g (c_gen ctx) ->
  usable_context ctx' -> 0 <= cnt < 2 ^ 64 -> keypair_holds kp d -> opt_bytes 32 m -> cache_arg cache aggpk -> opt_bytes 32 extra ->
  let rand := be_bytes 8 cnt ++ repeat 0 24 in
  nonce_gen_k rand (Some (be_bytes 32 d)) (cbytes (pmul d G)) aggpk m extra 0 <> 0 -> nonce_gen_k rand (Some (be_bytes 32 d)) (cbytes (pmul d G)) aggpk m extra 1 <> 0 ->
  musig_nonce_gen_counter_by (any_ecmult_gen g (prec_table g)) ctx sn0 (Some pn0) cnt (Some kp) m cache extra = musig_nonce_gen_counter ctx' sn0 (Some pn0) cnt (Some kp) m cache extra.
Proof.
  intros A H U HN (Rd & pk & HP & ->) HM HC HE rand N1 N2. fold (gen_of g).
  assert (BR : bytes_n 32 rand). { split; [apply byte_list_app; split; [apply be_bytes_byte_list|apply byte_list_repeat; lia]|]. unfold rand. rewrite app_length, be_bytes_length, repeat_length. reflexivity. }
  assert (BS : opt_bytes 32 (Some (be_bytes 32 d))). { intros l E. assert (l = be_bytes 32 d) as -> by congruence. apply be32_bytes. }
  unfold musig_nonce_gen_counter_by, musig_nonce_gen_counter. destruct sn0 as [sn0|]; [|reflexivity].
  change (zeros 24) with (repeat 0 24). fold rand. cbv zeta. unfold keypair_sec, keypair_pub. cbn [r_out].
  rewrite firstn_app, be_bytes_length, Nat.sub_diag, firstn_O, app_nil_r, (firstn_all2 (be_bytes 32 d)) by (rewrite be_bytes_length; lia).
  rewrite skipn_app, be_bytes_length, Nat.sub_diag, (skipn_all2 (be_bytes 32 d)), skipn_O by (rewrite be_bytes_length; lia). cbn [app].
  rewrite (firstn_all2 pk) by (rewrite (proj2 (pubkey_holds_bytes _ _ HP)); lia).
  rewrite (internal_by g ctx ctx' _ _ _ _ _ (pmul d G) _ _ aggpk _ A H U BR BS HP HM HC HE N1 N2). reflexivity.
Qed.
Lemma prop_musig_counter_default ctx secnonce pubnonce cnt kp m cache extra :
  musig_nonce_gen_counter_by ecmult_gen ctx secnonce pubnonce cnt kp m cache extra = musig_nonce_gen_counter ctx secnonce pubnonce cnt kp m cache extra.
Proof. unfold musig_nonce_gen_counter_by, musig_nonce_gen_counter, musig_nonce_gen_internal_by, musig_nonce_gen_internal. reflexivity. Qed.
