(** The DER properties at the level of the API. *)
Require Import ZArith List Bool Lia.
From Verif Require Import Word Bytes Spec SpecApi SpecDer ScalarModel ScalarProof HashModel EcdsaModel ApiModel ApiProof EcdsaProof DerProof KeyProps2.
Import ListNotations.
Local Open Scope Z_scope.
Local Opaque n.

Lemma sig_load sig r s : sig_holds sig r s -> exists a b, signature_load sig = (a, b) /\ sc_ok a /\ sc_ok b /\ sv a = r /\ sv b = s.
Proof.
  intro H. pose proof (sig_load_ok sig r s H) as T. destruct (signature_load sig) as [a b]. cbn [fst snd] in T. exists a, b. tauto.
Qed.
Lemma sig_holds_fun sig sig' r s : sig_holds sig r s -> sig_holds sig' r s -> sig = sig'.
Proof. intros (_ & _ & ->) (_ & _ & ->). reflexivity. Qed.
Lemma der_scalar_range c : 0 <= der_scalar c < n.
Proof.
  unfold der_scalar. assert (0 < n) by reflexivity. destruct ((0 <=? der_int_value c) && (der_int_value c <? n)) eqn:Q; [|lia].
  apply andb_prop in Q as [Q1 Q2]. apply Z.leb_le in Q1. apply Z.ltb_lt in Q2. lia.
Qed.
Lemma prop_der_accept init input : byte_list input -> Z.of_nat (length input) < 2 ^ 64 ->
  (exists cr cs sig, der_signature cr cs input /\ sig_holds sig (der_scalar cr) (der_scalar cs) /\
     ecdsa_signature_parse_der (Some init) (Some input) = Some (mkres 1 0 (Some sig))) \/
  ((forall cr cs, ~ der_signature cr cs input) /\ ecdsa_signature_parse_der (Some init) (Some input) = Some (mkres 0 0 (Some (repeat 0 64)))).
Proof.
  intros B L. unfold ecdsa_signature_parse_der. destruct (sig_parse_bwd input B L) as (NU & BW).
  destruct (ecdsa_sig_parse input) as [| |x] eqn:E; [contradiction| |].
  - right. split; [|reflexivity]. intros cr cs D. destruct (sig_parse_fwd cr cs input B L D) as (r & s & E' & _). rewrite E in E'. discriminate.
  - left. destruct (BW x eq_refl) as (cr & cs & D). destruct (sig_parse_fwd cr cs input B L D) as (r & s & E' & R & S & VR & VS).
    rewrite E in E'. injection E' as ->. exists cr, cs, (signature_save r s). split; [exact D|]. split; [|reflexivity].
    rewrite <- VR, <- VS. now apply sig_save_ok.
Qed.
(** The parsed contents are determined by the input. *)
Lemma prop_der_value init input cr cs : byte_list input -> Z.of_nat (length input) < 2 ^ 64 -> der_signature cr cs input ->
  exists sig, sig_holds sig (der_scalar cr) (der_scalar cs) /\ ecdsa_signature_parse_der (Some init) (Some input) = Some (mkres 1 0 (Some sig)).
Proof.
  intros B L D. destruct (sig_parse_fwd cr cs input B L D) as (r & s & E & R & S & VR & VS). exists (signature_save r s). split.
  - rewrite <- VR, <- VS. now apply sig_save_ok.
  - unfold ecdsa_signature_parse_der. rewrite E. reflexivity.
Qed.
Lemma prop_der_out_of_range init input cr cs sig msg pk Q : byte_list input -> Z.of_nat (length input) < 2 ^ 64 -> der_signature cr cs input ->
  (~ 1 <= der_int_value cr < n \/ ~ 1 <= der_int_value cs < n) ->
  ecdsa_signature_parse_der (Some init) (Some input) = Some (mkres 1 0 (Some sig)) -> bytes_n 32 msg -> pubkey_holds pk Q ->
  ecdsa_verify (Some sig) (Some msg) (Some pk) = mkres 0 0 tt.
Proof.
  intros B L D O E M P. destruct (prop_der_value init input cr cs B L D) as (sig' & S & E'). rewrite E in E'. assert (sig' = sig) as -> by congruence.
  destruct (ecdsa_verify_ok sig _ _ msg pk Q S M P) as [(_ & _ & V)|(V & _)]; [|exact V]. exfalso.
  assert (Z0 : forall c, ~ 1 <= der_int_value c < n -> der_scalar c = 0).
  { intros c H. unfold der_scalar. destruct (_ && _) eqn:Q0; [|reflexivity]. apply andb_prop in Q0 as [Q1 Q2]. apply Z.leb_le in Q1. apply Z.ltb_lt in Q2. lia. }
  destruct V as (V1 & V2 & _). destruct O as [O|O]; rewrite (Z0 _ O) in *; lia.
Qed.
Lemma prop_der_serialize sig r s : sig_holds sig r s ->
  exists cr cs enc, der_signature cr cs enc /\ der_int_value cr = r /\ der_int_value cs = s /\ byte_list enc /\ 8 <= Z.of_nat (length enc) <= 72 /\
    forall out size, 0 <= size <= Z.of_nat (length out) ->
      ecdsa_signature_serialize_der (Some out) (Some size) (Some sig) =
        Some (if Z.of_nat (length enc) <=? size
              then mkres 1 0 (Some (enc ++ skipn (length enc) out), Some (Z.of_nat (length enc)))
              else mkres 0 0 (Some out, Some (Z.of_nat (length enc)))).
Proof.
  intro H. destruct (sig_load sig r s H) as (a & b & E & A & B & <- & <-).
  destruct (der_trim_sc a A) as (_ & VR & _ & _). destruct (der_trim_sc b B) as (_ & VS & _ & _). destruct (der_enc_ok a b A B) as (D & BL & LL).
  exists (der_trim (0 :: sc_get_b32 a)), (der_trim (0 :: sc_get_b32 b)), (der_enc (der_trim (0 :: sc_get_b32 a)) (der_trim (0 :: sc_get_b32 b))).
  split; [exact D|split; [exact VR|split; [exact VS|split; [exact BL|split; [exact LL|]]]]].
  intros out size HS. unfold ecdsa_signature_serialize_der. rewrite E. cbv zeta. rewrite (sig_serialize_ok out size a b A B HS).
  destruct (_ <=? size); reflexivity.
Qed.
Lemma prop_der_roundtrip sig r s : sig_holds sig r s ->
  exists enc, Z.of_nat (length enc) <= 72 /\
    (forall init, ecdsa_signature_parse_der (Some init) (Some enc) = Some (mkres 1 0 (Some sig))) /\
    forall out size, Z.of_nat (length enc) <= size <= Z.of_nat (length out) ->
      ecdsa_signature_serialize_der (Some out) (Some size) (Some sig) =
        Some (mkres 1 0 (Some (enc ++ skipn (length enc) out), Some (Z.of_nat (length enc)))).
Proof.
  intros H. destruct (prop_der_serialize sig r s H) as (cr & cs & enc & D & VR & VS & B & L & T). exists enc.
  split; [lia|split].
  - intro init. destruct (prop_der_value init enc cr cs B ltac:(lia) D) as (sig' & S & E). rewrite E. do 3 f_equal. apply (sig_holds_fun _ _ r s); [|exact H].
    assert (Z0 : forall c v, der_int_value c = v -> 0 <= v < n -> der_scalar c = v).
    { intros c v Ec R. unfold der_scalar. rewrite Ec. replace ((0 <=? v) && (v <? n)) with true; [reflexivity|].
      symmetry. apply andb_true_intro. split; [apply Z.leb_le|apply Z.ltb_lt]; lia. }
    destruct H as (H1 & H2 & _). rewrite (Z0 _ _ VR H1), (Z0 _ _ VS H2) in S. exact S.
  - intros out size HS. rewrite T by lia. replace (Z.of_nat (length enc) <=? size) with true by (symmetry; apply Z.leb_le; lia). reflexivity.
Qed.
Lemma prop_der_total init input : byte_list input -> Z.of_nat (length input) < 2 ^ 64 ->
  exists ret out, ecdsa_signature_parse_der (Some init) (Some input) = Some (mkres ret 0 (Some out)) /\
    length out = 64%nat /\ (ret = 1 \/ ret = 0 /\ out = repeat 0 64).
Proof.
  intros B L. destruct (prop_der_accept init input B L) as [(cr & cs & sig & _ & S & E)|(_ & E)].
  - exists 1, sig. split; [exact E|split; [|now left]]. destruct S as (_ & _ & ->). unfold le_enc. rewrite app_length, !rev_length, !be_bytes_length. reflexivity.
  - exists 0, (repeat 0 64). split; [exact E|split; [reflexivity|right; split; reflexivity]].
Qed.

(** Concrete cases. *)
Lemma w_der : der_signature [7] [0; 200] [0x30; 7; 2; 1; 7; 2; 2; 0; 200] /\ der_scalar [0; 200] = 200.
Proof.
  split; [|reflexivity]. split; [|split].
  - apply contents_iff. split; [repeat constructor; lia|split; [discriminate|reflexivity]].
  - apply contents_iff. split; [repeat constructor; lia|split; [discriminate|reflexivity]].
  - exists [2; 1; 7], [2; 2; 0; 200]. split; [exists [1]; split; [left; split; [cbn; lia|reflexivity]|reflexivity]|]. split; [exists [2]; split; [left; split; [cbn; lia|reflexivity]|reflexivity]|].
    exists [7]. split; [left; split; [cbn; lia|reflexivity]|reflexivity].
Qed.
(** A negative integer is accepted and counts as zero. *)
Lemma w_der_neg : der_signature [255] [7] [0x30; 6; 2; 1; 255; 2; 1; 7] /\ der_scalar [255] = 0 /\ der_int_value [255] = -1.
Proof.
  split; [|split; reflexivity]. split; [|split].
  - apply contents_iff. split; [repeat constructor; lia|split; [discriminate|reflexivity]].
  - apply contents_iff. split; [repeat constructor; lia|split; [discriminate|reflexivity]].
  - exists [2; 1; 255], [2; 1; 7]. split; [exists [1]; split; [left; split; [cbn; lia|reflexivity]|reflexivity]|]. split; [exists [1]; split; [left; split; [cbn; lia|reflexivity]|reflexivity]|].
    exists [6]. split; [left; split; [cbn; lia|reflexivity]|reflexivity].
Qed.
Lemma w_der_short : byte_list [48; 6; 2; 1; 7] /\ Z.of_nat (length [48; 6; 2; 1; 7]) < 2 ^ 64.
Proof. split; [repeat constructor; lia|reflexivity]. Qed.
Lemma w_der_sig : exists sig, sig_holds sig 7 200.
Proof. eexists. split; [split; reflexivity || discriminate|]. split; [split; reflexivity || discriminate|reflexivity]. Qed.
