(** C62: verification and recovery do not depend on the window size. *)
Require Import ZArith List Bool Lia.
From Verif Require Import Spec SpecApi SpecHash SpecRec SpecBip340 Curve FieldModel ScalarModel ScalarProof GroupModel GroupProof GroupProof2 GroupProof3
  EcmultModel EcmultProof EcmultProof2 EcdsaModel ApiModel ApiVocab ApiProof EcdsaProof EcdhProof ExtrakeysModel SchnorrModel SchnorrProof SchnorrProps RecoveryModel
  WindowModel WindowProof SpecWindow WindowProps WindowApiModel WindowApiProof.
Import ListNotations.
Local Open Scope Z_scope.

Lemma build_mul_ok built w : window_allowed built w -> forall a na ng P, gej_rep f1 a P -> sc_ok na -> sc_ok ng ->
  gej_rep f1 (build_mul built w a na (Some ng)) (padd (pmul (sv na) P) (pmul (sv ng) G)).
Proof.
  intros (_ & H1 & H2) a na ng P Ra Ka Kg. unfold build_mul. rewrite precomputed_ok by (try assumption; lia).
  destruct (window_tables w H1) as [T1 T2]. exact (win_ecmult_ok w _ _ a na (Some ng) P H1 T1 T2 Ra Ka Kg).
Qed.
Lemma prop_win_verify built w sig r s msg pk Q : window_allowed built w -> sig_holds sig r s -> bytes_n 32 msg -> pubkey_holds pk Q ->
  ecdsa_verify_by (build_mul built w) (Some sig) (Some msg) (Some pk) = ecdsa_verify (Some sig) (Some msg) (Some pk).
Proof.
  intros A H1 H2 H3. destruct (by_ecdsa_verify_ok _ (build_mul_ok built w A) sig r s msg pk Q H1 H2 H3) as [(E & X) | (E & X)];
  destruct (ecdsa_verify_ok sig r s msg pk Q H1 H2 H3) as [(E' & X') | (E' & X')]; try congruence; contradiction.
Qed.
Lemma prop_win_schnorr built w sig msg len m pk P : window_allowed built w -> bytes_n 64 sig -> is_message msg len m -> Z.of_nat (length m) < 2 ^ 61 - 128 -> xonly_holds pk P ->
  schnorrsig_verify_by (build_mul built w) (Some sig) msg len (Some pk) = schnorrsig_verify (Some sig) msg len (Some pk).
Proof.
  intros A B HM LM [H _]. destruct (is_message_ok _ _ _ HM) as (_ & EB & C).
  assert (MP : msg <> None \/ len = 0) by (destruct HM as (_ & -> & [[-> ->]|[rest ->]]); [right; reflexivity|left; discriminate]).
  pose proof (by_schnorr_ok _ (build_mul_ok built w A) sig msg len pk P B MP) as W. pose proof (verify_ok sig msg len pk P B MP) as W'.
  cbv zeta in W, W'. rewrite EB in W, W'. specialize (W C LM H). specialize (W' C LM H).
  destruct W as [(X & E) | (X & E)], W' as [(X' & E') | (X' & E')]; try congruence; contradiction.
Qed.
Lemma holds_unique pk pk' Q : pubkey_holds pk Q -> pubkey_holds pk' Q -> pk = pk'.
Proof. destruct Q as [|x y]; [intros []|]. intros [_ ->] [_ ->]. reflexivity. Qed.
Lemma prop_win_recover built w init sig r s v msg : window_allowed built w -> recsig_holds sig r s v -> bytes_n 32 msg ->
  ecdsa_recover_by (build_mul built w) (Some init) (Some sig) (Some msg) = ecdsa_recover (Some init) (Some sig) (Some msg).
Proof.
  intros A H HM. destruct (by_recover_ok _ (build_mul_ok built w A) init sig r s v msg H HM) as [(Q & pk & R & P & E) | (R & E)];
  destruct (recover_ok init sig r s v msg H HM) as [(Q' & pk' & R' & P' & E') | (R' & E')].
  - rewrite E, E'. rewrite (recovers_fun _ _ _ _ _ _ R R') in P. now rewrite (holds_unique _ _ _ P P').
  - destruct (R' Q R).
  - destruct (R Q' R').
  - congruence.
Qed.
