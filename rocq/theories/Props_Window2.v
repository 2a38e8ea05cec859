(** Verification and recovery under every window size: C62. *)
Require Import ZArith List Bool.
From Verif Require Import Spec SpecApi SpecHash SpecRec SpecBip340 Bytes EcmultModel ApiModel ApiVocab SchnorrModel RecoveryModel SpecWindow WindowApiModel WindowApiProps.
From Verif Require KeyProps2 SchnorrProps EcdhProof.
Import ListNotations.
Local Open Scope Z_scope.

(** C62: ECDSA verification answers alike in every build. *)
Theorem C62_ecdsa_verify built w sig r s msg pk Q : window_allowed built w -> sig_holds sig r s -> bytes_n 32 msg -> pubkey_holds pk Q ->
  ecdsa_verify_by (build_mul built w) (Some sig) (Some msg) (Some pk) = ecdsa_verify (Some sig) (Some msg) (Some pk).
Proof. exact (prop_win_verify built w sig r s msg pk Q). Qed.
Print Assumptions C62_ecdsa_verify.
(** C62: Schnorr verification answers alike in every build. *)
Theorem C62_schnorrsig_verify built w sig msg len m pk P : window_allowed built w -> bytes_n 64 sig -> is_message msg len m -> Z.of_nat (length m) < 2 ^ 61 - 128 ->
  xonly_holds pk P ->
  schnorrsig_verify_by (build_mul built w) (Some sig) msg len (Some pk) = schnorrsig_verify (Some sig) msg len (Some pk).
Proof. exact (prop_win_schnorr built w sig msg len m pk P). Qed.
Print Assumptions C62_schnorrsig_verify.
(** C62: public key recovery gives the same result and the same bytes in every build. *)
Theorem C62_ecdsa_recover built w init sig r s v msg : window_allowed built w -> recsig_holds sig r s v -> bytes_n 32 msg ->
  ecdsa_recover_by (build_mul built w) (Some init) (Some sig) (Some msg) = ecdsa_recover (Some init) (Some sig) (Some msg).
Proof. exact (prop_win_recover built w init sig r s v msg). Qed.
Print Assumptions C62_ecdsa_recover.
(** C62: with the default multiplication the three functions are, for all arguments, those of the other claims. *)
Theorem C62_default_functions sig msg len pk :
  ecdsa_verify_by ecmult sig msg pk = ecdsa_verify sig msg pk /\
  schnorrsig_verify_by ecmult sig msg len pk = schnorrsig_verify sig msg len pk /\
  ecdsa_recover_by ecmult pk sig msg = ecdsa_recover pk sig msg.
Proof. exact (conj eq_refl (conj eq_refl eq_refl)). Qed.
Print Assumptions C62_default_functions.
Example C62_example_ecdsa : sig_holds (le_enc 32 7 ++ le_enc 32 9) 7 9 /\ pubkey_holds KeyProps2.w_pk G /\ bytes_n 32 (repeat 7 32).
Proof. split; [exact KeyProps2.w_sig|]. split; [exact KeyProps2.w_pk_ok|]. split; [repeat constructor; discriminate|reflexivity]. Qed.
Example C62_example_schnorr : xonly_holds KeyProps2.w_pk G /\ is_message None 0 [] /\ bytes_n 64 (be_bytes 32 7 ++ be_bytes 32 n).
Proof. exact (conj SchnorrProps.w_xonly (conj SchnorrProps.w_nomsg KeyProps2.w_compact)). Qed.
Example C62_example_recover : recsig_holds (le_enc 32 7 ++ le_enc 32 (n - 9) ++ [3]) 7 (n - 9) 3.
Proof. exact EcdhProof.w_recsig. Qed.
