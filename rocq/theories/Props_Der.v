(** DER signatures: C05 - C08. *)
Require Import ZArith List Bool.
From Verif Require Import Spec SpecApi SpecDer ApiModel ApiVocab DerProps KeyProps2.
Import ListNotations.
Local Open Scope Z_scope.

(** C05: every signature object has an encoding of at most 72 bytes that parses back to
    the same object, and it is what is written to every buffer that is large enough.
    The outermost [Some] says that no memory outside the buffers was accessed. *)
Theorem C05_der_round_trip sig r s : sig_holds sig r s ->
  exists enc, Z.of_nat (length enc) <= 72 /\
    (forall init, ecdsa_signature_parse_der (Some init) (Some enc) = Some (mkres 1 0 (Some sig))) /\
    forall out size, Z.of_nat (length enc) <= size <= Z.of_nat (length out) ->
      ecdsa_signature_serialize_der (Some out) (Some size) (Some sig) =
        Some (mkres 1 0 (Some (enc ++ skipn (length enc) out), Some (Z.of_nat (length enc)))).
Proof. exact (prop_der_roundtrip sig r s). Qed.
Print Assumptions C05_der_round_trip.
Example C05_example : exists sig, sig_holds sig 7 200. Proof. exact w_der_sig. Qed.

(** C06: serialization succeeds iff the size given is enough, always reports the needed
    size, writes only the encoding, and writes nothing when it fails. *)
Theorem C06_der_serialize sig r s : sig_holds sig r s ->
  exists cr cs enc, der_signature cr cs enc /\ der_int_value cr = r /\ der_int_value cs = s /\ byte_list enc /\ 8 <= Z.of_nat (length enc) <= 72 /\
    forall out size, 0 <= size <= Z.of_nat (length out) ->
      ecdsa_signature_serialize_der (Some out) (Some size) (Some sig) =
        Some (if Z.of_nat (length enc) <=? size
              then mkres 1 0 (Some (enc ++ skipn (length enc) out), Some (Z.of_nat (length enc)))
              else mkres 0 0 (Some out, Some (Z.of_nat (length enc)))).
Proof. exact (prop_der_serialize sig r s). Qed.
Print Assumptions C06_der_serialize.
Example C06_example : exists sig, sig_holds sig 7 200. Proof. exact w_der_sig. Qed.

(** C07: parsing never reads outside the input (that outcome would be [None]), ends, and
    leaves a zero object when it fails.  A length is a [size_t]. *)
Theorem C07_der_parse_total init input : byte_list input -> Z.of_nat (length input) < 2 ^ 64 ->
  exists ret out, ecdsa_signature_parse_der (Some init) (Some input) = Some (mkres ret 0 (Some out)) /\
    length out = 64%nat /\ (ret = 1 \/ ret = 0 /\ out = repeat 0 64).
Proof. exact (prop_der_total init input). Qed.
Print Assumptions C07_der_parse_total.
Example C07_example : byte_list [48; 6; 2; 1; 7] /\ Z.of_nat (length [48; 6; 2; 1; 7]) < 2 ^ 64. Proof. exact w_der_short. Qed.

(** C08: the accepted byte strings are exactly the strict DER encodings. *)
Theorem C08_der_accepts_exactly init input : byte_list input -> Z.of_nat (length input) < 2 ^ 64 ->
  (exists cr cs sig, der_signature cr cs input /\ sig_holds sig (der_scalar cr) (der_scalar cs) /\
     ecdsa_signature_parse_der (Some init) (Some input) = Some (mkres 1 0 (Some sig))) \/
  ((forall cr cs, ~ der_signature cr cs input) /\ ecdsa_signature_parse_der (Some init) (Some input) = Some (mkres 0 0 (Some (repeat 0 64)))).
Proof. exact (prop_der_accept init input). Qed.
Print Assumptions C08_der_accepts_exactly.
(** C08: the value parsed is that of the encoding, however it is split into integers. *)
Theorem C08_der_parsed_value init input cr cs : byte_list input -> Z.of_nat (length input) < 2 ^ 64 -> der_signature cr cs input ->
  exists sig, sig_holds sig (der_scalar cr) (der_scalar cs) /\ ecdsa_signature_parse_der (Some init) (Some input) = Some (mkres 1 0 (Some sig)).
Proof. exact (prop_der_value init input cr cs). Qed.
Print Assumptions C08_der_parsed_value.
(** C08: a signature with an integer outside [1, n) parses but never verifies. *)
Theorem C08_der_out_of_range init input cr cs sig msg pk Q : byte_list input -> Z.of_nat (length input) < 2 ^ 64 -> der_signature cr cs input ->
  (~ 1 <= der_int_value cr < n \/ ~ 1 <= der_int_value cs < n) ->
  ecdsa_signature_parse_der (Some init) (Some input) = Some (mkres 1 0 (Some sig)) -> bytes_n 32 msg -> pubkey_holds pk Q ->
  ecdsa_verify (Some sig) (Some msg) (Some pk) = mkres 0 0 tt.
Proof. exact (prop_der_out_of_range init input cr cs sig msg pk Q). Qed.
Print Assumptions C08_der_out_of_range.
Example C08_example : der_signature [7] [0; 200] [0x30; 7; 2; 1; 7; 2; 2; 0; 200] /\ der_scalar [0; 200] = 200.
Proof. exact w_der. Qed.
Example C08_example_negative : der_signature [255] [7] [0x30; 6; 2; 1; 255; 2; 1; 7] /\ der_scalar [255] = 0 /\ der_int_value [255] = -1.
Proof. exact w_der_neg. Qed.
