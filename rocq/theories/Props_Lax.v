(** The permissive formats of contrib/: C59 (signatures) and C60 (private keys).  The
    outermost [Some] says that no memory outside the buffers was accessed. *)
Require Import ZArith List Bool.
From Verif Require Import Spec SpecApi SpecDer SpecLax ApiModel ApiVocab LaxModel LaxProof LaxProof2 KeyProps2.
Import ListNotations.
Local Open Scope Z_scope.

(** C59: the accepted byte strings are exactly those of the permissive format; the object
    is written in every case. *)
Theorem C59_lax_accepts_exactly init input : byte_list input ->
  (exists cr cs sig, lax_signature cr cs input /\ sig_holds sig (fst (lax_numbers cr cs)) (snd (lax_numbers cr cs)) /\
     ecdsa_signature_parse_der_lax init input = Some (mkres 1 0 (Some sig))) \/
  ((forall cr cs, ~ lax_signature cr cs input) /\ ecdsa_signature_parse_der_lax init input = Some (mkres 0 0 (Some (repeat 0 64)))).
Proof. exact (prop_lax_accept init input). Qed.
Print Assumptions C59_lax_accepts_exactly.
(** C59: the numbers are those of the encoding, however it is split into integers. *)
Theorem C59_lax_parsed_value init input cr cs : byte_list input -> lax_signature cr cs input ->
  exists sig, sig_holds sig (fst (lax_numbers cr cs)) (snd (lax_numbers cr cs)) /\ ecdsa_signature_parse_der_lax init input = Some (mkres 1 0 (Some sig)).
Proof. exact (prop_lax_value init input cr cs). Qed.
Print Assumptions C59_lax_parsed_value.
(** C59: if parsing failed or a number is outside [1, n), verification fails for every
    message and public key. *)
Theorem C59_lax_invalid_never_verifies init input sig ret msg pk Q : byte_list input -> ecdsa_signature_parse_der_lax init input = Some (mkres ret 0 (Some sig)) ->
  (ret = 0 \/ exists cr cs, lax_signature cr cs input /\ (~ 1 <= be_val cr < n \/ ~ 1 <= be_val cs < n)) ->
  bytes_n 32 msg -> pubkey_holds pk Q -> ecdsa_verify (Some sig) (Some msg) (Some pk) = mkres 0 0 tt.
Proof. exact (prop_lax_invalid init input sig ret msg pk Q). Qed.
Print Assumptions C59_lax_invalid_never_verifies.
(** C59: every strict DER signature is accepted, and with numbers in range both parsers
    make the same object. *)
Theorem C59_lax_extends_strict init init' input cr cs : byte_list input -> Z.of_nat (length input) < 2 ^ 56 -> der_signature cr cs input ->
  exists sig sig', ecdsa_signature_parse_der (Some init) (Some input) = Some (mkres 1 0 (Some sig)) /\
    ecdsa_signature_parse_der_lax init' input = Some (mkres 1 0 (Some sig')) /\
    (0 <= der_int_value cr < n -> 0 <= der_int_value cs < n -> sig' = sig).
Proof. exact (prop_lax_extends init init' input cr cs). Qed.
Print Assumptions C59_lax_extends_strict.
(** A wrong outer length, a negative number, an empty one and a trailing byte: accepted
    here, refused by the strict parser. *)
Example C59_example : lax_signature [0xFF] [] w_lax /\ byte_list w_lax /\ lax_numbers [0xFF] [] = (255, 0) /\
  ecdsa_signature_parse_der (Some []) (Some w_lax) = Some (mkres 0 0 (Some (repeat 0 64))).
Proof. exact w_lax_ok. Qed.

(** C60: import accepts exactly the permissive format with a valid key in it, and
    otherwise leaves 32 zero bytes. *)
Theorem C60_import_exact enc : byte_list enc ->
  (exists c, lax_privkey c enc /\ 1 <= be_val c < n /\ ec_privkey_import_der enc = Some (mkres 1 0 (be_bytes 32 (be_val c)))) \/
  ((forall c, lax_privkey c enc -> ~ 1 <= be_val c < n) /\ ec_privkey_import_der enc = Some (mkres 0 0 (repeat 0 32))).
Proof. exact (prop_import enc). Qed.
Print Assumptions C60_import_exact.
(** C60: export of a valid key writes the DER encoding of the SEC 1 structure with the
    public key d*G, 214 or 279 bytes and nothing after them, and import reads the key
    back; for any other key it reports length 0 and writes nothing. *)
Theorem C60_export_import ctx buf key (compressed : bool) : usable_context ctx -> bytes_n 32 key -> 279 <= Z.of_nat (length buf) ->
  (1 <= be_val key < n /\
   exists x y enc, pmul (be_val key) G = Aff x y /\ enc = sec1_privkey compressed key (if compressed then enc_compressed x y else enc_uncompressed x y) /\
     Z.of_nat (length enc) = (if compressed then 214 else 279) /\
     ec_privkey_export_der ctx buf key compressed = Some (mkres 1 0 (enc ++ skipn (length enc) buf, Z.of_nat (length enc))) /\
     ec_privkey_import_der enc = Some (mkres 1 0 key)) \/
  (~ 1 <= be_val key < n /\ ec_privkey_export_der ctx buf key compressed = Some (mkres 0 0 (buf, 0))).
Proof. exact (prop_export ctx buf key compressed). Qed.
Print Assumptions C60_export_import.
Example C60_example : lax_privkey [9] w_privkey /\ byte_list w_privkey /\ ec_privkey_import_der w_privkey = Some (mkres 1 0 (be_bytes 32 9)).
Proof. exact w_privkey_ok. Qed.
Example C60_example_export : usable_context w_ctx /\ seckey_is (w_key 5) 5.
Proof. exact (conj w_ctx_ok (w_key_ok 5 (w_small 5 w_5))). Qed.
