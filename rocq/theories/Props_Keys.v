(** Public and secret keys: C10 - C16. *)
Require Import ZArith List Bool Permutation.
From Verif Require Import Spec SpecApi SpecHash GenModel ApiModel ApiVocab EcdsaProof2 KeyProps KeyProps2.
Import ListNotations.
Local Open Scope Z_scope.

(** C10: parsing accepts exactly the SEC 1 encodings of curve points, and then the
    object holds that point; otherwise the object is all zero. *)
Theorem C10_pubkey_parse_exact init inp : byte_list inp ->
  (pubkey_acceptable inp /\
   exists Q pk, ec_pubkey_parse (Some init) (Some inp) = mkres 1 0 (Some pk) /\ encodes_point inp Q /\ pubkey_holds pk Q) \/
  (~ pubkey_acceptable inp /\ ec_pubkey_parse (Some init) (Some inp) = mkres 0 0 (Some (repeat 0 64))).
Proof. exact (prop_parse init inp). Qed.
Print Assumptions C10_pubkey_parse_exact.
Example C10_example : byte_list (enc_hybrid Gx Gy) /\ encodes_point (enc_hybrid Gx Gy) G.
Proof. exact w_hybrid. Qed.

(** C11: serialization writes the encoding and its length, and parsing it gives the
    object back; different keys have different encodings. *)
Theorem C11_pubkey_serialize_roundtrip init buf pk x y (compressed : bool) : pubkey_holds pk (Aff x y) ->
  let enc := pubkey_enc compressed x y in
  let len := if compressed then 33%nat else 65%nat in
  length enc = len /\
  ((len <= length buf)%nat ->
   ec_pubkey_serialize (Some buf) (Some (Z.of_nat (length buf))) (Some pk) (if compressed then EC_COMPRESSED else EC_UNCOMPRESSED) =
   Some (mkres 1 0 (Some (enc ++ repeat 0 (length buf - len)), Some (Z.of_nat len)))) /\
  ec_pubkey_parse (Some init) (Some enc) = mkres 1 0 (Some pk).
Proof. exact (prop_serialize init buf pk x y compressed). Qed.
Print Assumptions C11_pubkey_serialize_roundtrip.
Theorem C11_pubkey_serialize_injective pk x y pk' x' y' (compressed : bool) :
  pubkey_holds pk (Aff x y) -> pubkey_holds pk' (Aff x' y') -> pubkey_enc compressed x y = pubkey_enc compressed x' y' -> pk = pk'.
Proof. exact (prop_serialize_inj pk x y pk' x' y' compressed). Qed.
Print Assumptions C11_pubkey_serialize_injective.
Example C11_example : pubkey_holds w_pk (Aff Gx Gy). Proof. exact w_pk_ok. Qed.

(** C12: valid secret keys are the numbers 1 .. n-1; the public key is d*G. *)
Theorem C12_seckey_verify_exact key : bytes_n 32 key ->
  (1 <= be_val key < n /\ ec_seckey_verify (Some key) = mkres 1 0 tt) \/ (~ 1 <= be_val key < n /\ ec_seckey_verify (Some key) = mkres 0 0 tt).
Proof. exact (prop_seckey_verify key). Qed.
Print Assumptions C12_seckey_verify_exact.
Theorem C12_pubkey_create_exact ctx init key : usable_context ctx -> bytes_n 32 key ->
  (1 <= be_val key < n /\ pmul (be_val key) G <> Inf /\
   exists pk, ec_pubkey_create ctx (Some init) (Some key) = mkres 1 0 (Some pk) /\ pubkey_holds pk (pmul (be_val key) G)) \/
  (~ 1 <= be_val key < n /\ ec_pubkey_create ctx (Some init) (Some key) = mkres 0 0 (Some (repeat 0 64))).
Proof. exact (prop_create ctx init key). Qed.
Print Assumptions C12_pubkey_create_exact.
Example C12_example : usable_context w_ctx /\ seckey_is (w_key 5) 5.
Proof. exact (conj w_ctx_ok (w_key_ok 5 (w_small 5 w_5))). Qed.

(** C13: adding a tweak to the secret key and to the public key. *)
Theorem C13_tweak_add ctx init init' key pk tw : usable_context ctx -> bytes_n 32 key -> bytes_n 32 tw ->
  ec_pubkey_create ctx (Some init) (Some key) = mkres 1 0 (Some pk) ->
  ((be_val tw < n /\ (be_val key + be_val tw) mod n <> 0) /\
   exists key' pk', ec_seckey_tweak_add (Some key) (Some tw) = mkres 1 0 (Some key') /\ ec_pubkey_tweak_add (Some pk) (Some tw) = mkres 1 0 (Some pk') /\
     seckey_is key' ((be_val key + be_val tw) mod n) /\ ec_pubkey_create ctx (Some init') (Some key') = mkres 1 0 (Some pk')) \/
  (~ (be_val tw < n /\ (be_val key + be_val tw) mod n <> 0) /\
   ec_seckey_tweak_add (Some key) (Some tw) = mkres 0 0 (Some (repeat 0 32)) /\ ec_pubkey_tweak_add (Some pk) (Some tw) = mkres 0 0 (Some (repeat 0 64))).
Proof. exact (prop_tweak_add ctx init init' key pk tw). Qed.
Print Assumptions C13_tweak_add.
Example C13_example : exists pk, ec_pubkey_create w_ctx (Some []) (Some (w_key 5)) = mkres 1 0 (Some pk) /\ pubkey_holds pk (pmul 5 G).
Proof. exact (w_create 5 [] (w_small 5 w_5)). Qed.

(** C13 for any public key object, whether or not the secret key is known. *)
Theorem C13_pubkey_tweak_add_exact pk Q tw : pubkey_holds pk Q -> bytes_n 32 tw ->
  let R := padd Q (pmul (be_val tw) G) in
  ((be_val tw < n /\ R <> Inf) /\ exists pk', ec_pubkey_tweak_add (Some pk) (Some tw) = mkres 1 0 (Some pk') /\ pubkey_holds pk' R) \/
  (~ (be_val tw < n /\ R <> Inf) /\ ec_pubkey_tweak_add (Some pk) (Some tw) = mkres 0 0 (Some (repeat 0 64))).
Proof. exact (ApiProof3.pubkey_tweak_add_ok pk Q tw). Qed.
Print Assumptions C13_pubkey_tweak_add_exact.
(** C13: an invalid secret key is rejected. *)
Theorem C13_seckey_tweak_add_exact key tw : bytes_n 32 key -> bytes_n 32 tw ->
  let s := (be_val key + be_val tw) mod n in
  ((1 <= be_val key < n /\ be_val tw < n /\ s <> 0) /\ ec_seckey_tweak_add (Some key) (Some tw) = mkres 1 0 (Some (be_bytes 32 s))) \/
  (~ (1 <= be_val key < n /\ be_val tw < n /\ s <> 0) /\ ec_seckey_tweak_add (Some key) (Some tw) = mkres 0 0 (Some (repeat 0 32))).
Proof. exact (ApiProof3.seckey_tweak_add_ok key tw). Qed.
Print Assumptions C13_seckey_tweak_add_exact.

(** C14: multiplying the secret key and the public key by a tweak. *)
Theorem C14_tweak_mul ctx init init' key pk tw : usable_context ctx -> bytes_n 32 key -> bytes_n 32 tw ->
  ec_pubkey_create ctx (Some init) (Some key) = mkres 1 0 (Some pk) ->
  (1 <= be_val tw < n /\
   exists key' pk', ec_seckey_tweak_mul (Some key) (Some tw) = mkres 1 0 (Some key') /\ ec_pubkey_tweak_mul (Some pk) (Some tw) = mkres 1 0 (Some pk') /\
     seckey_is key' ((be_val key * be_val tw) mod n) /\ ec_pubkey_create ctx (Some init') (Some key') = mkres 1 0 (Some pk')) \/
  (~ 1 <= be_val tw < n /\
   ec_seckey_tweak_mul (Some key) (Some tw) = mkres 0 0 (Some (repeat 0 32)) /\ ec_pubkey_tweak_mul (Some pk) (Some tw) = mkres 0 0 (Some (repeat 0 64))).
Proof. exact (prop_tweak_mul ctx init init' key pk tw). Qed.
Print Assumptions C14_tweak_mul.
Theorem C14_pubkey_tweak_mul_exact pk Q tw : pubkey_holds pk Q -> bytes_n 32 tw ->
  (1 <= be_val tw < n /\ exists pk', ec_pubkey_tweak_mul (Some pk) (Some tw) = mkres 1 0 (Some pk') /\ pubkey_holds pk' (pmul (be_val tw) Q)) \/
  (~ 1 <= be_val tw < n /\ ec_pubkey_tweak_mul (Some pk) (Some tw) = mkres 0 0 (Some (repeat 0 64))).
Proof. exact (ApiProof3.pubkey_tweak_mul_ok pk Q tw). Qed.
Print Assumptions C14_pubkey_tweak_mul_exact.
Theorem C14_seckey_tweak_mul_exact key tw : bytes_n 32 key -> bytes_n 32 tw ->
  ((1 <= be_val key < n /\ 1 <= be_val tw < n) /\
   ec_seckey_tweak_mul (Some key) (Some tw) = mkres 1 0 (Some (be_bytes 32 ((be_val key * be_val tw) mod n)))) \/
  (~ (1 <= be_val key < n /\ 1 <= be_val tw < n) /\ ec_seckey_tweak_mul (Some key) (Some tw) = mkres 0 0 (Some (repeat 0 32))).
Proof. exact (ApiProof3.seckey_tweak_mul_ok key tw). Qed.
Print Assumptions C14_seckey_tweak_mul_exact.
Example C14_example : exists pk, ec_pubkey_create w_ctx (Some []) (Some (w_key 5)) = mkres 1 0 (Some pk) /\ pubkey_holds pk (pmul 5 G).
Proof. exact (w_create 5 [] (w_small 5 w_5)). Qed.

(** C15: negation. *)
Theorem C15_negate ctx init init' key pk : usable_context ctx -> bytes_n 32 key ->
  ec_pubkey_create ctx (Some init) (Some key) = mkres 1 0 (Some pk) ->
  exists key' pk', ec_seckey_negate (Some key) = mkres 1 0 (Some key') /\ ec_pubkey_negate (Some pk) = mkres 1 0 (Some pk') /\
    seckey_is key' (n - be_val key) /\ pubkey_holds pk' (pneg (pmul (be_val key) G)) /\
    ec_pubkey_create ctx (Some init') (Some key') = mkres 1 0 (Some pk') /\
    ec_seckey_negate (Some key') = mkres 1 0 (Some key) /\ ec_pubkey_negate (Some pk') = mkres 1 0 (Some pk).
Proof. exact (prop_negate ctx init init' key pk). Qed.
Print Assumptions C15_negate.
Theorem C15_pubkey_negate pk x y : pubkey_holds pk (Aff x y) ->
  exists pk', ec_pubkey_negate (Some pk) = mkres 1 0 (Some pk') /\ pubkey_holds pk' (Aff x ((- y) mod p)) /\ ec_pubkey_negate (Some pk') = mkres 1 0 (Some pk).
Proof. exact (prop_pubkey_negate pk x y). Qed.
Print Assumptions C15_pubkey_negate.
Theorem C15_seckey_negate_invalid key : bytes_n 32 key -> ~ 1 <= be_val key < n -> ec_seckey_negate (Some key) = mkres 0 0 (Some (repeat 0 32)).
Proof. exact (prop_seckey_negate_invalid key). Qed.
Print Assumptions C15_seckey_negate_invalid.
Example C15_example : exists pk, ec_pubkey_create w_ctx (Some []) (Some (w_key 5)) = mkres 1 0 (Some pk) /\ pubkey_holds pk (pmul 5 G).
Proof. exact (w_create 5 [] (w_small 5 w_5)). Qed.

(** C16: combining a non-empty list of keys. *)
Theorem C16_combine init pks Qs : Forall2 pubkey_holds pks Qs -> pks <> [] ->
  (psum Qs <> Inf /\ exists pk, ec_pubkey_combine (Some init) (Some (map Some pks)) = mkres 1 0 (Some pk) /\ pubkey_holds pk (psum Qs)) \/
  (psum Qs = Inf /\ ec_pubkey_combine (Some init) (Some (map Some pks)) = mkres 0 0 (Some (repeat 0 64))).
Proof. exact (ApiProof3.pubkey_combine_ok init pks Qs). Qed.
Print Assumptions C16_combine.
Theorem C16_combine_order init init' pks pks' Qs : Forall2 pubkey_holds pks Qs -> pks <> [] -> Permutation pks pks' ->
  ec_pubkey_combine (Some init) (Some (map Some pks)) = ec_pubkey_combine (Some init') (Some (map Some pks')).
Proof. exact (combine_perm init init' pks pks' Qs). Qed.
Print Assumptions C16_combine_order.
Example C16_example : Forall2 pubkey_holds [w_pk; w_pk] [G; G]. Proof. exact w_two. Qed.
