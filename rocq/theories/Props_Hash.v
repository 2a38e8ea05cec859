(** SHA-256, tagged hashes, HMAC and RFC 6979: C35, C36. *)
Require Import ZArith List Bool.
From Verif Require Import Spec SpecApi SpecHash HashModel HashProof ApiModel ApiVocab RepProof2.
Import ListNotations.
Local Open Scope Z_scope.

(** C35: any sequence of writes hashes the concatenation. *)
Theorem C35_sha256 chunks : Forall byte_list chunks -> Z.of_nat (length (concat chunks)) < 2 ^ 61 ->
  sha256_finalize (fold_left sha256_write chunks sha256_initialize) = SHA256 (concat chunks).
Proof. exact (prop_sha chunks). Qed.
Print Assumptions C35_sha256.
(** C35: the tagged hash of the API. *)
Theorem C35_tagged_sha256 tag msg buf : byte_list tag -> byte_list msg -> Z.of_nat (length tag) < 2 ^ 61 -> Z.of_nat (length msg) < 2 ^ 61 - 64 ->
  api_tagged_sha256 (Some buf) (Some tag) (Some msg) = mkres 1 0 (Some (SHA256 (SHA256 tag ++ SHA256 tag ++ msg))).
Proof. exact (prop_tagged tag msg buf). Qed.
Print Assumptions C35_tagged_sha256.
Example C35_example : Forall byte_list [repeat 7 64; []; [1; 2; 3]].
Proof. repeat (constructor; [repeat (constructor; [now split|]); constructor|]); constructor. Qed.

(** C36: HMAC with a key of any length and any sequence of writes. *)
Theorem C36_hmac key chunks : byte_list key -> Z.of_nat (length key) < 2 ^ 61 -> Forall byte_list chunks -> Z.of_nat (length (concat chunks)) < 2 ^ 61 - 64 ->
  hmac_finalize (fold_left hmac_write chunks (hmac_initialize key)) = HMAC key (concat chunks).
Proof. exact (prop_hmac key chunks). Qed.
Print Assumptions C36_hmac.
(** C36: the k-th request of 32 bytes to the generator ([rng_nth k] makes k + 1 requests). *)
Theorem C36_rfc6979_generator seed k : byte_list seed -> Z.of_nat (length seed) < 2 ^ 60 ->
  snd (rng_nth k (rfc6979_initialize seed)) = RFC6979 k seed.
Proof. exact (prop_rng seed k). Qed.
Print Assumptions C36_rfc6979_generator.
(** C36: the default nonce function (key data: key, message reduced modulo n, extra data, algorithm); the counter 2^32 - 1 would never return. *)
Theorem C36_default_nonce msg key algo data c : bytes_n 32 msg -> bytes_n 32 key -> opt_bytes 16 algo -> opt_bytes 32 data -> 0 <= c < 2 ^ 32 - 1 ->
  nonce_function_rfc6979 msg key algo data c = Some (RFC6979 (Z.to_nat c) (key ++ be_bytes 32 (be_val msg mod n) ++ opt_cat data ++ opt_cat algo)).
Proof. exact (prop_nonce msg key algo data c). Qed.
Print Assumptions C36_default_nonce.
Example C36_example : bytes_n 32 (repeat 1 32) /\ opt_bytes 16 None.
Proof. split; [split; [repeat (constructor; [now split|]); constructor|reflexivity]|discriminate]. Qed.
