(** ElligatorSwift: C31 - C34, C52, and C19 for its key creation. *)
Require Import ZArith List Bool String.
From Verif Require Import Spec SpecApi SpecHash SpecBip340 SpecEllswift FieldModel FieldMul GenModel EcdsaModel ApiModel ApiVocab KeyProps2 EllswiftModel EllswiftProof EllswiftProof2 EllswiftProps.
Import ListNotations.
Local Open Scope Z_scope.
Local Notation length := List.length.

(** C31: every 64-byte string decodes to a valid public key, the one BIP 324 specifies. *)
Theorem C31_decode_total init ell : bytes_n 64 ell ->
  exists pk Q, ellswift_decode (Some init) (Some ell) = mkres 1 0 (Some pk) /\ pubkey_holds pk Q /\ ell_point ell Q.
Proof. exact (decode_ok init ell). Qed.
Print Assumptions C31_decode_total.
(** C31: the point that an encoding stands for is unique. *)
Theorem C31_point_unique ell Q Q' : ell_point ell Q -> ell_point ell Q' -> Q = Q'.
Proof. exact (ell_point_fun ell Q Q'). Qed.
Print Assumptions C31_point_unique.
Example C31_example : bytes_n 64 (repeat 0 64). Proof. exact (zeros_bytes 64). Qed.

(** C32: if the inverse map succeeds on (x, u, c) with result t, then (u, t) maps to x. *)
Theorem C32_inverse_exact x u c t : fe_mag 1 x -> fe_mag 1 u -> valid_x (fval x) -> fval u mod p <> 0 ->
  xswiftec_inv_var x u c = Some t -> xswiftec (fval u) (fval t) (fval x mod p).
Proof. exact (fun A B C D E => proj2 (inv_exact x u c t A B C D E)). Qed.
Print Assumptions C32_inverse_exact.
(** C32: the result of secp256k1_ellswift_encode for a valid public key (the search is over
    when it returns): its first half is a tagged hash of the key, the randomness and a
    counter. *)
Theorem C32_encode_result fuel init pk Q rnd r : pubkey_holds pk Q -> bytes_n 32 rnd -> ellswift_encode fuel (Some init) (Some pk) (Some rnd) = Some r ->
  exists ell i, r = mkres 1 0 (Some ell) /\ bytes_n 64 ell /\ 0 <= i < 2 ^ 32 /\
    firstn 32 ell = tagged_hash (ascii_bytes "secp256k1_ellswift_encode"%string) (enc_compressed (xcoord Q) (ycoord Q) ++ repeat 0 31 ++ rnd ++ le_enc 4 i) /\
    (ell_u ell mod p <> 0 -> ell_point ell Q).
Proof. exact (encode_ok fuel init pk Q rnd r). Qed.
Print Assumptions C32_encode_result.
(** C32: encoding followed by decoding gives the same public key, whatever the randomness
    (unless the 256-bit hash that becomes u is a multiple of p). *)
Theorem C32_encode_decode fuel init init' pk Q rnd ell : pubkey_holds pk Q -> bytes_n 32 rnd ->
  ellswift_encode fuel (Some init) (Some pk) (Some rnd) = Some (mkres 1 0 (Some ell)) -> ell_u ell mod p <> 0 ->
  ellswift_decode (Some init') (Some ell) = mkres 1 0 (Some pk).
Proof. exact (prop_encode_decode fuel init init' pk Q rnd ell). Qed.
Print Assumptions C32_encode_decode.
Example C32_encode_example : pubkey_holds w_pk G /\
  exists ell, ellswift_encode 1 (Some []) (Some w_pk) (Some (repeat 0 32)) = Some (mkres 1 0 (Some ell)) /\ ell_u ell mod p <> 0.
Proof. exact (conj w_pk_ok (w_encode [])). Qed.
(** C32: creating an encoded key: the result is an encoding for a valid secret key, and 0
    with 64 zero bytes otherwise. *)
Theorem C32_create_result fuel ctx init key aux r : usable_context ctx -> bytes_n 32 key -> match aux with Some a => bytes_n 32 a | None => True end ->
  ellswift_create fuel ctx (Some init) (Some key) aux = Some r ->
  (1 <= be_val key < n /\ exists ell i, r = mkres 1 0 (Some ell) /\ bytes_n 64 ell /\ 0 <= i < 2 ^ 32 /\
     firstn 32 ell = tagged_hash (ascii_bytes "secp256k1_ellswift_create"%string) (key ++ repeat 0 32 ++ (match aux with Some a => a | None => [] end) ++ le_enc 4 i) /\
     (ell_u ell mod p <> 0 -> ell_point ell (pmul (be_val key) G))) \/
  (~ 1 <= be_val key < n /\ r = mkres 0 0 (Some (repeat 0 64))).
Proof. exact (create_ok fuel ctx init key aux r). Qed.
Print Assumptions C32_create_result.
(** C32: decoding what creation returned gives the public key of the secret key. *)
Theorem C32_create_decode fuel ctx init init' key aux ret ill ell : usable_context ctx -> bytes_n 32 key -> match aux with Some a => bytes_n 32 a | None => True end ->
  ellswift_create fuel ctx (Some init) (Some key) aux = Some (mkres ret ill (Some ell)) -> ret <> 0 -> ell_u ell mod p <> 0 ->
  exists pk, ellswift_decode (Some init') (Some ell) = mkres 1 0 (Some pk) /\ ec_pubkey_create ctx (Some init') (Some key) = mkres 1 0 (Some pk) /\ pubkey_holds pk (pmul (be_val key) G).
Proof. exact (prop_create_decode fuel ctx init init' key aux ret ill ell). Qed.
Print Assumptions C32_create_decode.
Example C32_create_example : usable_context w_ctx /\
  exists ell, ellswift_create 1 w_ctx (Some []) (Some (w_key 1)) (Some (repeat 4 32)) = Some (mkres 1 0 (Some ell)) /\ ell_u ell mod p <> 0.
Proof. exact (conj w_ctx_ok (w_ell_create [])). Qed.

(** C33: the hash callback gets the x coordinate of the secret key times the other party's
    point; the return value is 1 if and only if the callback's is not 0. *)
Theorem C33_xdh_exact out ella ellb key party hf Q ret out' : bytes_n 64 ella -> bytes_n 64 ellb -> bytes_n 32 key -> 1 <= be_val key < n ->
  ell_point (if party =? 0 then ellb else ella) Q ->
  hf out (be_bytes 32 (xcoord (pmul (be_val key) Q))) ella ellb = (ret, out') ->
  ellswift_xdh (Some out) (Some ella) (Some ellb) (Some key) party (Some hf) = mkres (if ret =? 0 then 0 else 1) 0 (Some out').
Proof. exact (prop_xdh_exact out ella ellb key party hf Q ret out'). Qed.
Print Assumptions C33_xdh_exact.
(** C33: the two parties hand the same shared x coordinate, that of a*b*G, to the callback. *)
Theorem C33_xdh_symmetric ella ellb keya keyb outa outb hf : bytes_n 64 ella -> bytes_n 64 ellb -> bytes_n 32 keya -> bytes_n 32 keyb ->
  1 <= be_val keya < n -> 1 <= be_val keyb < n ->
  (exists A, ell_point ella A /\ xcoord A = xcoord (pmul (be_val keya) G)) ->
  (exists B, ell_point ellb B /\ xcoord B = xcoord (pmul (be_val keyb) G)) ->
  let x := be_bytes 32 (xcoord (pmul (be_val keya * be_val keyb) G)) in
  (forall ret out', hf outa x ella ellb = (ret, out') ->
     ellswift_xdh (Some outa) (Some ella) (Some ellb) (Some keya) 0 (Some hf) = mkres (if ret =? 0 then 0 else 1) 0 (Some out')) /\
  (forall ret out', hf outb x ella ellb = (ret, out') ->
     ellswift_xdh (Some outb) (Some ella) (Some ellb) (Some keyb) 1 (Some hf) = mkres (if ret =? 0 then 0 else 1) 0 (Some out')).
Proof. exact (prop_xdh_symmetric ella ellb keya keyb outa outb hf). Qed.
Print Assumptions C33_xdh_symmetric.
(** C33: the two hash functions of the library. *)
Theorem C33_hash_bip324 out x a b : bytes_n 32 x -> bytes_n 64 a -> bytes_n 64 b -> (32 <= length out)%nat ->
  ellswift_xdh_hash_function_bip324 out x a b = (1, tagged_hash (ascii_bytes "bip324_ellswift_xonly_ecdh"%string) (a ++ b ++ x) ++ skipn 32 out).
Proof. exact (prop_hash_bip324 out x a b). Qed.
Print Assumptions C33_hash_bip324.
Theorem C33_hash_prefix data out x a b : bytes_n 64 data -> bytes_n 32 x -> bytes_n 64 a -> bytes_n 64 b -> (32 <= length out)%nat ->
  ellswift_xdh_hash_function_prefix data out x a b = (1, SHA256 (data ++ a ++ b ++ x) ++ skipn 32 out).
Proof. exact (prop_hash_prefix data out x a b). Qed.
Print Assumptions C33_hash_prefix.
Example C33_example : exists ella ellb A B, bytes_n 64 ella /\ bytes_n 64 ellb /\ be_val (w_key 1) = 1 /\
  (ell_point ella A /\ xcoord A = xcoord (pmul 1 G)) /\ (ell_point ellb B /\ xcoord B = xcoord (pmul 1 G)) /\ ella <> ellb.
Proof. exact w_xdh. Qed.

(** C34: the secret keys 0 and n are rejected.  The claim for every invalid key is false
    (C34_overflow_rejected_refuted). *)
Theorem C34_zero_rejected_partial out ella ellb key party hf : bytes_n 64 ella -> bytes_n 64 ellb -> bytes_n 32 key -> be_val key mod n = 0 ->
  r_ret (ellswift_xdh (Some out) (Some ella) (Some ellb) (Some key) party (Some hf)) = 0.
Proof. exact (prop_xdh_zero out ella ellb key party hf). Qed.
Print Assumptions C34_zero_rejected_partial.
(** C34: what happens instead: every secret key is taken modulo n. *)
Theorem C34_key_reduced_partial out ella ellb key party hf : bytes_n 32 key ->
  ellswift_xdh out ella ellb (Some key) party hf = ellswift_xdh out ella ellb (Some (be_bytes 32 (be_val key mod n))) party hf.
Proof. exact (prop_xdh_reduced out ella ellb key party hf). Qed.
Print Assumptions C34_key_reduced_partial.
Theorem C34_overflow_rejected_refuted : exists out ella ellb key party hf, bytes_n 64 ella /\ bytes_n 64 ellb /\ bytes_n 32 key /\ ~ 1 <= be_val key < n /\
  ec_seckey_verify (Some key) = mkres 0 0 tt /\
  r_ret (ellswift_xdh (Some out) (Some ella) (Some ellb) (Some key) party (Some hf)) = 1.
Proof. exact prop_c34_refuted. Qed.
Print Assumptions C34_overflow_rejected_refuted.
Example C34_example : bytes_n 32 (repeat 0 32) /\ be_val (repeat 0 32) mod n = 0. Proof. exact (conj (zeros_bytes 32) eq_refl). Qed.

(** C52: for fixed x and u, the inverse map's results for the eight values of c are pairwise
    different, and together they are all the t (outside the exceptional cases) that map to x. *)
Theorem C52_inverse_distinct x u c c' t t' : fe_mag 1 x -> fe_mag 1 u -> valid_x (fval x) -> fval u mod p <> 0 -> 0 <= c < 8 -> 0 <= c' < 8 -> c <> c' ->
  xswiftec_inv_var x u c = Some t -> xswiftec_inv_var x u c' = Some t' -> fval t mod p <> fval t' mod p.
Proof. exact (inv_distinct x u c c' t t'). Qed.
Print Assumptions C52_inverse_distinct.
Theorem C52_inverse_exhaustive x u T : fe_mag 1 x -> fe_mag 1 u -> valid_x (fval x) -> fval u mod p <> 0 -> T mod p <> 0 -> (fval u ^ 3 + T ^ 2 + 7) mod p <> 0 ->
  xswiftec (fval u) T (fval x mod p) -> exists c t, 0 <= c < 8 /\ xswiftec_inv_var x u c = Some t /\ fval t mod p = T mod p.
Proof. exact (inv_exhaustive x u T). Qed.
Print Assumptions C52_inverse_exhaustive.
Example C52_example : exists x u c t, fe_mag 1 x /\ fe_mag 1 u /\ valid_x (fval x) /\ fval u mod p <> 0 /\ xswiftec_inv_var x u c = Some t.
Proof. exact w_inverse. Qed.

(** C19: key creation does not depend on the context's history. *)
Theorem C19_ellswift_create_blinding fuel ctx ctx' init key aux : usable_context ctx -> usable_context ctx' -> bytes_n 32 key ->
  ellswift_create fuel ctx (Some init) (Some key) aux = ellswift_create fuel ctx' (Some init) (Some key) aux.
Proof. exact (prop_ell_create_blinding fuel ctx ctx' init key aux). Qed.
Print Assumptions C19_ellswift_create_blinding.
