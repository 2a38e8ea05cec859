(** X-only keys, key pairs and Schnorr signatures: C23 - C27, and C19 for them. *)
Require Import ZArith List Bool.
From Verif Require Import Spec SpecApi SpecHash SpecSort SpecBip340 GenModel ApiModel ApiVocab ExtrakeysModel SchnorrModel SchnorrVocab KeyProps2 ExtrakeysProof SchnorrProps.
Import ListNotations.
Local Open Scope Z_scope.

(** C23: whatever secp256k1_schnorrsig_sign_custom produces with a non-zero return value
    verifies under the key pair's x-only public key, for every message and every nonce
    callback. *)
Theorem C23_sign_custom_verifies ctx init msg len m kp d extra ret ill sig i par par' xpk :
  usable_context ctx -> is_message msg len m -> Z.of_nat (length m) < 2 ^ 61 - 128 -> keypair_holds kp d ->
  nonce_assumption (extra_nf extra) (extra_nd extra) ->
  schnorrsig_sign_custom ctx (Some init) msg len (Some kp) extra = mkres ret ill (Some sig) -> ret <> 0 ->
  keypair_xonly_pub (Some i) par (Some kp) = mkres 1 0 (Some xpk, par') ->
  schnorrsig_verify (Some sig) msg len (Some xpk) = mkres 1 0 tt.
Proof. exact (prop_custom_verifies ctx init msg len m kp d extra ret ill sig i par par' xpk). Qed.
Print Assumptions C23_sign_custom_verifies.
Theorem C23_sign32_verifies ctx init m kp d aux ret ill sig i par par' xpk :
  usable_context ctx -> bytes_n 32 m -> keypair_holds kp d -> opt_bytes 32 aux ->
  schnorrsig_sign32 ctx (Some init) (Some m) (Some kp) aux = mkres ret ill (Some sig) -> ret <> 0 ->
  keypair_xonly_pub (Some i) par (Some kp) = mkres 1 0 (Some xpk, par') ->
  schnorrsig_verify (Some sig) (Some m) 32 (Some xpk) = mkres 1 0 tt.
Proof. exact (prop_sign32_verifies ctx init m kp d aux ret ill sig i par par' xpk). Qed.
Print Assumptions C23_sign32_verifies.
(** C23: secp256k1_schnorrsig_sign32 is the default signing algorithm of BIP 340 (no
    auxiliary data means 32 zero bytes). *)
Theorem C23_sign32_exact ctx init m kp d aux : usable_context ctx -> bytes_n 32 m -> keypair_holds kp d -> opt_bytes 32 aux ->
  schnorrsig_sign32 ctx (Some init) (Some m) (Some kp) aux =
    match bip340_sign d m (match aux with Some a => a | None => repeat 0 32 end) with
    | Some sig => mkres 1 0 (Some sig)
    | None => mkres 0 0 (Some (repeat 0 64))
    end.
Proof. exact (prop_sign32_exact ctx init m kp d aux). Qed.
Print Assumptions C23_sign32_exact.
Example C23_example : exists sig,
  schnorrsig_sign_custom w_ctx (Some []) (Some [1; 2; 3; 4]) 3 (Some (w_kp 5)) (Some (mkep [0xda; 0x6f; 0xb3; 0x8c] (Some w_hnonce) None)) = mkres 1 0 (Some sig).
Proof. exact w_schnorr_sign. Qed.
Example C23_example_hyps : keypair_holds (w_kp 5) 5 /\ is_message (Some [1; 2; 3; 4]) 3 [1; 2; 3] /\
  nonce_assumption (extra_nf (Some (mkep [0xda; 0x6f; 0xb3; 0x8c] (Some w_hnonce) None))) None.
Proof. exact (conj (proj2 (w_kp_ok 5 (w_small 5 w_5))) (conj w_msg w_hnonce_ok)). Qed.

(** C24: verification accepts exactly the signatures that BIP 340 calls valid. *)
Theorem C24_verify_exact sig msg len m pk P : bytes_n 64 sig -> is_message msg len m -> Z.of_nat (length m) < 2 ^ 61 - 128 -> xonly_holds pk P ->
  (bip340_valid P m sig /\ schnorrsig_verify (Some sig) msg len (Some pk) = mkres 1 0 tt) \/
  (~ bip340_valid P m sig /\ schnorrsig_verify (Some sig) msg len (Some pk) = mkres 0 0 tt).
Proof. exact (prop_verify_exact sig msg len m pk P). Qed.
Print Assumptions C24_verify_exact.
(** C24: a public key object whose x coordinate is zero (for instance a zeroed one) never
    verifies. *)
Theorem C24_invalid_key_rejected sig msg len y : bytes_n 32 y -> r_ret (schnorrsig_verify (Some sig) msg len (Some (repeat 0 32 ++ y))) = 0.
Proof. exact (prop_verify_invalid_pk sig msg len y). Qed.
Print Assumptions C24_invalid_key_rejected.
Example C24_example : xonly_holds w_pk G /\ is_message None 0 [] /\ bytes_n 64 (be_bytes 32 7 ++ be_bytes 32 n).
Proof. exact (conj w_xonly (conj w_nomsg w_compact)). Qed.

(** C25: signing with a valid key pair gives the signature made from the nonce that the
    callback returned; it returns 0 and 64 zero bytes if the callback returned 0 or the
    nonce is 0 modulo n. *)
Theorem C25_sign_result ctx init msg len m kp d extra nret nonce : usable_context ctx -> is_message msg len m -> Z.of_nat (length m) < 2 ^ 61 - 128 -> keypair_holds kp d ->
  extra_magic extra ->
  let P := pmul d G in
  (match extra_nf extra with Some f => f | None => nonce_function_bip340 end) (repeat 0 32) m
     (be_bytes 32 (if Z.odd (ycoord P) then n - d else d)) (be_bytes 32 (xcoord P)) (Some algo_bytes) (extra_nd extra) = (nret, nonce) -> bytes_n 32 nonce ->
  schnorrsig_sign_custom ctx (Some init) msg len (Some kp) extra =
    match (if nret =? 0 then None else bip340_sign_with d m (be_val nonce mod n)) with
    | Some sig => mkres 1 0 (Some sig)
    | None => mkres 0 0 (Some (repeat 0 64))
    end.
Proof. exact (prop_sign_exact ctx init msg len m kp d extra nret nonce). Qed.
Print Assumptions C25_sign_result.
(** C25: for every 96-byte object, valid or not, signing either returns 1 (then the secret
    key is in range) or returns 0 and 64 zero bytes. *)
Theorem C25_fails_closed ctx init msg len m kp extra : usable_context ctx -> is_message msg len m -> bytes_n 96 kp -> extra_magic extra ->
  let r := schnorrsig_sign_custom ctx (Some init) msg len (Some kp) extra in
  (r_ret r = 1 /\ r_ill r = 0 /\ 1 <= be_val (firstn 32 kp) < n) \/
  (r_ret r = 0 /\ r_out r = Some (repeat 0 64) /\ (r_ill r = 0 \/ r_ill r = 1)).
Proof. exact (prop_closed ctx init msg len m kp extra). Qed.
Print Assumptions C25_fails_closed.
Theorem C25_sign32_fails_closed ctx init m kp aux : usable_context ctx -> bytes_n 32 m -> bytes_n 96 kp ->
  let r := schnorrsig_sign32 ctx (Some init) (Some m) (Some kp) aux in
  (r_ret r = 1 /\ r_ill r = 0 /\ 1 <= be_val (firstn 32 kp) < n) \/
  (r_ret r = 0 /\ r_out r = Some (repeat 0 64) /\ (r_ill r = 0 \/ r_ill r = 1)).
Proof. exact (prop_sign32_closed ctx init m kp aux). Qed.
Print Assumptions C25_sign32_fails_closed.
(** C25: an object with an out-of-range secret key or a zero x coordinate is refused, with
    one call of the illegal callback. *)
Theorem C25_invalid_keypair ctx init msg len m kp extra : usable_context ctx -> is_message msg len m -> bytes_n 96 kp -> extra_magic extra ->
  ~ 1 <= be_val (firstn 32 kp) < n \/ firstn 32 (skipn 32 kp) = repeat 0 32 ->
  schnorrsig_sign_custom ctx (Some init) msg len (Some kp) extra = mkres 0 1 (Some (repeat 0 64)).
Proof. exact (prop_sign_invalid ctx init msg len m kp extra). Qed.
Print Assumptions C25_invalid_keypair.
Example C25_example : firstn 32 (skipn 32 (repeat 0 96)) = repeat 0 32. Proof. reflexivity. Qed.

(** C26: parsing accepts exactly the x coordinates of points and yields the point with even y. *)
Theorem C26_parse init inp : bytes_n 32 inp ->
  (be_val inp < p /\ is_square_mod_p (be_val inp ^ 3 + 7) /\ exists y pk, xonly_pubkey_parse (Some init) (Some inp) = mkres 1 0 (Some pk) /\ xonly_holds pk (Aff (be_val inp) y)) \/
  (~ (be_val inp < p /\ is_square_mod_p (be_val inp ^ 3 + 7)) /\ xonly_pubkey_parse (Some init) (Some inp) = mkres 0 0 (Some (repeat 0 64))).
Proof. exact (prop_xonly_parse init inp). Qed.
Print Assumptions C26_parse.
Theorem C26_parse_serialize init init2 inp pk : bytes_n 32 inp -> xonly_pubkey_parse (Some init) (Some inp) = mkres 1 0 (Some pk) ->
  xonly_pubkey_serialize (Some init2) (Some pk) = mkres 1 0 (Some inp).
Proof. exact (prop_xonly_roundtrip init init2 inp pk). Qed.
Print Assumptions C26_parse_serialize.
Theorem C26_serialize_parse init init2 pk x y : xonly_holds pk (Aff x y) ->
  xonly_pubkey_serialize (Some init) (Some pk) = mkres 1 0 (Some (be_bytes 32 x)) /\ xonly_pubkey_parse (Some init2) (Some (be_bytes 32 x)) = mkres 1 0 (Some pk).
Proof. exact (prop_xonly_reparse init init2 pk x y). Qed.
Print Assumptions C26_serialize_parse.
(** C26: conversion from a full public key. *)
Theorem C26_from_pubkey init par pk Q : pubkey_holds pk Q ->
  exists xpk, xonly_pubkey_from_pubkey (Some init) par (Some pk) =
    mkres 1 0 (Some xpk, match par with Some _ => Some (if Z.odd (ycoord Q) then 1 else 0) | None => None end) /\
    xonly_holds xpk (if Z.odd (ycoord Q) then pneg Q else Q).
Proof. exact (from_pubkey_ok init par pk Q). Qed.
Print Assumptions C26_from_pubkey.
(** C26: comparison is the byte order of the x coordinates, and 0 means equal keys. *)
Theorem C26_cmp pk0 pk1 P0 P1 : xonly_holds pk0 P0 -> xonly_holds pk1 P1 ->
  exists v, xonly_pubkey_cmp (Some pk0) (Some pk1) = mkres v 0 tt /\
    (v ?= 0) = lex (be_bytes 32 (xcoord P0)) (be_bytes 32 (xcoord P1)) /\ (v = 0 <-> pk0 = pk1).
Proof. exact (prop_xonly_cmp pk0 pk1 P0 P1). Qed.
Print Assumptions C26_cmp.
Example C26_example : xonly_holds w_pk G. Proof. exact w_xonly. Qed.

(** C27: creating a key pair, and its parts. *)
Theorem C27_create ctx init key : usable_context ctx -> bytes_n 32 key ->
  (1 <= be_val key < n /\ exists kp, keypair_create ctx (Some init) (Some key) = mkres 1 0 (Some kp) /\ keypair_holds kp (be_val key)) \/
  (~ 1 <= be_val key < n /\ keypair_create ctx (Some init) (Some key) = mkres 0 0 (Some (repeat 0 96))).
Proof. exact (keypair_create_ok ctx init key). Qed.
Print Assumptions C27_create.
Theorem C27_parts init kp d pk : keypair_holds kp d -> pubkey_holds pk (pmul d G) ->
  keypair_sec (Some init) (Some kp) = mkres 1 0 (Some (be_bytes 32 d)) /\ keypair_pub (Some init) (Some kp) = mkres 1 0 (Some pk).
Proof. exact (keypair_parts init kp d pk). Qed.
Print Assumptions C27_parts.
Theorem C27_xonly_pub init par kp d : keypair_holds kp d ->
  exists xpk, keypair_xonly_pub (Some init) par (Some kp) =
    mkres 1 0 (Some xpk, match par with Some _ => Some (if Z.odd (ycoord (pmul d G)) then 1 else 0) | None => None end) /\
    xonly_holds xpk (if Z.odd (ycoord (pmul d G)) then pneg (pmul d G) else pmul d G).
Proof. exact (keypair_xonly_ok init par kp d). Qed.
Print Assumptions C27_xonly_pub.
(** C27: tweaking an x-only key. *)
Theorem C27_xonly_tweak init pk P tw : xonly_holds pk P -> bytes_n 32 tw ->
  let R := padd P (pmul (be_val tw) G) in
  ((be_val tw < n /\ R <> Inf) /\ exists pk', xonly_pubkey_tweak_add (Some init) (Some pk) (Some tw) = mkres 1 0 (Some pk') /\ pubkey_holds pk' R) \/
  (~ (be_val tw < n /\ R <> Inf) /\ xonly_pubkey_tweak_add (Some init) (Some pk) (Some tw) = mkres 0 0 (Some (repeat 0 64))).
Proof. exact (fun H => xonly_tweak_ok init pk P tw (proj1 H)). Qed.
Print Assumptions C27_xonly_tweak.
(** C27: tweaking the key pair and tweaking its x-only key succeed together and agree. *)
Theorem C27_tweaks_agree kp d i i2 xpk tw par par' : keypair_holds kp d -> bytes_n 32 tw ->
  keypair_xonly_pub (Some i) par (Some kp) = mkres 1 0 (Some xpk, par') ->
  (exists kp' pk' d', keypair_xonly_tweak_add (Some kp) (Some tw) = mkres 1 0 (Some kp') /\ keypair_holds kp' d' /\
     d' = ((if Z.odd (ycoord (pmul d G)) then n - d else d) + be_val tw) mod n /\
     xonly_pubkey_tweak_add (Some i2) (Some xpk) (Some tw) = mkres 1 0 (Some pk') /\ keypair_pub (Some i2) (Some kp') = mkres 1 0 (Some pk')) \/
  (keypair_xonly_tweak_add (Some kp) (Some tw) = mkres 0 0 (Some (repeat 0 96)) /\ xonly_pubkey_tweak_add (Some i2) (Some xpk) (Some tw) = mkres 0 0 (Some (repeat 0 64))).
Proof. exact (prop_tweaks_agree kp d i i2 xpk tw par par'). Qed.
Print Assumptions C27_tweaks_agree.
(** C27: the check accepts exactly the x coordinate and parity of the tweaked key. *)
Theorem C27_tweak_check tpk par pk P tw : xonly_holds pk P -> bytes_n 32 tw -> bytes_n 32 tpk ->
  let R := padd P (pmul (be_val tw) G) in
  exists ret, xonly_pubkey_tweak_add_check (Some tpk) par (Some pk) (Some tw) = mkres (if ret : bool then 1 else 0) 0 tt /\
   (ret = true <-> be_val tw < n /\ R <> Inf /\ be_val tpk = xcoord R /\ par = (if Z.odd (ycoord R) then 1 else 0)).
Proof. exact (fun H => tweak_check_ok tpk par pk P tw (proj1 H)). Qed.
Print Assumptions C27_tweak_check.
Example C27_example : keypair_create w_ctx (Some []) (Some (w_key 5)) = mkres 1 0 (Some (w_kp 5)) /\ keypair_holds (w_kp 5) 5.
Proof. exact (w_kp_ok 5 (w_small 5 w_5)). Qed.

(** C19: key pair creation and Schnorr signing do not depend on the context's history. *)
Theorem C19_keypair_create_blinding ctx ctx' init key : usable_context ctx -> usable_context ctx' -> bytes_n 32 key ->
  keypair_create ctx (Some init) (Some key) = keypair_create ctx' (Some init) (Some key).
Proof. exact (prop_keypair_blinding ctx ctx' init key). Qed.
Print Assumptions C19_keypair_create_blinding.
Theorem C19_schnorr_sign_blinding ctx ctx' init msg len m kp d extra : usable_context ctx -> usable_context ctx' -> is_message msg len m -> Z.of_nat (length m) < 2 ^ 61 - 128 ->
  keypair_holds kp d -> extra_magic extra -> nonce_assumption (extra_nf extra) (extra_nd extra) ->
  schnorrsig_sign_custom ctx (Some init) msg len (Some kp) extra = schnorrsig_sign_custom ctx' (Some init) msg len (Some kp) extra.
Proof. exact (prop_schnorr_blinding ctx ctx' init msg len m kp d extra). Qed.
Print Assumptions C19_schnorr_sign_blinding.
