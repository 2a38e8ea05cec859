(** Model of src/modules/schnorrsig/main_impl.h.  Conventions as in ApiModel.  A message
    is the pointer (an [option]) to its bytes and msglen; the buffer is assumed to have
    at least msglen bytes (API contract). *)
Require Import ZArith List Bool.
From Verif Require Import Word Spec FieldModel ScalarModel GroupModel HashModel GenModel EcmultModel EcdsaModel ApiModel ExtrakeysModel.
Import ListNotations.
Local Open Scope Z_scope.
Local Open Scope c_scope.

Definition set_midstate (s : list Z) : sha256 := mksha s (sh_buf sha256_initialize) 64.
(** src/modules/schnorrsig/main_impl.h:16-28 secp256k1_nonce_function_bip340_sha256_tagged. *)
Definition nonce_function_bip340_sha256_tagged : sha256 :=
  set_midstate [0x46615b35; 0xf4bfbff7; 0x9f8dc671; 0x83627ab3; 0x60217180; 0x57358661; 0x21a29e54; 0x68b07b4c].
(** src/modules/schnorrsig/main_impl.h:32-44 secp256k1_nonce_function_bip340_sha256_tagged_aux. *)
Definition nonce_function_bip340_sha256_tagged_aux : sha256 :=
  set_midstate [0x24dd3219; 0x4eba7e70; 0xca0fabb9; 0x0fa3166d; 0x3afbe4b1; 0x4c44df97; 0x4aac2739; 0x249e850a].
(** src/modules/schnorrsig/main_impl.h:48-48 (bip340_algo): "BIP0340/nonce". *)
Definition bip340_algo : list Z := [66; 73; 80; 48; 51; 52; 48; 47; 110; 111; 110; 99; 101].
(** src/modules/schnorrsig/main_impl.h:50-50 (schnorrsig_extraparams_magic). *)
Definition schnorrsig_extraparams_magic : list Z := [0xda; 0x6f; 0xb3; 0x8c].

(** include/secp256k1_schnorrsig.h:41-50 (secp256k1_nonce_function_hardened): the buffer
    nonce32 before the call, msg, key32, xonly_pk32, algo, data; the int returned and the
    32 bytes of nonce32 after the call. *)
Definition nonce_function_hardened : Type :=
  list Z -> list Z -> list Z -> list Z -> option (list Z) -> option (list Z) -> Z * list Z.
(** src/modules/schnorrsig/main_impl.h:70-75 (ZERO_MASK). *)
Definition ZERO_MASK : list Z :=
  [84; 241; 105; 207; 201; 226; 229; 114; 116; 128; 68; 31; 144; 186; 37; 196;
   136; 244; 97; 199; 11; 94; 165; 220; 170; 247; 175; 105; 39; 10; 165; 20].
Definition xor_bytes (a b : list Z) : list Z := map (fun xy => Z.lxor (fst xy) (snd xy)) (combine a b).
(** src/modules/schnorrsig/main_impl.h:52-101 (nonce_function_bip340). *)
Definition nonce_function_bip340 : nonce_function_hardened := fun nonce32 msg key32 xonly_pk32 algo data =>
  match algo with
  | None => (0, nonce32)
  | Some algo =>
    let masked_key :=
      match data with
      | Some d => xor_bytes (sha256_finalize (sha256_write nonce_function_bip340_sha256_tagged_aux (firstn 32 d))) key32
      | None => xor_bytes key32 ZERO_MASK
      end in
    let sha :=
      if (Z.of_nat (length algo) =? Z.of_nat (length bip340_algo)) && (memcmp_var algo bip340_algo =? 0)
      then nonce_function_bip340_sha256_tagged
      else sha256_initialize_tagged algo in
    let sha := sha256_write sha masked_key in
    let sha := sha256_write sha xonly_pk32 in
    let sha := sha256_write sha msg in
    (1, sha256_finalize sha)
  end.

(** src/modules/schnorrsig/main_impl.h:106-117 secp256k1_schnorrsig_sha256_tagged. *)
Definition schnorrsig_sha256_tagged : sha256 :=
  set_midstate [0x9cecba11; 0x23925381; 0x11679112; 0xd1627e0f; 0x97c87550; 0x003cc765; 0x90f61164; 0x33e9b66a].
(** src/modules/schnorrsig/main_impl.h:119-133 secp256k1_schnorrsig_challenge. *)
Definition schnorrsig_challenge (r32 msg pubkey32 : list Z) : sc :=
  let sha := schnorrsig_sha256_tagged in
  let sha := sha256_write sha r32 in
  let sha := sha256_write sha pubkey32 in
  let sha := sha256_write sha msg in
  fst (sc_set_b32 (sha256_finalize sha)).

(** The bytes of the message (none if msg is NULL, then msglen is 0). *)
Definition msg_bytes (msg : option (list Z)) (msglen : Z) : list Z :=
  match msg with Some m => firstn (Z.to_nat msglen) m | None => [] end.

(** src/modules/schnorrsig/main_impl.h:135-197 secp256k1_schnorrsig_sign_internal. *)
Definition schnorrsig_sign_internal (ctx : context) (sig64 msg : option (list Z)) (msglen : Z) (keypair : option (list Z))
    (noncefp : option nonce_function_hardened) (ndata : option (list Z)) : res (option (list Z)) :=
  if negb (g_built (c_gen ctx)) then arg_fail sig64 else
  match sig64 with
  | None => arg_fail None
  | Some _ =>
    if negb ((match msg with Some _ => true | None => false end) || (msglen =? 0)) then arg_fail sig64 else
    match keypair with
    | None => arg_fail sig64
    | Some kp =>
      let msg := msg_bytes msg msglen in
      let noncefp := match noncefp with None => nonce_function_bip340 | Some f => f end in
      let '(ret, sk, pk) := keypair_load kp in
      let ill := if ret then 0 else 1 in
      let sk := if fe_is_odd (gy pk) then sc_negate sk else sk in
      let seckey := sc_get_b32 sk in
      let pk_buf := fe_get_b32 (gx pk) in
      let (nret, buf) := noncefp (zeros 32) msg seckey pk_buf (Some bip340_algo) ndata in
      let ret := ret && negb (nret =? 0) in
      let k := fst (sc_set_b32 buf) in
      let ret := ret && negb (sc_is_zero k) in
      let k := sc_cmov k sc_one (b2z (negb ret)) in
      let rj := ecmult_gen (c_gen ctx) k in
      let r := ge_set_gej rj in
      let ry := fe_normalize_var (gy r) in
      let k := if fe_is_odd ry then sc_negate k else k in
      let rx := fe_normalize_var (gx r) in
      let r32 := fe_get_b32 rx in
      let e := schnorrsig_challenge r32 msg pk_buf in
      let e := sc_mul e sk in
      let e := sc_add e k in
      mkres (b2z ret) ill (Some (memczero (r32 ++ sc_get_b32 e) (b2z (negb ret))))
    end
  end.
(** src/modules/schnorrsig/main_impl.h:199-202 secp256k1_schnorrsig_sign32. *)
Definition schnorrsig_sign32 (ctx : context) (sig64 msg32 keypair aux_rand32 : option (list Z)) : res (option (list Z)) :=
  schnorrsig_sign_internal ctx sig64 msg32 32 keypair (Some nonce_function_bip340) aux_rand32.
(** src/modules/schnorrsig/main_impl.h:204-206 secp256k1_schnorrsig_sign. *)
Definition schnorrsig_sign (ctx : context) (sig64 msg32 keypair aux_rand32 : option (list Z)) : res (option (list Z)) :=
  schnorrsig_sign32 ctx sig64 msg32 keypair aux_rand32.
(** include/secp256k1_schnorrsig.h:82-86 (secp256k1_schnorrsig_extraparams). *)
Record extraparams : Type := mkep { ep_magic : list Z; ep_noncefp : option nonce_function_hardened; ep_ndata : option (list Z) }.
(** src/modules/schnorrsig/main_impl.h:208-221 secp256k1_schnorrsig_sign_custom. *)
Definition schnorrsig_sign_custom (ctx : context) (sig64 msg : option (list Z)) (msglen : Z) (keypair : option (list Z))
    (extra : option extraparams) : res (option (list Z)) :=
  match extra with
  | Some ep =>
    if negb (memcmp_var (ep_magic ep) schnorrsig_extraparams_magic =? 0) then arg_fail sig64
    else schnorrsig_sign_internal ctx sig64 msg msglen keypair (ep_noncefp ep) (ep_ndata ep)
  | None => schnorrsig_sign_internal ctx sig64 msg msglen keypair None None
  end.

(** src/modules/schnorrsig/main_impl.h:223-269 secp256k1_schnorrsig_verify. *)
Definition schnorrsig_verify (sig64 msg : option (list Z)) (msglen : Z) (pubkey : option (list Z)) : res unit :=
  match sig64 with
  | None => arg_fail tt
  | Some sig =>
    if negb ((match msg with Some _ => true | None => false end) || (msglen =? 0)) then arg_fail tt else
    match pubkey with
    | None => arg_fail tt
    | Some pubkey =>
      let msg := msg_bytes msg msglen in
      let (ok, rx) := fe_set_b32_limit (firstn 32 sig) in
      if negb ok then mkres 0 0 tt else
      let (s, overflow) := sc_set_b32 (firstn 32 (skipn 32 sig)) in
      if overflow then mkres 0 0 tt else
      let (ok, pk) := xonly_pubkey_load pubkey in
      if negb ok then mkres 0 1 tt else
      let buf := fe_get_b32 (gx pk) in
      let e := schnorrsig_challenge (firstn 32 sig) msg buf in
      let e := sc_negate e in
      let pkj := gej_set_ge pk in
      let rj := ecmult pkj e (Some s) in
      let r := ge_set_gej_var rj in
      if ge_is_infinity r then mkres 0 0 tt else
      let ry := fe_normalize_var (gy r) in
      mkres (b2z (negb (fe_is_odd ry) && fe_equal rx (gx r))) 0 tt
    end
  end.
