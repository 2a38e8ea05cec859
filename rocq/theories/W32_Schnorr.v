(** Model of src/modules/schnorrsig/main_impl.h in the 32-bit build (10x26 field elements, 8x32 scalars):
    the definitions of SchnorrModel.v on the 32-bit field and scalars.  The conventions are those of
    that file, which also has the definitions that do not depend on the width. *)
Require Import ZArith List Bool.
From Verif Require Import Word Word32 Spec FieldModel ScalarModel Field32Model Scalar32Model HashModel GenTable GroupModel EcmultModel GenModel EcdsaModel ApiModel ExtrakeysModel SchnorrModel W32_Base W32_Group W32_Ecmult W32_Gen W32_Ecdsa W32_Api W32_Extrakeys.
Import ListNotations.
Local Open Scope Z_scope.
Local Open Scope c_scope.

(** src/modules/schnorrsig/main_impl.h:119-133 secp256k1_schnorrsig_challenge. *)
Definition schnorrsig_challenge_w32 (r32 msg pubkey32 : list Z) : sc8 :=
  let sha := schnorrsig_sha256_tagged in
  let sha := sha256_write sha r32 in
  let sha := sha256_write sha pubkey32 in
  let sha := sha256_write sha msg in
  fst (s8_set_b32 (sha256_finalize sha)).
(** src/modules/schnorrsig/main_impl.h:135-197 secp256k1_schnorrsig_sign_internal. *)
Definition schnorrsig_sign_internal_w32 (ctx : context_w32) (sig64 msg : option (list Z)) (msglen : Z) (keypair : option (list Z))
    (noncefp : option nonce_function_hardened) (ndata : option (list Z)) : res (option (list Z)) :=
  if negb (g_built_w32 (c_gen_w32 ctx)) then arg_fail sig64 else
  match sig64 with
  | None => arg_fail None
  | Some _ =>
    if negb ((match msg with Some _ => true | None => false end) || (msglen =? 0)) then arg_fail sig64 else
    match keypair with
    | None => arg_fail sig64
    | Some kp =>
      let msg := msg_bytes msg msglen in
      let noncefp := match noncefp with None => nonce_function_bip340 | Some f => f end in
      let '(ret, sk, pk) := keypair_load_w32 kp in
      let ill := if ret then 0 else 1 in
      let sk := if f26_is_odd (gy_w32 pk) then s8_negate sk else sk in
      let seckey := s8_get_b32 sk in
      let pk_buf := f26_get_b32 (gx_w32 pk) in
      let (nret, buf) := noncefp (zeros 32) msg seckey pk_buf (Some bip340_algo) ndata in
      let ret := ret && negb (nret =? 0) in
      let k := fst (s8_set_b32 buf) in
      let ret := ret && negb (s8_is_zero k) in
      let k := s8_cmov k s8_one (b2z (negb ret)) in
      let rj := ecmult_gen_w32 (c_gen_w32 ctx) k in
      let r := ge_set_gej_w32 rj in
      let ry := f26_normalize_var (gy_w32 r) in
      let k := if f26_is_odd ry then s8_negate k else k in
      let rx := f26_normalize_var (gx_w32 r) in
      let r32 := f26_get_b32 rx in
      let e := schnorrsig_challenge_w32 r32 msg pk_buf in
      let e := s8_mul e sk in
      let e := s8_add e k in
      mkres (b2z ret) ill (Some (memczero (r32 ++ s8_get_b32 e) (b2z (negb ret))))
    end
  end.
(** src/modules/schnorrsig/main_impl.h:199-202 secp256k1_schnorrsig_sign32. *)
Definition schnorrsig_sign32_w32 (ctx : context_w32) (sig64 msg32 keypair aux_rand32 : option (list Z)) : res (option (list Z)) :=
  schnorrsig_sign_internal_w32 ctx sig64 msg32 32 keypair (Some nonce_function_bip340) aux_rand32.
(** src/modules/schnorrsig/main_impl.h:204-206 secp256k1_schnorrsig_sign. *)
Definition schnorrsig_sign_w32 (ctx : context_w32) (sig64 msg32 keypair aux_rand32 : option (list Z)) : res (option (list Z)) :=
  schnorrsig_sign32_w32 ctx sig64 msg32 keypair aux_rand32.
(** src/modules/schnorrsig/main_impl.h:208-221 secp256k1_schnorrsig_sign_custom. *)
Definition schnorrsig_sign_custom_w32 (ctx : context_w32) (sig64 msg : option (list Z)) (msglen : Z) (keypair : option (list Z))
    (extra : option extraparams) : res (option (list Z)) :=
  match extra with
  | Some ep =>
    if negb (memcmp_var (ep_magic ep) schnorrsig_extraparams_magic =? 0) then arg_fail sig64
    else schnorrsig_sign_internal_w32 ctx sig64 msg msglen keypair (ep_noncefp ep) (ep_ndata ep)
  | None => schnorrsig_sign_internal_w32 ctx sig64 msg msglen keypair None None
  end.
(** src/modules/schnorrsig/main_impl.h:223-269 secp256k1_schnorrsig_verify. *)
Definition schnorrsig_verify_w32 (sig64 msg : option (list Z)) (msglen : Z) (pubkey : option (list Z)) : res unit :=
  match sig64 with
  | None => arg_fail tt
  | Some sig =>
    if negb ((match msg with Some _ => true | None => false end) || (msglen =? 0)) then arg_fail tt else
    match pubkey with
    | None => arg_fail tt
    | Some pubkey =>
      let msg := msg_bytes msg msglen in
      let (ok, rx) := f26_set_b32_limit (firstn 32 sig) in
      if negb ok then mkres 0 0 tt else
      let (s, overflow) := s8_set_b32 (firstn 32 (skipn 32 sig)) in
      if overflow then mkres 0 0 tt else
      let (ok, pk) := xonly_pubkey_load_w32 pubkey in
      if negb ok then mkres 0 1 tt else
      let buf := f26_get_b32 (gx_w32 pk) in
      let e := schnorrsig_challenge_w32 (firstn 32 sig) msg buf in
      let e := s8_negate e in
      let pkj := gej_set_ge_w32 pk in
      let rj := ecmult_w32 pkj e (Some s) in
      let r := ge_set_gej_var_w32 rj in
      if ge_is_infinity_w32 r then mkres 0 0 tt else
      let ry := f26_normalize_var (gy_w32 r) in
      mkres (b2z (negb (f26_is_odd ry) && f26_equal rx (gx_w32 r))) 0 tt
    end
  end.
