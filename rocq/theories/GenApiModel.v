(** Key creation and signing with the generator multiplication of any build: [gen] stands for secp256k1_ecmult_gen
    as compiled (GenAnyModel).  EcdsaModel, ApiModel and SchnorrModel have the default configuration. *)
Require Import ZArith List Bool.
From Verif Require Import Word HashModel FieldModel ScalarModel GroupModel GenModel EcdsaModel ApiModel ExtrakeysModel SchnorrModel RecoveryModel EllswiftModel.
Import ListNotations.
Local Open Scope Z_scope.

(** src/ecdsa_impl.h:266-302 secp256k1_ecdsa_sig_sign: return value, r, s and recid (the
    model always computes recid; the caller drops it when the pointer is NULL). *)
Definition ecdsa_sig_sign_by (gen : gen_ctx -> sc -> gej) (ctx : gen_ctx) (seckey message nonce : sc) : bool * sc * sc * Z :=
  let rp := gen ctx nonce in
  let r := ge_set_gej rp in
  let rx := fe_normalize (gx r) in
  let ry := fe_normalize (gy r) in
  let b := fe_get_b32 rx in
  let (sigr, overflow) := sc_set_b32 b in
  let recid := Z.lor (Z.shiftl (b2z overflow) 1) (b2z (fe_is_odd ry)) in
  let nn := sc_mul sigr seckey in
  let nn := sc_add nn message in
  let sigs := sc_inverse nonce in
  let sigs := sc_mul sigs nn in
  let high := b2z (sc_is_high sigs) in
  let sigs := fst (sc_cond_negate sigs high) in
  let recid := Z.lxor recid high in
  (negb (sc_is_zero sigr) && negb (sc_is_zero sigs), sigr, sigs, recid).

(** src/secp256k1.c:510-564 secp256k1_ecdsa_sign_inner.  [sign_loop] is the while(1) loop;
    it may run for ever, so it takes fuel and [None] means "not finished yet".  recid
    is always computed; secp256k1_ecdsa_sign passes NULL and drops it. *)
Fixpoint sign_loop_by (gen : gen_ctx -> sc -> gej) (fuel : nat) (gctx : gen_ctx) (sec msg : sc) (msg32 seckey : list Z) (noncefp : nonce_function)
    (noncedata : option (list Z)) (count : Z) (st : sc * sc * Z) : option (bool * (sc * sc * Z)) :=
  match fuel with
  | O => None
  | S fuel' =>
    match noncefp msg32 seckey None noncedata count with
    | None => Some (false, st)
    | Some nonce32 =>
      let (non, is_nonce_valid) := sc_set_b32_seckey nonce32 in
      if is_nonce_valid then
        let '(ret, r, s, recid) := ecdsa_sig_sign_by gen gctx sec msg non in
        if ret then Some (true, (r, s, recid))
        else sign_loop_by gen fuel' gctx sec msg msg32 seckey noncefp noncedata (w32 (count + 1)) (r, s, recid)
      else sign_loop_by gen fuel' gctx sec msg msg32 seckey noncefp noncedata (w32 (count + 1)) st
    end
  end.

(** src/secp256k1.c:510-564 secp256k1_ecdsa_sign_inner. *)
Definition ecdsa_sign_inner_by (gen : gen_ctx -> sc -> gej) (fuel : nat) (gctx : gen_ctx) (msg32 seckey : list Z) (noncefp : option nonce_function)
    (noncedata : option (list Z)) : option (bool * sc * sc * Z) :=
  let noncefp := match noncefp with None => nonce_function_rfc6979 | Some f => f end in
  let (sec, is_sec_valid) := sc_set_b32_seckey seckey in
  let sec := sc_cmov sec sc_one (b2z (negb is_sec_valid)) in
  let msg := fst (sc_set_b32 msg32) in
  match sign_loop_by gen fuel gctx sec msg msg32 seckey noncefp noncedata 0 (sc_zero, sc_zero, 0) with
  | None => None
  | Some (ret, (r, s, recid)) =>
    let ret := ret && is_sec_valid in
    let r := sc_cmov r sc_zero (b2z (negb ret)) in
    let s := sc_cmov s sc_zero (b2z (negb ret)) in
    let recid := int_cmov recid 0 (b2z (negb ret)) in
    Some (ret, r, s, recid)
  end.

(** src/secp256k1.c:566-578 secp256k1_ecdsa_sign. *)
Definition ecdsa_sign_by (gen : gen_ctx -> sc -> gej) (fuel : nat) (ctx : context) (signature msghash32 seckey : option (list Z))
    (noncefp : option nonce_function) (noncedata : option (list Z)) : option (res (option (list Z))) :=
  if negb (g_built (c_gen ctx)) then Some (arg_fail signature) else
  match msghash32, signature, seckey with
  | Some msg, Some _, Some key =>
    match ecdsa_sign_inner_by gen fuel (c_gen ctx) msg key noncefp noncedata with
    | None => None
    | Some (ret, r, s, _) => Some (mkres (b2z ret) 0 (Some (signature_save r s)))
    end
  | _, _, _ => Some (arg_fail signature)
  end.

(** src/secp256k1.c:591-602 secp256k1_ec_pubkey_create_helper: return value, scalar, point. *)
Definition ec_pubkey_create_helper_by (gen : gen_ctx -> sc -> gej) (gctx : gen_ctx) (seckey : list Z) : bool * sc * ge :=
  let (s, ret) := sc_set_b32_seckey seckey in
  let s := sc_cmov s sc_one (b2z (negb ret)) in
  let pj := gen gctx s in
  (ret, s, ge_set_gej pj).

(** src/secp256k1.c:604-620 secp256k1_ec_pubkey_create. *)
Definition ec_pubkey_create_by (gen : gen_ctx -> sc -> gej) (ctx : context) (pubkey seckey : option (list Z)) : res (option (list Z)) :=
  match pubkey with
  | None => arg_fail None
  | Some _ =>
    if negb (g_built (c_gen ctx)) then arg_fail (Some (zeros 64)) else
    match seckey with
    | None => arg_fail (Some (zeros 64))
    | Some key =>
      let '(ret, s, q) := ec_pubkey_create_helper_by gen (c_gen ctx) key in
      mkres (b2z ret) 0 (Some (memczero (pubkey_save q) (b2z (negb ret))))
    end
  end.

(** src/modules/schnorrsig/main_impl.h:135-197 secp256k1_schnorrsig_sign_internal. *)
Definition schnorrsig_sign_internal_by (gen : gen_ctx -> sc -> gej) (ctx : context) (sig64 msg : option (list Z)) (msglen : Z) (keypair : option (list Z))
    (noncefp : option nonce_function_hardened) (ndata : option (list Z)) : res (option (list Z)) :=
  if negb (g_built (c_gen ctx)) then arg_fail sig64 else
  match sig64 with
  | None => arg_fail None
  | Some _ =>
    if negb ((match msg with Some _ => true | None => false end) || (msglen =? 0)) then arg_fail sig64 else
    match keypair with
    | None => arg_fail sig64
    | Some kp =>
      let msg := msg_bytes msg msglen in
      let noncefp := match noncefp with None => nonce_function_bip340 | Some f => f end in
      let '(ret, sk, pk) := keypair_load kp in
      let ill := if ret then 0 else 1 in
      let sk := if fe_is_odd (gy pk) then sc_negate sk else sk in
      let seckey := sc_get_b32 sk in
      let pk_buf := fe_get_b32 (gx pk) in
      let (nret, buf) := noncefp (zeros 32) msg seckey pk_buf (Some bip340_algo) ndata in
      let ret := ret && negb (nret =? 0) in
      let k := fst (sc_set_b32 buf) in
      let ret := ret && negb (sc_is_zero k) in
      let k := sc_cmov k sc_one (b2z (negb ret)) in
      let rj := gen (c_gen ctx) k in
      let r := ge_set_gej rj in
      let ry := fe_normalize_var (gy r) in
      let k := if fe_is_odd ry then sc_negate k else k in
      let rx := fe_normalize_var (gx r) in
      let r32 := fe_get_b32 rx in
      let e := schnorrsig_challenge r32 msg pk_buf in
      let e := sc_mul e sk in
      let e := sc_add e k in
      mkres (b2z ret) ill (Some (memczero (r32 ++ sc_get_b32 e) (b2z (negb ret))))
    end
  end.


(** src/modules/extrakeys/main_impl.h:196-212 secp256k1_keypair_create. *)
Definition keypair_create_by (gen : gen_ctx -> sc -> gej) (ctx : context) (keypair seckey32 : option (list Z)) : res (option (list Z)) :=
  match keypair with
  | None => arg_fail None
  | Some _ =>
    if negb (g_built (c_gen ctx)) then arg_fail (Some (zeros 96)) else
    match seckey32 with
    | None => arg_fail (Some (zeros 96))
    | Some key =>
      let '(ret, sk, pk) := ec_pubkey_create_helper_by gen (c_gen ctx) key in
      mkres (b2z ret) 0 (Some (memczero (keypair_save sk pk) (b2z (negb ret))))
    end
  end.

(** src/modules/recovery/main_impl.h:123-135 secp256k1_ecdsa_sign_recoverable. *)
Definition ecdsa_sign_recoverable_by (gen : gen_ctx -> sc -> gej) (fuel : nat) (ctx : context) (signature msghash32 seckey : option (list Z))
    (noncefp : option nonce_function) (noncedata : option (list Z)) : option (res (option (list Z))) :=
  if negb (g_built (c_gen ctx)) then Some (arg_fail signature) else
  match msghash32, signature, seckey with
  | Some msg, Some _, Some key =>
    match ecdsa_sign_inner_by gen fuel (c_gen ctx) msg key noncefp noncedata with
    | None => None
    | Some (ret, r, s, recid) => Some (mkres (b2z ret) 0 (Some (recoverable_signature_save r s recid)))
    end
  | _, _, _ => Some (arg_fail signature)
  end.

(** src/modules/ellswift/main_impl.h:450-487 secp256k1_ellswift_create. *)
Definition ellswift_create_by (gen : gen_ctx -> sc -> gej) (fuel : nat) (ctx : context) (ell64 seckey32 auxrnd32 : option (list Z)) : option (res (option (list Z))) :=
  match ell64 with
  | None => Some (arg_fail None)
  | Some _ =>
    if negb (g_built (c_gen ctx)) then Some (arg_fail (Some (zeros 64))) else
    match seckey32 with
    | None => Some (arg_fail (Some (zeros 64)))
    | Some key =>
      let '(ret, s, p) := ec_pubkey_create_helper_by gen (c_gen ctx) key in
      let p := mkge (fe_normalize_var (gx p)) (fe_normalize_var (gy p)) (ginf p) in
      let hash := ellswift_sha256_init_create in
      let hash := sha256_write hash (firstn 32 key) in
      let hash := sha256_write hash (zeros 32) in
      let hash := match auxrnd32 with Some aux => sha256_write hash (firstn 32 aux) | None => hash end in
      match elligatorswift_var fuel p hash with
      | None => None
      | Some (u32, t) => Some (mkres (b2z ret) 0 (Some (memczero (u32 ++ fe_get_b32 t) (b2z (negb ret)))))
      end
    end
  end.
