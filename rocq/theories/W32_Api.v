(** Model of src/secp256k1.c in the 32-bit build (10x26 field elements, 8x32 scalars):
    the definitions of ApiModel.v on the 32-bit field and scalars.  The conventions are those of
    that file, which also has the definitions that do not depend on the width. *)
Require Import ZArith List Bool.
From Verif Require Import Word Word32 Spec FieldModel ScalarModel Field32Model Scalar32Model HashModel GenTable GroupModel EcmultModel GenModel EcdsaModel ApiModel W32_Base W32_Group W32_Ecmult W32_Gen W32_Ecdsa.
Import ListNotations.
Local Open Scope Z_scope.
Local Open Scope c_scope.

(** src/secp256k1.c:61-66 (secp256k1_context_struct). *)
Record context_w32 : Type := mkctx_w32 { c_gen_w32 : gen_ctx_w32; c_illegal_w32 : callback; c_error_w32 : callback; c_declassify_w32 : bool }.
(** src/secp256k1.c:68-73 (secp256k1_context_static_). *)
Definition context_static_w32 : context_w32 :=
  mkctx_w32 (mkgen_w32 false (s8_set_int 0) (mkge_w32 (f26_set_int 0) (f26_set_int 0) false) (f26_set_int 0)) default_cb default_cb false.
(** src/secp256k1.c:82-84 secp256k1_context_is_proper. *)
Definition context_is_proper_w32 (ctx : context_w32) : bool := g_built_w32 (c_gen_w32 ctx).
(** src/secp256k1.c:118-139 secp256k1_context_preallocated_create on memory holding [mem].
    The self test (src/selftest.h) is in LifeModel. *)
Definition context_preallocated_create_w32 (checkmem : bool) (mem : context_w32) (flags : Z) : option context_w32 :=
  if preallocated_size_ok checkmem flags then
    Some (mkctx_w32 (gen_context_build_w32 (c_gen_w32 mem)) default_cb default_cb (negb (Z.land flags 1024 =? 0)))
  else None.
(** src/secp256k1.c:141-150 secp256k1_context_create (memory exhaustion not modelled). *)
Definition context_create_w32 (checkmem : bool) (mem : context_w32) (flags : Z) : option context_w32 :=
  context_preallocated_create_w32 checkmem mem flags.
(** src/secp256k1.c:152-161 secp256k1_context_preallocated_clone. *)
Definition context_preallocated_clone_w32 (ctx : context_w32) (prealloc : option context_w32) : res (option context_w32) :=
  match prealloc with
  | None => arg_fail None
  | Some mem => if negb (context_is_proper_w32 ctx) then arg_fail None else mkres 1 0 (Some ctx)
  end.
(** src/secp256k1.c:163-174 secp256k1_context_clone (memory exhaustion not modelled). *)
Definition context_clone_w32 (ctx mem : context_w32) : res (option context_w32) :=
  if negb (context_is_proper_w32 ctx) then arg_fail None else context_preallocated_clone_w32 ctx (Some mem).
(** src/secp256k1.c:176-185 secp256k1_context_preallocated_destroy on a non-NULL context:
    callback calls and the memory afterwards. *)
Definition context_preallocated_destroy_w32 (ctx : context_w32) : res context_w32 :=
  if negb (context_is_proper_w32 ctx) then arg_fail ctx
  else mkres 0 0 (mkctx_w32 (gen_context_clear_w32 (c_gen_w32 ctx)) (c_illegal_w32 ctx) (c_error_w32 ctx) (c_declassify_w32 ctx)).
(** src/secp256k1.c:199-209 secp256k1_context_set_illegal_callback; [is_static]: ctx is the
    pointer secp256k1_context_static; fn 0 is NULL or the default. *)
Definition context_set_illegal_callback_w32 (is_static : bool) (ctx : context_w32) (fn data : Z) : res context_w32 :=
  if is_static then arg_fail ctx else mkres 0 0 (mkctx_w32 (c_gen_w32 ctx) (mkcb fn data) (c_error_w32 ctx) (c_declassify_w32 ctx)).
(** src/secp256k1.c:211-221 secp256k1_context_set_error_callback. *)
Definition context_set_error_callback_w32 (is_static : bool) (ctx : context_w32) (fn data : Z) : res context_w32 :=
  if is_static then arg_fail ctx else mkres 0 0 (mkctx_w32 (c_gen_w32 ctx) (c_illegal_w32 ctx) (mkcb fn data) (c_declassify_w32 ctx)).
(** src/secp256k1.c:747-755 secp256k1_context_randomize. *)
Definition context_randomize_w32 (ctx : context_w32) (seed32 : option (list Z)) : res context_w32 :=
  if negb (context_is_proper_w32 ctx) then arg_fail ctx
  else if g_built_w32 (c_gen_w32 ctx) then
    mkres 1 0 (mkctx_w32 (ecmult_gen_blind_w32 (c_gen_w32 ctx) seed32) (c_illegal_w32 ctx) (c_error_w32 ctx) (c_declassify_w32 ctx))
  else mkres 1 0 ctx.
(** src/secp256k1.c:240-244 secp256k1_pubkey_load: the group element (always written) and
    whether the check passed; when it fails the callback is called once. *)
Definition pubkey_load_w32 (pubkey : list Z) : bool * ge_w32 :=
  let g := ge_from_bytes_w32 pubkey in (negb (f26_is_zero (gx_w32 g)), g).
(** src/secp256k1.c:246-248 secp256k1_pubkey_save. *)
Definition pubkey_save_w32 (g : ge_w32) : list Z := ge_to_bytes_w32 g.
(** src/secp256k1.c:250-266 secp256k1_ec_pubkey_parse.  secp256k1_ge_is_in_correct_subgroup
    (src/group_impl.h) returns 1 outside exhaustive tests. *)
Definition ec_pubkey_parse_w32 (pubkey input : option (list Z)) : res (option (list Z)) :=
  match pubkey with
  | None => arg_fail None
  | Some _ =>
    match input with
    | None => arg_fail (Some (zeros 64))
    | Some inp =>
      match eckey_pubkey_parse_w32 inp with
      | None => mkres 0 0 (Some (zeros 64))
      | Some Q => mkres 1 0 (Some (pubkey_save_w32 Q))
      end
    end
  end.
(** src/secp256k1.c:268-289 secp256k1_ec_pubkey_serialize: outputs are *output and
    *outputlen; [None] if memset or the writes leave the output buffer. *)
Definition ec_pubkey_serialize_w32 (output : option (list Z)) (outputlen : option Z) (pubkey : option (list Z)) (flags : Z)
  : option (res (option (list Z) * option Z)) :=
  let comp := negb (Z.land flags 256 =? 0) in
  match outputlen with
  | None => Some (arg_fail (output, None))
  | Some len =>
    if negb (len >=? (if comp then 33 else 65)) then Some (arg_fail (output, Some len)) else
    match output with
    | None => Some (arg_fail (None, Some 0))
    | Some out =>
      match wr_n out 0 (repeat 0 (Z.to_nat len)) with
      | None => None
      | Some out =>
        match pubkey with
        | None => Some (arg_fail (Some out, Some 0))
        | Some pk =>
          if negb (Z.land flags 0xFF =? 2) then Some (arg_fail (Some out, Some 0)) else
          let (ok, Q) := pubkey_load_w32 pk in
          if ok then
            match eckey_pubkey_serialize_w32 Q comp with
            | None => Some (mkres 0 0 (Some out, Some 0))
            | Some bytes =>
              match wr_n out 0 bytes with
              | None => None
              | Some out => Some (mkres 1 0 (Some out, Some (Z.of_nat (length bytes))))
              end
            end
          else Some (mkres 0 1 (Some out, Some 0))
        end
      end
    end
  end.
(** src/secp256k1.c:291-315 secp256k1_ec_pubkey_cmp.  [cmp_key] is one iteration of the
    loop: the 33 bytes compared and the callback calls. *)
Definition cmp_key_w32 (pk : option (list Z)) : option (list Z * Z) :=
  match ec_pubkey_serialize_w32 (Some (zeros 33)) (Some 33) pk EC_COMPRESSED with
  | None => None
  | Some r =>
    match r_out r with
    | (Some out, _) => Some (if r_ret r =? 0 then zeros 33 else out, r_ill r)
    | _ => None
    end
  end.
Definition ec_pubkey_cmp_w32 (pk0 pk1 : option (list Z)) : option (res unit) :=
  match cmp_key_w32 pk0, cmp_key_w32 pk1 with
  | Some (o0, i0), Some (o1, i1) => Some (mkres (memcmp_var o0 o1) (i0 + i1) tt)
  | _, _ => None
  end.
(** memcpy between a secp256k1_scalar (eight uint32_t) and 32 bytes of an object. *)
Definition sc_bytes_w32 (a : sc8) : list Z :=
  le_bytes 4 (sd0 a) ++ le_bytes 4 (sd1 a) ++ le_bytes 4 (sd2 a) ++ le_bytes 4 (sd3 a) ++
  le_bytes 4 (sd4 a) ++ le_bytes 4 (sd5 a) ++ le_bytes 4 (sd6 a) ++ le_bytes 4 (sd7 a).
Definition sc_of_bytes_w32 (l : list Z) : sc8 :=
  mks8 (le_val (firstn 4 l)) (le_val (firstn 4 (skipn 4 l))) (le_val (firstn 4 (skipn 8 l))) (le_val (firstn 4 (skipn 12 l)))
       (le_val (firstn 4 (skipn 16 l))) (le_val (firstn 4 (skipn 20 l))) (le_val (firstn 4 (skipn 24 l))) (le_val (firstn 4 (skipn 28 l))).
(** src/secp256k1.c:345-357 secp256k1_ecdsa_signature_load. *)
Definition signature_load_w32 (sig : list Z) : sc8 * sc8 := (sc_of_bytes_w32 (firstn 32 sig), sc_of_bytes_w32 (skipn 32 sig)).
(** src/secp256k1.c:359-367 secp256k1_ecdsa_signature_save. *)
Definition signature_save_w32 (r s : sc8) : list Z := sc_bytes_w32 r ++ sc_bytes_w32 s.
(** src/secp256k1.c:369-383 secp256k1_ecdsa_signature_parse_der. *)
Definition ecdsa_signature_parse_der_w32 (sig input : option (list Z)) : option (res (option (list Z))) :=
  match sig with
  | None => Some (arg_fail None)
  | Some s0 =>
    match input with
    | None => Some (arg_fail (Some s0))
    | Some inp =>
      match ecdsa_sig_parse_w32 inp with
      | Ub => None
      | Ret0 => Some (mkres 0 0 (Some (zeros 64)))
      | Ret1 (r, s) => Some (mkres 1 0 (Some (signature_save_w32 r s)))
      end
    end
  end.
(** src/secp256k1.c:385-404 secp256k1_ecdsa_signature_parse_compact. *)
Definition ecdsa_signature_parse_compact_w32 (sig input64 : option (list Z)) : res (option (list Z)) :=
  match sig with
  | None => arg_fail None
  | Some s0 =>
    match input64 with
    | None => arg_fail (Some s0)
    | Some inp =>
      let (r, ovr) := s8_set_b32 (firstn 32 inp) in
      let ret := negb ovr in
      let (s, ovs) := s8_set_b32 (skipn 32 inp) in
      let ret := ret && negb ovs in
      if ret then mkres 1 0 (Some (signature_save_w32 r s)) else mkres 0 0 (Some (zeros 64))
    end
  end.
(** src/secp256k1.c:406-416 secp256k1_ecdsa_signature_serialize_der. *)
Definition ecdsa_signature_serialize_der_w32 (output : option (list Z)) (outputlen : option Z) (sig : option (list Z))
  : option (res (option (list Z) * option Z)) :=
  match output, outputlen, sig with
  | Some out, Some len, Some sg =>
    let (r, s) := signature_load_w32 sg in
    match ecdsa_sig_serialize_w32 out len r s with
    | None => None
    | Some (ret, len, out) => Some (mkres (b2z ret) 0 (Some out, Some len))
    end
  | _, _, _ => Some (arg_fail (output, outputlen))
  end.
(** src/secp256k1.c:418-429 secp256k1_ecdsa_signature_serialize_compact. *)
Definition ecdsa_signature_serialize_compact_w32 (output64 sig : option (list Z)) : res (option (list Z)) :=
  match output64, sig with
  | Some _, Some sg => let (r, s) := signature_load_w32 sg in mkres 1 0 (Some (s8_get_b32 r ++ s8_get_b32 s))
  | _, _ => arg_fail output64
  end.
(** src/secp256k1.c:431-448 secp256k1_ecdsa_signature_normalize (sigout may be NULL). *)
Definition ecdsa_signature_normalize_w32 (sigout sigin : option (list Z)) : res (option (list Z)) :=
  match sigin with
  | None => arg_fail sigout
  | Some sg =>
    let (r, s) := signature_load_w32 sg in
    let ret := s8_is_high s in
    match sigout with
    | None => mkres (b2z ret) 0 None
    | Some _ => mkres (b2z ret) 0 (Some (signature_save_w32 r (if ret then s8_negate s else s)))
    end
  end.
(** src/secp256k1.c:450-464 secp256k1_ecdsa_verify. *)
Definition ecdsa_verify_w32 (sig msghash32 pubkey : option (list Z)) : res unit :=
  match msghash32, sig, pubkey with
  | Some msg, Some sg, Some pk =>
    let m := fst (s8_set_b32 msg) in
    let (r, s) := signature_load_w32 sg in
    if s8_is_high s then mkres 0 0 tt
    else
      let (ok, q) := pubkey_load_w32 pk in
      if ok then mkres (b2z (ecdsa_sig_verify_w32 r s q m)) 0 tt else mkres 0 1 tt
  | _, _, _ => arg_fail tt
  end.
(** src/secp256k1.c:471-505 nonce_function_rfc6979 (secp256k1_nonce_function_rfc6979 and
    _default).  [gen_times] is the for loop, run counter + 1 times
    (for counter = UINT_MAX the C loop `i <= counter` never ends; not modelled). *)
Definition nonce_function_rfc6979_w32 : nonce_function := fun msg32 key32 algo16 data counter =>
  let msg := fst (s8_set_b32 msg32) in
  let msgmod32 := s8_get_b32 msg in
  let keydata := key32 ++ msgmod32 in
  let keydata := keydata ++ match data with Some d => firstn 32 d | None => [] end in
  let keydata := keydata ++ match algo16 with Some a => firstn 16 a | None => [] end in
  let rng := rfc6979_initialize keydata in
  Some (gen_times (S (Z.to_nat counter)) rng (zeros 32)).
(** src/secp256k1.c:510-564 secp256k1_ecdsa_sign_inner.  [sign_loop] is the while(1) loop;
    it may run for ever, so it takes fuel and [None] means "not finished yet".  recid
    is always computed; secp256k1_ecdsa_sign passes NULL and drops it. *)
Fixpoint sign_loop_w32 (fuel : nat) (gctx : gen_ctx_w32) (sec msg : sc8) (msg32 seckey : list Z) (noncefp : nonce_function)
    (noncedata : option (list Z)) (count : Z) (st : sc8 * sc8 * Z) : option (bool * (sc8 * sc8 * Z)) :=
  match fuel with
  | O => None
  | S fuel' =>
    match noncefp msg32 seckey None noncedata count with
    | None => Some (false, st)
    | Some nonce32 =>
      let (non, is_nonce_valid) := s8_set_b32_seckey nonce32 in
      if is_nonce_valid then
        let '(ret, r, s, recid) := ecdsa_sig_sign_w32 gctx sec msg non in
        if ret then Some (true, (r, s, recid))
        else sign_loop_w32 fuel' gctx sec msg msg32 seckey noncefp noncedata (w32 (count + 1)) (r, s, recid)
      else sign_loop_w32 fuel' gctx sec msg msg32 seckey noncefp noncedata (w32 (count + 1)) st
    end
  end.
Definition ecdsa_sign_inner_w32 (fuel : nat) (gctx : gen_ctx_w32) (msg32 seckey : list Z) (noncefp : option nonce_function)
    (noncedata : option (list Z)) : option (bool * sc8 * sc8 * Z) :=
  let noncefp := match noncefp with None => nonce_function_rfc6979_w32 | Some f => f end in
  let (sec, is_sec_valid) := s8_set_b32_seckey seckey in
  let sec := s8_cmov sec s8_one (b2z (negb is_sec_valid)) in
  let msg := fst (s8_set_b32 msg32) in
  match sign_loop_w32 fuel gctx sec msg msg32 seckey noncefp noncedata 0 (s8_zero, s8_zero, 0) with
  | None => None
  | Some (ret, (r, s, recid)) =>
    let ret := ret && is_sec_valid in
    let r := s8_cmov r s8_zero (b2z (negb ret)) in
    let s := s8_cmov s s8_zero (b2z (negb ret)) in
    let recid := int_cmov recid 0 (b2z (negb ret)) in
    Some (ret, r, s, recid)
  end.
(** src/secp256k1.c:566-578 secp256k1_ecdsa_sign. *)
Definition ecdsa_sign_w32 (fuel : nat) (ctx : context_w32) (signature msghash32 seckey : option (list Z))
    (noncefp : option nonce_function) (noncedata : option (list Z)) : option (res (option (list Z))) :=
  if negb (g_built_w32 (c_gen_w32 ctx)) then Some (arg_fail signature) else
  match msghash32, signature, seckey with
  | Some msg, Some _, Some key =>
    match ecdsa_sign_inner_w32 fuel (c_gen_w32 ctx) msg key noncefp noncedata with
    | None => None
    | Some (ret, r, s, _) => Some (mkres (b2z ret) 0 (Some (signature_save_w32 r s)))
    end
  | _, _, _ => Some (arg_fail signature)
  end.
(** src/secp256k1.c:580-589 secp256k1_ec_seckey_verify. *)
Definition ec_seckey_verify_w32 (seckey : option (list Z)) : res unit :=
  match seckey with
  | None => arg_fail tt
  | Some key => mkres (b2z (snd (s8_set_b32_seckey key))) 0 tt
  end.
(** src/secp256k1.c:591-602 secp256k1_ec_pubkey_create_helper: return value, scalar, point. *)
Definition ec_pubkey_create_helper_w32 (gctx : gen_ctx_w32) (seckey : list Z) : bool * sc8 * ge_w32 :=
  let (s, ret) := s8_set_b32_seckey seckey in
  let s := s8_cmov s s8_one (b2z (negb ret)) in
  let pj := ecmult_gen_w32 gctx s in
  (ret, s, ge_set_gej_w32 pj).
(** src/secp256k1.c:604-620 secp256k1_ec_pubkey_create. *)
Definition ec_pubkey_create_w32 (ctx : context_w32) (pubkey seckey : option (list Z)) : res (option (list Z)) :=
  match pubkey with
  | None => arg_fail None
  | Some _ =>
    if negb (g_built_w32 (c_gen_w32 ctx)) then arg_fail (Some (zeros 64)) else
    match seckey with
    | None => arg_fail (Some (zeros 64))
    | Some key =>
      let '(ret, s, q) := ec_pubkey_create_helper_w32 (c_gen_w32 ctx) key in
      mkres (b2z ret) 0 (Some (memczero (pubkey_save_w32 q) (b2z (negb ret))))
    end
  end.
(** src/secp256k1.c:622-635 secp256k1_ec_seckey_negate. *)
Definition ec_seckey_negate_w32 (seckey : option (list Z)) : res (option (list Z)) :=
  match seckey with
  | None => arg_fail None
  | Some key =>
    let (sec, ret) := s8_set_b32_seckey key in
    let sec := s8_cmov sec s8_zero (b2z (negb ret)) in
    mkres (b2z ret) 0 (Some (s8_get_b32 (s8_negate sec)))
  end.
(** src/secp256k1.c:637-650 secp256k1_ec_pubkey_negate. *)
Definition ec_pubkey_negate_w32 (pubkey : option (list Z)) : res (option (list Z)) :=
  match pubkey with
  | None => arg_fail None
  | Some pk =>
    let (ret, q) := pubkey_load_w32 pk in
    if ret then mkres 1 0 (Some (pubkey_save_w32 (ge_neg_w32 q))) else mkres 0 1 (Some (zeros 64))
  end.
(** src/secp256k1.c:653-662 secp256k1_ec_seckey_tweak_add_helper. *)
Definition ec_seckey_tweak_add_helper_w32 (sec : sc8) (tweak32 : list Z) : bool * sc8 :=
  let (term, overflow) := s8_set_b32 tweak32 in
  let (ret, sec) := eckey_privkey_tweak_add_w32 sec term in
  (negb overflow && ret, sec).
(** src/secp256k1.c:664-678 secp256k1_ec_seckey_tweak_add. *)
Definition ec_seckey_tweak_add_w32 (seckey tweak32 : option (list Z)) : res (option (list Z)) :=
  match seckey, tweak32 with
  | Some key, Some tw =>
    let (sec, ret) := s8_set_b32_seckey key in
    let (ret2, sec) := ec_seckey_tweak_add_helper_w32 sec tw in
    let ret := ret && ret2 in
    let sec := s8_cmov sec s8_zero (b2z (negb ret)) in
    mkres (b2z ret) 0 (Some (s8_get_b32 sec))
  | _, _ => arg_fail seckey
  end.
(** src/secp256k1.c:680-685 secp256k1_ec_pubkey_tweak_add_helper. *)
Definition ec_pubkey_tweak_add_helper_w32 (q : ge_w32) (tweak32 : list Z) : option ge_w32 :=
  let (term, overflow) := s8_set_b32 tweak32 in
  if overflow then None else eckey_pubkey_tweak_add_w32 q term.
(** src/secp256k1.c:687-702 secp256k1_ec_pubkey_tweak_add. *)
Definition ec_pubkey_tweak_add_w32 (pubkey tweak32 : option (list Z)) : res (option (list Z)) :=
  match pubkey, tweak32 with
  | Some pk, Some tw =>
    let (ret, q) := pubkey_load_w32 pk in
    if ret then
      match ec_pubkey_tweak_add_helper_w32 q tw with
      | None => mkres 0 0 (Some (zeros 64))
      | Some q => mkres 1 0 (Some (pubkey_save_w32 q))
      end
    else mkres 0 1 (Some (zeros 64))
  | _, _ => arg_fail pubkey
  end.
(** src/secp256k1.c:704-722 secp256k1_ec_seckey_tweak_mul. *)
Definition ec_seckey_tweak_mul_w32 (seckey tweak32 : option (list Z)) : res (option (list Z)) :=
  match seckey, tweak32 with
  | Some key, Some tw =>
    let (factor, overflow) := s8_set_b32 tw in
    let (sec, ret) := s8_set_b32_seckey key in
    let (ret2, sec) := eckey_privkey_tweak_mul_w32 sec factor in
    let ret := ret && (negb overflow && ret2) in
    let sec := s8_cmov sec s8_zero (b2z (negb ret)) in
    mkres (b2z ret) 0 (Some (s8_get_b32 sec))
  | _, _ => arg_fail seckey
  end.
(** src/secp256k1.c:724-745 secp256k1_ec_pubkey_tweak_mul. *)
Definition ec_pubkey_tweak_mul_w32 (pubkey tweak32 : option (list Z)) : res (option (list Z)) :=
  match pubkey, tweak32 with
  | Some pk, Some tw =>
    let (factor, overflow) := s8_set_b32 tw in
    if overflow then mkres 0 0 (Some (zeros 64))
    else
      let (ret, q) := pubkey_load_w32 pk in
      if ret then
        match eckey_pubkey_tweak_mul_w32 q factor with
        | Some q => mkres 1 0 (Some (pubkey_save_w32 q))
        | None => mkres 0 0 (Some (zeros 64))
        end
      else mkres 0 1 (Some (zeros 64))
  | _, _ => arg_fail pubkey
  end.
(** src/secp256k1.c:757-781 secp256k1_ec_pubkey_combine.  The result of pubkey_load is
    ignored by the C code: an invalid key only calls the callback.  [combine_loop] is
    the for loop; [inr] is the early return of the ARG_CHECK inside it. *)
Fixpoint combine_loop_w32 (keys : list (option (list Z))) (Qj : gej_w32) (ill : Z) : (gej_w32 * Z) + Z :=
  match keys with
  | [] => inl (Qj, ill)
  | None :: _ => inr (ill + 1)
  | Some pk :: keys' =>
    let (ok, Q) := pubkey_load_w32 pk in
    combine_loop_w32 keys' (gej_add_ge_w32 Qj Q) (if ok then ill else ill + 1)
  end.
Definition ec_pubkey_combine_w32 (pubnonce : option (list Z)) (pubnonces : option (list (option (list Z)))) : res (option (list Z)) :=
  match pubnonce with
  | None => arg_fail None
  | Some _ =>
    match pubnonces with
    | None => arg_fail (Some (zeros 64))
    | Some [] => arg_fail (Some (zeros 64))
    | Some keys =>
      match combine_loop_w32 keys gej_infinity_w32 0 with
      | inr ill => mkres 0 ill (Some (zeros 64))
      | inl (Qj, ill) =>
        if gej_is_infinity_w32 Qj then mkres 0 ill (Some (zeros 64))
        else mkres 1 ill (Some (pubkey_save_w32 (ge_set_gej_w32 Qj)))
      end
    end
  end.
