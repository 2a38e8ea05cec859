(** Model of the public functions of src/secp256k1.c.

    Conventions.  A pointer argument is an [option]: [None] is NULL, [Some l] the
    bytes it points at.  Objects such as secp256k1_pubkey are the bytes the C code
    stores in them (64 bytes; on a little-endian machine with 4x64 scalars).  A
    function returns its int return value, the number of times it called the illegal
    argument callback of the context, and the contents of its output arguments after
    the call; the callback is assumed to return (if it does not, as the default one,
    the call has no further effect).  Outputs which the function does not write keep
    the value they had.  Functions that access caller buffers of variable length
    return [None] if an access falls outside the buffer.  Clearing of local secrets
    and declassification have no effect here. *)
Require Import ZArith List Bool.
From Verif Require Import Word Spec FieldModel ScalarModel GroupModel HashModel GenModel EcmultModel EcdsaModel.
Import ListNotations.
Local Open Scope Z_scope.
Local Open Scope c_scope.

Record res (A : Type) : Type := mkres { r_ret : Z; r_ill : Z; r_out : A }.
Arguments mkres {A} r_ret r_ill r_out. Arguments r_ret {A} r. Arguments r_ill {A} r. Arguments r_out {A} r.
(** src/secp256k1.c:45-50 (ARG_CHECK) failing: one call of the callback, return 0. *)
Definition arg_fail {A} (out : A) : res A := mkres 0 1 out.

(** ** Contexts *)

(** src/util.h:34-37 (secp256k1_callback): a function and its data, as opaque ids;
    function 0 is the default. *)
Record callback : Type := mkcb { cb_fn : Z; cb_data : Z }.
(** src/secp256k1.c:61-66 (secp256k1_context_struct). *)
Record context : Type := mkctx { c_gen : gen_ctx; c_illegal : callback; c_error : callback; c_declassify : bool }.
Definition default_cb : callback := mkcb 0 0.
(** src/secp256k1.c:68-73 (secp256k1_context_static_). *)
Definition context_static : context :=
  mkctx (mkgen false (mksc 0 0 0 0) (mkge (mkfe 0 0 0 0 0) (mkfe 0 0 0 0 0) false) (mkfe 0 0 0 0 0)) default_cb default_cb false.
(** src/secp256k1.c:82-84 secp256k1_context_is_proper. *)
Definition context_is_proper (ctx : context) : bool := g_built (c_gen ctx).

(** src/secp256k1.c:92-110 secp256k1_context_preallocated_size; [checkmem] is whether a
    memory checker is attached; the size itself is opaque (any non-zero number), so
    the result is whether it is non-zero, and the calls of the default callback. *)
Definition preallocated_size_ok (checkmem : bool) (flags : Z) : bool :=
  negb (negb (Z.land flags 0xFF =? 1)) && negb (negb checkmem && negb (Z.land flags 1024 =? 0)).
(** src/secp256k1.c:118-139 secp256k1_context_preallocated_create on memory holding [mem].
    The self test (src/selftest.h) is in LifeModel. *)
Definition context_preallocated_create (checkmem : bool) (mem : context) (flags : Z) : option context :=
  if preallocated_size_ok checkmem flags then
    Some (mkctx (gen_context_build (c_gen mem)) default_cb default_cb (negb (Z.land flags 1024 =? 0)))
  else None.
(** src/secp256k1.c:141-150 secp256k1_context_create (memory exhaustion not modelled). *)
Definition context_create (checkmem : bool) (mem : context) (flags : Z) : option context :=
  context_preallocated_create checkmem mem flags.
(** src/secp256k1.c:152-161 secp256k1_context_preallocated_clone. *)
Definition context_preallocated_clone (ctx : context) (prealloc : option context) : res (option context) :=
  match prealloc with
  | None => arg_fail None
  | Some mem => if negb (context_is_proper ctx) then arg_fail None else mkres 1 0 (Some ctx)
  end.
(** src/secp256k1.c:163-174 secp256k1_context_clone (memory exhaustion not modelled). *)
Definition context_clone (ctx mem : context) : res (option context) :=
  if negb (context_is_proper ctx) then arg_fail None else context_preallocated_clone ctx (Some mem).
(** src/secp256k1.c:176-185 secp256k1_context_preallocated_destroy on a non-NULL context:
    callback calls and the memory afterwards. *)
Definition context_preallocated_destroy (ctx : context) : res context :=
  if negb (context_is_proper ctx) then arg_fail ctx
  else mkres 0 0 (mkctx (gen_context_clear (c_gen ctx)) (c_illegal ctx) (c_error ctx) (c_declassify ctx)).
(** src/secp256k1.c:199-209 secp256k1_context_set_illegal_callback; [is_static]: ctx is the
    pointer secp256k1_context_static; fn 0 is NULL or the default. *)
Definition context_set_illegal_callback (is_static : bool) (ctx : context) (fn data : Z) : res context :=
  if is_static then arg_fail ctx else mkres 0 0 (mkctx (c_gen ctx) (mkcb fn data) (c_error ctx) (c_declassify ctx)).
(** src/secp256k1.c:211-221 secp256k1_context_set_error_callback. *)
Definition context_set_error_callback (is_static : bool) (ctx : context) (fn data : Z) : res context :=
  if is_static then arg_fail ctx else mkres 0 0 (mkctx (c_gen ctx) (c_illegal ctx) (mkcb fn data) (c_declassify ctx)).
(** src/secp256k1.c:747-755 secp256k1_context_randomize. *)
Definition context_randomize (ctx : context) (seed32 : option (list Z)) : res context :=
  if negb (context_is_proper ctx) then arg_fail ctx
  else if g_built (c_gen ctx) then
    mkres 1 0 (mkctx (ecmult_gen_blind (c_gen ctx) seed32) (c_illegal ctx) (c_error ctx) (c_declassify ctx))
  else mkres 1 0 ctx.

(** ** Public keys *)

(** src/secp256k1.c:240-244 secp256k1_pubkey_load: the group element (always written) and
    whether the check passed; when it fails the callback is called once. *)
Definition pubkey_load (pubkey : list Z) : bool * ge :=
  let g := ge_from_bytes pubkey in (negb (fe_is_zero (gx g)), g).
(** src/secp256k1.c:246-248 secp256k1_pubkey_save. *)
Definition pubkey_save (g : ge) : list Z := ge_to_bytes g.
Definition zeros (k : nat) : list Z := repeat 0 k.

(** src/secp256k1.c:250-266 secp256k1_ec_pubkey_parse.  secp256k1_ge_is_in_correct_subgroup
    (src/group_impl.h) returns 1 outside exhaustive tests. *)
Definition ec_pubkey_parse (pubkey input : option (list Z)) : res (option (list Z)) :=
  match pubkey with
  | None => arg_fail None
  | Some _ =>
    match input with
    | None => arg_fail (Some (zeros 64))
    | Some inp =>
      match eckey_pubkey_parse inp with
      | None => mkres 0 0 (Some (zeros 64))
      | Some Q => mkres 1 0 (Some (pubkey_save Q))
      end
    end
  end.

(** src/secp256k1.c:268-289 secp256k1_ec_pubkey_serialize: outputs are *output and
    *outputlen; [None] if memset or the writes leave the output buffer. *)
Definition ec_pubkey_serialize (output : option (list Z)) (outputlen : option Z) (pubkey : option (list Z)) (flags : Z)
  : option (res (option (list Z) * option Z)) :=
  let comp := negb (Z.land flags 256 =? 0) in
  match outputlen with
  | None => Some (arg_fail (output, None))
  | Some len =>
    if negb (len >=? (if comp then 33 else 65)) then Some (arg_fail (output, Some len)) else
    match output with
    | None => Some (arg_fail (None, Some 0))
    | Some out =>
      match wr_n out 0 (repeat 0 (Z.to_nat len)) with
      | None => None
      | Some out =>
        match pubkey with
        | None => Some (arg_fail (Some out, Some 0))
        | Some pk =>
          if negb (Z.land flags 0xFF =? 2) then Some (arg_fail (Some out, Some 0)) else
          let (ok, Q) := pubkey_load pk in
          if ok then
            match eckey_pubkey_serialize Q comp with
            | None => Some (mkres 0 0 (Some out, Some 0))
            | Some bytes =>
              match wr_n out 0 bytes with
              | None => None
              | Some out => Some (mkres 1 0 (Some out, Some (Z.of_nat (length bytes))))
              end
            end
          else Some (mkres 0 1 (Some out, Some 0))
        end
      end
    end
  end.

(** include/secp256k1.h:212-212 (SECP256K1_EC_COMPRESSED) and
    include/secp256k1.h:213-213 (SECP256K1_EC_UNCOMPRESSED). *)
Definition EC_COMPRESSED : Z := 258.
Definition EC_UNCOMPRESSED : Z := 2.

(** src/secp256k1.c:291-315 secp256k1_ec_pubkey_cmp.  [cmp_key] is one iteration of the
    loop: the 33 bytes compared and the callback calls. *)
Definition cmp_key (pk : option (list Z)) : option (list Z * Z) :=
  match ec_pubkey_serialize (Some (zeros 33)) (Some 33) pk EC_COMPRESSED with
  | None => None
  | Some r =>
    match r_out r with
    | (Some out, _) => Some (if r_ret r =? 0 then zeros 33 else out, r_ill r)
    | _ => None
    end
  end.
Definition ec_pubkey_cmp (pk0 pk1 : option (list Z)) : option (res unit) :=
  match cmp_key pk0, cmp_key pk1 with
  | Some (o0, i0), Some (o1, i1) => Some (mkres (memcmp_var o0 o1) (i0 + i1) tt)
  | _, _ => None
  end.

(** ** Signature objects *)

(** memcpy between a secp256k1_scalar (four uint64_t) and 32 bytes of an object. *)
Definition sc_bytes (a : sc) : list Z := le_bytes 8 (d0 a) ++ le_bytes 8 (d1 a) ++ le_bytes 8 (d2 a) ++ le_bytes 8 (d3 a).
Definition sc_of_bytes (l : list Z) : sc :=
  mksc (le_val (firstn 8 l)) (le_val (firstn 8 (skipn 8 l))) (le_val (firstn 8 (skipn 16 l))) (le_val (firstn 8 (skipn 24 l))).
(** src/secp256k1.c:345-357 secp256k1_ecdsa_signature_load. *)
Definition signature_load (sig : list Z) : sc * sc := (sc_of_bytes (firstn 32 sig), sc_of_bytes (skipn 32 sig)).
(** src/secp256k1.c:359-367 secp256k1_ecdsa_signature_save. *)
Definition signature_save (r s : sc) : list Z := sc_bytes r ++ sc_bytes s.

(** src/secp256k1.c:369-383 secp256k1_ecdsa_signature_parse_der. *)
Definition ecdsa_signature_parse_der (sig input : option (list Z)) : option (res (option (list Z))) :=
  match sig with
  | None => Some (arg_fail None)
  | Some s0 =>
    match input with
    | None => Some (arg_fail (Some s0))
    | Some inp =>
      match ecdsa_sig_parse inp with
      | Ub => None
      | Ret0 => Some (mkres 0 0 (Some (zeros 64)))
      | Ret1 (r, s) => Some (mkres 1 0 (Some (signature_save r s)))
      end
    end
  end.

(** src/secp256k1.c:385-404 secp256k1_ecdsa_signature_parse_compact. *)
Definition ecdsa_signature_parse_compact (sig input64 : option (list Z)) : res (option (list Z)) :=
  match sig with
  | None => arg_fail None
  | Some s0 =>
    match input64 with
    | None => arg_fail (Some s0)
    | Some inp =>
      let (r, ovr) := sc_set_b32 (firstn 32 inp) in
      let ret := negb ovr in
      let (s, ovs) := sc_set_b32 (skipn 32 inp) in
      let ret := ret && negb ovs in
      if ret then mkres 1 0 (Some (signature_save r s)) else mkres 0 0 (Some (zeros 64))
    end
  end.

(** src/secp256k1.c:406-416 secp256k1_ecdsa_signature_serialize_der. *)
Definition ecdsa_signature_serialize_der (output : option (list Z)) (outputlen : option Z) (sig : option (list Z))
  : option (res (option (list Z) * option Z)) :=
  match output, outputlen, sig with
  | Some out, Some len, Some sg =>
    let (r, s) := signature_load sg in
    match ecdsa_sig_serialize out len r s with
    | None => None
    | Some (ret, len, out) => Some (mkres (b2z ret) 0 (Some out, Some len))
    end
  | _, _, _ => Some (arg_fail (output, outputlen))
  end.

(** src/secp256k1.c:418-429 secp256k1_ecdsa_signature_serialize_compact. *)
Definition ecdsa_signature_serialize_compact (output64 sig : option (list Z)) : res (option (list Z)) :=
  match output64, sig with
  | Some _, Some sg => let (r, s) := signature_load sg in mkres 1 0 (Some (sc_get_b32 r ++ sc_get_b32 s))
  | _, _ => arg_fail output64
  end.

(** src/secp256k1.c:431-448 secp256k1_ecdsa_signature_normalize (sigout may be NULL). *)
Definition ecdsa_signature_normalize (sigout sigin : option (list Z)) : res (option (list Z)) :=
  match sigin with
  | None => arg_fail sigout
  | Some sg =>
    let (r, s) := signature_load sg in
    let ret := sc_is_high s in
    match sigout with
    | None => mkres (b2z ret) 0 None
    | Some _ => mkres (b2z ret) 0 (Some (signature_save r (if ret then sc_negate s else s)))
    end
  end.

(** src/secp256k1.c:450-464 secp256k1_ecdsa_verify. *)
Definition ecdsa_verify (sig msghash32 pubkey : option (list Z)) : res unit :=
  match msghash32, sig, pubkey with
  | Some msg, Some sg, Some pk =>
    let m := fst (sc_set_b32 msg) in
    let (r, s) := signature_load sg in
    if sc_is_high s then mkres 0 0 tt
    else
      let (ok, q) := pubkey_load pk in
      if ok then mkres (b2z (ecdsa_sig_verify r s q m)) 0 tt else mkres 0 1 tt
  | _, _, _ => arg_fail tt
  end.

(** ** Signing *)

(** A nonce function: message, key, algo16, data, attempt counter; [None] is return
    value 0, [Some nonce32] a non-zero return value with the bytes written.  Any
    stateful callback is covered: within one signing call it is called with the
    counters 0, 1, 2, ... in order. *)
Definition nonce_function : Type := list Z -> list Z -> option (list Z) -> option (list Z) -> Z -> option (list Z).

(** src/secp256k1.c:471-505 nonce_function_rfc6979 (secp256k1_nonce_function_rfc6979 and
    _default).  [gen_times] is the for loop, run counter + 1 times
    (for counter = UINT_MAX the C loop `i <= counter` never ends; not modelled). *)
Fixpoint gen_times (k : nat) (rng : rfc6979) (out : list Z) : list Z :=
  match k with O => out | S k' => let (rng, out) := rfc6979_generate rng 32 in gen_times k' rng out end.
Definition nonce_function_rfc6979 : nonce_function := fun msg32 key32 algo16 data counter =>
  let msg := fst (sc_set_b32 msg32) in
  let msgmod32 := sc_get_b32 msg in
  let keydata := key32 ++ msgmod32 in
  let keydata := keydata ++ match data with Some d => firstn 32 d | None => [] end in
  let keydata := keydata ++ match algo16 with Some a => firstn 16 a | None => [] end in
  let rng := rfc6979_initialize keydata in
  Some (gen_times (S (Z.to_nat counter)) rng (zeros 32)).

(** src/secp256k1.c:510-564 secp256k1_ecdsa_sign_inner.  [sign_loop] is the while(1) loop;
    it may run for ever, so it takes fuel and [None] means "not finished yet".  recid
    is always computed; secp256k1_ecdsa_sign passes NULL and drops it. *)
Fixpoint sign_loop (fuel : nat) (gctx : gen_ctx) (sec msg : sc) (msg32 seckey : list Z) (noncefp : nonce_function)
    (noncedata : option (list Z)) (count : Z) (st : sc * sc * Z) : option (bool * (sc * sc * Z)) :=
  match fuel with
  | O => None
  | S fuel' =>
    match noncefp msg32 seckey None noncedata count with
    | None => Some (false, st)
    | Some nonce32 =>
      let (non, is_nonce_valid) := sc_set_b32_seckey nonce32 in
      if is_nonce_valid then
        let '(ret, r, s, recid) := ecdsa_sig_sign gctx sec msg non in
        if ret then Some (true, (r, s, recid))
        else sign_loop fuel' gctx sec msg msg32 seckey noncefp noncedata (w32 (count + 1)) (r, s, recid)
      else sign_loop fuel' gctx sec msg msg32 seckey noncefp noncedata (w32 (count + 1)) st
    end
  end.
Definition ecdsa_sign_inner (fuel : nat) (gctx : gen_ctx) (msg32 seckey : list Z) (noncefp : option nonce_function)
    (noncedata : option (list Z)) : option (bool * sc * sc * Z) :=
  let noncefp := match noncefp with None => nonce_function_rfc6979 | Some f => f end in
  let (sec, is_sec_valid) := sc_set_b32_seckey seckey in
  let sec := sc_cmov sec sc_one (b2z (negb is_sec_valid)) in
  let msg := fst (sc_set_b32 msg32) in
  match sign_loop fuel gctx sec msg msg32 seckey noncefp noncedata 0 (sc_zero, sc_zero, 0) with
  | None => None
  | Some (ret, (r, s, recid)) =>
    let ret := ret && is_sec_valid in
    let r := sc_cmov r sc_zero (b2z (negb ret)) in
    let s := sc_cmov s sc_zero (b2z (negb ret)) in
    let recid := int_cmov recid 0 (b2z (negb ret)) in
    Some (ret, r, s, recid)
  end.

(** src/secp256k1.c:566-578 secp256k1_ecdsa_sign. *)
Definition ecdsa_sign (fuel : nat) (ctx : context) (signature msghash32 seckey : option (list Z))
    (noncefp : option nonce_function) (noncedata : option (list Z)) : option (res (option (list Z))) :=
  if negb (g_built (c_gen ctx)) then Some (arg_fail signature) else
  match msghash32, signature, seckey with
  | Some msg, Some _, Some key =>
    match ecdsa_sign_inner fuel (c_gen ctx) msg key noncefp noncedata with
    | None => None
    | Some (ret, r, s, _) => Some (mkres (b2z ret) 0 (Some (signature_save r s)))
    end
  | _, _, _ => Some (arg_fail signature)
  end.

(** ** Keys *)

(** src/secp256k1.c:580-589 secp256k1_ec_seckey_verify. *)
Definition ec_seckey_verify (seckey : option (list Z)) : res unit :=
  match seckey with
  | None => arg_fail tt
  | Some key => mkres (b2z (snd (sc_set_b32_seckey key))) 0 tt
  end.

(** src/secp256k1.c:591-602 secp256k1_ec_pubkey_create_helper: return value, scalar, point. *)
Definition ec_pubkey_create_helper (gctx : gen_ctx) (seckey : list Z) : bool * sc * ge :=
  let (s, ret) := sc_set_b32_seckey seckey in
  let s := sc_cmov s sc_one (b2z (negb ret)) in
  let pj := ecmult_gen gctx s in
  (ret, s, ge_set_gej pj).
(** src/secp256k1.c:604-620 secp256k1_ec_pubkey_create. *)
Definition ec_pubkey_create (ctx : context) (pubkey seckey : option (list Z)) : res (option (list Z)) :=
  match pubkey with
  | None => arg_fail None
  | Some _ =>
    if negb (g_built (c_gen ctx)) then arg_fail (Some (zeros 64)) else
    match seckey with
    | None => arg_fail (Some (zeros 64))
    | Some key =>
      let '(ret, s, q) := ec_pubkey_create_helper (c_gen ctx) key in
      mkres (b2z ret) 0 (Some (memczero (pubkey_save q) (b2z (negb ret))))
    end
  end.

(** src/secp256k1.c:622-635 secp256k1_ec_seckey_negate. *)
Definition ec_seckey_negate (seckey : option (list Z)) : res (option (list Z)) :=
  match seckey with
  | None => arg_fail None
  | Some key =>
    let (sec, ret) := sc_set_b32_seckey key in
    let sec := sc_cmov sec sc_zero (b2z (negb ret)) in
    mkres (b2z ret) 0 (Some (sc_get_b32 (sc_negate sec)))
  end.

(** src/secp256k1.c:637-650 secp256k1_ec_pubkey_negate. *)
Definition ec_pubkey_negate (pubkey : option (list Z)) : res (option (list Z)) :=
  match pubkey with
  | None => arg_fail None
  | Some pk =>
    let (ret, q) := pubkey_load pk in
    if ret then mkres 1 0 (Some (pubkey_save (ge_neg q))) else mkres 0 1 (Some (zeros 64))
  end.

(** src/secp256k1.c:653-662 secp256k1_ec_seckey_tweak_add_helper. *)
Definition ec_seckey_tweak_add_helper (sec : sc) (tweak32 : list Z) : bool * sc :=
  let (term, overflow) := sc_set_b32 tweak32 in
  let (ret, sec) := eckey_privkey_tweak_add sec term in
  (negb overflow && ret, sec).
(** src/secp256k1.c:664-678 secp256k1_ec_seckey_tweak_add. *)
Definition ec_seckey_tweak_add (seckey tweak32 : option (list Z)) : res (option (list Z)) :=
  match seckey, tweak32 with
  | Some key, Some tw =>
    let (sec, ret) := sc_set_b32_seckey key in
    let (ret2, sec) := ec_seckey_tweak_add_helper sec tw in
    let ret := ret && ret2 in
    let sec := sc_cmov sec sc_zero (b2z (negb ret)) in
    mkres (b2z ret) 0 (Some (sc_get_b32 sec))
  | _, _ => arg_fail seckey
  end.

(** src/secp256k1.c:680-685 secp256k1_ec_pubkey_tweak_add_helper. *)
Definition ec_pubkey_tweak_add_helper (q : ge) (tweak32 : list Z) : option ge :=
  let (term, overflow) := sc_set_b32 tweak32 in
  if overflow then None else eckey_pubkey_tweak_add q term.
(** src/secp256k1.c:687-702 secp256k1_ec_pubkey_tweak_add. *)
Definition ec_pubkey_tweak_add (pubkey tweak32 : option (list Z)) : res (option (list Z)) :=
  match pubkey, tweak32 with
  | Some pk, Some tw =>
    let (ret, q) := pubkey_load pk in
    if ret then
      match ec_pubkey_tweak_add_helper q tw with
      | None => mkres 0 0 (Some (zeros 64))
      | Some q => mkres 1 0 (Some (pubkey_save q))
      end
    else mkres 0 1 (Some (zeros 64))
  | _, _ => arg_fail pubkey
  end.

(** src/secp256k1.c:704-722 secp256k1_ec_seckey_tweak_mul. *)
Definition ec_seckey_tweak_mul (seckey tweak32 : option (list Z)) : res (option (list Z)) :=
  match seckey, tweak32 with
  | Some key, Some tw =>
    let (factor, overflow) := sc_set_b32 tw in
    let (sec, ret) := sc_set_b32_seckey key in
    let (ret2, sec) := eckey_privkey_tweak_mul sec factor in
    let ret := ret && (negb overflow && ret2) in
    let sec := sc_cmov sec sc_zero (b2z (negb ret)) in
    mkres (b2z ret) 0 (Some (sc_get_b32 sec))
  | _, _ => arg_fail seckey
  end.

(** src/secp256k1.c:724-745 secp256k1_ec_pubkey_tweak_mul. *)
Definition ec_pubkey_tweak_mul (pubkey tweak32 : option (list Z)) : res (option (list Z)) :=
  match pubkey, tweak32 with
  | Some pk, Some tw =>
    let (factor, overflow) := sc_set_b32 tw in
    if overflow then mkres 0 0 (Some (zeros 64))
    else
      let (ret, q) := pubkey_load pk in
      if ret then
        match eckey_pubkey_tweak_mul q factor with
        | Some q => mkres 1 0 (Some (pubkey_save q))
        | None => mkres 0 0 (Some (zeros 64))
        end
      else mkres 0 1 (Some (zeros 64))
  | _, _ => arg_fail pubkey
  end.

(** src/secp256k1.c:757-781 secp256k1_ec_pubkey_combine.  The result of pubkey_load is
    ignored by the C code: an invalid key only calls the callback.  [combine_loop] is
    the for loop; [inr] is the early return of the ARG_CHECK inside it. *)
Fixpoint combine_loop (keys : list (option (list Z))) (Qj : gej) (ill : Z) : (gej * Z) + Z :=
  match keys with
  | [] => inl (Qj, ill)
  | None :: _ => inr (ill + 1)
  | Some pk :: keys' =>
    let (ok, Q) := pubkey_load pk in
    combine_loop keys' (gej_add_ge Qj Q) (if ok then ill else ill + 1)
  end.
Definition ec_pubkey_combine (pubnonce : option (list Z)) (pubnonces : option (list (option (list Z)))) : res (option (list Z)) :=
  match pubnonce with
  | None => arg_fail None
  | Some _ =>
    match pubnonces with
    | None => arg_fail (Some (zeros 64))
    | Some [] => arg_fail (Some (zeros 64))
    | Some keys =>
      match combine_loop keys gej_infinity 0 with
      | inr ill => mkres 0 ill (Some (zeros 64))
      | inl (Qj, ill) =>
        if gej_is_infinity Qj then mkres 0 ill (Some (zeros 64))
        else mkres 1 ill (Some (pubkey_save (ge_set_gej Qj)))
      end
    end
  end.

(** src/secp256k1.c:783-795 secp256k1_tagged_sha256. *)
Definition api_tagged_sha256 (hash32 tag msg : option (list Z)) : res (option (list Z)) :=
  match hash32, tag, msg with
  | Some _, Some t, Some m => mkres 1 0 (Some (sha256_finalize (sha256_write (sha256_initialize_tagged t) m)))
  | _, _, _ => arg_fail hash32
  end.
