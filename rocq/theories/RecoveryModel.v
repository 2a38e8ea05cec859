(** Model of src/modules/recovery/main_impl.h.  Conventions as in ApiModel; a
    secp256k1_ecdsa_recoverable_signature is its 65 bytes. *)
Require Import ZArith List Bool.
From Verif Require Import Word Spec FieldModel ScalarModel GroupModel HashModel GenModel EcmultModel EcdsaModel ApiModel.
Import ListNotations.
Local Open Scope Z_scope.
Local Open Scope c_scope.

(** src/modules/recovery/main_impl.h:12-25 secp256k1_ecdsa_recoverable_signature_load. *)
Definition recoverable_signature_load (sig : list Z) : sc * sc * Z :=
  (sc_of_bytes (firstn 32 sig), sc_of_bytes (firstn 32 (skipn 32 sig)), nth 64 sig 0).
(** src/modules/recovery/main_impl.h:27-36 secp256k1_ecdsa_recoverable_signature_save. *)
Definition recoverable_signature_save (r s : sc) (recid : Z) : list Z := sc_bytes r ++ sc_bytes s ++ [w8 recid].

(** src/modules/recovery/main_impl.h:38-58 secp256k1_ecdsa_recoverable_signature_parse_compact. *)
Definition recoverable_signature_parse_compact (sig input64 : option (list Z)) (recid : Z) : res (option (list Z)) :=
  match sig, input64 with
  | Some _, Some inp =>
    if negb ((recid >=? 0) && (recid <=? 3)) then arg_fail sig else
    let (r, overflow) := sc_set_b32 (firstn 32 inp) in
    let ret := negb overflow in
    let (s, overflow) := sc_set_b32 (firstn 32 (skipn 32 inp)) in
    let ret := ret && negb overflow in
    if ret then mkres 1 0 (Some (recoverable_signature_save r s recid)) else mkres 0 0 (Some (zeros 65))
  | _, _ => arg_fail sig
  end.
(** src/modules/recovery/main_impl.h:60-72 secp256k1_ecdsa_recoverable_signature_serialize_compact. *)
Definition recoverable_signature_serialize_compact (output64 : option (list Z)) (recid : option Z) (sig : option (list Z))
  : res (option (list Z) * option Z) :=
  match output64, sig, recid with
  | Some _, Some sg, Some _ =>
    let '(r, s, recid) := recoverable_signature_load sg in
    mkres 1 0 (Some (sc_get_b32 r ++ sc_get_b32 s), Some recid)
  | _, _, _ => arg_fail (output64, recid)
  end.
(** src/modules/recovery/main_impl.h:74-85 secp256k1_ecdsa_recoverable_signature_convert. *)
Definition recoverable_signature_convert (sig sigin : option (list Z)) : res (option (list Z)) :=
  match sig, sigin with
  | Some _, Some sg => let '(r, s, _) := recoverable_signature_load sg in mkres 1 0 (Some (signature_save r s))
  | _, _ => arg_fail sig
  end.

(** src/modules/recovery/main_impl.h:87-121 secp256k1_ecdsa_sig_recover; [None] is return
    value 0. *)
Definition ecdsa_sig_recover (sigr sigs message : sc) (recid : Z) : option ge :=
  if sc_is_zero sigr || sc_is_zero sigs then None
  else
    let brx := sc_get_b32 sigr in
    let fx := snd (fe_set_b32_limit brx) in
    let fx' :=
      if negb (Z.land recid 2 =? 0) then
        if fe_cmp_var fx const_p_minus_order >=? 0 then None else Some (fe_add fx const_order_as_fe)
      else Some fx in
    match fx' with
    | None => None
    | Some fx =>
      let (ok, x) := ge_set_xo_var fx (negb (Z.land recid 1 =? 0)) in
      if ok then
        let xj := gej_set_ge x in
        let rn := sc_inverse_var sigr in
        let u1 := sc_mul rn message in
        let u1 := sc_negate u1 in
        let u2 := sc_mul rn sigs in
        let qj := ecmult xj u2 (Some u1) in
        let pubkey := ge_set_gej_var qj in
        if gej_is_infinity qj then None else Some pubkey
      else None
    end.

(** src/modules/recovery/main_impl.h:123-135 secp256k1_ecdsa_sign_recoverable. *)
Definition ecdsa_sign_recoverable (fuel : nat) (ctx : context) (signature msghash32 seckey : option (list Z))
    (noncefp : option nonce_function) (noncedata : option (list Z)) : option (res (option (list Z))) :=
  if negb (g_built (c_gen ctx)) then Some (arg_fail signature) else
  match msghash32, signature, seckey with
  | Some msg, Some _, Some key =>
    match ecdsa_sign_inner fuel (c_gen ctx) msg key noncefp noncedata with
    | None => None
    | Some (ret, r, s, recid) => Some (mkres (b2z ret) 0 (Some (recoverable_signature_save r s recid)))
    end
  | _, _, _ => Some (arg_fail signature)
  end.

(** src/modules/recovery/main_impl.h:137-157 secp256k1_ecdsa_recover. *)
Definition ecdsa_recover (pubkey signature msghash32 : option (list Z)) : res (option (list Z)) :=
  match msghash32, signature, pubkey with
  | Some msg, Some sg, Some _ =>
    let '(r, s, recid) := recoverable_signature_load sg in
    let m := fst (sc_set_b32 msg) in
    match ecdsa_sig_recover r s m recid with
    | Some q => mkres 1 0 (Some (pubkey_save q))
    | None => mkres 0 0 (Some (zeros 64))
    end
  | _, _, _ => arg_fail pubkey
  end.
