(** Model of src/modules/recovery/main_impl.h in the 32-bit build (10x26 field elements, 8x32 scalars):
    the definitions of RecoveryModel.v on the 32-bit field and scalars.  The conventions are those of
    that file, which also has the definitions that do not depend on the width. *)
Require Import ZArith List Bool.
From Verif Require Import Word Word32 Spec FieldModel ScalarModel Field32Model Scalar32Model HashModel GenTable GroupModel EcmultModel GenModel EcdsaModel ApiModel ExtrakeysModel SchnorrModel RecoveryModel W32_Base W32_Group W32_Ecmult W32_Gen W32_Ecdsa W32_Api W32_Extrakeys W32_Schnorr.
Import ListNotations.
Local Open Scope Z_scope.
Local Open Scope c_scope.

(** src/modules/recovery/main_impl.h:12-25 secp256k1_ecdsa_recoverable_signature_load. *)
Definition recoverable_signature_load_w32 (sig : list Z) : sc8 * sc8 * Z :=
  (sc_of_bytes_w32 (firstn 32 sig), sc_of_bytes_w32 (firstn 32 (skipn 32 sig)), nth 64 sig 0).
(** src/modules/recovery/main_impl.h:27-36 secp256k1_ecdsa_recoverable_signature_save. *)
Definition recoverable_signature_save_w32 (r s : sc8) (recid : Z) : list Z := sc_bytes_w32 r ++ sc_bytes_w32 s ++ [w8 recid].
(** src/modules/recovery/main_impl.h:38-58 secp256k1_ecdsa_recoverable_signature_parse_compact. *)
Definition recoverable_signature_parse_compact_w32 (sig input64 : option (list Z)) (recid : Z) : res (option (list Z)) :=
  match sig, input64 with
  | Some _, Some inp =>
    if negb ((recid >=? 0) && (recid <=? 3)) then arg_fail sig else
    let (r, overflow) := s8_set_b32 (firstn 32 inp) in
    let ret := negb overflow in
    let (s, overflow) := s8_set_b32 (firstn 32 (skipn 32 inp)) in
    let ret := ret && negb overflow in
    if ret then mkres 1 0 (Some (recoverable_signature_save_w32 r s recid)) else mkres 0 0 (Some (zeros 65))
  | _, _ => arg_fail sig
  end.
(** src/modules/recovery/main_impl.h:60-72 secp256k1_ecdsa_recoverable_signature_serialize_compact. *)
Definition recoverable_signature_serialize_compact_w32 (output64 : option (list Z)) (recid : option Z) (sig : option (list Z))
  : res (option (list Z) * option Z) :=
  match output64, sig, recid with
  | Some _, Some sg, Some _ =>
    let '(r, s, recid) := recoverable_signature_load_w32 sg in
    mkres 1 0 (Some (s8_get_b32 r ++ s8_get_b32 s), Some recid)
  | _, _, _ => arg_fail (output64, recid)
  end.
(** src/modules/recovery/main_impl.h:74-85 secp256k1_ecdsa_recoverable_signature_convert. *)
Definition recoverable_signature_convert_w32 (sig sigin : option (list Z)) : res (option (list Z)) :=
  match sig, sigin with
  | Some _, Some sg => let '(r, s, _) := recoverable_signature_load_w32 sg in mkres 1 0 (Some (signature_save_w32 r s))
  | _, _ => arg_fail sig
  end.
(** src/modules/recovery/main_impl.h:87-121 secp256k1_ecdsa_sig_recover; [None] is return
    value 0. *)
Definition ecdsa_sig_recover_w32 (sigr sigs message : sc8) (recid : Z) : option ge_w32 :=
  if s8_is_zero sigr || s8_is_zero sigs then None
  else
    let brx := s8_get_b32 sigr in
    let fx := snd (f26_set_b32_limit brx) in
    let fx' :=
      if negb (Z.land recid 2 =? 0) then
        if f26_cmp_var fx const_p_minus_order_w32 >=? 0 then None else Some (f26_add fx const_order_as_fe_w32)
      else Some fx in
    match fx' with
    | None => None
    | Some fx =>
      let (ok, x) := ge_set_xo_var_w32 fx (negb (Z.land recid 1 =? 0)) in
      if ok then
        let xj := gej_set_ge_w32 x in
        let rn := s8_inverse_var_w32 sigr in
        let u1 := s8_mul rn message in
        let u1 := s8_negate u1 in
        let u2 := s8_mul rn sigs in
        let qj := ecmult_w32 xj u2 (Some u1) in
        let pubkey := ge_set_gej_var_w32 qj in
        if gej_is_infinity_w32 qj then None else Some pubkey
      else None
    end.
(** src/modules/recovery/main_impl.h:123-135 secp256k1_ecdsa_sign_recoverable. *)
Definition ecdsa_sign_recoverable_w32 (fuel : nat) (ctx : context_w32) (signature msghash32 seckey : option (list Z))
    (noncefp : option nonce_function) (noncedata : option (list Z)) : option (res (option (list Z))) :=
  if negb (g_built_w32 (c_gen_w32 ctx)) then Some (arg_fail signature) else
  match msghash32, signature, seckey with
  | Some msg, Some _, Some key =>
    match ecdsa_sign_inner_w32 fuel (c_gen_w32 ctx) msg key noncefp noncedata with
    | None => None
    | Some (ret, r, s, recid) => Some (mkres (b2z ret) 0 (Some (recoverable_signature_save_w32 r s recid)))
    end
  | _, _, _ => Some (arg_fail signature)
  end.
(** src/modules/recovery/main_impl.h:137-157 secp256k1_ecdsa_recover. *)
Definition ecdsa_recover_w32 (pubkey signature msghash32 : option (list Z)) : res (option (list Z)) :=
  match msghash32, signature, pubkey with
  | Some msg, Some sg, Some _ =>
    let '(r, s, recid) := recoverable_signature_load_w32 sg in
    let m := fst (s8_set_b32 msg) in
    match ecdsa_sig_recover_w32 r s m recid with
    | Some q => mkres 1 0 (Some (pubkey_save_w32 q))
    | None => mkres 0 0 (Some (zeros 64))
    end
  | _, _, _ => arg_fail pubkey
  end.
