(** Model of src/modules/ecdh/main_impl.h in the 32-bit build (10x26 field elements, 8x32 scalars):
    the definitions of EcdhModel.v on the 32-bit field and scalars.  The conventions are those of
    that file, which also has the definitions that do not depend on the width. *)
Require Import ZArith List Bool.
From Verif Require Import Word Word32 Spec FieldModel ScalarModel Field32Model Scalar32Model HashModel GenTable GroupModel EcmultModel GenModel EcdsaModel ApiModel ExtrakeysModel SchnorrModel RecoveryModel EcdhModel W32_Base W32_Group W32_Ecmult W32_Gen W32_Ecdsa W32_Api W32_Extrakeys W32_Schnorr W32_Recovery.
Import ListNotations.
Local Open Scope Z_scope.
Local Open Scope c_scope.

(** src/modules/ecdh/main_impl.h:30-72 secp256k1_ecdh.  The return value of pubkey_load is
    ignored: after an invalid public key the callback has been called and the function
    goes on with what was loaded. *)
Definition ecdh_w32 (output point scalar : option (list Z)) (hashfp : option ecdh_hash_function) : res (option (list Z)) :=
  match output, point, scalar with
  | Some out, Some pk, Some key =>
    let hashfp := match hashfp with None => ecdh_hash_function_sha256 | Some f => f end in
    let (ok, pt) := pubkey_load_w32 pk in
    let (s, overflow) := s8_set_b32 key in
    let overflow := overflow || s8_is_zero s in
    let s := s8_cmov s s8_one (b2z overflow) in
    let res := ecmult_const_w32 pt s in
    let pt := ge_set_gej_w32 res in
    let x := f26_get_b32 (f26_normalize (gx_w32 pt)) in
    let y := f26_get_b32 (f26_normalize (gy_w32 pt)) in
    let (ret, out) := hashfp x y out in
    mkres (Z.land (b2z (negb (ret =? 0))) (b2z (negb overflow))) (if ok then 0 else 1) (Some out)
  | _, _, _ => arg_fail output
  end.
