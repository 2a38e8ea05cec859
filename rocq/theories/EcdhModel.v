(** Model of src/modules/ecdh/main_impl.h.  Conventions as in ApiModel. *)
Require Import ZArith List Bool.
From Verif Require Import Word Spec FieldModel ScalarModel GroupModel HashModel EcmultModel EcdsaModel ApiModel.
Import ListNotations.
Local Open Scope Z_scope.
Local Open Scope c_scope.

(** include/secp256k1_ecdh.h:21-26 (secp256k1_ecdh_hash_function): the arguments x32 and y32
    and the output buffer; the int returned and the new contents of the buffer.  The data
    argument is part of the function. *)
Definition ecdh_hash_function : Type := list Z -> list Z -> list Z -> Z * list Z.

(** src/modules/ecdh/main_impl.h:13-25 ecdh_hash_function_sha256 (the output buffer has at
    least 32 bytes). *)
Definition ecdh_hash_function_sha256 : ecdh_hash_function := fun x32 y32 output =>
  let version := Z.lor (Z.land (nth 31 y32 0) 1) 2 in
  let sha := sha256_initialize in
  let sha := sha256_write sha [version] in
  let sha := sha256_write sha x32 in
  (1, copy_at 0 (sha256_finalize sha) output).

(** src/modules/ecdh/main_impl.h:30-72 secp256k1_ecdh.  The return value of pubkey_load is
    ignored: after an invalid public key the callback has been called and the function
    goes on with what was loaded. *)
Definition ecdh (output point scalar : option (list Z)) (hashfp : option ecdh_hash_function) : res (option (list Z)) :=
  match output, point, scalar with
  | Some out, Some pk, Some key =>
    let hashfp := match hashfp with None => ecdh_hash_function_sha256 | Some f => f end in
    let (ok, pt) := pubkey_load pk in
    let (s, overflow) := sc_set_b32 key in
    let overflow := overflow || sc_is_zero s in
    let s := sc_cmov s sc_one (b2z overflow) in
    let res := ecmult_const pt s in
    let pt := ge_set_gej res in
    let x := fe_get_b32 (fe_normalize (gx pt)) in
    let y := fe_get_b32 (fe_normalize (gy pt)) in
    let (ret, out) := hashfp x y out in
    mkres (Z.land (b2z (negb (ret =? 0))) (b2z (negb overflow))) (if ok then 0 else 1) (Some out)
  | _, _, _ => arg_fail output
  end.
