(** Model of src/hsort_impl.h and secp256k1_ec_pubkey_sort in the 32-bit build (10x26 field elements, 8x32 scalars):
    the definitions of HsortModel.v on the 32-bit field and scalars.  The conventions are those of
    that file, which also has the definitions that do not depend on the width. *)
Require Import ZArith List Bool.
From Verif Require Import Word Word32 Spec FieldModel ScalarModel Field32Model Scalar32Model HashModel GenTable GroupModel EcmultModel GenModel EcdsaModel ApiModel ExtrakeysModel SchnorrModel RecoveryModel EcdhModel EllswiftModel HsortModel W32_Base W32_Group W32_Ecmult W32_Gen W32_Ecdsa W32_Api W32_Extrakeys W32_Schnorr W32_Recovery W32_Ecdh W32_Ellswift.
Import ListNotations.
Local Open Scope Z_scope.
Local Open Scope c_scope.

(** src/secp256k1.c:317-321 secp256k1_ec_pubkey_sort_cmp.  ec_pubkey_cmp never accesses memory
    outside its buffers (proved: C17); the model needs a value for that case. *)
Definition ec_pubkey_sort_cmp_w32 (pk1 pk2 : option (list Z)) : Z * Z :=
  match ec_pubkey_cmp_w32 pk1 pk2 with Some r => (r_ret r, r_ill r) | None => (0, 0) end.
(** src/secp256k1.c:323-343 secp256k1_ec_pubkey_sort: the array of pointers after the call; a
    pointer may be NULL.  [None] if an access falls outside the array. *)
Definition ec_pubkey_sort_w32 (pubkeys : option (list (option (list Z)))) (n_pubkeys : nat) : option (res (option (list (option (list Z))))) :=
  match pubkeys with
  | None => Some (arg_fail None)
  | Some pks =>
    match hsort ec_pubkey_sort_cmp_w32 pks n_pubkeys with
    | None => None
    | Some (pks, ill) => Some (mkres 1 ill (Some pks))
    end
  end.
