(** Model of src/modules/extrakeys/main_impl.h in the 32-bit build (10x26 field elements, 8x32 scalars):
    the definitions of ExtrakeysModel.v on the 32-bit field and scalars.  The conventions are those of
    that file, which also has the definitions that do not depend on the width. *)
Require Import ZArith List Bool.
From Verif Require Import Word Word32 Spec FieldModel ScalarModel Field32Model Scalar32Model HashModel GenTable GroupModel EcmultModel GenModel EcdsaModel ApiModel ExtrakeysModel W32_Base W32_Group W32_Ecmult W32_Gen W32_Ecdsa W32_Api.
Import ListNotations.
Local Open Scope Z_scope.
Local Open Scope c_scope.

(** src/modules/extrakeys/main_impl.h:14-16 secp256k1_xonly_pubkey_load. *)
Definition xonly_pubkey_load_w32 (pubkey : list Z) : bool * ge_w32 := pubkey_load_w32 pubkey.
(** src/modules/extrakeys/main_impl.h:18-20 secp256k1_xonly_pubkey_save. *)
Definition xonly_pubkey_save_w32 (g : ge_w32) : list Z := pubkey_save_w32 g.
(** src/modules/extrakeys/main_impl.h:22-42 secp256k1_xonly_pubkey_parse.
    secp256k1_ge_is_in_correct_subgroup returns 1 outside exhaustive tests. *)
Definition xonly_pubkey_parse_w32 (pubkey input32 : option (list Z)) : res (option (list Z)) :=
  match pubkey with
  | None => arg_fail None
  | Some _ =>
    match input32 with
    | None => arg_fail (Some (zeros 64))
    | Some inp =>
      let (ok, x) := f26_set_b32_limit inp in
      if negb ok then mkres 0 0 (Some (zeros 64)) else
      let (ok, pk) := ge_set_xo_var_w32 x false in
      if negb ok then mkres 0 0 (Some (zeros 64)) else
      mkres 1 0 (Some (xonly_pubkey_save_w32 pk))
    end
  end.
(** src/modules/extrakeys/main_impl.h:44-57 secp256k1_xonly_pubkey_serialize. *)
Definition xonly_pubkey_serialize_w32 (output32 pubkey : option (list Z)) : res (option (list Z)) :=
  match output32 with
  | None => arg_fail None
  | Some _ =>
    match pubkey with
    | None => arg_fail (Some (zeros 32))
    | Some pubkey =>
      let (ok, pk) := xonly_pubkey_load_w32 pubkey in
      if negb ok then mkres 0 1 (Some (zeros 32)) else mkres 1 0 (Some (f26_get_b32 (gx_w32 pk)))
    end
  end.
(** src/modules/extrakeys/main_impl.h:59-83 secp256k1_xonly_pubkey_cmp.  [xcmp_key] is one
    iteration of the loop: the 32 bytes compared and the callback calls. *)
Definition xcmp_key_w32 (pk : option (list Z)) : list Z * Z :=
  let r := xonly_pubkey_serialize_w32 (Some (zeros 32)) pk in
  (match r_out r with Some out => if r_ret r =? 0 then zeros 32 else out | None => zeros 32 end, r_ill r).
Definition xonly_pubkey_cmp_w32 (pk0 pk1 : option (list Z)) : res unit :=
  let (o0, i0) := xcmp_key_w32 pk0 in let (o1, i1) := xcmp_key_w32 pk1 in
  mkres (memcmp_var o0 o1) (i0 + i1) tt.
(** src/modules/extrakeys/main_impl.h:88-97 secp256k1_extrakeys_ge_even_y: the new group
    element and y_parity. *)
Definition extrakeys_ge_even_y_w32 (r : ge_w32) : ge_w32 * Z :=
  if f26_is_odd (gy_w32 r) then (mkge_w32 (gx_w32 r) (f26_negate (gy_w32 r) 1) (ginf_w32 r), 1) else (r, 0).
(** src/modules/extrakeys/main_impl.h:99-116 secp256k1_xonly_pubkey_from_pubkey: outputs are
    *xonly_pubkey and *pk_parity (which may be NULL). *)
Definition xonly_pubkey_from_pubkey_w32 (xonly_pubkey : option (list Z)) (pk_parity : option Z) (pubkey : option (list Z))
  : res (option (list Z) * option Z) :=
  match xonly_pubkey, pubkey with
  | Some _, Some pubkey' =>
    let (ok, pk) := pubkey_load_w32 pubkey' in
    if negb ok then mkres 0 1 (xonly_pubkey, pk_parity) else
    let (pk, tmp) := extrakeys_ge_even_y_w32 pk in
    mkres 1 0 (Some (xonly_pubkey_save_w32 pk), match pk_parity with Some _ => Some tmp | None => None end)
  | _, _ => arg_fail (xonly_pubkey, pk_parity)
  end.
(** src/modules/extrakeys/main_impl.h:118-133 secp256k1_xonly_pubkey_tweak_add. *)
Definition xonly_pubkey_tweak_add_w32 (output_pubkey internal_pubkey tweak32 : option (list Z)) : res (option (list Z)) :=
  match output_pubkey with
  | None => arg_fail None
  | Some _ =>
    match internal_pubkey, tweak32 with
    | Some ipk, Some tw =>
      let (ok, pk) := xonly_pubkey_load_w32 ipk in
      if negb ok then mkres 0 1 (Some (zeros 64)) else
      match ec_pubkey_tweak_add_helper_w32 pk tw with
      | None => mkres 0 0 (Some (zeros 64))
      | Some pk => mkres 1 0 (Some (pubkey_save_w32 pk))
      end
    | _, _ => arg_fail (Some (zeros 64))
    end
  end.
(** src/modules/extrakeys/main_impl.h:135-154 secp256k1_xonly_pubkey_tweak_add_check. *)
Definition xonly_pubkey_tweak_add_check_w32 (tweaked_pubkey32 : option (list Z)) (tweaked_pk_parity : Z)
    (internal_pubkey tweak32 : option (list Z)) : res unit :=
  match internal_pubkey, tweaked_pubkey32, tweak32 with
  | Some ipk, Some tpk, Some tw =>
    let (ok, pk) := xonly_pubkey_load_w32 ipk in
    if negb ok then mkres 0 1 tt else
    match ec_pubkey_tweak_add_helper_w32 pk tw with
    | None => mkres 0 0 tt
    | Some pk =>
      let x := f26_normalize_var (gx_w32 pk) in
      let y := f26_normalize_var (gy_w32 pk) in
      let pk_expected32 := f26_get_b32 x in
      mkres (b2z ((memcmp_var pk_expected32 tpk =? 0) && (b2z (f26_is_odd y) =? tweaked_pk_parity))) 0 tt
    end
  | _, _, _ => arg_fail tt
  end.
(** src/modules/extrakeys/main_impl.h:156-159 secp256k1_keypair_save. *)
Definition keypair_save_w32 (sk : sc8) (pk : ge_w32) : list Z := s8_get_b32 sk ++ pubkey_save_w32 pk.
(** src/modules/extrakeys/main_impl.h:162-171 secp256k1_keypair_seckey_load: on failure the
    callback is called once and 0 is returned; sk is written in any case. *)
Definition keypair_seckey_load_w32 (keypair : list Z) : bool * sc8 :=
  let (sk, ret) := s8_set_b32_seckey (firstn 32 keypair) in (ret, sk).
(** src/modules/extrakeys/main_impl.h:176-194 secp256k1_keypair_load, with sk not NULL: return
    value, sk, pk; the callback is called (once) exactly when 0 is returned. *)
Definition keypair_load_w32 (keypair : list Z) : bool * sc8 * ge_w32 :=
  let (ret, pk) := pubkey_load_w32 (skipn 32 keypair) in
  if ret then
    let (ret, sk) := keypair_seckey_load_w32 keypair in
    if ret then (true, sk, pk) else (false, s8_one, ge_const_g_w32)
  else (false, s8_one, ge_const_g_w32).
(** src/modules/extrakeys/main_impl.h:176-194 secp256k1_keypair_load, with sk = NULL. *)
Definition keypair_load_pk_w32 (keypair : list Z) : bool * ge_w32 :=
  let (ret, pk) := pubkey_load_w32 (skipn 32 keypair) in
  if ret then (true, pk) else (false, ge_const_g_w32).
(** src/modules/extrakeys/main_impl.h:196-212 secp256k1_keypair_create. *)
Definition keypair_create_w32 (ctx : context_w32) (keypair seckey32 : option (list Z)) : res (option (list Z)) :=
  match keypair with
  | None => arg_fail None
  | Some _ =>
    if negb (g_built_w32 (c_gen_w32 ctx)) then arg_fail (Some (zeros 96)) else
    match seckey32 with
    | None => arg_fail (Some (zeros 96))
    | Some key =>
      let '(ret, sk, pk) := ec_pubkey_create_helper_w32 (c_gen_w32 ctx) key in
      mkres (b2z ret) 0 (Some (memczero (keypair_save_w32 sk pk) (b2z (negb ret))))
    end
  end.
(** src/modules/extrakeys/main_impl.h:234-253 secp256k1_keypair_xonly_pub. *)
Definition keypair_xonly_pub_w32 (pubkey : option (list Z)) (pk_parity : option Z) (keypair : option (list Z))
  : res (option (list Z) * option Z) :=
  match pubkey with
  | None => arg_fail (None, pk_parity)
  | Some _ =>
    match keypair with
    | None => arg_fail (Some (zeros 64), pk_parity)
    | Some kp =>
      let (ok, pk) := keypair_load_pk_w32 kp in
      if negb ok then mkres 0 1 (Some (zeros 64), pk_parity) else
      let (pk, tmp) := extrakeys_ge_even_y_w32 pk in
      mkres 1 0 (Some (xonly_pubkey_save_w32 pk), match pk_parity with Some _ => Some tmp | None => None end)
    end
  end.
(** src/modules/extrakeys/main_impl.h:255-283 secp256k1_keypair_xonly_tweak_add. *)
Definition keypair_xonly_tweak_add_w32 (keypair tweak32 : option (list Z)) : res (option (list Z)) :=
  match keypair, tweak32 with
  | Some kp, Some tw =>
    let '(ret0, sk, pk) := keypair_load_w32 kp in
    let ill := if ret0 then 0 else 1 in
    let (pk, y_parity) := extrakeys_ge_even_y_w32 pk in
    let sk := if y_parity =? 1 then s8_negate sk else sk in
    let (ret1, sk) := ec_seckey_tweak_add_helper_w32 sk tw in
    match ec_pubkey_tweak_add_helper_w32 pk tw with
    | Some pk =>
      if ret0 && ret1 then mkres 1 ill (Some (keypair_save_w32 sk pk)) else mkres 0 ill (Some (zeros 96))
    | None => mkres 0 ill (Some (zeros 96))
    end
  | _, _ => arg_fail keypair
  end.
