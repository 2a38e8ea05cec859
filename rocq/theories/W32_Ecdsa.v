(** Model of src/ecdsa_impl.h and src/eckey_impl.h in the 32-bit build (10x26 field elements, 8x32 scalars):
    the definitions of EcdsaModel.v on the 32-bit field and scalars.  The conventions are those of
    that file, which also has the definitions that do not depend on the width. *)
Require Import ZArith List Bool.
From Verif Require Import Word Word32 Spec FieldModel ScalarModel Field32Model Scalar32Model HashModel GenTable GroupModel EcmultModel GenModel EcdsaModel W32_Base W32_Group W32_Ecmult W32_Gen.
Import ListNotations.
Local Open Scope Z_scope.
Local Open Scope c_scope.

(** src/ecdsa_impl.h:23-26 (secp256k1_ecdsa_const_order_as_fe). *)
Definition const_order_as_fe_w32 : fe26 := f26_of_Z 0xFFFFFFFFFFFFFFFFFFFFFFFFFFFFFFFEBAAEDCE6AF48A03BBFD25E8CD0364141.
(** src/ecdsa_impl.h:33-35 (secp256k1_ecdsa_const_p_minus_order). *)
Definition const_p_minus_order_w32 : fe26 := f26_of_Z 0x14551231950B75FC4402DA1722FC9BAEE.
(** src/ecdsa_impl.h:90-139 secp256k1_der_parse_integer: the scalar and the index after it. *)
Definition der_parse_integer_w32 (buf : list Z) (pos : Z) : outcome (sc8 * Z) :=
  let sigend := Z.of_nat (length buf) in
  if pos =? sigend then Ret0 else
  match rd buf pos with
  | None => Ub
  | Some tag =>
    if negb (tag =? 0x02) then Ret0 else
    match der_read_len buf (pos + 1) with
    | Ub => Ub
    | Ret0 => Ret0
    | Ret1 (rlen, pos) =>
      if (rlen =? 0) || (rlen >? sigend - pos) then Ret0 else
      match rd buf pos, (if rlen >? 1 then rd buf (pos + 1) else Some 0) with
      | None, _ | _, None => Ub
      | Some b0, Some b1 =>
        if (b0 =? 0x00) && (rlen >? 1) && ((b1 &! 0x80) =? 0x00) then Ret0
        else if (b0 =? 0xFF) && (rlen >? 1) && ((b1 &! 0x80) =? 0x80) then Ret0
        else
          let overflow := (b0 &! 0x80) =? 0x80 in
          let (rlen, pos) := if b0 =? 0 then (rlen - 1, pos + 1) else (rlen, pos) in
          let overflow := overflow || (rlen >? 32) in
          match (if overflow then Some (s8_set_int 0, true)
                 else match rd_n buf pos rlen with
                      | None => None
                      | Some data => Some (s8_set_b32 (repeat 0 (32 - Z.to_nat rlen) ++ data))
                      end) with
          | None => Ub
          | Some (r, overflow) => Ret1 (if overflow then s8_set_int 0 else r, pos + rlen)
          end
      end
    end
  end.
(** src/ecdsa_impl.h:141-169 secp256k1_ecdsa_sig_parse. *)
Definition ecdsa_sig_parse_w32 (buf : list Z) : outcome (sc8 * sc8) :=
  let sigend := Z.of_nat (length buf) in
  if 0 =? sigend then Ret0 else
  match rd buf 0 with
  | None => Ub
  | Some tag =>
    if negb (tag =? 0x30) then Ret0 else
    match der_read_len buf 1 with
    | Ub => Ub
    | Ret0 => Ret0
    | Ret1 (rlen, pos) =>
      if negb (rlen =? sigend - pos) then Ret0 else
      match der_parse_integer_w32 buf pos with
      | Ub => Ub
      | Ret0 => Ret0
      | Ret1 (rr, pos) =>
        match der_parse_integer_w32 buf pos with
        | Ub => Ub
        | Ret0 => Ret0
        | Ret1 (rs, pos) => if negb (pos =? sigend) then Ret0 else Ret1 (rr, rs)
        end
      end
    end
  end.
(** src/ecdsa_impl.h:171-193 secp256k1_ecdsa_sig_serialize.  [der_trim] is the while loop
    that drops leading zero bytes (the list is what rp points at, its length lenR).
    Result: the return value, the new *size and the new contents of the buffer;
    [None] if a write falls outside the buffer. *)
Definition ecdsa_sig_serialize_w32 (sig : list Z) (size : Z) (ar as_ : sc8) : option (bool * Z * list Z) :=
  let rp := der_trim (0 :: s8_get_b32 ar) in
  let sp := der_trim (0 :: s8_get_b32 as_) in
  let lenR := Z.of_nat (length rp) in
  let lenS := Z.of_nat (length sp) in
  if size <? 6 + lenS + lenR then Some (false, 6 + lenS + lenR, sig)
  else
    match wr_n sig 0 [0x30; w8 (4 + lenS + lenR); 0x02; w8 lenR] with
    | None => None
    | Some sig =>
    match wr_n sig 4 rp with
    | None => None
    | Some sig =>
    match wr_n sig (4 + lenR) [0x02; w8 lenS] with
    | None => None
    | Some sig =>
    match wr_n sig (lenR + 6) sp with
    | None => None
    | Some sig => Some (true, 6 + lenS + lenR, sig)
    end end end end.
(** src/ecdsa_impl.h:195-227 secp256k1_ecdsa_sig_verify. *)
Definition ecdsa_sig_verify_w32 (sigr sigs : sc8) (pubkey : ge_w32) (message : sc8) : bool :=
  if s8_is_zero sigr || s8_is_zero sigs then false
  else
    let sn := s8_inverse_var_w32 sigs in
    let u1 := s8_mul sn message in
    let u2 := s8_mul sn sigr in
    let pubkeyj := gej_set_ge_w32 pubkey in
    let pr := ecmult_w32 pubkeyj u2 (Some u1) in
    if gej_is_infinity_w32 pr then false
    else
      let c := s8_get_b32 sigr in
      let xr := snd (f26_set_b32_limit c) in
      if gej_eq_x_var_w32 xr pr then true
      else if f26_cmp_var xr const_p_minus_order_w32 >=? 0 then false
      else
        let xr := f26_add xr const_order_as_fe_w32 in
        gej_eq_x_var_w32 xr pr.
(** src/ecdsa_impl.h:266-302 secp256k1_ecdsa_sig_sign: return value, r, s and recid (the
    model always computes recid; the caller drops it when the pointer is NULL). *)
Definition ecdsa_sig_sign_w32 (ctx : gen_ctx_w32) (seckey message nonce : sc8) : bool * sc8 * sc8 * Z :=
  let rp := ecmult_gen_w32 ctx nonce in
  let r := ge_set_gej_w32 rp in
  let rx := f26_normalize (gx_w32 r) in
  let ry := f26_normalize (gy_w32 r) in
  let b := f26_get_b32 rx in
  let (sigr, overflow) := s8_set_b32 b in
  let recid := Z.lor (Z.shiftl (b2z overflow) 1) (b2z (f26_is_odd ry)) in
  let nn := s8_mul sigr seckey in
  let nn := s8_add nn message in
  let sigs := s8_inverse_w32 nonce in
  let sigs := s8_mul sigs nn in
  let high := b2z (s8_is_high sigs) in
  let sigs := fst (s8_cond_negate sigs high) in
  let recid := Z.lxor recid high in
  (negb (s8_is_zero sigr) && negb (s8_is_zero sigs), sigr, sigs, recid).
(** src/eckey_impl.h:18-36 secp256k1_eckey_pubkey_parse.  [None] is return value 0. *)
Definition eckey_pubkey_parse_w32 (pub : list Z) : option ge_w32 :=
  let size := length pub in
  let tag := nth 0 pub 0 in
  if Nat.eqb size 33 && ((tag =? 0x02) || (tag =? 0x03)) then
    let (ok, x) := f26_set_b32_limit (firstn 32 (skipn 1 pub)) in
    if ok then
      let (ok, elem) := ge_set_xo_var_w32 x (tag =? 0x03) in
      if ok then Some elem else None
    else None
  else if Nat.eqb size 65 && ((tag =? 0x04) || (tag =? 0x06) || (tag =? 0x07)) then
    let (okx, x) := f26_set_b32_limit (firstn 32 (skipn 1 pub)) in
    let (oky, y) := f26_set_b32_limit (firstn 32 (skipn 33 pub)) in
    if negb okx || negb oky then None
    else
      let elem := ge_set_xy_w32 x y in
      if ((tag =? 0x06) || (tag =? 0x07)) && negb (Bool.eqb (f26_is_odd y) (tag =? 0x07)) then None
      else if ge_is_valid_var_w32 elem then Some elem else None
  else None.
(** src/eckey_impl.h:38-56 secp256k1_eckey_pubkey_serialize: the bytes written from
    pub[0]; [None] is return value 0. *)
Definition eckey_pubkey_serialize_w32 (elem : ge_w32) (compressed : bool) : option (list Z) :=
  if ge_is_infinity_w32 elem then None
  else
    let x := f26_normalize_var (gx_w32 elem) in
    let y := f26_normalize_var (gy_w32 elem) in
    if compressed then Some ((if f26_is_odd y then 0x03 else 0x02) :: f26_get_b32 x)
    else Some (0x04 :: f26_get_b32 x ++ f26_get_b32 y).
(** src/eckey_impl.h:58-61 secp256k1_eckey_privkey_tweak_add. *)
Definition eckey_privkey_tweak_add_w32 (key tweak : sc8) : bool * sc8 :=
  let key := s8_add key tweak in (negb (s8_is_zero key), key).
(** src/eckey_impl.h:63-73 secp256k1_eckey_pubkey_tweak_add. *)
Definition eckey_pubkey_tweak_add_w32 (key : ge_w32) (tweak : sc8) : option ge_w32 :=
  let pt := gej_set_ge_w32 key in
  let pt := ecmult_w32 pt s8_one (Some tweak) in
  if gej_is_infinity_w32 pt then None else Some (ge_set_gej_w32 pt).
(** src/eckey_impl.h:75-81 secp256k1_eckey_privkey_tweak_mul. *)
Definition eckey_privkey_tweak_mul_w32 (key tweak : sc8) : bool * sc8 :=
  let ret := negb (s8_is_zero tweak) in (ret, s8_mul key tweak).
(** src/eckey_impl.h:83-93 secp256k1_eckey_pubkey_tweak_mul. *)
Definition eckey_pubkey_tweak_mul_w32 (key : ge_w32) (tweak : sc8) : option ge_w32 :=
  if s8_is_zero tweak then None
  else
    let pt := gej_set_ge_w32 key in
    let pt := ecmult_w32 pt tweak (Some s8_zero) in
    Some (ge_set_gej_w32 pt).
