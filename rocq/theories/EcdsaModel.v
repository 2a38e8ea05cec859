(** Model of src/ecdsa_impl.h, src/eckey_impl.h and the helpers of src/util.h they
    use.  A C pointer into a byte buffer is the buffer (a list of bytes) and an
    index; every read or write of a caller-supplied variable-length buffer goes
    through a bounds check whose failure is the outcome [Ub] (undefined behaviour). *)
Require Import ZArith List Bool.
From Verif Require Import Word Spec FieldModel ScalarModel GroupModel HashModel GenModel EcmultModel.
Import ListNotations.
Local Open Scope Z_scope.
Local Open Scope c_scope.

(** Outcome of a function that returns 0 or 1: undefined behaviour (an access outside
    a buffer), return value 0, or return value 1 with the outputs. *)
Inductive outcome (A : Type) : Type := Ub | Ret0 | Ret1 (a : A).
Arguments Ub {A}. Arguments Ret0 {A}. Arguments Ret1 {A} a.

(** Reading the byte at index [i], or [k] bytes from index [i]; [None] if outside. *)
Definition rd (buf : list Z) (i : Z) : option Z :=
  if (0 <=? i) && (i <? Z.of_nat (length buf)) then Some (nth (Z.to_nat i) buf 0) else None.
Definition rd_n (buf : list Z) (i k : Z) : option (list Z) :=
  if (0 <=? i) && (0 <=? k) && (i + k <=? Z.of_nat (length buf)) then Some (firstn (Z.to_nat k) (skipn (Z.to_nat i) buf)) else None.
(** Writing [data] at index [i]; [None] if outside. *)
Definition wr_n (buf : list Z) (i : Z) (data : list Z) : option (list Z) :=
  if (0 <=? i) && (i + Z.of_nat (length data) <=? Z.of_nat (length buf)) then Some (copy_at (Z.to_nat i) data buf) else None.

(** src/util.h:208-220 secp256k1_memczero. *)
Definition memczero (s : list Z) (flag : Z) : list Z :=
  let mask := w8 (- w8 flag) in map (fun b => w8 (Z.land b (255 - mask))) s.
(** src/util.h:285-301 secp256k1_int_cmov (non-negative ints). *)
Definition int_cmov (r a flag : Z) : Z :=
  let mask0 := w32 (flag + (2 ^ 32 - 1)) in
  let mask1 := 2 ^ 32 - 1 - mask0 in
  Z.lor (Z.land r mask0) (Z.land a mask1).
(** src/util.h:255-266 secp256k1_memcmp_var on two arrays of the same length. *)
Fixpoint memcmp_var (s1 s2 : list Z) : Z :=
  match s1, s2 with
  | a :: s1', b :: s2' => let diff := a - b in if diff =? 0 then memcmp_var s1' s2' else diff
  | _, _ => 0
  end.

(** ** src/ecdsa_impl.h *)

(** src/ecdsa_impl.h:23-26 (secp256k1_ecdsa_const_order_as_fe). *)
Definition const_order_as_fe : fe := fe_of_Z 0xFFFFFFFFFFFFFFFFFFFFFFFFFFFFFFFEBAAEDCE6AF48A03BBFD25E8CD0364141.
(** src/ecdsa_impl.h:33-35 (secp256k1_ecdsa_const_p_minus_order). *)
Definition const_p_minus_order : fe := fe_of_Z 0x14551231950B75FC4402DA1722FC9BAEE.

(** src/ecdsa_impl.h:36-88 secp256k1_der_read_len: the length and the index after it.
    [der_len_loop] is the while loop over the long form octets. *)
Fixpoint der_len_loop (lenleft : nat) (buf : list Z) (len pos : Z) : option (Z * Z) :=
  match lenleft with
  | O => Some (len, pos)
  | S k => match rd buf pos with None => None | Some b => der_len_loop k buf ((len <<! 8) |! b) (pos + 1) end
  end.
Definition der_read_len (buf : list Z) (pos : Z) : outcome (Z * Z) :=
  let sigend := Z.of_nat (length buf) in
  if pos >=? sigend then Ret0 else
  match rd buf pos with
  | None => Ub
  | Some b1 =>
    let pos := pos + 1 in
    if b1 =? 0xFF then Ret0
    else if (b1 &! 0x80) =? 0 then Ret1 (b1, pos)
    else if b1 =? 0x80 then Ret0
    else
      let lenleft := b1 &! 0x7F in
      if lenleft >? sigend - pos then Ret0
      else match rd buf pos with
      | None => Ub
      | Some b =>
        if b =? 0 then Ret0
        else if lenleft >? 8 then Ret0
        else match der_len_loop (Z.to_nat lenleft) buf 0 pos with
        | None => Ub
        | Some (len, pos) =>
          if len >? sigend - pos then Ret0
          else if len <? 128 then Ret0
          else Ret1 (len, pos)
        end
      end
  end.

(** src/ecdsa_impl.h:90-139 secp256k1_der_parse_integer: the scalar and the index after it. *)
Definition der_parse_integer (buf : list Z) (pos : Z) : outcome (sc * Z) :=
  let sigend := Z.of_nat (length buf) in
  if pos =? sigend then Ret0 else
  match rd buf pos with
  | None => Ub
  | Some tag =>
    if negb (tag =? 0x02) then Ret0 else
    match der_read_len buf (pos + 1) with
    | Ub => Ub
    | Ret0 => Ret0
    | Ret1 (rlen, pos) =>
      if (rlen =? 0) || (rlen >? sigend - pos) then Ret0 else
      match rd buf pos, (if rlen >? 1 then rd buf (pos + 1) else Some 0) with
      | None, _ | _, None => Ub
      | Some b0, Some b1 =>
        if (b0 =? 0x00) && (rlen >? 1) && ((b1 &! 0x80) =? 0x00) then Ret0
        else if (b0 =? 0xFF) && (rlen >? 1) && ((b1 &! 0x80) =? 0x80) then Ret0
        else
          let overflow := (b0 &! 0x80) =? 0x80 in
          let (rlen, pos) := if b0 =? 0 then (rlen - 1, pos + 1) else (rlen, pos) in
          let overflow := overflow || (rlen >? 32) in
          match (if overflow then Some (mksc 0 0 0 0, true)
                 else match rd_n buf pos rlen with
                      | None => None
                      | Some data => Some (sc_set_b32 (repeat 0 (32 - Z.to_nat rlen) ++ data))
                      end) with
          | None => Ub
          | Some (r, overflow) => Ret1 (if overflow then sc_set_int 0 else r, pos + rlen)
          end
      end
    end
  end.

(** src/ecdsa_impl.h:141-169 secp256k1_ecdsa_sig_parse. *)
Definition ecdsa_sig_parse (buf : list Z) : outcome (sc * sc) :=
  let sigend := Z.of_nat (length buf) in
  if 0 =? sigend then Ret0 else
  match rd buf 0 with
  | None => Ub
  | Some tag =>
    if negb (tag =? 0x30) then Ret0 else
    match der_read_len buf 1 with
    | Ub => Ub
    | Ret0 => Ret0
    | Ret1 (rlen, pos) =>
      if negb (rlen =? sigend - pos) then Ret0 else
      match der_parse_integer buf pos with
      | Ub => Ub
      | Ret0 => Ret0
      | Ret1 (rr, pos) =>
        match der_parse_integer buf pos with
        | Ub => Ub
        | Ret0 => Ret0
        | Ret1 (rs, pos) => if negb (pos =? sigend) then Ret0 else Ret1 (rr, rs)
        end
      end
    end
  end.

(** src/ecdsa_impl.h:171-193 secp256k1_ecdsa_sig_serialize.  [der_trim] is the while loop
    that drops leading zero bytes (the list is what rp points at, its length lenR).
    Result: the return value, the new *size and the new contents of the buffer;
    [None] if a write falls outside the buffer. *)
Fixpoint der_trim (l : list Z) : list Z :=
  match l with
  | a :: l' =>
    match l' with
    | b :: _ => if (a =? 0) && (b <? 0x80) then der_trim l' else l
    | [] => l
    end
  | [] => l
  end.
Definition ecdsa_sig_serialize (sig : list Z) (size : Z) (ar as_ : sc) : option (bool * Z * list Z) :=
  let rp := der_trim (0 :: sc_get_b32 ar) in
  let sp := der_trim (0 :: sc_get_b32 as_) in
  let lenR := Z.of_nat (length rp) in
  let lenS := Z.of_nat (length sp) in
  if size <? 6 + lenS + lenR then Some (false, 6 + lenS + lenR, sig)
  else
    match wr_n sig 0 [0x30; w8 (4 + lenS + lenR); 0x02; w8 lenR] with
    | None => None
    | Some sig =>
    match wr_n sig 4 rp with
    | None => None
    | Some sig =>
    match wr_n sig (4 + lenR) [0x02; w8 lenS] with
    | None => None
    | Some sig =>
    match wr_n sig (lenR + 6) sp with
    | None => None
    | Some sig => Some (true, 6 + lenS + lenR, sig)
    end end end end.

(** src/ecdsa_impl.h:195-227 secp256k1_ecdsa_sig_verify. *)
Definition ecdsa_sig_verify (sigr sigs : sc) (pubkey : ge) (message : sc) : bool :=
  if sc_is_zero sigr || sc_is_zero sigs then false
  else
    let sn := sc_inverse_var sigs in
    let u1 := sc_mul sn message in
    let u2 := sc_mul sn sigr in
    let pubkeyj := gej_set_ge pubkey in
    let pr := ecmult pubkeyj u2 (Some u1) in
    if gej_is_infinity pr then false
    else
      let c := sc_get_b32 sigr in
      let xr := snd (fe_set_b32_limit c) in
      if gej_eq_x_var xr pr then true
      else if fe_cmp_var xr const_p_minus_order >=? 0 then false
      else
        let xr := fe_add xr const_order_as_fe in
        gej_eq_x_var xr pr.

(** src/ecdsa_impl.h:266-302 secp256k1_ecdsa_sig_sign: return value, r, s and recid (the
    model always computes recid; the caller drops it when the pointer is NULL). *)
Definition ecdsa_sig_sign (ctx : gen_ctx) (seckey message nonce : sc) : bool * sc * sc * Z :=
  let rp := ecmult_gen ctx nonce in
  let r := ge_set_gej rp in
  let rx := fe_normalize (gx r) in
  let ry := fe_normalize (gy r) in
  let b := fe_get_b32 rx in
  let (sigr, overflow) := sc_set_b32 b in
  let recid := Z.lor (Z.shiftl (b2z overflow) 1) (b2z (fe_is_odd ry)) in
  let nn := sc_mul sigr seckey in
  let nn := sc_add nn message in
  let sigs := sc_inverse nonce in
  let sigs := sc_mul sigs nn in
  let high := b2z (sc_is_high sigs) in
  let sigs := fst (sc_cond_negate sigs high) in
  let recid := Z.lxor recid high in
  (negb (sc_is_zero sigr) && negb (sc_is_zero sigs), sigr, sigs, recid).

(** ** src/eckey_impl.h *)

(** src/eckey_impl.h:18-36 secp256k1_eckey_pubkey_parse.  [None] is return value 0. *)
Definition eckey_pubkey_parse (pub : list Z) : option ge :=
  let size := length pub in
  let tag := nth 0 pub 0 in
  if Nat.eqb size 33 && ((tag =? 0x02) || (tag =? 0x03)) then
    let (ok, x) := fe_set_b32_limit (firstn 32 (skipn 1 pub)) in
    if ok then
      let (ok, elem) := ge_set_xo_var x (tag =? 0x03) in
      if ok then Some elem else None
    else None
  else if Nat.eqb size 65 && ((tag =? 0x04) || (tag =? 0x06) || (tag =? 0x07)) then
    let (okx, x) := fe_set_b32_limit (firstn 32 (skipn 1 pub)) in
    let (oky, y) := fe_set_b32_limit (firstn 32 (skipn 33 pub)) in
    if negb okx || negb oky then None
    else
      let elem := ge_set_xy x y in
      if ((tag =? 0x06) || (tag =? 0x07)) && negb (Bool.eqb (fe_is_odd y) (tag =? 0x07)) then None
      else if ge_is_valid_var elem then Some elem else None
  else None.

(** src/eckey_impl.h:38-56 secp256k1_eckey_pubkey_serialize: the bytes written from
    pub[0]; [None] is return value 0. *)
Definition eckey_pubkey_serialize (elem : ge) (compressed : bool) : option (list Z) :=
  if ge_is_infinity elem then None
  else
    let x := fe_normalize_var (gx elem) in
    let y := fe_normalize_var (gy elem) in
    if compressed then Some ((if fe_is_odd y then 0x03 else 0x02) :: fe_get_b32 x)
    else Some (0x04 :: fe_get_b32 x ++ fe_get_b32 y).

(** src/eckey_impl.h:58-61 secp256k1_eckey_privkey_tweak_add. *)
Definition eckey_privkey_tweak_add (key tweak : sc) : bool * sc :=
  let key := sc_add key tweak in (negb (sc_is_zero key), key).
(** src/eckey_impl.h:63-73 secp256k1_eckey_pubkey_tweak_add. *)
Definition eckey_pubkey_tweak_add (key : ge) (tweak : sc) : option ge :=
  let pt := gej_set_ge key in
  let pt := ecmult pt sc_one (Some tweak) in
  if gej_is_infinity pt then None else Some (ge_set_gej pt).
(** src/eckey_impl.h:75-81 secp256k1_eckey_privkey_tweak_mul. *)
Definition eckey_privkey_tweak_mul (key tweak : sc) : bool * sc :=
  let ret := negb (sc_is_zero tweak) in (ret, sc_mul key tweak).
(** src/eckey_impl.h:83-93 secp256k1_eckey_pubkey_tweak_mul. *)
Definition eckey_pubkey_tweak_mul (key : ge) (tweak : sc) : option ge :=
  if sc_is_zero tweak then None
  else
    let pt := gej_set_ge key in
    let pt := ecmult pt tweak (Some sc_zero) in
    Some (ge_set_gej pt).
