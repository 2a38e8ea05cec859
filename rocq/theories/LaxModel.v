(** Model of contrib/lax_der_parsing.c and contrib/lax_der_privatekey_parsing.c.  As in
    [EcdsaModel], a pointer into a buffer is the buffer and an index, every read and
    write is checked against the bounds, and an access outside is [None] (or [Ub]).
    A sum of a pointer and a length that is only compared with the end of the buffer is
    an index too and is not itself checked. *)
Require Import ZArith List Bool.
From Verif Require Import Word EcdsaModel HashModel ApiModel.
Import ListNotations.
Local Open Scope Z_scope.
Local Open Scope c_scope.

(** ** contrib/lax_der_parsing.c *)

(** contrib/lax_der_parsing.c:56-59, 94-97, 116-119, 128-131 (ecdsa_signature_parse_der_lax): the loops
    that skip zero bytes while a length is positive: the new index and length. *)
Fixpoint lax_skip_zeros (left : nat) (input : list Z) (pos : Z) : option (Z * Z) :=
  match left with
  | O => Some (pos, 0)
  | S k =>
    match rd input pos with
    | None => None
    | Some b => if b =? 0 then lax_skip_zeros k input (pos + 1) else Some (pos, Z.of_nat left)
    end
  end.
(** contrib/lax_der_parsing.c:63-68, 101-106 (ecdsa_signature_parse_der_lax): the loops that read a length. *)
Fixpoint lax_len_loop (left : nat) (input : list Z) (len pos : Z) : option (Z * Z) :=
  match left with
  | O => Some (len, pos)
  | S k => match rd input pos with None => None | Some b => lax_len_loop k input ((len <<! 8) +! b) (pos + 1) end
  end.
(** contrib/lax_der_parsing.c:40-76, 78-113 (ecdsa_signature_parse_der_lax): an integer's tag and length;
    the index of its first byte (rpos or spos) and its length (rlen or slen). *)
Definition lax_integer (input : list Z) (pos : Z) : outcome (Z * Z) :=
  let inputlen := Z.of_nat (length input) in
  if pos =? inputlen then Ret0 else
  match rd input pos with
  | None => Ub
  | Some tag =>
    if negb (tag =? 0x02) then Ret0 else
    let pos := pos + 1 in
    if pos =? inputlen then Ret0 else
    match rd input pos with
    | None => Ub
    | Some lenbyte =>
      let pos := pos + 1 in
      match (if negb ((lenbyte &! 0x80) =? 0) then
               let lenbyte := lenbyte - 0x80 in
               if lenbyte >? inputlen - pos then Ret0 else
               match lax_skip_zeros (Z.to_nat lenbyte) input pos with
               | None => Ub
               | Some (pos, lenbyte) =>
                 if lenbyte >=? 8 then Ret0 else
                 match lax_len_loop (Z.to_nat lenbyte) input 0 pos with None => Ub | Some (rlen, pos) => Ret1 (rlen, pos) end
               end
             else Ret1 (lenbyte, pos)) with
      | Ub => Ub
      | Ret0 => Ret0
      | Ret1 (rlen, pos) => if rlen >? inputlen - pos then Ret0 else Ret1 (pos, rlen)
      end
    end
  end.
(** contrib/lax_der_parsing.c:115-125, 127-137 (ecdsa_signature_parse_der_lax): copying an integer to the
    bytes of tmpsig that end at index [at_]; the new tmpsig, and whether it did not fit. *)
Definition lax_copy (input : list Z) (pos len : Z) (tmpsig : list Z) (at_ : Z) : option (list Z * bool) :=
  match lax_skip_zeros (Z.to_nat len) input pos with
  | None => None
  | Some (pos, len) =>
    if len >? 32 then Some (tmpsig, true)
    else if len =? 0 then Some (tmpsig, false)
    else match rd_n input pos len with
         | None => None
         | Some data => match wr_n tmpsig (at_ - len) data with None => None | Some tmpsig => Some (tmpsig, false) end
         end
  end.
(** contrib/lax_der_parsing.c:11-147 ecdsa_signature_parse_der_lax, with a [sig] that is not NULL: the
    return value, calls of the illegal callback and the signature object. *)
Definition ecdsa_signature_parse_der_lax (sig : list Z) (input : list Z) : option (res (option (list Z))) :=
  let inputlen := Z.of_nat (length input) in
  let tmpsig := repeat 0 64 in
  let first := ecdsa_signature_parse_compact (Some sig) (Some tmpsig) in
  let fail := Some (mkres 0 (r_ill first) (r_out first)) in
  if 0 =? inputlen then fail else
  match rd input 0 with
  | None => None
  | Some tag =>
    if negb (tag =? 0x30) then fail
    else if 1 =? inputlen then fail
    else match rd input 1 with
    | None => None
    | Some lenbyte =>
      let long := negb ((lenbyte &! 0x80) =? 0) in
      if long && (lenbyte - 0x80 >? inputlen - 2) then fail else
      let pos := if long then 2 + (lenbyte - 0x80) else 2 in
      match lax_integer input pos with
      | Ub => None
      | Ret0 => fail
      | Ret1 (rpos, rlen) =>
        match lax_integer input (rpos + rlen) with
        | Ub => None
        | Ret0 => fail
        | Ret1 (spos, slen) =>
          match lax_copy input rpos rlen tmpsig 32 with
          | None => None
          | Some (tmpsig, ov1) =>
            match lax_copy input spos slen tmpsig 64 with
            | None => None
            | Some (tmpsig, ov2) =>
              let second := if ov1 || ov2 then mkres 0 0 (r_out first) else ecdsa_signature_parse_compact (r_out first) (Some tmpsig) in
              let overflow := (ov1 || ov2) || (r_ret second =? 0) in
              let third := if overflow then ecdsa_signature_parse_compact (r_out second) (Some (repeat 0 64)) else mkres 0 0 (r_out second) in
              Some (mkres 1 (r_ill first + r_ill second + r_ill third) (r_out third))
            end
          end
        end
      end
    end
  end.

(** ** contrib/lax_der_privatekey_parsing.c *)

(** contrib/lax_der_privatekey_parsing.c:11-53 ec_privkey_import_der: the return value and out32
    (32 bytes, given as zeros after the memset on line 15). *)
Definition ec_privkey_import_der (privkey : list Z) : option (res (list Z)) :=
  let end_ := Z.of_nat (length privkey) in
  let fail := Some (mkres 0 0 (repeat 0 32)) in
  if end_ <? 1 then fail else
  match rd privkey 0 with None => None | Some t =>
  if negb (t =? 0x30) then fail
  else if end_ <? 2 then fail else
  match rd privkey 1 with None => None | Some lb =>
  if (lb &! 0x80) =? 0 then fail else
  let lenb := lb &! 0x7F in
  if (lenb <? 1) || (lenb >? 2) then fail
  else if end_ <? 2 + lenb then fail else
  match rd privkey (2 + lenb - 1), (if lenb >? 1 then rd privkey (2 + lenb - 2) else Some 0) with
  | None, _ | _, None => None
  | Some lo, Some hi =>
  let len := lo |! (if lenb >? 1 then Z.shiftl hi 8 else 0) in
  let p := 2 + lenb in
  if end_ <? p + len then fail
  else if end_ <? p + 3 then fail else
  match rd privkey p, rd privkey (p + 1), rd privkey (p + 2) with
  | Some v0, Some v1, Some v2 =>
  if negb (v0 =? 0x02) || negb (v1 =? 0x01) || negb (v2 =? 0x01) then fail else
  let p := p + 3 in
  if end_ <? p + 2 then fail else
  match rd privkey p, rd privkey (p + 1) with
  | Some o0, Some o1 =>
  if negb (o0 =? 0x04) || (o1 >? 0x20) || (end_ <? p + 2 + o1) then fail else
  match (if o1 =? 0 then Some (repeat 0 32)
         else match rd_n privkey (p + 2) o1 with None => None | Some data => wr_n (repeat 0 32) (32 - o1) data end) with
  | None => None
  | Some out32 =>
  let v := ec_seckey_verify (Some out32) in
  if r_ret v =? 0 then Some (mkres 0 (r_ill v) (repeat 0 32)) else Some (mkres 1 (r_ill v) out32)
  end
  | _, _ => None
  end
  | _, _, _ => None
  end
  end
  end
  end.

(** contrib/lax_der_privatekey_parsing.c:63-65 (ec_privkey_export_der, begin). *)
Definition export_begin_c : list Z := [0x30;0x81;0xD3;0x02;0x01;0x01;0x04;0x20].
(** contrib/lax_der_privatekey_parsing.c:66-76 (ec_privkey_export_der, middle). *)
Definition export_middle_c : list Z :=
 [0xA0;0x81;0x85;0x30;0x81;0x82;0x02;0x01;0x01;0x30;0x2C;0x06;0x07;0x2A;0x86;0x48;
  0xCE;0x3D;0x01;0x01;0x02;0x21;0x00;0xFF;0xFF;0xFF;0xFF;0xFF;0xFF;0xFF;0xFF;0xFF;
  0xFF;0xFF;0xFF;0xFF;0xFF;0xFF;0xFF;0xFF;0xFF;0xFF;0xFF;0xFF;0xFF;0xFF;0xFF;0xFF;
  0xFF;0xFF;0xFE;0xFF;0xFF;0xFC;0x2F;0x30;0x06;0x04;0x01;0x00;0x04;0x01;0x07;0x04;
  0x21;0x02;0x79;0xBE;0x66;0x7E;0xF9;0xDC;0xBB;0xAC;0x55;0xA0;0x62;0x95;0xCE;0x87;
  0x0B;0x07;0x02;0x9B;0xFC;0xDB;0x2D;0xCE;0x28;0xD9;0x59;0xF2;0x81;0x5B;0x16;0xF8;
  0x17;0x98;0x02;0x21;0x00;0xFF;0xFF;0xFF;0xFF;0xFF;0xFF;0xFF;0xFF;0xFF;0xFF;0xFF;
  0xFF;0xFF;0xFF;0xFF;0xFE;0xBA;0xAE;0xDC;0xE6;0xAF;0x48;0xA0;0x3B;0xBF;0xD2;0x5E;
  0x8C;0xD0;0x36;0x41;0x41;0x02;0x01;0x01;0xA1;0x24;0x03;0x22;0x00].
(** contrib/lax_der_privatekey_parsing.c:86-88 (ec_privkey_export_der, begin). *)
Definition export_begin_u : list Z := [0x30;0x82;0x01;0x13;0x02;0x01;0x01;0x04;0x20].
(** contrib/lax_der_privatekey_parsing.c:89-101 (ec_privkey_export_der, middle). *)
Definition export_middle_u : list Z :=
 [0xA0;0x81;0xA5;0x30;0x81;0xA2;0x02;0x01;0x01;0x30;0x2C;0x06;0x07;0x2A;0x86;0x48;
  0xCE;0x3D;0x01;0x01;0x02;0x21;0x00;0xFF;0xFF;0xFF;0xFF;0xFF;0xFF;0xFF;0xFF;0xFF;
  0xFF;0xFF;0xFF;0xFF;0xFF;0xFF;0xFF;0xFF;0xFF;0xFF;0xFF;0xFF;0xFF;0xFF;0xFF;0xFF;
  0xFF;0xFF;0xFE;0xFF;0xFF;0xFC;0x2F;0x30;0x06;0x04;0x01;0x00;0x04;0x01;0x07;0x04;
  0x41;0x04;0x79;0xBE;0x66;0x7E;0xF9;0xDC;0xBB;0xAC;0x55;0xA0;0x62;0x95;0xCE;0x87;
  0x0B;0x07;0x02;0x9B;0xFC;0xDB;0x2D;0xCE;0x28;0xD9;0x59;0xF2;0x81;0x5B;0x16;0xF8;
  0x17;0x98;0x48;0x3A;0xDA;0x77;0x26;0xA3;0xC4;0x65;0x5D;0xA4;0xFB;0xFC;0x0E;0x11;
  0x08;0xA8;0xFD;0x17;0xB4;0x48;0xA6;0x85;0x54;0x19;0x9C;0x47;0xD0;0x8F;0xFB;0x10;
  0xD4;0xB8;0x02;0x21;0x00;0xFF;0xFF;0xFF;0xFF;0xFF;0xFF;0xFF;0xFF;0xFF;0xFF;0xFF;
  0xFF;0xFF;0xFF;0xFF;0xFE;0xBA;0xAE;0xDC;0xE6;0xAF;0x48;0xA0;0x3B;0xBF;0xD2;0x5E;
  0x8C;0xD0;0x36;0x41;0x41;0x02;0x01;0x01;0xA1;0x44;0x03;0x42;0x00].
(** contrib/lax_der_privatekey_parsing.c:62-84, 85-110 (ec_privkey_export_der): writing the three pieces and
    the public key; the buffer, the new *privkeylen and calls of the illegal callback.
    The buffer that is handed on to the serialization is what [ptr] points at. *)
Definition export_write (privkey key32 pubkey begin middle : list Z) (pubkeylen flags : Z) : option (list Z * Z * Z) :=
  match wr_n privkey 0 begin with None => None | Some buf =>
  let ptr := Z.of_nat (length begin) in
  match wr_n buf ptr key32 with None => None | Some buf =>
  let ptr := ptr + 32 in
  match wr_n buf ptr middle with None => None | Some buf =>
  let ptr := ptr + Z.of_nat (length middle) in
  match ec_pubkey_serialize (Some (skipn (Z.to_nat ptr) buf)) (Some pubkeylen) (Some pubkey) flags with
  | Some (mkres _ ill (Some tail, Some pubkeylen)) => Some (firstn (Z.to_nat ptr) buf ++ tail, ptr + pubkeylen, ill)
  | _ => None
  end
  end
  end
  end.
(** contrib/lax_der_privatekey_parsing.c:55-112 ec_privkey_export_der: the return value, calls of the illegal
    callback, the contents of the buffer and *privkeylen. *)
Definition ec_privkey_export_der (ctx : context) (privkey key32 : list Z) (compressed : bool) : option (res (list Z * Z)) :=
  let c := ec_pubkey_create ctx (Some (repeat 0 64)) (Some key32) in
  if r_ret c =? 0 then Some (mkres 0 (r_ill c) (privkey, 0)) else
  match r_out c with
  | None => None
  | Some pubkey =>
    match (if compressed then export_write privkey key32 pubkey export_begin_c export_middle_c 33 EC_COMPRESSED
           else export_write privkey key32 pubkey export_begin_u export_middle_u 65 EC_UNCOMPRESSED) with
    | None => None
    | Some (buf, len, ill) => Some (mkres 1 (r_ill c + ill) (buf, len))
    end
  end.
