(** The permissive formats of contrib/: signatures that are almost DER, and private keys
    as the SEC 1 structure ECPrivateKey. *)
Require Import ZArith List Bool.
From Verif Require Import Spec SpecApi.
Import ListNotations.
Local Open Scope Z_scope.

(** ** Signatures *)

(** A length in one byte below 128, or in any number of bytes with leading zeros allowed
    as long as the number is below 2^56. *)
Definition lax_length (enc : list Z) (k : Z) : Prop :=
  (0 <= k < 128 /\ enc = [k]) \/
  (exists ds, byte_list ds /\ Z.of_nat (length ds) < 128 /\ be_val ds = k /\ k < 2 ^ 56 /\ enc = (128 + Z.of_nat (length ds)) :: ds).
(** The outer length: one of any form, whose number does not matter. *)
Definition lax_any_length (enc : list Z) : Prop :=
  (exists b, 0 <= b < 128 /\ enc = [b]) \/
  (exists ds, Z.of_nat (length ds) < 128 /\ enc = (128 + Z.of_nat (length ds)) :: ds).
(** An integer: a tag, a length and the bytes [c] of an unsigned number, which may be
    none and may begin with zeros. *)
Definition lax_int (c enc : list Z) : Prop := exists l, lax_length l (Z.of_nat (length c)) /\ enc = 2 :: l ++ c.
(** A signature: a tag, an outer length, two integers, then anything. *)
Definition lax_signature (cr cs enc : list Z) : Prop :=
  exists h er es rest, lax_any_length h /\ lax_int cr er /\ lax_int cs es /\ enc = 0x30 :: h ++ er ++ es ++ rest.
(** The numbers the object holds: both are zero if one of them is out of range. *)
Definition lax_numbers (cr cs : list Z) : Z * Z :=
  if (be_val cr <? n) && (be_val cs <? n) then (be_val cr, be_val cs) else (0, 0).

(** ** Private keys *)

(** What the import accepts: a sequence of at least as many bytes as its length says,
    which begins with the integer 1 and an octet string of at most 32 bytes [c]. *)
Definition lax_privkey (c enc : list Z) : Prop :=
  exists l body rest, enc = 0x30 :: l ++ body /\ body = [2; 1; 1; 4; Z.of_nat (length c)] ++ c ++ rest /\ (length c <= 32)%nat /\
    ((exists a, l = [0x81; a] /\ a <= Z.of_nat (length body)) \/ (exists a b, l = [0x82; a; b] /\ 256 * a + b <= Z.of_nat (length body))).

(** DER: a tag, the length in its shortest form (here below 65536) and the contents. *)
Definition tlv (tag : Z) (c : list Z) : list Z :=
  let k := Z.of_nat (length c) in
  tag :: (if k <? 128 then [k] else if k <? 256 then [0x81; k] else [0x82; k / 256; k mod 256]) ++ c.
(** A positive integer of 32 bytes whose top bit is set. *)
Definition tlv_int32 (v : Z) : list Z := tlv 2 (0 :: be_bytes 32 v).
(** SEC 1 C.2 ECParameters of the curve: version 1, the prime field (object identifier
    1.2.840.10045.1.1) of order p, the coefficients 0 and 7, the generator, its order, cofactor 1. *)
Definition sec1_params (compressed : bool) : list Z :=
  tlv 0x30 (tlv 2 [1] ++
            tlv 0x30 (tlv 6 [42; 134; 72; 206; 61; 1; 1] ++ tlv_int32 p) ++
            tlv 0x30 (tlv 4 [0] ++ tlv 4 [7]) ++
            tlv 4 (if compressed then enc_compressed Gx Gy else enc_uncompressed Gx Gy) ++
            tlv_int32 n ++
            tlv 2 [1]).
(** SEC 1 C.4 ECPrivateKey: version 1, the key, the parameters, and the public key as a
    string of whole bytes. *)
Definition sec1_privkey (compressed : bool) (key pub : list Z) : list Z :=
  tlv 0x30 (tlv 2 [1] ++ tlv 4 key ++ tlv 0xA0 (sec1_params compressed) ++ tlv 0xA1 (tlv 3 (0 :: pub))).
