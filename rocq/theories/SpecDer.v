(** Strict DER (X.690) for ECDSA signatures: a SEQUENCE of two INTEGERs. *)
Require Import ZArith List Bool.
From Verif Require Import Spec.
Import ListNotations.
Local Open Scope Z_scope.

(** X.690 8.1.3 with the restriction of 10.1 (minimal number of octets): [enc] is the
    encoding of the length [k]. *)
Definition der_length (enc : list Z) (k : Z) : Prop :=
  (0 <= k < 128 /\ enc = [k]) \/
  (128 <= k /\ exists first rest, first <> 0 /\ byte_list (first :: rest) /\ be_val (first :: rest) = k /\
     Z.of_nat (length (first :: rest)) < 127 /\ enc = (128 + Z.of_nat (length (first :: rest))) :: first :: rest).
(** X.690 8.3.2: the contents of an INTEGER are not empty, and the first octet and the
    top bit of the second are not all zeros or all ones. *)
Definition der_int_contents (c : list Z) : Prop :=
  byte_list c /\ c <> [] /\
  (forall b rest, c <> 0 :: b :: rest \/ 128 <= b) /\ (forall b rest, c <> 255 :: b :: rest \/ b < 128).
(** X.690 8.3.3: two's complement. *)
Definition der_int_value (c : list Z) : Z := match c with
  | [] => 0
  | b :: _ => if b <? 128 then be_val c else be_val c - 256 ^ Z.of_nat (length c)
  end.
(** [enc] is tag, length, contents. *)
Definition der_element (tag : Z) (contents enc : list Z) : Prop :=
  exists l, der_length l (Z.of_nat (length contents)) /\ enc = tag :: l ++ contents.
(** [enc] is the strict DER encoding of a signature whose integers have the contents [cr], [cs]. *)
Definition der_signature (cr cs enc : list Z) : Prop :=
  der_int_contents cr /\ der_int_contents cs /\
  exists er es, der_element 2 cr er /\ der_element 2 cs es /\ der_element 0x30 (er ++ es) enc.
(** Integers outside [0, n) count as zero. *)
Definition der_scalar (c : list Z) : Z := let v := der_int_value c in if (0 <=? v) && (v <? n) then v else 0.
