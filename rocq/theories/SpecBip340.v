(** Specification of x-only keys, key pairs and Schnorr signatures (BIP 340). *)
Require Import ZArith List Bool String Ascii.
From Verif Require Import Spec SpecApi SpecHash.
Import ListNotations.
Local Open Scope Z_scope.

(** The bytes of an ASCII string. *)
Definition ascii_bytes (s : string) : list Z := map (fun c => Z.of_nat (nat_of_ascii c)) (list_ascii_of_string s).

(** The representative with even y coordinate of the pair {P, -P}. *)
Definition even_y (P : point) : point := if Z.odd (ycoord P) then pneg P else P.
(** The 64 bytes of a secp256k1_xonly_pubkey object holding [P] (its y is even). *)
Definition xonly_holds (pk : list Z) (P : point) : Prop := pubkey_holds pk P /\ Z.odd (ycoord P) = false.
(** The 96 bytes of a secp256k1_keypair object holding the secret key [d]. *)
Definition keypair_holds (kp : list Z) (d : Z) : Prop :=
  1 <= d < n /\ exists pk, pubkey_holds pk (pmul d G) /\ kp = be_bytes 32 d ++ pk.

(** The challenge e for the x coordinates of R and P and a message. *)
Definition bip340_challenge (rx px : Z) (m : list Z) : Z :=
  be_val (tagged_hash (ascii_bytes "BIP0340/challenge") (be_bytes 32 rx ++ be_bytes 32 px ++ m)) mod n.
(** Verification of a 64-byte signature for the public key [P] (a point; only its x
    coordinate is hashed). *)
Definition bip340_valid (P : point) (m sig : list Z) : Prop :=
  let r := be_val (firstn 32 sig) in
  let s := be_val (skipn 32 sig) in
  r < p /\ s < n /\
  let R := padd (pmul s G) (pneg (pmul (bip340_challenge r (xcoord P) m) P)) in
  R <> Inf /\ Z.odd (ycoord R) = false /\ xcoord R = r.

(** Signing with the secret key [d] and the nonce [k'] (the 32 nonce bytes taken modulo
    n); [None] if it is zero. *)
Definition bip340_sign_with (d : Z) (m : list Z) (k' : Z) : option (list Z) :=
  let P := pmul d G in
  let d' := if Z.odd (ycoord P) then n - d else d in
  if k' =? 0 then None else
  let R := pmul k' G in
  let k := if Z.odd (ycoord R) then n - k' else k' in
  Some (be_bytes 32 (xcoord R) ++ be_bytes 32 ((k + bip340_challenge (xcoord R) (xcoord P) m * d') mod n)).
(** The nonce of BIP 340 for auxiliary random data [a]. *)
Definition bip340_nonce (d : Z) (m a : list Z) : list Z :=
  let P := pmul d G in
  let d' := if Z.odd (ycoord P) then n - d else d in
  let t := map (fun xy => Z.lxor (fst xy) (snd xy)) (combine (be_bytes 32 d') (tagged_hash (ascii_bytes "BIP0340/aux") a)) in
  tagged_hash (ascii_bytes "BIP0340/nonce") (t ++ be_bytes 32 (xcoord P) ++ m).
Definition bip340_sign (d : Z) (m a : list Z) : option (list Z) := bip340_sign_with d m (be_val (bip340_nonce d m a) mod n).
(** The message [m] passed as a pointer and a length; the pointer may be NULL if the
    length is 0. *)
Definition is_message (msg : option (list Z)) (len : Z) (m : list Z) : Prop :=
  byte_list m /\ len = Z.of_nat (List.length m) /\ ((msg = None /\ m = []) \/ exists rest, msg = Some (m ++ rest)).
