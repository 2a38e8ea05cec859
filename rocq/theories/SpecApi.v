(** Specification vocabulary for the public API: what the objects hold, and the
    textbook definitions of the operations (SEC 1, FIPS 186, BIP 340).  Nothing here
    refers to the model of the code. *)
Require Import ZArith List Bool.
From Verif Require Import Spec.
Import ListNotations.
Local Open Scope Z_scope.

(** A string of [k] bytes. *)
Definition bytes_n (k : nat) (l : list Z) : Prop := byte_list l /\ length l = k.
(** Little-endian encoding. *)
Definition le_enc (k : nat) (v : Z) : list Z := rev (be_bytes k v).

(** The 64 bytes of a secp256k1_pubkey object holding the point [Q]. *)
Definition pubkey_holds (pk : list Z) (Q : point) : Prop :=
  match Q with
  | Inf => False
  | Aff x y => on_curve (Aff x y) /\ pk = le_enc 32 x ++ le_enc 32 y
  end.
(** The 64 bytes of a secp256k1_ecdsa_signature object holding (r, s). *)
Definition sig_holds (sig : list Z) (r s : Z) : Prop :=
  0 <= r < n /\ 0 <= s < n /\ sig = le_enc 32 r ++ le_enc 32 s.

(** A valid secret key: 32 bytes encoding [d] with 1 <= d < n. *)
Definition seckey_is (key : list Z) (d : Z) : Prop := bytes_n 32 key /\ be_val key = d /\ 1 <= d < n.
Definition seckey_valid (key : list Z) : Prop := bytes_n 32 key /\ 1 <= be_val key < n.

(** Public key encodings (SEC 1 2.3.3): compressed, uncompressed, hybrid. *)
Definition enc_compressed (x y : Z) : list Z := (if Z.odd y then 3 else 2) :: be_bytes 32 x.
Definition enc_uncompressed (x y : Z) : list Z := 4 :: be_bytes 32 x ++ be_bytes 32 y.
Definition enc_hybrid (x y : Z) : list Z := (if Z.odd y then 7 else 6) :: be_bytes 32 x ++ be_bytes 32 y.
(** [inp] encodes the point [Q]. *)
Definition encodes_point (inp : list Z) (Q : point) : Prop :=
  match Q with
  | Inf => False
  | Aff x y => on_curve (Aff x y) /\ (inp = enc_compressed x y \/ inp = enc_uncompressed x y \/ inp = enc_hybrid x y)
  end.

(** ECDSA verification (SEC 1 4.1.4) of (r, s) for the message integer [m] and the
    public key [Q]. *)
Definition ecdsa_valid (Q : point) (m r s : Z) : Prop :=
  1 <= r < n /\ 1 <= s < n /\
  let w := inv_mod s n in
  let R := padd (pmul (m * w) G) (pmul (r * w) Q) in
  R <> Inf /\ xcoord R mod n = r.

(** ECDSA signing (SEC 1 4.1.3) of the message integer [m] with secret [d] and nonce
    [k]: r, s before and after normalization to the lower half, and the recovery id
    (bit 0: parity of the y coordinate of the nonce point that the signature stands
    for, bit 1: its x coordinate is at least n). *)
Definition ecdsa_r (k : Z) : Z := xcoord (pmul k G) mod n.
Definition ecdsa_s (d m k : Z) : Z := (inv_mod k n * (m + ecdsa_r k * d)) mod n.
Definition ecdsa_high (d m k : Z) : bool := n / 2 <? ecdsa_s d m k.
Definition ecdsa_low_s (d m k : Z) : Z := if ecdsa_high d m k then n - ecdsa_s d m k else ecdsa_s d m k.
Definition ecdsa_recid (d m k : Z) : Z :=
  (if n <=? xcoord (pmul k G) then 2 else 0) + (if xorb (Z.odd (ycoord (pmul k G))) (ecdsa_high d m k) then 1 else 0).
(** A 32-byte nonce is usable if it is in range and gives non-zero r and s. *)
Definition nonce_usable (d m : Z) (nonce : list Z) : Prop :=
  1 <= be_val nonce < n /\ ecdsa_r (be_val nonce) <> 0 /\ ecdsa_s d m (be_val nonce) <> 0.

(** The public key encodings spelled out byte by byte. *)
Definition pubkey_acceptable (inp : list Z) : Prop :=
  match inp with
  | [] => False
  | tag :: rest =>
    (length rest = 32%nat /\ (tag = 2 \/ tag = 3) /\ be_val rest < p /\ is_square_mod_p (be_val rest ^ 3 + 7)) \/
    (length rest = 64%nat /\ let x := be_val (firstn 32 rest) in let y := be_val (skipn 32 rest) in
       x < p /\ y < p /\ (y ^ 2) mod p = (x ^ 3 + 7) mod p /\ (tag = 4 \/ (tag = 6 /\ Z.odd y = false) \/ (tag = 7 /\ Z.odd y = true)))
  end.
