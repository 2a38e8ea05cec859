(** The mathematical specification of secp256k1, independent of the code.
    Everything here is about plain integers; no limb, no buffer.
    Sources: SEC 2 (curve parameters), SEC 1 (group law). *)
Require Import ZArith List Bool.
Import ListNotations.
Local Open Scope Z_scope.

(** The field prime and the group order. *)
Definition p : Z := 2^256 - 2^32 - 977.
Definition n : Z := 0xFFFFFFFFFFFFFFFFFFFFFFFFFFFFFFFEBAAEDCE6AF48A03BBFD25E8CD0364141.

(** Exponentiation modulo [m] (square and multiply, so that it also computes). *)
Fixpoint pow_mod_pos (a : Z) (e : positive) (m : Z) : Z :=
  match e with
  | xH => a mod m
  | xO e' => let h := pow_mod_pos a e' m in (h * h) mod m
  | xI e' => let h := pow_mod_pos a e' m in (a * ((h * h) mod m)) mod m
  end.
Definition pow_mod (a e m : Z) : Z :=
  match e with Z0 => 1 mod m | Zpos e' => pow_mod_pos a e' m | Zneg _ => 0 end.

(** Inverse modulo a prime [m] (0 for multiples of [m]). *)
Definition inv_mod (a m : Z) : Z := pow_mod a (m - 2) m.

(** Points of the curve y^2 = x^3 + 7, affine coordinates in [0, p). *)
Inductive point : Type :=
| Inf : point
| Aff : Z -> Z -> point.

Definition on_curve (P : point) : Prop :=
  match P with
  | Inf => True
  | Aff x y => 0 <= x < p /\ 0 <= y < p /\ (y * y) mod p = (x * x * x + 7) mod p
  end.

Definition on_curveb (P : point) : bool :=
  match P with
  | Inf => true
  | Aff x y => (0 <=? x) && (x <? p) && (0 <=? y) && (y <? p)
               && ((y * y) mod p =? (x * x * x + 7) mod p)
  end.

(** Chord-and-tangent addition. *)
Definition padd (P Q : point) : point :=
  match P, Q with
  | Inf, _ => Q
  | _, Inf => P
  | Aff x1 y1, Aff x2 y2 =>
    if (x1 =? x2) && ((y1 + y2) mod p =? 0) then Inf
    else
      let l := if x1 =? x2 then (3 * x1 * x1 * inv_mod (2 * y1) p) mod p
               else ((y2 - y1) * inv_mod (x2 - x1) p) mod p in
      let x3 := (l * l - x1 - x2) mod p in
      Aff x3 ((l * (x1 - x3) - y1) mod p)
  end.

Definition pneg (P : point) : point :=
  match P with Inf => Inf | Aff x y => Aff x ((- y) mod p) end.

(** Scalar multiplication by a natural number (double and add) and by an integer. *)
Fixpoint pmul_pos (k : positive) (P : point) : point :=
  match k with
  | xH => P
  | xO k' => let Q := pmul_pos k' P in padd Q Q
  | xI k' => let Q := pmul_pos k' P in padd P (padd Q Q)
  end.
Definition pmul (k : Z) (P : point) : point :=
  match k with
  | Z0 => Inf
  | Zpos k' => pmul_pos k' P
  | Zneg k' => pneg (pmul_pos k' P)
  end.

(** The generator. *)
Definition Gx : Z := 0x79BE667EF9DCBBAC55A06295CE870B07029BFCDB2DCE28D959F2815B16F81798.
Definition Gy : Z := 0x483ADA7726A3C4655DA4FBFC0E1108A8FD17B448A68554199C47D08FFB10D4B8.
Definition G : point := Aff Gx Gy.

(** Sum of a list of points. *)
Definition psum (l : list point) : point := fold_right padd Inf l.

(** Coordinates of finite points. *)
Definition xcoord (P : point) : Z := match P with Inf => 0 | Aff x _ => x end.
Definition ycoord (P : point) : Z := match P with Inf => 0 | Aff _ y => y end.

(** Squares modulo p. *)
Definition is_square_mod_p (a : Z) : Prop := exists b, (b * b) mod p = a mod p.

(** Big-endian byte strings. *)
Definition byte_list (l : list Z) : Prop := Forall (fun b => 0 <= b < 256) l.
Fixpoint be_val_acc (acc : Z) (l : list Z) : Z :=
  match l with [] => acc | b :: l' => be_val_acc (acc * 256 + b) l' end.
Definition be_val (l : list Z) : Z := be_val_acc 0 l.
(** [be_bytes k v]: the [k]-byte big-endian encoding of [v]. *)
Fixpoint be_bytes (k : nat) (v : Z) : list Z :=
  match k with
  | O => []
  | S k' => be_bytes k' (v / 256) ++ [v mod 256]
  end.
