(** Specification vocabulary for public key recovery (SEC 1 4.1.6). *)
Require Import ZArith List Bool.
From Verif Require Import Spec SpecApi.
Import ListNotations.
Local Open Scope Z_scope.

(** The 65 bytes of a secp256k1_ecdsa_recoverable_signature object holding (r, s) and the
    recovery id [v]. *)
Definition recsig_holds (sig : list Z) (r s v : Z) : Prop :=
  0 <= r < n /\ 0 <= s < n /\ 0 <= v <= 3 /\ sig = le_enc 32 r ++ le_enc 32 s ++ [v].
(** [Q] is the key recovered from (r, s), the recovery id [v] and the message integer [m]:
    R is the point with x coordinate r or r + n (bit 1 of v) and y of the parity given by
    bit 0, and Q = r^-1 (s R - m G). *)
Definition recovers (r s v m : Z) (Q : point) : Prop :=
  1 <= r < n /\ 1 <= s < n /\
  exists x y, on_curve (Aff x y) /\ x = r + (if 2 <=? v then n else 0) /\ Z.odd y = Z.odd v /\
    Q = padd (pmul (inv_mod r n * s) (Aff x y)) (pmul (- (inv_mod r n * m)) G) /\ Q <> Inf.
