(** What the limb-level objects of the library stand for.  The definitions here only
    mention the layout of the objects (the records of FieldModel, ScalarModel and
    GroupModel) and plain integers; they are the vocabulary of Props_Arith. *)
Require Import ZArith List.
From Verif Require Import Spec FieldModel ScalarModel GroupModel.
Import ListNotations.
Local Open Scope Z_scope.

(** src/field_5x52.h:12-22: a field element is the integer  sum of n[i] * 2^(52 i)  modulo p. *)
Definition fe_int (a : fe) : Z := n0 a + 2 ^ 52 * n1 a + 2 ^ 104 * n2 a + 2 ^ 156 * n3 a + 2 ^ 208 * n4 a.
(** src/field_5x52.h:23-26: magnitude m means n[0..3] <= 2 m (2^52 - 1) and n[4] <= 2 m (2^48 - 1). *)
Definition magnitude (m : Z) (a : fe) : Prop :=
  (0 <= n0 a <= 2 * m * (2 ^ 52 - 1)) /\ (0 <= n1 a <= 2 * m * (2 ^ 52 - 1)) /\ (0 <= n2 a <= 2 * m * (2 ^ 52 - 1)) /\
  (0 <= n3 a <= 2 * m * (2 ^ 52 - 1)) /\ (0 <= n4 a <= 2 * m * (2 ^ 48 - 1)).
(** src/field_5x52.h:28-31: normalized means the limbs do not overlap and the integer is below p. *)
Definition normalized (a : fe) : Prop :=
  (0 <= n0 a < 2 ^ 52) /\ (0 <= n1 a < 2 ^ 52) /\ (0 <= n2 a < 2 ^ 52) /\ (0 <= n3 a < 2 ^ 52) /\ (0 <= n4 a < 2 ^ 48) /\ fe_int a < p.
(** The residue a field element stands for. *)
Definition fe_res (a : fe) : Z := fe_int a mod p.

(** src/scalar_4x64.h:12-15: a scalar is four 64-bit words, least significant first; it is
    valid when the integer is below the group order. *)
Definition scalar_int (a : sc) : Z := d0 a + 2 ^ 64 * d1 a + 2 ^ 128 * d2 a + 2 ^ 192 * d3 a.
Definition scalar_words (a : sc) : Prop :=
  (0 <= d0 a < 2 ^ 64) /\ (0 <= d1 a < 2 ^ 64) /\ (0 <= d2 a < 2 ^ 64) /\ (0 <= d3 a < 2 ^ 64).
Definition scalar_valid (a : sc) : Prop := scalar_words a /\ scalar_int a < n.

(** src/group.h:12-20: affine points, with the coordinate magnitudes of lines 49-50. *)
Definition affine_point (a : ge) (P : point) : Prop :=
  magnitude 4 (gx a) /\ magnitude 3 (gy a) /\ on_curve P /\
  match P with
  | Inf => ginf a = true
  | Aff x y => ginf a = false /\ fe_res (gx a) = x /\ fe_res (gy a) = y
  end.
(** src/group.h:25-33, 51-53: Jacobian points stand for (X / Z^2, Y / Z^3), Z nonzero. *)
Definition jacobian_point (a : gej) (P : point) : Prop :=
  magnitude 4 (jx a) /\ magnitude 4 (jy a) /\ magnitude 1 (jz a) /\ on_curve P /\
  match P with
  | Inf => jinf a = true
  | Aff x y => jinf a = false /\ fe_res (jz a) <> 0 /\
      fe_res (jx a) = (x * fe_res (jz a) ^ 2) mod p /\ fe_res (jy a) = (y * fe_res (jz a) ^ 3) mod p
  end.

(** Optional scalars (a NULL pointer means zero) and denominators (NULL means one). *)
Definition opt_valid (o : option sc) : Prop := match o with Some k => scalar_valid k | None => True end.
Definition opt_int (o : option sc) : Z := match o with Some k => scalar_int k | None => 0 end.
Definition opt_den (d : option fe) : Z := match d with Some d => fe_int d | None => 1 end.
(** A list of points with scalars, and the linear combination it stands for. *)
Definition term_of (an : gej * sc) (kP : Z * point) : Prop :=
  jacobian_point (fst an) (snd kP) /\ scalar_valid (snd an) /\ scalar_int (snd an) = fst kP.
Definition lin_comb (l : list (Z * point)) : point := psum (map (fun kP => pmul (fst kP) (snd kP)) l).
