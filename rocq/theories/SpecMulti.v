(** Multi-point multiplication, seen by its caller (C43, C46). *)
Require Import ZArith List Bool.
From Verif Require Import Word Spec FieldModel ScalarModel GroupModel SpecRep ScratchModel SpecScratch.
Import ListNotations.
Local Open Scope Z_scope.

Section Callback.
Context {T : Type}.
Variable cb : T -> Z -> option (sc * ge) * T.
(** The callback asked once for each of the [k] indices from [i] on, in order, up to the
    first refusal: the answers ([None] after a refusal) and its state afterwards. *)
Fixpoint ask (k : nat) (i : Z) (st : T) : option (list (sc * ge)) * T :=
  match k with
  | O => (Some [], st)
  | S k' =>
    match cb st i with
    | (None, st) => (None, st)
    | (Some a, st) => match ask k' (i + 1) st with (None, st) => (None, st) | (Some l, st) => (Some (a :: l), st) end
    end
  end.
(** Every answer is a reduced scalar and a point of the curve. *)
Definition answers_valid : Prop := forall st i s g st', cb st i = (Some (s, g), st') -> scalar_valid s /\ exists P, affine_point g P.
End Callback.
(** An answer stands for k times P. *)
Definition stands_for (a : sc * ge) (kP : Z * point) : Prop := scalar_valid (fst a) /\ scalar_int (fst a) = fst kP /\ affine_point (snd a) (snd kP).
(** A callback that writes down the indices it is asked for; [f] decides what to answer. *)
Definition logging (f : Z -> option (sc * ge)) (log : list Z) (i : Z) : option (sc * ge) * list Z := (f i, log ++ [i]).
(** The numbers [i], [i + 1], ... *)
Fixpoint upto (k : nat) (i : Z) : list Z := match k with O => [] | S k' => i :: upto k' (i + 1) end.
(** No scratch space (NULL), or one of any size after any history. *)
Definition any_scratch (align : Z) (scratch : option space) : Prop :=
  match scratch with
  | None => True
  | Some w => exists size c, 0 <= size /\ size + align + 32 < 2 ^ 64 /\ reached align size c /\ c_space c = w
  end.
(** The same space with the same allocations; only the bytes that were free may differ. *)
Definition same_space (a b : option space) : Prop :=
  match a, b with
  | None, None => True
  | Some v, Some w => sp_scratch v = sp_scratch w /\ sp_addr v = sp_addr w /\ sp_size v = sp_size w /\
      forall x, sc_data (sp_scratch w) + sc_alloc (sp_scratch w) <= x < sc_data (sp_scratch w) + sc_max (sp_scratch w) \/ sp_mem v x = sp_mem w x
  | _, _ => False
  end.
