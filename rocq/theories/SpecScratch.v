(** Histories of scratch space operations (C38). *)
Require Import ZArith List Bool.
From Verif Require Import Word ScratchModel.
Import ListNotations.
Local Open Scope Z_scope.

(** What the caller knows: the space, the regions (address, size) it holds and, for each
    checkpoint that is still of use, last first, its number, the object and the regions
    held at the time. *)
Record caller : Type := mkcaller { c_space : space; c_live : list (Z * Z); c_marks : list (Z * (scratch * list (Z * Z))) }.
(** Operations: allocate; write a byte into a region one holds; take a checkpoint; apply
    the checkpoint of the given index (0 the last), which makes the later ones useless. *)
Inductive op : Type := Alloc (size : Z) | Write (a v : Z) | Checkpoint | Apply (k : nat).
Definition within (a : Z) (r : Z * Z) : Prop := fst r <= a < fst r + snd r.
Definition withinb (a : Z) (r : Z * Z) : bool := (fst r <=? a) && (a <? fst r + snd r).
(** One operation; [None]: undefined behaviour; operations the caller has no right to do
    (writing elsewhere, applying an unknown checkpoint) are left out. *)
Definition do_op (align : Z) (c : caller) (o : op) : option caller :=
  let w := c_space c in
  match o with
  | Alloc size =>
      match scratch_alloc align w size with
      | None => None
      | Some (_, None, w') => Some (mkcaller w' (c_live c) (c_marks c))
      | Some (_, Some p, w') => Some (mkcaller w' ((p, size) :: c_live c) (c_marks c))
      end
  | Write a v =>
      if existsb (withinb a) (c_live c) then Some (mkcaller (mkspace (sp_scratch w) (sp_addr w) (sp_size w) (fun b => if b =? a then v else sp_mem w b)) (c_live c) (c_marks c))
      else Some c
  | Checkpoint => Some (mkcaller w (c_live c) ((snd (scratch_checkpoint w), (sp_scratch w, c_live c)) :: c_marks c))
  | Apply k =>
      match nth_error (c_marks c) k with
      | None => Some c
      | Some (cp, (_, live)) => Some (mkcaller (snd (scratch_apply_checkpoint w cp)) live (skipn k (c_marks c)))
      end
  end.
Fixpoint do_ops (align : Z) (c : caller) (ops : list op) : option caller :=
  match ops with [] => Some c | o :: ops' => match do_op align c o with Some c' => do_ops align c' ops' | None => None end end.
(** Sizes are size_t. *)
Definition op_typed (o : op) : Prop := match o with Alloc size => 0 <= size < 2 ^ 64 | _ => True end.

(** malloc returns aligned blocks inside the address space. *)
Definition malloc_ok (align : Z) (malloc : Z -> option Z) : Prop :=
  forall request addr, malloc request = Some addr -> 0 <= addr /\ addr + request < 2 ^ 64 /\ (align | addr).
Definition alignment (align : Z) : Prop := exists k, 0 <= k < 32 /\ align = 2 ^ k.
(** A caller after any history on a new space of the given size. *)
Definition reached (align size : Z) (c : caller) : Prop :=
  exists malloc mem w ops, malloc_ok align malloc /\ scratch_create align malloc mem size = Some (0, Some w) /\ Forall op_typed ops /\
    do_ops align (mkcaller w [] []) ops = Some c.
Definition disjoint (r s : Z * Z) : Prop := forall a, within a r -> ~ within a s.
(** The bytes left after the last allocation. *)
Definition left_over (c : caller) : Z := sc_max (sp_scratch (c_space c)) - sc_alloc (sp_scratch (c_space c)).
(** Allocating a list of sizes in order: the pointers. *)
Fixpoint alloc_all (align : Z) (w : space) (sizes : list Z) : option (list (option Z)) :=
  match sizes with
  | [] => Some []
  | size :: sizes' => match scratch_alloc align w size with Some (_, p, w') => option_map (cons p) (alloc_all align w' sizes') | None => None end
  end.
Definition total (sizes : list Z) : Z := fold_right Z.add 0 sizes.
