(** Vocabulary of C63: flags and histories of contexts on the heap. *)
Require Import ZArith List Bool.
From Verif Require Import Spec SpecApi GenModel ApiModel ApiVocab LifeModel.
Import ListNotations.
Local Open Scope Z_scope.

(** Flags that secp256k1_context_create accepts: low byte 1 (SECP256K1_CONTEXT_NONE and the deprecated ones), and bit 10
    (SECP256K1_CONTEXT_DECLASSIFY) only under a memory checker. *)
Definition flags_valid (checkmem : bool) (flags : Z) : Prop := flags mod 256 = 1 /\ (Z.testbit flags 10 = true -> checkmem = true).

(** A program: what it does with contexts, named by the order in which they came to life. *)
Inductive life_op : Type :=
| LCreate (checkmem : bool) (malloc : Z -> option context) (flags : Z)
| LClone (i : nat) (malloc : Z -> option context)
| LRandomize (i : nat) (seed : option (list Z))
| LSetIllegal (i : nat) (fn data : Z)
| LSetError (i : nat) (fn data : Z)
| LDestroy (i : nat)
| LDestroyNull
| LDestroyStatic
| LCloneStatic (malloc : Z -> option context).
(** The contexts so far (None: failed or destroyed), the blocks taken from malloc and not freed, and the reports. *)
Record life_state : Type := mklife { l_ctx : list (option context); l_blocks : Z; l_reports : list report }.
Definition life_start : life_state := mklife [] 0 [].
Fixpoint put {A} (i : nat) (a : A) (l : list A) : list A :=
  match l, i with [], _ => [] | _ :: t, O => a :: t | h :: t, S j => h :: put j a t end.
Definition held (s : life_state) (i : nat) : option context := match nth_error (l_ctx s) i with Some (Some c) => Some c | _ => None end.
Definition born (s : life_state) (o : outcome) : option life_state :=
  match o with Done r b c => Some (mklife (l_ctx s ++ [c]) (l_blocks s + b) (l_reports s ++ r)) | Undefined _ => None end.
Definition changed (s : life_state) (i : nat) (o : outcome) : option life_state :=
  match o with Done r b c => Some (mklife (put i c (l_ctx s)) (l_blocks s + b) (l_reports s ++ r)) | Undefined _ => None end.
Definition ill (c : context) (k : Z) : list report := repeat (Illegal (c_illegal c)) (Z.to_nat k).
(** One step; None if the program uses a context it does not have, or writes through NULL. *)
Definition life_step (size : Z) (s : life_state) (op : life_op) : option life_state :=
  match op with
  | LCreate checkmem malloc flags => born s (life_create size checkmem malloc flags)
  | LClone i malloc => match held s i with Some c => born s (life_clone size malloc c) | None => None end
  | LRandomize i seed => match held s i with
      | Some c => let r := context_randomize c seed in changed s i (Done (ill c (r_ill r)) 0 (Some (r_out r)))
      | None => None end
  | LSetIllegal i fn data => match held s i with
      | Some c => let r := context_set_illegal_callback false c fn data in changed s i (Done (ill c (r_ill r)) 0 (Some (r_out r)))
      | None => None end
  | LSetError i fn data => match held s i with
      | Some c => let r := context_set_error_callback false c fn data in changed s i (Done (ill c (r_ill r)) 0 (Some (r_out r)))
      | None => None end
  | LDestroy i => match held s i with Some c => changed s i (life_destroy (Some c)) | None => None end
  | LDestroyNull => match life_destroy None with Done r b _ => Some (mklife (l_ctx s) (l_blocks s + b) (l_reports s ++ r)) | Undefined _ => None end
  | LDestroyStatic => match life_destroy (Some context_static) with
      | Done r b _ => Some (mklife (l_ctx s) (l_blocks s + b) (l_reports s ++ r)) | Undefined _ => None end
  | LCloneStatic malloc => born s (life_clone size malloc context_static)
  end.
Fixpoint life_run (size : Z) (ops : list life_op) (s : life_state) : option life_state :=
  match ops with [] => Some s | op :: t => match life_step size s op with Some s' => life_run size t s' | None => None end end.
(** The seeds are NULL or 32 bytes. *)
Definition life_ok (op : life_op) : Prop := match op with LRandomize _ (Some seed) => bytes_n 32 seed | _ => True end.
(** How many contexts the program holds. *)
Definition holding (l : list (option context)) : Z := Z.of_nat (length (filter (fun c => match c with Some _ => true | None => false end) l)).
