(** Scratch spaces: C38. *)
Require Import ZArith List Bool.
From Verif Require Import Word ScratchModel SpecScratch ScratchProof.
Import ListNotations.
Local Open Scope Z_scope.

(** C38: after any history of allocations, writes, checkpoints and applied checkpoints on a
    space of any size that fits the address space together with the object, an allocation
    either fails, exactly when the length rounded up to the alignment exceeds what is left,
    or returns an aligned region inside the block and outside the object, filled with
    zeros and disjoint from all the regions held, whose contents it leaves alone.  There
    is no undefined behaviour (the outcome [None]), in particular no write outside. *)
Theorem C38_alloc align size c len : alignment align -> 0 <= size -> size + align + 32 < 2 ^ 64 -> reached align size c -> 0 <= len < 2 ^ 64 ->
  (scratch_alloc align (c_space c) len = Some (0, None, c_space c) /\ exists r, len <= r < len + align /\ (align | r) /\ left_over c < r) \/
  exists p w, scratch_alloc align (c_space c) len = Some (0, Some p, w) /\ len <= left_over c /\ (align | p) /\
    sp_addr (c_space c) + 32 <= p /\ p + len <= sp_addr (c_space c) + sp_size (c_space c) /\
    (forall a, within a (p, len) -> sp_mem w a = 0) /\
    (forall r, In r (c_live c) -> disjoint (p, len) r /\ forall a, within a r -> sp_mem w a = sp_mem (c_space c) a).
Proof. exact (fun AL => prop_alloc align AL size c len). Qed.
Print Assumptions C38_alloc.
(** C38: all the regions held at any time are aligned, in bounds and pairwise disjoint. *)
Theorem C38_regions align size c : alignment align -> 0 <= size -> size + align + 32 < 2 ^ 64 -> reached align size c ->
  ForallOrdPairs disjoint (c_live c) /\
  Forall (fun r => (align | fst r) /\ sp_addr (c_space c) + 32 <= fst r /\ fst r + snd r <= sp_addr (c_space c) + sp_size (c_space c)) (c_live c).
Proof. exact (fun AL => prop_live align AL size c). Qed.
Print Assumptions C38_regions.
(** C38: no history leads to undefined behaviour. *)
Theorem C38_no_undefined_behaviour align size c ops : alignment align -> 0 <= size -> size + align + 32 < 2 ^ 64 -> reached align size c -> Forall op_typed ops ->
  exists c', do_ops align c ops = Some c'.
Proof. exact (fun AL => prop_no_ub align AL size c ops). Qed.
Print Assumptions C38_no_undefined_behaviour.
(** C38: applying any checkpoint still of use puts back the object as it was when the
    checkpoint was taken, without touching the memory; a number above the current
    allocation is reported and ignored. *)
Theorem C38_checkpoint align size c k cp s live : alignment align -> 0 <= size -> size + align + 32 < 2 ^ 64 -> reached align size c ->
  nth_error (c_marks c) k = Some (cp, (s, live)) ->
  exists w, scratch_apply_checkpoint (c_space c) cp = (0, w) /\ sp_scratch w = s /\ sp_addr w = sp_addr (c_space c) /\ sp_size w = sp_size (c_space c) /\ sp_mem w = sp_mem (c_space c).
Proof. exact (fun AL => prop_checkpoint align AL size c k cp s live). Qed.
Print Assumptions C38_checkpoint.
Theorem C38_bad_checkpoint w cp : sc_alloc (sp_scratch w) < cp -> scratch_apply_checkpoint w cp = (1, w).
Proof. exact (prop_bad_checkpoint w cp). Qed.
Print Assumptions C38_bad_checkpoint.
(** C38: what max_allocation promises for a number of objects is kept: any that many
    allocations of that total size succeed one after the other. *)
Theorem C38_max_allocation align size c objects m e : alignment align -> 0 <= size -> size + align + 32 < 2 ^ 64 -> reached align size c -> 0 <= objects < 2 ^ 64 ->
  scratch_max_allocation align (c_space c) objects = (e, m) -> e = 0 /\ 0 <= m <= left_over c /\
  forall sizes, Z.of_nat (length sizes) <= objects -> Forall (fun x => 0 <= x < 2 ^ 64) sizes -> total sizes <= m ->
    exists ps, alloc_all align (c_space c) sizes = Some ps /\ length ps = length sizes /\ Forall (fun p => p <> None) ps.
Proof. exact (fun AL => prop_max_allocation align AL size c objects m e). Qed.
Print Assumptions C38_max_allocation.
Example C38_example : alignment 16 /\ 1000 + 16 + 32 < 2 ^ 64 /\ exists c, reached 16 1000 c /\ c_live c = [(1024 + 32 + 112, 5); (1024 + 32, 100)] /\ length (c_marks c) = 1%nat.
Proof. exact (conj align_16 (conj eq_refl w_reached)). Qed.

(** C38: "arithmetic never wraps" is false of creation: for sizes close to SIZE_MAX the
    size of the block wraps around and the object itself is written outside it.  (No
    function of the public API creates a scratch space.) *)
Theorem C38_create_never_wraps_refuted : exists malloc mem size, malloc_ok 16 malloc /\ 0 <= size < 2 ^ 64 /\ scratch_create 16 malloc mem size = None.
Proof. exact prop_create_refuted. Qed.
Print Assumptions C38_create_never_wraps_refuted.
Theorem C38_create align malloc mem size : alignment align -> malloc_ok align malloc -> 0 <= size -> size + align + 32 < 2 ^ 64 ->
  exists request, scratch_create align malloc mem size = match malloc request with None => Some (1, None) | Some _ => scratch_create align malloc mem size end /\
    scratch_create align malloc mem size <> None /\ size + 32 <= request < 2 ^ 64.
Proof. exact (fun AL => create_ok align AL malloc mem size). Qed.
Print Assumptions C38_create.
