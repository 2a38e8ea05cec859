(** Model of src/scratch_impl.h: scratch spaces.  Addresses and sizes are 64-bit. *)
Require Import ZArith List Bool.
From Verif Require Import Word.
Import ListNotations.
Local Open Scope Z_scope.

(** src/util.h:180-182 (CEIL_DIV, ROUND_TO_ALIGN) in size_t; [align] is ALIGNMENT. *)
Definition round_to_align (align size : Z) : Z := w64 (w64 (1 + w64 (size - 1) / align) * align).
(** sizeof(secp256k1_scratch) with 8-byte pointers. *)
Definition sizeof_scratch : Z := 32.
(** "scratch" with its terminator. *)
Definition scratch_magic : list Z := [0x73; 0x63; 0x72; 0x61; 0x74; 0x63; 0x68; 0].

(** src/scratch.h:12-22 (secp256k1_scratch). *)
Record scratch : Type := mkscratch { sc_magic : list Z; sc_data : Z; sc_alloc : Z; sc_max : Z }.
(** The object, the block malloc returned for it and the bytes of the memory. *)
Record space : Type := mkspace { sp_scratch : scratch; sp_addr : Z; sp_size : Z; sp_mem : Z -> Z }.
Definition magic_ok (s : scratch) : bool := if list_eq_dec Z.eq_dec (sc_magic s) scratch_magic then true else false.
(** memset(p, 0, len) in the block; [None] is a write outside it. *)
Definition memset0 (w : space) (p len : Z) : option (Z -> Z) :=
  if (len =? 0) || ((sp_addr w <=? p) && (p + len <=? sp_addr w + sp_size w))
  then Some (fun a => if (p <=? a) && (a <? p + len) then 0 else sp_mem w a) else None.

(** src/scratch_impl.h:13-24 secp256k1_scratch_create; [malloc] is the address it returns,
    [mem] the memory then.  Result: calls of the error callback, the space.  The object's
    own fields are kept in [sp_scratch] rather than in the bytes. *)
Definition scratch_create (align : Z) (malloc : Z -> option Z) (mem : Z -> Z) (size : Z) : option (Z * option space) :=
  let base_alloc := round_to_align align sizeof_scratch in
  let request := w64 (base_alloc + size) in
  match malloc request with
  | None => Some (1, None)
  | Some addr =>
      let w := mkspace (mkscratch [] 0 0 0) addr request mem in
      match memset0 w addr sizeof_scratch with
      | None => None
      | Some mem' => Some (0, Some (mkspace (mkscratch scratch_magic (w64 (addr + base_alloc)) 0 size) addr request mem'))
      end
  end.
(** src/scratch_impl.h:38-44 secp256k1_scratch_checkpoint: callback calls, result. *)
Definition scratch_checkpoint (w : space) : Z * Z :=
  if negb (magic_ok (sp_scratch w)) then (1, 0) else (0, sc_alloc (sp_scratch w)).
(** src/scratch_impl.h:46-56 secp256k1_scratch_apply_checkpoint. *)
Definition scratch_apply_checkpoint (w : space) (checkpoint : Z) : Z * space :=
  let s := sp_scratch w in
  if negb (magic_ok s) then (1, w)
  else if checkpoint >? sc_alloc s then (1, w)
  else (0, mkspace (mkscratch (sc_magic s) (sc_data s) checkpoint (sc_max s)) (sp_addr w) (sp_size w) (sp_mem w)).
(** src/scratch_impl.h:58-71 secp256k1_scratch_max_allocation. *)
Definition scratch_max_allocation (align : Z) (w : space) (objects : Z) : Z * Z :=
  let s := sp_scratch w in
  if negb (magic_ok s) then (1, 0)
  else if (align >? 1) && (objects >? (2 ^ 64 - 1) / (align - 1)) then (0, 0)
  else if w64 (sc_max s - sc_alloc s) <=? w64 (objects * (align - 1)) then (0, 0)
  else (0, w64 (w64 (sc_max s - sc_alloc s) - w64 (objects * (align - 1)))).
(** src/scratch_impl.h:73-97 secp256k1_scratch_alloc: callback calls, pointer (NULL is
    [None]) and the space. *)
Definition scratch_alloc (align : Z) (w : space) (size : Z) : option (Z * option Z * space) :=
  let rounded_size := round_to_align align size in
  if rounded_size <? size then Some (0, None, w)
  else
    let size := rounded_size in
    let s := sp_scratch w in
    if negb (magic_ok s) then Some (1, None, w)
    else if size >? w64 (sc_max s - sc_alloc s) then Some (0, None, w)
    else
      let ret := w64 (sc_data s + sc_alloc s) in
      match memset0 w ret size with
      | None => None
      | Some mem => Some (0, Some ret, mkspace (mkscratch (sc_magic s) (sc_data s) (w64 (sc_alloc s + size)) (sc_max s)) (sp_addr w) (sp_size w) mem)
      end.
(** src/scratch_impl.h:26-36 secp256k1_scratch_destroy of a non-NULL space: callback calls
    and whether it was freed. *)
Definition scratch_destroy (w : space) : Z * bool := if negb (magic_ok (sp_scratch w)) then (1, false) else (0, true).
