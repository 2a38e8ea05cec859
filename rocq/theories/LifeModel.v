(** Creating, cloning and destroying contexts together with the allocator, the self test and the reports made on the way. *)
Require Import ZArith List Bool String.
From Verif Require Import Word Spec SpecHash SpecBip340 HashModel GenModel EcdsaModel ApiModel.
Import ListNotations.
Local Open Scope Z_scope.

(** A call of an error or illegal argument callback (src/util.h:92-94 secp256k1_callback_call); all callbacks return here. *)
Inductive report : Type := Illegal (cb : callback) | Error (cb : callback).
(** What a function does: its reports in order, the blocks it took from malloc minus those it gave to free, and its result;
    or reports followed by a write through NULL. *)
Inductive outcome : Type := Done (reports : list report) (blocks : Z) (result : option context) | Undefined (reports : list report).

(** src/selftest.h:14-19 secp256k1_selftest_sha256: its two constants. *)
Definition selftest_input : list Z := ascii_bytes "For this sample, this 63-byte string will be used as input data"%string.
Definition selftest_output : list Z :=
  [0xf0; 0x8a; 0x78; 0xcb; 0xba; 0xee; 0x08; 0x2b; 0x05; 0x2a; 0xe0; 0x70; 0x8f; 0x32; 0xfa; 0x1e;
   0x50; 0xc5; 0xc4; 0x21; 0xaa; 0x77; 0x2b; 0xa5; 0xdb; 0xb4; 0x06; 0xa2; 0xea; 0x6b; 0xe3; 0x42].
(** src/selftest.h:14-26 secp256k1_selftest_sha256; secp256k1_selftest_passes (lines 28-30) returns it. *)
Definition selftest_passes : bool :=
  memcmp_var (sha256_finalize (sha256_write sha256_initialize selftest_input)) selftest_output =? 0.
(** src/secp256k1.c:86-90 secp256k1_selftest *)
Definition selftest : list report := if negb selftest_passes then [Error default_cb] else [].

(** src/secp256k1.c:92-110 secp256k1_context_preallocated_size; [size] is sizeof(secp256k1_context). *)
Definition preallocated_size (size : Z) (checkmem : bool) (flags : Z) : Z * list report :=
  if negb (Z.land flags 0xFF =? 1) then (0, [Illegal default_cb])
  else if negb checkmem && negb (Z.land flags 1024 =? 0) then (0, [Illegal default_cb])
  else (size, []).
(** src/secp256k1.c:112-116 secp256k1_context_preallocated_clone_size *)
Definition preallocated_clone_size (size : Z) (ctx : context) : Z * list report :=
  if negb (context_is_proper ctx) then (0, [Illegal (c_illegal ctx)]) else (size, []).
(** src/secp256k1.c:118-139 secp256k1_context_preallocated_create; [prealloc] is the memory at the pointer. *)
Definition life_preallocated_create (size : Z) (checkmem : bool) (prealloc : option context) (flags : Z) : outcome :=
  let r0 := selftest in
  let (prealloc_size, r1) := preallocated_size size checkmem flags in
  if prealloc_size =? 0 then Done (r0 ++ r1) 0 None
  else match prealloc with
  | None => Undefined (r0 ++ r1)
  | Some mem => Done (r0 ++ r1) 0 (Some (mkctx (gen_context_build (c_gen mem)) default_cb default_cb (negb (Z.land flags 1024 =? 0))))
  end.
(** src/util.h:162-168 checked_malloc; [malloc n] is the memory malloc(n) returns, None for NULL. *)
Definition checked_malloc (cb : callback) (malloc : Z -> option context) (size : Z) : option context * list report :=
  match malloc size with
  | None => (None, [Error cb])
  | Some m => (Some m, [])
  end.
(** The effect on the number of blocks of a malloc that returned [p]; free(p) is the opposite (free(NULL) does nothing). *)
Definition block (p : option context) : Z := match p with Some _ => 1 | None => 0 end.
(** src/secp256k1.c:141-150 secp256k1_context_create *)
Definition life_create (size : Z) (checkmem : bool) (malloc : Z -> option context) (flags : Z) : outcome :=
  let (prealloc_size, r0) := preallocated_size size checkmem flags in
  let (ctx, r1) := checked_malloc default_cb malloc prealloc_size in
  match life_preallocated_create size checkmem ctx flags with
  | Undefined r2 => Undefined (r0 ++ r1 ++ r2)
  | Done r2 b None => Done (r0 ++ r1 ++ r2) (block ctx + b - block ctx) None
  | Done r2 b (Some c) => Done (r0 ++ r1 ++ r2) (block ctx + b) (Some c)
  end.
(** src/secp256k1.c:152-161 secp256k1_context_preallocated_clone *)
Definition life_preallocated_clone (ctx : context) (prealloc : option context) : outcome :=
  match prealloc with
  | None => Done [Illegal (c_illegal ctx)] 0 None
  | Some _ => if negb (context_is_proper ctx) then Done [Illegal (c_illegal ctx)] 0 None else Done [] 0 (Some ctx)
  end.
(** src/secp256k1.c:163-174 secp256k1_context_clone *)
Definition life_clone (size : Z) (malloc : Z -> option context) (ctx : context) : outcome :=
  if negb (context_is_proper ctx) then Done [Illegal (c_illegal ctx)] 0 None
  else
    let (prealloc_size, r0) := preallocated_clone_size size ctx in
    let (ret, r1) := checked_malloc (c_error ctx) malloc prealloc_size in
    match life_preallocated_clone ctx ret with
    | Undefined r2 => Undefined (r0 ++ r1 ++ r2)
    | Done r2 b c => Done (r0 ++ r1 ++ r2) (block ret + b) c
    end.
(** src/secp256k1.c:176-185 secp256k1_context_preallocated_destroy on a pointer that is NULL or not; the result is the memory afterwards. *)
Definition life_preallocated_destroy (ctx : option context) : outcome :=
  match ctx with
  | None => Done [] 0 None
  | Some c =>
    if negb (context_is_proper c) then Done [Illegal (c_illegal c)] 0 (Some c)
    else Done [] 0 (Some (mkctx (gen_context_clear (c_gen c)) (c_illegal c) (c_error c) (c_declassify c)))
  end.
(** src/secp256k1.c:187-197 secp256k1_context_destroy; the result is None once the memory is freed. *)
Definition life_destroy (ctx : option context) : outcome :=
  match ctx with
  | None => Done [] 0 None
  | Some c =>
    if negb (context_is_proper c) then Done [Illegal (c_illegal c)] 0 (Some c)
    else match life_preallocated_destroy (Some c) with
    | Undefined r => Undefined r
    | Done r b _ => Done r (b - 1) None
    end
  end.
