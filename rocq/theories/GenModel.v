(** Model of src/ecmult_gen_impl.h (COMB_BLOCKS 11, COMB_TEETH 6, COMB_SPACING 4, the
    default configuration): multiplication of the generator with a signed-digit
    multi-comb, scalar and projective blinding. *)
Require Import ZArith List Bool.
From Verif Require Import Word Spec FieldModel ScalarModel GroupModel HashModel GenTable.
Import ListNotations.
Local Open Scope Z_scope.

(** src/field_5x52.h:49-54 SECP256K1_FE_STORAGE_CONST and src/group.h:43-43
    SECP256K1_GE_STORAGE_CONST: the words of a constant packed into 64-bit limbs. *)
Definition fes_of_Z (v : Z) : fe_storage :=
  mkfes (v mod 2 ^ 64) (v / 2 ^ 64 mod 2 ^ 64) (v / 2 ^ 128 mod 2 ^ 64) (v / 2 ^ 192).
Definition ges_of_Z (e : Z * Z) : ge_storage := mkges (fes_of_Z (fst e)) (fes_of_Z (snd e)).
(** src/precomputed_ecmult_gen.c:10-1778 secp256k1_ecmult_gen_prec_table. *)
Definition gen_prec_table : list (list ge_storage) := map (map ges_of_Z) gen_table_literal.

(** src/ecmult_gen.h:97-113 (secp256k1_ecmult_gen_context). *)
Record gen_ctx : Type := mkgen { g_built : bool; g_scalar_offset : sc; g_ge_offset : ge; g_proj_blind : fe }.

(** src/util.h:440-449 secp256k1_rotr32. *)
Definition rotr32 (x by_ : Z) : Z :=
  Z.lor (Z.shiftr x (Z.land by_ 31)) (w32 (Z.shiftl x (Z.land (w32 (- by_)) 31))).

(** src/ecmult_gen_impl.h:36-52 secp256k1_ecmult_gen_scalar_diff. *)
Fixpoint double_n (k : nat) (a : sc) : sc := match k with O => a | S k' => double_n k' (sc_add a a) end.
Definition gen_scalar_diff : sc :=
  let neghalf := sc_negate (sc_half sc_one) in
  let diff := double_n 263 sc_one in
  sc_add diff neghalf.

(** The parts of src/ecmult_gen_impl.h:54-282 secp256k1_ecmult_gen. *)
(** The recoded array (lines 137-140): 8 words of the scalar and one word of padding. *)
Definition gen_recode (d : sc) : list Z :=
  map (fun i => sc_get_bits_limb32 d (32 * i) 32) [0; 1; 2; 3; 4; 5; 6; 7] ++ [0].
(** Lines 210-243: gathering the bits of one block. *)
Fixpoint gen_bits (k : nat) (recoded : list Z) (tooth bit_pos bits : Z) : Z :=
  match k with
  | O => bits
  | S k' =>
    let bitdata := rotr32 (nth (Z.to_nat (Z.shiftr bit_pos 5)) recoded 0) (Z.land bit_pos 31) in
    let bits := Z.land bits (w32 (Z.lnot (Z.shiftl 1 tooth))) in
    let bits := Z.lxor bits (w32 (Z.shiftl bitdata tooth)) in
    gen_bits k' recoded (tooth + 1) (bit_pos + 4) bits
  end.
(** Lines 259-261: reading the table entry [abs] through conditional moves. *)
Fixpoint gen_lookup (tab : list ge_storage) (index abs : Z) (adds : ge_storage) : ge_storage :=
  match tab with
  | [] => adds
  | e :: tab' => gen_lookup tab' (index + 1) abs (ge_storage_cmov adds e (b2z (index =? abs)))
  end.
(** Lines 205-278: the inner loop over the blocks.  The state is (r, adds, first);
    r is not read while first is set. *)
Fixpoint gen_blocks (c : gen_ctx) (recoded : list Z) (tabs : list (list ge_storage)) (bit_pos : Z)
    (st : gej * ge_storage * bool) : gej * ge_storage * bool :=
  match tabs with
  | [] => st
  | tab :: tabs' =>
    let '(r, adds, first) := st in
    let bits := gen_bits 6 recoded 0 bit_pos 0 in
    let bit_pos := bit_pos + 6 * 4 in
    let sign := Z.land (Z.shiftr bits 5) 1 in
    let abs := Z.land (Z.lxor bits (w32 (- sign))) 31 in
    let adds := gen_lookup tab 0 abs adds in
    let add := ge_from_storage adds in
    let neg := fe_negate (gy add) 1 in
    let add := mkge (gx add) (fe_cmov (gy add) neg sign) (ginf add) in
    let r := if first then gej_rescale (gej_set_ge add) (g_proj_blind c) else gej_add_ge r add in
    gen_blocks c recoded tabs' bit_pos (r, adds, false)
  end.
(** Lines 201-283: the outer loop over comb_off = k, ..., 0. *)
Fixpoint gen_outer (k : nat) (c : gen_ctx) (tabs : list (list ge_storage)) (recoded : list Z) (st : gej * ge_storage * bool) : gej :=
  let '(r, adds, first) := gen_blocks c recoded tabs (Z.of_nat k) st in
  match k with
  | O => r
  | S k' => gen_outer k' c tabs recoded (gej_double r, adds, first)
  end.
(** src/ecmult_gen_impl.h:54-282 secp256k1_ecmult_gen. *)
Definition ecmult_gen (c : gen_ctx) (gn : sc) : gej :=
  let adds := mkges (mkfes 0 0 0 0) (mkfes 0 0 0 0) in
  let d := sc_add (g_scalar_offset c) gn in
  let recoded := gen_recode d in
  let r := gen_outer 3 c gen_prec_table recoded (gej_infinity, adds, true) in
  gej_add_ge r (g_ge_offset c).

(** src/ecmult_gen_impl.h:285-339 secp256k1_ecmult_gen_blind; [None] is a NULL seed. *)
Definition ecmult_gen_blind (c : gen_ctx) (seed : option (list Z)) : gen_ctx :=
  let diff := gen_scalar_diff in
  match seed with
  | None => mkgen (g_built c) (sc_add sc_one diff) (ge_neg ge_const_g) fe_one
  | Some seed32 =>
    let keydata := sc_get_b32 (g_scalar_offset c) ++ seed32 in
    let rng := rfc6979_initialize keydata in
    let (rng, nonce32) := rfc6979_generate rng 32 in
    let f := fe_set_b32_mod nonce32 in
    let f := fe_cmov f fe_one (b2z (fe_normalizes_to_zero f)) in
    let c := mkgen (g_built c) (g_scalar_offset c) (g_ge_offset c) f in
    let (rng, nonce32) := rfc6979_generate rng 32 in
    let b := fst (sc_set_b32 nonce32) in
    let b := sc_cmov b sc_one (b2z (sc_is_zero b)) in
    let gb := ecmult_gen c b in
    let b := sc_negate b in
    mkgen (g_built c) (sc_add b diff) (ge_set_gej gb) (g_proj_blind c)
  end.

(** src/ecmult_gen_impl.h:17-20 secp256k1_ecmult_gen_context_build.  The context
    memory before the call is [c] (its contents do not matter). *)
Definition gen_context_build (c : gen_ctx) : gen_ctx :=
  let c := ecmult_gen_blind c None in
  mkgen true (g_scalar_offset c) (g_ge_offset c) (g_proj_blind c).
(** src/ecmult_gen_impl.h:26-31 secp256k1_ecmult_gen_context_clear. *)
Definition gen_context_clear (c : gen_ctx) : gen_ctx :=
  mkgen false (mksc 0 0 0 0) (mkge (mkfe 0 0 0 0 0) (mkfe 0 0 0 0 0) false) (mkfe 0 0 0 0 0).
