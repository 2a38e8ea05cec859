(** Model of src/ecmult_gen_impl.h in the 32-bit build (10x26 field elements, 8x32 scalars):
    the definitions of GenModel.v on the 32-bit field and scalars.  The conventions are those of
    that file, which also has the definitions that do not depend on the width. *)
Require Import ZArith List Bool.
From Verif Require Import Word Word32 Spec FieldModel ScalarModel Field32Model Scalar32Model HashModel GenTable GroupModel EcmultModel GenModel W32_Base W32_Group W32_Ecmult.
Import ListNotations.
Local Open Scope Z_scope.
Local Open Scope c_scope.

(** src/field_10x26.h:54-54 SECP256K1_FE_STORAGE_CONST and src/group.h:43-43
    SECP256K1_GE_STORAGE_CONST: the eight 32-bit words of a constant. *)
Definition fes_of_Z_w32 (v : Z) : fes26 :=
  mks26 (v mod 2 ^ 32) (v / 2 ^ 32 mod 2 ^ 32) (v / 2 ^ 64 mod 2 ^ 32) (v / 2 ^ 96 mod 2 ^ 32)
          (v / 2 ^ 128 mod 2 ^ 32) (v / 2 ^ 160 mod 2 ^ 32) (v / 2 ^ 192 mod 2 ^ 32) (v / 2 ^ 224).
Definition ges_of_Z_w32 (e : Z * Z) : ge_storage_w32 := mkges_w32 (fes_of_Z_w32 (fst e)) (fes_of_Z_w32 (snd e)).
(** src/precomputed_ecmult_gen.c:10-1778 secp256k1_ecmult_gen_prec_table. *)
Definition gen_prec_table_w32 : list (list ge_storage_w32) := map (map ges_of_Z_w32) gen_table_literal.
(** src/ecmult_gen.h:97-113 (secp256k1_ecmult_gen_context). *)
Record gen_ctx_w32 : Type := mkgen_w32 { g_built_w32 : bool; g_scalar_offset_w32 : sc8; g_ge_offset_w32 : ge_w32; g_proj_blind_w32 : fe26 }.
(** src/ecmult_gen_impl.h:36-52 secp256k1_ecmult_gen_scalar_diff. *)
Fixpoint double_n_w32 (k : nat) (a : sc8) : sc8 := match k with O => a | S k' => double_n_w32 k' (s8_add a a) end.
Definition gen_scalar_diff_w32 : sc8 :=
  let neghalf := s8_negate (s8_half s8_one) in
  let diff := double_n_w32 263 s8_one in
  s8_add diff neghalf.
(** The parts of src/ecmult_gen_impl.h:54-282 secp256k1_ecmult_gen. *)
(** The recoded array (lines 137-140): 8 words of the scalar and one word of padding. *)
Definition gen_recode_w32 (d : sc8) : list Z :=
  map (fun i => s8_get_bits_limb32 d (32 * i) 32) [0; 1; 2; 3; 4; 5; 6; 7] ++ [0].
(** Lines 259-261: reading the table entry [abs] through conditional moves. *)
Fixpoint gen_lookup_w32 (tab : list ge_storage_w32) (index abs : Z) (adds : ge_storage_w32) : ge_storage_w32 :=
  match tab with
  | [] => adds
  | e :: tab' => gen_lookup_w32 tab' (index + 1) abs (ge_storage_cmov_w32 adds e (b2z (index =? abs)))
  end.
(** Lines 205-278: the inner loop over the blocks.  The state is (r, adds, first);
    r is not read while first is set. *)
Fixpoint gen_blocks_w32 (c : gen_ctx_w32) (recoded : list Z) (tabs : list (list ge_storage_w32)) (bit_pos : Z)
    (st : gej_w32 * ge_storage_w32 * bool) : gej_w32 * ge_storage_w32 * bool :=
  match tabs with
  | [] => st
  | tab :: tabs' =>
    let '(r, adds, first) := st in
    let bits := gen_bits 6 recoded 0 bit_pos 0 in
    let bit_pos := bit_pos + 6 * 4 in
    let sign := Z.land (Z.shiftr bits 5) 1 in
    let abs := Z.land (Z.lxor bits (w32 (- sign))) 31 in
    let adds := gen_lookup_w32 tab 0 abs adds in
    let add := ge_from_storage_w32 adds in
    let neg := f26_negate (gy_w32 add) 1 in
    let add := mkge_w32 (gx_w32 add) (f26_cmov (gy_w32 add) neg sign) (ginf_w32 add) in
    let r := if first then gej_rescale_w32 (gej_set_ge_w32 add) (g_proj_blind_w32 c) else gej_add_ge_w32 r add in
    gen_blocks_w32 c recoded tabs' bit_pos (r, adds, false)
  end.
(** Lines 201-283: the outer loop over comb_off = k, ..., 0. *)
Fixpoint gen_outer_w32 (k : nat) (c : gen_ctx_w32) (tabs : list (list ge_storage_w32)) (recoded : list Z) (st : gej_w32 * ge_storage_w32 * bool) : gej_w32 :=
  let '(r, adds, first) := gen_blocks_w32 c recoded tabs (Z.of_nat k) st in
  match k with
  | O => r
  | S k' => gen_outer_w32 k' c tabs recoded (gej_double_w32 r, adds, first)
  end.
(** src/ecmult_gen_impl.h:54-282 secp256k1_ecmult_gen. *)
Definition ecmult_gen_w32 (c : gen_ctx_w32) (gn : sc8) : gej_w32 :=
  let adds := mkges_w32 (mks26 0 0 0 0 0 0 0 0) (mks26 0 0 0 0 0 0 0 0) in
  let d := s8_add (g_scalar_offset_w32 c) gn in
  let recoded := gen_recode_w32 d in
  let r := gen_outer_w32 3 c gen_prec_table_w32 recoded (gej_infinity_w32, adds, true) in
  gej_add_ge_w32 r (g_ge_offset_w32 c).
(** src/ecmult_gen_impl.h:285-339 secp256k1_ecmult_gen_blind; [None] is a NULL seed. *)
Definition ecmult_gen_blind_w32 (c : gen_ctx_w32) (seed : option (list Z)) : gen_ctx_w32 :=
  let diff := gen_scalar_diff_w32 in
  match seed with
  | None => mkgen_w32 (g_built_w32 c) (s8_add s8_one diff) (ge_neg_w32 ge_const_g_w32) f26_one
  | Some seed32 =>
    let keydata := s8_get_b32 (g_scalar_offset_w32 c) ++ seed32 in
    let rng := rfc6979_initialize keydata in
    let (rng, nonce32) := rfc6979_generate rng 32 in
    let f := f26_set_b32_mod nonce32 in
    let f := f26_cmov f f26_one (b2z (f26_normalizes_to_zero f)) in
    let c := mkgen_w32 (g_built_w32 c) (g_scalar_offset_w32 c) (g_ge_offset_w32 c) f in
    let (rng, nonce32) := rfc6979_generate rng 32 in
    let b := fst (s8_set_b32 nonce32) in
    let b := s8_cmov b s8_one (b2z (s8_is_zero b)) in
    let gb := ecmult_gen_w32 c b in
    let b := s8_negate b in
    mkgen_w32 (g_built_w32 c) (s8_add b diff) (ge_set_gej_w32 gb) (g_proj_blind_w32 c)
  end.
(** src/ecmult_gen_impl.h:17-20 secp256k1_ecmult_gen_context_build.  The context
    memory before the call is [c] (its contents do not matter). *)
Definition gen_context_build_w32 (c : gen_ctx_w32) : gen_ctx_w32 :=
  let c := ecmult_gen_blind_w32 c None in
  mkgen_w32 true (g_scalar_offset_w32 c) (g_ge_offset_w32 c) (g_proj_blind_w32 c).
(** src/ecmult_gen_impl.h:26-31 secp256k1_ecmult_gen_context_clear. *)
Definition gen_context_clear_w32 (c : gen_ctx_w32) : gen_ctx_w32 :=
  mkgen_w32 false (s8_set_int 0) (mkge_w32 (f26_set_int 0) (f26_set_int 0) false) (f26_set_int 0).
