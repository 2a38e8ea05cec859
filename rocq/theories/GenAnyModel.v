(** Model of the generator multiplication for every table configuration
    (src/ecmult_gen.h, src/ecmult_gen_impl.h with COMB_BLOCKS and COMB_TEETH as
    parameters) and of the program that computes its table
    (src/ecmult_gen_compute_table_impl.h).  GenModel.v is the instance (11, 6) with the
    table that is checked in. *)
Require Import ZArith List Bool.
From Verif Require Import Word Spec FieldModel ScalarModel GroupModel HashModel GenModel.
Import ListNotations.
Local Open Scope Z_scope.

(** src/ecmult_gen.h:64-76: COMB_BLOCKS and COMB_TEETH. *)
Record comb : Type := mkcomb { blocks : nat; teeth : nat }.
(** src/util.h:180 CEIL_DIV. *)
Definition ceil_div (x y : nat) : nat := (1 + (x - 1) / y)%nat.
(** src/ecmult_gen.h:78 COMB_SPACING, with COMB_RANGE 256. *)
Definition spacing (g : comb) : nat := ceil_div 256 (blocks g * teeth g).
(** src/ecmult_gen.h:84 COMB_BITS. *)
Definition bits_covered (g : comb) : nat := (blocks g * teeth g * spacing g)%nat.
(** src/ecmult_gen.h:86 COMB_POINTS. *)
Definition points (g : comb) : nat := (2 ^ (teeth g - 1))%nat.
(** src/ecmult_gen.h:89-108: the checks that stop the compilation. *)
Definition comb_compiles (g : comb) : bool :=
  ((1 <=? blocks g) && (blocks g <=? 256) && ((1 <=? teeth g) && (teeth g <=? 8)) &&
   negb (bits_covered g <? 256) &&
   negb (256 <=? (blocks g - 1) * teeth g * spacing g) &&
   negb (256 <=? blocks g * (teeth g - 1) * spacing g))%nat.

(** ** The table (src/ecmult_gen_compute_table_impl.h:17-106 secp256k1_ecmult_gen_compute_table) *)
Fixpoint double_var_n (k : nat) (u : gej) : gej := match k with O => u | S k' => double_var_n k' (gej_double_var u) end.
(** Lines 31-39: the ladder that computes gen/2; [k] bits remain. *)
Fixpoint half_ladder (k : nat) (half : sc) (gen : ge) (u : gej) : gej :=
  match k with
  | O => u
  | S i =>
    let u := gej_double_var u in
    let u := if negb (sc_get_bits_limb32 half (Z.of_nat i) 1 =? 0) then gej_add_ge_var u gen else u in
    half_ladder i half gen u
  end.
(** Lines 52-69: the loop over the teeth of one block, [k] of them remaining; the state
    is (sum, u, ds), and ds is filled from its start. *)
Fixpoint tooth_loop (k : nat) (g : comb) (block tooth : nat) (sum u : gej) (ds : list gej) : gej * gej * list gej :=
  match k with
  | O => (sum, u, ds)
  | S k' =>
    let sum := gej_add_var sum u in
    let u := gej_double_var u in
    let ds := ds ++ [u] in
    let u := if negb (block + tooth =? blocks g + teeth g - 2)%nat then double_var_n (spacing g - 1) u else u in
    tooth_loop k' g block (tooth + 1)%nat sum u ds
  end.
(** Lines 84-86: [k] entries remaining of one doubling of the range; vs_pos is the length of [vs]. *)
Fixpoint stride_loop (k stride : nat) (d : gej) (vs : list gej) : list gej :=
  match k with
  | O => vs
  | S k' => stride_loop k' stride d (vs ++ [gej_add_var (nth (length vs - stride) vs gej_infinity) d])
  end.
(** Lines 81-88: the loop over the teeth but the last one. *)
Fixpoint range_loop (k tooth : nat) (ds : list gej) (vs : list gej) : list gej :=
  match k with
  | O => vs
  | S k' => let stride := (2 ^ tooth)%nat in range_loop k' (tooth + 1)%nat ds (stride_loop stride stride (nth tooth ds gej_infinity) vs)
  end.
(** Lines 49-89: the loop over the blocks, [k] of them remaining. *)
Fixpoint block_loop (k : nat) (g : comb) (block : nat) (u : gej) (vs : list gej) : list gej :=
  match k with
  | O => vs
  | S k' =>
    let '(sum, u, ds) := tooth_loop (teeth g) g block 0 gej_infinity u [] in
    let vs := vs ++ [gej_neg sum] in
    let vs := range_loop (teeth g - 1) 0 ds vs in
    block_loop k' g (block + 1)%nat u vs
  end.
(** src/ecmult_gen_compute_table_impl.h:17-106 secp256k1_ecmult_gen_compute_table.  The
    allocations are assumed to succeed (checked_malloc aborts otherwise). *)
Definition compute_table (gen : ge) (g : comb) : list ge_storage :=
  let half := sc_half sc_one in
  let u := half_ladder 256 half gen gej_infinity in
  let vs := block_loop (blocks g) g 0 u [] in
  map ge_to_storage (ge_set_all_gej_var vs).
(** src/precompute_ecmult_gen.c:27-56 print_table: row [block] of the array
    secp256k1_ecmult_gen_prec_table[COMB_BLOCKS][COMB_POINTS] holds the entries
    block * points, ... of the computed list (printing and recompiling the constants is
    taken to be faithful). *)
Definition prec_table (g : comb) : list (list ge_storage) :=
  map (fun b => firstn (points g) (skipn (b * points g) (compute_table ge_const_g g))) (seq 0 (blocks g)).

(** ** The multiplication *)
(** src/ecmult_gen_impl.h:36-52 secp256k1_ecmult_gen_scalar_diff. *)
Definition any_scalar_diff (g : comb) : sc :=
  let neghalf := sc_negate (sc_half sc_one) in
  let diff := double_n (bits_covered g - 1) sc_one in
  sc_add diff neghalf.
(** src/ecmult_gen_impl.h:63-63, 111-114: the recoded array has (COMB_BITS + 31) >> 5 words,
    of which at most the first 8 are written. *)
Definition any_recode (g : comb) (d : sc) : list Z :=
  let words := ((bits_covered g + 31) / 32)%nat in
  map (fun i => sc_get_bits_limb32 d (32 * Z.of_nat i) 32) (seq 0 (Nat.min 8 words)) ++ repeat 0 (words - 8).
(** src/ecmult_gen_impl.h:208-233: gathering the bits of one block. *)
Fixpoint any_bits (k : nat) (g : comb) (recoded : list Z) (tooth bit_pos bits : Z) : Z :=
  match k with
  | O => bits
  | S k' =>
    let bitdata := rotr32 (nth (Z.to_nat (Z.shiftr bit_pos 5)) recoded 0) (Z.land bit_pos 31) in
    let bits := Z.land bits (w32 (Z.lnot (Z.shiftl 1 tooth))) in
    let bits := Z.lxor bits (w32 (Z.shiftl bitdata tooth)) in
    any_bits k' g recoded (tooth + 1) (bit_pos + Z.of_nat (spacing g)) bits
  end.
(** src/ecmult_gen_impl.h:197-266: the inner loop over the blocks; the state is (r, adds, first). *)
Fixpoint any_blocks (g : comb) (c : gen_ctx) (recoded : list Z) (tabs : list (list ge_storage)) (bit_pos : Z)
    (st : gej * ge_storage * bool) : gej * ge_storage * bool :=
  match tabs with
  | [] => st
  | tab :: tabs' =>
    let '(r, adds, first) := st in
    let bits := any_bits (teeth g) g recoded 0 bit_pos 0 in
    let bit_pos := bit_pos + Z.of_nat (teeth g) * Z.of_nat (spacing g) in
    let sign := Z.land (Z.shiftr bits (Z.of_nat (teeth g) - 1)) 1 in
    let abs := Z.land (Z.lxor bits (w32 (- sign))) (Z.of_nat (points g) - 1) in
    let adds := gen_lookup tab 0 abs adds in
    let add := ge_from_storage adds in
    let neg := fe_negate (gy add) 1 in
    let add := mkge (gx add) (fe_cmov (gy add) neg sign) (ginf add) in
    let r := if first then gej_rescale (gej_set_ge add) (g_proj_blind c) else gej_add_ge r add in
    any_blocks g c recoded tabs' bit_pos (r, adds, false)
  end.
(** src/ecmult_gen_impl.h:191-271: the outer loop over comb_off = k, ..., 0. *)
Fixpoint any_outer (k : nat) (g : comb) (c : gen_ctx) (tabs : list (list ge_storage)) (recoded : list Z) (st : gej * ge_storage * bool) : gej :=
  let '(r, adds, first) := any_blocks g c recoded tabs (Z.of_nat k) st in
  match k with
  | O => r
  | S k' => any_outer k' g c tabs recoded (gej_double r, adds, first)
  end.
(** src/ecmult_gen_impl.h:54-282 secp256k1_ecmult_gen with the table [tabs]. *)
Definition any_ecmult_gen (g : comb) (tabs : list (list ge_storage)) (c : gen_ctx) (gn : sc) : gej :=
  let adds := mkges (mkfes 0 0 0 0) (mkfes 0 0 0 0) in
  let d := sc_add (g_scalar_offset c) gn in
  let recoded := any_recode g d in
  let r := any_outer (spacing g - 1) g c tabs recoded (gej_infinity, adds, true) in
  gej_add_ge r (g_ge_offset c).
(** src/ecmult_gen_impl.h:285-339 secp256k1_ecmult_gen_blind; [None] is a NULL seed. *)
Definition any_blind (g : comb) (tabs : list (list ge_storage)) (c : gen_ctx) (seed : option (list Z)) : gen_ctx :=
  let diff := any_scalar_diff g in
  match seed with
  | None => mkgen (g_built c) (sc_add sc_one diff) (ge_neg ge_const_g) fe_one
  | Some seed32 =>
    let keydata := sc_get_b32 (g_scalar_offset c) ++ seed32 in
    let rng := rfc6979_initialize keydata in
    let (rng, nonce32) := rfc6979_generate rng 32 in
    let f := fe_set_b32_mod nonce32 in
    let f := fe_cmov f fe_one (b2z (fe_normalizes_to_zero f)) in
    let c := mkgen (g_built c) (g_scalar_offset c) (g_ge_offset c) f in
    let (rng, nonce32) := rfc6979_generate rng 32 in
    let b := fst (sc_set_b32 nonce32) in
    let b := sc_cmov b sc_one (b2z (sc_is_zero b)) in
    let gb := any_ecmult_gen g tabs c b in
    let b := sc_negate b in
    mkgen (g_built c) (sc_add b diff) (ge_set_gej gb) (g_proj_blind c)
  end.
(** src/ecmult_gen_impl.h:17-20 secp256k1_ecmult_gen_context_build. *)
Definition any_context_build (g : comb) (tabs : list (list ge_storage)) (c : gen_ctx) : gen_ctx :=
  let c := any_blind g tabs c None in
  mkgen true (g_scalar_offset c) (g_ge_offset c) (g_proj_blind c).
