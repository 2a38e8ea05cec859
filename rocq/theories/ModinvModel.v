(** Model of src/modinv64_impl.h: modular inversion by division steps on five signed 62-bit limbs,
    and of the inversions of scalars and field elements built on it.  Signed arithmetic that would
    overflow, a shift by more than the width, an index outside an array and running out of fuel all
    give [None].  The VERIFY checks are not modelled. *)
Require Import ZArith List Bool.
From Verif Require Import Word Spec FieldModel ScalarModel Int128Model.
Import ListNotations.
Local Open Scope Z_scope.
Local Open Scope c_scope.

(** src/modinv64.h:19-21 (secp256k1_modinv64_signed62): five limbs, least significant first. *)
Definition signed62 := list Z.
Definition lm (a : signed62) (i : nat) : Z := nth i a 0.
(** src/modinv64.h:23-29 (secp256k1_modinv64_modinfo). *)
Record modinfo : Type := mkmod { modulus : signed62; modulus_inv62 : Z }.
(** src/modinv64_impl.h:20-22 (secp256k1_modinv64_trans2x2). *)
Record trans2x2 : Type := mkt { tu : Z; tv : Z; tq : Z; tr : Z }.
(** UINT64_MAX >> 2, as in src/modinv64_impl.h:89 and :412. *)
Definition M62 : Z := 2 ^ 62 - 1.

(** A signed 128-bit result and a signed 32-bit result. *)
Definition i128 (x : Z) : option Z := if (- 2 ^ 127 <=? x) && (x <? 2 ^ 127) then Some x else None.
Definition i32 (x : Z) : option Z := if (- 2 ^ 31 <=? x) && (x <? 2 ^ 31) then Some x else None.
(** src/int128_native_impl.h:49-51 secp256k1_i128_mul. *)
Definition i128_mul (a b : Z) : option Z := i128 (a * b).
(** src/int128_native_impl.h:53-57 secp256k1_i128_accum_mul. *)
Definition i128_accum_mul (r a b : Z) : option Z := let? ab := i128 (a * b) in i128 (r + ab).
(** src/int128_native_impl.h:66-69 secp256k1_i128_rshift. *)
Definition i128_rshift (r k : Z) : Z := r >>! k.
(** src/int128_native_impl.h:71-73 secp256k1_i128_to_u64. *)
Definition i128_to_u64 (a : Z) : Z := w64 a.
(** src/int128_native_impl.h:75-78 secp256k1_i128_to_i64 (without the VERIFY check the conversion wraps). *)
Definition i128_to_i64 (a : Z) : Z := to_i64 a.

(** src/modinv64_impl.h:104-119: first half of secp256k1_modinv64_normalize_62 for one limb. *)
Definition norm_limb (r m cond_add : Z) : option Z := i64 (r + (m &! cond_add)).
Definition neg_limb (r cond_negate : Z) : option Z := i64 ((r ^! cond_negate) - cond_negate).
(** src/modinv64_impl.h:121-125 and :135-139: propagate the top bits. *)
Definition propagate (r0 r1 r2 r3 r4 : Z) : option signed62 :=
  let? r1 := i64 (r1 + (r0 >>! 62)) in let r0 := r0 &! M62 in
  let? r2 := i64 (r2 + (r1 >>! 62)) in let r1 := r1 &! M62 in
  let? r3 := i64 (r3 + (r2 >>! 62)) in let r2 := r2 &! M62 in
  let? r4 := i64 (r4 + (r3 >>! 62)) in let r3 := r3 &! M62 in
  Some [r0; r1; r2; r3; r4].
(** src/modinv64_impl.h:88-154 secp256k1_modinv64_normalize_62. *)
Definition normalize_62 (r : signed62) (sign : Z) (mi : modinfo) : option signed62 :=
  let m := modulus mi in
  let cond_add := lm r 4 >>! 63 in
  let? r0 := norm_limb (lm r 0) (lm m 0) cond_add in
  let? r1 := norm_limb (lm r 1) (lm m 1) cond_add in
  let? r2 := norm_limb (lm r 2) (lm m 2) cond_add in
  let? r3 := norm_limb (lm r 3) (lm m 3) cond_add in
  let? r4 := norm_limb (lm r 4) (lm m 4) cond_add in
  let cond_negate := sign >>! 63 in
  let? r0 := neg_limb r0 cond_negate in
  let? r1 := neg_limb r1 cond_negate in
  let? r2 := neg_limb r2 cond_negate in
  let? r3 := neg_limb r3 cond_negate in
  let? r4 := neg_limb r4 cond_negate in
  let? r := propagate r0 r1 r2 r3 r4 in
  let cond_add := lm r 4 >>! 63 in
  let? r0 := norm_limb (lm r 0) (lm m 0) cond_add in
  let? r1 := norm_limb (lm r 1) (lm m 1) cond_add in
  let? r2 := norm_limb (lm r 2) (lm m 2) cond_add in
  let? r3 := norm_limb (lm r 3) (lm m 3) cond_add in
  let? r4 := norm_limb (lm r 4) (lm m 4) cond_add in
  propagate r0 r1 r2 r3 r4.

(** The variables of the loop in src/modinv64_impl.h:180-211. *)
Record dvars : Type := mkdv { dzeta : Z; df : Z; dg : Z; du : Z; dv : Z; dq : Z; dr : Z }.
(** src/modinv64_impl.h:180-211: one division step (the unsigned words wrap). *)
Definition divstep_59 (s : dvars) : dvars :=
  let mask1 := w64 (dzeta s >>! 63) in
  let mask2 := w64 (- (dg s &! 1)) in
  let x := (df s ^! mask1) -! mask1 in
  let y := (du s ^! mask1) -! mask1 in
  let z := (dv s ^! mask1) -! mask1 in
  let g := dg s +! (x &! mask2) in
  let q := dq s +! (y &! mask2) in
  let r := dr s +! (z &! mask2) in
  let mask1 := mask1 &! mask2 in
  let zeta := to_i64 ((w64 (dzeta s) ^! mask1) -! 1) in
  let f := df s +! (g &! mask1) in
  let u := du s +! (q &! mask1) in
  let v := dv s +! (r &! mask1) in
  mkdv zeta f (g >>! 1) (u <<! 1) (v <<! 1) q r.
Fixpoint divstep_loop (k : nat) (s : dvars) : dvars :=
  match k with O => s | S k' => divstep_loop k' (divstep_59 s) end.
(** src/modinv64_impl.h:167-227 secp256k1_modinv64_divsteps_59: new zeta and matrix. *)
Definition divsteps_59 (zeta f0 g0 : Z) : Z * trans2x2 :=
  let s := divstep_loop 59 (mkdv zeta f0 g0 8 0 0 8) in
  (dzeta s, mkt (to_i64 (du s)) (to_i64 (dv s)) (to_i64 (dq s)) (to_i64 (dr s))).

(** src/util.h:382-397 secp256k1_ctz64_var, the compiler builtin: number of trailing zero bits of a
    non-zero word. *)
Fixpoint ctz_pos (x : positive) : Z :=
  match x with xO x' => 1 + ctz_pos x' | _ => 0 end.
Definition ctz64 (x : Z) : option Z := match x with Zpos q => Some (ctz_pos q) | _ => None end.
(** src/util.h:354-359 (debruijn). *)
Definition debruijn : list Z :=
  [0; 1; 2; 53; 3; 7; 54; 27; 4; 38; 41; 8; 34; 55; 48; 28;
   62; 5; 39; 46; 44; 42; 22; 9; 24; 35; 59; 56; 49; 18; 29; 11;
   63; 52; 6; 26; 37; 40; 33; 47; 61; 45; 43; 21; 23; 58; 17; 10;
   51; 25; 36; 32; 60; 20; 57; 16; 50; 31; 19; 15; 30; 14; 13; 12].
(** src/util.h:353-361 secp256k1_ctz64_var_debruijn. *)
Definition ctz64_debruijn (x : Z) : option Z :=
  nth_error debruijn (Z.to_nat (((x &! w64 (- x)) *! 0x022FDD63CC95386D) >>! 58)).
(** src/util.h:336-340 (debruijn). *)
Definition debruijn32 : list Z :=
  [0x00; 0x01; 0x02; 0x18; 0x03; 0x13; 0x06; 0x19; 0x16; 0x04; 0x14; 0x0A; 0x10; 0x07; 0x0C; 0x1A;
   0x1F; 0x17; 0x12; 0x05; 0x15; 0x09; 0x0F; 0x0B; 0x1E; 0x11; 0x08; 0x0E; 0x1D; 0x0D; 0x1C; 0x1B].
(** src/util.h:341-348 secp256k1_ctz32_var_debruijn. *)
Definition ctz32_debruijn (x : Z) : option Z :=
  nth_error debruijn32 (Z.to_nat (w32 ((x &! w32 (- x)) * 0x04D7651F) >>! 27)).

(** The variables of the loop in src/modinv64_impl.h:246-296. *)
Record vvars : Type := mkvv { veta : Z; vf : Z; vg : Z; vu : Z; vv : Z; vq : Z; vr : Z }.
(** src/modinv64_impl.h:264-291: the multiple of f to add to g, after the swap if eta is negative. *)
Definition choose_w (s : vvars) (i : Z) (bits : Z) : option Z :=
  let? e := i32 (veta s) in
  let? e1 := i32 (e + 1) in
  let limit := if e1 >? i then i else e1 in
  if (0 <? limit) && (limit <=? 64) then
    let m := ((2 ^ 64 - 1) >>! (64 - limit)) &! bits in
    if bits =? 63 then
      Some (w32 ((vf s *! vg s *! (vf s *! vf s -! 2)) &! m))
    else
      let w := w32 (vf s +! (((vf s +! 1) &! 4) <<! 1)) in
      Some (w32 ((w32 (- w) *! vg s) &! m))
  else None.
Fixpoint divsteps_var_loop (fuel : nat) (i : Z) (s : vvars) : option vvars :=
  match fuel with
  | O => None
  | S fuel' =>
    let? zeros := ctz64 (vg s |! ((2 ^ 64 - 1) <<! i)) in
    let g := vg s >>! zeros in
    let u := vu s <<! zeros in
    let v := vv s <<! zeros in
    let? eta := i64 (veta s - zeros) in
    let i := i - zeros in
    let s := mkvv eta (vf s) g u v (vq s) (vr s) in
    if i =? 0 then Some s
    else
      let? e := (if veta s <? 0 then
                   let? ne := i64 (- veta s) in
                   let s := mkvv ne (vg s) (w64 (- vf s)) (vq s) (vr s) (w64 (- vu s)) (w64 (- vv s)) in
                   let? w := choose_w s i 63 in Some (s, w)
                 else let? w := choose_w s i 15 in Some (s, w)) in
      let (s, w) := e : vvars * Z in
      divsteps_var_loop fuel' i
        (mkvv (veta s) (vf s) (vg s +! vf s *! w) (vu s) (vv s) (vq s +! vu s *! w) (vr s +! vv s *! w))
  end.
(** src/modinv64_impl.h:239-310 secp256k1_modinv64_divsteps_62_var: new eta and matrix.  Every turn but
    the first takes at least one step, so 64 turns are enough. *)
Definition divsteps_62_var (eta f0 g0 : Z) : option (Z * trans2x2) :=
  let? s := divsteps_var_loop 64 62 (mkvv eta f0 g0 1 0 0 1) in
  Some (veta s, mkt (to_i64 (vu s)) (to_i64 (vv s)) (to_i64 (vq s)) (to_i64 (vr s))).

(** src/modinv64_impl.h:444-485: add one limb's products; the modulus limb is skipped when it is zero
    (in limbs 1 to 3; in limbs 0 and 4 it is always added). *)
Definition de_limb (c u v d e m md : Z) (skip : bool) : option Z :=
  let? c := i128_accum_mul c u d in
  let? c := i128_accum_mul c v e in
  if skip && (m =? 0) then Some c else i128_accum_mul c m md.
(** src/modinv64_impl.h:425-488 for one row (u, v) of the matrix: the new d (and with (q, r) the new
    e).  The code interleaves the two rows, which share no variable they write. *)
Definition de_row (u v : Z) (d e : signed62) (mi : modinfo) : option signed62 :=
  let m := modulus mi in
  let sd := lm d 4 >>! 63 in
  let se := lm e 4 >>! 63 in
  let? md := i64 ((u &! sd) + (v &! se)) in
  let? c := i128_mul u (lm d 0) in
  let? c := i128_accum_mul c v (lm e 0) in
  let md := to_i64 (w64 md -! ((modulus_inv62 mi *! i128_to_u64 c +! w64 md) &! M62)) in
  let? c := i128_accum_mul c (lm m 0) md in
  let c := i128_rshift c 62 in
  let? c := de_limb c u v (lm d 1) (lm e 1) (lm m 1) md true in
  let o0 := i128_to_u64 c &! M62 in let c := i128_rshift c 62 in
  let? c := de_limb c u v (lm d 2) (lm e 2) (lm m 2) md true in
  let o1 := i128_to_u64 c &! M62 in let c := i128_rshift c 62 in
  let? c := de_limb c u v (lm d 3) (lm e 3) (lm m 3) md true in
  let o2 := i128_to_u64 c &! M62 in let c := i128_rshift c 62 in
  let? c := de_limb c u v (lm d 4) (lm e 4) (lm m 4) md false in
  let o3 := i128_to_u64 c &! M62 in let c := i128_rshift c 62 in
  Some [to_i64 o0; to_i64 o1; to_i64 o2; to_i64 o3; i128_to_i64 c].
(** src/modinv64_impl.h:411-494 secp256k1_modinv64_update_de_62. *)
Definition update_de_62 (d e : signed62) (t : trans2x2) (mi : modinfo) : option (signed62 * signed62) :=
  let? d' := de_row (tu t) (tv t) d e mi in
  let? e' := de_row (tq t) (tr t) d e mi in
  Some (d', e').

(** src/modinv64_impl.h:514-541: add one limb's products. *)
Definition fg_limb (c u v f g : Z) : option Z :=
  let? c := i128_accum_mul c u f in i128_accum_mul c v g.
(** src/modinv64_impl.h:506-544 for one row of the matrix (the code interleaves the rows). *)
Definition fg_row (u v : Z) (f g : signed62) : option signed62 :=
  let? c := i128_mul u (lm f 0) in
  let? c := i128_accum_mul c v (lm g 0) in
  let c := i128_rshift c 62 in
  let? c := fg_limb c u v (lm f 1) (lm g 1) in
  let o0 := i128_to_u64 c &! M62 in let c := i128_rshift c 62 in
  let? c := fg_limb c u v (lm f 2) (lm g 2) in
  let o1 := i128_to_u64 c &! M62 in let c := i128_rshift c 62 in
  let? c := fg_limb c u v (lm f 3) (lm g 3) in
  let o2 := i128_to_u64 c &! M62 in let c := i128_rshift c 62 in
  let? c := fg_limb c u v (lm f 4) (lm g 4) in
  let o3 := i128_to_u64 c &! M62 in let c := i128_rshift c 62 in
  Some [to_i64 o0; to_i64 o1; to_i64 o2; to_i64 o3; i128_to_i64 c].
(** src/modinv64_impl.h:500-545 secp256k1_modinv64_update_fg_62. *)
Definition update_fg_62 (f g : signed62) (t : trans2x2) : option (signed62 * signed62) :=
  let? f' := fg_row (tu t) (tv t) f g in
  let? g' := fg_row (tq t) (tr t) f g in
  Some (f', g').

(** src/modinv64_impl.h:572-584: the loop over limbs 1 to len-1 for one row, writing limbs 0 to len-1. *)
Fixpoint fg_row_var_loop (c u v : Z) (fs gs : list Z) : option (list Z) :=
  match fs, gs with
  | fi :: fs', gi :: gs' =>
    let? c := fg_limb c u v fi gi in
    let o := to_i64 (i128_to_u64 c &! M62) in
    let? rest := fg_row_var_loop (i128_rshift c 62) u v fs' gs' in
    Some (o :: rest)
  | _, _ => Some [i128_to_i64 c]
  end.
Definition fg_row_var (len : nat) (u v : Z) (f g : signed62) : option (list Z) :=
  let? c := i128_mul u (lm f 0) in
  let? c := i128_accum_mul c v (lm g 0) in
  fg_row_var_loop (i128_rshift c 62) u v (firstn (len - 1) (tl f)) (firstn (len - 1) (tl g)).
(** src/modinv64_impl.h:553-585 secp256k1_modinv64_update_fg_62_var; limbs from len on are left alone. *)
Definition update_fg_62_var (len : nat) (f g : signed62) (t : trans2x2) : option (signed62 * signed62) :=
  let? f' := fg_row_var len (tu t) (tv t) f g in
  let? g' := fg_row_var len (tq t) (tr t) f g in
  Some (f' ++ skipn len f, g' ++ skipn len g).

(** src/modinv64_impl.h:598-616: the ten rounds. *)
Fixpoint modinv64_loop (k : nat) (zeta : Z) (d e f g : signed62) (mi : modinfo)
    : option (signed62 * signed62 * signed62) :=
  match k with
  | O => Some (d, f, g)
  | S k' =>
    let (zeta, t) := divsteps_59 zeta (w64 (lm f 0)) (w64 (lm g 0)) in
    let? de := update_de_62 d e t mi in
    let? fg := update_fg_62 f g t in
    modinv64_loop k' zeta (fst de) (snd de) (fst fg) (snd fg) mi
  end.
(** src/modinv64_impl.h:588-634 secp256k1_modinv64. *)
Definition modinv64 (x : signed62) (mi : modinfo) : option signed62 :=
  let? r := modinv64_loop 10 (-1) [0; 0; 0; 0; 0] [1; 0; 0; 0; 0] (modulus mi) x mi in
  let '(d, f, _) := r in
  normalize_62 d (lm f 4) mi.

(** src/modinv64_impl.h:664-673: g is zero. *)
Definition g_is_zero (len : nat) (g : signed62) : bool :=
  (lm g 0 =? 0) && (fold_left Z.lor (firstn (len - 1) (tl g)) 0 =? 0).
(** src/modinv64_impl.h:682-686: the sign of the top limb moves into the limb below. *)
Definition absorb_top (len : nat) (a : signed62) : signed62 :=
  firstn (len - 2) a ++ [to_i64 (w64 (lm a (len - 2)) |! (w64 (lm a (len - 1)) <<! 62))] ++ skipn (len - 1) a.
(** src/modinv64_impl.h:651-693: rounds of 62 steps until g is zero. *)
Fixpoint modinv64_var_loop (fuel : nat) (len : nat) (eta : Z) (d e f g : signed62) (mi : modinfo)
    : option (signed62 * Z) :=
  match fuel with
  | O => None
  | S fuel' =>
    let? et := divsteps_62_var eta (w64 (lm f 0)) (w64 (lm g 0)) in
    let (eta, t) := et : Z * trans2x2 in
    let? de := update_de_62 d e t mi in
    let (d, e) := de : signed62 * signed62 in
    let? fg := update_fg_62_var len f g t in
    let (f, g) := fg : signed62 * signed62 in
    if g_is_zero len g then Some (d, lm f (len - 1))
    else
      let fn := lm f (len - 1) in
      let gn := lm g (len - 1) in
      let cond := ((Z.of_nat len - 2) >>! 63) |! (fn ^! (fn >>! 63)) |! (gn ^! (gn >>! 63)) in
      if cond =? 0
      then modinv64_var_loop fuel' (len - 1) eta d e (absorb_top len f) (absorb_top len g) mi
      else modinv64_var_loop fuel' len eta d e f g mi
  end.
(** src/modinv64_impl.h:637-710 secp256k1_modinv64_var; [fuel] bounds the rounds of the endless loop. *)
Definition modinv64_var (fuel : nat) (x : signed62) (mi : modinfo) : option signed62 :=
  let? r := modinv64_var_loop fuel 5 (-1) [0; 0; 0; 0; 0] [1; 0; 0; 0; 0] (modulus mi) x mi in
  normalize_62 (fst r) (snd r) mi.

(** src/scalar_4x64_impl.h:927-945 secp256k1_scalar_from_signed62. *)
Definition scalar_from_signed62 (a : signed62) : sc :=
  let a0 := w64 (lm a 0) in let a1 := w64 (lm a 1) in let a2 := w64 (lm a 2) in
  let a3 := w64 (lm a 3) in let a4 := w64 (lm a 4) in
  mksc (a0 |! (a1 <<! 62)) ((a1 >>! 2) |! (a2 <<! 60)) ((a2 >>! 4) |! (a3 <<! 58)) ((a3 >>! 6) |! (a4 <<! 56)).
(** src/scalar_4x64_impl.h:947-957 secp256k1_scalar_to_signed62. *)
Definition scalar_to_signed62 (a : sc) : signed62 :=
  [to_i64 (d0 a &! M62);
   to_i64 (((d0 a >>! 62) |! (d1 a <<! 2)) &! M62);
   to_i64 (((d1 a >>! 60) |! (d2 a <<! 4)) &! M62);
   to_i64 (((d2 a >>! 58) |! (d3 a <<! 6)) &! M62);
   to_i64 (d3 a >>! 56)].
(** src/scalar_4x64_impl.h:959-962 (secp256k1_const_modinfo_scalar). *)
Definition modinfo_scalar : modinfo :=
  mkmod [0x3FD25E8CD0364141; 0x2ABB739ABD2280EE; -0x15; 0; 256] 0x34F20099AA774EC1.
(** src/scalar_4x64_impl.h:964-977 secp256k1_scalar_inverse. *)
Definition scalar_inverse (x : sc) : option sc :=
  let? s := modinv64 (scalar_to_signed62 x) modinfo_scalar in Some (scalar_from_signed62 s).
(** src/scalar_4x64_impl.h:979-992 secp256k1_scalar_inverse_var. *)
Definition scalar_inverse_var (fuel : nat) (x : sc) : option sc :=
  let? s := modinv64_var fuel (scalar_to_signed62 x) modinfo_scalar in Some (scalar_from_signed62 s).

(** src/field_5x52_impl.h:443-461 secp256k1_fe_from_signed62. *)
Definition fe_from_signed62 (a : signed62) : fe :=
  let a0 := w64 (lm a 0) in let a1 := w64 (lm a 1) in let a2 := w64 (lm a 2) in
  let a3 := w64 (lm a 3) in let a4 := w64 (lm a 4) in
  mkfe (a0 &! M52) (((a0 >>! 52) |! (a1 <<! 10)) &! M52) (((a1 >>! 42) |! (a2 <<! 20)) &! M52)
       (((a2 >>! 32) |! (a3 <<! 30)) &! M52) ((a3 >>! 22) |! (a4 <<! 40)).
(** src/field_5x52_impl.h:463-472 secp256k1_fe_to_signed62. *)
Definition fe_to_signed62 (a : fe) : signed62 :=
  [to_i64 ((n0 a |! (n1 a <<! 52)) &! M62);
   to_i64 (((n1 a >>! 10) |! (n2 a <<! 42)) &! M62);
   to_i64 (((n2 a >>! 20) |! (n3 a <<! 32)) &! M62);
   to_i64 (((n3 a >>! 30) |! (n4 a <<! 22)) &! M62);
   to_i64 (n4 a >>! 40)].
(** src/field_5x52_impl.h:474-477 (secp256k1_const_modinfo_fe). *)
Definition modinfo_fe : modinfo := mkmod [-0x1000003D1; 0; 0; 0; 256] 0x27C7F6E22DDACACF.
(** src/field_5x52_impl.h:479-487 secp256k1_fe_impl_inv. *)
Definition fe_impl_inv (x : fe) : option fe :=
  let? s := modinv64 (fe_to_signed62 (fe_normalize x)) modinfo_fe in Some (fe_from_signed62 s).
(** src/field_5x52_impl.h:489-497 secp256k1_fe_impl_inv_var. *)
Definition fe_impl_inv_var (fuel : nat) (x : fe) : option fe :=
  let? s := modinv64_var fuel (fe_to_signed62 (fe_normalize_var x)) modinfo_fe in Some (fe_from_signed62 s).
