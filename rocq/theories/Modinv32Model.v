(** Model of src/modinv32_impl.h, the modular inversion and the Jacobi symbol of the 32-bit build: division
    steps on nine signed 30-bit limbs; and of the inversions and the square test of the 32-bit scalars and
    field elements built on them.  Signed arithmetic that would overflow, a shift by more than the width,
    an index outside an array and running out of fuel all give [None].  The VERIFY checks are not modelled.
    Names follow ModinvModel.v and JacobiModel.v, whose records and list helpers are reused; straight-line
    code repeated limb by limb in the source is written here as a recursion over the list of limbs. *)
Require Import ZArith List Bool.
From Verif Require Import Word Word32 Spec FieldModel ScalarModel Int128Model ModinvModel JacobiModel Field32Model Scalar32Model.
Import ListNotations.
Local Open Scope Z_scope.
Local Open Scope c_scope.
Local Open Scope c32_scope.

(** src/modinv32.h:15-17 (secp256k1_modinv32_signed30): nine limbs, least significant first. *)
Definition signed30 := list Z.
(** src/modinv32.h:19-25 (secp256k1_modinv32_modinfo). *)
Record modinfo30 : Type := mkmod30 { modulus30 : signed30; modulus_inv30 : Z }.
(** UINT32_MAX >> 2, as in src/modinv32_impl.h:64 and :409. *)
Definition M30 : Z := 2 ^ 30 - 1.

(** src/modinv32_impl.h:85-94 and :117-126: add the modulus under a mask, limb by limb. *)
Fixpoint add_limbs30 (r m : list Z) (cond : Z) : option (list Z) :=
  match r, m with
  | x :: r', y :: m' => let? z := i32 (x + (y &! cond)) in let? rest := add_limbs30 r' m' cond in Some (z :: rest)
  | _, _ => Some []
  end.
(** src/modinv32_impl.h:95-104: negate under a mask, limb by limb. *)
Fixpoint neg_limbs30 (r : list Z) (cond : Z) : option (list Z) :=
  match r with
  | x :: r' => let? z := i32 ((x ^! cond) - cond) in let? rest := neg_limbs30 r' cond in Some (z :: rest)
  | [] => Some []
  end.
(** src/modinv32_impl.h:106-113 and :128-135: propagate the top bits; [x] is the current limb. *)
Fixpoint propagate30 (x : Z) (r : list Z) : option (list Z) :=
  match r with
  | [] => Some [x]
  | y :: r' => let? y := i32 (y + (x >>! 30)) in let? rest := propagate30 y r' in Some ((x &! M30) :: rest)
  end.
(** src/modinv32_impl.h:63-158 secp256k1_modinv32_normalize_30. *)
Definition normalize_30 (r : signed30) (sign : Z) (mi : modinfo30) : option signed30 :=
  let m := modulus30 mi in
  let? r := add_limbs30 r m (lm r 8 >>! 31) in
  let? r := neg_limbs30 r (sign >>! 31) in
  let? r := propagate30 (lm r 0) (tl r) in
  let? r := add_limbs30 r m (lm r 8 >>! 31) in
  propagate30 (lm r 0) (tl r).

(** src/modinv32_impl.h:191-221: one division step (the unsigned words wrap). *)
Definition divstep_30 (s : dvars) : dvars :=
  let mask1 := w32 (dzeta s >>! 31) in
  let mask2 := w32 (- (dg s &! 1)) in
  let x := (df s ^! mask1) -% mask1 in
  let y := (du s ^! mask1) -% mask1 in
  let z := (dv s ^! mask1) -% mask1 in
  let g := dg s +% (x &! mask2) in
  let q := dq s +% (y &! mask2) in
  let r := dr s +% (z &! mask2) in
  let mask1 := mask1 &! mask2 in
  let zeta := to_i32 ((w32 (dzeta s) ^! mask1) -% 1) in
  let f := df s +% (g &! mask1) in
  let u := du s +% (q &! mask1) in
  let v := dv s +% (r &! mask1) in
  mkdv zeta f (g >>! 1) (u <<% 1) (v <<% 1) q r.
Fixpoint divstep30_loop (k : nat) (s : dvars) : dvars :=
  match k with O => s | S k' => divstep30_loop k' (divstep_30 s) end.
(** src/modinv32_impl.h:179-234 secp256k1_modinv32_divsteps_30: new zeta and matrix. *)
Definition divsteps_30 (zeta f0 g0 : Z) : Z * trans2x2 :=
  let s := divstep30_loop 30 (mkdv zeta f0 g0 1 0 0 1) in
  (dzeta s, mkt (to_i32 (du s)) (to_i32 (dv s)) (to_i32 (dq s)) (to_i32 (dr s))).

(** src/util.h:364-379 secp256k1_ctz32_var, the compiler builtin. *)
Definition ctz32 (x : Z) : option Z := ctz64 x.
(** src/modinv32_impl.h:236-249 (secp256k1_modinv32_inv256). *)
Definition inv256 : list Z :=
  [0xFF; 0x55; 0x33; 0x49; 0xC7; 0x5D; 0x3B; 0x11; 0x0F; 0xE5; 0xC3; 0x59; 0xD7; 0xED; 0xCB; 0x21;
   0x1F; 0x75; 0x53; 0x69; 0xE7; 0x7D; 0x5B; 0x31; 0x2F; 0x05; 0xE3; 0x79; 0xF7; 0x0D; 0xEB; 0x41;
   0x3F; 0x95; 0x73; 0x89; 0x07; 0x9D; 0x7B; 0x51; 0x4F; 0x25; 0x03; 0x99; 0x17; 0x2D; 0x0B; 0x61;
   0x5F; 0xB5; 0x93; 0xA9; 0x27; 0xBD; 0x9B; 0x71; 0x6F; 0x45; 0x23; 0xB9; 0x37; 0x4D; 0x2B; 0x81;
   0x7F; 0xD5; 0xB3; 0xC9; 0x47; 0xDD; 0xBB; 0x91; 0x8F; 0x65; 0x43; 0xD9; 0x57; 0x6D; 0x4B; 0xA1;
   0x9F; 0xF5; 0xD3; 0xE9; 0x67; 0xFD; 0xDB; 0xB1; 0xAF; 0x85; 0x63; 0xF9; 0x77; 0x8D; 0x6B; 0xC1;
   0xBF; 0x15; 0xF3; 0x09; 0x87; 0x1D; 0xFB; 0xD1; 0xCF; 0xA5; 0x83; 0x19; 0x97; 0xAD; 0x8B; 0xE1;
   0xDF; 0x35; 0x13; 0x29; 0xA7; 0x3D; 0x1B; 0xF1; 0xEF; 0xC5; 0xA3; 0x39; 0xB7; 0xCD; 0xAB; 0x01].
(** src/modinv32_impl.h:296-301 and :374-379: the multiple of f to add to g; it is stored in 16 bits. *)
Definition choose_w30 (s : vvars) (i : Z) : option Z :=
  let? e1 := i32 (veta s + 1) in
  let limit := if e1 >? i then i else e1 in
  if (0 <? limit) && (limit <=? 32) then
    let m := ((2 ^ 32 - 1) >>! (32 - limit)) &! 255 in
    let? k := nth_error inv256 (Z.to_nat ((vf s >>! 1) &! 127)) in
    Some (((vg s *% k) &! m) mod 2 ^ 16)
  else None.
(** src/modinv32_impl.h:268-307: the loop of secp256k1_modinv32_divsteps_30_var. *)
Fixpoint divsteps30_var_loop (fuel : nat) (i : Z) (s : vvars) : option vvars :=
  match fuel with
  | O => None
  | S fuel' =>
    let? zeros := ctz32 (vg s |! ((2 ^ 32 - 1) <<% i)) in
    let g := vg s >>! zeros in
    let u := vu s <<% zeros in
    let v := vv s <<% zeros in
    let? eta := i32 (veta s - zeros) in
    let i := i - zeros in
    let s := mkvv eta (vf s) g u v (vq s) (vr s) in
    if i =? 0 then Some s
    else
      let? s := (if veta s <? 0 then
                   let? ne := i32 (- veta s) in
                   Some (mkvv ne (vg s) (w32 (- vf s)) (vq s) (vr s) (w32 (- vu s)) (w32 (- vv s)))
                 else Some s) in
      let? w := choose_w30 s i in
      divsteps30_var_loop fuel' i
        (mkvv (veta s) (vf s) (vg s +% vf s *% w) (vu s) (vv s) (vq s +% vu s *% w) (vr s +% vv s *% w))
  end.
(** src/modinv32_impl.h:261-319 secp256k1_modinv32_divsteps_30_var: new eta and matrix.  Every turn but
    the first takes at least one step, so 32 turns are enough. *)
Definition divsteps_30_var (eta f0 g0 : Z) : option (Z * trans2x2) :=
  let? s := divsteps30_var_loop 32 30 (mkvv eta f0 g0 1 0 0 1) in
  Some (veta s, mkt (to_i32 (vu s)) (to_i32 (vv s)) (to_i32 (vq s)) (to_i32 (vr s))).

(** src/modinv32_impl.h:429, :445, :475, :485, :511 and :521: u * d + v * e in 64 bits. *)
Definition lin30 (u v d e : Z) : option Z :=
  let? a := i64 (u * d) in let? b := i64 (v * e) in i64 (a + b).
(** src/modinv32_impl.h:442-454 for one row of the matrix: limbs 1 to 8, writing limbs 0 to 8. *)
Fixpoint de_row30_loop (c u v md : Z) (ds es ms : list Z) : option (list Z) :=
  match ds, es, ms with
  | d :: ds', e :: es', m :: ms' =>
    let? x := lin30 u v d e in
    let? c := i64 (c + x) in
    let? y := i64 (m * md) in
    let? c := i64 (c + y) in
    let? rest := de_row30_loop (c >>! 30) u v md ds' es' ms' in
    Some ((to_i32 c &! M30) :: rest)
  | _, _, _ => Some [to_i32 c]
  end.
(** src/modinv32_impl.h:422-454 for one row (u, v) of the matrix: the new d (and with (q, r) the new
    e).  The code interleaves the two rows, which share no variable they write. *)
Definition de_row30 (u v : Z) (d e : signed30) (mi : modinfo30) : option signed30 :=
  let m := modulus30 mi in
  let sd := lm d 8 >>! 31 in
  let se := lm e 8 >>! 31 in
  let? md := i32 ((u &! sd) + (v &! se)) in
  let? c := lin30 u v (lm d 0) (lm e 0) in
  let md := to_i32 (w32 md -% ((modulus_inv30 mi *% w32 c +% w32 md) &! M30)) in
  let? y := i64 (lm m 0 * md) in
  let? c := i64 (c + y) in
  de_row30_loop (c >>! 30) u v md (tl d) (tl e) (tl m).
(** src/modinv32_impl.h:408-460 secp256k1_modinv32_update_de_30. *)
Definition update_de_30 (d e : signed30) (t : trans2x2) (mi : modinfo30) : option (signed30 * signed30) :=
  let? d' := de_row30 (tu t) (tv t) d e mi in
  let? e' := de_row30 (tq t) (tr t) d e mi in
  Some (d', e').

(** src/modinv32_impl.h:482-492 and :518-528: the loop over the limbs from 1 on for one row. *)
Fixpoint fg_row30_loop (c u v : Z) (fs gs : list Z) : option (list Z) :=
  match fs, gs with
  | fi :: fs', gi :: gs' =>
    let? x := lin30 u v fi gi in
    let? c := i64 (c + x) in
    let? rest := fg_row30_loop (c >>! 30) u v fs' gs' in
    Some ((to_i32 c &! M30) :: rest)
  | _, _ => Some [to_i32 c]
  end.
(** src/modinv32_impl.h:473-492 for one row of the matrix (the code interleaves the rows). *)
Definition fg_row30 (u v : Z) (f g : signed30) : option signed30 :=
  let? c := lin30 u v (lm f 0) (lm g 0) in
  fg_row30_loop (c >>! 30) u v (tl f) (tl g).
(** src/modinv32_impl.h:466-493 secp256k1_modinv32_update_fg_30. *)
Definition update_fg_30 (f g : signed30) (t : trans2x2) : option (signed30 * signed30) :=
  let? f' := fg_row30 (tu t) (tv t) f g in
  let? g' := fg_row30 (tq t) (tr t) f g in
  Some (f', g').
(** src/modinv32_impl.h:509-528 for one row of the matrix. *)
Definition fg_row30_var (len : nat) (u v : Z) (f g : signed30) : option (list Z) :=
  let? c := lin30 u v (lm f 0) (lm g 0) in
  fg_row30_loop (c >>! 30) u v (firstn (len - 1) (tl f)) (firstn (len - 1) (tl g)).
(** src/modinv32_impl.h:501-529 secp256k1_modinv32_update_fg_30_var; limbs from len on are left alone. *)
Definition update_fg_30_var (len : nat) (f g : signed30) (t : trans2x2) : option (signed30 * signed30) :=
  let? f' := fg_row30_var len (tu t) (tv t) f g in
  let? g' := fg_row30_var len (tq t) (tr t) f g in
  Some (f' ++ skipn len f, g' ++ skipn len g).

(** src/modinv32_impl.h:534-535 and :583-584: the starting values of d and e. *)
Definition zero30 : signed30 := [0; 0; 0; 0; 0; 0; 0; 0; 0].
Definition one30 : signed30 := [1; 0; 0; 0; 0; 0; 0; 0; 0].
(** src/modinv32_impl.h:542-560: the twenty rounds. *)
Fixpoint modinv32_loop (k : nat) (zeta : Z) (d e f g : signed30) (mi : modinfo30)
    : option (signed30 * signed30 * signed30) :=
  match k with
  | O => Some (d, f, g)
  | S k' =>
    let (zeta, t) := divsteps_30 zeta (w32 (lm f 0)) (w32 (lm g 0)) in
    let? de := update_de_30 d e t mi in
    let? fg := update_fg_30 f g t in
    modinv32_loop k' zeta (fst de) (snd de) (fst fg) (snd fg) mi
  end.
(** src/modinv32_impl.h:532-578 secp256k1_modinv32. *)
Definition modinv32 (x : signed30) (mi : modinfo30) : option signed30 :=
  let? r := modinv32_loop 20 (-1) zero30 one30 (modulus30 mi) x mi in
  let '(d, f, _) := r in
  normalize_30 d (lm f 8) mi.

(** src/modinv32_impl.h:626-631: the sign of the top limb moves into the limb below. *)
Definition absorb_top30 (len : nat) (a : signed30) : signed30 :=
  firstn (len - 2) a ++ [to_i32 (w32 (lm a (len - 2)) |! (w32 (lm a (len - 1)) <<% 30))] ++ skipn (len - 1) a.
(** src/modinv32_impl.h:595-638: rounds of 30 steps until g is zero. *)
Fixpoint modinv32_var_loop (fuel : nat) (len : nat) (eta : Z) (d e f g : signed30) (mi : modinfo30)
    : option (signed30 * Z) :=
  match fuel with
  | O => None
  | S fuel' =>
    let? et := divsteps_30_var eta (w32 (lm f 0)) (w32 (lm g 0)) in
    let (eta, t) := et : Z * trans2x2 in
    let? de := update_de_30 d e t mi in
    let (d, e) := de : signed30 * signed30 in
    let? fg := update_fg_30_var len f g t in
    let (f, g) := fg : signed30 * signed30 in
    if g_is_zero len g then Some (d, lm f (len - 1))
    else
      let fn := lm f (len - 1) in
      let gn := lm g (len - 1) in
      let cond := ((Z.of_nat len - 2) >>! 31) |! (fn ^! (fn >>! 31)) |! (gn ^! (gn >>! 31)) in
      if cond =? 0
      then modinv32_var_loop fuel' (len - 1) eta d e (absorb_top30 len f) (absorb_top30 len g) mi
      else modinv32_var_loop fuel' len eta d e f g mi
  end.
(** src/modinv32_impl.h:581-655 secp256k1_modinv32_var; [fuel] bounds the rounds of the endless loop. *)
Definition modinv32_var (fuel : nat) (x : signed30) (mi : modinfo30) : option signed30 :=
  let? r := modinv32_var_loop fuel 9 (-1) zero30 one30 (modulus30 mi) x mi in
  normalize_30 (fst r) (snd r) mi.

(** src/modinv32_impl.h:342-385: the loop of secp256k1_modinv32_posdivsteps_30_var; [jac] is the int
    that tracks the symbol. *)
Fixpoint posdivsteps30_loop (fuel : nat) (i : Z) (s : vvars) (jac : Z) : option (vvars * Z) :=
  match fuel with
  | O => None
  | S fuel' =>
    let? zeros := ctz32 (vg s |! ((2 ^ 32 - 1) <<% i)) in
    let g := vg s >>! zeros in
    let u := vu s <<% zeros in
    let v := vv s <<% zeros in
    let? eta := i32 (veta s - zeros) in
    let i := i - zeros in
    let jac := to_i32 (w32 jac ^! (zeros &! ((vf s >>! 1) ^! (vf s >>! 2)))) in
    let s := mkvv eta (vf s) g u v (vq s) (vr s) in
    if i =? 0 then Some (s, jac)
    else
      let? e := (if veta s <? 0 then
                   let? ne := i32 (- veta s) in
                   let jac := to_i32 (w32 jac ^! ((vf s &! vg s) >>! 1)) in
                   Some (mkvv ne (vg s) (vf s) (vq s) (vr s) (vu s) (vv s), jac)
                 else Some (s, jac)) in
      let (s, jac) := e : vvars * Z in
      let? w := choose_w30 s i in
      posdivsteps30_loop fuel' i
        (mkvv (veta s) (vf s) (vg s +% vf s *% w) (vu s) (vv s) (vq s +% vu s *% w) (vr s +% vv s *% w)) jac
  end.
(** src/modinv32_impl.h:334-399 secp256k1_modinv32_posdivsteps_30_var: new eta, matrix and jac. *)
Definition posdivsteps_30_var (eta f0 g0 jac : Z) : option (Z * trans2x2 * Z) :=
  let? r := posdivsteps30_loop 32 30 (mkvv eta f0 g0 1 0 0 1) jac in
  let (s, jac) := r : vvars * Z in
  Some (veta s, mkt (to_i32 (vu s)) (to_i32 (vv s)) (to_i32 (vq s)) (to_i32 (vr s)), jac).
(** src/modinv32_impl.h:687: the low 32 bits of f or g, from its two low limbs. *)
Definition low32 (a : signed30) : Z := w32 (lm a 0) |! (w32 (lm a 1) <<% 30).
(** src/modinv32_impl.h:684-719: up to [rounds] rounds of 30 steps. *)
Fixpoint jacobi32_loop (rounds : nat) (len : nat) (eta : Z) (f g : signed30) (jac : Z) : option Z :=
  match rounds with
  | O => Some 0
  | S rounds' =>
    let? r := posdivsteps_30_var eta (low32 f) (low32 g) jac in
    let '(eta, t, jac) := r : Z * trans2x2 * Z in
    let? fg := update_fg_30_var len f g t in
    let (f, g) := fg : signed30 * signed30 in
    if f_is_one len f then Some (1 - 2 * (jac &! 1))
    else
      let fn := lm f (len - 1) in
      let gn := lm g (len - 1) in
      let cond := ((Z.of_nat len - 2) >>! 31) |! fn |! gn in
      if cond =? 0 then jacobi32_loop rounds' (len - 1) eta f g jac
      else jacobi32_loop rounds' len eta f g jac
  end.
(** src/modinv32_impl.h:659-663 (JACOBI32_ITERATIONS, without VERIFY). *)
Definition jacobi32_iterations : nat := 50.
(** src/modinv32_impl.h:666-723 secp256k1_jacobi32_maybe_var; the number of rounds is a parameter. *)
Definition jacobi32_maybe_var (rounds : nat) (x : signed30) (mi : modinfo30) : option Z :=
  jacobi32_loop rounds 9 (-1) (modulus30 mi) x 0.

(** src/scalar_8x32_impl.h:729-756 secp256k1_scalar_from_signed30. *)
Definition scalar_from_signed30 (a : signed30) : sc8 :=
  let a0 := w32 (lm a 0) in let a1 := w32 (lm a 1) in let a2 := w32 (lm a 2) in
  let a3 := w32 (lm a 3) in let a4 := w32 (lm a 4) in let a5 := w32 (lm a 5) in
  let a6 := w32 (lm a 6) in let a7 := w32 (lm a 7) in let a8 := w32 (lm a 8) in
  mks8 (a0 |! (a1 <<% 30)) ((a1 >>! 2) |! (a2 <<% 28)) ((a2 >>! 4) |! (a3 <<% 26)) ((a3 >>! 6) |! (a4 <<% 24))
       ((a4 >>! 8) |! (a5 <<% 22)) ((a5 >>! 10) |! (a6 <<% 20)) ((a6 >>! 12) |! (a7 <<% 18)) ((a7 >>! 14) |! (a8 <<% 16)).
(** src/scalar_8x32_impl.h:758-773 secp256k1_scalar_to_signed30. *)
Definition scalar_to_signed30 (a : sc8) : signed30 :=
  [to_i32 (sd0 a &! M30);
   to_i32 (((sd0 a >>! 30) |! (sd1 a <<% 2)) &! M30);
   to_i32 (((sd1 a >>! 28) |! (sd2 a <<% 4)) &! M30);
   to_i32 (((sd2 a >>! 26) |! (sd3 a <<% 6)) &! M30);
   to_i32 (((sd3 a >>! 24) |! (sd4 a <<% 8)) &! M30);
   to_i32 (((sd4 a >>! 22) |! (sd5 a <<% 10)) &! M30);
   to_i32 (((sd5 a >>! 20) |! (sd6 a <<% 12)) &! M30);
   to_i32 (((sd6 a >>! 18) |! (sd7 a <<% 14)) &! M30);
   to_i32 (sd7 a >>! 16)].
(** src/scalar_8x32_impl.h:775-778 (secp256k1_const_modinfo_scalar). *)
Definition modinfo30_scalar : modinfo30 :=
  mkmod30 [0x10364141; 0x3F497A33; 0x348A03BB; 0x2BB739AB; -0x146; 0; 0; 0; 65536] 0x2A774EC1.
(** src/scalar_8x32_impl.h:780-793 secp256k1_scalar_inverse. *)
Definition s8_inverse (x : sc8) : option sc8 :=
  let? s := modinv32 (scalar_to_signed30 x) modinfo30_scalar in Some (scalar_from_signed30 s).
(** src/scalar_8x32_impl.h:795-808 secp256k1_scalar_inverse_var. *)
Definition s8_inverse_var (fuel : nat) (x : sc8) : option sc8 :=
  let? s := modinv32_var fuel (scalar_to_signed30 x) modinfo30_scalar in Some (scalar_from_signed30 s).

(** src/field_10x26_impl.h:1137-1165 secp256k1_fe_from_signed30. *)
Definition fe_from_signed30 (a : signed30) : fe26 :=
  let a0 := w32 (lm a 0) in let a1 := w32 (lm a 1) in let a2 := w32 (lm a 2) in
  let a3 := w32 (lm a 3) in let a4 := w32 (lm a 4) in let a5 := w32 (lm a 5) in
  let a6 := w32 (lm a 6) in let a7 := w32 (lm a 7) in let a8 := w32 (lm a 8) in
  mkf26 (a0 &! M26) (((a0 >>! 26) |! (a1 <<% 4)) &! M26) (((a1 >>! 22) |! (a2 <<% 8)) &! M26)
        (((a2 >>! 18) |! (a3 <<% 12)) &! M26) (((a3 >>! 14) |! (a4 <<% 16)) &! M26) (((a4 >>! 10) |! (a5 <<% 20)) &! M26)
        (((a5 >>! 6) |! (a6 <<% 24)) &! M26) ((a6 >>! 2) &! M26) (((a6 >>! 28) |! (a7 <<% 2)) &! M26)
        ((a7 >>! 24) |! (a8 <<% 6)).
(** src/field_10x26_impl.h:1167-1182 secp256k1_fe_to_signed30 (the shifts are on 64-bit words). *)
Definition fe_to_signed30 (a : fe26) : signed30 :=
  [to_i32 ((m0 a |! (m1 a <<! 26)) &! M30);
   to_i32 (((m1 a >>! 4) |! (m2 a <<! 22)) &! M30);
   to_i32 (((m2 a >>! 8) |! (m3 a <<! 18)) &! M30);
   to_i32 (((m3 a >>! 12) |! (m4 a <<! 14)) &! M30);
   to_i32 (((m4 a >>! 16) |! (m5 a <<! 10)) &! M30);
   to_i32 (((m5 a >>! 20) |! (m6 a <<! 6)) &! M30);
   to_i32 (((m6 a >>! 24) |! (m7 a <<! 2) |! (m8 a <<! 28)) &! M30);
   to_i32 (((m8 a >>! 2) |! (m9 a <<! 24)) &! M30);
   to_i32 (m9 a >>! 6)].
(** src/field_10x26_impl.h:1184-1187 (secp256k1_const_modinfo_fe). *)
Definition modinfo30_fe : modinfo30 := mkmod30 [-0x3D1; -4; 0; 0; 0; 0; 0; 0; 65536] 0x2DDACACF.
(** src/field_10x26_impl.h:1189-1197 secp256k1_fe_impl_inv. *)
Definition f26_inv (x : fe26) : option fe26 :=
  let? s := modinv32 (fe_to_signed30 (f26_normalize x)) modinfo30_fe in Some (fe_from_signed30 s).
(** src/field_10x26_impl.h:1199-1207 secp256k1_fe_impl_inv_var. *)
Definition f26_inv_var (fuel : nat) (x : fe26) : option fe26 :=
  let? s := modinv32_var fuel (fe_to_signed30 (f26_normalize_var x)) modinfo30_fe in Some (fe_from_signed30 s).
(** src/field_10x26_impl.h:1209-1230 secp256k1_fe_impl_is_square_var; the number of rounds is a parameter. *)
Definition f26_is_square_var (rounds : nat) (x : fe26) : option bool :=
  let tmp := f26_normalize_var x in
  if f26_is_zero tmp then Some true
  else
    let? jac := jacobi32_maybe_var rounds (fe_to_signed30 tmp) modinfo30_fe in
    Some (if jac =? 0 then fst (f26_sqrt tmp) else 0 <=? jac).
