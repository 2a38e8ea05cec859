(** Model of the Jacobi symbol computation of src/modinv64_impl.h and of the square test of field
    elements built on it.  As in ModinvModel.v, signed arithmetic that would overflow, a shift by more
    than the width, an index outside an array and running out of fuel give [None].  The VERIFY checks
    are not modelled. *)
Require Import ZArith List Bool.
From Verif Require Import Word Spec FieldModel ScalarModel Int128Model ModinvModel.
Import ListNotations.
Local Open Scope Z_scope.
Local Open Scope c_scope.

(** Conversion of a 64-bit word to int: the low 32 bits, as two's complement. *)
Definition to_i32 (x : Z) : Z := let y := w32 x in if y <? 2 ^ 31 then y else y - 2 ^ 32.

(** src/modinv64_impl.h:333-387: the loop of secp256k1_modinv64_posdivsteps_62_var; [jac] is the int
    that tracks the symbol. *)
Fixpoint posdivsteps_loop (fuel : nat) (i : Z) (s : vvars) (jac : Z) : option (vvars * Z) :=
  match fuel with
  | O => None
  | S fuel' =>
    let? zeros := ctz64 (vg s |! ((2 ^ 64 - 1) <<! i)) in
    let g := vg s >>! zeros in
    let u := vu s <<! zeros in
    let v := vv s <<! zeros in
    let? eta := i64 (veta s - zeros) in
    let i := i - zeros in
    let jac := to_i32 (w64 jac ^! (zeros &! ((vf s >>! 1) ^! (vf s >>! 2)))) in
    let s := mkvv eta (vf s) g u v (vq s) (vr s) in
    if i =? 0 then Some (s, jac)
    else
      let? e := (if veta s <? 0 then
                   let? ne := i64 (- veta s) in
                   let s := mkvv ne (vg s) (vf s) (vq s) (vr s) (vu s) (vv s) in
                   let jac := to_i32 (w64 jac ^! ((vf s &! vg s) >>! 1)) in
                   let? w := choose_w s i 63 in Some (s, w, jac)
                 else let? w := choose_w s i 15 in Some (s, w, jac)) in
      let '(s, w, jac) := e : vvars * Z * Z in
      posdivsteps_loop fuel' i
        (mkvv (veta s) (vf s) (vg s +! vf s *! w) (vu s) (vv s) (vq s +! vu s *! w) (vr s +! vv s *! w)) jac
  end.
(** src/modinv64_impl.h:325-402 secp256k1_modinv64_posdivsteps_62_var: new eta, matrix and jac.  Every
    turn but the first takes at least one step, so 64 turns are enough. *)
Definition posdivsteps_62_var (eta f0 g0 jac : Z) : option (Z * trans2x2 * Z) :=
  let? r := posdivsteps_loop 64 62 (mkvv eta f0 g0 1 0 0 1) jac in
  let (s, jac) := r : vvars * Z in
  Some (veta s, mkt (to_i64 (vu s)) (to_i64 (vv s)) (to_i64 (vq s)) (to_i64 (vr s)), jac).

(** src/modinv64_impl.h:742: the low 64 bits of f or g, from its two low limbs. *)
Definition low64 (a : signed62) : Z := w64 (lm a 0) |! (w64 (lm a 1) <<! 62).
(** src/modinv64_impl.h:751-759: f is one. *)
Definition f_is_one (len : nat) (f : signed62) : bool :=
  (lm f 0 =? 1) && (fold_left Z.lor (firstn (len - 1) (tl f)) 0 =? 0).
(** src/modinv64_impl.h:739-774: up to [rounds] rounds of 62 steps. *)
Fixpoint jacobi64_loop (rounds : nat) (len : nat) (eta : Z) (f g : signed62) (jac : Z) : option Z :=
  match rounds with
  | O => Some 0
  | S rounds' =>
    let? r := posdivsteps_62_var eta (low64 f) (low64 g) jac in
    let '(eta, t, jac) := r : Z * trans2x2 * Z in
    let? fg := update_fg_62_var len f g t in
    let (f, g) := fg : signed62 * signed62 in
    if f_is_one len f then Some (1 - 2 * (jac &! 1))
    else
      let fn := lm f (len - 1) in
      let gn := lm g (len - 1) in
      let cond := ((Z.of_nat len - 2) >>! 63) |! fn |! gn in
      if cond =? 0 then jacobi64_loop rounds' (len - 1) eta f g jac
      else jacobi64_loop rounds' len eta f g jac
  end.
(** src/modinv64_impl.h:714-718 (JACOBI64_ITERATIONS, without VERIFY). *)
Definition jacobi64_iterations : nat := 25.
(** src/modinv64_impl.h:721-778 secp256k1_jacobi64_maybe_var; the number of rounds is a parameter. *)
Definition jacobi64_maybe_var (rounds : nat) (x : signed62) (mi : modinfo) : option Z :=
  jacobi64_loop rounds 5 (-1) (modulus mi) x 0.

(** src/field_5x52_impl.h:499-520 secp256k1_fe_impl_is_square_var; the number of rounds is a parameter. *)
Definition fe_impl_is_square_var (rounds : nat) (x : fe) : option bool :=
  let tmp := fe_normalize_var x in
  if fe_is_zero tmp then Some true
  else
    let? jac := jacobi64_maybe_var rounds (fe_to_signed62 tmp) modinfo_fe in
    Some (if jac =? 0 then fst (fe_sqrt tmp) else 0 <=? jac).
