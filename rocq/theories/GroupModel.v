(** Model of src/group_impl.h: points in affine and Jacobian coordinates over
    the 5x52 field elements, function by function.  The C [int infinity] flag,
    which only takes the values 0 and 1, is a [bool].  Output parameters are
    results; the VERIFY checks (absent from production builds) are not modelled. *)
Require Import ZArith List Bool.
From Verif Require Import Word Spec FieldModel.
Import ListNotations.
Local Open Scope Z_scope.

(** src/group.h:16-20 (secp256k1_ge). *)
Record ge : Type := mkge { gx : fe; gy : fe; ginf : bool }.
(** src/group.h:28-33 (secp256k1_gej). *)
Record gej : Type := mkgej { jx : fe; jy : fe; jz : fe; jinf : bool }.
(** src/group.h:38-41 (secp256k1_ge_storage). *)
Record ge_storage : Type := mkges { stx : fe_storage; sty : fe_storage }.

(** src/group_impl.h:55-55 SECP256K1_B and secp256k1_ge_const_g. *)
Definition curve_b : Z := 7.
Definition ge_const_g : ge :=
  mkge (fe_of_Z 0x79be667ef9dcbbac55a06295ce870b07029bfcdb2dce28d959f2815b16f81798)
       (fe_of_Z 0x483ada7726a3c4655da4fbfc0e1108a8fd17b448a68554199c47d08ffb10d4b8) false.

(** src/group_impl.h:99-113 secp256k1_ge_set_gej_zinv. *)
Definition ge_set_gej_zinv (a : gej) (zi : fe) : ge :=
  let zi2 := fe_sqr zi in
  let zi3 := fe_mul zi2 zi in
  mkge (fe_mul (jx a) zi2) (fe_mul (jy a) zi3) (jinf a).

(** src/group_impl.h:116-130 secp256k1_ge_set_ge_zinv. *)
Definition ge_set_ge_zinv (a : ge) (zi : fe) : ge :=
  let zi2 := fe_sqr zi in
  let zi3 := fe_mul zi2 zi in
  mkge (fe_mul (gx a) zi2) (fe_mul (gy a) zi3) (ginf a).

(** src/group_impl.h:132-141 secp256k1_ge_set_xy. *)
Definition ge_set_xy (x y : fe) : ge := mkge x y false.
(** src/group_impl.h:143-147 secp256k1_ge_is_infinity. *)
Definition ge_is_infinity (a : ge) : bool := ginf a.

(** src/group_impl.h:149-157 secp256k1_ge_neg. *)
Definition ge_neg (a : ge) : ge := mkge (gx a) (fe_negate (fe_normalize_weak (gy a)) 1) (ginf a).

(** src/group_impl.h:159-175 secp256k1_ge_set_gej.  The C code also rescales its
    argument to z = 1; the modified argument is [gej_rescaled]. *)
Definition gej_rescaled (a : gej) (zi : fe) : gej :=
  let z2 := fe_sqr zi in
  let z3 := fe_mul zi z2 in
  mkgej (fe_mul (jx a) z2) (fe_mul (jy a) z3) (fe_set_int 1) (jinf a).
Definition ge_set_gej (a : gej) : ge :=
  let a' := gej_rescaled a (fe_inv (jz a)) in
  mkge (jx a') (jy a') (jinf a').

(** src/group_impl.h:331-337 secp256k1_ge_set_infinity. *)
Definition ge_infinity : ge := mkge (fe_set_int 0) (fe_set_int 0) true.
(** src/group_impl.h:322-329 secp256k1_gej_set_infinity. *)
Definition gej_infinity : gej := mkgej (fe_set_int 0) (fe_set_int 0) (fe_set_int 0) true.

(** src/group_impl.h:177-196 secp256k1_ge_set_gej_var. *)
Definition ge_set_gej_var (a : gej) : ge :=
  if jinf a then ge_infinity
  else let a' := gej_rescaled a (fe_inv_var (jz a)) in ge_set_xy (jx a') (jy a').

(** src/group_impl.h:198-234 secp256k1_ge_set_all_gej.  The scratch values kept in
    r[i].x are the running products of the z coordinates ([zprods], last first);
    the second loop walks them backwards with the inverse of the whole product. *)
Fixpoint zprods (acc : fe) (l : list gej) : list fe :=
  match l with
  | [] => [acc]
  | a :: l' => acc :: zprods (fe_mul acc (jz a)) l'
  end.
Fixpoint zinvs_back (ps : list fe) (zs : list fe) (u : fe) : list fe :=
  match ps, zs with
  | p' :: ps', z :: zs' => fe_mul p' u :: zinvs_back ps' zs' (fe_mul u z)
  | _, _ => [u]
  end.
Definition ge_set_all_gej (l : list gej) : list ge :=
  match l with
  | [] => []
  | a0 :: l' =>
    let ps := rev (zprods (jz a0) l') in
    match ps with
    | [] => []
    | top :: below =>
      let u := fe_inv top in
      let zi := rev (zinvs_back below (rev (map jz l')) u) in
      map (fun az => ge_set_gej_zinv (fst az) (snd az)) (combine l zi)
    end
  end.

(** src/group_impl.h:236-287 secp256k1_ge_set_all_gej_var: the same on the finite
    entries; infinite entries become the affine infinity.  The C code links the
    finite entries through [last_i]; the model filters them out. *)
Fixpoint merge_inf (l : list gej) (r : list ge) : list ge :=
  match l with
  | [] => []
  | a :: l' => if jinf a then ge_infinity :: merge_inf l' r
               else match r with
                    | g :: r' => g :: merge_inf l' r'
                    | [] => ge_infinity :: merge_inf l' []
                    end
  end.
Definition ge_set_all_gej_var (l : list gej) : list ge :=
  merge_inf l (match filter (fun a => negb (jinf a)) l with
               | [] => []
               | a0 :: l' =>
                 match rev (zprods (jz a0) l') with
                 | [] => []
                 | top :: below =>
                   let u := fe_inv_var top in
                   let zi := rev (zinvs_back below (rev (map jz l')) u) in
                   map (fun az => ge_set_gej_zinv (fst az) (snd az)) (combine (a0 :: l') zi)
                 end
               end).

(** src/group_impl.h:289-320 secp256k1_ge_table_set_globalz.  The list is given
    last entry first; [zs] accumulates the z-ratios.  The ratio of entry i scales
    the entries below it; the ratio of entry 0 is not used. *)
Fixpoint globalz_back (l : list (ge * fe)) (zs : fe) : list ge :=
  match l with
  | [] => []
  | (a, zr) :: l' => ge_set_ge_zinv a zs :: globalz_back l' (fe_mul zs zr)
  end.
Definition ge_table_set_globalz (l : list (ge * fe)) : list ge :=
  match rev l with
  | [] => []
  | (a, zr) :: l' => rev (mkge (gx a) (fe_normalize_weak (gy a)) (ginf a) :: globalz_back l' zr)
  end.

(** src/group_impl.h:347-365 secp256k1_ge_set_xo_var: validity and the point. *)
Definition ge_set_xo_var (x : fe) (odd : bool) : bool * ge :=
  let x2 := fe_sqr x in
  let x3 := fe_mul x x2 in
  let x3 := fe_add_int x3 curve_b in
  let (ret, y) := fe_sqrt x3 in
  let y := fe_normalize_var y in
  let y := if negb (Bool.eqb (fe_is_odd y) odd) then fe_negate y 1 else y in
  (ret, mkge x y false).

(** src/group_impl.h:367-376 secp256k1_gej_set_ge. *)
Definition gej_set_ge (a : ge) : gej := mkgej (gx a) (gy a) (fe_set_int 1) (ginf a).

(** src/group_impl.h:427-438 secp256k1_gej_neg. *)
Definition gej_neg (a : gej) : gej := mkgej (jx a) (fe_negate (fe_normalize_weak (jy a)) 1) (jz a) (jinf a).
(** src/group_impl.h:440-444 secp256k1_gej_is_infinity. *)
Definition gej_is_infinity (a : gej) : bool := jinf a.

(** src/group_impl.h:446-458 secp256k1_ge_is_valid_var. *)
Definition ge_is_valid_var (a : ge) : bool :=
  if ginf a then false
  else
    let y2 := fe_sqr (gy a) in
    let x3 := fe_sqr (gx a) in
    let x3 := fe_mul x3 (gx a) in
    let x3 := fe_add_int x3 curve_b in
    fe_equal y2 x3.

(** src/group_impl.h:460-493 secp256k1_gej_double. *)
Definition gej_double (a : gej) : gej :=
  let rz := fe_mul (jz a) (jy a) in
  let s := fe_sqr (jy a) in
  let l := fe_sqr (jx a) in
  let l := fe_mul_int l 3 in
  let l := fe_half l in
  let t := fe_negate s 1 in
  let t := fe_mul t (jx a) in
  let rx := fe_sqr l in
  let rx := fe_add rx t in
  let rx := fe_add rx t in
  let s := fe_sqr s in
  let t := fe_add t rx in
  let ry := fe_mul t l in
  let ry := fe_add ry s in
  let ry := fe_negate ry 2 in
  mkgej rx ry rz (jinf a).

(** src/group_impl.h:495-524 secp256k1_gej_double_var with a non-NULL rzr: the
    double and the ratio of the z coordinates. *)
Definition gej_double_var_rzr (a : gej) : gej * fe :=
  if jinf a then (gej_infinity, fe_set_int 1)
  else (gej_double a, fe_normalize_weak (jy a)).
Definition gej_double_var (a : gej) : gej := fst (gej_double_var_rzr a).

(** The common tail of the three variable-time additions
    (src/group_impl.h:575-592, 640-658, 712-727): X3 and Y3 from u1, s1, h and i. *)
Definition add_tail (u1 s1 h i : fe) : fe * fe :=
  let h2 := fe_sqr h in
  let h2 := fe_negate h2 1 in
  let h3 := fe_mul h2 h in
  let t := fe_mul u1 h2 in
  let rx := fe_sqr i in
  let rx := fe_add rx h3 in
  let rx := fe_add rx t in
  let rx := fe_add rx t in
  let t := fe_add t rx in
  let ry := fe_mul t i in
  let h3 := fe_mul h3 s1 in
  let ry := fe_add ry h3 in
  (rx, ry).

(** src/group_impl.h:526-588 secp256k1_gej_add_var with a non-NULL rzr (when a is
    infinity the C code requires rzr to be NULL; the model then gives 1). *)
Definition gej_add_var_rzr (a b : gej) : gej * fe :=
  if jinf a then (b, fe_set_int 1)
  else if jinf b then (a, fe_set_int 1)
  else
    let z22 := fe_sqr (jz b) in
    let z12 := fe_sqr (jz a) in
    let u1 := fe_mul (jx a) z22 in
    let u2 := fe_mul (jx b) z12 in
    let s1 := fe_mul (fe_mul (jy a) z22) (jz b) in
    let s2 := fe_mul (fe_mul (jy b) z12) (jz a) in
    let h := fe_add (fe_negate u1 1) u2 in
    let i := fe_add (fe_negate s2 1) s1 in
    if fe_normalizes_to_zero_var h then
      if fe_normalizes_to_zero_var i then gej_double_var_rzr a
      else (gej_infinity, fe_set_int 0)
    else
      let t := fe_mul h (jz b) in
      let rz := fe_mul (jz a) t in
      let (rx, ry) := add_tail u1 s1 h i in
      (mkgej rx ry rz false, t).
Definition gej_add_var (a b : gej) : gej := fst (gej_add_var_rzr a b).

(** src/group_impl.h:590-651 secp256k1_gej_add_ge_var with a non-NULL rzr. *)
Definition gej_add_ge_var_rzr (a : gej) (b : ge) : gej * fe :=
  if jinf a then (gej_set_ge b, fe_set_int 1)
  else if ginf b then (a, fe_set_int 1)
  else
    let z12 := fe_sqr (jz a) in
    let u1 := jx a in
    let u2 := fe_mul (gx b) z12 in
    let s1 := jy a in
    let s2 := fe_mul (fe_mul (gy b) z12) (jz a) in
    let h := fe_add (fe_negate u1 4) u2 in
    let i := fe_add (fe_negate s2 1) s1 in
    if fe_normalizes_to_zero_var h then
      if fe_normalizes_to_zero_var i then gej_double_var_rzr a
      else (gej_infinity, fe_set_int 0)
    else
      let rz := fe_mul (jz a) h in
      let (rx, ry) := add_tail u1 s1 h i in
      (mkgej rx ry rz false, h).
Definition gej_add_ge_var (a : gej) (b : ge) : gej := fst (gej_add_ge_var_rzr a b).

(** src/group_impl.h:653-721 secp256k1_gej_add_zinv_var. *)
Definition gej_add_zinv_var (a : gej) (b : ge) (bzinv : fe) : gej :=
  if jinf a then
    let bzinv2 := fe_sqr bzinv in
    let bzinv3 := fe_mul bzinv2 bzinv in
    mkgej (fe_mul (gx b) bzinv2) (fe_mul (gy b) bzinv3) (fe_set_int 1) (ginf b)
  else if ginf b then a
  else
    let az := fe_mul (jz a) bzinv in
    let z12 := fe_sqr az in
    let u1 := jx a in
    let u2 := fe_mul (gx b) z12 in
    let s1 := jy a in
    let s2 := fe_mul (fe_mul (gy b) z12) az in
    let h := fe_add (fe_negate u1 4) u2 in
    let i := fe_add (fe_negate s2 1) s1 in
    if fe_normalizes_to_zero_var h then
      if fe_normalizes_to_zero_var i then gej_double_var a
      else gej_infinity
    else
      let rz := fe_mul (jz a) h in
      let (rx, ry) := add_tail u1 s1 h i in
      mkgej rx ry rz false.

(** src/group_impl.h:724-859 secp256k1_gej_add_ge (constant time; b finite). *)
Definition gej_add_ge (a : gej) (b : ge) : gej :=
  let zz := fe_sqr (jz a) in
  let u1 := jx a in
  let u2 := fe_mul (gx b) zz in
  let s1 := jy a in
  let s2 := fe_mul (gy b) zz in
  let s2 := fe_mul s2 (jz a) in
  let t := fe_add u1 u2 in
  let m := fe_add s1 s2 in
  let rr := fe_sqr t in
  let m_alt := fe_negate u2 1 in
  let tt := fe_mul u1 m_alt in
  let rr := fe_add rr tt in
  let degenerate := fe_normalizes_to_zero m in
  let rr_alt := fe_mul_int s1 2 in
  let m_alt := fe_add m_alt u1 in
  let rr_alt := fe_cmov rr_alt rr (b2z (negb degenerate)) in
  let m_alt := fe_cmov m_alt m (b2z (negb degenerate)) in
  let n := fe_sqr m_alt in
  let q := fe_negate t 5 in
  let q := fe_mul q n in
  let n := fe_sqr n in
  let n := fe_cmov n m (b2z degenerate) in
  let t := fe_sqr rr_alt in
  let rz := fe_mul (jz a) m_alt in
  let t := fe_add t q in
  let rx := t in
  let t := fe_mul_int t 2 in
  let t := fe_add t q in
  let t := fe_mul t rr_alt in
  let t := fe_add t n in
  let ry := fe_negate t 6 in
  let ry := fe_half ry in
  let rx := fe_cmov rx (gx b) (b2z (jinf a)) in
  let ry := fe_cmov ry (gy b) (b2z (jinf a)) in
  let rz := fe_cmov rz fe_one (b2z (jinf a)) in
  mkgej rx ry rz (fe_normalizes_to_zero rz).

(** src/group_impl.h:861-875 secp256k1_gej_rescale. *)
Definition gej_rescale (r : gej) (s : fe) : gej :=
  let zz := fe_sqr s in
  mkgej (fe_mul (jx r) zz) (fe_mul (fe_mul (jy r) zz) s) (fe_mul (jz r) s) (jinf r).

(** src/group_impl.h:378-386 secp256k1_gej_eq_var. *)
Definition gej_eq_var (a b : gej) : bool := jinf (gej_add_var (gej_neg a) b).
(** src/group_impl.h:388-396 secp256k1_gej_eq_ge_var. *)
Definition gej_eq_ge_var (a : gej) (b : ge) : bool := jinf (gej_add_ge_var (gej_neg a) b).
(** src/group_impl.h:398-415 secp256k1_ge_eq_var. *)
Definition ge_eq_var (a b : ge) : bool :=
  if negb (Bool.eqb (ginf a) (ginf b)) then false
  else if ginf a then true
  else if negb (fe_equal (fe_normalize_weak (gx a)) (gx b)) then false
  else if negb (fe_equal (fe_normalize_weak (gy a)) (gy b)) then false
  else true.
(** src/group_impl.h:417-425 secp256k1_gej_eq_x_var. *)
Definition gej_eq_x_var (x : fe) (a : gej) : bool :=
  let r := fe_sqr (jz a) in
  let r := fe_mul r x in
  fe_equal r (jx a).

(** src/group_impl.h:877-888 secp256k1_ge_to_storage. *)
Definition ge_to_storage (a : ge) : ge_storage :=
  mkges (fe_to_storage (fe_normalize (gx a))) (fe_to_storage (fe_normalize (gy a))).
(** src/group_impl.h:890-896 secp256k1_ge_from_storage. *)
Definition ge_from_storage (a : ge_storage) : ge :=
  mkge (fe_from_storage (stx a)) (fe_from_storage (sty a)) false.

(** src/group_impl.h:898-908 secp256k1_gej_cmov (flag is 0 or 1). *)
Definition gej_cmov (r a : gej) (flag : Z) : gej :=
  mkgej (fe_cmov (jx r) (jx a) flag) (fe_cmov (jy r) (jy a) flag) (fe_cmov (jz r) (jz a) flag)
        (xorb (jinf r) (xorb (jinf r) (jinf a) && negb (flag =? 0))).
(** src/group_impl.h:910-913 secp256k1_ge_storage_cmov. *)
Definition ge_storage_cmov (r a : ge_storage) (flag : Z) : ge_storage :=
  mkges (fe_storage_cmov (stx r) (stx a) flag) (fe_storage_cmov (sty r) (sty a) flag).

(** src/group_impl.h:915-922 secp256k1_ge_mul_lambda. *)
Definition ge_mul_lambda (a : ge) : ge := mkge (fe_mul (gx a) const_beta) (gy a) (ginf a).

(** src/group_impl.h:948-954 secp256k1_ge_x_on_curve_var. *)
Definition ge_x_on_curve_var (x : fe) : bool :=
  let c := fe_sqr x in
  let c := fe_mul c x in
  let c := fe_add_int c curve_b in
  fe_is_square_var c.
(** src/group_impl.h:956-973 secp256k1_ge_x_frac_on_curve_var. *)
Definition ge_x_frac_on_curve_var (xn xd : fe) : bool :=
  let r := fe_mul xd xn in
  let t := fe_sqr xn in
  let r := fe_mul r t in
  let t := fe_sqr xd in
  let t := fe_sqr t in
  let t := fe_mul_int t curve_b in
  let r := fe_add r t in
  fe_is_square_var r.

(** The memory image of a fe_storage on a little-endian machine: four uint64_t,
    low limb first. *)
Fixpoint le_bytes (k : nat) (v : Z) : list Z :=
  match k with O => [] | S k' => v mod 256 :: le_bytes k' (v / 256) end.
Fixpoint le_val (l : list Z) : Z := match l with [] => 0 | b :: l' => b + 256 * le_val l' end.
Definition fes_bytes (s : fe_storage) : list Z :=
  le_bytes 8 (s0 s) ++ le_bytes 8 (s1 s) ++ le_bytes 8 (s2 s) ++ le_bytes 8 (s3 s).
Definition fes_of_bytes (l : list Z) : fe_storage :=
  mkfes (le_val (firstn 8 l)) (le_val (firstn 8 (skipn 8 l)))
        (le_val (firstn 8 (skipn 16 l))) (le_val (firstn 8 (skipn 24 l))).

(** src/group_impl.h:975-985 secp256k1_ge_to_bytes. *)
Definition ge_to_bytes (a : ge) : list Z :=
  let s := ge_to_storage a in fes_bytes (stx s) ++ fes_bytes (sty s).
(** src/group_impl.h:987-993 secp256k1_ge_from_bytes. *)
Definition ge_from_bytes (buf : list Z) : ge :=
  ge_from_storage (mkges (fes_of_bytes (firstn 32 buf)) (fes_of_bytes (skipn 32 buf))).
(** src/group_impl.h:995-1001 secp256k1_ge_to_bytes_ext. *)
Definition ge_to_bytes_ext (a : ge) : list Z :=
  if ge_is_infinity a then repeat 0 64 else ge_to_bytes a.
(** src/group_impl.h:1003-1010 secp256k1_ge_from_bytes_ext. *)
Definition ge_from_bytes_ext (data : list Z) : ge :=
  if forallb (fun b => b =? 0) data then ge_infinity else ge_from_bytes data.
