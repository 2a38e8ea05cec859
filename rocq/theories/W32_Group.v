(** Model of src/group_impl.h in the 32-bit build (10x26 field elements, 8x32 scalars):
    the definitions of GroupModel.v on the 32-bit field and scalars.  The conventions are those of
    that file, which also has the definitions that do not depend on the width. *)
Require Import ZArith List Bool.
From Verif Require Import Word Word32 Spec FieldModel ScalarModel Field32Model Scalar32Model HashModel GroupModel W32_Base.
Import ListNotations.
Local Open Scope Z_scope.
Local Open Scope c_scope.

(** src/group.h:16-20 (secp256k1_ge). *)
Record ge_w32 : Type := mkge_w32 { gx_w32 : fe26; gy_w32 : fe26; ginf_w32 : bool }.
(** src/group.h:28-33 (secp256k1_gej). *)
Record gej_w32 : Type := mkgej_w32 { jx_w32 : fe26; jy_w32 : fe26; jz_w32 : fe26; jinf_w32 : bool }.
(** src/group.h:38-41 (secp256k1_ge_storage). *)
Record ge_storage_w32 : Type := mkges_w32 { stx_w32 : fes26; sty_w32 : fes26 }.
(** src/group_impl.h:55-55 SECP256K1_B and secp256k1_ge_const_g. *)
Definition ge_const_g_w32 : ge_w32 :=
  mkge_w32 (f26_of_Z 0x79be667ef9dcbbac55a06295ce870b07029bfcdb2dce28d959f2815b16f81798)
       (f26_of_Z 0x483ada7726a3c4655da4fbfc0e1108a8fd17b448a68554199c47d08ffb10d4b8) false.
(** src/group_impl.h:99-113 secp256k1_ge_set_gej_zinv. *)
Definition ge_set_gej_zinv_w32 (a : gej_w32) (zi : fe26) : ge_w32 :=
  let zi2 := f26_sqr zi in
  let zi3 := f26_mul zi2 zi in
  mkge_w32 (f26_mul (jx_w32 a) zi2) (f26_mul (jy_w32 a) zi3) (jinf_w32 a).
(** src/group_impl.h:116-130 secp256k1_ge_set_ge_zinv. *)
Definition ge_set_ge_zinv_w32 (a : ge_w32) (zi : fe26) : ge_w32 :=
  let zi2 := f26_sqr zi in
  let zi3 := f26_mul zi2 zi in
  mkge_w32 (f26_mul (gx_w32 a) zi2) (f26_mul (gy_w32 a) zi3) (ginf_w32 a).
(** src/group_impl.h:132-141 secp256k1_ge_set_xy. *)
Definition ge_set_xy_w32 (x y : fe26) : ge_w32 := mkge_w32 x y false.
(** src/group_impl.h:143-147 secp256k1_ge_is_infinity. *)
Definition ge_is_infinity_w32 (a : ge_w32) : bool := ginf_w32 a.
(** src/group_impl.h:149-157 secp256k1_ge_neg. *)
Definition ge_neg_w32 (a : ge_w32) : ge_w32 := mkge_w32 (gx_w32 a) (f26_negate (f26_normalize_weak (gy_w32 a)) 1) (ginf_w32 a).
(** src/group_impl.h:159-175 secp256k1_ge_set_gej.  The C code also rescales its
    argument to z = 1; the modified argument is [gej_rescaled]. *)
Definition gej_rescaled_w32 (a : gej_w32) (zi : fe26) : gej_w32 :=
  let z2 := f26_sqr zi in
  let z3 := f26_mul zi z2 in
  mkgej_w32 (f26_mul (jx_w32 a) z2) (f26_mul (jy_w32 a) z3) (f26_set_int 1) (jinf_w32 a).
Definition ge_set_gej_w32 (a : gej_w32) : ge_w32 :=
  let a' := gej_rescaled_w32 a (f26_inv_w32 (jz_w32 a)) in
  mkge_w32 (jx_w32 a') (jy_w32 a') (jinf_w32 a').
(** src/group_impl.h:331-337 secp256k1_ge_set_infinity. *)
Definition ge_infinity_w32 : ge_w32 := mkge_w32 (f26_set_int 0) (f26_set_int 0) true.
(** src/group_impl.h:322-329 secp256k1_gej_set_infinity. *)
Definition gej_infinity_w32 : gej_w32 := mkgej_w32 (f26_set_int 0) (f26_set_int 0) (f26_set_int 0) true.
(** src/group_impl.h:177-196 secp256k1_ge_set_gej_var. *)
Definition ge_set_gej_var_w32 (a : gej_w32) : ge_w32 :=
  if jinf_w32 a then ge_infinity_w32
  else let a' := gej_rescaled_w32 a (f26_inv_var_w32 (jz_w32 a)) in ge_set_xy_w32 (jx_w32 a') (jy_w32 a').
(** src/group_impl.h:198-234 secp256k1_ge_set_all_gej.  The scratch values kept in
    r[i].x are the running products of the z coordinates ([zprods], last first);
    the second loop walks them backwards with the inverse of the whole product. *)
Fixpoint zprods_w32 (acc : fe26) (l : list gej_w32) : list fe26 :=
  match l with
  | [] => [acc]
  | a :: l' => acc :: zprods_w32 (f26_mul acc (jz_w32 a)) l'
  end.
Fixpoint zinvs_back_w32 (ps : list fe26) (zs : list fe26) (u : fe26) : list fe26 :=
  match ps, zs with
  | p' :: ps', z :: zs' => f26_mul p' u :: zinvs_back_w32 ps' zs' (f26_mul u z)
  | _, _ => [u]
  end.
Definition ge_set_all_gej_w32 (l : list gej_w32) : list ge_w32 :=
  match l with
  | [] => []
  | a0 :: l' =>
    let ps := rev (zprods_w32 (jz_w32 a0) l') in
    match ps with
    | [] => []
    | top :: below =>
      let u := f26_inv_w32 top in
      let zi := rev (zinvs_back_w32 below (rev (map jz_w32 l')) u) in
      map (fun az => ge_set_gej_zinv_w32 (fst az) (snd az)) (combine l zi)
    end
  end.
(** src/group_impl.h:236-287 secp256k1_ge_set_all_gej_var: the same on the finite
    entries; infinite entries become the affine infinity.  The C code links the
    finite entries through [last_i]; the model filters them out. *)
Fixpoint merge_inf_w32 (l : list gej_w32) (r : list ge_w32) : list ge_w32 :=
  match l with
  | [] => []
  | a :: l' => if jinf_w32 a then ge_infinity_w32 :: merge_inf_w32 l' r
               else match r with
                    | g :: r' => g :: merge_inf_w32 l' r'
                    | [] => ge_infinity_w32 :: merge_inf_w32 l' []
                    end
  end.
Definition ge_set_all_gej_var_w32 (l : list gej_w32) : list ge_w32 :=
  merge_inf_w32 l (match filter (fun a => negb (jinf_w32 a)) l with
               | [] => []
               | a0 :: l' =>
                 match rev (zprods_w32 (jz_w32 a0) l') with
                 | [] => []
                 | top :: below =>
                   let u := f26_inv_var_w32 top in
                   let zi := rev (zinvs_back_w32 below (rev (map jz_w32 l')) u) in
                   map (fun az => ge_set_gej_zinv_w32 (fst az) (snd az)) (combine (a0 :: l') zi)
                 end
               end).
(** src/group_impl.h:289-320 secp256k1_ge_table_set_globalz.  The list is given
    last entry first; [zs] accumulates the z-ratios.  The ratio of entry i scales
    the entries below it; the ratio of entry 0 is not used. *)
Fixpoint globalz_back_w32 (l : list (ge_w32 * fe26)) (zs : fe26) : list ge_w32 :=
  match l with
  | [] => []
  | (a, zr) :: l' => ge_set_ge_zinv_w32 a zs :: globalz_back_w32 l' (f26_mul zs zr)
  end.
Definition ge_table_set_globalz_w32 (l : list (ge_w32 * fe26)) : list ge_w32 :=
  match rev l with
  | [] => []
  | (a, zr) :: l' => rev (mkge_w32 (gx_w32 a) (f26_normalize_weak (gy_w32 a)) (ginf_w32 a) :: globalz_back_w32 l' zr)
  end.
(** src/group_impl.h:347-365 secp256k1_ge_set_xo_var: validity and the point. *)
Definition ge_set_xo_var_w32 (x : fe26) (odd : bool) : bool * ge_w32 :=
  let x2 := f26_sqr x in
  let x3 := f26_mul x x2 in
  let x3 := f26_add_int x3 curve_b in
  let (ret, y) := f26_sqrt x3 in
  let y := f26_normalize_var y in
  let y := if negb (Bool.eqb (f26_is_odd y) odd) then f26_negate y 1 else y in
  (ret, mkge_w32 x y false).
(** src/group_impl.h:367-376 secp256k1_gej_set_ge. *)
Definition gej_set_ge_w32 (a : ge_w32) : gej_w32 := mkgej_w32 (gx_w32 a) (gy_w32 a) (f26_set_int 1) (ginf_w32 a).
(** src/group_impl.h:427-438 secp256k1_gej_neg. *)
Definition gej_neg_w32 (a : gej_w32) : gej_w32 := mkgej_w32 (jx_w32 a) (f26_negate (f26_normalize_weak (jy_w32 a)) 1) (jz_w32 a) (jinf_w32 a).
(** src/group_impl.h:440-444 secp256k1_gej_is_infinity. *)
Definition gej_is_infinity_w32 (a : gej_w32) : bool := jinf_w32 a.
(** src/group_impl.h:446-458 secp256k1_ge_is_valid_var. *)
Definition ge_is_valid_var_w32 (a : ge_w32) : bool :=
  if ginf_w32 a then false
  else
    let y2 := f26_sqr (gy_w32 a) in
    let x3 := f26_sqr (gx_w32 a) in
    let x3 := f26_mul x3 (gx_w32 a) in
    let x3 := f26_add_int x3 curve_b in
    f26_equal y2 x3.
(** src/group_impl.h:460-493 secp256k1_gej_double. *)
Definition gej_double_w32 (a : gej_w32) : gej_w32 :=
  let rz := f26_mul (jz_w32 a) (jy_w32 a) in
  let s := f26_sqr (jy_w32 a) in
  let l := f26_sqr (jx_w32 a) in
  let l := f26_mul_int l 3 in
  let l := f26_half l in
  let t := f26_negate s 1 in
  let t := f26_mul t (jx_w32 a) in
  let rx := f26_sqr l in
  let rx := f26_add rx t in
  let rx := f26_add rx t in
  let s := f26_sqr s in
  let t := f26_add t rx in
  let ry := f26_mul t l in
  let ry := f26_add ry s in
  let ry := f26_negate ry 2 in
  mkgej_w32 rx ry rz (jinf_w32 a).
(** src/group_impl.h:495-524 secp256k1_gej_double_var with a non-NULL rzr: the
    double and the ratio of the z coordinates. *)
Definition gej_double_var_rzr_w32 (a : gej_w32) : gej_w32 * fe26 :=
  if jinf_w32 a then (gej_infinity_w32, f26_set_int 1)
  else (gej_double_w32 a, f26_normalize_weak (jy_w32 a)).
Definition gej_double_var_w32 (a : gej_w32) : gej_w32 := fst (gej_double_var_rzr_w32 a).
(** The common tail of the three variable-time additions
    (src/group_impl.h:575-592, 640-658, 712-727): X3 and Y3 from u1, s1, h and i. *)
Definition add_tail_w32 (u1 s1 h i : fe26) : fe26 * fe26 :=
  let h2 := f26_sqr h in
  let h2 := f26_negate h2 1 in
  let h3 := f26_mul h2 h in
  let t := f26_mul u1 h2 in
  let rx := f26_sqr i in
  let rx := f26_add rx h3 in
  let rx := f26_add rx t in
  let rx := f26_add rx t in
  let t := f26_add t rx in
  let ry := f26_mul t i in
  let h3 := f26_mul h3 s1 in
  let ry := f26_add ry h3 in
  (rx, ry).
(** src/group_impl.h:526-588 secp256k1_gej_add_var with a non-NULL rzr (when a is
    infinity the C code requires rzr to be NULL; the model then gives 1). *)
Definition gej_add_var_rzr_w32 (a b : gej_w32) : gej_w32 * fe26 :=
  if jinf_w32 a then (b, f26_set_int 1)
  else if jinf_w32 b then (a, f26_set_int 1)
  else
    let z22 := f26_sqr (jz_w32 b) in
    let z12 := f26_sqr (jz_w32 a) in
    let u1 := f26_mul (jx_w32 a) z22 in
    let u2 := f26_mul (jx_w32 b) z12 in
    let s1 := f26_mul (f26_mul (jy_w32 a) z22) (jz_w32 b) in
    let s2 := f26_mul (f26_mul (jy_w32 b) z12) (jz_w32 a) in
    let h := f26_add (f26_negate u1 1) u2 in
    let i := f26_add (f26_negate s2 1) s1 in
    if f26_normalizes_to_zero_var h then
      if f26_normalizes_to_zero_var i then gej_double_var_rzr_w32 a
      else (gej_infinity_w32, f26_set_int 0)
    else
      let t := f26_mul h (jz_w32 b) in
      let rz := f26_mul (jz_w32 a) t in
      let (rx, ry) := add_tail_w32 u1 s1 h i in
      (mkgej_w32 rx ry rz false, t).
Definition gej_add_var_w32 (a b : gej_w32) : gej_w32 := fst (gej_add_var_rzr_w32 a b).
(** src/group_impl.h:590-651 secp256k1_gej_add_ge_var with a non-NULL rzr. *)
Definition gej_add_ge_var_rzr_w32 (a : gej_w32) (b : ge_w32) : gej_w32 * fe26 :=
  if jinf_w32 a then (gej_set_ge_w32 b, f26_set_int 1)
  else if ginf_w32 b then (a, f26_set_int 1)
  else
    let z12 := f26_sqr (jz_w32 a) in
    let u1 := jx_w32 a in
    let u2 := f26_mul (gx_w32 b) z12 in
    let s1 := jy_w32 a in
    let s2 := f26_mul (f26_mul (gy_w32 b) z12) (jz_w32 a) in
    let h := f26_add (f26_negate u1 4) u2 in
    let i := f26_add (f26_negate s2 1) s1 in
    if f26_normalizes_to_zero_var h then
      if f26_normalizes_to_zero_var i then gej_double_var_rzr_w32 a
      else (gej_infinity_w32, f26_set_int 0)
    else
      let rz := f26_mul (jz_w32 a) h in
      let (rx, ry) := add_tail_w32 u1 s1 h i in
      (mkgej_w32 rx ry rz false, h).
Definition gej_add_ge_var_w32 (a : gej_w32) (b : ge_w32) : gej_w32 := fst (gej_add_ge_var_rzr_w32 a b).
(** src/group_impl.h:653-721 secp256k1_gej_add_zinv_var. *)
Definition gej_add_zinv_var_w32 (a : gej_w32) (b : ge_w32) (bzinv : fe26) : gej_w32 :=
  if jinf_w32 a then
    let bzinv2 := f26_sqr bzinv in
    let bzinv3 := f26_mul bzinv2 bzinv in
    mkgej_w32 (f26_mul (gx_w32 b) bzinv2) (f26_mul (gy_w32 b) bzinv3) (f26_set_int 1) (ginf_w32 b)
  else if ginf_w32 b then a
  else
    let az := f26_mul (jz_w32 a) bzinv in
    let z12 := f26_sqr az in
    let u1 := jx_w32 a in
    let u2 := f26_mul (gx_w32 b) z12 in
    let s1 := jy_w32 a in
    let s2 := f26_mul (f26_mul (gy_w32 b) z12) az in
    let h := f26_add (f26_negate u1 4) u2 in
    let i := f26_add (f26_negate s2 1) s1 in
    if f26_normalizes_to_zero_var h then
      if f26_normalizes_to_zero_var i then gej_double_var_w32 a
      else gej_infinity_w32
    else
      let rz := f26_mul (jz_w32 a) h in
      let (rx, ry) := add_tail_w32 u1 s1 h i in
      mkgej_w32 rx ry rz false.
(** src/group_impl.h:724-859 secp256k1_gej_add_ge (constant time; b finite). *)
Definition gej_add_ge_w32 (a : gej_w32) (b : ge_w32) : gej_w32 :=
  let zz := f26_sqr (jz_w32 a) in
  let u1 := jx_w32 a in
  let u2 := f26_mul (gx_w32 b) zz in
  let s1 := jy_w32 a in
  let s2 := f26_mul (gy_w32 b) zz in
  let s2 := f26_mul s2 (jz_w32 a) in
  let t := f26_add u1 u2 in
  let m := f26_add s1 s2 in
  let rr := f26_sqr t in
  let m_alt := f26_negate u2 1 in
  let tt := f26_mul u1 m_alt in
  let rr := f26_add rr tt in
  let degenerate := f26_normalizes_to_zero m in
  let rr_alt := f26_mul_int s1 2 in
  let m_alt := f26_add m_alt u1 in
  let rr_alt := f26_cmov rr_alt rr (b2z (negb degenerate)) in
  let m_alt := f26_cmov m_alt m (b2z (negb degenerate)) in
  let n := f26_sqr m_alt in
  let q := f26_negate t 5 in
  let q := f26_mul q n in
  let n := f26_sqr n in
  let n := f26_cmov n m (b2z degenerate) in
  let t := f26_sqr rr_alt in
  let rz := f26_mul (jz_w32 a) m_alt in
  let t := f26_add t q in
  let rx := t in
  let t := f26_mul_int t 2 in
  let t := f26_add t q in
  let t := f26_mul t rr_alt in
  let t := f26_add t n in
  let ry := f26_negate t 6 in
  let ry := f26_half ry in
  let rx := f26_cmov rx (gx_w32 b) (b2z (jinf_w32 a)) in
  let ry := f26_cmov ry (gy_w32 b) (b2z (jinf_w32 a)) in
  let rz := f26_cmov rz f26_one (b2z (jinf_w32 a)) in
  mkgej_w32 rx ry rz (f26_normalizes_to_zero rz).
(** src/group_impl.h:861-875 secp256k1_gej_rescale. *)
Definition gej_rescale_w32 (r : gej_w32) (s : fe26) : gej_w32 :=
  let zz := f26_sqr s in
  mkgej_w32 (f26_mul (jx_w32 r) zz) (f26_mul (f26_mul (jy_w32 r) zz) s) (f26_mul (jz_w32 r) s) (jinf_w32 r).
(** src/group_impl.h:378-386 secp256k1_gej_eq_var. *)
Definition gej_eq_var_w32 (a b : gej_w32) : bool := jinf_w32 (gej_add_var_w32 (gej_neg_w32 a) b).
(** src/group_impl.h:388-396 secp256k1_gej_eq_ge_var. *)
Definition gej_eq_ge_var_w32 (a : gej_w32) (b : ge_w32) : bool := jinf_w32 (gej_add_ge_var_w32 (gej_neg_w32 a) b).
(** src/group_impl.h:398-415 secp256k1_ge_eq_var. *)
Definition ge_eq_var_w32 (a b : ge_w32) : bool :=
  if negb (Bool.eqb (ginf_w32 a) (ginf_w32 b)) then false
  else if ginf_w32 a then true
  else if negb (f26_equal (f26_normalize_weak (gx_w32 a)) (gx_w32 b)) then false
  else if negb (f26_equal (f26_normalize_weak (gy_w32 a)) (gy_w32 b)) then false
  else true.
(** src/group_impl.h:417-425 secp256k1_gej_eq_x_var. *)
Definition gej_eq_x_var_w32 (x : fe26) (a : gej_w32) : bool :=
  let r := f26_sqr (jz_w32 a) in
  let r := f26_mul r x in
  f26_equal r (jx_w32 a).
(** src/group_impl.h:877-888 secp256k1_ge_to_storage. *)
Definition ge_to_storage_w32 (a : ge_w32) : ge_storage_w32 :=
  mkges_w32 (f26_to_storage (f26_normalize (gx_w32 a))) (f26_to_storage (f26_normalize (gy_w32 a))).
(** src/group_impl.h:890-896 secp256k1_ge_from_storage. *)
Definition ge_from_storage_w32 (a : ge_storage_w32) : ge_w32 :=
  mkge_w32 (f26_from_storage (stx_w32 a)) (f26_from_storage (sty_w32 a)) false.
(** src/group_impl.h:898-908 secp256k1_gej_cmov (flag is 0 or 1). *)
Definition gej_cmov_w32 (r a : gej_w32) (flag : Z) : gej_w32 :=
  mkgej_w32 (f26_cmov (jx_w32 r) (jx_w32 a) flag) (f26_cmov (jy_w32 r) (jy_w32 a) flag) (f26_cmov (jz_w32 r) (jz_w32 a) flag)
        (xorb (jinf_w32 r) (xorb (jinf_w32 r) (jinf_w32 a) && negb (flag =? 0))).
(** src/group_impl.h:910-913 secp256k1_ge_storage_cmov. *)
Definition ge_storage_cmov_w32 (r a : ge_storage_w32) (flag : Z) : ge_storage_w32 :=
  mkges_w32 (f26_storage_cmov (stx_w32 r) (stx_w32 a) flag) (f26_storage_cmov (sty_w32 r) (sty_w32 a) flag).
(** src/group_impl.h:915-922 secp256k1_ge_mul_lambda. *)
Definition ge_mul_lambda_w32 (a : ge_w32) : ge_w32 := mkge_w32 (f26_mul (gx_w32 a) const_beta_w32) (gy_w32 a) (ginf_w32 a).
(** src/group_impl.h:948-954 secp256k1_ge_x_on_curve_var. *)
Definition ge_x_on_curve_var_w32 (x : fe26) : bool :=
  let c := f26_sqr x in
  let c := f26_mul c x in
  let c := f26_add_int c curve_b in
  f26_is_square_w32 c.
(** src/group_impl.h:956-973 secp256k1_ge_x_frac_on_curve_var. *)
Definition ge_x_frac_on_curve_var_w32 (xn xd : fe26) : bool :=
  let r := f26_mul xd xn in
  let t := f26_sqr xn in
  let r := f26_mul r t in
  let t := f26_sqr xd in
  let t := f26_sqr t in
  let t := f26_mul_int t curve_b in
  let r := f26_add r t in
  f26_is_square_w32 r.
(** The memory image of a fe_storage on a little-endian machine: eight uint32_t, low word first. *)
Definition fes_bytes_w32 (s : fes26) : list Z :=
  le_bytes 4 (q0 s) ++ le_bytes 4 (q1 s) ++ le_bytes 4 (q2 s) ++ le_bytes 4 (q3 s) ++
  le_bytes 4 (q4 s) ++ le_bytes 4 (q5 s) ++ le_bytes 4 (q6 s) ++ le_bytes 4 (q7 s).
Definition fes_of_bytes_w32 (l : list Z) : fes26 :=
  mks26 (le_val (firstn 4 l)) (le_val (firstn 4 (skipn 4 l))) (le_val (firstn 4 (skipn 8 l))) (le_val (firstn 4 (skipn 12 l)))
          (le_val (firstn 4 (skipn 16 l))) (le_val (firstn 4 (skipn 20 l))) (le_val (firstn 4 (skipn 24 l))) (le_val (firstn 4 (skipn 28 l))).
(** src/group_impl.h:975-985 secp256k1_ge_to_bytes. *)
Definition ge_to_bytes_w32 (a : ge_w32) : list Z :=
  let s := ge_to_storage_w32 a in fes_bytes_w32 (stx_w32 s) ++ fes_bytes_w32 (sty_w32 s).
(** src/group_impl.h:987-993 secp256k1_ge_from_bytes. *)
Definition ge_from_bytes_w32 (buf : list Z) : ge_w32 :=
  ge_from_storage_w32 (mkges_w32 (fes_of_bytes_w32 (firstn 32 buf)) (fes_of_bytes_w32 (skipn 32 buf))).
(** src/group_impl.h:995-1001 secp256k1_ge_to_bytes_ext. *)
Definition ge_to_bytes_ext_w32 (a : ge_w32) : list Z :=
  if ge_is_infinity_w32 a then repeat 0 64 else ge_to_bytes_w32 a.
(** src/group_impl.h:1003-1010 secp256k1_ge_from_bytes_ext. *)
Definition ge_from_bytes_ext_w32 (data : list Z) : ge_w32 :=
  if forallb (fun b => b =? 0) data then ge_infinity_w32 else ge_from_bytes_w32 data.
