(** Model of src/ecmult_impl.h and src/ecmult_const_impl.h in the 32-bit build (10x26 field elements, 8x32 scalars):
    the definitions of EcmultModel.v on the 32-bit field and scalars.  The conventions are those of
    that file, which also has the definitions that do not depend on the width. *)
Require Import ZArith List Bool.
From Verif Require Import Word Word32 Spec FieldModel ScalarModel Field32Model Scalar32Model HashModel GroupModel EcmultModel W32_Base W32_Group.
Import ListNotations.
Local Open Scope Z_scope.
Local Open Scope c_scope.

Definition fe0_w32 : fe26 := f26_set_int 0.
Definition ge0_w32 : ge_w32 := ge_infinity_w32.
Definition ges0_w32 : ge_storage_w32 := mkges_w32 (f26_to_storage fe0_w32) (f26_to_storage fe0_w32).
(** src/ecmult_impl.h:73-115 secp256k1_ecmult_odd_multiples_table.  The result is the
    table entries paired with their z-ratios, and the final z.  [odd_loop] is the
    for loop. *)
Fixpoint odd_loop_w32 (k : nat) (ai : gej_w32) (d_ge : ge_w32) : list (ge_w32 * fe26) * gej_w32 :=
  match k with
  | O => ([], ai)
  | S k' =>
    let (ai', zr) := gej_add_ge_var_rzr_w32 ai d_ge in
    let (l, aif) := odd_loop_w32 k' ai' d_ge in
    ((ge_set_xy_w32 (jx_w32 ai') (jy_w32 ai'), zr) :: l, aif)
  end.
Definition odd_multiples_table_w32 (size : nat) (a : gej_w32) : list (ge_w32 * fe26) * fe26 :=
  let d := gej_double_var_w32 a in
  let d_ge := ge_set_xy_w32 (jx_w32 d) (jy_w32 d) in
  let pre0 := ge_set_gej_zinv_w32 a (jz_w32 d) in
  let ai0 := gej_set_ge_w32 pre0 in
  let ai := mkgej_w32 (jx_w32 ai0) (jy_w32 ai0) (jz_w32 a) (jinf_w32 ai0) in
  let (l, aif) := odd_loop_w32 (size - 1) ai d_ge in
  ((pre0, jz_w32 d) :: l, f26_mul (jz_w32 aif) (jz_w32 d)).
(** src/ecmult_impl.h:125-133 secp256k1_ecmult_table_get_ge. *)
Definition table_get_ge_w32 (pre : list ge_w32) (m : Z) : ge_w32 :=
  if m >? 0 then nth (Z.to_nat ((m - 1) / 2)) pre ge0_w32
  else let r := nth (Z.to_nat ((- m - 1) / 2)) pre ge0_w32 in
       mkge_w32 (gx_w32 r) (f26_negate (gy_w32 r) 1) (ginf_w32 r).
(** src/ecmult_impl.h:135-143 secp256k1_ecmult_table_get_ge_lambda. *)
Definition table_get_ge_lambda_w32 (pre : list ge_w32) (x : list fe26) (m : Z) : ge_w32 :=
  if m >? 0 then
    ge_set_xy_w32 (nth (Z.to_nat ((m - 1) / 2)) x fe0_w32) (gy_w32 (nth (Z.to_nat ((m - 1) / 2)) pre ge0_w32))
  else
    let r := ge_set_xy_w32 (nth (Z.to_nat ((- m - 1) / 2)) x fe0_w32) (gy_w32 (nth (Z.to_nat ((- m - 1) / 2)) pre ge0_w32)) in
    mkge_w32 (gx_w32 r) (f26_negate (gy_w32 r) 1) (ginf_w32 r).
(** src/ecmult_impl.h:145-153 secp256k1_ecmult_table_get_ge_storage. *)
Definition table_get_ge_storage_w32 (pre : list ge_storage_w32) (m : Z) : ge_w32 :=
  if m >? 0 then ge_from_storage_w32 (nth (Z.to_nat ((m - 1) / 2)) pre ges0_w32)
  else
    let r := ge_from_storage_w32 (nth (Z.to_nat ((- m - 1) / 2)) pre ges0_w32) in
    mkge_w32 (gx_w32 r) (f26_negate (gy_w32 r) 1) (ginf_w32 r).
(** src/ecmult_impl.h:162-221 secp256k1_ecmult_wnaf.  [wnaf_loop] is the while loop;
    every iteration advances [bit], so [len] iterations suffice (lemma
    wnaf_loop_ok covers every path).  The result is the digit array and the
    number of digits in use. *)
Fixpoint wnaf_loop_w32 (fuel : nat) (s : sc8) (w sign len bit carry : Z) (wnaf : list Z) (last : Z) : list Z * Z :=
  match fuel with
  | O => (wnaf, last)
  | S fuel' =>
    if bit <? len then
      if s8_get_bits_limb32 s bit 1 =? carry then wnaf_loop_w32 fuel' s w sign len (bit + 1) carry wnaf last
      else
        let now := if w >? len - bit then len - bit else w in
        let word := s8_get_bits_var s bit now + carry in
        let carry' := (word >>! (w - 1)) &! 1 in
        let word' := word - Z.shiftl carry' w in
        wnaf_loop_w32 fuel' s w sign len (bit + now) carry' (upd (Z.to_nat bit) (sign * word') wnaf) bit
    else (wnaf, last)
  end.
Definition ecmult_wnaf_w32 (len : nat) (a : sc8) (w : Z) : list Z * Z :=
  let neg := negb (s8_get_bits_limb32 a 255 1 =? 0) in
  let s := if neg then s8_negate a else a in
  let sign := if neg then -1 else 1 in
  let (l, last) := wnaf_loop_w32 len s w sign (Z.of_nat len) 0 0 (repeat 0 len) (-1) in
  (l, last + 1).
(** The arrays of src/precomputed_ecmult.c: the same constants as in the 64-bit build (there the
    macro SECP256K1_FE_STORAGE_CONST of src/field_5x52.h:49-54 packs two words into one limb), kept as 32-bit words. *)
Definition fes_halves (s : fe_storage) : fes26 :=
  mks26 (s0 s mod 2 ^ 32) (s0 s / 2 ^ 32) (s1 s mod 2 ^ 32) (s1 s / 2 ^ 32)
          (s2 s mod 2 ^ 32) (s2 s / 2 ^ 32) (s3 s mod 2 ^ 32) (s3 s / 2 ^ 32).
Definition ges_halves (s : ge_storage) : ge_storage_w32 := mkges_w32 (fes_halves (stx s)) (fes_halves (sty s)).
Definition pre_g_w32 : list ge_storage_w32 := map ges_halves pre_g.
Definition pre_g_128_w32 : list ge_storage_w32 := map ges_halves pre_g_128.
(** src/ecmult_impl.h:237-347 secp256k1_ecmult_strauss_wnaf.
    [strauss_prep] is the first loop (lines 252-291): for each point that counts,
    its digits, its 8 table entries with z-ratios appended, and the running Z. *)
Definition mul_first_zr_w32 (tab : list (ge_w32 * fe26)) (z : fe26) : list (ge_w32 * fe26) :=
  match tab with
  | [] => []
  | (g, zr) :: tab' => (g, f26_mul zr z) :: tab'
  end.
Fixpoint strauss_prep_w32 (l : list (gej_w32 * sc8)) (ps : list strauss_ps) (tab : list (ge_w32 * fe26)) (Zv : fe26)
  : list strauss_ps * list (ge_w32 * fe26) * fe26 :=
  match l with
  | [] => (ps, tab, Zv)
  | (a, na) :: l' =>
    if s8_is_zero na || gej_is_infinity_w32 a then strauss_prep_w32 l' ps tab Zv
    else
      let (na_1, na_lam) := s8_split_lambda na in
      let (w1, b1) := ecmult_wnaf_w32 129 na_1 window_a in
      let (wl, bl) := ecmult_wnaf_w32 129 na_lam window_a in
      let first := match ps with [] => true | _ => false end in
      let tmp := if first then a else gej_rescale_w32 a Zv in
      let (t, Zv') := odd_multiples_table_w32 (table_size window_a) tmp in
      let t := if first then t else mul_first_zr_w32 t (jz_w32 a) in
      strauss_prep_w32 l' (ps ++ [mksps w1 b1 wl bl]) (tab ++ t) Zv'
  end.
(** One pass of the main loop over the points (lines 324-333): table chunk number np
    of pre_a and aux belongs to the np-th point state. *)
Fixpoint strauss_points_w32 (i : Z) (ps : list strauss_ps) (pre_a : list ge_w32) (aux : list fe26) (r : gej_w32) : gej_w32 :=
  match ps with
  | [] => r
  | s :: ps' =>
    let m1 := nth (Z.to_nat i) (w_na_1 s) 0 in
    let r := if (i <? b_na_1 s) && negb (m1 =? 0) then gej_add_ge_var_w32 r (table_get_ge_w32 pre_a m1) else r in
    let ml := nth (Z.to_nat i) (w_na_lam s) 0 in
    let r := if (i <? b_na_lam s) && negb (ml =? 0) then gej_add_ge_var_w32 r (table_get_ge_lambda_w32 pre_a aux ml) else r in
    strauss_points_w32 i ps' (skipn (table_size window_a) pre_a) (skipn (table_size window_a) aux) r
  end.
(** Lines 334-341: the two table lookups for the generator. *)
Definition strauss_gen_w32 (i : Z) (wb : list Z * Z) (pre : list ge_storage_w32) (Zv : fe26) (r : gej_w32) : gej_w32 :=
  let m := nth (Z.to_nat i) (fst wb) 0 in
  if (i <? snd wb) && negb (m =? 0) then gej_add_zinv_var_w32 r (table_get_ge_storage_w32 pre m) Zv else r.
Fixpoint strauss_loop_w32 (i : nat) (ps : list strauss_ps) (pre_a : list ge_w32) (aux : list fe26)
  (g1 g128 : list Z * Z) (Zv : fe26) (r : gej_w32) : gej_w32 :=
  match i with
  | O => r
  | S i' =>
    let r := gej_double_var_w32 r in
    let r := strauss_points_w32 (Z.of_nat i') ps pre_a aux r in
    let r := strauss_gen_w32 (Z.of_nat i') g1 pre_g_w32 Zv r in
    let r := strauss_gen_w32 (Z.of_nat i') g128 pre_g_128_w32 Zv r in
    strauss_loop_w32 i' ps pre_a aux g1 g128 Zv r
  end.
Definition ecmult_strauss_wnaf_w32 (l : list (gej_w32 * sc8)) (ng : option sc8) : gej_w32 :=
  let '(ps, tab, Zv) := strauss_prep_w32 l [] [] (f26_set_int 1) in
  let pre_a := ge_table_set_globalz_w32 tab in
  let aux := map (fun g => f26_mul (gx_w32 g) const_beta_w32) pre_a in
  let '(g1, g128) :=
    match ng with
    | None => (([], 0), ([], 0))
    | Some k => let (k1, k128) := s8_split_128 k in (ecmult_wnaf_w32 129 k1 window_g, ecmult_wnaf_w32 129 k128 window_g)
    end in
  let bits := Z.max (Z.max (strauss_bits ps) (snd g1)) (snd g128) in
  let r := strauss_loop_w32 (Z.to_nat bits) ps pre_a aux g1 g128 Zv gej_infinity_w32 in
  if jinf_w32 r then r else mkgej_w32 (jx_w32 r) (jy_w32 r) (f26_mul (jz_w32 r) Zv) (jinf_w32 r).
(** src/ecmult_impl.h:349-359 secp256k1_ecmult. *)
Definition ecmult_w32 (a : gej_w32) (na : sc8) (ng : option sc8) : gej_w32 := ecmult_strauss_wnaf_w32 [(a, na)] ng.
(** src/ecmult_const_impl.h:44-49 secp256k1_ecmult_const_odd_multiples_table_globalz. *)
Definition const_table_globalz_w32 (a : gej_w32) : list ge_w32 * fe26 :=
  let (t, z) := odd_multiples_table_w32 ec_table_size a in (ge_table_set_globalz_w32 t, z).
(** src/ecmult_const_impl.h:61-103 (ECMULT_CONST_TABLE_GET_GE).  [const_scan] is the loop
    over m = 1 .. 15. *)
Fixpoint const_scan_w32 (l : list ge_w32) (m index : Z) (r : ge_w32) : ge_w32 :=
  match l with
  | [] => r
  | e :: l' =>
    const_scan_w32 l' (m + 1) index
      (mkge_w32 (f26_cmov (gx_w32 r) (gx_w32 e) (b2z (m =? index))) (f26_cmov (gy_w32 r) (gy_w32 e) (b2z (m =? index))) (ginf_w32 r))
  end.
Definition const_table_get_ge_w32 (pre : list ge_w32) (v : Z) : ge_w32 :=
  let negative := Z.lxor (v >>! (ec_group_size - 1)) 1 in
  let index := (Z.lxor (w32 (- negative)) v) &! (w32 (Z.shiftl 1 (ec_group_size - 1) - 1)) in
  let first := hd ge0_w32 pre in
  let r := const_scan_w32 (tl pre) 1 index (mkge_w32 (gx_w32 first) (gy_w32 first) false) in
  let neg_y := f26_negate (gy_w32 r) 1 in
  mkge_w32 (gx_w32 r) (f26_cmov (gy_w32 r) neg_y negative) false.
(** src/ecmult_const_impl.h:121-121 (secp256k1_ecmult_const_K for 130 bits) and S_OFFSET. *)
Definition ec_K_w32 : sc8 := s8_of_Z 0xa4e88a7dcb13034ec2bdd6bf7c118d6b589ae84826ba29e4b5c2c1dcde9798d9.
Definition ec_S_OFFSET_w32 : sc8 := s8_of_Z 0x100000000000000000000000000000000.
(** src/ecmult_const_impl.h:124-268 secp256k1_ecmult_const.  [const_loop] runs over the
    groups below [group]; the first group sets r directly. *)
Fixpoint const_double_w32 (k : nat) (a : gej_w32) : gej_w32 :=
  match k with O => a | S k' => const_double_w32 k' (gej_double_w32 a) end.
Fixpoint const_loop_w32 (group : nat) (v1 v2 : sc8) (pre_a pre_lam : list ge_w32) (r : gej_w32) : gej_w32 :=
  match group with
  | O => r
  | S g =>
    let bits1 := s8_get_bits_var v1 (Z.of_nat g * ec_group_size) ec_group_size in
    let bits2 := s8_get_bits_var v2 (Z.of_nat g * ec_group_size) ec_group_size in
    let t := const_table_get_ge_w32 pre_a bits1 in
    let r := if Nat.eqb g (ec_groups - 1) then gej_set_ge_w32 t
             else gej_add_ge_w32 (const_double_w32 (Z.to_nat ec_group_size) r) t in
    let t := const_table_get_ge_w32 pre_lam bits2 in
    let r := gej_add_ge_w32 r t in
    const_loop_w32 g v1 v2 pre_a pre_lam r
  end.
Definition ecmult_const_w32 (a : ge_w32) (q : sc8) : gej_w32 :=
  if ge_is_infinity_w32 a then gej_infinity_w32
  else
    let s := s8_half (s8_add q ec_K_w32) in
    let (v1, v2) := s8_split_lambda s in
    let v1 := s8_add v1 ec_S_OFFSET_w32 in
    let v2 := s8_add v2 ec_S_OFFSET_w32 in
    let (pre_a, global_z) := const_table_globalz_w32 (gej_set_ge_w32 a) in
    let pre_lam := map ge_mul_lambda_w32 pre_a in
    let r := const_loop_w32 ec_groups v1 v2 pre_a pre_lam gej_infinity_w32 in
    mkgej_w32 (jx_w32 r) (jy_w32 r) (f26_mul (jz_w32 r) global_z) (jinf_w32 r).
(** src/ecmult_const_impl.h:270-397 secp256k1_ecmult_const_xonly.  The denominator is
    optional (a NULL pointer in C); None is the return value 0. *)
Definition ecmult_const_xonly_w32 (nn : fe26) (d : option fe26) (q : sc8) (known_on_curve : bool) : option fe26 :=
  let g := f26_sqr nn in
  let g := f26_mul g nn in
  let '(g, ok) :=
    match d with
    | Some d =>
      let b := f26_sqr d in
      let b := f26_mul_int b curve_b in
      let b := f26_mul b d in
      let g := f26_add g b in
      (g, known_on_curve || f26_is_square_w32 (f26_mul g d))
    | None =>
      let g := f26_add_int g curve_b in
      (g, known_on_curve || f26_is_square_w32 g)
    end in
  if ok then
    let pt := mkge_w32 (f26_mul g nn) (f26_sqr g) false in
    let rj := ecmult_const_w32 pt q in
    let i := f26_sqr (jz_w32 rj) in
    let i := f26_mul i g in
    let i := match d with Some d => f26_mul i d | None => i end in
    let i := f26_inv_w32 i in
    Some (f26_mul (jx_w32 rj) i)
  else None.
