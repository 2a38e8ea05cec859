(** Model of src/ecmult_impl.h (wNAF, odd-multiples tables, the interleaved
    Strauss multiplication), src/ecmult_compute_table_impl.h (the two tables of
    odd multiples of the generator) and src/ecmult_const_impl.h (constant-time
    multiplication and its x-only variant).  Arrays are lists; the int values of
    the digits never leave the range of a C int, so they are plain integers.  The
    VERIFY checks are not modelled. *)
Require Import ZArith List Bool.
From Verif Require Import Word Spec FieldModel ScalarModel GroupModel HashModel.
Import ListNotations.
Local Open Scope Z_scope.
Local Open Scope c_scope.

Definition fe0 : fe := fe_set_int 0.
Definition ge0 : ge := ge_infinity.
Definition ges0 : ge_storage := mkges (fe_to_storage fe0) (fe_to_storage fe0).

(** src/ecmult_impl.h:73-115 secp256k1_ecmult_odd_multiples_table.  The result is the
    table entries paired with their z-ratios, and the final z.  [odd_loop] is the
    for loop. *)
Fixpoint odd_loop (k : nat) (ai : gej) (d_ge : ge) : list (ge * fe) * gej :=
  match k with
  | O => ([], ai)
  | S k' =>
    let (ai', zr) := gej_add_ge_var_rzr ai d_ge in
    let (l, aif) := odd_loop k' ai' d_ge in
    ((ge_set_xy (jx ai') (jy ai'), zr) :: l, aif)
  end.
Definition odd_multiples_table (size : nat) (a : gej) : list (ge * fe) * fe :=
  let d := gej_double_var a in
  let d_ge := ge_set_xy (jx d) (jy d) in
  let pre0 := ge_set_gej_zinv a (jz d) in
  let ai0 := gej_set_ge pre0 in
  let ai := mkgej (jx ai0) (jy ai0) (jz a) (jinf ai0) in
  let (l, aif) := odd_loop (size - 1) ai d_ge in
  ((pre0, jz d) :: l, fe_mul (jz aif) (jz d)).

(** src/ecmult_impl.h:125-133 secp256k1_ecmult_table_get_ge. *)
Definition table_get_ge (pre : list ge) (m : Z) : ge :=
  if m >? 0 then nth (Z.to_nat ((m - 1) / 2)) pre ge0
  else let r := nth (Z.to_nat ((- m - 1) / 2)) pre ge0 in
       mkge (gx r) (fe_negate (gy r) 1) (ginf r).
(** src/ecmult_impl.h:135-143 secp256k1_ecmult_table_get_ge_lambda. *)
Definition table_get_ge_lambda (pre : list ge) (x : list fe) (m : Z) : ge :=
  if m >? 0 then
    ge_set_xy (nth (Z.to_nat ((m - 1) / 2)) x fe0) (gy (nth (Z.to_nat ((m - 1) / 2)) pre ge0))
  else
    let r := ge_set_xy (nth (Z.to_nat ((- m - 1) / 2)) x fe0) (gy (nth (Z.to_nat ((- m - 1) / 2)) pre ge0)) in
    mkge (gx r) (fe_negate (gy r) 1) (ginf r).
(** src/ecmult_impl.h:145-153 secp256k1_ecmult_table_get_ge_storage. *)
Definition table_get_ge_storage (pre : list ge_storage) (m : Z) : ge :=
  if m >? 0 then ge_from_storage (nth (Z.to_nat ((m - 1) / 2)) pre ges0)
  else
    let r := ge_from_storage (nth (Z.to_nat ((- m - 1) / 2)) pre ges0) in
    mkge (gx r) (fe_negate (gy r) 1) (ginf r).

(** src/ecmult_impl.h:162-221 secp256k1_ecmult_wnaf.  [wnaf_loop] is the while loop;
    every iteration advances [bit], so [len] iterations suffice (lemma
    wnaf_loop_ok covers every path).  The result is the digit array and the
    number of digits in use. *)
Fixpoint wnaf_loop (fuel : nat) (s : sc) (w sign len bit carry : Z) (wnaf : list Z) (last : Z) : list Z * Z :=
  match fuel with
  | O => (wnaf, last)
  | S fuel' =>
    if bit <? len then
      if sc_get_bits_limb32 s bit 1 =? carry then wnaf_loop fuel' s w sign len (bit + 1) carry wnaf last
      else
        let now := if w >? len - bit then len - bit else w in
        let word := sc_get_bits_var s bit now + carry in
        let carry' := (word >>! (w - 1)) &! 1 in
        let word' := word - Z.shiftl carry' w in
        wnaf_loop fuel' s w sign len (bit + now) carry' (upd (Z.to_nat bit) (sign * word') wnaf) bit
    else (wnaf, last)
  end.
Definition ecmult_wnaf (len : nat) (a : sc) (w : Z) : list Z * Z :=
  let neg := negb (sc_get_bits_limb32 a 255 1 =? 0) in
  let s := if neg then sc_negate a else a in
  let sign := if neg then -1 else 1 in
  let (l, last) := wnaf_loop len s w sign (Z.of_nat len) 0 0 (repeat 0 len) (-1) in
  (l, last + 1).

(** src/ecmult_impl.h:32-32 (WINDOW_A), src/ecmult.h:14-41 (ECMULT_WINDOW_SIZE, which is
    WINDOW_G, at its default 15, and ECMULT_TABLE_SIZE). *)
Definition window_a : Z := 5.
Definition window_g : Z := 15.
Definition table_size (w : Z) : nat := Z.to_nat (2 ^ (w - 2)).

(** src/ecmult_compute_table_impl.h:16-34 secp256k1_ecmult_compute_table. *)
Fixpoint compute_table_loop (k : nat) (g dgen : ge) : list ge_storage :=
  match k with
  | O => []
  | S k' =>
    let gj := gej_add_ge_var (gej_set_ge g) dgen in
    let g' := ge_set_gej_var gj in
    ge_to_storage g' :: compute_table_loop k' g' dgen
  end.
Definition compute_table (size : nat) (gen : gej) : list ge_storage :=
  let g := ge_set_gej_var gen in
  let dgen := ge_set_gej_var (gej_double_var gen) in
  ge_to_storage g :: compute_table_loop (size - 1) g dgen.
(** src/ecmult_compute_table_impl.h:37-47 secp256k1_ecmult_compute_two_tables. *)
Fixpoint double_times (k : nat) (a : gej) : gej :=
  match k with O => a | S k' => double_times k' (gej_double_var a) end.
Definition compute_two_tables (size : nat) (gen : ge) : list ge_storage * list ge_storage :=
  let gj := gej_set_ge gen in
  (compute_table size gj, compute_table size (double_times 128 gj)).

(** The arrays of src/precomputed_ecmult.c.  That file is generated at release time
    by src/precompute_ecmult.c with secp256k1_ecmult_compute_two_tables; the model
    takes the output of (the model of) that generator instead of the 16384 literal
    entries. *)
Definition pre_g : list ge_storage := fst (compute_two_tables (table_size window_g) ge_const_g).
Definition pre_g_128 : list ge_storage := snd (compute_two_tables (table_size window_g) ge_const_g).

(** src/ecmult_impl.h:222-227 (struct secp256k1_strauss_point_state): the digits and
    their count for both halves of the scalar. *)
Record strauss_ps : Type := mksps { w_na_1 : list Z; b_na_1 : Z; w_na_lam : list Z; b_na_lam : Z }.

(** src/ecmult_impl.h:237-347 secp256k1_ecmult_strauss_wnaf.
    [strauss_prep] is the first loop (lines 252-291): for each point that counts,
    its digits, its 8 table entries with z-ratios appended, and the running Z. *)
Definition mul_first_zr (tab : list (ge * fe)) (z : fe) : list (ge * fe) :=
  match tab with
  | [] => []
  | (g, zr) :: tab' => (g, fe_mul zr z) :: tab'
  end.
Fixpoint strauss_prep (l : list (gej * sc)) (ps : list strauss_ps) (tab : list (ge * fe)) (Zv : fe)
  : list strauss_ps * list (ge * fe) * fe :=
  match l with
  | [] => (ps, tab, Zv)
  | (a, na) :: l' =>
    if sc_is_zero na || gej_is_infinity a then strauss_prep l' ps tab Zv
    else
      let (na_1, na_lam) := sc_split_lambda na in
      let (w1, b1) := ecmult_wnaf 129 na_1 window_a in
      let (wl, bl) := ecmult_wnaf 129 na_lam window_a in
      let first := match ps with [] => true | _ => false end in
      let tmp := if first then a else gej_rescale a Zv in
      let (t, Zv') := odd_multiples_table (table_size window_a) tmp in
      let t := if first then t else mul_first_zr t (jz a) in
      strauss_prep l' (ps ++ [mksps w1 b1 wl bl]) (tab ++ t) Zv'
  end.

(** One pass of the main loop over the points (lines 324-333): table chunk number np
    of pre_a and aux belongs to the np-th point state. *)
Fixpoint strauss_points (i : Z) (ps : list strauss_ps) (pre_a : list ge) (aux : list fe) (r : gej) : gej :=
  match ps with
  | [] => r
  | s :: ps' =>
    let m1 := nth (Z.to_nat i) (w_na_1 s) 0 in
    let r := if (i <? b_na_1 s) && negb (m1 =? 0) then gej_add_ge_var r (table_get_ge pre_a m1) else r in
    let ml := nth (Z.to_nat i) (w_na_lam s) 0 in
    let r := if (i <? b_na_lam s) && negb (ml =? 0) then gej_add_ge_var r (table_get_ge_lambda pre_a aux ml) else r in
    strauss_points i ps' (skipn (table_size window_a) pre_a) (skipn (table_size window_a) aux) r
  end.
(** Lines 334-341: the two table lookups for the generator. *)
Definition strauss_gen (i : Z) (wb : list Z * Z) (pre : list ge_storage) (Zv : fe) (r : gej) : gej :=
  let m := nth (Z.to_nat i) (fst wb) 0 in
  if (i <? snd wb) && negb (m =? 0) then gej_add_zinv_var r (table_get_ge_storage pre m) Zv else r.
Fixpoint strauss_loop (i : nat) (ps : list strauss_ps) (pre_a : list ge) (aux : list fe)
  (g1 g128 : list Z * Z) (Zv : fe) (r : gej) : gej :=
  match i with
  | O => r
  | S i' =>
    let r := gej_double_var r in
    let r := strauss_points (Z.of_nat i') ps pre_a aux r in
    let r := strauss_gen (Z.of_nat i') g1 pre_g Zv r in
    let r := strauss_gen (Z.of_nat i') g128 pre_g_128 Zv r in
    strauss_loop i' ps pre_a aux g1 g128 Zv r
  end.
Definition strauss_bits (ps : list strauss_ps) : Z :=
  fold_left (fun b s => Z.max (Z.max b (b_na_1 s)) (b_na_lam s)) ps 0.
Definition ecmult_strauss_wnaf (l : list (gej * sc)) (ng : option sc) : gej :=
  let '(ps, tab, Zv) := strauss_prep l [] [] (fe_set_int 1) in
  let pre_a := ge_table_set_globalz tab in
  let aux := map (fun g => fe_mul (gx g) const_beta) pre_a in
  let '(g1, g128) :=
    match ng with
    | None => (([], 0), ([], 0))
    | Some k => let (k1, k128) := sc_split_128 k in (ecmult_wnaf 129 k1 window_g, ecmult_wnaf 129 k128 window_g)
    end in
  let bits := Z.max (Z.max (strauss_bits ps) (snd g1)) (snd g128) in
  let r := strauss_loop (Z.to_nat bits) ps pre_a aux g1 g128 Zv gej_infinity in
  if jinf r then r else mkgej (jx r) (jy r) (fe_mul (jz r) Zv) (jinf r).

(** src/ecmult_impl.h:349-359 secp256k1_ecmult. *)
Definition ecmult (a : gej) (na : sc) (ng : option sc) : gej := ecmult_strauss_wnaf [(a, na)] ng.

(** src/ecmult_const_impl.h:28-36 (ECMULT_CONST_GROUP_SIZE) and the derived sizes. *)
Definition ec_group_size : Z := 5.
Definition ec_table_size : nat := 16.
Definition ec_groups : nat := 26.

(** src/ecmult_const_impl.h:44-49 secp256k1_ecmult_const_odd_multiples_table_globalz. *)
Definition const_table_globalz (a : gej) : list ge * fe :=
  let (t, z) := odd_multiples_table ec_table_size a in (ge_table_set_globalz t, z).

(** src/ecmult_const_impl.h:61-103 (ECMULT_CONST_TABLE_GET_GE).  [const_scan] is the loop
    over m = 1 .. 15. *)
Fixpoint const_scan (l : list ge) (m index : Z) (r : ge) : ge :=
  match l with
  | [] => r
  | e :: l' =>
    const_scan l' (m + 1) index
      (mkge (fe_cmov (gx r) (gx e) (b2z (m =? index))) (fe_cmov (gy r) (gy e) (b2z (m =? index))) (ginf r))
  end.
Definition const_table_get_ge (pre : list ge) (v : Z) : ge :=
  let negative := Z.lxor (v >>! (ec_group_size - 1)) 1 in
  let index := (Z.lxor (w32 (- negative)) v) &! (w32 (Z.shiftl 1 (ec_group_size - 1) - 1)) in
  let first := hd ge0 pre in
  let r := const_scan (tl pre) 1 index (mkge (gx first) (gy first) false) in
  let neg_y := fe_negate (gy r) 1 in
  mkge (gx r) (fe_cmov (gy r) neg_y negative) false.

(** src/ecmult_const_impl.h:121-121 (secp256k1_ecmult_const_K for 130 bits) and S_OFFSET. *)
Definition ec_K : sc := sc_of_Z 0xa4e88a7dcb13034ec2bdd6bf7c118d6b589ae84826ba29e4b5c2c1dcde9798d9.
Definition ec_S_OFFSET : sc := sc_of_Z 0x100000000000000000000000000000000.

(** src/ecmult_const_impl.h:124-268 secp256k1_ecmult_const.  [const_loop] runs over the
    groups below [group]; the first group sets r directly. *)
Fixpoint const_double (k : nat) (a : gej) : gej :=
  match k with O => a | S k' => const_double k' (gej_double a) end.
Fixpoint const_loop (group : nat) (v1 v2 : sc) (pre_a pre_lam : list ge) (r : gej) : gej :=
  match group with
  | O => r
  | S g =>
    let bits1 := sc_get_bits_var v1 (Z.of_nat g * ec_group_size) ec_group_size in
    let bits2 := sc_get_bits_var v2 (Z.of_nat g * ec_group_size) ec_group_size in
    let t := const_table_get_ge pre_a bits1 in
    let r := if Nat.eqb g (ec_groups - 1) then gej_set_ge t
             else gej_add_ge (const_double (Z.to_nat ec_group_size) r) t in
    let t := const_table_get_ge pre_lam bits2 in
    let r := gej_add_ge r t in
    const_loop g v1 v2 pre_a pre_lam r
  end.
Definition ecmult_const (a : ge) (q : sc) : gej :=
  if ge_is_infinity a then gej_infinity
  else
    let s := sc_half (sc_add q ec_K) in
    let (v1, v2) := sc_split_lambda s in
    let v1 := sc_add v1 ec_S_OFFSET in
    let v2 := sc_add v2 ec_S_OFFSET in
    let (pre_a, global_z) := const_table_globalz (gej_set_ge a) in
    let pre_lam := map ge_mul_lambda pre_a in
    let r := const_loop ec_groups v1 v2 pre_a pre_lam gej_infinity in
    mkgej (jx r) (jy r) (fe_mul (jz r) global_z) (jinf r).

(** src/ecmult_const_impl.h:270-397 secp256k1_ecmult_const_xonly.  The denominator is
    optional (a NULL pointer in C); None is the return value 0. *)
Definition ecmult_const_xonly (nn : fe) (d : option fe) (q : sc) (known_on_curve : bool) : option fe :=
  let g := fe_sqr nn in
  let g := fe_mul g nn in
  let '(g, ok) :=
    match d with
    | Some d =>
      let b := fe_sqr d in
      let b := fe_mul_int b curve_b in
      let b := fe_mul b d in
      let g := fe_add g b in
      (g, known_on_curve || fe_is_square_var (fe_mul g d))
    | None =>
      let g := fe_add_int g curve_b in
      (g, known_on_curve || fe_is_square_var g)
    end in
  if ok then
    let pt := mkge (fe_mul g nn) (fe_sqr g) false in
    let rj := ecmult_const pt q in
    let i := fe_sqr (jz rj) in
    let i := fe_mul i g in
    let i := match d with Some d => fe_mul i d | None => i end in
    let i := fe_inv i in
    Some (fe_mul (jx rj) i)
  else None.
