(** Model of src/modules/ellswift/main_impl.h in the 32-bit build (10x26 field elements, 8x32 scalars):
    the definitions of EllswiftModel.v on the 32-bit field and scalars.  The conventions are those of
    that file, which also has the definitions that do not depend on the width. *)
Require Import ZArith List Bool.
From Verif Require Import Word Word32 Spec FieldModel ScalarModel Field32Model Scalar32Model HashModel GenTable GroupModel EcmultModel GenModel EcdsaModel ApiModel ExtrakeysModel SchnorrModel RecoveryModel EcdhModel EllswiftModel W32_Base W32_Group W32_Ecmult W32_Gen W32_Ecdsa W32_Api W32_Extrakeys W32_Schnorr W32_Recovery W32_Ecdh.
Import ListNotations.
Local Open Scope Z_scope.
Local Open Scope c_scope.

(** src/modules/ellswift/main_impl.h:15-21 (secp256k1_ellswift_c1 to _c4). *)
Definition ellswift_c1_w32 : fe26 := f26_of_Z 0x851695d49a83f8ef919bb86153cbcb16630fb68aed0a766a3ec693d68e6afa40.
Definition ellswift_c2_w32 : fe26 := f26_of_Z 0x7ae96a2b657c07106e64479eac3434e99cf0497512f58995c1396c28719501ee.
Definition ellswift_c3_w32 : fe26 := f26_of_Z 0x7ae96a2b657c07106e64479eac3434e99cf0497512f58995c1396c28719501ef.
Definition ellswift_c4_w32 : fe26 := f26_of_Z 0x851695d49a83f8ef919bb86153cbcb16630fb68aed0a766a3ec693d68e6afa41.
(** src/modules/ellswift/main_impl.h:24-132 secp256k1_ellswift_xswiftec_frac_var: xn and xd. *)
Definition xswiftec_frac_var_w32 (u t : fe26) : fe26 * fe26 :=
  let u1 := if f26_normalizes_to_zero_var u then f26_one else u in
  let s := f26_sqr t in
  let s := if f26_normalizes_to_zero_var t then f26_one else s in
  let l := f26_sqr u1 in
  let g := f26_mul l u1 in
  let g := f26_add_int g curve_b in
  let p := f26_add g s in
  let (s, p) :=
    if f26_normalizes_to_zero_var p then
      let s := f26_mul_int s 4 in (s, f26_add g s)
    else (s, p) in
  let d := f26_mul s l in
  let d := f26_mul_int d 3 in
  let l := f26_sqr p in
  let l := f26_negate l 1 in
  let n := f26_mul d u1 in
  let n := f26_add n l in
  if ge_x_frac_on_curve_var_w32 n d then (n, d)
  else
    let l := f26_mul ellswift_c1_w32 s in
    let n := f26_mul ellswift_c2_w32 g in
    let n := f26_add n l in
    let n := f26_mul n u1 in
    if ge_x_frac_on_curve_var_w32 n p then (n, p)
    else
      let l := f26_mul p u1 in
      let n := f26_add n l in
      (f26_negate n 2, p).
(** src/modules/ellswift/main_impl.h:135-140 secp256k1_ellswift_xswiftec_var. *)
Definition xswiftec_var_w32 (u t : fe26) : fe26 :=
  let (xn, xd) := xswiftec_frac_var_w32 u t in
  f26_mul xn (f26_inv_var_w32 xd).
(** src/modules/ellswift/main_impl.h:143-147 secp256k1_ellswift_swiftec_var (the return value of
    ge_set_xo_var is ignored). *)
Definition swiftec_var_w32 (u t : fe26) : ge_w32 :=
  let x := xswiftec_var_w32 u t in
  snd (ge_set_xo_var_w32 x (f26_is_odd t)).
(** src/modules/ellswift/main_impl.h:168-303 secp256k1_ellswift_xswiftec_inv_var; [None] is return
    value 0.  [inv_finish] is the part after the if (from "Let w = sqrt(s)"). *)
Definition inv_finish_w32 (s u v : fe26) (c : Z) : fe26 :=
  let m := snd (f26_sqrt s) in
  let m := if (Z.land c 5 =? 0) || (Z.land c 5 =? 5) then f26_negate m 1 else m in
  let u := f26_mul u (if negb (Z.land c 1 =? 0) then ellswift_c4_w32 else ellswift_c3_w32) in
  let u := f26_add u v in
  f26_mul m u.
Definition xswiftec_inv_var_w32 (x_in u_in : fe26) (c : Z) : option fe26 :=
  let x := f26_normalize_weak x_in in
  let u := f26_normalize_weak u_in in
  if Z.land c 2 =? 0 then
    let m := f26_add x u in
    let m := f26_negate m 2 in
    if ge_x_on_curve_var_w32 m then None else
    let s := f26_sqr m in
    let s := f26_negate s 1 in
    let m := f26_mul u x in
    let s := f26_add s m in
    let g := f26_sqr u in
    let g := f26_mul g u in
    let g := f26_add_int g curve_b in
    let m := f26_mul s g in
    if negb (f26_is_square_w32 m) then None else
    let s := f26_inv_var_w32 s in
    let s := f26_mul s g in
    Some (inv_finish_w32 s u x c)
  else
    let m := f26_negate u 1 in
    let s := f26_add m x in
    if negb (f26_is_square_w32 s) then None else
    let g := f26_sqr u in
    let q := f26_mul s g in
    let q := f26_mul_int q 3 in
    let g := f26_mul g u in
    let g := f26_mul_int g 4 in
    let g := f26_add_int g (4 * curve_b) in
    let q := f26_add q g in
    let q := f26_mul q s in
    let q := f26_negate q 1 in
    if negb (f26_is_square_w32 q) then None else
    let r := snd (f26_sqrt q) in
    if negb (Z.land c 1 =? 0) && f26_normalizes_to_zero_var r then None else
    if f26_normalizes_to_zero_var s then None else
    let v := f26_inv_var_w32 s in
    let v := f26_mul v r in
    let v := f26_add v m in
    let v := f26_half v in
    Some (inv_finish_w32 s u v c).
(** src/modules/ellswift/main_impl.h:333-367 secp256k1_ellswift_xelligatorswift_var: u32 and t.  The
    while(1) loop may run for ever: it takes fuel, [None] means "not finished yet". *)
Fixpoint xelligator_loop_w32 (fuel : nat) (x : fe26) (hasher : sha256) (branch_hash : list Z) (branches_left cnt : Z) : option (list Z * fe26) :=
  match fuel with
  | O => None
  | S fuel' =>
    let '(branch_hash, branches_left, cnt) :=
      if branches_left =? 0 then (ellswift_prng hasher cnt, 64, w32 (cnt + 1)) else (branch_hash, branches_left, cnt) in
    let branches_left := branches_left - 1 in
    let branch := Z.land (Z.shiftr (nth (Z.to_nat (Z.shiftr branches_left 1)) branch_hash 0) (Z.shiftl (Z.land branches_left 1) 2)) 7 in
    let u32 := ellswift_prng hasher cnt in
    let cnt := w32 (cnt + 1) in
    let u := f26_set_b32_mod u32 in
    match xswiftec_inv_var_w32 x u branch with
    | Some t => Some (u32, t)
    | None => xelligator_loop_w32 fuel' x hasher branch_hash branches_left cnt
    end
  end.
Definition xelligatorswift_var_w32 (fuel : nat) (x : fe26) (hasher : sha256) : option (list Z * fe26) :=
  xelligator_loop_w32 fuel x hasher (zeros 32) 0 0.
(** src/modules/ellswift/main_impl.h:375-382 secp256k1_ellswift_elligatorswift_var. *)
Definition elligatorswift_var_w32 (fuel : nat) (p : ge_w32) (hasher : sha256) : option (list Z * fe26) :=
  match xelligatorswift_var_w32 fuel (gx_w32 p) hasher with
  | None => None
  | Some (u32, t) =>
    let t := f26_normalize_var t in
    if negb (Bool.eqb (f26_is_odd t) (f26_is_odd (gy_w32 p))) then Some (u32, f26_normalize_var (f26_negate t 1)) else Some (u32, t)
  end.
(** src/modules/ellswift/main_impl.h:399-433 secp256k1_ellswift_encode. *)
Definition ellswift_encode_w32 (fuel : nat) (ell64 pubkey rnd32 : option (list Z)) : option (res (option (list Z))) :=
  match ell64, pubkey, rnd32 with
  | Some _, Some pk, Some rnd =>
    let (ok, p) := pubkey_load_w32 pk in
    if ok then
      let hash := ellswift_sha256_init_encode in
      let p64 := match eckey_pubkey_serialize_w32 p true with Some b => copy_at 0 b (zeros 64) | None => zeros 64 end in
      let hash := sha256_write hash p64 in
      let hash := sha256_write hash (firstn 32 rnd) in
      match elligatorswift_var_w32 fuel p hash with
      | None => None
      | Some (u32, t) => Some (mkres 1 0 (Some (u32 ++ f26_get_b32 t)))
      end
    else Some (mkres 0 1 (Some (zeros 64)))
  | _, _, _ => Some (arg_fail ell64)
  end.
(** src/modules/ellswift/main_impl.h:450-487 secp256k1_ellswift_create. *)
Definition ellswift_create_w32 (fuel : nat) (ctx : context_w32) (ell64 seckey32 auxrnd32 : option (list Z)) : option (res (option (list Z))) :=
  match ell64 with
  | None => Some (arg_fail None)
  | Some _ =>
    if negb (g_built_w32 (c_gen_w32 ctx)) then Some (arg_fail (Some (zeros 64))) else
    match seckey32 with
    | None => Some (arg_fail (Some (zeros 64)))
    | Some key =>
      let '(ret, s, p) := ec_pubkey_create_helper_w32 (c_gen_w32 ctx) key in
      let p := mkge_w32 (f26_normalize_var (gx_w32 p)) (f26_normalize_var (gy_w32 p)) (ginf_w32 p) in
      let hash := ellswift_sha256_init_create in
      let hash := sha256_write hash (firstn 32 key) in
      let hash := sha256_write hash (zeros 32) in
      let hash := match auxrnd32 with Some aux => sha256_write hash (firstn 32 aux) | None => hash end in
      match elligatorswift_var_w32 fuel p hash with
      | None => None
      | Some (u32, t) => Some (mkres (b2z ret) 0 (Some (memczero (u32 ++ f26_get_b32 t) (b2z (negb ret)))))
      end
    end
  end.
(** src/modules/ellswift/main_impl.h:489-502 secp256k1_ellswift_decode. *)
Definition ellswift_decode_w32 (pubkey ell64 : option (list Z)) : res (option (list Z)) :=
  match pubkey, ell64 with
  | Some _, Some ell =>
    let u := f26_set_b32_mod (firstn 32 ell) in
    let t := f26_set_b32_mod (firstn 32 (skipn 32 ell)) in
    let t := f26_normalize_var t in
    let p := swiftec_var_w32 u t in
    mkres 1 0 (Some (pubkey_save_w32 p))
  | _, _ => arg_fail pubkey
  end.
(** src/modules/ellswift/main_impl.h:551-590 secp256k1_ellswift_xdh.  The return value of
    ecmult_const_xonly is ignored; when it is 0 the C code would read an uninitialised px
    (it cannot happen: known_on_curve is 1), the model then takes 0. *)
Definition ellswift_xdh_w32 (output ell_a64 ell_b64 seckey32 : option (list Z)) (party : Z) (hashfp : option ellswift_xdh_hash_function)
  : res (option (list Z)) :=
  match output, ell_a64, ell_b64, seckey32, hashfp with
  | Some out, Some ell_a, Some ell_b, Some key, Some hashfp =>
    let theirs64 := if negb (party =? 0) then ell_a else ell_b in
    let u := f26_set_b32_mod (firstn 32 theirs64) in
    let t := f26_set_b32_mod (firstn 32 (skipn 32 theirs64)) in
    let (xn, xd) := xswiftec_frac_var_w32 u t in
    let s := fst (s8_set_b32 key) in
    let overflow := s8_is_zero s in
    let s := s8_cmov s s8_one (b2z overflow) in
    let px := match ecmult_const_xonly_w32 xn (Some xd) s true with Some px => px | None => f26_set_int 0 end in
    let sx := f26_get_b32 (f26_normalize px) in
    let (ret, out) := hashfp out sx ell_a ell_b in
    mkres (Z.land (b2z (negb (ret =? 0))) (b2z (negb overflow))) 0 (Some out)
  | _, _, _, _, _ => arg_fail output
  end.
