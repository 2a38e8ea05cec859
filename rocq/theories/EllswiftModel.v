(** Model of src/modules/ellswift/main_impl.h.  Conventions as in ApiModel; an
    ElligatorSwift encoding is its 64 bytes. *)
Require Import ZArith List Bool.
From Verif Require Import Word Spec FieldModel ScalarModel GroupModel HashModel GenModel EcmultModel EcdsaModel ApiModel SchnorrModel.
Import ListNotations.
Local Open Scope Z_scope.
Local Open Scope c_scope.

(** src/modules/ellswift/main_impl.h:15-21 (secp256k1_ellswift_c1 to _c4). *)
Definition ellswift_c1 : fe := fe_of_Z 0x851695d49a83f8ef919bb86153cbcb16630fb68aed0a766a3ec693d68e6afa40.
Definition ellswift_c2 : fe := fe_of_Z 0x7ae96a2b657c07106e64479eac3434e99cf0497512f58995c1396c28719501ee.
Definition ellswift_c3 : fe := fe_of_Z 0x7ae96a2b657c07106e64479eac3434e99cf0497512f58995c1396c28719501ef.
Definition ellswift_c4 : fe := fe_of_Z 0x851695d49a83f8ef919bb86153cbcb16630fb68aed0a766a3ec693d68e6afa41.

(** src/modules/ellswift/main_impl.h:24-132 secp256k1_ellswift_xswiftec_frac_var: xn and xd. *)
Definition xswiftec_frac_var (u t : fe) : fe * fe :=
  let u1 := if fe_normalizes_to_zero_var u then fe_one else u in
  let s := fe_sqr t in
  let s := if fe_normalizes_to_zero_var t then fe_one else s in
  let l := fe_sqr u1 in
  let g := fe_mul l u1 in
  let g := fe_add_int g curve_b in
  let p := fe_add g s in
  let (s, p) :=
    if fe_normalizes_to_zero_var p then
      let s := fe_mul_int s 4 in (s, fe_add g s)
    else (s, p) in
  let d := fe_mul s l in
  let d := fe_mul_int d 3 in
  let l := fe_sqr p in
  let l := fe_negate l 1 in
  let n := fe_mul d u1 in
  let n := fe_add n l in
  if ge_x_frac_on_curve_var n d then (n, d)
  else
    let l := fe_mul ellswift_c1 s in
    let n := fe_mul ellswift_c2 g in
    let n := fe_add n l in
    let n := fe_mul n u1 in
    if ge_x_frac_on_curve_var n p then (n, p)
    else
      let l := fe_mul p u1 in
      let n := fe_add n l in
      (fe_negate n 2, p).
(** src/modules/ellswift/main_impl.h:135-140 secp256k1_ellswift_xswiftec_var. *)
Definition xswiftec_var (u t : fe) : fe :=
  let (xn, xd) := xswiftec_frac_var u t in
  fe_mul xn (fe_inv_var xd).
(** src/modules/ellswift/main_impl.h:143-147 secp256k1_ellswift_swiftec_var (the return value of
    ge_set_xo_var is ignored). *)
Definition swiftec_var (u t : fe) : ge :=
  let x := xswiftec_var u t in
  snd (ge_set_xo_var x (fe_is_odd t)).

(** src/modules/ellswift/main_impl.h:168-303 secp256k1_ellswift_xswiftec_inv_var; [None] is return
    value 0.  [inv_finish] is the part after the if (from "Let w = sqrt(s)"). *)
Definition inv_finish (s u v : fe) (c : Z) : fe :=
  let m := snd (fe_sqrt s) in
  let m := if (Z.land c 5 =? 0) || (Z.land c 5 =? 5) then fe_negate m 1 else m in
  let u := fe_mul u (if negb (Z.land c 1 =? 0) then ellswift_c4 else ellswift_c3) in
  let u := fe_add u v in
  fe_mul m u.
Definition xswiftec_inv_var (x_in u_in : fe) (c : Z) : option fe :=
  let x := fe_normalize_weak x_in in
  let u := fe_normalize_weak u_in in
  if Z.land c 2 =? 0 then
    let m := fe_add x u in
    let m := fe_negate m 2 in
    if ge_x_on_curve_var m then None else
    let s := fe_sqr m in
    let s := fe_negate s 1 in
    let m := fe_mul u x in
    let s := fe_add s m in
    let g := fe_sqr u in
    let g := fe_mul g u in
    let g := fe_add_int g curve_b in
    let m := fe_mul s g in
    if negb (fe_is_square_var m) then None else
    let s := fe_inv_var s in
    let s := fe_mul s g in
    Some (inv_finish s u x c)
  else
    let m := fe_negate u 1 in
    let s := fe_add m x in
    if negb (fe_is_square_var s) then None else
    let g := fe_sqr u in
    let q := fe_mul s g in
    let q := fe_mul_int q 3 in
    let g := fe_mul g u in
    let g := fe_mul_int g 4 in
    let g := fe_add_int g (4 * curve_b) in
    let q := fe_add q g in
    let q := fe_mul q s in
    let q := fe_negate q 1 in
    if negb (fe_is_square_var q) then None else
    let r := snd (fe_sqrt q) in
    if negb (Z.land c 1 =? 0) && fe_normalizes_to_zero_var r then None else
    if fe_normalizes_to_zero_var s then None else
    let v := fe_inv_var s in
    let v := fe_mul v r in
    let v := fe_add v m in
    let v := fe_half v in
    Some (inv_finish s u v c).

(** src/modules/ellswift/main_impl.h:310-325 secp256k1_ellswift_prng. *)
Definition ellswift_prng (hasher : sha256) (cnt : Z) : list Z :=
  let buf4 := [w8 cnt; w8 (Z.shiftr cnt 8); w8 (Z.shiftr cnt 16); w8 (Z.shiftr cnt 24)] in
  sha256_finalize (sha256_write hasher buf4).
(** src/modules/ellswift/main_impl.h:333-367 secp256k1_ellswift_xelligatorswift_var: u32 and t.  The
    while(1) loop may run for ever: it takes fuel, [None] means "not finished yet". *)
Fixpoint xelligator_loop (fuel : nat) (x : fe) (hasher : sha256) (branch_hash : list Z) (branches_left cnt : Z) : option (list Z * fe) :=
  match fuel with
  | O => None
  | S fuel' =>
    let '(branch_hash, branches_left, cnt) :=
      if branches_left =? 0 then (ellswift_prng hasher cnt, 64, w32 (cnt + 1)) else (branch_hash, branches_left, cnt) in
    let branches_left := branches_left - 1 in
    let branch := Z.land (Z.shiftr (nth (Z.to_nat (Z.shiftr branches_left 1)) branch_hash 0) (Z.shiftl (Z.land branches_left 1) 2)) 7 in
    let u32 := ellswift_prng hasher cnt in
    let cnt := w32 (cnt + 1) in
    let u := fe_set_b32_mod u32 in
    match xswiftec_inv_var x u branch with
    | Some t => Some (u32, t)
    | None => xelligator_loop fuel' x hasher branch_hash branches_left cnt
    end
  end.
Definition xelligatorswift_var (fuel : nat) (x : fe) (hasher : sha256) : option (list Z * fe) :=
  xelligator_loop fuel x hasher (zeros 32) 0 0.
(** src/modules/ellswift/main_impl.h:375-382 secp256k1_ellswift_elligatorswift_var. *)
Definition elligatorswift_var (fuel : nat) (p : ge) (hasher : sha256) : option (list Z * fe) :=
  match xelligatorswift_var fuel (gx p) hasher with
  | None => None
  | Some (u32, t) =>
    let t := fe_normalize_var t in
    if negb (Bool.eqb (fe_is_odd t) (fe_is_odd (gy p))) then Some (u32, fe_normalize_var (fe_negate t 1)) else Some (u32, t)
  end.

(** src/modules/ellswift/main_impl.h:385-397 secp256k1_ellswift_sha256_init_encode. *)
Definition ellswift_sha256_init_encode : sha256 :=
  set_midstate [0xd1a6524b; 0x028594b3; 0x96e42f4e; 0x1037a177; 0x1b8fcb8b; 0x56023885; 0x2560ede1; 0xd626b715].
(** src/modules/ellswift/main_impl.h:399-433 secp256k1_ellswift_encode. *)
Definition ellswift_encode (fuel : nat) (ell64 pubkey rnd32 : option (list Z)) : option (res (option (list Z))) :=
  match ell64, pubkey, rnd32 with
  | Some _, Some pk, Some rnd =>
    let (ok, p) := pubkey_load pk in
    if ok then
      let hash := ellswift_sha256_init_encode in
      let p64 := match eckey_pubkey_serialize p true with Some b => copy_at 0 b (zeros 64) | None => zeros 64 end in
      let hash := sha256_write hash p64 in
      let hash := sha256_write hash (firstn 32 rnd) in
      match elligatorswift_var fuel p hash with
      | None => None
      | Some (u32, t) => Some (mkres 1 0 (Some (u32 ++ fe_get_b32 t)))
      end
    else Some (mkres 0 1 (Some (zeros 64)))
  | _, _, _ => Some (arg_fail ell64)
  end.

(** src/modules/ellswift/main_impl.h:436-448 secp256k1_ellswift_sha256_init_create. *)
Definition ellswift_sha256_init_create : sha256 :=
  set_midstate [0xd29e1bf5; 0xf7025f42; 0x9b024773; 0x094cb7d5; 0xe59ed789; 0x03bc9786; 0x68335b35; 0x4e363b53].
(** src/modules/ellswift/main_impl.h:450-487 secp256k1_ellswift_create. *)
Definition ellswift_create (fuel : nat) (ctx : context) (ell64 seckey32 auxrnd32 : option (list Z)) : option (res (option (list Z))) :=
  match ell64 with
  | None => Some (arg_fail None)
  | Some _ =>
    if negb (g_built (c_gen ctx)) then Some (arg_fail (Some (zeros 64))) else
    match seckey32 with
    | None => Some (arg_fail (Some (zeros 64)))
    | Some key =>
      let '(ret, s, p) := ec_pubkey_create_helper (c_gen ctx) key in
      let p := mkge (fe_normalize_var (gx p)) (fe_normalize_var (gy p)) (ginf p) in
      let hash := ellswift_sha256_init_create in
      let hash := sha256_write hash (firstn 32 key) in
      let hash := sha256_write hash (zeros 32) in
      let hash := match auxrnd32 with Some aux => sha256_write hash (firstn 32 aux) | None => hash end in
      match elligatorswift_var fuel p hash with
      | None => None
      | Some (u32, t) => Some (mkres (b2z ret) 0 (Some (memczero (u32 ++ fe_get_b32 t) (b2z (negb ret)))))
      end
    end
  end.

(** src/modules/ellswift/main_impl.h:489-502 secp256k1_ellswift_decode. *)
Definition ellswift_decode (pubkey ell64 : option (list Z)) : res (option (list Z)) :=
  match pubkey, ell64 with
  | Some _, Some ell =>
    let u := fe_set_b32_mod (firstn 32 ell) in
    let t := fe_set_b32_mod (firstn 32 (skipn 32 ell)) in
    let t := fe_normalize_var t in
    let p := swiftec_var u t in
    mkres 1 0 (Some (pubkey_save p))
  | _, _ => arg_fail pubkey
  end.

(** include/secp256k1_ellswift.h:64-70 (secp256k1_ellswift_xdh_hash_function): the output buffer
    before the call, x32, ell_a64 and ell_b64; the int returned and the new contents of the
    buffer.  The data argument is part of the function. *)
Definition ellswift_xdh_hash_function : Type := list Z -> list Z -> list Z -> list Z -> Z * list Z.
(** src/modules/ellswift/main_impl.h:504-516 ellswift_xdh_hash_function_prefix. *)
Definition ellswift_xdh_hash_function_prefix (data : list Z) : ellswift_xdh_hash_function := fun output x32 ell_a64 ell_b64 =>
  let sha := sha256_initialize in
  let sha := sha256_write sha (firstn 64 data) in
  let sha := sha256_write sha (firstn 64 ell_a64) in
  let sha := sha256_write sha (firstn 64 ell_b64) in
  let sha := sha256_write sha (firstn 32 x32) in
  (1, copy_at 0 (sha256_finalize sha) output).
(** src/modules/ellswift/main_impl.h:519-531 secp256k1_ellswift_sha256_init_bip324. *)
Definition ellswift_sha256_init_bip324 : sha256 :=
  set_midstate [0x8c12d730; 0x827bd392; 0x9e4fb2ee; 0x207b373e; 0x2292bd7a; 0xaa5441bc; 0x15c3779f; 0xcfb52549].
(** src/modules/ellswift/main_impl.h:533-546 ellswift_xdh_hash_function_bip324. *)
Definition ellswift_xdh_hash_function_bip324 : ellswift_xdh_hash_function := fun output x32 ell_a64 ell_b64 =>
  let sha := ellswift_sha256_init_bip324 in
  let sha := sha256_write sha (firstn 64 ell_a64) in
  let sha := sha256_write sha (firstn 64 ell_b64) in
  let sha := sha256_write sha (firstn 32 x32) in
  (1, copy_at 0 (sha256_finalize sha) output).

(** src/modules/ellswift/main_impl.h:551-590 secp256k1_ellswift_xdh.  The return value of
    ecmult_const_xonly is ignored; when it is 0 the C code would read an uninitialised px
    (it cannot happen: known_on_curve is 1), the model then takes 0. *)
Definition ellswift_xdh (output ell_a64 ell_b64 seckey32 : option (list Z)) (party : Z) (hashfp : option ellswift_xdh_hash_function)
  : res (option (list Z)) :=
  match output, ell_a64, ell_b64, seckey32, hashfp with
  | Some out, Some ell_a, Some ell_b, Some key, Some hashfp =>
    let theirs64 := if negb (party =? 0) then ell_a else ell_b in
    let u := fe_set_b32_mod (firstn 32 theirs64) in
    let t := fe_set_b32_mod (firstn 32 (skipn 32 theirs64)) in
    let (xn, xd) := xswiftec_frac_var u t in
    let s := fst (sc_set_b32 key) in
    let overflow := sc_is_zero s in
    let s := sc_cmov s sc_one (b2z overflow) in
    let px := match ecmult_const_xonly xn (Some xd) s true with Some px => px | None => fe_set_int 0 end in
    let sx := fe_get_b32 (fe_normalize px) in
    let (ret, out) := hashfp out sx ell_a ell_b in
    mkres (Z.land (b2z (negb (ret =? 0))) (b2z (negb overflow))) 0 (Some out)
  | _, _, _, _, _ => arg_fail output
  end.
