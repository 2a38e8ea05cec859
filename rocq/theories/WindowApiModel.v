(** Verification and recovery with the multiplication of any build: [mul] stands for secp256k1_ecmult as compiled
    (WindowModel).  EcdsaModel, ApiModel, SchnorrModel and RecoveryModel have the default window size. *)
Require Import ZArith List Bool.
From Verif Require Import Word HashModel FieldModel ScalarModel GroupModel EcmultModel EcdsaModel ApiModel ExtrakeysModel SchnorrModel RecoveryModel WindowModel.
Import ListNotations.
Local Open Scope Z_scope.

(** src/ecmult_impl.h:349-359 secp256k1_ecmult in a program compiled for window size [w] with a table file
    written for [built]. *)
Definition build_mul (built w : Z) : gej -> sc -> option sc -> gej := win_ecmult w (fst (precomputed built w)) (snd (precomputed built w)).

(** src/ecdsa_impl.h:195-227 secp256k1_ecdsa_sig_verify. *)
Definition ecdsa_sig_verify_by (mul : gej -> sc -> option sc -> gej) (sigr sigs : sc) (pubkey : ge) (message : sc) : bool :=
  if sc_is_zero sigr || sc_is_zero sigs then false
  else
    let sn := sc_inverse_var sigs in
    let u1 := sc_mul sn message in
    let u2 := sc_mul sn sigr in
    let pubkeyj := gej_set_ge pubkey in
    let pr := mul pubkeyj u2 (Some u1) in
    if gej_is_infinity pr then false
    else
      let c := sc_get_b32 sigr in
      let xr := snd (fe_set_b32_limit c) in
      if gej_eq_x_var xr pr then true
      else if fe_cmp_var xr const_p_minus_order >=? 0 then false
      else
        let xr := fe_add xr const_order_as_fe in
        gej_eq_x_var xr pr.

(** src/secp256k1.c:450-464 secp256k1_ecdsa_verify. *)
Definition ecdsa_verify_by (mul : gej -> sc -> option sc -> gej) (sig msghash32 pubkey : option (list Z)) : res unit :=
  match msghash32, sig, pubkey with
  | Some msg, Some sg, Some pk =>
    let m := fst (sc_set_b32 msg) in
    let (r, s) := signature_load sg in
    if sc_is_high s then mkres 0 0 tt
    else
      let (ok, q) := pubkey_load pk in
      if ok then mkres (b2z (ecdsa_sig_verify_by mul r s q m)) 0 tt else mkres 0 1 tt
  | _, _, _ => arg_fail tt
  end.

(** src/modules/schnorrsig/main_impl.h:223-269 secp256k1_schnorrsig_verify. *)
Definition schnorrsig_verify_by (mul : gej -> sc -> option sc -> gej) (sig64 msg : option (list Z)) (msglen : Z) (pubkey : option (list Z)) : res unit :=
  match sig64 with
  | None => arg_fail tt
  | Some sig =>
    if negb ((match msg with Some _ => true | None => false end) || (msglen =? 0)) then arg_fail tt else
    match pubkey with
    | None => arg_fail tt
    | Some pubkey =>
      let msg := msg_bytes msg msglen in
      let (ok, rx) := fe_set_b32_limit (firstn 32 sig) in
      if negb ok then mkres 0 0 tt else
      let (s, overflow) := sc_set_b32 (firstn 32 (skipn 32 sig)) in
      if overflow then mkres 0 0 tt else
      let (ok, pk) := xonly_pubkey_load pubkey in
      if negb ok then mkres 0 1 tt else
      let buf := fe_get_b32 (gx pk) in
      let e := schnorrsig_challenge (firstn 32 sig) msg buf in
      let e := sc_negate e in
      let pkj := gej_set_ge pk in
      let rj := mul pkj e (Some s) in
      let r := ge_set_gej_var rj in
      if ge_is_infinity r then mkres 0 0 tt else
      let ry := fe_normalize_var (gy r) in
      mkres (b2z (negb (fe_is_odd ry) && fe_equal rx (gx r))) 0 tt
    end
  end.

(** src/modules/recovery/main_impl.h:87-121 secp256k1_ecdsa_sig_recover; [None] is return
    value 0. *)
Definition ecdsa_sig_recover_by (mul : gej -> sc -> option sc -> gej) (sigr sigs message : sc) (recid : Z) : option ge :=
  if sc_is_zero sigr || sc_is_zero sigs then None
  else
    let brx := sc_get_b32 sigr in
    let fx := snd (fe_set_b32_limit brx) in
    let fx' :=
      if negb (Z.land recid 2 =? 0) then
        if fe_cmp_var fx const_p_minus_order >=? 0 then None else Some (fe_add fx const_order_as_fe)
      else Some fx in
    match fx' with
    | None => None
    | Some fx =>
      let (ok, x) := ge_set_xo_var fx (negb (Z.land recid 1 =? 0)) in
      if ok then
        let xj := gej_set_ge x in
        let rn := sc_inverse_var sigr in
        let u1 := sc_mul rn message in
        let u1 := sc_negate u1 in
        let u2 := sc_mul rn sigs in
        let qj := mul xj u2 (Some u1) in
        let pubkey := ge_set_gej_var qj in
        if gej_is_infinity qj then None else Some pubkey
      else None
    end.

(** src/modules/recovery/main_impl.h:137-157 secp256k1_ecdsa_recover. *)
Definition ecdsa_recover_by (mul : gej -> sc -> option sc -> gej) (pubkey signature msghash32 : option (list Z)) : res (option (list Z)) :=
  match msghash32, signature, pubkey with
  | Some msg, Some sg, Some _ =>
    let '(r, s, recid) := recoverable_signature_load sg in
    let m := fst (sc_set_b32 msg) in
    match ecdsa_sig_recover_by mul r s m recid with
    | Some q => mkres 1 0 (Some (pubkey_save q))
    | None => mkres 0 0 (Some (zeros 64))
    end
  | _, _, _ => arg_fail pubkey
  end.

