(** Vocabulary of the MuSig properties that refers to the modelled API: what the
    participants of a signing session call, and histories of calls on one object. *)
Require Import ZArith List Bool.
From Verif Require Import Spec SpecApi SpecBip340 SpecMusig ApiModel ApiVocab MusigModel.
Import ListNotations.
Local Open Scope Z_scope.

(** An optional cache argument, and the aggregate key that enters the nonce derivation. *)
Definition cache_arg (cache aggpk : option (list Z)) : Prop :=
  match cache with None => aggpk = None | Some obj => exists Ps c, cache_holds obj Ps c /\ aggpk = Some (be_bytes 32 (xcoord (ac_Q c))) end.
(** An optional secret key argument. *)
Definition sk_valid (sk : option (list Z)) : Prop := match sk with Some s => seckey_valid s | None => True end.

(** The caches that come out of one call of musig_pubkey_agg for the public keys [pks] and
    then any sequence [tws] of successful plain and x-only tweaks. *)
Inductive agg_history (pks : list (list Z)) : list Z -> list (list Z * bool) -> Prop :=
| ah_agg agg cache0 ill o cache : musig_pubkey_agg agg (Some cache0) (Some pks) = mkres 1 ill (o, Some cache) -> agg_history pks cache []
| ah_plain cache tws out tw ill o cache' : agg_history pks cache tws -> bytes_n 32 tw ->
    musig_pubkey_ec_tweak_add out (Some cache) (Some tw) = mkres 1 ill (o, Some cache') -> agg_history pks cache' (tws ++ [(tw, false)])
| ah_xonly cache tws out tw ill o cache' : agg_history pks cache tws -> bytes_n 32 tw ->
    musig_pubkey_xonly_tweak_add out (Some cache) (Some tw) = mkres 1 ill (o, Some cache') -> agg_history pks cache' (tws ++ [(tw, true)]).
(** The tweaks as numbers. *)
Definition tweak_vals (tws : list (list Z * bool)) : list (Z * bool) := map (fun tw => (be_val (fst tw), snd tw)) tws.

(** The nonce pair [sn], [pn] was made by the owner of the key pair [kp] with secret key [d]
    and public key object [pk].  Excluded: a derived nonce that is zero (a hash equal to a
    multiple of n).  The last case allows every pair of objects that belong together, however
    it was made. *)
Inductive made_nonce (ctx : context) (kp : list Z) (d : Z) (pk sn pn : list Z) : Prop :=
| mn_random sn0 pn0 rand sk m cache aggpk extra ill o :
    bytes_n 32 rand -> rand <> repeat 0 32 -> opt_bytes 32 sk -> opt_bytes 32 m -> cache_arg cache aggpk -> opt_bytes 32 extra ->
    (forall i, i = 0 \/ i = 1 -> nonce_gen_k rand sk (cbytes (pmul d G)) aggpk m extra i <> 0) ->
    musig_nonce_gen ctx (Some sn0) (Some pn0) (Some rand) sk (Some pk) m cache extra = mkres 1 ill (Some sn, Some pn, o) -> made_nonce ctx kp d pk sn pn
| mn_counter sn0 pn0 cnt m cache aggpk extra ill :
    0 <= cnt < 2 ^ 64 -> opt_bytes 32 m -> cache_arg cache aggpk -> opt_bytes 32 extra ->
    (forall i, i = 0 \/ i = 1 -> nonce_gen_k (be_bytes 8 cnt ++ repeat 0 24) (Some (be_bytes 32 d)) (cbytes (pmul d G)) aggpk m extra i <> 0) ->
    musig_nonce_gen_counter ctx (Some sn0) (Some pn0) cnt (Some kp) m cache extra = mkres 1 ill (Some sn, Some pn) -> made_nonce ctx kp d pk sn pn
| mn_pair k1 k2 : secnonce_holds sn k1 k2 (pmul d G) -> pubnonce_holds pn (pmul k1 G) (pmul k2 G) -> made_nonce ctx kp d pk sn pn.

(** One signer: key pair, secret key, public key object, nonces, partial signature. *)
Record signer := mksigner { sg_kp : list Z; sg_d : Z; sg_pk : list Z; sg_sn : list Z; sg_pn : list Z; sg_psig : list Z }.
(** The signer follows the protocol for the keys [pks], the tweaks [tws], the message [m]
    and the aggregate nonce [an]: they make their nonces, build their own cache and session
    and sign. *)
Definition honest_signer (ctx : context) (pks : list (list Z)) (tws : list (list Z * bool)) (m an : list Z) (s : signer) : Prop :=
  keypair_holds (sg_kp s) (sg_d s) /\ pubkey_holds (sg_pk s) (pmul (sg_d s) G) /\
  made_nonce ctx (sg_kp s) (sg_d s) (sg_pk s) (sg_sn s) (sg_pn s) /\
  exists cache session session0 ps0 ill1 ill2 o,
    agg_history pks cache tws /\
    musig_nonce_process (Some session0) (Some an) (Some m) (Some cache) = mkres 1 ill1 (Some session) /\
    musig_partial_sign (Some ps0) (Some (sg_sn s)) (Some (sg_kp s)) (Some cache) (Some session) = mkres 1 ill2 (Some (sg_psig s), o).

(** Operations on one secnonce object: signing with it and filling it, with any arguments. *)
Inductive nonce_op :=
| Op_sign (partial_sig keypair cache session : option (list Z))
| Op_gen (ctx : context) (pubnonce rand sk pk m cache extra : option (list Z))
| Op_gen_counter (ctx : context) (pubnonce : option (list Z)) (cnt : Z) (keypair m cache extra : option (list Z)).
(** Return value, calls of the illegal callback, the partial signature object after the call
    and the secnonce object after it. *)
Definition run_op (sn : list Z) (o : nonce_op) : Z * Z * option (list Z) * list Z :=
  match o with
  | Op_sign ps kp cache session =>
    let r := musig_partial_sign ps (Some sn) kp cache session in
    (r_ret r, r_ill r, fst (r_out r), match snd (r_out r) with Some sn' => sn' | None => sn end)
  | Op_gen ctx pn rand sk pk m cache extra =>
    let r := musig_nonce_gen ctx (Some sn) pn rand sk pk m cache extra in
    (r_ret r, r_ill r, None, match fst (fst (r_out r)) with Some sn' => sn' | None => sn end)
  | Op_gen_counter ctx pn cnt kp m cache extra =>
    let r := musig_nonce_gen_counter ctx (Some sn) pn cnt kp m cache extra in
    (r_ret r, r_ill r, None, match fst (r_out r) with Some sn' => sn' | None => sn end)
  end.
Definition is_sign (o : nonce_op) : bool := match o with Op_sign _ _ _ _ => true | _ => false end.
Fixpoint run_ops (sn : list Z) (ops : list nonce_op) : list (nonce_op * (Z * Z * option (list Z) * list Z)) :=
  match ops with
  | [] => []
  | o :: ops' => let r := run_op sn o in (o, r) :: run_ops (snd r) ops'
  end.
(** How many operations of a run returned 1. *)
Definition signed (l : list (nonce_op * (Z * Z * option (list Z) * list Z))) : nat :=
  List.length (filter (fun x => is_sign (fst x) && (fst (fst (fst (snd x))) =? 1)) l).
Definition generated (l : list (nonce_op * (Z * Z * option (list Z) * list Z))) : nat :=
  List.length (filter (fun x => negb (is_sign (fst x)) && (fst (fst (fst (snd x))) =? 1)) l).
