(** Specification of MuSig2 (BIP 327) and of what the objects of the API hold.  Nothing here
    refers to the model of the code. *)
Require Import ZArith List Bool String.
From Verif Require Import Spec SpecApi SpecHash SpecBip340.
Import ListNotations.
Local Open Scope Z_scope.

Definition point_eqb (P Q : point) : bool :=
  match P, Q with
  | Inf, Inf => true
  | Aff x1 y1, Aff x2 y2 => (x1 =? x2) && (y1 =? y2)
  | _, _ => false
  end.
(** A point that can be a public key. *)
Definition key_point (P : point) : Prop := on_curve P /\ P <> Inf.
(** cbytes and cbytes_ext: 33 bytes, all zero for infinity. *)
Definition cbytes (P : point) : list Z := match P with Inf => repeat 0 33 | Aff x y => enc_compressed x y end.
Definition neg_if (b : bool) (v : Z) : Z := if b then - v else v.

(** ** Key aggregation *)
Definition key_list_hash (Ps : list point) : list Z := tagged_hash (ascii_bytes "KeyAgg list") (List.concat (List.map cbytes Ps)).
(** The first key different from the first one (infinity if there is none). *)
Definition second_key (Ps : list point) : point :=
  match Ps with
  | [] => Inf
  | P0 :: rest => match find (fun P => negb (point_eqb P P0)) rest with Some P => P | None => Inf end
  end.
Definition key_coef (Ps : list point) (P : point) : Z :=
  if point_eqb P (second_key Ps) then 1
  else be_val (tagged_hash (ascii_bytes "KeyAgg coefficient") (key_list_hash Ps ++ cbytes P)) mod n.
Definition key_agg (Ps : list point) : point := psum (List.map (fun P => pmul (key_coef Ps P) P) Ps).

(** The key aggregation context: the (tweaked) aggregate key, the accumulated sign and tweak. *)
Record aggctx := mkaggctx { ac_Q : point; ac_gacc : Z; ac_tacc : Z }.
Definition agg_start (Ps : list point) : aggctx := mkaggctx (key_agg Ps) 1 0.
(** ApplyTweak; [None] if the tweak is out of range or the result is infinity. *)
Definition apply_tweak (c : aggctx) (tweak : Z) (xonly : bool) : option aggctx :=
  let g := if xonly && Z.odd (ycoord (ac_Q c)) then -1 else 1 in
  let Q := padd (pmul g (ac_Q c)) (pmul tweak G) in
  if n <=? tweak then None else
  match Q with
  | Inf => None
  | Aff _ _ => Some (mkaggctx Q (g * ac_gacc c) ((tweak + g * ac_tacc c) mod n))
  end.
Fixpoint apply_tweaks (c : aggctx) (tws : list (Z * bool)) : option aggctx :=
  match tws with
  | [] => Some c
  | (t, xonly) :: tws' => match apply_tweak c t xonly with Some c' => apply_tweaks c' tws' | None => None end
  end.

(** ** Nonces *)
Definition opt_field (prefix : nat) (o : option (list Z)) : list Z :=
  match o with Some l => be_bytes prefix (Z.of_nat (List.length l)) ++ l | None => be_bytes prefix 0 end.
Definition xor32 (a b : list Z) : list Z := map (fun xy => Z.lxor (fst xy) (snd xy)) (combine a b).
(** NonceGen: the i-th (0 or 1) secret nonce. *)
Definition nonce_gen_k (rand' : list Z) (sk : option (list Z)) (pk : list Z) (aggpk m extra : option (list Z)) (i : Z) : Z :=
  let rand := match sk with Some sk => xor32 (tagged_hash (ascii_bytes "MuSig/aux") rand') sk | None => rand' end in
  let m_prefixed := match m with Some _ => [1] ++ opt_field 8 m | None => [0] end in
  be_val (tagged_hash (ascii_bytes "MuSig/nonce")
            (rand ++ opt_field 1 (Some pk) ++ opt_field 1 aggpk ++ m_prefixed ++ opt_field 4 extra ++ [i])) mod n.

(** ** Sessions *)
Record session := mksess { ss_R : point; ss_b : Z; ss_e : Z; ss_s0 : Z }.
Definition nonce_coef (R1 R2 Q : point) (m : list Z) : Z :=
  be_val (tagged_hash (ascii_bytes "MuSig/noncecoef") (cbytes R1 ++ cbytes R2 ++ be_bytes 32 (xcoord Q) ++ m)) mod n.
(** The point R1 + b R2 of an aggregate nonce. *)
Definition nonce_sum (R1 R2 : point) (b : Z) : point := padd R1 (pmul b R2).
Definition session_of (c : aggctx) (R1 R2 : point) (m : list Z) : session :=
  let Q := ac_Q c in
  let b := nonce_coef R1 R2 Q m in
  let R := match nonce_sum R1 R2 b with Inf => G | R => R end in
  let e := bip340_challenge (xcoord R) (xcoord Q) m in
  mksess R b e (neg_if (Z.odd (ycoord Q)) (e * ac_tacc c) mod n).

(** ** Partial signatures *)
(** g * gacc. *)
Definition sign_factor (c : aggctx) : Z := neg_if (Z.odd (ycoord (ac_Q c))) (ac_gacc c).
Definition partial_sig (Ps : list point) (c : aggctx) (s : session) (k1 k2 d : Z) : Z :=
  (neg_if (Z.odd (ycoord (ss_R s))) (k1 + ss_b s * k2) + ss_e s * key_coef Ps (pmul d G) * (sign_factor c * d)) mod n.
(** The partial signature [v] of the signer with key [P] and public nonce (R1, R2). *)
Definition partial_sig_valid (Ps : list point) (c : aggctx) (s : session) (R1 R2 P : point) (v : Z) : Prop :=
  let Re := nonce_sum R1 R2 (ss_b s) in
  let Re' := if Z.odd (ycoord (ss_R s)) then pneg Re else Re in
  pmul v G = padd Re' (pmul (ss_e s * key_coef Ps P * sign_factor c) P).
Definition aggregate_sig (s : session) (vs : list Z) : list Z :=
  be_bytes 32 (xcoord (ss_R s)) ++ be_bytes 32 ((ss_s0 s + fold_right Z.add 0 vs) mod n).

(** ** The opaque objects *)
Definition point64 (P : point) : list Z := match P with Inf => repeat 0 64 | Aff x y => le_enc 32 x ++ le_enc 32 y end.
(** A secp256k1_musig_keyagg_cache (197 bytes) for the keys [Ps] and the context [c]. *)
Definition cache_holds (cache : list Z) (Ps : list point) (c : aggctx) : Prop :=
  key_point (ac_Q c) /\ Forall key_point Ps /\ (ac_gacc c = 1 \/ ac_gacc c = -1) /\ 0 <= ac_tacc c < n /\
  cache = [0xf4; 0xad; 0xbb; 0xdf] ++ point64 (ac_Q c) ++ point64 (second_key Ps) ++ key_list_hash Ps ++
          [if ac_gacc c =? 1 then 0 else 1] ++ be_bytes 32 (ac_tacc c).
(** A secp256k1_musig_secnonce (132 bytes) with the nonces [k1], [k2] for the public key [P]. *)
Definition secnonce_holds (sn : list Z) (k1 k2 : Z) (P : point) : Prop :=
  1 <= k1 < n /\ 1 <= k2 < n /\ key_point P /\ sn = [0x22; 0x0e; 0xdc; 0xf1] ++ be_bytes 32 k1 ++ be_bytes 32 k2 ++ point64 P.
(** A secp256k1_musig_pubnonce (132 bytes). *)
Definition pubnonce_holds (pn : list Z) (R1 R2 : point) : Prop :=
  key_point R1 /\ key_point R2 /\ pn = [0xf5; 0x7a; 0x3d; 0xa0] ++ point64 R1 ++ point64 R2.
(** A secp256k1_musig_aggnonce (132 bytes). *)
Definition aggnonce_holds (an : list Z) (R1 R2 : point) : Prop :=
  on_curve R1 /\ on_curve R2 /\ an = [0xa8; 0xb7; 0xe4; 0x67] ++ point64 R1 ++ point64 R2.
(** A secp256k1_musig_session (133 bytes). *)
Definition session_holds (obj : list Z) (s : session) : Prop :=
  key_point (ss_R s) /\ 0 <= ss_b s < n /\ 0 <= ss_e s < n /\ 0 <= ss_s0 s < n /\
  obj = [0x9d; 0xed; 0xe9; 0x17] ++ [if Z.odd (ycoord (ss_R s)) then 1 else 0] ++ be_bytes 32 (xcoord (ss_R s)) ++
        be_bytes 32 (ss_b s) ++ be_bytes 32 (ss_e s) ++ be_bytes 32 (ss_s0 s).
(** A secp256k1_musig_partial_sig (36 bytes). *)
Definition psig_holds (ps : list Z) (v : Z) : Prop := 0 <= v < n /\ ps = [0xeb; 0xfb; 0x1a; 0x32] ++ be_bytes 32 v.
