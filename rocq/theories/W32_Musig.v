(** Model of src/modules/musig/keyagg_impl.h and session_impl.h in the 32-bit build (10x26 field elements, 8x32 scalars):
    the definitions of MusigModel.v on the 32-bit field and scalars.  The conventions are those of
    that file, which also has the definitions that do not depend on the width. *)
Require Import ZArith List Bool.
From Verif Require Import Word Word32 Spec FieldModel ScalarModel Field32Model Scalar32Model HashModel GenTable GroupModel EcmultModel GenModel EcdsaModel ApiModel ExtrakeysModel SchnorrModel RecoveryModel EcdhModel EllswiftModel HsortModel MusigModel W32_Base W32_Group W32_Ecmult W32_Gen W32_Ecdsa W32_Api W32_Extrakeys W32_Schnorr W32_Recovery W32_Ecdh W32_Ellswift W32_Hsort.
Import ListNotations.
Local Open Scope Z_scope.
Local Open Scope c_scope.

(** src/ecmult_impl.h:763-784 secp256k1_ecmult_multi_simple_var.  The callback takes the index
    and returns the scalar and the point, or [None] for return value 0; its other effects (the
    illegal callback when pubkey_load fails) are not modelled: here the same keys have been
    loaded before. *)
Fixpoint multi_simple_loop_w32 (cb : nat -> option (sc8 * ge_w32)) (idx todo : nat) (r : gej_w32) : option gej_w32 :=
  match todo with
  | O => Some r
  | S todo' =>
    match cb idx with
    | None => None
    | Some (scalar, point) => multi_simple_loop_w32 cb (S idx) todo' (gej_add_var_w32 r (ecmult_w32 (gej_set_ge_w32 point) scalar None))
    end
  end.
Definition ecmult_multi_simple_var_w32 (inp_g_sc : option sc8) (cb : nat -> option (sc8 * ge_w32)) (n_points : nat) : option gej_w32 :=
  multi_simple_loop_w32 cb 0 n_points (ecmult_w32 gej_infinity_w32 s8_zero inp_g_sc).
(** src/ecmult_impl.h:807-851 secp256k1_ecmult_multi_var, with scratch = NULL. *)
Definition ecmult_multi_var_noscratch_w32 (inp_g_sc : option sc8) (cb : nat -> option (sc8 * ge_w32)) (n_points : nat) : option gej_w32 :=
  match inp_g_sc, n_points with
  | None, O => Some gej_infinity_w32
  | Some _, O => Some (ecmult_w32 gej_infinity_w32 s8_zero inp_g_sc)
  | _, _ => ecmult_multi_simple_var_w32 inp_g_sc cb n_points
  end.
(** src/modules/musig/keyagg.h:15-26 (secp256k1_keyagg_cache_internal). *)
Record keyagg_cache_internal_w32 := mkcache_w32 { ci_pk_w32 : ge_w32; ci_second_pk_w32 : ge_w32; ci_pks_hash_w32 : list Z; ci_tweak_w32 : sc8; ci_parity_acc_w32 : Z }.
(** src/modules/musig/keyagg_impl.h:31-44 secp256k1_keyagg_cache_save. *)
Definition keyagg_cache_save_w32 (ci : keyagg_cache_internal_w32) : list Z :=
  keyagg_cache_magic ++ ge_to_bytes_w32 (ci_pk_w32 ci) ++ ge_to_bytes_ext_w32 (ci_second_pk_w32 ci) ++ ci_pks_hash_w32 ci ++
  [w8 (ci_parity_acc_w32 ci)] ++ s8_get_b32 (ci_tweak_w32 ci).
(** src/modules/musig/keyagg_impl.h:46-60 secp256k1_keyagg_cache_load: [None] when the magic does
    not match (the callback is called once, 0 is returned). *)
Definition keyagg_cache_load_w32 (cache : list Z) : option keyagg_cache_internal_w32 :=
  if memcmp_var (take 0 4 cache) keyagg_cache_magic =? 0 then
    Some (mkcache_w32 (ge_from_bytes_w32 (take 4 64 cache)) (ge_from_bytes_ext_w32 (take 68 64 cache)) (take 132 32 cache)
            (fst (s8_set_b32 (take 165 32 cache))) (Z.land (nth 164 cache 0) 1))
  else None.
(** src/modules/musig/keyagg_impl.h:79-95 secp256k1_musig_compute_pks_hash: [inl] the hash, or
    [inr] the number of calls of the illegal callback when 0 is returned.  The local buffer ser
    is zero-filled here (secp256k1_ec_pubkey_serialize clears it first anyway). *)
Fixpoint pks_hash_loop_w32 (sha : sha256) (pks : list (list Z)) : sha256 + Z :=
  match pks with
  | [] => inl sha
  | pk :: pks' =>
    match ec_pubkey_serialize_w32 (Some (zeros 33)) (Some 33) (Some pk) EC_COMPRESSED with
    | None => inr 0
    | Some r =>
      if r_ret r =? 0 then inr (r_ill r) else
      pks_hash_loop_w32 (sha256_write sha (match fst (r_out r) with Some ser => ser | None => zeros 33 end)) pks'
    end
  end.
Definition musig_compute_pks_hash_w32 (pks : list (list Z)) : list Z + Z :=
  match pks_hash_loop_w32 musig_keyagglist_sha256 pks with
  | inl sha => inl (sha256_finalize sha)
  | inr ill => inr ill
  end.
(** src/modules/musig/keyagg_impl.h:118-143 secp256k1_musig_keyaggcoef_internal.  If the
    serialization failed, buf would be uninitialized (zeros here); pk is never infinity. *)
Definition musig_keyaggcoef_internal_w32 (pks_hash : list Z) (pk second_pk : ge_w32) : sc8 :=
  if negb (ge_is_infinity_w32 second_pk) && ge_eq_var_w32 pk second_pk then s8_set_int 1 else
  let sha := musig_keyaggcoef_sha256 in
  let sha := sha256_write sha pks_hash in
  let buf := match eckey_pubkey_serialize_w32 pk true with Some b => b | None => zeros 33 end in
  let sha := sha256_write sha buf in
  fst (s8_set_b32 (sha256_finalize sha)).
(** src/modules/musig/keyagg_impl.h:147-149 secp256k1_musig_keyaggcoef. *)
Definition musig_keyaggcoef_w32 (ci : keyagg_cache_internal_w32) (pk : ge_w32) : sc8 :=
  musig_keyaggcoef_internal_w32 (ci_pks_hash_w32 ci) pk (ci_second_pk_w32 ci).
(** src/modules/musig/keyagg_impl.h:160-173 secp256k1_musig_pubkey_agg_callback. *)
Definition musig_pubkey_agg_callback_w32 (pks_hash : list Z) (pks : list (list Z)) (second_pk : ge_w32) (idx : nat) : option (sc8 * ge_w32) :=
  let pt := snd (pubkey_load_w32 (nth idx pks [])) in
  Some (musig_keyaggcoef_internal_w32 pks_hash pt second_pk, pt).
(** src/modules/musig/keyagg_impl.h:191-201 (secp256k1_musig_pubkey_agg, the search for the second
    key): [None] if loading it fails. *)
Fixpoint second_pk_loop_w32 (pk0 : list Z) (rest : list (list Z)) : option ge_w32 :=
  match rest with
  | [] => Some ge_infinity_w32
  | pki :: rest' =>
    if negb (memcmp_var pk0 pki =? 0) then
      let (ok, pk) := pubkey_load_w32 pki in
      if negb ok then None else Some pk
    else second_pk_loop_w32 pk0 rest'
  end.
(** src/modules/musig/keyagg_impl.h:175-231 secp256k1_musig_pubkey_agg: outputs are *agg_pk and
    *keyagg_cache (either may be NULL). *)
Definition musig_pubkey_agg_w32 (agg_pk keyagg_cache : option (list Z)) (pubkeys : option (list (list Z)))
  : res (option (list Z) * option (list Z)) :=
  let agg_pk := match agg_pk with Some _ => Some (zeros 64) | None => None end in
  match pubkeys with
  | None => arg_fail (agg_pk, keyagg_cache)
  | Some [] => arg_fail (agg_pk, keyagg_cache)
  | Some ((pk0 :: rest) as pks) =>
    match second_pk_loop_w32 pk0 rest with
    | None => mkres 0 1 (agg_pk, keyagg_cache)
    | Some second_pk =>
      match musig_compute_pks_hash_w32 pks with
      | inr ill => mkres 0 ill (agg_pk, keyagg_cache)
      | inl pks_hash =>
        match ecmult_multi_var_noscratch_w32 None (musig_pubkey_agg_callback_w32 pks_hash pks second_pk) (length pks) with
        | None => mkres 0 0 (agg_pk, keyagg_cache)
        | Some pkj =>
          let pkp := ge_set_gej_w32 pkj in
          let pkp := mkge_w32 (gx_w32 pkp) (f26_normalize_var (gy_w32 pkp)) (ginf_w32 pkp) in
          let keyagg_cache := match keyagg_cache with
            | Some _ => Some (keyagg_cache_save_w32 (mkcache_w32 pkp second_pk pks_hash (s8_of_Z 0) 0))
            | None => None
            end in
          let agg_pk := match agg_pk with
            | Some _ => Some (xonly_pubkey_save_w32 (fst (extrakeys_ge_even_y_w32 pkp)))
            | None => None
            end in
          mkres 1 0 (agg_pk, keyagg_cache)
        end
      end
    end
  end.
(** src/modules/musig/keyagg_impl.h:233-245 secp256k1_musig_pubkey_get. *)
Definition musig_pubkey_get_w32 (agg_pk keyagg_cache : option (list Z)) : res (option (list Z)) :=
  match agg_pk with
  | None => arg_fail None
  | Some _ =>
    match keyagg_cache with
    | None => arg_fail (Some (zeros 64))
    | Some cache =>
      match keyagg_cache_load_w32 cache with
      | None => mkres 0 1 (Some (zeros 64))
      | Some ci => mkres 1 0 (Some (pubkey_save_w32 (ci_pk_w32 ci)))
      end
    end
  end.
(** src/modules/musig/keyagg_impl.h:247-281 secp256k1_musig_pubkey_tweak_add_internal: outputs are
    *output_pubkey (may be NULL) and *keyagg_cache. *)
Definition musig_pubkey_tweak_add_internal_w32 (output_pubkey keyagg_cache tweak32 : option (list Z)) (xonly : bool)
  : res (option (list Z) * option (list Z)) :=
  let output_pubkey := match output_pubkey with Some _ => Some (zeros 64) | None => None end in
  match keyagg_cache, tweak32 with
  | Some cache, Some tw =>
    match keyagg_cache_load_w32 cache with
    | None => mkres 0 1 (output_pubkey, keyagg_cache)
    | Some ci =>
      let (tweak, overflow) := s8_set_b32 tw in
      if overflow then mkres 0 0 (output_pubkey, keyagg_cache) else
      let (pk, odd) := if xonly then extrakeys_ge_even_y_w32 (ci_pk_w32 ci) else (ci_pk_w32 ci, 0) in
      let parity_acc := if odd =? 0 then ci_parity_acc_w32 ci else Z.lxor (ci_parity_acc_w32 ci) 1 in
      let acc := if odd =? 0 then ci_tweak_w32 ci else s8_negate (ci_tweak_w32 ci) in
      let acc := s8_add acc tweak in
      match eckey_pubkey_tweak_add_w32 pk tweak with
      | None => mkres 0 0 (output_pubkey, keyagg_cache)
      | Some pk =>
        mkres 1 0 (match output_pubkey with Some _ => Some (pubkey_save_w32 pk) | None => None end,
                   Some (keyagg_cache_save_w32 (mkcache_w32 pk (ci_second_pk_w32 ci) (ci_pks_hash_w32 ci) acc parity_acc)))
      end
    end
  | _, _ => arg_fail (output_pubkey, keyagg_cache)
  end.
(** src/modules/musig/keyagg_impl.h:283-285 secp256k1_musig_pubkey_ec_tweak_add. *)
Definition musig_pubkey_ec_tweak_add_w32 (output_pubkey keyagg_cache tweak32 : option (list Z)) :=
  musig_pubkey_tweak_add_internal_w32 output_pubkey keyagg_cache tweak32 false.
(** src/modules/musig/keyagg_impl.h:287-289 secp256k1_musig_pubkey_xonly_tweak_add. *)
Definition musig_pubkey_xonly_tweak_add_w32 (output_pubkey keyagg_cache tweak32 : option (list Z)) :=
  musig_pubkey_tweak_add_internal_w32 output_pubkey keyagg_cache tweak32 true.
(** src/modules/musig/session_impl.h:24-38 secp256k1_musig_ge_serialize_ext. *)
Definition musig_ge_serialize_ext_w32 (g : ge_w32) : list Z :=
  if ge_is_infinity_w32 g then zeros 33 else match eckey_pubkey_serialize_w32 g true with Some b => b | None => zeros 33 end.
(** src/modules/musig/session_impl.h:42-53 secp256k1_musig_ge_parse_ext;
    secp256k1_ge_is_in_correct_subgroup returns 1 outside exhaustive tests. *)
Definition musig_ge_parse_ext_w32 (in33 : list Z) : option ge_w32 :=
  if memcmp_var in33 (zeros 33) =? 0 then Some ge_infinity_w32 else eckey_pubkey_parse_w32 in33.
(** src/modules/musig/session_impl.h:57-62 secp256k1_musig_secnonce_save. *)
Definition musig_secnonce_save_w32 (k0 k1 : sc8) (pk : ge_w32) : list Z := secnonce_magic ++ s8_get_b32 k0 ++ s8_get_b32 k1 ++ ge_to_bytes_w32 pk.
(** src/modules/musig/session_impl.h:64-77 secp256k1_musig_secnonce_load: [None] when one of the
    argument checks fails (the callback is called once, 0 is returned). *)
Definition musig_secnonce_load_w32 (secnonce : list Z) : option (sc8 * sc8 * ge_w32) :=
  if negb (memcmp_var (take 0 4 secnonce) secnonce_magic =? 0) then None else
  if is_zero_array (take 4 64 secnonce) then None else
  Some (fst (s8_set_b32 (take 4 32 secnonce)), fst (s8_set_b32 (take 36 32 secnonce)), ge_from_bytes_w32 (take 68 64 secnonce)).
(** src/modules/musig/session_impl.h:94-100 secp256k1_musig_pubnonce_save. *)
Definition musig_pubnonce_save_w32 (g0 g1 : ge_w32) : list Z := pubnonce_magic ++ ge_to_bytes_w32 g0 ++ ge_to_bytes_w32 g1.
(** src/modules/musig/session_impl.h:104-112 secp256k1_musig_pubnonce_load: [None] when the magic
    does not match (one call of the callback). *)
Definition musig_pubnonce_load_w32 (nonce : list Z) : option (ge_w32 * ge_w32) :=
  if memcmp_var (take 0 4 nonce) pubnonce_magic =? 0
  then Some (ge_from_bytes_w32 (take 4 64 nonce), ge_from_bytes_w32 (take 68 64 nonce)) else None.
(** src/modules/musig/session_impl.h:116-122 secp256k1_musig_aggnonce_save. *)
Definition musig_aggnonce_save_w32 (g0 g1 : ge_w32) : list Z := aggnonce_magic ++ ge_to_bytes_ext_w32 g0 ++ ge_to_bytes_ext_w32 g1.
(** src/modules/musig/session_impl.h:124-132 secp256k1_musig_aggnonce_load. *)
Definition musig_aggnonce_load_w32 (nonce : list Z) : option (ge_w32 * ge_w32) :=
  if memcmp_var (take 0 4 nonce) aggnonce_magic =? 0
  then Some (ge_from_bytes_ext_w32 (take 4 64 nonce), ge_from_bytes_ext_w32 (take 68 64 nonce)) else None.
(** src/modules/musig/session.h:14-20 (secp256k1_musig_session_internal). *)
Record session_internal_w32 := mksession_w32 { si_fin_nonce_parity_w32 : Z; si_fin_nonce_w32 : list Z; si_noncecoef_w32 : sc8; si_challenge_w32 : sc8; si_s_part_w32 : sc8 }.
(** src/modules/musig/session_impl.h:144-158 secp256k1_musig_session_save. *)
Definition musig_session_save_w32 (si : session_internal_w32) : list Z :=
  session_cache_magic ++ [w8 (si_fin_nonce_parity_w32 si)] ++ si_fin_nonce_w32 si ++ s8_get_b32 (si_noncecoef_w32 si) ++
  s8_get_b32 (si_challenge_w32 si) ++ s8_get_b32 (si_s_part_w32 si).
(** src/modules/musig/session_impl.h:160-175 secp256k1_musig_session_load. *)
Definition musig_session_load_w32 (session : list Z) : option session_internal_w32 :=
  if memcmp_var (take 0 4 session) session_cache_magic =? 0 then
    Some (mksession_w32 (nth 4 session 0) (take 5 32 session) (fst (s8_set_b32 (take 37 32 session)))
            (fst (s8_set_b32 (take 69 32 session))) (fst (s8_set_b32 (take 101 32 session))))
  else None.
(** src/modules/musig/session_impl.h:179-182 secp256k1_musig_partial_sig_save. *)
Definition musig_partial_sig_save_w32 (s : sc8) : list Z := partial_sig_magic ++ s8_get_b32 s.
(** src/modules/musig/session_impl.h:184-192 secp256k1_musig_partial_sig_load. *)
Definition musig_partial_sig_load_w32 (sig : list Z) : option sc8 :=
  if memcmp_var (take 0 4 sig) partial_sig_magic =? 0 then Some (fst (s8_set_b32 (take 4 32 sig))) else None.
(** src/modules/musig/session_impl.h:194-212 secp256k1_musig_pubnonce_parse. *)
Definition musig_pubnonce_parse_w32 (nonce in66 : option (list Z)) : res (option (list Z)) :=
  match nonce, in66 with
  | Some _, Some inp =>
    match eckey_pubkey_parse_w32 (take 0 33 inp) with
    | None => mkres 0 0 nonce
    | Some g0 =>
      match eckey_pubkey_parse_w32 (take 33 33 inp) with
      | None => mkres 0 0 nonce
      | Some g1 => mkres 1 0 (Some (musig_pubnonce_save_w32 g0 g1))
      end
    end
  | _, _ => arg_fail nonce
  end.
(** src/modules/musig/session_impl.h:214-238 secp256k1_musig_pubnonce_serialize.  If the
    serialization of a point failed its 33 bytes would stay zero. *)
Definition musig_pubnonce_serialize_w32 (out66 nonce : option (list Z)) : res (option (list Z)) :=
  match out66 with
  | None => arg_fail None
  | Some _ =>
    match nonce with
    | None => arg_fail (Some (zeros 66))
    | Some nonce =>
      match musig_pubnonce_load_w32 nonce with
      | None => mkres 0 1 (Some (zeros 66))
      | Some (g0, g1) =>
        let ser := fun g => match eckey_pubkey_serialize_w32 g true with Some b => b | None => zeros 33 end in
        mkres 1 0 (Some (ser g0 ++ ser g1))
      end
    end
  end.
(** src/modules/musig/session_impl.h:240-255 secp256k1_musig_aggnonce_parse. *)
Definition musig_aggnonce_parse_w32 (nonce in66 : option (list Z)) : res (option (list Z)) :=
  match nonce, in66 with
  | Some _, Some inp =>
    match musig_ge_parse_ext_w32 (take 0 33 inp) with
    | None => mkres 0 0 nonce
    | Some g0 =>
      match musig_ge_parse_ext_w32 (take 33 33 inp) with
      | None => mkres 0 0 nonce
      | Some g1 => mkres 1 0 (Some (musig_aggnonce_save_w32 g0 g1))
      end
    end
  | _, _ => arg_fail nonce
  end.
(** src/modules/musig/session_impl.h:257-273 secp256k1_musig_aggnonce_serialize. *)
Definition musig_aggnonce_serialize_w32 (out66 nonce : option (list Z)) : res (option (list Z)) :=
  match out66 with
  | None => arg_fail None
  | Some _ =>
    match nonce with
    | None => arg_fail (Some (zeros 66))
    | Some nonce =>
      match musig_aggnonce_load_w32 nonce with
      | None => mkres 0 1 (Some (zeros 66))
      | Some (g0, g1) => mkres 1 0 (Some (musig_ge_serialize_ext_w32 g0 ++ musig_ge_serialize_ext_w32 g1))
      end
    end
  end.
(** src/modules/musig/session_impl.h:275-292 secp256k1_musig_partial_sig_parse. *)
Definition musig_partial_sig_parse_w32 (sig in32 : option (list Z)) : res (option (list Z)) :=
  match sig, in32 with
  | Some _, Some inp =>
    let (tmp, overflow) := s8_set_b32 inp in
    if overflow then mkres 0 0 (Some (zeros 36)) else mkres 1 0 (Some (musig_partial_sig_save_w32 tmp))
  | _, _ => arg_fail sig
  end.
(** src/modules/musig/session_impl.h:352-393 secp256k1_nonce_function_musig: k[0] and k[1]. *)
Definition nonce_function_musig_w32 (session_secrand : list Z) (msg32 seckey32 : option (list Z)) (pk33 : list Z)
    (agg_pk32 extra_input32 : option (list Z)) : sc8 * sc8 :=
  let rand := match seckey32 with
    | Some sk => xor_bytes (sha256_finalize (sha256_write nonce_function_musig_sha256_tagged_aux (firstn 32 session_secrand))) (firstn 32 sk)
    | None => firstn 32 session_secrand
    end in
  let sha := nonce_function_musig_sha256_tagged in
  let sha := sha256_write sha rand in
  let sha := nonce_function_musig_helper sha 1 (Some pk33) 33 in
  let sha := nonce_function_musig_helper sha 1 agg_pk32 32 in
  let sha := match msg32 with
    | Some _ => nonce_function_musig_helper (sha256_write sha [1]) 8 msg32 32
    | None => sha256_write sha [0]
    end in
  let sha := nonce_function_musig_helper sha 4 extra_input32 32 in
  let k := fun i => fst (s8_set_b32 (sha256_finalize (sha256_write sha [i]))) in
  (k 0, k 1).
(** src/modules/musig/session_impl.h:395-467 secp256k1_musig_nonce_gen_internal: outputs are
    *secnonce and *pubnonce.  If the serialization of pk failed, pk_ser would be uninitialized
    (zeros here); pubkey_load never yields infinity. *)
Definition musig_nonce_gen_internal_w32 (ctx : context_w32) (secnonce : list Z) (pubnonce : option (list Z)) (input_nonce : list Z)
    (seckey pubkey msg32 keyagg_cache extra_input32 : option (list Z)) : res (list Z * option (list Z)) :=
  match pubnonce with
  | None => arg_fail (secnonce, None)
  | Some _ =>
    match pubkey with
    | None => arg_fail (secnonce, Some (zeros 132))
    | Some pubkey =>
      if negb (g_built_w32 (c_gen_w32 ctx)) then arg_fail (secnonce, Some (zeros 132)) else
      let ret := match seckey with Some sk => snd (s8_set_b32_seckey sk) | None => true end in
      match (match keyagg_cache with
             | Some cache => match keyagg_cache_load_w32 cache with Some ci => Some (Some (f26_get_b32 (gx_w32 (ci_pk_w32 ci)))) | None => None end
             | None => Some None
             end) with
      | None => mkres 0 1 (secnonce, Some (zeros 132))
      | Some aggpk_ser =>
        let (ok, pk) := pubkey_load_w32 pubkey in
        if negb ok then mkres 0 1 (secnonce, Some (zeros 132)) else
        let pk_ser := match eckey_pubkey_serialize_w32 pk true with Some b => b | None => zeros 33 end in
        let (k0, k1) := nonce_function_musig_w32 input_nonce msg32 seckey pk_ser aggpk_ser extra_input32 in
        let secnonce := musig_secnonce_invalidate (musig_secnonce_save_w32 k0 k1 pk) (b2z (negb ret)) in
        match ge_set_all_gej_w32 [ecmult_gen_w32 (c_gen_w32 ctx) k0; ecmult_gen_w32 (c_gen_w32 ctx) k1] with
        | [n0; n1] => mkres (b2z ret) 0 (secnonce, Some (musig_pubnonce_save_w32 n0 n1))
        | _ => mkres (b2z ret) 0 (secnonce, Some (zeros 132))
        end
      end
    end
  end.
(** src/modules/musig/session_impl.h:469-495 secp256k1_musig_nonce_gen: outputs are *secnonce,
    *pubnonce and *session_secrand32. *)
Definition musig_nonce_gen_w32 (ctx : context_w32) (secnonce pubnonce session_secrand32 seckey pubkey msg32 keyagg_cache extra_input32 : option (list Z))
  : res (option (list Z) * option (list Z) * option (list Z)) :=
  match secnonce with
  | None => arg_fail (None, pubnonce, session_secrand32)
  | Some _ =>
    match session_secrand32 with
    | None => arg_fail (Some (zeros 132), pubnonce, None)
    | Some secrand =>
      if is_zero_array (firstn 32 secrand) then
        mkres 0 0 (Some (musig_secnonce_invalidate (zeros 132) 1), pubnonce, session_secrand32)
      else
      let r := musig_nonce_gen_internal_w32 ctx (zeros 132) pubnonce secrand seckey pubkey msg32 keyagg_cache extra_input32 in
      mkres (r_ret r) (r_ill r) (Some (fst (r_out r)), snd (r_out r), Some (memczero (firstn 32 secrand) (r_ret r) ++ skipn 32 secrand))
    end
  end.
(** src/modules/musig/session_impl.h:497-523 secp256k1_musig_nonce_gen_counter: outputs are
    *secnonce and *pubnonce; nonrepeating_cnt is a uint64_t. *)
Definition musig_nonce_gen_counter_w32 (ctx : context_w32) (secnonce pubnonce : option (list Z)) (nonrepeating_cnt : Z)
    (keypair msg32 keyagg_cache extra_input32 : option (list Z)) : res (option (list Z) * option (list Z)) :=
  match secnonce with
  | None => arg_fail (None, pubnonce)
  | Some _ =>
    match keypair with
    | None => arg_fail (Some (zeros 132), pubnonce)
    | Some kp =>
      let buf := be_bytes 8 nonrepeating_cnt ++ zeros 24 in
      let seckey := r_out (keypair_sec (Some (zeros 32)) (Some kp)) in
      let pubkey := r_out (keypair_pub (Some (zeros 64)) (Some kp)) in
      let r := musig_nonce_gen_internal_w32 ctx (zeros 132) pubnonce buf seckey pubkey msg32 keyagg_cache extra_input32 in
      mkres (if r_ret r =? 0 then 0 else 1) (r_ill r) (Some (fst (r_out r)), snd (r_out r))
    end
  end.
(** src/modules/musig/session_impl.h:525-542 secp256k1_musig_sum_pubnonces: [None] when an entry
    does not load (one call of the callback). *)
Fixpoint sum_pubnonces_loop_w32 (s0 s1 : gej_w32) (pubnonces : list (list Z)) : option (gej_w32 * gej_w32) :=
  match pubnonces with
  | [] => Some (s0, s1)
  | nonce :: rest =>
    match musig_pubnonce_load_w32 nonce with
    | None => None
    | Some (g0, g1) => sum_pubnonces_loop_w32 (gej_add_ge_var_w32 s0 g0) (gej_add_ge_var_w32 s1 g1) rest
    end
  end.
Definition musig_sum_pubnonces_w32 (pubnonces : list (list Z)) : option (gej_w32 * gej_w32) := sum_pubnonces_loop_w32 gej_infinity_w32 gej_infinity_w32 pubnonces.
(** src/modules/musig/session_impl.h:544-558 secp256k1_musig_nonce_agg. *)
Definition musig_nonce_agg_w32 (aggnonce : option (list Z)) (pubnonces : option (list (list Z))) : res (option (list Z)) :=
  match aggnonce, pubnonces with
  | Some _, Some ((_ :: _) as l) =>
    match musig_sum_pubnonces_w32 l with
    | None => mkres 0 1 aggnonce
    | Some (s0, s1) =>
      match ge_set_all_gej_var_w32 [s0; s1] with
      | [n0; n1] => mkres 1 0 (Some (musig_aggnonce_save_w32 n0 n1))
      | _ => mkres 1 0 aggnonce
      end
    end
  | _, _ => arg_fail aggnonce
  end.
(** src/modules/musig/session_impl.h:576-589 secp256k1_musig_compute_noncehash. *)
Definition musig_compute_noncehash_w32 (a0 a1 : ge_w32) (agg_pk32 msg : list Z) : list Z :=
  let sha := musig_compute_noncehash_sha256_tagged in
  let sha := sha256_write sha (musig_ge_serialize_ext_w32 a0) in
  let sha := sha256_write sha (musig_ge_serialize_ext_w32 a1) in
  let sha := sha256_write sha agg_pk32 in
  let sha := sha256_write sha (firstn 32 msg) in
  sha256_finalize sha.
(** src/modules/musig/session_impl.h:592-598 secp256k1_effective_nonce. *)
Definition effective_nonce_w32 (n0 n1 : ge_w32) (b : sc8) : gej_w32 :=
  gej_add_ge_var_w32 (ecmult_w32 (gej_set_ge_w32 n1) b None) n0.
(** src/modules/musig/session_impl.h:600-618 secp256k1_musig_nonce_process_internal:
    fin_nonce_parity, fin_nonce and b. *)
Definition musig_nonce_process_internal_w32 (a0 a1 : ge_w32) (agg_pk32 msg : list Z) : Z * list Z * sc8 :=
  let noncehash := musig_compute_noncehash_w32 a0 a1 agg_pk32 msg in
  let b := fst (s8_set_b32 noncehash) in
  let fin_nonce_pt := ge_set_gej_w32 (effective_nonce_w32 a0 a1 b) in
  let fin_nonce_pt := if ge_is_infinity_w32 fin_nonce_pt then ge_const_g_w32 else fin_nonce_pt in
  let x := f26_normalize_var (gx_w32 fin_nonce_pt) in
  let fin_nonce := f26_get_b32 x in
  let y := f26_normalize_var (gy_w32 fin_nonce_pt) in
  (b2z (f26_is_odd y), fin_nonce, b).
(** src/modules/musig/session_impl.h:620-658 secp256k1_musig_nonce_process. *)
Definition musig_nonce_process_w32 (session aggnonce msg32 keyagg_cache : option (list Z)) : res (option (list Z)) :=
  match session, aggnonce, msg32, keyagg_cache with
  | Some _, Some aggnonce, Some msg, Some cache =>
    match keyagg_cache_load_w32 cache with
    | None => mkres 0 1 session
    | Some ci =>
      let agg_pk32 := f26_get_b32 (gx_w32 (ci_pk_w32 ci)) in
      match musig_aggnonce_load_w32 aggnonce with
      | None => mkres 0 1 session
      | Some (a0, a1) =>
        let '(fin_nonce_parity, fin_nonce, b) := musig_nonce_process_internal_w32 a0 a1 agg_pk32 msg in
        let challenge := schnorrsig_challenge_w32 fin_nonce (firstn 32 msg) agg_pk32 in
        let s_part :=
          if negb (s8_is_zero (ci_tweak_w32 ci)) then
            let e_tmp := s8_mul challenge (ci_tweak_w32 ci) in
            if f26_is_odd (gy_w32 (ci_pk_w32 ci)) then s8_negate e_tmp else e_tmp
          else s8_set_int 0 in
        mkres 1 0 (Some (musig_session_save_w32 (mksession_w32 fin_nonce_parity fin_nonce b challenge s_part)))
      end
    end
  | _, _, _, _ => arg_fail session
  end.
(** src/modules/musig/session_impl.h:666-734 secp256k1_musig_partial_sign: outputs are *partial_sig
    and *secnonce. *)
Definition musig_partial_sign_w32 (partial_sig secnonce keypair keyagg_cache session : option (list Z))
  : res (option (list Z) * option (list Z)) :=
  match secnonce with
  | None => arg_fail (partial_sig, None)
  | Some sn =>
    let loaded := musig_secnonce_load_w32 sn in
    let secnonce := Some (zeros 132) in
    match loaded with
    | None => mkres 0 1 (partial_sig, secnonce)
    | Some (k0, k1, pk) =>
      match partial_sig, keypair, keyagg_cache, session with
      | Some _, Some kp, Some cache, Some session =>
        let '(ok, sk, keypair_pk) := keypair_load_w32 kp in
        if negb ok then mkres 0 1 (partial_sig, secnonce) else
        if negb (f26_equal (gx_w32 pk) (gx_w32 keypair_pk) && f26_equal (gy_w32 pk) (gy_w32 keypair_pk)) then arg_fail (partial_sig, secnonce) else
        match keyagg_cache_load_w32 cache with
        | None => mkres 0 1 (partial_sig, secnonce)
        | Some ci =>
          let sk := if negb (b2z (f26_is_odd (gy_w32 (ci_pk_w32 ci))) =? ci_parity_acc_w32 ci) then s8_negate sk else sk in
          let mu := musig_keyaggcoef_w32 ci pk in
          let sk := s8_mul sk mu in
          match musig_session_load_w32 session with
          | None => mkres 0 1 (partial_sig, secnonce)
          | Some si =>
            let k0 := if si_fin_nonce_parity_w32 si =? 0 then k0 else s8_negate k0 in
            let k1 := if si_fin_nonce_parity_w32 si =? 0 then k1 else s8_negate k1 in
            let s := s8_mul (si_challenge_w32 si) sk in
            let k1 := s8_mul (si_noncecoef_w32 si) k1 in
            let k0 := s8_add k0 k1 in
            let s := s8_add s k0 in
            mkres 1 0 (Some (musig_partial_sig_save_w32 s), secnonce)
          end
        end
      | _, _, _, _ => arg_fail (partial_sig, secnonce)
      end
    end
  end.
(** src/modules/musig/session_impl.h:736-797 secp256k1_musig_partial_sig_verify. *)
Definition musig_partial_sig_verify_w32 (partial_sig pubnonce pubkey keyagg_cache session : option (list Z)) : res unit :=
  match partial_sig, pubnonce, pubkey, keyagg_cache, session with
  | Some psig, Some pubnonce, Some pubkey, Some cache, Some session =>
    match musig_session_load_w32 session with
    | None => mkres 0 1 tt
    | Some si =>
      match musig_pubnonce_load_w32 pubnonce with
      | None => mkres 0 1 tt
      | Some (n0, n1) =>
        let rj := effective_nonce_w32 n0 n1 (si_noncecoef_w32 si) in
        let (ok, pkp) := pubkey_load_w32 pubkey in
        if negb ok then mkres 0 1 tt else
        match keyagg_cache_load_w32 cache with
        | None => mkres 0 1 tt
        | Some ci =>
          let mu := musig_keyaggcoef_w32 ci pkp in
          let e := s8_mul (si_challenge_w32 si) mu in
          let e := if negb (b2z (f26_is_odd (gy_w32 (ci_pk_w32 ci))) =? ci_parity_acc_w32 ci) then s8_negate e else e in
          match musig_partial_sig_load_w32 psig with
          | None => mkres 0 1 tt
          | Some s =>
            let s := s8_negate s in
            let tmp := ecmult_w32 (gej_set_ge_w32 pkp) e (Some s) in
            let rj := if si_fin_nonce_parity_w32 si =? 0 then rj else gej_neg_w32 rj in
            let tmp := gej_add_var_w32 tmp rj in
            mkres (b2z (gej_is_infinity_w32 tmp)) 0 tt
          end
        end
      end
    end
  | _, _, _, _, _ => arg_fail tt
  end.
(** src/modules/musig/session_impl.h:799-822 secp256k1_musig_partial_sig_agg. *)
Fixpoint partial_sig_agg_loop_w32 (s : sc8) (partial_sigs : list (list Z)) : option sc8 :=
  match partial_sigs with
  | [] => Some s
  | psig :: rest =>
    match musig_partial_sig_load_w32 psig with
    | None => None
    | Some term => partial_sig_agg_loop_w32 (s8_add s term) rest
    end
  end.
Definition musig_partial_sig_agg_w32 (sig64 session : option (list Z)) (partial_sigs : option (list (list Z))) : res (option (list Z)) :=
  match sig64, session, partial_sigs with
  | Some _, Some session, Some ((_ :: _) as l) =>
    match musig_session_load_w32 session with
    | None => mkres 0 1 sig64
    | Some si =>
      match partial_sig_agg_loop_w32 (si_s_part_w32 si) l with
      | None => mkres 0 1 sig64
      | Some s => mkres 1 0 (Some (si_fin_nonce_w32 si ++ s8_get_b32 s))
      end
    end
  | _, _, _ => arg_fail sig64
  end.
