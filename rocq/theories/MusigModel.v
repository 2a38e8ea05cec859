(** Model of src/modules/musig/keyagg_impl.h and src/modules/musig/session_impl.h.
    Conventions as in ApiModel.  An array of pointers is the list of the objects pointed to
    (the code checks none of these pointers; NULL entries are excluded by the API contract),
    its length is the count argument.  VERIFY_CHECK is empty in production builds.
    Clearing of local variables (secp256k1_scalar_clear and the like) and
    secp256k1_declassify have no effect on the outputs and are not modelled. *)
Require Import ZArith List Bool.
From Verif Require Import Word Spec FieldModel ScalarModel GroupModel HashModel GenModel EcmultModel EcdsaModel ApiModel ExtrakeysModel SchnorrModel.
Import ListNotations.
Local Open Scope Z_scope.
Local Open Scope c_scope.

(** ** Multi-multiplication without scratch space *)

(** src/ecmult_impl.h:763-784 secp256k1_ecmult_multi_simple_var.  The callback takes the index
    and returns the scalar and the point, or [None] for return value 0; its other effects (the
    illegal callback when pubkey_load fails) are not modelled: here the same keys have been
    loaded before. *)
Fixpoint multi_simple_loop (cb : nat -> option (sc * ge)) (idx todo : nat) (r : gej) : option gej :=
  match todo with
  | O => Some r
  | S todo' =>
    match cb idx with
    | None => None
    | Some (scalar, point) => multi_simple_loop cb (S idx) todo' (gej_add_var r (ecmult (gej_set_ge point) scalar None))
    end
  end.
Definition ecmult_multi_simple_var (inp_g_sc : option sc) (cb : nat -> option (sc * ge)) (n_points : nat) : option gej :=
  multi_simple_loop cb 0 n_points (ecmult gej_infinity sc_zero inp_g_sc).
(** src/ecmult_impl.h:807-851 secp256k1_ecmult_multi_var, with scratch = NULL. *)
Definition ecmult_multi_var_noscratch (inp_g_sc : option sc) (cb : nat -> option (sc * ge)) (n_points : nat) : option gej :=
  match inp_g_sc, n_points with
  | None, O => Some gej_infinity
  | Some _, O => Some (ecmult gej_infinity sc_zero inp_g_sc)
  | _, _ => ecmult_multi_simple_var inp_g_sc cb n_points
  end.

(** ** Key aggregation *)

(** src/modules/musig/keyagg_impl.h:19-19 (keyagg_cache_magic). *)
Definition keyagg_cache_magic : list Z := [0xf4; 0xad; 0xbb; 0xdf].
(** src/modules/musig/keyagg.h:15-26 (secp256k1_keyagg_cache_internal). *)
Record keyagg_cache_internal := mkcache { ci_pk : ge; ci_second_pk : ge; ci_pks_hash : list Z; ci_tweak : sc; ci_parity_acc : Z }.
(** [take off len l]: the [len] bytes of the object [l] from offset [off]. *)
Definition take (off len : nat) (l : list Z) : list Z := firstn len (skipn off l).
(** src/modules/musig/keyagg_impl.h:31-44 secp256k1_keyagg_cache_save. *)
Definition keyagg_cache_save (ci : keyagg_cache_internal) : list Z :=
  keyagg_cache_magic ++ ge_to_bytes (ci_pk ci) ++ ge_to_bytes_ext (ci_second_pk ci) ++ ci_pks_hash ci ++
  [w8 (ci_parity_acc ci)] ++ sc_get_b32 (ci_tweak ci).
(** src/modules/musig/keyagg_impl.h:46-60 secp256k1_keyagg_cache_load: [None] when the magic does
    not match (the callback is called once, 0 is returned). *)
Definition keyagg_cache_load (cache : list Z) : option keyagg_cache_internal :=
  if memcmp_var (take 0 4 cache) keyagg_cache_magic =? 0 then
    Some (mkcache (ge_from_bytes (take 4 64 cache)) (ge_from_bytes_ext (take 68 64 cache)) (take 132 32 cache)
            (fst (sc_set_b32 (take 165 32 cache))) (Z.land (nth 164 cache 0) 1))
  else None.

(** src/modules/musig/keyagg_impl.h:64-76 secp256k1_musig_keyagglist_sha256. *)
Definition musig_keyagglist_sha256 : sha256 :=
  set_midstate [0xb399d5e0; 0xc8fff302; 0x6badac71; 0x07c5b7f1; 0x9701e2ef; 0x2a72ecf8; 0x201a4c7b; 0xab148a38].
(** src/modules/musig/keyagg_impl.h:79-95 secp256k1_musig_compute_pks_hash: [inl] the hash, or
    [inr] the number of calls of the illegal callback when 0 is returned.  The local buffer ser
    is zero-filled here (secp256k1_ec_pubkey_serialize clears it first anyway). *)
Fixpoint pks_hash_loop (sha : sha256) (pks : list (list Z)) : sha256 + Z :=
  match pks with
  | [] => inl sha
  | pk :: pks' =>
    match ec_pubkey_serialize (Some (zeros 33)) (Some 33) (Some pk) EC_COMPRESSED with
    | None => inr 0
    | Some r =>
      if r_ret r =? 0 then inr (r_ill r) else
      pks_hash_loop (sha256_write sha (match fst (r_out r) with Some ser => ser | None => zeros 33 end)) pks'
    end
  end.
Definition musig_compute_pks_hash (pks : list (list Z)) : list Z + Z :=
  match pks_hash_loop musig_keyagglist_sha256 pks with
  | inl sha => inl (sha256_finalize sha)
  | inr ill => inr ill
  end.

(** src/modules/musig/keyagg_impl.h:99-111 secp256k1_musig_keyaggcoef_sha256. *)
Definition musig_keyaggcoef_sha256 : sha256 :=
  set_midstate [0x6ef02c5a; 0x06a480de; 0x1f298665; 0x1d1134f2; 0x56a0b063; 0x52da4147; 0xf280d9d4; 0x4484be15].
(** src/modules/musig/keyagg_impl.h:118-143 secp256k1_musig_keyaggcoef_internal.  If the
    serialization failed, buf would be uninitialized (zeros here); pk is never infinity. *)
Definition musig_keyaggcoef_internal (pks_hash : list Z) (pk second_pk : ge) : sc :=
  if negb (ge_is_infinity second_pk) && ge_eq_var pk second_pk then sc_set_int 1 else
  let sha := musig_keyaggcoef_sha256 in
  let sha := sha256_write sha pks_hash in
  let buf := match eckey_pubkey_serialize pk true with Some b => b | None => zeros 33 end in
  let sha := sha256_write sha buf in
  fst (sc_set_b32 (sha256_finalize sha)).
(** src/modules/musig/keyagg_impl.h:147-149 secp256k1_musig_keyaggcoef. *)
Definition musig_keyaggcoef (ci : keyagg_cache_internal) (pk : ge) : sc :=
  musig_keyaggcoef_internal (ci_pks_hash ci) pk (ci_second_pk ci).
(** src/modules/musig/keyagg_impl.h:160-173 secp256k1_musig_pubkey_agg_callback. *)
Definition musig_pubkey_agg_callback (pks_hash : list Z) (pks : list (list Z)) (second_pk : ge) (idx : nat) : option (sc * ge) :=
  let pt := snd (pubkey_load (nth idx pks [])) in
  Some (musig_keyaggcoef_internal pks_hash pt second_pk, pt).

(** src/modules/musig/keyagg_impl.h:191-201 (secp256k1_musig_pubkey_agg, the search for the second
    key): [None] if loading it fails. *)
Fixpoint second_pk_loop (pk0 : list Z) (rest : list (list Z)) : option ge :=
  match rest with
  | [] => Some ge_infinity
  | pki :: rest' =>
    if negb (memcmp_var pk0 pki =? 0) then
      let (ok, pk) := pubkey_load pki in
      if negb ok then None else Some pk
    else second_pk_loop pk0 rest'
  end.
(** src/modules/musig/keyagg_impl.h:175-231 secp256k1_musig_pubkey_agg: outputs are *agg_pk and
    *keyagg_cache (either may be NULL). *)
Definition musig_pubkey_agg (agg_pk keyagg_cache : option (list Z)) (pubkeys : option (list (list Z)))
  : res (option (list Z) * option (list Z)) :=
  let agg_pk := match agg_pk with Some _ => Some (zeros 64) | None => None end in
  match pubkeys with
  | None => arg_fail (agg_pk, keyagg_cache)
  | Some [] => arg_fail (agg_pk, keyagg_cache)
  | Some ((pk0 :: rest) as pks) =>
    match second_pk_loop pk0 rest with
    | None => mkres 0 1 (agg_pk, keyagg_cache)
    | Some second_pk =>
      match musig_compute_pks_hash pks with
      | inr ill => mkres 0 ill (agg_pk, keyagg_cache)
      | inl pks_hash =>
        match ecmult_multi_var_noscratch None (musig_pubkey_agg_callback pks_hash pks second_pk) (length pks) with
        | None => mkres 0 0 (agg_pk, keyagg_cache)
        | Some pkj =>
          let pkp := ge_set_gej pkj in
          let pkp := mkge (gx pkp) (fe_normalize_var (gy pkp)) (ginf pkp) in
          let keyagg_cache := match keyagg_cache with
            | Some _ => Some (keyagg_cache_save (mkcache pkp second_pk pks_hash (sc_of_Z 0) 0))
            | None => None
            end in
          let agg_pk := match agg_pk with
            | Some _ => Some (xonly_pubkey_save (fst (extrakeys_ge_even_y pkp)))
            | None => None
            end in
          mkres 1 0 (agg_pk, keyagg_cache)
        end
      end
    end
  end.

(** src/modules/musig/keyagg_impl.h:233-245 secp256k1_musig_pubkey_get. *)
Definition musig_pubkey_get (agg_pk keyagg_cache : option (list Z)) : res (option (list Z)) :=
  match agg_pk with
  | None => arg_fail None
  | Some _ =>
    match keyagg_cache with
    | None => arg_fail (Some (zeros 64))
    | Some cache =>
      match keyagg_cache_load cache with
      | None => mkres 0 1 (Some (zeros 64))
      | Some ci => mkres 1 0 (Some (pubkey_save (ci_pk ci)))
      end
    end
  end.

(** src/modules/musig/keyagg_impl.h:247-281 secp256k1_musig_pubkey_tweak_add_internal: outputs are
    *output_pubkey (may be NULL) and *keyagg_cache. *)
Definition musig_pubkey_tweak_add_internal (output_pubkey keyagg_cache tweak32 : option (list Z)) (xonly : bool)
  : res (option (list Z) * option (list Z)) :=
  let output_pubkey := match output_pubkey with Some _ => Some (zeros 64) | None => None end in
  match keyagg_cache, tweak32 with
  | Some cache, Some tw =>
    match keyagg_cache_load cache with
    | None => mkres 0 1 (output_pubkey, keyagg_cache)
    | Some ci =>
      let (tweak, overflow) := sc_set_b32 tw in
      if overflow then mkres 0 0 (output_pubkey, keyagg_cache) else
      let (pk, odd) := if xonly then extrakeys_ge_even_y (ci_pk ci) else (ci_pk ci, 0) in
      let parity_acc := if odd =? 0 then ci_parity_acc ci else Z.lxor (ci_parity_acc ci) 1 in
      let acc := if odd =? 0 then ci_tweak ci else sc_negate (ci_tweak ci) in
      let acc := sc_add acc tweak in
      match eckey_pubkey_tweak_add pk tweak with
      | None => mkres 0 0 (output_pubkey, keyagg_cache)
      | Some pk =>
        mkres 1 0 (match output_pubkey with Some _ => Some (pubkey_save pk) | None => None end,
                   Some (keyagg_cache_save (mkcache pk (ci_second_pk ci) (ci_pks_hash ci) acc parity_acc)))
      end
    end
  | _, _ => arg_fail (output_pubkey, keyagg_cache)
  end.
(** src/modules/musig/keyagg_impl.h:283-285 secp256k1_musig_pubkey_ec_tweak_add. *)
Definition musig_pubkey_ec_tweak_add (output_pubkey keyagg_cache tweak32 : option (list Z)) :=
  musig_pubkey_tweak_add_internal output_pubkey keyagg_cache tweak32 false.
(** src/modules/musig/keyagg_impl.h:287-289 secp256k1_musig_pubkey_xonly_tweak_add. *)
Definition musig_pubkey_xonly_tweak_add (output_pubkey keyagg_cache tweak32 : option (list Z)) :=
  musig_pubkey_tweak_add_internal output_pubkey keyagg_cache tweak32 true.

(** ** Objects of a signing session *)

(** src/modules/musig/session_impl.h:24-38 secp256k1_musig_ge_serialize_ext. *)
Definition musig_ge_serialize_ext (g : ge) : list Z :=
  if ge_is_infinity g then zeros 33 else match eckey_pubkey_serialize g true with Some b => b | None => zeros 33 end.
(** src/modules/musig/session_impl.h:42-53 secp256k1_musig_ge_parse_ext;
    secp256k1_ge_is_in_correct_subgroup returns 1 outside exhaustive tests. *)
Definition musig_ge_parse_ext (in33 : list Z) : option ge :=
  if memcmp_var in33 (zeros 33) =? 0 then Some ge_infinity else eckey_pubkey_parse in33.

(** src/util.h:270-282 secp256k1_is_zero_array. *)
Definition is_zero_array (s : list Z) : bool := fold_left Z.lor s 0 =? 0.

(** src/modules/musig/session_impl.h:55-55 (secnonce_magic). *)
Definition secnonce_magic : list Z := [0x22; 0x0e; 0xdc; 0xf1].
(** src/modules/musig/session_impl.h:57-62 secp256k1_musig_secnonce_save. *)
Definition musig_secnonce_save (k0 k1 : sc) (pk : ge) : list Z := secnonce_magic ++ sc_get_b32 k0 ++ sc_get_b32 k1 ++ ge_to_bytes pk.
(** src/modules/musig/session_impl.h:64-77 secp256k1_musig_secnonce_load: [None] when one of the
    argument checks fails (the callback is called once, 0 is returned). *)
Definition musig_secnonce_load (secnonce : list Z) : option (sc * sc * ge) :=
  if negb (memcmp_var (take 0 4 secnonce) secnonce_magic =? 0) then None else
  if is_zero_array (take 4 64 secnonce) then None else
  Some (fst (sc_set_b32 (take 4 32 secnonce)), fst (sc_set_b32 (take 36 32 secnonce)), ge_from_bytes (take 68 64 secnonce)).
(** src/modules/musig/session_impl.h:80-88 secp256k1_musig_secnonce_invalidate. *)
Definition musig_secnonce_invalidate (secnonce : list Z) (flag : Z) : list Z := memczero secnonce flag.

(** src/modules/musig/session_impl.h:90-90 (pubnonce_magic). *)
Definition pubnonce_magic : list Z := [0xf5; 0x7a; 0x3d; 0xa0].
(** src/modules/musig/session_impl.h:94-100 secp256k1_musig_pubnonce_save. *)
Definition musig_pubnonce_save (g0 g1 : ge) : list Z := pubnonce_magic ++ ge_to_bytes g0 ++ ge_to_bytes g1.
(** src/modules/musig/session_impl.h:104-112 secp256k1_musig_pubnonce_load: [None] when the magic
    does not match (one call of the callback). *)
Definition musig_pubnonce_load (nonce : list Z) : option (ge * ge) :=
  if memcmp_var (take 0 4 nonce) pubnonce_magic =? 0
  then Some (ge_from_bytes (take 4 64 nonce), ge_from_bytes (take 68 64 nonce)) else None.
(** src/modules/musig/session_impl.h:114-114 (aggnonce_magic). *)
Definition aggnonce_magic : list Z := [0xa8; 0xb7; 0xe4; 0x67].
(** src/modules/musig/session_impl.h:116-122 secp256k1_musig_aggnonce_save. *)
Definition musig_aggnonce_save (g0 g1 : ge) : list Z := aggnonce_magic ++ ge_to_bytes_ext g0 ++ ge_to_bytes_ext g1.
(** src/modules/musig/session_impl.h:124-132 secp256k1_musig_aggnonce_load. *)
Definition musig_aggnonce_load (nonce : list Z) : option (ge * ge) :=
  if memcmp_var (take 0 4 nonce) aggnonce_magic =? 0
  then Some (ge_from_bytes_ext (take 4 64 nonce), ge_from_bytes_ext (take 68 64 nonce)) else None.

(** src/modules/musig/session_impl.h:134-134 (session_cache_magic). *)
Definition session_cache_magic : list Z := [0x9d; 0xed; 0xe9; 0x17].
(** src/modules/musig/session.h:14-20 (secp256k1_musig_session_internal). *)
Record session_internal := mksession { si_fin_nonce_parity : Z; si_fin_nonce : list Z; si_noncecoef : sc; si_challenge : sc; si_s_part : sc }.
(** src/modules/musig/session_impl.h:144-158 secp256k1_musig_session_save. *)
Definition musig_session_save (si : session_internal) : list Z :=
  session_cache_magic ++ [w8 (si_fin_nonce_parity si)] ++ si_fin_nonce si ++ sc_get_b32 (si_noncecoef si) ++
  sc_get_b32 (si_challenge si) ++ sc_get_b32 (si_s_part si).
(** src/modules/musig/session_impl.h:160-175 secp256k1_musig_session_load. *)
Definition musig_session_load (session : list Z) : option session_internal :=
  if memcmp_var (take 0 4 session) session_cache_magic =? 0 then
    Some (mksession (nth 4 session 0) (take 5 32 session) (fst (sc_set_b32 (take 37 32 session)))
            (fst (sc_set_b32 (take 69 32 session))) (fst (sc_set_b32 (take 101 32 session))))
  else None.

(** src/modules/musig/session_impl.h:177-177 (partial_sig_magic). *)
Definition partial_sig_magic : list Z := [0xeb; 0xfb; 0x1a; 0x32].
(** src/modules/musig/session_impl.h:179-182 secp256k1_musig_partial_sig_save. *)
Definition musig_partial_sig_save (s : sc) : list Z := partial_sig_magic ++ sc_get_b32 s.
(** src/modules/musig/session_impl.h:184-192 secp256k1_musig_partial_sig_load. *)
Definition musig_partial_sig_load (sig : list Z) : option sc :=
  if memcmp_var (take 0 4 sig) partial_sig_magic =? 0 then Some (fst (sc_set_b32 (take 4 32 sig))) else None.

(** ** Parsing and serialization *)

(** src/modules/musig/session_impl.h:194-212 secp256k1_musig_pubnonce_parse. *)
Definition musig_pubnonce_parse (nonce in66 : option (list Z)) : res (option (list Z)) :=
  match nonce, in66 with
  | Some _, Some inp =>
    match eckey_pubkey_parse (take 0 33 inp) with
    | None => mkres 0 0 nonce
    | Some g0 =>
      match eckey_pubkey_parse (take 33 33 inp) with
      | None => mkres 0 0 nonce
      | Some g1 => mkres 1 0 (Some (musig_pubnonce_save g0 g1))
      end
    end
  | _, _ => arg_fail nonce
  end.
(** src/modules/musig/session_impl.h:214-238 secp256k1_musig_pubnonce_serialize.  If the
    serialization of a point failed its 33 bytes would stay zero. *)
Definition musig_pubnonce_serialize (out66 nonce : option (list Z)) : res (option (list Z)) :=
  match out66 with
  | None => arg_fail None
  | Some _ =>
    match nonce with
    | None => arg_fail (Some (zeros 66))
    | Some nonce =>
      match musig_pubnonce_load nonce with
      | None => mkres 0 1 (Some (zeros 66))
      | Some (g0, g1) =>
        let ser := fun g => match eckey_pubkey_serialize g true with Some b => b | None => zeros 33 end in
        mkres 1 0 (Some (ser g0 ++ ser g1))
      end
    end
  end.
(** src/modules/musig/session_impl.h:240-255 secp256k1_musig_aggnonce_parse. *)
Definition musig_aggnonce_parse (nonce in66 : option (list Z)) : res (option (list Z)) :=
  match nonce, in66 with
  | Some _, Some inp =>
    match musig_ge_parse_ext (take 0 33 inp) with
    | None => mkres 0 0 nonce
    | Some g0 =>
      match musig_ge_parse_ext (take 33 33 inp) with
      | None => mkres 0 0 nonce
      | Some g1 => mkres 1 0 (Some (musig_aggnonce_save g0 g1))
      end
    end
  | _, _ => arg_fail nonce
  end.
(** src/modules/musig/session_impl.h:257-273 secp256k1_musig_aggnonce_serialize. *)
Definition musig_aggnonce_serialize (out66 nonce : option (list Z)) : res (option (list Z)) :=
  match out66 with
  | None => arg_fail None
  | Some _ =>
    match nonce with
    | None => arg_fail (Some (zeros 66))
    | Some nonce =>
      match musig_aggnonce_load nonce with
      | None => mkres 0 1 (Some (zeros 66))
      | Some (g0, g1) => mkres 1 0 (Some (musig_ge_serialize_ext g0 ++ musig_ge_serialize_ext g1))
      end
    end
  end.
(** src/modules/musig/session_impl.h:275-292 secp256k1_musig_partial_sig_parse. *)
Definition musig_partial_sig_parse (sig in32 : option (list Z)) : res (option (list Z)) :=
  match sig, in32 with
  | Some _, Some inp =>
    let (tmp, overflow) := sc_set_b32 inp in
    if overflow then mkres 0 0 (Some (zeros 36)) else mkres 1 0 (Some (musig_partial_sig_save tmp))
  | _, _ => arg_fail sig
  end.
(** src/modules/musig/session_impl.h:294-302 secp256k1_musig_partial_sig_serialize. *)
Definition musig_partial_sig_serialize (out32 sig : option (list Z)) : res (option (list Z)) :=
  match out32, sig with
  | Some _, Some s =>
    if memcmp_var (take 0 4 s) partial_sig_magic =? 0 then mkres 1 0 (Some (take 4 32 s)) else arg_fail out32
  | _, _ => arg_fail out32
  end.

(** ** Nonce generation *)

(** src/modules/musig/session_impl.h:305-320 secp256k1_nonce_function_musig_helper: data is a
    pointer to len bytes, or NULL. *)
Definition nonce_function_musig_helper (sha : sha256) (prefix_size : nat) (data : option (list Z)) (len : Z) : sha256 :=
  let sha := sha256_write sha (zeros (prefix_size - 1)) in
  match data with
  | Some d => sha256_write (sha256_write sha [len]) (firstn (Z.to_nat len) d)
  | None => sha256_write sha [0]
  end.
(** src/modules/musig/session_impl.h:324-335 secp256k1_nonce_function_musig_sha256_tagged_aux. *)
Definition nonce_function_musig_sha256_tagged_aux : sha256 :=
  set_midstate [0xa19e884b; 0xf463fe7e; 0x2f18f9a2; 0xbeb0f9ff; 0x0f37e8b0; 0x06ebd26f; 0xe3b243d2; 0x522fb150].
(** src/modules/musig/session_impl.h:339-350 secp256k1_nonce_function_musig_sha256_tagged. *)
Definition nonce_function_musig_sha256_tagged : sha256 :=
  set_midstate [0x07101b64; 0x18003414; 0x0391bc43; 0x0e6258ee; 0x29d26b72; 0x8343937e; 0xb7a0a4fb; 0xff568a30].
(** src/modules/musig/session_impl.h:352-393 secp256k1_nonce_function_musig: k[0] and k[1]. *)
Definition nonce_function_musig (session_secrand : list Z) (msg32 seckey32 : option (list Z)) (pk33 : list Z)
    (agg_pk32 extra_input32 : option (list Z)) : sc * sc :=
  let rand := match seckey32 with
    | Some sk => xor_bytes (sha256_finalize (sha256_write nonce_function_musig_sha256_tagged_aux (firstn 32 session_secrand))) (firstn 32 sk)
    | None => firstn 32 session_secrand
    end in
  let sha := nonce_function_musig_sha256_tagged in
  let sha := sha256_write sha rand in
  let sha := nonce_function_musig_helper sha 1 (Some pk33) 33 in
  let sha := nonce_function_musig_helper sha 1 agg_pk32 32 in
  let sha := match msg32 with
    | Some _ => nonce_function_musig_helper (sha256_write sha [1]) 8 msg32 32
    | None => sha256_write sha [0]
    end in
  let sha := nonce_function_musig_helper sha 4 extra_input32 32 in
  let k := fun i => fst (sc_set_b32 (sha256_finalize (sha256_write sha [i]))) in
  (k 0, k 1).

(** src/modules/musig/session_impl.h:395-467 secp256k1_musig_nonce_gen_internal: outputs are
    *secnonce and *pubnonce.  If the serialization of pk failed, pk_ser would be uninitialized
    (zeros here); pubkey_load never yields infinity. *)
Definition musig_nonce_gen_internal (ctx : context) (secnonce : list Z) (pubnonce : option (list Z)) (input_nonce : list Z)
    (seckey pubkey msg32 keyagg_cache extra_input32 : option (list Z)) : res (list Z * option (list Z)) :=
  match pubnonce with
  | None => arg_fail (secnonce, None)
  | Some _ =>
    match pubkey with
    | None => arg_fail (secnonce, Some (zeros 132))
    | Some pubkey =>
      if negb (g_built (c_gen ctx)) then arg_fail (secnonce, Some (zeros 132)) else
      let ret := match seckey with Some sk => snd (sc_set_b32_seckey sk) | None => true end in
      match (match keyagg_cache with
             | Some cache => match keyagg_cache_load cache with Some ci => Some (Some (fe_get_b32 (gx (ci_pk ci)))) | None => None end
             | None => Some None
             end) with
      | None => mkres 0 1 (secnonce, Some (zeros 132))
      | Some aggpk_ser =>
        let (ok, pk) := pubkey_load pubkey in
        if negb ok then mkres 0 1 (secnonce, Some (zeros 132)) else
        let pk_ser := match eckey_pubkey_serialize pk true with Some b => b | None => zeros 33 end in
        let (k0, k1) := nonce_function_musig input_nonce msg32 seckey pk_ser aggpk_ser extra_input32 in
        let secnonce := musig_secnonce_invalidate (musig_secnonce_save k0 k1 pk) (b2z (negb ret)) in
        match ge_set_all_gej [ecmult_gen (c_gen ctx) k0; ecmult_gen (c_gen ctx) k1] with
        | [n0; n1] => mkres (b2z ret) 0 (secnonce, Some (musig_pubnonce_save n0 n1))
        | _ => mkres (b2z ret) 0 (secnonce, Some (zeros 132))
        end
      end
    end
  end.

(** src/modules/musig/session_impl.h:469-495 secp256k1_musig_nonce_gen: outputs are *secnonce,
    *pubnonce and *session_secrand32. *)
Definition musig_nonce_gen (ctx : context) (secnonce pubnonce session_secrand32 seckey pubkey msg32 keyagg_cache extra_input32 : option (list Z))
  : res (option (list Z) * option (list Z) * option (list Z)) :=
  match secnonce with
  | None => arg_fail (None, pubnonce, session_secrand32)
  | Some _ =>
    match session_secrand32 with
    | None => arg_fail (Some (zeros 132), pubnonce, None)
    | Some secrand =>
      if is_zero_array (firstn 32 secrand) then
        mkres 0 0 (Some (musig_secnonce_invalidate (zeros 132) 1), pubnonce, session_secrand32)
      else
      let r := musig_nonce_gen_internal ctx (zeros 132) pubnonce secrand seckey pubkey msg32 keyagg_cache extra_input32 in
      mkres (r_ret r) (r_ill r) (Some (fst (r_out r)), snd (r_out r), Some (memczero (firstn 32 secrand) (r_ret r) ++ skipn 32 secrand))
    end
  end.

(** src/modules/musig/session_impl.h:497-523 secp256k1_musig_nonce_gen_counter: outputs are
    *secnonce and *pubnonce; nonrepeating_cnt is a uint64_t. *)
Definition musig_nonce_gen_counter (ctx : context) (secnonce pubnonce : option (list Z)) (nonrepeating_cnt : Z)
    (keypair msg32 keyagg_cache extra_input32 : option (list Z)) : res (option (list Z) * option (list Z)) :=
  match secnonce with
  | None => arg_fail (None, pubnonce)
  | Some _ =>
    match keypair with
    | None => arg_fail (Some (zeros 132), pubnonce)
    | Some kp =>
      let buf := be_bytes 8 nonrepeating_cnt ++ zeros 24 in
      let seckey := r_out (keypair_sec (Some (zeros 32)) (Some kp)) in
      let pubkey := r_out (keypair_pub (Some (zeros 64)) (Some kp)) in
      let r := musig_nonce_gen_internal ctx (zeros 132) pubnonce buf seckey pubkey msg32 keyagg_cache extra_input32 in
      mkres (if r_ret r =? 0 then 0 else 1) (r_ill r) (Some (fst (r_out r)), snd (r_out r))
    end
  end.

(** ** Nonce aggregation and session *)

(** src/modules/musig/session_impl.h:525-542 secp256k1_musig_sum_pubnonces: [None] when an entry
    does not load (one call of the callback). *)
Fixpoint sum_pubnonces_loop (s0 s1 : gej) (pubnonces : list (list Z)) : option (gej * gej) :=
  match pubnonces with
  | [] => Some (s0, s1)
  | nonce :: rest =>
    match musig_pubnonce_load nonce with
    | None => None
    | Some (g0, g1) => sum_pubnonces_loop (gej_add_ge_var s0 g0) (gej_add_ge_var s1 g1) rest
    end
  end.
Definition musig_sum_pubnonces (pubnonces : list (list Z)) : option (gej * gej) := sum_pubnonces_loop gej_infinity gej_infinity pubnonces.
(** src/modules/musig/session_impl.h:544-558 secp256k1_musig_nonce_agg. *)
Definition musig_nonce_agg (aggnonce : option (list Z)) (pubnonces : option (list (list Z))) : res (option (list Z)) :=
  match aggnonce, pubnonces with
  | Some _, Some ((_ :: _) as l) =>
    match musig_sum_pubnonces l with
    | None => mkres 0 1 aggnonce
    | Some (s0, s1) =>
      match ge_set_all_gej_var [s0; s1] with
      | [n0; n1] => mkres 1 0 (Some (musig_aggnonce_save n0 n1))
      | _ => mkres 1 0 aggnonce
      end
    end
  | _, _ => arg_fail aggnonce
  end.

(** src/modules/musig/session_impl.h:562-573 secp256k1_musig_compute_noncehash_sha256_tagged. *)
Definition musig_compute_noncehash_sha256_tagged : sha256 :=
  set_midstate [0x2c7d5a45; 0x06bf7e53; 0x89be68a6; 0x971254c0; 0x60ac12d2; 0x72846dcd; 0x6c81212f; 0xde7a2500].
(** src/modules/musig/session_impl.h:576-589 secp256k1_musig_compute_noncehash. *)
Definition musig_compute_noncehash (a0 a1 : ge) (agg_pk32 msg : list Z) : list Z :=
  let sha := musig_compute_noncehash_sha256_tagged in
  let sha := sha256_write sha (musig_ge_serialize_ext a0) in
  let sha := sha256_write sha (musig_ge_serialize_ext a1) in
  let sha := sha256_write sha agg_pk32 in
  let sha := sha256_write sha (firstn 32 msg) in
  sha256_finalize sha.
(** src/modules/musig/session_impl.h:592-598 secp256k1_effective_nonce. *)
Definition effective_nonce (n0 n1 : ge) (b : sc) : gej :=
  gej_add_ge_var (ecmult (gej_set_ge n1) b None) n0.
(** src/modules/musig/session_impl.h:600-618 secp256k1_musig_nonce_process_internal:
    fin_nonce_parity, fin_nonce and b. *)
Definition musig_nonce_process_internal (a0 a1 : ge) (agg_pk32 msg : list Z) : Z * list Z * sc :=
  let noncehash := musig_compute_noncehash a0 a1 agg_pk32 msg in
  let b := fst (sc_set_b32 noncehash) in
  let fin_nonce_pt := ge_set_gej (effective_nonce a0 a1 b) in
  let fin_nonce_pt := if ge_is_infinity fin_nonce_pt then ge_const_g else fin_nonce_pt in
  let x := fe_normalize_var (gx fin_nonce_pt) in
  let fin_nonce := fe_get_b32 x in
  let y := fe_normalize_var (gy fin_nonce_pt) in
  (b2z (fe_is_odd y), fin_nonce, b).
(** src/modules/musig/session_impl.h:620-658 secp256k1_musig_nonce_process. *)
Definition musig_nonce_process (session aggnonce msg32 keyagg_cache : option (list Z)) : res (option (list Z)) :=
  match session, aggnonce, msg32, keyagg_cache with
  | Some _, Some aggnonce, Some msg, Some cache =>
    match keyagg_cache_load cache with
    | None => mkres 0 1 session
    | Some ci =>
      let agg_pk32 := fe_get_b32 (gx (ci_pk ci)) in
      match musig_aggnonce_load aggnonce with
      | None => mkres 0 1 session
      | Some (a0, a1) =>
        let '(fin_nonce_parity, fin_nonce, b) := musig_nonce_process_internal a0 a1 agg_pk32 msg in
        let challenge := schnorrsig_challenge fin_nonce (firstn 32 msg) agg_pk32 in
        let s_part :=
          if negb (sc_is_zero (ci_tweak ci)) then
            let e_tmp := sc_mul challenge (ci_tweak ci) in
            if fe_is_odd (gy (ci_pk ci)) then sc_negate e_tmp else e_tmp
          else sc_set_int 0 in
        mkres 1 0 (Some (musig_session_save (mksession fin_nonce_parity fin_nonce b challenge s_part)))
      end
    end
  | _, _, _, _ => arg_fail session
  end.

(** ** Partial signatures *)

(** src/modules/musig/session_impl.h:666-734 secp256k1_musig_partial_sign: outputs are *partial_sig
    and *secnonce. *)
Definition musig_partial_sign (partial_sig secnonce keypair keyagg_cache session : option (list Z))
  : res (option (list Z) * option (list Z)) :=
  match secnonce with
  | None => arg_fail (partial_sig, None)
  | Some sn =>
    let loaded := musig_secnonce_load sn in
    let secnonce := Some (zeros 132) in
    match loaded with
    | None => mkres 0 1 (partial_sig, secnonce)
    | Some (k0, k1, pk) =>
      match partial_sig, keypair, keyagg_cache, session with
      | Some _, Some kp, Some cache, Some session =>
        let '(ok, sk, keypair_pk) := keypair_load kp in
        if negb ok then mkres 0 1 (partial_sig, secnonce) else
        if negb (fe_equal (gx pk) (gx keypair_pk) && fe_equal (gy pk) (gy keypair_pk)) then arg_fail (partial_sig, secnonce) else
        match keyagg_cache_load cache with
        | None => mkres 0 1 (partial_sig, secnonce)
        | Some ci =>
          let sk := if negb (b2z (fe_is_odd (gy (ci_pk ci))) =? ci_parity_acc ci) then sc_negate sk else sk in
          let mu := musig_keyaggcoef ci pk in
          let sk := sc_mul sk mu in
          match musig_session_load session with
          | None => mkres 0 1 (partial_sig, secnonce)
          | Some si =>
            let k0 := if si_fin_nonce_parity si =? 0 then k0 else sc_negate k0 in
            let k1 := if si_fin_nonce_parity si =? 0 then k1 else sc_negate k1 in
            let s := sc_mul (si_challenge si) sk in
            let k1 := sc_mul (si_noncecoef si) k1 in
            let k0 := sc_add k0 k1 in
            let s := sc_add s k0 in
            mkres 1 0 (Some (musig_partial_sig_save s), secnonce)
          end
        end
      | _, _, _, _ => arg_fail (partial_sig, secnonce)
      end
    end
  end.

(** src/modules/musig/session_impl.h:736-797 secp256k1_musig_partial_sig_verify. *)
Definition musig_partial_sig_verify (partial_sig pubnonce pubkey keyagg_cache session : option (list Z)) : res unit :=
  match partial_sig, pubnonce, pubkey, keyagg_cache, session with
  | Some psig, Some pubnonce, Some pubkey, Some cache, Some session =>
    match musig_session_load session with
    | None => mkres 0 1 tt
    | Some si =>
      match musig_pubnonce_load pubnonce with
      | None => mkres 0 1 tt
      | Some (n0, n1) =>
        let rj := effective_nonce n0 n1 (si_noncecoef si) in
        let (ok, pkp) := pubkey_load pubkey in
        if negb ok then mkres 0 1 tt else
        match keyagg_cache_load cache with
        | None => mkres 0 1 tt
        | Some ci =>
          let mu := musig_keyaggcoef ci pkp in
          let e := sc_mul (si_challenge si) mu in
          let e := if negb (b2z (fe_is_odd (gy (ci_pk ci))) =? ci_parity_acc ci) then sc_negate e else e in
          match musig_partial_sig_load psig with
          | None => mkres 0 1 tt
          | Some s =>
            let s := sc_negate s in
            let tmp := ecmult (gej_set_ge pkp) e (Some s) in
            let rj := if si_fin_nonce_parity si =? 0 then rj else gej_neg rj in
            let tmp := gej_add_var tmp rj in
            mkres (b2z (gej_is_infinity tmp)) 0 tt
          end
        end
      end
    end
  | _, _, _, _, _ => arg_fail tt
  end.

(** src/modules/musig/session_impl.h:799-822 secp256k1_musig_partial_sig_agg. *)
Fixpoint partial_sig_agg_loop (s : sc) (partial_sigs : list (list Z)) : option sc :=
  match partial_sigs with
  | [] => Some s
  | psig :: rest =>
    match musig_partial_sig_load psig with
    | None => None
    | Some term => partial_sig_agg_loop (sc_add s term) rest
    end
  end.
Definition musig_partial_sig_agg (sig64 session : option (list Z)) (partial_sigs : option (list (list Z))) : res (option (list Z)) :=
  match sig64, session, partial_sigs with
  | Some _, Some session, Some ((_ :: _) as l) =>
    match musig_session_load session with
    | None => mkres 0 1 sig64
    | Some si =>
      match partial_sig_agg_loop (si_s_part si) l with
      | None => mkres 0 1 sig64
      | Some s => mkres 1 0 (Some (si_fin_nonce si ++ sc_get_b32 s))
      end
    end
  | _, _, _ => arg_fail sig64
  end.
