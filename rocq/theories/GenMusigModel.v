(** Nonce generation of MuSig with the generator multiplication of any build: [gen] stands for secp256k1_ecmult_gen
    as compiled (GenAnyModel).  MusigModel has the default configuration. *)
Require Import ZArith List Bool.
From Verif Require Import Word Spec FieldModel ScalarModel GroupModel HashModel GenModel EcmultModel EcdsaModel ApiModel ExtrakeysModel SchnorrModel MusigModel.
Import ListNotations.
Local Open Scope Z_scope.
Local Open Scope c_scope.

(** src/modules/musig/session_impl.h:395-467 secp256k1_musig_nonce_gen_internal: outputs are
    *secnonce and *pubnonce.  If the serialization of pk failed, pk_ser would be uninitialized
    (zeros here); pubkey_load never yields infinity. *)
Definition musig_nonce_gen_internal_by (gen : gen_ctx -> sc -> gej) (ctx : context) (secnonce : list Z) (pubnonce : option (list Z)) (input_nonce : list Z)
    (seckey pubkey msg32 keyagg_cache extra_input32 : option (list Z)) : res (list Z * option (list Z)) :=
  match pubnonce with
  | None => arg_fail (secnonce, None)
  | Some _ =>
    match pubkey with
    | None => arg_fail (secnonce, Some (zeros 132))
    | Some pubkey =>
      if negb (g_built (c_gen ctx)) then arg_fail (secnonce, Some (zeros 132)) else
      let ret := match seckey with Some sk => snd (sc_set_b32_seckey sk) | None => true end in
      match (match keyagg_cache with
             | Some cache => match keyagg_cache_load cache with Some ci => Some (Some (fe_get_b32 (gx (ci_pk ci)))) | None => None end
             | None => Some None
             end) with
      | None => mkres 0 1 (secnonce, Some (zeros 132))
      | Some aggpk_ser =>
        let (ok, pk) := pubkey_load pubkey in
        if negb ok then mkres 0 1 (secnonce, Some (zeros 132)) else
        let pk_ser := match eckey_pubkey_serialize pk true with Some b => b | None => zeros 33 end in
        let (k0, k1) := nonce_function_musig input_nonce msg32 seckey pk_ser aggpk_ser extra_input32 in
        let secnonce := musig_secnonce_invalidate (musig_secnonce_save k0 k1 pk) (b2z (negb ret)) in
        match ge_set_all_gej [gen (c_gen ctx) k0; gen (c_gen ctx) k1] with
        | [n0; n1] => mkres (b2z ret) 0 (secnonce, Some (musig_pubnonce_save n0 n1))
        | _ => mkres (b2z ret) 0 (secnonce, Some (zeros 132))
        end
      end
    end
  end.

(** src/modules/musig/session_impl.h:469-495 secp256k1_musig_nonce_gen: outputs are *secnonce,
    *pubnonce and *session_secrand32. *)
Definition musig_nonce_gen_by (gen : gen_ctx -> sc -> gej) (ctx : context) (secnonce pubnonce session_secrand32 seckey pubkey msg32 keyagg_cache extra_input32 : option (list Z))
  : res (option (list Z) * option (list Z) * option (list Z)) :=
  match secnonce with
  | None => arg_fail (None, pubnonce, session_secrand32)
  | Some _ =>
    match session_secrand32 with
    | None => arg_fail (Some (zeros 132), pubnonce, None)
    | Some secrand =>
      if is_zero_array (firstn 32 secrand) then
        mkres 0 0 (Some (musig_secnonce_invalidate (zeros 132) 1), pubnonce, session_secrand32)
      else
      let r := musig_nonce_gen_internal_by gen ctx (zeros 132) pubnonce secrand seckey pubkey msg32 keyagg_cache extra_input32 in
      mkres (r_ret r) (r_ill r) (Some (fst (r_out r)), snd (r_out r), Some (memczero (firstn 32 secrand) (r_ret r) ++ skipn 32 secrand))
    end
  end.

(** src/modules/musig/session_impl.h:497-523 secp256k1_musig_nonce_gen_counter: outputs are
    *secnonce and *pubnonce; nonrepeating_cnt is a uint64_t. *)
Definition musig_nonce_gen_counter_by (gen : gen_ctx -> sc -> gej) (ctx : context) (secnonce pubnonce : option (list Z)) (nonrepeating_cnt : Z)
    (keypair msg32 keyagg_cache extra_input32 : option (list Z)) : res (option (list Z) * option (list Z)) :=
  match secnonce with
  | None => arg_fail (None, pubnonce)
  | Some _ =>
    match keypair with
    | None => arg_fail (Some (zeros 132), pubnonce)
    | Some kp =>
      let buf := be_bytes 8 nonrepeating_cnt ++ zeros 24 in
      let seckey := r_out (keypair_sec (Some (zeros 32)) (Some kp)) in
      let pubkey := r_out (keypair_pub (Some (zeros 64)) (Some kp)) in
      let r := musig_nonce_gen_internal_by gen ctx (zeros 132) pubnonce buf seckey pubkey msg32 keyagg_cache extra_input32 in
      mkres (if r_ret r =? 0 then 0 else 1) (r_ill r) (Some (fst (r_out r)), snd (r_out r))
    end
  end.
