(** One program running on the two builds of the library, and what it can see of the library's
    work.  Vocabulary of C57. *)
Require Import ZArith List Bool.
From Verif Require Import Spec SpecApi GroupModel GenModel ApiModel ApiVocab RecoveryModel EcdhModel HsortModel ExtrakeysModel SchnorrModel EllswiftModel MusigModel CallsVocab
  W32_Base W32_Group W32_Ecmult W32_Gen W32_Ecdsa W32_Api W32_Extrakeys W32_Schnorr W32_Recovery W32_Ecdh W32_Ellswift W32_Hsort W32_Musig.
Import ListNotations.
Local Open Scope Z_scope.

(** What the caller sees of a call: the return value, the number of calls of the illegal-argument
    callback, and the contents of the output arguments afterwards ([None]: a NULL pointer). *)
Inductive output : Type := Buf (o : ptr) | Int (o : option Z) | Arr (o : option (list ptr)).
Record answer : Type := mkanswer { ans_ret : Z; ans_illegal : Z; ans_out : list output }.
Definition of_unit (r : res unit) : answer := mkanswer (r_ret r) (r_ill r) [].
Definition of_buf (r : res ptr) : answer := mkanswer (r_ret r) (r_ill r) [Buf (r_out r)].
Definition of_buf_int (r : res (ptr * option Z)) : answer := mkanswer (r_ret r) (r_ill r) [Buf (fst (r_out r)); Int (snd (r_out r))].
Definition of_buf2 (r : res (ptr * ptr)) : answer := mkanswer (r_ret r) (r_ill r) [Buf (fst (r_out r)); Buf (snd (r_out r))].
Definition of_buf3 (r : res (ptr * ptr * ptr)) : answer := mkanswer (r_ret r) (r_ill r) [Buf (fst (fst (r_out r))); Buf (snd (fst (r_out r))); Buf (snd (r_out r))].
Definition of_array (r : res (option (list ptr))) : answer := mkanswer (r_ret r) (r_ill r) [Arr (r_out r)].
Definition opt_answer {A} (f : res A -> answer) (o : option (res A)) : option answer := match o with Some r => Some (f r) | None => None end.

(** The calls other than those on contexts, without their context argument. *)
Inductive call : Type :=
| W_ec_pubkey_parse (pk input : ptr)
| W_ec_pubkey_serialize (out : ptr) (outlen : option Z) (pk : ptr) (flags : Z)
| W_ec_pubkey_cmp (pk0 pk1 : ptr)
| W_ec_pubkey_sort (pks : option (list ptr)) (count : nat)
| W_ecdsa_signature_parse_der (sig input : ptr)
| W_ecdsa_signature_parse_compact (sig input : ptr)
| W_ecdsa_signature_serialize_der (out : ptr) (outlen : option Z) (sig : ptr)
| W_ecdsa_signature_serialize_compact (out sig : ptr)
| W_ecdsa_signature_normalize (sigout sigin : ptr)
| W_ecdsa_verify (sig msg pk : ptr)
| W_ecdsa_sign (fuel : nat) (sig msg key : ptr) (nf : option nonce_function) (nd : ptr)
| W_ec_seckey_verify (key : ptr)
| W_ec_pubkey_create (pk key : ptr)
| W_ec_seckey_negate (key : ptr)
| W_ec_pubkey_negate (pk : ptr)
| W_ec_seckey_tweak_add (key tweak : ptr)
| W_ec_pubkey_tweak_add (pk tweak : ptr)
| W_ec_seckey_tweak_mul (key tweak : ptr)
| W_ec_pubkey_tweak_mul (pk tweak : ptr)
| W_ec_pubkey_combine (out : ptr) (pks : option (list ptr))
| W_tagged_sha256 (out tag msg : ptr)
| W_ecdh (out pk key : ptr) (hash : option ecdh_hash_function)
| W_recoverable_parse_compact (sig input : ptr) (recid : Z)
| W_recoverable_serialize_compact (out : ptr) (recid : option Z) (sig : ptr)
| W_recoverable_convert (sig sigin : ptr)
| W_ecdsa_sign_recoverable (fuel : nat) (sig msg key : ptr) (nf : option nonce_function) (nd : ptr)
| W_ecdsa_recover (pk sig msg : ptr)
| W_xonly_parse (pk input : ptr)
| W_xonly_serialize (out pk : ptr)
| W_xonly_cmp (pk0 pk1 : ptr)
| W_xonly_from_pubkey (xpk : ptr) (parity : option Z) (pk : ptr)
| W_xonly_tweak_add (out ipk tweak : ptr)
| W_xonly_tweak_add_check (tweaked : ptr) (parity : Z) (ipk tweak : ptr)
| W_keypair_create (kp key : ptr)
| W_keypair_sec (key kp : ptr)
| W_keypair_pub (pk kp : ptr)
| W_keypair_xonly_pub (pk : ptr) (parity : option Z) (kp : ptr)
| W_keypair_xonly_tweak_add (kp tweak : ptr)
| W_schnorrsig_sign32 (sig msg kp aux : ptr)
| W_schnorrsig_sign_custom (sig msg : ptr) (msglen : Z) (kp : ptr) (extra : option extraparams)
| W_schnorrsig_verify (sig msg : ptr) (msglen : Z) (pk : ptr)
| W_ellswift_encode (fuel : nat) (ell pk rnd : ptr)
| W_ellswift_create (fuel : nat) (ell key aux : ptr)
| W_ellswift_decode (pk ell : ptr)
| W_ellswift_xdh (out ell_a ell_b key : ptr) (party : Z) (hash : option ellswift_xdh_hash_function)
| W_musig_pubkey_agg (agg cache : ptr) (pks : option (list bytes))
| W_musig_pubkey_get (pk cache : ptr)
| W_musig_pubkey_ec_tweak_add (out cache tweak : ptr)
| W_musig_pubkey_xonly_tweak_add (out cache tweak : ptr)
| W_musig_pubnonce_parse (nonce input : ptr)
| W_musig_pubnonce_serialize (out nonce : ptr)
| W_musig_aggnonce_parse (nonce input : ptr)
| W_musig_aggnonce_serialize (out nonce : ptr)
| W_musig_partial_sig_parse (sig input : ptr)
| W_musig_partial_sig_serialize (out sig : ptr)
| W_musig_nonce_gen (sn pn rand sk pk msg cache extra : ptr)
| W_musig_nonce_gen_counter (sn pn : ptr) (cnt : Z) (kp msg cache extra : ptr)
| W_musig_nonce_agg (aggnonce : ptr) (pns : option (list bytes))
| W_musig_nonce_process (session aggnonce msg cache : ptr)
| W_musig_partial_sign (psig sn kp cache session : ptr)
| W_musig_partial_sig_verify (psig pn pk cache session : ptr)
| W_musig_partial_sig_agg (sig session : ptr) (psigs : option (list bytes)).

(** The 64-bit build; [None]: the call accesses memory it must not, or its loop does not end
    within the fuel. *)
Definition answer64 (ctx : context) (c : call) : option answer :=
  match c with
  | W_ec_pubkey_parse pk input => Some (of_buf (ec_pubkey_parse pk input))
  | W_ec_pubkey_serialize out outlen pk flags => opt_answer of_buf_int (ec_pubkey_serialize out outlen pk flags)
  | W_ec_pubkey_cmp pk0 pk1 => opt_answer of_unit (ec_pubkey_cmp pk0 pk1)
  | W_ec_pubkey_sort pks count => opt_answer of_array (ec_pubkey_sort pks count)
  | W_ecdsa_signature_parse_der sig input => opt_answer of_buf (ecdsa_signature_parse_der sig input)
  | W_ecdsa_signature_parse_compact sig input => Some (of_buf (ecdsa_signature_parse_compact sig input))
  | W_ecdsa_signature_serialize_der out outlen sig => opt_answer of_buf_int (ecdsa_signature_serialize_der out outlen sig)
  | W_ecdsa_signature_serialize_compact out sig => Some (of_buf (ecdsa_signature_serialize_compact out sig))
  | W_ecdsa_signature_normalize sigout sigin => Some (of_buf (ecdsa_signature_normalize sigout sigin))
  | W_ecdsa_verify sig msg pk => Some (of_unit (ecdsa_verify sig msg pk))
  | W_ecdsa_sign fuel sig msg key nf nd => opt_answer of_buf (ecdsa_sign fuel ctx sig msg key nf nd)
  | W_ec_seckey_verify key => Some (of_unit (ec_seckey_verify key))
  | W_ec_pubkey_create pk key => Some (of_buf (ec_pubkey_create ctx pk key))
  | W_ec_seckey_negate key => Some (of_buf (ec_seckey_negate key))
  | W_ec_pubkey_negate pk => Some (of_buf (ec_pubkey_negate pk))
  | W_ec_seckey_tweak_add key tweak => Some (of_buf (ec_seckey_tweak_add key tweak))
  | W_ec_pubkey_tweak_add pk tweak => Some (of_buf (ec_pubkey_tweak_add pk tweak))
  | W_ec_seckey_tweak_mul key tweak => Some (of_buf (ec_seckey_tweak_mul key tweak))
  | W_ec_pubkey_tweak_mul pk tweak => Some (of_buf (ec_pubkey_tweak_mul pk tweak))
  | W_ec_pubkey_combine out pks => Some (of_buf (ec_pubkey_combine out pks))
  | W_tagged_sha256 out tag msg => Some (of_buf (api_tagged_sha256 out tag msg))
  | W_ecdh out pk key hash => Some (of_buf (ecdh out pk key hash))
  | W_recoverable_parse_compact sig input recid => Some (of_buf (recoverable_signature_parse_compact sig input recid))
  | W_recoverable_serialize_compact out recid sig => Some (of_buf_int (recoverable_signature_serialize_compact out recid sig))
  | W_recoverable_convert sig sigin => Some (of_buf (recoverable_signature_convert sig sigin))
  | W_ecdsa_sign_recoverable fuel sig msg key nf nd => opt_answer of_buf (ecdsa_sign_recoverable fuel ctx sig msg key nf nd)
  | W_ecdsa_recover pk sig msg => Some (of_buf (ecdsa_recover pk sig msg))
  | W_xonly_parse pk input => Some (of_buf (xonly_pubkey_parse pk input))
  | W_xonly_serialize out pk => Some (of_buf (xonly_pubkey_serialize out pk))
  | W_xonly_cmp pk0 pk1 => Some (of_unit (xonly_pubkey_cmp pk0 pk1))
  | W_xonly_from_pubkey xpk parity pk => Some (of_buf_int (xonly_pubkey_from_pubkey xpk parity pk))
  | W_xonly_tweak_add out ipk tweak => Some (of_buf (xonly_pubkey_tweak_add out ipk tweak))
  | W_xonly_tweak_add_check tweaked parity ipk tweak => Some (of_unit (xonly_pubkey_tweak_add_check tweaked parity ipk tweak))
  | W_keypair_create kp key => Some (of_buf (keypair_create ctx kp key))
  | W_keypair_sec key kp => Some (of_buf (keypair_sec key kp))
  | W_keypair_pub pk kp => Some (of_buf (keypair_pub pk kp))
  | W_keypair_xonly_pub pk parity kp => Some (of_buf_int (keypair_xonly_pub pk parity kp))
  | W_keypair_xonly_tweak_add kp tweak => Some (of_buf (keypair_xonly_tweak_add kp tweak))
  | W_schnorrsig_sign32 sig msg kp aux => Some (of_buf (schnorrsig_sign32 ctx sig msg kp aux))
  | W_schnorrsig_sign_custom sig msg msglen kp extra => Some (of_buf (schnorrsig_sign_custom ctx sig msg msglen kp extra))
  | W_schnorrsig_verify sig msg msglen pk => Some (of_unit (schnorrsig_verify sig msg msglen pk))
  | W_ellswift_encode fuel ell pk rnd => opt_answer of_buf (ellswift_encode fuel ell pk rnd)
  | W_ellswift_create fuel ell key aux => opt_answer of_buf (ellswift_create fuel ctx ell key aux)
  | W_ellswift_decode pk ell => Some (of_buf (ellswift_decode pk ell))
  | W_ellswift_xdh out ell_a ell_b key party hash => Some (of_buf (ellswift_xdh out ell_a ell_b key party hash))
  | W_musig_pubkey_agg agg cache pks => Some (of_buf2 (musig_pubkey_agg agg cache pks))
  | W_musig_pubkey_get pk cache => Some (of_buf (musig_pubkey_get pk cache))
  | W_musig_pubkey_ec_tweak_add out cache tweak => Some (of_buf2 (musig_pubkey_ec_tweak_add out cache tweak))
  | W_musig_pubkey_xonly_tweak_add out cache tweak => Some (of_buf2 (musig_pubkey_xonly_tweak_add out cache tweak))
  | W_musig_pubnonce_parse nonce input => Some (of_buf (musig_pubnonce_parse nonce input))
  | W_musig_pubnonce_serialize out nonce => Some (of_buf (musig_pubnonce_serialize out nonce))
  | W_musig_aggnonce_parse nonce input => Some (of_buf (musig_aggnonce_parse nonce input))
  | W_musig_aggnonce_serialize out nonce => Some (of_buf (musig_aggnonce_serialize out nonce))
  | W_musig_partial_sig_parse sig input => Some (of_buf (musig_partial_sig_parse sig input))
  | W_musig_partial_sig_serialize out sig => Some (of_buf (musig_partial_sig_serialize out sig))
  | W_musig_nonce_gen sn pn rand sk pk msg cache extra => Some (of_buf3 (musig_nonce_gen ctx sn pn rand sk pk msg cache extra))
  | W_musig_nonce_gen_counter sn pn cnt kp msg cache extra => Some (of_buf2 (musig_nonce_gen_counter ctx sn pn cnt kp msg cache extra))
  | W_musig_nonce_agg aggnonce pns => Some (of_buf (musig_nonce_agg aggnonce pns))
  | W_musig_nonce_process session aggnonce msg cache => Some (of_buf (musig_nonce_process session aggnonce msg cache))
  | W_musig_partial_sign psig sn kp cache session => Some (of_buf2 (musig_partial_sign psig sn kp cache session))
  | W_musig_partial_sig_verify psig pn pk cache session => Some (of_unit (musig_partial_sig_verify psig pn pk cache session))
  | W_musig_partial_sig_agg sig session psigs => Some (of_buf (musig_partial_sig_agg sig session psigs))
  end.
(** The 32-bit build. *)
Definition answer32 (ctx : context_w32) (c : call) : option answer :=
  match c with
  | W_ec_pubkey_parse pk input => Some (of_buf (ec_pubkey_parse_w32 pk input))
  | W_ec_pubkey_serialize out outlen pk flags => opt_answer of_buf_int (ec_pubkey_serialize_w32 out outlen pk flags)
  | W_ec_pubkey_cmp pk0 pk1 => opt_answer of_unit (ec_pubkey_cmp_w32 pk0 pk1)
  | W_ec_pubkey_sort pks count => opt_answer of_array (ec_pubkey_sort_w32 pks count)
  | W_ecdsa_signature_parse_der sig input => opt_answer of_buf (ecdsa_signature_parse_der_w32 sig input)
  | W_ecdsa_signature_parse_compact sig input => Some (of_buf (ecdsa_signature_parse_compact_w32 sig input))
  | W_ecdsa_signature_serialize_der out outlen sig => opt_answer of_buf_int (ecdsa_signature_serialize_der_w32 out outlen sig)
  | W_ecdsa_signature_serialize_compact out sig => Some (of_buf (ecdsa_signature_serialize_compact_w32 out sig))
  | W_ecdsa_signature_normalize sigout sigin => Some (of_buf (ecdsa_signature_normalize_w32 sigout sigin))
  | W_ecdsa_verify sig msg pk => Some (of_unit (ecdsa_verify_w32 sig msg pk))
  | W_ecdsa_sign fuel sig msg key nf nd => opt_answer of_buf (ecdsa_sign_w32 fuel ctx sig msg key nf nd)
  | W_ec_seckey_verify key => Some (of_unit (ec_seckey_verify_w32 key))
  | W_ec_pubkey_create pk key => Some (of_buf (ec_pubkey_create_w32 ctx pk key))
  | W_ec_seckey_negate key => Some (of_buf (ec_seckey_negate_w32 key))
  | W_ec_pubkey_negate pk => Some (of_buf (ec_pubkey_negate_w32 pk))
  | W_ec_seckey_tweak_add key tweak => Some (of_buf (ec_seckey_tweak_add_w32 key tweak))
  | W_ec_pubkey_tweak_add pk tweak => Some (of_buf (ec_pubkey_tweak_add_w32 pk tweak))
  | W_ec_seckey_tweak_mul key tweak => Some (of_buf (ec_seckey_tweak_mul_w32 key tweak))
  | W_ec_pubkey_tweak_mul pk tweak => Some (of_buf (ec_pubkey_tweak_mul_w32 pk tweak))
  | W_ec_pubkey_combine out pks => Some (of_buf (ec_pubkey_combine_w32 out pks))
  | W_tagged_sha256 out tag msg => Some (of_buf (api_tagged_sha256 out tag msg))
  | W_ecdh out pk key hash => Some (of_buf (ecdh_w32 out pk key hash))
  | W_recoverable_parse_compact sig input recid => Some (of_buf (recoverable_signature_parse_compact_w32 sig input recid))
  | W_recoverable_serialize_compact out recid sig => Some (of_buf_int (recoverable_signature_serialize_compact_w32 out recid sig))
  | W_recoverable_convert sig sigin => Some (of_buf (recoverable_signature_convert_w32 sig sigin))
  | W_ecdsa_sign_recoverable fuel sig msg key nf nd => opt_answer of_buf (ecdsa_sign_recoverable_w32 fuel ctx sig msg key nf nd)
  | W_ecdsa_recover pk sig msg => Some (of_buf (ecdsa_recover_w32 pk sig msg))
  | W_xonly_parse pk input => Some (of_buf (xonly_pubkey_parse_w32 pk input))
  | W_xonly_serialize out pk => Some (of_buf (xonly_pubkey_serialize_w32 out pk))
  | W_xonly_cmp pk0 pk1 => Some (of_unit (xonly_pubkey_cmp_w32 pk0 pk1))
  | W_xonly_from_pubkey xpk parity pk => Some (of_buf_int (xonly_pubkey_from_pubkey_w32 xpk parity pk))
  | W_xonly_tweak_add out ipk tweak => Some (of_buf (xonly_pubkey_tweak_add_w32 out ipk tweak))
  | W_xonly_tweak_add_check tweaked parity ipk tweak => Some (of_unit (xonly_pubkey_tweak_add_check_w32 tweaked parity ipk tweak))
  | W_keypair_create kp key => Some (of_buf (keypair_create_w32 ctx kp key))
  | W_keypair_sec key kp => Some (of_buf (keypair_sec key kp))
  | W_keypair_pub pk kp => Some (of_buf (keypair_pub pk kp))
  | W_keypair_xonly_pub pk parity kp => Some (of_buf_int (keypair_xonly_pub_w32 pk parity kp))
  | W_keypair_xonly_tweak_add kp tweak => Some (of_buf (keypair_xonly_tweak_add_w32 kp tweak))
  | W_schnorrsig_sign32 sig msg kp aux => Some (of_buf (schnorrsig_sign32_w32 ctx sig msg kp aux))
  | W_schnorrsig_sign_custom sig msg msglen kp extra => Some (of_buf (schnorrsig_sign_custom_w32 ctx sig msg msglen kp extra))
  | W_schnorrsig_verify sig msg msglen pk => Some (of_unit (schnorrsig_verify_w32 sig msg msglen pk))
  | W_ellswift_encode fuel ell pk rnd => opt_answer of_buf (ellswift_encode_w32 fuel ell pk rnd)
  | W_ellswift_create fuel ell key aux => opt_answer of_buf (ellswift_create_w32 fuel ctx ell key aux)
  | W_ellswift_decode pk ell => Some (of_buf (ellswift_decode_w32 pk ell))
  | W_ellswift_xdh out ell_a ell_b key party hash => Some (of_buf (ellswift_xdh_w32 out ell_a ell_b key party hash))
  | W_musig_pubkey_agg agg cache pks => Some (of_buf2 (musig_pubkey_agg_w32 agg cache pks))
  | W_musig_pubkey_get pk cache => Some (of_buf (musig_pubkey_get_w32 pk cache))
  | W_musig_pubkey_ec_tweak_add out cache tweak => Some (of_buf2 (musig_pubkey_ec_tweak_add_w32 out cache tweak))
  | W_musig_pubkey_xonly_tweak_add out cache tweak => Some (of_buf2 (musig_pubkey_xonly_tweak_add_w32 out cache tweak))
  | W_musig_pubnonce_parse nonce input => Some (of_buf (musig_pubnonce_parse_w32 nonce input))
  | W_musig_pubnonce_serialize out nonce => Some (of_buf (musig_pubnonce_serialize_w32 out nonce))
  | W_musig_aggnonce_parse nonce input => Some (of_buf (musig_aggnonce_parse_w32 nonce input))
  | W_musig_aggnonce_serialize out nonce => Some (of_buf (musig_aggnonce_serialize_w32 out nonce))
  | W_musig_partial_sig_parse sig input => Some (of_buf (musig_partial_sig_parse_w32 sig input))
  | W_musig_partial_sig_serialize out sig => Some (of_buf (musig_partial_sig_serialize out sig))
  | W_musig_nonce_gen sn pn rand sk pk msg cache extra => Some (of_buf3 (musig_nonce_gen_w32 ctx sn pn rand sk pk msg cache extra))
  | W_musig_nonce_gen_counter sn pn cnt kp msg cache extra => Some (of_buf2 (musig_nonce_gen_counter_w32 ctx sn pn cnt kp msg cache extra))
  | W_musig_nonce_agg aggnonce pns => Some (of_buf (musig_nonce_agg_w32 aggnonce pns))
  | W_musig_nonce_process session aggnonce msg cache => Some (of_buf (musig_nonce_process_w32 session aggnonce msg cache))
  | W_musig_partial_sign psig sn kp cache session => Some (of_buf2 (musig_partial_sign_w32 psig sn kp cache session))
  | W_musig_partial_sig_verify psig pn pk cache session => Some (of_unit (musig_partial_sig_verify_w32 psig pn pk cache session))
  | W_musig_partial_sig_agg sig session psigs => Some (of_buf (musig_partial_sig_agg_w32 sig session psigs))
  end.

(** The arguments have the size of their type.  A signature object holds two (little-endian)
    scalars below the group order, as every object does that the library has written; a custom
    nonce function writes 32 bytes. *)
Definition sig_object (l : bytes) : Prop := bytes_n 64 l /\ le_val (firstn 32 l) < n /\ le_val (skipn 32 l) < n.
Definition recsig_object (l : bytes) : Prop := bytes_n 65 l /\ le_val (firstn 32 l) < n /\ le_val (firstn 32 (skipn 32 l)) < n.
Definition call_typed (c : call) : Prop :=
  match c with
  | W_ec_pubkey_parse _ input => optional byte_list input
  | W_ec_pubkey_serialize _ _ pk _ => optional (bytes_n 64) pk
  | W_ec_pubkey_cmp pk0 pk1 => optional (bytes_n 64) pk0 /\ optional (bytes_n 64) pk1
  | W_ec_pubkey_sort pks _ => optional (Forall (optional (bytes_n 64))) pks
  | W_ecdsa_signature_parse_der _ input => optional byte_list input
  | W_ecdsa_signature_parse_compact _ input => optional (bytes_n 64) input
  | W_ecdsa_signature_serialize_der _ _ sig => optional sig_object sig
  | W_ecdsa_signature_serialize_compact _ sig => optional sig_object sig
  | W_ecdsa_signature_normalize _ sigin => optional sig_object sigin
  | W_ecdsa_verify sig msg pk => optional sig_object sig /\ optional (bytes_n 32) msg /\ optional (bytes_n 64) pk
  | W_ecdsa_sign _ _ msg key nf nd => optional (bytes_n 32) msg /\ optional (bytes_n 32) key /\ forall m k, msg = Some m -> key = Some k -> nonce_bytes (the_nonce nf) m k nd
  | W_ec_seckey_verify key => optional (bytes_n 32) key
  | W_ec_pubkey_create _ key => optional (bytes_n 32) key
  | W_ec_seckey_negate key => optional (bytes_n 32) key
  | W_ec_pubkey_negate pk => optional (bytes_n 64) pk
  | W_ec_seckey_tweak_add key tweak => optional (bytes_n 32) key /\ optional (bytes_n 32) tweak
  | W_ec_pubkey_tweak_add pk tweak => optional (bytes_n 64) pk /\ optional (bytes_n 32) tweak
  | W_ec_seckey_tweak_mul key tweak => optional (bytes_n 32) key /\ optional (bytes_n 32) tweak
  | W_ec_pubkey_tweak_mul pk tweak => optional (bytes_n 64) pk /\ optional (bytes_n 32) tweak
  | W_ec_pubkey_combine _ pks => optional (Forall (optional (bytes_n 64))) pks
  | W_ecdh _ pk key _ => optional (bytes_n 64) pk /\ optional (bytes_n 32) key
  | W_recoverable_parse_compact _ input _ => optional (bytes_n 64) input
  | W_recoverable_serialize_compact _ _ sig => optional recsig_object sig
  | W_recoverable_convert _ sigin => optional recsig_object sigin
  | W_ecdsa_sign_recoverable _ _ msg key nf nd => optional (bytes_n 32) msg /\ optional (bytes_n 32) key /\ forall m k, msg = Some m -> key = Some k -> nonce_bytes (the_nonce nf) m k nd
  | W_ecdsa_recover _ sig msg => optional recsig_object sig /\ optional (bytes_n 32) msg
  | W_xonly_parse _ input => optional (bytes_n 32) input
  | W_xonly_serialize _ pk => optional (bytes_n 64) pk
  | W_xonly_cmp pk0 pk1 => optional (bytes_n 64) pk0 /\ optional (bytes_n 64) pk1
  | W_xonly_from_pubkey _ _ pk => optional (bytes_n 64) pk
  | W_xonly_tweak_add _ ipk tweak => optional (bytes_n 64) ipk /\ optional (bytes_n 32) tweak
  | W_xonly_tweak_add_check _ _ ipk tweak => optional (bytes_n 64) ipk /\ optional (bytes_n 32) tweak
  | W_keypair_create _ key => optional (bytes_n 32) key
  | W_keypair_xonly_pub _ _ kp => optional (bytes_n 96) kp
  | W_keypair_xonly_tweak_add kp tweak => optional (bytes_n 96) kp /\ optional (bytes_n 32) tweak
  | W_schnorrsig_sign32 _ _ kp _ => optional (bytes_n 96) kp
  | W_schnorrsig_sign_custom _ _ _ kp extra => optional (bytes_n 96) kp /\ forall ep f, extra = Some ep -> ep_noncefp ep = Some f -> forall m key pk algo, bytes_n 32 (snd (f (repeat 0 32) m key pk algo (ep_ndata ep)))
  | W_schnorrsig_verify sig _ _ pk => optional (bytes_n 64) sig /\ optional (bytes_n 64) pk
  | W_ellswift_encode _ _ pk _ => optional (bytes_n 64) pk
  | W_ellswift_create _ _ key _ => optional (bytes_n 32) key
  | W_ellswift_decode _ ell => optional (bytes_n 64) ell
  | W_ellswift_xdh _ ell_a ell_b key _ _ => optional (bytes_n 64) ell_a /\ optional (bytes_n 64) ell_b /\ optional (bytes_n 32) key
  | W_musig_pubkey_agg _ _ pks => optional (Forall (bytes_n 64)) pks
  | W_musig_pubkey_get _ cache => optional (bytes_n 197) cache
  | W_musig_pubkey_ec_tweak_add _ cache tweak => optional (bytes_n 197) cache /\ optional (bytes_n 32) tweak
  | W_musig_pubkey_xonly_tweak_add _ cache tweak => optional (bytes_n 197) cache /\ optional (bytes_n 32) tweak
  | W_musig_pubnonce_parse _ input => optional (bytes_n 66) input
  | W_musig_pubnonce_serialize _ nonce => optional (bytes_n 132) nonce
  | W_musig_aggnonce_parse _ input => optional (bytes_n 66) input
  | W_musig_aggnonce_serialize _ nonce => optional (bytes_n 132) nonce
  | W_musig_partial_sig_parse _ input => optional (bytes_n 32) input
  | W_musig_nonce_gen _ _ _ sk pk _ cache _ => optional (bytes_n 32) sk /\ optional (bytes_n 64) pk /\ optional (bytes_n 197) cache
  | W_musig_nonce_gen_counter _ _ _ kp _ cache _ => optional (bytes_n 96) kp /\ optional (bytes_n 197) cache
  | W_musig_nonce_agg _ pns => optional (Forall (bytes_n 132)) pns
  | W_musig_nonce_process _ aggnonce _ cache => optional (bytes_n 132) aggnonce /\ optional (bytes_n 197) cache
  | W_musig_partial_sign _ sn kp cache session => optional (bytes_n 132) sn /\ optional (bytes_n 96) kp /\ optional (bytes_n 197) cache /\ optional (bytes_n 133) session
  | W_musig_partial_sig_verify psig pn pk cache session => optional (bytes_n 36) psig /\ optional (bytes_n 132) pn /\ optional (bytes_n 64) pk /\ optional (bytes_n 197) cache /\ optional (bytes_n 133) session
  | W_musig_partial_sig_agg _ session psigs => optional (bytes_n 133) session /\ optional (Forall (bytes_n 36)) psigs
  | W_tagged_sha256 _ _ _ | W_keypair_sec _ _ | W_keypair_pub _ _ | W_musig_partial_sig_serialize _ _ => True
  end.

(** A program: context operations and calls.  Creation and cloning put the new context in place
    [k]; [O_preallocated_clone] with [None] passes NULL as the memory. *)
Inductive operation : Type :=
| O_create (k : nat) (checkmem : bool) (flags : Z)
| O_clone (p : ctx_ptr) (k : nat)
| O_preallocated_clone (p : ctx_ptr) (k : option nat)
| O_randomize (p : ctx_ptr) (seed : ptr)
| O_set_illegal (p : ctx_ptr) (fn data : Z)
| O_set_error (p : ctx_ptr) (fn data : Z)
| O_destroy (p : ctx_ptr)
| O_call (p : ctx_ptr) (c : call).
Definition operation_typed (op : operation) : Prop :=
  match op with O_randomize _ seed => optional (bytes_n 32) seed | O_call _ c => call_typed c | _ => True end.

(** ** The 64-bit build (contexts in memory as in C50) *)

Definition place64 (w : world) (k : nat) (r : res (option context)) : world * answer := (mkworld (w_static w) (upd (w_heap w) k (r_out r)), mkanswer (r_ret r) (r_ill r) []).
Definition change64 (w : world) (p : ctx_ptr) (r : res context) : world * answer := (put w p (r_out r), mkanswer (r_ret r) (r_ill r) []).
(** One operation: the contexts afterwards and what the caller sees.  [mem] is what new memory
    contains.  [None]: the context pointer is dangling, or the call is undefined. *)
Definition step64 (mem : context) (w : world) (op : operation) : option (world * answer) :=
  match op with
  | O_create k checkmem flags =>
      let r := context_create checkmem mem flags in
      Some (mkworld (w_static w) (upd (w_heap w) k r), mkanswer (match r with Some _ => 1 | None => 0 end) 0 [])
  | O_clone p k => match deref w p with Some c => Some (place64 w k (context_clone c mem)) | None => None end
  | O_preallocated_clone p None => match deref w p with Some c => let r := context_preallocated_clone c None in Some (w, mkanswer (r_ret r) (r_ill r) []) | None => None end
  | O_preallocated_clone p (Some k) => match deref w p with Some c => Some (place64 w k (context_preallocated_clone c (Some mem))) | None => None end
  | O_randomize p seed => match deref w p with Some c => Some (change64 w p (context_randomize c seed)) | None => None end
  | O_set_illegal p fn data => match deref w p with Some c => Some (change64 w p (context_set_illegal_callback (is_static p) c fn data)) | None => None end
  | O_set_error p fn data => match deref w p with Some c => Some (change64 w p (context_set_error_callback (is_static p) c fn data)) | None => None end
  | O_destroy p =>
      match deref w p with
      | Some c =>
          let r := context_preallocated_destroy c in
          if r_ill r =? 0
          then Some (match p with Static => mkworld (r_out r) (w_heap w) | Heap k => mkworld (w_static w) (upd (w_heap w) k None) end, mkanswer (r_ret r) (r_ill r) [])
          else Some (w, mkanswer (r_ret r) (r_ill r) [])
      | None => None
      end
  | O_call p c => match deref w p with Some ctx => match answer64 ctx c with Some a => Some (w, a) | None => None end | None => None end
  end.
(** All that the program sees, operation by operation. *)
Fixpoint observe64 (mem : context) (w : world) (ops : list operation) : option (list answer) :=
  match ops with
  | [] => Some []
  | op :: ops' =>
    match step64 mem w op with
    | None => None
    | Some (w', a) => match observe64 mem w' ops' with Some l => Some (a :: l) | None => None end
    end
  end.

(** ** The 32-bit build *)

Record world32 : Type := mkworld32 { v_static : context_w32; v_heap : nat -> option context_w32 }.
Definition upd32 (h : nat -> option context_w32) (k : nat) (c : option context_w32) : nat -> option context_w32 := fun j => if Nat.eqb j k then c else h j.
Definition deref32 (w : world32) (p : ctx_ptr) : option context_w32 := match p with Static => Some (v_static w) | Heap k => v_heap w k end.
Definition put32 (w : world32) (p : ctx_ptr) (c : context_w32) : world32 :=
  match p with Static => mkworld32 c (v_heap w) | Heap k => mkworld32 (v_static w) (upd32 (v_heap w) k (Some c)) end.
Definition init_world32 : world32 := mkworld32 context_static_w32 (fun _ => None).
Definition place32 (w : world32) (k : nat) (r : res (option context_w32)) : world32 * answer := (mkworld32 (v_static w) (upd32 (v_heap w) k (r_out r)), mkanswer (r_ret r) (r_ill r) []).
Definition change32 (w : world32) (p : ctx_ptr) (r : res context_w32) : world32 * answer := (put32 w p (r_out r), mkanswer (r_ret r) (r_ill r) []).
(** One operation: the contexts afterwards and what the caller sees.  [mem] is what new memory
    contains.  [None]: the context pointer is dangling, or the call is undefined. *)
Definition step32 (mem : context_w32) (w : world32) (op : operation) : option (world32 * answer) :=
  match op with
  | O_create k checkmem flags =>
      let r := context_create_w32 checkmem mem flags in
      Some (mkworld32 (v_static w) (upd32 (v_heap w) k r), mkanswer (match r with Some _ => 1 | None => 0 end) 0 [])
  | O_clone p k => match deref32 w p with Some c => Some (place32 w k (context_clone_w32 c mem)) | None => None end
  | O_preallocated_clone p None => match deref32 w p with Some c => let r := context_preallocated_clone_w32 c None in Some (w, mkanswer (r_ret r) (r_ill r) []) | None => None end
  | O_preallocated_clone p (Some k) => match deref32 w p with Some c => Some (place32 w k (context_preallocated_clone_w32 c (Some mem))) | None => None end
  | O_randomize p seed => match deref32 w p with Some c => Some (change32 w p (context_randomize_w32 c seed)) | None => None end
  | O_set_illegal p fn data => match deref32 w p with Some c => Some (change32 w p (context_set_illegal_callback_w32 (is_static p) c fn data)) | None => None end
  | O_set_error p fn data => match deref32 w p with Some c => Some (change32 w p (context_set_error_callback_w32 (is_static p) c fn data)) | None => None end
  | O_destroy p =>
      match deref32 w p with
      | Some c =>
          let r := context_preallocated_destroy_w32 c in
          if r_ill r =? 0
          then Some (match p with Static => mkworld32 (r_out r) (v_heap w) | Heap k => mkworld32 (v_static w) (upd32 (v_heap w) k None) end, mkanswer (r_ret r) (r_ill r) [])
          else Some (w, mkanswer (r_ret r) (r_ill r) [])
      | None => None
      end
  | O_call p c => match deref32 w p with Some ctx => match answer32 ctx c with Some a => Some (w, a) | None => None end | None => None end
  end.
(** All that the program sees, operation by operation. *)
Fixpoint observe32 (mem : context_w32) (w : world32) (ops : list operation) : option (list answer) :=
  match ops with
  | [] => Some []
  | op :: ops' =>
    match step32 mem w op with
    | None => None
    | Some (w', a) => match observe32 mem w' ops' with Some l => Some (a :: l) | None => None end
    end
  end.

(** The calls that write a signature object, and those that write a recoverable one. *)
Definition writes_signature (c : call) : Prop :=
  match c with
  | W_ecdsa_signature_parse_der _ _ | W_ecdsa_signature_parse_compact _ _ | W_ecdsa_signature_normalize _ _ | W_ecdsa_sign _ _ _ _ _ _ | W_recoverable_convert _ _ => True
  | _ => False
  end.
Definition writes_recsig (c : call) : Prop :=
  match c with W_recoverable_parse_compact _ _ _ | W_ecdsa_sign_recoverable _ _ _ _ _ _ => True | _ => False end.
