(** All calls of the API, what their argument checks ask for, and what a call reports.
    Vocabulary of C37. *)
Require Import ZArith List Bool.
From Verif Require Import Spec SpecApi GroupModel GenModel ApiModel ApiVocab RecoveryModel EcdhModel HsortModel ExtrakeysModel SchnorrModel EllswiftModel MusigModel.
Import ListNotations.
Local Open Scope Z_scope.

Notation bytes := (list Z).
Notation ptr := (option (list Z)).

(** The calls.  A pointer argument is [None] for NULL; a context argument appears where the
    function reads the context. *)
Inductive api_call : Type :=
| Call_context_randomize (ctx : context) (seed : ptr)
| Call_context_clone (ctx mem : context)
| Call_context_preallocated_clone (ctx : context) (prealloc : option context)
| Call_context_preallocated_destroy (ctx : context)
| Call_context_set_illegal_callback (is_static : bool) (ctx : context) (fn data : Z)
| Call_context_set_error_callback (is_static : bool) (ctx : context) (fn data : Z)
| Call_ec_pubkey_parse (pk input : ptr)
| Call_ec_pubkey_serialize (out : ptr) (outlen : option Z) (pk : ptr) (flags : Z)
| Call_ec_pubkey_cmp (pk0 pk1 : ptr)
| Call_ec_pubkey_sort (pks : option (list ptr)) (count : nat)
| Call_signature_parse_der (sig input : ptr)
| Call_signature_parse_compact (sig input : ptr)
| Call_signature_serialize_der (out : ptr) (outlen : option Z) (sig : ptr)
| Call_signature_serialize_compact (out sig : ptr)
| Call_signature_normalize (sigout sigin : ptr)
| Call_ecdsa_verify (sig msg pk : ptr)
| Call_ecdsa_sign (fuel : nat) (ctx : context) (sig msg key : ptr) (nf : option nonce_function) (nd : ptr)
| Call_ec_seckey_verify (key : ptr)
| Call_ec_pubkey_create (ctx : context) (pk key : ptr)
| Call_ec_seckey_negate (key : ptr)
| Call_ec_pubkey_negate (pk : ptr)
| Call_ec_seckey_tweak_add (key tweak : ptr)
| Call_ec_pubkey_tweak_add (pk tweak : ptr)
| Call_ec_seckey_tweak_mul (key tweak : ptr)
| Call_ec_pubkey_tweak_mul (pk tweak : ptr)
| Call_ec_pubkey_combine (out : ptr) (pks : option (list ptr))
| Call_tagged_sha256 (out tag msg : ptr)
| Call_ecdh (out pk key : ptr) (hash : option ecdh_hash_function)
| Call_recoverable_parse_compact (sig input : ptr) (recid : Z)
| Call_recoverable_serialize_compact (out : ptr) (recid : option Z) (sig : ptr)
| Call_recoverable_convert (sig sigin : ptr)
| Call_ecdsa_sign_recoverable (fuel : nat) (ctx : context) (sig msg key : ptr) (nf : option nonce_function) (nd : ptr)
| Call_ecdsa_recover (pk sig msg : ptr)
| Call_xonly_parse (pk input : ptr)
| Call_xonly_serialize (out pk : ptr)
| Call_xonly_cmp (pk0 pk1 : ptr)
| Call_xonly_from_pubkey (xpk : ptr) (parity : option Z) (pk : ptr)
| Call_xonly_tweak_add (out ipk tweak : ptr)
| Call_xonly_tweak_add_check (tweaked : ptr) (parity : Z) (ipk tweak : ptr)
| Call_keypair_create (ctx : context) (kp key : ptr)
| Call_keypair_sec (key kp : ptr)
| Call_keypair_pub (pk kp : ptr)
| Call_keypair_xonly_pub (pk : ptr) (parity : option Z) (kp : ptr)
| Call_keypair_xonly_tweak_add (kp tweak : ptr)
| Call_schnorrsig_sign32 (ctx : context) (sig msg kp aux : ptr)
| Call_schnorrsig_sign_custom (ctx : context) (sig msg : ptr) (msglen : Z) (kp : ptr) (extra : option extraparams)
| Call_schnorrsig_verify (sig msg : ptr) (msglen : Z) (pk : ptr)
| Call_ellswift_encode (fuel : nat) (ell pk rnd : ptr)
| Call_ellswift_create (fuel : nat) (ctx : context) (ell key aux : ptr)
| Call_ellswift_decode (pk ell : ptr)
| Call_ellswift_xdh (out ell_a ell_b key : ptr) (party : Z) (hash : option ellswift_xdh_hash_function)
| Call_musig_pubkey_agg (agg cache : ptr) (pks : option (list bytes))
| Call_musig_pubkey_get (pk cache : ptr)
| Call_musig_pubkey_ec_tweak_add (out cache tweak : ptr)
| Call_musig_pubkey_xonly_tweak_add (out cache tweak : ptr)
| Call_musig_pubnonce_parse (nonce input : ptr)
| Call_musig_pubnonce_serialize (out nonce : ptr)
| Call_musig_aggnonce_parse (nonce input : ptr)
| Call_musig_aggnonce_serialize (out nonce : ptr)
| Call_musig_partial_sig_parse (sig input : ptr)
| Call_musig_partial_sig_serialize (out sig : ptr)
| Call_musig_nonce_gen (ctx : context) (sn pn rand sk pk msg cache extra : ptr)
| Call_musig_nonce_gen_counter (ctx : context) (sn pn : ptr) (cnt : Z) (kp msg cache extra : ptr)
| Call_musig_nonce_agg (aggnonce : ptr) (pns : option (list bytes))
| Call_musig_nonce_process (session aggnonce msg cache : ptr)
| Call_musig_partial_sign (psig sn kp cache session : ptr)
| Call_musig_partial_sig_verify (psig pn pk cache session : ptr)
| Call_musig_partial_sig_agg (sig session : ptr) (psigs : option (list bytes)).

(** What a call reports: the return value and the number of calls of the illegal callback;
    [None] if the call accesses memory it must not, or does not end within the fuel. *)
Definition rr {A} (r : res A) : option (Z * Z) := Some (r_ret r, r_ill r).
Definition ro {A} (o : option (res A)) : option (Z * Z) := match o with Some r => rr r | None => None end.
Definition run_call (c : api_call) : option (Z * Z) :=
  match c with
  | Call_context_randomize ctx seed => rr (context_randomize ctx seed)
  | Call_context_clone ctx mem => rr (context_clone ctx mem)
  | Call_context_preallocated_clone ctx prealloc => rr (context_preallocated_clone ctx prealloc)
  | Call_context_preallocated_destroy ctx => rr (context_preallocated_destroy ctx)
  | Call_context_set_illegal_callback s ctx fn data => rr (context_set_illegal_callback s ctx fn data)
  | Call_context_set_error_callback s ctx fn data => rr (context_set_error_callback s ctx fn data)
  | Call_ec_pubkey_parse pk input => rr (ec_pubkey_parse pk input)
  | Call_ec_pubkey_serialize out outlen pk flags => ro (ec_pubkey_serialize out outlen pk flags)
  | Call_ec_pubkey_cmp pk0 pk1 => ro (ec_pubkey_cmp pk0 pk1)
  | Call_ec_pubkey_sort pks count => ro (ec_pubkey_sort pks count)
  | Call_signature_parse_der sig input => ro (ecdsa_signature_parse_der sig input)
  | Call_signature_parse_compact sig input => rr (ecdsa_signature_parse_compact sig input)
  | Call_signature_serialize_der out outlen sig => ro (ecdsa_signature_serialize_der out outlen sig)
  | Call_signature_serialize_compact out sig => rr (ecdsa_signature_serialize_compact out sig)
  | Call_signature_normalize sigout sigin => rr (ecdsa_signature_normalize sigout sigin)
  | Call_ecdsa_verify sig msg pk => rr (ecdsa_verify sig msg pk)
  | Call_ecdsa_sign fuel ctx sig msg key nf nd => ro (ecdsa_sign fuel ctx sig msg key nf nd)
  | Call_ec_seckey_verify key => rr (ec_seckey_verify key)
  | Call_ec_pubkey_create ctx pk key => rr (ec_pubkey_create ctx pk key)
  | Call_ec_seckey_negate key => rr (ec_seckey_negate key)
  | Call_ec_pubkey_negate pk => rr (ec_pubkey_negate pk)
  | Call_ec_seckey_tweak_add key tweak => rr (ec_seckey_tweak_add key tweak)
  | Call_ec_pubkey_tweak_add pk tweak => rr (ec_pubkey_tweak_add pk tweak)
  | Call_ec_seckey_tweak_mul key tweak => rr (ec_seckey_tweak_mul key tweak)
  | Call_ec_pubkey_tweak_mul pk tweak => rr (ec_pubkey_tweak_mul pk tweak)
  | Call_ec_pubkey_combine out pks => rr (ec_pubkey_combine out pks)
  | Call_tagged_sha256 out tag msg => rr (api_tagged_sha256 out tag msg)
  | Call_ecdh out pk key hash => rr (ecdh out pk key hash)
  | Call_recoverable_parse_compact sig input recid => rr (recoverable_signature_parse_compact sig input recid)
  | Call_recoverable_serialize_compact out recid sig => rr (recoverable_signature_serialize_compact out recid sig)
  | Call_recoverable_convert sig sigin => rr (recoverable_signature_convert sig sigin)
  | Call_ecdsa_sign_recoverable fuel ctx sig msg key nf nd => ro (ecdsa_sign_recoverable fuel ctx sig msg key nf nd)
  | Call_ecdsa_recover pk sig msg => rr (ecdsa_recover pk sig msg)
  | Call_xonly_parse pk input => rr (xonly_pubkey_parse pk input)
  | Call_xonly_serialize out pk => rr (xonly_pubkey_serialize out pk)
  | Call_xonly_cmp pk0 pk1 => rr (xonly_pubkey_cmp pk0 pk1)
  | Call_xonly_from_pubkey xpk parity pk => rr (xonly_pubkey_from_pubkey xpk parity pk)
  | Call_xonly_tweak_add out ipk tweak => rr (xonly_pubkey_tweak_add out ipk tweak)
  | Call_xonly_tweak_add_check tweaked parity ipk tweak => rr (xonly_pubkey_tweak_add_check tweaked parity ipk tweak)
  | Call_keypair_create ctx kp key => rr (keypair_create ctx kp key)
  | Call_keypair_sec key kp => rr (keypair_sec key kp)
  | Call_keypair_pub pk kp => rr (keypair_pub pk kp)
  | Call_keypair_xonly_pub pk parity kp => rr (keypair_xonly_pub pk parity kp)
  | Call_keypair_xonly_tweak_add kp tweak => rr (keypair_xonly_tweak_add kp tweak)
  | Call_schnorrsig_sign32 ctx sig msg kp aux => rr (schnorrsig_sign32 ctx sig msg kp aux)
  | Call_schnorrsig_sign_custom ctx sig msg msglen kp extra => rr (schnorrsig_sign_custom ctx sig msg msglen kp extra)
  | Call_schnorrsig_verify sig msg msglen pk => rr (schnorrsig_verify sig msg msglen pk)
  | Call_ellswift_encode fuel ell pk rnd => ro (ellswift_encode fuel ell pk rnd)
  | Call_ellswift_create fuel ctx ell key aux => ro (ellswift_create fuel ctx ell key aux)
  | Call_ellswift_decode pk ell => rr (ellswift_decode pk ell)
  | Call_ellswift_xdh out ell_a ell_b key party hash => rr (ellswift_xdh out ell_a ell_b key party hash)
  | Call_musig_pubkey_agg agg cache pks => rr (musig_pubkey_agg agg cache pks)
  | Call_musig_pubkey_get pk cache => rr (musig_pubkey_get pk cache)
  | Call_musig_pubkey_ec_tweak_add out cache tweak => rr (musig_pubkey_ec_tweak_add out cache tweak)
  | Call_musig_pubkey_xonly_tweak_add out cache tweak => rr (musig_pubkey_xonly_tweak_add out cache tweak)
  | Call_musig_pubnonce_parse nonce input => rr (musig_pubnonce_parse nonce input)
  | Call_musig_pubnonce_serialize out nonce => rr (musig_pubnonce_serialize out nonce)
  | Call_musig_aggnonce_parse nonce input => rr (musig_aggnonce_parse nonce input)
  | Call_musig_aggnonce_serialize out nonce => rr (musig_aggnonce_serialize out nonce)
  | Call_musig_partial_sig_parse sig input => rr (musig_partial_sig_parse sig input)
  | Call_musig_partial_sig_serialize out sig => rr (musig_partial_sig_serialize out sig)
  | Call_musig_nonce_gen ctx sn pn rand sk pk msg cache extra => rr (musig_nonce_gen ctx sn pn rand sk pk msg cache extra)
  | Call_musig_nonce_gen_counter ctx sn pn cnt kp msg cache extra => rr (musig_nonce_gen_counter ctx sn pn cnt kp msg cache extra)
  | Call_musig_nonce_agg aggnonce pns => rr (musig_nonce_agg aggnonce pns)
  | Call_musig_nonce_process session aggnonce msg cache => rr (musig_nonce_process session aggnonce msg cache)
  | Call_musig_partial_sign psig sn kp cache session => rr (musig_partial_sign psig sn kp cache session)
  | Call_musig_partial_sig_verify psig pn pk cache session => rr (musig_partial_sig_verify psig pn pk cache session)
  | Call_musig_partial_sig_agg sig session psigs => rr (musig_partial_sig_agg sig session psigs)
  end.

(** ** Legal arguments *)

(** A pointer that is not NULL, to a value with property [P]. *)
Definition to {A} (P : A -> Prop) (o : option A) : Prop := match o with Some v => P v | None => False end.
Definition given {A} (o : option A) : Prop := to (fun _ => True) o.
(** A public key object (also x-only) that is not zeroed: its x coordinate is not zero. *)
Definition pk_ok (pk : bytes) : Prop := firstn 32 pk <> repeat 0 32.
(** A key pair object with such a public key and a secret key in range. *)
Definition kp_pk_ok (kp : bytes) : Prop := pk_ok (skipn 32 kp).
Definition kp_ok (kp : bytes) : Prop := kp_pk_ok kp /\ 1 <= be_val (firstn 32 kp) < n.
(** The MuSig objects begin with four bytes that tell their type. *)
Definition tag_ok (magic : bytes) (obj : bytes) : Prop := firstn 4 obj = magic.
Definition cache_ok := tag_ok [0xf4; 0xad; 0xbb; 0xdf].
Definition pubnonce_ok := tag_ok [0xf5; 0x7a; 0x3d; 0xa0].
Definition aggnonce_ok := tag_ok [0xa8; 0xb7; 0xe4; 0x67].
Definition session_ok := tag_ok [0x9d; 0xed; 0xe9; 0x17].
Definition psig_ok := tag_ok [0xeb; 0xfb; 0x1a; 0x32].
(** A secret nonce that has not been used: tag and nonces not all zero. *)
Definition secnonce_ok (sn : bytes) : Prop := tag_ok [0x22; 0x0e; 0xdc; 0xf1] sn /\ firstn 64 (skipn 4 sn) <> repeat 0 64.
(** The 32 bytes of an object from an offset as a coordinate (little endian). *)
Definition coord (off : nat) (obj : bytes) : Z := le_val (firstn 32 (skipn off obj)) mod p.
(** The secret nonce was made for the public key of the key pair: both coordinates agree. *)
Definition nonce_matches (sn kp : bytes) : Prop := coord 68 sn = coord 32 kp /\ coord 100 sn = coord 64 kp.
(** A context with the tables for signing (not the static context). *)
Definition ctx_ok (ctx : context) : Prop := g_built (c_gen ctx) = true.
Definition optional {A} (P : A -> Prop) (o : option A) : Prop := match o with Some v => P v | None => True end.

Definition args_ok (c : api_call) : Prop :=
  match c with
  | Call_context_randomize ctx _ | Call_context_clone ctx _ | Call_context_preallocated_destroy ctx => ctx_ok ctx
  | Call_context_preallocated_clone ctx prealloc => given prealloc /\ ctx_ok ctx
  | Call_context_set_illegal_callback is_static _ _ _ | Call_context_set_error_callback is_static _ _ _ => is_static = false
  | Call_ec_pubkey_serialize out outlen pk flags =>
      to (fun len => len >= if Z.land flags 256 =? 0 then 65 else 33) outlen /\ given out /\ to pk_ok pk /\ Z.land flags 0xFF = 2
  | Call_ec_pubkey_cmp pk0 pk1 | Call_xonly_cmp pk0 pk1 => to pk_ok pk0 /\ to pk_ok pk1
  | Call_ec_pubkey_sort pks _ => to (Forall (to pk_ok)) pks
  | Call_ec_pubkey_parse a b | Call_signature_parse_der a b | Call_signature_parse_compact a b | Call_signature_serialize_compact a b
  | Call_ec_seckey_tweak_add a b | Call_ec_seckey_tweak_mul a b | Call_recoverable_convert a b | Call_xonly_parse a b
  | Call_keypair_sec a b | Call_keypair_pub a b | Call_ellswift_decode a b | Call_musig_pubnonce_parse a b | Call_musig_aggnonce_parse a b
  | Call_musig_partial_sig_parse a b => given a /\ given b
  | Call_signature_serialize_der out outlen sig => given out /\ given outlen /\ given sig
  | Call_signature_normalize _ sigin => given sigin
  | Call_ecdsa_verify sig msg pk => given sig /\ given msg /\ to pk_ok pk
  | Call_ecdsa_sign _ ctx sig msg key _ _ | Call_ecdsa_sign_recoverable _ ctx sig msg key _ _ => ctx_ok ctx /\ given sig /\ given msg /\ given key
  | Call_ec_seckey_verify key | Call_ec_seckey_negate key => given key
  | Call_ec_pubkey_create ctx pk key | Call_keypair_create ctx pk key => ctx_ok ctx /\ given pk /\ given key
  | Call_ec_pubkey_negate pk => to pk_ok pk
  | Call_ec_pubkey_tweak_add pk tweak | Call_ec_pubkey_tweak_mul pk tweak => to pk_ok pk /\ given tweak
  | Call_ec_pubkey_combine out pks => given out /\ to (fun l => l <> [] /\ Forall (to pk_ok) l) pks
  | Call_tagged_sha256 a b c | Call_ecdsa_recover a b c => given a /\ given b /\ given c
  | Call_ecdh out pk key _ => given out /\ to pk_ok pk /\ given key
  | Call_recoverable_parse_compact sig input recid => given sig /\ given input /\ 0 <= recid <= 3
  | Call_recoverable_serialize_compact out recid sig => given out /\ given recid /\ given sig
  | Call_xonly_serialize out pk => given out /\ to pk_ok pk
  | Call_xonly_from_pubkey xpk _ pk => given xpk /\ to pk_ok pk
  | Call_xonly_tweak_add out ipk tweak => given out /\ to pk_ok ipk /\ given tweak
  | Call_xonly_tweak_add_check tweaked _ ipk tweak => given tweaked /\ to pk_ok ipk /\ given tweak
  | Call_keypair_xonly_pub pk _ kp => given pk /\ to kp_pk_ok kp
  | Call_keypair_xonly_tweak_add kp tweak => to kp_ok kp /\ given tweak
  | Call_schnorrsig_sign32 ctx sig msg kp _ => ctx_ok ctx /\ given sig /\ given msg /\ to kp_ok kp
  | Call_schnorrsig_sign_custom ctx sig msg msglen kp extra =>
      ctx_ok ctx /\ given sig /\ (given msg \/ msglen = 0) /\ to kp_ok kp /\ optional (fun ep => ep_magic ep = [0xda; 0x6f; 0xb3; 0x8c]) extra
  | Call_schnorrsig_verify sig msg msglen pk => given sig /\ (given msg \/ msglen = 0) /\ to pk_ok pk
  | Call_ellswift_encode _ ell pk rnd => given ell /\ to pk_ok pk /\ given rnd
  | Call_ellswift_create _ ctx ell key _ => ctx_ok ctx /\ given ell /\ given key
  | Call_ellswift_xdh out ell_a ell_b key _ hash => given out /\ given ell_a /\ given ell_b /\ given key /\ given hash
  | Call_musig_pubkey_agg _ _ pks => to (fun l => l <> [] /\ Forall pk_ok l) pks
  | Call_musig_pubkey_get pk cache => given pk /\ to cache_ok cache
  | Call_musig_pubkey_ec_tweak_add _ cache tweak | Call_musig_pubkey_xonly_tweak_add _ cache tweak => to cache_ok cache /\ given tweak
  | Call_musig_pubnonce_serialize out nonce => given out /\ to pubnonce_ok nonce
  | Call_musig_aggnonce_serialize out nonce => given out /\ to aggnonce_ok nonce
  | Call_musig_partial_sig_serialize out sig => given out /\ to psig_ok sig
  | Call_musig_nonce_gen ctx sn pn rand _ pk _ cache _ => ctx_ok ctx /\ given sn /\ given pn /\ given rand /\ to pk_ok pk /\ optional cache_ok cache
  | Call_musig_nonce_gen_counter ctx sn pn _ kp _ cache _ => ctx_ok ctx /\ given sn /\ given pn /\ to kp_pk_ok kp /\ optional cache_ok cache
  | Call_musig_nonce_agg aggnonce pns => given aggnonce /\ to (fun l => l <> [] /\ Forall pubnonce_ok l) pns
  | Call_musig_nonce_process session aggnonce msg cache => given session /\ to aggnonce_ok aggnonce /\ given msg /\ to cache_ok cache
  | Call_musig_partial_sign psig sn kp cache session =>
      given psig /\ to secnonce_ok sn /\ to kp_ok kp /\ to cache_ok cache /\ to session_ok session /\
      (forall sn' kp', sn = Some sn' -> kp = Some kp' -> nonce_matches sn' kp')
  | Call_musig_partial_sig_verify psig pn pk cache session => to psig_ok psig /\ to pubnonce_ok pn /\ to pk_ok pk /\ to cache_ok cache /\ to session_ok session
  | Call_musig_partial_sig_agg sig session psigs => given sig /\ to session_ok session /\ to (fun l => l <> [] /\ Forall psig_ok l) psigs
  end.

(** The objects that the caller passes have the size of their type, and the output buffer of
    the serialization and the array to sort are as long as the caller says. *)
Definition typed (c : api_call) : Prop :=
  match c with
  | Call_ec_pubkey_serialize out outlen pk _ =>
      optional (bytes_n 64) pk /\ forall out' len, out = Some out' -> outlen = Some len -> len <= Z.of_nat (length out')
  | Call_ec_pubkey_cmp pk0 pk1 | Call_xonly_cmp pk0 pk1 => optional (bytes_n 64) pk0 /\ optional (bytes_n 64) pk1
  | Call_ec_pubkey_sort pks count => optional (fun l => Forall (optional (bytes_n 64)) l /\ (count <= length l)%nat) pks
  | Call_ec_pubkey_combine _ pks => optional (Forall (optional (bytes_n 64))) pks
  | Call_ecdsa_verify _ _ pk | Call_ec_pubkey_negate pk | Call_ec_pubkey_tweak_add pk _ | Call_ec_pubkey_tweak_mul pk _ | Call_ecdh _ pk _ _
  | Call_xonly_serialize _ pk | Call_xonly_from_pubkey _ _ pk | Call_xonly_tweak_add _ pk _ | Call_xonly_tweak_add_check _ _ pk _
  | Call_schnorrsig_verify _ _ _ pk | Call_ellswift_encode _ _ pk _ => optional (bytes_n 64) pk
  | Call_keypair_xonly_pub _ _ kp | Call_keypair_xonly_tweak_add kp _ | Call_schnorrsig_sign32 _ _ _ kp _ => optional (bytes_n 96) kp
  | Call_schnorrsig_sign_custom _ _ _ _ kp extra => optional (bytes_n 96) kp /\ optional (fun ep => bytes_n 4 (ep_magic ep)) extra
  | Call_musig_pubkey_agg _ _ pks => optional (Forall (bytes_n 64)) pks
  | Call_musig_pubkey_get _ cache | Call_musig_pubkey_ec_tweak_add _ cache _ | Call_musig_pubkey_xonly_tweak_add _ cache _ => optional (bytes_n 197) cache
  | Call_musig_pubnonce_serialize _ nonce | Call_musig_aggnonce_serialize _ nonce => optional (bytes_n 132) nonce
  | Call_musig_partial_sig_serialize _ sig => optional (bytes_n 36) sig
  | Call_musig_nonce_gen _ _ _ rand _ pk _ cache _ => optional (bytes_n 32) rand /\ optional (bytes_n 64) pk /\ optional (bytes_n 197) cache
  | Call_musig_nonce_gen_counter _ _ _ _ kp _ cache _ => optional (bytes_n 96) kp /\ optional (bytes_n 197) cache
  | Call_musig_nonce_agg _ pns => optional (Forall (bytes_n 132)) pns
  | Call_musig_nonce_process _ aggnonce _ cache => optional (bytes_n 132) aggnonce /\ optional (bytes_n 197) cache
  | Call_musig_partial_sign _ sn kp cache session => optional (bytes_n 132) sn /\ optional (bytes_n 96) kp /\ optional (bytes_n 197) cache /\ optional (bytes_n 133) session
  | Call_musig_partial_sig_verify psig pn pk cache session =>
      optional (bytes_n 36) psig /\ optional (bytes_n 132) pn /\ optional (bytes_n 64) pk /\ optional (bytes_n 197) cache /\ optional (bytes_n 133) session
  | Call_musig_partial_sig_agg _ session psigs => optional (bytes_n 133) session /\ optional (Forall (bytes_n 36)) psigs
  | _ => True
  end.

(** Four functions reject some calls before they look at the public key (or cache): a high S
    value, a tweak or signature out of range, all-zero randomness.  Such a call returns 0
    without a callback whatever these arguments are. *)
Definition rejected_anyway (c : api_call) : Prop :=
  match c with
  | Call_ecdsa_verify sig msg pk => forall pk', given pk' -> run_call (Call_ecdsa_verify sig msg pk') = Some (0, 0)
  | Call_ec_pubkey_tweak_mul pk tweak => forall pk', given pk' -> run_call (Call_ec_pubkey_tweak_mul pk' tweak) = Some (0, 0)
  | Call_schnorrsig_verify sig msg msglen pk => forall pk', given pk' -> run_call (Call_schnorrsig_verify sig msg msglen pk') = Some (0, 0)
  | Call_musig_nonce_gen ctx sn pn rand sk pk msg cache extra =>
      forall ctx' pn' sk' pk' msg' cache' extra', run_call (Call_musig_nonce_gen ctx' sn pn' rand sk' pk' msg' cache' extra') = Some (0, 0)
  | _ => False
  end.
(** Comparison, sorting, combination and ECDH go on after reporting an invalid key object. *)
Definition goes_on (c : api_call) : Prop :=
  match c with
  | Call_ec_pubkey_cmp _ _ | Call_xonly_cmp _ _ | Call_ec_pubkey_sort _ _ | Call_ec_pubkey_combine _ _ | Call_ecdh _ _ _ _ => True
  | _ => False
  end.
(** A pointer that these functions require (also one inside the array) is NULL, or the array
    is empty. *)
Definition missing (c : api_call) : Prop :=
  match c with
  | Call_ec_pubkey_sort pks _ => ~ given pks
  | Call_ec_pubkey_combine out pks => ~ given out \/ ~ to (fun l => l <> [] /\ Forall given l) pks
  | Call_ecdh out pk key _ => ~ given out \/ ~ (given pk /\ given key)
  | _ => False
  end.

(** The context a call computes with. *)
Definition call_context (c : api_call) : option context :=
  match c with
  | Call_ecdsa_sign _ ctx _ _ _ _ _ | Call_ec_pubkey_create ctx _ _ | Call_ecdsa_sign_recoverable _ ctx _ _ _ _ _ | Call_keypair_create ctx _ _
  | Call_schnorrsig_sign32 ctx _ _ _ _ | Call_schnorrsig_sign_custom ctx _ _ _ _ _ | Call_ellswift_create _ ctx _ _ _
  | Call_musig_nonce_gen ctx _ _ _ _ _ _ _ _ | Call_musig_nonce_gen_counter ctx _ _ _ _ _ _ _ => Some ctx
  | _ => None
  end.

(** ** Contexts in memory (C50) *)

(** A context pointer: secp256k1_context_static or a context the caller has made. *)
Inductive ctx_ptr : Type := Static | Heap (k : nat).
Record world : Type := mkworld { w_static : context; w_heap : nat -> option context }.
Definition upd (h : nat -> option context) (k : nat) (c : option context) : nat -> option context := fun j => if Nat.eqb j k then c else h j.
Definition deref (w : world) (p : ctx_ptr) : option context := match p with Static => Some (w_static w) | Heap k => w_heap w k end.
Definition put (w : world) (p : ctx_ptr) (c : context) : world :=
  match p with Static => mkworld c (w_heap w) | Heap k => mkworld (w_static w) (upd (w_heap w) k (Some c)) end.
Definition is_static (p : ctx_ptr) : bool := match p with Static => true | Heap _ => false end.
Definition init_world : world := mkworld context_static (fun _ => None).
(** Creation and cloning store the new context in place [k]. *)
Inductive ctx_op : Type :=
| Op_create (k : nat) (checkmem : bool) (mem : context) (flags : Z)
| Op_clone (p : ctx_ptr) (k : nat) (mem : context)
| Op_randomize (p : ctx_ptr) (seed : ptr)
| Op_set_illegal (p : ctx_ptr) (fn data : Z)
| Op_set_error (p : ctx_ptr) (fn data : Z)
| Op_destroy (p : ctx_ptr)
| Op_other (p : ctx_ptr) (call : context -> api_call).
(** One operation; [None]: the pointer is dangling.  All the other functions of the API take
    the context as a pointer to const and the model gives them no way to change it. *)
Definition step (w : world) (op : ctx_op) : option world :=
  match op with
  | Op_create k checkmem mem flags => Some (mkworld (w_static w) (upd (w_heap w) k (context_create checkmem mem flags)))
  | Op_clone p k mem => match deref w p with Some c => Some (mkworld (w_static w) (upd (w_heap w) k (r_out (context_clone c mem)))) | None => None end
  | Op_randomize p seed => match deref w p with Some c => Some (put w p (r_out (context_randomize c seed))) | None => None end
  | Op_set_illegal p fn data => match deref w p with Some c => Some (put w p (r_out (context_set_illegal_callback (is_static p) c fn data))) | None => None end
  | Op_set_error p fn data => match deref w p with Some c => Some (put w p (r_out (context_set_error_callback (is_static p) c fn data))) | None => None end
  | Op_destroy p =>
      match deref w p with
      | Some c =>
          if r_ill (context_preallocated_destroy c) =? 0
          then match p with Static => Some (mkworld (r_out (context_preallocated_destroy c)) (w_heap w)) | Heap k => Some (mkworld (w_static w) (upd (w_heap w) k None)) end
          else Some w
      | None => None
      end
  | Op_other p call => match deref w p with Some c => Some w | None => None end
  end.
Fixpoint run_ops (ops : list ctx_op) (w : world) : option world :=
  match ops with [] => Some w | op :: ops' => match step w op with Some w' => run_ops ops' w' | None => None end end.
(** Seeds have 32 bytes. *)
Definition op_ok (op : ctx_op) : Prop := match op with Op_randomize _ seed => forall s, seed = Some s -> bytes_n 32 s | _ => True end.
(** The operation stores a new context in place [k]. *)
Definition makes (op : ctx_op) (k : nat) : Prop := match op with Op_create j _ _ _ | Op_clone _ j _ => j = k | _ => False end.
(** The last value that the operations set, or the initial one. *)
Fixpoint last_set {A} (sets : ctx_op -> option A) (ops : list ctx_op) (v : A) : A :=
  match ops with [] => v | op :: ops' => last_set sets ops' (match sets op with Some v' => v' | None => v end) end.
Definition sets_illegal (k : nat) (op : ctx_op) : option callback :=
  match op with Op_set_illegal (Heap j) fn data => if Nat.eqb j k then Some (mkcb fn data) else None | _ => None end.
Definition sets_error (k : nat) (op : ctx_op) : option callback :=
  match op with Op_set_error (Heap j) fn data => if Nat.eqb j k then Some (mkcb fn data) else None | _ => None end.
