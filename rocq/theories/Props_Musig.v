(** MuSig2: C28, C29, C30, C49, C51, and C19 for nonce generation.  The vocabulary is in
    SpecMusig.v (BIP 327) and MusigVocab.v (sessions and histories of API calls). *)
Require Import ZArith List Bool.
From Verif Require Import Spec SpecApi SpecHash SpecBip340 SpecMusig GenModel ApiModel ApiVocab ExtrakeysModel SchnorrModel MusigModel MusigVocab.
From Verif Require Import KeyProps2 SchnorrProps MusigProof MusigProof3 MusigProof4 MusigProof5 MusigProof6 MusigProps MusigWitness.
Import ListNotations.
Local Open Scope Z_scope.

(** C28: any number of signers who follow the API (each with their own nonces, their own key
    aggregation cache with the same tweaks and their own session) produce partial signatures
    whose aggregate is accepted by secp256k1_schnorrsig_verify under the tweaked aggregate
    key.  Excluded, because BIP 327 excludes it too: an aggregate key that is infinity, and a
    final nonce R1 + b R2 that is infinity (the code then signs with the generator in its
    place). *)
Theorem C28_aggregate_verifies ctx signers tws m an0 an i0 cache session0 session i1 sig0 sig i2 pk0 aggpk i3 x0 par xpk o i4 :
  let pks := map sg_pk signers in let Ps := map (fun s => pmul (sg_d s) G) signers in
  usable_context ctx -> 33 * Z.of_nat (length signers) < 2 ^ 61 - 64 -> bytes_n 32 m -> key_agg Ps <> Inf ->
  musig_nonce_agg (Some an0) (Some (map sg_pn signers)) = mkres 1 i0 (Some an) ->
  Forall (honest_signer ctx pks tws m an) signers ->
  agg_history pks cache tws ->
  musig_nonce_process (Some session0) (Some an) (Some m) (Some cache) = mkres 1 i1 (Some session) ->
  musig_partial_sig_agg (Some sig0) (Some session) (Some (map sg_psig signers)) = mkres 1 i2 (Some sig) ->
  musig_pubkey_get (Some pk0) (Some cache) = mkres 1 i3 (Some aggpk) ->
  xonly_pubkey_from_pubkey (Some x0) par (Some aggpk) = mkres 1 i4 (Some xpk, o) ->
  (forall Q R1 R2, pubkey_holds aggpk Q -> aggnonce_holds an R1 R2 -> nonce_sum R1 R2 (nonce_coef R1 R2 Q m) <> Inf) ->
  schnorrsig_verify (Some sig) (Some m) 32 (Some xpk) = mkres 1 0 tt.
Proof. exact (musig_end_to_end ctx signers tws m an0 an i0 cache session0 session i1 sig0 sig i2 pk0 aggpk i3 x0 par xpk o i4). Qed.
Print Assumptions C28_aggregate_verifies.
(** A session of two signers with a plain and an x-only tweak that meets all hypotheses. *)
Example C28_example : exists signers an cache session sig aggpk xpk, length signers = 2%nat /\ w_session_goal w_ctx signers w_tweaks w_message an cache session sig aggpk xpk.
Proof. exact w_session. Qed.
(** C28: each call of the session computes what BIP 327 says. *)
Theorem C28_nonce_gen_exact ctx sn0 pn0 rand sk pk P m cache aggpk extra :
  usable_context ctx -> bytes_n 32 rand -> rand <> repeat 0 32 -> opt_bytes 32 sk -> pubkey_holds pk P -> opt_bytes 32 m -> cache_arg cache aggpk -> opt_bytes 32 extra ->
  let k1 := nonce_gen_k rand sk (cbytes P) aggpk m extra 0 in let k2 := nonce_gen_k rand sk (cbytes P) aggpk m extra 1 in
  k1 <> 0 -> k2 <> 0 ->
  exists sn pn, pubnonce_holds pn (pmul k1 G) (pmul k2 G) /\
    ((sk_valid sk /\ secnonce_holds sn k1 k2 P /\ musig_nonce_gen ctx (Some sn0) (Some pn0) (Some rand) sk (Some pk) m cache extra = mkres 1 0 (Some sn, Some pn, Some (repeat 0 32))) \/
     (~ sk_valid sk /\ musig_nonce_gen ctx (Some sn0) (Some pn0) (Some rand) sk (Some pk) m cache extra = mkres 0 0 (Some (repeat 0 132), Some pn, Some rand))).
Proof. exact (nonce_gen_ok ctx sn0 pn0 rand sk pk P m cache aggpk extra). Qed.
Print Assumptions C28_nonce_gen_exact.
Example C28_example_nonce_gen : usable_context w_ctx /\ bytes_n 32 (repeat 1 32) /\ repeat 1 32 <> repeat 0 32 /\ pubkey_holds w_pk G /\
  forall i, i = 0 \/ i = 1 -> nonce_gen_k (repeat 1 32) (Some (w_key 1)) (cbytes G) None None None i <> 0.
Proof. exact (conj w_ctx_ok (conj (proj1 w_rand) (conj (proj2 w_rand) (conj w_pk_ok w_nonces)))). Qed.
(** C28: all-zero session randomness is refused. *)
Theorem C28_nonce_gen_zero_rand ctx sn0 pn0 sk pk m cache extra :
  musig_nonce_gen ctx (Some sn0) pn0 (Some (repeat 0 32)) sk pk m cache extra = mkres 0 0 (Some (repeat 0 132), pn0, Some (repeat 0 32)).
Proof. exact (nonce_gen_zero ctx sn0 pn0 sk pk m cache extra). Qed.
Print Assumptions C28_nonce_gen_zero_rand.
Theorem C28_nonce_gen_counter_exact ctx sn0 pn0 cnt kp d m cache aggpk extra :
  usable_context ctx -> 0 <= cnt < 2 ^ 64 -> keypair_holds kp d -> opt_bytes 32 m -> cache_arg cache aggpk -> opt_bytes 32 extra ->
  let rand := be_bytes 8 cnt ++ repeat 0 24 in let P := pmul d G in let sk := Some (be_bytes 32 d) in
  let k1 := nonce_gen_k rand sk (cbytes P) aggpk m extra 0 in let k2 := nonce_gen_k rand sk (cbytes P) aggpk m extra 1 in
  k1 <> 0 -> k2 <> 0 ->
  exists sn pn, pubnonce_holds pn (pmul k1 G) (pmul k2 G) /\ secnonce_holds sn k1 k2 P /\
    musig_nonce_gen_counter ctx (Some sn0) (Some pn0) cnt (Some kp) m cache extra = mkres 1 0 (Some sn, Some pn).
Proof. exact (nonce_gen_counter_ok ctx sn0 pn0 cnt kp d m cache aggpk extra). Qed.
Print Assumptions C28_nonce_gen_counter_exact.
Example C28_example_counter : keypair_holds (w_kp 1) 1 /\ forall i, i = 0 \/ i = 1 -> nonce_gen_k (be_bytes 8 3 ++ repeat 0 24) (Some (be_bytes 32 1)) (cbytes (pmul 1 G)) None None None i <> 0.
Proof. exact (conj (proj2 (w_kp_ok 1 w_1)) w_nonces_counter). Qed.
Theorem C28_nonce_agg_exact an0 pns Rs : Forall2 (fun pn R => pubnonce_holds pn (fst R) (snd R)) pns Rs -> Rs <> [] ->
  exists an, musig_nonce_agg (Some an0) (Some pns) = mkres 1 0 (Some an) /\ aggnonce_holds an (psum (map fst Rs)) (psum (map snd Rs)).
Proof. exact (nonce_agg_ok an0 pns Rs). Qed.
Print Assumptions C28_nonce_agg_exact.
Example C28_example_nonce_agg : exists an, musig_nonce_agg (Some []) (Some [w_pubnonce G G; w_pubnonce G w_neg]) = mkres 1 0 (Some an) /\ aggnonce_holds an (pmul 2 G) Inf.
Proof. exact w_aggnonce. Qed.
Theorem C28_nonce_process_exact s0 an cache m Ps c R1 R2 : cache_holds cache Ps c -> aggnonce_holds an R1 R2 -> bytes_n 32 m ->
  exists obj, musig_nonce_process (Some s0) (Some an) (Some m) (Some cache) = mkres 1 0 (Some obj) /\ session_holds obj (session_of c R1 R2 m).
Proof. exact (nonce_process_ok s0 an cache m Ps c R1 R2). Qed.
Print Assumptions C28_nonce_process_exact.
(** C28: signing succeeds exactly if the key pair is the one the secret nonce was made for. *)
Theorem C28_partial_sign_exact ps0 sn k1 k2 P kp d cache Ps c obj s : secnonce_holds sn k1 k2 P -> keypair_holds kp d -> cache_holds cache Ps c -> session_holds obj s ->
  (P = pmul d G /\ exists ps, musig_partial_sign (Some ps0) (Some sn) (Some kp) (Some cache) (Some obj) = mkres 1 0 (Some ps, Some (repeat 0 132)) /\
     psig_holds ps (partial_sig Ps c s k1 k2 d)) \/
  (P <> pmul d G /\ musig_partial_sign (Some ps0) (Some sn) (Some kp) (Some cache) (Some obj) = mkres 0 1 (Some ps0, Some (repeat 0 132))).
Proof. exact (partial_sign_ok ps0 sn k1 k2 P kp d cache Ps c obj s). Qed.
Print Assumptions C28_partial_sign_exact.
Example C28_example_objects : secnonce_holds (w_secnonce 1 (n - 1) w_neg) 1 (n - 1) w_neg /\ exists cache c session s, cache_holds cache [G; w_neg] c /\ session_holds session s.
Proof. exact (conj w_sn2 w_parts). Qed.
Theorem C28_partial_sig_agg_exact sig0 obj s pss vs : session_holds obj s -> Forall2 psig_holds pss vs -> vs <> [] ->
  musig_partial_sig_agg (Some sig0) (Some obj) (Some pss) = mkres 1 0 (Some (aggregate_sig s vs)).
Proof. exact (partial_agg_ok sig0 obj s pss vs). Qed.
Print Assumptions C28_partial_sig_agg_exact.

(** C29: a partial signature is accepted iff it satisfies the verification equation. *)
Theorem C29_verify_exact ps v pn R1 R2 pk P cache Ps c obj s : psig_holds ps v -> pubnonce_holds pn R1 R2 -> pubkey_holds pk P -> cache_holds cache Ps c -> session_holds obj s ->
  (partial_sig_valid Ps c s R1 R2 P v /\ musig_partial_sig_verify (Some ps) (Some pn) (Some pk) (Some cache) (Some obj) = mkres 1 0 tt) \/
  (~ partial_sig_valid Ps c s R1 R2 P v /\ musig_partial_sig_verify (Some ps) (Some pn) (Some pk) (Some cache) (Some obj) = mkres 0 0 tt).
Proof. exact (partial_verify_ok ps v pn R1 R2 pk P cache Ps c obj s). Qed.
Print Assumptions C29_verify_exact.
(** C29: what an honest signer's musig_partial_sign produced is accepted. *)
Theorem C29_honest_accepted ctx kp d pk sn pn cache Ps c obj s ps0 ps o i : usable_context ctx -> keypair_holds kp d -> pubkey_holds pk (pmul d G) -> made_nonce ctx kp d pk sn pn ->
  cache_holds cache Ps c -> session_holds obj s -> musig_partial_sign (Some ps0) (Some sn) (Some kp) (Some cache) (Some obj) = mkres 1 i (Some ps, o) ->
  musig_partial_sig_verify (Some ps) (Some pn) (Some pk) (Some cache) (Some obj) = mkres 1 0 tt.
Proof. exact (prop_honest_accepted ctx kp d pk sn pn cache Ps c obj s ps0 ps o i). Qed.
Print Assumptions C29_honest_accepted.
(** C29: at most one partial signature is accepted for a signer, nonce and session. *)
Theorem C29_unique ps ps' v v' pn R1 R2 pk P cache Ps c obj s : psig_holds ps v -> psig_holds ps' v' -> pubnonce_holds pn R1 R2 -> pubkey_holds pk P -> cache_holds cache Ps c -> session_holds obj s ->
  r_ret (musig_partial_sig_verify (Some ps) (Some pn) (Some pk) (Some cache) (Some obj)) = 1 -> r_ret (musig_partial_sig_verify (Some ps') (Some pn) (Some pk) (Some cache) (Some obj)) = 1 -> ps = ps'.
Proof. exact (prop_psig_unique ps ps' v v' pn R1 R2 pk P cache Ps c obj s). Qed.
Print Assumptions C29_unique.
Example C29_example : psig_holds ([0xeb; 0xfb; 0x1a; 0x32] ++ be_bytes 32 7) 7 /\ pubnonce_holds (w_pubnonce G w_neg) G w_neg /\ pubkey_holds w_mpk w_neg /\
  exists cache c session s, cache_holds cache [G; w_neg] c /\ session_holds session s.
Proof. exact (conj w_psig (conj w_pn2 (conj w_mpk_ok w_parts))). Qed.

(** C30: whatever the arguments and the outcome, a secnonce object is all zero after
    secp256k1_musig_partial_sign. *)
Theorem C30_sign_zeroes ps sn kp cache session : snd (r_out (musig_partial_sign ps (Some sn) kp cache session)) = Some (repeat 0 132).
Proof. exact (sign_zeroes ps sn kp cache session). Qed.
Print Assumptions C30_sign_zeroes.
(** C30: signing with a zeroed object produces nothing and calls the illegal callback. *)
Theorem C30_zeroed_refused ps kp cache session : musig_partial_sign ps (Some (repeat 0 132)) kp cache session = mkres 0 1 (ps, Some (repeat 0 132)).
Proof. exact (sign_dead ps kp cache session). Qed.
Print Assumptions C30_zeroed_refused.
(** C30: in every history of calls of nonce generation and signing on one object that starts
    zeroed, with any arguments, at most as many calls sign as calls have generated; and
    without generation, whatever the object holds at first, at most one call signs. *)
Theorem C30_history ops : (signed (run_ops (repeat 0%Z 132) ops) <= generated (run_ops (repeat 0%Z 132) ops))%nat.
Proof. exact (prop_signed_from_zero ops). Qed.
Print Assumptions C30_history.
Theorem C30_at_most_once sn ops : Forall (fun o => is_sign o = true) ops -> (signed (run_ops sn ops) <= 1)%nat.
Proof. exact (prop_signs_at_most_once sn ops). Qed.
Print Assumptions C30_at_most_once.
(** The first call signs, the second one returns 0 and calls the illegal callback. *)
Example C30_example : exists cache session sn0,
  map (fun x => (is_sign (fst x), fst (fst (fst (snd x))), snd (fst (fst (snd x))))) (run_ops sn0 [Op_sign (Some []) (Some (w_kp 1)) (Some cache) (Some session); Op_sign (Some []) (Some (w_kp 1)) (Some cache) (Some session)]) = [(true, 1, 0); (true, 0, 1)].
Proof. exact w_nonce_run. Qed.

(** C49: key aggregation returns the sum of coefficient times key. *)
Theorem C49_pubkey_agg_exact agg cache pks Ps : Forall2 pubkey_holds pks Ps -> Ps <> [] -> 33 * Z.of_nat (length Ps) < 2 ^ 61 - 64 -> key_agg Ps <> Inf ->
  exists xpk cache', musig_pubkey_agg agg cache (Some pks) =
    mkres 1 0 (match agg with Some _ => Some xpk | None => None end, match cache with Some _ => Some cache' | None => None end) /\
    xonly_holds xpk (even_y (key_agg Ps)) /\ cache_holds cache' Ps (agg_start Ps).
Proof. exact (pubkey_agg_ok agg cache pks Ps). Qed.
Print Assumptions C49_pubkey_agg_exact.
(** C49: one tweak, exactly; a failing tweak leaves the cache as it was and zeroes the output
    key. *)
Theorem C49_ec_tweak_exact out cache Ps c tw : cache_holds cache Ps c -> bytes_n 32 tw ->
  match apply_tweak c (be_val tw) false with
  | Some c' => exists pk cache', musig_pubkey_ec_tweak_add out (Some cache) (Some tw) =
      mkres 1 0 (match out with Some _ => Some pk | None => None end, Some cache') /\ pubkey_holds pk (ac_Q c') /\ cache_holds cache' Ps c'
  | None => musig_pubkey_ec_tweak_add out (Some cache) (Some tw) =
      mkres 0 0 (match out with Some _ => Some (repeat 0 64) | None => None end, Some cache)
  end.
Proof. exact (tweak_add_ok out cache Ps c tw false). Qed.
Print Assumptions C49_ec_tweak_exact.
Theorem C49_xonly_tweak_exact out cache Ps c tw : cache_holds cache Ps c -> bytes_n 32 tw ->
  match apply_tweak c (be_val tw) true with
  | Some c' => exists pk cache', musig_pubkey_xonly_tweak_add out (Some cache) (Some tw) =
      mkres 1 0 (match out with Some _ => Some pk | None => None end, Some cache') /\ pubkey_holds pk (ac_Q c') /\ cache_holds cache' Ps c'
  | None => musig_pubkey_xonly_tweak_add out (Some cache) (Some tw) =
      mkres 0 0 (match out with Some _ => Some (repeat 0 64) | None => None end, Some cache)
  end.
Proof. exact (tweak_add_ok out cache Ps c tw true). Qed.
Print Assumptions C49_xonly_tweak_exact.
(** C49: after key aggregation and any sequence of successful tweaks the cache holds
    Q = g Q0 + t G, and musig_pubkey_get returns that Q. *)
Theorem C49_tweak_history pks Ps cache tws : Forall2 pubkey_holds pks Ps -> 33 * Z.of_nat (length Ps) < 2 ^ 61 - 64 -> key_agg Ps <> Inf -> agg_history pks cache tws ->
  exists Q g t, apply_tweaks (agg_start Ps) (tweak_vals tws) = Some (mkaggctx Q g t) /\ cache_holds cache Ps (mkaggctx Q g t) /\
    (g = 1 \/ g = -1) /\ 0 <= t < n /\ Q <> Inf /\ Q = padd (pmul g (key_agg Ps)) (pmul t G) /\
    forall init, exists pk, musig_pubkey_get (Some init) (Some cache) = mkres 1 0 (Some pk) /\ pubkey_holds pk Q.
Proof. exact (prop_history pks Ps cache tws). Qed.
Print Assumptions C49_tweak_history.
Example C49_example : Forall2 pubkey_holds w_keys [G; w_neg] /\ key_agg [G; w_neg] <> Inf /\ exists cache c, agg_history w_keys cache [(w_key 5, false); (w_key 7, true)] /\ cache_holds cache [G; w_neg] c.
Proof. exact (conj w_keys_ok (conj w_agg_nz w_history)). Qed.

(** C51: exactly the concatenations of two compressed curve points parse as a public nonce;
    the object is left alone otherwise. *)
Theorem C51_pubnonce_parse_exact init inp : bytes_n 66 inp ->
  (exists R1 R2 pn, key_point R1 /\ key_point R2 /\ inp = cbytes R1 ++ cbytes R2 /\ musig_pubnonce_parse (Some init) (Some inp) = mkres 1 0 (Some pn) /\ pubnonce_holds pn R1 R2) \/
  ((~ exists R1 R2, key_point R1 /\ key_point R2 /\ inp = cbytes R1 ++ cbytes R2) /\ musig_pubnonce_parse (Some init) (Some inp) = mkres 0 0 (Some init)).
Proof. exact (pubnonce_parse_ok init inp). Qed.
Print Assumptions C51_pubnonce_parse_exact.
(** C51: aggregate nonces may also contain infinity, as 33 zero bytes. *)
Theorem C51_aggnonce_parse_exact init inp : bytes_n 66 inp ->
  (exists R1 R2 an, on_curve R1 /\ on_curve R2 /\ inp = cbytes R1 ++ cbytes R2 /\ musig_aggnonce_parse (Some init) (Some inp) = mkres 1 0 (Some an) /\ aggnonce_holds an R1 R2) \/
  ((~ exists R1 R2, on_curve R1 /\ on_curve R2 /\ inp = cbytes R1 ++ cbytes R2) /\ musig_aggnonce_parse (Some init) (Some inp) = mkres 0 0 (Some init)).
Proof. exact (aggnonce_parse_ok init inp). Qed.
Print Assumptions C51_aggnonce_parse_exact.
Theorem C51_partial_sig_parse_exact init inp : bytes_n 32 inp ->
  (be_val inp < n /\ exists ps, musig_partial_sig_parse (Some init) (Some inp) = mkres 1 0 (Some ps) /\ psig_holds ps (be_val inp)) \/
  (n <= be_val inp /\ musig_partial_sig_parse (Some init) (Some inp) = mkres 0 0 (Some (repeat 0 36))).
Proof. exact (psig_parse_ok init inp). Qed.
Print Assumptions C51_partial_sig_parse_exact.
(** C51: what parses serializes to the same bytes. *)
Theorem C51_pubnonce_roundtrip init inp out pn i : bytes_n 66 inp -> musig_pubnonce_parse (Some init) (Some inp) = mkres 1 i (Some pn) -> musig_pubnonce_serialize (Some out) (Some pn) = mkres 1 0 (Some inp).
Proof. exact (prop_pubnonce_roundtrip init inp out pn i). Qed.
Print Assumptions C51_pubnonce_roundtrip.
Theorem C51_aggnonce_roundtrip init inp out an i : bytes_n 66 inp -> musig_aggnonce_parse (Some init) (Some inp) = mkres 1 i (Some an) -> musig_aggnonce_serialize (Some out) (Some an) = mkres 1 0 (Some inp).
Proof. exact (prop_aggnonce_roundtrip init inp out an i). Qed.
Print Assumptions C51_aggnonce_roundtrip.
Theorem C51_partial_sig_roundtrip init inp out ps i : bytes_n 32 inp -> musig_partial_sig_parse (Some init) (Some inp) = mkres 1 i (Some ps) -> musig_partial_sig_serialize (Some out) (Some ps) = mkres 1 0 (Some inp).
Proof. exact (prop_psig_roundtrip init inp out ps i). Qed.
Print Assumptions C51_partial_sig_roundtrip.
(** C51: and what is serialized parses to the same object. *)
Theorem C51_pubnonce_reparse init out pn R1 R2 : pubnonce_holds pn R1 R2 ->
  musig_pubnonce_serialize (Some out) (Some pn) = mkres 1 0 (Some (cbytes R1 ++ cbytes R2)) /\ musig_pubnonce_parse (Some init) (Some (cbytes R1 ++ cbytes R2)) = mkres 1 0 (Some pn).
Proof. exact (prop_pubnonce_reparse init out pn R1 R2). Qed.
Print Assumptions C51_pubnonce_reparse.
Theorem C51_aggnonce_reparse init out an R1 R2 : aggnonce_holds an R1 R2 ->
  musig_aggnonce_serialize (Some out) (Some an) = mkres 1 0 (Some (cbytes R1 ++ cbytes R2)) /\ musig_aggnonce_parse (Some init) (Some (cbytes R1 ++ cbytes R2)) = mkres 1 0 (Some an).
Proof. exact (prop_aggnonce_reparse init out an R1 R2). Qed.
Print Assumptions C51_aggnonce_reparse.
Example C51_example : (pubnonce_holds (w_pubnonce G w_neg) G w_neg) /\ bytes_n 66 (cbytes G ++ cbytes w_neg) /\ bytes_n 66 (repeat 0 33 ++ cbytes G) /\ bytes_n 32 (be_bytes 32 n).
Proof. exact (conj w_pn2 w_parse66). Qed.

(** C19: nonce generation does not depend on the context's history. *)
Theorem C19_musig_nonce_gen_blinding ctx ctx' sn0 pn0 rand sk pk P m cache aggpk extra : usable_context ctx -> usable_context ctx' ->
  bytes_n 32 rand -> opt_bytes 32 sk -> pubkey_holds pk P -> opt_bytes 32 m -> cache_arg cache aggpk -> opt_bytes 32 extra ->
  (forall i, i = 0 \/ i = 1 -> nonce_gen_k rand sk (cbytes P) aggpk m extra i <> 0) ->
  musig_nonce_gen ctx (Some sn0) (Some pn0) (Some rand) sk (Some pk) m cache extra = musig_nonce_gen ctx' (Some sn0) (Some pn0) (Some rand) sk (Some pk) m cache extra.
Proof. exact (prop_nonce_gen_blinding ctx ctx' sn0 pn0 rand sk pk P m cache aggpk extra). Qed.
Print Assumptions C19_musig_nonce_gen_blinding.
Theorem C19_musig_nonce_gen_counter_blinding ctx ctx' sn0 pn0 cnt kp d m cache aggpk extra : usable_context ctx -> usable_context ctx' ->
  0 <= cnt < 2 ^ 64 -> keypair_holds kp d -> opt_bytes 32 m -> cache_arg cache aggpk -> opt_bytes 32 extra ->
  (forall i, i = 0 \/ i = 1 -> nonce_gen_k (be_bytes 8 cnt ++ repeat 0 24) (Some (be_bytes 32 d)) (cbytes (pmul d G)) aggpk m extra i <> 0) ->
  musig_nonce_gen_counter ctx (Some sn0) (Some pn0) cnt (Some kp) m cache extra = musig_nonce_gen_counter ctx' (Some sn0) (Some pn0) cnt (Some kp) m cache extra.
Proof. exact (prop_nonce_gen_counter_blinding ctx ctx' sn0 pn0 cnt kp d m cache aggpk extra). Qed.
Print Assumptions C19_musig_nonce_gen_counter_blinding.
Example C19_example_musig : usable_context w_ctx /\ usable_context (r_out (context_randomize (r_out (context_randomize w_ctx (Some (w_key 77)))) None)) /\
  bytes_n 32 (repeat 1 32) /\ pubkey_holds w_pk G /\ forall i, i = 0 \/ i = 1 -> nonce_gen_k (repeat 1 32) (Some (w_key 1)) (cbytes G) None None None i <> 0.
Proof. exact (conj (proj1 w_randomized) (conj (proj2 w_randomized) (conj (proj1 w_rand) (conj w_pk_ok w_nonces)))). Qed.
