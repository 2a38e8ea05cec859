(** Property lemmas for x-only keys, key pairs and Schnorr signatures. *)
Require Import ZArith List Bool Lia String.
From Verif Require Import NumTheory Spec SpecApi SpecHash SpecBip340 SpecSort Primes ZmField Curve NField Word Bytes.
From Verif Require Import FieldModel ScalarModel GroupModel GenModel GenProof EcmultProof EcdsaModel ApiModel ApiVocab ApiProof ApiProof2 ApiProof3 EcdsaProof EcdsaProof2 KeyProps KeyProps2 SortProof.
From Verif Require Import ExtrakeysModel ExtrakeysProof SchnorrModel SchnorrVocab SchnorrProof.
Import ListNotations.
Local Open Scope Z_scope.
Local Notation length := List.length.
Local Opaque p n SHA256 be_bytes tagged_hash pmul.

Lemma is_message_ok msg len m : is_message msg len m -> msg_ok msg len = true /\ msg_bytes msg len = m /\ byte_list m.
Proof.
  intros (B & -> & [[-> ->]|[rest ->]]); [auto|]. split; [reflexivity|]. split; [|exact B]. unfold msg_bytes. rewrite Nat2Z.id. now apply fn_app_exact.
Qed.
Lemma algo_ok : byte_list algo_bytes /\ Z.of_nat (length algo_bytes) < 2 ^ 61.
Proof. split; [|reflexivity]. unfold algo_bytes. cbn. repeat constructor; lia. Qed.
Lemma bytes32 v : bytes_n 32 (be_bytes 32 v). Proof. split; [apply be_bytes_byte_list|apply be_bytes_length]. Qed.
Lemma bip340_nonce_ok m d nd : byte_list m -> Z.of_nat (length m) < 2 ^ 61 - 128 -> opt_bytes 32 nd ->
  sign_nonce None m d nd = (1, bip340_nonce d m (match nd with Some a => a | None => repeat 0 32 end)).
Proof.
  intros B L H. unfold sign_nonce. cbn [the_hnonce]. destruct algo_ok as [A1 A2]. unfold algo_bytes in A1, A2.
  rewrite nonce_bip340_ok by (assumption || apply bytes32). unfold bip340_nonce, xor_bytes, even_sec. reflexivity.
Qed.
Lemma assumption_nonce nf nd m d : nonce_assumption nf nd -> byte_list m -> Z.of_nat (length m) < 2 ^ 61 - 128 -> bytes_n 32 (snd (sign_nonce nf m d nd)).
Proof.
  intros H B L.
  assert (D : opt_bytes 32 nd -> bytes_n 32 (snd (sign_nonce None m d nd))) by (intros HD; rewrite bip340_nonce_ok by assumption; cbn [snd]; apply tagged_bytes).
  destruct nf as [f|]; [|exact (D H)]. destruct H as [[-> HD]|H]; [exact (D HD)|]. apply H.
Qed.
Lemma custom_eq ctx sig msg len kp extra : extra_magic extra ->
  schnorrsig_sign_custom ctx sig msg len kp extra = schnorrsig_sign_internal ctx sig msg len kp (extra_nf extra) (extra_nd extra).
Proof. intros H. destruct extra as [ep|]; [|reflexivity]. unfold schnorrsig_sign_custom. rewrite (H ep eq_refl). reflexivity. Qed.

Lemma prop_sign_exact ctx init msg len m kp d extra nret nonce : usable_context ctx -> is_message msg len m -> Z.of_nat (length m) < 2 ^ 61 - 128 -> keypair_holds kp d ->
  extra_magic extra ->
  let P := pmul d G in
  (match extra_nf extra with Some f => f | None => nonce_function_bip340 end) (repeat 0 32) m
     (be_bytes 32 (if Z.odd (ycoord P) then n - d else d)) (be_bytes 32 (xcoord P)) (Some algo_bytes) (extra_nd extra) = (nret, nonce) -> bytes_n 32 nonce ->
  schnorrsig_sign_custom ctx (Some init) msg len (Some kp) extra =
    match (if nret =? 0 then None else bip340_sign_with d m (be_val nonce mod n)) with
    | Some sig => mkres 1 0 (Some sig)
    | None => mkres 0 0 (Some (repeat 0 64))
    end.
Proof.
  intros HC HM LM HK HX P EN BN. rewrite custom_eq by exact HX. destruct (is_message_ok _ _ _ HM) as (A & B & C).
  pose proof (sign_ok ctx init msg len kp d (extra_nf extra) (extra_nd extra) HC A HK) as S0. cbv zeta in S0. rewrite B in S0. apply S0; [exact C|exact LM| |exact BN].
  unfold sign_nonce, the_hnonce, even_sec. destruct (extra_nf extra); exact EN.
Qed.
Lemma sign_cases ctx init msg len m kp d nf nd : usable_context ctx -> is_message msg len m -> Z.of_nat (length m) < 2 ^ 61 - 128 -> keypair_holds kp d -> nonce_assumption nf nd ->
  (exists k sig, 0 <= k < n /\ bip340_sign_with d m k = Some sig /\ schnorrsig_sign_internal ctx (Some init) msg len (Some kp) nf nd = mkres 1 0 (Some sig)) \/
  schnorrsig_sign_internal ctx (Some init) msg len (Some kp) nf nd = mkres 0 0 (Some (repeat 0 64)).
Proof.
  intros HC HM LM HK HN. destruct (is_message_ok _ _ _ HM) as (A & B & C).
  pose proof (assumption_nonce nf nd m d HN C LM) as BN. destruct (sign_nonce nf m d nd) as [nret nonce] eqn:E. cbn [snd] in BN.
  pose proof (sign_ok ctx init msg len kp d nf nd HC A HK) as S0. cbv zeta in S0. rewrite B in S0. specialize (S0 C LM _ _ E BN).
  destruct (nret =? 0); [right; exact S0|]. destruct (bip340_sign_with d m (be_val nonce mod n)) as [sig|] eqn:ES; [|right; exact S0].
  left. exists (be_val nonce mod n), sig. split; [apply Z.mod_pos_bound; reflexivity|auto].
Qed.
Lemma internal_verifies ctx init msg len m kp d nf nd ret ill sig i par par' xpk : usable_context ctx -> is_message msg len m -> Z.of_nat (length m) < 2 ^ 61 - 128 -> keypair_holds kp d -> nonce_assumption nf nd ->
  schnorrsig_sign_internal ctx (Some init) msg len (Some kp) nf nd = mkres ret ill (Some sig) -> ret <> 0 ->
  keypair_xonly_pub (Some i) par (Some kp) = mkres 1 0 (Some xpk, par') ->
  schnorrsig_verify (Some sig) msg len (Some xpk) = mkres 1 0 tt.
Proof.
  intros HC HM LM HK HN ES NR EX. destruct (sign_cases ctx init msg len m kp d nf nd HC HM LM HK HN) as [(k & sig' & Rk & E & E')|E']; rewrite E' in ES.
  2: { congruence. }
  assert (sig' = sig) by congruence. subst sig'. destruct (sign_with_valid d m k sig (proj1 HK) Rk E) as [V B].
  destruct (keypair_xonly_ok i par kp d HK) as (xpk' & E2 & H2 & _). rewrite E2 in EX. assert (xpk' = xpk) by congruence. subst xpk'.
  destruct (is_message_ok _ _ _ HM) as (A & EB & C).
  assert (MP : msg <> None \/ len = 0) by (destruct HM as (_ & -> & [[-> ->]|[rest ->]]); [right; reflexivity|left; discriminate]).
  pose proof (verify_ok sig msg len xpk (even_y (pmul d G)) B MP) as W. cbv zeta in W. rewrite EB in W. destruct (W C LM H2) as [[_ W']|[W' _]]; [exact W'|contradiction].
Qed.
Lemma prop_custom_verifies ctx init msg len m kp d extra ret ill sig i par par' xpk : usable_context ctx -> is_message msg len m -> Z.of_nat (length m) < 2 ^ 61 - 128 -> keypair_holds kp d ->
  nonce_assumption (extra_nf extra) (extra_nd extra) ->
  schnorrsig_sign_custom ctx (Some init) msg len (Some kp) extra = mkres ret ill (Some sig) -> ret <> 0 ->
  keypair_xonly_pub (Some i) par (Some kp) = mkres 1 0 (Some xpk, par') ->
  schnorrsig_verify (Some sig) msg len (Some xpk) = mkres 1 0 tt.
Proof.
  intros HC HM LM HK HN ES NR EX.
  assert (E : schnorrsig_sign_internal ctx (Some init) msg len (Some kp) (extra_nf extra) (extra_nd extra) = mkres ret ill (Some sig)).
  { unfold schnorrsig_sign_custom in ES. destruct extra as [ep|]; [|exact ES]. destruct (negb _); [|exact ES]. unfold arg_fail in ES. congruence. }
  exact (internal_verifies ctx init msg len m kp d _ _ ret ill sig i par par' xpk HC HM LM HK HN E NR EX).
Qed.
Lemma msg32 m : bytes_n 32 m -> is_message (Some m) 32 m.
Proof. intros [B L]. split; [exact B|]. split; [now rewrite L|]. right. exists []. now rewrite app_nil_r. Qed.
Lemma len32 m : bytes_n 32 m -> Z.of_nat (length m) < 2 ^ 61 - 128.
Proof. intros [_ ->]. reflexivity. Qed.
Lemma prop_sign32_verifies ctx init m kp d aux ret ill sig i par par' xpk : usable_context ctx -> bytes_n 32 m -> keypair_holds kp d -> opt_bytes 32 aux ->
  schnorrsig_sign32 ctx (Some init) (Some m) (Some kp) aux = mkres ret ill (Some sig) -> ret <> 0 ->
  keypair_xonly_pub (Some i) par (Some kp) = mkres 1 0 (Some xpk, par') ->
  schnorrsig_verify (Some sig) (Some m) 32 (Some xpk) = mkres 1 0 tt.
Proof.
  intros HC HM HK HN ES NR EX.
  exact (internal_verifies ctx init (Some m) 32 m kp d (Some nonce_function_bip340) aux ret ill sig i par par' xpk HC (msg32 m HM) (len32 m HM) HK (or_introl (conj eq_refl HN)) ES NR EX).
Qed.
Lemma prop_sign32_exact ctx init m kp d aux : usable_context ctx -> bytes_n 32 m -> keypair_holds kp d -> opt_bytes 32 aux ->
  schnorrsig_sign32 ctx (Some init) (Some m) (Some kp) aux =
    match bip340_sign d m (match aux with Some a => a | None => repeat 0 32 end) with
    | Some sig => mkres 1 0 (Some sig)
    | None => mkres 0 0 (Some (repeat 0 64))
    end.
Proof.
  intros HC HM HK HN. destruct (is_message_ok _ _ _ (msg32 m HM)) as (A & B & C).
  pose proof (sign_ok ctx init (Some m) 32 kp d (Some nonce_function_bip340) aux HC A HK) as S0. cbv zeta in S0. rewrite B in S0.
  exact (S0 C (len32 m HM) _ _ (bip340_nonce_ok m d aux C (len32 m HM) HN) (tagged_bytes _ _)).
Qed.
Lemma prop_verify_exact sig msg len m pk P : bytes_n 64 sig -> is_message msg len m -> Z.of_nat (length m) < 2 ^ 61 - 128 -> xonly_holds pk P ->
  (bip340_valid P m sig /\ schnorrsig_verify (Some sig) msg len (Some pk) = mkres 1 0 tt) \/
  (~ bip340_valid P m sig /\ schnorrsig_verify (Some sig) msg len (Some pk) = mkres 0 0 tt).
Proof.
  intros B HM LM [H _]. destruct (is_message_ok _ _ _ HM) as (A & EB & C).
  assert (MP : msg <> None \/ len = 0) by (destruct HM as (_ & -> & [[-> ->]|[rest ->]]); [right; reflexivity|left; discriminate]).
  pose proof (verify_ok sig msg len pk P B MP) as W. cbv zeta in W. rewrite EB in W. exact (W C LM H).
Qed.
Lemma prop_verify_invalid_pk sig msg len y : bytes_n 32 y -> r_ret (schnorrsig_verify (Some sig) msg len (Some (repeat 0 32 ++ y))) = 0.
Proof.
  intros _. unfold schnorrsig_verify. destruct (negb _); [reflexivity|]. destruct (fe_set_b32_limit _) as [[] rx]; [|reflexivity]. cbn [negb].
  destruct (sc_set_b32 _) as [s []]; [reflexivity|].
  assert (E : fst (xonly_pubkey_load (repeat 0 32 ++ y)) = false) by (unfold xonly_pubkey_load, pubkey_load; cbv zeta; cbn [fst]; apply negb_false_iff; unfold ge_from_bytes; reflexivity).
  destruct (xonly_pubkey_load _) as [ok g]. cbn [fst] in E. subst ok. reflexivity.
Qed.

(** ** C25 *)
Lemma prop_closed ctx init msg len m kp extra : usable_context ctx -> is_message msg len m -> bytes_n 96 kp ->
  extra_magic extra ->
  let r := schnorrsig_sign_custom ctx (Some init) msg len (Some kp) extra in
  (r_ret r = 1 /\ r_ill r = 0 /\ 1 <= be_val (firstn 32 kp) < n) \/
  (r_ret r = 0 /\ r_out r = Some (repeat 0 64) /\ (r_ill r = 0 \/ r_ill r = 1)).
Proof.
  intros HC HM HK HX r. unfold r. rewrite custom_eq by exact HX. destruct (usable_ctx _ HC) as [_ BU]. destruct (is_message_ok _ _ _ HM) as (A & _ & _).
  exact (sign_closed ctx init msg len kp _ _ BU A HK).
Qed.
Lemma prop_sign_invalid ctx init msg len m kp extra : usable_context ctx -> is_message msg len m -> bytes_n 96 kp ->
  extra_magic extra ->
  ~ 1 <= be_val (firstn 32 kp) < n \/ firstn 32 (skipn 32 kp) = repeat 0 32 ->
  schnorrsig_sign_custom ctx (Some init) msg len (Some kp) extra = mkres 0 1 (Some (repeat 0 64)).
Proof.
  intros HC HM HK HX HI. rewrite custom_eq by exact HX. destruct (usable_ctx _ HC) as [_ BU]. destruct (is_message_ok _ _ _ HM) as (A & _ & _).
  exact (sign_invalid ctx init msg len kp _ _ BU A HK HI).
Qed.
Lemma prop_sign32_closed ctx init m kp aux : usable_context ctx -> bytes_n 32 m -> bytes_n 96 kp ->
  let r := schnorrsig_sign32 ctx (Some init) (Some m) (Some kp) aux in
  (r_ret r = 1 /\ r_ill r = 0 /\ 1 <= be_val (firstn 32 kp) < n) \/
  (r_ret r = 0 /\ r_out r = Some (repeat 0 64) /\ (r_ill r = 0 \/ r_ill r = 1)).
Proof.
  intros HC HM HK. destruct (usable_ctx _ HC) as [_ BU]. exact (sign_closed ctx init (Some m) 32 kp _ _ BU eq_refl HK).
Qed.

(** ** C26 *)
Lemma prop_xonly_parse init inp : bytes_n 32 inp ->
  (be_val inp < p /\ is_square_mod_p (be_val inp ^ 3 + 7) /\ exists y pk, xonly_pubkey_parse (Some init) (Some inp) = mkres 1 0 (Some pk) /\ xonly_holds pk (Aff (be_val inp) y)) \/
  (~ (be_val inp < p /\ is_square_mod_p (be_val inp ^ 3 + 7)) /\ xonly_pubkey_parse (Some init) (Some inp) = mkres 0 0 (Some (repeat 0 64))).
Proof. intros H. rewrite cube. exact (xonly_parse_ok init inp H). Qed.
Lemma prop_xonly_roundtrip init init2 inp pk : bytes_n 32 inp -> xonly_pubkey_parse (Some init) (Some inp) = mkres 1 0 (Some pk) ->
  xonly_pubkey_serialize (Some init2) (Some pk) = mkres 1 0 (Some inp).
Proof.
  intros H E. destruct (xonly_parse_ok init inp H) as [(_ & _ & y & pk' & E' & HP & _)|(_ & E')]; rewrite E in E'; [|discriminate].
  assert (pk' = pk) by congruence. subst pk'. rewrite (xonly_serialize_ok _ _ _ _ HP). f_equal. f_equal. symmetry. apply be_bytes_unique; apply H || reflexivity.
Qed.
Lemma prop_xonly_reparse init init2 pk x y : xonly_holds pk (Aff x y) ->
  xonly_pubkey_serialize (Some init) (Some pk) = mkres 1 0 (Some (be_bytes 32 x)) /\ xonly_pubkey_parse (Some init2) (Some (be_bytes 32 x)) = mkres 1 0 (Some pk).
Proof.
  intros [H O]. split; [exact (xonly_serialize_ok _ _ _ _ H)|]. destruct (pubkey_holds_oc _ _ H) as [OC _]. assert (RX : 0 <= x < p) by apply OC.
  destruct (xonly_parse_ok init2 _ (bytes32 x)) as [(_ & _ & y' & pk' & E' & HP & O')|(F & _)]; rewrite coord_bytes in * by exact RX.
  - rewrite E'. f_equal. f_equal. apply (pubkey_holds_inj _ _ (Aff x y)); [|exact H]. cbn [ycoord] in *. rewrite (same_x_parity x y y'); [exact HP|exact OC|exact (proj1 (pubkey_holds_oc _ _ HP))|congruence].
  - exfalso. apply F. split; [apply RX|exact (on_curve_square _ _ OC)].
Qed.
Lemma xcmp_valid pk x y : pubkey_holds pk (Aff x y) -> xcmp_key (Some pk) = (be_bytes 32 x, 0).
Proof. intros H. unfold xcmp_key. rewrite (xonly_serialize_ok _ _ _ _ H). reflexivity. Qed.


Lemma prop_xonly_cmp pk0 pk1 P0 P1 : xonly_holds pk0 P0 -> xonly_holds pk1 P1 ->
  exists v, xonly_pubkey_cmp (Some pk0) (Some pk1) = mkres v 0 tt /\ (v ?= 0) = lex (be_bytes 32 (xcoord P0)) (be_bytes 32 (xcoord P1)) /\ (v = 0 <-> pk0 = pk1).
Proof.
  intros [H0 O0] [H1 O1]. destruct P0 as [|x0 y0]; [now destruct H0|]. destruct P1 as [|x1 y1]; [now destruct H1|].
  unfold xonly_pubkey_cmp. rewrite (xcmp_valid _ _ _ H0), (xcmp_valid _ _ _ H1). eexists. split; [reflexivity|].
  assert (L : length (be_bytes 32 x0) = length (be_bytes 32 x1)) by now rewrite !be_bytes_length.
  split; [exact (memcmp_lex _ _ L)|]. rewrite <- Z.eqb_eq, (memcmp_eq _ _ L).
  destruct (pubkey_holds_oc _ _ H0) as [OC0 _], (pubkey_holds_oc _ _ H1) as [OC1 _]. split.
  - intros E. assert (x0 = x1) by (rewrite <- (coord_bytes x0), <- (coord_bytes x1), E by (apply OC0 || apply OC1); reflexivity). subst x1.
    cbn [ycoord] in *. apply (pubkey_holds_inj _ _ (Aff x0 y0) H0). rewrite (same_x_parity x0 y0 y1); [exact H1|exact OC0|exact OC1|congruence].
  - intros ->. pose proof (pubkey_holds_fun _ _ _ H0 H1) as E. congruence.
Qed.

(** ** C27 *)
Lemma prop_tweaks_agree kp d i i2 xpk tw par par' : keypair_holds kp d -> bytes_n 32 tw ->
  keypair_xonly_pub (Some i) par (Some kp) = mkres 1 0 (Some xpk, par') ->
  (exists kp' pk' d', keypair_xonly_tweak_add (Some kp) (Some tw) = mkres 1 0 (Some kp') /\ keypair_holds kp' d' /\
     d' = ((if Z.odd (ycoord (pmul d G)) then n - d else d) + be_val tw) mod n /\
     xonly_pubkey_tweak_add (Some i2) (Some xpk) (Some tw) = mkres 1 0 (Some pk') /\ keypair_pub (Some i2) (Some kp') = mkres 1 0 (Some pk')) \/
  (keypair_xonly_tweak_add (Some kp) (Some tw) = mkres 0 0 (Some (repeat 0 96)) /\ xonly_pubkey_tweak_add (Some i2) (Some xpk) (Some tw) = mkres 0 0 (Some (repeat 0 64))).
Proof.
  intros HK HT EX. destruct (keypair_xonly_ok i par kp d HK) as (xpk' & E2 & H2 & _). rewrite E2 in EX. assert (xpk' = xpk) by congruence. subst xpk'.
  set (t := (even_sec d + be_val tw) mod n).
  assert (ET : padd (even_y (pmul d G)) (pmul (be_val tw) G) = pmul t G).
  { rewrite <- even_sec_pub, EcmultProof.K_add. unfold t. now rewrite pmul_mod by exact on_curve_G. }
  assert (NZ : t <> 0 <-> pmul t G <> Inf).
  { split; intros A B; apply A.
    - apply pmul_G_Inf in B. unfold t in *. rewrite Z.mod_mod in B by discriminate. exact B.
    - rewrite B. reflexivity. }
  pose proof (xonly_tweak_ok i2 xpk _ tw H2 HT) as W. cbv zeta in W. rewrite ET in W.
  destruct (keypair_tweak_ok kp d tw HK HT) as [(L & T & kp' & E & HK')|(C & E)]; fold t in T || fold t in C; fold t in HK' || idtac.
  - left. destruct W as [(_ & pk' & EP & HP)|(F & _)]; [|exfalso; apply F; split; [exact L|now apply NZ]].
    exists kp', pk', t. split; [exact E|]. split; [exact HK'|]. split; [reflexivity|]. split; [exact EP|]. exact (proj2 (keypair_parts i2 kp' t pk' HK' HP)).
  - right. split; [exact E|]. destruct W as [((A & B) & _)|(_ & W)]; [|exact W]. exfalso. apply C. split; [exact A|now apply NZ].
Qed.

(** ** C19: the context's history does not matter *)
Lemma prop_keypair_blinding ctx ctx' init key : usable_context ctx -> usable_context ctx' -> bytes_n 32 key ->
  keypair_create ctx (Some init) (Some key) = keypair_create ctx' (Some init) (Some key).
Proof.
  intros H H' HK. destruct (keypair_create_ok ctx init key H HK) as [(R & kp & -> & A)|(R & ->)], (keypair_create_ok ctx' init key H' HK) as [(R' & kp' & -> & A')|(R' & ->)]; try contradiction; [|reflexivity].
  destruct A as (_ & pk & P & ->), A' as (_ & pk' & P' & ->). now rewrite (pubkey_holds_inj _ _ _ P P').
Qed.
Lemma prop_schnorr_blinding ctx ctx' init msg len m kp d extra : usable_context ctx -> usable_context ctx' -> is_message msg len m -> Z.of_nat (length m) < 2 ^ 61 - 128 ->
  keypair_holds kp d -> extra_magic extra -> nonce_assumption (extra_nf extra) (extra_nd extra) ->
  schnorrsig_sign_custom ctx (Some init) msg len (Some kp) extra = schnorrsig_sign_custom ctx' (Some init) msg len (Some kp) extra.
Proof.
  intros H H' HM LM HK HX HN. rewrite !custom_eq by exact HX. destruct (is_message_ok _ _ _ HM) as (A & B & C).
  pose proof (assumption_nonce _ _ m d HN C LM) as BN. destruct (sign_nonce (extra_nf extra) m d (extra_nd extra)) as [nret nonce] eqn:E. cbn [snd] in BN.
  pose proof (sign_ok ctx init msg len kp d (extra_nf extra) (extra_nd extra) H A HK) as S0. pose proof (sign_ok ctx' init msg len kp d (extra_nf extra) (extra_nd extra) H' A HK) as S1.
  cbv zeta in S0, S1. rewrite B in S0, S1. rewrite (S0 C LM _ _ E BN), (S1 C LM _ _ E BN). reflexivity.
Qed.

(** ** Witnesses *)
Definition w_kp (d : Z) : list Z := match r_out (keypair_create w_ctx (Some []) (Some (w_key d))) with Some kp => kp | None => [] end.
Lemma w_kp_ok d : 1 <= d < n -> keypair_create w_ctx (Some []) (Some (w_key d)) = mkres 1 0 (Some (w_kp d)) /\ keypair_holds (w_kp d) d.
Proof.
  intros H. destruct (w_key_ok d H) as (A & B & C). unfold w_kp. destruct (keypair_create_ok w_ctx [] (w_key d) w_ctx_ok A) as [(_ & kp & -> & F)|(F & _)].
  - cbn [r_out]. rewrite B in F. auto.
  - exfalso. apply F. now rewrite B.
Qed.
Definition w_hnonce : nonce_function_hardened := fun _ _ _ _ _ _ => (1, be_bytes 32 7).
Lemma w_hnonce_ok : nonce_assumption (extra_nf (Some (mkep [0xda; 0x6f; 0xb3; 0x8c] (Some w_hnonce) None))) None.
Proof. right. intros m k q. apply bytes32. Qed.
Lemma w_magic nf nd : extra_magic (Some (mkep [0xda; 0x6f; 0xb3; 0x8c] nf nd)). Proof. intros ep E. now injection E as <-. Qed.
Lemma w_msg : is_message (Some [1; 2; 3; 4]) 3 [1; 2; 3].
Proof. split; [repeat constructor; lia|]. split; [reflexivity|]. right. now exists [4]. Qed.
Lemma w_nomsg : is_message None 0 []. Proof. split; [constructor|]. split; [reflexivity|]. now left. Qed.
Lemma w_schnorr_sign : exists sig, schnorrsig_sign_custom w_ctx (Some []) (Some [1; 2; 3; 4]) 3 (Some (w_kp 5)) (Some (mkep [0xda; 0x6f; 0xb3; 0x8c] (Some w_hnonce) None)) = mkres 1 0 (Some sig).
Proof.
  eexists. rewrite (prop_sign_exact w_ctx [] (Some [1; 2; 3; 4]) 3 [1; 2; 3] (w_kp 5) 5 _ 1 (be_bytes 32 7) w_ctx_ok w_msg eq_refl (proj2 (w_kp_ok 5 (w_small 5 w_5))) (w_magic (Some w_hnonce) None) eq_refl (bytes32 7)).
  change (1 =? 0) with false. cbv iota. destruct (key_bytes 7 ltac:(split; [lia|reflexivity])) as [_ ->]. rewrite Z.mod_small by (split; [lia|reflexivity]). unfold bip340_sign_with. change (7 =? 0) with false. cbv iota. reflexivity.
Qed.
Lemma w_xonly : xonly_holds w_pk G. Proof. split; [exact w_pk_ok|reflexivity]. Qed.
