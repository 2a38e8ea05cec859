(** Key creation and signing do not depend on the table configuration. *)
Require Import ZArith List Bool Lia String.
From Verif Require Import NumTheory Spec SpecApi SpecHash SpecBip340 Primes ZmField Curve NField Word Bytes.
From Verif Require Import FieldModel FieldMul FieldProof FieldProof2 FieldBytes FieldOps ScalarModel ScalarProof ScalarProof2 ScalarMul
  GroupModel GroupProof GroupProof2 GroupProof3 GroupProof4 GroupProof5 HashModel GenModel GenProof EcdsaModel ApiModel ApiVocab ApiProof ApiProof2 ApiProof3
  EcdsaProof EcdsaProof2 KeyProps ExtrakeysModel ExtrakeysProof SchnorrModel SchnorrProof SchnorrVocab SchnorrProps RecoveryModel EllswiftModel RepProof SpecRep GenAnyModel GenAnyProof GenAnyTable SpecGenAny GenAnyProps GenApiModel.
Import ListNotations.
Local Open Scope Z_scope.
Local Opaque p n.
Local Notation length := List.length.

Lemma same_coords a b P : gej_rep f1 a P -> gej_rep f1 b P -> P <> Inf ->
  fe_normalize (gx (ge_set_gej a)) = fe_normalize (gx (ge_set_gej b)) /\ fe_normalize (gy (ge_set_gej a)) = fe_normalize (gy (ge_set_gej b)) /\
  fe_normalize_var (gx (ge_set_gej a)) = fe_normalize_var (gx (ge_set_gej b)) /\ fe_normalize_var (gy (ge_set_gej a)) = fe_normalize_var (gy (ge_set_gej b)) /\
  pubkey_save (ge_set_gej a) = pubkey_save (ge_set_gej b).
Proof.
  intros Ra Rb N. apply ge_set_gej_ok in Ra as (Ra & Xa & Ya). apply ge_set_gej_ok in Rb as (Rb & Xb & Yb).
  destruct P as [|x y]; [congruence|]. unfold pubkey_save. rewrite (ge_to_bytes_ok _ x y Ra), (ge_to_bytes_ok _ x y Rb).
  destruct (ge_rep_zv _ _ _ Ra) as [Ea Fa]. destruct (ge_rep_zv _ _ _ Rb) as [Eb Fb].
  assert (W : forall f, fe_mag 1 f -> fe_mag 32 f) by (intros f H; eapply mag_weaken; [exact H|lia]).
  apply W in Xa, Ya, Xb, Yb. rewrite !fe_normalize_var_eq by assumption.
  assert (EX : fe_normalize (gx (ge_set_gej a)) = fe_normalize (gx (ge_set_gej b))) by (apply fe_norm_inj; [now apply fe_normalize_norm|now apply fe_normalize_norm|congruence]).
  assert (EY : fe_normalize (gy (ge_set_gej a)) = fe_normalize (gy (ge_set_gej b))) by (apply fe_norm_inj; [now apply fe_normalize_norm|now apply fe_normalize_norm|congruence]).
  auto.
Qed.

Lemma rep_inf a P : ge_rep f1 a P -> ginf a = match P with Inf => true | Aff _ _ => false end.
Proof. intros (_ & _ & _ & H). destruct P; [exact H|exact (proj1 H)]. Qed.

Section By.
  Variable gen : gen_ctx -> sc -> gej.
  Variable c : gen_ctx.
  Hypothesis gen_ok : forall s, sc_ok s -> gej_rep f1 (gen c s) (pmul (sv s) G).
  Variable c' : gen_ctx.
  Hypothesis c'_ok : gen_ctx_ok c'.

  Lemma same_point s : sc_ok s -> 1 <= sv s < n -> gej_rep f1 (gen c s) (pmul (sv s) G) /\ gej_rep f1 (ecmult_gen c' s) (pmul (sv s) G) /\ pmul (sv s) G <> Inf.
  Proof. intros K R. split; [now apply gen_ok|]. split; [now apply ecmult_gen_ok|]. now apply pmul_G_nInf. Qed.
  Lemma sig_sign_by sec msg s : sc_ok s -> 1 <= sv s < n -> ecdsa_sig_sign_by gen c sec msg s = ecdsa_sig_sign c' sec msg s.
  Proof.
    intros K R. unfold ecdsa_sig_sign_by, ecdsa_sig_sign. destruct (same_point s K R) as (A & B & N).
    destruct (same_coords _ _ _ A B N) as (-> & -> & _). reflexivity.
  Qed.
  Lemma loop_by sec msg msg32 key nf nd : nonce_bytes nf msg32 key nd -> forall fuel count st,
    sign_loop_by gen fuel c sec msg msg32 key nf nd count st = sign_loop fuel c' sec msg msg32 key nf nd count st.
  Proof.
    intros NB. induction fuel as [|fuel IH]; intros count st; [reflexivity|]. cbn [sign_loop_by sign_loop].
    destruct (nf msg32 key None nd count) as [l|] eqn:EN; [|reflexivity]. pose proof (NB _ _ EN) as BL.
    destruct (sc_set_b32_seckey_ok l (proj1 BL) (proj2 BL)) as (KN & VN & OK).
    destruct (sc_set_b32_seckey l) as [non valid]. cbn [fst snd] in *. destruct valid; [|apply IH].
    symmetry in OK. apply andb_true_iff in OK as [O1 O2]. apply Z.ltb_lt in O1, O2. rewrite Z.mod_small in VN by lia.
    rewrite sig_sign_by by (assumption || lia). destruct (ecdsa_sig_sign c' sec msg non) as [[[ok r] s] rec]. destruct ok; [reflexivity|apply IH].
  Qed.
  Lemma inner_by fuel msg32 key nf nd : nonce_bytes (the_nonce nf) msg32 key nd ->
    ecdsa_sign_inner_by gen fuel c msg32 key nf nd = ecdsa_sign_inner fuel c' msg32 key nf nd.
  Proof.
    intros NB. unfold ecdsa_sign_inner_by, ecdsa_sign_inner. fold (the_nonce nf). destruct (sc_set_b32_seckey key) as [sec ok].
    cbv zeta. rewrite loop_by by exact NB. reflexivity.
  Qed.
  Lemma helper_by key : bytes_n 32 key ->
    let '(ret, s, q) := ec_pubkey_create_helper_by gen c key in
    let '(ret', s', q') := ec_pubkey_create_helper c' key in ret = ret' /\ s = s' /\ pubkey_save q = pubkey_save q'.
  Proof.
    intros H. unfold ec_pubkey_create_helper_by, ec_pubkey_create_helper. pose proof (sign_inner_setup key H) as S. destruct (sc_set_b32_seckey key) as [s ok].
    destruct S as (K & V & E). split; [reflexivity|]. split; [reflexivity|].
    assert (R : 1 <= sv (sc_cmov s sc_one (b2z (negb ok))) < n).
    { rewrite V. unfold sign_d. rewrite <- E. destruct ok; [|split; [lia|reflexivity]]. symmetry in E. apply andb_true_iff in E as [E1 E2]. apply Z.ltb_lt in E1, E2. lia. }
    destruct (same_point _ K R) as (A & B & N). now destruct (same_coords _ _ _ A B N) as (_ & _ & _ & _ & ->).
  Qed.
  Lemma helper_norm key : bytes_n 32 key ->
    let '(ret, s, q) := ec_pubkey_create_helper_by gen c key in
    let '(ret', s', q') := ec_pubkey_create_helper c' key in
    ret = ret' /\ mkge (fe_normalize_var (gx q)) (fe_normalize_var (gy q)) (ginf q) = mkge (fe_normalize_var (gx q')) (fe_normalize_var (gy q')) (ginf q').
  Proof.
    intros H. unfold ec_pubkey_create_helper_by, ec_pubkey_create_helper. pose proof (sign_inner_setup key H) as S. destruct (sc_set_b32_seckey key) as [s ok].
    destruct S as (K & V & E). split; [reflexivity|].
    assert (R : 1 <= sv (sc_cmov s sc_one (b2z (negb ok))) < n).
    { rewrite V. unfold sign_d. rewrite <- E. destruct ok; [|split; [lia|reflexivity]]. symmetry in E. apply andb_true_iff in E as [E1 E2]. apply Z.ltb_lt in E1, E2. lia. }
    destruct (same_point _ K R) as (A & B & N). destruct (same_coords _ _ _ A B N) as (_ & _ & -> & -> & _). f_equal.
    apply ge_set_gej_ok in A as (A & _). apply ge_set_gej_ok in B as (B & _). exact (eq_trans (rep_inf _ _ A) (eq_sym (rep_inf _ _ B))).
  Qed.
  Lemma schnorr_by ctx ctx' init msg mlen kp d nf nd nret nonce : c_gen ctx = c -> c_gen ctx' = c' -> g_built c = true -> g_built c' = true ->
    keypair_holds kp d -> sign_nonce nf (msg_bytes msg mlen) d nd = (nret, nonce) -> bytes_n 32 nonce ->
    schnorrsig_sign_internal_by gen ctx (Some init) msg mlen (Some kp) nf nd = schnorrsig_sign_internal ctx' (Some init) msg mlen (Some kp) nf nd.
  Proof.
    intros E1 E2 B1 B2 HK EN BN. unfold schnorrsig_sign_internal_by, schnorrsig_sign_internal. rewrite E1, E2, B1, B2. cbn [negb].
    destruct (negb _); [reflexivity|].
    assert (Rd : 1 <= d < n) by apply HK. destruct (keypair_load_ok _ _ HK) as (sk & pk & -> & K & ES & RG & N1 & N2).
    destruct (even_sec_load sk pk d K ES Rd RG N2) as [K' ES'].
    assert (EO : (snd (extrakeys_ge_even_y pk) =? 1) = fe_is_odd (gy pk)) by (unfold extrakeys_ge_even_y; destruct (fe_is_odd _); reflexivity).
    rewrite EO in *. clear EO. cbv zeta in K', ES'. cbv zeta. set (sk' := if fe_is_odd (gy pk) then _ else _) in *. clearbody sk'.
    assert (EP : fe_get_b32 (gx pk) = be_bytes 32 (xcoord (pmul d G))).
    { rewrite fe_get_b32_ok by exact N1. destruct (pmul d G) as [|x y] eqn:E; [destruct (pmul_G_nInf d Rd E)|]. now rewrite (fval_of_rep _ _ _ RG N1). }
    rewrite EP, (sc_get_b32_ok sk'), ES' by apply K'.
    change (match nf with Some f => f | None => nonce_function_bip340 end) with (the_hnonce nf).
    change bip340_algo with (ascii_bytes "BIP0340/nonce"%string). change (zeros 32) with (repeat 0 32). fold (sign_nonce nf (msg_bytes msg mlen) d nd). rewrite EN.
    destruct (sc_set_b32_case nonce BN) as (KN & VN & _). set (k0 := fst (sc_set_b32 nonce)) in *. clearbody k0. cbn [andb].
    assert (KK : sc_ok (sc_cmov k0 sc_one (b2z (negb (negb (nret =? 0) && negb (sc_is_zero k0))))) /\
                 1 <= sv (sc_cmov k0 sc_one (b2z (negb (negb (nret =? 0) && negb (sc_is_zero k0))))) < n).
    { rewrite sc_cmov_b by (try assumption; apply sc_one_ok). rewrite sc_is_zero_spec by apply KN. pose proof (sc_ok_range k0 KN) as B.
      destruct sc_one_ok as [O1 O2].
      destruct (Z.eqb_spec (sv k0) 0), (nret =? 0); cbn [negb andb]; (split; [assumption|]); rewrite ?O2; try lia; split; try lia; reflexivity. }
    set (k1 := sc_cmov _ _ _) in *. clearbody k1. destruct KK as [KK R1].
    destruct (same_point _ KK R1) as (A & B & N). destruct (same_coords _ _ _ A B N) as (_ & _ & -> & -> & _). reflexivity.
  Qed.
End By.

Lemma context_built g c : gen_context_of g c -> g_built c = true.
Proof. induction 1 as [m|c seed H IH Hs]; [reflexivity|]. unfold any_blind. destruct seed as [s|]; [|exact IH]. cbv zeta. destruct (rfc6979_generate _ 32) as [rng a]. destruct (rfc6979_generate rng 32) as [rng' b]. exact IH. Qed.
Definition gen_of (g : comb) : gen_ctx -> sc -> gej := any_ecmult_gen g (prec_table g).
Lemma gen_of_ok g c : allowed g -> gen_context_of g c -> forall s, sc_ok s -> gej_rep f1 (gen_of g c s) (pmul (sv s) G).
Proof.
  intros A H s K. pose proof (prop_multiplication g c s A H (proj2 (valid_iff s) K)) as R. rewrite jac_iff, scalar_int_eq in R. exact R.
Qed.
Lemma prop_any_create g ctx ctx' pk key : allowed g -> gen_context_of g (c_gen ctx) -> usable_context ctx' -> bytes_n 32 key ->
  ec_pubkey_create_by (any_ecmult_gen g (prec_table g)) ctx (Some pk) (Some key) = ec_pubkey_create ctx' (Some pk) (Some key).
Proof.
  intros A H U K. fold (gen_of g). destruct (usable_ctx _ U) as [U1 U2]. unfold ec_pubkey_create_by, ec_pubkey_create. rewrite (context_built _ _ H), U2. cbn [negb].
  pose proof (helper_by (gen_of g) (c_gen ctx) (gen_of_ok g _ A H) (c_gen ctx') U1 key K) as E.
  destruct (ec_pubkey_create_helper_by _ _ key) as [[r s] q]. destruct (ec_pubkey_create_helper _ key) as [[r' s'] q']. destruct E as (-> & -> & ->). reflexivity.
Qed.
Lemma prop_any_sign g ctx ctx' fuel sig msg key nf nd : allowed g -> gen_context_of g (c_gen ctx) -> usable_context ctx' -> nonce_bytes (the_nonce nf) msg key nd ->
  ecdsa_sign_by (any_ecmult_gen g (prec_table g)) fuel ctx sig (Some msg) (Some key) nf nd = ecdsa_sign fuel ctx' sig (Some msg) (Some key) nf nd.
Proof.
  intros A H U K. fold (gen_of g). destruct (usable_ctx _ U) as [U1 U2]. unfold ecdsa_sign_by, ecdsa_sign. rewrite (context_built _ _ H), U2. cbn [negb].
  rewrite (inner_by (gen_of g) (c_gen ctx) (gen_of_ok g _ A H) (c_gen ctx') U1) by exact K. reflexivity.
Qed.
Lemma prop_any_schnorr g ctx ctx' init msg len m kp d nf nd nret nonce : allowed g -> gen_context_of g (c_gen ctx) -> usable_context ctx' ->
  is_message msg len m -> keypair_holds kp d -> sign_nonce nf m d nd = (nret, nonce) -> bytes_n 32 nonce ->
  schnorrsig_sign_internal_by (any_ecmult_gen g (prec_table g)) ctx (Some init) msg len (Some kp) nf nd = schnorrsig_sign_internal ctx' (Some init) msg len (Some kp) nf nd.
Proof.
  intros A H U HM HK EN BN. fold (gen_of g). destruct (usable_ctx _ U) as [U1 U2]. destruct (is_message_ok _ _ _ HM) as (_ & EB & _). rewrite <- EB in EN.
  exact (schnorr_by (gen_of g) (c_gen ctx) (gen_of_ok g _ A H) (c_gen ctx') U1 ctx ctx' init msg len kp d nf nd nret nonce eq_refl eq_refl (context_built _ _ H) U2 HK EN BN).
Qed.

Lemma prop_any_keypair g ctx ctx' kp key : allowed g -> gen_context_of g (c_gen ctx) -> usable_context ctx' -> bytes_n 32 key ->
  keypair_create_by (any_ecmult_gen g (prec_table g)) ctx (Some kp) (Some key) = keypair_create ctx' (Some kp) (Some key).
Proof.
  intros A H U K. fold (gen_of g). destruct (usable_ctx _ U) as [U1 U2]. unfold keypair_create_by, keypair_create. rewrite (context_built _ _ H), U2. cbn [negb].
  pose proof (helper_by (gen_of g) (c_gen ctx) (gen_of_ok g _ A H) (c_gen ctx') U1 key K) as E. unfold keypair_save.
  destruct (ec_pubkey_create_helper_by _ _ key) as [[r s] q]. destruct (ec_pubkey_create_helper _ key) as [[r' s'] q']. destruct E as (-> & -> & ->). reflexivity.
Qed.
Lemma prop_any_recoverable g ctx ctx' fuel sig msg key nf nd : allowed g -> gen_context_of g (c_gen ctx) -> usable_context ctx' -> nonce_bytes (the_nonce nf) msg key nd ->
  ecdsa_sign_recoverable_by (any_ecmult_gen g (prec_table g)) fuel ctx sig (Some msg) (Some key) nf nd = ecdsa_sign_recoverable fuel ctx' sig (Some msg) (Some key) nf nd.
Proof.
  intros A H U K. fold (gen_of g). destruct (usable_ctx _ U) as [U1 U2]. unfold ecdsa_sign_recoverable_by, ecdsa_sign_recoverable. rewrite (context_built _ _ H), U2. cbn [negb].
  rewrite (inner_by (gen_of g) (c_gen ctx) (gen_of_ok g _ A H) (c_gen ctx') U1) by exact K. reflexivity.
Qed.
Lemma prop_any_ellswift g ctx ctx' fuel ell key aux : allowed g -> gen_context_of g (c_gen ctx) -> usable_context ctx' -> bytes_n 32 key ->
  ellswift_create_by (any_ecmult_gen g (prec_table g)) fuel ctx (Some ell) (Some key) aux = ellswift_create fuel ctx' (Some ell) (Some key) aux.
Proof.
  intros A H U K. fold (gen_of g). destruct (usable_ctx _ U) as [U1 U2]. unfold ellswift_create_by, ellswift_create. rewrite (context_built _ _ H), U2. cbn [negb].
  pose proof (helper_norm (gen_of g) (c_gen ctx) (gen_of_ok g _ A H) (c_gen ctx') U1 key K) as E.
  destruct (ec_pubkey_create_helper_by _ _ key) as [[r s] q]. destruct (ec_pubkey_create_helper _ key) as [[r' s'] q']. destruct E as (-> & ->). reflexivity.
Qed.
Lemma sig_sign_default gctx sec msg non : ecdsa_sig_sign_by ecmult_gen gctx sec msg non = ecdsa_sig_sign gctx sec msg non.
Proof. unfold ecdsa_sig_sign_by, ecdsa_sig_sign. reflexivity. Qed.
Lemma sign_loop_default fuel gctx sec msg msg32 key nf nd : forall count st,
  sign_loop_by ecmult_gen fuel gctx sec msg msg32 key nf nd count st = sign_loop fuel gctx sec msg msg32 key nf nd count st.
Proof.
  induction fuel as [|f IH]; intros count st; [reflexivity|]. cbn [sign_loop_by sign_loop].
  destruct (nf msg32 key None nd count) as [k|]; [|reflexivity].
  destruct (sc_set_b32_seckey k) as [non v]. destruct v; [|apply IH].
  rewrite sig_sign_default.
  destruct (ecdsa_sig_sign gctx sec msg non) as [[[ret r] s] recid]. destruct ret; [reflexivity|apply IH].
Qed.
Lemma sign_inner_default fuel gctx msg key nf nd : ecdsa_sign_inner_by ecmult_gen fuel gctx msg key nf nd = ecdsa_sign_inner fuel gctx msg key nf nd.
Proof.
  unfold ecdsa_sign_inner_by, ecdsa_sign_inner. destruct (sc_set_b32_seckey key) as [sec v]. rewrite sign_loop_default. reflexivity.
Qed.
Lemma prop_default_functions fuel ctx sig msg len key kp nf nd hnf hnd :
  ec_pubkey_create_by ecmult_gen ctx sig key = ec_pubkey_create ctx sig key /\
  ecdsa_sign_by ecmult_gen fuel ctx sig msg key nf nd = ecdsa_sign fuel ctx sig msg key nf nd /\
  schnorrsig_sign_internal_by ecmult_gen ctx sig msg len kp hnf hnd = schnorrsig_sign_internal ctx sig msg len kp hnf hnd /\
  keypair_create_by ecmult_gen ctx sig key = keypair_create ctx sig key /\
  ecdsa_sign_recoverable_by ecmult_gen fuel ctx sig msg key nf nd = ecdsa_sign_recoverable fuel ctx sig msg key nf nd /\
  ellswift_create_by ecmult_gen fuel ctx sig key nd = ellswift_create fuel ctx sig key nd.
Proof.
  split; [reflexivity|]. split; [|split; [reflexivity|split; [reflexivity|split; [|reflexivity]]]].
  - unfold ecdsa_sign_by, ecdsa_sign.
    repeat match goal with |- context [match ?x with _ => _ end] => is_var x; destruct x; try reflexivity; rewrite ?sign_inner_default end; reflexivity.
  - unfold ecdsa_sign_recoverable_by, ecdsa_sign_recoverable.
    repeat match goal with |- context [match ?x with _ => _ end] => is_var x; destruct x; try reflexivity; rewrite ?sign_inner_default end; reflexivity.
Qed.
