(** The recovery, ecdh and ellswift modules of the 32-bit build: the same results as in the 64-bit build. *)
Require Import ZArith List Bool Lia.
From Verif Require Import Word Word32 Bytes Spec SpecApi HashModel FieldModel ScalarModel Field32Model Field32Bytes Scalar32Model Scalar32Ops FieldBytes ScalarProof ScalarProof2 GenTable GroupModel EcmultModel GenModel EcdsaModel ApiModel ExtrakeysModel SchnorrModel RecoveryModel EcdhModel EllswiftModel ApiVocab SpecHash HashProof KeyProps W32_Base W32_Group W32_Ecmult W32_Gen W32_Ecdsa W32_Api W32_Extrakeys W32_Schnorr W32_Recovery W32_Ecdh W32_Ellswift W32_Tight W32_SimField W32_SimScalar W32_SimGroup W32_SimEcmult W32_SimGen W32_SimEcdsa W32_SimApi W32_SimExtra.
Import ListNotations.
Local Open Scope Z_scope.

Ltac rload pk H :=
  let L1 := fresh "L" in let L2 := fresh "L" in let ok := fresh "ok" in let q := fresh "q" in
  destruct (t_load pk H) as [L1 L2]; destruct (pubkey_load_w32 pk) as [ok q]; destruct (pubkey_load pk) as [? ?]; cbn [fst snd] in L1, L2; subst ok.

(* Recovery *)
(** The 65 bytes of a recoverable signature object: two scalars below the order and a byte. *)
Definition rec_obj (l : list Z) : Prop := bytes_n 65 l /\ le_val (firstn 32 l) < n /\ le_val (firstn 32 (skipn 32 l)) < n.
Definition opt_rec (o : option (list Z)) : Prop := forall l, o = Some l -> rec_obj l.
Lemma r_rec_load sg : rec_obj sg -> same (fst (fst (recoverable_signature_load_w32 sg))) (fst (fst (recoverable_signature_load sg))) /\
  same (snd (fst (recoverable_signature_load_w32 sg))) (snd (fst (recoverable_signature_load sg))) /\ snd (recoverable_signature_load_w32 sg) = snd (recoverable_signature_load sg).
Proof.
  intros (B & H1 & H2). destruct (bytes_first 32 33 sg B) as [B1 L1]. destruct (bytes_first 32 1 _ (bytes_skip 32 33 sg B)) as [B2 L2].
  unfold recoverable_signature_load_w32, recoverable_signature_load. cbn [fst snd]. split; [exact (same_of_bytes _ B1 L1 H1)|]. split; [exact (same_of_bytes _ B2 L2 H2)|reflexivity].
Qed.
Ltac rrec sg H :=
  let L1 := fresh "L" in let L2 := fresh "L" in let L3 := fresh "L" in let z := fresh "z" in
  destruct (r_rec_load sg H) as (L1 & L2 & L3); destruct (recoverable_signature_load_w32 sg) as [[? ?] z]; destruct (recoverable_signature_load sg) as [[? ?] ?]; cbn [fst snd] in L1, L2, L3; subst z.
Lemma r_rec_save a b c d recid : same a b -> same c d -> recoverable_signature_save_w32 a c recid = recoverable_signature_save b d recid.
Proof. intros H K. unfold recoverable_signature_save_w32, recoverable_signature_save. rewrite (same_bytes _ _ H), (same_bytes _ _ K). reflexivity. Qed.
Lemma a_rec_parse sg inp recid : opt_bytes 64 inp -> recoverable_signature_parse_compact_w32 sg inp recid = recoverable_signature_parse_compact sg inp recid.
Proof.
  intros B. unfold recoverable_signature_parse_compact_w32, recoverable_signature_parse_compact. destruct sg; [|reflexivity]. destruct inp as [inp|]; [|reflexivity]. destruct (negb _); [reflexivity|].
  pose proof (bytes_first 32 32 inp (B _ eq_refl)) as B1. pose proof (bytes_first 32 0 _ (bytes_skip 32 32 inp (B _ eq_refl))) as B2.
  destruct (r_set _ B1) as [S1 S2]. destruct (r_set _ B2) as [S3 S4].
  destruct (s8_set_b32 (firstn 32 inp)), (sc_set_b32 (firstn 32 inp)), (s8_set_b32 (firstn 32 (skipn 32 inp))), (sc_set_b32 (firstn 32 (skipn 32 inp))). cbn [fst snd] in S1, S2, S3, S4. subst. cbv zeta.
  destruct (_ && _); [|reflexivity]. rewrite (r_rec_save _ _ _ _ recid S1 S3). reflexivity.
Qed.
Lemma a_rec_serialize o recid sg : opt_rec sg -> recoverable_signature_serialize_compact_w32 o recid sg = recoverable_signature_serialize_compact o recid sg.
Proof.
  intros B. unfold recoverable_signature_serialize_compact_w32, recoverable_signature_serialize_compact. destruct o; [|reflexivity]. destruct sg as [sg|]; [|reflexivity]. destruct recid; [|reflexivity].
  rrec sg (B _ eq_refl). rewrite (same_get_b32 _ _ L), (same_get_b32 _ _ L0). reflexivity.
Qed.
Lemma a_rec_convert o sg : opt_rec sg -> recoverable_signature_convert_w32 o sg = recoverable_signature_convert o sg.
Proof.
  intros B. unfold recoverable_signature_convert_w32, recoverable_signature_convert. destruct o; [|reflexivity]. destruct sg as [sg|]; [|reflexivity].
  rrec sg (B _ eq_refl). rewrite (r_sig_save _ _ _ _ L L0). reflexivity.
Qed.
Lemma r_recover r r' s s' m m' recid : same r r' -> same s s' -> same m m' -> ropt (rge 1 1) (ecdsa_sig_recover_w32 r s m recid) (ecdsa_sig_recover r' s' m' recid).
Proof.
  intros Hr Hs Hm. unfold ecdsa_sig_recover_w32, ecdsa_sig_recover. rewrite (same_zero_test _ _ Hr), (same_zero_test _ _ Hs). destruct (_ || _); [exact I|]. cbv zeta.
  rewrite (same_get_b32 _ _ Hr). pose proof (rn_scalar_limit r' ltac:(apply Hr)) as N. revert N. generalize (snd (f26_set_b32_limit (sc_get_b32 r'))). generalize (snd (fe_set_b32_limit (sc_get_b32 r'))). intros x' x N.
  rewrite (rn_cmp_var _ _ _ _ N rn_p_minus). pose proof (rn_rf _ _ N) as X.
  assert (K : forall y y' odd, rf 2 y y' ->
    ropt (rge 1 1)
      (let (ok, x0) := ge_set_xo_var_w32 y odd in
       if ok then if gej_is_infinity_w32 (ecmult_w32 (gej_set_ge_w32 x0) (s8_mul (s8_inverse_var_w32 r) s) (Some (s8_negate (s8_mul (s8_inverse_var_w32 r) m)))) then None
                  else Some (ge_set_gej_var_w32 (ecmult_w32 (gej_set_ge_w32 x0) (s8_mul (s8_inverse_var_w32 r) s) (Some (s8_negate (s8_mul (s8_inverse_var_w32 r) m))))) else None)
      (let (ok, x0) := ge_set_xo_var y' odd in
       if ok then if gej_is_infinity (ecmult (gej_set_ge x0) (sc_mul (sc_inverse_var r') s') (Some (sc_negate (sc_mul (sc_inverse_var r') m')))) then None
                  else Some (ge_set_gej_var (ecmult (gej_set_ge x0) (sc_mul (sc_inverse_var r') s') (Some (sc_negate (sc_mul (sc_inverse_var r') m'))))) else None)).
  { intros y y' odd Y. pose proof (r_set_xo_fst y y' odd (rf_weaken 2 8 _ _ Y ltac:(lia))) as F. pose proof (rg_set_xo 2 y y' odd Y ltac:(lia)) as R.
    destruct (ge_set_xo_var_w32 y odd) as [o g], (ge_set_xo_var y' odd) as [o' g']. cbn [fst snd] in F, R. subst o'. destruct o; [|exact I].
    pose proof (same_inverse_var _ _ Hr) as Hi.
    assert (RR : RJ (ecmult_w32 (gej_set_ge_w32 g) (s8_mul (s8_inverse_var_w32 r) s) (Some (s8_negate (s8_mul (s8_inverse_var_w32 r) m))))
                    (ecmult (gej_set_ge g') (sc_mul (sc_inverse_var r') s') (Some (sc_negate (sc_mul (sc_inverse_var r') m'))))).
    { apply r_ecmult; [apply rj_set_ge, (rg44 2 2); [exact R|lia|lia]|apply same_mul'; assumption|apply same_negate, same_mul'; assumption]. }
    unfold gej_is_infinity_w32, gej_is_infinity. rewrite (r_jinf _ _ _ _ _ RR). destruct (jinf _); [exact I|]. exact (rg_set_gej_var _ _ RR). }
  destruct (negb (Z.land recid 2 =? 0)).
  - destruct (_ >=? 0); [exact I|]. apply K. apply (rf_add 1 1); [exact X|apply rn_rf, rn_order|lia..].
  - apply K. exact (rf_weaken 1 2 _ _ X ltac:(lia)).
Qed.
Lemma a_sign_recoverable fuel c c' sg msg key nf nd : rctx c c' -> opt_bytes 32 msg -> opt_bytes 32 key -> (forall m k, msg = Some m -> key = Some k -> nonce_bytes (the_nonce nf) m k nd) ->
  ecdsa_sign_recoverable_w32 fuel c sg msg key nf nd = ecdsa_sign_recoverable fuel c' sg msg key nf nd.
Proof.
  intros (Hc & _) Bm Bk Hn. unfold ecdsa_sign_recoverable_w32, ecdsa_sign_recoverable. pose proof Hc as (E & _). rewrite E. destruct (negb _); [reflexivity|].
  destruct msg as [msg|]; [|reflexivity]. destruct sg; [|reflexivity]. destruct key as [key|]; [|reflexivity].
  pose proof (r_sign_inner fuel _ _ msg key nf nd Hc (Bm _ eq_refl) (Bk _ eq_refl) (Hn _ _ eq_refl eq_refl)) as R.
  destruct (ecdsa_sign_inner_w32 _ _ _ _ _ _) as [[[[ret r] s] recid]|], (ecdsa_sign_inner _ _ _ _ _ _) as [[[[ret' r'] s'] recid']|]; try contradiction R; [|reflexivity].
  destruct R as (R1 & R2 & R3 & R4). cbn [fst snd] in R1, R2, R3, R4. subst. rewrite (r_rec_save _ _ _ _ recid' R2 R3). reflexivity.
Qed.
Lemma a_recover o sg msg : opt_rec sg -> opt_bytes 32 msg -> ecdsa_recover_w32 o sg msg = ecdsa_recover o sg msg.
Proof.
  intros B Bm. unfold ecdsa_recover_w32, ecdsa_recover. destruct msg as [msg|]; [|reflexivity]. destruct sg as [sg|]; [|reflexivity]. destruct o; [|reflexivity].
  rrec sg (B _ eq_refl). cbv zeta. pose proof (r_recover _ _ _ _ _ _ z0 L L0 (proj1 (r_set _ (Bm _ eq_refl)))) as R.
  destruct (ecdsa_sig_recover_w32 _ _ _ _), (ecdsa_sig_recover _ _ _ _); try contradiction R; [|reflexivity].
  rewrite (r_save _ _ (rg44 1 1 _ _ R ltac:(lia) ltac:(lia))). reflexivity.
Qed.

(* ECDH *)
Lemma a_ecdh o pk key hf : opt_bytes 64 pk -> opt_bytes 32 key -> ecdh_w32 o pk key hf = ecdh o pk key hf.
Proof.
  intros B Bk. unfold ecdh_w32, ecdh. destruct o; [|reflexivity]. destruct pk as [pk|]; [|reflexivity]. destruct key as [key|]; [|reflexivity]. cbv zeta.
  rload pk (B _ eq_refl). destruct (r_set _ (Bk _ eq_refl)) as [S1 S2]. destruct (s8_set_b32 key) as [s o], (sc_set_b32 key) as [s' o']. cbn [fst snd] in S1, S2. subst o'.
  rewrite (same_zero_test _ _ S1). set (ov := o || sc_is_zero s').
  assert (Ss : same (s8_cmov s s8_one (b2z ov)) (sc_cmov s' sc_one (b2z ov))) by (apply same_cmov; [exact S1|exact same_one|apply b2z_01]).
  destruct (rg_set_gej _ _ (r_ecmult_const _ _ _ _ (rg44 1 1 _ _ (rgt_rge _ _ L0) ltac:(lia) ltac:(lia)) Ss)) as (X & Y & _).
  rewrite (rn_get_b32 _ _ (rn_normalize 1 _ _ X ltac:(lia))), (rn_get_b32 _ _ (rn_normalize 1 _ _ Y ltac:(lia))). reflexivity.
Qed.

(* ElligatorSwift *)
Lemma rf_c1 : rf 1 ellswift_c1_w32 ellswift_c1. Proof. apply rn_rf, rn_of_Z. vm_cast_no_check (eq_refl true). Qed.
Lemma rf_c2 : rf 1 ellswift_c2_w32 ellswift_c2. Proof. apply rn_rf, rn_of_Z. vm_cast_no_check (eq_refl true). Qed.
Lemma rf_c3 : rf 1 ellswift_c3_w32 ellswift_c3. Proof. apply rn_rf, rn_of_Z. vm_cast_no_check (eq_refl true). Qed.
Lemma rf_c4 : rf 1 ellswift_c4_w32 ellswift_c4. Proof. apply rn_rf, rn_of_Z. vm_cast_no_check (eq_refl true). Qed.
Definition rpair (a : fe26 * fe26) (b : fe * fe) : Prop := rf 8 (fst a) (fst b) /\ rf 8 (snd a) (snd b).
Lemma r_frac P u u' t t' : rf 1 u u' -> rf 1 t t' -> P = rpair -> P (xswiftec_frac_var_w32 u t) (xswiftec_frac_var u' t').
Proof.
  intros U T EP. pose proof rf_c1. pose proof rf_c2. cbv beta delta [xswiftec_frac_var_w32 xswiftec_frac_var].
  rewrite (rf_nz_var 1 _ _ U ltac:(lia)), (rf_nz_var 1 _ _ T ltac:(lia)).
  destruct (fe_normalizes_to_zero_var u'), (fe_normalizes_to_zero_var t'); cbv beta iota.
  all: do 7 rlet.
  all: lazymatch goal with |- ?R (let (s, p) := ?A in _) (let (s, p) := ?B in _) =>
    assert (Hp : rf 4 (fst A) (fst B) /\ rf 6 (snd A) (snd B));
    [bnz; cbn [fst snd]; (split; rgw)|destruct A, B; cbn [fst snd] in Hp; destruct Hp; cbv beta iota] end.
  all: do 6 rlet.
  all: lazymatch goal with |- ?R (if ge_x_frac_on_curve_var_w32 ?a ?b then _ else _) (if ge_x_frac_on_curve_var ?a' ?b' then _ else _) =>
    rewrite (r_x_frac a a' b b') by rgw; destruct (ge_x_frac_on_curve_var a' b'); [rewrite EP; split; cbn [fst snd]; rgw|] end.
  all: do 4 rlet.
  all: lazymatch goal with |- ?R (if ge_x_frac_on_curve_var_w32 ?a ?b then _ else _) (if ge_x_frac_on_curve_var ?a' ?b' then _ else _) =>
    rewrite (r_x_frac a a' b b') by rgw; destruct (ge_x_frac_on_curve_var a' b'); [rewrite EP; split; cbn [fst snd]; rgw|] end.
  all: do 2 rlet; rewrite EP; split; cbn [fst snd]; rgw.
Qed.
Lemma r_xswiftec u u' t t' : rf 1 u u' -> rf 1 t t' -> rf 1 (xswiftec_var_w32 u t) (xswiftec_var u' t').
Proof.
  intros U T. unfold xswiftec_var_w32, xswiftec_var. pose proof (r_frac rpair u u' t t' U T eq_refl) as [N D].
  destruct (xswiftec_frac_var_w32 u t) as [xn xd], (xswiftec_frac_var u' t') as [xn' xd']. cbn [fst snd] in N, D. rgo.
Qed.
Lemma r_swiftec u u' t t' : rf 1 u u' -> rn t t' -> rge 1 2 (swiftec_var_w32 u t) (swiftec_var u' t').
Proof.
  intros U T. unfold swiftec_var_w32, swiftec_var. cbv zeta. rewrite (rn_is_odd _ _ T). apply rg_set_xo; [|lia]. apply r_xswiftec; [exact U|exact (rn_rf _ _ T)].
Qed.
Lemma r_inv_finish P s s' u u' v v' c : rf 4 s s' -> rf 1 u u' -> rf 4 v v' -> P = rf 1 -> P (inv_finish_w32 s u v c) (inv_finish s' u' v' c).
Proof.
  intros S1 U V EP. cbv beta delta [inv_finish_w32 inv_finish]. destruct (rf_sqrt 4 _ _ S1 ltac:(lia)) as [_ Q]. pose proof rf_c3. pose proof rf_c4.
  revert Q. generalize (snd (f26_sqrt s)). generalize (snd (fe_sqrt s')). intros m' m Q. destruct (_ || _), (negb _); cbv beta iota; repeat rlet; rewrite EP; rgo.
Qed.
Ltac sqtest EP :=
  lazymatch goal with |- ?R (if negb (f26_is_square_w32 ?a) then _ else _) (if negb (fe_is_square_var ?b) then _ else _) =>
    lazymatch goal with H : rf ?m a b |- _ => rewrite (rf_is_square m a b H ltac:(lia)) end; destruct (fe_is_square_var b); [change (negb true) with false|change (negb false) with true]; cbv beta iota; [|rewrite EP; exact I] end.
Lemma r_inv P x x' u u' c : rf 1 x x' -> rf 1 u u' -> P = rfo 1 -> P (xswiftec_inv_var_w32 x u c) (xswiftec_inv_var x' u' c).
Proof.
  intros X U EP. cbv beta delta [xswiftec_inv_var_w32 xswiftec_inv_var]. do 2 rlet. destruct (Z.land c 2 =? 0).
  - do 2 rlet. lazymatch goal with |- context [ge_x_on_curve_var_w32 ?a] => lazymatch goal with |- context [ge_x_on_curve_var ?b] =>
      rewrite (r_x_on_curve a b) by rgw; destruct (ge_x_on_curve_var b); [rewrite EP; exact I|] end end.
    do 8 rlet. sqtest EP. do 2 rlet. rewrite EP. cbn [rfo]. apply (r_inv_finish (rf 1)); [rgw|rgw|rgw|reflexivity].
  - do 2 rlet. sqtest EP. do 9 rlet. sqtest EP.
    lazymatch goal with |- ?R (let r := snd (f26_sqrt ?a) in @?k r) (let r := snd (fe_sqrt ?b) in @?k' r) =>
      lazymatch goal with H : rf ?m a b |- _ => destruct (rf_sqrt m a b H ltac:(lia)) as [_ Q] end;
      change (R (k (snd (f26_sqrt a))) (k' (snd (fe_sqrt b)))); revert Q; generalize (snd (f26_sqrt a)); generalize (snd (fe_sqrt b)) end.
    intros r' r Q. cbv beta. rewrite (rf_nz_var 1 _ _ Q ltac:(lia)). destruct (_ && _); [rewrite EP; exact I|].
    bnz; [rewrite EP; exact I|]. do 4 rlet. rewrite EP. cbn [rfo]. apply (r_inv_finish (rf 1)); [rgw|rgw|rgw|reflexivity].
Qed.
Lemma prng_bytes h cnt : hash8 h -> bytes_n 32 (ellswift_prng h cnt).
Proof. intros H. unfold ellswift_prng. cbv zeta. apply finalize_bytes, write_hash8, H. Qed.
Definition rell (R : fe26 -> fe -> Prop) := ropt (fun (a : list Z * fe26) (b : list Z * fe) => fst a = fst b /\ R (snd a) (snd b)).
Lemma r_xelligator x x' h : rf 1 x x' -> hash8 h -> forall fuel bh bl cnt, rell (rf 1) (xelligator_loop_w32 fuel x h bh bl cnt) (xelligator_loop fuel x' h bh bl cnt).
Proof.
  intros X H. induction fuel as [|fuel IH]; intros bh bl cnt; cbn [xelligator_loop_w32 xelligator_loop]; [exact I|].
  destruct (if bl =? 0 then _ else _) as [[bh' bl'] cnt']. cbv zeta. destruct (prng_bytes h cnt' H) as [B L].
  set (br := Z.land _ 7). pose proof (r_inv (rfo 1) x x' _ _ br X (rt_rf _ _ (rt_set_b32_mod _ B L)) eq_refl) as R.
  destruct (xswiftec_inv_var_w32 _ _ _), (xswiftec_inv_var _ _ _); try contradiction R; [|apply IH]. split; [reflexivity|exact R].
Qed.
Lemma r_elligator fuel g g' h : rf 1 (gx_w32 g) (gx g') -> f26_is_odd (gy_w32 g) = fe_is_odd (gy g') -> hash8 h -> rell rn (elligatorswift_var_w32 fuel g h) (elligatorswift_var fuel g' h).
Proof.
  intros X Y H. unfold elligatorswift_var_w32, elligatorswift_var, xelligatorswift_var_w32, xelligatorswift_var. pose proof (r_xelligator _ _ h X H fuel (zeros 32) 0 0) as R.
  destruct (xelligator_loop_w32 _ _ _ _ _ _) as [[u t]|], (xelligator_loop _ _ _ _ _ _) as [[u' t']|]; try contradiction R; [|exact I]. destruct R as [E T]. cbn [fst snd] in E, T. subst u'. cbv zeta.
  pose proof (rn_normalize_var 1 _ _ T ltac:(lia)) as N. rewrite Y, (rn_is_odd _ _ N). destruct (negb _); (split; [reflexivity|]); [|exact N].
  cbn [snd]. apply (rn_normalize_var 2); [|lia]. pose proof (rn_rf _ _ N). rgo.
Qed.
Lemma a_ell_encode fuel o pk rnd : opt_bytes 64 pk -> ellswift_encode_w32 fuel o pk rnd = ellswift_encode fuel o pk rnd.
Proof.
  intros B. unfold ellswift_encode_w32, ellswift_encode. destruct o; [|reflexivity]. destruct pk as [pk|]; [|reflexivity]. destruct rnd as [rnd|]; [|reflexivity]. cbv zeta.
  rload pk (B _ eq_refl). destruct b; [|reflexivity]. rewrite (r_pubkey_serialize _ _ true (rg44 1 1 _ _ (rgt_rge _ _ L0) ltac:(lia) ltac:(lia))).
  set (h := sha256_write (sha256_write ellswift_sha256_init_encode _) _). assert (H : hash8 h) by (do 2 apply write_hash8; reflexivity).
  destruct L0 as (X & Y & _). pose proof (r_elligator fuel _ _ h (rt_rf _ _ X) (rt_is_odd _ _ Y) H) as R.
  destruct (elligatorswift_var_w32 _ _ _) as [[u t]|], (elligatorswift_var _ _ _) as [[u' t']|]; try contradiction R; [|reflexivity]. destruct R as [E T]. cbn [fst snd] in E, T. subst u'.
  rewrite (rn_get_b32 _ _ T). reflexivity.
Qed.
Lemma a_ell_create fuel c c' o key aux : rctx c c' -> opt_bytes 32 key -> ellswift_create_w32 fuel c o key aux = ellswift_create fuel c' o key aux.
Proof.
  intros (Hc & _) B. unfold ellswift_create_w32, ellswift_create. destruct o; [|reflexivity]. pose proof Hc as (E & _). rewrite E. destruct (negb _); [reflexivity|]. destruct key as [key|]; [|reflexivity]. cbv zeta.
  destruct (r_create_helper _ _ key Hc (B _ eq_refl)) as (R1 & R2 & (X & Y & _)).
  destruct (ec_pubkey_create_helper_w32 _ key) as [[ret s] q], (ec_pubkey_create_helper _ key) as [[ret' s'] q']. cbn [fst snd] in R1, R2, X, Y. subst ret'.
  set (h := match aux with Some _ => _ | None => _ end). assert (H : hash8 h) by (subst h; destruct aux; repeat apply write_hash8; reflexivity).
  pose proof (r_elligator fuel (mkge_w32 (f26_normalize_var (gx_w32 q)) (f26_normalize_var (gy_w32 q)) (ginf_w32 q)) (mkge (fe_normalize_var (gx q')) (fe_normalize_var (gy q')) (ginf q')) h
    (rn_rf _ _ (rn_normalize_var 1 _ _ X ltac:(lia))) (rn_is_odd _ _ (rn_normalize_var 1 _ _ Y ltac:(lia))) H) as R.
  destruct (elligatorswift_var_w32 _ _ _) as [[u t]|], (elligatorswift_var _ _ _) as [[u' t']|]; try contradiction R; [|reflexivity]. destruct R as [E' T]. cbn [fst snd] in E', T. subst u'.
  rewrite (rn_get_b32 _ _ T). reflexivity.
Qed.
Lemma a_ell_decode o ell : opt_bytes 64 ell -> ellswift_decode_w32 o ell = ellswift_decode o ell.
Proof.
  intros B. unfold ellswift_decode_w32, ellswift_decode. destruct o; [|reflexivity]. destruct ell as [ell|]; [|reflexivity]. cbv zeta.
  destruct (bytes_first 32 32 ell (B _ eq_refl)) as [B1 L1]. destruct (bytes_first 32 0 _ (bytes_skip 32 32 ell (B _ eq_refl))) as [B2 L2].
  rewrite (r_save _ _ (rg44 1 2 _ _ (r_swiftec _ _ _ _ (rt_rf _ _ (rt_set_b32_mod _ B1 L1)) (rn_normalize_var 1 _ _ (rt_rf _ _ (rt_set_b32_mod _ B2 L2)) ltac:(lia))) ltac:(lia) ltac:(lia))). reflexivity.
Qed.
Lemma a_ell_xdh o ea eb key party hf : opt_bytes 64 ea -> opt_bytes 64 eb -> opt_bytes 32 key -> ellswift_xdh_w32 o ea eb key party hf = ellswift_xdh o ea eb key party hf.
Proof.
  intros Ba Bb Bk. unfold ellswift_xdh_w32, ellswift_xdh. destruct o; [|reflexivity]. destruct ea as [ea|]; [|reflexivity]. destruct eb as [eb|]; [|reflexivity]. destruct key as [key|]; [|reflexivity]. destruct hf as [hf|]; [|reflexivity]. cbv zeta.
  set (th := if negb (party =? 0) then ea else eb). assert (Bt : bytes_n 64 th) by (subst th; destruct (negb _); [exact (Ba _ eq_refl)|exact (Bb _ eq_refl)]).
  destruct (bytes_first 32 32 th Bt) as [B1 L1]. destruct (bytes_first 32 0 _ (bytes_skip 32 32 th Bt)) as [B2 L2].
  pose proof (r_frac rpair _ _ _ _ (rt_rf _ _ (rt_set_b32_mod _ B1 L1)) (rt_rf _ _ (rt_set_b32_mod _ B2 L2)) eq_refl) as [N D].
  destruct (xswiftec_frac_var_w32 _ _) as [xn xd], (xswiftec_frac_var _ _) as [xn' xd']. cbn [fst snd] in N, D.
  pose proof (proj1 (r_set _ (Bk _ eq_refl))) as Sk. rewrite (same_zero_test _ _ Sk). set (ov := sc_is_zero (fst (sc_set_b32 key))).
  assert (Ss : same (s8_cmov (fst (s8_set_b32 key)) s8_one (b2z ov)) (sc_cmov (fst (sc_set_b32 key)) sc_one (b2z ov))) by (apply same_cmov; [exact Sk|exact same_one|apply b2z_01]).
  pose proof (r_const_xonly _ _ (Some xd) (Some xd') _ _ true N D Ss) as R.
  rewrite (rn_get_b32 (f26_normalize (match ecmult_const_xonly_w32 xn (Some xd) (s8_cmov (fst (s8_set_b32 key)) s8_one (b2z ov)) true with Some px => px | None => f26_set_int 0 end))
    (fe_normalize (match ecmult_const_xonly xn' (Some xd') (sc_cmov (fst (sc_set_b32 key)) sc_one (b2z ov)) true with Some px => px | None => fe_set_int 0 end))); [reflexivity|].
  apply (rn_normalize 1); [|lia]. destruct (ecmult_const_xonly_w32 _ _ _ _), (ecmult_const_xonly _ _ _ _); try contradiction R; [exact R|]. apply rn_rf, rn_set_int. lia.
Qed.
