(** ElligatorSwift: the public functions. *)
Require Import ZArith List Bool Lia Field String.
From Verif Require Import NumTheory Spec SpecApi SpecHash SpecEllswift Primes ZmField Curve NField Word Bytes.
From Verif Require Import FieldModel FieldMul FieldProof FieldProof2 FieldBytes FieldOps.
From Verif Require Import ScalarModel ScalarProof ScalarProof2 ScalarMul.
From Verif Require Import GroupModel GroupProof GroupProof2 GroupProof3 GroupProof4 GroupProof5.
From Verif Require Import HashModel HashProof GenModel GenProof EcmultModel EcmultProof EcmultProof2 EcmultConst EcdsaModel ApiModel ApiVocab ApiProof ApiProof2 ApiProof3 EcdsaProof EcdsaProof2 KeyProps KeyProps2.
From Verif Require Import SpecBip340 ExtrakeysProof SchnorrModel SchnorrProof EllswiftModel EllswiftAlg EllswiftProof EllswiftInv.
Import ListNotations.
Local Open Scope Z_scope.
Local Opaque p n.
Local Notation length := List.length.

Lemma mid_ell_encode : mid_check (sh_s ellswift_sha256_init_encode) (ascii_bytes "secp256k1_ellswift_encode"%string) = true. Proof. vm_cast_no_check (eq_refl true). Qed.
Lemma mid_ell_create : mid_check (sh_s ellswift_sha256_init_create) (ascii_bytes "secp256k1_ellswift_create"%string) = true. Proof. vm_cast_no_check (eq_refl true). Qed.
Lemma mid_bip324 : mid_check (sh_s ellswift_sha256_init_bip324) (ascii_bytes "bip324_ellswift_xonly_ecdh"%string) = true. Proof. vm_cast_no_check (eq_refl true). Qed.
Local Opaque SHA256 be_bytes.

(** ** The inverse map, over the integers *)
Lemma cor_u_id (u : F) : u <> f0 -> cor_u u = u.
Proof. intros N. unfold cor_u. destruct (F_eq_dec u f0); [contradiction|reflexivity]. Qed.
Lemma cor_t_id (u t : F) : t <> f0 -> (cub u + t * t)%F <> f0 -> cor_t u t = t.
Proof. intros N N2. unfold cor_t. cbv zeta. destruct (F_eq_dec t f0); [contradiction|]. destruct (F_eq_dec _ f0); [contradiction|reflexivity]. Qed.
Lemma valid_x_fv x : valid_x (fval x) <-> issq (cub (fv x)).
Proof. apply valid_x_F. Qed.
Lemma fv_nz x : fval x mod p <> 0 -> fv x <> f0.
Proof. intros H. now apply toF_nz. Qed.
Lemma fv_eq_mod a b : fv a = fv b <-> fval a mod p = fval b mod p.
Proof. unfold fv. split; [apply toF_inj|apply toF_eq]. Qed.
Lemma p_pos : 0 < p. Proof. reflexivity. Qed.
Lemma inv_exact x u c t : fe_mag 1 x -> fe_mag 1 u -> valid_x (fval x) -> fval u mod p <> 0 ->
  xswiftec_inv_var x u c = Some t -> fe_mag 1 t /\ xswiftec (fval u) (fval t) (fval x mod p).
Proof.
  intros MX MU HX NU E. apply valid_x_fv in HX. apply fv_nz in NU. pose proof (inv_sound x u c _ _ (fx_of _ _ MX) (fx_of _ _ MU) HX NU) as H. rewrite E in H.
  destruct H as (T & XT & N0 & N1 & V). split; [exact (fx_mag _ _ _ XT)|]. apply spec_F. split; [apply Z.mod_pos_bound, p_pos|].
  change (toF (fval u)) with (fv u). change (toF (fval t)) with (fv t). rewrite (fx_fv _ _ _ XT), toF_mod, cor_u_id, cor_t_id by assumption. exact V.
Qed.
Lemma inv_distinct x u c c' t t' : fe_mag 1 x -> fe_mag 1 u -> valid_x (fval x) -> fval u mod p <> 0 -> 0 <= c < 8 -> 0 <= c' < 8 -> c <> c' ->
  xswiftec_inv_var x u c = Some t -> xswiftec_inv_var x u c' = Some t' -> fval t mod p <> fval t' mod p.
Proof.
  intros MX MU HX NU HC HC' NE E E' K. apply NE. apply valid_x_fv in HX. apply fv_nz in NU.
  exact (inv_inj x u c c' t t' _ _ (fx_of _ _ MX) (fx_of _ _ MU) HX NU HC HC' E E' (proj2 (fv_eq_mod t t') K)).
Qed.
Lemma inv_exhaustive x u T : fe_mag 1 x -> fe_mag 1 u -> valid_x (fval x) -> fval u mod p <> 0 -> T mod p <> 0 -> (fval u ^ 3 + T ^ 2 + 7) mod p <> 0 ->
  xswiftec (fval u) T (fval x mod p) -> exists c t, 0 <= c < 8 /\ xswiftec_inv_var x u c = Some t /\ fval t mod p = T mod p.
Proof.
  intros MX MU HX NU NT NS H. apply valid_x_fv in HX. apply fv_nz in NU. apply toF_nz in NT. apply toF_nz in NS.
  assert (ES : toF (fval u ^ 3 + T ^ 2 + 7) = (cub (fv u) + toF T * toF T)%F).
  { replace (fval u ^ 3 + T ^ 2 + 7) with ((fval u ^ 3 + 7) + T ^ 2) by ring. now rewrite toF_add, toF_cub, toF_sqr. }
  rewrite ES in NS. apply spec_F in H as [_ V]. change (toF (fval u)) with (fv u) in V. rewrite toF_mod, cor_u_id, cor_t_id in V by assumption.
  destruct (inv_complete x u _ _ _ (fx_of _ _ MX) (fx_of _ _ MU) HX NU NT NS V) as (c & t & HC & E & XT). exists c, t. split; [exact HC|]. split; [exact E|].
  apply toF_inj. exact (fx_fv _ _ _ XT).
Qed.

(** ** The search *)
Lemma prng_ok h m i : sha_at h m -> 0 <= i < 2 ^ 32 -> Z.of_nat (length m) < 2 ^ 61 - 4 -> ellswift_prng h i = SHA256 (m ++ le_enc 4 i).
Proof.
  intros H HI L. unfold ellswift_prng. cbv zeta.
  assert (E : [w8 i; w8 (Z.shiftr i 8); w8 (Z.shiftr i 16); w8 (Z.shiftr i 24)] = le_enc 4 i).
  { rewrite le_enc_eq. cbn [le_bytes]. unfold w8. rewrite !Z.shiftr_div_pow2, !Z.div_div by lia. reflexivity. }
  rewrite E. apply finalize_ok.
  - apply write_at; [exact H|]. unfold le_enc. apply Forall_rev, be_bytes_byte_list.
  - rewrite app_length. unfold le_enc. rewrite rev_length, be_bytes_length, Nat2Z.inj_add. change (Z.of_nat 4) with 4. lia.
Qed.
Lemma w32_range v : 0 <= w32 v < 2 ^ 32. Proof. unfold w32. apply Z.mod_pos_bound. reflexivity. Qed.
Lemma land7_range v : 0 <= Z.land v 7 < 8.
Proof. change 7 with (Z.ones 3). rewrite Z.land_ones by lia. apply Z.mod_pos_bound. reflexivity. Qed.
Lemma loop_ok fuel : forall x h bh bl cnt u32 t, 0 <= cnt < 2 ^ 32 -> xelligator_loop fuel x h bh bl cnt = Some (u32, t) ->
  exists i c, 0 <= i < 2 ^ 32 /\ 0 <= c < 8 /\ u32 = ellswift_prng h i /\ xswiftec_inv_var x (fe_set_b32_mod u32) c = Some t.
Proof.
  induction fuel as [|fuel IH]; intros x h bh bl cnt u32 t HC; cbn [xelligator_loop]; [discriminate|].
  set (st := if bl =? 0 then _ else _). assert (HC' : 0 <= snd st < 2 ^ 32) by (unfold st; destruct (bl =? 0); cbn [snd]; [apply w32_range|exact HC]).
  destruct st as [[bh' bl'] cnt']. cbn [snd] in HC'. cbv zeta.
  match goal with |- context [xswiftec_inv_var x _ ?b] => set (c := b) end. assert (HB : 0 <= c < 8) by apply land7_range. clearbody c.
  destruct (xswiftec_inv_var x _ c) as [t'|] eqn:EI; intros E.
  - exists cnt', c. assert (u32 = ellswift_prng h cnt') as -> by congruence. assert (t = t') as -> by congruence. auto.
  - apply IH in E; [exact E|apply w32_range].
Qed.
Lemma inv_fx x u c t (X U : F) : fx 1 x X -> fx 1 u U -> issq (cub X) -> xswiftec_inv_var x u c = Some t -> fe_mag 1 t.
Proof.
  intros XX XU HX. rewrite inv_core_eq. apply (fx_norm_weak 1) in XX; [|reflexivity]. apply (fx_norm_weak 1) in XU; [|reflexivity].
  pose proof (inv_core_ok _ _ (negb (Z.land c 2 =? 0)) (negb (Z.land c 1 =? 0)) X U XX XU HX) as H.
  destruct (inv_core _ _ _ _) as [[s v]|]; [|discriminate]. destruct H as (S0 & V & XS & XV & C).
  destruct (finish_ok s _ v c S0 U V XS XU XV (proj1 C)) as (w & _ & _ & XT). intros E. assert (t = inv_finish s (fe_normalize_weak u) v c) as -> by congruence. exact (fx_mag _ _ _ XT).
Qed.
(** The parity of t is made that of y. *)
Lemma xswiftec_neg u t x : t mod p <> 0 -> xswiftec u t x -> xswiftec u ((- t) mod p) x.
Proof.
  intros N H. apply toF_nz in N. apply spec_F in H as [R V]. apply spec_F. split; [exact R|]. rewrite toF_mod, toF_opp.
  assert (E : (cor_t (cor_u (toF u)) (- toF t) * cor_t (cor_u (toF u)) (- toF t) = cor_t (cor_u (toF u)) (toF t) * cor_t (cor_u (toF u)) (toF t))%F); [|now rewrite E].
  unfold cor_t. cbv zeta. destruct (F_eq_dec (toF t) f0); [contradiction|]. set (T := toF t) in *. clearbody T.
  destruct (F_eq_dec (- T)%F f0) as [K|K]. { exfalso. apply N. rewrite (fopp_opp T), K. ring. }
  replace (- T * - T)%F with (T * T)%F by ring. destruct (F_eq_dec (cub (cor_u (toF u)) + T * T)%F f0); ring.
Qed.
Lemma xswiftec_mod u t x : xswiftec u t x -> xswiftec (u mod p) (t mod p) x.
Proof. intros H. apply spec_F in H as [R V]. apply spec_F. split; [exact R|]. rewrite !toF_mod. exact V. Qed.
Lemma xswiftec_mod_u u t x : xswiftec u t x <-> xswiftec (u mod p) t x.
Proof. rewrite !spec_F, toF_mod. reflexivity. Qed.
Lemma bytes_n_app a b (x y : list Z) : bytes_n a x -> bytes_n b y -> bytes_n (a + b) (x ++ y).
Proof. intros [B1 L1] [B2 L2]. split; [now apply byte_list_app|now rewrite app_length, L1, L2]. Qed.
Lemma sha_bytes m : bytes_n 32 (SHA256 m). Proof. split; [apply SHA256_bytes|apply SHA256_length]. Qed.
Lemma be32_bytes v : bytes_n 32 (be_bytes 32 v). Proof. split; [apply be_bytes_byte_list|apply be_bytes_length]. Qed.
Lemma elligator_ok fuel g h m x y u32 t : ge_rep f1 g (Aff x y) -> fe_norm (gx g) -> fe_norm (gy g) -> sha_at h m -> Z.of_nat (length m) < 2 ^ 61 - 4 ->
  elligatorswift_var fuel g h = Some (u32, t) ->
  exists i, 0 <= i < 2 ^ 32 /\ u32 = SHA256 (m ++ le_enc 4 i) /\ bytes_n 64 (u32 ++ fe_get_b32 t) /\
    (be_val u32 mod p <> 0 -> ell_point (u32 ++ fe_get_b32 t) (Aff x y)).
Proof.
  intros R NX NY HS HL. unfold elligatorswift_var, xelligatorswift_var.
  destruct (xelligator_loop fuel (gx g) h (zeros 32) 0 0) as [[u' t0]|] eqn:EL; [|discriminate].
  assert (C0 : 0 <= 0 < 2 ^ 32) by (split; [apply Z.le_refl|reflexivity]). destruct (loop_ok fuel _ _ _ _ _ _ _ C0 EL) as (i & c & HI & HC & EU & EI). rewrite (prng_ok h m i HS HI HL) in EU.
  pose proof (sha_bytes (m ++ le_enc 4 i)) as BU. rewrite <- EU in BU.
  pose proof (ge_rep_oc _ _ _ R) as OC. destruct (ge_rep1_aff _ _ _ R) as (_ & EX & EY).
  assert (QX : issq (cub (fv (gx g)))).
  { rewrite EX. exists (toF y). unfold cub, b7. pose proof (proj2 (proj2 OC)) as EQ. rewrite <- toF_mul. replace (toF x * toF x * toF x + toF 7)%F with (toF (x * x * x + 7)) by now rewrite toF_add, !toF_mul. now apply toF_eq. }
  assert (MX : fe_mag 1 (gx g)) by now apply fe_norm_mag.
  assert (M0 : fe_mag 1 t0) by exact (inv_fx _ _ _ _ _ _ (fx_of _ _ MX) (fx_b32_mod _ BU) QX EI).
  assert (M32 : fe_mag 32 t0) by (eapply mag_weaken; [exact M0|lia]). destruct (fe_normalize_ok t0 M32) as [N1 V1]. rewrite (fe_normalize_var_eq t0 M32) in *.
  assert (XX : fval (gx g) = x) by (exact (fval_of_rep _ _ _ R NX)). assert (YY : fval (gy g) = y) by (exact (fval_of_rep_y _ _ _ R NY)).
  assert (SOUND : be_val u' mod p <> 0 -> fval t0 mod p <> 0 /\ xswiftec (be_val u') (fval t0) x).
  { intros NU. pose proof (fx_b32_mod _ BU) as XU. assert (NU' : fval (fe_set_b32_mod u') mod p <> 0). { apply toF_nz in NU. rewrite <- (fx_fv _ _ _ XU) in NU. intros K. apply NU. now apply toF_0_iff. }
    assert (VX : valid_x (fval (gx g))) by now apply valid_x_fv.
    pose proof (fv_nz _ NU') as NU2. pose proof (inv_sound _ _ c _ _ (fx_of _ _ MX) (fx_of _ _ (fx_mag _ _ _ XU)) QX NU2) as IS. rewrite EI in IS. destruct IS as (T & XT & NT & _ & _).
    split. { intros K. apply NT. rewrite <- (fx_fv _ _ _ XT). now apply toF_0_iff. }
    destruct (inv_exact _ _ _ _ MX (fx_mag _ _ _ XU) VX NU' EI) as [_ XS]. rewrite XX, (Z.mod_small x p) in XS by apply OC.
    rewrite xswiftec_mod_u in XS. rewrite xswiftec_mod_u. replace (be_val u' mod p) with (fval (fe_set_b32_mod u') mod p); [exact XS|]. apply toF_inj. exact (fx_fv _ _ _ XU). }
  assert (FIN : forall t1, fe_norm t1 -> (be_val u' mod p <> 0 -> Z.odd (fval t1) = Z.odd y) -> (be_val u' mod p <> 0 -> xswiftec (be_val u') (fval t1) x) ->
    bytes_n 64 (u' ++ fe_get_b32 t1) /\ (be_val u' mod p <> 0 -> ell_point (u' ++ fe_get_b32 t1) (Aff x y))).
  { intros t1 NT1 OD XS. rewrite fe_get_b32_ok by exact NT1. split; [exact (bytes_n_app 32 32 _ _ BU (be32_bytes _))|]. intros NU. unfold ell_point, ell_u, ell_t.
    assert (E1 : firstn 32 (u' ++ be_bytes 32 (fval t1)) = u') by (rewrite firstn_app, (proj2 BU), Nat.sub_diag, firstn_all2 by (rewrite (proj2 BU); lia); cbn [firstn]; apply app_nil_r).
    assert (E2 : skipn 32 (u' ++ be_bytes 32 (fval t1)) = be_bytes 32 (fval t1)) by (rewrite skipn_app, (proj2 BU), Nat.sub_diag, skipn_all2 by (rewrite (proj2 BU); lia); reflexivity).
    rewrite E1, E2. pose proof (norm_val _ NT1) as RT. rewrite x32 by exact RT. split; [exact OC|]. split; [now apply XS|]. rewrite Z.mod_small by exact RT. symmetry. now apply OD. }
  destruct (Bool.eqb (fe_is_odd (fe_normalize t0)) (fe_is_odd (gy g))) eqn:EO; cbn [negb]; intros E; assert (u32 = u') as -> by congruence; exists i; (split; [exact HI|]); (split; [exact EU|]).
  - assert (t = fe_normalize t0) as -> by congruence. apply FIN; [exact N1| |].
    + intros _. apply eqb_prop in EO. rewrite !fe_is_odd_spec, YY in EO by assumption. exact EO.
    + intros NU. destruct (SOUND NU) as [_ XS]. rewrite V1. apply xswiftec_mod in XS. rewrite <- xswiftec_mod_u in XS. exact XS.
  - assert (EN : t = fe_normalize_var (fe_negate (fe_normalize t0) 1)) by congruence. pose proof (fe_norm_mag _ N1) as MN.
    pose proof (fx_negate _ 1 _ _ (fx_of _ _ MN) eq_refl) as XN. pose proof (fx_mag_w _ 32 _ _ XN eq_refl) as MN32. rewrite fe_normalize_var_eq in EN by exact MN32.
    destruct (fe_normalize_ok _ MN32) as [N2 V2]. rewrite <- EN in N2, V2.
    assert (V3 : fval t = (- (fval t0)) mod p).
    { rewrite V2. apply toF_inj. change (fv (fe_negate (fe_normalize t0) 1) = toF (- fval t0)). rewrite (fx_fv _ _ _ XN). unfold fv. rewrite V1, toF_opp, toF_mod. reflexivity. }
    apply FIN; [exact N2| |].
    + intros NU. destruct (SOUND NU) as [NT _]. apply eqb_false_iff in EO. rewrite !fe_is_odd_spec, YY, V1 in EO by assumption.
      rewrite V3, <- Z.sub_0_l. rewrite <- Zminus_mod_idemp_r, Z.sub_0_l. pose proof (Z.mod_pos_bound (fval t0) p p_pos) as RM.
      rewrite odd_p_sub by lia. destruct (Z.odd (fval t0 mod p)), (Z.odd y); congruence || reflexivity.
    + intros NU. destruct (SOUND NU) as [NT XS]. rewrite V3. now apply xswiftec_neg.
Qed.

(** ** secp256k1_ellswift_encode *)
Local Opaque SHA256 tagged_hash.
Definition ell_tag_encode := ascii_bytes "secp256k1_ellswift_encode"%string.
Definition ell_tag_create := ascii_bytes "secp256k1_ellswift_create"%string.
Lemma sha_tag tag m : SHA256 ((SHA256 tag ++ SHA256 tag) ++ m) = tagged_hash tag m.
Proof. Transparent tagged_hash. unfold tagged_hash. now rewrite app_assoc. Opaque tagged_hash. Qed.
Lemma zeros_bytes k : bytes_n k (repeat 0 k). Proof. split; [apply byte_list_repeat; lia|apply repeat_length]. Qed.
Lemma enc_compressed_bytes x y : bytes_n 33 (enc_compressed x y).
Proof. unfold enc_compressed. split; [apply byte_list_cons; split; [destruct (Z.odd y); lia|apply be_bytes_byte_list]|cbn [length]; now rewrite be_bytes_length]. Qed.
Lemma encode_ok fuel init pk Q rnd r : pubkey_holds pk Q -> bytes_n 32 rnd -> ellswift_encode fuel (Some init) (Some pk) (Some rnd) = Some r ->
  exists ell i, r = mkres 1 0 (Some ell) /\ bytes_n 64 ell /\ 0 <= i < 2 ^ 32 /\
    firstn 32 ell = tagged_hash ell_tag_encode (enc_compressed (xcoord Q) (ycoord Q) ++ repeat 0 31 ++ rnd ++ le_enc 4 i) /\
    (ell_u ell mod p <> 0 -> ell_point ell Q).
Proof.
  intros H BR. destruct (pubkey_load_ok _ _ H) as (L & R & NX & NY). destruct Q as [|x y]; [destruct H|]. unfold ellswift_encode.
  destruct (pubkey_load pk) as [ok g]. cbn [fst snd] in *. subst ok. rewrite (serialize_ok g x y true R). cbv zeta.
  set (e := enc_compressed x y). pose proof (enc_compressed_bytes x y) as BE. fold e in BE.
  assert (E64 : copy_at 0 e (zeros 64) = e ++ repeat 0 31).
  { unfold copy_at. cbn [firstn app]. rewrite (proj2 BE). unfold zeros. reflexivity. }
  rewrite E64. rewrite (firstn_all2 rnd) by (rewrite (proj2 BR); lia).
  assert (SA : sha_at (sha256_write (sha256_write ellswift_sha256_init_encode (e ++ repeat 0 31)) rnd) (((SHA256 ell_tag_encode ++ SHA256 ell_tag_encode) ++ e ++ repeat 0 31) ++ rnd)).
  { apply write_at; [|apply BR]. apply write_at; [exact (mid_check_at _ _ mid_ell_encode)|]. apply byte_list_app; split; [apply BE|apply zeros_bytes]. }
  destruct (elligatorswift_var _ _ _) as [[u32 t]|] eqn:EV; [|discriminate]. intros E. assert (r = mkres 1 0 (Some (u32 ++ fe_get_b32 t))) as -> by congruence.
  destruct (elligator_ok _ _ _ _ _ _ _ _ R NX NY SA ltac:(rewrite !app_length, !SHA256_length, (proj2 BE), repeat_length, (proj2 BR); lia) EV) as (i & HI & EU & B64 & EP).
  assert (EF : firstn 32 (u32 ++ fe_get_b32 t) = u32). { assert (LU : length u32 = 32%nat) by (rewrite EU; apply SHA256_length). rewrite firstn_app, LU, Nat.sub_diag, firstn_all2 by lia. cbn [firstn]. apply app_nil_r. }
  exists (u32 ++ fe_get_b32 t), i. split; [reflexivity|]. split; [exact B64|]. split; [exact HI|]. rewrite EF. split.
  - rewrite EU, <- sha_tag. cbn [xcoord ycoord]. fold e. rewrite <- !app_assoc. reflexivity.
  - unfold ell_u. rewrite EF. exact EP.
Qed.
Lemma prop_encode_decode fuel init init' pk Q rnd ell : pubkey_holds pk Q -> bytes_n 32 rnd ->
  ellswift_encode fuel (Some init) (Some pk) (Some rnd) = Some (mkres 1 0 (Some ell)) -> ell_u ell mod p <> 0 ->
  ellswift_decode (Some init') (Some ell) = mkres 1 0 (Some pk).
Proof.
  intros H BR E NU. destruct (encode_ok _ _ _ _ _ _ H BR E) as (ell' & i & EE & B & _ & _ & EP). assert (ell = ell') as <- by congruence. clear EE.
  destruct (decode_ok init' ell B) as (pk' & Q' & -> & HP & EP'). rewrite (ell_point_fun _ _ _ EP' (EP NU)) in HP. do 2 f_equal. exact (pubkey_holds_inj _ _ _ HP H).
Qed.

(** ** secp256k1_ellswift_create *)
Lemma norm_ge g P : ge_rep f1 g P -> P <> Inf ->
  let g' := mkge (fe_normalize_var (gx g)) (fe_normalize_var (gy g)) (ginf g) in ge_rep f1 g' P /\ fe_norm (gx g') /\ fe_norm (gy g').
Proof.
  intros R NI. destruct P as [|x y]; [congruence|]. destruct R as (M1 & M2 & OC & EI & EX & EY). cbn [gx gy ginf].
  assert (W1 : fe_mag 32 (gx g)) by (eapply mag_weaken; [exact M1|lia]). assert (W2 : fe_mag 32 (gy g)) by (eapply mag_weaken; [exact M2|lia]).
  rewrite !fe_normalize_var_eq by assumption. pose proof (fe_normalize_norm _ W1) as N1. pose proof (fe_normalize_norm _ W2) as N2.
  split; [|split; [exact N1|exact N2]]. split; [cbn [gx]; eapply mag_weaken; [exact (fe_norm_mag _ N1)|lia]|]. split; [cbn [gy]; eapply mag_weaken; [exact (fe_norm_mag _ N2)|lia]|].
  split; [exact OC|]. cbn [gx gy ginf]. rewrite !fe_normalize_fv by assumption. auto.
Qed.
Lemma create_ok fuel ctx init key aux r : usable_context ctx -> bytes_n 32 key -> match aux with Some a => bytes_n 32 a | None => True end ->
  ellswift_create fuel ctx (Some init) (Some key) aux = Some r ->
  (1 <= be_val key < n /\ exists ell i, r = mkres 1 0 (Some ell) /\ bytes_n 64 ell /\ 0 <= i < 2 ^ 32 /\
     firstn 32 ell = tagged_hash ell_tag_create (key ++ repeat 0 32 ++ (match aux with Some a => a | None => [] end) ++ le_enc 4 i) /\
     (ell_u ell mod p <> 0 -> ell_point ell (pmul (be_val key) G))) \/
  (~ 1 <= be_val key < n /\ r = mkres 0 0 (Some (repeat 0 64))).
Proof.
  intros UC BK BA. apply usable_ctx in UC as [GC GB]. unfold ellswift_create. rewrite GB. cbn [negb].
  pose proof (pubkey_create_helper_ok (c_gen ctx) key GC BK) as HC. destruct (ec_pubkey_create_helper (c_gen ctx) key) as [[ret s] q]. destruct HC as (KS & R & NI & C).
  cbv zeta. destruct (norm_ge _ _ R NI) as (R' & NX & NY). cbv zeta in *. set (g := mkge _ _ _) in *. clearbody g.
  rewrite (firstn_all2 key) by (rewrite (proj2 BK); lia).
  set (au := match aux with Some a => a | None => [] end). assert (BAU : byte_list au /\ (length au <= 32)%nat).
  { unfold au. destruct aux as [a|]; [split; [apply BA|rewrite (proj2 BA); lia]|split; [apply byte_list_nil|cbn; lia]]. }
  set (h := match aux with Some a => _ | None => _ end).
  assert (SA : sha_at h ((((SHA256 ell_tag_create ++ SHA256 ell_tag_create) ++ key) ++ repeat 0 32) ++ au)).
  { assert (S1 : sha_at (sha256_write (sha256_write ellswift_sha256_init_create key) (zeros 32)) (((SHA256 ell_tag_create ++ SHA256 ell_tag_create) ++ key) ++ repeat 0 32)).
    { apply write_at; [|apply zeros_bytes]. apply write_at; [exact (mid_check_at _ _ mid_ell_create)|apply BK]. }
    unfold h, au. destruct aux as [a|]; [|now rewrite app_nil_r]. rewrite (firstn_all2 a) by (rewrite (proj2 BA); lia). apply write_at; [exact S1|apply BA]. }
  clearbody h. destruct (elligatorswift_var _ _ _) as [[u32 t]|] eqn:EV; [|discriminate]. intros E. assert (ER : r = mkres (b2z ret) 0 (Some (memczero (u32 ++ fe_get_b32 t) (b2z (negb ret))))) by congruence. clear E. subst r.
  destruct (pmul (sv s) G) as [|x y] eqn:EP; [congruence|].
  destruct (elligator_ok _ _ _ _ _ _ _ _ R' NX NY SA ltac:(rewrite !app_length, !SHA256_length, (proj2 BK), repeat_length; destruct BAU; lia) EV) as (i & HI & EU & B64 & EQ).
  assert (EF : firstn 32 (u32 ++ fe_get_b32 t) = u32). { assert (LU : length u32 = 32%nat) by (rewrite EU; apply SHA256_length). rewrite firstn_app, LU, Nat.sub_diag, firstn_all2 by lia. cbn [firstn]. apply app_nil_r. }
  destruct C as [(V & -> & ES)|(V & -> & ES)]; cbn [negb b2z].
  - left. split; [apply V|]. exists (u32 ++ fe_get_b32 t), i. rewrite memczero_false by apply B64. split; [reflexivity|]. split; [exact B64|]. split; [exact HI|]. rewrite EF. split.
    + rewrite EU, <- sha_tag. rewrite <- !app_assoc. reflexivity.
    + unfold ell_u. rewrite EF. intros NU. rewrite <- ES, EP. now apply EQ.
  - right. split; [intros K; apply V; split; assumption|]. rewrite memczero_true, (proj2 B64). reflexivity.
Qed.

(** ** secp256k1_ellswift_xdh *)
Lemma xdh_ok out ella ellb key party hf : bytes_n 64 ella -> bytes_n 64 ellb -> bytes_n 32 key ->
  let theirs := if party =? 0 then ellb else ella in let d := be_val key mod n in
  exists Q, ell_point theirs Q /\
  ((d <> 0 /\ forall ret out', hf out (be_bytes 32 (xcoord (pmul d Q))) ella ellb = (ret, out') ->
      ellswift_xdh (Some out) (Some ella) (Some ellb) (Some key) party (Some hf) = mkres (if ret =? 0 then 0 else 1) 0 (Some out')) \/
   (d = 0 /\ r_ret (ellswift_xdh (Some out) (Some ella) (Some ellb) (Some key) party (Some hf)) = 0 /\
      r_ill (ellswift_xdh (Some out) (Some ella) (Some ellb) (Some key) party (Some hf)) = 0)).
Proof.
  intros BA BB BK theirs d. assert (BT : bytes_n 64 theirs) by (unfold theirs; destruct (party =? 0); assumption).
  destruct (decode_ok [] theirs BT) as (_ & Q & _ & _ & EP). exists Q. split; [exact EP|].
  destruct (sc_set_b32_case key BK) as (KS & VS & _). fold d in VS. unfold ellswift_xdh. destruct (sc_set_b32 key) as [s ov]. cbn [fst snd] in *.
  assert (ET : (if negb (party =? 0) then ella else ellb) = theirs) by (unfold theirs; destruct (party =? 0); reflexivity). rewrite ET. clear ET. clearbody theirs.
  destruct (ell_parts theirs BT) as (B1 & B2 & E2). rewrite E2.
  destruct (frac_ok _ _ _ _ (fx_b32_mod _ B1) (fx_b32_mod _ B2)) as (x & (M1 & M2 & N2 & EX) & V).
  destruct (xswiftec_frac_var _ _) as [xn xd]. cbn [fst snd] in *. cbv zeta.
  rewrite sc_is_zero_spec by apply KS. rewrite sc_cmov_b by (exact KS || apply sc_one_ok). rewrite VS.
  destruct (Z.eqb_spec d 0) as [Z0|Z0].
  { right. split; [exact Z0|]. destruct (hf _ _ _ _) as [ret out']. cbn [r_ret r_ill negb b2z]. rewrite Z.land_0_r. auto. }
  left. split; [exact Z0|]. destruct Q as [|qx qy]; [destruct EP|]. destruct EP as (OC & XS & OD). apply spec_F in XS as [RX VX]. pose proof (fvalid3_fun _ _ _ _ VX V) as EXQ.
  assert (EZ : zv (fv xn / xden (Some xd))%F = qx). { cbn [xden]. rewrite <- EX, <- EXQ, zv_toF. now apply Z.mod_small. }
  pose proof (ecmult_const_xonly_ok xn (Some xd) s true M1 (conj M2 N2) KS ltac:(rewrite VS; exact Z0)) as XO. cbv zeta in XO. rewrite EZ in XO.
  assert (SQ : is_square_mod_p (qx * qx * qx + 7)). { rewrite <- (Z.mod_small qx p RX), <- zv_toF. apply issq_zv. rewrite EXQ. exact (fvalid3_issq _ _ _ V). }
  specialize (XO (fun _ => SQ)). destruct (ecmult_const_xonly xn (Some xd) s true) as [px|]; [|contradiction]. destruct XO as (_ & MP & VP).
  specialize (VP qy OC). rewrite VS in VP. assert (M32 : fe_mag 32 px) by (eapply mag_weaken; [exact MP|lia]).
  assert (EB : fe_get_b32 (fe_normalize px) = be_bytes 32 (xcoord (pmul d (Aff qx qy)))).
  { rewrite fe_get_b32_ok by now apply fe_normalize_norm. f_equal. rewrite fe_normalize_fval by exact M32. rewrite VP, zv_toF. apply Z.mod_small.
    pose proof (on_curve_mul d (Aff qx qy) OC) as OP. destruct (pmul d (Aff qx qy)) as [|a b]; [split; [apply Z.le_refl|exact p_pos]|apply OP]. }
  rewrite EB. intros ret out' ->. cbn [negb b2z]. destruct (ret =? 0); reflexivity.
Qed.
