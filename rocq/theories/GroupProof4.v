(** Negation, conversions between coordinates, tests, square-root lifting. *)
Require Import ZArith List Bool Lia Ring Field.
From Verif Require ECGroup.
From Verif Require Import Word Spec ZmField Curve FieldModel FieldMul FieldProof FieldProof2 FieldBytes FieldOps GroupModel GroupProof GroupProof2 GroupProof3.
Import ListNotations.
Local Open Scope Z_scope.

Lemma fx_mul' m k a b va vb : fx m a va -> fx k b vb -> m <= 8 -> k <= 8 -> fx 1 (fe_mul a b) (va * vb)%F.
Proof. intros. eapply fx_mul; try eassumption. apply andb_true_intro. split; apply Z.leb_le; assumption. Qed.

(** ** Affine points with t = 1 *)
Lemma ge_rep1_aff a x y : ge_rep f1 a (Aff x y) -> ginf a = false /\ fv (gx a) = toF x /\ fv (gy a) = toF y.
Proof. intros (_ & _ & _ & H1 & H2 & H3). split; [exact H1|]. rewrite H2, H3. split; ring. Qed.
Lemma ge_rep1_intro a x y : fe_mag 4 (gx a) -> fe_mag 3 (gy a) -> on_curve (Aff x y) -> ginf a = false ->
  fv (gx a) = toF x -> fv (gy a) = toF y -> ge_rep f1 a (Aff x y).
Proof. intros M1 M2 OC E H1 H2. split; [exact M1|]. split; [exact M2|]. split; [exact OC|]. split; [exact E|]. rewrite H1, H2. split; ring. Qed.
Lemma ge_rep_oc t a P : ge_rep t a P -> on_curve P. Proof. intros (_ & _ & H & _). exact H. Qed.
Lemma gej_rep_oc t a P : gej_rep t a P -> on_curve P. Proof. intros (_ & _ & _ & H & _). exact H. Qed.
Lemma ge_rep_ginf t a P : ge_rep t a P -> (ginf a = true <-> P = Inf).
Proof. intros (_ & _ & _ & H). destruct P as [|x y]; [rewrite H; tauto|]. destruct H as [-> _]. split; discriminate. Qed.
Lemma gej_rep_jinf t a P : gej_rep t a P -> (jinf a = true <-> P = Inf).
Proof. intros (_ & _ & _ & _ & H). destruct P as [|x y]; [rewrite H; tauto|]. destruct H as [-> _]. split; discriminate. Qed.
Lemma ge_rep_zv a x y : ge_rep f1 a (Aff x y) -> fval (fe_normalize (gx a)) = x /\ fval (fe_normalize (gy a)) = y.
Proof.
  intros H. pose proof H as (M1 & M2 & OC & _). destruct (ge_rep1_aff _ _ _ H) as (_ & E1 & E2).
  rewrite !fe_normalize_fval by (eapply mag_weaken; [eassumption|lia]). rewrite E1, E2, !zv_toF. destruct OC as (R1 & R2 & _).
  split; apply Z.mod_small; assumption.
Qed.
Lemma ge_rep_fun t a P Q : t <> f0 -> ge_rep t a P -> ge_rep t a Q -> P = Q.
Proof.
  intros Ht (_ & _ & O1 & H1) (_ & _ & O2 & H2). destruct P as [|x y], Q as [|x' y']; try reflexivity.
  - destruct H2 as [K _]. congruence.
  - destruct H1 as [K _]. congruence.
  - destruct H1 as (_ & A1 & A2), H2 as (_ & B1 & B2). destruct O1 as (R1 & R2 & _), O2 as (S1 & S2 & _).
    rewrite A1 in B1. rewrite A2 in B2. f_equal; apply toF_range_eq; try assumption.
    + eapply (ECGroup.mul_cancel_r F _ _ _ _ _ _ _ _ F_field (t * t)%F); [now apply fmul_nz|exact B1].
    + eapply (ECGroup.mul_cancel_r F _ _ _ _ _ _ _ _ F_field (t * t * t)%F); [repeat apply fmul_nz; assumption|exact B2].
Qed.

(** ** Negation *)
Lemma toF_pneg_y y : toF ((- y) mod p) = (- toF y)%F. Proof. now rewrite toF_mod, toF_opp. Qed.
Lemma ge_neg_ok t a P : ge_rep t a P -> ge_rep t (ge_neg a) (pneg P).
Proof.
  intros H. destruct (ge_rep_mags _ _ _ H) as (X & Y & OC). unfold ge_neg, ge_rep. cbn [gx gy ginf].
  assert (XN : fx 2 (fe_negate (fe_normalize_weak (gy a)) 1) _) by (let pf := fxc (fe_negate (fe_normalize_weak (gy a)) 1) in exact pf).
  split; [apply X|]. split; [exact (fx_mag_w _ 3 _ _ XN eq_refl)|]. split; [now apply on_curve_neg|].
  destruct H as (_ & _ & _ & H). destruct P as [|x y]; [exact H|]. cbn [pneg]. destruct H as (H1 & H2 & H3). split; [exact H1|].
  split; [exact H2|]. rewrite (fx_fv _ _ _ XN), H3, toF_pneg_y. ring.
Qed.
Lemma gej_neg_ok t a P : gej_rep t a P -> gej_rep t (gej_neg a) (pneg P).
Proof.
  intros H. destruct (gej_rep_mags _ _ _ H) as (X & Y & Z & OC). unfold gej_neg, gej_rep. cbn [jx jy jz jinf].
  assert (XN : fx 2 (fe_negate (fe_normalize_weak (jy a)) 1) _) by (let pf := fxc (fe_negate (fe_normalize_weak (jy a)) 1) in exact pf).
  split; [apply X|]. split; [exact (fx_mag_w _ 4 _ _ XN eq_refl)|]. split; [apply Z|]. split; [now apply on_curve_neg|].
  destruct H as (_ & _ & _ & _ & H). destruct P as [|x y]; [exact H|]. cbn [pneg]. destruct H as (H1 & H2 & H3 & H4). split; [exact H1|].
  split; [exact H2|]. cbv zeta. split; [exact H3|]. rewrite (fx_fv _ _ _ XN), H4, toF_pneg_y. ring.
Qed.

(** ** Jacobian to affine *)
Lemma zinv_alg (x z t : F) zi : z <> f0 -> (zi * z = 1)%F ->
  (x * (z * t * (z * t)) * (zi * zi) = x * (t * t))%F /\ (x * (z * t * (z * t) * (z * t)) * (zi * zi * zi) = x * (t * t * t))%F.
Proof.
  intros _ E. split.
  - transitivity (x * (t * t) * ((zi * z) * (zi * z)))%F; [ring|]. rewrite E. ring.
  - transitivity (x * (t * t * t) * ((zi * z) * (zi * z) * (zi * z)))%F; [ring|]. rewrite E. ring.
Qed.
Lemma finv_l (x : F) : x <> f0 -> (finv x * x = 1)%F.
Proof. intros H. exact (Finv_l F_field x H). Qed.

Lemma ge_set_gej_zinv_ok t a zi P : gej_rep t a P -> fe_mag 8 zi -> (jinf a = false -> (fv zi * fv (jz a) = 1)%F) ->
  ge_rep t (ge_set_gej_zinv a zi) P /\ fe_mag 1 (gx (ge_set_gej_zinv a zi)) /\ fe_mag 1 (gy (ge_set_gej_zinv a zi)).
Proof.
  intros H M E. destruct (gej_rep_mags _ _ _ H) as (X & Y & Z & OC). apply fx_of in M. unfold ge_set_gej_zinv. cbv zeta.
  fxs z2 (fe_sqr zi) X2. fxs z3 (fe_mul z2 zi) X3. fxs rx (fe_mul (jx a) z2) Xx. fxs ry (fe_mul (jy a) z3) Xy.
  unfold ge_rep. cbn [gx gy ginf]. split; [|split; [apply Xx|apply Xy]].
  split; [exact (fx_mag_w _ 4 _ _ Xx eq_refl)|]. split; [exact (fx_mag_w _ 3 _ _ Xy eq_refl)|]. split; [exact OC|].
  destruct (jinf a) eqn:Ei; [rewrite (gej_rep_inf _ _ _ H Ei); reflexivity|].
  destruct (gej_rep_fin _ _ _ H Ei) as (x & y & -> & Hz & EX & EY). split; [reflexivity|].
  rewrite (fx_fv _ _ _ Xx), (fx_fv _ _ _ Xy), EX, EY.
  split; [apply (zinv_alg (toF x)); auto|]. apply (zinv_alg (toF y)); auto.
Qed.
Lemma ge_set_ge_zinv_ok u v a zi P : ge_rep u a P -> fe_mag 8 zi -> (u * fv zi = v)%F ->
  ge_rep v (ge_set_ge_zinv a zi) P.
Proof.
  intros H M E. destruct (ge_rep_mags _ _ _ H) as (X & Y & OC). apply fx_of in M. unfold ge_set_ge_zinv. cbv zeta.
  fxs z2 (fe_sqr zi) X2. fxs z3 (fe_mul z2 zi) X3. fxs rx (fe_mul (gx a) z2) Xx. fxs ry (fe_mul (gy a) z3) Xy.
  unfold ge_rep. cbn [gx gy ginf].
  split; [exact (fx_mag_w _ 4 _ _ Xx eq_refl)|]. split; [exact (fx_mag_w _ 3 _ _ Xy eq_refl)|]. split; [exact OC|].
  destruct (ginf a) eqn:Ei; [rewrite (ge_rep_inf _ _ _ H Ei); reflexivity|].
  destruct (ge_rep_fin _ _ _ H Ei) as (x & y & -> & EX & EY). split; [reflexivity|].
  rewrite (fx_fv _ _ _ Xx), (fx_fv _ _ _ Xy), EX, EY, <- E. split; ring.
Qed.

Lemma gej_rescaled_ok t a zi P : gej_rep t a P -> fe_mag 8 zi -> (jinf a = false -> (fv zi * fv (jz a) = 1)%F) ->
  fe_mag 1 (jx (gej_rescaled a zi)) /\ fe_mag 1 (jy (gej_rescaled a zi)) /\
  ge_rep t (mkge (jx (gej_rescaled a zi)) (jy (gej_rescaled a zi)) (jinf (gej_rescaled a zi))) P.
Proof.
  intros H M E. destruct (gej_rep_mags _ _ _ H) as (X & Y & Z & OC). apply fx_of in M. unfold gej_rescaled. cbv zeta. cbn [jx jy jinf].
  fxs z2 (fe_sqr zi) X2. fxs z3 (fe_mul zi z2) X3. fxs rx (fe_mul (jx a) z2) Xx. fxs ry (fe_mul (jy a) z3) Xy.
  split; [apply Xx|]. split; [apply Xy|].
  unfold ge_rep. cbn [gx gy ginf].
  split; [exact (fx_mag_w _ 4 _ _ Xx eq_refl)|]. split; [exact (fx_mag_w _ 3 _ _ Xy eq_refl)|]. split; [exact OC|].
  destruct (jinf a) eqn:Ei; [rewrite (gej_rep_inf _ _ _ H Ei); reflexivity|].
  destruct (gej_rep_fin _ _ _ H Ei) as (x & y & -> & Hz & EX & EY). split; [reflexivity|].
  assert (EE : (fv zi * (fv zi * fv zi) = fv zi * fv zi * fv zi)%F) by ring.
  rewrite (fx_fv _ _ _ Xx), (fx_fv _ _ _ Xy), EX, EY, EE.
  split; [apply (zinv_alg (toF x)); auto|]. apply (zinv_alg (toF y)); auto.
Qed.

Lemma ge_set_gej_ok t a P : gej_rep t a P -> ge_rep t (ge_set_gej a) P /\ fe_mag 1 (gx (ge_set_gej a)) /\ fe_mag 1 (gy (ge_set_gej a)).
Proof.
  intros H. destruct (gej_rep_mags _ _ _ H) as (X & Y & Z & OC).
  pose proof (fx_inv _ _ _ Z eq_refl) as I.
  destruct (gej_rescaled_ok t a (fe_inv (jz a)) P H) as (M1 & M2 & R).
  - exact (fx_mag_w _ 8 _ _ I eq_refl).
  - intros Ei. rewrite (fx_fv _ _ _ I). destruct (gej_rep_fin _ _ _ H Ei) as (x & y & _ & Hz & _). now apply finv_l.
  - unfold ge_set_gej. cbv zeta. cbn [gx gy]. auto.
Qed.
Lemma ge_set_gej_var_ok t a P : gej_rep t a P -> ge_rep t (ge_set_gej_var a) P /\ fe_mag 1 (gx (ge_set_gej_var a)) /\ fe_mag 1 (gy (ge_set_gej_var a)).
Proof.
  intros H. destruct (gej_rep_mags _ _ _ H) as (X & Y & Z & OC). unfold ge_set_gej_var.
  destruct (jinf a) eqn:Ei.
  { rewrite (gej_rep_inf _ _ _ H Ei). split; [apply ge_infinity_rep|]. split; exact (fx_mag _ _ _ fx_int0). }
  pose proof (fx_inv_var _ _ _ Z eq_refl) as I.
  destruct (gej_rescaled_ok t a (fe_inv_var (jz a)) P H) as (M1 & M2 & R).
  - exact (fx_mag_w _ 8 _ _ I eq_refl).
  - intros _. rewrite (fx_fv _ _ _ I). destruct (gej_rep_fin _ _ _ H Ei) as (x & y & _ & Hz & _). now apply finv_l.
  - cbv zeta. unfold ge_set_xy. cbn [gx gy]. assert (EJ : jinf (gej_rescaled a (fe_inv_var (jz a))) = false) by exact Ei.
    rewrite EJ in R. auto.
Qed.

(** ** Rescaling and conditional move *)
Lemma gej_rescale_ok t a s P : gej_rep t a P -> fe_mag 8 s -> fv s <> f0 -> gej_rep t (gej_rescale a s) P.
Proof.
  intros H M N. destruct (gej_rep_mags _ _ _ H) as (X & Y & Z & OC). apply fx_of in M. unfold gej_rescale. cbv zeta.
  fxs zz (fe_sqr s) X2. fxs rx (fe_mul (jx a) zz) Xx. fxs ry (fe_mul (fe_mul (jy a) zz) s) Xy. fxs rz (fe_mul (jz a) s) Xz.
  unfold gej_rep. cbn [jx jy jz jinf].
  split; [exact (fx_mag_w _ 4 _ _ Xx eq_refl)|]. split; [exact (fx_mag_w _ 4 _ _ Xy eq_refl)|]. split; [apply Xz|]. split; [exact OC|].
  destruct (jinf a) eqn:Ei; [rewrite (gej_rep_inf _ _ _ H Ei); reflexivity|].
  destruct (gej_rep_fin _ _ _ H Ei) as (x & y & -> & Hz & EX & EY). split; [reflexivity|]. rewrite (fx_fv _ _ _ Xz).
  split; [now apply fmul_nz|]. cbv zeta. rewrite (fx_fv _ _ _ Xx), (fx_fv _ _ _ Xy), EX, EY. split; ring.
Qed.
Lemma gej_cmov_ok t a b P Q (flag : bool) : gej_rep t a P -> gej_rep t b Q ->
  gej_cmov a b (b2z flag) = if flag then b else a.
Proof.
  intros (A1 & A2 & A3 & _) (B1 & B2 & B3 & _). unfold gej_cmov.
  assert (F01 : b2z flag = 0 \/ b2z flag = 1) by (destruct flag; cbn; auto).
  rewrite (fe_cmov_ok 4 (jx a) (jx b)), (fe_cmov_ok 4 (jy a) (jy b)), (fe_cmov_ok 1 (jz a) (jz b)) by first [assumption|lia].
  destruct a as [ax ay az ai], b as [bx by_ bz bi]. cbn [jx jy jz jinf]. destruct flag; cbn [b2z Z.eqb negb]; destruct ai, bi; reflexivity.
Qed.

(** ** Equality tests *)
Lemma padd_neg_eq P Q : on_curve P -> on_curve Q -> (padd (pneg P) Q = Inf <-> P = Q).
Proof.
  intros HP HQ. split.
  - intros E. apply pneg_unique in E; [|now apply on_curve_neg|exact HQ]. rewrite pneg_involutive in E by exact HP. now symmetry.
  - intros ->. now apply padd_neg_l.
Qed.
Lemma gej_eq_var_ok t a b P Q : t <> f0 -> gej_rep t a P -> gej_rep t b Q -> (gej_eq_var a b = true <-> P = Q).
Proof.
  intros Ht HA HB. unfold gej_eq_var. pose proof (gej_add_var_ok t _ _ _ _ Ht (gej_neg_ok _ _ _ HA) HB) as H.
  rewrite (gej_rep_jinf _ _ _ H). apply padd_neg_eq; [exact (gej_rep_oc _ _ _ HA)|exact (gej_rep_oc _ _ _ HB)].
Qed.
Lemma gej_eq_ge_var_ok t a b P Q : t <> f0 -> gej_rep t a P -> ge_rep t b Q -> (gej_eq_ge_var a b = true <-> P = Q).
Proof.
  intros Ht HA HB. unfold gej_eq_ge_var. pose proof (proj1 (gej_add_ge_var_ok t _ _ _ _ Ht (gej_neg_ok _ _ _ HA) HB)) as H.
  rewrite (gej_rep_jinf _ _ _ H). apply padd_neg_eq; [exact (gej_rep_oc _ _ _ HA)|exact (ge_rep_oc _ _ _ HB)].
Qed.
Lemma ge_eq_var_ok a b P Q : ge_rep f1 a P -> ge_rep f1 b Q -> (ge_eq_var a b = true <-> P = Q).
Proof.
  intros HA HB. unfold ge_eq_var. destruct (ge_rep_mags _ _ _ HA) as (XA & YA & OA). destruct (ge_rep_mags _ _ _ HB) as (XB & YB & OB).
  destruct (ginf a) eqn:Ea, (ginf b) eqn:Eb; cbn [Bool.eqb negb].
  - rewrite (ge_rep_inf _ _ _ HA Ea), (ge_rep_inf _ _ _ HB Eb). tauto.
  - rewrite (ge_rep_inf _ _ _ HA Ea). destruct (ge_rep_fin _ _ _ HB Eb) as (x & y & -> & _). split; discriminate.
  - rewrite (ge_rep_inf _ _ _ HB Eb). destruct (ge_rep_fin _ _ _ HA Ea) as (x & y & -> & _). split; discriminate.
  - destruct (ge_rep_fin _ _ _ HA Ea) as (x & y & -> & _). destruct (ge_rep_fin _ _ _ HB Eb) as (x' & y' & -> & _).
    destruct (ge_rep1_aff _ _ _ HA) as (_ & EX & EY). destruct (ge_rep1_aff _ _ _ HB) as (_ & EX' & EY').
    pose proof (fx_norm_weak _ _ _ XA eq_refl) as NX. pose proof (fx_norm_weak _ _ _ YA eq_refl) as NY.
    pose proof (fe_equal_spec 4 _ _ (fx_mag _ _ _ NX) (fx_mag _ _ _ XB) ltac:(lia)) as SX.
    pose proof (fe_equal_spec 3 _ _ (fx_mag _ _ _ NY) (fx_mag _ _ _ YB) ltac:(lia)) as SY.
    rewrite (fx_fv _ _ _ NX), EX, EX' in SX. rewrite (fx_fv _ _ _ NY), EY, EY' in SY.
    destruct OA as (R1 & R2 & _), OB as (S1 & S2 & _).
    destruct (fe_equal (fe_normalize_weak (gx a)) (gx b)); cbn [negb].
    + destruct (fe_equal (fe_normalize_weak (gy a)) (gy b)); cbn [negb].
      * split; [|reflexivity]. intros _. f_equal; apply toF_range_eq; try assumption; [now apply SX|now apply SY].
      * split; [discriminate|]. intros E. injection E as <- <-. now apply SY.
    + split; [discriminate|]. intros E. injection E as <- <-. now apply SX.
Qed.
Lemma gej_eq_x_var_ok x a P : gej_rep f1 a P -> P <> Inf -> fe_mag 8 x -> (gej_eq_x_var x a = true <-> fv x = toF (xcoord P)).
Proof.
  intros H NI M. destruct (gej_rep_mags _ _ _ H) as (X & Y & Z & OC). apply fx_of in M. unfold gej_eq_x_var. cbv zeta.
  destruct (jinf a) eqn:Ei; [exfalso; apply NI; exact (gej_rep_inf _ _ _ H Ei)|].
  destruct (gej_rep_fin _ _ _ H Ei) as (x' & y & -> & Hz & EX & EY).
  assert (XR : fx 1 (fe_mul (fe_sqr (jz a)) x) _) by (let pf := fxc (fe_mul (fe_sqr (jz a)) x) in exact pf).
  rewrite (fe_equal_spec 4 _ _ (fx_mag _ _ _ XR) (fx_mag _ _ _ X)) by lia. rewrite (fx_fv _ _ _ XR), EX. cbn [xcoord].
  split.
  - intros E. apply (ECGroup.mul_cancel_r F _ _ _ _ _ _ _ _ F_field (fv (jz a) * fv (jz a))%F); [now apply fmul_nz|].
    transitivity (fv (jz a) * fv (jz a) * fv x)%F; [ring|]. rewrite E. ring.
  - intros ->. ring.
Qed.

(** ** Curve membership and lifting an x coordinate *)
Lemma fx_curve_b : 0 <= curve_b <= 0x7FFF. Proof. unfold curve_b. lia. Qed.
Lemma ge_is_valid_var_ok a : fe_mag 4 (gx a) -> fe_mag 3 (gy a) -> ginf a = false ->
  (ge_is_valid_var a = true <-> on_curve (Aff (zv (fv (gx a))) (zv (fv (gy a))))).
Proof.
  intros M1 M2 E. unfold ge_is_valid_var. rewrite E. apply fx_of in M1, M2. cbv zeta.
  assert (X2 : fx 1 (fe_sqr (gy a)) _) by (let pf := fxc (fe_sqr (gy a)) in exact pf).
  assert (X3 : fx 2 (fe_add_int (fe_mul (fe_sqr (gx a)) (gx a)) 7) _) by (let pf := fxc (fe_add_int (fe_mul (fe_sqr (gx a)) (gx a)) 7) in exact pf).
  change curve_b with 7.
  rewrite (fe_equal_spec 2 _ _ (fx_mag _ _ _ X2) (fx_mag _ _ _ X3)) by lia. rewrite (fx_fv _ _ _ X2), (fx_fv _ _ _ X3).
  unfold on_curve. pose proof (F_zv_range (fv (gx a))) as RX. pose proof (F_zv_range (fv (gy a))) as RY.
  split.
  - intros K. split; [exact RX|]. split; [exact RY|]. apply toF_inj. rewrite toF_add, !toF_mul, !toF_zv. exact K.
  - intros (_ & _ & K). apply toF_eq in K. rewrite toF_add, !toF_mul, !toF_zv in K. exact K.
Qed.

Lemma is_square_F (a : fe) : is_square_mod_p (fval a) <-> exists y : F, (y * y)%F = fv a.
Proof.
  rewrite F_square_iff. unfold is_square_mod_p, fv. rewrite zv_toF.
  split; intros [b H]; exists b; [now rewrite Zmod_mod|now rewrite Zmod_mod in H].
Qed.
Lemma is_square_F' (v : Z) : is_square_mod_p v <-> exists y : F, (y * y)%F = toF v.
Proof.
  rewrite F_square_iff. unfold is_square_mod_p. rewrite zv_toF.
  split; intros [b H]; exists b; [now rewrite Zmod_mod|now rewrite Zmod_mod in H].
Qed.
Lemma cubic_fv (x : F) : toF (zv x * zv x * zv x + 7) = (x * x * x + b7)%F.
Proof. rewrite toF_add, !toF_mul, toF_zv. reflexivity. Qed.

Lemma odd_p_sub y : 0 < y < p -> Z.odd ((- y) mod p) = negb (Z.odd y).
Proof.
  intros H. replace ((- y) mod p) with (p - y).
  - rewrite Z.odd_sub. replace (Z.odd p) with true by reflexivity. now destruct (Z.odd y).
  - symmetry. rewrite Z.mod_opp_l_nz; rewrite ?(Z.mod_small y p) by lia; lia.
Qed.

Lemma ge_set_xo_var_ok x odd : fe_mag 4 x ->
  let X := zv (fv x) in
  (fst (ge_set_xo_var x odd) = true <-> is_square_mod_p (X * X * X + 7)) /\
  gx (snd (ge_set_xo_var x odd)) = x /\ ginf (snd (ge_set_xo_var x odd)) = false /\ fe_mag 2 (gy (snd (ge_set_xo_var x odd))) /\
  (fst (ge_set_xo_var x odd) = true -> exists y, ge_rep f1 (snd (ge_set_xo_var x odd)) (Aff X y) /\ Z.odd y = odd).
Proof.
  intros M X. pose proof M as M'. apply fx_of in M. unfold ge_set_xo_var. cbv zeta.
  assert (X3 : fx 2 (fe_add_int (fe_mul x (fe_sqr x)) 7) _) by (let pf := fxc (fe_add_int (fe_mul x (fe_sqr x)) 7) in exact pf).
  change curve_b with 7. set (c := fe_add_int (fe_mul x (fe_sqr x)) 7) in *. clearbody c.
  assert (EC : fv c = (fv x * fv x * fv x + b7)%F) by (rewrite (fx_fv _ _ _ X3); unfold b7; ring).
  destruct (fe_sqrt_spec c (fx_mag_w _ 8 _ _ X3 eq_refl)) as (S1 & S2 & S3).
  destruct (fe_sqrt c) as [ret y]. cbn [fst snd] in *.
  assert (N : fe_norm (fe_normalize_var y)). { rewrite fe_normalize_var_eq by (eapply mag_weaken; [exact S3|lia]). apply fe_normalize_norm. eapply mag_weaken; [exact S3|lia]. }
  assert (V : fv (fe_normalize_var y) = fv y). { rewrite fe_normalize_var_eq by (eapply mag_weaken; [exact S3|lia]). apply fe_normalize_fv. eapply mag_weaken; [exact S3|lia]. }
  set (ny := fe_normalize_var y) in *. clearbody ny.
  pose proof (fx_of _ _ (fe_norm_mag _ N)) as XN. pose proof (fx_negate _ 1 _ _ XN eq_refl) as XM.
  split. { rewrite S1. rewrite is_square_F, is_square_F'. unfold X. rewrite cubic_fv, EC. tauto. }
  cbn [gx gy ginf]. split; [reflexivity|]. split; [reflexivity|].
  split. { destruct (negb (Bool.eqb (fe_is_odd ny) odd)); [exact (fx_mag_w _ 2 _ _ XM eq_refl)|exact (fx_mag_w _ 2 _ _ XN eq_refl)]. }
  intros R. specialize (S2 R). rewrite EC in S2.
  set (Y := fval ny). pose proof (fval_norm_range _ N) as RY.
  assert (EY : fv ny = toF Y) by reflexivity.
  assert (OC : on_curve (Aff X Y)).
  { split; [apply F_zv_range|]. split; [exact RY|]. apply toF_inj. unfold X. rewrite cubic_fv, toF_mul, <- EY, V. exact S2. }
  assert (Y0 : 0 < Y) by (pose proof (y_neq_0 _ _ OC); unfold Y in *; lia).
  rewrite (fe_is_odd_spec _ N). fold Y.
  destruct (Bool.eqb (Z.odd Y) odd) eqn:EO; cbn [negb].
  - exists Y. split; [|now apply Bool.eqb_prop].
    apply ge_rep1_intro; cbn [gx gy ginf]; try assumption; try reflexivity; [exact (fx_mag_w _ 3 _ _ XN eq_refl)|]. symmetry. apply toF_zv.
  - exists ((- Y) mod p). split.
    + apply ge_rep1_intro; cbn [gx gy ginf]; try assumption; try reflexivity.
      * exact (fx_mag_w _ 3 _ _ XM eq_refl).
      * exact (on_curve_neg _ OC).
      * symmetry; apply toF_zv.
      * rewrite (fx_fv _ _ _ XM), toF_pneg_y, EY. reflexivity.
    + rewrite odd_p_sub by (unfold Y in *; lia). destruct (Z.odd Y), odd; try reflexivity; discriminate.
Qed.

Lemma ge_x_on_curve_var_ok x : fe_mag 4 x -> let X := zv (fv x) in (ge_x_on_curve_var x = true <-> is_square_mod_p (X * X * X + 7)).
Proof.
  intros M X. apply fx_of in M. unfold ge_x_on_curve_var. cbv zeta. change curve_b with 7.
  assert (X3 : fx 2 (fe_add_int (fe_mul (fe_sqr x) x) 7) _) by (let pf := fxc (fe_add_int (fe_mul (fe_sqr x) x) 7) in exact pf).
  rewrite fe_is_square_var_spec by exact (fx_mag_w _ 32 _ _ X3 eq_refl). rewrite is_square_F, is_square_F'. unfold X. rewrite cubic_fv, (fx_fv _ _ _ X3). reflexivity.
Qed.
Lemma square_scale (a s : F) : s <> f0 -> ((exists y, (y * y)%F = a) <-> exists y, (y * y)%F = (a * (s * s))%F).
Proof.
  intros Hs. split.
  - intros [y <-]. exists (y * s)%F. ring.
  - intros [y E]. exists (y / s)%F. transitivity (y * y / (s * s))%F; [now field|]. rewrite E. now field.
Qed.
(** x = xn / xd; r = xn^3 xd + 7 xd^4 = (x^3 + 7) xd^4. *)
Lemma ge_x_frac_on_curve_var_ok xn xd : fe_mag 8 xn -> fe_mag 8 xd -> fv xd <> f0 ->
  let X := zv (fv xn / fv xd)%F in (ge_x_frac_on_curve_var xn xd = true <-> is_square_mod_p (X * X * X + 7)).
Proof.
  intros M1 M2 N X. apply fx_of in M1, M2. unfold ge_x_frac_on_curve_var. cbv zeta. change curve_b with 7.
  set (r := fe_add _ _).
  assert (XR : fx 8 r _) by (let pf := fxc (fe_add (fe_mul (fe_mul xd xn) (fe_sqr xn)) (fe_mul_int (fe_sqr (fe_sqr xd)) 7)) in exact pf).
  rewrite fe_is_square_var_spec by exact (fx_mag_w _ 32 _ _ XR eq_refl). rewrite is_square_F, is_square_F'. unfold X. rewrite cubic_fv.
  assert (EE : fv r = ((fv xn / fv xd * (fv xn / fv xd) * (fv xn / fv xd) + b7) * (fv xd * fv xd * (fv xd * fv xd)))%F).
  { rewrite (fx_fv _ _ _ XR). unfold b7. field. exact N. }
  rewrite EE. symmetry. apply (square_scale _ (fv xd * fv xd)%F (fmul_nz _ _ N N)).
Qed.

Lemma ge_const_g_ok : ge_rep f1 ge_const_g G.
Proof.
  unfold G. assert (RX : 0 <= Gx < p) by (split; [discriminate|reflexivity]). assert (RY : 0 <= Gy < p) by (split; [discriminate|reflexivity]).
  apply ge_rep1_intro.
  - apply (mag_weaken 1); [apply fe_norm_mag, (fe_of_Z_norm Gx), RX|lia].
  - apply (mag_weaken 1); [apply fe_norm_mag, (fe_of_Z_norm Gy), RY|lia].
  - exact on_curve_G.
  - reflexivity.
  - exact (fe_of_Z_fv Gx RX).
  - exact (fe_of_Z_fv Gy RY).
Qed.
