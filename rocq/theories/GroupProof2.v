(** Correctness of doubling, the additions, negation, rescaling, equality tests. *)
Require Import ZArith List Bool Lia Ring Field.
From Verif Require ECGroup.
From Verif Require Import Word Spec ZmField Curve FieldModel FieldMul FieldProof FieldProof2 FieldOps GroupModel GroupProof.
Import ListNotations.
Local Open Scope Z_scope.

Lemma fx_of m x : fe_mag m x -> fx m x (fv x).
Proof. intros H. split; [exact H|reflexivity]. Qed.
Lemma fx_mag m x v : fx m x v -> fe_mag m x. Proof. intros [H _]. exact H. Qed.
Lemma fx_fv m x v : fx m x v -> fv x = v. Proof. intros [_ H]. exact H. Qed.
Lemma fx_mag_w m k x v : fx m x v -> (m <=? k) = true -> fe_mag k x.
Proof. intros H L. apply (fx_mag k x v). eapply fx_weaken; eassumption. Qed.

(** Introduction and elimination of the relations. *)
Lemma gej_rep_mags t a P : gej_rep t a P -> fx 4 (jx a) (fv (jx a)) /\ fx 4 (jy a) (fv (jy a)) /\ fx 1 (jz a) (fv (jz a)) /\ on_curve P.
Proof. intros (H1 & H2 & H3 & H4 & _). split; [|split; [|split]]; try (apply fx_of; assumption). exact H4. Qed.
Lemma ge_rep_mags t a P : ge_rep t a P -> fx 4 (gx a) (fv (gx a)) /\ fx 3 (gy a) (fv (gy a)) /\ on_curve P.
Proof. intros (H1 & H2 & H3 & _). split; [|split]; try (apply fx_of; assumption). exact H3. Qed.
Lemma gej_rep_inf t a P : gej_rep t a P -> jinf a = true -> P = Inf.
Proof. intros (_ & _ & _ & _ & H) E. destruct P; [reflexivity|]. destruct H as [H _]. congruence. Qed.
Lemma ge_rep_inf t a P : ge_rep t a P -> ginf a = true -> P = Inf.
Proof. intros (_ & _ & _ & H) E. destruct P; [reflexivity|]. destruct H as [H _]. congruence. Qed.
Lemma gej_rep_fin t a P : gej_rep t a P -> jinf a = false -> exists x y, P = Aff x y /\ fv (jz a) <> f0 /\
  fv (jx a) = (toF x * (fv (jz a) * t * (fv (jz a) * t)))%F /\ fv (jy a) = (toF y * (fv (jz a) * t * (fv (jz a) * t) * (fv (jz a) * t)))%F.
Proof.
  intros (_ & _ & _ & _ & H) E. destruct P as [|x y]; [congruence|]. exists x, y. cbv zeta in H. tauto.
Qed.
Lemma ge_rep_fin t a P : ge_rep t a P -> ginf a = false -> exists x y, P = Aff x y /\
  fv (gx a) = (toF x * (t * t))%F /\ fv (gy a) = (toF y * (t * t * t))%F.
Proof. intros (_ & _ & _ & H) E. destruct P as [|x y]; [congruence|]. exists x, y. tauto. Qed.

Lemma gej_infinity_rep t : gej_rep t gej_infinity Inf.
Proof. unfold gej_rep, gej_infinity. cbn [jx jy jz jinf]. pose proof fx_int0 as H.
  split; [exact (fx_mag_w _ 4 _ _ H eq_refl)|]. split; [exact (fx_mag_w _ 4 _ _ H eq_refl)|]. split; [exact (fx_mag _ _ _ H)|].
  split; [exact I|reflexivity]. Qed.
Lemma ge_infinity_rep t : ge_rep t ge_infinity Inf.
Proof. unfold ge_rep, ge_infinity. cbn [gx gy ginf]. pose proof fx_int0 as H.
  split; [exact (fx_mag_w _ 4 _ _ H eq_refl)|]. split; [exact (fx_mag_w _ 3 _ _ H eq_refl)|]. split; [exact I|reflexivity]. Qed.

(** ** Doubling *)
Lemma dbl_alg (x y w l x3 y3 : F) : (l * ((1 + 1) * y) = (1 + 1 + 1) * x * x)%F -> x3 = (l * l - x - x)%F -> y3 = (l * (x - x3) - y)%F ->
  let X := (x * (w * w))%F in let Y := (y * (w * w * w))%F in
  let L := (X * X * (1 + 1 + 1) / (1 + 1))%F in let T := (- (Y * Y) * X)%F in
  let X3 := (L * L + T + T)%F in let W := (Y * w)%F in
  X3 = (x3 * (W * W))%F /\ (- ((T + X3) * L + Y * Y * (Y * Y)))%F = (y3 * (W * W * W))%F.
Proof.
  intros E1 E3 E4 X Y L T X3 W.
  assert (EL : L = (l * y * (w * w * w * w))%F).
  { unfold L, X. transitivity ((1 + 1 + 1) * x * x * (w * w * w * w) / (1 + 1))%F; [field; exact f2_nz|]. rewrite <- E1. field. exact f2_nz. }
  assert (EX : X3 = (x3 * (W * W))%F) by (unfold X3, T, W; rewrite EL, E3; unfold X, Y; ring).
  split; [exact EX|]. rewrite EX, EL, E4, E3. unfold W, T, X, Y. ring.
Qed.

Lemma gej_double_fx a r : gej_double a = r -> fe_mag 4 (jx a) -> fe_mag 4 (jy a) -> fe_mag 1 (jz a) ->
  let X := fv (jx a) in let Y := fv (jy a) in let L := (X * X * toF 3 / (1 + 1))%F in let T := (- (Y * Y) * X)%F in
  let X3 := (L * L + T + T)%F in
  fx 3 (jx r) X3 /\ fx 3 (jy r) (- ((T + X3) * L + Y * Y * (Y * Y)))%F /\ fx 1 (jz r) (fv (jz a) * Y)%F /\ jinf r = jinf a.
Proof.
  intros H H1 H2 H3. cbv beta delta [gej_double] in H.
  assert (X1 := fx_of _ _ H1). assert (X2 := fx_of _ _ H2). assert (X4 := fx_of _ _ H3).
  let_steps H. fsteps. subst r. cbn [jx jy jz jinf]. cbv zeta. auto.
Qed.

Lemma gej_double_ok t a P : t <> f0 -> gej_rep t a P -> gej_rep t (gej_double a) (padd P P).
Proof.
  intros Ht HR. destruct (gej_rep_mags _ _ _ HR) as ([M1 _] & [M2 _] & [M3 _] & OC).
  destruct (gej_double_fx a _ eq_refl M1 M2 M3) as (X & Y & Z & I). cbv zeta in X, Y.
  set (r := gej_double a) in *. clearbody r.
  unfold gej_rep. split; [exact (fx_mag_w _ 4 _ _ X eq_refl)|]. split; [exact (fx_mag_w _ 4 _ _ Y eq_refl)|]. split; [exact (fx_mag _ _ _ Z)|].
  split; [now apply on_curve_add|].
  destruct (jinf a) eqn:Ei.
  - apply gej_rep_inf in HR; [|exact Ei]. subst P. cbn [padd]. exact I.
  - destruct (gej_rep_fin _ _ _ HR Ei) as (x & y & -> & Hz & EX & EY).
    destruct (padd_same _ _ OC) as (x3 & y3 & l & -> & EL & E3 & E4). split; [exact I|].
    rewrite (fx_fv _ _ _ X), (fx_fv _ _ _ Y), (fx_fv _ _ _ Z). rewrite toF_3.
    pose proof (on_curve_ynz _ _ OC) as Hy.
    split. { apply fmul_nz; [exact Hz|]. rewrite EY. repeat apply fmul_nz; assumption. }
    cbv zeta. rewrite EX, EY. set (w := (fv (jz a) * t)%F).
    destruct (dbl_alg (toF x) (toF y) w l (toF x3) (toF y3) EL E3 E4) as [A B]. cbv zeta in A, B.
    replace (fv (jz a) * (toF y * (w * w * w)) * t)%F with (toF y * (w * w * w) * w)%F by (unfold w; ring).
    split; [exact A|exact B].
Qed.

(** ** Addition tail *)
Lemma add_tail_fx u1 s1 h i vu vs vh vi q : add_tail u1 s1 h i = q -> fx 4 u1 vu -> fx 4 s1 vs -> fx 6 h vh -> fx 6 i vi ->
  let X3 := (vi * vi + - (vh * vh) * vh + vu * - (vh * vh) + vu * - (vh * vh))%F in
  fx 4 (fst q) X3 /\ fx 2 (snd q) ((vu * - (vh * vh) + X3) * vi + - (vh * vh) * vh * vs)%F.
Proof.
  intros H X1 X2 X4 X5. cbv beta delta [add_tail] in H. let_steps H. fsteps. subst q. cbn [fst snd]. cbv zeta. auto.
Qed.

Lemma tail_alg (x1 y1 x2 y2 l x3 y3 W : F) : (l * (x2 - x1) = y2 - y1)%F -> x3 = (l * l - x1 - x2)%F -> y3 = (l * (x1 - x3) - y1)%F ->
  let u1 := (x1 * (W * W))%F in let s1 := (y1 * (W * W * W))%F in
  let h := ((x2 - x1) * (W * W))%F in let i := ((y1 - y2) * (W * W * W))%F in
  let X3 := (i * i + - (h * h) * h + u1 * - (h * h) + u1 * - (h * h))%F in
  X3 = (x3 * ((W * h) * (W * h)))%F /\ ((u1 * - (h * h) + X3) * i + - (h * h) * h * s1)%F = (y3 * ((W * h) * (W * h) * (W * h)))%F.
Proof.
  intros EL E3 E4 u1 s1 h i X3.
  assert (Ey : y2 = (y1 + l * (x2 - x1))%F) by (rewrite EL; ring).
  assert (EX : X3 = (x3 * ((W * h) * (W * h)))%F) by (unfold X3, i, u1, h; rewrite Ey, E3; ring).
  split; [exact EX|]. rewrite EX, E4, E3. unfold i, u1, s1, h. rewrite Ey. ring.
Qed.

Lemma bool_iff_false (b : bool) (A : Prop) : (b = true <-> A) -> b = false -> ~ A.
Proof. intros H E K. apply H in K. congruence. Qed.

(** The situation in which the three additions reach the test for h = 0:
    u1 = x1 W^2, s1 = y1 W^3, h = (x2 - x1) W^2, i = (y1 - y2) W^3. *)
Lemma add_general t x1 y1 x2 y2 W u1 s1 h i rz :
  on_curve (Aff x1 y1) -> on_curve (Aff x2 y2) -> W <> f0 -> t <> f0 ->
  fx 4 u1 (toF x1 * (W * W))%F -> fx 4 s1 (toF y1 * (W * W * W))%F ->
  fx 6 h ((toF x2 - toF x1) * (W * W))%F -> fx 6 i ((toF y1 - toF y2) * (W * W * W))%F ->
  fx 1 rz (fv rz) -> (fv rz * t = W * fv h)%F ->
  (fe_normalizes_to_zero_var h = true /\ fe_normalizes_to_zero_var i = true /\ Aff x1 y1 = Aff x2 y2) \/
  (fe_normalizes_to_zero_var h = true /\ fe_normalizes_to_zero_var i = false /\ padd (Aff x1 y1) (Aff x2 y2) = Inf) \/
  (fe_normalizes_to_zero_var h = false /\ fv h <> f0 /\
   gej_rep t (mkgej (fst (add_tail u1 s1 h i)) (snd (add_tail u1 s1 h i)) rz false) (padd (Aff x1 y1) (Aff x2 y2))).
Proof.
  intros H1 H2 HW Ht Xu Xs Xh Xi Xz EZ.
  pose proof (fx_ntzv _ _ _ Xh eq_refl) as Zh. pose proof (fx_ntzv _ _ _ Xi eq_refl) as Zi.
  assert (HW2 : (W * W)%F <> f0) by (apply fmul_nz; assumption).
  assert (HW3 : (W * W * W)%F <> f0) by (apply fmul_nz; assumption).
  destruct (fe_normalizes_to_zero_var h) eqn:Eh.
  - assert (E : toF x1 = toF x2).
    { symmetry. apply fsub_0_eq. destruct (fmul_0 _ _ (proj1 Zh eq_refl)) as [K|K]; [exact K|contradiction]. }
    destruct (same_x_cases _ _ _ _ H1 H2 E) as [-> [-> | [K PI]]].
    + left. split; [reflexivity|]. split; [|reflexivity]. apply Zi. ring.
    + destruct (fe_normalizes_to_zero_var i) eqn:Eii.
      * left. split; [reflexivity|]. split; [reflexivity|]. f_equal.
        destruct (fmul_0 _ _ (proj1 Zi eq_refl)) as [K'|K']; [|contradiction].
        apply toF_range_eq; [apply H1|apply H2|]. now apply fsub_0_eq.
      * right. left. auto.
  - right. right. split; [reflexivity|].
    assert (D : toF x1 <> toF x2).
    { intros E. apply (bool_iff_false _ _ Zh eq_refl). rewrite E. ring. }
    destruct (padd_diff _ _ _ _ H1 H2 D) as (x3 & y3 & l & EP & EL & E3 & E4).
    assert (OC3 : on_curve (Aff x3 y3)) by (rewrite <- EP; now apply on_curve_add).
    rewrite EP.
    pose proof (add_tail_fx u1 s1 h i _ _ _ _ _ eq_refl Xu Xs Xh Xi) as [TX TY]. cbv zeta in TX, TY.
    destruct (tail_alg _ _ _ _ l _ _ W EL E3 E4) as [A B]. cbv zeta in A, B.
    assert (Hh : fv h <> f0).
    { rewrite (fx_fv _ _ _ Xh). apply fmul_nz; [|assumption]. apply fsub_nz. congruence. }
    split; [exact Hh|]. unfold gej_rep. cbn [jx jy jz jinf].
    split; [exact (fx_mag _ _ _ TX)|]. split; [exact (fx_mag_w _ 4 _ _ TY eq_refl)|]. split; [exact (fx_mag _ _ _ Xz)|].
    split; [exact OC3|]. split; [reflexivity|].
    split. { intros K. rewrite K in EZ. apply (fmul_nz _ _ HW Hh). rewrite <- EZ. ring. }
    cbv zeta. rewrite EZ, (fx_fv _ _ _ TX), (fx_fv _ _ _ TY), (fx_fv _ _ _ Xh). split; assumption.
Qed.

Lemma on_curve_fin_add P : on_curve P -> padd P Inf = P. Proof. intros _. apply padd_Inf_r. Qed.

(** A ge as a gej. *)
Lemma gej_set_ge_ok t a P : ge_rep t a P -> gej_rep t (gej_set_ge a) P.
Proof.
  intros (H1 & H2 & OC & H). unfold gej_rep, gej_set_ge. cbn [jx jy jz jinf]. pose proof fx_int1 as X1.
  split; [exact H1|]. split; [eapply mag_weaken; [exact H2|lia]|]. split; [exact (fx_mag _ _ _ X1)|]. split; [exact OC|].
  destruct P as [|x y]; [exact H|]. destruct H as (HI & HX & HY). split; [exact HI|]. rewrite (fx_fv _ _ _ X1).
  split; [exact f1_nz|]. cbv zeta. rewrite HX, HY. split; ring.
Qed.

(** The double and its z ratio. *)
Definition rzr_rel (a r : gej) (z : fe) : Prop := fe_mag 8 z /\ (jinf a = false -> jinf r = false -> fv (jz r) = (fv (jz a) * fv z)%F).

Lemma gej_double_var_ok t a P : t <> f0 -> gej_rep t a P ->
  gej_rep t (fst (gej_double_var_rzr a)) (padd P P) /\ rzr_rel a (fst (gej_double_var_rzr a)) (snd (gej_double_var_rzr a)).
Proof.
  intros Ht HR. unfold gej_double_var_rzr. destruct (gej_rep_mags _ _ _ HR) as ([M1 _] & X2 & [M3 _] & OC).
  destruct (jinf a) eqn:Ei; cbn [fst snd].
  - rewrite (gej_rep_inf _ _ _ HR Ei). split; [apply gej_infinity_rep|].
    split; [exact (fx_mag_w _ 8 _ _ fx_int1 eq_refl)|]. congruence.
  - split; [now apply gej_double_ok|]. pose proof (fx_norm_weak _ _ _ X2 eq_refl) as XN.
    split; [exact (fx_mag_w _ 8 _ _ XN eq_refl)|]. intros _ _.
    destruct (gej_double_fx a _ eq_refl M1 (proj1 X2) M3) as (_ & _ & Z & _). rewrite (fx_fv _ _ _ Z), (fx_fv _ _ _ XN). reflexivity.
Qed.

(** ** gej + gej *)
Lemma gej_add_var_ok t a b P Q : t <> f0 -> gej_rep t a P -> gej_rep t b Q -> gej_rep t (gej_add_var a b) (padd P Q).
Proof.
  intros Ht HA HB. unfold gej_add_var, gej_add_var_rzr.
  destruct (jinf a) eqn:Ea; cbn [fst]. { rewrite (gej_rep_inf _ _ _ HA Ea). exact HB. }
  destruct (jinf b) eqn:Eb; cbn [fst]. { rewrite (gej_rep_inf _ _ _ HB Eb), padd_Inf_r. exact HA. }
  destruct (gej_rep_mags _ _ _ HA) as (A1 & A2 & A3 & OA). destruct (gej_rep_mags _ _ _ HB) as (B1 & B2 & B3 & OB).
  destruct (gej_rep_fin _ _ _ HA Ea) as (x1 & y1 & -> & Hz1 & EX1 & EY1).
  destruct (gej_rep_fin _ _ _ HB Eb) as (x2 & y2 & -> & Hz2 & EX2 & EY2).
  cbv zeta.
  set (z22 := fe_sqr (jz b)). set (z12 := fe_sqr (jz a)).
  set (u1 := fe_mul (jx a) z22). set (u2 := fe_mul (jx b) z12).
  set (s1 := fe_mul (fe_mul (jy a) z22) (jz b)). set (s2 := fe_mul (fe_mul (jy b) z12) (jz a)).
  set (h := fe_add (fe_negate u1 1) u2). set (i := fe_add (fe_negate s2 1) s1).
  set (t0 := fe_mul h (jz b)). set (rz := fe_mul (jz a) t0).
  assert (Xu1 : fx 1 u1 _) by (let pf := fxc (fe_mul (jx a) (fe_sqr (jz b))) in exact pf).
  assert (Xu2 : fx 1 u2 _) by (let pf := fxc (fe_mul (jx b) (fe_sqr (jz a))) in exact pf).
  assert (Xs1 : fx 1 s1 _) by (let pf := fxc (fe_mul (fe_mul (jy a) (fe_sqr (jz b))) (jz b)) in exact pf).
  assert (Xs2 : fx 1 s2 _) by (let pf := fxc (fe_mul (fe_mul (jy b) (fe_sqr (jz a))) (jz a)) in exact pf).
  assert (Xh : fx 3 h _) by (let pf := fxc (fe_add (fe_negate u1 1) u2) in exact pf).
  assert (Xi : fx 3 i _) by (let pf := fxc (fe_add (fe_negate s2 1) s1) in exact pf).
  assert (Xt : fx 1 t0 _) by (let pf := fxc (fe_mul h (jz b)) in exact pf).
  assert (Xz : fx 1 rz _) by (let pf := fxc (fe_mul (jz a) t0) in exact pf).
  clearbody u1 u2 s1 s2 h i t0 rz. 
  rewrite EX1 in Xu1. rewrite EX2 in Xu2. rewrite EY1 in Xs1. rewrite EY2 in Xs2.
  destruct (add_general t x1 y1 x2 y2 (fv (jz a) * fv (jz b) * t)%F u1 s1 h i rz OA OB) as [(Eh & Ei & EP)|[(Eh & Ei & EP)|(Eh & Hh & HR)]].
  - repeat apply fmul_nz; assumption.
  - exact Ht.
  - refine (fx_weaken 1 4 _ _ _ eq_refl). split; [apply Xu1|]. rewrite (fx_fv _ _ _ Xu1). ring.
  - refine (fx_weaken 1 4 _ _ _ eq_refl). split; [apply Xs1|]. rewrite (fx_fv _ _ _ Xs1). ring.
  - refine (fx_weaken 3 6 _ _ _ eq_refl). split; [apply Xh|]. rewrite (fx_fv _ _ _ Xh), EX1, EX2. ring.
  - refine (fx_weaken 3 6 _ _ _ eq_refl). split; [apply Xi|]. rewrite (fx_fv _ _ _ Xi), EY1, EY2. ring.
  - apply fx_of, Xz.
  - rewrite (fx_fv _ _ _ Xz), (fx_fv _ _ _ Xh). ring.
  - rewrite Eh, Ei, <- EP. now apply gej_double_var_ok.
  - rewrite Eh, Ei, EP. apply gej_infinity_rep.
  - rewrite Eh. destruct (add_tail u1 s1 h i) as [rx ry]. exact HR.
Qed.
