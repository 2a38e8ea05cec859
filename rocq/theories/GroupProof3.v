(** The remaining point operations: mixed additions, negation, conversions, tests. *)
Require Import ZArith List Bool Lia Ring Field.
From Verif Require ECGroup.
From Verif Require Import Word Spec ZmField Curve FieldModel FieldMul FieldProof FieldProof2 FieldBytes FieldOps GroupModel GroupProof GroupProof2.
Import ListNotations.
Local Open Scope Z_scope.

Ltac fxs x t H := set (x := t); assert (H : fx _ x _) by (let pf := fxc t in exact pf); clearbody x.

(** ** gej + ge *)
Lemma gej_add_ge_var_ok t a b P Q : t <> f0 -> gej_rep t a P -> ge_rep t b Q ->
  gej_rep t (fst (gej_add_ge_var_rzr a b)) (padd P Q) /\ rzr_rel a (fst (gej_add_ge_var_rzr a b)) (snd (gej_add_ge_var_rzr a b)).
Proof.
  intros Ht HA HB. unfold gej_add_ge_var_rzr.
  destruct (jinf a) eqn:Ea; cbn [fst snd].
  { rewrite (gej_rep_inf _ _ _ HA Ea). split; [now apply gej_set_ge_ok|]. split; [exact (fx_mag_w _ 8 _ _ fx_int1 eq_refl)|congruence]. }
  destruct (ginf b) eqn:Eb; cbn [fst snd].
  { rewrite (ge_rep_inf _ _ _ HB Eb), padd_Inf_r. split; [exact HA|]. split; [exact (fx_mag_w _ 8 _ _ fx_int1 eq_refl)|].
    intros _ _. rewrite (fx_fv _ _ _ fx_int1). ring. }
  destruct (gej_rep_mags _ _ _ HA) as (A1 & A2 & A3 & OA). destruct (ge_rep_mags _ _ _ HB) as (B1 & B2 & OB).
  destruct (gej_rep_fin _ _ _ HA Ea) as (x1 & y1 & -> & Hz1 & EX1 & EY1).
  destruct (ge_rep_fin _ _ _ HB Eb) as (x2 & y2 & -> & EX2 & EY2).
  cbv zeta.
  fxs z12 (fe_sqr (jz a)) Xz12. fxs u2 (fe_mul (gx b) z12) Xu2. fxs sb (fe_mul (fe_mul (gy b) z12) (jz a)) Xs2.
  fxs h (fe_add (fe_negate (jx a) 4) u2) Xh. fxs i (fe_add (fe_negate sb 1) (jy a)) Xi. fxs rz (fe_mul (jz a) h) Xz.
  assert (Xt : fx 4 (jx a) (fv (jx a))) by exact A1.
  destruct (add_general t x1 y1 x2 y2 (fv (jz a) * t)%F (jx a) (jy a) h i rz OA OB) as [(Eh & Ei & EP)|[(Eh & Ei & EP)|(Eh & Hh & HR)]].
  - apply fmul_nz; assumption.
  - exact Ht.
  - split; [apply A1|exact EX1].
  - split; [apply A2|exact EY1].
  - split; [apply Xh|]. rewrite (fx_fv _ _ _ Xh), EX1, EX2. ring.
  - split; [apply Xi|]. rewrite (fx_fv _ _ _ Xi), EY1, EY2. ring.
  - apply fx_of, Xz.
  - rewrite (fx_fv _ _ _ Xz), (fx_fv _ _ _ Xh). ring.
  - rewrite Eh, Ei, <- EP. now apply gej_double_var_ok.
  - rewrite Eh, Ei, EP. split; [apply gej_infinity_rep|]. split; [exact (fx_mag_w _ 8 _ _ fx_int0 eq_refl)|]. intros _ K. discriminate K.
  - rewrite Eh. destruct (add_tail (jx a) (jy a) h i) as [rx ry]. split; [exact HR|]. split; [exact (fx_mag_w _ 8 _ _ Xh eq_refl)|].
    intros _ _. cbn [jz fst snd]. rewrite (fx_fv _ _ _ Xz), (fx_fv _ _ _ Xh). reflexivity.
Qed.

(** b is given relative to another z: its coordinates are those of the isomorphism t / bzinv. *)
Lemma gej_add_zinv_var_ok t u a b bzinv P Q : t <> f0 -> (u * fv bzinv = t)%F -> fe_mag 8 bzinv ->
  gej_rep t a P -> ge_rep u b Q -> gej_rep t (gej_add_zinv_var a b bzinv) (padd P Q).
Proof.
  intros Ht Hu M HA HB. unfold gej_add_zinv_var. apply fx_of in M.
  destruct (ge_rep_mags _ _ _ HB) as (B1 & B2 & OB).
  destruct (jinf a) eqn:Ea.
  { rewrite (gej_rep_inf _ _ _ HA Ea). cbn [padd]. cbv zeta.
    fxs z2 (fe_sqr bzinv) Xz2. fxs z3 (fe_mul z2 bzinv) Xz3. fxs rx (fe_mul (gx b) z2) Xx. fxs ry (fe_mul (gy b) z3) Xy.
    unfold gej_rep. cbn [jx jy jz jinf]. pose proof fx_int1 as X1.
    split; [exact (fx_mag_w _ 4 _ _ Xx eq_refl)|]. split; [exact (fx_mag_w _ 4 _ _ Xy eq_refl)|]. split; [exact (fx_mag _ _ _ X1)|].
    split; [exact OB|]. destruct (ginf b) eqn:Eb; [rewrite (ge_rep_inf _ _ _ HB Eb); reflexivity|].
    destruct (ge_rep_fin _ _ _ HB Eb) as (x2 & y2 & -> & EX2 & EY2). split; [reflexivity|].
    rewrite (fx_fv _ _ _ X1). split; [exact f1_nz|]. cbv zeta. rewrite (fx_fv _ _ _ Xx), (fx_fv _ _ _ Xy), EX2, EY2, <- Hu. split; ring. }
  destruct (ginf b) eqn:Eb. { rewrite (ge_rep_inf _ _ _ HB Eb), padd_Inf_r. exact HA. }
  destruct (gej_rep_mags _ _ _ HA) as (A1 & A2 & A3 & OA).
  destruct (gej_rep_fin _ _ _ HA Ea) as (x1 & y1 & -> & Hz1 & EX1 & EY1).
  destruct (ge_rep_fin _ _ _ HB Eb) as (x2 & y2 & -> & EX2 & EY2).
  cbv zeta.
  fxs az (fe_mul (jz a) bzinv) Xaz. fxs z12 (fe_sqr az) Xz12. fxs u2 (fe_mul (gx b) z12) Xu2. fxs sb (fe_mul (fe_mul (gy b) z12) az) Xs2.
  fxs h (fe_add (fe_negate (jx a) 4) u2) Xh. fxs i (fe_add (fe_negate sb 1) (jy a)) Xi. fxs rz (fe_mul (jz a) h) Xz.
  destruct (add_general t x1 y1 x2 y2 (fv (jz a) * t)%F (jx a) (jy a) h i rz OA OB) as [(Eh & Ei & EP)|[(Eh & Ei & EP)|(Eh & Hh & HR)]].
  - apply fmul_nz; assumption.
  - exact Ht.
  - split; [apply A1|exact EX1].
  - split; [apply A2|exact EY1].
  - split; [apply Xh|]. rewrite (fx_fv _ _ _ Xh), EX1, EX2, <- Hu. ring.
  - split; [apply Xi|]. rewrite (fx_fv _ _ _ Xi), EY1, EY2, <- Hu. ring.
  - apply fx_of, Xz.
  - rewrite (fx_fv _ _ _ Xz), (fx_fv _ _ _ Xh). ring.
  - rewrite Eh, Ei, <- EP. now apply gej_double_var_ok.
  - rewrite Eh, Ei, EP. apply gej_infinity_rep.
  - rewrite Eh. destruct (add_tail (jx a) (jy a) h i) as [rx ry]. exact HR.
Qed.

(** ** Constant-time addition *)
Lemma gej_add_ge_fx a b r : gej_add_ge a b = r -> fx 4 (jx a) (fv (jx a)) -> fx 4 (jy a) (fv (jy a)) -> fx 1 (jz a) (fv (jz a)) ->
  fx 4 (gx b) (fv (gx b)) -> fx 3 (gy b) (fv (gy b)) ->
  exists deg,
  let z := fv (jz a) in let u1 := fv (jx a) in let u2 := (fv (gx b) * (z * z))%F in let s1 := fv (jy a) in let s2 := (fv (gy b) * (z * z) * z)%F in
  (deg = true <-> (s1 + s2)%F = f0) /\
  let R := if deg then (s1 * toF 2)%F else ((u1 + u2) * (u1 + u2) + u1 * - u2)%F in
  let M := if deg then (- u2 + u1)%F else (s1 + s2)%F in
  let N := if deg then (s1 + s2)%F else (M * M * (M * M))%F in
  let q := (- (u1 + u2) * (M * M))%F in
  let X3 := (R * R + q)%F in
  exists mx my, fx 4 (jx r) mx /\ fx 4 (jy r) my /\
  let Z3 := if jinf a then f1 else (z * M)%F in
  fx 1 (jz r) Z3 /\ mx = (if jinf a then fv (gx b) else X3) /\
  my = (if jinf a then fv (gy b) else (- ((X3 * toF 2 + q) * R + N) / (1 + 1))%F) /\
  (jinf r = true <-> Z3 = f0).
Proof.
  intros H A1 A2 A3 B1 B2. cbv beta delta [gej_add_ge] in H.
  let_steps H.
  match goal with E : ?d = fe_normalizes_to_zero ?m |- _ => is_var d; rename d into deg; rename E into ED; rename m into mm end.
  exists deg.
  assert (XD : fx 5 mm (fv (jy a) + fv (gy b) * (fv (jz a) * fv (jz a)) * fv (jz a))%F).
  { subst mm s0 s1 s2 zz. let pf := fxc (fe_add (jy a) (fe_mul (fe_mul (gy b) (fe_sqr (jz a))) (jz a))) in exact pf. }
  clear Em. intros z u1' u2' s1' s2'.
  split; [rewrite ED; exact (fx_ntz _ _ _ XD eq_refl)|]. clear ED.
  fsteps.
  intros R M N qq X3. subst r.
  eexists; eexists. split; [exact Xrx0|]. split; [exact Xry1|].
  intros Z3. assert (HZ : fx 1 rz0 Z3). { subst Z3 M. destruct deg, (jinf a); exact Xrz0. }
  split; [exact HZ|]. split; [subst X3 qq M R; destruct deg, (jinf a); reflexivity|].
  split; [subst X3 qq M N R; destruct deg, (jinf a); reflexivity|].
  exact (fx_ntz _ _ _ HZ eq_refl).
Qed.

(** a finite, y1 + y2 <> 0: the unified formula; M = (y1+y2) W^3. *)
Lemma uni_alg (x1 y1 x2 y2 l x3 y3 W : F) :
  (l * (y1 + y2) = x1 * x1 + x1 * x2 + x2 * x2)%F -> (l * (x1 - x2) = y1 - y2)%F ->
  x3 = (l * l - x1 - x2)%F -> y3 = (l * (x1 - x3) - y1)%F ->
  let u1 := (x1 * (W * W))%F in let u2 := (x2 * (W * W))%F in let s1 := (y1 * (W * W * W))%F in let s2 := (y2 * (W * W * W))%F in
  let R := ((u1 + u2) * (u1 + u2) + u1 * - u2)%F in let M := (s1 + s2)%F in let N := (M * M * (M * M))%F in
  let q := (- (u1 + u2) * (M * M))%F in let X3 := (R * R + q)%F in
  X3 = (x3 * ((W * M) * (W * M)))%F /\ (- ((X3 * (1 + 1) + q) * R + N) / (1 + 1))%F = (y3 * ((W * M) * (W * M) * (W * M)))%F.
Proof.
  intros E1 E2 E3 E4 u1 u2 s1 s2 R M N q X3.
  assert (ER : R = (l * M * W)%F).
  { unfold R, M, u1, u2, s1, s2. transitivity ((x1 * x1 + x1 * x2 + x2 * x2) * (W * W * W * W))%F; [ring|]. rewrite <- E1. ring. }
  assert (EX : X3 = (x3 * ((W * M) * (W * M)))%F) by (unfold X3, q; rewrite ER, E3; unfold u1, u2; ring).
  split; [exact EX|].
  assert (EY : ((1 + 1) * y3 = l * (x1 + x2 - (1 + 1) * x3) - (y1 + y2))%F).
  { rewrite E4. transitivity (l * (x1 + x2 - (1 + 1) * x3) + l * (x1 - x2) - (1 + 1) * y1)%F; [ring|]. rewrite E2. ring. }
  transitivity ((1 + 1) * y3 * ((W * M) * (W * M) * (W * M)) / (1 + 1))%F; [|field; exact f2_nz].
  f_equal. rewrite EY, EX. unfold q, N. rewrite ER. unfold u1, u2.
  transitivity (- (((1+1) * x3 - x1 - x2) * l * (W * M * (W * M) * (W * M)) + M * (M * M * M)))%F; [ring|].
  unfold M at 4. unfold s1, s2. ring.
Qed.

(** a finite, y1 + y2 = 0: R = 2 s1, M = u1 - u2, N = 0. *)
Lemma deg_alg (x1 y1 x2 y2 l x3 y3 W : F) :
  (y1 + y2 = 0)%F -> (l * (x2 - x1) = y2 - y1)%F ->
  x3 = (l * l - x1 - x2)%F -> y3 = (l * (x1 - x3) - y1)%F ->
  let u1 := (x1 * (W * W))%F in let u2 := (x2 * (W * W))%F in let s1 := (y1 * (W * W * W))%F in let s2 := (y2 * (W * W * W))%F in
  let R := (s1 * (1 + 1))%F in let M := (- u2 + u1)%F in let N := (s1 + s2)%F in
  let q := (- (u1 + u2) * (M * M))%F in let X3 := (R * R + q)%F in
  X3 = (x3 * ((W * M) * (W * M)))%F /\ (- ((X3 * (1 + 1) + q) * R + N) / (1 + 1))%F = (y3 * ((W * M) * (W * M) * (W * M)))%F.
Proof.
  intros E1 E2 E3 E4 u1 u2 s1 s2 R M N q X3.
  assert (Y2 : y2 = (- y1)%F) by (transitivity (y1 + y2 - y1)%F; [ring|]; rewrite E1; ring).
  assert (ER : R = (l * M * W)%F).
  { unfold R, M, u1, u2, s1. transitivity (- (l * (x2 - x1)) * (W * W * W))%F; [rewrite E2, Y2; ring|ring]. }
  assert (EX : X3 = (x3 * ((W * M) * (W * M)))%F) by (unfold X3, q; rewrite ER, E3; unfold u1, u2; ring).
  split; [exact EX|].
  assert (EY : ((1 + 1) * y3 = l * (x1 + x2 - (1 + 1) * x3))%F).
  { rewrite E4. transitivity (l * (x1 + x2 - (1 + 1) * x3) - l * (x2 - x1) - (1 + 1) * y1)%F; [ring|]. rewrite E2, Y2. ring. }
  assert (EN : N = 0%F) by (unfold N, s1, s2; rewrite Y2; ring).
  transitivity ((1 + 1) * y3 * ((W * M) * (W * M) * (W * M)) / (1 + 1))%F; [|field; exact f2_nz].
  f_equal. rewrite EY, EX, EN. unfold q. rewrite ER. unfold u1, u2. ring.
Qed.

Lemma gej_add_ge_ok t a b P Q : t <> f0 -> gej_rep t a P -> ge_rep t b Q -> ginf b = false -> gej_rep t (gej_add_ge a b) (padd P Q).
Proof.
  intros Ht HA HB Eb. destruct (gej_rep_mags _ _ _ HA) as (A1 & A2 & A3 & OA). destruct (ge_rep_mags _ _ _ HB) as (B1 & B2 & OB).
  destruct (gej_add_ge_fx a b _ eq_refl A1 A2 A3 B1 B2) as (deg & HD & mx & my & Xx & Xy & Xz & Ex & Ey & Hi).
  destruct (ge_rep_fin _ _ _ HB Eb) as (x2 & y2 & -> & EX2 & EY2).
  set (r := gej_add_ge a b) in *. clearbody r.
  assert (IN : forall Z3, fx 1 (jz r) Z3 -> (jinf r = true <-> Z3 = f0) -> Z3 <> f0 -> jinf r = false).
  { intros Z3 _ H K. destruct (jinf r); [|reflexivity]. exfalso. now apply K, H. }
  unfold gej_rep. split; [apply Xx|]. split; [apply Xy|]. split; [apply Xz|]. split; [now apply on_curve_add|].
  destruct (jinf a) eqn:Ea.
  { rewrite (gej_rep_inf _ _ _ HA Ea). cbn [padd]. split; [exact (IN _ Xz Hi f1_nz)|]. rewrite (fx_fv _ _ _ Xz). split; [exact f1_nz|].
    cbv zeta. rewrite (fx_fv _ _ _ Xx), (fx_fv _ _ _ Xy), Ex, Ey, EX2, EY2. split; ring. }
  destruct (gej_rep_fin _ _ _ HA Ea) as (x1 & y1 & -> & Hz1 & EX1 & EY1).
  set (z := fv (jz a)) in *. set (W := (z * t)%F) in *.
  assert (EW : W = (z * t)%F) by reflexivity. clearbody W z.
  assert (HW : W <> f0) by (rewrite EW; apply fmul_nz; assumption).
  assert (EU2 : (fv (gx b) * (z * z) = toF x2 * (W * W))%F) by (rewrite EX2, EW; ring).
  assert (ES2 : (fv (gy b) * (z * z) * z = toF y2 * (W * W * W))%F) by (rewrite EY2, EW; ring).
  rewrite EX1, EY1, EU2, ES2 in *. rewrite toF_2 in *.
  assert (HS : (toF y1 * (W * W * W) + toF y2 * (W * W * W) = (toF y1 + toF y2) * (W * W * W))%F) by ring.
  destruct deg.
  - assert (S0 : (toF y1 + toF y2 = 0)%F).
    { pose proof (proj1 HD eq_refl) as K. rewrite HS in K. apply fmul_0 in K as [K|K]; [exact K|]. exfalso. revert K. repeat apply fmul_nz; assumption. }
    destruct (F_eq_dec (toF x1) (toF x2)) as [E|D].
    + destruct (same_x_cases _ _ _ _ OA OB E) as [-> [-> | [_ PI]]].
      * exfalso. assert (K : ((1 + 1) * toF y2 = 0)%F) by (rewrite <- S0; ring). apply fmul_0 in K as [K|K]; [exact (f2_nz K)|].
        exact (on_curve_ynz _ _ OB K).
      * rewrite PI. apply Hi. ring.
    + destruct (padd_diff _ _ _ _ OA OB D) as (x3 & y3 & l & -> & EL & E3 & E4).
      assert (NZ : (z * (- (toF x2 * (W * W)) + toF x1 * (W * W)) <> 0)%F).
      { apply fmul_nz; [exact Hz1|].
        assert (EE : (- (toF x2 * (W * W)) + toF x1 * (W * W) = (toF x1 - toF x2) * (W * W))%F) by (clear; ring).
        rewrite EE.
        apply fmul_nz; [apply fsub_nz; exact D|apply fmul_nz; exact HW]. }
      split; [exact (IN _ Xz Hi NZ)|]. rewrite (fx_fv _ _ _ Xz). split; [exact NZ|].
      destruct (deg_alg _ _ _ _ _ _ _ W S0 EL E3 E4) as [A B]. cbv zeta in A, B |- *.
      rewrite (fx_fv _ _ _ Xx), (fx_fv _ _ _ Xy), Ex, Ey.
      assert (EE : (z * (- (toF x2 * (W * W)) + toF x1 * (W * W)) * t)%F = (W * (- (toF x2 * (W * W)) + toF x1 * (W * W)))%F) by (clear - EW; rewrite EW; ring). rewrite EE.
      split; [exact A|exact B].
  - assert (S0 : (toF y1 + toF y2 <> 0)%F).
    { intros K. assert (false = true) by (apply HD; rewrite HS, K; ring). discriminate. }
    destruct (padd_unified _ _ _ _ OA OB S0) as (x3 & y3 & l & -> & EL & EL' & E3 & E4).
    assert (NZ : (z * (toF y1 * (W * W * W) + toF y2 * (W * W * W)) <> 0)%F).
    { apply fmul_nz; [exact Hz1|]. rewrite HS. repeat apply fmul_nz; assumption. }
    split; [exact (IN _ Xz Hi NZ)|]. rewrite (fx_fv _ _ _ Xz). split; [exact NZ|].
    destruct (uni_alg _ _ _ _ _ _ _ W EL EL' E3 E4) as [A B]. cbv zeta in A, B |- *.
    rewrite (fx_fv _ _ _ Xx), (fx_fv _ _ _ Xy), Ex, Ey.
    assert (EE : (z * (toF y1 * (W * W * W) + toF y2 * (W * W * W)) * t)%F = (W * (toF y1 * (W * W * W) + toF y2 * (W * W * W)))%F) by (clear - EW; rewrite EW; ring). rewrite EE.
    split; [exact A|exact B].
Qed.
