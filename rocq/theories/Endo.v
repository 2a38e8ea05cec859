(** The curve endomorphism (x, y) -> (beta x, y) is multiplication by lambda. *)
Require Import ZArith List Bool Lia Ring Field.
From Verif Require ECGroup.
From Verif Require Import Word Spec ZmField Curve OrderCert LambdaCert FieldModel FieldMul FieldProof FieldProof2 FieldOps ScalarModel GroupModel GroupProof GroupProof2 GroupProof4.
Import ListNotations.
Local Open Scope Z_scope.

Definition endo (P : point) : point := match P with Inf => Inf | Aff x y => Aff ((beta * x) mod p) y end.
Definition fbeta : F := toF beta.
Lemma fbeta_cube : (fbeta * fbeta * fbeta = 1)%F.
Proof. unfold fbeta. rewrite <- !toF_mul, <- toF_one. apply toF_eq. vm_compute. reflexivity. Qed.
Lemma fbeta_nz : fbeta <> f0.
Proof. intros E. apply f1_nz. rewrite <- fbeta_cube, E. ring. Qed.
Lemma toF_endo_x x : toF ((beta * x) mod p) = (fbeta * toF x)%F.
Proof. now rewrite toF_mod, toF_mul. Qed.

Lemma on_curve_endo P : on_curve P -> on_curve (endo P).
Proof.
  destruct P as [|x y]; [trivial|]. intros H. pose proof H as (R1 & R2 & _). apply on_curve_eqn in H. unfold eqn in H. cbn [endo].
  split; [apply Z.mod_pos_bound, p_pos|]. split; [exact R2|]. apply toF_inj. rewrite toF_add, !toF_mul, !toF_endo_x. fold b7. rewrite H.
  transitivity ((fbeta * fbeta * fbeta) * (toF x * toF x * toF x) + b7)%F; [rewrite fbeta_cube; ring|ring].
Qed.
Lemma Aff_eq_F x y x' y' : on_curve (Aff x y) -> on_curve (Aff x' y') -> toF x = toF x' -> toF y = toF y' -> Aff x y = Aff x' y'.
Proof. intros (A & B & _) (C & D & _) E1 E2. f_equal; apply toF_range_eq; assumption. Qed.
Lemma endo_slope (x1 x2 y1 l l' x3 y3 x3' y3' : F) : l = (l' * fbeta)%F ->
  x3 = (l * l - x1 - x2)%F -> y3 = (l * (x1 - x3) - y1)%F -> x3' = (l' * l' - fbeta * x1 - fbeta * x2)%F -> y3' = (l' * (fbeta * x1 - x3') - y1)%F ->
  x3' = (fbeta * x3)%F /\ y3' = y3.
Proof.
  intros E E3 E4 E3' E4'.
  assert (K : x3' = (fbeta * x3)%F).
  { rewrite E3', E3, E. transitivity ((fbeta * fbeta * fbeta) * (l' * l') - fbeta * x1 - fbeta * x2)%F; [rewrite fbeta_cube; ring|ring]. }
  split; [exact K|]. rewrite E4', K, E4, E. ring.
Qed.
Lemma endo_add P Q : on_curve P -> on_curve Q -> endo (padd P Q) = padd (endo P) (endo Q).
Proof.
  intros HP HQ. destruct P as [|x1 y1]; [reflexivity|]. destruct Q as [|x2 y2]; [reflexivity|].
  pose proof (on_curve_endo _ HP) as HP'. pose proof (on_curve_endo _ HQ) as HQ'. cbn [endo] in HP', HQ' |- *.
  set (x1' := (beta * x1) mod p) in *. set (x2' := (beta * x2) mod p) in *.
  assert (E1 : toF x1' = (fbeta * toF x1)%F) by apply toF_endo_x. assert (E2 : toF x2' = (fbeta * toF x2)%F) by apply toF_endo_x.
  clearbody x1' x2'.
  destruct (F_eq_dec (toF x1) (toF x2)) as [E|D].
  - destruct (same_x_cases _ _ _ _ HP HQ E) as [<- [<- | [K PI]]].
    + assert (x1' = x2') by (apply toF_range_eq; [apply HP'|apply HQ'|congruence]). subst x2'.
      destruct (padd_same _ _ HP) as (x3 & y3 & l & EP & L & X & Y). destruct (padd_same _ _ HP') as (x3' & y3' & l' & EP' & L' & X' & Y').
      pose proof (on_curve_add _ _ HP HP) as O. pose proof (on_curve_add _ _ HP' HP') as O'. rewrite EP in O |- *. rewrite EP' in O' |- *.
      rewrite E1 in X', Y', L'.
      assert (EL : l = (l' * fbeta)%F).
      { pose proof (on_curve_ynz _ _ HP) as YN.
        apply (ECGroup.mul_cancel_r F _ _ _ _ _ _ _ _ F_field ((1 + 1) * toF y1)%F); [apply fmul_nz; [exact f2_nz|exact YN]|].
        rewrite L. transitivity ((l' * ((1 + 1) * toF y1)) * fbeta)%F; [|ring]. rewrite L'.
        transitivity ((fbeta * fbeta * fbeta) * ((1 + 1 + 1) * toF x1 * toF x1))%F; [rewrite fbeta_cube; ring|ring]. }
      destruct (endo_slope _ _ _ _ _ _ _ _ _ EL X Y X' Y') as [A B].
      apply Aff_eq_F; [exact (on_curve_endo _ O)|exact O'| |symmetry; exact B]. rewrite toF_endo_x. symmetry. exact A.
    + rewrite PI. cbn [endo]. assert (K' : toF x1' = toF x2') by congruence.
      destruct (same_x_cases _ _ _ _ HP' HQ' K') as [_ [<- | [_ PI']]]; [|now rewrite PI'].
      exfalso. assert (Y0 : ((1 + 1) * toF y1 = 0)%F) by (rewrite <- K; ring). apply fmul_0 in Y0 as [Y0|Y0]; [exact (f2_nz Y0)|].
      exact (on_curve_ynz _ _ HP Y0).
  - assert (D' : toF x1' <> toF x2').
    { rewrite E1, E2. intros K. apply D. apply (ECGroup.mul_cancel_r F _ _ _ _ _ _ _ _ F_field fbeta); [exact fbeta_nz|].
      transitivity (fbeta * toF x1)%F; [ring|]. rewrite K. ring. }
    destruct (padd_diff _ _ _ _ HP HQ D) as (x3 & y3 & l & EP & L & X & Y). destruct (padd_diff _ _ _ _ HP' HQ' D') as (x3' & y3' & l' & EP' & L' & X' & Y').
    pose proof (on_curve_add _ _ HP HQ) as O. pose proof (on_curve_add _ _ HP' HQ') as O'. rewrite EP in O |- *. rewrite EP' in O' |- *.
    rewrite E1, E2 in *.
    assert (EL : l = (l' * fbeta)%F).
    { apply (ECGroup.mul_cancel_r F _ _ _ _ _ _ _ _ F_field (toF x2 - toF x1)%F); [apply fsub_nz; congruence|].
      rewrite L, <- L'. ring. }
    destruct (endo_slope _ _ _ _ _ _ _ _ _ EL X Y X' Y') as [A B].
    apply Aff_eq_F; [exact (on_curve_endo _ O)|exact O'| |symmetry; exact B]. rewrite toF_endo_x. symmetry. exact A.
Qed.
Lemma endo_mul_pos k P : on_curve P -> endo (pmul_pos k P) = pmul_pos k (endo P).
Proof.
  intros H. induction k as [k IH|k IH|]; cbn [pmul_pos]; [| |reflexivity].
  - rewrite !endo_add, IH by auto using on_curve_add, on_curve_mul_pos. reflexivity.
  - rewrite !endo_add, IH by auto using on_curve_mul_pos. reflexivity.
Qed.

Definition lambda_check (c : list chain_step) : bool :=
  match run_chain 1 Gx Gy c with
  | Some (k, x, y) => (k =? lambda) && (x =? (beta * Gx) mod p) && (y =? Gy)
  | None => false
  end.
Lemma lambda_check_ok c : lambda_check c = true -> endo G = pmul lambda G.
Proof.
  unfold lambda_check.
  destruct (run_chain 1 Gx Gy c) as [[[k x] y]|] eqn:E; [|discriminate].
  apply run_chain_ok in E; [|reflexivity|reflexivity|symmetry; apply pmul_1].
  intros H. apply andb_prop in H as [H H3]. apply andb_prop in H as [H1 H2].
  apply Z.eqb_eq in H1, H2, H3. rewrite <- H1, <- E. unfold G. cbn [endo]. rewrite <- H2, <- H3. reflexivity.
Qed.
Lemma endo_G : endo G = pmul lambda G.
Proof. apply (lambda_check_ok lambda_chain). vm_cast_no_check (eq_refl true). Qed.
Theorem endo_lambda P : on_curve P -> endo P = pmul lambda P.
Proof.
  intros H. destruct (all_points_multiples_of_G P H) as (k & Hk & ->).
  assert (E : endo (pmul k G) = pmul k (endo G)).
  { destruct k as [|k|k]; [reflexivity| |lia]. apply endo_mul_pos. exact on_curve_G. }
  rewrite E, endo_G, <- !pmul_mul by exact on_curve_G. f_equal. ring.
Qed.

Lemma ge_mul_lambda_ok t a P : ge_rep t a P -> ge_rep t (ge_mul_lambda a) (pmul lambda P).
Proof.
  intros H. destruct (ge_rep_mags _ _ _ H) as (X & Y & OC). rewrite <- endo_lambda by exact OC.
  assert (XB : fx 1 const_beta (toF beta)) by (split; [apply fe_norm_mag, const_beta_norm|exact const_beta_fv]).
  assert (XR : fx 1 (fe_mul (gx a) const_beta) _) by (let pf := fxc (fe_mul (gx a) const_beta) in exact pf).
  unfold ge_mul_lambda, ge_rep. cbn [gx gy ginf]. split; [exact (fx_mag_w _ 4 _ _ XR eq_refl)|]. split; [apply Y|]. split; [now apply on_curve_endo|].
  destruct H as (_ & _ & _ & H). destruct P as [|x y]; cbn [endo]; [exact H|]. destruct H as (H1 & H2 & H3). split; [exact H1|].
  split; [|exact H3]. rewrite (fx_fv _ _ _ XR), H2, toF_endo_x. unfold fbeta. ring.
Qed.
