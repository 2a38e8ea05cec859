(** The group law on y^2 = x^3 + b over an arbitrary field of characteristic
    different from 2 in which x^3 + b has no root (so there are no points of
    order two).  Associativity is obtained from complete projective addition
    formulas (Renes-Costello-Batina), which avoid any case distinction. *)
Require Import Ring Field.

Section EC.
Variable F : Type.
Variables (zero one : F) (add mul sub : F -> F -> F) (opp inv : F -> F) (div : F -> F -> F).
Hypothesis FT : field_theory zero one add mul sub opp div inv (@eq F).
Add Field ECFF : FT.
Notation "0" := zero. Notation "1" := one.
Infix "+" := add. Infix "*" := mul. Infix "-" := sub. Notation "- x" := (opp x).
Infix "/" := div.
Hypothesis eq_dec : forall x y : F, {x = y} + {x <> y}.
Hypothesis two_nz : 1 + 1 <> 0.
Variable b : F.
Hypothesis no2tors : forall x, x * x * x + b <> 0.
Notation "2" := (1+1). Notation "3" := (1+1+1).

Lemma one_nz : 1 <> 0.
Proof. exact (F_1_neq_0 FT). Qed.

Lemma mul_nz x y : x <> 0 -> y <> 0 -> x * y <> 0.
Proof.
  intros Hx Hy H. apply Hy. transitivity (x * y / x); [field; assumption|]. rewrite H. field; assumption.
Qed.

Lemma mul_0 x y : x * y = 0 -> x = 0 \/ y = 0.
Proof. intros H. destruct (eq_dec x 0); [auto|]. destruct (eq_dec y 0); [auto|]. destruct (mul_nz x y); auto. Qed.

Lemma mul_cancel_r z x y : z <> 0 -> x * z = y * z -> x = y.
Proof.
  intros Hz H. transitivity (x * z / z); [field; assumption|]. rewrite H. field; assumption.
Qed.

Lemma sub_nz x y : x <> y -> x - y <> 0.
Proof. intros H E. apply H. transitivity (x - y + y); [ring|]. rewrite E. ring. Qed.

Lemma sub_0_eq x y : x - y = 0 -> x = y.
Proof. intros E. transitivity (x - y + y); [ring|]. rewrite E. ring. Qed.

Lemma add_0_opp x y : x + y = 0 -> x = - y.
Proof. intros E. transitivity (x + y - y); [ring|]. rewrite E. ring. Qed.

Inductive pt : Type := O | A (x y : F).

Definition oc (P : pt) : Prop := match P with O => True | A x y => y * y = x * x * x + b end.

Definition slope (x1 y1 x2 y2 : F) : F :=
  if eq_dec x1 x2 then (3 * x1 * x1) / (2 * y1) else (y2 - y1) / (x2 - x1).

Definition padd (P Q : pt) : pt :=
  match P, Q with
  | O, _ => Q
  | _, O => P
  | A x1 y1, A x2 y2 =>
    if eq_dec x1 x2 then
      if eq_dec (y1 + y2) 0 then O
      else let l := (3 * x1 * x1) / (2 * y1) in
           let x3 := l * l - x1 - x2 in A x3 (l * (x1 - x3) - y1)
    else let l := (y2 - y1) / (x2 - x1) in
         let x3 := l * l - x1 - x2 in A x3 (l * (x1 - x3) - y1)
  end.

Definition pneg (P : pt) : pt := match P with O => O | A x y => A x (- y) end.

Lemma y_nz x y : oc (A x y) -> y <> 0.
Proof. cbn. intros H E. apply (no2tors x). rewrite <- H, E. ring. Qed.

Lemma same_x x y1 y2 : oc (A x y1) -> oc (A x y2) -> y1 = y2 \/ y1 + y2 = 0.
Proof.
  cbn. intros H1 H2. assert (E : (y1 - y2) * (y1 + y2) = 0).
  { replace ((y1 - y2) * (y1 + y2)) with (y1 * y1 - y2 * y2) by ring. rewrite H1, H2. ring. }
  apply mul_0 in E. destruct E as [E|E]; [left; now apply sub_0_eq|now right].
Qed.

Lemma padd_oc P Q : oc P -> oc Q -> oc (padd P Q).
Proof.
  destruct P as [|x1 y1], Q as [|x2 y2]; cbn [padd]; auto.
  intros HP HQ. pose proof (y_nz _ _ HP) as Hy1.
  destruct (eq_dec x1 x2) as [E|E].
  - subst x2. destruct (eq_dec (y1 + y2) 0) as [E0|E0]; [exact I|].
    destruct (same_x _ _ _ HP HQ) as [Ey|?]; [subst y2|contradiction].
    cbn in *. cbv zeta.
    assert (Hb : b = y1 * y1 - x1 * x1 * x1) by (rewrite HP; ring). rewrite Hb.
    field. split; assumption.
  - cbn in *. cbv zeta. assert (H := sub_nz _ _ E). assert (H' : x2 - x1 <> 0) by (intros K; apply E; symmetry; now apply sub_0_eq).
    field_simplify_eq; [|assumption].
    assert (Hb : b = y1 * y1 - x1 * x1 * x1) by (rewrite HP; ring).
    assert (Hb2 : y2 * y2 = x2 * x2 * x2 + (y1 * y1 - x1 * x1 * x1)) by (rewrite HQ, Hb; ring).
    rewrite Hb. ring [Hb2].
Qed.

Lemma padd_comm P Q : oc P -> oc Q -> padd P Q = padd Q P.
Proof.
  destruct P as [|x1 y1], Q as [|x2 y2]; cbn [padd]; auto.
  intros HP HQ. pose proof (y_nz _ _ HP) as Hy1.
  destruct (eq_dec x1 x2) as [E|E].
  - subst x2. destruct (eq_dec x1 x1) as [_|]; [|congruence].
    replace (y2 + y1) with (y1 + y2) by ring.
    destruct (eq_dec (y1 + y2) 0) as [E0|E0]; [reflexivity|].
    destruct (same_x _ _ _ HP HQ) as [Ey|?]; [subst y2|contradiction]. reflexivity.
  - destruct (eq_dec x2 x1) as [|_]; [congruence|].
    assert (H := sub_nz _ _ E). assert (H' : x2 - x1 <> 0) by (intros K; apply E; symmetry; now apply sub_0_eq).
    cbv zeta. f_equal; field; auto.
Qed.

Lemma padd_O_r P : padd P O = P.
Proof. destruct P; reflexivity. Qed.

Lemma padd_neg_r P : oc P -> padd P (pneg P) = O.
Proof.
  destruct P as [|x y]; cbn; auto. intros H.
  destruct (eq_dec x x) as [_|]; [|congruence].
  destruct (eq_dec (y + - y) 0) as [_|E]; [reflexivity|]. exfalso. apply E. ring.
Qed.

Lemma pneg_oc P : oc P -> oc (pneg P).
Proof. destruct P; cbn; auto. intros H. rewrite <- H. ring. Qed.

(** Complete projective addition *)
Definition CX x1 y1 z1 x2 y2 z2 := (x1*y2+x2*y1)*(y1*y2 - 3*b*z1*z2) - 3*b*(y1*z2+y2*z1)*(x1*z2+x2*z1).
Definition CY x1 y1 z1 x2 y2 z2 := (y1*y2+3*b*z1*z2)*(y1*y2 - 3*b*z1*z2) + 3*3*b*x1*x2*(x1*z2+x2*z1).
Definition CZ x1 y1 z1 x2 y2 z2 := (y1*z2+y2*z1)*(y1*y2+3*b*z1*z2) + 3*x1*x2*(x1*y2+x2*y1).

Definition px P := match P with O => 0 | A x _ => x end.
Definition py P := match P with O => 1 | A _ y => y end.
Definition pz P := match P with O => 0 | A _ _ => 1 end.

Lemma complete_law P Q : oc P -> oc Q -> exists l, l <> 0 /\
  CX (px P) (py P) (pz P) (px Q) (py Q) (pz Q) = l * px (padd P Q) /\
  CY (px P) (py P) (pz P) (px Q) (py Q) (pz Q) = l * py (padd P Q) /\
  CZ (px P) (py P) (pz P) (px Q) (py Q) (pz Q) = l * pz (padd P Q).
Proof.
  intros HP HQ. unfold CX, CY, CZ.
  destruct P as [|x1 y1].
  - destruct Q as [|x2 y2]; cbn [px py pz padd].
    + exists 1. split; [exact one_nz|]. repeat split; ring.
    + exists y2. split; [eapply y_nz; eassumption|]. cbn in HQ. repeat split; ring.
  - destruct Q as [|x2 y2].
    + cbn [px py pz padd]. exists y1. split; [eapply y_nz; eassumption|]. cbn in HP. repeat split; ring.
    + pose proof (y_nz _ _ HP) as Hy1. pose proof (y_nz _ _ HQ) as Hy2.
      destruct (eq_dec x1 x2) as [E|E].
      * subst x2. destruct (same_x _ _ _ HP HQ) as [Ey|Ey].
        -- subst y2. assert (S : y1 + y1 <> 0).
           { replace (y1 + y1) with (2 * y1) by ring. now apply mul_nz. }
           cbn [px py pz padd]. destruct (eq_dec x1 x1) as [_|]; [|congruence].
           destruct (eq_dec (y1 + y1) 0) as [|_]; [contradiction|].
           cbn [px py pz]. cbn in HP. cbv zeta.
           exists (2*2*2*y1*y1*y1).
           assert (Hb : b = y1 * y1 - x1 * x1 * x1) by (rewrite HP; ring). rewrite Hb.
           split; [repeat apply mul_nz; assumption|]. repeat split; field; auto.
        -- assert (Ey' : y2 = - y1) by (transitivity (y1 + y2 - y1); [ring|rewrite Ey; ring]). subst y2.
           (* doubling P gives a finite point with nonzero y *)
           assert (HD : oc (padd (A x1 y1) (A x1 y1))) by (apply padd_oc; assumption).
           cbn [px py pz padd] in *. destruct (eq_dec x1 x1) as [_|]; [|congruence].
           destruct (eq_dec (y1 + - y1) 0) as [_|K]; [|exfalso; apply K; ring].
           destruct (eq_dec (y1 + y1) 0) as [K|_].
           { exfalso. apply (mul_nz 2 y1); auto. rewrite <- K. ring. }
           apply y_nz in HD. cbn in HP. cbn [px py pz].
           eexists. split; [|repeat split; try ring].
           ++ apply (mul_nz _ _ (mul_nz _ _ (mul_nz _ _ (mul_nz _ _ (mul_nz _ _ two_nz two_nz) two_nz) Hy1) Hy1) Hy1) in HD || idtac.
              assert (N8 : 2*2*2*y1*y1*y1 <> 0) by (repeat apply mul_nz; assumption).
              apply (mul_nz _ _ N8) in HD. exact HD.
           ++ assert (Hb : b = y1 * y1 - x1 * x1 * x1) by (rewrite HP; ring). rewrite Hb. field; auto.
      * assert (HD : oc (padd (A x1 y1) (A x2 (- y2)))).
        { apply padd_oc; [assumption|]. cbn in *. rewrite <- HQ. ring. }
        cbn [px py pz padd] in *. destruct (eq_dec x1 x2) as [|_]; [contradiction|].
        apply y_nz in HD. cbn in HP, HQ. cbn [px py pz]. cbv zeta in *.
        assert (H := sub_nz _ _ E). assert (H' : x2 - x1 <> 0) by (intros K; apply E; symmetry; now apply sub_0_eq).
        assert (N3 : (x2-x1)*(x2-x1)*(x2-x1) <> 0) by (repeat apply mul_nz; assumption).
        apply (mul_nz _ _ N3) in HD.
        eexists. split; [exact HD|].
        assert (Hb : b = y1 * y1 - x1 * x1 * x1) by (rewrite HP; ring).
        assert (Hb2 : y2 * y2 = x2 * x2 * x2 + (y1 * y1 - x1 * x1 * x1)) by (rewrite HQ, Hb; ring).
        rewrite Hb.
        repeat split; (field_simplify_eq; [ring [Hb2]|assumption]).
Qed.

Lemma C_scale l1 x1 y1 z1 l2 x2 y2 z2 :
  CX (l1*x1) (l1*y1) (l1*z1) (l2*x2) (l2*y2) (l2*z2) = l1*l1*l2*l2*CX x1 y1 z1 x2 y2 z2 /\
  CY (l1*x1) (l1*y1) (l1*z1) (l2*x2) (l2*y2) (l2*z2) = l1*l1*l2*l2*CY x1 y1 z1 x2 y2 z2 /\
  CZ (l1*x1) (l1*y1) (l1*z1) (l2*x2) (l2*y2) (l2*z2) = l1*l1*l2*l2*CZ x1 y1 z1 x2 y2 z2.
Proof. unfold CX, CY, CZ. repeat split; ring. Qed.

Lemma proj_eq P Q k l : k <> 0 -> l <> 0 ->
  (k * px P) * (l * pz Q) = (l * px Q) * (k * pz P) ->
  (k * py P) * (l * pz Q) = (l * py Q) * (k * pz P) ->
  P = Q.
Proof.
  intros Hk Hl H1 H2. assert (Hkl : k * l <> 0) by now apply mul_nz.
  destruct P as [|x1 y1], Q as [|x2 y2]; cbn [px py pz] in *; auto.
  - exfalso. apply Hkl. transitivity (k * 1 * (l * 1)); [ring|]. rewrite H2. ring.
  - exfalso. apply Hkl. transitivity (l * 1 * (k * 1)); [ring|]. rewrite <- H2. ring.
  - f_equal; apply (mul_cancel_r (k * l)); auto.
    + transitivity (k * x1 * (l * 1)); [ring|]. rewrite H1. ring.
    + transitivity (k * y1 * (l * 1)); [ring|]. rewrite H2. ring.
Qed.

Section Assoc.
Variables x1 y1 x2 y2 x3 y3 : F.
Hypothesis H1 : y1*y1 = x1*x1*x1+b.
Hypothesis H2 : y2*y2 = x2*x2*x2+b.
Hypothesis H3 : y3*y3 = x3*x3*x3+b.
Let X4 := CX x1 y1 1 x2 y2 1.
Let Y4 := CY x1 y1 1 x2 y2 1.
Let Z4 := CZ x1 y1 1 x2 y2 1.
Let X5 := CX x2 y2 1 x3 y3 1.
Let Y5 := CY x2 y2 1 x3 y3 1.
Let Z5 := CZ x2 y2 1 x3 y3 1.
Lemma assoc_xz : CX X4 Y4 Z4 x3 y3 1 * CZ x1 y1 1 X5 Y5 Z5 = CX x1 y1 1 X5 Y5 Z5 * CZ X4 Y4 Z4 x3 y3 1.
Proof. unfold X4, Y4, Z4, X5, Y5, Z5, CX, CY, CZ. ring [H1 H2 H3]. Qed.
Lemma assoc_yz : CY X4 Y4 Z4 x3 y3 1 * CZ x1 y1 1 X5 Y5 Z5 = CY x1 y1 1 X5 Y5 Z5 * CZ X4 Y4 Z4 x3 y3 1.
Proof. unfold X4, Y4, Z4, X5, Y5, Z5, CX, CY, CZ. ring [H1 H2 H3]. Qed.
End Assoc.

Theorem padd_assoc P Q R : oc P -> oc Q -> oc R -> padd (padd P Q) R = padd P (padd Q R).
Proof.
  intros HP HQ HR.
  destruct P as [|x1 y1]; [reflexivity|].
  destruct Q as [|x2 y2]; [reflexivity|].
  destruct R as [|x3 y3]; [rewrite !padd_O_r; reflexivity|].
  pose proof (padd_oc _ _ HP HQ) as HPQ. pose proof (padd_oc _ _ HQ HR) as HQR.
  destruct (complete_law _ _ HP HQ) as (k & Hk & K1 & K2 & K3).
  destruct (complete_law _ _ HQ HR) as (l & Hl & L1 & L2 & L3).
  destruct (complete_law _ _ HPQ HR) as (m & Hm & M1 & M2 & M3).
  destruct (complete_law _ _ HP HQR) as (o & Ho & O1 & O2 & O3).
  set (S := padd (A x1 y1) (A x2 y2)) in *. set (T := padd (A x2 y2) (A x3 y3)) in *.
  cbn [px py pz] in *. cbn in HP, HQ, HR.
  pose proof (assoc_xz _ _ _ _ _ _ HP HQ HR) as EX.
  pose proof (assoc_yz _ _ _ _ _ _ HP HQ HR) as EY.
  cbv zeta in EX, EY.
  rewrite K1, K2, K3, L1, L2, L3 in EX, EY.
  destruct (C_scale k (px S) (py S) (pz S) 1 x3 y3 1) as (S1 & S2 & S3).
  destruct (C_scale 1 x1 y1 1 l (px T) (py T) (pz T)) as (T1 & T2 & T3).
  assert (N1 : forall x, 1 * x = x) by (intros; ring). rewrite !N1 in *.
  rewrite S1, S3, T1, T3, M1, M3, O1, O3 in EX.
  rewrite S2, S3, T2, T3, M2, M3, O2, O3 in EY.
  apply (proj_eq _ _ (k*k*m) (l*l*o)).
  - repeat apply mul_nz; assumption.
  - repeat apply mul_nz; assumption.
  - etransitivity; [|etransitivity; [exact EX|]]; ring.
  - etransitivity; [|etransitivity; [exact EY|]]; ring.
Qed.

End EC.
