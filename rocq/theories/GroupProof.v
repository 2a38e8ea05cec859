(** Correctness of the point formulas of src/group_impl.h. *)
Require Import ZArith List Bool Lia Ring Field.
From Verif Require ECGroup.
From Verif Require Import Word Spec ZmField Curve FieldModel FieldMul FieldProof FieldProof2 FieldOps GroupModel.
Import ListNotations.
Local Open Scope Z_scope.

(** ** Values and magnitudes together *)
Definition fx (m : Z) (x : fe) (v : F) : Prop := fe_mag m x /\ fv x = v.

Lemma fx_weaken m k x v : fx m x v -> (m <=? k) = true -> fx k x v.
Proof. intros [H E] L. apply Z.leb_le in L. split; [|exact E]. eapply mag_weaken; eassumption. Qed.
Lemma fx_mul m k a b va vb : fx m a va -> fx k b vb -> (m <=? 8) && (k <=? 8) = true -> fx 1 (fe_mul a b) (va * vb)%F.
Proof.
  intros [Ha <-] [Hb <-] L. apply andb_prop in L as [L1 L2]. apply Z.leb_le in L1, L2.
  assert (fe_mag 8 a) by (eapply mag_weaken; eassumption). assert (fe_mag 8 b) by (eapply mag_weaken; eassumption).
  split; [now apply fe_mul_mag|now apply fe_mul_fv].
Qed.
Lemma fx_sqr m a va : fx m a va -> (m <=? 8) = true -> fx 1 (fe_sqr a) (va * va)%F.
Proof.
  intros [Ha <-] L. apply Z.leb_le in L. assert (fe_mag 8 a) by (eapply mag_weaken; eassumption).
  split; [now apply fe_sqr_mag|now apply fe_sqr_fv].
Qed.
Lemma fx_add m k a b va vb : fx m a va -> fx k b vb -> (0 <=? m) && (0 <=? k) && (m + k <=? 32) = true -> fx (m + k) (fe_add a b) (va + vb)%F.
Proof.
  intros [Ha <-] [Hb <-] L. apply andb_prop in L as [L L3]. apply andb_prop in L as [L1 L2]. apply Z.leb_le in L1, L2, L3.
  split; [now apply fe_add_mag|now apply (fe_add_fv m k)].
Qed.
Lemma fx_add_int m k a va : fx m a va -> (0 <=? k) && (k <=? 0x7FFF) && (0 <=? m) && (m <=? 31) = true -> fx (m + 1) (fe_add_int a k) (va + toF k)%F.
Proof.
  intros [Ha <-] L. rewrite !andb_true_iff, !Z.leb_le in L.
  split; [apply fe_add_int_mag; lia || assumption|apply (fe_add_int_fv m); lia || assumption].
Qed.
Lemma fx_negate m k a va : fx m a va -> (m <=? k) && (0 <=? k) && (k <=? 31) = true -> fx (k + 1) (fe_negate a k) (- va)%F.
Proof.
  intros [Ha <-] L. rewrite !andb_true_iff, !Z.leb_le in L.
  assert (fe_mag k a) by (eapply mag_weaken; [eassumption|lia]).
  split; [apply fe_negate_mag; lia || assumption|apply (fe_negate_fv k); lia || assumption].
Qed.
Lemma fx_mul_int m k a va : fx m a va -> (0 <=? m) && (0 <=? k) && (m * k <=? 32) = true -> fx (m * k) (fe_mul_int a k) (va * toF k)%F.
Proof.
  intros [Ha <-] L. rewrite !andb_true_iff, !Z.leb_le in L.
  split; [apply fe_mul_int_mag; lia || assumption|apply (fe_mul_int_fv m); lia || assumption].
Qed.
Lemma fx_half m a va : fx m a va -> (0 <=? m) && (m <=? 31) = true -> fx (m / 2 + 1) (fe_half a) (va / (1 + 1))%F.
Proof.
  intros [Ha <-] L. rewrite !andb_true_iff, !Z.leb_le in L.
  split; [apply fe_half_mag; lia || assumption|]. rewrite <- (fe_half_fv m a) by lia || assumption. field. exact f2_nz.
Qed.
Lemma fx_norm_weak m a va : fx m a va -> (m <=? 32) = true -> fx 1 (fe_normalize_weak a) va.
Proof.
  intros [Ha <-] L. apply Z.leb_le in L. apply fe_normalize_weak_ok. eapply mag_weaken; eassumption.
Qed.
Lemma fx_cmov m k r a vr va b : fx m r vr -> fx k a va -> (0 <=? m) && (0 <=? k) && (m <=? 32) && (k <=? 32) = true ->
  fx (Z.max m k) (fe_cmov r a (b2z b)) (if b then va else vr).
Proof.
  intros [Hr <-] [Ha <-] L. rewrite !andb_true_iff, !Z.leb_le in L.
  assert (R : fe_mag (Z.max m k) r) by (eapply mag_weaken; [eassumption|lia]).
  assert (A : fe_mag (Z.max m k) a) by (eapply mag_weaken; [eassumption|lia]).
  rewrite (fe_cmov_ok (Z.max m k)) by first [assumption | lia | destruct b; cbn; auto].
  destruct b; cbn [b2z]; split; auto.
Qed.
Lemma fx_set_int k : 0 <= k <= 0x7FFF -> fx 1 (fe_set_int k) (toF k).
Proof.
  intros H. destruct (fe_set_int_ok k H) as [N V]. split; [|unfold fv; now rewrite V].
  destruct N as (N0 & N1 & N2 & N3 & N4 & _). unfold fe_mag. lia.
Qed.
Lemma fe_norm_mag a : fe_norm a -> fe_mag 1 a.
Proof. intros (N0 & N1 & N2 & N3 & N4 & _). unfold fe_mag. lia. Qed.
Lemma fx_one : fx 1 fe_one f1.
Proof. split; [apply fe_norm_mag, fe_one_norm|apply fe_one_fv]. Qed.
Lemma fx_int1 : fx 1 (fe_set_int 1) f1. Proof. apply (fx_set_int 1). lia. Qed.
Lemma fx_int0 : fx 1 (fe_set_int 0) f0. Proof. apply (fx_set_int 0). lia. Qed.
Lemma fx_inv m a va : fx m a va -> (m <=? 32) = true -> fx 1 (fe_inv a) (finv va).
Proof.
  intros [Ha <-] L. apply Z.leb_le in L. split; [apply fe_norm_mag, fe_inv_norm|].
  apply fe_inv_fv. eapply mag_weaken; eassumption.
Qed.
Lemma fx_inv_var m a va : fx m a va -> (m <=? 32) = true -> fx 1 (fe_inv_var a) (finv va).
Proof.
  intros [Ha <-] L. apply Z.leb_le in L. split; [apply fe_norm_mag, fe_inv_var_norm|].
  apply fe_inv_var_fv. eapply mag_weaken; eassumption.
Qed.
Lemma fx_ntz m a va : fx m a va -> (m <=? 32) = true -> (fe_normalizes_to_zero a = true <-> va = f0).
Proof. intros [Ha <-] L. apply Z.leb_le in L. apply fe_normalizes_to_zero_spec. eapply mag_weaken; eassumption. Qed.
Lemma fx_ntzv m a va : fx m a va -> (m <=? 32) = true -> (fe_normalizes_to_zero_var a = true <-> va = f0).
Proof. intros [Ha <-] L. apply Z.leb_le in L. apply fe_normalizes_to_zero_var_spec. eapply mag_weaken; eassumption. Qed.

Ltac fxc t :=
  lazymatch t with
  | fe_mul ?a ?b => let Ha := fxc a in let Hb := fxc b in constr:(fx_mul _ _ _ _ _ _ Ha Hb eq_refl)
  | fe_sqr ?a => let Ha := fxc a in constr:(fx_sqr _ _ _ Ha eq_refl)
  | fe_add ?a ?b => let Ha := fxc a in let Hb := fxc b in constr:(fx_add _ _ _ _ _ _ Ha Hb eq_refl)
  | fe_add_int ?a ?k => let Ha := fxc a in constr:(fx_add_int _ k _ _ Ha eq_refl)
  | fe_negate ?a ?k => let Ha := fxc a in constr:(fx_negate _ k _ _ Ha eq_refl)
  | fe_mul_int ?a ?k => let Ha := fxc a in constr:(fx_mul_int _ k _ _ Ha eq_refl)
  | fe_half ?a => let Ha := fxc a in constr:(fx_half _ _ _ Ha eq_refl)
  | fe_normalize_weak ?a => let Ha := fxc a in constr:(fx_norm_weak _ _ _ Ha eq_refl)
  | fe_cmov ?r ?a (b2z ?b) => let Hr := fxc r in let Ha := fxc a in constr:(fx_cmov _ _ _ _ _ _ b Hr Ha eq_refl)
  | fe_one => constr:(fx_one)
  | fe_set_int 1 => constr:(fx_int1)
  | fe_set_int 0 => constr:(fx_int0)
  | fe_inv ?a => let Ha := fxc a in constr:(fx_inv _ _ _ Ha eq_refl)
  | fe_inv_var ?a => let Ha := fxc a in constr:(fx_inv_var _ _ _ Ha eq_refl)
  | ?x => match goal with H : fx _ x _ |- _ => constr:(H) end
  end.
Ltac fstep E :=
  lazymatch type of E with ?x = ?t =>
    let pf := fxc t in
    let T := type of pf in
    lazymatch T with fx ?m _ ?v =>
      let m' := eval vm_compute in m in
      let H := fresh "X" x in
      assert (H : fx m' x v) by (rewrite E; exact pf); clear E
    end
  end.
Ltac fsteps := repeat match goal with E : ?x = _ |- _ => is_var x; fstep E end.

(** ** What a ge / gej stands for.  [t] is the factor of the isomorphism used by
    the effective-affine trick of ecmult (t = 1 outside of it): an affine pair
    (x, y) of the isomorphic curve y^2 = x^3 + 7 t^6 stands for (x/t^2, y/t^3). *)
Definition ge_rep (t : F) (a : ge) (P : point) : Prop :=
  fe_mag 4 (gx a) /\ fe_mag 3 (gy a) /\ on_curve P /\
  match P with
  | Inf => ginf a = true
  | Aff x y => ginf a = false /\ fv (gx a) = (toF x * (t * t))%F /\ fv (gy a) = (toF y * (t * t * t))%F
  end.
Definition gej_rep (t : F) (a : gej) (P : point) : Prop :=
  fe_mag 4 (jx a) /\ fe_mag 4 (jy a) /\ fe_mag 1 (jz a) /\ on_curve P /\
  match P with
  | Inf => jinf a = true
  | Aff x y => jinf a = false /\ fv (jz a) <> f0 /\
      let w := (fv (jz a) * t)%F in fv (jx a) = (toF x * (w * w))%F /\ fv (jy a) = (toF y * (w * w * w))%F
  end.

Lemma toF_2 : toF 2 = (1 + 1)%F. Proof. rewrite <- toF_one, <- toF_add. reflexivity. Qed.
Lemma toF_3 : toF 3 = (1 + 1 + 1)%F. Proof. rewrite <- toF_one, <- !toF_add. reflexivity. Qed.

Lemma fsub_nz (x y : F) : x <> y -> (x - y)%F <> f0.
Proof. intros H E. apply H. transitivity (x - y + y)%F; [ring|]. rewrite E. ring. Qed.
Lemma fsub_0_eq (x y : F) : (x - y)%F = f0 -> x = y.
Proof. intros E. transitivity (x - y + y)%F; [ring|]. rewrite E. ring. Qed.

(** ** Case analysis of the addition of finite points *)
Definition eqn (x y : Z) : Prop := (toF y * toF y = toF x * toF x * toF x + b7)%F.
Lemma on_curve_eqn x y : on_curve (Aff x y) -> eqn x y.
Proof. intros H. exact (eoc_phi _ H). Qed.
Lemma on_curve_ynz x y : on_curve (Aff x y) -> toF y <> f0.
Proof. intros H. eapply (ECGroup.y_nz F _ _ _ _ _ _ _ _ F_field b7 F_no2tors). exact (eoc_phi _ H). Qed.

Lemma A_inj (x y x' y' : F) : ECGroup.A F x y = ECGroup.A F x' y' -> x = x' /\ y = y'.
Proof.
  intros E. split.
  - exact (f_equal (fun P => match P with ECGroup.A _ a _ => a | _ => x end) E).
  - exact (f_equal (fun P => match P with ECGroup.A _ _ a => a | _ => y end) E).
Qed.
Lemma padd_diff x1 y1 x2 y2 : on_curve (Aff x1 y1) -> on_curve (Aff x2 y2) -> toF x1 <> toF x2 ->
  exists x3 y3 l, padd (Aff x1 y1) (Aff x2 y2) = Aff x3 y3 /\
   (l * (toF x2 - toF x1) = toF y2 - toF y1)%F /\ toF x3 = (l * l - toF x1 - toF x2)%F /\ toF y3 = (l * (toF x1 - toF x3) - toF y1)%F.
Proof.
  intros H1 H2 D. pose proof (phi_add _ _ H1 H2) as E. cbn [phi] in E. unfold eadd, ECGroup.padd in E.
  destruct (F_eq_dec (toF x1) (toF x2)) as [|_]; [contradiction|].
  destruct (padd (Aff x1 y1) (Aff x2 y2)) as [|x3 y3]; [discriminate|]. cbn [phi] in E. apply A_inj in E as [E3 E4].
  exists x3, y3, ((toF y2 - toF y1) / (toF x2 - toF x1))%F. split; [reflexivity|].
  assert (N : (toF x2 - toF x1)%F <> f0) by (apply fsub_nz; congruence).
  split; [field; exact N|]. split; [exact E3|]. rewrite E4, E3. reflexivity.
Qed.
Lemma padd_same x y : on_curve (Aff x y) ->
  exists x3 y3 l, padd (Aff x y) (Aff x y) = Aff x3 y3 /\
   (l * ((1 + 1) * toF y) = (1 + 1 + 1) * toF x * toF x)%F /\ toF x3 = (l * l - toF x - toF x)%F /\ toF y3 = (l * (toF x - toF x3) - toF y)%F.
Proof.
  intros H1. pose proof (phi_add _ _ H1 H1) as E. cbn [phi] in E. unfold eadd, ECGroup.padd in E.
  pose proof (on_curve_ynz _ _ H1) as Y.
  destruct (F_eq_dec (toF x) (toF x)) as [_|]; [|congruence].
  destruct (F_eq_dec (toF y + toF y)%F f0) as [E0|_].
  { exfalso. assert (K : ((1 + 1) * toF y)%F = f0) by (rewrite <- E0; ring). apply fmul_0 in K as [K|K]; [exact (f2_nz K)|exact (Y K)]. }
  destruct (padd (Aff x y) (Aff x y)) as [|x3 y3]; [discriminate|]. cbn [phi] in E. apply A_inj in E as [E3 E4].
  exists x3, y3, ((1 + 1 + 1) * toF x * toF x / ((1 + 1) * toF y))%F. split; [reflexivity|].
  split; [field; split; [exact Y|exact f2_nz]|]. split; [exact E3|]. rewrite E4, E3. reflexivity.
Qed.
Lemma same_x_cases x1 y1 x2 y2 : on_curve (Aff x1 y1) -> on_curve (Aff x2 y2) -> toF x1 = toF x2 ->
  x1 = x2 /\ (y1 = y2 \/ ((toF y1 + toF y2)%F = f0 /\ padd (Aff x1 y1) (Aff x2 y2) = Inf)).
Proof.
  intros H1 H2 E. pose proof H1 as (R1 & R1' & _). pose proof H2 as (R2 & R2' & _).
  apply toF_range_eq in E; try assumption. subst x2. split; [reflexivity|].
  pose proof (on_curve_eqn _ _ H1) as E1. pose proof (on_curve_eqn _ _ H2) as E2. unfold eqn in *.
  assert (K : ((toF y1 - toF y2) * (toF y1 + toF y2) = f0)%F).
  { transitivity (toF y1 * toF y1 - toF y2 * toF y2)%F; [ring|]. rewrite E1, E2. ring. }
  apply fmul_0 in K as [K|K].
  - left. apply toF_range_eq; try assumption. now apply fsub_0_eq.
  - right. split; [exact K|]. unfold padd. rewrite Z.eqb_refl. rewrite <- toF_add in K. apply toF_0_iff in K. rewrite K. reflexivity.
Qed.
(** The slope of the unified formula. *)
Lemma padd_unified x1 y1 x2 y2 : on_curve (Aff x1 y1) -> on_curve (Aff x2 y2) -> (toF y1 + toF y2)%F <> f0 ->
  exists x3 y3 l, padd (Aff x1 y1) (Aff x2 y2) = Aff x3 y3 /\
   (l * (toF y1 + toF y2) = toF x1 * toF x1 + toF x1 * toF x2 + toF x2 * toF x2)%F /\
   (l * (toF x1 - toF x2) = toF y1 - toF y2)%F /\
   toF x3 = (l * l - toF x1 - toF x2)%F /\ toF y3 = (l * (toF x1 - toF x3) - toF y1)%F.
Proof.
  intros H1 H2 S. pose proof (on_curve_eqn _ _ H1) as E1. pose proof (on_curve_eqn _ _ H2) as E2. unfold eqn in *.
  destruct (F_eq_dec (toF x1) (toF x2)) as [E|E].
  - destruct (same_x_cases _ _ _ _ H1 H2 E) as [-> [-> | [K _]]]; [|contradiction].
    destruct (padd_same _ _ H1) as (x3 & y3 & l & P & L & X & Y). exists x3, y3, l. split; [exact P|].
    split; [transitivity (l * ((1 + 1) * toF y2))%F; [ring|]; rewrite L; ring|].
    split; [ring|]. split; assumption.
  - destruct (padd_diff _ _ _ _ H1 H2 E) as (x3 & y3 & l & P & L & X & Y). exists x3, y3, l. split; [exact P|].
    assert (N : (toF x2 - toF x1)%F <> f0) by (apply fsub_nz; congruence).
    split.
    + apply (ECGroup.mul_cancel_r F _ _ _ _ _ _ _ _ F_field (toF x2 - toF x1)%F); [exact N|].
      transitivity ((l * (toF x2 - toF x1)) * (toF y1 + toF y2))%F; [ring|]. rewrite L.
      transitivity (toF y2 * toF y2 - toF y1 * toF y1)%F; [ring|]. rewrite E1, E2. ring.
    + split; [|split; assumption]. transitivity (- (l * (toF x2 - toF x1)))%F; [ring|]. rewrite L. ring.
Qed.
