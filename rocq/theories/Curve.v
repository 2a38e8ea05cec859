(** The group of points of secp256k1: group laws for [Spec.padd], scalar
    multiplication, and the fact that the group is cyclic of prime order [n],
    generated by [G]. *)
Require Import ZArith Znumtheory Lia Bool List Ring Field Zpow_facts.
From Verif Require ECGroup.
From Verif Require Import NumTheory Spec Primes ZmField OrderCert.
Import ListNotations.
Local Open Scope Z_scope.

Lemma p_pos : 0 < p. Proof. reflexivity. Qed.
Lemma n_pos : 0 < n. Proof. reflexivity. Qed.
Lemma p_gt2 : 2 < p. Proof. reflexivity. Qed.
Lemma n_gt2 : 2 < n. Proof. reflexivity. Qed.
Lemma n_lt_p : n < p. Proof. reflexivity. Qed.
Lemma p_odd : p mod 2 = 1. Proof. reflexivity. Qed.
Lemma n_odd : n mod 2 = 1. Proof. reflexivity. Qed.
Global Opaque p n.
#[global] Hint Resolve p_pos n_pos : core.

(** ** The field F_p *)
Definition F : Type := Zm p.
Definition toF : Z -> F := ofZ p.
Definition f0 : F := zzero p.
Definition f1 : F := zone p.
Definition fadd : F -> F -> F := zadd p.
Definition fmul : F -> F -> F := zmul p.
Definition fsub : F -> F -> F := zsub p.
Definition fopp : F -> F := zopp p.
Definition finv : F -> F := zinv p.
Definition fdiv : F -> F -> F := zdiv p.
Definition F_field : field_theory f0 f1 fadd fmul fsub fopp fdiv finv (@eq F) := zm_field p prime_p.
Definition F_eq_dec : forall a b : F, {a = b} + {a <> b} := Zm_eq_dec p.

Declare Scope F_scope.
Delimit Scope F_scope with F.
Bind Scope F_scope with F.
Notation "0" := f0 : F_scope.
Notation "1" := f1 : F_scope.
Infix "+" := fadd : F_scope.
Infix "*" := fmul : F_scope.
Infix "-" := fsub : F_scope.
Notation "- x" := (fopp x) : F_scope.
Infix "/" := fdiv : F_scope.

Lemma toF_add x y : toF (x + y) = (toF x + toF y)%F. Proof. apply ofZ_add; exact prime_p. Qed.
Lemma toF_mul x y : toF (x * y) = (toF x * toF y)%F. Proof. apply ofZ_mul; exact prime_p. Qed.
Lemma toF_sub x y : toF (x - y) = (toF x - toF y)%F. Proof. apply ofZ_sub; exact prime_p. Qed.
Lemma toF_opp x : toF (- x) = (- toF x)%F. Proof. apply ofZ_opp; exact prime_p. Qed.
Lemma toF_inv x : toF (inv_mod x p) = finv (toF x). Proof. apply ofZ_inv; exact prime_p. Qed.
Lemma toF_mod x : toF (x mod p) = toF x.
Proof. apply ofZ_eq. apply Zmod_mod. Qed.
Lemma toF_eq x y : x mod p = y mod p -> toF x = toF y. Proof. apply ofZ_eq. Qed.
Lemma toF_inj x y : toF x = toF y -> x mod p = y mod p. Proof. apply ofZ_inj. Qed.
Lemma toF_zv (x : F) : toF (zv x) = x. Proof. apply ofZ_zv. Qed.
Lemma toF_zero : toF 0 = f0. Proof. reflexivity. Qed.
Lemma toF_one : toF 1 = f1. Proof. reflexivity. Qed.
Lemma zv_toF x : zv (toF x) = x mod p. Proof. reflexivity. Qed.
Lemma F_zv_range (x : F) : 0 <= zv x < p. Proof. apply zv_range. exact prime_p. Qed.
Lemma F_ext (x y : F) : zv x = zv y -> x = y. Proof. apply Zm_eq. Qed.
Lemma finv_0 : finv f0 = f0. Proof. apply zinv_0; [exact prime_p|reflexivity]. Qed.
Lemma f1_nz : f1 <> f0. Proof. exact (F_1_neq_0 F_field). Qed.
Lemma toF_nz x : x mod p <> 0 -> toF x <> f0.
Proof. intros H E. apply H. apply toF_inj in E. rewrite E. apply Zmod_0_l. Qed.
Lemma toF_0_iff x : toF x = f0 <-> x mod p = 0.
Proof.
  split.
  - intros H. apply toF_inj in H. now rewrite Zmod_0_l in H.
  - intros H. apply toF_eq. now rewrite Zmod_0_l.
Qed.

Global Opaque toF f0 f1 fadd fmul fsub fopp finv fdiv.

Add Field FpF : F_field.

Lemma f2_nz : (1 + 1)%F <> f0.
Proof. rewrite <- toF_one, <- toF_add. apply toF_nz. vm_compute. discriminate. Qed.

Lemma fmul_nz (x y : F) : x <> f0 -> y <> f0 -> (x * y)%F <> f0.
Proof. apply (ECGroup.mul_nz F _ _ _ _ _ _ _ _ F_field). Qed.
Lemma fmul_0 (x y : F) : (x * y)%F = f0 -> x = f0 \/ y = f0.
Proof. apply (ECGroup.mul_0 F _ _ _ _ _ _ _ _ F_field F_eq_dec). Qed.

(** ** -7 is not a cube, so there is no point of order two *)
Lemma fermat_p x : x mod p <> 0 -> x ^ (p - 1) mod p = 1.
Proof.
  intros H. apply fermat_little; [exact prime_p|].
  intros D. apply H. apply Z.mod_divide; [pose proof p_pos; lia|assumption].
Qed.

Definition minus7_check : bool :=
  match (p - 1) / 3 with
  | Zpos e => (powred_pos (red256 2 4294968273) (-7) e - 1) mod p =? 0
  | _ => true
  end.

Lemma minus7_check_false : minus7_check = false.
Proof. vm_cast_no_check (eq_refl false). Qed.

Lemma minus7_pow : ((-7) ^ ((p - 1) / 3) mod p =? 1) = false.
Proof.
  apply Z.eqb_neq. intros C. pose proof minus7_check_false as K. unfold minus7_check in K.
  destruct ((p - 1) / 3) as [|e|e] eqn:E; [discriminate| |discriminate].
  apply Z.eqb_neq in K. apply K.
  rewrite Zminus_mod. rewrite powred_pos_correct with (m := p).
  - rewrite C. reflexivity.
  - exact p_pos.
  - intros z. exact (red256_correct 2 4294968273 z eq_refl).
Qed.

Lemma minus7_not_cube x : (x * x * x + 7) mod p <> 0.
Proof.
  intros H.
  assert (E : (x * x * x) mod p = (-7) mod p).
  { replace (x * x * x) with ((x * x * x + 7) - 7) by ring.
    rewrite Zminus_mod, H. rewrite Zminus_mod_idemp_r. reflexivity. }
  assert (Hx : x mod p <> 0).
  { intros Hx. assert (x * x * x mod p = 0).
    { rewrite Z.mul_mod, Hx, Z.mul_0_r by (pose proof p_pos; lia). apply Zmod_0_l. }
    rewrite H0 in E. assert (K : ((-7) mod p =? 0) = false) by (vm_compute; reflexivity).
    rewrite <- E in K. discriminate. }
  pose proof (fermat_p x Hx) as Hf.
  assert (C : (-7) ^ ((p - 1) / 3) mod p = 1).
  { rewrite Zpower_mod, <- E, <- Zpower_mod by auto.
    replace (x * x * x) with (x ^ 3) by ring.
    rewrite <- Z.pow_mul_r; [|lia|vm_compute; discriminate].
    replace (3 * ((p - 1) / 3)) with (p - 1) by (vm_compute; reflexivity). exact Hf. }
  pose proof minus7_pow as K. rewrite C in K. discriminate.
Qed.

Definition b7 : F := toF 7.

Lemma F_no2tors (x : F) : (x * x * x + b7)%F <> f0.
Proof.
  rewrite <- (toF_zv x). unfold b7. rewrite <- !toF_mul, <- toF_add. apply toF_nz. apply minus7_not_cube.
Qed.

(** ** Transfer of the abstract group law to [Spec.padd] *)
Definition ept := ECGroup.pt F.
Definition eadd : ept -> ept -> ept := ECGroup.padd F f0 f1 fadd fmul fsub fdiv F_eq_dec.
Definition eoc : ept -> Prop := ECGroup.oc F fadd fmul b7.
Definition eneg : ept -> ept := ECGroup.pneg F fopp.

Definition phi (P : point) : ept :=
  match P with Inf => ECGroup.O F | Aff x y => ECGroup.A F (toF x) (toF y) end.
Definition psi (P : ept) : point :=
  match P with ECGroup.O _ => Inf | ECGroup.A _ x y => Aff (zv x) (zv y) end.

Lemma psi_phi P : on_curve P -> psi (phi P) = P.
Proof.
  destruct P as [|x y]; [reflexivity|]. cbn [phi psi]. intros (Hx & Hy & _).
  rewrite !zv_toF, !Z.mod_small by lia. reflexivity.
Qed.

Lemma phi_psi P : phi (psi P) = P.
Proof. destruct P as [|x y]; [reflexivity|]. cbn [phi psi]. now rewrite !toF_zv. Qed.

Lemma phi_inj P Q : on_curve P -> on_curve Q -> phi P = phi Q -> P = Q.
Proof. intros HP HQ H. rewrite <- (psi_phi P HP), <- (psi_phi Q HQ), H. reflexivity. Qed.

Lemma eoc_phi P : on_curve P -> eoc (phi P).
Proof.
  destruct P as [|x y]; [constructor|]. cbn [phi]. intros (Hx & Hy & H).
  unfold eoc, ECGroup.oc, b7. rewrite <- !toF_mul, <- toF_add. apply toF_eq. exact H.
Qed.

Lemma on_curve_psi P : eoc P -> on_curve (psi P).
Proof.
  destruct P as [|x y]; [constructor|]. cbn [psi]. intros H. repeat split; try apply F_zv_range.
  apply toF_inj. rewrite toF_add, !toF_mul, !toF_zv. exact H.
Qed.

Lemma phi_neg P : phi (pneg P) = eneg (phi P).
Proof. destruct P as [|x y]; [reflexivity|]. cbn. rewrite toF_mod, toF_opp. reflexivity. Qed.

Lemma toF_range_eq x y : 0 <= x < p -> 0 <= y < p -> toF x = toF y -> x = y.
Proof. intros Hx Hy H. apply toF_inj in H. now rewrite !Z.mod_small in H by lia. Qed.

Lemma phi_add P Q : on_curve P -> on_curve Q -> phi (padd P Q) = eadd (phi P) (phi Q).
Proof.
  destruct P as [|x1 y1], Q as [|x2 y2]; try reflexivity.
  intros HP HQ. pose proof (eoc_phi _ HP) as HP'. pose proof (eoc_phi _ HQ) as HQ'.
  cbn [phi] in HP', HQ'.
  unfold eadd, ECGroup.padd, padd. cbn [phi].
  destruct HP as (Hx1 & Hy1 & HP). destruct HQ as (Hx2 & Hy2 & HQ).
  destruct (F_eq_dec (toF x1) (toF x2)) as [E|E].
  - apply toF_range_eq in E; auto. subst x2. rewrite Z.eqb_refl. cbn [andb].
    destruct (F_eq_dec (toF y1 + toF y2)%F f0) as [Ey|Ey].
    + rewrite <- toF_add in Ey. apply toF_0_iff in Ey. rewrite Ey. reflexivity.
    + rewrite <- toF_add, toF_0_iff in Ey. apply Z.eqb_neq in Ey. rewrite Ey. cbn [phi].
      rewrite !toF_mod, !toF_sub, !toF_mul, !toF_mod, !toF_sub, !toF_mod, !toF_mul, !toF_inv, !toF_mul.
      rewrite !toF_sub, !toF_mul, !toF_mod, !toF_mul, !toF_inv, !toF_mul.
      change (toF 3) with (toF (1 + 1 + 1)). change (toF 2) with (toF (1 + 1)).
      rewrite !toF_add, toF_one.
      assert (Hy : toF y1 <> f0) by (eapply (ECGroup.y_nz F _ _ _ _ _ _ _ _ F_field b7 F_no2tors); exact HP').
      f_equal; field; split; auto using f2_nz.
  - assert (E' : x1 =? x2 = false) by (apply Z.eqb_neq; intros ->; now apply E).
    rewrite E'. cbn [andb phi].
    rewrite !toF_mod, !toF_sub, !toF_mul, !toF_mod, !toF_sub, !toF_mod, !toF_mul, !toF_inv.
    rewrite !toF_sub, !toF_mul, !toF_mod, !toF_mul, !toF_inv, !toF_sub.
    assert (H' : (toF x2 - toF x1)%F <> f0).
    { intros K. apply E. symmetry. apply (ECGroup.sub_0_eq F _ _ _ _ _ _ _ _ F_field _ _ K). }
    f_equal; field; auto.
Qed.

Lemma on_curve_add P Q : on_curve P -> on_curve Q -> on_curve (padd P Q).
Proof.
  intros HP HQ.
  assert (H : eoc (phi (padd P Q))).
  { rewrite phi_add by assumption. unfold eoc, eadd.
    apply (ECGroup.padd_oc F f0 f1 fadd fmul fsub fopp finv fdiv F_field F_eq_dec f2_nz b7 F_no2tors); apply eoc_phi; assumption. }
  apply on_curve_psi in H.
  destruct P as [|x1 y1], Q as [|x2 y2]; try assumption.
  revert H. unfold padd. destruct ((x1 =? x2) && ((y1 + y2) mod p =? 0)); [intros; constructor|].
  cbn [phi psi]. rewrite !zv_toF, !Zmod_mod. auto.
Qed.

Lemma on_curve_neg P : on_curve P -> on_curve (pneg P).
Proof.
  destruct P as [|x y]; [auto|]. cbn. intros (Hx & Hy & H). repeat split; try lia.
  - apply Z.mod_pos_bound. auto.
  - apply Z.mod_pos_bound. auto.
  - rewrite Z.mul_mod_idemp_l, Z.mul_mod_idemp_r by (pose proof p_pos; lia).
    rewrite Z.mul_opp_opp. exact H.
Qed.

Lemma on_curve_Inf : on_curve Inf. Proof. exact I. Qed.

Lemma on_curve_G : on_curve G.
Proof. vm_compute. repeat split; discriminate || reflexivity. Qed.

#[global] Hint Resolve on_curve_add on_curve_neg on_curve_Inf on_curve_G : curve.

Lemma on_curveb_spec P : on_curveb P = true <-> on_curve P.
Proof.
  destruct P as [|x y]; [easy|]. cbn [on_curveb on_curve].
  rewrite !andb_true_iff, !Z.leb_le, !Z.ltb_lt, Z.eqb_eq. tauto.
Qed.

Lemma padd_Inf_l P : padd Inf P = P. Proof. reflexivity. Qed.
Lemma padd_Inf_r P : padd P Inf = P. Proof. destruct P; reflexivity. Qed.

Lemma padd_assoc P Q R : on_curve P -> on_curve Q -> on_curve R ->
  padd (padd P Q) R = padd P (padd Q R).
Proof.
  intros HP HQ HR. apply phi_inj; auto with curve. rewrite !phi_add by auto with curve.
  apply (ECGroup.padd_assoc F f0 f1 fadd fmul fsub fopp finv fdiv F_field F_eq_dec f2_nz b7 F_no2tors); apply eoc_phi; assumption.
Qed.

Lemma padd_comm P Q : on_curve P -> on_curve Q -> padd P Q = padd Q P.
Proof.
  intros HP HQ. apply phi_inj; auto with curve. rewrite !phi_add by auto with curve.
  apply (ECGroup.padd_comm F f0 f1 fadd fmul fsub fopp finv fdiv F_field F_eq_dec b7 F_no2tors); apply eoc_phi; assumption.
Qed.

Lemma padd_neg_r P : on_curve P -> padd P (pneg P) = Inf.
Proof.
  intros HP. apply phi_inj; auto with curve. rewrite phi_add, phi_neg by auto with curve.
  apply (ECGroup.padd_neg_r F f0 f1 fadd fmul fsub fopp finv fdiv F_field F_eq_dec b7); apply eoc_phi; assumption.
Qed.

Lemma padd_neg_l P : on_curve P -> padd (pneg P) P = Inf.
Proof. intros. rewrite padd_comm by auto with curve. now apply padd_neg_r. Qed.

Lemma padd_cancel_l P Q R : on_curve P -> on_curve Q -> on_curve R -> padd P Q = padd P R -> Q = R.
Proof.
  intros HP HQ HR H.
  rewrite <- (padd_Inf_l Q), <- (padd_Inf_l R), <- (padd_neg_l P HP).
  rewrite !padd_assoc by auto with curve. now rewrite H.
Qed.

Lemma pneg_unique P Q : on_curve P -> on_curve Q -> padd P Q = Inf -> Q = pneg P.
Proof.
  intros HP HQ H. apply (padd_cancel_l P); auto with curve. now rewrite padd_neg_r.
Qed.

Lemma pneg_involutive P : on_curve P -> pneg (pneg P) = P.
Proof. intros HP. symmetry. apply pneg_unique; auto with curve. now apply padd_neg_l. Qed.

Lemma pneg_add P Q : on_curve P -> on_curve Q -> pneg (padd P Q) = padd (pneg P) (pneg Q).
Proof.
  intros HP HQ. symmetry. apply pneg_unique; auto with curve.
  rewrite (padd_comm (pneg P)) by auto with curve.
  rewrite padd_assoc, <- (padd_assoc Q), padd_neg_r, padd_Inf_l, padd_neg_r by auto with curve. reflexivity.
Qed.

(** ** Scalar multiplication *)
Lemma on_curve_mul_pos k P : on_curve P -> on_curve (pmul_pos k P).
Proof. intros HP. induction k; cbn [pmul_pos]; auto with curve. Qed.

Lemma on_curve_mul k P : on_curve P -> on_curve (pmul k P).
Proof. intros HP. destruct k; cbn [pmul]; auto using on_curve_mul_pos with curve. Qed.
#[global] Hint Resolve on_curve_mul_pos on_curve_mul : curve.

Lemma pmul_pos_succ k P : on_curve P -> pmul_pos (Pos.succ k) P = padd P (pmul_pos k P).
Proof.
  intros HP. induction k; cbn [pmul_pos Pos.succ].
  - rewrite IHk. rewrite !padd_assoc by auto with curve. f_equal.
    rewrite <- !padd_assoc by auto with curve. f_equal. rewrite padd_comm by auto with curve. reflexivity.
  - reflexivity.
  - reflexivity.
Qed.

Lemma pmul_pos_add a b P : on_curve P -> pmul_pos (a + b) P = padd (pmul_pos a P) (pmul_pos b P).
Proof.
  intros HP. induction a using Pos.peano_ind.
  - rewrite Pos.add_1_l, pmul_pos_succ by assumption. reflexivity.
  - rewrite Pos.add_succ_l, !pmul_pos_succ, IHa, padd_assoc by auto with curve. reflexivity.
Qed.

Lemma pmul_neg k P : on_curve P -> pmul (- k) P = pneg (pmul k P).
Proof. intros HP. destruct k; cbn [pmul Z.opp]; auto. rewrite pneg_involutive by auto with curve. reflexivity. Qed.

Lemma pmul_pos_sub a b P : on_curve P -> pmul (Z.pos_sub a b) P = padd (pmul_pos a P) (pneg (pmul_pos b P)).
Proof.
  intros HP. rewrite Z.pos_sub_spec. destruct (Pos.compare_spec a b) as [->|H|H].
  - rewrite padd_neg_r by auto with curve. reflexivity.
  - cbn [pmul]. rewrite <- (Pos.sub_add b a) at 2 by assumption.
    rewrite pmul_pos_add, pneg_add by auto with curve.
    rewrite (padd_comm (pneg (pmul_pos (b - a) P))) by auto with curve.
    rewrite <- padd_assoc, padd_neg_r by auto with curve. reflexivity.
  - cbn [pmul]. rewrite <- (Pos.sub_add a b) at 2 by assumption.
    rewrite pmul_pos_add, padd_assoc, padd_neg_r, padd_Inf_r by auto with curve. reflexivity.
Qed.

Theorem pmul_add a b P : on_curve P -> pmul (a + b) P = padd (pmul a P) (pmul b P).
Proof.
  intros HP. destruct a as [|a|a], b as [|b|b]; try reflexivity.
  - cbn. now rewrite padd_Inf_r.
  - apply pmul_pos_add. assumption.
  - change (Zpos a + Zneg b) with (Z.pos_sub a b). now apply pmul_pos_sub.
  - cbn [pmul]. now rewrite padd_Inf_r.
  - change (Zneg a + Zpos b) with (Z.pos_sub b a). rewrite pmul_pos_sub by assumption.
    apply padd_comm; auto with curve.
  - cbn [pmul Z.add]. rewrite pmul_pos_add, pneg_add by auto with curve. reflexivity.
Qed.

Lemma pmul_0 P : pmul 0 P = Inf. Proof. reflexivity. Qed.
Lemma pmul_1 P : pmul 1 P = P. Proof. reflexivity. Qed.
Lemma pmul_Inf k : pmul k Inf = Inf.
Proof.
  assert (H : forall q, pmul_pos q Inf = Inf) by (induction q; cbn [pmul_pos]; rewrite ?IHq; reflexivity).
  destruct k; cbn [pmul]; rewrite ?H; reflexivity.
Qed.

Lemma pmul_succ k P : on_curve P -> pmul (Z.succ k) P = padd P (pmul k P).
Proof. intros. replace (Z.succ k) with (1 + k) by lia. now rewrite pmul_add, pmul_1. Qed.

Lemma pmul_sub a b P : on_curve P -> pmul (a - b) P = padd (pmul a P) (pneg (pmul b P)).
Proof. intros. unfold Z.sub. now rewrite pmul_add, pmul_neg. Qed.

Theorem pmul_mul a b P : on_curve P -> pmul (a * b) P = pmul a (pmul b P).
Proof.
  intros HP. revert a. apply Z.peano_ind.
  - reflexivity.
  - intros a IH. rewrite Z.mul_succ_l, pmul_add, IH, pmul_succ by auto with curve.
    apply padd_comm; auto with curve.
  - intros a IH. rewrite Z.mul_pred_l, pmul_sub, IH by auto with curve.
    replace (Z.pred a) with (a - 1) by lia. rewrite pmul_sub, pmul_1 by auto with curve. reflexivity.
Qed.

Theorem pmul_padd k P Q : on_curve P -> on_curve Q -> pmul k (padd P Q) = padd (pmul k P) (pmul k Q).
Proof.
  intros HP HQ.
  assert (E : forall A B C D, on_curve A -> on_curve B -> on_curve C -> on_curve D ->
     padd (padd A B) (padd C D) = padd (padd A C) (padd B D)).
  { intros A B C D HA HB HC HD. rewrite !padd_assoc by auto with curve. f_equal.
    rewrite <- !padd_assoc by auto with curve. f_equal. apply padd_comm; auto. }
  revert k. apply Z.peano_ind.
  - reflexivity.
  - intros k IH. rewrite !pmul_succ, IH by auto with curve. apply E; auto with curve.
  - intros k IH. replace (Z.pred k) with (k - 1) by lia. rewrite !pmul_sub, IH, !pmul_1, pneg_add by auto with curve.
    apply E; auto with curve.
Qed.

(** ** The order of the group *)

(** Checking an addition with a supplied slope and supplied quotients by p; used to
    evaluate [pmul n G]. *)
Definition kp (k : Z) : Z := Z.shiftl k 256 - 4294968273 * k.
Lemma toF_kp k : toF (kp k) = f0.
Proof.
  apply toF_0_iff. unfold kp. rewrite Z.shiftl_mul_pow2 by lia.
  replace (k * 2 ^ 256 - 4294968273 * k) with (k * p).
  - apply Z.mod_mul. discriminate.
  - assert (Hp : p = 2 ^ 256 - 4294968273) by reflexivity. rewrite Hp. ring.
Qed.

Definition in_rng (x : Z) : bool := (0 <=? x) && (x <? p).
Lemma in_rng_mod x : in_rng x = true -> x mod p = x.
Proof. unfold in_rng. rewrite andb_true_iff, Z.leb_le, Z.ltb_lt. apply Z.mod_small. Qed.

Definition check_tail (x1 y1 x2 l x3 y3 k2 k3 : Z) : bool :=
  in_rng x3 && in_rng y3 && (l * l - x1 - x2 - x3 =? kp k2) && (l * (x1 - x3) - y1 - y3 =? kp k3).
Definition check_add (x1 y1 x2 y2 l x3 y3 k1 k2 k3 : Z) : bool :=
  negb (x1 =? x2) && (l * (x2 - x1) - (y2 - y1) =? kp k1) && check_tail x1 y1 x2 l x3 y3 k2 k3.
Definition check_dbl (x1 y1 l x3 y3 k1 k2 k3 : Z) : bool :=
  negb (y1 =? 0) && (l * (2 * y1) - 3 * x1 * x1 =? kp k1) && check_tail x1 y1 x1 l x3 y3 k2 k3.

Lemma check_tail_ok x1 y1 x2 l l' x3 y3 k2 k3 :
  check_tail x1 y1 x2 l x3 y3 k2 k3 = true -> toF l = toF l' ->
  (l' * l' - x1 - x2) mod p = x3 /\ (l' * (x1 - x3) - y1) mod p = y3 /\ in_rng x3 = true /\ in_rng y3 = true.
Proof.
  unfold check_tail. rewrite !andb_true_iff, !Z.eqb_eq. intros (((R3 & S3) & E2) & E3) El.
  apply (f_equal toF) in E2, E3. rewrite toF_kp in E2, E3.
  rewrite !toF_sub, toF_mul in E2. rewrite !toF_sub, toF_mul, toF_sub in E3. rewrite El in E2, E3.
  split; [|split; [|split; assumption]].
  - rewrite <- (in_rng_mod x3 R3). apply toF_inj. rewrite !toF_sub, toF_mul.
    transitivity (toF l' * toF l' - toF x1 - toF x2 - toF x3 + toF x3)%F; [ring|]. rewrite E2. ring.
  - rewrite <- (in_rng_mod y3 S3) at 1. apply toF_inj. rewrite !toF_sub, toF_mul, toF_sub.
    transitivity (toF l' * (toF x1 - toF x3) - toF y1 - toF y3 + toF y3)%F; [ring|]. rewrite E3. ring.
Qed.

Lemma check_add_ok x1 y1 x2 y2 l x3 y3 k1 k2 k3 : in_rng x1 = true -> in_rng x2 = true ->
  check_add x1 y1 x2 y2 l x3 y3 k1 k2 k3 = true ->
  padd (Aff x1 y1) (Aff x2 y2) = Aff x3 y3 /\ in_rng x3 = true /\ in_rng y3 = true.
Proof.
  intros R1 R2. unfold check_add. rewrite !andb_true_iff, negb_true_iff, Z.eqb_neq, Z.eqb_eq. intros ((Hx & E1) & Ht).
  cbn [padd]. apply Z.eqb_neq in Hx as Hx'. rewrite Hx'. cbn [andb]. cbv zeta.
  assert (D : (toF x2 - toF x1)%F <> f0).
  { intros D. apply Hx. rewrite <- (in_rng_mod x1 R1), <- (in_rng_mod x2 R2). apply toF_inj.
    transitivity (toF x2 - (toF x2 - toF x1))%F; [ring|]. rewrite D. ring. }
  destruct (check_tail_ok x1 y1 x2 l (((y2 - y1) * inv_mod (x2 - x1) p) mod p) x3 y3 k2 k3 Ht) as (T1 & T2 & T3 & T4).
  - rewrite toF_mod, toF_mul, toF_inv, !toF_sub.
    apply (f_equal toF) in E1. rewrite toF_kp, !toF_sub, toF_mul, !toF_sub in E1.
    transitivity ((toF l * (toF x2 - toF x1) - (toF y2 - toF y1) + (toF y2 - toF y1)) / (toF x2 - toF x1))%F; [now field|].
    rewrite E1. now field.
  - split; [|split; assumption]. rewrite T1, T2. reflexivity.
Qed.

Lemma check_dbl_ok x1 y1 l x3 y3 k1 k2 k3 : in_rng x1 = true -> in_rng y1 = true ->
  check_dbl x1 y1 l x3 y3 k1 k2 k3 = true ->
  padd (Aff x1 y1) (Aff x1 y1) = Aff x3 y3 /\ in_rng x3 = true /\ in_rng y3 = true.
Proof.
  intros R1 R2. unfold check_dbl. rewrite !andb_true_iff, negb_true_iff, Z.eqb_neq, Z.eqb_eq. intros ((Hy & E1) & Ht).
  cbn [padd]. rewrite Z.eqb_refl. cbn [andb]. cbv zeta.
  assert (D : (toF y1 + toF y1)%F <> f0).
  { intros D. apply Hy. rewrite <- (in_rng_mod y1 R2). apply toF_0_iff.
    destruct (fmul_0 (1 + 1) (toF y1)) as [K|K]; [|exfalso; exact (f2_nz K)|exact K].
    rewrite <- D. ring. }
  replace ((y1 + y1) mod p =? 0) with false.
  2:{ symmetry. apply Z.eqb_neq. intros K. apply D. rewrite <- toF_add. now apply toF_0_iff. }
  destruct (check_tail_ok x1 y1 x1 l ((3 * x1 * x1 * inv_mod (2 * y1) p) mod p) x3 y3 k2 k3 Ht) as (T1 & T2 & T3 & T4).
  - rewrite toF_mod, toF_mul, toF_inv.
    replace (2 * y1) with (y1 + y1) in * by ring. rewrite toF_add.
    apply (f_equal toF) in E1. rewrite toF_kp, toF_sub, toF_mul, toF_add in E1.
    transitivity ((toF l * (toF y1 + toF y1) - toF (3 * x1 * x1) + toF (3 * x1 * x1)) / (toF y1 + toF y1))%F; [now field|].
    rewrite E1. now field.
  - split; [|split; assumption]. rewrite T1, T2. reflexivity.
Qed.

Fixpoint run_chain (k x y : Z) (l : list chain_step) : option (Z * Z * Z) :=
  match l with
  | [] => Some (k, x, y)
  | CS op s x3 y3 k1 k2 k3 :: l' =>
    match op with
    | OpD => if check_dbl x y s x3 y3 k1 k2 k3 then run_chain (2 * k) x3 y3 l' else None
    | OpP => if check_add x y Gx Gy s x3 y3 k1 k2 k3 then run_chain (k + 1) x3 y3 l' else None
    | OpM => if check_add x y Gx (p - Gy) s x3 y3 k1 k2 k3 then run_chain (k - 1) x3 y3 l' else None
    end
  end.

Lemma pneg_G : pneg G = Aff Gx (p - Gy).
Proof. unfold G. cbn [pneg]. f_equal. Qed.

Lemma run_chain_ok l : forall k x y k' x' y', in_rng x = true -> in_rng y = true ->
  Aff x y = pmul k G -> run_chain k x y l = Some (k', x', y') -> Aff x' y' = pmul k' G.
Proof.
  assert (RG : in_rng Gx = true) by reflexivity.
  induction l as [|[op s x3 y3 k1 k2 k3] l IH]; cbn [run_chain]; intros k x y k' x' y' Rx Ry E H.
  - injection H as <- <- <-. exact E.
  - destruct op.
    + destruct check_dbl eqn:C; [|discriminate].
      destruct (check_dbl_ok _ _ _ _ _ _ _ _ Rx Ry C) as (A & R1 & R2).
      refine (IH _ _ _ _ _ _ R1 R2 _ H). rewrite <- A, E, <- pmul_add by auto with curve. f_equal. lia.
    + destruct check_add eqn:C; [|discriminate].
      destruct (check_add_ok _ _ _ _ _ _ _ _ _ _ Rx RG C) as (A & R1 & R2).
      refine (IH _ _ _ _ _ _ R1 R2 _ H). rewrite <- A, E. fold G.
      rewrite pmul_add, pmul_1 by auto with curve. reflexivity.
    + destruct check_add eqn:C; [|discriminate].
      destruct (check_add_ok _ _ _ _ _ _ _ _ _ _ Rx RG C) as (A & R1 & R2).
      refine (IH _ _ _ _ _ _ R1 R2 _ H). rewrite <- A, E, <- pneg_G.
      rewrite pmul_sub, pmul_1 by auto with curve. reflexivity.
Qed.

Definition order_check (c : list chain_step) : bool :=
  match run_chain 1 Gx Gy c with
  | Some (k, x, y) => (k =? n - 1) && (x =? Gx) && (y =? p - Gy)
  | None => false
  end.

Lemma order_check_ok c : order_check c = true -> pmul (n - 1) G = pneg G.
Proof.
  unfold order_check.
  destruct (run_chain 1 Gx Gy c) as [[[k x] y]|] eqn:E; [|discriminate].
  apply run_chain_ok in E; [|reflexivity|reflexivity|symmetry; apply pmul_1].
  intros H. apply andb_prop in H as [H H3]. apply andb_prop in H as [H1 H2].
  apply Z.eqb_eq in H1, H2, H3. rewrite pneg_G, <- H1, <- H2, <- H3. symmetry. exact E.
Qed.

Lemma n_times_G : pmul n G = Inf.
Proof.
  assert (E : pmul (n - 1) G = pneg G).
  { apply (order_check_ok order_chain). vm_cast_no_check (eq_refl true). }
  replace n with (n - 1 + 1) by lia. rewrite pmul_add, E, pmul_1 by auto with curve.
  rewrite padd_comm by auto with curve. apply padd_neg_r; auto with curve.
Qed.

Lemma pmul_n_mult k : pmul (k * n) G = Inf.
Proof. rewrite pmul_mul, n_times_G by auto with curve. apply pmul_Inf. Qed.

Lemma pmul_mod_G k : pmul (k mod n) G = pmul k G.
Proof.
  rewrite (Z.div_mod k n) at 2 by (pose proof n_pos; lia).
  rewrite Z.mul_comm, pmul_add, pmul_n_mult by auto with curve. reflexivity.
Qed.

Lemma pmul_G_Inf k : pmul k G = Inf <-> k mod n = 0.
Proof.
  split.
  - intros H. destruct (Z.eq_dec (k mod n) 0) as [|Hk]; [assumption|exfalso].
    assert (Hr : rel_prime k n).
    { apply rel_prime_sym, prime_rel_prime; [exact prime_n|]. intros D. apply Hk. apply Z.mod_divide; [pose proof n_pos; lia|assumption]. }
    destruct (rel_prime_bezout _ _ Hr) as [u v Huv].
    assert (E : pmul 1 G = Inf).
    { rewrite <- Huv, pmul_add, pmul_mul, H, pmul_n_mult, pmul_Inf by auto with curve. reflexivity. }
    discriminate.
  - intros H. rewrite <- pmul_mod_G, H. reflexivity.
Qed.

Theorem pmul_G_eq a b : pmul a G = pmul b G <-> a mod n = b mod n.
Proof.
  split.
  - intros H. assert (E : pmul (a - b) G = Inf).
    { rewrite pmul_sub, H, padd_neg_r by auto with curve. reflexivity. }
    apply pmul_G_Inf in E. apply Zminus_mod_eqm in E || idtac.
    replace a with ((a - b) + b) by ring. rewrite <- Z.add_mod_idemp_l, E by (pose proof n_pos; lia). reflexivity.
  - intros H. rewrite <- (pmul_mod_G a), <- (pmul_mod_G b), H. reflexivity.
Qed.

(** Counting: a duplicate-free list of curve points has at most 2p+1 elements. *)
Definition code (P : point) : Z := match P with Inf => 2 * p | Aff x y => 2 * x + y mod 2 end.

Lemma y_neq_0 x y : on_curve (Aff x y) -> y <> 0.
Proof.
  intros (Hx & Hy & H) ->. apply (minus7_not_cube x). rewrite <- H. reflexivity.
Qed.

Lemma same_x_points x y1 y2 : on_curve (Aff x y1) -> on_curve (Aff x y2) -> y1 = y2 \/ y1 + y2 = p.
Proof.
  intros H1 H2. pose proof (y_neq_0 _ _ H1). pose proof (y_neq_0 _ _ H2).
  destruct H1 as (Hx & Hy1 & E1). destruct H2 as (_ & Hy2 & E2).
  assert (D : ((y1 - y2) * (y1 + y2)) mod p = 0).
  { replace ((y1 - y2) * (y1 + y2)) with (y1 * y1 - y2 * y2) by ring.
    rewrite Zminus_mod, E1, E2, Z.sub_diag. apply Zmod_0_l. }
  apply Z.mod_divide in D; [|pose proof p_pos; lia].
  apply prime_mult in D; [|exact prime_p]. pose proof p_pos. destruct D as [[k D]|[k D]]; [left|right].
  - assert (k = 0) by nia. lia.
  - assert (k = 1) by nia. lia.
Qed.

Lemma code_inj P Q : on_curve P -> on_curve Q -> code P = code Q -> P = Q.
Proof.
  intros HP HQ H. destruct P as [|x1 y1], Q as [|x2 y2]; cbn [code] in H.
  - reflexivity.
  - destruct HQ as (? & _). pose proof (Z.mod_pos_bound y2 2). lia.
  - destruct HP as (? & _). pose proof (Z.mod_pos_bound y1 2). lia.
  - pose proof (Z.mod_pos_bound y1 2 ltac:(lia)). pose proof (Z.mod_pos_bound y2 2 ltac:(lia)).
    assert (x1 = x2) by lia. subst x2. assert (E : y1 mod 2 = y2 mod 2) by lia.
    destruct (same_x_points _ _ _ HP HQ) as [->|S]; [reflexivity|exfalso].
    pose proof p_odd as Ho. rewrite <- S, Z.add_mod, E in Ho by lia.
    assert (C : y2 mod 2 = 0 \/ y2 mod 2 = 1) by lia. destruct C as [C|C]; rewrite C in Ho; discriminate.
Qed.

Definition Zrange (k : Z) : list Z := map Z.of_nat (seq 0 (Z.to_nat k)).
Lemma in_Zrange k x : In x (Zrange k) <-> 0 <= x < k.
Proof.
  unfold Zrange. rewrite in_map_iff. split.
  - intros (i & <- & Hi). apply in_seq in Hi. lia.
  - intros H. exists (Z.to_nat x). split; [lia|]. apply in_seq. lia.
Qed.
Lemma NoDup_Zrange k : NoDup (Zrange k).
Proof. apply FinFun.Injective_map_NoDup; [intros a b H; lia|apply seq_NoDup]. Qed.
Lemma length_Zrange k : 0 <= k -> Z.of_nat (length (Zrange k)) = k.
Proof. intros. unfold Zrange. rewrite map_length, seq_length. lia. Qed.

Lemma NoDup_map_inj_in {A B} (f : A -> B) l :
  (forall x y, In x l -> In y l -> f x = f y -> x = y) -> NoDup l -> NoDup (map f l).
Proof.
  intros Hinj Hn. induction Hn as [|x l Hx Hn IH]; cbn; constructor.
  - intros Hin. apply in_map_iff in Hin. destruct Hin as (y & E & Hy).
    apply Hinj in E; [subst; contradiction|now right|now left].
  - apply IH. intros; apply Hinj; auto; now right.
Qed.

Lemma count_points l : NoDup l -> Forall on_curve l -> Z.of_nat (length l) <= 2 * p + 1.
Proof.
  intros Hn Ho. rewrite Forall_forall in Ho.
  assert (H : (length (map code l) <= length (Zrange (2 * p + 1)))%nat).
  { apply NoDup_incl_length.
    - apply NoDup_map_inj_in; [|assumption]. intros. apply code_inj; auto.
    - intros c Hc. apply in_map_iff in Hc. destruct Hc as (P & <- & HP). apply Ho in HP.
      apply in_Zrange. destruct P as [|x y]; cbn [code]; [pose proof p_pos; lia|].
      destruct HP as (Hx & _). pose proof (Z.mod_pos_bound y 2 ltac:(lia)). lia. }
  rewrite map_length in H. pose proof (length_Zrange (2 * p + 1) ltac:(pose proof p_pos; lia)). lia.
Qed.

Definition in_G (P : point) : Prop := exists k, P = pmul k G.

Definition coset (Q : point) : list point := map (fun k => padd Q (pmul k G)) (Zrange n).

Lemma in_coset Q P : on_curve Q -> In P (coset Q) <-> exists k, P = padd Q (pmul k G).
Proof.
  intros HQ. unfold coset. rewrite in_map_iff. split.
  - intros (k & <- & _). eauto.
  - intros (k & ->). exists (k mod n). split; [now rewrite pmul_mod_G|].
    apply in_Zrange. apply Z.mod_pos_bound. auto.
Qed.

Lemma NoDup_coset Q : on_curve Q -> NoDup (coset Q).
Proof.
  intros HQ. apply NoDup_map_inj_in; [|apply NoDup_Zrange].
  intros a b Ha Hb E. apply padd_cancel_l in E; auto with curve.
  apply pmul_G_eq in E. apply in_Zrange in Ha. apply in_Zrange in Hb.
  now rewrite !Z.mod_small in E by lia.
Qed.

Lemma NoDup_app_disjoint {A} (l1 l2 : list A) : NoDup l1 -> NoDup l2 ->
  (forall x, In x l1 -> In x l2 -> False) -> NoDup (l1 ++ l2).
Proof.
  intros H1 H2 H. induction H1 as [|x l Hx H1 IH]; cbn; [assumption|]. constructor.
  - rewrite in_app_iff. intros [K|K]; [contradiction|]. apply (H x); [now left|assumption].
  - apply IH. intros y Hy. apply H. now right.
Qed.

Lemma coset_disjoint Q R P : on_curve Q -> on_curve R ->
  In P (coset Q) -> In P (coset R) -> in_G (padd R (pneg Q)).
Proof.
  intros HQ HR H1 H2. apply in_coset in H1; auto. apply in_coset in H2; auto.
  destruct H1 as (a & ->), H2 as (b & E). exists (a - b).
  rewrite pmul_sub by auto with curve.
  apply (padd_cancel_l Q); auto with curve.
  rewrite <- (padd_assoc Q (pmul a G)), E by auto with curve.
  rewrite padd_assoc, padd_neg_r, padd_Inf_r by auto with curve.
  rewrite (padd_comm R), <- padd_assoc, padd_neg_r by auto with curve. reflexivity.
Qed.

Lemma length_coset Q : Z.of_nat (length (coset Q)) = n.
Proof. unfold coset. rewrite map_length. apply length_Zrange. pose proof n_pos; lia. Qed.

Lemma Forall_coset Q : on_curve Q -> Forall on_curve (coset Q).
Proof.
  intros HQ. apply Forall_forall. intros P HP. apply in_coset in HP; auto. destruct HP as (k & ->). auto with curve.
Qed.

Lemma in_G_neg P : in_G P -> in_G (pneg P).
Proof. intros (k & ->). exists (- k). now rewrite pmul_neg by auto with curve. Qed.

Lemma order_two P : on_curve P -> padd P P = Inf -> P = Inf.
Proof.
  intros HP H. apply pneg_unique in H; auto. destruct P as [|x y]; [reflexivity|exfalso].
  cbn in H. injection H as H. pose proof (y_neq_0 _ _ HP) as Hy0. destruct HP as (Hx & Hy & _).
  rewrite Z.mod_opp_l_nz in H; [|pose proof p_pos; lia|rewrite Z.mod_small by lia; lia].
  rewrite Z.mod_small in H by lia. pose proof p_odd as Ho. replace p with (2 * y) in Ho by lia.
  rewrite Z.mul_comm, Z.mod_mul in Ho by lia. discriminate.
Qed.

Theorem all_points_multiples_of_G P : on_curve P -> exists k, 0 <= k < n /\ P = pmul k G.
Proof.
  intros HP.
  assert (Dec : in_G P \/ ~ in_G P).
  { destruct (in_dec (fun a b : point => ltac:(decide equality; apply Z.eq_dec)) P (coset Inf)) as [H|H].
    - left. apply in_coset in H; [|auto with curve]. destruct H as (k & ->). exists k. reflexivity.
    - right. intros (k & ->). apply H. apply in_coset; [auto with curve|]. exists k. reflexivity. }
  assert (HG : in_G P).
  { destruct Dec as [|Hn]; [assumption|exfalso].
    set (Q2 := padd P P).
    assert (D2 : in_G Q2).
    { destruct (in_dec (fun a b : point => ltac:(decide equality; apply Z.eq_dec)) Q2 (coset Inf)) as [H|H].
      - apply in_coset in H; [|auto with curve]. destruct H as (k & ->). exists k. reflexivity.
      - exfalso.
        assert (Hn2 : ~ in_G Q2).
        { intros (k & Hk). apply H. apply in_coset; [auto with curve|]. exists k. rewrite padd_Inf_l. exact Hk. }
        assert (HQ2 : on_curve Q2) by (unfold Q2; auto with curve).
        assert (Hc : Z.of_nat (length (coset Inf ++ coset P ++ coset Q2)) <= 2 * p + 1).
        { apply count_points.
          - apply NoDup_app_disjoint; [apply NoDup_coset; auto with curve| |].
            + apply NoDup_app_disjoint; try (apply NoDup_coset; auto with curve).
              intros x H1 H2. apply Hn.
              pose proof (coset_disjoint _ _ _ HP HQ2 H1 H2) as K. unfold Q2 in K.
              rewrite padd_assoc, padd_neg_r, padd_Inf_r in K by auto with curve. exact K.
            + intros x H1 H2. apply in_app_iff in H2. destruct H2 as [H2|H2].
              * apply Hn. pose proof (coset_disjoint Inf P x on_curve_Inf HP H1 H2) as K.
                cbn [pneg] in K. now rewrite padd_Inf_r in K.
              * apply Hn2. pose proof (coset_disjoint Inf Q2 x on_curve_Inf HQ2 H1 H2) as K.
                cbn [pneg] in K. now rewrite padd_Inf_r in K.
          - apply Forall_app. split; [apply Forall_coset; auto with curve|].
            apply Forall_app. split; apply Forall_coset; auto with curve. }
        rewrite !app_length, !Nat2Z.inj_add, !length_coset in Hc.
        assert (2 * p + 1 < n + (n + n)) by reflexivity. lia. }
    destruct D2 as (k & Hk).
    (* P' = P - (k (n+1)/2) G has order two *)
    set (h := k * ((n + 1) / 2)).
    assert (Hh : padd (padd P (pneg (pmul h G))) (padd P (pneg (pmul h G))) = Inf).
    { transitivity (padd (padd P P) (pneg (pmul (h + h) G))).
      - rewrite pmul_add, pneg_add by auto with curve.
        rewrite !padd_assoc by auto with curve. f_equal.
        rewrite <- !padd_assoc by auto with curve. f_equal. apply padd_comm; auto with curve.
      - fold Q2. rewrite Hk, <- pmul_neg, <- pmul_add by auto with curve.
        replace (k + - (h + h)) with ((- k) * n); [apply pmul_n_mult|].
        unfold h. assert (n = 2 * ((n + 1) / 2) - 1) by reflexivity. nia. }
    apply order_two in Hh; [|auto with curve].
    apply Hn. exists h. apply (padd_cancel_l (pneg (pmul h G))); auto with curve.
    rewrite padd_neg_l, padd_comm by auto with curve. exact Hh. }
  destruct HG as (k & ->). exists (k mod n). split; [apply Z.mod_pos_bound; auto|now rewrite pmul_mod_G].
Qed.

Theorem pmul_n_any P : on_curve P -> pmul n P = Inf.
Proof.
  intros HP. destruct (all_points_multiples_of_G P HP) as (k & _ & ->).
  rewrite <- pmul_mul, Z.mul_comm by auto with curve. apply pmul_n_mult.
Qed.

Lemma pmul_mod k P : on_curve P -> pmul (k mod n) P = pmul k P.
Proof.
  intros HP. rewrite (Z.div_mod k n) at 2 by (pose proof n_pos; lia).
  rewrite Z.mul_comm, pmul_add, pmul_mul, pmul_n_any, pmul_Inf by auto with curve. reflexivity.
Qed.

Lemma pmul_eq_mod a b P : on_curve P -> a mod n = b mod n -> pmul a P = pmul b P.
Proof. intros HP H. rewrite <- (pmul_mod a), <- (pmul_mod b), H by assumption. reflexivity. Qed.
