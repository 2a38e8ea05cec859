(** The field of integers modulo the group order n. *)
Require Import ZArith Lia Field.
From Verif Require Import NumTheory Spec Primes ZmField Curve.
Local Open Scope Z_scope.

Definition FN : Type := Zm n.
Definition toN : Z -> FN := ofZ n.
Definition nz0 : FN := zzero n.
Definition nz1 : FN := zone n.
Definition nadd : FN -> FN -> FN := zadd n.
Definition nmul : FN -> FN -> FN := zmul n.
Definition nsub : FN -> FN -> FN := zsub n.
Definition nopp : FN -> FN := zopp n.
Definition ninv : FN -> FN := zinv n.
Definition ndiv : FN -> FN -> FN := zdiv n.
Definition N_field : field_theory nz0 nz1 nadd nmul nsub nopp ndiv ninv (@eq FN) := zm_field n prime_n.

Declare Scope Fn_scope.
Delimit Scope Fn_scope with Fn.
Bind Scope Fn_scope with FN.
Notation "0" := nz0 : Fn_scope.
Notation "1" := nz1 : Fn_scope.
Infix "+" := nadd : Fn_scope.
Infix "*" := nmul : Fn_scope.
Infix "-" := nsub : Fn_scope.
Notation "- x" := (nopp x) : Fn_scope.
Infix "/" := ndiv : Fn_scope.

Lemma toN_add x y : toN (x + y) = (toN x + toN y)%Fn. Proof. apply ofZ_add; exact prime_n. Qed.
Lemma toN_mul x y : toN (x * y) = (toN x * toN y)%Fn. Proof. apply ofZ_mul; exact prime_n. Qed.
Lemma toN_sub x y : toN (x - y) = (toN x - toN y)%Fn. Proof. apply ofZ_sub; exact prime_n. Qed.
Lemma toN_opp x : toN (- x) = (- toN x)%Fn. Proof. apply ofZ_opp; exact prime_n. Qed.
Lemma toN_inv x : toN (inv_mod x n) = ninv (toN x). Proof. apply ofZ_inv; exact prime_n. Qed.
Lemma toN_mod x : toN (x mod n) = toN x.
Proof. apply ofZ_eq. apply Zmod_mod. Qed.
Lemma toN_eq x y : x mod n = y mod n -> toN x = toN y. Proof. apply ofZ_eq. Qed.
Lemma toN_inj x y : toN x = toN y -> x mod n = y mod n. Proof. apply ofZ_inj. Qed.
Lemma toN_zero : toN 0 = nz0. Proof. reflexivity. Qed.
Lemma toN_one : toN 1 = nz1. Proof. reflexivity. Qed.
Lemma toN_n : toN n = nz0. Proof. apply toN_eq. now rewrite Z_mod_same_full. Qed.
Lemma ninv_0 : ninv nz0 = nz0. Proof. apply zinv_0; [exact prime_n|reflexivity]. Qed.
Lemma nz1_nz : nz1 <> nz0. Proof. exact (F_1_neq_0 N_field). Qed.
Lemma toN_0_iff x : toN x = nz0 <-> x mod n = 0.
Proof.
  split.
  - intros H. apply toN_inj in H. now rewrite Zmod_0_l in H.
  - intros H. apply toN_eq. now rewrite Zmod_0_l.
Qed.
Lemma toN_nz x : x mod n <> 0 -> toN x <> nz0.
Proof. intros H E. now apply toN_0_iff in E. Qed.
Lemma toN_small_nz x : 1 <= x < n -> toN x <> nz0.
Proof. intros H. apply toN_nz. rewrite Z.mod_small by lia. lia. Qed.
Lemma toN_small_inj x y : 0 <= x < n -> 0 <= y < n -> toN x = toN y -> x = y.
Proof. intros Hx Hy E. apply toN_inj in E. now rewrite !Z.mod_small in E by assumption. Qed.

Global Opaque toN nz0 nz1 nadd nmul nsub nopp ninv ndiv.
Add Field FnF : N_field.

Lemma nmul_inv_l a : a <> nz0 -> (ninv a * a)%Fn = nz1.
Proof. intros H. field. exact H. Qed.
Lemma nmul_nz (x y : FN) : x <> nz0 -> y <> nz0 -> (x * y)%Fn <> nz0.
Proof.
  intros Hx Hy E. apply Hy. assert (EE : y = (ninv x * (x * y))%Fn) by (field; exact Hx). rewrite EE, E. ring.
Qed.
Lemma ninv_nz (x : FN) : x <> nz0 -> ninv x <> nz0.
Proof. intros H E. pose proof (nmul_inv_l x H) as I. rewrite E in I. apply nz1_nz. rewrite <- I. ring. Qed.

Ltac push_toN := repeat first [rewrite toN_mod | rewrite toN_mul | rewrite toN_add | rewrite toN_sub | rewrite toN_opp | rewrite toN_inv]; rewrite ?toN_zero, ?toN_one, ?toN_n.

(** Equality of multiples of G from equality modulo n. *)
Lemma K_eq a b : toN a = toN b -> pmul a G = pmul b G.
Proof. intros E. apply pmul_G_eq. now apply toN_inj. Qed.
Lemma K_eq_inv a b : pmul a G = pmul b G -> toN a = toN b.
Proof. intros E. apply toN_eq. now apply pmul_G_eq. Qed.
Lemma pmul_eqN a b P : on_curve P -> toN a = toN b -> pmul a P = pmul b P.
Proof. intros H E. apply pmul_eq_mod; [exact H|now apply toN_inj]. Qed.
