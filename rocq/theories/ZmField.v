(** Integers modulo a prime as a type with Leibniz equality, so that the [field]
    tactic applies.  Proof device only; specifications are stated over [Z]. *)
Require Import ZArith Znumtheory Lia Bool Eqdep_dec Ring Field Zpow_facts.
From Verif Require Import NumTheory Spec.
Local Open Scope Z_scope.

Lemma pow_mod_eq a e m : pow_mod a e m = powmod a e m.
Proof.
  destruct e as [|e|e]; [reflexivity| |reflexivity]. cbn [pow_mod powmod].
  induction e; cbn [pow_mod_pos powmod_pos]; rewrite ?IHe; reflexivity.
Qed.

Lemma pow_mod_correct a e m : 0 < m -> 0 <= e -> pow_mod a e m = (a ^ e) mod m.
Proof. intros. rewrite pow_mod_eq. now apply powmod_correct. Qed.

Lemma inv_mod_range a m : 1 < m -> 0 <= inv_mod a m < m.
Proof.
  intros Hm. unfold inv_mod. rewrite pow_mod_eq.
  destruct (Z_le_dec 2 m); [|lia].
  rewrite powmod_correct by lia. apply Z.mod_pos_bound. lia.
Qed.

Lemma inv_mod_correct a m : prime m -> a mod m <> 0 -> (inv_mod a m * a) mod m = 1.
Proof.
  intros Hm Ha. pose proof (prime_ge_2 _ Hm). unfold inv_mod. rewrite pow_mod_eq.
  rewrite powmod_correct by lia. rewrite Z.mul_mod_idemp_l by lia.
  replace (a ^ (m - 2) * a) with (a ^ (m - 1)).
  - apply fermat_little; [assumption|]. intros D. apply Ha. now apply Z.mod_divide; [lia|].
  - replace (m - 1) with (m - 2 + 1) by lia. rewrite Z.pow_add_r, Z.pow_1_r by lia. reflexivity.
Qed.

Section Zm.
Variable m : Z.
Hypothesis Hm : prime m.

Record Zm : Type := mkZm { zv : Z; zok : (zv mod m =? zv) = true }.

Lemma m_pos : 1 < m.
Proof. destruct Hm. assumption. Qed.

Lemma Zm_eq (a b : Zm) : zv a = zv b -> a = b.
Proof.
  destruct a as [a Ha], b as [b Hb]. cbn. intros ->. f_equal. apply UIP_dec. apply bool_dec.
Qed.

Lemma mod_ok x : ((x mod m) mod m =? x mod m) = true.
Proof. apply Z.eqb_eq. apply Zmod_mod. Qed.

Definition ofZ (x : Z) : Zm := mkZm (x mod m) (mod_ok x).

Lemma zv_ofZ x : zv (ofZ x) = x mod m.
Proof. reflexivity. Qed.

Lemma zv_mod a : zv a mod m = zv a.
Proof. destruct a as [a Ha]. cbn. now apply Z.eqb_eq. Qed.

Lemma zv_range a : 0 <= zv a < m.
Proof. rewrite <- zv_mod. apply Z.mod_pos_bound. pose proof m_pos. lia. Qed.

Lemma ofZ_zv a : ofZ (zv a) = a.
Proof. apply Zm_eq. cbn. apply zv_mod. Qed.

Lemma ofZ_eq x y : x mod m = y mod m -> ofZ x = ofZ y.
Proof. intros H. apply Zm_eq. exact H. Qed.

Lemma ofZ_inj x y : ofZ x = ofZ y -> x mod m = y mod m.
Proof. intros H. apply (f_equal zv) in H. exact H. Qed.

Lemma ofZ_iff x y : ofZ x = ofZ y <-> x mod m = y mod m.
Proof. split; [apply ofZ_inj|apply ofZ_eq]. Qed.

Definition zadd (a b : Zm) : Zm := ofZ (zv a + zv b).
Definition zmul (a b : Zm) : Zm := ofZ (zv a * zv b).
Definition zsub (a b : Zm) : Zm := ofZ (zv a - zv b).
Definition zopp (a : Zm) : Zm := ofZ (- zv a).
Definition zzero : Zm := ofZ 0.
Definition zone : Zm := ofZ 1.
Definition zinv (a : Zm) : Zm := ofZ (inv_mod (zv a) m).
Definition zdiv (a b : Zm) : Zm := zmul a (zinv b).

Ltac zm := intros; apply Zm_eq; cbn [zv zadd zmul zsub zopp zzero zone ofZ];
  pose proof m_pos;
  rewrite ?Z.add_mod_idemp_l, ?Z.add_mod_idemp_r, ?Z.mul_mod_idemp_l, ?Z.mul_mod_idemp_r, ?Zminus_mod_idemp_l, ?Zminus_mod_idemp_r by lia.

Lemma ofZ_add x y : ofZ (x + y) = zadd (ofZ x) (ofZ y).
Proof. zm. reflexivity. Qed.
Lemma ofZ_mul x y : ofZ (x * y) = zmul (ofZ x) (ofZ y).
Proof. zm. reflexivity. Qed.
Lemma ofZ_sub x y : ofZ (x - y) = zsub (ofZ x) (ofZ y).
Proof. zm. reflexivity. Qed.
Lemma ofZ_opp x : ofZ (- x) = zopp (ofZ x).
Proof. zm. rewrite <- (Z.sub_0_l x), <- (Z.sub_0_l (x mod m)). now rewrite Zminus_mod_idemp_r. Qed.

Lemma zm_ring : ring_theory zzero zone zadd zmul zsub zopp (@eq Zm).
Proof.
  constructor.
  - intros x. unfold zzero. rewrite <- (ofZ_zv x) at 1. rewrite <- ofZ_add. rewrite Z.add_0_l. apply ofZ_zv.
  - intros. unfold zadd. now rewrite Z.add_comm.
  - intros. rewrite <- (ofZ_zv x), <- (ofZ_zv y), <- (ofZ_zv z). rewrite <- !ofZ_add. f_equal. ring.
  - intros. unfold zone. rewrite <- (ofZ_zv x) at 1. rewrite <- ofZ_mul. rewrite Z.mul_1_l. apply ofZ_zv.
  - intros. unfold zmul. now rewrite Z.mul_comm.
  - intros. rewrite <- (ofZ_zv x), <- (ofZ_zv y), <- (ofZ_zv z). rewrite <- !ofZ_mul. f_equal. ring.
  - intros. rewrite <- (ofZ_zv x), <- (ofZ_zv y), <- (ofZ_zv z). rewrite <- ?ofZ_mul, <- ?ofZ_add, <- ?ofZ_mul, <- ?ofZ_add. f_equal. ring.
  - intros. rewrite <- (ofZ_zv x), <- (ofZ_zv y). rewrite <- ofZ_sub, <- ofZ_opp, <- ofZ_add. f_equal. 
  - intros. rewrite <- (ofZ_zv x). rewrite <- ofZ_opp, <- ofZ_add. unfold zzero. f_equal. ring.
Qed.

Lemma zv_nz a : a <> zzero -> zv a <> 0.
Proof. intros H E. apply H. apply Zm_eq. rewrite E. change (0 = 0 mod m). now rewrite Zmod_0_l. Qed.

Lemma zone_nz : zone <> zzero.
Proof. intros H. apply ofZ_inj in H. pose proof m_pos. rewrite Z.mod_1_l, Z.mod_0_l in H by lia. discriminate. Qed.

Lemma zm_field : field_theory zzero zone zadd zmul zsub zopp zdiv zinv (@eq Zm).
Proof.
  constructor.
  - exact zm_ring.
  - exact zone_nz.
  - reflexivity.
  - intros a Ha. apply zv_nz in Ha. unfold zinv.
    rewrite <- (ofZ_zv a) at 2. rewrite <- ofZ_mul. apply ofZ_eq.
    rewrite inv_mod_correct; [symmetry; apply Z.mod_1_l; apply m_pos|exact Hm|].
    now rewrite zv_mod.
Qed.

Definition Zm_eq_dec (a b : Zm) : {a = b} + {a <> b}.
Proof.
  destruct (Z.eq_dec (zv a) (zv b)) as [E|E].
  - left. now apply Zm_eq.
  - right. intros ->. now apply E.
Defined.

Lemma zinv_0 : 2 < m -> zinv zzero = zzero.
Proof.
  intros H2. unfold zinv, zzero. apply ofZ_eq. rewrite zv_ofZ. rewrite Z.mod_0_l by (pose proof m_pos; lia).
  unfold inv_mod. rewrite pow_mod_correct by lia. rewrite Z.pow_0_l by lia. rewrite Z.mod_0_l by lia. reflexivity.
Qed.

Lemma ofZ_inv x : ofZ (inv_mod x m) = zinv (ofZ x).
Proof.
  unfold zinv. apply ofZ_eq. rewrite zv_ofZ. f_equal. unfold inv_mod. pose proof m_pos.
  destruct (Z.eq_dec m 2) as [->|].
  - reflexivity.
  - rewrite !pow_mod_correct by lia. rewrite <- Zpower_mod by lia. reflexivity.
Qed.

Fixpoint zpow_pos (a : Zm) (e : positive) : Zm :=
  match e with
  | xH => a
  | xO e' => let h := zpow_pos a e' in zmul h h
  | xI e' => let h := zpow_pos a e' in zmul a (zmul h h)
  end.

Lemma ofZ_pow x e : ofZ (x ^ Zpos e) = zpow_pos (ofZ x) e.
Proof.
  induction e; cbn [zpow_pos].
  - replace (Zpos e~1) with (1 + (Zpos e + Zpos e)) by lia.
    rewrite !Z.pow_add_r, Z.pow_1_r by lia. rewrite !ofZ_mul, IHe. reflexivity.
  - replace (Zpos e~0) with (Zpos e + Zpos e) by lia.
    rewrite Z.pow_add_r by lia. rewrite ofZ_mul, IHe. reflexivity.
  - now rewrite Z.pow_1_r.
Qed.

End Zm.

Arguments zv {m}. Arguments zok {m}.
