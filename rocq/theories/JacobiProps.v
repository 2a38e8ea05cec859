(** The statements of Props_Jacobi.v. *)
Require Import ZArith Lia List Bool Znumtheory.
From Verif Require Import Word Spec SpecRep FieldModel ScalarModel Primes ModinvModel ModinvProof2 ModinvProof4 SpecModinv ModinvProps FieldMul FieldOps RepProof JacobiModel JacobiProof JacobiProof2 SpecJacobi.
From Verif Require Jacobi.
Import ListNotations.
Local Open Scope Z_scope.

Lemma odd_prime q : prime q -> q <> 2 -> Z.odd q = true /\ 0 < q.
Proof.
  intros Pq N2. pose proof (prime_ge_2 q Pq). split; [|lia].
  destruct (Z.odd q) eqn:O; [reflexivity|]. exfalso. apply N2.
  assert (D : (2 | q)) by (exists (q / 2); rewrite Z.mul_comm; apply Z.div_exact; [lia|]; rewrite Zmod_odd, O; reflexivity).
  apply prime_divisors in D; [lia|exact Pq].
Qed.
Lemma legendre_sym a q : prime q -> q <> 2 -> Z.gcd a q = 1 -> legendre a q = if sym a q then -1 else 1.
Proof.
  intros Pq N2 G. pose proof (prime_ge_2 q Pq). destruct (odd_prime q Pq N2) as [Oq _].
  unfold legendre. rewrite (Jacobi.jac_euler a q Pq Oq G). cbv zeta. destruct (sym a q); [|reflexivity].
  destruct (Z.eqb_spec (q - 1) 0), (Z.eqb_spec (q - 1) 1); lia.
Qed.
Lemma prod_odd qs : Forall (fun q => prime q /\ q <> 2) qs -> Z.odd (fold_right Z.mul 1 qs) = true /\ 0 < fold_right Z.mul 1 qs.
Proof.
  induction 1 as [|q qs [Pq N2] _ [IO IP]]; [split; reflexivity|]. destruct (odd_prime q Pq N2) as [Oq Hq]. cbn [fold_right].
  split; [now rewrite Z.odd_mul, Oq, IO|nia].
Qed.
Lemma jacobi_sym a qs : 0 < a -> Forall (fun q => prime q /\ q <> 2) qs -> Z.gcd a (fold_right Z.mul 1 qs) = 1 ->
  jacobi_symbol a qs = if sym a (fold_right Z.mul 1 qs) then -1 else 1.
Proof.
  intros Ha H. induction H as [|q qs [Pq N2] Hq IH]; intros G; [reflexivity|]. cbn [fold_right] in *.
  destruct (odd_prime q Pq N2) as [Oq Hq0]. destruct (prod_odd qs Hq) as [Oqs Hqs].
  rewrite Jacobi.jac_mul_n by assumption. unfold jacobi_symbol in *. cbn [map fold_right].
  rewrite IH by exact (Jacobi.gcd_mul_r _ _ _ G). rewrite legendre_sym by (try assumption; exact (Jacobi.gcd_mul_l _ _ _ G)).
  destruct (sym a q), (sym a (fold_right Z.mul 1 qs)); reflexivity.
Qed.
Lemma five_forall x : five_limbs x -> Forall limb62 x.
Proof.
  intros [L H]. apply Forall_forall. intros y Hy. apply (In_nth _ _ 0) in Hy. destruct Hy as (i & Hi & <-). apply H. lia.
Qed.

Lemma prop_jacobi mi M qs x rounds : describes mi M -> factorization M qs ->
  0 <= nth 0 (modulus mi) 0 \/ nth 1 (modulus mi) 0 mod 4 = 0 ->
  five_limbs x -> 0 < limbs_int x < M -> Z.gcd (limbs_int x) M = 1 -> (rounds <= 4000)%nat ->
  exists r, jacobi64_maybe_var rounds x mi = Some r /\ (r = 0 \/ r = jacobi_symbol (limbs_int x) qs).
Proof.
  intros D [Fq EM] HJ Hx Rx Gx Hr. apply describes_ok in D. assert (L := proj1 Hx). rewrite limbs_int_lval in * by exact L.
  destruct (jacobi64_ok rounds x mi M D HJ L (five_forall x Hx) Rx Gx ltac:(lia)) as (r & E & H). exists r. split; [exact E|].
  rewrite jacobi_sym; [|lia|exact Fq|now rewrite EM]. rewrite EM. exact H.
Qed.
Lemma prop_square x rounds : magnitude 32 x -> (rounds <= 4000)%nat ->
  exists b, fe_impl_is_square_var rounds x = Some b /\ (b = true <-> exists y, (y * y) mod p = fe_res x) /\ fe_is_square_var x = b.
Proof.
  intros Hx Hr. apply mag_iff in Hx. exists (fe_is_square_var x). split; [apply is_square_ok; [lia|exact Hx]|]. split; [|reflexivity].
  unfold fe_res. rewrite fe_int_eq. apply (fe_is_square_var_spec x Hx).
Qed.

(** The order of the group written with a negative low limb. *)
Definition modinfo_bad : modinfo :=
  mkmod [0x3FD25E8CD0364141 - 2 ^ 62; 0x2ABB739ABD2280EE + 1; -0x15; 0; 256] 0x34F20099AA774EC1.
Lemma fact_n : factorization n [n].
Proof. split; [|cbn [fold_right]; ring]. constructor; [|constructor]. split; [exact prime_n|discriminate]. Qed.
Lemma describes_bad : describes modinfo_bad n.
Proof.
  unfold describes, modinfo_bad, limbs_int. cbn [modulus modulus_inv62 nth length].
  refine (conj eq_refl (conj _ (conj eq_refl (conj eq_refl (conj _ (conj _ eq_refl)))))).
  - intros i Hi. do 5 (destruct i as [|i]; [cbn [nth]; split; reflexivity|]). lia.
  - split; discriminate.
  - split; [discriminate|reflexivity].
Qed.
Definition ten : list Z := [10; 0; 0; 0; 0].
Lemma ten_five : five_limbs ten.
Proof. split; [reflexivity|]. intros i Hi. unfold ten. do 5 (destruct i as [|i]; [cbn [nth]; lia|]). lia. Qed.
Lemma ten_range : 0 < limbs_int ten < n. Proof. split; reflexivity. Qed.
Lemma ten_gcd : Z.gcd (limbs_int ten) n = 1. Proof. reflexivity. Qed.
Lemma jac_ten : jacobi64_maybe_var 25 ten modinfo_scalar = Some (-1).
Proof. vm_cast_no_check (eq_refl (Some (-1))). Qed.
Lemma jac_ten_bad : jacobi64_maybe_var 25 ten modinfo_bad = Some 1.
Proof. vm_cast_no_check (eq_refl (Some 1)). Qed.
Lemma low_scalar : 0 <= nth 0 (modulus modinfo_scalar) 0 \/ nth 1 (modulus modinfo_scalar) 0 mod 4 = 0.
Proof. left. discriminate. Qed.
Lemma other_sign (o : option Z) (s : Z) : o = Some (-1) -> (exists r, o = Some r /\ (r = 0 \/ r = s)) -> 1 <> s.
Proof. intros -> (r & E & H). injection E as <-. destruct H as [H|H]; lia. Qed.
Lemma ten_symbol : 1 <> jacobi_symbol (limbs_int ten) [n].
Proof.
  apply (other_sign _ _ jac_ten). apply (prop_jacobi modinfo_scalar n [n] ten 25 describes_scalar fact_n low_scalar ten_five ten_range ten_gcd).
  apply Nat.leb_le. reflexivity.
Qed.
Lemma prop_refuted : exists mi M qs x r, describes mi M /\ factorization M qs /\ five_limbs x /\ 0 < limbs_int x < M /\
  Z.gcd (limbs_int x) M = 1 /\ jacobi64_maybe_var 25 x mi = Some r /\ r <> 0 /\ r <> jacobi_symbol (limbs_int x) qs.
Proof.
  exists modinfo_bad, n, [n], ten, 1.
  refine (conj describes_bad (conj fact_n (conj ten_five (conj ten_range (conj ten_gcd (conj jac_ten_bad (conj _ ten_symbol))))))). discriminate.
Qed.
