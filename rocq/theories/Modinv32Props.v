(** C56 in the vocabulary of SpecModinv32, SpecRep32 and SpecScalar32. *)
Require Import ZArith Lia List Bool Znumtheory.
From Verif Require Import Word Word32 Spec SpecRep Primes ScalarModel FieldModel Field32Model Scalar32Model SpecRep32 SpecScalar32 ZmField
  ModinvModel JacobiModel Modinv32Model SpecModinv SpecModinv32 SpecJacobi ModinvProof2 ModinvProof4 ModinvProof5 ModinvProps JacobiProof JacobiProof2 JacobiProps
  Modinv32Proof Modinv32Proof2 Modinv32Proof4 Modinv32Proof5 Modinv32Jacobi Field32Props.
Import ListNotations.
Local Open Scope Z_scope.

Lemma limbs30_int_lval l : length l = 9%nat -> limbs30_int l = lval30 l.
Proof.
  intros H. do 9 (destruct l as [|? l]; [discriminate H|]). destruct l; [|discriminate H].
  unfold limbs30_int. cbn [nth lval30]. ring.
Qed.
Lemma nth_forall (P : Z -> Prop) l k : length l = k -> (forall i, (i < k)%nat -> P (nth i l 0)) -> Forall P l.
Proof. intros L H. apply Forall_forall. intros y Hy. apply (In_nth _ _ 0) in Hy. destruct Hy as (i & Hi & <-). apply H. lia. Qed.
Lemma describes30_ok mi M : describes30 mi M -> mod_ok30 mi M.
Proof.
  destruct mi as [m inv]. intros (L & R & V & O & B & I1 & I2). cbn [modulus30 modulus_inv30] in *. rewrite limbs30_int_lval in V by exact L.
  pose proof (nth_forall (fun x => - 2 ^ 30 < x < 2 ^ 30) m 9 L R) as F.
  refine (conj L (conj _ (conj V (conj I1 (conj _ (conj B O)))))); cbn [modulus30 modulus_inv30].
  - eapply Forall_impl; [|exact F]. cbn. intros. lia.
  - destruct m as [|m0' m]; [discriminate L|]. unfold lm. cbn [nth]. rewrite <- I2, <- V. cbn [lval30].
    replace ((m0' + 2 ^ 30 * lval30 m) * inv) with (m0' * inv + (lval30 m * inv) * 2 ^ 30) by ring.
    now rewrite Z.mod_add by lia.
Qed.
Lemma nine_limb x : nine_limbs x -> Forall limb30 x.
Proof. intros [L H]. exact (nth_forall limb30 x 9 L H). Qed.
Lemma nine_range x : nine_limbs x -> fg_in30 9 x /\ 0 <= lval30 x.
Proof.
  intros H. pose proof (nine_limb x H) as F. split; [split; [apply H|now apply limbs_small30]|apply limbs_bound30; exact F].
Qed.
Lemma canon_nine M l : length l = 9%nat -> canon30 l -> 0 <= lval30 l < M -> M <= 2 ^ 256 -> nine_limbs l.
Proof.
  intros L C V HM. split; [exact L|].
  assert (F : Forall limb30 l) by (apply canon_nonneg30; [exact C|rewrite L; change (30 * Z.of_nat 9) with 270; lia]).
  intros i Hi. rewrite Forall_forall in F. apply F, nth_In. lia.
Qed.

Lemma prop30_modinv mi M x : describes30 mi M -> nine_limbs x -> limbs30_int x < M ->
  exists r, modinv32 x mi = Some r /\ nine_limbs r /\ is_inverse M (limbs30_int x) (limbs30_int r).
Proof.
  intros HM Hx Rx. pose proof (describes30_ok mi M HM) as HM'. destruct HM' as (_ & _ & _ & _ & _ & RM & _).
  rewrite limbs30_int_lval in * by apply Hx. destruct (nine_range x Hx) as [Fx X0].
  destruct (modinv32_ok x mi M (describes30_ok mi M HM) Fx (conj X0 Rx)) as (o & E & L & C & Io).
  exists o. split; [exact E|]. split; [apply (canon_nine M); [exact L|exact C|apply Io|lia]|]. rewrite limbs30_int_lval by exact L. now apply inverse_iff.
Qed.
Lemma prop30_modinv_var mi M x fuel : describes30 mi M -> nine_limbs x -> limbs30_int x < M -> (25 <= fuel)%nat ->
  exists r, modinv32_var fuel x mi = Some r /\ nine_limbs r /\ is_inverse M (limbs30_int x) (limbs30_int r).
Proof.
  intros HM Hx Rx Hf. pose proof (describes30_ok mi M HM) as HM'. destruct HM' as (_ & _ & _ & _ & _ & RM & _).
  rewrite limbs30_int_lval in * by apply Hx. destruct (nine_range x Hx) as [Fx X0].
  destruct (modinv32_var_ok fuel x mi M Hf (describes30_ok mi M HM) Fx (conj X0 Rx)) as (o & E & L & C & Io).
  exists o. split; [exact E|]. split; [apply (canon_nine M); [exact L|exact C|apply Io|lia]|]. rewrite limbs30_int_lval by exact L. now apply inverse_iff.
Qed.
Lemma describes30_scalar : describes30 modinfo30_scalar n.
Proof.
  refine (conj eq_refl (conj _ (conj _ (conj _ (conj _ (conj _ _)))))).
  - intros i Hi. do 9 (destruct i as [|i]; [cbn; lia|]). lia.
  - reflexivity.
  - reflexivity.
  - split; vm_compute; discriminate.
  - cbn [modulus_inv30 modinfo30_scalar]. lia.
  - reflexivity.
Qed.
Lemma describes30_fe : describes30 modinfo30_fe p.
Proof.
  refine (conj eq_refl (conj _ (conj _ (conj _ (conj _ (conj _ _)))))).
  - intros i Hi. do 9 (destruct i as [|i]; [cbn; lia|]). lia.
  - reflexivity.
  - reflexivity.
  - split; vm_compute; discriminate.
  - cbn [modulus_inv30 modinfo30_fe]. lia.
  - reflexivity.
Qed.

(** ** Scalars *)
Lemma scalar8_inj a b : scalar8_words a -> scalar8_words b -> scalar8_int a = scalar8_int b -> a = b.
Proof.
  destruct a as [a0 a1 a2 a3 a4 a5 a6 a7], b as [b0 b1 b2 b3 b4 b5 b6 b7]. unfold scalar8_words, scalar8_int. cbn [sd0 sd1 sd2 sd3 sd4 sd5 sd6 sd7].
  intros (A0 & A1 & A2 & A3 & A4 & A5 & A6 & A7) (B0 & B1 & B2 & B3 & B4 & B5 & B6 & B7) E.
  assert (a0 = b0) by lia. subst. assert (a1 = b1) by lia. subst. assert (a2 = b2) by lia. subst. assert (a3 = b3) by lia. subst.
  assert (a4 = b4) by lia. subst. assert (a5 = b5) by lia. subst. assert (a6 = b6) by lia. subst. assert (a7 = b7) by lia. now subst.
Qed.
Lemma s8_finish x o : length o = 9%nat -> canon30 o -> 0 <= x < n -> inverse_of n x (lval30 o) ->
  scalar8_words (scalar_from_signed30 o) /\ scalar8_int (scalar_from_signed30 o) = inv_mod x n.
Proof.
  intros Lo Co Rx Io. assert (Hn : n < 2 ^ 256) by reflexivity.
  pose proof (inverse_unique n x (lval30 o) prime_n n_gt2 Rx Io) as E. destruct Io as (Ro & _ & _). rewrite <- E.
  apply s8_from_ok; [apply from_list30; auto; lia|lia].
Qed.
Lemma scalar8_range x : scalar8_words x -> 0 <= scalar8_int x.
Proof. unfold scalar8_words, scalar8_int. lia. Qed.
Lemma prop30_scalar x : scalar8_valid x -> exists r, s8_inverse x = Some r /\ scalar8_valid r /\
  (scalar8_int x = 0 -> scalar8_int r = 0) /\ (scalar8_int x <> 0 -> (scalar8_int x * scalar8_int r) mod n = 1) /\
  (forall fuel, (25 <= fuel)%nat -> s8_inverse_var fuel x = Some r) /\
  (forall y, scalar_valid y -> scalar_int y = scalar8_int x -> exists s, scalar_inverse y = Some s /\ scalar_int s = scalar8_int r).
Proof.
  intros [Wx Rx]. pose proof (scalar8_range x Wx) as R0.
  destruct (s8_to_ok x Wx) as (T1 & _ & T3 & T4).
  destruct (modinv32_ok (scalar_to_signed30 x) modinfo30_scalar n mod_ok30_scalar (conj T1 T3)) as (o & E & Lo & Co & Io); [rewrite T4; lia|].
  rewrite T4 in Io. destruct (s8_finish _ o Lo Co (conj R0 Rx) Io) as [S1 S2].
  pose proof (inv_mod_range (scalar8_int x) n ltac:(pose proof n_gt2; lia)) as Ri.
  exists (scalar_from_signed30 o). split; [unfold s8_inverse; now rewrite E|]. split; [split; [exact S1|rewrite S2; apply Ri]|].
  rewrite S2. split; [intros ->; apply inv_mod_0, n_gt2|]. split.
  { intros NZ. rewrite Z.mul_comm. apply inv_mod_correct; [exact prime_n|]. rewrite Z.mod_small by lia. exact NZ. }
  split.
  - intros fuel Hf.
    destruct (modinv32_var_ok fuel (scalar_to_signed30 x) modinfo30_scalar n Hf mod_ok30_scalar (conj T1 T3)) as (o' & E' & Lo' & Co' & Io'); [rewrite T4; lia|].
    rewrite T4 in Io'. destruct (s8_finish _ o' Lo' Co' (conj R0 Rx) Io') as [S1' S2'].
    unfold s8_inverse_var. rewrite E'. f_equal. apply scalar8_inj; [exact S1'|exact S1|]. now rewrite S2, S2'.
  - intros y Hy Ey. destruct (prop_scalar y Hy) as (s & Es & [Ws Rs] & Z0 & Z1 & _). exists s. split; [exact Es|].
    rewrite Ey in Z0, Z1. apply inverse_unique; [exact prime_n|exact n_gt2|lia|].
    split; [split; [clear - Ws; unfold scalar_int; unfold scalar_words in Ws; lia|exact Rs]|]. split; [exact Z0|].
    intros G. rewrite Z.mul_comm. apply Z1. intros C. rewrite C, Z.gcd_0_r in G. discriminate G.
Qed.

(** ** Field elements *)
Lemma fe26_inj a b : normalized26 a -> normalized26 b -> fe26_int a = fe26_int b -> a = b.
Proof.
  destruct a as [a0 a1 a2 a3 a4 a5 a6 a7 a8 a9], b as [b0 b1 b2 b3 b4 b5 b6 b7 b8 b9]. unfold normalized26, fe26_int. cbn [m0 m1 m2 m3 m4 m5 m6 m7 m8 m9].
  intros (A0 & A1 & A2 & A3 & A4 & A5 & A6 & A7 & A8 & A9 & _) (B0 & B1 & B2 & B3 & B4 & B5 & B6 & B7 & B8 & B9 & _) E.
  assert (a0 = b0) by lia. subst. assert (a1 = b1) by lia. subst. assert (a2 = b2) by lia. subst. assert (a3 = b3) by lia. subst.
  assert (a4 = b4) by lia. subst. assert (a5 = b5) by lia. subst. assert (a6 = b6) by lia. subst. assert (a7 = b7) by lia. subst.
  assert (a8 = b8) by lia. subst. assert (a9 = b9) by lia. now subst.
Qed.
Lemma norm26_range x : normalized26 x -> 0 <= fe26_int x < p.
Proof. intros (A0 & A1 & A2 & A3 & A4 & A5 & A6 & A7 & A8 & A9 & H). split; [unfold fe26_int; lia|exact H]. Qed.
Lemma f26_finish x o : length o = 9%nat -> canon30 o -> 0 <= x < p -> inverse_of p x (lval30 o) ->
  normalized26 (fe_from_signed30 o) /\ fe26_int (fe_from_signed30 o) = inv_mod x p.
Proof.
  intros Lo Co Rx Io. pose proof p_lt.
  pose proof (inverse_unique p x (lval30 o) prime_p p_gt2 Rx Io) as E. destruct Io as (Ro & _ & _). rewrite <- E.
  apply f26_from_ok; [apply from_list30; auto; lia|lia].
Qed.
Lemma prop30_field x : magnitude26 31 x -> exists r, f26_inv x = Some r /\ normalized26 r /\
  (fe26_res x = 0 -> fe26_int r = 0) /\ (fe26_res x <> 0 -> (fe26_int x * fe26_int r) mod p = 1) /\
  (forall fuel, (25 <= fuel)%nat -> f26_inv_var fuel x = Some r) /\
  (forall y, magnitude 32 y -> fe_res y = fe26_res x -> exists s, fe_impl_inv y = Some s /\ fe_int s = fe26_int r).
Proof.
  intros Hx. destruct (prop32_normalize x Hx) as (Nx & Vx & Ev & _).
  pose proof (norm26_range _ Nx) as R0.
  destruct (f26_to_ok _ Nx) as (T1 & _ & T3 & T4).
  destruct (modinv32_ok (fe_to_signed30 (f26_normalize x)) modinfo30_fe p mod_ok30_fe (conj T1 T3)) as (o & E & Lo & Co & Io); [rewrite T4; lia|].
  rewrite T4 in Io. destruct (f26_finish _ o Lo Co R0 Io) as [S1 S2]. rewrite Vx in *.
  exists (fe_from_signed30 o). split; [unfold f26_inv; now rewrite E|]. split; [exact S1|].
  rewrite S2. split; [intros ->; apply inv_mod_0, p_gt2|]. split.
  { intros NZ. rewrite Z.mul_comm. rewrite <- Zmult_mod_idemp_r. fold (fe26_res x). apply inv_mod_correct; [exact prime_p|]. rewrite Z.mod_small by lia. exact NZ. }
  split.
  - intros fuel Hf.
    destruct (modinv32_var_ok fuel (fe_to_signed30 (f26_normalize x)) modinfo30_fe p Hf mod_ok30_fe (conj T1 T3)) as (o' & E' & Lo' & Co' & Io'); [rewrite T4; lia|].
    rewrite T4 in Io'. destruct (f26_finish _ o' Lo' Co' R0 Io') as [S1' S2'].
    unfold f26_inv_var. rewrite Ev, E'. f_equal. apply fe26_inj; [exact S1'|exact S1|]. now rewrite S2, S2'.
  - intros y Hy Ey. destruct (prop_field y Hy) as (s & Es & Ns & Z0 & Z1 & _). exists s. split; [exact Es|].
    rewrite Ey in Z0, Z1. apply inverse_unique; [exact prime_p|exact p_gt2|lia|].
    assert (Rs : 0 <= fe_int s < p).
    { destruct Ns as (A0 & A1 & A2 & A3 & A4 & A5). split; [unfold fe_int; lia|exact A5]. }
    split; [exact Rs|]. split; [exact Z0|].
    intros G. rewrite Z.mul_comm, <- Ey. unfold fe_res. rewrite Zmult_mod_idemp_l. apply Z1. intros C. rewrite C, Z.gcd_0_r in G. discriminate G.
Qed.

(** ** The Jacobi symbol *)
Lemma prop30_jacobi mi M qs x rounds : describes30 mi M -> factorization M qs ->
  0 <= nth 0 (modulus30 mi) 0 \/ nth 1 (modulus30 mi) 0 mod 4 = 0 ->
  nine_limbs x -> 0 < limbs30_int x < M -> Z.gcd (limbs30_int x) M = 1 -> (rounds <= 4000)%nat ->
  exists r, jacobi32_maybe_var rounds x mi = Some r /\ (r = 0 \/ r = jacobi_symbol (limbs30_int x) qs).
Proof.
  intros D [Fq EM] HJ Hx Rx Gx Hr. apply describes30_ok in D. assert (L := proj1 Hx). rewrite limbs30_int_lval in * by exact L.
  destruct (jacobi32_ok rounds x mi M D HJ L (nine_limb x Hx) Rx Gx ltac:(lia)) as (r & E & H). exists r. split; [exact E|].
  rewrite jacobi_sym; [|lia|exact Fq|now rewrite EM]. rewrite EM. exact H.
Qed.
Lemma mag26_norm x : normalized26 x -> magnitude26 8 x.
Proof. intros (A0 & A1 & A2 & A3 & A4 & A5 & A6 & A7 & A8 & A9 & H). unfold magnitude26. repeat split; lia. Qed.
Lemma square32_ok rounds x : 30 * Z.of_nat rounds <= 2 ^ 18 -> magnitude26 31 x ->
  exists b, f26_is_square_var rounds x = Some b /\ (b = true <-> exists y, (y * y) mod p = fe26_res x).
Proof.
  intros Hr Hx. destruct (prop32_normalize x Hx) as (Nx & Vx & Ev & _). pose proof (norm26_range _ Nx) as Rx. pose proof p_lt.
  unfold f26_is_square_var. rewrite Ev. set (t := f26_normalize x) in *.
  destruct (prop32_compare t t Nx Nx) as (_ & Z0 & _). rewrite Z0. destruct (Z.eqb_spec (fe26_int t) 0) as [E0|NZ].
  { exists true. split; [reflexivity|]. split; [|reflexivity]. intros _. exists 0. now rewrite <- Vx, E0. }
  destruct (prop32_sqrt t (mag26_norm t Nx)) as (Sq & _ & _).
  assert (Et : fe26_res t = fe26_res x) by (unfold fe26_res at 1; rewrite Z.mod_small by lia; exact Vx). rewrite Et in Sq.
  destruct (f26_to_ok _ Nx) as (T1 & T2 & T3 & T4).
  assert (Gx : Z.gcd (fe26_int t) p = 1) by (rewrite Z.gcd_comm; apply prime_gcd; [exact prime_p|lia]).
  destruct (jacobi32_ok rounds (fe_to_signed30 t) modinfo30_fe p mod_ok30_fe joinable_fe30 T1) as (r & -> & Hr'); try assumption.
  - apply (limbs30_forall (fe26_int t)); [exact (conj T1 (conj T2 (conj T3 T4)))|lia].
  - rewrite T4. lia.
  - rewrite T4. exact Gx.
  - rewrite T4 in Hr'. eexists. split; [reflexivity|].
    assert (Q : sym (fe26_int t) p = false <-> exists y, (y * y) mod p = fe26_res x).
    { rewrite (sym_square p (fe26_int t) prime_p p_mod4) by lia. rewrite Z.mod_small, Vx by lia. reflexivity. }
    destruct Hr' as [-> | ->]; [exact Sq|]. rewrite <- Q. destruct (sym (fe26_int t) p); cbn; split; congruence.
Qed.
Lemma prop30_square x rounds : magnitude26 31 x -> (rounds <= 4000)%nat ->
  exists b, f26_is_square_var rounds x = Some b /\ (b = true <-> exists y, (y * y) mod p = fe26_res x) /\
  (forall z rounds', magnitude 32 z -> fe_res z = fe26_res x -> (rounds' <= 4000)%nat -> fe_impl_is_square_var rounds' z = Some b).
Proof.
  intros Hx Hr. destruct (square32_ok rounds x ltac:(lia) Hx) as (b & E & Hb). exists b. split; [exact E|]. split; [exact Hb|].
  intros z rounds' Hz Ez Hr'. destruct (prop_square z rounds' Hz Hr') as (b' & E' & Hb' & _). rewrite E'. f_equal.
  rewrite Ez in Hb'. apply eq_true_iff_eq. now rewrite Hb, Hb'.
Qed.

(** A modulus whose low limbs cannot be joined: 646969323 written as -426772501 + 2^30. *)
Definition small_primes : list Z := [3; 7; 11; 13; 17; 19; 23; 29].
Definition modinfo30_bad : modinfo30 := mkmod30 [-426772501; 1; 0; 0; 0; 0; 0; 0; 0] 73431235.
Definition square89 : list Z := [7921; 0; 0; 0; 0; 0; 0; 0; 0].
Lemma prime_check q : 1 < q -> forallb (fun j => Z.gcd (Z.of_nat j) q =? 1) (seq 1 (Z.to_nat q - 1)) = true -> prime q.
Proof.
  intros Hq H. apply prime_intro; [exact Hq|]. intros k Hk. apply Zgcd_1_rel_prime. rewrite forallb_forall in H.
  specialize (H (Z.to_nat k) ltac:(apply in_seq; lia)). apply Z.eqb_eq in H. now rewrite Z2Nat.id in H by lia.
Qed.
Lemma fact_small : factorization 646969323 small_primes.
Proof.
  split; [|reflexivity]. unfold small_primes. repeat (constructor; [split; [apply prime_check; [reflexivity|reflexivity]|discriminate]|]). constructor.
Qed.
Lemma prop30_refuted : exists mi M qs x r, describes30 mi M /\ factorization M qs /\ nine_limbs x /\ 0 < limbs30_int x < M /\
  Z.gcd (limbs30_int x) M = 1 /\ jacobi32_maybe_var 50 x mi = Some r /\ r <> 0 /\ r <> jacobi_symbol (limbs30_int x) qs.
Proof.
  exists modinfo30_bad, 646969323, small_primes, square89, (-1).
  refine (conj _ (conj fact_small (conj _ (conj _ (conj _ (conj _ (conj _ _))))))).
  - refine (conj eq_refl (conj _ (conj eq_refl (conj eq_refl (conj _ (conj _ eq_refl)))))); [|split; discriminate|split; [discriminate|reflexivity]].
    intros i Hi. do 9 (destruct i as [|i]; [cbn; lia|]). lia.
  - split; [reflexivity|]. intros i Hi. unfold square89. do 9 (destruct i as [|i]; [cbn [nth]; lia|]). lia.
  - split; reflexivity.
  - reflexivity.
  - vm_cast_no_check (eq_refl (Some (-1))).
  - discriminate.
  - vm_compute. discriminate.
Qed.
