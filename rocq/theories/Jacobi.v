(** The Jacobi symbol of coprime numbers, defined by counting the multiples that fall into the upper
    half of the residues (Gauss, Schering), with the rules used to compute it: periodicity, the factor 2,
    reciprocity, and for a prime modulus the criterion of Euler. *)
Require Import ZArith Lia List Bool Znumtheory Permutation.
From Verif Require Import ZmField.
Import ListNotations.
Local Open Scope Z_scope.

(** 1 .. h. *)
Definition upto (h : Z) : list Z := map Z.of_nat (seq 1 (Z.to_nat h)).
Lemma in_upto h k : In k (upto h) <-> 1 <= k <= h.
Proof.
  unfold upto. rewrite in_map_iff. split.
  - intros (x & <- & H). apply in_seq in H. lia.
  - intros H. exists (Z.to_nat k). split; [lia|]. apply in_seq. lia.
Qed.
Lemma upto_NoDup h : NoDup (upto h).
Proof. apply FinFun.Injective_map_NoDup; [intros a b; lia|apply seq_NoDup]. Qed.
Lemma upto_length h : length (upto h) = Z.to_nat h.
Proof. unfold upto. now rewrite map_length, seq_length. Qed.
Lemma upto_S h : 0 <= h -> upto (h + 1) = upto h ++ [h + 1].
Proof.
  intros H. unfold upto. replace (Z.to_nat (h + 1)) with (S (Z.to_nat h)) by lia. rewrite seq_S, map_app. cbn [map].
  do 2 f_equal. lia.
Qed.
Lemma upto_0 h : h <= 0 -> upto h = []. Proof. intros H. unfold upto. now replace (Z.to_nat h) with 0%nat by lia. Qed.

(** Sums of booleans modulo 2. *)
Fixpoint xsum {A} (f : A -> bool) (l : list A) : bool := match l with [] => false | x :: l' => xorb (f x) (xsum f l') end.
Lemma xsum_ext {A} (f g : A -> bool) l : (forall x, In x l -> f x = g x) -> xsum f l = xsum g l.
Proof. induction l as [|x l IH]; intros H; [reflexivity|]. cbn [xsum]. rewrite (H x) by now left. f_equal. apply IH. intros y Hy. apply H. now right. Qed.
Lemma xsum_xor {A} (f g : A -> bool) l : xsum (fun x => xorb (f x) (g x)) l = xorb (xsum f l) (xsum g l).
Proof. induction l as [|x l IH]; [reflexivity|]. cbn [xsum]. rewrite IH. destruct (f x), (g x), (xsum f l), (xsum g l); reflexivity. Qed.
Lemma xsum_app {A} (f : A -> bool) l m : xsum f (l ++ m) = xorb (xsum f l) (xsum f m).
Proof. induction l as [|x l IH]; cbn [xsum app]; [now destruct (xsum f m)|]. rewrite IH. now rewrite xorb_assoc. Qed.
Lemma xsum_perm {A} (f : A -> bool) l m : Permutation l m -> xsum f l = xsum f m.
Proof.
  induction 1; cbn [xsum]; [reflexivity|congruence| |congruence].
  destruct (f x), (f y), (xsum f l); reflexivity.
Qed.
Lemma xsum_map {A B} (f : B -> bool) (g : A -> B) l : xsum f (map g l) = xsum (fun x => f (g x)) l.
Proof. induction l as [|x l IH]; [reflexivity|]. cbn [map xsum]. now rewrite IH. Qed.
Lemma xsum_false {A} (l : list A) : xsum (fun _ => false) l = false.
Proof. induction l as [|x l IH]; [reflexivity|]. cbn [xsum]. now rewrite IH. Qed.
Lemma xsum_swap {A B} (f : A -> B -> bool) l m : xsum (fun a => xsum (f a) m) l = xsum (fun b => xsum (fun a => f a b) l) m.
Proof.
  induction l as [|a l IH]; cbn [xsum]; [symmetry; apply xsum_false|]. rewrite IH. symmetry.
  rewrite <- xsum_xor. reflexivity.
Qed.
Lemma xsum_const h b : 0 <= h -> xsum (fun _ => b) (upto h) = b && Z.odd h.
Proof.
  intros Hh. pattern h. apply natlike_ind; [now rewrite upto_0, andb_false_r by lia| |exact Hh].
  intros k Hk IH. unfold Z.succ. rewrite upto_S, xsum_app, IH by lia. cbn [xsum]. rewrite Z.odd_add. now destruct b, (Z.odd k).
Qed.
Lemma xsum_below h t : 0 <= t <= h -> xsum (fun j => j <=? t) (upto h) = Z.odd t.
Proof.
  intros Ht. assert (Hh : 0 <= h) by lia. revert t Ht. pattern h. apply natlike_ind; [|clear h Hh|exact Hh].
  - intros t Ht. replace t with 0 by lia. now rewrite upto_0 by lia.
  - intros h Hh IH t Ht. unfold Z.succ in *. rewrite upto_S, xsum_app by lia. cbn [xsum].
    destruct (Z.leb_spec (h + 1) t).
    + replace t with (h + 1) by lia. rewrite (xsum_ext _ (fun _ => true)), xsum_const by (try lia; intros x Hx; apply in_upto in Hx; apply Z.leb_le; lia).
      rewrite Z.odd_add. now destruct (Z.odd h).
    + rewrite IH by lia. now destruct (Z.odd t).
Qed.

(** Residues in the upper half, and the distance of a residue to the nearest multiple of n. *)
Definition hi (n x : Z) : bool := n <? 2 * (x mod n).
Definition ab (n x : Z) : Z := if hi n x then n - x mod n else x mod n.
(** The symbol: true stands for -1. *)
Definition jac (a n : Z) : bool := xsum (fun k => hi n (a * k)) (upto ((n - 1) / 2)).

Section Odd.
Context (n : Z) (On : Z.odd n = true) (Pn : 0 < n).
Let h : Z := (n - 1) / 2.
Local Lemma n_form : n = 2 * h + 1.
Proof. unfold h. apply Z.odd_spec in On. destruct On as [m ->]. replace (2 * m + 1 - 1) with (m * 2) by ring. now rewrite Z.div_mul. Qed.
Lemma ab_range x : x mod n <> 0 -> 1 <= ab n x <= h.
Proof. pose proof n_form. pose proof (Z.mod_pos_bound x n Pn). unfold ab, hi. destruct (Z.ltb_spec n (2 * (x mod n))); lia. Qed.
Lemma ab_eq x : exists q, ab n x = (if hi n x then - x else x) + q * n.
Proof.
  pose proof (Z.div_mod x n ltac:(lia)). unfold ab. destruct (hi n x); [exists (1 + x / n)|exists (- (x / n))]; lia.
Qed.
Lemma hi_mod x y q : x = y + q * n -> hi n x = hi n y.
Proof. intros ->. unfold hi. now rewrite Z.mod_add by lia. Qed.
Lemma hi_opp x : x mod n <> 0 -> hi n (- x) = negb (hi n x).
Proof.
  intros H. unfold hi. rewrite Z.mod_opp_l_nz by lia. pose proof n_form. pose proof (Z.mod_pos_bound x n Pn).
  destruct (Z.ltb_spec n (2 * (n - x mod n))), (Z.ltb_spec n (2 * (x mod n))); lia.
Qed.
Lemma coprime_nz a k : Z.gcd a n = 1 -> 1 <= k <= h -> (a * k) mod n <> 0.
Proof.
  intros G Hk E. pose proof n_form. apply Z.mod_divide in E; [|lia]. apply Z.gauss in E; [|now rewrite Z.gcd_comm].
  apply Z.divide_pos_le in E; lia.
Qed.
(** Multiplication by a permutes 1..h up to signs. *)
Lemma ab_inj a k l : Z.gcd a n = 1 -> 1 <= k <= h -> 1 <= l <= h -> ab n (a * k) = ab n (a * l) -> k = l.
Proof.
  intros G Hk Hl E. pose proof n_form. destruct (ab_eq (a * k)) as [q1 E1], (ab_eq (a * l)) as [q2 E2]. rewrite E1, E2 in E.
  assert (D : (n | a * (k - l)) \/ (n | a * (k + l))).
  { destruct (hi n (a * k)), (hi n (a * l)).
    - left. exists (q1 - q2). lia.
    - right. exists (q1 - q2). lia.
    - right. exists (q2 - q1). lia.
    - left. exists (q2 - q1). lia. }
  assert (G' : Z.gcd n a = 1) by now rewrite Z.gcd_comm.
  destruct D as [D|D]; apply Z.gauss in D; try assumption.
  - destruct (Z.eq_dec k l) as [?|N]; [assumption|]. exfalso. apply Z.divide_abs_r in D. apply Z.divide_pos_le in D; lia.
  - apply Z.divide_pos_le in D; lia.
Qed.
Lemma map_NoDup_inj {A B} (f : A -> B) l : (forall x y, In x l -> In y l -> f x = f y -> x = y) -> NoDup l -> NoDup (map f l).
Proof.
  intros Hf. induction 1 as [|x l Hx Hl IH]; cbn [map]; constructor.
  - intros HI. apply in_map_iff in HI. destruct HI as (y & E & Hy). apply Hf in E; [congruence|now right|now left].
  - apply IH. intros y z Hy Hz. apply Hf; now right.
Qed.
Lemma ab_perm a : Z.gcd a n = 1 -> Permutation (map (fun k => ab n (a * k)) (upto h)) (upto h).
Proof.
  intros G. apply NoDup_Permutation_bis.
  - apply map_NoDup_inj; [|apply upto_NoDup]. intros x y Hx Hy. apply in_upto in Hx, Hy. now apply ab_inj.
  - rewrite map_length. lia.
  - intros y Hy. apply in_map_iff in Hy. destruct Hy as (k & <- & Hk). apply in_upto in Hk. apply in_upto. apply ab_range. now apply coprime_nz.
Qed.
Lemma xsum_ab f a : Z.gcd a n = 1 -> xsum (fun k => f (ab n (a * k))) (upto h) = xsum f (upto h).
Proof. intros G. rewrite <- (xsum_map f (fun k => ab n (a * k))). apply xsum_perm. now apply ab_perm. Qed.

(** Periodicity. *)
Lemma jac_add a : jac (a + n) n = jac a n.
Proof. unfold jac. apply xsum_ext. intros k _. apply (hi_mod _ _ k). ring. Qed.
Lemma jac_add_mul a q : jac (a + q * n) n = jac a n.
Proof. unfold jac. apply xsum_ext. intros k _. apply (hi_mod _ _ (q * k)). ring. Qed.
(** Products. *)
Lemma jac_mul a b : Z.gcd a n = 1 -> Z.gcd b n = 1 -> jac (a * b) n = xorb (jac a n) (jac b n).
Proof.
  intros Ga Gb. unfold jac. fold h. rewrite <- (xsum_ab (fun k => hi n (a * k)) b Gb), <- xsum_xor. apply xsum_ext.
  intros k Hk. apply in_upto in Hk. destruct (ab_eq (b * k)) as [q E].
  assert (Hab : 1 <= ab n (b * k) <= h) by (apply ab_range; now apply coprime_nz).
  pose proof (coprime_nz a (ab n (b * k)) Ga Hab) as NZ.
  destruct (hi n (b * k)) eqn:Hb.
  - rewrite xorb_true_r, <- hi_opp by exact NZ. apply (hi_mod _ _ (a * q)). rewrite E. ring.
  - rewrite xorb_false_r. apply (hi_mod _ _ (- (a * q))). rewrite E. ring.
Qed.
(** The factor 2. *)
Lemma jac_2 : jac 2 n = xorb (Z.odd (n / 2)) (Z.odd (n / 4)).
Proof.
  pose proof n_form. unfold jac. fold h.
  rewrite (xsum_ext _ (fun k => xorb true (k <=? n / 4))).
  2:{ intros k Hk. apply in_upto in Hk. unfold hi. rewrite Z.mod_small by lia. pose proof (Z.div_mod n 4 ltac:(lia)). pose proof (Z.mod_pos_bound n 4 ltac:(lia)).
      destruct (Z.ltb_spec n (2 * (2 * k))), (Z.leb_spec k (n / 4)); cbn [xorb]; lia. }
  assert (Z4 : 0 <= n / 4 <= h) by (pose proof (Z.div_mod n 4 ltac:(lia)); pose proof (Z.mod_pos_bound n 4 ltac:(lia)); lia).
  rewrite xsum_xor, xsum_const, xsum_below by lia. cbn [andb]. f_equal. f_equal. pose proof (Z.div_mod n 2 ltac:(lia)). pose proof (Z.mod_pos_bound n 2 ltac:(lia)). lia.
Qed.
(** Eisenstein's form for odd a. *)
Lemma jac_floor a : Z.odd a = true -> Z.gcd a n = 1 -> jac a n = xsum (fun k => Z.odd (a * k / n)) (upto h).
Proof.
  intros Oa G. pose proof n_form.
  assert (E : xsum Z.odd (upto h) = xorb (xsum (fun k => Z.odd (a * k / n)) (upto h)) (xorb (xsum (fun k => Z.odd (ab n (a * k))) (upto h)) (jac a n))).
  { unfold jac. fold h. rewrite <- !xsum_xor. apply xsum_ext. intros k _.
    assert (K : Z.odd k = Z.odd (a * k)) by now rewrite Z.odd_mul, Oa. rewrite K.
    rewrite (Z.div_mod (a * k) n) at 1 by lia. rewrite Z.odd_add, Z.odd_mul, On. cbn [andb]. f_equal.
    unfold ab. destruct (hi n (a * k)); [rewrite Z.odd_sub, On; now destruct (Z.odd ((a * k) mod n))|now rewrite xorb_false_r]. }
  rewrite (xsum_ab Z.odd a G) in E. destruct (xsum Z.odd (upto h)), (xsum (fun k => Z.odd (a * k / n)) (upto h)), (jac a n); cbn in E; congruence.
Qed.
End Odd.

(** Reciprocity. *)
Theorem jac_recip a n : Z.odd a = true -> Z.odd n = true -> 0 < a -> 0 < n -> Z.gcd a n = 1 ->
  xorb (jac a n) (jac n a) = Z.odd (a / 2) && Z.odd (n / 2).
Proof.
  intros Oa On Pa Pn G. rewrite (jac_floor n On Pn a Oa G), (jac_floor a Oa Pa n On) by now rewrite Z.gcd_comm.
  pose proof (n_form n On) as En. pose proof (n_form a Oa) as Ea. set (h := (n - 1) / 2) in *. set (h' := (a - 1) / 2) in *.
  replace (a / 2) with h' by (pose proof (Z.div_mod a 2 ltac:(lia)); pose proof (Z.mod_pos_bound a 2 ltac:(lia)); lia).
  replace (n / 2) with h by (pose proof (Z.div_mod n 2 ltac:(lia)); pose proof (Z.mod_pos_bound n 2 ltac:(lia)); lia).
  rewrite (xsum_ext (fun k => Z.odd (a * k / n)) (fun k => xsum (fun j => n * j <? a * k) (upto h'))).
  2:{ intros k Hk. apply in_upto in Hk. assert (B : 0 <= a * k / n <= h').
      { split; [apply Z.div_pos; nia|]. apply Z.lt_succ_r. apply Z.div_lt_upper_bound; [lia|]. nia. }
      rewrite <- (xsum_below h' _ B). apply xsum_ext. intros j Hj. apply in_upto in Hj.
      assert (NE : n * j <> a * k).
      { intros E. assert (D : (n | a * k)) by (exists j; lia). apply Z.gauss in D; [|now rewrite Z.gcd_comm]. apply Z.divide_pos_le in D; lia. }
      pose proof (Z.div_mod (a * k) n ltac:(lia)). pose proof (Z.mod_pos_bound (a * k) n ltac:(lia)).
      destruct (Z.leb_spec j (a * k / n)), (Z.ltb_spec (n * j) (a * k)); try reflexivity; nia. }
  rewrite (xsum_ext (fun k => Z.odd (n * k / a)) (fun j => xsum (fun k => a * k <? n * j) (upto h))).
  2:{ intros k Hk. apply in_upto in Hk. assert (B : 0 <= n * k / a <= h).
      { split; [apply Z.div_pos; nia|]. apply Z.lt_succ_r. apply Z.div_lt_upper_bound; [lia|]. nia. }
      rewrite <- (xsum_below h _ B). apply xsum_ext. intros j Hj. apply in_upto in Hj.
      assert (NE : a * j <> n * k).
      { intros E. assert (D : (a | n * k)) by (exists j; lia). apply Z.gauss in D; [|exact G]. apply Z.divide_pos_le in D; lia. }
      pose proof (Z.div_mod (n * k) a ltac:(lia)). pose proof (Z.mod_pos_bound (n * k) a ltac:(lia)).
      destruct (Z.leb_spec j (n * k / a)), (Z.ltb_spec (a * j) (n * k)); try reflexivity; nia. }
  rewrite (xsum_swap (fun j k => a * k <? n * j)), <- xsum_xor.
  rewrite (xsum_ext _ (fun _ => Z.odd h')); [rewrite xsum_const by lia; reflexivity|].
  intros k Hk. apply in_upto in Hk. rewrite <- xsum_xor, (xsum_ext _ (fun _ => true)); [now rewrite xsum_const by lia|].
  intros j Hj. apply in_upto in Hj.
  assert (NE : n * j <> a * k).
  { intros E. assert (D : (n | a * k)) by (exists j; lia). apply Z.gauss in D; [|now rewrite Z.gcd_comm]. apply Z.divide_pos_le in D; lia. }
  destruct (Z.ltb_spec (n * j) (a * k)), (Z.ltb_spec (a * k) (n * j)); cbn; try reflexivity; lia.
Qed.
Lemma jac_1 a : jac a 1 = false. Proof. reflexivity. Qed.

(** Gauss's lemma: for a prime modulus the symbol is the power of Euler's criterion. *)
Definition prodl (l : list Z) : Z := fold_right Z.mul 1 l.
Lemma prodl_perm l m : Permutation l m -> prodl l = prodl m.
Proof.
  induction 1 as [|x l l' _ IH|x y l|l l' l'' _ IH1 _ IH2].
  - reflexivity.
  - change (x * prodl l = x * prodl l'). now rewrite IH.
  - change (y * (x * prodl l) = x * (y * prodl l)). ring.
  - congruence.
Qed.
Theorem jac_euler a q : prime q -> Z.odd q = true -> Z.gcd a q = 1 ->
  (a ^ ((q - 1) / 2)) mod q = if jac a q then q - 1 else 1.
Proof.
  intros Pq Oq G. pose proof (prime_ge_2 q Pq). pose proof (n_form q Oq) as Eq. set (h := (q - 1) / 2) in *.
  assert (Q3 : 3 <= q) by (destruct (Z.eq_dec q 2) as [->|]; [discriminate Oq|lia]).
  assert (L : forall l, (forall k, In k l -> 1 <= k <= h) -> exists t,
    a ^ Z.of_nat (length l) * prodl l = (if xsum (fun k => hi q (a * k)) l then - 1 else 1) * prodl (map (fun k => ab q (a * k)) l) + t * q).
  { induction l as [|k l IH]; intros Hl; [exists 0; reflexivity|].
    destruct IH as [t E]; [intros j Hj; apply Hl; now right|]. cbn [length xsum map prodl fold_right]. fold (prodl l). fold (prodl (map (fun k => ab q (a * k)) l)).
    destruct (ab_eq q ltac:(lia) (a * k)) as [s Es]. rewrite Nat2Z.inj_succ, Z.pow_succ_r by lia.
    set (X := prodl (map (fun k => ab q (a * k)) l)) in *.
    assert (E2 : a * a ^ Z.of_nat (length l) * (k * prodl l) = a * k * (a ^ Z.of_nat (length l) * prodl l)) by ring. rewrite E2, E, Es.
    destruct (hi q (a * k)), (xsum (fun k => hi q (a * k)) l); cbn [xorb].
    - exists (a * k * t - s * X). ring.
    - exists (a * k * t + s * X). ring.
    - exists (a * k * t + s * X). ring.
    - exists (a * k * t - s * X). ring. }
  destruct (L (upto h)) as [t E]; [intros k Hk; now apply in_upto in Hk|].
  pose proof (prodl_perm _ _ (ab_perm q Oq ltac:(lia) a G)) as PP. fold h in PP.
  rewrite upto_length, Z2Nat.id in E by lia. rewrite PP in E.
  change (xsum (fun k => hi q (a * k)) (upto h)) with (jac a q) in E.
  assert (D : (q | (a ^ h - (if jac a q then -1 else 1)) * prodl (upto h))) by (exists t; destruct (jac a q); lia).
  apply prime_mult in D; [|exact Pq]. destruct D as [[s D]|D].
  - symmetry. destruct (jac a q); [apply (Z.mod_unique _ _ (s - 1))|apply (Z.mod_unique _ _ s)]; lia.
  - exfalso. revert D. assert (A : forall l, (forall k, In k l -> 1 <= k <= h) -> ~ (q | prodl l)).
    { induction l as [|k l IH]; intros Hl D; cbn [prodl fold_right] in D.
      - apply Z.divide_1_r in D. lia.
      - fold (prodl l) in D. apply prime_mult in D; [|exact Pq]. specialize (Hl k (or_introl eq_refl)) as Hk.
        destruct D as [D|D]; [apply Z.divide_pos_le in D; lia|]. revert D. apply IH. intros j Hj. apply Hl. now right. }
    apply A. intros k Hk. now apply in_upto in Hk.
Qed.

(** Products of moduli. *)
Lemma odd_half_mul m n : Z.odd m = true -> Z.odd n = true -> Z.odd (m * n / 2) = xorb (Z.odd (m / 2)) (Z.odd (n / 2)).
Proof.
  intros Om On. apply Z.odd_spec in Om, On. destruct Om as [a ->], On as [b ->].
  replace ((2 * a + 1) * (2 * b + 1)) with (1 + (2 * (a * b) + a + b) * 2) by ring.
  replace (2 * a + 1) with (1 + a * 2) by ring. replace (2 * b + 1) with (1 + b * 2) by ring.
  rewrite !Z.div_add by lia. change (1 / 2) with 0. rewrite !Z.add_0_l, !Z.odd_add, Z.odd_mul. change (Z.odd 2) with false.
  cbn [andb]. now destruct (Z.odd a), (Z.odd b).
Qed.
Lemma gcd_mul_1 a m n : Z.gcd a m = 1 -> Z.gcd a n = 1 -> Z.gcd a (m * n) = 1.
Proof. intros A B. apply Zgcd_1_rel_prime. apply rel_prime_mult; now apply Zgcd_1_rel_prime. Qed.
Lemma gcd_mul_l a m n : Z.gcd a (m * n) = 1 -> Z.gcd a m = 1.
Proof.
  intros H. apply Z.gcd_unique; [lia|apply Z.divide_1_l..|]. intros q Q1 Q2. rewrite <- H. apply Z.gcd_greatest; [exact Q1|].
  now apply Z.divide_mul_l.
Qed.
Lemma gcd_mul_r a m n : Z.gcd a (m * n) = 1 -> Z.gcd a n = 1.
Proof. rewrite Z.mul_comm. apply gcd_mul_l. Qed.
Theorem jac_mul_n a m n : Z.odd m = true -> Z.odd n = true -> 0 < m -> 0 < n -> 0 < a -> Z.gcd a (m * n) = 1 ->
  jac a (m * n) = xorb (jac a m) (jac a n).
Proof.
  intros Om On Pm Pn.
  assert (Omn : Z.odd (m * n) = true) by now rewrite Z.odd_mul, Om, On.
  assert (Pmn : 0 < m * n) by nia.
  assert (Odd_case : forall a, 0 < a -> Z.odd a = true -> Z.gcd a (m * n) = 1 -> jac a (m * n) = xorb (jac a m) (jac a n)).
  { clear a. intros a Pa Oa G. pose proof (gcd_mul_l _ _ _ G) as Gm. pose proof (gcd_mul_r _ _ _ G) as Gn.
    pose proof (jac_recip a (m * n) Oa Omn Pa Pmn G) as R. pose proof (jac_recip a m Oa Om Pa Pm Gm) as Rm. pose proof (jac_recip a n Oa On Pa Pn Gn) as Rn.
    rewrite (jac_mul a Oa Pa m n) in R by now rewrite Z.gcd_comm. rewrite odd_half_mul in R by assumption.
    destruct (jac a (m * n)), (jac a m), (jac a n), (jac m a), (jac n a), (Z.odd (a / 2)), (Z.odd (m / 2)), (Z.odd (n / 2)); cbn in *; congruence. }
  intros Pa G. destruct (Z.odd a) eqn:Oa; [now apply Odd_case|].
  rewrite <- (jac_add (m * n) Pmn a). rewrite Odd_case.
  - rewrite <- (jac_add_mul m Pm a n), <- (jac_add_mul n Pn a m). do 2 f_equal; ring.
  - lia.
  - now rewrite Z.odd_add, Oa, Omn.
  - rewrite Z.gcd_comm. replace (a + m * n) with (a + 1 * (m * n)) by ring. rewrite Z.gcd_add_mult_diag_r, Z.gcd_comm. exact G.
Qed.
