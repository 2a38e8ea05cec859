(** Number theory needed for the specification level: Fermat's little theorem
    and a Pocklington-style primality criterion, over the standard library's [Z]. *)
Require Import ZArith Znumtheory List Permutation Lia Bool Zpow_facts.
Import ListNotations.
Local Open Scope Z_scope.

(** Modular exponentiation by repeated squaring (used only to compute). *)
Fixpoint powmod_pos (a : Z) (e : positive) (m : Z) : Z :=
  match e with
  | xH => a mod m
  | xO e' => let h := powmod_pos a e' m in (h * h) mod m
  | xI e' => let h := powmod_pos a e' m in (a * ((h * h) mod m)) mod m
  end.

Definition powmod (a e m : Z) : Z :=
  match e with
  | Z0 => 1 mod m
  | Zpos e' => powmod_pos a e' m
  | Zneg _ => 0
  end.

Lemma powmod_pos_correct a e m : 0 < m -> powmod_pos a e m = (a ^ (Zpos e)) mod m.
Proof.
  intros Hm. induction e; cbn [powmod_pos].
  - rewrite IHe. replace (Zpos e~1) with (1 + (Zpos e + Zpos e)) by lia.
    rewrite !Z.pow_add_r, Z.pow_1_r by lia.
    rewrite <- Z.mul_mod by lia. rewrite Z.mul_mod_idemp_r by lia. reflexivity.
  - rewrite IHe. replace (Zpos e~0) with (Zpos e + Zpos e) by lia.
    rewrite Z.pow_add_r by lia. rewrite <- Z.mul_mod by lia. reflexivity.
  - rewrite Z.pow_1_r. reflexivity.
Qed.

Lemma powmod_correct a e m : 0 < m -> 0 <= e -> powmod a e m = (a ^ e) mod m.
Proof.
  intros Hm He. destruct e; cbn [powmod].
  - reflexivity.
  - now apply powmod_pos_correct.
  - lia.
Qed.

(** ** Fermat's little theorem *)

Definition Zrange1 (k : Z) : list Z := map (fun i => Z.of_nat i) (seq 1 (Z.to_nat k)).

Lemma in_Zrange1 k x : In x (Zrange1 k) <-> 1 <= x <= k.
Proof.
  unfold Zrange1. rewrite in_map_iff. split.
  - intros (i & <- & Hi). apply in_seq in Hi. lia.
  - intros H. exists (Z.to_nat x). split; [lia|]. apply in_seq. lia.
Qed.

Lemma NoDup_Zrange1 k : NoDup (Zrange1 k).
Proof.
  unfold Zrange1. apply FinFun.Injective_map_NoDup.
  - intros a b H. lia.
  - apply seq_NoDup.
Qed.

Definition Zprod (l : list Z) : Z := fold_right Z.mul 1 l.

Lemma Zprod_perm l l' : Permutation l l' -> Zprod l = Zprod l'.
Proof. unfold Zprod. induction 1; cbn [fold_right] in *; try congruence; ring. Qed.

Lemma Zprod_scale_mod m a l : 0 < m ->
  Zprod (map (fun x => (a * x) mod m) l) mod m = (a ^ Z.of_nat (length l) * Zprod l) mod m.
Proof.
  intros Hm. induction l as [|x l IH].
  - cbn. reflexivity.
  - cbn [map length Zprod fold_right]. fold (Zprod l).
    fold (Zprod (map (fun x => (a * x) mod m) l)).
    rewrite Z.mul_mod, IH, Z.mod_mod, <- Z.mul_mod by lia.
    f_equal. rewrite Nat2Z.inj_succ, Z.pow_succ_r by lia. ring.
Qed.

Lemma rel_prime_Zprod p l : prime p -> (forall x, In x l -> 1 <= x < p) -> rel_prime p (Zprod l).
Proof.
  intros Hp. induction l as [|x l IH]; intros H.
  - cbn. apply rel_prime_sym. apply rel_prime_1.
  - cbn [Zprod fold_right]. apply rel_prime_mult.
    + apply rel_prime_sym. apply rel_prime_le_prime; [assumption|]. apply H. now left.
    + apply IH. intros y Hy. apply H. now right.
Qed.

Lemma mod_cancel_l p a b c : 0 < p -> rel_prime p a ->
  (a * b) mod p = (a * c) mod p -> b mod p = c mod p.
Proof.
  intros Hp Hr H.
  assert (Hd : (p | a * (b - c))).
  { apply Z.mod_divide; [lia|]. rewrite Z.mul_sub_distr_l, Zminus_mod, H, Z.sub_diag. apply Z.mod_0_l. lia. }
  apply Gauss in Hd; [|assumption]. destruct Hd as [q Hq].
  replace b with (c + q * p) by lia. rewrite Z.mod_add by lia. reflexivity.
Qed.

Theorem fermat_little p a : prime p -> ~ (p | a) -> a ^ (p - 1) mod p = 1.
Proof.
  intros Hp Ha. pose proof (prime_ge_2 _ Hp) as Hp2.
  assert (Hra : rel_prime p a) by (apply prime_rel_prime; assumption).
  set (l := Zrange1 (p - 1)).
  assert (Hl : forall x, In x l -> 1 <= x < p) by (intros x Hx; apply in_Zrange1 in Hx; lia).
  assert (Hperm : Permutation (map (fun x => (a * x) mod p) l) l).
  { apply NoDup_Permutation_bis.
    - assert (Hinj : forall x y, In x l -> In y l -> (a * x) mod p = (a * y) mod p -> x = y).
      { intros x y Hx Hy E. apply mod_cancel_l in E; try lia; try assumption.
        apply Hl in Hx. apply Hl in Hy. rewrite !Z.mod_small in E by lia. exact E. }
      assert (G : forall l', NoDup l' -> (forall x, In x l' -> In x l) -> NoDup (map (fun x => (a * x) mod p) l')).
      { induction l' as [|x l' IH]; intros Hn Hi; [constructor|].
        inversion Hn; subst. cbn. constructor.
        - intros Hin. apply in_map_iff in Hin. destruct Hin as (y & E & Hy).
          apply Hinj in E; [subst; contradiction| apply Hi; now right | apply Hi; now left].
        - apply IH; [assumption|]. intros; apply Hi; now right. }
      apply G; [apply NoDup_Zrange1|auto].
    - rewrite map_length. lia.
    - intros y Hy. apply in_map_iff in Hy. destruct Hy as (x & <- & Hx). apply Hl in Hx.
      apply in_Zrange1.
      assert ((a * x) mod p <> 0).
      { intros E. apply Z.mod_divide in E; [|lia]. apply Gauss in E; [|assumption].
        apply Z.divide_pos_le in E; lia. }
      pose proof (Z.mod_pos_bound (a * x) p ltac:(lia)). lia. }
  pose proof (Zprod_scale_mod p a l ltac:(lia)) as Hs.
  rewrite (Zprod_perm _ _ Hperm) in Hs.
  assert (Hlen : Z.of_nat (length l) = p - 1).
  { unfold l, Zrange1. rewrite map_length, seq_length, Z2Nat.id by lia. reflexivity. }
  rewrite Hlen in Hs.
  symmetry in Hs. rewrite (Z.mul_comm (a ^ (p-1))) in Hs.
  replace (Zprod l) with (Zprod l * 1) in Hs at 2 by lia.
  apply mod_cancel_l in Hs; [|lia|now apply rel_prime_Zprod].
  rewrite Hs. apply Z.mod_1_l. lia.
Qed.

(** ** A Pocklington criterion *)

(** Trial division for small primes. *)
Definition small_prime_check (p b : Z) : bool :=
  (1 <? p) && (p <? b * b) &&
  forallb (fun d => negb (p mod d =? 0) || (p <=? d)) (map (fun i => Z.of_nat i) (seq 2 (Z.to_nat b - 2))).

Lemma smallest_prime_factor N : 1 < N -> exists r, prime r /\ (r | N).
Proof.
  intros H. assert (G : forall k N, 1 < N < k -> exists r, prime r /\ (r | N)).
  { clear. intros k. destruct (Z_le_dec k 0) as [?|Hk]; [lia|].
    pattern k. apply natlike_ind; [lia| |lia].
    intros x Hx IH N HN.
    destruct (prime_dec N) as [Hp|Hnp].
    - exists N. split; [assumption|apply Z.divide_refl].
    - destruct (not_prime_divide N ltac:(lia) Hnp) as (d & Hd & Hdiv).
      destruct (Z_lt_dec N x) as [Hlt|].
      + apply IH. lia.
      + destruct (IH d ltac:(lia)) as (r & Hr & Hrd). exists r. split; [assumption|].
        eapply Z.divide_trans; eassumption. }
  apply (G (N + 1)). lia.
Qed.

Lemma prime_if_no_small_prime N b : 1 < N -> 0 < b -> N < b * b ->
  (forall r, prime r -> (r | N) -> b <= r) -> prime N.
Proof.
  intros HN Hb Hbb H. destruct (prime_dec N) as [?|Hnp]; [assumption|exfalso].
  destruct (not_prime_divide N HN Hnp) as (d & Hd & [e He]).
  assert (He1 : 1 < e) by nia.
  destruct (smallest_prime_factor d ltac:(lia)) as (r1 & Hr1 & Hrd1).
  destruct (smallest_prime_factor e ltac:(lia)) as (r2 & Hr2 & Hrd2).
  assert (b <= r1) by (apply H; [assumption|]; subst N; now apply Z.divide_mul_r).
  assert (b <= r2) by (apply H; [assumption|]; subst N; now apply Z.divide_mul_l).
  apply Z.divide_pos_le in Hrd1; [|lia]. apply Z.divide_pos_le in Hrd2; [|lia]. nia.
Qed.

Lemma small_prime_check_correct p b : small_prime_check p b = true -> 0 < b -> prime p.
Proof.
  unfold small_prime_check. intros H Hb. apply andb_prop in H. destruct H as [H H3].
  apply andb_prop in H. destruct H as [H1 H2].
  apply Z.ltb_lt in H1. apply Z.ltb_lt in H2.
  destruct (prime_dec p) as [?|Hnp]; [assumption|].
  apply (prime_if_no_small_prime p b); try assumption.
  intros r Hr Hrp. pose proof (prime_ge_2 _ Hr).
  destruct (Z_lt_dec r b) as [Hlt|]; [|lia]. exfalso.
  rewrite forallb_forall in H3.
  assert (Hin : In r (map (fun i => Z.of_nat i) (seq 2 (Z.to_nat b - 2)))).
  { apply in_map_iff. exists (Z.to_nat r). split; [lia|]. apply in_seq. lia. }
  apply H3 in Hin. apply orb_prop in Hin. destruct Hin as [Hin|Hin].
  - apply negb_true_iff in Hin. apply Z.eqb_neq in Hin. apply Hin. apply Z.mod_divide; [lia|assumption].
  - apply Z.leb_le in Hin. apply Z.divide_pos_le in Hrp; [|lia].
    assert (r = p) by lia. subst. contradiction.
Qed.

Lemma pow_mod_mul_one r b x y : 1 < r -> 0 <= x -> 0 <= y ->
  b ^ x mod r = 1 -> b ^ (x * y) mod r = 1.
Proof.
  intros Hr Hx Hy H. rewrite Z.pow_mul_r by lia.
  rewrite Zpower_mod, H by lia. rewrite Z.pow_1_l by lia. apply Z.mod_1_l. lia.
Qed.

Lemma pocklington_step N q a r :
  1 < N -> prime q -> (q | N - 1) ->
  a ^ (N - 1) mod N = 1 ->
  Z.gcd (a ^ ((N - 1) / q) - 1) N = 1 ->
  prime r -> (r | N) -> (q | r - 1).
Proof.
  intros HN Hq Hdiv Hfer Hgcd Hr HrN.
  pose proof (prime_ge_2 _ Hr). pose proof (prime_ge_2 _ Hq).
  set (b := a ^ ((N - 1) / q)) in *.
  assert (HN1 : (N - 1) = (N - 1) / q * q).
  { destruct Hdiv as [k Hk]. rewrite Hk, Z.div_mul by lia. reflexivity. }
  assert (Hq0 : 0 <= (N - 1) / q) by (apply Z.div_pos; lia).
  assert (Hbq : b ^ q mod r = 1).
  { unfold b. rewrite <- Z.pow_mul_r, <- HN1 by lia.
    assert (E : (r | a ^ (N - 1) - 1)).
    { eapply Z.divide_trans; [exact HrN|]. apply Z.mod_divide; [lia|].
      rewrite Zminus_mod, Hfer, Z.mod_1_l by lia. rewrite Z.sub_diag. apply Z.mod_0_l; lia. }
    destruct E as [k Hk]. replace (a ^ (N - 1)) with (1 + k * r) by lia.
    rewrite Z.mod_add by lia. apply Z.mod_1_l. lia. }
  assert (Hb1 : b mod r <> 1).
  { intros E.
    assert (D : (r | b - 1)).
    { apply Z.mod_divide; [lia|]. rewrite Zminus_mod, E, Z.mod_1_l by lia. rewrite Z.sub_diag. apply Z.mod_0_l; lia. }
    assert (D2 : (r | Z.gcd (b - 1) N)) by (apply Z.gcd_greatest; assumption).
    rewrite Hgcd in D2. apply Z.divide_pos_le in D2; lia. }
  assert (Hrb : ~ (r | b)).
  { intros D. assert (E : b ^ q mod r = 0).
    { apply Z.mod_divide; [lia|]. replace q with (1 + (q - 1)) by lia.
      rewrite Z.pow_add_r, Z.pow_1_r by lia. now apply Z.divide_mul_l. }
    lia. }
  pose proof (fermat_little r b Hr Hrb) as Hf.
  destruct (prime_dec q) as [_|]; [|contradiction].
  destruct (Zdivide_dec q (r - 1)) as [?|Hnd]; [assumption|exfalso].
  assert (Hrel : rel_prime q (r - 1)) by (apply prime_rel_prime; assumption).
  (* Bezout: u*q + v*(r-1) = 1, pick nonnegative exponents *)
  destruct (rel_prime_bezout _ _ Hrel) as [u v Huv].
  (* choose u' = u mod (r-1) *)
  assert (Hr1 : 0 < r - 1).
  { destruct (Z.eq_dec r 2) as [->|]; [|lia]. lia. }
  set (u' := u mod (r - 1)).
  assert (Hu' : 0 <= u' < r - 1) by (apply Z.mod_pos_bound; lia).
  assert (Hex : exists w, 0 <= w /\ u' * q = 1 + w * (r - 1) \/ r - 1 = 1).
  { destruct (Z.eq_dec (r - 1) 1) as [E|E]; [exists 0; now right|].
    exists ((u' * q) / (r - 1)). left. split; [apply Z.div_pos; nia|].
    assert (M : (u' * q) mod (r - 1) = 1).
    { unfold u'. rewrite Z.mul_mod_idemp_l by lia.
      replace (u * q) with (1 + (- v) * (r - 1)) by lia. rewrite Z.mod_add by lia. apply Z.mod_1_l. lia. }
    pose proof (Z.div_mod (u' * q) (r - 1) ltac:(lia)). lia. }
  destruct Hex as (w & [[Hw E]|E]).
  - apply Hb1.
    assert (P1 : b ^ (u' * q) mod r = 1).
    { rewrite Z.mul_comm. apply pow_mod_mul_one; lia || assumption. }
    rewrite E, Z.pow_add_r, Z.pow_1_r in P1 by nia.
    rewrite Z.mul_mod in P1 by lia.
    rewrite (Z.mul_comm w) in P1.
    rewrite (pow_mod_mul_one r b (r - 1) w) in P1 by (lia || assumption).
    rewrite Z.mul_1_r, Z.mod_mod in P1 by lia. exact P1.
  - apply Hb1. replace r with 2 in * by lia.
    assert (D : b mod 2 <> 0) by (intros D; apply Hrb; apply Z.mod_divide; [lia|assumption]).
    pose proof (Z.mod_pos_bound b 2 ltac:(lia)). lia.
Qed.

(** Exponentiation chains for certificates: left-to-right square-and-multiply in
    which the multiple of [m] subtracted at each step is supplied by the
    certificate.  Any supplied value is sound, since only congruence matters. *)
Fixpoint chain (m a h : Z) (steps : list (bool * Z)) : Z :=
  match steps with
  | [] => h
  | (bit, q) :: r => let h2 := h * h - m * q in chain m a (if bit then a * h2 else h2) r
  end.
Fixpoint chain_exp (e : Z) (steps : list (bool * Z)) : Z :=
  match steps with
  | [] => e
  | (bit, _) :: r => chain_exp (2 * e + (if bit then 1 else 0)) r
  end.

Lemma chain_correct m a steps : 0 < m -> forall h e, 0 <= e -> h mod m = a ^ e mod m ->
  chain m a h steps mod m = a ^ (chain_exp e steps) mod m.
Proof.
  intros Hm. induction steps as [|[bit q] r IH]; intros h e He H; cbn [chain chain_exp]; [exact H|].
  apply IH; [destruct bit; lia|].
  assert (E : (h * h - m * q) mod m = (a ^ (2 * e)) mod m).
  { replace (h * h - m * q) with (h * h + (- q) * m) by ring. rewrite Z.mod_add by lia.
    rewrite Z.mul_mod, H, <- Z.mul_mod by lia. f_equal.
    replace (2 * e) with (e + e) by lia. rewrite Z.pow_add_r by lia. reflexivity. }
  destruct bit.
  - rewrite Z.mul_mod, E, <- Z.mul_mod by lia. f_equal.
    rewrite Z.pow_add_r, Z.pow_1_r by lia. ring.
  - rewrite Z.add_0_r. exact E.
Qed.

(** The same with a reduction function instead of supplied quotients. *)
Fixpoint powred_pos (red : Z -> Z) (a : Z) (e : positive) : Z :=
  match e with
  | xH => a
  | xO e' => let h := powred_pos red a e' in red (h * h)
  | xI e' => let h := powred_pos red a e' in a * red (h * h)
  end.

Lemma powred_pos_correct red m a e : 0 < m -> (forall x, red x mod m = x mod m) ->
  powred_pos red a e mod m = a ^ (Zpos e) mod m.
Proof.
  intros Hm Hr. induction e; cbn [powred_pos].
  - replace (Zpos e~1) with (1 + (Zpos e + Zpos e)) by lia.
    rewrite !Z.pow_add_r, Z.pow_1_r by lia.
    rewrite Z.mul_mod, Hr, (Z.mul_mod (powred_pos red a e)), IHe by lia.
    rewrite <- (Z.mul_mod (a ^ Zpos e)), <- Z.mul_mod by lia. reflexivity.
  - replace (Zpos e~0) with (Zpos e + Zpos e) by lia. rewrite !Z.pow_add_r by lia.
    rewrite Hr, Z.mul_mod, IHe, <- Z.mul_mod by lia. reflexivity.
  - now rewrite Z.pow_1_r.
Qed.

(** Reduction modulo 2^256 - c by folding the high part [k] times. *)
Fixpoint red256 (k : nat) (c x : Z) : Z :=
  match k with
  | O => x
  | S k' => red256 k' c (c * Z.shiftr x 256 + Z.land x (Z.ones 256))
  end.

Lemma red256_step c x : 0 < 2 ^ 256 - c ->
  (c * Z.shiftr x 256 + Z.land x (Z.ones 256)) mod (2 ^ 256 - c) = x mod (2 ^ 256 - c).
Proof.
  intros Hc. rewrite Z.shiftr_div_pow2, Z.land_ones by lia.
  pose proof (Z.div_mod x (2 ^ 256) ltac:(discriminate)) as E.
  set (q := x / 2 ^ 256) in *. set (r := x mod 2 ^ 256) in *. clearbody q r.
  set (B := 2 ^ 256) in *. clearbody B.
  replace (c * q + r) with (x + (- q) * (B - c)) by (subst x; ring).
  apply Z.mod_add. lia.
Qed.

Lemma red256_correct k c x : 0 < 2 ^ 256 - c -> red256 k c x mod (2 ^ 256 - c) = x mod (2 ^ 256 - c).
Proof.
  intros Hc. revert x. induction k; intros x; cbn [red256]; [reflexivity|].
  rewrite IHk. now apply red256_step.
Qed.

Fixpoint distinct_primes (l : list Z) : Prop :=
  match l with
  | [] => True
  | q :: l' => prime q /\ ~ In q l' /\ distinct_primes l'
  end.

Lemma distinct_rel_prime q l : prime q -> ~ In q l -> distinct_primes l -> rel_prime q (Zprod l).
Proof.
  intros Hq. induction l as [|x l IH]; intros Hin Hd.
  - cbn. apply rel_prime_sym, rel_prime_1.
  - cbn [Zprod fold_right]. destruct Hd as (Hx & Hxl & Hd). apply rel_prime_mult.
    + apply prime_rel_prime; [assumption|]. intros D.
      apply prime_div_prime in D; [|assumption|assumption]. subst. apply Hin. now left.
    + apply IH; [|assumption]. intros H. apply Hin. now right.
Qed.

Lemma distinct_divide l m : distinct_primes l -> (forall q, In q l -> (q | m)) -> (Zprod l | m).
Proof.
  induction l as [|q l IH]; intros Hd H.
  - cbn. apply Z.divide_1_l.
  - cbn [Zprod fold_right]. destruct Hd as (Hq & Hin & Hd).
    destruct (IH Hd (fun x Hx => H x (or_intror Hx))) as [k Hk].
    assert (Hqm : (q | m)) by (apply H; now left).
    rewrite Hk in Hqm. rewrite Z.mul_comm in Hqm.
    apply Gauss in Hqm; [|now apply distinct_rel_prime].
    destruct Hqm as [j Hj]. exists j. unfold Zprod in *. rewrite Hk, Hj. ring.
Qed.

(** Pocklington, base [a], for a list of distinct primes dividing [N - 1] whose
    product exceeds the square root of [N].  [u] witnesses coprimality. *)
Definition pock_cond (N a q : Z) : Prop :=
  (q | N - 1) /\ exists u, ((a ^ ((N - 1) / q) - 1) * u) mod N = 1.

Theorem pocklington N a l : 1 < N -> a ^ (N - 1) mod N = 1 -> distinct_primes l ->
  Forall (pock_cond N a) l -> N < (Zprod l + 1) * (Zprod l + 1) -> prime N.
Proof.
  intros HN Ha Hd H HF. rewrite Forall_forall in H.
  assert (HFpos : 0 < Zprod l).
  { clear - Hd. induction l as [|q l' IH]; cbn; [lia|]. destruct Hd as (Hq & _ & Hd).
    pose proof (prime_ge_2 _ Hq). unfold Zprod in IH. specialize (IH Hd). nia. }
  apply (prime_if_no_small_prime N (Zprod l + 1)); try lia.
  intros r Hr HrN.
  assert (D : (Zprod l | r - 1)).
  { apply distinct_divide; [assumption|]. intros q Hq.
    destruct (H _ Hq) as (Hdiv & u & Hu).
    assert (Hqp : prime q).
    { clear - Hd Hq. induction l as [|q1 l IH]; [contradiction|].
      destruct Hd as (H1 & _ & Hd). destruct Hq as [E|Hin]; [subst; exact H1|auto]. }
    apply (pocklington_step N q a r); try assumption.
    set (X := a ^ ((N - 1) / q) - 1) in *. clearbody X.
    assert (Hrel : rel_prime X N).
    { apply bezout_rel_prime. apply (Bezout_intro _ _ _ u (- (X * u / N))).
      pose proof (Z.div_mod (X * u) N ltac:(lia)). lia. }
    now apply Zgcd_1_rel_prime. }
  pose proof (prime_ge_2 _ Hr).
  apply Z.divide_pos_le in D; lia.
Qed.
