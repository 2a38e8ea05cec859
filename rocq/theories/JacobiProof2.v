(** The Jacobi symbol computation of JacobiModel.v returns the symbol or zero, and the square test of
    field elements is exact. *)
Require Import ZArith Lia List Bool Znumtheory Zpow_facts.
From Verif Require Import Word Int128Model SpecWords Int128Proof ScalarProof2 ModinvModel Safegcd ModinvProof ModinvProof2 ModinvProof3 ModinvProof4 ModinvProof5 JacobiModel JacobiProof.
From Verif Require Import Spec FieldModel FieldMul Primes FieldProof FieldProof2 FieldOps.
From Verif Require Jacobi NumTheory.
Import ListNotations.
Local Open Scope Z_scope.

Definition limb62 (x : Z) : Prop := 0 <= x < 2 ^ 62.
Definition low_ok (f : list Z) (v : Z) : Prop := word (low64 f) /\ cong 64 (low64 f) v.

Lemma canon_nonneg l : canon l -> 0 <= lval l < 2 ^ (62 * Z.of_nat (length l)) -> Forall limb62 l.
Proof.
  induction l as [|x r IH]; intros Hc Hv; [constructor|]. destruct r as [|y r].
  - cbn [lval] in Hv. change (2 ^ (62 * Z.of_nat (length [x]))) with (2 ^ 62) in Hv. constructor; [unfold limb62; lia|constructor].
  - apply canon_cons in Hc; [|discriminate]. destruct Hc as [Hx Hc].
    change (lval (x :: y :: r)) with (x + 2 ^ 62 * lval (y :: r)) in Hv.
    change (length (x :: y :: r)) with (S (length (y :: r))) in Hv. rewrite pow62_S in Hv.
    constructor; [exact Hx|]. apply IH; [exact Hc|]. set (P := 2 ^ (62 * Z.of_nat (length (y :: r)))) in *. clearbody P. lia.
Qed.
Lemma limbs_bound l : Forall limb62 l -> 0 <= lval l < 2 ^ (62 * Z.of_nat (length l)).
Proof.
  induction 1 as [|x r Hx _ IH]; [cbn; lia|]. cbn [lval length]. rewrite pow62_S. unfold limb62 in Hx.
  set (P := 2 ^ (62 * Z.of_nat (length r))) in *. clearbody P. lia.
Qed.
Lemma limbs_small l : Forall limb62 l -> small (2 ^ 62) l.
Proof. intros H. unfold small. eapply Forall_impl; [|exact H]. intros x. unfold limb62. lia. Qed.

Lemma low64_word f : word (low64 f).
Proof.
  unfold low64, word. pose proof (w64_range (lm f 0)). pose proof (w64_range (Z.shiftl (w64 (lm f 1)) 62)).
  split; [apply Z.lor_nonneg; lia|]. destruct (Z.eq_dec (Z.lor (w64 (lm f 0)) (w64 (Z.shiftl (w64 (lm f 1)) 62))) 0) as [->|N]; [lia|].
  assert (0 <= Z.lor (w64 (lm f 0)) (w64 (Z.shiftl (w64 (lm f 1)) 62))) by (apply Z.lor_nonneg; lia).
  apply Z.log2_lt_pow2; [lia|]. rewrite Z.log2_lor by lia. apply Z.max_lub_lt.
  - destruct (Z.eq_dec (w64 (lm f 0)) 0) as [->|]; [reflexivity|]. apply Z.log2_lt_pow2; lia.
  - destruct (Z.eq_dec (w64 (Z.shiftl (w64 (lm f 1)) 62)) 0) as [->|]; [reflexivity|]. apply Z.log2_lt_pow2; lia.
Qed.
Lemma low64_shl a1 : exists q, w64 (Z.shiftl (w64 a1) 62) = 2 ^ 62 * (a1 mod 4) /\ a1 = a1 mod 4 + q * 4.
Proof.
  exists (a1 / 4). rewrite w64_shl_mod by lia. change (2 ^ (64 - 62)) with (2 ^ 2). unfold w64. rewrite (mod_mod_pow a1 64 2) by lia. change (2 ^ 2) with 4. split; [reflexivity|].
  pose proof (Z.div_mod a1 4 ltac:(lia)). lia.
Qed.
Lemma low_cong_raw a0 a1 rest : 0 <= a0 < 2 ^ 62 \/ - 2 ^ 62 < a0 < 2 ^ 62 /\ a1 mod 4 = 0 ->
  cong 64 (low64 (a0 :: a1 :: rest)) (lval (a0 :: a1 :: rest)).
Proof.
  intros H. unfold low64, lm. cbn [nth]. destruct (low64_shl a1) as (q & E & Eq). rewrite E.
  change (lval (a0 :: a1 :: rest)) with (a0 + 2 ^ 62 * (a1 + 2 ^ 62 * lval rest)).
  assert (C : cong 64 (a0 + 2 ^ 62 * (a1 mod 4)) (a0 + 2 ^ 62 * (a1 + 2 ^ 62 * lval rest))).
  { exists (- (q + 2 ^ 60 * lval rest)). rewrite Eq at 2. change (2 ^ 64) with (2 ^ 62 * 4). change (2 ^ 62) with (2 ^ 60 * 4) at 4. ring. }
  pose proof (Z.mod_pos_bound a1 4 ltac:(lia)).
  destruct H as [H|[H Z0]].
  - rewrite w64_id by lia. rewrite lor_mul by lia. exact C.
  - rewrite Z0 in C |- *. rewrite Z.mul_0_r in *. rewrite Z.lor_0_r. rewrite Z.add_0_r in C. eapply cong_trans; [apply cong_w64; lia|exact C].
Qed.
Lemma low_ok_limbs fa k : fa <> [] -> (2 <= length fa + k)%nat -> Forall limb62 fa -> low_ok (fa ++ repeat 0 k) (lval fa).
Proof.
  intros N L H. split; [apply low64_word|].
  assert (E : lval fa = lval (fa ++ repeat 0 k)).
  { rewrite lval_app, (lval_zeros (repeat 0 k)); [ring|]. apply Forall_forall. intros x Hx. now apply repeat_spec in Hx. }
  rewrite E. destruct fa as [|a0 fa]; [congruence|]. inversion H as [|? ? H0 _]; subst.
  destruct fa as [|a1 fa].
  - destruct k as [|k]; [cbn in L; lia|]. cbn [app repeat]. apply low_cong_raw. now left.
  - cbn [app]. apply low_cong_raw. now left.
Qed.

Lemma f_one_spec fa ft : fa <> [] -> f_is_one (length fa) (fa ++ ft) = true -> lval fa = 1.
Proof.
  intros N H. unfold f_is_one in H. apply andb_true_iff in H. destruct H as [H1 H2]. apply Z.eqb_eq in H1, H2.
  destruct fa as [|x r]; [congruence|]. unfold lm in H1. cbn [app nth tl length] in H1, H2. rewrite Nat.sub_succ, Nat.sub_0_r in H2.
  rewrite firstn_app_exact in H2 by reflexivity. apply fold_lor_zero in H2. destruct H2 as [_ H2].
  cbn [lval]. rewrite (lval_zeros r H2). lia.
Qed.

Lemma snoc_zero l : l <> [] -> last l 0 = 0 -> exists m, l = m ++ [0].
Proof. intros N E. exists (removelast l). rewrite <- E. now apply app_last. Qed.
Lemma repeat_snoc m k : (m ++ [0]) ++ repeat 0 k = m ++ repeat 0 (S k).
Proof. now rewrite <- app_assoc. Qed.

Lemma jac_loop J : forall rounds len eta fa ga k jb K,
  (1 <= len)%nat -> (2 <= len + k)%nat -> fg_in len fa -> fg_in len ga -> low_ok (fa ++ repeat 0 k) (lval fa) -> low_ok (ga ++ repeat 0 k) (lval ga) ->
  Z.odd (lval fa) = true -> 0 < lval fa <= 2 ^ (62 * Z.of_nat len) - 1 -> 0 < lval ga <= 2 ^ (62 * Z.of_nat len) - 1 -> Z.gcd (lval ga) (lval fa) = 1 ->
  0 <= K -> K + 62 * Z.of_nat rounds <= 2 ^ 19 -> - K <= eta <= K ->
  xorb (Z.odd jb) (sym (lval ga) (lval fa)) = J ->
  exists r, jacobi64_loop rounds len eta (fa ++ repeat 0 k) (ga ++ repeat 0 k) jb = Some r /\ (r = 0 \/ r = if J then -1 else 1).
Proof.
  induction rounds as [|rounds IH]; intros len eta fa ga k jb K Hl Hk Hf Hg [Wf Cf] [Wg Cg] Of Bf Bg Hgcd HK0 HK He HJ.
  { exists 0. split; [reflexivity|now left]. }
  cbn [jacobi64_loop].
  destruct (posdivsteps_ok eta (lval fa) (lval ga) _ _ K jb Of (proj1 Bf) (proj1 Bg) Hgcd ltac:(lia) He Wf Wg Cf Cg)
    as (F & G & eta1 & t & jb1 & -> & Hm & OF & PF & PG & Gc & He1 & HJ1).
  assert (HK1 : K + 62 + 62 * Z.of_nat rounds <= 2 ^ 19) by lia.
  rewrite HJ in HJ1. clear HJ HK He Hgcd Of.
  set (B := 2 ^ (62 * Z.of_nat len)) in *.
  destruct (mat_bound _ _ _ _ _ (B - 1) ltac:(lia) Hm ltac:(lia) ltac:(lia)) as [BF BG].
  destruct Hm as (E1 & E2 & B1 & B2). destruct Hf as [Lf Sf], Hg as [Lg Sg].
  destruct (fg_row_ok len (tu t) (tv t) fa ga F Hl Lf Lg B1 Sf Sg E1 ltac:(fold B; lia)) as (f1 & R1 & L1 & C1 & VF & SF).
  destruct (fg_row_ok len (tq t) (tr t) fa ga G Hl Lf Lg B2 Sf Sg E2 ltac:(fold B; lia)) as (g1 & R2 & L2 & C2 & VG & SG).
  unfold update_fg_62_var. rewrite !row_var_app by assumption. rewrite R1, R2.
  rewrite !skipn_app_exact by assumption.
  assert (Nf : f1 <> []) by (intros ->; cbn in L1; lia). assert (Ng : g1 <> []) by (intros ->; cbn in L2; lia).
  assert (Qf : Forall limb62 f1) by (apply canon_nonneg; [exact C1|rewrite L1, VF; fold B; lia]).
  assert (Qg : Forall limb62 g1) by (apply canon_nonneg; [exact C2|rewrite L2, VG; fold B; lia]).
  assert (NLf := nth_last f1 (repeat 0 k) Nf). rewrite L1 in NLf. assert (NLg := nth_last g1 (repeat 0 k) Ng). rewrite L2 in NLg. rewrite NLf, NLg.
  destruct (f_is_one len (f1 ++ repeat 0 k)) eqn:E.
  { rewrite <- L1 in E. apply f_one_spec in E; [|exact Nf]. rewrite E in VF. subst F. rewrite Jacobi.jac_1, xorb_false_r in HJ1.
    exists (1 - 2 * Z.land jb1 1). split; [reflexivity|]. right. rewrite land_1_odd, HJ1. now destruct J. }
  rewrite <- VF in OF, PF, BF, Gc, HJ1. rewrite <- VG in PG, BG, Gc, HJ1.
  match goal with |- context [if ?c =? 0 then _ else _] => destruct (Z.eqb_spec c 0) as [C0|_] end.
  - apply Z.lor_eq_0_iff in C0. destruct C0 as [C0 Cg0]. apply Z.lor_eq_0_iff in C0. destruct C0 as [Cl0 Cf0].
    assert (Hlen : (2 <= len)%nat).
    { rewrite shiftr_div in Cl0 by lia. destruct (Nat.le_gt_cases 2 len) as [?|C]; [assumption|]. exfalso.
      replace len with 1%nat in Cl0 by lia. vm_compute in Cl0. discriminate Cl0. }
    destruct (snoc_zero f1 Nf Cf0) as [fb ->]. destruct (snoc_zero g1 Ng Cg0) as [gb ->]. rewrite !repeat_snoc.
    apply Forall_app in Qf, Qg. destruct Qf as [Qf _], Qg as [Qg _].
    rewrite app_length in L1, L2. cbn [length] in L1, L2.
    assert (Nfb : fb <> []) by (intros ->; cbn in L1; lia). assert (Ngb : gb <> []) by (intros ->; cbn in L2; lia).
    assert (Vf' : lval (fb ++ [0]) = lval fb) by (rewrite lval_app; cbn [lval]; ring).
    assert (Vg' : lval (gb ++ [0]) = lval gb) by (rewrite lval_app; cbn [lval]; ring).
    rewrite Vf' in *. rewrite Vg' in *.
    pose proof (limbs_bound fb Qf) as Lbf. pose proof (limbs_bound gb Qg) as Lbg.
    replace (length fb) with (len - 1)%nat in Lbf by lia. replace (length gb) with (len - 1)%nat in Lbg by lia.
    apply (IH (len - 1)%nat eta1 fb gb (S k) jb1 (K + 62)); try assumption; try lia.
    + split; [lia|now apply limbs_small].
    + split; [lia|now apply limbs_small].
    + apply low_ok_limbs; [assumption|lia|assumption].
    + apply low_ok_limbs; [assumption|lia|assumption].
  - apply (IH len eta1 f1 g1 k jb1 (K + 62)); try assumption; try (split; assumption); try (fold B; lia).
    + apply low_ok_limbs; [assumption|lia|assumption].
    + apply low_ok_limbs; [assumption|lia|assumption].
Qed.

(** A modulus whose two low limbs the computation can join: the lowest is not negative, or the next
    one is a multiple of four. *)
Definition joinable (mi : modinfo) : Prop := 0 <= lm (modulus mi) 0 \/ lm (modulus mi) 1 mod 4 = 0.

Theorem jacobi64_ok rounds x mi M : mod_ok mi M -> joinable mi -> length x = 5%nat -> Forall limb62 x -> 0 < lval x < M -> Z.gcd (lval x) M = 1 ->
  62 * Z.of_nat rounds <= 2 ^ 18 ->
  exists r, jacobi64_maybe_var rounds x mi = Some r /\ (r = 0 \/ r = if sym (lval x) M then -1 else 1).
Proof.
  intros HM HJ Lx Qx Rx Gx Hr. assert (HM' := HM). destruct HM' as (ML & MS & _ & _ & _ & _ & RM & OM).
  destruct (start_fg mi M HM) as [Hf Vf]. unfold jacobi64_maybe_var.
  pose proof (jac_loop (sym (lval x) M) rounds 5 (-1) (modulus mi) x 0 0 1) as X. cbn [repeat] in X. rewrite !app_nil_r in X. rewrite Vf in X.
  change (2 ^ (62 * Z.of_nat 5)) with (2 ^ 310) in X.
  apply X; try assumption; try lia; clear X.
  - split; [exact Lx|now apply limbs_small].
  - split; [apply low64_word|]. rewrite <- Vf. unfold joinable, lm in HJ.
    destruct (modulus mi) as [|m0 [|m1 rest]]; [destruct Hf as [Hf _]; discriminate Hf..|].
    cbn [nth] in HJ.
    assert (m0_b : - 2 ^ 62 < m0 < 2 ^ 62).
    { clear - MS. inversion MS as [|? ? Q _]; subst. lia. }
    apply low_cong_raw. destruct HJ as [HJ|HJ]; [left; lia|right; split; [exact m0_b|exact HJ]].
  - pose proof (low_ok_limbs x 0) as Y. cbn [repeat] in Y. rewrite app_nil_r in Y. apply Y; [intros ->; discriminate Lx|lia|exact Qx].
  - change (Z.odd 0) with false. apply xorb_false_l.
Qed.

(** ** Squares *)
Lemma euler_square q a b h : prime q -> q = 2 * h + 1 -> 0 < h -> ~ (q | a) -> (b * b) mod q = a mod q -> (a ^ h) mod q = 1.
Proof.
  intros Pq Eq Hh Na E. assert (Nb : ~ (q | b)).
  { intros D. apply Na. apply Z.mod_divide; [lia|]. rewrite <- E. apply Z.mod_divide; [lia|]. now apply Z.divide_mul_l. }
  rewrite Zpower_mod, <- E, <- Zpower_mod by lia. rewrite <- Z.pow_2_r, <- Z.pow_mul_r by lia.
  replace (2 * h) with (q - 1) by lia. now apply NumTheory.fermat_little.
Qed.
Lemma square_root q a e h : 0 < q -> q = 2 * h + 1 -> 2 * e = h + 1 -> 0 < h -> (a ^ h) mod q = 1 -> (a ^ e * a ^ e) mod q = a mod q.
Proof.
  intros Hq Eq Ee Hh E. rewrite <- Z.pow_add_r by lia. replace (e + e) with (h + 1) by lia. rewrite Z.pow_add_r, Z.pow_1_r by lia.
  rewrite Z.mul_comm, <- Zmult_mod_idemp_r, E, Z.mul_1_r. reflexivity.
Qed.
Theorem sym_square q a : prime q -> q mod 4 = 3 -> 0 < a < q -> (sym a q = false <-> exists b, (b * b) mod q = a mod q).
Proof.
  intros Pq M4 Ha. pose proof (Z.div_mod q 4 ltac:(lia)) as D4. rewrite M4 in D4. set (e := q / 4) in *. 
  assert (Gq : Z.gcd a q = 1) by (rewrite Z.gcd_comm; now apply prime_gcd).
  assert (Oq : Z.odd q = true) by (rewrite D4, Z.odd_add, Z.odd_mul; reflexivity).
  pose proof (Jacobi.jac_euler a q Pq Oq Gq) as E.
  assert (Eh : (q - 1) / 2 = 2 * e + 1). { replace (q - 1) with ((2 * e + 1) * 2) by lia. now apply Z.div_mul. }
  rewrite Eh in E. clearbody e. split.
  - intros S0. rewrite S0 in E. exists (a ^ (e + 1)). apply (square_root q a (e + 1) (2 * e + 1)); lia.
  - intros [b Eb]. assert (Na : ~ (q | a)) by (intros D; apply Z.divide_pos_le in D; lia).
    rewrite (euler_square q a b (2 * e + 1) Pq ltac:(lia) ltac:(lia) Na Eb) in E. destruct (sym a q); [lia|reflexivity].
Qed.

(** ** Field elements *)
Lemma limbs62_forall v l : limbs62 v l -> 0 <= v < 2 ^ 256 -> Forall limb62 l.
Proof.
  intros (L & C & _ & V) R. apply canon_nonneg; [exact C|]. rewrite L, V. change (62 * Z.of_nat 5) with 310. lia.
Qed.
Lemma p_mod4 : p mod 4 = 3. Proof. reflexivity. Qed.
Lemma p_lt : p < 2 ^ 256. Proof. reflexivity. Qed.
Lemma joinable_fe : joinable modinfo_fe. Proof. right. reflexivity. Qed.

Theorem is_square_ok rounds x : 62 * Z.of_nat rounds <= 2 ^ 18 -> fe_mag 32 x -> fe_impl_is_square_var rounds x = Some (fe_is_square_var x).
Proof.
  intros Hr Hx. pose proof (fe_is_square_var_spec x Hx) as S0. destruct (fe_normalize_ok x Hx) as [Nx Vx].
  unfold fe_impl_is_square_var, fe_is_square_var in *. rewrite fe_normalize_var_eq in * by exact Hx.
  destruct (fe_is_zero (fe_normalize x)) eqn:Z0; [reflexivity|].
  destruct (fe_to_ok _ Nx) as (T1 & T2 & T3 & T4). pose proof (fe_norm_range _ Nx) as Rx. pose proof p_lt.
  assert (NZ : fval (fe_normalize x) <> 0).
  { intros E. assert (fe_is_zero (fe_normalize x) = true); [|congruence]. apply fe_is_zero_spec; [exact Nx|]. apply fv_zero_iff. now rewrite E. }
  assert (Gx : Z.gcd (fval (fe_normalize x)) p = 1) by (rewrite Z.gcd_comm; apply prime_gcd; [exact prime_p|lia]).
  destruct (jacobi64_ok rounds (fe_to_signed62 (fe_normalize x)) modinfo_fe p mod_ok_fe joinable_fe T1) as (r & -> & Hr'); try assumption.
  - apply (limbs62_forall (fval (fe_normalize x))); [exact (conj T1 (conj T2 (conj T3 T4)))|lia].
  - rewrite T4. lia.
  - rewrite T4. exact Gx.
  - f_equal. rewrite T4 in Hr'. set (v := fval (fe_normalize x)) in *.
    assert (Q : sym v p = false <-> is_square_mod_p (fval x)).
    { rewrite (sym_square p v prime_p p_mod4) by lia. unfold is_square_mod_p. rewrite Vx, Zmod_mod. reflexivity. }
    destruct Hr' as [-> | ->]; [reflexivity|]. rewrite <- Q in S0. destruct (sym v p), (fst (fe_sqrt (fe_normalize x))); cbn; try reflexivity; destruct S0 as [S1 S2].
    + specialize (S1 eq_refl). congruence.
    + specialize (S2 eq_refl). congruence.
Qed.
