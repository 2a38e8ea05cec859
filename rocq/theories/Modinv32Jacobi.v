(** The steps of the 32-bit Jacobi symbol computation keep track of the symbol, the computation returns
    the symbol or zero, and the square test of the 32-bit field elements is exact.  Same argument as
    JacobiProof.v and JacobiProof2.v. *)
Require Import ZArith Lia List Bool Znumtheory Zpow_facts.
From Verif Require Import Word Word32 Spec Primes Int128Model SpecWords Int128Proof ScalarProof2 ModinvModel JacobiModel Field32Model Scalar32Model SpecRep32
  Modinv32Model Safegcd ModinvProof ModinvProof2 ModinvProof3 ModinvProof4 ModinvProof5 JacobiProof JacobiProof2
  Modinv32Proof Modinv32Proof2 Modinv32Proof3 Modinv32Proof4 Modinv32Proof5 Field32Props.
From Verif Require Jacobi.
Import ListNotations.
Local Open Scope Z_scope.

Lemma odd_w32 x : Z.odd (w32 x) = Z.odd x.
Proof. unfold w32. apply odd_mod_pow. lia. Qed.

Lemma vreps_le30 i j s t : 0 <= j <= i -> vreps32 i s t -> vreps32 j s t.
Proof.
  intros H (A & B & C & D & E & R). refine (conj A (conj B (conj C (conj _ (conj _ R))))); apply (cong_le _ i); assumption.
Qed.

Lemma pos_loop_ok30 F0 G0 K J : 0 <= K <= 2 ^ 20 -> forall fuel i mb s t jb,
  0 <= i <= 30 -> 0 <= mb <= i -> (2 ^ mb | iG t) -> (i + (if mb =? 0 then 2 else 1) <= Z.of_nat fuel) ->
  - (K - i) <= ic t <= K - i -> pinv t -> vreps32 (i + 2) s t -> vlin F0 G0 (30 - i) mb t ->
  xorb (Z.odd jb) (sym (iG t) (iF t)) = J ->
  exists s' t' jb', posdivsteps30_loop fuel i s jb = Some (s', jb') /\ vreps32 2 s' t' /\ vlin F0 G0 30 0 t' /\ pinv t' /\
    - K <= ic t' <= K /\ xorb (Z.odd jb') (sym (iG t') (iF t')) = J.
Proof.
  intros HK. induction fuel as [|fuel IH]; intros i mb s t jb Hi Hmb Dmb Hfuel Hc (Of & PF & PG & Hgcd) (Eeta & Wf & Wg & Cf & Cg & Eu & Ev & Eq & Er) (L1 & L2 & B1 & B2) Ht.
  { destruct (mb =? 0); lia. }
  cbn [posdivsteps30_loop].
  destruct (ctz_turn32 (vg s) i Wg Hi) as (z & -> & Hz & Dz & Oz).
  assert (Hmz : mb <= z).
  { destruct (Z.leb_spec mb z) as [?|C]; [assumption|]. exfalso. specialize (Oz ltac:(lia)).
    assert (D1 : (2 ^ (z + 1) | vg s)).
    { apply cong_0. apply (cong_trans _ _ (iG t)).
      - apply (cong_le _ (i + 2)); [lia|exact Cg].
      - apply (cong_le _ mb); [lia|]. now apply cong_0. }
    destruct D1 as [q Hq].
    assert (Hq' : vg s = (q * 2) * 2 ^ z) by (rewrite Hq, Z.pow_add_r, Z.pow_1_r by lia; ring).
    rewrite Hq', Z.div_mul in Oz by (apply Z.pow_nonzero; lia).
    rewrite Z.odd_mul, andb_comm in Oz. discriminate Oz. }
  rewrite i32_id by (unfold is_i32; lia). cbv zeta.
  destruct (cong_shift (i + 2) z _ _ ltac:(lia) Cg Dz) as [Cg' DG].
  set (G' := iG t / 2 ^ z) in *. assert (Pz : 0 < 2 ^ z) by (apply Z.pow_pos_nonneg; lia).
  assert (EG : iG t = 2 ^ z * G'). { unfold G'. destruct DG as [q ->]. rewrite Z.div_mul by lia. ring. }
  set (i' := i - z) in *.
  set (t1 := mkiv (ic t - z) (iF t) G' (iU t * 2 ^ z) (iV t * 2 ^ z) (iQ t) (iR t)).
  assert (Pk : 2 ^ (30 - i') = 2 ^ (30 - i) * 2 ^ z) by (rewrite <- Z.pow_add_r by lia; f_equal; unfold i'; lia).
  assert (V1 : vlin F0 G0 (30 - i') 0 t1).
  { unfold vlin, t1. cbn [iU iV iQ iR iF iG]. rewrite Z.add_0_r, Pk. rewrite !Z.abs_mul, (Z.abs_eq (2 ^ z)) by lia.
    repeat split.
    - transitivity ((iU t * F0 + iV t * G0) * 2 ^ z); [ring|]. rewrite L1. ring.
    - rewrite L2, EG. ring.
    - rewrite <- Z.mul_add_distr_r. apply Z.mul_le_mono_nonneg_r; lia.
    - eapply Z.le_trans; [exact B2|]. rewrite Z.pow_add_r by lia. apply Z.mul_le_mono_nonneg_l; [apply Z.pow_nonneg; lia|apply Z.pow_le_mono_r; lia]. }
  set (jb1 := to_i32 _).
  assert (Gc : Z.gcd G' (iF t) = 1) by (apply (gcd_halve _ _ z Of ltac:(lia)); now rewrite <- EG).
  assert (T1 : xorb (Z.odd jb1) (sym (iG t1) (iF t1)) = J).
  { rewrite <- Ht. unfold t1. cbn [iF iG]. rewrite EG, sym_halve by (assumption || lia). rewrite <- xorb_assoc. f_equal.
    unfold jb1. rewrite odd_to_i32, odd_lxor, odd_w32, odd_land, odd_lxor, !shiftr_div by lia. f_equal.
    destruct (Z.eq_dec z 0) as [->|NZ]; [reflexivity|]. f_equal. f_equal.
    - exact (cong_bit (i + 2) 1 _ _ ltac:(lia) Cf).
    - exact (cong_bit (i + 2) 2 _ _ ltac:(lia) Cf). }
  assert (P1 : pinv t1).
  { unfold pinv, t1. cbn [iF iG]. repeat split; try assumption. nia. }
  clearbody jb1.
  set (s1 := mkvv (veta s - z) (vf s) (Z.shiftr (vg s) z) (w32 (Z.shiftl (vu s) z)) (w32 (Z.shiftl (vv s) z)) (vq s) (vr s)).
  assert (R1 : vreps32 (i' + 2) s1 t1).
  { unfold vreps32, s1, t1. cbn [veta vf vg vu vv vq vr ic iF iG iU iV iQ iR].
    rewrite Eu, Ev, !w32_shl_w32 by lia. rewrite Eeta, shiftr_div by lia.
    repeat split; try assumption; try apply Wf.
    - rewrite <- shiftr_div by lia. apply word_shr32; [assumption|lia].
    - rewrite <- shiftr_div by lia. apply word_shr32; [assumption|lia].
    - apply (cong_le _ (i + 2)); [unfold i'; lia|exact Cf].
    - unfold i'. replace (i - z + 2) with (i + 2 - z) by lia. exact Cg'. }
  assert (C1 : - (K - i') <= ic t1 <= K - i') by (unfold t1, i'; cbn [ic]; lia).
  assert (Oi : 0 < i' -> Z.odd (iG t1) = true).
  { intros P. rewrite <- (Oz ltac:(unfold i' in P; lia)). symmetry. apply (cong_odd (i + 2 - z)); [lia|exact Cg']. }
  assert (Hfuel' : i' + 1 <= Z.of_nat fuel).
  { unfold i'. destruct (Z.eqb_spec mb 0); lia. }
  assert (Hi' : 0 <= i' <= 30) by (unfold i'; lia).
  clearbody s1 t1 i'. clear - HK IH R1 V1 T1 P1 C1 Oi Hfuel' Hi'.
  destruct (Z.eqb_spec i' 0) as [E0|N0].
  { exists s1, t1, jb1. subst i'. split; [reflexivity|]. split; [exact R1|]. split; [exact V1|]. split; [exact P1|]. split; [lia|exact T1]. }
  specialize (Oi ltac:(lia)).
  (* The swap. *)
  set (b := veta s1 <? 0).
  assert (Sw : exists s2 t2 jb2, (if b then
        let? ne := i32 (- veta s1) in
        let jac := to_i32 (Z.lxor (w32 jb1) (Z.shiftr (Z.land (vf s1) (vg s1)) 1)) in
        Some (mkvv ne (vg s1) (vf s1) (vq s1) (vr s1) (vu s1) (vv s1), jac)
      else Some (s1, jb1)) = Some (s2, jb2) /\
    vreps32 (i' + 2) s2 t2 /\ vlin F0 G0 (30 - i') 0 t2 /\ xorb (Z.odd jb2) (sym (iG t2) (iF t2)) = J /\
    0 <= ic t2 <= K - i' /\ pinv t2).
  { destruct R1 as (E1 & Wf & Wg & Cf & Cg & Eu & Ev & Eq & Er). destruct V1 as (L1 & L2 & B1 & B2).
    destruct b eqn:Hb; unfold b in Hb.
    - apply Z.ltb_lt in Hb. rewrite i32_id by (unfold is_i32; lia). cbv zeta. cbn [vf vg].
      exists (mkvv (- veta s1) (vg s1) (vf s1) (vq s1) (vr s1) (vu s1) (vv s1)),
             (mkiv (- ic t1) (iG t1) (iF t1) (iQ t1) (iR t1) (iU t1) (iV t1)),
             (to_i32 (Z.lxor (w32 jb1) (Z.shiftr (Z.land (vf s1) (vg s1)) 1))).
      split; [reflexivity|]. split.
      { unfold vreps32. cbn [veta vf vg vu vv vq vr ic iF iG iU iV iQ iR].
        repeat split; try assumption; try apply Wf; try apply Wg. now f_equal. }
      split.
      { unfold vlin in *. cbn [iU iV iQ iR iF iG]. rewrite Z.add_0_r in *. repeat split; lia. }
      destruct P1 as (Of & PF & PG & Hgcd).
      split; [|split; [cbn [ic]; lia|]].
      + cbn [iF iG]. rewrite odd_to_i32, odd_lxor, odd_w32, Z.shiftr_land, odd_land, !shiftr_div by lia.
        rewrite (cong_bit (i' + 2) 1 _ _ ltac:(lia) Cf), (cong_bit (i' + 2) 1 _ _ ltac:(lia) Cg). change (2 ^ 1) with 2. rewrite (andb_comm (Z.odd (iF t1 / 2))).
        rewrite <- T1. rewrite <- (Jacobi.jac_recip (iG t1) (iF t1)) by assumption.
        destruct (Z.odd jb1), (sym (iG t1) (iF t1)), (sym (iF t1) (iG t1)); reflexivity.
      + unfold pinv. cbn [iF iG]. repeat split; try assumption. now rewrite Z.gcd_comm.
    - apply Z.ltb_ge in Hb. exists s1, t1, jb1. split; [reflexivity|].
      split; [repeat split; assumption || apply Wf || apply Wg|]. split; [repeat split; assumption|]. split; [exact T1|]. split; [lia|exact P1]. }
  destruct Sw as (s2 & t2 & jb2 & Esw & R2 & V2 & T2 & C2 & P2). cbv zeta in Esw. rewrite Esw. clear Esw R1 V1 T1 C1 P1 Oi.
  destruct R2 as (E1 & Wf & Wg & Cf & Cg & Eu & Ev & Eq & Er). destruct V2 as (L1 & L2 & B1 & B2).
  assert (P2' := P2). destruct P2' as (O2 & PF & PG & Hgcd).
  destruct (choose_w30_ok s2 i' ltac:(lia) ltac:(lia) Wf Wg) as (w & mb & -> & M1 & M2 & M3 & Hw & M6 & Dw).
  { rewrite (cong_odd (i' + 2) _ _ ltac:(lia) Cf). exact O2. }
  rewrite Z.add_0_r in B2.
  assert (DG : (2 ^ mb | iG t2 + w * iF t2)).
  { apply cong_0. apply (cong_trans _ _ (vg s2 + w * vf s2)); [|now apply cong_0].
    apply (cong_le _ (i' + 2)); [lia|]. apply cong_sym. apply cong_add; [assumption|]. apply cong_mul; [apply cong_refl|assumption]. }
  set (t3 := mkiv (ic t2) (iF t2) (iG t2 + w * iF t2) (iU t2) (iV t2) (iQ t2 + iU t2 * w) (iR t2 + iV t2 * w)).
  set (P := 2 ^ (30 - i')) in *.
  apply (IH i' mb _ t3); try assumption; try lia.
  - replace (mb =? 0) with false by (symmetry; apply Z.eqb_neq; lia). lia.
  - unfold t3. cbn [ic]. lia.
  - unfold pinv, t3. cbn [iF iG]. repeat split; try assumption; [nia|]. rewrite Z.gcd_comm, Z.gcd_add_mult_diag_r, Z.gcd_comm. exact Hgcd.
  - unfold vreps32, t3. cbn [veta vf vg vu vv vq vr ic iF iG iU iV iQ iR]. rewrite Eu, Ev, Eq, Er, !w32_fma.
    repeat split; try assumption; try apply w32_word; try apply Wf.
    eapply cong_trans; [apply cong_w32'; lia|]. apply cong_add; [assumption|].
    eapply cong_trans; [apply cong_w32'; lia|]. rewrite Z.mul_comm. apply cong_mul; [apply cong_refl|assumption].
  - assert (PP : 0 <= P) by (apply Z.pow_nonneg; lia).
    unfold vlin, t3. cbn [iU iV iQ iR iF iG]. rewrite Z.pow_add_r by lia. fold P. repeat split; try assumption.
    + transitivity (iQ t2 * F0 + iR t2 * G0 + w * (iU t2 * F0 + iV t2 * G0)); [ring|]. rewrite L1, L2. ring.
    + eapply Z.le_trans.
      { apply Z.add_le_mono; (eapply Z.le_trans; [apply Z.abs_triangle|rewrite Z.abs_mul; apply Z.le_refl]). }
      rewrite (Z.abs_eq w) by lia.
      replace (Z.abs (iQ t2) + Z.abs (iU t2) * w + (Z.abs (iR t2) + Z.abs (iV t2) * w)) with
        (Z.abs (iQ t2) + Z.abs (iR t2) + (Z.abs (iU t2) + Z.abs (iV t2)) * w) by ring.
      apply Z.le_trans with (P + P * w); [apply Z.add_le_mono; [assumption|apply Z.mul_le_mono_nonneg_r; lia]|].
      replace (P + P * w) with (P * (w + 1)) by ring. apply Z.mul_le_mono_nonneg_l; lia.
  - rewrite <- T2. unfold t3. cbn [iF iG]. f_equal. now apply Jacobi.jac_add_mul.
Qed.

Theorem posdivsteps_ok30 eta F0 G0 f0 g0 K jb : Z.odd F0 = true -> 0 < F0 -> 0 < G0 -> Z.gcd G0 F0 = 1 ->
  0 <= K <= 2 ^ 19 -> - K <= eta <= K -> word32 f0 -> word32 g0 -> cong 32 f0 F0 -> cong 32 g0 G0 ->
  exists F G eta' t jb', posdivsteps_30_var eta f0 g0 jb = Some (eta', t, jb') /\ mat_ok30 t F0 G0 F G /\
  Z.odd F = true /\ 0 < F /\ 0 < G /\ Z.gcd G F = 1 /\ - (K + 30) <= eta' <= K + 30 /\
  xorb (Z.odd jb') (sym G F) = xorb (Z.odd jb) (sym G0 F0).
Proof.
  intros Of PF PG Hg HK He Wf Wg Cf Cg.
  destruct (pos_loop_ok30 F0 G0 (K + 30) (xorb (Z.odd jb) (sym G0 F0)) ltac:(lia) 32 30 0 (mkvv eta f0 g0 1 0 0 1) (mkiv eta F0 G0 1 0 0 1) jb)
    as (s' & t' & jb' & E & (R1 & _ & _ & _ & _ & R2 & R3 & R4 & R5) & (L1 & L2 & L3 & L4) & (P1 & P2 & P3 & P4) & C & T).
  - lia.
  - lia.
  - apply Z.divide_1_l.
  - cbn. lia.
  - cbn [ic]. lia.
  - unfold pinv. cbn [iF iG]. auto.
  - unfold vreps32. cbn [veta vf vg vu vv vq vr ic iF iG iU iV iQ iR]. repeat split; try assumption; try apply Wf; apply Wg.
  - unfold vlin. cbn [iU iV iQ iR iF iG]. change (2 ^ (30 - 30)) with 1. change (2 ^ (30 - 30 + 0)) with 1. repeat split; lia.
  - reflexivity.
  - rewrite Z.add_0_r in L4. cbn [iF iG] in T.
    exists (iF t'), (iG t'), (ic t'), (mkt (iU t') (iV t') (iQ t') (iR t')), jb'.
    unfold posdivsteps_30_var. rewrite E, R1, R2, R3, R4, R5, !to_i32_w32.
    rewrite !to_i32_id by (unfold is_i32; lia). unfold mat_ok30. cbn [tu tv tq tr]. auto 12.
Qed.

Definition limb30 (x : Z) : Prop := 0 <= x < 2 ^ 30.
Definition low_ok30 (f : list Z) (v : Z) : Prop := word32 (low32 f) /\ cong 32 (low32 f) v.

Lemma canon_nonneg30 l : canon30 l -> 0 <= lval30 l < 2 ^ (30 * Z.of_nat (length l)) -> Forall limb30 l.
Proof.
  induction l as [|x r IH]; intros Hc Hv; [constructor|]. destruct r as [|y r].
  - cbn [lval30] in Hv. change (2 ^ (30 * Z.of_nat (length [x]))) with (2 ^ 30) in Hv. constructor; [unfold limb30; lia|constructor].
  - apply canon_cons30 in Hc; [|discriminate]. destruct Hc as [Hx Hc].
    change (lval30 (x :: y :: r)) with (x + 2 ^ 30 * lval30 (y :: r)) in Hv.
    change (length (x :: y :: r)) with (S (length (y :: r))) in Hv. rewrite pow_S30 in Hv.
    constructor; [exact Hx|]. apply IH; [exact Hc|]. set (P := 2 ^ (30 * Z.of_nat (length (y :: r)))) in *. clearbody P. lia.
Qed.
Lemma limbs_bound30 l : Forall limb30 l -> 0 <= lval30 l < 2 ^ (30 * Z.of_nat (length l)).
Proof.
  induction 1 as [|x r Hx _ IH]; [cbn; lia|]. cbn [lval30 length]. rewrite pow_S30. unfold limb30 in Hx.
  set (P := 2 ^ (30 * Z.of_nat (length r))) in *. clearbody P. lia.
Qed.
Lemma limbs_small30 l : Forall limb30 l -> small (2 ^ 30) l.
Proof. intros H. unfold small. eapply Forall_impl; [|exact H]. intros x. unfold limb30. lia. Qed.

Lemma low32_word f : word32 (low32 f).
Proof.
  unfold low32, word32. pose proof (w32_range (lm f 0)). pose proof (w32_range (Z.shiftl (w32 (lm f 1)) 30)).
  split; [apply Z.lor_nonneg; lia|]. destruct (Z.eq_dec (Z.lor (w32 (lm f 0)) (w32 (Z.shiftl (w32 (lm f 1)) 30))) 0) as [->|N]; [lia|].
  assert (0 <= Z.lor (w32 (lm f 0)) (w32 (Z.shiftl (w32 (lm f 1)) 30))) by (apply Z.lor_nonneg; lia).
  apply Z.log2_lt_pow2; [lia|]. rewrite Z.log2_lor by lia. apply Z.max_lub_lt.
  - destruct (Z.eq_dec (w32 (lm f 0)) 0) as [->|]; [reflexivity|]. apply Z.log2_lt_pow2; lia.
  - destruct (Z.eq_dec (w32 (Z.shiftl (w32 (lm f 1)) 30)) 0) as [->|]; [reflexivity|]. apply Z.log2_lt_pow2; lia.
Qed.
Lemma low32_shl a1 : exists q, w32 (Z.shiftl (w32 a1) 30) = 2 ^ 30 * (a1 mod 4) /\ a1 = a1 mod 4 + q * 4.
Proof.
  exists (a1 / 4). rewrite w32_shl_mod by lia. change (2 ^ (32 - 30)) with (2 ^ 2). unfold w32. rewrite (mod_mod_pow a1 32 2) by lia. change (2 ^ 2) with 4. split; [reflexivity|].
  pose proof (Z.div_mod a1 4 ltac:(lia)). lia.
Qed.
Lemma low_cong_raw30 a0 a1 rest : 0 <= a0 < 2 ^ 30 \/ - 2 ^ 30 < a0 < 2 ^ 30 /\ a1 mod 4 = 0 ->
  cong 32 (low32 (a0 :: a1 :: rest)) (lval30 (a0 :: a1 :: rest)).
Proof.
  intros H. unfold low32, lm. cbn [nth]. destruct (low32_shl a1) as (q & E & Eq). rewrite E.
  change (lval30 (a0 :: a1 :: rest)) with (a0 + 2 ^ 30 * (a1 + 2 ^ 30 * lval30 rest)).
  assert (C : cong 32 (a0 + 2 ^ 30 * (a1 mod 4)) (a0 + 2 ^ 30 * (a1 + 2 ^ 30 * lval30 rest))).
  { exists (- (q + 2 ^ 28 * lval30 rest)). rewrite Eq at 2. change (2 ^ 32) with (2 ^ 30 * 4). change (2 ^ 30) with (2 ^ 28 * 4) at 4. ring. }
  pose proof (Z.mod_pos_bound a1 4 ltac:(lia)).
  destruct H as [H|[H Z0]].
  - rewrite w32_id by lia. rewrite lor_mul by lia. exact C.
  - rewrite Z0 in C |- *. rewrite Z.mul_0_r in *. rewrite Z.lor_0_r. rewrite Z.add_0_r in C. eapply cong_trans; [apply cong_w32'; lia|exact C].
Qed.
Lemma low_ok_limbs30 fa k : fa <> [] -> (2 <= length fa + k)%nat -> Forall limb30 fa -> low_ok30 (fa ++ repeat 0 k) (lval30 fa).
Proof.
  intros N L H. split; [apply low32_word|].
  assert (E : lval30 fa = lval30 (fa ++ repeat 0 k)).
  { rewrite lval_app30, (lval_zeros30 (repeat 0 k)); [ring|]. apply Forall_forall. intros x Hx. now apply repeat_spec in Hx. }
  rewrite E. destruct fa as [|a0 fa]; [congruence|]. inversion H as [|? ? H0 _]; subst.
  destruct fa as [|a1 fa].
  - destruct k as [|k]; [cbn in L; lia|]. cbn [app repeat]. apply low_cong_raw30. now left.
  - cbn [app]. apply low_cong_raw30. now left.
Qed.

Lemma f_one_spec30 fa ft : fa <> [] -> f_is_one (length fa) (fa ++ ft) = true -> lval30 fa = 1.
Proof.
  intros N H. unfold f_is_one in H. apply andb_true_iff in H. destruct H as [H1 H2]. apply Z.eqb_eq in H1, H2.
  destruct fa as [|x r]; [congruence|]. unfold lm in H1. cbn [app nth tl length] in H1, H2. rewrite Nat.sub_succ, Nat.sub_0_r in H2.
  rewrite firstn_app_exact in H2 by reflexivity. apply fold_lor_zero in H2. destruct H2 as [_ H2].
  cbn [lval30]. rewrite (lval_zeros30 r H2). lia.
Qed.

Lemma jac_loop30 J : forall rounds len eta fa ga k jb K,
  (1 <= len)%nat -> (2 <= len + k)%nat -> fg_in30 len fa -> fg_in30 len ga -> low_ok30 (fa ++ repeat 0 k) (lval30 fa) -> low_ok30 (ga ++ repeat 0 k) (lval30 ga) ->
  Z.odd (lval30 fa) = true -> 0 < lval30 fa <= 2 ^ (30 * Z.of_nat len) - 1 -> 0 < lval30 ga <= 2 ^ (30 * Z.of_nat len) - 1 -> Z.gcd (lval30 ga) (lval30 fa) = 1 ->
  0 <= K -> K + 30 * Z.of_nat rounds <= 2 ^ 19 -> - K <= eta <= K ->
  xorb (Z.odd jb) (sym (lval30 ga) (lval30 fa)) = J ->
  exists r, jacobi32_loop rounds len eta (fa ++ repeat 0 k) (ga ++ repeat 0 k) jb = Some r /\ (r = 0 \/ r = if J then -1 else 1).
Proof.
  induction rounds as [|rounds IH]; intros len eta fa ga k jb K Hl Hk Hf Hg [Wf Cf] [Wg Cg] Of Bf Bg Hgcd HK0 HK He HJ.
  { exists 0. split; [reflexivity|now left]. }
  cbn [jacobi32_loop].
  destruct (posdivsteps_ok30 eta (lval30 fa) (lval30 ga) _ _ K jb Of (proj1 Bf) (proj1 Bg) Hgcd ltac:(lia) He Wf Wg Cf Cg)
    as (F & G & eta1 & t & jb1 & -> & Hm & OF & PF & PG & Gc & He1 & HJ1).
  assert (HK1 : K + 30 + 30 * Z.of_nat rounds <= 2 ^ 19) by lia.
  rewrite HJ in HJ1. clear HJ HK He Hgcd Of.
  set (B := 2 ^ (30 * Z.of_nat len)) in *.
  destruct (mat_bound30 _ _ _ _ _ (B - 1) ltac:(lia) Hm ltac:(lia) ltac:(lia)) as [BF BG].
  destruct Hm as (E1 & E2 & B1 & B2). destruct Hf as [Lf Sf], Hg as [Lg Sg].
  destruct (fg_row_ok30 len (tu t) (tv t) fa ga F Hl Lf Lg B1 Sf Sg E1 ltac:(fold B; lia)) as (f1 & R1 & L1 & C1 & VF & SF).
  destruct (fg_row_ok30 len (tq t) (tr t) fa ga G Hl Lf Lg B2 Sf Sg E2 ltac:(fold B; lia)) as (g1 & R2 & L2 & C2 & VG & SG).
  unfold update_fg_30_var. rewrite !row_var_app30 by assumption. rewrite R1, R2.
  rewrite !skipn_app_exact by assumption.
  assert (Nf : f1 <> []) by (intros ->; cbn in L1; lia). assert (Ng : g1 <> []) by (intros ->; cbn in L2; lia).
  assert (Qf : Forall limb30 f1) by (apply canon_nonneg30; [exact C1|rewrite L1, VF; fold B; lia]).
  assert (Qg : Forall limb30 g1) by (apply canon_nonneg30; [exact C2|rewrite L2, VG; fold B; lia]).
  assert (NLf := nth_last f1 (repeat 0 k) Nf). rewrite L1 in NLf. assert (NLg := nth_last g1 (repeat 0 k) Ng). rewrite L2 in NLg. rewrite NLf, NLg.
  destruct (f_is_one len (f1 ++ repeat 0 k)) eqn:E.
  { rewrite <- L1 in E. apply f_one_spec30 in E; [|exact Nf]. rewrite E in VF. subst F. rewrite Jacobi.jac_1, xorb_false_r in HJ1.
    exists (1 - 2 * Z.land jb1 1). split; [reflexivity|]. right. rewrite land_1_odd, HJ1. now destruct J. }
  rewrite <- VF in OF, PF, BF, Gc, HJ1. rewrite <- VG in PG, BG, Gc, HJ1.
  match goal with |- context [if ?c =? 0 then _ else _] => destruct (Z.eqb_spec c 0) as [C0|_] end.
  - apply Z.lor_eq_0_iff in C0. destruct C0 as [C0 Cg0]. apply Z.lor_eq_0_iff in C0. destruct C0 as [Cl0 Cf0].
    assert (Hlen : (2 <= len)%nat).
    { rewrite shiftr_div in Cl0 by lia. destruct (Nat.le_gt_cases 2 len) as [?|C]; [assumption|]. exfalso.
      replace len with 1%nat in Cl0 by lia. vm_compute in Cl0. discriminate Cl0. }
    destruct (snoc_zero f1 Nf Cf0) as [fb ->]. destruct (snoc_zero g1 Ng Cg0) as [gb ->]. rewrite !repeat_snoc.
    apply Forall_app in Qf, Qg. destruct Qf as [Qf _], Qg as [Qg _].
    rewrite app_length in L1, L2. cbn [length] in L1, L2.
    assert (Nfb : fb <> []) by (intros ->; cbn in L1; lia). assert (Ngb : gb <> []) by (intros ->; cbn in L2; lia).
    assert (Vf' : lval30 (fb ++ [0]) = lval30 fb) by (rewrite lval_app30; cbn [lval30]; ring).
    assert (Vg' : lval30 (gb ++ [0]) = lval30 gb) by (rewrite lval_app30; cbn [lval30]; ring).
    rewrite Vf' in *. rewrite Vg' in *.
    pose proof (limbs_bound30 fb Qf) as Lbf. pose proof (limbs_bound30 gb Qg) as Lbg.
    replace (length fb) with (len - 1)%nat in Lbf by lia. replace (length gb) with (len - 1)%nat in Lbg by lia.
    apply (IH (len - 1)%nat eta1 fb gb (S k) jb1 (K + 30)); try assumption; try lia.
    + split; [lia|now apply limbs_small30].
    + split; [lia|now apply limbs_small30].
    + apply low_ok_limbs30; [assumption|lia|assumption].
    + apply low_ok_limbs30; [assumption|lia|assumption].
  - apply (IH len eta1 f1 g1 k jb1 (K + 30)); try assumption; try (split; assumption); try (fold B; lia).
    + apply low_ok_limbs30; [assumption|lia|assumption].
    + apply low_ok_limbs30; [assumption|lia|assumption].
Qed.

(** A modulus whose two low limbs the computation can join: the lowest is not negative, or the next
    one is a multiple of four. *)
Definition joinable30 (mi : modinfo30) : Prop := 0 <= lm (modulus30 mi) 0 \/ lm (modulus30 mi) 1 mod 4 = 0.

Theorem jacobi32_ok rounds x mi M : mod_ok30 mi M -> joinable30 mi -> length x = 9%nat -> Forall limb30 x -> 0 < lval30 x < M -> Z.gcd (lval30 x) M = 1 ->
  30 * Z.of_nat rounds <= 2 ^ 18 ->
  exists r, jacobi32_maybe_var rounds x mi = Some r /\ (r = 0 \/ r = if sym (lval30 x) M then -1 else 1).
Proof.
  intros HM HJ Lx Qx Rx Gx Hr. assert (HM' := HM). destruct HM' as (ML & MS & _ & _ & _ & RM & OM).
  destruct (start_fg30 mi M HM) as [Hf Vf]. unfold jacobi32_maybe_var.
  pose proof (jac_loop30 (sym (lval30 x) M) rounds 9 (-1) (modulus30 mi) x 0 0 1) as X. cbn [repeat] in X. rewrite !app_nil_r in X. rewrite Vf in X.
  change (2 ^ (30 * Z.of_nat 9)) with (2 ^ 270) in X.
  apply X; try assumption; try lia; clear X.
  - split; [exact Lx|now apply limbs_small30].
  - split; [apply low32_word|]. rewrite <- Vf. unfold joinable30, lm in HJ.
    destruct (modulus30 mi) as [|m0 [|m1 rest]]; [destruct Hf as [Hf _]; discriminate Hf..|].
    cbn [nth] in HJ.
    assert (m0_b : - 2 ^ 30 < m0 < 2 ^ 30).
    { clear - MS. inversion MS as [|? ? Q _]; subst. lia. }
    apply low_cong_raw30. destruct HJ as [HJ|HJ]; [left; lia|right; split; [exact m0_b|exact HJ]].
  - pose proof (low_ok_limbs30 x 0) as Y. cbn [repeat] in Y. rewrite app_nil_r in Y. apply Y; [intros ->; discriminate Lx|lia|exact Qx].
  - change (Z.odd 0) with false. apply xorb_false_l.
Qed.

Lemma limbs30_forall v l : limbs30 v l -> 0 <= v < 2 ^ 256 -> Forall limb30 l.
Proof.
  intros (L & C & _ & V) R. apply canon_nonneg30; [exact C|]. rewrite L, V. change (30 * Z.of_nat 9) with 270. lia.
Qed.
Lemma joinable_fe30 : joinable30 modinfo30_fe. Proof. right. reflexivity. Qed.
Lemma joinable_scalar30 : joinable30 modinfo30_scalar. Proof. left. discriminate. Qed.
