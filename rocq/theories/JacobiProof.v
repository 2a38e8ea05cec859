(** The steps of JacobiModel.v keep track of the Jacobi symbol. *)
Require Import ZArith Lia List Bool Znumtheory Zpow_facts.
From Verif Require Import Word Int128Model SpecWords Int128Proof ScalarProof2 ModinvModel Safegcd ModinvProof ModinvProof2 ModinvProof3 ModinvProof4 JacobiModel.
From Verif Require Jacobi.
Import ListNotations.
Local Open Scope Z_scope.
Notation sym := Jacobi.jac.

Lemma odd_land a b : Z.odd (Z.land a b) = Z.odd a && Z.odd b.
Proof. rewrite <- !Z.bit0_odd. apply Z.land_spec. Qed.
Lemma odd_lxor a b : Z.odd (Z.lxor a b) = xorb (Z.odd a) (Z.odd b).
Proof. rewrite <- !Z.bit0_odd. apply Z.lxor_spec. Qed.
Lemma odd_mod_pow x k : 1 <= k -> Z.odd (x mod 2 ^ k) = Z.odd x.
Proof. intros H. rewrite <- !Z.bit0_odd. apply Z.mod_pow2_bits_low. lia. Qed.
Lemma odd_to_i32 x : Z.odd (to_i32 x) = Z.odd x.
Proof.
  unfold to_i32, w32. cbv zeta. pose proof (odd_mod_pow x 32 ltac:(lia)) as E.
  destruct (x mod 2 ^ 32 <? 2 ^ 31); [exact E|]. rewrite Z.odd_sub, E. change (Z.odd (2 ^ 32)) with false. now destruct (Z.odd x).
Qed.
Lemma odd_w64 x : Z.odd (w64 x) = Z.odd x.
Proof. unfold w64. apply odd_mod_pow. lia. Qed.

Lemma cong_bit k j a b : 0 <= j < k -> cong k a b -> Z.odd (a / 2 ^ j) = Z.odd (b / 2 ^ j).
Proof.
  intros Hj [q E]. rewrite <- !Z.shiftr_div_pow2, <- !Z.bit0_odd, !Z.shiftr_spec by lia. rewrite Z.add_0_l.
  rewrite <- (Z.mod_pow2_bits_low a k j), <- (Z.mod_pow2_bits_low b k j) by lia. f_equal.
  replace a with (b + q * 2 ^ k) by lia. apply Z.mod_add. apply Z.pow_nonzero; lia.
Qed.

(** Dividing by a power of two. *)
Lemma gcd_2_odd F : Z.odd F = true -> Z.gcd 2 F = 1.
Proof.
  intros O. apply Zgcd_1_rel_prime. apply (odd_coprime_pow2 F 1); [exact O|lia].
Qed.
Lemma gcd_pow2_odd F z : Z.odd F = true -> 0 <= z -> Z.gcd (2 ^ z) F = 1.
Proof. intros O Hz. apply Zgcd_1_rel_prime. now apply odd_coprime_pow2. Qed.
Lemma sym_1 F : Z.odd F = true -> 0 < F -> sym 1 F = false.
Proof.
  intros O P. pose proof (Jacobi.jac_mul F O P 1 1 (Z.gcd_1_l _) (Z.gcd_1_l _)) as E. rewrite Z.mul_1_l in E. destruct (sym 1 F); [discriminate E|reflexivity].
Qed.
Lemma sym_pow2 F z : Z.odd F = true -> 0 < F -> 0 <= z -> sym (2 ^ z) F = Z.odd z && sym 2 F.
Proof.
  intros O P Hz. pattern z. apply natlike_ind; [now apply sym_1| |exact Hz].
  intros k Hk IH. rewrite Z.pow_succ_r by lia. rewrite Jacobi.jac_mul, IH; try assumption; [|now apply gcd_2_odd|now apply gcd_pow2_odd].
  unfold Z.succ. rewrite Z.odd_add. now destruct (Z.odd k), (sym 2 F).
Qed.
Lemma sym_halve F G z : Z.odd F = true -> 0 < F -> 0 <= z -> Z.gcd G F = 1 ->
  sym (2 ^ z * G) F = xorb (Z.odd z && xorb (Z.odd (F / 2)) (Z.odd (F / 4))) (sym G F).
Proof. intros O P Hz HG. rewrite Jacobi.jac_mul, sym_pow2, Jacobi.jac_2; try assumption; [reflexivity|now apply gcd_pow2_odd]. Qed.

Definition pinv (t : ivars) : Prop := Z.odd (iF t) = true /\ 0 < iF t /\ 0 < iG t /\ Z.gcd (iG t) (iF t) = 1.

Lemma gcd_halve F G z : Z.odd F = true -> 0 <= z -> Z.gcd (2 ^ z * G) F = 1 -> Z.gcd G F = 1.
Proof. intros _ _ H. rewrite Z.gcd_comm in H. apply Jacobi.gcd_mul_r in H. now rewrite Z.gcd_comm. Qed.

Lemma vreps_le i j s t : 0 <= j <= i -> vreps i s t -> vreps j s t.
Proof.
  intros H (A & B & C & D & E & R). refine (conj A (conj B (conj C (conj _ (conj _ R))))); apply (cong_le _ i); assumption.
Qed.

Lemma pos_loop_ok F0 G0 K J : 0 <= K <= 2 ^ 20 -> forall fuel i mb s t jb,
  0 <= i <= 62 -> 0 <= mb <= i -> (2 ^ mb | iG t) -> (i + (if mb =? 0 then 2 else 1) <= Z.of_nat fuel) ->
  - (K - i) <= ic t <= K - i -> pinv t -> vreps (i + 2) s t -> vlin F0 G0 (62 - i) mb t ->
  xorb (Z.odd jb) (sym (iG t) (iF t)) = J ->
  exists s' t' jb', posdivsteps_loop fuel i s jb = Some (s', jb') /\ vreps 2 s' t' /\ vlin F0 G0 62 0 t' /\ pinv t' /\
    - K <= ic t' <= K /\ xorb (Z.odd jb') (sym (iG t') (iF t')) = J.
Proof.
  intros HK. induction fuel as [|fuel IH]; intros i mb s t jb Hi Hmb Dmb Hfuel Hc (Of & PF & PG & Hgcd) (Eeta & Wf & Wg & Cf & Cg & Eu & Ev & Eq & Er) (L1 & L2 & B1 & B2) Ht.
  { destruct (mb =? 0); lia. }
  cbn [posdivsteps_loop].
  destruct (ctz_turn (vg s) i Wg Hi) as (z & -> & Hz & Dz & Oz).
  assert (Hmz : mb <= z).
  { destruct (Z.leb_spec mb z) as [?|C]; [assumption|]. exfalso. specialize (Oz ltac:(lia)).
    assert (D1 : (2 ^ (z + 1) | vg s)).
    { apply cong_0. apply (cong_trans _ _ (iG t)).
      - apply (cong_le _ (i + 2)); [lia|exact Cg].
      - apply (cong_le _ mb); [lia|]. now apply cong_0. }
    destruct D1 as [q Hq].
    assert (Hq' : vg s = (q * 2) * 2 ^ z) by (rewrite Hq, Z.pow_add_r, Z.pow_1_r by lia; ring).
    rewrite Hq', Z.div_mul in Oz by (apply Z.pow_nonzero; lia).
    rewrite Z.odd_mul, andb_comm in Oz. discriminate Oz. }
  rewrite i64_id by (unfold is_i64; lia). cbv zeta.
  destruct (cong_shift (i + 2) z _ _ ltac:(lia) Cg Dz) as [Cg' DG].
  set (G' := iG t / 2 ^ z) in *. assert (Pz : 0 < 2 ^ z) by (apply Z.pow_pos_nonneg; lia).
  assert (EG : iG t = 2 ^ z * G'). { unfold G'. destruct DG as [q ->]. rewrite Z.div_mul by lia. ring. }
  set (i' := i - z) in *.
  set (t1 := mkiv (ic t - z) (iF t) G' (iU t * 2 ^ z) (iV t * 2 ^ z) (iQ t) (iR t)).
  assert (Pk : 2 ^ (62 - i') = 2 ^ (62 - i) * 2 ^ z) by (rewrite <- Z.pow_add_r by lia; f_equal; unfold i'; lia).
  assert (V1 : vlin F0 G0 (62 - i') 0 t1).
  { unfold vlin, t1. cbn [iU iV iQ iR iF iG]. rewrite Z.add_0_r, Pk. rewrite !Z.abs_mul, (Z.abs_eq (2 ^ z)) by lia.
    repeat split.
    - transitivity ((iU t * F0 + iV t * G0) * 2 ^ z); [ring|]. rewrite L1. ring.
    - rewrite L2, EG. ring.
    - rewrite <- Z.mul_add_distr_r. apply Z.mul_le_mono_nonneg_r; lia.
    - eapply Z.le_trans; [exact B2|]. rewrite Z.pow_add_r by lia. apply Z.mul_le_mono_nonneg_l; [apply Z.pow_nonneg; lia|apply Z.pow_le_mono_r; lia]. }
  set (jb1 := to_i32 _).
  assert (Gc : Z.gcd G' (iF t) = 1) by (apply (gcd_halve _ _ z Of ltac:(lia)); now rewrite <- EG).
  assert (T1 : xorb (Z.odd jb1) (sym (iG t1) (iF t1)) = J).
  { rewrite <- Ht. unfold t1. cbn [iF iG]. rewrite EG, sym_halve by (assumption || lia). rewrite <- xorb_assoc. f_equal.
    unfold jb1. rewrite odd_to_i32, odd_lxor, odd_w64, odd_land, odd_lxor, !shiftr_div by lia. f_equal.
    destruct (Z.eq_dec z 0) as [->|NZ]; [reflexivity|]. f_equal. f_equal.
    - exact (cong_bit (i + 2) 1 _ _ ltac:(lia) Cf).
    - exact (cong_bit (i + 2) 2 _ _ ltac:(lia) Cf). }
  assert (P1 : pinv t1).
  { unfold pinv, t1. cbn [iF iG]. repeat split; try assumption. nia. }
  clearbody jb1.
  set (s1 := mkvv (veta s - z) (vf s) (Z.shiftr (vg s) z) (w64 (Z.shiftl (vu s) z)) (w64 (Z.shiftl (vv s) z)) (vq s) (vr s)).
  assert (R1 : vreps (i' + 2) s1 t1).
  { unfold vreps, s1, t1. cbn [veta vf vg vu vv vq vr ic iF iG iU iV iQ iR].
    rewrite Eu, Ev, !w64_shl_w64 by lia. rewrite Eeta, shiftr_div by lia.
    repeat split; try assumption; try apply Wf.
    - rewrite <- shiftr_div by lia. apply word_shr; [assumption|lia].
    - rewrite <- shiftr_div by lia. apply word_shr; [assumption|lia].
    - apply (cong_le _ (i + 2)); [unfold i'; lia|exact Cf].
    - unfold i'. replace (i - z + 2) with (i + 2 - z) by lia. exact Cg'. }
  assert (C1 : - (K - i') <= ic t1 <= K - i') by (unfold t1, i'; cbn [ic]; lia).
  assert (Oi : 0 < i' -> Z.odd (iG t1) = true).
  { intros P. rewrite <- (Oz ltac:(unfold i' in P; lia)). symmetry. apply (cong_odd (i + 2 - z)); [lia|exact Cg']. }
  assert (Hfuel' : i' + 1 <= Z.of_nat fuel).
  { unfold i'. destruct (Z.eqb_spec mb 0); lia. }
  assert (Hi' : 0 <= i' <= 62) by (unfold i'; lia).
  clearbody s1 t1 i'. clear - HK IH R1 V1 T1 P1 C1 Oi Hfuel' Hi'.
  destruct (Z.eqb_spec i' 0) as [E0|N0].
  { exists s1, t1, jb1. subst i'. split; [reflexivity|]. split; [exact R1|]. split; [exact V1|]. split; [exact P1|]. split; [lia|exact T1]. }
  specialize (Oi ltac:(lia)).
  (* The swap. *)
  set (b := veta s1 <? 0).
  assert (Sw : exists s2 t2 jb2, (if b then
        let? ne := i64 (- veta s1) in
        let s := mkvv ne (vg s1) (vf s1) (vq s1) (vr s1) (vu s1) (vv s1) in
        let jac := to_i32 (Z.lxor (w64 jb1) (Z.shiftr (Z.land (vf s) (vg s)) 1)) in
        let? w := choose_w s i' 63 in Some (s, w, jac)
      else let? w := choose_w s1 i' 15 in Some (s1, w, jb1)) = (let? w := choose_w s2 i' (if b then 63 else 15) in Some (s2, w, jb2)) /\
    vreps (i' + 2) s2 t2 /\ vlin F0 G0 (62 - i') 0 t2 /\ xorb (Z.odd jb2) (sym (iG t2) (iF t2)) = J /\
    0 <= ic t2 <= K - i' /\ pinv t2).
  { destruct R1 as (E1 & Wf & Wg & Cf & Cg & Eu & Ev & Eq & Er). destruct V1 as (L1 & L2 & B1 & B2).
    destruct b eqn:Hb; unfold b in Hb.
    - apply Z.ltb_lt in Hb. rewrite i64_id by (unfold is_i64; lia). cbv zeta. cbn [vf vg].
      exists (mkvv (- veta s1) (vg s1) (vf s1) (vq s1) (vr s1) (vu s1) (vv s1)),
             (mkiv (- ic t1) (iG t1) (iF t1) (iQ t1) (iR t1) (iU t1) (iV t1)),
             (to_i32 (Z.lxor (w64 jb1) (Z.shiftr (Z.land (vg s1) (vf s1)) 1))).
      split; [reflexivity|]. split.
      { unfold vreps. cbn [veta vf vg vu vv vq vr ic iF iG iU iV iQ iR].
        repeat split; try assumption; try apply Wf; try apply Wg. now f_equal. }
      split.
      { unfold vlin in *. cbn [iU iV iQ iR iF iG]. rewrite Z.add_0_r in *. repeat split; lia. }
      destruct P1 as (Of & PF & PG & Hgcd).
      split; [|split; [cbn [ic]; lia|]].
      + cbn [iF iG]. rewrite odd_to_i32, odd_lxor, odd_w64, Z.shiftr_land, odd_land, !shiftr_div by lia.
        rewrite (cong_bit (i' + 2) 1 _ _ ltac:(lia) Cf), (cong_bit (i' + 2) 1 _ _ ltac:(lia) Cg). change (2 ^ 1) with 2.
        rewrite <- T1. rewrite <- (Jacobi.jac_recip (iG t1) (iF t1)) by assumption.
        destruct (Z.odd jb1), (sym (iG t1) (iF t1)), (sym (iF t1) (iG t1)); reflexivity.
      + unfold pinv. cbn [iF iG]. repeat split; try assumption. now rewrite Z.gcd_comm.
    - apply Z.ltb_ge in Hb. exists s1, t1, jb1. split; [reflexivity|].
      split; [repeat split; assumption || apply Wf || apply Wg|]. split; [repeat split; assumption|]. split; [exact T1|]. split; [lia|exact P1]. }
  destruct Sw as (s2 & t2 & jb2 & Esw & R2 & V2 & T2 & C2 & P2). cbv zeta in Esw. rewrite Esw. clear Esw R1 V1 T1 C1 P1 Oi.
  destruct R2 as (E1 & Wf & Wg & Cf & Cg & Eu & Ev & Eq & Er). destruct V2 as (L1 & L2 & B1 & B2).
  assert (P2' := P2). destruct P2' as (O2 & PF & PG & Hgcd).
  destruct (choose_w_ok s2 i' b ltac:(lia) ltac:(lia) Wf Wg) as (w & mb & -> & M1 & M2 & M3 & Hw & M6 & Dw).
  { rewrite (cong_odd (i' + 2) _ _ ltac:(lia) Cf). exact O2. }
  rewrite Z.add_0_r in B2.
  assert (DG : (2 ^ mb | iG t2 + w * iF t2)).
  { apply cong_0. apply (cong_trans _ _ (vg s2 + w * vf s2)); [|now apply cong_0].
    apply (cong_le _ (i' + 2)); [lia|]. apply cong_sym. apply cong_add; [assumption|]. apply cong_mul; [apply cong_refl|assumption]. }
  set (t3 := mkiv (ic t2) (iF t2) (iG t2 + w * iF t2) (iU t2) (iV t2) (iQ t2 + iU t2 * w) (iR t2 + iV t2 * w)).
  set (P := 2 ^ (62 - i')) in *.
  apply (IH i' mb _ t3); try assumption; try lia.
  - replace (mb =? 0) with false by (symmetry; apply Z.eqb_neq; lia). lia.
  - unfold t3. cbn [ic]. lia.
  - unfold pinv, t3. cbn [iF iG]. repeat split; try assumption; [nia|]. rewrite Z.gcd_comm, Z.gcd_add_mult_diag_r, Z.gcd_comm. exact Hgcd.
  - unfold vreps, t3. cbn [veta vf vg vu vv vq vr ic iF iG iU iV iQ iR]. rewrite Eu, Ev, Eq, Er, !w64_fma.
    repeat split; try assumption; try apply w64_word; try apply Wf.
    eapply cong_trans; [apply cong_w64; lia|]. apply cong_add; [assumption|].
    eapply cong_trans; [apply cong_w64; lia|]. rewrite Z.mul_comm. apply cong_mul; [apply cong_refl|assumption].
  - assert (PP : 0 <= P) by (apply Z.pow_nonneg; lia).
    unfold vlin, t3. cbn [iU iV iQ iR iF iG]. rewrite Z.pow_add_r by lia. fold P. repeat split; try assumption.
    + transitivity (iQ t2 * F0 + iR t2 * G0 + w * (iU t2 * F0 + iV t2 * G0)); [ring|]. rewrite L1, L2. ring.
    + eapply Z.le_trans.
      { apply Z.add_le_mono; (eapply Z.le_trans; [apply Z.abs_triangle|rewrite Z.abs_mul; apply Z.le_refl]). }
      rewrite (Z.abs_eq w) by lia.
      replace (Z.abs (iQ t2) + Z.abs (iU t2) * w + (Z.abs (iR t2) + Z.abs (iV t2) * w)) with
        (Z.abs (iQ t2) + Z.abs (iR t2) + (Z.abs (iU t2) + Z.abs (iV t2)) * w) by ring.
      apply Z.le_trans with (P + P * w); [apply Z.add_le_mono; [assumption|apply Z.mul_le_mono_nonneg_r; lia]|].
      replace (P + P * w) with (P * (w + 1)) by ring. apply Z.mul_le_mono_nonneg_l; lia.
  - rewrite <- T2. unfold t3. cbn [iF iG]. f_equal. now apply Jacobi.jac_add_mul.
Qed.

Theorem posdivsteps_ok eta F0 G0 f0 g0 K jb : Z.odd F0 = true -> 0 < F0 -> 0 < G0 -> Z.gcd G0 F0 = 1 ->
  0 <= K <= 2 ^ 19 -> - K <= eta <= K -> word f0 -> word g0 -> cong 64 f0 F0 -> cong 64 g0 G0 ->
  exists F G eta' t jb', posdivsteps_62_var eta f0 g0 jb = Some (eta', t, jb') /\ mat_ok t F0 G0 F G /\
  Z.odd F = true /\ 0 < F /\ 0 < G /\ Z.gcd G F = 1 /\ - (K + 62) <= eta' <= K + 62 /\
  xorb (Z.odd jb') (sym G F) = xorb (Z.odd jb) (sym G0 F0).
Proof.
  intros Of PF PG Hg HK He Wf Wg Cf Cg.
  destruct (pos_loop_ok F0 G0 (K + 62) (xorb (Z.odd jb) (sym G0 F0)) ltac:(lia) 64 62 0 (mkvv eta f0 g0 1 0 0 1) (mkiv eta F0 G0 1 0 0 1) jb)
    as (s' & t' & jb' & E & (R1 & _ & _ & _ & _ & R2 & R3 & R4 & R5) & (L1 & L2 & L3 & L4) & (P1 & P2 & P3 & P4) & C & T).
  - lia.
  - lia.
  - apply Z.divide_1_l.
  - cbn. lia.
  - cbn [ic]. lia.
  - unfold pinv. cbn [iF iG]. auto.
  - unfold vreps. cbn [veta vf vg vu vv vq vr ic iF iG iU iV iQ iR]. repeat split; try assumption; try apply Wf; apply Wg.
  - unfold vlin. cbn [iU iV iQ iR iF iG]. change (2 ^ (62 - 62)) with 1. change (2 ^ (62 - 62 + 0)) with 1. repeat split; lia.
  - reflexivity.
  - rewrite Z.add_0_r in L4. cbn [iF iG] in T.
    exists (iF t'), (iG t'), (ic t'), (mkt (iU t') (iV t') (iQ t') (iR t')), jb'.
    unfold posdivsteps_62_var. rewrite E, R1, R2, R3, R4, R5, !to_i64_w64.
    rewrite !to_i64_id by (unfold is_i64; lia). unfold mat_ok. cbn [tu tv tq tr]. auto 12.
Qed.
