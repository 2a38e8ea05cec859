(** The variable time division steps of Modinv32Model.v, which take several steps at a time, perform
    exactly 30 of the steps of Safegcd.v.  Same argument as ModinvProof3.v, for 32-bit words and the table
    of inverses modulo 256. *)
Require Import ZArith Lia List Bool Znumtheory Zpow_facts.
From Verif Require Import Word Word32 Int128Model SpecWords Int128Proof ModinvModel JacobiModel Modinv32Model Safegcd ModinvProof ModinvProof2 ModinvProof3 Modinv32Proof Modinv32Proof2.
Import ListNotations.
Local Open Scope Z_scope.

Lemma high_ones32 i : 0 <= i <= 32 -> w32 (Z.shiftl (2 ^ 32 - 1) i) = 2 ^ i * Z.ones (32 - i).
Proof.
  intros Hi. rewrite Z.shiftl_mul_pow2 by lia. rewrite Z.ones_equiv, <- Z.sub_1_r.
  rewrite Z.mul_sub_distr_l, <- Z.pow_add_r by lia. replace (i + (32 - i)) with 32 by lia. rewrite Z.mul_1_r.
  unfold w32. symmetry. apply (Z.mod_unique _ _ (2 ^ i - 1)).
  - left. pose proof (Z.pow_pos_nonneg 2 i). pose proof (Z.pow_le_mono_r 2 i 32). lia.
  - ring.
Qed.

Lemma ctz_turn32 g i : word32 g -> 0 <= i <= 30 ->
  exists z, ctz32 (Z.lor g (w32 (Z.shiftl (2 ^ 32 - 1) i))) = Some z /\ 0 <= z <= i /\ (2 ^ z | g) /\
    (z < i -> Z.odd (g / 2 ^ z) = true).
Proof.
  intros Hg Hi. rewrite high_ones32 by lia. set (X := Z.lor g (2 ^ i * Z.ones (32 - i))).
  assert (Hb : forall j, 0 <= j -> Z.testbit X j = Z.testbit g j || ((i <=? j) && (j <? 32))).
  { intros j Hj. unfold X. rewrite Z.lor_spec, testbit_pow2_mul by lia. f_equal.
    destruct (Z.leb_spec i j); [|reflexivity]. cbn [andb]. rewrite Z.testbit_ones by lia.
    destruct (Z.leb_spec 0 (j - i)), (Z.ltb_spec (j - i) (32 - i)), (Z.ltb_spec j 32); lia. }
  assert (HX : 0 <= X). { unfold X. apply Z.lor_nonneg. split; [apply Hg|]. rewrite Z.ones_equiv. pose proof (Z.pow_pos_nonneg 2 (32 - i)). pose proof (Z.pow_pos_nonneg 2 i). nia. }
  assert (HX0 : X <> 0). { intros E. specialize (Hb i ltac:(lia)). rewrite E, Z.bits_0 in Hb.
    destruct (Z.leb_spec i i), (Z.ltb_spec i 32); lia. }
  destruct X as [|x|x]; [congruence| |lia]. cbn [ctz32 ctz64]. exists (ctz_pos x). split; [reflexivity|].
  destruct (ctz_pos_spec x) as (Hk & y & Oy & Ey). set (k := ctz_pos x) in *. rewrite Ey in Hb.
  assert (Hlow : forall j, 0 <= j < k -> Z.testbit g j || ((i <=? j) && (j <? 32)) = false).
  { intros j Hj. rewrite <- Hb by lia. rewrite testbit_pow2_mul by lia. destruct (Z.leb_spec k j); [lia|reflexivity]. }
  assert (Hki : k <= i).
  { destruct (Z.leb_spec k i) as [?|C]; [assumption|]. specialize (Hlow i ltac:(lia)).
    apply orb_false_iff in Hlow. destruct Hlow as [_ Hlow]. destruct (Z.leb_spec i i), (Z.ltb_spec i 32); try lia. }
  split; [lia|]. split.
  - apply Z.mod_divide; [lia|]. apply Z.bits_inj'. intros j Hj. rewrite Z.bits_0.
    destruct (Z.ltb_spec j k) as [L|L].
    + rewrite Z.mod_pow2_bits_low by lia. specialize (Hlow j ltac:(lia)). now apply orb_false_iff in Hlow.
    + now rewrite Z.mod_pow2_bits_high by lia.
  - intros L. rewrite <- Z.shiftr_div_pow2, odd_testbit, Z.shiftr_spec by lia. rewrite Z.add_0_l.
    specialize (Hb k Hk). rewrite testbit_pow2_mul, Z.leb_refl, Z.sub_diag, <- odd_testbit, Oy in Hb by lia.
    destruct (Z.leb_spec i k); [lia|]. cbn [andb] in Hb. rewrite orb_false_r in Hb. now symmetry.
Qed.

(** ** The multiple of f to add *)
Lemma mask_mod32 x limit b : 0 < limit <= 32 -> 0 <= b <= 30 ->
  Z.land x (Z.land (Z.shiftr (2 ^ 32 - 1) (32 - limit)) (2 ^ b - 1)) = x mod 2 ^ (Z.min limit b).
Proof.
  intros Hl Hb. rewrite shiftr_div by lia.
  replace ((2 ^ 32 - 1) / 2 ^ (32 - limit)) with (Z.ones limit).
  2:{ rewrite Z.ones_equiv, <- Z.sub_1_r. apply (Z.div_unique _ _ _ (2 ^ (32 - limit) - 1)).
      - left. pose proof (Z.pow_pos_nonneg 2 (32 - limit)). lia.
      - replace (2 ^ 32) with (2 ^ (32 - limit) * 2 ^ limit); [ring|]. rewrite <- Z.pow_add_r by lia. f_equal. lia. }
  replace (2 ^ b - 1) with (Z.ones b) by (rewrite Z.ones_equiv; lia).
  rewrite Z.land_assoc, Z.land_ones, Z.land_ones by lia.
  destruct (Z.min_spec limit b) as [[L ->]|[L ->]].
  - apply Z.mod_small. pose proof (Z.mod_pos_bound x (2 ^ limit)). pose proof (Z.pow_lt_mono_r 2 limit b). lia.
  - replace (2 ^ limit) with (2 ^ b * 2 ^ (limit - b)) by (rewrite <- Z.pow_add_r by lia; f_equal; lia).
    rewrite Z.rem_mul_r by (try apply Z.pow_nonzero; try apply Z.pow_pos_nonneg; lia).
    rewrite Z.mul_comm, Z.mod_add by (apply Z.pow_nonzero; lia). apply Z.mod_mod. apply Z.pow_nonzero; lia.
Qed.

(** The table holds the negated inverses of the odd numbers modulo 256. *)
Lemma inv256_check : forallb (fun j => match nth_error inv256 j with
    | Some k => (0 <=? k) && ((1 + (2 * Z.of_nat j + 1) * k) mod 256 =? 0) | None => false end) (seq 0 128) = true.
Proof. vm_cast_no_check (eq_refl true). Qed.
Lemma inv256_ok f : Z.odd f = true -> 0 <= f -> exists k, nth_error inv256 (Z.to_nat (Z.land (Z.shiftr f 1) 127)) = Some k /\ 0 <= k /\ (2 ^ 8 | 1 + f * k).
Proof.
  intros Of Hf. destruct (odd_form f Of) as [h ->].
  assert (E : Z.land (Z.shiftr (2 * h + 1) 1) 127 = h mod 128).
  { change 127 with (Z.ones 7). rewrite Z.land_ones, shiftr_div by lia. change (2 ^ 1) with 2. change (2 ^ 7) with 128. f_equal.
    symmetry. apply (Z.div_unique _ _ _ 1); lia. }
  rewrite E. pose proof (Z.mod_pos_bound h 128 ltac:(lia)) as R.
  pose proof inv256_check as C. rewrite forallb_forall in C. specialize (C (Z.to_nat (h mod 128))).
  specialize (C ltac:(apply in_seq; lia)). rewrite Z2Nat.id in C by lia.
  destruct (nth_error inv256 (Z.to_nat (h mod 128))) as [k|]; [|discriminate C]. exists k. split; [reflexivity|].
  apply andb_true_iff in C. destruct C as [C1 C2]. apply Z.leb_le in C1. apply Z.eqb_eq in C2. split; [exact C1|].
  apply Z.mod_divide in C2; [|lia]. destruct C2 as [q Hq]. pose proof (Z.div_mod h 128 ltac:(lia)) as D.
  exists (q + h / 128 * k). change (2 ^ 8) with 256.
  set (r := h mod 128) in *. set (t := h / 128) in *. clearbody r t. subst h. lia.
Qed.
Lemma choose_w30_ok s i : 0 < i <= 30 -> 0 <= veta s <= 2 ^ 20 -> word32 (vf s) -> word32 (vg s) -> Z.odd (vf s) = true ->
  exists w mb, choose_w30 s i = Some w /\ 1 <= mb /\ mb <= i /\ mb <= veta s + 1 /\ 0 <= w < 2 ^ mb /\ mb <= 8 /\
    (2 ^ mb | vg s + w * vf s).
Proof.
  intros Hi He Wf Wg Of. unfold choose_w30. rewrite i32_id by (unfold is_i32; lia).
  set (limit := if veta s + 1 >? i then i else veta s + 1).
  assert (Hlim : 1 <= limit /\ limit <= i /\ limit <= veta s + 1).
  { unfold limit. rewrite Z.gtb_ltb. destruct (Z.ltb_spec i (veta s + 1)); lia. }
  destruct (Z.ltb_spec 0 limit), (Z.leb_spec limit 32); try lia. cbn [andb].
  set (f := vf s) in *. set (g := vg s) in *. clearbody f g limit.
  destruct (inv256_ok f Of ltac:(apply Wf)) as (k & -> & Hk & Dk).
  change 255 with (2 ^ 8 - 1). rewrite mask_mod32 by lia. set (mb := Z.min limit 8).
  assert (Hmb : 1 <= mb /\ mb <= limit /\ mb <= 8) by (unfold mb; lia).
  set (x := w32 (g * k)).
  assert (Bx : 0 <= x mod 2 ^ mb < 2 ^ mb) by (apply Z.mod_pos_bound, Z.pow_pos_nonneg; lia).
  assert (P : 2 ^ mb <= 2 ^ 8) by (apply Z.pow_le_mono_r; lia).
  exists (x mod 2 ^ mb), mb. rewrite (Z.mod_small (x mod 2 ^ mb)) by lia.
  repeat split; try lia.
  apply cong_0. apply (cong_trans _ _ (g + g * k * f)).
  - apply cong_add; [apply cong_refl|]. apply cong_mul; [|apply cong_refl].
    eapply cong_trans; [apply cong_mod; lia|]. unfold x. apply cong_w32; lia.
  - apply (cong_le mb 8); [lia|]. apply cong_0. replace (g + g * k * f) with (g * (1 + f * k)) by ring. now apply Z.divide_mul_r.
Qed.

(** ** The loop *)
Definition vreps32 (i : Z) (s : vvars) (t : ivars) : Prop :=
  veta s = ic t /\ word32 (vf s) /\ word32 (vg s) /\ cong i (vf s) (iF t) /\ cong i (vg s) (iG t) /\
  vu s = w32 (iU t) /\ vv s = w32 (iV t) /\ vq s = w32 (iQ t) /\ vr s = w32 (iR t).

Lemma word_shr32 x z : word32 x -> 0 <= z -> word32 (Z.shiftr x z).
Proof.
  unfold word32. intros Hx Hz. rewrite shiftr_div by lia. split; [apply Z.div_pos; [lia|apply Z.pow_pos_nonneg; lia]|].
  apply Z.div_lt_upper_bound; [apply Z.pow_pos_nonneg; lia|]. pose proof (Z.pow_pos_nonneg 2 z). nia.
Qed.

Lemma w32_shl_w32 x z : 0 <= z -> w32 (Z.shiftl (w32 x) z) = w32 (x * 2 ^ z).
Proof. intros Hz. rewrite Z.shiftl_mul_pow2 by lia. apply w32_mul_l. Qed.
Lemma w32_fma q u w : w32 (w32 q + w32 (w32 u * w)) = w32 (q + u * w).
Proof. rewrite w32_mul_l. apply w32_add. Qed.
Lemma w32_opp_w32 x : w32 (- w32 x) = w32 (- x).
Proof. unfold w32. rewrite <- !Z.sub_0_l, Zminus_mod_idemp_r. reflexivity. Qed.

Lemma var_loop_ok32 F0 G0 K target : 0 <= K <= 2 ^ 20 -> forall fuel i mb s t,
  0 <= i <= 30 -> 0 <= mb <= i -> (2 ^ mb | iG t) -> (i + (if mb =? 0 then 2 else 1) <= Z.of_nat fuel) ->
  - (K - i) <= ic t <= K - i -> Z.odd (iF t) = true -> vreps32 i s t -> vlin F0 G0 (30 - i) mb t ->
  dsteps 2 (Z.to_nat i) (core t) = target ->
  exists s' t', divsteps30_var_loop fuel i s = Some s' /\ vreps32 0 s' t' /\ vlin F0 G0 30 0 t' /\ core t' = target.
Proof.
  intros HK. induction fuel as [|fuel IH]; intros i mb s t Hi Hmb Dmb Hfuel Hc Of (Eeta & Wf & Wg & Cf & Cg & Eu & Ev & Eq & Er) (L1 & L2 & B1 & B2) Ht.
  { destruct (mb =? 0); lia. }
  cbn [divsteps30_var_loop].
  destruct (ctz_turn32 (vg s) i Wg Hi) as (z & -> & Hz & Dz & Oz).
  assert (Hmz : mb <= z).
  { destruct (Z.leb_spec mb z) as [?|C]; [assumption|]. exfalso. specialize (Oz ltac:(lia)).
    assert (D1 : (2 ^ (z + 1) | vg s)).
    { apply cong_0. apply (cong_trans _ _ (iG t)).
      - apply (cong_le _ i); [lia|exact Cg].
      - apply (cong_le _ mb); [lia|]. now apply cong_0. }
    destruct D1 as [q Hq].
    assert (Hq' : vg s = (q * 2) * 2 ^ z) by (rewrite Hq, Z.pow_add_r, Z.pow_1_r by lia; ring).
    rewrite Hq', Z.div_mul in Oz by (apply Z.pow_nonzero; lia).
    rewrite Z.odd_mul, andb_comm in Oz. discriminate Oz. }
  rewrite i32_id by (unfold is_i32; lia). cbv zeta.
  destruct (cong_shift i z _ _ Hz Cg Dz) as [Cg' DG].
  set (G' := iG t / 2 ^ z) in *. assert (Pz : 0 < 2 ^ z) by (apply Z.pow_pos_nonneg; lia).
  assert (EG : iG t = 2 ^ z * G'). { unfold G'. destruct DG as [q ->]. rewrite Z.div_mul by lia. ring. }
  set (i' := i - z) in *.
  set (t1 := mkiv (ic t - z) (iF t) G' (iU t * 2 ^ z) (iV t * 2 ^ z) (iQ t) (iR t)).
  assert (Pk : 2 ^ (30 - i') = 2 ^ (30 - i) * 2 ^ z) by (rewrite <- Z.pow_add_r by lia; f_equal; unfold i'; lia).
  assert (V1 : vlin F0 G0 (30 - i') 0 t1).
  { unfold vlin, t1. cbn [iU iV iQ iR iF iG]. rewrite Z.add_0_r, Pk. rewrite !Z.abs_mul, (Z.abs_eq (2 ^ z)) by lia.
    repeat split.
    - transitivity ((iU t * F0 + iV t * G0) * 2 ^ z); [ring|]. rewrite L1. ring.
    - rewrite L2, EG. ring.
    - rewrite <- Z.mul_add_distr_r. apply Z.mul_le_mono_nonneg_r; lia.
    - eapply Z.le_trans; [exact B2|]. rewrite Z.pow_add_r by lia. apply Z.mul_le_mono_nonneg_l; [apply Z.pow_nonneg; lia|apply Z.pow_le_mono_r; lia]. }
  assert (T1 : dsteps 2 (Z.to_nat i') (core t1) = target).
  { rewrite <- Ht. replace (Z.to_nat i) with (Z.to_nat z + Z.to_nat i')%nat by (unfold i'; lia). rewrite dsteps_add. f_equal.
    unfold core, t1. cbn [ic iF iG]. rewrite EG. symmetry.
    pose proof (dsteps_halve 2 (Z.to_nat z) (ic t) (iF t) G') as X. rewrite Z2Nat.id in X by lia. exact X. }
  set (s1 := mkvv (veta s - z) (vf s) (Z.shiftr (vg s) z) (w32 (Z.shiftl (vu s) z)) (w32 (Z.shiftl (vv s) z)) (vq s) (vr s)).
  assert (R1 : vreps32 i' s1 t1).
  { unfold vreps32, s1, t1. cbn [veta vf vg vu vv vq vr ic iF iG iU iV iQ iR].
    rewrite Eu, Ev, !w32_shl_w32 by lia. rewrite Eeta, shiftr_div by lia.
    repeat split; try assumption; try apply Wf.
    - rewrite <- shiftr_div by lia. apply word_shr32; [assumption|lia].
    - rewrite <- shiftr_div by lia. apply word_shr32; [assumption|lia].
    - apply (cong_le _ i); [unfold i'; lia|exact Cf]. }
  assert (C1 : - (K - i') <= ic t1 <= K - i') by (unfold t1, i'; cbn [ic]; lia).
  assert (O1 : Z.odd (iF t1) = true) by exact Of.
  assert (Oi : 0 < i' -> Z.odd (iG t1) = true).
  { intros P. rewrite <- (Oz ltac:(unfold i' in P; lia)). symmetry. apply (cong_odd i'); [lia|exact Cg']. }
  assert (Hfuel' : i' + 1 <= Z.of_nat fuel).
  { unfold i'. destruct (Z.eqb_spec mb 0); lia. }
  assert (Hi' : 0 <= i' <= 30) by (unfold i'; lia).
  clearbody s1 t1 i'. clear - HK IH R1 V1 T1 C1 O1 Oi Hfuel' Hi'.
  destruct (Z.eqb_spec i' 0) as [E0|N0].
  { exists s1, t1. subst i'. split; [reflexivity|]. split; [exact R1|]. split; [exact V1|]. exact T1. }
  specialize (Oi ltac:(lia)).
  (* The swap. *)
  set (b := veta s1 <? 0).
  assert (Sw : exists s2 t2, (if b then
        let? ne := i32 (- veta s1) in
        Some (mkvv ne (vg s1) (w32 (- vf s1)) (vq s1) (vr s1) (w32 (- vu s1)) (w32 (- vv s1)))
      else Some s1) = Some s2 /\
    vreps32 i' s2 t2 /\ vlin F0 G0 (30 - i') 0 t2 /\ dsteps 2 (Z.to_nat i') (core t2) = target /\
    0 <= ic t2 <= K - i' /\ Z.odd (iF t2) = true).
  { destruct R1 as (E1 & Wf & Wg & Cf & Cg & Eu & Ev & Eq & Er). destruct V1 as (L1 & L2 & B1 & B2).
    destruct b eqn:Hb; unfold b in Hb.
    - apply Z.ltb_lt in Hb. rewrite i32_id by (unfold is_i32; lia). cbv zeta.
      exists (mkvv (- veta s1) (vg s1) (w32 (- vf s1)) (vq s1) (vr s1) (w32 (- vu s1)) (w32 (- vv s1))),
             (mkiv (- ic t1) (iG t1) (- iF t1) (iQ t1) (iR t1) (- iU t1) (- iV t1)).
      split; [reflexivity|]. split.
      { unfold vreps32. cbn [veta vf vg vu vv vq vr ic iF iG iU iV iQ iR]. rewrite Eu, Ev, !w32_opp_w32.
        repeat split; try assumption; try apply w32_word; try apply Wg; try (f_equal; assumption).
        eapply cong_trans; [apply cong_w32; lia|]. now apply cong_opp. }
      split.
      { unfold vlin in *. cbn [iU iV iQ iR iF iG]. rewrite !Z.abs_opp. rewrite Z.add_0_r in *. repeat split; lia. }
      split; [|split; [cbn [ic]; lia|exact Oi]].
      rewrite <- T1. symmetry. apply dsteps_first; [lia|]. unfold core. cbn [ic iF iG]. apply dstep_swap; [lia|assumption..].
    - apply Z.ltb_ge in Hb. exists s1, t1. split; [reflexivity|].
      split; [repeat split; assumption || apply Wf || apply Wg|]. split; [repeat split; assumption|]. split; [exact T1|]. split; [lia|exact O1]. }
  destruct Sw as (s2 & t2 & Esw & R2 & V2 & T2 & C2 & O2). cbv zeta in Esw. rewrite Esw. clear Esw R1 V1 T1 C1 O1 Oi.
  destruct R2 as (E1 & Wf & Wg & Cf & Cg & Eu & Ev & Eq & Er). destruct V2 as (L1 & L2 & B1 & B2).
  destruct (choose_w30_ok s2 i' ltac:(lia) ltac:(lia) Wf Wg) as (w & mb & -> & M1 & M2 & M3 & Hw & M6 & Dw).
  { rewrite (cong_odd i' _ _ ltac:(lia) Cf). exact O2. }
  rewrite Z.add_0_r in B2.
  assert (DG : (2 ^ mb | iG t2 + w * iF t2)).
  { apply cong_0. apply (cong_trans _ _ (vg s2 + w * vf s2)); [|now apply cong_0].
    apply (cong_le _ i'); [lia|]. apply cong_sym. apply cong_add; [assumption|]. apply cong_mul; [apply cong_refl|assumption]. }
  set (t3 := mkiv (ic t2) (iF t2) (iG t2 + w * iF t2) (iU t2) (iV t2) (iQ t2 + iU t2 * w) (iR t2 + iV t2 * w)).
  set (P := 2 ^ (30 - i')) in *.
  apply (IH i' mb _ t3); try assumption; try lia.
  - replace (mb =? 0) with false by (symmetry; apply Z.eqb_neq; lia). lia.
  - unfold t3. cbn [ic]. lia.
  - unfold vreps32, t3. cbn [veta vf vg vu vv vq vr ic iF iG iU iV iQ iR]. rewrite Eu, Ev, Eq, Er, !w32_fma.
    repeat split; try assumption; try apply w32_word; try apply Wf.
    eapply cong_trans; [apply cong_w32; lia|]. apply cong_add; [assumption|].
    eapply cong_trans; [apply cong_w32; lia|]. rewrite Z.mul_comm. apply cong_mul; [apply cong_refl|assumption].
  - assert (PP : 0 <= P) by (apply Z.pow_nonneg; lia).
    unfold vlin, t3. cbn [iU iV iQ iR iF iG]. rewrite Z.pow_add_r by lia. fold P. repeat split; try assumption.
    + transitivity (iQ t2 * F0 + iR t2 * G0 + w * (iU t2 * F0 + iV t2 * G0)); [ring|]. rewrite L1, L2. ring.
    + eapply Z.le_trans.
      { apply Z.add_le_mono; (eapply Z.le_trans; [apply Z.abs_triangle|rewrite Z.abs_mul; apply Z.le_refl]). }
      rewrite (Z.abs_eq w) by lia.
      replace (Z.abs (iQ t2) + Z.abs (iU t2) * w + (Z.abs (iR t2) + Z.abs (iV t2) * w)) with
        (Z.abs (iQ t2) + Z.abs (iR t2) + (Z.abs (iU t2) + Z.abs (iV t2)) * w) by ring.
      apply Z.le_trans with (P + P * w); [apply Z.add_le_mono; [assumption|apply Z.mul_le_mono_nonneg_r; lia]|].
      replace (P + P * w) with (P * (w + 1)) by ring. apply Z.mul_le_mono_nonneg_l; lia.
  - rewrite <- T2. symmetry. unfold core, t3. cbn [ic iF iG]. apply (dsteps_add_w (Z.to_nat mb)); rewrite ?Z2Nat.id by lia; try assumption; lia.
Qed.

Theorem divsteps_30_var_ok eta F0 G0 f0 g0 : Z.odd F0 = true -> - 2 ^ 19 <= eta <= 2 ^ 19 ->
  word32 f0 -> word32 g0 -> cong 30 f0 F0 -> cong 30 g0 G0 ->
  exists F G eta' t, dsteps 2 30 (eta, F0, G0) = (eta', F, G) /\ divsteps_30_var eta f0 g0 = Some (eta', t) /\
  tu t * F0 + tv t * G0 = 2 ^ 30 * F /\ tq t * F0 + tr t * G0 = 2 ^ 30 * G /\
  Z.abs (tu t) + Z.abs (tv t) <= 2 ^ 30 /\ Z.abs (tq t) + Z.abs (tr t) <= 2 ^ 30.
Proof.
  intros Of He Wf Wg Cf Cg.
  destruct (var_loop_ok32 F0 G0 (2 ^ 20) (dsteps 2 30 (eta, F0, G0)) ltac:(lia) 32 30 0 (mkvv eta f0 g0 1 0 0 1) (mkiv eta F0 G0 1 0 0 1))
    as (s' & t' & E & (R1 & _ & _ & _ & _ & R2 & R3 & R4 & R5) & (L1 & L2 & L3 & L4) & T).
  - lia.
  - lia.
  - apply Z.divide_1_l.
  - cbn. lia.
  - cbn [ic]. lia.
  - exact Of.
  - unfold vreps32. cbn [veta vf vg vu vv vq vr ic iF iG iU iV iQ iR]. repeat split; try assumption; try apply Wf; apply Wg.
  - unfold vlin. cbn [iU iV iQ iR iF iG]. change (2 ^ (30 - 30)) with 1. change (2 ^ (30 - 30 + 0)) with 1. repeat split; lia.
  - reflexivity.
  - rewrite Z.add_0_r in L4. rewrite <- T. unfold core.
    exists (iF t'), (iG t'), (ic t'), (mkt (iU t') (iV t') (iQ t') (iR t')). split; [reflexivity|].
    unfold divsteps_30_var. rewrite E, R1, R2, R3, R4, R5, !to_i32_w32.
    rewrite !to_i32_id by (unfold is_i32; lia). cbn [tu tv tq tr]. auto.
Qed.
