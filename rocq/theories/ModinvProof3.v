(** The variable time division steps of ModinvModel.v, which take several steps at a time, perform
    exactly 62 of the steps of Safegcd.v. *)
Require Import ZArith Lia List Bool Znumtheory Zpow_facts.
From Verif Require Import Word Int128Model SpecWords Int128Proof ScalarProof2 ModinvModel Safegcd ModinvProof ModinvProof2.
Import ListNotations.
Local Open Scope Z_scope.

(** ** Counting trailing zeros *)
Lemma ctz_pos_spec x : 0 <= ctz_pos x /\ exists y, Z.odd y = true /\ Zpos x = 2 ^ ctz_pos x * y.
Proof.
  induction x as [x IH|x IH|]; cbn [ctz_pos].
  - split; [lia|]. exists (Zpos x~1). split; [reflexivity|]. change (2 ^ 0) with 1. lia.
  - destruct IH as (H & y & Oy & E). split; [lia|]. exists y. split; [exact Oy|].
    rewrite Z.pow_add_r by lia. change (2 ^ 1) with 2. rewrite Pos2Z.inj_xO, E. ring.
  - split; [lia|]. exists 1. split; reflexivity.
Qed.

Lemma testbit_pow2_mul k y j : 0 <= k -> 0 <= j -> Z.testbit (2 ^ k * y) j = (k <=? j) && Z.testbit y (j - k).
Proof.
  intros Hk Hj. rewrite Z.mul_comm. destruct (Z.leb_spec k j).
  - now rewrite Z.mul_pow2_bits by lia.
  - now rewrite Z.mul_pow2_bits_low by lia.
Qed.

Lemma high_ones i : 0 <= i <= 64 -> w64 (Z.shiftl (2 ^ 64 - 1) i) = 2 ^ i * Z.ones (64 - i).
Proof.
  intros Hi. rewrite Z.shiftl_mul_pow2 by lia. rewrite Z.ones_equiv, <- Z.sub_1_r.
  rewrite Z.mul_sub_distr_l, <- Z.pow_add_r by lia. replace (i + (64 - i)) with 64 by lia. rewrite Z.mul_1_r.
  unfold w64. symmetry. apply (Z.mod_unique _ _ (2 ^ i - 1)).
  - left. pose proof (Z.pow_pos_nonneg 2 i). pose proof (Z.pow_le_mono_r 2 i 64). lia.
  - ring.
Qed.

Lemma odd_testbit y : Z.odd y = Z.testbit y 0. Proof. symmetry. apply Z.bit0_odd. Qed.

Lemma ctz_turn g i : word g -> 0 <= i <= 62 ->
  exists z, ctz64 (Z.lor g (w64 (Z.shiftl (2 ^ 64 - 1) i))) = Some z /\ 0 <= z <= i /\ (2 ^ z | g) /\
    (z < i -> Z.odd (g / 2 ^ z) = true).
Proof.
  intros Hg Hi. rewrite high_ones by lia. set (X := Z.lor g (2 ^ i * Z.ones (64 - i))).
  assert (Hb : forall j, 0 <= j -> Z.testbit X j = Z.testbit g j || ((i <=? j) && (j <? 64))).
  { intros j Hj. unfold X. rewrite Z.lor_spec, testbit_pow2_mul by lia. f_equal.
    destruct (Z.leb_spec i j); [|reflexivity]. cbn [andb]. rewrite Z.testbit_ones by lia.
    destruct (Z.leb_spec 0 (j - i)), (Z.ltb_spec (j - i) (64 - i)), (Z.ltb_spec j 64); lia. }
  assert (HX : 0 <= X). { unfold X. apply Z.lor_nonneg. split; [apply Hg|]. rewrite Z.ones_equiv. pose proof (Z.pow_pos_nonneg 2 (64 - i)). pose proof (Z.pow_pos_nonneg 2 i). nia. }
  assert (HX0 : X <> 0). { intros E. specialize (Hb i ltac:(lia)). rewrite E, Z.bits_0 in Hb.
    destruct (Z.leb_spec i i), (Z.ltb_spec i 64); lia. }
  destruct X as [|x|x]; [congruence| |lia]. cbn [ctz64]. exists (ctz_pos x). split; [reflexivity|].
  destruct (ctz_pos_spec x) as (Hk & y & Oy & Ey). set (k := ctz_pos x) in *. rewrite Ey in Hb.
  assert (Hlow : forall j, 0 <= j < k -> Z.testbit g j || ((i <=? j) && (j <? 64)) = false).
  { intros j Hj. rewrite <- Hb by lia. rewrite testbit_pow2_mul by lia. destruct (Z.leb_spec k j); [lia|reflexivity]. }
  assert (Hki : k <= i).
  { destruct (Z.leb_spec k i) as [?|C]; [assumption|]. specialize (Hlow i ltac:(lia)).
    apply orb_false_iff in Hlow. destruct Hlow as [_ Hlow]. destruct (Z.leb_spec i i), (Z.ltb_spec i 64); try lia. }
  split; [lia|]. split.
  - apply Z.mod_divide; [lia|]. apply Z.bits_inj'. intros j Hj. rewrite Z.bits_0.
    destruct (Z.ltb_spec j k) as [L|L].
    + rewrite Z.mod_pow2_bits_low by lia. specialize (Hlow j ltac:(lia)). now apply orb_false_iff in Hlow.
    + now rewrite Z.mod_pow2_bits_high by lia.
  - intros L. rewrite <- Z.shiftr_div_pow2, odd_testbit, Z.shiftr_spec by lia. rewrite Z.add_0_l.
    specialize (Hb k Hk). rewrite testbit_pow2_mul, Z.leb_refl, Z.sub_diag, <- odd_testbit, Oy in Hb by lia.
    destruct (Z.leb_spec i k); [lia|]. cbn [andb] in Hb. rewrite orb_false_r in Hb. now symmetry.
Qed.

(** ** The multiple of f to add *)
Lemma mask_mod x limit b : 0 < limit <= 64 -> 0 <= b <= 62 ->
  Z.land x (Z.land (Z.shiftr (2 ^ 64 - 1) (64 - limit)) (2 ^ b - 1)) = x mod 2 ^ (Z.min limit b).
Proof.
  intros Hl Hb. rewrite shiftr_div by lia.
  replace ((2 ^ 64 - 1) / 2 ^ (64 - limit)) with (Z.ones limit).
  2:{ rewrite Z.ones_equiv, <- Z.sub_1_r. apply (Z.div_unique _ _ _ (2 ^ (64 - limit) - 1)).
      - left. pose proof (Z.pow_pos_nonneg 2 (64 - limit)). lia.
      - replace (2 ^ 64) with (2 ^ (64 - limit) * 2 ^ limit); [ring|]. rewrite <- Z.pow_add_r by lia. f_equal. lia. }
  replace (2 ^ b - 1) with (Z.ones b) by (rewrite Z.ones_equiv; lia).
  rewrite Z.land_assoc, Z.land_ones, Z.land_ones by lia.
  destruct (Z.min_spec limit b) as [[L ->]|[L ->]].
  - apply Z.mod_small. pose proof (Z.mod_pos_bound x (2 ^ limit)). pose proof (Z.pow_lt_mono_r 2 limit b). lia.
  - replace (2 ^ limit) with (2 ^ b * 2 ^ (limit - b)) by (rewrite <- Z.pow_add_r by lia; f_equal; lia).
    rewrite Z.rem_mul_r by (try apply Z.pow_nonzero; try apply Z.pow_pos_nonneg; lia).
    rewrite Z.mul_comm, Z.mod_add by (apply Z.pow_nonzero; lia). apply Z.mod_mod. apply Z.pow_nonzero; lia.
Qed.

Lemma cong_mod k a : 0 <= k -> cong k (a mod 2 ^ k) a.
Proof. intros H. exists (- (a / 2 ^ k)). pose proof (Z.div_mod a (2 ^ k)). pose proof (Z.pow_pos_nonneg 2 k). lia. Qed.
Lemma cong_w32 k a : 0 <= k <= 32 -> cong k (w32 a) a.
Proof. intros Hk. apply (cong_le k 32); [lia|]. unfold w32. now apply cong_mod. Qed.
Lemma cong_0 k a : cong k a 0 <-> (2 ^ k | a).
Proof. unfold cong. now rewrite Z.sub_0_r. Qed.

Lemma odd_form f : Z.odd f = true -> exists h, f = 2 * h + 1.
Proof. intros H. apply Z.odd_spec in H. exact H. Qed.

Lemma w63_identity f g : Z.odd f = true -> (64 | g + f * g * (f * f - 2) * f).
Proof.
  intros H. destruct (odd_form f H) as [h ->].
  assert (E : (2 | h * (h + 1))).
  { destruct (Z.Even_or_Odd h) as [[k ->]|[k ->]]; [exists (k * (2 * k + 1)); ring|exists ((2 * k + 1) * (k + 1)); ring]. }
  destruct E as [k Hk]. exists (g * k * k).
  replace (g + (2 * h + 1) * g * ((2 * h + 1) * (2 * h + 1) - 2) * (2 * h + 1)) with (g * (4 * (h * (h + 1))) * (4 * (h * (h + 1)))) by ring.
  rewrite Hk. ring.
Qed.

Lemma w15_identity f : Z.odd f = true -> (16 | 1 - (f + Z.land (f + 1) 4 * 2) * f).
Proof.
  intros H. assert (E : Z.land (f + 1) 4 = Z.land ((f + 1) mod 16) 4).
  { change 16 with (2 ^ 4). rewrite <- Z.land_ones, <- Z.land_assoc by lia. reflexivity. }
  rewrite E. rewrite <- Z.add_mod_idemp_l by lia.
  assert (Hm : Z.odd (f mod 16) = true).
  { rewrite (Z.div_mod f 16) in H by lia. rewrite Z.odd_add, Z.odd_mul in H. change (Z.odd 16) with false in H. cbn [andb xorb] in H. destruct (Z.odd (f mod 16)); [reflexivity|discriminate H]. }
  assert (D := Z.div_mod f 16 ltac:(lia)). set (q := f / 16) in *. clearbody q. clear H E.
  assert (R := Z.mod_pos_bound f 16 ltac:(lia)). set (r := f mod 16) in *. clearbody r. rewrite D. clear D.
  assert (C : r = 1 \/ r = 3 \/ r = 5 \/ r = 7 \/ r = 9 \/ r = 11 \/ r = 13 \/ r = 15).
  { destruct (odd_form r Hm) as [h Hh]. lia. }
  destruct C as [->|[->|[->|[->|[->|[->|[->| ->]]]]]]];
  match goal with |- (16 | 1 - (16 * q + _ + ?x * 2) * _) => let y := eval vm_compute in x in change x with y end;
  match goal with |- (16 | 1 - (16 * q + ?r + ?x * 2) * _) => 
    exists (- (16 * q * q + 2 * r * q + 2 * x * q) - ((r + x * 2) * r - 1) / 16);
    let y := eval vm_compute in (((r + x * 2) * r - 1) / 16) in change (((r + x * 2) * r - 1) / 16) with y; ring end.
Qed.

Lemma choose_w_ok s i (b : bool) : 0 < i <= 62 -> 0 <= veta s <= 2 ^ 20 -> word (vf s) -> word (vg s) -> Z.odd (vf s) = true ->
  exists w mb, choose_w s i (if b then 63 else 15) = Some w /\ 1 <= mb /\ mb <= i /\ mb <= veta s + 1 /\ 0 <= w < 2 ^ mb /\ mb <= 6 /\
    (2 ^ mb | vg s + w * vf s).
Proof.
  intros Hi He Wf Wg Of. unfold choose_w, i32.
  destruct (Z.leb_spec (- 2 ^ 31) (veta s)), (Z.ltb_spec (veta s) (2 ^ 31)); try lia. cbn [andb].
  destruct (Z.leb_spec (- 2 ^ 31) (veta s + 1)), (Z.ltb_spec (veta s + 1) (2 ^ 31)); try lia. cbn [andb].
  set (limit := if veta s + 1 >? i then i else veta s + 1).
  assert (Hlim : 1 <= limit /\ limit <= i /\ limit <= veta s + 1).
  { unfold limit. rewrite Z.gtb_ltb. destruct (Z.ltb_spec i (veta s + 1)); lia. }
  destruct (Z.ltb_spec 0 limit), (Z.leb_spec limit 64); try lia. cbn [andb].
  set (f := vf s) in *. set (g := vg s) in *. clearbody f g limit.
  destruct b; cbn [Z.eqb Pos.eqb].
  - change 63 with (2 ^ 6 - 1) at 1. rewrite mask_mod by lia. set (mb := Z.min limit 6).
    assert (Hmb : 1 <= mb /\ mb <= limit /\ mb <= 6) by (unfold mb; lia).
    set (x := w64 (w64 (f * g) * w64 (w64 (f * f) - 2))).
    assert (Bx : 0 <= x mod 2 ^ mb < 2 ^ mb) by (apply Z.mod_pos_bound, Z.pow_pos_nonneg; lia).
    assert (P : 2 ^ mb <= 2 ^ 6) by (apply Z.pow_le_mono_r; lia).
    exists (x mod 2 ^ mb), mb. unfold w32. rewrite Z.mod_small by lia.
    repeat split; try lia.
    apply cong_0. apply (cong_trans _ _ (g + f * g * (f * f - 2) * f)).
    + apply cong_add; [apply cong_refl|]. apply cong_mul; [|apply cong_refl].
      eapply cong_trans; [apply cong_mod; lia|]. unfold x.
      eapply cong_trans; [apply cong_w64; lia|]. apply cong_mul; [apply cong_w64; lia|].
      eapply cong_trans; [apply cong_w64; lia|]. apply cong_sub; [apply cong_w64; lia|apply cong_refl].
    + apply (cong_le mb 6); [lia|]. apply cong_0. now apply w63_identity.
  - change 15 with (2 ^ 4 - 1) at 1. rewrite mask_mod by lia. set (mb := Z.min limit 4).
    assert (Hmb : 1 <= mb /\ mb <= limit /\ mb <= 4) by (unfold mb; lia).
    set (w1 := w32 (w64 (f + w64 (Z.shiftl (Z.land (w64 (f + 1)) 4) 1)))).
    set (x := w64 (w32 (- w1) * g)).
    assert (Bx : 0 <= x mod 2 ^ mb < 2 ^ mb) by (apply Z.mod_pos_bound, Z.pow_pos_nonneg; lia).
    assert (P : 2 ^ mb <= 2 ^ 4) by (apply Z.pow_le_mono_r; lia).
    exists (x mod 2 ^ mb), mb. unfold w32 at 1. rewrite Z.mod_small by lia.
    repeat split; try lia.
    assert (C1 : cong mb w1 (f + Z.land (f + 1) 4 * 2)).
    { unfold w1. eapply cong_trans; [apply cong_w32; lia|]. eapply cong_trans; [apply cong_w64; lia|].
      apply cong_add; [apply cong_refl|]. eapply cong_trans; [apply cong_w64; lia|].
      rewrite Z.shiftl_mul_pow2 by lia. change (2 ^ 1) with 2.
      replace (Z.land (w64 (f + 1)) 4) with (Z.land (f + 1) 4); [apply cong_refl|].
      unfold w64. rewrite <- Z.land_ones, <- Z.land_assoc by lia. reflexivity. }
    apply cong_0. apply (cong_trans _ _ (g + - (f + Z.land (f + 1) 4 * 2) * g * f)).
    + apply cong_add; [apply cong_refl|]. apply cong_mul; [|apply cong_refl].
      eapply cong_trans; [apply cong_mod; lia|]. unfold x.
      eapply cong_trans; [apply cong_w64; lia|]. apply cong_mul; [|apply cong_refl].
      eapply cong_trans; [apply cong_w32; lia|]. now apply cong_opp.
    + apply (cong_le mb 4); [lia|]. apply cong_0.
      replace (g + - (f + Z.land (f + 1) 4 * 2) * g * f) with (g * (1 - (f + Z.land (f + 1) 4 * 2) * f)) by ring.
      apply Z.divide_mul_r. now apply w15_identity.
Qed.

(** ** Several steps at once *)
Lemma dstep_swap eta f g : eta < 0 -> Z.odd f = true -> Z.odd g = true -> dstep 2 (eta, f, g) = dstep 2 (- eta, g, - f).
Proof.
  intros He Of Og. unfold dstep. rewrite Og, Z.odd_opp, Of.
  destruct (Z.ltb_spec eta 0), (Z.ltb_spec (- eta) 0); try lia.
  replace (- eta - (3 - 2)) with (- eta - 1) by lia. do 2 f_equal. lia.
Qed.

Lemma odd_coprime_pow2 f k : Z.odd f = true -> 0 <= k -> rel_prime (2 ^ k) f.
Proof.
  intros Of Hk. apply rel_prime_sym. apply Zpow_facts.rel_prime_Zpower_r; [exact Hk|]. apply rel_prime_sym.
  apply prime_rel_prime; [exact prime_2|]. intros [q E]. rewrite E, Z.odd_mul, andb_comm in Of. discriminate.
Qed.

Lemma dsteps_add_w k n eta f g w : (k <= n)%nat -> Z.of_nat k <= eta + 1 -> Z.odd f = true -> 0 <= w < 2 ^ Z.of_nat k ->
  (2 ^ Z.of_nat k | g + w * f) -> dsteps 2 n (eta, f, g) = dsteps 2 n (eta, f, g + w * f).
Proof.
  intros Hk He Of Hw [g2 E2]. replace n with (k + (n - k))%nat by lia. rewrite !dsteps_add. f_equal.
  rewrite E2, (Z.mul_comm g2), dsteps_halve.
  destruct (dsteps_add_f 2 k eta f g Of He) as (m & Hm & g1 & -> & E1).
  f_equal. set (P := 2 ^ Z.of_nat k) in *.
  assert (Hc : (P | f * (w - m))). { exists (g2 - g1). lia. }
  apply Gauss in Hc; [|apply odd_coprime_pow2; [exact Of|lia]].
  destruct Hc as [q Hq]. assert (q = 0) by nia. subst q.
  apply (Z.mul_reg_l _ _ P); [lia|]. rewrite E1. lia.
Qed.

(** ** The loop *)
Definition vwords (s : vvars) : Prop := word (vf s) /\ word (vg s).

Definition vreps (i : Z) (s : vvars) (t : ivars) : Prop :=
  veta s = ic t /\ word (vf s) /\ word (vg s) /\ cong i (vf s) (iF t) /\ cong i (vg s) (iG t) /\
  vu s = w64 (iU t) /\ vv s = w64 (iV t) /\ vq s = w64 (iQ t) /\ vr s = w64 (iR t).

Definition vlin (F0 G0 k mb : Z) (t : ivars) : Prop :=
  iU t * F0 + iV t * G0 = 2 ^ k * iF t /\ iQ t * F0 + iR t * G0 = 2 ^ k * iG t /\
  Z.abs (iU t) + Z.abs (iV t) <= 2 ^ k /\ Z.abs (iQ t) + Z.abs (iR t) <= 2 ^ (k + mb).

Lemma cong_shift i z a b : 0 <= z <= i -> cong i a b -> (2 ^ z | a) -> cong (i - z) (a / 2 ^ z) (b / 2 ^ z) /\ (2 ^ z | b).
Proof.
  intros Hz [q Hq] [a' Ea]. assert (Pz : 0 < 2 ^ z) by (apply Z.pow_pos_nonneg; lia).
  assert (Ei : 2 ^ i = 2 ^ (i - z) * 2 ^ z) by (rewrite <- Z.pow_add_r by lia; f_equal; lia).
  assert (Eb : b = (a' - q * 2 ^ (i - z)) * 2 ^ z) by (rewrite Ei in Hq; lia).
  split; [|exists (a' - q * 2 ^ (i - z)); exact Eb].
  rewrite Ea, Eb, !Z.div_mul by lia. exists q. ring.
Qed.

Lemma word_shr x z : word x -> 0 <= z -> word (Z.shiftr x z).
Proof.
  unfold word. intros Hx Hz. rewrite shiftr_div by lia. split; [apply Z.div_pos; [lia|apply Z.pow_pos_nonneg; lia]|].
  apply Z.div_lt_upper_bound; [apply Z.pow_pos_nonneg; lia|]. pose proof (Z.pow_pos_nonneg 2 z). nia.
Qed.

Lemma w64_shl_w64 x z : 0 <= z -> w64 (Z.shiftl (w64 x) z) = w64 (x * 2 ^ z).
Proof. intros Hz. rewrite Z.shiftl_mul_pow2 by lia. apply w64_mul_l. Qed.
Lemma w64_fma q u w : w64 (w64 q + w64 (w64 u * w)) = w64 (q + u * w).
Proof. rewrite w64_mul_l. apply w64_add. Qed.
Lemma w64_opp_w64 x : w64 (- w64 x) = w64 (- x).
Proof. unfold w64. rewrite <- !Z.sub_0_l, Zminus_mod_idemp_r. reflexivity. Qed.

Lemma dsteps_first n st st' : (1 <= n)%nat -> dstep 2 st = dstep 2 st' -> dsteps 2 n st = dsteps 2 n st'.
Proof. intros Hn E. destruct n as [|n]; [lia|]. cbn [dsteps]. now rewrite E. Qed.

Lemma var_loop_ok F0 G0 K target : 0 <= K <= 2 ^ 20 -> forall fuel i mb s t,
  0 <= i <= 62 -> 0 <= mb <= i -> (2 ^ mb | iG t) -> (i + (if mb =? 0 then 2 else 1) <= Z.of_nat fuel) ->
  - (K - i) <= ic t <= K - i -> Z.odd (iF t) = true -> vreps i s t -> vlin F0 G0 (62 - i) mb t ->
  dsteps 2 (Z.to_nat i) (core t) = target ->
  exists s' t', divsteps_var_loop fuel i s = Some s' /\ vreps 0 s' t' /\ vlin F0 G0 62 0 t' /\ core t' = target.
Proof.
  intros HK. induction fuel as [|fuel IH]; intros i mb s t Hi Hmb Dmb Hfuel Hc Of (Eeta & Wf & Wg & Cf & Cg & Eu & Ev & Eq & Er) (L1 & L2 & B1 & B2) Ht.
  { destruct (mb =? 0); lia. }
  cbn [divsteps_var_loop].
  destruct (ctz_turn (vg s) i Wg Hi) as (z & -> & Hz & Dz & Oz).
  assert (Hmz : mb <= z).
  { destruct (Z.leb_spec mb z) as [?|C]; [assumption|]. exfalso. specialize (Oz ltac:(lia)).
    assert (D1 : (2 ^ (z + 1) | vg s)).
    { apply cong_0. apply (cong_trans _ _ (iG t)).
      - apply (cong_le _ i); [lia|exact Cg].
      - apply (cong_le _ mb); [lia|]. now apply cong_0. }
    destruct D1 as [q Hq].
    assert (Hq' : vg s = (q * 2) * 2 ^ z) by (rewrite Hq, Z.pow_add_r, Z.pow_1_r by lia; ring).
    rewrite Hq', Z.div_mul in Oz by (apply Z.pow_nonzero; lia).
    rewrite Z.odd_mul, andb_comm in Oz. discriminate Oz. }
  rewrite i64_id by (unfold is_i64; lia). cbv zeta.
  destruct (cong_shift i z _ _ Hz Cg Dz) as [Cg' DG].
  set (G' := iG t / 2 ^ z) in *. assert (Pz : 0 < 2 ^ z) by (apply Z.pow_pos_nonneg; lia).
  assert (EG : iG t = 2 ^ z * G'). { unfold G'. destruct DG as [q ->]. rewrite Z.div_mul by lia. ring. }
  set (i' := i - z) in *.
  set (t1 := mkiv (ic t - z) (iF t) G' (iU t * 2 ^ z) (iV t * 2 ^ z) (iQ t) (iR t)).
  assert (Pk : 2 ^ (62 - i') = 2 ^ (62 - i) * 2 ^ z) by (rewrite <- Z.pow_add_r by lia; f_equal; unfold i'; lia).
  assert (V1 : vlin F0 G0 (62 - i') 0 t1).
  { unfold vlin, t1. cbn [iU iV iQ iR iF iG]. rewrite Z.add_0_r, Pk. rewrite !Z.abs_mul, (Z.abs_eq (2 ^ z)) by lia.
    repeat split.
    - transitivity ((iU t * F0 + iV t * G0) * 2 ^ z); [ring|]. rewrite L1. ring.
    - rewrite L2, EG. ring.
    - rewrite <- Z.mul_add_distr_r. apply Z.mul_le_mono_nonneg_r; lia.
    - eapply Z.le_trans; [exact B2|]. rewrite Z.pow_add_r by lia. apply Z.mul_le_mono_nonneg_l; [apply Z.pow_nonneg; lia|apply Z.pow_le_mono_r; lia]. }
  assert (T1 : dsteps 2 (Z.to_nat i') (core t1) = target).
  { rewrite <- Ht. replace (Z.to_nat i) with (Z.to_nat z + Z.to_nat i')%nat by (unfold i'; lia). rewrite dsteps_add. f_equal.
    unfold core, t1. cbn [ic iF iG]. rewrite EG. symmetry.
    pose proof (dsteps_halve 2 (Z.to_nat z) (ic t) (iF t) G') as X. rewrite Z2Nat.id in X by lia. exact X. }
  set (s1 := mkvv (veta s - z) (vf s) (Z.shiftr (vg s) z) (w64 (Z.shiftl (vu s) z)) (w64 (Z.shiftl (vv s) z)) (vq s) (vr s)).
  assert (R1 : vreps i' s1 t1).
  { unfold vreps, s1, t1. cbn [veta vf vg vu vv vq vr ic iF iG iU iV iQ iR].
    rewrite Eu, Ev, !w64_shl_w64 by lia. rewrite Eeta, shiftr_div by lia.
    repeat split; try assumption; try apply Wf.
    - rewrite <- shiftr_div by lia. apply word_shr; [assumption|lia].
    - rewrite <- shiftr_div by lia. apply word_shr; [assumption|lia].
    - apply (cong_le _ i); [unfold i'; lia|exact Cf]. }
  assert (C1 : - (K - i') <= ic t1 <= K - i') by (unfold t1, i'; cbn [ic]; lia).
  assert (O1 : Z.odd (iF t1) = true) by exact Of.
  assert (Oi : 0 < i' -> Z.odd (iG t1) = true).
  { intros P. rewrite <- (Oz ltac:(unfold i' in P; lia)). symmetry. apply (cong_odd i'); [lia|exact Cg']. }
  assert (Hfuel' : i' + 1 <= Z.of_nat fuel).
  { unfold i'. destruct (Z.eqb_spec mb 0); lia. }
  assert (Hi' : 0 <= i' <= 62) by (unfold i'; lia).
  clearbody s1 t1 i'. clear - HK IH R1 V1 T1 C1 O1 Oi Hfuel' Hi'.
  destruct (Z.eqb_spec i' 0) as [E0|N0].
  { exists s1, t1. subst i'. split; [reflexivity|]. split; [exact R1|]. split; [exact V1|]. exact T1. }
  specialize (Oi ltac:(lia)).
  (* The swap. *)
  set (b := veta s1 <? 0).
  assert (Sw : exists s2 t2, (if b then
        let? ne := i64 (- veta s1) in
        let s := mkvv ne (vg s1) (w64 (- vf s1)) (vq s1) (vr s1) (w64 (- vu s1)) (w64 (- vv s1)) in
        let? w := choose_w s i' 63 in Some (s, w)
      else let? w := choose_w s1 i' 15 in Some (s1, w)) = (let? w := choose_w s2 i' (if b then 63 else 15) in Some (s2, w)) /\
    vreps i' s2 t2 /\ vlin F0 G0 (62 - i') 0 t2 /\ dsteps 2 (Z.to_nat i') (core t2) = target /\
    0 <= ic t2 <= K - i' /\ Z.odd (iF t2) = true).
  { destruct R1 as (E1 & Wf & Wg & Cf & Cg & Eu & Ev & Eq & Er). destruct V1 as (L1 & L2 & B1 & B2).
    destruct b eqn:Hb; unfold b in Hb.
    - apply Z.ltb_lt in Hb. rewrite i64_id by (unfold is_i64; lia). cbv zeta.
      exists (mkvv (- veta s1) (vg s1) (w64 (- vf s1)) (vq s1) (vr s1) (w64 (- vu s1)) (w64 (- vv s1))),
             (mkiv (- ic t1) (iG t1) (- iF t1) (iQ t1) (iR t1) (- iU t1) (- iV t1)).
      split; [reflexivity|]. split.
      { unfold vreps. cbn [veta vf vg vu vv vq vr ic iF iG iU iV iQ iR]. rewrite Eu, Ev, !w64_opp_w64.
        repeat split; try assumption; try apply w64_word; try apply Wg; try (f_equal; assumption).
        eapply cong_trans; [apply cong_w64; lia|]. now apply cong_opp. }
      split.
      { unfold vlin in *. cbn [iU iV iQ iR iF iG]. rewrite !Z.abs_opp. rewrite Z.add_0_r in *. repeat split; lia. }
      split; [|split; [cbn [ic]; lia|exact Oi]].
      rewrite <- T1. symmetry. apply dsteps_first; [lia|]. unfold core. cbn [ic iF iG]. apply dstep_swap; [lia|assumption..].
    - apply Z.ltb_ge in Hb. exists s1, t1. split; [reflexivity|].
      split; [repeat split; assumption || apply Wf || apply Wg|]. split; [repeat split; assumption|]. split; [exact T1|]. split; [lia|exact O1]. }
  destruct Sw as (s2 & t2 & Esw & R2 & V2 & T2 & C2 & O2). cbv zeta in Esw. rewrite Esw. clear Esw R1 V1 T1 C1 O1 Oi.
  destruct R2 as (E1 & Wf & Wg & Cf & Cg & Eu & Ev & Eq & Er). destruct V2 as (L1 & L2 & B1 & B2).
  destruct (choose_w_ok s2 i' b ltac:(lia) ltac:(lia) Wf Wg) as (w & mb & -> & M1 & M2 & M3 & Hw & M6 & Dw).
  { rewrite (cong_odd i' _ _ ltac:(lia) Cf). exact O2. }
  rewrite Z.add_0_r in B2.
  assert (DG : (2 ^ mb | iG t2 + w * iF t2)).
  { apply cong_0. apply (cong_trans _ _ (vg s2 + w * vf s2)); [|now apply cong_0].
    apply (cong_le _ i'); [lia|]. apply cong_sym. apply cong_add; [assumption|]. apply cong_mul; [apply cong_refl|assumption]. }
  set (t3 := mkiv (ic t2) (iF t2) (iG t2 + w * iF t2) (iU t2) (iV t2) (iQ t2 + iU t2 * w) (iR t2 + iV t2 * w)).
  set (P := 2 ^ (62 - i')) in *.
  apply (IH i' mb _ t3); try assumption; try lia.
  - replace (mb =? 0) with false by (symmetry; apply Z.eqb_neq; lia). lia.
  - unfold t3. cbn [ic]. lia.
  - unfold vreps, t3. cbn [veta vf vg vu vv vq vr ic iF iG iU iV iQ iR]. rewrite Eu, Ev, Eq, Er, !w64_fma.
    repeat split; try assumption; try apply w64_word; try apply Wf.
    eapply cong_trans; [apply cong_w64; lia|]. apply cong_add; [assumption|].
    eapply cong_trans; [apply cong_w64; lia|]. rewrite Z.mul_comm. apply cong_mul; [apply cong_refl|assumption].
  - assert (PP : 0 <= P) by (apply Z.pow_nonneg; lia).
    unfold vlin, t3. cbn [iU iV iQ iR iF iG]. rewrite Z.pow_add_r by lia. fold P. repeat split; try assumption.
    + transitivity (iQ t2 * F0 + iR t2 * G0 + w * (iU t2 * F0 + iV t2 * G0)); [ring|]. rewrite L1, L2. ring.
    + eapply Z.le_trans.
      { apply Z.add_le_mono; (eapply Z.le_trans; [apply Z.abs_triangle|rewrite Z.abs_mul; apply Z.le_refl]). }
      rewrite (Z.abs_eq w) by lia.
      replace (Z.abs (iQ t2) + Z.abs (iU t2) * w + (Z.abs (iR t2) + Z.abs (iV t2) * w)) with
        (Z.abs (iQ t2) + Z.abs (iR t2) + (Z.abs (iU t2) + Z.abs (iV t2)) * w) by ring.
      apply Z.le_trans with (P + P * w); [apply Z.add_le_mono; [assumption|apply Z.mul_le_mono_nonneg_r; lia]|].
      replace (P + P * w) with (P * (w + 1)) by ring. apply Z.mul_le_mono_nonneg_l; lia.
  - rewrite <- T2. symmetry. unfold core, t3. cbn [ic iF iG]. apply (dsteps_add_w (Z.to_nat mb)); rewrite ?Z2Nat.id by lia; try assumption; lia.
Qed.

Theorem divsteps_62_var_ok eta F0 G0 f0 g0 : Z.odd F0 = true -> - 2 ^ 19 <= eta <= 2 ^ 19 ->
  word f0 -> word g0 -> cong 62 f0 F0 -> cong 62 g0 G0 ->
  exists F G eta' t, dsteps 2 62 (eta, F0, G0) = (eta', F, G) /\ divsteps_62_var eta f0 g0 = Some (eta', t) /\
  tu t * F0 + tv t * G0 = 2 ^ 62 * F /\ tq t * F0 + tr t * G0 = 2 ^ 62 * G /\
  Z.abs (tu t) + Z.abs (tv t) <= 2 ^ 62 /\ Z.abs (tq t) + Z.abs (tr t) <= 2 ^ 62.
Proof.
  intros Of He Wf Wg Cf Cg.
  destruct (var_loop_ok F0 G0 (2 ^ 20) (dsteps 2 62 (eta, F0, G0)) ltac:(lia) 64 62 0 (mkvv eta f0 g0 1 0 0 1) (mkiv eta F0 G0 1 0 0 1))
    as (s' & t' & E & (R1 & _ & _ & _ & _ & R2 & R3 & R4 & R5) & (L1 & L2 & L3 & L4) & T).
  - lia.
  - lia.
  - apply Z.divide_1_l.
  - cbn. lia.
  - cbn [ic]. lia.
  - exact Of.
  - unfold vreps. cbn [veta vf vg vu vv vq vr ic iF iG iU iV iQ iR]. repeat split; try assumption; try apply Wf; apply Wg.
  - unfold vlin. cbn [iU iV iQ iR iF iG]. change (2 ^ (62 - 62)) with 1. change (2 ^ (62 - 62 + 0)) with 1. repeat split; lia.
  - reflexivity.
  - rewrite Z.add_0_r in L4. rewrite <- T. unfold core.
    exists (iF t'), (iG t'), (ic t'), (mkt (iU t') (iV t') (iQ t') (iR t')). split; [reflexivity|].
    unfold divsteps_62_var. rewrite E, R1, R2, R3, R4, R5, !to_i64_w64.
    rewrite !to_i64_id by (unfold is_i64; lia). cbn [tu tv tq tr]. auto.
Qed.
