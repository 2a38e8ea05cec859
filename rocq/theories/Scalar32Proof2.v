(** Correctness of the 32-bit scalar model, continued: addition, negation, halving, bits, bytes. *)
Require Import ZArith List Bool Lia Znumtheory.
From Verif Require Import Word Word32 Spec Bytes ZmField Curve FieldModel ScalarModel ScalarProof ScalarProof2 ScalarSplit FieldBytes HashModel Scalar32Model Scalar32Proof.
Import ListNotations.
Local Open Scope Z_scope.

Lemma red_mod v x : 0 <= v < 2 ^ 256 -> x = (v + b2z (n <=? v) * NC) mod 2 ^ 256 -> x = v mod n.
Proof.
  intros H ->. destruct (Z.leb_spec n v) as [C|C]; cbn [b2z].
  - rewrite n_NC in *. rewrite <- (Z.mod_unique (v + 1 * NC) (2 ^ 256) 1 (v - (2 ^ 256 - NC))).
    + apply Z.mod_unique with 1; [left|]; unfold NC in *; lia.
    + left. unfold NC in *. lia.
    + ring.
  - rewrite Z.mul_0_l, Z.add_0_r. rewrite !Z.mod_small by lia. reflexivity.
Qed.
Lemma s8_reduce_final r : s8_lim r -> s8_ok (s8_reduce r (b2z (s8_check_overflow r))) /\
  s8v (s8_reduce r (b2z (s8_check_overflow r))) = s8v r mod n.
Proof.
  intros Hr. pose proof (s8_lim_range r Hr) as R.
  destruct (s8_reduce_val r (b2z (s8_check_overflow r)) Hr (b2z_01 _)) as [L V].
  rewrite s8_check_overflow_spec in * by assumption. remember (s8_reduce r _) as s eqn:E. clear E.
  apply red_mod in V; [|assumption]. split; [|assumption]. split; [assumption|]. rewrite V. apply Z.mod_pos_bound. reflexivity.
Qed.
Lemma s8_reduce_carry r c V : s8_lim r -> 0 <= c -> V = s8v r + c * 2 ^ 256 -> 0 <= V < 2 * n ->
  w32 (w64 (c + b2z (s8_check_overflow r))) = b2z (n <=? V) /\
  s8_ok (s8_reduce r (w32 (w64 (c + b2z (s8_check_overflow r))))) /\
  s8v (s8_reduce r (w32 (w64 (c + b2z (s8_check_overflow r))))) = V mod n.
Proof.
  intros Hr Hc EV HV. pose proof (s8_lim_range r Hr) as R.
  assert (C : c = 0 \/ c = 1).
  { rewrite n_NC in HV. unfold NC in HV. lia. }
  assert (W : w32 (w64 (c + b2z (s8_check_overflow r))) = c + b2z (s8_check_overflow r)).
  { pose proof (b2z_range (s8_check_overflow r)). rewrite w64_id by lia. apply w32_id. lia. }
  rewrite W. clear W.
  destruct C as [-> | ->].
  - rewrite Z.mul_0_l, Z.add_0_r in EV. subst V. rewrite Z.add_0_l.
    split; [now rewrite s8_check_overflow_spec|]. now apply s8_reduce_final.
  - rewrite s8_check_overflow_spec by assumption.
    assert (H1 : n <=? s8v r = false). { apply Z.leb_gt. rewrite n_NC in *. unfold NC in *. lia. }
    assert (H2 : n <=? V = true). { apply Z.leb_le. rewrite n_NC in *. unfold NC in *. lia. }
    rewrite H1, H2. cbn [b2z]. split; [reflexivity|]. rewrite Z.add_0_r.
    destruct (s8_reduce_val r 1 Hr (or_intror eq_refl)) as [L S].
    assert (E : s8v (s8_reduce r 1) = V mod n).
    { rewrite S. rewrite n_NC in *. unfold NC in *. rewrite Z.mod_small by lia.
      apply Z.mod_unique with 1; [left; lia|lia]. }
    split; [|exact E]. split; [exact L|]. rewrite E. apply Z.mod_pos_bound. reflexivity.
Qed.

Lemma s8_add_ov_ok a b : s8_ok a -> s8_ok b ->
  s8_ok (fst (s8_add_ov a b)) /\ s8v (fst (s8_add_ov a b)) = (s8v a + s8v b) mod n /\
  snd (s8_add_ov a b) = b2z (n <=? s8v a + s8v b).
Proof.
  intros Ha Hb. pose proof (s8_ok_range a Ha). pose proof (s8_ok_range b Hb).
  destruct Ha as [(A0 & A1 & A2 & A3 & A4 & A5 & A6 & A7) _]. destruct Hb as [(B0 & B1 & B2 & B3 & B4 & B5 & B6 & B7) _].
  remember (s8_add_ov a b) as res eqn:H1. symmetry in H1. cbv beta delta [s8_add_ov] in H1. letb_steps H1. rland.
  destruct (chain8_add _ _ _ _ _ _ _ _ _ _ _ _ _ _ _ _ _ _ _ _ _ _ _ _ Et0 Et1 Et2 Et3 Et4 Et5 Et6 Et7 A0 B0 A1 B1 A2 B2 A3 B3 A4 B4 A5 B5 A6 B6 A7 B7 r Er) as (L & C & V).
  rewrite shiftr_div in Eoverflow by lia.
  assert (V' : s8v a + s8v b = s8v r + t7 / 2 ^ 32 * 2 ^ 256) by (rewrite V; reflexivity).
  destruct (s8_reduce_carry r _ _ L (proj1 C) V') as (F1 & F2 & F3); [lia|].
  rewrite <- Eoverflow in F1, F2, F3. subst res. cbn [fst snd]. tauto.
Qed.
Lemma s8_add_ok a b : s8_ok a -> s8_ok b -> s8_ok (s8_add a b).
Proof. intros. now apply s8_add_ov_ok. Qed.
Lemma s8_add_sv a b : s8_ok a -> s8_ok b -> s8v (s8_add a b) = (s8v a + s8v b) mod n.
Proof. intros. now apply s8_add_ov_ok. Qed.

(** ** Zero, one, equality, parity *)
Lemma s8_is_zero_spec a : s8_lim a -> s8_is_zero a = (s8v a =? 0).
Proof.
  intros (H0 & H1 & H2 & H3 & H4 & H5 & H6 & H7). unfold s8_is_zero, s8v, hw in *. apply eq_true_iff_eq.
  rewrite !Z.eqb_eq, !Z.lor_eq_0_iff. lia.
Qed.
Lemma s8_is_one_spec a : s8_lim a -> s8_is_one a = (s8v a =? 1).
Proof.
  intros (H0 & H1 & H2 & H3 & H4 & H5 & H6 & H7). unfold s8_is_one, s8v, hw in *. apply eq_true_iff_eq.
  rewrite !Z.eqb_eq, !Z.lor_eq_0_iff, Z.lxor_eq_0_iff. lia.
Qed.
Lemma s8_eq_spec a b : s8_lim a -> s8_lim b -> s8_eq a b = (s8v a =? s8v b).
Proof.
  intros Ha Hb. apply eq_true_iff_eq. unfold s8_eq. rewrite !Z.eqb_eq, !Z.lor_eq_0_iff, !Z.lxor_eq_0_iff.
  split.
  - intros (((((((E0 & E1) & E2) & E3) & E4) & E5) & E6) & E7). unfold s8v. now rewrite E0, E1, E2, E3, E4, E5, E6, E7.
  - intros E. apply s8_lim_inj in E; [|assumption|assumption]. subst. tauto.
Qed.
Lemma s8_is_even_spec a : s8_is_even a = Z.even (s8v a).
Proof.
  unfold s8_is_even. rewrite s8v_horner. unfold horner. rewrite land_1. rewrite Z.even_add, Z.even_mul.
  change (Z.even (2 ^ 32)) with true. cbn [orb]. rewrite Zmod_even. destruct (Z.even (sd0 a)); reflexivity.
Qed.

(** ** Negation *)
Lemma not32_hw x : hw x -> hw (not32 x).
Proof. unfold hw, not32. lia. Qed.
Lemma w64_add_l x y : w64 (w64 x + y) = w64 (x + y).
Proof. apply Zplus_mod_idemp_l. Qed.
Lemma land_all32 x : hw x -> Z.land x (2 ^ 32 - 1) = x.
Proof. intros H. rewrite land_ones_mod by lia. now apply Z.mod_small. Qed.
Lemma lxor_ones32 x : hw x -> Z.lxor x (2 ^ 32 - 1) = not32 x.
Proof.
  intros H. unfold not32. assert (L : Z.ldiff x (2 ^ 32 - 1) = 0).
  { change (2 ^ 32 - 1) with (Z.ones 32). apply Z.ldiff_ones_r_low; [apply H|].
    unfold hw in H. destruct (Z.eq_dec x 0) as [->|]; [reflexivity|]. apply Z.log2_lt_pow2; lia. }
  rewrite (Z.sub_nocarry_ldiff (2 ^ 32 - 1) x) by exact L.
  apply Z.bits_inj'. intros i Hi. rewrite Z.ldiff_spec, Z.lxor_spec.
  apply (f_equal (fun z => Z.testbit z i)) in L. rewrite Z.ldiff_spec, Z.bits_0 in L.
  destruct (Z.testbit x i), (Z.testbit (2 ^ 32 - 1) i); try reflexivity; discriminate.
Qed.
Definition s8_0 : sc8 := mks8 0 0 0 0 0 0 0 0.
Lemma s8_ok_zero : s8_ok s8_0.
Proof. split; [|reflexivity]. unfold s8_lim, s8_0. s8proj. repeat (split; [apply hw_0|]). apply hw_0. Qed.
Lemma s8v_zero : s8v s8_0 = 0. Proof. reflexivity. Qed.
Lemma mask32 (b : bool) : w32 (0xFFFFFFFF * b2z b) = if b then 0xFFFFFFFF else 0.
Proof. destruct b; reflexivity. Qed.

Lemma negate8_core a t0 t1 t2 t3 t4 t5 t6 t7 :
  s8_ok a -> s8v a <> 0 -> t0 = not32 (sd0 a) + (S8_N_0 + 1) ->
  t1 = w64 (Z.shiftr t0 32 + w64 (not32 (sd1 a) + S8_N_1)) -> t2 = w64 (Z.shiftr t1 32 + w64 (not32 (sd2 a) + S8_N_2)) -> t3 = w64 (Z.shiftr t2 32 + w64 (not32 (sd3 a) + S8_N_3)) -> t4 = w64 (Z.shiftr t3 32 + w64 (not32 (sd4 a) + S8_N_4)) -> t5 = w64 (Z.shiftr t4 32 + w64 (not32 (sd5 a) + S8_N_5)) -> t6 = w64 (Z.shiftr t5 32 + w64 (not32 (sd6 a) + S8_N_6)) -> t7 = w64 (Z.shiftr t6 32 + w64 (not32 (sd7 a) + S8_N_7)) ->
  forall r, r = mks8 (t0 mod 2 ^ 32) (t1 mod 2 ^ 32) (t2 mod 2 ^ 32) (t3 mod 2 ^ 32) (t4 mod 2 ^ 32) (t5 mod 2 ^ 32) (t6 mod 2 ^ 32) (t7 mod 2 ^ 32) -> s8_ok r /\ s8v r = (- s8v a) mod n.
Proof.
  intros Ha Hz E0 E1 E2 E3 E4 E5 E6 E7 r Er. pose proof (s8_ok_range a Ha) as R. destruct Ha as [(A0 & A1 & A2 & A3 & A4 & A5 & A6 & A7) _].
  apply not32_hw in A0.
  apply not32_hw in A1.
  apply not32_hw in A2.
  apply not32_hw in A3.
  apply not32_hw in A4.
  apply not32_hw in A5.
  apply not32_hw in A6.
  apply not32_hw in A7.
  assert (K1 : hw S8_N_1) by (apply hw_cst; reflexivity). destruct (add_w _ _ A1 K1) as [Q1 X1]. rewrite Q1 in E1.
  assert (K2 : hw S8_N_2) by (apply hw_cst; reflexivity). destruct (add_w _ _ A2 K2) as [Q2 X2]. rewrite Q2 in E2.
  assert (K3 : hw S8_N_3) by (apply hw_cst; reflexivity). destruct (add_w _ _ A3 K3) as [Q3 X3]. rewrite Q3 in E3.
  assert (K4 : hw S8_N_4) by (apply hw_cst; reflexivity). destruct (add_w _ _ A4 K4) as [Q4 X4]. rewrite Q4 in E4.
  assert (K5 : hw S8_N_5) by (apply hw_cst; reflexivity). destruct (add_w _ _ A5 K5) as [Q5 X5]. rewrite Q5 in E5.
  assert (K6 : hw S8_N_6) by (apply hw_cst; reflexivity). destruct (add_w _ _ A6 K6) as [Q6 X6]. rewrite Q6 in E6.
  assert (K7 : hw S8_N_7) by (apply hw_cst; reflexivity). destruct (add_w _ _ A7 K7) as [Q7 X7]. rewrite Q7 in E7.
  assert (K0 : hw (S8_N_0 + 1)) by (apply hw_cst; reflexivity). destruct (add_w _ _ A0 K0) as [_ X0].
  destruct (chain8 _ _ _ _ _ _ _ _ _ _ _ _ _ _ _ _ E0 E1 E2 E3 E4 E5 E6 E7 X0 X1 X2 X3 X4 X5 X6 X7 r Er) as (L & C & V).
  assert (V' : s8v r + t7 / 2 ^ 32 * 2 ^ 256 = 2 ^ 256 + n - s8v a).
  { rewrite V. unfold not32, s8v. change n with (S8_N_0 + S8_N_1 * 2 ^ 32 + S8_N_2 * 2 ^ 64 + S8_N_3 * 2 ^ 96 + S8_N_4 * 2 ^ 128 + S8_N_5 * 2 ^ 160 + S8_N_6 * 2 ^ 192 + S8_N_7 * 2 ^ 224). ring. }
  clear V. pose proof (s8_lim_range r L) as RR. assert (n < 2 ^ 256) by reflexivity.
  remember (t7 / 2 ^ 32) as c eqn:Ec. clear Ec.
  assert (c = 1). { clear -V' RR R Hz H. remember n as N eqn:E; clear E. remember (s8v r) as vr eqn:E; clear E. remember (s8v a) as va eqn:E; clear E. lia. }
  subst c. assert (E : s8v r = n - s8v a) by lia. rewrite neg_mod by lia. split; [|assumption]. split; [assumption|]. lia.
Qed.

Lemma s8_negate_ok a : s8_ok a -> s8_ok (s8_negate a) /\ s8v (s8_negate a) = (- s8v a) mod n.
Proof.
  intros Ha. destruct (Ha) as [L _]. pose proof L as (A0 & _).
  remember (s8_negate a) as s eqn:H. symmetry in H. cbv beta delta [s8_negate] in H. letb_steps H.
  rewrite mask32, s8_is_zero_spec in Enonzero by assumption.
  destruct (Z.eqb_spec (s8v a) 0) as [Z0|NZ]; cbn [negb] in Enonzero; subst nonzero.
  - rewrite Z.land_0_r in Er0, Er1, Er2, Er3, Er4, Er5, Er6, Er7. subst r0 r1 r2 r3 r4 r5 r6 r7 s.
    rewrite Z0. split; [apply s8_ok_zero|reflexivity].
  - rland. symmetry in H. rewrite w64_add_l in Et0. rewrite w64_id in Et0.
    + rewrite <- Z.add_assoc in Et0. exact (negate8_core a _ _ _ _ _ _ _ _ Ha NZ Et0 Et1 Et2 Et3 Et4 Et5 Et6 Et7 s H).
    + unfold hw, not32 in *. change S8_N_0 with 0xD0364141. lia.
Qed.
Lemma s8_negate_sv a : s8_ok a -> s8v (s8_negate a) = (- s8v a) mod n.
Proof. intros. now apply s8_negate_ok. Qed.

Lemma s8_cond_negate_ok a flag : s8_ok a -> flag = 0 \/ flag = 1 ->
  s8_cond_negate a flag = (if flag =? 0 then a else s8_negate a, if flag =? 0 then 1 else -1).
Proof.
  intros Ha Hf. pose proof (s8_ok_range a Ha) as RA. destruct (Ha) as [L _]. pose proof L as (A0 & A1 & A2 & A3 & A4 & A5 & A6 & A7).
  remember (s8_cond_negate a flag) as s eqn:H. symmetry in H. cbv beta delta [s8_cond_negate] in H. letb_steps H.
  rewrite mask32, s8_is_zero_spec in Enonzero by assumption.
  destruct Hf as [-> | ->].
  - change (w32 (- 0)) with 0 in Emask. subst mask. change (2 * b2z (0 =? 0) - 1) with 1 in H. change (0 =? 0) with true. cbv iota. subst s. f_equal.
    destruct (Z.eqb_spec (s8v a) 0) as [Z0|NZ]; cbn [negb] in Enonzero; subst nonzero.
    + rewrite Z.land_0_r in Er0, Er1, Er2, Er3, Er4, Er5, Er6, Er7. subst r0 r1 r2 r3 r4 r5 r6 r7.
      apply s8_lim_inj; [apply s8_ok_zero|assumption|]. now rewrite Z0.
    + rland. rewrite Z.lxor_0_r, Z.land_0_r in Et0, Et1, Et2, Et3, Et4, Et5, Et6, Et7.
      destruct (chain8_add _ _ _ _ _ _ _ _ _ _ _ _ _ _ _ _ _ _ _ _ _ _ _ _ Et0 Et1 Et2 Et3 Et4 Et5 Et6 Et7 A0 hw_0 A1 hw_0 A2 hw_0 A3 hw_0 A4 hw_0 A5 hw_0 A6 hw_0 A7 hw_0 _ eq_refl) as (LR & C & V).
      remember (mks8 _ _ _ _ _ _ _ _) as r eqn:E; clear E. apply s8_lim_inj; [assumption|assumption|].
      pose proof (s8_lim_range r LR) as RR. assert (NN : n < 2 ^ 256) by reflexivity.
      assert (V' : s8v r + t7 / 2 ^ 32 * 2 ^ 256 = s8v a) by (rewrite V; unfold s8v; ring).
      clear -V' C RR RA NN. lia.
  - change (w32 (- (1))) with (2 ^ 32 - 1) in Emask. subst mask. change (2 * b2z (2 ^ 32 - 1 =? 0) - 1) with (-1) in H. change (1 =? 0) with false. cbv iota. subst s. f_equal.
    destruct (s8_negate_ok a Ha) as [ON VN].
    destruct (Z.eqb_spec (s8v a) 0) as [Z0|NZ]; cbn [negb] in Enonzero; subst nonzero.
    + rewrite Z.land_0_r in Er0, Er1, Er2, Er3, Er4, Er5, Er6, Er7. subst r0 r1 r2 r3 r4 r5 r6 r7.
      apply s8_ok_inj; [apply s8_ok_zero|assumption|]. rewrite VN, Z0. reflexivity.
    + rland. change (w32 (S8_N_0 + 1)) with (S8_N_0 + 1) in Et0.
      rewrite (lxor_ones32 _ A0) in Et0. rewrite (lxor_ones32 _ A1) in Et1. rewrite (lxor_ones32 _ A2) in Et2. rewrite (lxor_ones32 _ A3) in Et3.
      rewrite (lxor_ones32 _ A4) in Et4. rewrite (lxor_ones32 _ A5) in Et5. rewrite (lxor_ones32 _ A6) in Et6. rewrite (lxor_ones32 _ A7) in Et7.
      rewrite (land_all32 (S8_N_0 + 1) (hw_cst (S8_N_0 + 1) eq_refl)) in Et0. rewrite (land_all32 S8_N_1 (hw_cst S8_N_1 eq_refl)) in Et1.
      rewrite (land_all32 S8_N_2 (hw_cst S8_N_2 eq_refl)) in Et2. rewrite (land_all32 S8_N_3 (hw_cst S8_N_3 eq_refl)) in Et3.
      rewrite (land_all32 S8_N_4 (hw_cst S8_N_4 eq_refl)) in Et4. rewrite (land_all32 S8_N_5 (hw_cst S8_N_5 eq_refl)) in Et5.
      rewrite (land_all32 S8_N_6 (hw_cst S8_N_6 eq_refl)) in Et6. rewrite (land_all32 S8_N_7 (hw_cst S8_N_7 eq_refl)) in Et7.
      rewrite w64_id in Et0 by (unfold hw, not32 in *; change S8_N_0 with 0xD0364141; lia).
      destruct (negate8_core a _ _ _ _ _ _ _ _ Ha NZ Et0 Et1 Et2 Et3 Et4 Et5 Et6 Et7 _ eq_refl) as [O1 V1].
      apply s8_ok_inj; [exact O1|exact ON|]. now rewrite V1, VN.
Qed.

(** ** Halving *)
Lemma half_word32 a b : hw a -> hw b -> exists h l, a = 2 * h + l /\ 0 <= l <= 1 /\ 0 <= h < 2 ^ 31 /\
  Z.shiftr a 1 = h /\ Z.land a 1 = l /\ Z.lor (Z.shiftr a 1) (w32 (Z.shiftl b 31)) = h + (b mod 2) * 2 ^ 31.
Proof.
  intros Ha Hb. exists (a / 2), (a mod 2). unfold hw in *.
  pose proof (Z.div_mod a 2 ltac:(discriminate)). pose proof (Z.mod_pos_bound a 2 eq_refl).
  rewrite land_1. rewrite shiftr_div by lia. change (2 ^ 1) with 2.
  assert (0 <= a / 2 < 2 ^ 31) by lia.
  repeat split; try lia.
  rewrite Z.shiftl_mul_pow2 by lia. unfold w32. change (2 ^ 32) with (2 * 2 ^ 31) at 1. rewrite Zmult_mod_distr_r.
  apply lor_disjoint; lia.
Qed.
Lemma s8_half_ok a : s8_ok a -> s8_ok (s8_half a) /\ (2 * s8v (s8_half a)) mod n = s8v a mod n.
Proof.
  intros Ha. pose proof (s8_ok_range a Ha) as R. destruct Ha as [(A0 & A1 & A2 & A3 & A4 & A5 & A6 & A7) _].
  remember (s8_half a) as s eqn:H. symmetry in H. cbv beta delta [s8_half] in H. letb_steps H.
  destruct (half_word32 _ _ A0 A1) as (h0 & l0 & E0 & B0 & C0 & _ & F0 & G0). rewrite G0 in Et0.
  destruct (half_word32 _ _ A1 A2) as (h1 & l1 & E1 & B1 & C1 & _ & F1 & G1). rewrite G1 in Et1.
  destruct (half_word32 _ _ A2 A3) as (h2 & l2 & E2 & B2 & C2 & _ & F2 & G2). rewrite G2 in Et2.
  destruct (half_word32 _ _ A3 A4) as (h3 & l3 & E3 & B3 & C3 & _ & F3 & G3). rewrite G3 in Et3.
  destruct (half_word32 _ _ A4 A5) as (h4 & l4 & E4 & B4 & C4 & _ & F4 & G4). rewrite G4 in Et4.
  destruct (half_word32 _ _ A5 A6) as (h5 & l5 & E5 & B5 & C5 & _ & F5 & G5). rewrite G5 in Et5.
  destruct (half_word32 _ _ A6 A7) as (h6 & l6 & E6 & B6 & C6 & _ & F6 & G6). rewrite G6 in Et6.
  destruct (half_word32 _ _ A7 A7) as (h7 & l7 & E7 & B7 & C7 & G7 & F7 & _). rewrite G7 in Er7.
  rewrite F0 in Emask. rewrite land_1 in F1, F2, F3, F4, F5, F6, F7. rewrite F1 in Et0. rewrite F2 in Et1. rewrite F3 in Et2. rewrite F4 in Et3. rewrite F5 in Et4. rewrite F6 in Et5. rewrite F7 in Et6.
  assert (M : forall k, hw k -> Z.land k mask = l0 * k /\ hw (l0 * k)).
  { intros k Hk. rewrite Emask. assert (l0 = 0 \/ l0 = 1) as [-> | ->] by (clear -B0; lia).
    - change (w32 (- 0)) with 0. rewrite Z.land_0_r. split; [reflexivity|apply hw_0].
    - change (w32 (- (1))) with (2 ^ 32 - 1). rewrite land_all32 by assumption. rewrite Z.mul_1_l. now split. }
  change (w32 (S8_NH_0 + 1)) with (S8_NH_0 + 1) in Et0.
  destruct (M (S8_NH_0 + 1) (hw_cst (S8_NH_0 + 1) eq_refl)) as [M0 W0]. rewrite M0 in Et0.
  destruct (M S8_NH_1 (hw_cst S8_NH_1 eq_refl)) as [M1 W1]. rewrite M1 in Et1.
  destruct (M S8_NH_2 (hw_cst S8_NH_2 eq_refl)) as [M2 W2]. rewrite M2 in Et2.
  destruct (M S8_NH_3 (hw_cst S8_NH_3 eq_refl)) as [M3 W3]. rewrite M3 in Et3.
  destruct (M S8_NH_4 (hw_cst S8_NH_4 eq_refl)) as [M4 W4]. rewrite M4 in Et4.
  destruct (M S8_NH_5 (hw_cst S8_NH_5 eq_refl)) as [M5 W5]. rewrite M5 in Et5.
  destruct (M S8_NH_6 (hw_cst S8_NH_6 eq_refl)) as [M6 W6]. rewrite M6 in Et6.
  destruct (M S8_NH_7 (hw_cst S8_NH_7 eq_refl)) as [M7 W7]. rewrite M7 in Er7. clear M M0 M1 M2 M3 M4 M5 M6 M7 Emask.
  assert (X0 : hw (h0 + l1 * 2 ^ 31)) by (clear -C0 B1; unfold hw; change (2 ^ 32) with (2 * 2 ^ 31); remember (2 ^ 31) as T eqn:ET; lia).
  assert (X1 : hw (h1 + l2 * 2 ^ 31)) by (clear -C1 B2; unfold hw; change (2 ^ 32) with (2 * 2 ^ 31); remember (2 ^ 31) as T eqn:ET; lia).
  assert (X2 : hw (h2 + l3 * 2 ^ 31)) by (clear -C2 B3; unfold hw; change (2 ^ 32) with (2 * 2 ^ 31); remember (2 ^ 31) as T eqn:ET; lia).
  assert (X3 : hw (h3 + l4 * 2 ^ 31)) by (clear -C3 B4; unfold hw; change (2 ^ 32) with (2 * 2 ^ 31); remember (2 ^ 31) as T eqn:ET; lia).
  assert (X4 : hw (h4 + l5 * 2 ^ 31)) by (clear -C4 B5; unfold hw; change (2 ^ 32) with (2 * 2 ^ 31); remember (2 ^ 31) as T eqn:ET; lia).
  assert (X5 : hw (h5 + l6 * 2 ^ 31)) by (clear -C5 B6; unfold hw; change (2 ^ 32) with (2 * 2 ^ 31); remember (2 ^ 31) as T eqn:ET; lia).
  assert (X6 : hw (h6 + l7 * 2 ^ 31)) by (clear -C6 B7; unfold hw; change (2 ^ 32) with (2 * 2 ^ 31); remember (2 ^ 31) as T eqn:ET; lia).
  assert (X7 : hw h7) by (clear -C7; unfold hw; lia).
  rewrite w64_add_l, <- Z.add_assoc in Et1.
  rewrite w64_add_l, <- Z.add_assoc in Et2.
  rewrite w64_add_l, <- Z.add_assoc in Et3.
  rewrite w64_add_l, <- Z.add_assoc in Et4.
  rewrite w64_add_l, <- Z.add_assoc in Et5.
  rewrite w64_add_l, <- Z.add_assoc in Et6.
  rewrite w64_id in Et0 by (clear -X0 W0; unfold hw in *; lia).
  pose proof (proj2 (add_w _ _ X0 W0)) as Y0.
  pose proof (proj2 (add_w _ _ X1 W1)) as Y1.
  pose proof (proj2 (add_w _ _ X2 W2)) as Y2.
  pose proof (proj2 (add_w _ _ X3 W3)) as Y3.
  pose proof (proj2 (add_w _ _ X4 W4)) as Y4.
  pose proof (proj2 (add_w _ _ X5 W5)) as Y5.
  pose proof (proj2 (add_w _ _ X6 W6)) as Y6.
  pose proof (proj2 (add_w _ _ X7 W7)) as Y7.
  remember (w64 (Z.shiftr t6 32 + (h7 + l0 * S8_NH_7))) as t7 eqn:Et7.
  assert (Er7' : r7 = t7 mod 2 ^ 32).
  { rewrite Er7, Et7. unfold w32. rewrite Zplus_mod_idemp_l, <- Z.add_assoc, Zplus_mod_idemp_l.
    unfold w64. change (2 ^ 64) with (2 ^ 32 * 2 ^ 32). rewrite Z.rem_mul_r by lia. rewrite (Z.mul_comm (2 ^ 32)), Z_mod_plus_full, Zmod_mod. reflexivity. }
  unfold w32 in Er0, Er1, Er2, Er3, Er4, Er5, Er6. rewrite Er0, Er1, Er2, Er3, Er4, Er5, Er6, Er7' in H. symmetry in H.
  destruct (chain8 _ _ _ _ _ _ _ _ _ _ _ _ _ _ _ _ Et0 Et1 Et2 Et3 Et4 Et5 Et6 Et7 Y0 Y1 Y2 Y3 Y4 Y5 Y6 Y7 s H) as (L & C & V).
  assert (V2 : 2 * (s8v s + t7 / 2 ^ 32 * 2 ^ 256) = s8v a + l0 * n).
  { rewrite V. unfold s8v. rewrite E0, E1, E2, E3, E4, E5, E6, E7. change n with (2 * (S8_NH_0 + S8_NH_1 * 2 ^ 32 + S8_NH_2 * 2 ^ 64 + S8_NH_3 * 2 ^ 96 + S8_NH_4 * 2 ^ 128 + S8_NH_5 * 2 ^ 160 + S8_NH_6 * 2 ^ 192 + S8_NH_7 * 2 ^ 224) + 1). ring. }
  pose proof (s8_lim_range s L) as RR. assert (NN : n < 2 ^ 256) by reflexivity.
  clear -V2 RR NN C R L B0. remember (t7 / 2 ^ 32) as c eqn:Ec. clear Ec.
  assert (s8v a + l0 * n < 2 * n) by (assert (l0 = 0 \/ l0 = 1) as [-> | ->] by lia; lia).
  assert (c = 0) by lia. subst c.
  split; [split; [exact L|lia]|]. replace (2 * s8v s) with (s8v a + l0 * n) by lia. apply Z_mod_plus_full.
Qed.

(** ** Adding a bit *)
Lemma s8_cadd_bit_ok a bit flag : s8_lim a -> 0 <= bit < 256 -> flag = 0 \/ flag = 1 -> s8v a + flag * 2 ^ bit < 2 ^ 256 ->
  s8_lim (s8_cadd_bit a bit flag) /\ s8v (s8_cadd_bit a bit flag) = s8v a + flag * 2 ^ bit.
Proof.
  intros La Hb Hf Hs. pose proof La as (A0 & A1 & A2 & A3 & A4 & A5 & A6 & A7).
  remember (s8_cadd_bit a bit flag) as s eqn:H. symmetry in H. cbv beta delta [s8_cadd_bit] in H. letb_steps H. rland.
  assert (B : (flag = 0 /\ 256 <= bit1 < 512) \/ (flag = 1 /\ bit1 = bit)).
  { rewrite Ebit1. destruct Hf as [-> | ->]; [left|right]; split; try reflexivity.
    - change (Z.land (w32 (0 - 1)) 256) with 256. rewrite w32_id by lia. lia.
    - change (Z.land (w32 (1 - 1)) 256) with 0. rewrite Z.add_0_r. rewrite w32_id by lia. reflexivity. }
  clear Ebit1.
  assert (X : exists y0 y1 y2 y3 y4 y5 y6 y7, w32 (Z.shiftl (b2z (Z.shiftr bit1 5 =? 0)) (Z.land bit1 31)) = y0 /\ w32 (Z.shiftl (b2z (Z.shiftr bit1 5 =? 1)) (Z.land bit1 31)) = y1 /\ w32 (Z.shiftl (b2z (Z.shiftr bit1 5 =? 2)) (Z.land bit1 31)) = y2 /\ w32 (Z.shiftl (b2z (Z.shiftr bit1 5 =? 3)) (Z.land bit1 31)) = y3 /\ w32 (Z.shiftl (b2z (Z.shiftr bit1 5 =? 4)) (Z.land bit1 31)) = y4 /\ w32 (Z.shiftl (b2z (Z.shiftr bit1 5 =? 5)) (Z.land bit1 31)) = y5 /\ w32 (Z.shiftl (b2z (Z.shiftr bit1 5 =? 6)) (Z.land bit1 31)) = y6 /\ w32 (Z.shiftl (b2z (Z.shiftr bit1 5 =? 7)) (Z.land bit1 31)) = y7 /\ hw y0 /\ hw y1 /\ hw y2 /\ hw y3 /\ hw y4 /\ hw y5 /\ hw y6 /\ hw y7 /\
    y0 + y1 * 2 ^ 32 + y2 * 2 ^ 64 + y3 * 2 ^ 96 + y4 * 2 ^ 128 + y5 * 2 ^ 160 + y6 * 2 ^ 192 + y7 * 2 ^ 224 = flag * 2 ^ bit).
  { do 8 eexists. do 8 (split; [reflexivity|]). do 8 (split; [apply Z.mod_pos_bound; reflexivity|]).
    rewrite shiftr_div by lia. change (2 ^ 5) with 32.
    change 31 with (2 ^ 5 - 1). rewrite land_ones_mod by lia. change (2 ^ 5) with 32.
    destruct B as [[-> B]|[-> ->]].
    - assert (8 <= bit1 / 32) by (apply Z.div_le_lower_bound; lia).
      assert (G : forall k, k < 8 -> (bit1 / 32 =? k) = false) by (intros k Hk; apply Z.eqb_neq; lia).
      rewrite !G by lia. cbn [b2z]. rewrite Z.shiftl_0_l. reflexivity.
    - pose proof (Z.div_mod bit 32 ltac:(discriminate)) as D. pose proof (Z.mod_pos_bound bit 32 eq_refl) as MB.
      remember (bit / 32) as q eqn:Eq. remember (bit mod 32) as m eqn:Em. clear Eq Em. subst bit.
      assert (P : hw (1 * 2 ^ m)).
      { split; [apply Z.mul_nonneg_nonneg; [lia|apply Z.pow_nonneg; lia]|]. rewrite Z.mul_1_l. apply Z.pow_lt_mono_r; lia. }
      assert (q = 0 \/ q = 1 \/ q = 2 \/ q = 3 \/ q = 4 \/ q = 5 \/ q = 6 \/ q = 7) as Q by lia.
      rewrite (Z.pow_add_r 2 (32 * q)) by lia.
      destruct Q as [-> | [-> | [-> | [-> | [-> | [-> | [-> | ->]]]]]]]; cbn [Z.eqb Pos.eqb b2z];
        rewrite Z.shiftl_0_l, Z.shiftl_mul_pow2 by lia; rewrite (w32_id (1 * 2 ^ m)) by exact P; change (w32 0) with 0;
        [change (2 ^ (32 * 0)) with 1|change (2 ^ (32 * 1)) with (2 ^ 32)|change (2 ^ (32 * 2)) with (2 ^ 64)|change (2 ^ (32 * 3)) with (2 ^ 96)
        |change (2 ^ (32 * 4)) with (2 ^ 128)|change (2 ^ (32 * 5)) with (2 ^ 160)|change (2 ^ (32 * 6)) with (2 ^ 192)|change (2 ^ (32 * 7)) with (2 ^ 224)]; ring. }
  destruct X as (y0 & y1 & y2 & y3 & y4 & y5 & y6 & y7 & W0 & W1 & W2 & W3 & W4 & W5 & W6 & W7 & Y0 & Y1 & Y2 & Y3 & Y4 & Y5 & Y6 & Y7 & Y).
  rewrite W0 in Et0.
  rewrite W1 in Et1.
  rewrite W2 in Et2.
  rewrite W3 in Et3.
  rewrite W4 in Et4.
  rewrite W5 in Et5.
  rewrite W6 in Et6.
  rewrite W7 in Et7.
  symmetry in H.
  destruct (chain8_add _ _ _ _ _ _ _ _ _ _ _ _ _ _ _ _ _ _ _ _ _ _ _ _ Et0 Et1 Et2 Et3 Et4 Et5 Et6 Et7 A0 Y0 A1 Y1 A2 Y2 A3 Y3 A4 Y4 A5 Y5 A6 Y6 A7 Y7 s H) as (L & C & V).
  split; [exact L|]. pose proof (s8_lim_range s L) as RR. pose proof (s8_lim_range a La) as RA. rewrite Y in V.
  assert (V2 : s8v s + t7 / 2 ^ 32 * 2 ^ 256 = s8v a + flag * 2 ^ bit) by (rewrite V; reflexivity).
  clear -V2 RR C Hs. lia.
Qed.
