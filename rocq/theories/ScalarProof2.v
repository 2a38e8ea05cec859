(** Correctness of the scalar model, continued. *)
Require Import ZArith List Bool Lia Znumtheory.
From Verif Require Import Word Spec Bytes ZmField Curve FieldModel ScalarModel ScalarProof FieldBytes.
Import ListNotations.
Local Open Scope Z_scope.

Lemma not64_wd x : wd x -> wd (not64 x).
Proof. unfold wd, not64. lia. Qed.
Lemma land_all x : wd x -> Z.land x (2 ^ 64 - 1) = x.
Proof. intros H. rewrite land_ones_mod by lia. now apply Z.mod_small. Qed.
Lemma land_all' x : wd x -> Z.land x 0xFFFFFFFFFFFFFFFF = x.
Proof. exact (land_all x). Qed.
Lemma to64_wd x : wd (u128_to_u64 x).
Proof. apply w64_range. Qed.

Lemma mask_limbs t0 t1 t2 t3 (b : bool) :
  wd t0 -> wd t1 -> wd t2 -> wd t3 ->
  mksc (Z.land t0 (w64 (0xFFFFFFFFFFFFFFFF * b2z b))) (Z.land t1 (w64 (0xFFFFFFFFFFFFFFFF * b2z b)))
    (Z.land t2 (w64 (0xFFFFFFFFFFFFFFFF * b2z b))) (Z.land t3 (w64 (0xFFFFFFFFFFFFFFFF * b2z b))) =
  if b then mksc t0 t1 t2 t3 else mksc 0 0 0 0.
Proof.
  intros. destruct b; cbn [b2z].
  - change (w64 (18446744073709551615 * 1)) with 18446744073709551615. now rewrite !land_all'.
  - change (w64 (18446744073709551615 * 0)) with 0. now rewrite !Z.land_0_r.
Qed.

Lemma sv_zero : sv (mksc 0 0 0 0) = 0. Proof. reflexivity. Qed.
Lemma sc_ok_zero : sc_ok (mksc 0 0 0 0).
Proof. split; [|reflexivity]. repeat split; discriminate. Qed.

Lemma neg_mod x : 0 < x < n -> (- x) mod n = n - x.
Proof. intros H. symmetry. apply Z.mod_unique with (-1); [left; lia|lia]. Qed.

(** The limb computation shared by negate and cond_negate. *)
Lemma negate_carry a : sc_ok a -> sv a <> 0 ->
  let r := fst (carry4 (not64 (d0 a) + (N_0 + 1)) (not64 (d1 a) + N_1) (not64 (d2 a) + N_2) (not64 (d3 a) + N_3)) in
  sc_ok r /\ sv r = (- sv a) mod n.
Proof.
  intros Ha Hz. pose proof (sc_ok_range a Ha) as R. destruct Ha as [(A0 & A1 & A2 & A3) _].
  destruct (carry4 _ _ _ _) as [r c] eqn:E. cbv zeta. cbn [fst].
  pose proof (not64_wd _ A0). pose proof (not64_wd _ A1). pose proof (not64_wd _ A2). pose proof (not64_wd _ A3).
  unfold wd in *. apply carry4_ok in E; try (nconst; lia). destruct E as (L & C & V).
  assert (V' : sv r + c * 2 ^ 256 = 2 ^ 256 + n - sv a).
  { rewrite V. unfold not64, sv. change n with (N_0 + N_1 * 2 ^ 64 + N_2 * 2 ^ 128 + N_3 * 2 ^ 192). ring. }
  pose proof (sc_lim_range r L) as RR. assert (n < 2 ^ 256) by reflexivity.
  assert (c = 1). { clear V. set (N := n) in *. set (vr := sv r) in *. set (va := sv a) in *. clearbody N vr va. lia. }
  subst c. assert (E : sv r = n - sv a) by lia. rewrite neg_mod by lia. split; [|assumption]. split; [assumption|]. lia.
Qed.

Lemma sc_negate_ok a : sc_ok a -> sc_ok (sc_negate a) /\ sv (sc_negate a) = (- sv a) mod n.
Proof.
  intros Ha. destruct (Ha) as [L _]. pose proof L as (A0 & A1 & A2 & A3).
  unfold sc_negate. rewrite sc_is_zero_spec by assumption. cbv zeta.
  change (w64 (N_0 + 1)) with (N_0 + 1).
  assert (W : wd (N_0 + 1) /\ wd N_1 /\ wd N_2 /\ wd N_3) by (repeat split; discriminate). destruct W as (W0 & W1 & W2 & W3).
  pose proof (chain4_eq _ _ _ _ _ _ _ _ (not64_wd _ A0) W0 (not64_wd _ A1) W1 (not64_wd _ A2) W2 (not64_wd _ A3) W3) as E.
  cbv zeta in E. rewrite mask_limbs by apply to64_wd.
  destruct (Z.eqb_spec (sv a) 0) as [Z0|NZ]; cbn [negb].
  - rewrite Z0. split; [apply sc_ok_zero|reflexivity].
  - pose proof (negate_carry a Ha NZ) as K. cbv zeta in K. rewrite <- E in K. exact K.
Qed.
Lemma sc_negate_sv a : sc_ok a -> sv (sc_negate a) = (- sv a) mod n.
Proof. intros. now apply sc_negate_ok. Qed.

Lemma lxor_ones x : wd x -> Z.lxor x (2 ^ 64 - 1) = not64 x.
Proof.
  intros H. unfold not64. assert (L : Z.ldiff x (2 ^ 64 - 1) = 0).
  { change (2 ^ 64 - 1) with (Z.ones 64). apply Z.ldiff_ones_r_low; [apply H|].
    unfold wd in H. destruct (Z.eq_dec x 0) as [->|]; [reflexivity|]. apply Z.log2_lt_pow2; lia. }
  rewrite (Z.sub_nocarry_ldiff (2 ^ 64 - 1) x) by exact L.
  apply Z.bits_inj'. intros i Hi. rewrite Z.ldiff_spec, Z.lxor_spec.
  apply (f_equal (fun z => Z.testbit z i)) in L. rewrite Z.ldiff_spec, Z.bits_0 in L.
  destruct (Z.testbit x i), (Z.testbit (2 ^ 64 - 1) i); try reflexivity; discriminate.
Qed.

Lemma carry_id a : sc_lim a -> carry4 (d0 a + 0) (d1 a + 0) (d2 a + 0) (d3 a + 0) = (a, 0).
Proof.
  intros (A0 & A1 & A2 & A3). unfold carry4, wd in *. rewrite !Z.add_0_r.
  rewrite !(Z.div_small (d0 a)), !Z.add_0_l by assumption. rewrite !(Z.div_small (d1 a)), !Z.add_0_l by assumption.
  rewrite !(Z.div_small (d2 a)), !Z.add_0_l by assumption. rewrite !(Z.div_small (d3 a)) by assumption.
  rewrite !Z.mod_small by assumption. destruct a; reflexivity.
Qed.

Lemma sc_cond_negate_ok a flag : sc_ok a -> flag = 0 \/ flag = 1 ->
  sc_cond_negate a flag = (if flag =? 0 then a else sc_negate a, if flag =? 0 then 1 else -1).
Proof.
  intros Ha Hf. destruct (Ha) as [L _]. pose proof L as (A0 & A1 & A2 & A3).
  assert (M : w64 (b2z (sc_is_zero a) - 1) = w64 (0xFFFFFFFFFFFFFFFF * b2z (negb (sc_is_zero a)))) by (destruct (sc_is_zero a); reflexivity).
  destruct Hf as [-> | ->].
  - unfold sc_cond_negate. cbv zeta. change (w64 (- 0)) with 0. rewrite !Z.land_0_r, !Z.lxor_0_r. rewrite M.
    pose proof (chain4_eq _ _ _ _ _ _ _ _ A0 wd_0 A1 wd_0 A2 wd_0 A3 wd_0) as E. cbv zeta in E. rewrite carry_id in E by assumption.
    rewrite mask_limbs by apply to64_wd. rewrite sc_is_zero_spec by assumption.
    change (2 * b2z (0 =? 0) - 1) with 1. change (0 =? 0) with true. cbn iota.
    destruct (Z.eqb_spec (sv a) 0) as [Z0|NZ]; cbn [negb].
    + f_equal. apply sc_lim_inj; [apply sc_ok_zero|assumption|]. now rewrite Z0.
    + injection E as E _. rewrite E. reflexivity.
  - unfold sc_cond_negate, sc_negate. cbv zeta. change (w64 (- (1))) with (2 ^ 64 - 1).
    rewrite !lxor_ones by assumption.
    assert (W : wd (N_0 + 1) /\ wd N_1 /\ wd N_2 /\ wd N_3) by (repeat split; discriminate). destruct W as (W0 & W1 & W2 & W3).
    change (w64 (N_0 + 1)) with (N_0 + 1). rewrite (land_all (N_0 + 1)), (land_all N_1), (land_all N_2), (land_all N_3) by assumption.
    rewrite M. reflexivity.
Qed.

(** ** Halving *)
Lemma half_word a b : wd a -> wd b -> exists h l, a = 2 * h + l /\ 0 <= l <= 1 /\ 0 <= h < 2 ^ 63 /\
  Z.shiftr a 1 = h /\ Z.land a 1 = l /\ Z.lor (Z.shiftr a 1) (w64 (Z.shiftl b 63)) = h + (b mod 2) * 2 ^ 63.
Proof.
  intros Ha Hb. exists (a / 2), (a mod 2). unfold wd in *.
  pose proof (Z.div_mod a 2 ltac:(discriminate)). pose proof (Z.mod_pos_bound a 2 eq_refl).
  rewrite land_1. rewrite shiftr_div by lia. change (2 ^ 1) with 2.
  assert (0 <= a / 2 < 2 ^ 63) by lia.
  repeat split; try lia.
  rewrite Z.shiftl_mul_pow2 by lia. unfold w64. change (2 ^ 64) with (2 * 2 ^ 63) at 1. rewrite Zmult_mod_distr_r.
  apply lor_disjoint; lia.
Qed.

Lemma mod2_01 x : x mod 2 = 0 \/ x mod 2 = 1.
Proof. pose proof (Z.mod_pos_bound x 2 eq_refl). lia. Qed.

Lemma sc_half_ok a : sc_ok a -> sc_ok (sc_half a) /\ (2 * sv (sc_half a)) mod n = sv a mod n.
Proof.
  intros Ha. pose proof (sc_ok_range a Ha) as R. destruct Ha as [(A0 & A1 & A2 & A3) _].
  unfold sc_half. cbv zeta.
  destruct (half_word _ _ A0 A1) as (h0 & l0 & E0 & B0 & C0 & _ & F0 & ->).
  destruct (half_word _ _ A1 A2) as (h1 & l1 & E1 & B1 & C1 & _ & F1 & ->).
  destruct (half_word _ _ A2 A3) as (h2 & l2 & E2 & B2 & C2 & _ & F2 & ->).
  destruct (half_word _ _ A3 A3) as (h3 & l3 & E3 & B3 & C3 & -> & F3 & _).
  rewrite F0. rewrite land_1 in F1, F2, F3. rewrite F1, F2, F3.
  set (H0 := w64 (N_H_0 + 1)) in *. 
  assert (M : Z.land H0 (w64 (- l0)) = l0 * (N_H_0 + 1) /\ Z.land N_H_1 (w64 (- l0)) = l0 * N_H_1 /\
     Z.land N_H_2 (w64 (- l0)) = l0 * N_H_2 /\ Z.land N_H_3 (w64 (- l0)) = l0 * N_H_3).
  { assert (l0 = 0 \/ l0 = 1) as [-> | ->] by lia; repeat split. }
  destruct M as (-> & -> & -> & ->).
  assert (W : wd (l0 * (N_H_0 + 1)) /\ wd (l0 * N_H_1) /\ wd (l0 * N_H_2) /\ wd (l0 * N_H_3)).
  { assert (l0 = 0 \/ l0 = 1) as [-> | ->] by lia; repeat split; discriminate. }
  destruct W as (W0 & W1 & W2 & W3).
  assert (X : wd (h0 + l1 * 2 ^ 63) /\ wd (h1 + l2 * 2 ^ 63) /\ wd (h2 + l3 * 2 ^ 63) /\ wd h3).
  { unfold wd. change (2 ^ 64) with (2 * 2 ^ 63). change (2 ^ 63) with 9223372036854775808 in *. lia. }
  destruct X as (X0 & X1 & X2 & X3).
  pose proof (chain4_eq _ _ _ _ _ _ _ _ X0 W0 X1 W1 X2 W2 X3 W3) as E. cbv zeta in E.
  set (t0 := u128_accum_u64 (h0 + l1 * 2 ^ 63) (l0 * (N_H_0 + 1))) in *.
  set (t1 := u128_accum_u64 (u128_accum_u64 (u128_rshift t0 64) _) _) in *.
  set (t2 := u128_accum_u64 (u128_accum_u64 (u128_rshift t1 64) _) _) in *.
  destruct (carry4 _ _ _ _) as [r c] eqn:C in E. injection E as E4 E5.
  assert (E6 : w64 (w64 (u128_to_u64 (u128_rshift t2 64) + h3) + l0 * N_H_3) =
    u128_to_u64 (u128_accum_u64 (u128_accum_u64 (u128_rshift t2 64) h3) (l0 * N_H_3))).
  { unfold u128_accum_u64, u128_to_u64, w64, w128.
    change (2 ^ 128) with (2 ^ 64 * 2 ^ 64).
    assert (MM : forall x, (x mod (2 ^ 64 * 2 ^ 64)) mod 2 ^ 64 = x mod 2 ^ 64).
    { intros x. rewrite Z.rem_mul_r by lia. rewrite (Z.mul_comm (2 ^ 64)), Z_mod_plus_full. apply Zmod_mod. }
    rewrite MM. rewrite Z.add_mod by discriminate. rewrite Zmod_mod, <- Z.add_mod by discriminate.
    rewrite (Z.add_mod (_ mod (2 ^ 64 * 2 ^ 64)) (l0 * N_H_3)) by discriminate. rewrite MM, <- Z.add_mod by discriminate.
    rewrite <- !Z.add_assoc. rewrite Z.add_mod, Zmod_mod, <- Z.add_mod by discriminate. reflexivity. }
  rewrite E6, E4.
  assert (N0 : forall x y, wd x -> wd y -> 0 <= x + y) by (unfold wd; intros; lia).
  apply carry4_ok in C; try (apply N0; assumption). destruct C as (L & C & V).
  assert (V2 : 2 * (sv r + c * 2 ^ 256) = sv a + l0 * n).
  { rewrite V. unfold sv. rewrite E0, E1, E2, E3. change n with (2 * (N_H_0 + N_H_1 * 2 ^ 64 + N_H_2 * 2 ^ 128 + N_H_3 * 2 ^ 192) + 1). ring. }
  pose proof (sc_lim_range r L) as RR. assert (NN : n < 2 ^ 256) by reflexivity.
  clear -V2 RR NN C R L B0. 
  assert (sv a + l0 * n < 2 * n) by (assert (l0 = 0 \/ l0 = 1) as [-> | ->] by lia; lia).
  assert (c = 0) by lia. subst c.
  split; [split; [exact L|lia]|]. replace (2 * sv r) with (sv a + l0 * n) by lia. apply Z_mod_plus_full.
Qed.

(** ** Adding a bit *)
Lemma sc_cadd_bit_ok a bit flag : sc_lim a -> 0 <= bit < 256 -> flag = 0 \/ flag = 1 -> sv a + flag * 2 ^ bit < 2 ^ 256 ->
  sc_lim (sc_cadd_bit a bit flag) /\ sv (sc_cadd_bit a bit flag) = sv a + flag * 2 ^ bit.
Proof.
  intros La Hb Hf Hs. pose proof La as (A0 & A1 & A2 & A3). unfold sc_cadd_bit. cbv zeta.
  set (bit' := w32 _).
  assert (B : (flag = 0 /\ 256 <= bit' < 512) \/ (flag = 1 /\ bit' = bit)).
  { destruct Hf as [-> | ->]; [left|right]; split; try reflexivity; unfold bit'.
    - change (Z.land (w32 (0 - 1)) 256) with 256. rewrite w32_id by lia. lia.
    - change (Z.land (w32 (1 - 1)) 256) with 0. rewrite Z.add_0_r. rewrite w32_id by lia. reflexivity. }
  clearbody bit'.
  assert (X : exists y0 y1 y2 y3, w64 (Z.shiftl (b2z (Z.shiftr bit' 6 =? 0)) (Z.land bit' 63)) = y0 /\
    w64 (Z.shiftl (b2z (Z.shiftr bit' 6 =? 1)) (Z.land bit' 63)) = y1 /\
    w64 (Z.shiftl (b2z (Z.shiftr bit' 6 =? 2)) (Z.land bit' 63)) = y2 /\
    w64 (Z.shiftl (b2z (Z.shiftr bit' 6 =? 3)) (Z.land bit' 63)) = y3 /\ wd y0 /\ wd y1 /\ wd y2 /\ wd y3 /\
    y0 + y1 * 2 ^ 64 + y2 * 2 ^ 128 + y3 * 2 ^ 192 = flag * 2 ^ bit).
  { do 4 eexists. do 4 (split; [reflexivity|]). do 4 (split; [apply w64_range|]).
    rewrite shiftr_div by lia. change (2 ^ 6) with 64.
    change 63 with (2 ^ 6 - 1). rewrite land_ones_mod by lia. change (2 ^ 6) with 64.
    destruct B as [[-> B]|[-> ->]].
    - assert (4 <= bit' / 64) by (apply Z.div_le_lower_bound; lia).
      destruct (Z.eqb_spec (bit' / 64) 0), (Z.eqb_spec (bit' / 64) 1), (Z.eqb_spec (bit' / 64) 2), (Z.eqb_spec (bit' / 64) 3); try lia.
      cbn [b2z]. rewrite Z.shiftl_0_l. reflexivity.
    - pose proof (Z.div_mod bit 64 ltac:(discriminate)) as D. pose proof (Z.mod_pos_bound bit 64 eq_refl) as MB.
      set (q := bit / 64) in *. set (m := bit mod 64) in *. clearbody q m. subst bit.
      assert (P : wd (1 * 2 ^ m)).
      { split; [apply Z.mul_nonneg_nonneg; [lia|apply Z.pow_nonneg; lia]|]. rewrite Z.mul_1_l. apply Z.pow_lt_mono_r; lia. }
      assert (q = 0 \/ q = 1 \/ q = 2 \/ q = 3) as [-> | [-> | [-> | ->]]] by lia; cbn [Z.eqb Pos.eqb b2z];
        rewrite Z.shiftl_0_l, Z.shiftl_mul_pow2 by lia; rewrite (w64_id (1 * 2 ^ m)) by exact P; change (w64 0) with 0;
        rewrite Z.pow_add_r by lia; [change (2 ^ (64 * 0)) with 1|change (2 ^ (64 * 1)) with (2 ^ 64)|change (2 ^ (64 * 2)) with (2 ^ 128)|change (2 ^ (64 * 3)) with (2 ^ 192)]; ring. }
  destruct X as (y0 & y1 & y2 & y3 & -> & -> & -> & -> & Y0 & Y1 & Y2 & Y3 & Y).
  pose proof (chain4_eq _ _ _ _ _ _ _ _ A0 Y0 A1 Y1 A2 Y2 A3 Y3) as E. cbv zeta in E.
  destruct (carry4 _ _ _ _) as [r c] eqn:C in E. injection E as E4 E5. rewrite E4.
  assert (N0 : forall x y, wd x -> wd y -> 0 <= x + y) by (unfold wd; intros; lia).
  apply carry4_ok in C; try (apply N0; assumption). destruct C as (L & C & V). split; [exact L|].
  pose proof (sc_lim_range r L) as RR. pose proof (sc_lim_range a La) as RA.
  assert (V2 : sv r + c * 2 ^ 256 = sv a + flag * 2 ^ bit) by (rewrite V, <- Y; unfold sv; ring).
  clear -V2 RR C Hs. lia.
Qed.

(** ** Bytes *)
Lemma lor_rev8 a b c d e f g h :
  Z.lor (Z.lor (Z.lor (Z.lor (Z.lor (Z.lor (Z.lor a b) c) d) e) f) g) h =
  Z.lor (Z.lor (Z.lor (Z.lor (Z.lor (Z.lor (Z.lor h g) f) e) d) c) b) a.
Proof.
  apply Z.bits_inj'. intros i _. rewrite !Z.lor_spec.
  destruct (Z.testbit a i), (Z.testbit b i), (Z.testbit c i), (Z.testbit d i), (Z.testbit e i), (Z.testbit f i),
    (Z.testbit g i), (Z.testbit h i); reflexivity.
Qed.
Lemma read_be64_ok l i : byte_list l -> (i + 8 <= length l)%nat ->
  read_be64 l i = be_val (firstn 8 (skipn i l)) /\ wd (read_be64 l i).
Proof.
  intros H L.
  assert (W : read_be64 l i = read_be64 (skipn i l) 0).
  { unfold read_be64, byte_at. cbn [Nat.add].
    assert (N : forall k, nth (i + k) l 0 = nth k (skipn i l) 0).
    { intros k. rewrite <- (firstn_skipn i l) at 1. rewrite app_nth2; rewrite firstn_length_le by lia; [f_equal; lia|lia]. }
    rewrite <- !N. rewrite Nat.add_0_r. reflexivity. }
  rewrite W. clear W. apply (byte_list_skipn i) in H. assert (L' : (8 <= length (skipn i l))%nat) by (rewrite skipn_length; lia).
  set (m := skipn i l) in *. clearbody m. clear L l i.
  do 8 (destruct m as [|? m]; [cbn in L'; lia|]). clear L'.
  do 8 (apply byte_list_cons in H as [? H]). unfold read_be64, byte_at. cbn [nth Nat.add].
  change (firstn 8 _) with [z; z0; z1; z2; z3; z4; z5; z6].
  fold (isb z) (isb z0) (isb z1) (isb z2) (isb z3) (isb z4) (isb z5) (isb z6) in *.
  assert (J : Z.lor (Z.lor (Z.lor (Z.lor (Z.lor (Z.lor (Z.lor (w64 (Z.shiftl z 56)) (w64 (Z.shiftl z0 48))) (w64 (Z.shiftl z1 40)))
    (w64 (Z.shiftl z2 32))) (w64 (Z.shiftl z3 24))) (w64 (Z.shiftl z4 16))) (w64 (Z.shiftl z5 8))) z6 =
    Z.lor (Z.lor (Z.lor (Z.lor (Z.lor (Z.lor (Z.lor z6 (w64 (Z.shiftl z5 8))) (w64 (Z.shiftl z4 16))) (w64 (Z.shiftl z3 24)))
    (w64 (Z.shiftl z2 32))) (w64 (Z.shiftl z1 40))) (w64 (Z.shiftl z0 48))) (w64 (Z.shiftl z 56))).
  { apply lor_rev8. }
  rewrite J.
  assert (B0 : 0 <= z6 < 2 ^ 8) by assumption.
  lor_b z5 8 E B1. lor_b z4 16 E B2. lor_b z3 24 E B3. lor_b z2 32 E B4. lor_b z1 40 E B5. lor_b z0 48 E B6. lor_b z 56 E B7.
  split; [|exact B7]. unfold be_val. cbn [be_val_acc]. ring.
Qed.

Lemma be_val_4x8 l : byte_list l -> length l = 32%nat ->
  be_val l = be_val (firstn 8 (skipn 0 l)) * 2 ^ 192 + be_val (firstn 8 (skipn 8 l)) * 2 ^ 128 +
    be_val (firstn 8 (skipn 16 l)) * 2 ^ 64 + be_val (firstn 8 (skipn 24 l)).
Proof.
  intros H L. rewrite <- (firstn_all l) at 1. rewrite L.
  change 32%nat with (8 + 24)%nat. rewrite <- firstn_skipn_app.
  change 24%nat with (8 + 16)%nat at 1. rewrite <- firstn_skipn_app.
  change 16%nat with (8 + 8)%nat at 1. rewrite <- firstn_skipn_app.
  rewrite !skipn_add. rewrite !be_val_app, !app_length, !firstn_length, !skipn_length, L. cbn [Nat.add Nat.sub Nat.min].
  change (256 ^ Z.of_nat 24) with (2 ^ 192). change (256 ^ Z.of_nat 16) with (2 ^ 128). change (256 ^ Z.of_nat 8) with (2 ^ 64).
  change (skipn 0 l) with l. ring.
Qed.

Lemma sc_set_b32_ok l : byte_list l -> length l = 32%nat ->
  sc_ok (fst (sc_set_b32 l)) /\ sv (fst (sc_set_b32 l)) = be_val l mod n /\ snd (sc_set_b32 l) = (n <=? be_val l).
Proof.
  intros H L. unfold sc_set_b32. cbn [fst snd].
  destruct (read_be64_ok l 24 H ltac:(lia)) as [E0 W0]. destruct (read_be64_ok l 16 H ltac:(lia)) as [E1 W1].
  destruct (read_be64_ok l 8 H ltac:(lia)) as [E2 W2]. destruct (read_be64_ok l 0 H ltac:(lia)) as [E3 W3].
  set (r := mksc _ _ _ _).
  assert (LR : sc_lim r) by (repeat split; assumption || apply W0 || apply W1 || apply W2 || apply W3).
  assert (V : sv r = be_val l).
  { unfold sv, r. cbn [d0 d1 d2 d3]. rewrite E0, E1, E2, E3, (be_val_4x8 l H L). ring. }
  rewrite <- V. destruct (sc_reduce_final r LR) as [K1 K2]. split; [exact K1|]. split; [exact K2|]. now apply sc_check_overflow_spec.
Qed.

Lemma write_be64_ok x : wd x -> write_be64 x = be_bytes 8 x.
Proof.
  intros H. unfold write_be64. apply be_bytes_unique; [reflexivity| |].
  - repeat (apply Forall_cons; [apply w8_range|]). apply Forall_nil.
  - unfold be_val, w8. cbn [be_val_acc]. change (2 ^ 8) with 256. rewrite !shiftr_div by lia.
    unfold wd in H.
    pose proof (Z.div_mod x 256 ltac:(discriminate)) as D0. pose proof (Z.div_mod (x / 256) 256 ltac:(discriminate)) as D1.
    pose proof (Z.div_mod (x / 2 ^ 16) 256 ltac:(discriminate)) as D2. pose proof (Z.div_mod (x / 2 ^ 24) 256 ltac:(discriminate)) as D3.
    pose proof (Z.div_mod (x / 2 ^ 32) 256 ltac:(discriminate)) as D4. pose proof (Z.div_mod (x / 2 ^ 40) 256 ltac:(discriminate)) as D5.
    pose proof (Z.div_mod (x / 2 ^ 48) 256 ltac:(discriminate)) as D6. pose proof (Z.div_mod (x / 2 ^ 56) 256 ltac:(discriminate)) as D7.
    rewrite Z.div_div in D1, D2, D3, D4, D5, D6, D7 by lia.
    change (256 * 256) with (2 ^ 16) in *. change (2 ^ 16 * 256) with (2 ^ 24) in *. change (2 ^ 24 * 256) with (2 ^ 32) in *.
    change (2 ^ 32 * 256) with (2 ^ 40) in *. change (2 ^ 40 * 256) with (2 ^ 48) in *. change (2 ^ 48 * 256) with (2 ^ 56) in *.
    change (2 ^ 56 * 256) with (2 ^ 64) in *. rewrite (Z.div_small x (2 ^ 64)) in D7 by exact H.
    change (2 ^ 8) with 256 in *. clear H.
    set (q1 := x / 256) in *. set (q2 := x / 2 ^ 16) in *. set (q3 := x / 2 ^ 24) in *. set (q4 := x / 2 ^ 32) in *.
    set (q5 := x / 2 ^ 40) in *. set (q6 := x / 2 ^ 48) in *. set (q7 := x / 2 ^ 56) in *.
    set (r0 := x mod 256) in *. set (r1 := q1 mod 256) in *. set (r2 := q2 mod 256) in *. set (r3 := q3 mod 256) in *.
    set (r4 := q4 mod 256) in *. set (r5 := q5 mod 256) in *. set (r6 := q6 mod 256) in *. set (r7 := q7 mod 256) in *.
    clearbody r0 r1 r2 r3 r4 r5 r6 r7 q1 q2 q3 q4 q5 q6 q7. lia.
Qed.

Lemma sc_get_b32_ok a : sc_lim a -> sc_get_b32 a = be_bytes 32 (sv a).
Proof.
  intros (A0 & A1 & A2 & A3). unfold sc_get_b32. rewrite !write_be64_ok by assumption.
  apply be_bytes_unique.
  - rewrite !app_length, !be_bytes_length. reflexivity.
  - rewrite !byte_list_app. repeat split; apply be_bytes_byte_list.
  - rewrite !be_val_app, !app_length, !be_bytes_length, !be_val_be_bytes. cbn [Nat.add].
    change (256 ^ Z.of_nat 24) with (2 ^ 192). change (256 ^ Z.of_nat 16) with (2 ^ 128). change (256 ^ Z.of_nat 8) with (2 ^ 64).
    unfold wd in *. rewrite !Z.mod_small by assumption. unfold sv. ring.
Qed.
Lemma sc_get_b32_length a : length (sc_get_b32 a) = 32%nat. Proof. reflexivity. Qed.

Lemma sc_set_get a : sc_ok a -> sc_set_b32 (sc_get_b32 a) = (a, false).
Proof.
  intros Ha. pose proof (sc_ok_range a Ha) as R. destruct Ha as [L K].
  rewrite sc_get_b32_ok by assumption.
  destruct (sc_set_b32_ok (be_bytes 32 (sv a)) (be_bytes_byte_list _ _) (be_bytes_length _ _)) as ([L' _] & V & O).
  rewrite be_bytes_32_val in V, O by (now apply sc_lim_range).
  destruct (sc_set_b32 _) as [r o]. cbn [fst snd] in *. f_equal.
  - apply sc_lim_inj; [assumption|assumption|]. rewrite V. now apply Z.mod_small.
  - rewrite O. apply Z.leb_gt. lia.
Qed.

(** ** Selection, splitting, constants *)
Lemma sc_cmov_ok r a flag : sc_lim r -> sc_lim a -> flag = 0 \/ flag = 1 -> sc_cmov r a flag = if flag =? 0 then r else a.
Proof.
  intros (R0 & R1 & R2 & R3) (A0 & A1 & A2 & A3) Hf. unfold sc_cmov.
  rewrite !cmov64_spec by assumption. destruct r, a. destruct Hf as [-> | ->]; reflexivity.
Qed.

Lemma sc_split_128_ok k : sc_ok k ->
  sc_ok (fst (sc_split_128 k)) /\ sc_ok (snd (sc_split_128 k)) /\
  sv (fst (sc_split_128 k)) = sv k mod 2 ^ 128 /\ sv (snd (sc_split_128 k)) = sv k / 2 ^ 128.
Proof.
  intros [(K0 & K1 & K2 & K3) _]. unfold sc_split_128, sc_ok, sc_lim, sv. cbn [fst snd d0 d1 d2 d3].
  assert (B1 : 0 <= d0 k + d1 k * 2 ^ 64 < 2 ^ 128) by (unfold wd in *; lia).
  assert (B2 : 0 <= d2 k + d3 k * 2 ^ 64 < 2 ^ 128) by (unfold wd in *; lia).
  assert (2 ^ 128 < n) by reflexivity.
  repeat split; try assumption; try (apply K0 || apply K1 || apply K2 || apply K3); try (discriminate || reflexivity); try lia.
  - apply Z.mod_unique with (d2 k + d3 k * 2 ^ 64); [left; lia|lia].
  - apply Z.div_unique with (d0 k + d1 k * 2 ^ 64); [left; lia|lia].
Qed.

Lemma sc_of_Z_ok v : 0 <= v < n -> sc_ok (sc_of_Z v) /\ sv (sc_of_Z v) = v.
Proof.
  intros H. assert (NN : n < 2 ^ 256) by reflexivity.
  assert (V : sv (sc_of_Z v) = v).
  { unfold sc_of_Z, sv. cbn [d0 d1 d2 d3].
    pose proof (Z.div_mod v (2 ^ 64) ltac:(discriminate)) as D0.
    pose proof (Z.div_mod (v / 2 ^ 64) (2 ^ 64) ltac:(discriminate)) as D1.
    pose proof (Z.div_mod (v / 2 ^ 128) (2 ^ 64) ltac:(discriminate)) as D2.
    rewrite Z.div_div in D1, D2 by lia. change (2 ^ 64 * 2 ^ 64) with (2 ^ 128) in D1.
    change (2 ^ 128 * 2 ^ 64) with (2 ^ 192) in D2. clear H.
    set (q1 := v / 2 ^ 64) in *. set (q2 := v / 2 ^ 128) in *. set (q3 := v / 2 ^ 192) in *.
    set (r1 := v mod _) in *. set (r2 := q1 mod _) in *. set (r3 := q2 mod _) in *. clearbody r1 r2 r3 q1 q2 q3. lia. }
  split; [|exact V]. split; [|rewrite V; lia]. unfold sc_of_Z. 
  assert (B : forall x, wd (x mod 2 ^ 64)) by (intros; apply Z.mod_pos_bound; reflexivity).
  split; [apply B|]. split; [apply B|]. split; [apply B|]. split; [apply Z.div_pos; lia|].
  apply Z.div_lt_upper_bound; [reflexivity|]. change (2 ^ 192 * 2 ^ 64) with (2 ^ 256). lia.
Qed.
Lemma sc_set_int_ok v : 0 <= v < 2 ^ 32 -> sc_ok (sc_set_int v) /\ sv (sc_set_int v) = v.
Proof.
  intros H. assert (2 ^ 32 < n) by reflexivity. unfold sc_set_int, sc_ok, sc_lim, sv, wd. cbn [d0 d1 d2 d3].
  repeat split; try lia.
Qed.

Lemma sc_inverse_ok a : sc_ok (sc_inverse a) /\ sv (sc_inverse a) = inv_mod (sv a) n.
Proof. apply sc_of_Z_ok. apply inv_mod_range. reflexivity. Qed.

Lemma sc_set_b32_seckey_ok l : byte_list l -> length l = 32%nat ->
  sc_ok (fst (sc_set_b32_seckey l)) /\ sv (fst (sc_set_b32_seckey l)) = be_val l mod n /\
  snd (sc_set_b32_seckey l) = (0 <? be_val l) && (be_val l <? n).
Proof.
  intros H L. destruct (sc_set_b32_ok l H L) as (K & V & O). unfold sc_set_b32_seckey.
  destruct (sc_set_b32 l) as [r o]. cbn [fst snd] in *. split; [assumption|]. split; [assumption|].
  rewrite sc_is_zero_spec by apply K. rewrite O, V. pose proof (be_val_32 l H L) as R.
  destruct (Z.leb_spec n (be_val l)); cbn [negb andb].
  - destruct (Z.ltb_spec (be_val l) n); [lia|]. now rewrite andb_false_r.
  - destruct (Z.ltb_spec (be_val l) n); [|lia]. rewrite andb_true_r. rewrite Z.mod_small by lia.
    destruct (Z.eqb_spec (be_val l) 0), (Z.ltb_spec 0 (be_val l)); try reflexivity; lia.
Qed.
