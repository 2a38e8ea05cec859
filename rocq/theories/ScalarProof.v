(** Correctness of the scalar model: addition, negation, halving, comparison,
    byte conversions. *)
Require Import ZArith List Bool Lia Znumtheory.
From Verif Require Import Word Spec Bytes ZmField Curve FieldModel ScalarModel FieldBytes.
Import ListNotations.
Local Open Scope Z_scope.

Definition wd (x : Z) : Prop := 0 <= x < 2 ^ 64.
Definition sc_lim (a : sc) : Prop := wd (d0 a) /\ wd (d1 a) /\ wd (d2 a) /\ wd (d3 a).
Definition sc_ok (a : sc) : Prop := sc_lim a /\ sv a < n.

Ltac w64const := change (2 ^ 64) with 18446744073709551616 in *.
Ltac nconst :=
  change N_0 with 13822214165235122497 in *; change N_1 with 13451932020343611451 in *;
  change N_2 with 18446744073709551614 in *; change N_3 with 18446744073709551615 in *;
  change N_C_0 with 4624529908474429119 in *; change N_C_1 with 4994812053365940164 in *; change N_C_2 with 1 in *;
  change N_H_0 with 16134479119472337056 in *; change N_H_1 with 6725966010171805725 in *;
  change N_H_2 with 18446744073709551615 in *; change N_H_3 with 9223372036854775807 in *.
Definition NC : Z := 4624529908474429119 + 4994812053365940164 * 2 ^ 64 + 2 ^ 128.
Lemma n_NC : n = 2 ^ 256 - NC. Proof. reflexivity. Qed.

Lemma sc_lim_range a : sc_lim a -> 0 <= sv a < 2 ^ 256.
Proof. unfold sc_lim, wd, sv. intros (H0 & H1 & H2 & H3). lia. Qed.
Lemma sc_ok_range a : sc_ok a -> 0 <= sv a < n.
Proof. intros [H K]. split; [now apply sc_lim_range|assumption]. Qed.
Lemma sc_ok_mod a : sc_ok a -> sv a mod n = sv a.
Proof. intros H. apply Z.mod_small. now apply sc_ok_range. Qed.

Lemma sc_lim_inj a b : sc_lim a -> sc_lim b -> sv a = sv b -> a = b.
Proof.
  destruct a as [a0 a1 a2 a3], b as [b0 b1 b2 b3]. unfold sc_lim, wd, sv. cbn [d0 d1 d2 d3].
  intros (H0 & H1 & H2 & H3) (K0 & K1 & K2 & K3) E.
  assert (a3 = b3) by (w64const; lia). subst b3. assert (a2 = b2) by (w64const; lia). subst b2.
  assert (a1 = b1) by (w64const; lia). subst b1. f_equal. lia.
Qed.
Lemma sc_ok_inj a b : sc_ok a -> sc_ok b -> sv a = sv b -> a = b.
Proof. intros [H _] [K _]. now apply sc_lim_inj. Qed.

(** Carry propagation over four limbs. *)
Definition carry4 (x0 x1 x2 x3 : Z) : sc * Z :=
  let t1 := x0 / 2 ^ 64 + x1 in let t2 := t1 / 2 ^ 64 + x2 in let t3 := t2 / 2 ^ 64 + x3 in
  (mksc (x0 mod 2 ^ 64) (t1 mod 2 ^ 64) (t2 mod 2 ^ 64) (t3 mod 2 ^ 64), t3 / 2 ^ 64).
Lemma carry_lin x0 x1 x2 x3 e0 e1 e2 e3 r0 r1 r2 r3 : x0 = 2 ^ 64 * e0 + r0 -> e0 + x1 = 2 ^ 64 * e1 + r1 ->
  e1 + x2 = 2 ^ 64 * e2 + r2 -> e2 + x3 = 2 ^ 64 * e3 + r3 ->
  r0 + r1 * 2 ^ 64 + r2 * 2 ^ 128 + r3 * 2 ^ 192 + e3 * 2 ^ 256 = x0 + x1 * 2 ^ 64 + x2 * 2 ^ 128 + x3 * 2 ^ 192.
Proof. lia. Qed.
Lemma carry4_ok x0 x1 x2 x3 r c : carry4 x0 x1 x2 x3 = (r, c) -> 0 <= x0 -> 0 <= x1 -> 0 <= x2 -> 0 <= x3 ->
  sc_lim r /\ 0 <= c /\ sv r + c * 2 ^ 256 = x0 + x1 * 2 ^ 64 + x2 * 2 ^ 128 + x3 * 2 ^ 192.
Proof.
  unfold carry4. intros H H0 H1 H2 H3. injection H as <- <-. unfold sc_lim, sv. cbn [d0 d1 d2 d3].
  assert (P : forall x, 0 <= x -> 0 <= x / 2 ^ 64) by (intros; apply Z.div_pos; lia).
  assert (B : forall x, wd (x mod 2 ^ 64)) by (intros; apply Z.mod_pos_bound; reflexivity).
  split; [repeat split; apply B|].
  assert (0 <= x0 / 2 ^ 64 + x1) by (specialize (P x0 H0); lia). set (t1 := x0 / 2 ^ 64 + x1) in *.
  assert (0 <= t1 / 2 ^ 64 + x2) by (specialize (P t1 H); lia). set (t2 := t1 / 2 ^ 64 + x2) in *.
  assert (0 <= t2 / 2 ^ 64 + x3) by (specialize (P t2 H4); lia). set (t3 := t2 / 2 ^ 64 + x3) in *.
  split; [now apply P|].
  pose proof (Z.div_mod x0 (2 ^ 64) ltac:(discriminate)) as D0. pose proof (Z.div_mod t1 (2 ^ 64) ltac:(discriminate)) as D1.
  pose proof (Z.div_mod t2 (2 ^ 64) ltac:(discriminate)) as D2. pose proof (Z.div_mod t3 (2 ^ 64) ltac:(discriminate)) as D3.
  exact (carry_lin _ _ _ _ _ _ _ _ _ _ _ _ D0 D1 D2 D3).
Qed.
Lemma carry4_eq x0 x1 x2 x3 y0 y1 y2 y3 : x0 = y0 -> x1 = y1 -> x2 = y2 -> x3 = y3 -> carry4 x0 x1 x2 x3 = carry4 y0 y1 y2 y3.
Proof. now intros -> -> -> ->. Qed.

(** One step of the 128-bit carry chain. *)
Lemma chain_step T a b : 0 <= T < 2 ^ 67 -> wd a -> wd b ->
  u128_accum_u64 (u128_accum_u64 (u128_rshift T 64) a) b = T / 2 ^ 64 + (a + b) /\ 0 <= T / 2 ^ 64 + (a + b) < 2 ^ 67.
Proof.
  intros HT Ha Hb. unfold u128_accum_u64, u128_rshift, wd in *. rewrite shiftr_div by lia.
  assert (0 <= T / 2 ^ 64 < 8) by (split; [apply Z.div_pos; lia|apply Z.div_lt_upper_bound; lia]).
  rewrite (w128_id (T / 2 ^ 64 + a)) by lia. rewrite w128_id by lia. lia.
Qed.
Lemma chain_step1 T a : 0 <= T < 2 ^ 67 -> wd a ->
  u128_accum_u64 (u128_rshift T 64) a = T / 2 ^ 64 + a /\ 0 <= T / 2 ^ 64 + a < 2 ^ 67.
Proof.
  intros HT Ha. unfold u128_accum_u64, u128_rshift, wd in *. rewrite shiftr_div by lia.
  assert (0 <= T / 2 ^ 64 < 8) by (split; [apply Z.div_pos; lia|apply Z.div_lt_upper_bound; lia]).
  rewrite w128_id by lia. lia.
Qed.
Lemma chain_start a b : wd a -> wd b -> u128_accum_u64 a b = a + b /\ 0 <= a + b < 2 ^ 67.
Proof. intros Ha Hb. unfold u128_accum_u64, wd in *. rewrite w128_id by lia. lia. Qed.

(** The common shape of reduce, add, negate, ...: four limb additions with carry. *)
Lemma chain4_eq a0 b0 a1 b1 a2 b2 a3 b3 : wd a0 -> wd b0 -> wd a1 -> wd b1 -> wd a2 -> wd b2 -> wd a3 -> wd b3 ->
  (let t := a0 in
   let t := u128_accum_u64 t b0 in
   let r0 := u128_to_u64 t in let t := u128_rshift t 64 in
   let t := u128_accum_u64 t a1 in let t := u128_accum_u64 t b1 in
   let r1 := u128_to_u64 t in let t := u128_rshift t 64 in
   let t := u128_accum_u64 t a2 in let t := u128_accum_u64 t b2 in
   let r2 := u128_to_u64 t in let t := u128_rshift t 64 in
   let t := u128_accum_u64 t a3 in let t := u128_accum_u64 t b3 in
   let r3 := u128_to_u64 t in let t := u128_rshift t 64 in
   (mksc r0 r1 r2 r3, t)) = carry4 (a0 + b0) (a1 + b1) (a2 + b2) (a3 + b3).
Proof.
  intros A0 B0 A1 B1 A2 B2 A3 B3. cbv zeta.
  destruct (chain_start a0 b0 A0 B0) as [-> T0].
  destruct (chain_step (a0 + b0) a1 b1 T0 A1 B1) as [-> T1].
  destruct (chain_step _ a2 b2 T1 A2 B2) as [-> T2].
  destruct (chain_step _ a3 b3 T2 A3 B3) as [-> T3].
  unfold carry4, u128_rshift, u128_to_u64, w64. rewrite shiftr_div by lia. reflexivity.
Qed.

Lemma wd_0 : wd 0. Proof. split; [discriminate|reflexivity]. Qed.

Lemma accum_0 t : 0 <= t < 2 ^ 128 -> u128_accum_u64 t 0 = t.
Proof. intros. unfold u128_accum_u64. rewrite Z.add_0_r. now apply w128_id. Qed.

Lemma sc_reduce_eq r ov : sc_lim r -> ov = 0 \/ ov = 1 ->
  sc_reduce r ov = fst (carry4 (d0 r + ov * N_C_0) (d1 r + ov * N_C_1) (d2 r + ov) (d3 r)).
Proof.
  intros (R0 & R1 & R2 & R3) Ho. unfold sc_reduce.
  assert (E : w64 (ov * N_C_0) = ov * N_C_0 /\ w64 (ov * N_C_1) = ov * N_C_1 /\ w64 (ov * N_C_2) = ov).
  { destruct Ho as [-> | ->]; repeat split. }
  destruct E as (-> & -> & ->).
  assert (W : wd (ov * N_C_0) /\ wd (ov * N_C_1) /\ wd ov).
  { destruct Ho as [-> | ->]; repeat split; discriminate. }
  destruct W as (W0 & W1 & W2).
  destruct (chain_start (d0 r) _ R0 W0) as [-> T0].
  destruct (chain_step _ _ _ T0 R1 W1) as [-> T1].
  destruct (chain_step _ _ _ T1 R2 W2) as [-> T2].
  destruct (chain_step1 _ _ T2 R3) as [-> T3]. reflexivity.
Qed.

Lemma sc_reduce_val r ov : sc_lim r -> ov = 0 \/ ov = 1 ->
  sc_lim (sc_reduce r ov) /\ sv (sc_reduce r ov) = (sv r + ov * NC) mod 2 ^ 256.
Proof.
  intros Hr Ho. rewrite sc_reduce_eq by assumption.
  destruct (carry4 _ _ _ _) as [s c] eqn:E. cbn [fst].
  assert (W : 0 <= ov * N_C_0 /\ 0 <= ov * N_C_1 /\ 0 <= ov).
  { destruct Ho as [-> | ->]; repeat split; discriminate. }
  destruct W as (W0 & W1 & W2). destruct Hr as (R0 & R1 & R2 & R3). unfold wd in *.
  apply carry4_ok in E; try lia. destruct E as (L & C & V). split; [exact L|].
  apply sc_lim_range in L. unfold NC. nconst. unfold sv at 2.
  apply Z.mod_unique with c; [left; exact L|]. lia.
Qed.

Lemma sc_check_overflow_spec a : sc_lim a -> sc_check_overflow a = (n <=? sv a).
Proof.
  intros (H0 & H1 & H2 & H3). unfold sc_check_overflow, wd in *. cbn [orb].
  apply eq_true_iff_eq. rewrite Z.leb_le.
  rewrite !orb_true_iff, !andb_true_iff, !negb_true_iff, !orb_false_iff, !Z.gtb_ltb, Z.geb_leb, !Z.ltb_lt, !Z.ltb_ge, Z.leb_le.
  unfold sv. change n with (2 ^ 256 - 432420386565659656852420866394968145599). nconst. w64const.
  destruct a as [a0 a1 a2 a3]. cbn [d0 d1 d2 d3] in *. lia.
Qed.

Lemma sc_reduce_final r : sc_lim r -> sc_ok (sc_reduce r (b2z (sc_check_overflow r))) /\
  sv (sc_reduce r (b2z (sc_check_overflow r))) = sv r mod n.
Proof.
  intros Hr. pose proof (sc_lim_range r Hr) as R.
  destruct (sc_reduce_val r (b2z (sc_check_overflow r)) Hr (b2z_01 _)) as [L V].
  rewrite sc_check_overflow_spec in * by assumption. set (s := sc_reduce r _) in *. clearbody s.
  assert (sv s = sv r mod n).
  { rewrite V. destruct (Z.leb_spec n (sv r)) as [C|C]; cbn [b2z].
    - rewrite n_NC in *. rewrite <- (Z.mod_unique (sv r + 1 * NC) (2 ^ 256) 1 (sv r - (2 ^ 256 - NC))).
      + apply Z.mod_unique with 1; [left|]; unfold NC in *; lia.
      + left. unfold NC in *. lia.
      + ring.
    - rewrite Z.mul_0_l, Z.add_0_r. rewrite !Z.mod_small by lia. reflexivity. }
  split; [|assumption]. split; [assumption|]. rewrite H. apply Z.mod_pos_bound. reflexivity.
Qed.

(** Final reduction with a carry out of the top limb. *)
Lemma sc_reduce_carry r c V : sc_lim r -> 0 <= c -> V = sv r + c * 2 ^ 256 -> 0 <= V < 2 * n ->
  c + b2z (sc_check_overflow r) = b2z (n <=? V) /\
  sc_ok (sc_reduce r (c + b2z (sc_check_overflow r))) /\
  sv (sc_reduce r (c + b2z (sc_check_overflow r))) = V mod n.
Proof.
  intros Hr Hc EV HV. pose proof (sc_lim_range r Hr) as R.
  assert (C : c = 0 \/ c = 1).
  { rewrite n_NC in HV. unfold NC in HV. lia. }
  destruct C as [-> | ->].
  - rewrite Z.mul_0_l, Z.add_0_r in EV. subst V. rewrite Z.add_0_l.
    split; [now rewrite sc_check_overflow_spec|]. now apply sc_reduce_final.
  - rewrite sc_check_overflow_spec by assumption.
    assert (H1 : n <=? sv r = false). { apply Z.leb_gt. rewrite n_NC in *. unfold NC in *. lia. }
    assert (H2 : n <=? V = true). { apply Z.leb_le. rewrite n_NC in *. unfold NC in *. lia. }
    rewrite H1, H2. cbn [b2z]. split; [reflexivity|]. rewrite Z.add_0_r.
    destruct (sc_reduce_val r 1 Hr (or_intror eq_refl)) as [L S].
    assert (E : sv (sc_reduce r 1) = V mod n).
    { rewrite S. rewrite n_NC in *. unfold NC in *. rewrite Z.mod_small by lia.
      apply Z.mod_unique with 1; [left; lia|lia]. }
    split; [|exact E]. split; [exact L|]. rewrite E. apply Z.mod_pos_bound. reflexivity.
Qed.

Lemma sc_add_ov_ok a b : sc_ok a -> sc_ok b ->
  sc_ok (fst (sc_add_ov a b)) /\ sv (fst (sc_add_ov a b)) = (sv a + sv b) mod n /\
  snd (sc_add_ov a b) = b2z (n <=? sv a + sv b).
Proof.
  intros Ha Hb. pose proof (sc_ok_range a Ha). pose proof (sc_ok_range b Hb).
  destruct Ha as [(A0 & A1 & A2 & A3) _]. destruct Hb as [(B0 & B1 & B2 & B3) _].
  pose proof (chain4_eq _ _ _ _ _ _ _ _ A0 B0 A1 B1 A2 B2 A3 B3) as E. cbv zeta in E.
  unfold sc_add_ov. cbv zeta.
  destruct (carry4 _ _ _ _) as [r c] eqn:C in E. injection E as E1 E2. rewrite E1, E2.
  unfold wd in *. apply carry4_ok in C; try lia. destruct C as (L & C0 & V).
  assert (V' : sv a + sv b = sv r + c * 2 ^ 256) by (rewrite V; unfold sv; ring).
  assert (Hc : u128_to_u64 c = c).
  { apply w64_id. rewrite n_NC in *. unfold NC in *. pose proof (sc_lim_range r L). lia. }
  rewrite Hc.
  destruct (sc_reduce_carry r c _ L C0 V') as (F1 & F2 & F3); [lia|].
  cbn [fst snd]. tauto.
Qed.
Lemma sc_add_ok a b : sc_ok a -> sc_ok b -> sc_ok (sc_add a b).
Proof. intros. now apply sc_add_ov_ok. Qed.
Lemma sc_add_sv a b : sc_ok a -> sc_ok b -> sv (sc_add a b) = (sv a + sv b) mod n.
Proof. intros. now apply sc_add_ov_ok. Qed.

(** ** Zero, one, equality, parity, high *)
Lemma sc_is_zero_spec a : sc_lim a -> sc_is_zero a = (sv a =? 0).
Proof.
  intros (H0 & H1 & H2 & H3). unfold sc_is_zero, sv, wd in *. apply eq_true_iff_eq.
  rewrite !Z.eqb_eq, !Z.lor_eq_0_iff. lia.
Qed.
Lemma sc_is_one_spec a : sc_lim a -> sc_is_one a = (sv a =? 1).
Proof.
  intros (H0 & H1 & H2 & H3). unfold sc_is_one, sv, wd in *. apply eq_true_iff_eq.
  rewrite !Z.eqb_eq, !Z.lor_eq_0_iff, Z.lxor_eq_0_iff. lia.
Qed.
Lemma sc_eq_spec a b : sc_lim a -> sc_lim b -> sc_eq a b = (sv a =? sv b).
Proof.
  intros Ha Hb. apply eq_true_iff_eq. unfold sc_eq. rewrite !Z.eqb_eq, !Z.lor_eq_0_iff, !Z.lxor_eq_0_iff.
  split.
  - intros (((E0 & E1) & E2) & E3). unfold sv. now rewrite E0, E1, E2, E3.
  - intros E. apply sc_lim_inj in E; [|assumption|assumption]. subst. tauto.
Qed.
Lemma sc_is_even_spec a : sc_is_even a = Z.even (sv a).
Proof.
  unfold sc_is_even, sv. rewrite land_1. rewrite !Z.even_add, !Z.even_mul.
  change (Z.even (2 ^ 64)) with true. change (Z.even (2 ^ 128)) with true. change (Z.even (2 ^ 192)) with true.
  rewrite !orb_true_r. rewrite Zmod_even. destruct (Z.even (d0 a)); reflexivity.
Qed.
Lemma sc_is_high_spec a : sc_lim a -> sc_is_high a = (n / 2 <? sv a).
Proof.
  intros (H0 & H1 & H2 & H3). unfold sc_is_high, wd in *. cbn [orb].
  apply eq_true_iff_eq. rewrite Z.ltb_lt.
  change (n / 2) with (2 ^ 255 - 216210193282829828426210433197484072800).
  unfold sv. destruct a as [a0 a1 a2 a3]. cbn [d0 d1 d2 d3] in *.
  rewrite !Z.gtb_ltb. nconst. w64const.
  rewrite !orb_true_iff, !andb_true_iff, !negb_true_iff, !orb_false_iff, !andb_false_iff, !negb_false_iff,
    !andb_true_iff, !negb_true_iff, !Z.ltb_lt, !Z.ltb_ge.
  lia.
Qed.
