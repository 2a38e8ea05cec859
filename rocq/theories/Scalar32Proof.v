(** Correctness of the 32-bit scalar model: addition, negation, halving, comparison,
    byte conversions. *)
Require Import ZArith List Bool Lia Znumtheory.
From Verif Require Import Word Word32 Spec Bytes ZmField Curve FieldModel ScalarModel ScalarProof ScalarProof2 ScalarSplit FieldBytes HashModel Scalar32Model.
Import ListNotations.
Local Open Scope Z_scope.

Definition hw (x : Z) : Prop := 0 <= x < 2 ^ 32.
Definition s8v (a : sc8) : Z := sd0 a + sd1 a * 2 ^ 32 + sd2 a * 2 ^ 64 + sd3 a * 2 ^ 96 + sd4 a * 2 ^ 128 + sd5 a * 2 ^ 160 + sd6 a * 2 ^ 192 + sd7 a * 2 ^ 224.
Definition s8_lim (a : sc8) : Prop := hw (sd0 a) /\ hw (sd1 a) /\ hw (sd2 a) /\ hw (sd3 a) /\ hw (sd4 a) /\ hw (sd5 a) /\ hw (sd6 a) /\ hw (sd7 a).
Definition s8_ok (a : sc8) : Prop := s8_lim a /\ s8v a < n.
Ltac s8proj := cbn [sd0 sd1 sd2 sd3 sd4 sd5 sd6 sd7].
Ltac s8proj_in H := cbn [sd0 sd1 sd2 sd3 sd4 sd5 sd6 sd7] in H.


Lemma s8_lim_range a : s8_lim a -> 0 <= s8v a < 2 ^ 256.
Proof. unfold s8_lim, hw, s8v. intros (H0 & H1 & H2 & H3 & H4 & H5 & H6 & H7). lia. Qed.
Lemma s8_ok_range a : s8_ok a -> 0 <= s8v a < n.
Proof. intros [H K]. split; [now apply s8_lim_range|assumption]. Qed.
Lemma s8_ok_mod a : s8_ok a -> s8v a mod n = s8v a.
Proof. intros H. apply Z.mod_small. now apply s8_ok_range. Qed.
Lemma word_inj x y X Y : hw x -> hw y -> x + 2 ^ 32 * X = y + 2 ^ 32 * Y -> x = y /\ X = Y.
Proof. unfold hw. lia. Qed.
Definition horner (x0 x1 x2 x3 x4 x5 x6 x7 : Z) : Z := x0 + 2 ^ 32 * (x1 + 2 ^ 32 * (x2 + 2 ^ 32 * (x3 + 2 ^ 32 * (x4 + 2 ^ 32 * (x5 + 2 ^ 32 * (x6 + 2 ^ 32 * x7)))))).

Lemma s8v_horner a : s8v a = horner (sd0 a) (sd1 a) (sd2 a) (sd3 a) (sd4 a) (sd5 a) (sd6 a) (sd7 a).
Proof. unfold s8v, horner. ring. Qed.
Lemma s8_lim_inj a b : s8_lim a -> s8_lim b -> s8v a = s8v b -> a = b.
Proof.
  rewrite !s8v_horner. destruct a as [a0 a1 a2 a3 a4 a5 a6 a7], b as [b0 b1 b2 b3 b4 b5 b6 b7]. unfold s8_lim, horner. s8proj.
  intros (H0 & H1 & H2 & H3 & H4 & H5 & H6 & H7) (K0 & K1 & K2 & K3 & K4 & K5 & K6 & K7) E.
  apply word_inj in E; [|assumption|assumption]. destruct E as [-> E].
  apply word_inj in E; [|assumption|assumption]. destruct E as [-> E].
  apply word_inj in E; [|assumption|assumption]. destruct E as [-> E].
  apply word_inj in E; [|assumption|assumption]. destruct E as [-> E].
  apply word_inj in E; [|assumption|assumption]. destruct E as [-> E].
  apply word_inj in E; [|assumption|assumption]. destruct E as [-> E].
  apply word_inj in E; [|assumption|assumption]. destruct E as [-> ->]. reflexivity.
Qed.
Lemma s8_ok_inj a b : s8_ok a -> s8_ok b -> s8v a = s8v b -> a = b.
Proof. intros [H _] [K _]. now apply s8_lim_inj. Qed.

(** Carry propagation over eight limbs. *)
Lemma carry8_lin x0 x1 x2 x3 x4 x5 x6 x7 e0 e1 e2 e3 e4 e5 e6 e7 r0 r1 r2 r3 r4 r5 r6 r7 :
  x0 = 2 ^ 32 * e0 + r0 -> e0 + x1 = 2 ^ 32 * e1 + r1 ->  e1 + x2 = 2 ^ 32 * e2 + r2 ->  e2 + x3 = 2 ^ 32 * e3 + r3 ->  e3 + x4 = 2 ^ 32 * e4 + r4 ->  e4 + x5 = 2 ^ 32 * e5 + r5 ->  e5 + x6 = 2 ^ 32 * e6 + r6 ->  e6 + x7 = 2 ^ 32 * e7 + r7 ->
  r0 + r1 * 2 ^ 32 + r2 * 2 ^ 64 + r3 * 2 ^ 96 + r4 * 2 ^ 128 + r5 * 2 ^ 160 + r6 * 2 ^ 192 + r7 * 2 ^ 224 + e7 * 2 ^ 256 = x0 + x1 * 2 ^ 32 + x2 * 2 ^ 64 + x3 * 2 ^ 96 + x4 * 2 ^ 128 + x5 * 2 ^ 160 + x6 * 2 ^ 192 + x7 * 2 ^ 224.
Proof.
  intros H0 H1 H2 H3 H4 H5 H6 H7.
  transitivity ((2 ^ 32 * e0 + r0) + ((2 ^ 32 * e1 + r1) - e0) * 2 ^ 32 + ((2 ^ 32 * e2 + r2) - e1) * 2 ^ 64 + ((2 ^ 32 * e3 + r3) - e2) * 2 ^ 96 + ((2 ^ 32 * e4 + r4) - e3) * 2 ^ 128 + ((2 ^ 32 * e5 + r5) - e4) * 2 ^ 160 + ((2 ^ 32 * e6 + r6) - e5) * 2 ^ 192 + ((2 ^ 32 * e7 + r7) - e6) * 2 ^ 224).
  - ring.
  - rewrite <- H0, <- H1, <- H2, <- H3, <- H4, <- H5, <- H6, <- H7. ring.
Qed.
Lemma chain_w T t x : t = w64 (Z.shiftr T 32 + x) -> 0 <= T <= 2 ^ 36 -> 0 <= x <= 2 ^ 35 ->
  t = T / 2 ^ 32 + x /\ 0 <= t <= 2 ^ 36 /\ 0 <= T / 2 ^ 32 <= 16.
Proof.
  intros -> HT Hx. rewrite shiftr_div by lia.
  assert (0 <= T / 2 ^ 32 <= 16) by (split; [apply Z.div_pos; lia|apply Z.div_le_upper_bound; lia]).
  rewrite w64_id by lia. lia.
Qed.
Definition xb (x : Z) : Prop := 0 <= x <= 2 ^ 35.
Lemma chain8 x0 x1 x2 x3 x4 x5 x6 x7 t0 t1 t2 t3 t4 t5 t6 t7 : t0 = x0 ->
  t1 = w64 (Z.shiftr t0 32 + x1) -> t2 = w64 (Z.shiftr t1 32 + x2) -> t3 = w64 (Z.shiftr t2 32 + x3) -> t4 = w64 (Z.shiftr t3 32 + x4) -> t5 = w64 (Z.shiftr t4 32 + x5) -> t6 = w64 (Z.shiftr t5 32 + x6) -> t7 = w64 (Z.shiftr t6 32 + x7) ->
  xb x0 -> xb x1 -> xb x2 -> xb x3 -> xb x4 -> xb x5 -> xb x6 -> xb x7 ->
  forall r, r = mks8 (t0 mod 2 ^ 32) (t1 mod 2 ^ 32) (t2 mod 2 ^ 32) (t3 mod 2 ^ 32) (t4 mod 2 ^ 32) (t5 mod 2 ^ 32) (t6 mod 2 ^ 32) (t7 mod 2 ^ 32) ->
  s8_lim r /\ 0 <= t7 / 2 ^ 32 <= 16 /\ s8v r + t7 / 2 ^ 32 * 2 ^ 256 = x0 + x1 * 2 ^ 32 + x2 * 2 ^ 64 + x3 * 2 ^ 96 + x4 * 2 ^ 128 + x5 * 2 ^ 160 + x6 * 2 ^ 192 + x7 * 2 ^ 224.
Proof.
  unfold xb. intros E0 E1 E2 E3 E4 E5 E6 E7 X0 X1 X2 X3 X4 X5 X6 X7 r ->.
  assert (T0 : 0 <= t0 <= 2 ^ 36) by lia.
  destruct (chain_w _ _ _ E1 T0 X1) as (F1 & T1 & C1).
  destruct (chain_w _ _ _ E2 T1 X2) as (F2 & T2 & C2).
  destruct (chain_w _ _ _ E3 T2 X3) as (F3 & T3 & C3).
  destruct (chain_w _ _ _ E4 T3 X4) as (F4 & T4 & C4).
  destruct (chain_w _ _ _ E5 T4 X5) as (F5 & T5 & C5).
  destruct (chain_w _ _ _ E6 T5 X6) as (F6 & T6 & C6).
  destruct (chain_w _ _ _ E7 T6 X7) as (F7 & T7 & C7).
  assert (B : forall x, hw (x mod 2 ^ 32)) by (intros; apply Z.mod_pos_bound; reflexivity).
  split; [unfold s8_lim; s8proj; repeat (split; [apply B|]); apply B|].
  split; [split; [apply Z.div_pos; lia|apply Z.div_le_upper_bound; lia]|].
  unfold s8v. s8proj. rewrite <- E0.
  pose proof (Z.div_mod t0 (2 ^ 32) ltac:(discriminate)) as D0.
  pose proof (Z.div_mod t1 (2 ^ 32) ltac:(discriminate)) as D1.
  pose proof (Z.div_mod t2 (2 ^ 32) ltac:(discriminate)) as D2.
  pose proof (Z.div_mod t3 (2 ^ 32) ltac:(discriminate)) as D3.
  pose proof (Z.div_mod t4 (2 ^ 32) ltac:(discriminate)) as D4.
  pose proof (Z.div_mod t5 (2 ^ 32) ltac:(discriminate)) as D5.
  pose proof (Z.div_mod t6 (2 ^ 32) ltac:(discriminate)) as D6.
  pose proof (Z.div_mod t7 (2 ^ 32) ltac:(discriminate)) as D7.
  rewrite F1 in D1 at 1.
  rewrite F2 in D2 at 1.
  rewrite F3 in D3 at 1.
  rewrite F4 in D4 at 1.
  rewrite F5 in D5 at 1.
  rewrite F6 in D6 at 1.
  rewrite F7 in D7 at 1.
  exact (carry8_lin _ _ _ _ _ _ _ _ _ _ _ _ _ _ _ _ _ _ _ _ _ _ _ _ D0 D1 D2 D3 D4 D5 D6 D7).
Qed.

Lemma land_w x : Z.land x 0xFFFFFFFF = x mod 2 ^ 32.
Proof. change 0xFFFFFFFF with (2 ^ 32 - 1). apply land_ones_mod. lia. Qed.
Lemma add_w a b : hw a -> hw b -> w64 (a + b) = a + b /\ xb (a + b).
Proof. unfold hw, xb. intros. rewrite w64_id by lia. lia. Qed.
Lemma hw_xb a : hw a -> xb a.
Proof. unfold hw, xb. lia. Qed.
Lemma hw_0 : hw 0. Proof. split; [discriminate|reflexivity]. Qed.
(** Eight limb additions with carry: the shape shared by reduce, add, negate, ... *)
Lemma chain8_add a0 a1 a2 a3 a4 a5 a6 a7 b0 b1 b2 b3 b4 b5 b6 b7 t0 t1 t2 t3 t4 t5 t6 t7 : t0 = w64 (a0 + b0) ->
  t1 = w64 (Z.shiftr t0 32 + w64 (a1 + b1)) -> t2 = w64 (Z.shiftr t1 32 + w64 (a2 + b2)) -> t3 = w64 (Z.shiftr t2 32 + w64 (a3 + b3)) -> t4 = w64 (Z.shiftr t3 32 + w64 (a4 + b4)) -> t5 = w64 (Z.shiftr t4 32 + w64 (a5 + b5)) -> t6 = w64 (Z.shiftr t5 32 + w64 (a6 + b6)) -> t7 = w64 (Z.shiftr t6 32 + w64 (a7 + b7)) ->
  hw a0 -> hw b0 -> hw a1 -> hw b1 -> hw a2 -> hw b2 -> hw a3 -> hw b3 -> hw a4 -> hw b4 -> hw a5 -> hw b5 -> hw a6 -> hw b6 -> hw a7 -> hw b7 ->
  forall r, r = mks8 (t0 mod 2 ^ 32) (t1 mod 2 ^ 32) (t2 mod 2 ^ 32) (t3 mod 2 ^ 32) (t4 mod 2 ^ 32) (t5 mod 2 ^ 32) (t6 mod 2 ^ 32) (t7 mod 2 ^ 32) ->
  s8_lim r /\ 0 <= t7 / 2 ^ 32 <= 16 /\ s8v r + t7 / 2 ^ 32 * 2 ^ 256 = (a0 + a1 * 2 ^ 32 + a2 * 2 ^ 64 + a3 * 2 ^ 96 + a4 * 2 ^ 128 + a5 * 2 ^ 160 + a6 * 2 ^ 192 + a7 * 2 ^ 224) + (b0 + b1 * 2 ^ 32 + b2 * 2 ^ 64 + b3 * 2 ^ 96 + b4 * 2 ^ 128 + b5 * 2 ^ 160 + b6 * 2 ^ 192 + b7 * 2 ^ 224).
Proof.
  intros E0 E1 E2 E3 E4 E5 E6 E7 A0 B0 A1 B1 A2 B2 A3 B3 A4 B4 A5 B5 A6 B6 A7 B7 r Er.
  destruct (add_w _ _ A0 B0) as [Q0 X0]. rewrite Q0 in E0.
  destruct (add_w _ _ A1 B1) as [Q1 X1]. rewrite Q1 in E1.
  destruct (add_w _ _ A2 B2) as [Q2 X2]. rewrite Q2 in E2.
  destruct (add_w _ _ A3 B3) as [Q3 X3]. rewrite Q3 in E3.
  destruct (add_w _ _ A4 B4) as [Q4 X4]. rewrite Q4 in E4.
  destruct (add_w _ _ A5 B5) as [Q5 X5]. rewrite Q5 in E5.
  destruct (add_w _ _ A6 B6) as [Q6 X6]. rewrite Q6 in E6.
  destruct (add_w _ _ A7 B7) as [Q7 X7]. rewrite Q7 in E7.
  destruct (chain8 _ _ _ _ _ _ _ _ _ _ _ _ _ _ _ _ E0 E1 E2 E3 E4 E5 E6 E7 X0 X1 X2 X3 X4 X5 X6 X7 r Er) as (L & C & V).
  split; [exact L|]. split; [exact C|]. rewrite V. ring.
Qed.

Ltac rland := repeat match goal with E : ?r = Z.land ?t 0xFFFFFFFF |- _ => is_var r; is_var t; rewrite land_w in E; subst r end.
Lemma NC8 : NC = S8_NC_0 + S8_NC_1 * 2 ^ 32 + S8_NC_2 * 2 ^ 64 + S8_NC_3 * 2 ^ 96 + S8_NC_4 * 2 ^ 128.
Proof. reflexivity. Qed.
Lemma s8_reduce_val r ov : s8_lim r -> ov = 0 \/ ov = 1 ->
  s8_lim (s8_reduce r ov) /\ s8v (s8_reduce r ov) = (s8v r + ov * NC) mod 2 ^ 256.
Proof.
  intros (R0 & R1 & R2 & R3 & R4 & R5 & R6 & R7) Ho. remember (s8_reduce r ov) as s eqn:H. symmetry in H.
  cbv beta delta [s8_reduce] in H.
  assert (K : forall c, hw c -> w32 (ov * c) = ov * c /\ hw (ov * c)).
  { intros c Hc. assert (hw (ov * c)) by (unfold hw in *; destruct Ho as [-> | ->]; lia). split; [now apply w32_id|assumption]. }
  destruct (K S8_NC_0) as [K0 L0]; [split; [discriminate|reflexivity]|]. destruct (K S8_NC_1) as [K1 L1]; [split; [discriminate|reflexivity]|].
  destruct (K S8_NC_2) as [K2 L2]; [split; [discriminate|reflexivity]|]. destruct (K S8_NC_3) as [K3 L3]; [split; [discriminate|reflexivity]|].
  destruct (K S8_NC_4) as [K4 L4]; [split; [discriminate|reflexivity]|]. clear K.
  rewrite K0, K1, K2, K3, K4 in H. letb_steps H. rland.
  rewrite (proj1 (add_w _ _ R0 L0)) in Et0. rewrite (proj1 (add_w _ _ R1 L1)) in Et1. rewrite (proj1 (add_w _ _ R2 L2)) in Et2.
  rewrite (proj1 (add_w _ _ R3 L3)) in Et3. rewrite (proj1 (add_w _ _ R4 L4)) in Et4. symmetry in H.
  destruct (chain8 _ _ _ _ _ _ _ _ _ _ _ _ _ _ _ _ Et0 Et1 Et2 Et3 Et4 Et5 Et6 Et7 (proj2 (add_w _ _ R0 L0)) (proj2 (add_w _ _ R1 L1))
    (proj2 (add_w _ _ R2 L2)) (proj2 (add_w _ _ R3 L3)) (proj2 (add_w _ _ R4 L4)) (hw_xb _ R5) (hw_xb _ R6) (hw_xb _ R7) s H) as (L & C & V).
  split; [exact L|]. apply Z.mod_unique with (t7 / 2 ^ 32); [left; now apply s8_lim_range|].
  transitivity (s8v s + t7 / 2 ^ 32 * 2 ^ 256); [|ring]. rewrite V, NC8. unfold s8v. ring.
Qed.
(** Limb-wise comparison, from the top: yes and no tell the order of the limbs seen so far. *)
Lemma cmp_no yes no x k A B : hw x -> hw k -> yes = (B <? A) -> no = (A <? B) ->
  no || ((x <? k) && negb yes) = (x + 2 ^ 32 * A <? k + 2 ^ 32 * B).
Proof.
  unfold hw. intros Hx Hk -> ->.
  destruct (Z.ltb_spec A B), (Z.ltb_spec B A), (Z.ltb_spec x k), (Z.ltb_spec (x + 2 ^ 32 * A) (k + 2 ^ 32 * B)); cbn; try reflexivity; lia.
Qed.
Lemma cmp_yes yes no' x k A B : hw x -> hw k -> yes = (B <? A) -> no' = (x + 2 ^ 32 * A <? k + 2 ^ 32 * B) ->
  yes || ((x >? k) && negb no') = (k + 2 ^ 32 * B <? x + 2 ^ 32 * A).
Proof.
  unfold hw. intros Hx Hk -> ->. rewrite Z.gtb_ltb.
  destruct (Z.ltb_spec k x), (Z.ltb_spec B A), (Z.ltb_spec (x + 2 ^ 32 * A) (k + 2 ^ 32 * B)), (Z.ltb_spec (k + 2 ^ 32 * B) (x + 2 ^ 32 * A)); cbn; try reflexivity; lia.
Qed.
Lemma cmp_ge yes no x k A B : hw x -> hw k -> yes = (B <? A) -> no = (A <? B) ->
  yes || ((x >=? k) && negb no) = (k + 2 ^ 32 * B <=? x + 2 ^ 32 * A).
Proof.
  unfold hw. intros Hx Hk -> ->. rewrite Z.geb_leb.
  destruct (Z.leb_spec k x), (Z.ltb_spec B A), (Z.ltb_spec A B), (Z.leb_spec (k + 2 ^ 32 * B) (x + 2 ^ 32 * A)); cbn; try reflexivity; lia.
Qed.
Lemma cmp_gt yes no x k A B : hw x -> hw k -> yes = (B <? A) -> no = (A <? B) ->
  yes || ((x >? k) && negb no) = (k + 2 ^ 32 * B <? x + 2 ^ 32 * A).
Proof.
  unfold hw. intros Hx Hk -> ->. rewrite Z.gtb_ltb.
  destruct (Z.ltb_spec k x), (Z.ltb_spec B A), (Z.ltb_spec A B), (Z.ltb_spec (k + 2 ^ 32 * B) (x + 2 ^ 32 * A)); cbn; try reflexivity; lia.
Qed.
Lemma cmp_max yes x A B : hw x -> yes = (B <? A) -> yes = (0xFFFFFFFF + 2 ^ 32 * B <? x + 2 ^ 32 * A).
Proof. unfold hw. intros Hx ->. destruct (Z.ltb_spec B A), (Z.ltb_spec (0xFFFFFFFF + 2 ^ 32 * B) (x + 2 ^ 32 * A)); try reflexivity; lia. Qed.
Lemma hw_cst k : (0 <=? k) && (k <? 2 ^ 32) = true -> hw k.
Proof. intros H. apply andb_prop in H as [H1 H2]. apply Z.leb_le in H1. apply Z.ltb_lt in H2. now split. Qed.
Lemma no_first x k yes no : yes = false -> no || (x <? k) = no || ((x <? k) && negb yes).
Proof. intros ->. now rewrite andb_true_r. Qed.

Lemma s8_check_overflow_spec a : s8_lim a -> s8_check_overflow a = (n <=? s8v a).
Proof.
  intros (H0 & H1 & H2 & H3 & H4 & H5 & H6 & H7). rewrite s8v_horner.
  assert (EN : n = horner S8_N_0 S8_N_1 S8_N_2 S8_N_3 S8_N_4 S8_N_5 S8_N_6 S8_N_7) by reflexivity. rewrite EN. clear EN.
  unfold s8_check_overflow. cbn [orb]. destruct a as [a0 a1 a2 a3 a4 a5 a6 a7]. s8proj. 
  s8proj_in H0. s8proj_in H1. s8proj_in H2. s8proj_in H3. s8proj_in H4. s8proj_in H5. s8proj_in H6. s8proj_in H7.
  assert (K0 : hw S8_N_0) by (apply hw_cst; reflexivity). assert (K1 : hw S8_N_1) by (apply hw_cst; reflexivity).
  assert (K2 : hw S8_N_2) by (apply hw_cst; reflexivity). assert (K3 : hw S8_N_3) by (apply hw_cst; reflexivity).
  assert (K4 : hw S8_N_4) by (apply hw_cst; reflexivity).
  assert (Y7 : false = (0xFFFFFFFF <? a7)) by (unfold hw in H7; destruct (Z.ltb_spec 0xFFFFFFFF a7); [lia|reflexivity]).
  remember (a7 <? S8_N_7) as no7 eqn:N7. change S8_N_7 with 0xFFFFFFFF in *. change S8_N_6 with 0xFFFFFFFF in *. change S8_N_5 with 0xFFFFFFFF in *.
  assert (MX : hw 0xFFFFFFFF) by (apply hw_cst; reflexivity).
  pose proof (cmp_no _ _ _ _ _ _ H6 MX Y7 N7) as N6. pose proof (cmp_max _ _ _ _ H6 Y7) as Y6.
  rewrite <- (no_first _ _ false) in N6 by reflexivity.
  remember (no7 || (a6 <? 0xFFFFFFFF)) as no6 eqn:Q. clear Q.
  pose proof (cmp_no _ _ _ _ _ _ H5 MX Y6 N6) as N5. pose proof (cmp_max _ _ _ _ H5 Y6) as Y5.
  rewrite <- (no_first _ _ false) in N5 by reflexivity.
  remember (no6 || (a5 <? 0xFFFFFFFF)) as no5 eqn:Q. clear Q.
  pose proof (cmp_no _ _ _ _ _ _ H4 K4 Y5 N5) as N4. rewrite <- (no_first _ _ false) in N4 by reflexivity.
  remember (no5 || (a4 <? S8_N_4)) as no4 eqn:Q. clear Q.
  pose proof (cmp_yes _ _ _ _ _ _ H4 K4 Y5 N4) as Y4. cbn [orb] in Y4. remember ((a4 >? S8_N_4) && negb no4) as yes4 eqn:Q. clear Q.
  pose proof (cmp_no _ _ _ _ _ _ H3 K3 Y4 N4) as N3. remember (no4 || ((a3 <? S8_N_3) && negb yes4)) as no3 eqn:Q. clear Q.
  pose proof (cmp_yes _ _ _ _ _ _ H3 K3 Y4 N3) as Y3. remember (yes4 || ((a3 >? S8_N_3) && negb no3)) as yes3 eqn:Q. clear Q.
  pose proof (cmp_no _ _ _ _ _ _ H2 K2 Y3 N3) as N2. remember (no3 || ((a2 <? S8_N_2) && negb yes3)) as no2 eqn:Q. clear Q.
  pose proof (cmp_yes _ _ _ _ _ _ H2 K2 Y3 N2) as Y2. remember (yes3 || ((a2 >? S8_N_2) && negb no2)) as yes2 eqn:Q. clear Q.
  pose proof (cmp_no _ _ _ _ _ _ H1 K1 Y2 N2) as N1. remember (no2 || ((a1 <? S8_N_1) && negb yes2)) as no1 eqn:Q. clear Q.
  pose proof (cmp_yes _ _ _ _ _ _ H1 K1 Y2 N1) as Y1. remember (yes2 || ((a1 >? S8_N_1) && negb no1)) as yes1 eqn:Q. clear Q.
  exact (cmp_ge _ _ _ _ _ _ H0 K0 Y1 N1).
Qed.

Lemma s8_is_high_spec a : s8_lim a -> s8_is_high a = (n / 2 <? s8v a).
Proof.
  intros (H0 & H1 & H2 & H3 & H4 & H5 & H6 & H7). rewrite s8v_horner.
  assert (EN : n / 2 = horner S8_NH_0 S8_NH_1 S8_NH_2 S8_NH_3 S8_NH_4 S8_NH_5 S8_NH_6 S8_NH_7) by reflexivity. rewrite EN. clear EN.
  unfold s8_is_high. cbn [orb]. destruct a as [a0 a1 a2 a3 a4 a5 a6 a7]. s8proj. 
  s8proj_in H0. s8proj_in H1. s8proj_in H2. s8proj_in H3. s8proj_in H4. s8proj_in H5. s8proj_in H6. s8proj_in H7.
  assert (K0 : hw S8_NH_0) by (apply hw_cst; reflexivity). assert (K1 : hw S8_NH_1) by (apply hw_cst; reflexivity).
  assert (K2 : hw S8_NH_2) by (apply hw_cst; reflexivity). assert (K3 : hw S8_NH_3) by (apply hw_cst; reflexivity).
  assert (K7 : hw S8_NH_7) by (apply hw_cst; reflexivity). assert (MX : hw 0xFFFFFFFF) by (apply hw_cst; reflexivity).
  remember (a7 <? S8_NH_7) as no7 eqn:N7.
  assert (Y7 : (a7 >? S8_NH_7) && negb no7 = (S8_NH_7 <? a7)).
  { rewrite N7, Z.gtb_ltb. destruct (Z.ltb_spec S8_NH_7 a7), (Z.ltb_spec a7 S8_NH_7); try reflexivity; lia. }
  remember ((a7 >? S8_NH_7) && negb no7) as yes7 eqn:Q. clear Q.
  change S8_NH_6 with 0xFFFFFFFF in *. change S8_NH_5 with 0xFFFFFFFF in *. change S8_NH_4 with 0xFFFFFFFF in *.
  pose proof (cmp_no _ _ _ _ _ _ H6 MX Y7 N7) as N6. remember (no7 || ((a6 <? 0xFFFFFFFF) && negb yes7)) as no6 eqn:Q. clear Q.
  pose proof (cmp_max _ _ _ _ H6 Y7) as Y6.
  pose proof (cmp_no _ _ _ _ _ _ H5 MX Y6 N6) as N5. remember (no6 || ((a5 <? 0xFFFFFFFF) && negb yes7)) as no5 eqn:Q. clear Q.
  pose proof (cmp_max _ _ _ _ H5 Y6) as Y5.
  pose proof (cmp_no _ _ _ _ _ _ H4 MX Y5 N5) as N4. remember (no5 || ((a4 <? 0xFFFFFFFF) && negb yes7)) as no4 eqn:Q. clear Q.
  pose proof (cmp_max _ _ _ _ H4 Y5) as Y4.
  pose proof (cmp_no _ _ _ _ _ _ H3 K3 Y4 N4) as N3. remember (no4 || ((a3 <? S8_NH_3) && negb yes7)) as no3 eqn:Q. clear Q.
  pose proof (cmp_yes _ _ _ _ _ _ H3 K3 Y4 N3) as Y3. remember (yes7 || ((a3 >? S8_NH_3) && negb no3)) as yes3 eqn:Q. clear Q.
  pose proof (cmp_no _ _ _ _ _ _ H2 K2 Y3 N3) as N2. remember (no3 || ((a2 <? S8_NH_2) && negb yes3)) as no2 eqn:Q. clear Q.
  pose proof (cmp_yes _ _ _ _ _ _ H2 K2 Y3 N2) as Y2. remember (yes3 || ((a2 >? S8_NH_2) && negb no2)) as yes2 eqn:Q. clear Q.
  pose proof (cmp_no _ _ _ _ _ _ H1 K1 Y2 N2) as N1. remember (no2 || ((a1 <? S8_NH_1) && negb yes2)) as no1 eqn:Q. clear Q.
  pose proof (cmp_yes _ _ _ _ _ _ H1 K1 Y2 N1) as Y1. remember (yes2 || ((a1 >? S8_NH_1) && negb no1)) as yes1 eqn:Q. clear Q.
  exact (cmp_gt _ _ _ _ _ _ H0 K0 Y1 N1).
Qed.
