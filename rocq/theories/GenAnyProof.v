(** The generator multiplication is exact in every table configuration, for any table
    whose entries are the right points. *)
Require Import ZArith List Bool Lia.
From Verif Require Import Word Bytes Spec ZmField Curve FieldModel FieldMul FieldProof FieldProof2 FieldBytes FieldOps ScalarModel ScalarProof ScalarProof2 ScalarSplit
  GroupModel GroupProof GroupProof2 GroupProof3 GroupProof4 GroupProof5 SpecHash HashModel HashProof GenTable GenTableProof GenModel GenProof GenAnyModel.
Import ListNotations.
Local Open Scope Z_scope.

(** ** Signed digit sums *)
Definition pm (b : bool) : Z := if b then 1 else -1.
(** Sum of +- 2^((base + t) * s) over t < k, with the sign f t. *)
Fixpoint tsum (f : Z -> bool) (base s : Z) (k : nat) : Z :=
  match k with O => 0 | S k' => tsum f base s k' + pm (f (Z.of_nat k')) * 2 ^ ((base + Z.of_nat k') * s) end.
Lemma tsum_ext f g base s k : (forall t, 0 <= t < Z.of_nat k -> f t = g t) -> tsum f base s k = tsum g base s k.
Proof.
  induction k as [|k IH]; intros H; [reflexivity|]. cbn [tsum]. rewrite (H (Z.of_nat k)) by lia. rewrite IH; [reflexivity|]. intros t Ht. apply H. lia.
Qed.
Lemma tsum_neg f base s k : tsum (fun t => negb (f t)) base s k = - tsum f base s k.
Proof. induction k as [|k IH]; [reflexivity|]. cbn [tsum]. rewrite IH. unfold pm. destruct (f (Z.of_nat k)); cbn [negb]; ring. Qed.
Lemma tsum_app f base s k m : tsum f base s (k + m) = tsum f base s k + tsum (fun t => f (Z.of_nat k + t)) (base + Z.of_nat k) s m.
Proof.
  induction m as [|m IH]; [rewrite Nat.add_0_r; cbn [tsum]; ring|]. rewrite Nat.add_succ_r. cbn [tsum]. rewrite IH, Nat2Z.inj_add.
  rewrite (Z.add_assoc base (Z.of_nat k) (Z.of_nat m)). ring.
Qed.

(** The comb at offset off: digits at positions t * s + off for t < k. *)
Definition acomb (d s off : Z) (k : nat) : Z := tsum (fun t => Z.testbit d (t * s + off)) 0 s k.
Fixpoint offsum (d s : Z) (k m : nat) : Z :=
  match m with O => 0 | S m' => offsum d s k m' + 2 ^ Z.of_nat m' * acomb d s (Z.of_nat m') k end.
Lemma offsum_0 d s m : offsum d s 0 m = 0.
Proof. induction m as [|m IH]; [reflexivity|]. cbn [offsum]. rewrite IH. cbn. ring. Qed.
Lemma interleave_step d (s k m : nat) :
  offsum d (Z.of_nat s) (S k) m - offsum d (Z.of_nat s) k m = bit_sum d (k * s + m) - bit_sum d (k * s).
Proof.
  induction m as [|m IH]; [rewrite Nat.add_0_r; cbn; ring|]. rewrite Nat.add_succ_r. cbn [offsum bit_sum].
  unfold acomb at 1. cbn [tsum]. fold (acomb d (Z.of_nat s) (Z.of_nat m) k).
  replace (Z.of_nat (k * s + m)) with (Z.of_nat k * Z.of_nat s + Z.of_nat m) by lia. rewrite Z.add_0_l, Z.pow_add_r by lia.
  unfold sgn_bit, pm. rewrite Z.mul_add_distr_l.
  replace (offsum d (Z.of_nat s) (S k) m) with (offsum d (Z.of_nat s) k m + (bit_sum d (k * s + m) - bit_sum d (k * s))) by lia. ring.
Qed.
Lemma interleave d (s k : nat) : offsum d (Z.of_nat s) k s = bit_sum d (k * s).
Proof.
  induction k as [|k IH]; [apply offsum_0|]. pose proof (interleave_step d s k s) as H.
  replace (S k * s)%nat with (k * s + s)%nat by lia. lia.
Qed.

(** ** Configurations *)
Lemma compiles_bounds g : comb_compiles g = true ->
  (1 <= blocks g)%nat /\ (1 <= teeth g <= 8)%nat /\ (256 <= bits_covered g)%nat /\ (1 <= spacing g)%nat /\
  ((blocks g - 1) * teeth g * spacing g < 256)%nat /\ (blocks g * (teeth g - 1) * spacing g < 256)%nat.
Proof.
  unfold comb_compiles. rewrite !andb_true_iff, !negb_true_iff, !Nat.leb_le, Nat.ltb_ge, !Nat.leb_gt. intros H.
  assert (1 <= spacing g)%nat by (unfold spacing, ceil_div; apply le_n_S, Nat.le_0_l). destruct H as (((((H1 & H2) & H3 & H4) & H5) & H6) & H7). auto 10.
Qed.

(** The coefficient, in units of G/2, of entry i of block b. *)
Definition any_coef (g : comb) (b i : Z) : Z := tsum (Z.testbit i) (Z.of_nat (teeth g) * b) (Z.of_nat (spacing g)) (teeth g).
Definition ges0 : ge_storage := mkges (mkfes 0 0 0 0) (mkfes 0 0 0 0).
Definition any_tab_ok (g : comb) (b : Z) (tab : list ge_storage) : Prop :=
  length tab = points g /\ Forall ges_ok tab /\
  forall i, (i < points g)%nat -> exists x y, on_curve (Aff x y) /\ Aff x y = pmul (any_coef g b (Z.of_nat i)) HG /\
    sval (stx (nth i tab ges0)) = x /\ sval (sty (nth i tab ges0)) = y.
Fixpoint any_tabs_ok (g : comb) (b : Z) (tabs : list (list ge_storage)) : Prop :=
  match tabs with [] => True | tab :: tabs' => any_tab_ok g b tab /\ any_tabs_ok g (b + 1) tabs' end.

(** ** Gathering bits *)
Definition arec_ok (g : comb) (rec : list Z) (d : Z) : Prop :=
  forall pos, 0 <= pos < Z.of_nat (bits_covered g) -> 0 <= nth (Z.to_nat (Z.shiftr pos 5)) rec 0 < 2 ^ 32 /\
    Z.testbit (nth (Z.to_nat (Z.shiftr pos 5)) rec 0) (Z.land pos 31) = Z.testbit d pos.

Lemma any_recode_ok g d : (256 <= bits_covered g)%nat -> sc_ok d -> arec_ok g (any_recode g d) (sv d).
Proof.
  intros HB Hd pos Hp. rewrite land31 by lia. rewrite shiftr_div by lia. change (2 ^ 5) with 32.
  pose proof (sc_ok_range _ Hd) as R. assert (Hn : n < 2 ^ 256) by reflexivity.
  set (q := pos / 32). assert (Hq : 0 <= q) by (unfold q; apply Z.div_pos; lia).
  assert (Eq : pos = 32 * q + pos mod 32) by (unfold q; apply Z.div_mod; lia).
  pose proof (Z.mod_pos_bound pos 32 ltac:(lia)) as Hm.
  unfold any_recode. cbv zeta. set (w := ((bits_covered g + 31) / 32)%nat).
  assert (Hw : (8 <= w)%nat) by (unfold w; apply Nat.div_le_lower_bound; lia).
  rewrite Nat.min_l by exact Hw.
  assert (C : 8 <= q \/ 0 <= q < 8) by lia. destruct C as [E8 | L].
  - assert (E : nth (Z.to_nat q) (map (fun i => sc_get_bits_limb32 d (32 * Z.of_nat i) 32) (seq 0 8) ++ repeat 0 (w - 8)) 0 = 0).
    { rewrite app_nth2 by (rewrite map_length, seq_length; lia). apply nth_repeat. }
    rewrite E, Z.testbit_0_l. split; [lia|].
    symmetry. destruct (Z.eq_dec (sv d) 0) as [-> | NZ]; [apply Z.testbit_0_l|].
    apply Z.bits_above_log2; [lia|]. apply Z.lt_le_trans with 256; [|lia]. apply Z.log2_lt_pow2; lia.
  - assert (E : nth (Z.to_nat q) (map (fun i => sc_get_bits_limb32 d (32 * Z.of_nat i) 32) (seq 0 8) ++ repeat 0 (w - 8)) 0 = sc_get_bits_limb32 d (32 * q) 32).
    { rewrite app_nth1 by (rewrite map_length, seq_length; lia).
      rewrite (nth_indep _ 0 (sc_get_bits_limb32 d (32 * Z.of_nat 0) 32)) by (rewrite map_length, seq_length; lia).
      rewrite (map_nth (fun i => sc_get_bits_limb32 d (32 * Z.of_nat i) 32)), seq_nth by lia. do 2 f_equal. lia. }
    rewrite E, sc_get_bits_limb32_ok; [|apply Hd|lia|lia|lia|].
    + split; [apply Z.mod_pos_bound; lia|]. rewrite Z.mod_pow2_bits_low by lia. rewrite Z.div_pow2_bits by lia. f_equal. lia.
    + assert (K : q = 0 \/ q = 1 \/ q = 2 \/ q = 3 \/ q = 4 \/ q = 5 \/ q = 6 \/ q = 7) by lia.
      destruct K as [-> | [-> | [-> | [-> | [-> | [-> | [-> | ->]]]]]]]; reflexivity.
Qed.

Lemma any_bits_ok g k : forall rec d tooth bit_pos bits base, arec_ok g rec d -> 0 <= tooth -> tooth + Z.of_nat k <= 32 ->
  bit_pos = base + tooth * Z.of_nat (spacing g) -> 0 <= base ->
  (forall j, 0 <= j < tooth + Z.of_nat k -> base + j * Z.of_nat (spacing g) < Z.of_nat (bits_covered g)) ->
  (forall j, 0 <= j < tooth -> Z.testbit bits j = Z.testbit d (base + j * Z.of_nat (spacing g))) ->
  forall j, 0 <= j < tooth + Z.of_nat k -> Z.testbit (any_bits k g rec tooth bit_pos bits) j = Z.testbit d (base + j * Z.of_nat (spacing g)).
Proof.
  induction k as [|k IH]; intros rec d tooth bit_pos bits base HR Ht Hk E Hb Hl HB j Hj; cbn [any_bits].
  - apply HB. lia.
  - apply (IH rec d (tooth + 1) (bit_pos + Z.of_nat (spacing g)) _ base); try assumption; try lia.
    { intros i Hi. apply Hl. lia. }
    clear j Hj. intros j Hj.
    assert (Hbp : 0 <= bit_pos) by (rewrite E; apply Z.add_nonneg_nonneg; [exact Hb|apply Z.mul_nonneg_nonneg; lia]).
    pose proof (Hl tooth ltac:(lia)) as Hlt.
    destruct (HR bit_pos ltac:(lia)) as [R1 R2]. rewrite land31 in R2 by lia.
    rewrite Z.lxor_spec, Z.land_spec, !testbit_w32 by lia. rewrite Z.lnot_spec by lia.
    destruct (Z.eq_dec j tooth) as [->|N].
    + rewrite !Z.shiftl_spec by lia. rewrite Z.sub_diag. change (Z.testbit 1 0) with true. cbn [negb]. rewrite andb_false_r, xorb_false_l.
      rewrite rotr32_bit0; [| exact R1 | rewrite land31 by lia; apply Z.mod_pos_bound; lia]. rewrite land31 by lia. rewrite R2. f_equal. lia.
    + rewrite !Z.shiftl_spec_low by lia. cbn [negb]. rewrite andb_true_r, xorb_false_r. apply HB. lia.
Qed.

Lemma any_abs_bits bits sign t : sign = 0 \/ sign = 1 -> 0 <= t <= 31 ->
  0 <= Z.land (Z.lxor bits (w32 (- sign))) (2 ^ t - 1) < 2 ^ t /\
  (forall j, 0 <= j < t -> Z.testbit (Z.land (Z.lxor bits (w32 (- sign))) (2 ^ t - 1)) j = xorb (Z.testbit bits j) (sign =? 1)) /\
  Z.testbit (Z.land (Z.lxor bits (w32 (- sign))) (2 ^ t - 1)) t = false.
Proof.
  intros Hs Ht. replace (2 ^ t - 1) with (Z.ones t) by (rewrite Z.ones_equiv; lia). rewrite Z.land_ones by lia.
  split; [apply Z.mod_pos_bound, Z.pow_pos_nonneg; lia|]. split.
  - intros j Hj. rewrite Z.mod_pow2_bits_low, Z.lxor_spec, testbit_w32 by lia. f_equal.
    destruct Hs as [-> | ->]; cbn [Z.opp Z.eqb]; [apply Z.testbit_0_l|]. change (-1) with (Z.lnot 0). rewrite Z.lnot_spec by lia. now rewrite Z.testbit_0_l.
  - apply Z.mod_pow2_bits_high. lia.
Qed.

Lemma points_Z g : (1 <= teeth g)%nat -> Z.of_nat (points g) = 2 ^ (Z.of_nat (teeth g) - 1).
Proof. intros H. unfold points. rewrite Nat2Z.inj_pow. f_equal. lia. Qed.

Lemma any_signed_coef g d off b bits sign : (1 <= teeth g <= 8)%nat -> sign = b2z (Z.testbit bits (Z.of_nat (teeth g) - 1)) ->
  (forall j, 0 <= j < Z.of_nat (teeth g) -> Z.testbit bits j = Z.testbit d ((Z.of_nat (teeth g) * b + j) * Z.of_nat (spacing g) + off)) ->
  let abs := Z.land (Z.lxor bits (w32 (- sign))) (Z.of_nat (points g) - 1) in
  (if sign =? 1 then - any_coef g b abs else any_coef g b abs) =
  tsum (fun t => Z.testbit d ((Z.of_nat (teeth g) * b + t) * Z.of_nat (spacing g) + off)) (Z.of_nat (teeth g) * b) (Z.of_nat (spacing g)) (teeth g).
Proof.
  intros HT Es HB abs. assert (Hs : sign = 0 \/ sign = 1) by (rewrite Es; destruct Z.testbit; cbn; auto).
  subst abs. rewrite points_Z by lia. destruct (any_abs_bits bits sign (Z.of_nat (teeth g) - 1) Hs ltac:(lia)) as (_ & B & B5).
  set (ab := Z.land _ _) in *. clearbody ab.
  assert (K : forall t, 0 <= t < Z.of_nat (teeth g) -> Z.testbit ab t = xorb (Z.testbit bits t) (sign =? 1)).
  { intros t Ht. destruct (Z.eq_dec t (Z.of_nat (teeth g) - 1)) as [->|N]; [|apply B; lia].
    rewrite B5, Es. destruct Z.testbit; reflexivity. }
  unfold any_coef. destruct (sign =? 1); [rewrite <- tsum_neg|]; apply tsum_ext; intros t Ht; rewrite (K t Ht), <- (HB t Ht); destruct (Z.testbit bits t); reflexivity.
Qed.

(** ** The loops *)
Lemma any_blocks_ok g c rec d off : comb_compiles g = true -> gctx_blind_ok c -> arec_ok g rec d -> 0 <= off < Z.of_nat (spacing g) -> forall tabs (b : nat) st k,
  (b + length tabs <= blocks g)%nat -> any_tabs_ok g (Z.of_nat b) tabs -> st_ok st k ->
  let st' := any_blocks g c rec tabs (Z.of_nat b * Z.of_nat (teeth g) * Z.of_nat (spacing g) + off) st in
  st_ok st' (k + (acomb d (Z.of_nat (spacing g)) off ((b + length tabs) * teeth g) - acomb d (Z.of_nat (spacing g)) off (b * teeth g))) /\ (tabs = [] \/ snd st' = false).
Proof.
  intros HG0 [PB PN] HR Ho. destruct (compiles_bounds g HG0) as (_ & HT0 & _ & HSp & _).
  induction tabs as [|tab tabs IH]; intros b st k Hb HT HS.
  - cbn [any_blocks length]. rewrite Nat.add_0_r, Z.sub_diag, Z.add_0_r. split; [exact HS|now left].
  - cbn [any_blocks length any_tabs_ok] in *. destruct HT as [(TL & TF & TE) HT]. destruct st as [[r adds] first].
    destruct HS as [HA HS]. cbn [fst snd] in HA, HS.
    set (T := Z.of_nat (teeth g)) in *. set (s := Z.of_nat (spacing g)) in *.
    assert (T1 : 1 <= T <= 8) by lia. assert (s1' : 1 <= s) by lia.
    set (bits := any_bits (teeth g) g rec 0 (Z.of_nat b * T * s + off) 0).
    assert (HB : forall j, 0 <= j < T -> Z.testbit bits j = Z.testbit d ((T * Z.of_nat b + j) * s + off)).
    { intros j Hj. unfold bits. replace ((T * Z.of_nat b + j) * s + off) with (Z.of_nat b * T * s + off + j * s) by ring.
      refine (any_bits_ok g (teeth g) rec d 0 (Z.of_nat b * T * s + off) 0 (Z.of_nat b * T * s + off) HR _ _ _ _ _ _ j _).
      - lia.
      - lia.
      - ring.
      - apply Z.add_nonneg_nonneg; [|lia]. apply Z.mul_nonneg_nonneg; [|lia]. apply Z.mul_nonneg_nonneg; lia.
      - intros i Hi. fold s. unfold bits_covered. rewrite !Nat2Z.inj_mul. fold T s.
        assert ((Z.of_nat b * T + i + 1) * s <= Z.of_nat (blocks g) * T * s).
        { apply Z.mul_le_mono_nonneg_r; [lia|]. assert ((Z.of_nat b + 1) * T <= Z.of_nat (blocks g) * T) by (apply Z.mul_le_mono_nonneg_r; lia). lia. }
        lia.
      - intros i Hi. lia.
      - lia. }
    set (sign := Z.land (Z.shiftr bits (T - 1)) 1).
    assert (Es : sign = b2z (Z.testbit bits (T - 1))).
    { unfold sign. rewrite land_1, shiftr_div, <- Z.testbit_spec' by lia. now destruct (Z.testbit bits (T - 1)). }
    assert (Hs : sign = 0 \/ sign = 1) by (rewrite Es; destruct (Z.testbit bits (T - 1)); cbn; auto).
    pose proof (any_signed_coef g d off (Z.of_nat b) bits sign HT0 Es HB) as SC. cbv zeta in SC. fold T s in SC.
    set (abs := Z.land (Z.lxor bits (w32 (- sign))) (Z.of_nat (points g) - 1)) in *.
    assert (Rabs : 0 <= abs < Z.of_nat (points g)).
    { unfold abs. rewrite points_Z by lia. apply any_abs_bits; [exact Hs|lia]. }
    set (adds' := gen_lookup tab 0 abs adds).
    assert (EA : adds' = nth (Z.to_nat abs) tab ges0) by (apply gen_lookup_nth; [exact TF|exact HA|lia]).
    assert (HA' : ges_ok adds').
    { rewrite EA. rewrite Forall_forall in TF. apply TF, nth_In. lia. }
    destruct (TE (Z.to_nat abs) ltac:(lia)) as (x & y & OC & EP & SX & SY). rewrite <- EA in SX, SY. rewrite Z2Nat.id in EP by lia.
    destruct (ge_from_storage_ok adds' x y (proj1 HA') (proj2 HA') SX SY OC) as (GR & NX & NY).
    cbv zeta. set (add := mkge _ _ _). set (cf := tsum _ _ _ _) in SC.
    assert (AR : ge_rep f1 add (pmul cf HG)).
    { pose proof (ge_rep_negy f1 _ _ eq_refl GR (fe_norm_mag _ NY) sign Hs) as K. fold add in K. rewrite EP in K.
      rewrite <- SC. destruct (sign =? 1); [rewrite pmul_neg by apply HG_on_curve|]; exact K. }
    assert (AF : ginf add = false) by reflexivity.
    assert (EC : acomb d s off (S b * teeth g) = acomb d s off (b * teeth g) + cf).
    { unfold acomb. replace (S b * teeth g)%nat with (b * teeth g + teeth g)%nat by lia. rewrite tsum_app. f_equal. unfold cf.
      rewrite Z.add_0_l, Nat2Z.inj_mul. fold T. rewrite (Z.mul_comm (Z.of_nat b) T). reflexivity. }
    clearbody add abs sign bits cf.
    set (r' := if first then gej_rescale (gej_set_ge add) (g_proj_blind c) else gej_add_ge r add).
    assert (HS' : st_ok (r', adds', false) (k + cf)).
    { split; [exact HA'|]. cbn [fst snd]. unfold r'. destruct first.
      - subst k. rewrite Z.add_0_l. apply gej_rescale_ok; [|exact PB|exact PN]. apply gej_set_ge_ok. exact AR.
      - rewrite pmul_add by apply HG_on_curve. apply gej_add_ge_ok; [apply f1_nz|exact HS|exact AR|exact AF]. }
    replace (Z.of_nat b * T * s + off + T * s) with (Z.of_nat (S b) * T * s + off) by lia.
    specialize (IH (S b) _ _ ltac:(lia) ltac:(replace (Z.of_nat (S b)) with (Z.of_nat b + 1) by lia; exact HT) HS'). cbv zeta in IH. destruct IH as [I1 I2].
    rewrite <- Nat.add_succ_comm. rewrite EC in I1.
    split.
    + replace (k + (acomb d s off ((S b + length tabs) * teeth g) - acomb d s off (b * teeth g))) with
        (k + cf + (acomb d s off ((S b + length tabs) * teeth g) - (acomb d s off (b * teeth g) + cf))) by ring.
      exact I1.
    + right. destruct I2 as [-> | I2]; [reflexivity|exact I2].
Qed.

Lemma any_outer_S k g c tabs rec st : any_outer (S k) g c tabs rec st =
  let '(r, adds, first) := any_blocks g c rec tabs (Z.of_nat (S k)) st in any_outer k g c tabs rec (gej_double r, adds, first).
Proof. reflexivity. Qed.
Lemma any_outer_0 g c tabs rec st : any_outer 0 g c tabs rec st = let '(r, adds, first) := any_blocks g c rec tabs 0 st in r.
Proof. reflexivity. Qed.

Lemma any_outer_step g c tabs rec d off st k : comb_compiles g = true -> gctx_blind_ok c -> arec_ok g rec d -> 0 <= off < Z.of_nat (spacing g) ->
  any_tabs_ok g 0 tabs -> length tabs = blocks g -> st_ok st k ->
  exists r adds, any_blocks g c rec tabs off st = (r, adds, false) /\ ges_ok adds /\
    gej_rep f1 r (pmul (k + acomb d (Z.of_nat (spacing g)) off (blocks g * teeth g)) HG).
Proof.
  intros HG0 HC HR Ho HT HL HS. destruct (any_blocks_ok g c rec d off HG0 HC HR Ho tabs 0 st k ltac:(lia) HT HS) as [A B].
  change (Z.of_nat 0 * Z.of_nat (teeth g) * Z.of_nat (spacing g) + off) with off in A, B.
  rewrite HL in A. change (0 + blocks g)%nat with (blocks g) in A. change (acomb d (Z.of_nat (spacing g)) off (0 * teeth g)) with 0 in A. rewrite Z.sub_0_r in A.
  destruct (any_blocks g c rec tabs off st) as [[r adds] first]. destruct B as [-> | B].
  { destruct (compiles_bounds g HG0) as (H1 & _). cbn [length] in HL. lia. }
  cbn [snd] in B. subst first.
  destruct A as [A1 A2]. exists r, adds. split; [reflexivity|]. split; [exact A1|exact A2].
Qed.

Lemma any_outer_ok g c tabs rec d : comb_compiles g = true -> gctx_blind_ok c -> arec_ok g rec d -> any_tabs_ok g 0 tabs -> length tabs = blocks g ->
  forall k st m, (k < spacing g)%nat -> st_ok st m ->
  gej_rep f1 (any_outer k g c tabs rec st) (pmul (2 ^ Z.of_nat k * m + offsum d (Z.of_nat (spacing g)) (blocks g * teeth g) (S k)) HG).
Proof.
  intros HG0 HC HR HT HL. induction k as [|k IH]; intros st m Hk HS.
  - rewrite any_outer_0. destruct (any_outer_step g c tabs rec d 0 st m HG0 HC HR ltac:(lia) HT HL HS) as (r & a & E & A & R). rewrite E.
    cbn [offsum]. change (2 ^ Z.of_nat 0) with 1. change (Z.of_nat 0) with 0. rewrite Z.add_0_l, !Z.mul_1_l. exact R.
  - rewrite any_outer_S. destruct (any_outer_step g c tabs rec d (Z.of_nat (S k)) st m HG0 HC HR ltac:(lia) HT HL HS) as (r & a & E & A & R). rewrite E.
    set (q := acomb d (Z.of_nat (spacing g)) (Z.of_nat (S k)) (blocks g * teeth g)) in R.
    assert (S2 : st_ok (gej_double r, a, false) (2 * (m + q))).
    { split; [exact A|]. cbn [fst snd]. replace (2 * (m + q)) with ((m + q) + (m + q)) by ring.
      rewrite pmul_add by apply HG_on_curve. apply gej_double_ok; [apply f1_nz|exact R]. }
    specialize (IH _ _ ltac:(lia) S2).
    replace (2 ^ Z.of_nat (S k) * m + offsum d (Z.of_nat (spacing g)) (blocks g * teeth g) (S (S k))) with
      (2 ^ Z.of_nat k * (2 * (m + q)) + offsum d (Z.of_nat (spacing g)) (blocks g * teeth g) (S k)); [exact IH|].
    change (offsum d (Z.of_nat (spacing g)) (blocks g * teeth g) (S (S k))) with (offsum d (Z.of_nat (spacing g)) (blocks g * teeth g) (S k) + 2 ^ Z.of_nat (S k) * q).
    rewrite Nat2Z.inj_succ, Z.pow_succ_r by lia. ring.
Qed.

(** ** The context invariant and the multiplication *)
Definition any_diff (g : comb) : Z := ((2 ^ Z.of_nat (bits_covered g) - 1) * half_n) mod n.
Definition any_ctx_ok (g : comb) (c : gen_ctx) : Prop :=
  sc_ok (g_scalar_offset c) /\ gctx_blind_ok c /\
  exists b, sv (g_scalar_offset c) = (any_diff g - b) mod n /\ ge_rep f1 (g_ge_offset c) (pmul b G) /\ ginf (g_ge_offset c) = false.

Section Mult.
  Variable g : comb.
  Hypothesis HG0 : comb_compiles g = true.
  Variable tabs : list (list ge_storage).
  Hypothesis HT : any_tabs_ok g 0 tabs.
  Hypothesis HL : length tabs = blocks g.

  Lemma any_ecmult_gen_ok c a : any_ctx_ok g c -> sc_ok a -> gej_rep f1 (any_ecmult_gen g tabs c a) (pmul (sv a) G).
  Proof.
    intros (HO & HB & b & Eb & HG1 & HG2) Ha. unfold any_ecmult_gen. destruct (compiles_bounds g HG0) as (_ & _ & HBits & HSp & _).
    set (d := sc_add (g_scalar_offset c) a). assert (Hd : sc_ok d) by now apply sc_add_ok.
    assert (Ed : sv d = (any_diff g - b + sv a) mod n).
    { unfold d. rewrite sc_add_sv, Eb by assumption. now rewrite Zplus_mod_idemp_l. }
    clearbody d. cbv zeta. set (st := (_, _, true)). pose proof (sc_ok_range _ Hd) as Rd.
    assert (Hn : n < 2 ^ Z.of_nat (bits_covered g)).
    { apply Z.lt_le_trans with (2 ^ 256); [reflexivity|]. apply Z.pow_le_mono_r; lia. }
    assert (S : st_ok st 0) by (unfold st; split; [|reflexivity]; repeat split; cbn; lia). clearbody st.
    pose proof (any_outer_ok g c tabs (any_recode g d) (sv d) HG0 HB (any_recode_ok g d HBits Hd) HT HL (spacing g - 1) st 0 ltac:(lia) S) as R.
    replace (Datatypes.S (spacing g - 1)) with (spacing g) in R by lia. rewrite Z.mul_0_r, Z.add_0_l, interleave, bit_sum_val in R.
    change (blocks g * teeth g * spacing g)%nat with (bits_covered g) in R. rewrite Z.mod_small in R by lia.
    pose proof (gej_add_ge_ok f1 _ _ _ _ f1_nz R HG1 HG2) as K.
    rewrite HG_pmul, <- pmul_add in K by auto with curve.
    set (W := 2 ^ Z.of_nat (bits_covered g)) in *.
    match type of K with gej_rep _ _ (pmul ?e G) => assert (EE : pmul (sv a) G = pmul e G) end.
    { apply pmul_eq_mod; [apply on_curve_G|]. rewrite Ed. rewrite <- Zplus_mod_idemp_l.
      replace ((2 * ((any_diff g - b + sv a) mod n) - (W - 1)) * half_n) with (((any_diff g - b + sv a) mod n) * (2 * half_n) - (W - 1) * half_n) by ring.
      rewrite two_half. rewrite Zplus_mod_idemp_l.
      replace ((any_diff g - b + sv a) mod n * (n + 1) - (W - 1) * half_n + b) with
        ((any_diff g - b + sv a) mod n + (b - (W - 1) * half_n) + (any_diff g - b + sv a) mod n * n) by ring.
      rewrite Z.mod_add by discriminate. rewrite Zplus_mod_idemp_l.
      replace (any_diff g - b + sv a + (b - (W - 1) * half_n)) with (any_diff g + (sv a - (W - 1) * half_n)) by ring.
      unfold any_diff. fold W. rewrite Zplus_mod_idemp_l. f_equal. ring. }
    rewrite EE. exact K.
  Qed.

  Lemma double_n_sv k : forall a, sc_ok a -> sv (double_n k a) = (2 ^ Z.of_nat k * sv a) mod n.
  Proof.
    induction k as [|k IH]; intros a Ha; cbn [double_n].
    - change (2 ^ Z.of_nat 0) with 1. rewrite Z.mul_1_l, Z.mod_small; [reflexivity|]. now apply sc_ok_range.
    - rewrite IH by now apply sc_add_ok. rewrite sc_add_sv by assumption. rewrite Z.mul_mod_idemp_r by discriminate.
      rewrite Nat2Z.inj_succ, Z.pow_succ_r by lia. f_equal. ring.
  Qed.
  Lemma half_sv : sv (sc_half sc_one) = half_n.
  Proof. vm_compute. reflexivity. Qed.
  Lemma any_scalar_diff_ok : sc_ok (any_scalar_diff g) /\ sv (any_scalar_diff g) = any_diff g.
  Proof.
    destruct sc_one_ok as [O1 O2]. destruct (sc_half_ok _ O1) as [H1 _]. destruct (sc_negate_ok _ H1) as [N1 N2].
    destruct (compiles_bounds g HG0) as (_ & _ & HBits & _).
    assert (D : sc_ok (double_n (bits_covered g - 1) sc_one)) by apply double_n_ok, O1.
    unfold any_scalar_diff. split; [now apply sc_add_ok|].
    rewrite sc_add_sv by assumption. rewrite double_n_sv, O2, N2, half_sv by exact O1. unfold any_diff.
    replace (Z.of_nat (bits_covered g)) with (Z.succ (Z.of_nat (bits_covered g - 1))) by lia. rewrite Z.pow_succ_r by lia.
    set (V := 2 ^ Z.of_nat (bits_covered g - 1)).
    replace ((2 * V - 1) * half_n) with (V * (2 * half_n) - half_n) by ring. rewrite two_half.
    rewrite Zplus_mod_idemp_l, Zplus_mod_idemp_r.
    replace (V * (n + 1) - half_n) with (V * 1 + - half_n + V * n) by ring. rewrite Z.mod_add by discriminate. reflexivity.
  Qed.

  Lemma any_blind_none_ok c : any_ctx_ok g (any_blind g tabs c None).
  Proof.
    unfold any_blind. destruct any_scalar_diff_ok as [D1 D2]. destruct sc_one_ok as [O1 O2]. split; [|split].
    - cbn [g_scalar_offset]. now apply sc_add_ok.
    - split; cbn [g_proj_blind]; [exact (fx_mag_w _ 8 _ _ fx_one eq_refl)|]. rewrite (fx_fv _ _ _ fx_one). apply f1_nz.
    - exists (-1). cbn [g_scalar_offset g_ge_offset]. split.
      + rewrite sc_add_sv, O2, D2 by assumption. f_equal. ring.
      + apply ge_neg_G_ok.
  Qed.
  Lemma any_blind_some_ok c f b : any_ctx_ok g c -> fe_mag 8 f -> fv f <> f0 -> sc_ok b -> 0 < sv b < n ->
    any_ctx_ok g (mkgen (g_built c) (sc_add (sc_negate b) (any_scalar_diff g))
      (ge_set_gej (any_ecmult_gen g tabs (mkgen (g_built c) (g_scalar_offset c) (g_ge_offset c) f) b)) f).
  Proof.
    intros (HO & HB & b0 & Eb & HG1 & HG2) Mf Nf Hb Rb. destruct any_scalar_diff_ok as [D1 D2].
    assert (HC : any_ctx_ok g (mkgen (g_built c) (g_scalar_offset c) (g_ge_offset c) f)).
    { split; [exact HO|]. split; [split; assumption|]. exists b0. split; [exact Eb|]. split; [exact HG1|exact HG2]. }
    pose proof (any_ecmult_gen_ok _ _ HC Hb) as R. destruct (ge_set_gej_ok _ _ _ R) as (GR & _ & _).
    destruct (sc_negate_ok b Hb) as [N1 N2].
    split; [|split].
    - cbn [g_scalar_offset]. now apply sc_add_ok.
    - split; assumption.
    - exists (sv b). cbn [g_scalar_offset g_ge_offset]. split; [|split].
      + rewrite sc_add_sv, N2, D2 by assumption. rewrite Zplus_mod_idemp_l. f_equal. ring.
      + exact GR.
      + set (x := ge_set_gej _) in *. clearbody x. destruct (ginf x) eqn:E; [|reflexivity]. exfalso. apply (ge_rep_ginf _ _ _ GR) in E. apply pmul_G_Inf in E.
        clear - E Rb. rewrite Z.mod_small in E by lia. lia.
  Qed.
  Lemma any_blind_ok c seed : any_ctx_ok g c -> (forall s, seed = Some s -> byte_list s /\ length s = 32%nat) -> any_ctx_ok g (any_blind g tabs c seed).
  Proof.
    intros HC HS. destruct seed as [s|]; [|apply any_blind_none_ok]. destruct (HS s eq_refl) as [Bs Ls]. clear HS.
    unfold any_blind. cbv zeta.
    set (seed := sc_get_b32 (g_scalar_offset c) ++ s).
    assert (B : byte_list seed). { unfold seed. rewrite sc_get_b32_ok by apply HC. apply byte_list_app. split; [apply be_bytes_byte_list|exact Bs]. }
    assert (L : Z.of_nat (length seed) < 2 ^ 60) by (unfold seed; rewrite app_length, sc_get_b32_length, Ls; reflexivity).
    clearbody seed.
    destruct (rfc6979_generate (rfc6979_initialize seed) 32) as [r1 n1] eqn:E1. destruct (rfc6979_generate r1 32) as [r2 n2] eqn:E2.
    destruct (two_generates seed r1 n1 r2 n2 B L E1 E2) as [-> ->].
    destruct (RFC6979_bytes 0 seed B L) as [B1 L1]. destruct (RFC6979_bytes 1 seed B L) as [B2 L2].
    destruct (blind_factor_ok _ B1 L1) as [F1 F2]. destruct (blind_scalar_ok _ B2 L2) as [S1 S2].
    cbn [g_built g_scalar_offset g_ge_offset g_proj_blind].
    exact (any_blind_some_ok c _ _ HC F1 F2 S1 S2).
  Qed.
  Lemma any_build_ok c : any_ctx_ok g (any_context_build g tabs c).
  Proof. destruct (any_blind_none_ok c) as (A & B & C). split; [exact A|]. split; [exact B|exact C]. Qed.
End Mult.
