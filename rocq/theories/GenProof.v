(** secp256k1_ecmult_gen computes gn * G for every scalar, under every blinding. *)
Require Import ZArith List Bool Lia.
From Verif Require Import Word Bytes Spec ZmField Curve FieldModel FieldMul FieldProof FieldProof2 FieldBytes FieldOps ScalarModel ScalarProof ScalarProof2 ScalarSplit
  GroupModel GroupProof GroupProof2 GroupProof3 GroupProof4 GroupProof5 SpecHash HashModel HashProof GenTable GenTableProof GenModel.
Import ListNotations.
Local Open Scope Z_scope.

(** ** Gathering bits *)
Lemma testbit_w32 x i : 0 <= i < 32 -> Z.testbit (w32 x) i = Z.testbit x i.
Proof. intros H. unfold w32. rewrite Z.mod_pow2_bits_low by lia. reflexivity. Qed.
Lemma rotr32_bit0 x by_ : 0 <= x < 2 ^ 32 -> 0 <= by_ < 32 -> Z.testbit (rotr32 x by_) 0 = Z.testbit x by_.
Proof.
  intros Hx Hb. unfold rotr32.
  assert (E : Z.land by_ 31 = by_) by (change 31 with (2 ^ 5 - 1); rewrite land_ones_mod by lia; apply Z.mod_small; lia).
  rewrite E, Z.lor_spec, Z.shiftr_spec, Z.add_0_l, testbit_w32 by lia.
  assert (E2 : Z.land (w32 (- by_)) 31 = (- by_) mod 32).
  { change 31 with (2 ^ 5 - 1); rewrite land_ones_mod by lia. unfold w32. change (2 ^ 5) with 32.
    rewrite <- Znumtheory.Zmod_div_mod; try lia. exists (2 ^ 27). reflexivity. }
  rewrite E2. destruct (Z.eq_dec by_ 0) as [->|N].
  - change ((- 0) mod 32) with 0. rewrite Z.shiftl_0_r. now destruct (Z.testbit x 0).
  - replace ((- by_) mod 32) with (32 - by_).
    + rewrite (Z.shiftl_spec_low x (32 - by_) 0) by lia. apply orb_false_r.
    + replace (- by_) with (32 - by_ + (-1) * 32) by ring. rewrite Z.mod_add by lia. symmetry. apply Z.mod_small. lia.
Qed.

Definition rec_ok (rec : list Z) (d : Z) : Prop :=
  forall pos, 0 <= pos < 264 -> 0 <= nth (Z.to_nat (Z.shiftr pos 5)) rec 0 < 2 ^ 32 /\
    Z.testbit (nth (Z.to_nat (Z.shiftr pos 5)) rec 0) (Z.land pos 31) = Z.testbit d pos.

Lemma land31 x : 0 <= x -> Z.land x 31 = x mod 32.
Proof. intros. change 31 with (2 ^ 5 - 1). now rewrite land_ones_mod by lia. Qed.

Lemma gen_recode_ok d : sc_ok d -> rec_ok (gen_recode d) (sv d).
Proof.
  intros Hd pos Hp. rewrite land31 by lia. rewrite shiftr_div by lia. change (2 ^ 5) with 32.
  pose proof (sc_ok_range _ Hd) as R. assert (Hn : n < 2 ^ 256) by reflexivity.
  set (q := pos / 32). assert (Hq : 0 <= q < 9) by (unfold q; split; [apply Z.div_pos; lia|apply Z.div_lt_upper_bound; lia]).
  assert (Eq : pos = 32 * q + pos mod 32) by (unfold q; apply Z.div_mod; lia).
  pose proof (Z.mod_pos_bound pos 32 ltac:(lia)) as Hm.
  assert (C : q = 8 \/ 0 <= q < 8) by lia. destruct C as [E8 | L].
  - rewrite E8. change (nth (Z.to_nat 8) (gen_recode d) 0) with 0. rewrite Z.testbit_0_l. split; [lia|].
    symmetry. destruct (Z.eq_dec (sv d) 0) as [-> | NZ]; [apply Z.testbit_0_l|].
    apply Z.bits_above_log2; [lia|]. apply Z.lt_le_trans with 256; [|lia]. apply Z.log2_lt_pow2; lia.
  - assert (E : nth (Z.to_nat q) (gen_recode d) 0 = sc_get_bits_limb32 d (32 * q) 32).
    { assert (K : q = 0 \/ q = 1 \/ q = 2 \/ q = 3 \/ q = 4 \/ q = 5 \/ q = 6 \/ q = 7) by lia.
      destruct K as [-> | [-> | [-> | [-> | [-> | [-> | [-> | ->]]]]]]]; reflexivity. }
    rewrite E, sc_get_bits_limb32_ok; [|apply Hd|lia|lia|lia|].
    + split; [apply Z.mod_pos_bound; lia|]. rewrite Z.mod_pow2_bits_low by lia. rewrite Z.div_pow2_bits by lia. f_equal. lia.
    + assert (K : q = 0 \/ q = 1 \/ q = 2 \/ q = 3 \/ q = 4 \/ q = 5 \/ q = 6 \/ q = 7) by lia.
      destruct K as [-> | [-> | [-> | [-> | [-> | [-> | [-> | ->]]]]]]]; reflexivity.
Qed.

Lemma gen_bits_ok k : forall rec d tooth bit_pos bits base, rec_ok rec d -> 0 <= tooth -> tooth + Z.of_nat k <= 32 -> bit_pos = base + 4 * tooth -> 0 <= base ->
  base + 4 * (tooth + Z.of_nat k - 1) < 264 ->
  (forall j, 0 <= j < tooth -> Z.testbit bits j = Z.testbit d (base + 4 * j)) ->
  forall j, 0 <= j < tooth + Z.of_nat k -> Z.testbit (gen_bits k rec tooth bit_pos bits) j = Z.testbit d (base + 4 * j).
Proof.
  induction k as [|k IH]; intros rec d tooth bit_pos bits base HR Ht Hk E Hb Hl HB j Hj; cbn [gen_bits].
  - apply HB. lia.
  - apply (IH rec d (tooth + 1) (bit_pos + 4) _ base); try assumption; try lia. clear j Hj. intros j Hj.
    destruct (HR bit_pos ltac:(lia)) as [R1 R2]. rewrite land31 in R2 by lia.
    rewrite Z.lxor_spec, Z.land_spec, !testbit_w32 by lia. rewrite Z.lnot_spec by lia.
    destruct (Z.eq_dec j tooth) as [->|N].
    + rewrite !Z.shiftl_spec by lia. rewrite Z.sub_diag. change (Z.testbit 1 0) with true. cbn [negb]. rewrite andb_false_r, xorb_false_l.
      rewrite rotr32_bit0; [| exact R1 | rewrite land31 by lia; apply Z.mod_pos_bound; lia]. rewrite land31 by lia. rewrite R2. f_equal. lia.
    + rewrite !Z.shiftl_spec_low by lia. cbn [negb]. rewrite andb_true_r, xorb_false_r. apply HB. lia.
Qed.

(** ** The table lookup *)
Definition ges_ok (s : ge_storage) : Prop := fes_ok (stx s) /\ fes_ok (sty s).
Lemma ge_storage_cmov_ok r a (b : bool) : ges_ok r -> ges_ok a -> ge_storage_cmov r a (b2z b) = if b then a else r.
Proof.
  intros [R1 R2] [A1 A2]. unfold ge_storage_cmov. rewrite !fe_storage_cmov_ok by (auto; destruct b; cbn; auto).
  destruct b; cbn [b2z Z.eqb]; [destruct a|destruct r]; reflexivity.
Qed.
Lemma gen_lookup_ok tab : Forall ges_ok tab -> forall index abs adds, ges_ok adds ->
  gen_lookup tab index abs adds = (if (index <=? abs) && (abs <? index + Z.of_nat (length tab)) then nth (Z.to_nat (abs - index)) tab adds else adds) /\
  ges_ok (gen_lookup tab index abs adds).
Proof.
  induction 1 as [|e tab He H IH]; intros index abs adds Ha; cbn [gen_lookup].
  - split; [|exact Ha]. destruct (_ && _); [|reflexivity]. now destruct (Z.to_nat (abs - index)).
  - rewrite ge_storage_cmov_ok by assumption.
    assert (Ha' : ges_ok (if index =? abs then e else adds)) by (destruct (index =? abs); assumption).
    destruct (IH (index + 1) abs _ Ha') as [E K]. split; [|exact K]. rewrite E. clear IH E K.
    rewrite <- (Nat2Z.id (S (length tab))) at 1. cbn [length]. rewrite Nat2Z.id.
    destruct (Z.eqb_spec index abs) as [->|N].
    + replace (abs + 1 <=? abs) with false by (symmetry; apply Z.leb_gt; lia). cbn [andb].
      replace (abs <=? abs) with true by (symmetry; apply Z.leb_le; lia).
      replace (abs <? abs + Z.of_nat (S (length tab))) with true by (symmetry; apply Z.ltb_lt; lia). cbn [andb].
      rewrite Z.sub_diag. reflexivity.
    + replace (index + Z.of_nat (S (length tab))) with (index + 1 + Z.of_nat (length tab)) by lia.
      destruct (Z.ltb_spec abs (index + 1 + Z.of_nat (length tab))) as [L|L]; [|now rewrite !andb_false_r].
      rewrite !andb_true_r. destruct (Z.leb_spec (index + 1) abs) as [M|M].
      * replace (index <=? abs) with true by (symmetry; apply Z.leb_le; lia).
        replace (Z.to_nat (abs - index)) with (S (Z.to_nat (abs - (index + 1)))) by lia. reflexivity.
      * replace (index <=? abs) with false by (symmetry; apply Z.leb_gt; lia). reflexivity.
Qed.
Lemma gen_lookup_nth tab abs adds d : Forall ges_ok tab -> ges_ok adds -> 0 <= abs < Z.of_nat (length tab) ->
  gen_lookup tab 0 abs adds = nth (Z.to_nat abs) tab d.
Proof.
  intros F A H. rewrite (proj1 (gen_lookup_ok tab F 0 abs adds A)).
  replace (0 <=? abs) with true by (symmetry; apply Z.leb_le; lia).
  replace (abs <? 0 + Z.of_nat (length tab)) with true by (symmetry; apply Z.ltb_lt; lia). cbn [andb].
  rewrite Z.sub_0_r. apply nth_indep. lia.
Qed.

Lemma fes_of_Z_ok v : 0 <= v < 2 ^ 256 -> fes_ok (fes_of_Z v) /\ sval (fes_of_Z v) = v.
Proof.
  intros H. unfold fes_of_Z, fes_ok, sval. cbn [s0 s1 s2 s3].
  assert (D1 : v / 2 ^ 128 = v / 2 ^ 64 / 2 ^ 64) by (rewrite Z.div_div by lia; reflexivity).
  assert (D2 : v / 2 ^ 192 = v / 2 ^ 64 / 2 ^ 64 / 2 ^ 64) by (rewrite !Z.div_div by lia; reflexivity).
  rewrite D1, D2. pose proof (Z.div_mod v (2 ^ 64) ltac:(lia)). pose proof (Z.div_mod (v / 2 ^ 64) (2 ^ 64) ltac:(lia)).
  pose proof (Z.div_mod (v / 2 ^ 64 / 2 ^ 64) (2 ^ 64) ltac:(lia)).
  pose proof (Z.mod_pos_bound v (2 ^ 64) ltac:(lia)). pose proof (Z.mod_pos_bound (v / 2 ^ 64) (2 ^ 64) ltac:(lia)).
  pose proof (Z.mod_pos_bound (v / 2 ^ 64 / 2 ^ 64) (2 ^ 64) ltac:(lia)).
  set (a := v / 2 ^ 64) in *. set (b := a / 2 ^ 64) in *. set (c := b / 2 ^ 64) in *.
  set (ra := v mod 2 ^ 64) in *. set (rb := a mod 2 ^ 64) in *. set (rc := b mod 2 ^ 64) in *. clearbody a b c ra rb rc. split; [|lia].
  repeat split; lia.
Qed.

(** The table used by the code: what is needed of it. *)
Definition tab_ok (b : Z) (tab : list ge_storage) : Prop :=
  length tab = 32%nat /\ Forall ges_ok tab /\
  forall i, (i < 32)%nat -> exists x y, on_curve (Aff x y) /\ Aff x y = pmul (tab_coef b (Z.of_nat i)) HG /\
    sval (stx (nth i tab (mkges (mkfes 0 0 0 0) (mkfes 0 0 0 0)))) = x /\ sval (sty (nth i tab (mkges (mkfes 0 0 0 0) (mkfes 0 0 0 0)))) = y.

Lemma tab_ok_of b l : length l = 32%nat -> (forall i, (i < 32)%nat -> let e := nth i l (0, 0) in
    on_curve (Aff (fst e) (snd e)) /\ Aff (fst e) (snd e) = pmul (tab_coef b (Z.of_nat i)) HG) -> tab_ok b (map ges_of_Z l).
Proof.
  intros L H. split; [now rewrite map_length|].
  assert (K : forall e, on_curve (Aff (fst e) (snd e)) -> ges_ok (ges_of_Z e) /\ sval (stx (ges_of_Z e)) = fst e /\ sval (sty (ges_of_Z e)) = snd e).
  { intros [x y] (R1 & R2 & _). cbn [fst snd] in *. assert (p < 2 ^ 256) by reflexivity.
    destruct (fes_of_Z_ok x ltac:(lia)) as [A1 A2]. destruct (fes_of_Z_ok y ltac:(lia)) as [B1 B2]. repeat split; try assumption; try apply A1; apply B1. }
  split.
  - apply Forall_forall. intros s Hs. apply in_map_iff in Hs as (e & <- & He). apply (In_nth _ _ (0, 0)) in He as (i & Hi & Ei).
    destruct (H i ltac:(lia)) as [O _]. cbv zeta in O. rewrite Ei in O. apply K, O.
  - intros i Hi. destruct (H i Hi) as [O E]. cbv zeta in O, E. destruct (K _ O) as (_ & K1 & K2).
    change (mkges (mkfes 0 0 0 0) (mkfes 0 0 0 0)) with (ges_of_Z (0, 0)). rewrite map_nth.
    exists (fst (nth i l (0, 0))), (snd (nth i l (0, 0))). split; [exact O|]. split; [exact E|]. split; [exact K1|exact K2].
Qed.

Fixpoint tabs_ok (b : Z) (tabs : list (list ge_storage)) : Prop :=
  match tabs with [] => True | tab :: tabs' => tab_ok b tab /\ tabs_ok (b + 1) tabs' end.
Lemma tabs_ok_of l : forall b0 (L : list (list (Z * Z))), forallb (fun t => Nat.eqb (length t) 32) l = true ->
  (forall b, (b < length l)%nat -> nth (b0 + b) L [] = nth b l []) ->
  (forall b i, (b < b0 + length l)%nat -> (i < 32)%nat -> let e := nth i (nth b L []) (0, 0) in
    on_curve (Aff (fst e) (snd e)) /\ Aff (fst e) (snd e) = pmul (tab_coef (Z.of_nat b) (Z.of_nat i)) HG) ->
  tabs_ok (Z.of_nat b0) (map (map ges_of_Z) l).
Proof.
  induction l as [|t l IH]; intros b0 L HL HN H; [exact I|]. cbn [forallb] in HL. apply andb_true_iff in HL as [L1 L2].
  cbn [map tabs_ok]. split.
  - apply tab_ok_of; [now apply Nat.eqb_eq|]. intros i Hi.
    specialize (H b0 i ltac:(cbn [length]; lia) Hi). specialize (HN 0%nat ltac:(cbn [length]; lia)). rewrite Nat.add_0_r in HN. rewrite HN in H. exact H.
  - replace (Z.of_nat b0 + 1) with (Z.of_nat (S b0)) by lia. apply (IH (S b0) L); [exact L2| |].
    + intros b Hb. specialize (HN (S b) ltac:(cbn [length]; lia)). rewrite Nat.add_succ_r in HN. exact HN.
    + intros b i Hb Hi. apply H; [cbn [length]; lia|exact Hi].
Qed.
Lemma literal_dims : length gen_table_literal = 11%nat /\ forallb (fun t => Nat.eqb (length t) 32) gen_table_literal = true.
Proof. split; vm_compute; reflexivity. Qed.
Lemma gen_prec_table_ok : tabs_ok 0 gen_prec_table /\ length gen_prec_table = 11%nat.
Proof.
  split.
  - unfold gen_prec_table. apply (tabs_ok_of _ 0%nat gen_table_literal); [exact (proj2 literal_dims)| |].
    + intros b _. reflexivity.
    + intros b i Hb Hi. rewrite (proj1 literal_dims) in Hb. now apply gen_table_entry.
  - unfold gen_prec_table. rewrite map_length. exact (proj1 literal_dims).
Qed.
#[global] Opaque gen_prec_table.

(** ** The value of the comb *)
Definition sgn_bit (d i : Z) : Z := if Z.testbit d i then 1 else -1.
(** Sum of the signed digits at positions 4j + off for j < k. *)
Fixpoint comb_sum (d off : Z) (k : nat) : Z :=
  match k with O => 0 | S k' => comb_sum d off k' + sgn_bit d (4 * Z.of_nat k' + off) * 2 ^ (4 * Z.of_nat k') end.
Fixpoint bit_sum (d : Z) (k : nat) : Z :=
  match k with O => 0 | S k' => bit_sum d k' + sgn_bit d (Z.of_nat k') * 2 ^ Z.of_nat k' end.
Lemma bit_sum_val d k : bit_sum d k = 2 * (d mod 2 ^ Z.of_nat k) - (2 ^ Z.of_nat k - 1).
Proof.
  induction k as [|k IH]; [cbn; rewrite Z.mod_1_r; reflexivity|]. cbn [bit_sum]. rewrite IH.
  rewrite Nat2Z.inj_succ, Z.pow_succ_r by lia. rewrite (Z.mul_comm 2 (2 ^ _)), Z.rem_mul_r by (try apply Z.pow_nonzero; lia).
  rewrite <- Z.testbit_spec' by lia. unfold sgn_bit. destruct (Z.testbit d (Z.of_nat k)); cbn [Z.b2z]; ring.
Qed.
Lemma comb_interleave d k : comb_sum d 0 k + 2 * comb_sum d 1 k + 4 * comb_sum d 2 k + 8 * comb_sum d 3 k = bit_sum d (4 * k).
Proof.
  induction k as [|k IH]; [reflexivity|]. replace (4 * S k)%nat with (S (S (S (S (4 * k))))) by lia.
  cbn [comb_sum bit_sum]. rewrite <- IH. rewrite !Nat2Z.inj_succ, Nat2Z.inj_mul. change (Z.of_nat 4) with 4. unfold Z.succ.
  rewrite !Z.pow_add_r by lia. rewrite Z.add_0_r, <- !Z.add_assoc. change (1 + 1) with 2. change (1 + 2) with 3. change (2 ^ 1) with 2. ring.
Qed.
Definition blk_coef (d off b : Z) : Z :=
  sgn_bit d ((6 * b + 0) * 4 + off) * 2 ^ ((6 * b + 0) * 4) + sgn_bit d ((6 * b + 1) * 4 + off) * 2 ^ ((6 * b + 1) * 4) +
  sgn_bit d ((6 * b + 2) * 4 + off) * 2 ^ ((6 * b + 2) * 4) + sgn_bit d ((6 * b + 3) * 4 + off) * 2 ^ ((6 * b + 3) * 4) +
  sgn_bit d ((6 * b + 4) * 4 + off) * 2 ^ ((6 * b + 4) * 4) + sgn_bit d ((6 * b + 5) * 4 + off) * 2 ^ ((6 * b + 5) * 4).
Lemma blk_coef_sum d off (b : nat) : comb_sum d off (6 * S b) = comb_sum d off (6 * b) + blk_coef d off (Z.of_nat b).
Proof.
  replace (6 * S b)%nat with (S (S (S (S (S (S (6 * b))))))) by lia. cbn [comb_sum]. unfold blk_coef.
  rewrite !Nat2Z.inj_succ, Nat2Z.inj_mul. change (Z.of_nat 6) with 6. unfold Z.succ.
  assert (E : forall t, 4 * (6 * Z.of_nat b + t) = (6 * Z.of_nat b + t) * 4) by (intros; ring).
  rewrite <- !Z.add_assoc. change (1 + 1) with 2. change (1 + 2) with 3. change (1 + 3) with 4. change (1 + 4) with 5.
  change (1 + (1 + (1 + 1))) with 4. change (1 + (1 + (1 + (1 + 1)))) with 5. change (1 + (1 + 1)) with 3.
  rewrite !E. rewrite Z.add_0_r. rewrite (Z.mul_comm 4 (6 * Z.of_nat b)). ring.
Qed.

Lemma abs_bits bits sign : sign = 0 \/ sign = 1 ->
  0 <= Z.land (Z.lxor bits (w32 (- sign))) 31 < 32 /\
  (forall j, 0 <= j < 5 -> Z.testbit (Z.land (Z.lxor bits (w32 (- sign))) 31) j = xorb (Z.testbit bits j) (sign =? 1)) /\
  Z.testbit (Z.land (Z.lxor bits (w32 (- sign))) 31) 5 = false.
Proof.
  intros Hs. change 31 with (Z.ones 5). rewrite Z.land_ones by lia. split; [apply Z.mod_pos_bound; lia|]. split.
  - intros j Hj. rewrite Z.mod_pow2_bits_low, Z.lxor_spec, testbit_w32 by lia. f_equal.
    destruct Hs as [-> | ->]; cbn [Z.opp Z.eqb]; [apply Z.testbit_0_l|]. change (-1) with (Z.lnot 0). rewrite Z.lnot_spec by lia. now rewrite Z.testbit_0_l.
  - apply Z.mod_pow2_bits_high. lia.
Qed.

Lemma signed_coef d off b bits sign : sign = b2z (Z.testbit bits 5) ->
  (forall j, 0 <= j < 6 -> Z.testbit bits j = Z.testbit d ((6 * b + j) * 4 + off)) ->
  (if sign =? 1 then - tab_coef b (Z.land (Z.lxor bits (w32 (- sign))) 31) else tab_coef b (Z.land (Z.lxor bits (w32 (- sign))) 31)) = blk_coef d off b.
Proof.
  intros Es HB. assert (Hs : sign = 0 \/ sign = 1) by (rewrite Es; destruct (Z.testbit bits 5); cbn; auto).
  destruct (abs_bits bits sign Hs) as (_ & B & B5). unfold tab_coef, tooth_coef, blk_coef, sgn_bit.
  rewrite !B, B5, <- !HB by lia. rewrite Es. destruct (Z.testbit bits 5); cbn [b2z Z.eqb Pos.eqb];
  destruct (Z.testbit bits 0), (Z.testbit bits 1), (Z.testbit bits 2), (Z.testbit bits 3), (Z.testbit bits 4); cbn [xorb]; ring.
Qed.

(** ** The loops *)
Lemma ge_rep_negy t a P : t = f1 -> ge_rep t a P -> fe_mag 1 (gy a) -> forall sign, sign = 0 \/ sign = 1 ->
  ge_rep t (mkge (gx a) (fe_cmov (gy a) (fe_negate (gy a) 1) sign) (ginf a)) (if sign =? 1 then pneg P else P).
Proof.
  intros -> HR M sign Hs. pose proof (fx_of _ _ M) as XY. pose proof (fx_negate _ 1 _ _ XY eq_refl) as XN.
  destruct HR as (Mx & My & OC & HP).
  assert (E : fe_cmov (gy a) (fe_negate (gy a) 1) sign = if sign =? 1 then fe_negate (gy a) 1 else gy a).
  { rewrite (fe_cmov_ok 2 _ _ sign (fx_mag_w _ 2 _ _ XY eq_refl) (fx_mag _ _ _ XN) ltac:(lia) Hs). destruct Hs as [-> | ->]; reflexivity. }
  rewrite E. destruct Hs as [-> | ->]; cbn [Z.eqb Pos.eqb].
  - split; [exact Mx|]. split; [exact My|]. split; [exact OC|]. destruct P; exact HP.
  - split; [exact Mx|]. split; [exact (fx_mag_w _ 3 _ _ XN eq_refl)|]. split; [now apply on_curve_neg|].
    destruct P as [|x y]; [exact HP|]. cbn [pneg]. destruct HP as (Hi & HX & HY). split; [exact Hi|]. split; [exact HX|].
    cbn [gy]. rewrite (fx_fv _ _ _ XN), HY, toF_pneg_y. ring.
Qed.

Definition gctx_blind_ok (c : gen_ctx) : Prop := fe_mag 8 (g_proj_blind c) /\ fv (g_proj_blind c) <> f0.
Definition st_ok (st : gej * ge_storage * bool) (k : Z) : Prop :=
  ges_ok (snd (fst st)) /\ (if snd st then k = 0 else gej_rep f1 (fst (fst st)) (pmul k HG)).

Lemma gen_blocks_ok c rec d off : gctx_blind_ok c -> rec_ok rec d -> 0 <= off < 4 -> forall tabs (b : nat) st k,
  (b + length tabs <= 11)%nat -> tabs_ok (Z.of_nat b) tabs -> st_ok st k ->
  let st' := gen_blocks c rec tabs (24 * Z.of_nat b + off) st in
  st_ok st' (k + (comb_sum d off (6 * (b + length tabs)) - comb_sum d off (6 * b))) /\ (tabs = [] \/ snd st' = false).
Proof.
  intros [PB PN] HR Ho. induction tabs as [|tab tabs IH]; intros b st k Hb HT HS.
  - cbn [gen_blocks length]. rewrite Nat.add_0_r, Z.sub_diag, Z.add_0_r. split; [exact HS|now left].
  - cbn [gen_blocks length tabs_ok] in *. destruct HT as [(TL & TF & TE) HT]. destruct st as [[r adds] first].
    destruct HS as [HA HS]. cbn [fst snd] in HA, HS.
    set (bits := gen_bits 6 rec 0 (24 * Z.of_nat b + off) 0).
    assert (HB : forall j, 0 <= j < 6 -> Z.testbit bits j = Z.testbit d ((6 * Z.of_nat b + j) * 4 + off)).
    { intros j Hj. unfold bits. rewrite (gen_bits_ok 6 rec d 0 (24 * Z.of_nat b + off) 0 (24 * Z.of_nat b + off)); try assumption; try lia. f_equal. lia. }
    set (sign := Z.land (Z.shiftr bits 5) 1).
    assert (Es : sign = b2z (Z.testbit bits 5)).
    { unfold sign. rewrite land_1, shiftr_div, <- Z.testbit_spec' by lia. now destruct (Z.testbit bits 5). }
    assert (Hs : sign = 0 \/ sign = 1) by (rewrite Es; destruct (Z.testbit bits 5); cbn; auto).
    set (abs := Z.land (Z.lxor bits (w32 (- sign))) 31).
    destruct (abs_bits bits sign Hs) as (Rabs & _ & _). fold abs in Rabs.
    pose proof (signed_coef d off (Z.of_nat b) bits sign Es HB) as SC. fold abs in SC.
    set (adds' := gen_lookup tab 0 abs adds).
    assert (EA : adds' = nth (Z.to_nat abs) tab (mkges (mkfes 0 0 0 0) (mkfes 0 0 0 0))) by (apply gen_lookup_nth; [exact TF|exact HA|lia]).
    assert (HA' : ges_ok adds').
    { rewrite EA. rewrite Forall_forall in TF. apply TF, nth_In. lia. }
    destruct (TE (Z.to_nat abs) ltac:(lia)) as (x & y & OC & EP & SX & SY). rewrite <- EA in SX, SY. rewrite Z2Nat.id in EP by lia.
    destruct (ge_from_storage_ok adds' x y (proj1 HA') (proj2 HA') SX SY OC) as (GR & NX & NY).
    cbv zeta. set (add := mkge _ _ _).
    assert (AR : ge_rep f1 add (pmul (blk_coef d off (Z.of_nat b)) HG)).
    { pose proof (ge_rep_negy f1 _ _ eq_refl GR (fe_norm_mag _ NY) sign Hs) as K. fold add in K. rewrite EP in K.
      rewrite <- SC. destruct (sign =? 1); [rewrite pmul_neg by apply HG_on_curve|]; exact K. }
    assert (AF : ginf add = false) by reflexivity.
    clearbody add abs sign bits.
    set (r' := if first then gej_rescale (gej_set_ge add) (g_proj_blind c) else gej_add_ge r add).
    assert (HS' : st_ok (r', adds', false) (k + blk_coef d off (Z.of_nat b))).
    { split; [exact HA'|]. cbn [fst snd]. unfold r'. destruct first.
      - subst k. rewrite Z.add_0_l. apply gej_rescale_ok; [|exact PB|exact PN]. apply gej_set_ge_ok. exact AR.
      - rewrite pmul_add by apply HG_on_curve. apply gej_add_ge_ok; [apply f1_nz|exact HS|exact AR|exact AF]. }
    replace (24 * Z.of_nat b + off + 6 * 4) with (24 * Z.of_nat (S b) + off) by lia.
    specialize (IH (S b) _ _ ltac:(lia) ltac:(replace (Z.of_nat (S b)) with (Z.of_nat b + 1) by lia; exact HT) HS'). cbv zeta in IH. destruct IH as [I1 I2].
    rewrite <- Nat.add_succ_comm. rewrite blk_coef_sum in I1.
    split.
    + replace (k + (comb_sum d off (6 * (S b + length tabs)) - comb_sum d off (6 * b))) with
        (k + blk_coef d off (Z.of_nat b) + (comb_sum d off (6 * (S b + length tabs)) - (comb_sum d off (6 * b) + blk_coef d off (Z.of_nat b)))) by ring.
      exact I1.
    + right. destruct I2 as [-> | I2]; [reflexivity|exact I2].
Qed.

Lemma gen_outer_S k c tabs rec st : gen_outer (S k) c tabs rec st =
  let '(r, adds, first) := gen_blocks c rec tabs (Z.of_nat (S k)) st in gen_outer k c tabs rec (gej_double r, adds, first).
Proof. reflexivity. Qed.
Lemma gen_outer_0 c tabs rec st : gen_outer 0 c tabs rec st = let '(r, adds, first) := gen_blocks c rec tabs 0 st in r.
Proof. reflexivity. Qed.

Lemma outer_step c tabs rec d off st k : gctx_blind_ok c -> rec_ok rec d -> 0 <= off < 4 -> tabs_ok 0 tabs -> length tabs = 11%nat -> st_ok st k ->
  exists r adds, gen_blocks c rec tabs off st = (r, adds, false) /\ ges_ok adds /\ gej_rep f1 r (pmul (k + comb_sum d off 66) HG).
Proof.
  intros HC HR Ho HT HL HS. destruct (gen_blocks_ok c rec d off HC HR Ho tabs 0 st k ltac:(lia) HT HS) as [A B].
  change (24 * Z.of_nat 0 + off) with off in A, B. rewrite HL in A. change (6 * (0 + 11))%nat with 66%nat in A. change (comb_sum d off (6 * 0)) with 0 in A. rewrite Z.sub_0_r in A.
  destruct (gen_blocks c rec tabs off st) as [[r adds] first]. destruct B as [-> | B]; [discriminate HL|]. cbn [snd] in B. subst first.
  destruct A as [A1 A2]. exists r, adds. split; [reflexivity|]. split; [exact A1|exact A2].
Qed.

#[global] Opaque comb_sum.
Lemma gen_outer_ok c tabs rec d st : gctx_blind_ok c -> rec_ok rec d -> tabs_ok 0 tabs -> length tabs = 11%nat -> st_ok st 0 -> 0 <= d < 2 ^ 264 ->
  gej_rep f1 (gen_outer 3 c tabs rec st) (pmul (2 * d - (2 ^ 264 - 1)) HG).
Proof.
  intros HC HR HT HL HS Hd. pose proof (comb_interleave d 66) as CI. rewrite bit_sum_val in CI.
  change (Z.of_nat (4 * 66)) with 264 in CI. rewrite Z.mod_small in CI by exact Hd. rewrite <- CI. clear CI.
  pose proof HG_on_curve as OC.
  rewrite gen_outer_S. change (Z.of_nat 3) with 3.
  destruct (outer_step c tabs rec d 3 st 0 HC HR ltac:(lia) HT HL HS) as (r3 & a3 & E3 & A3 & R3). rewrite E3. clear E3.
  assert (S2 : st_ok (gej_double r3, a3, false) (2 * comb_sum d 3 66)).
  { split; [exact A3|]. cbn [fst snd]. replace (2 * comb_sum d 3 66) with ((0 + comb_sum d 3 66) + (0 + comb_sum d 3 66)) by ring.
    rewrite pmul_add by exact OC. apply gej_double_ok; [apply f1_nz|exact R3]. }
  rewrite gen_outer_S. change (Z.of_nat 2) with 2.
  destruct (outer_step c tabs rec d 2 _ _ HC HR ltac:(lia) HT HL S2) as (r2 & a2 & E2 & A2 & R2). rewrite E2. clear E2.
  assert (S1 : st_ok (gej_double r2, a2, false) (4 * comb_sum d 3 66 + 2 * comb_sum d 2 66)).
  { split; [exact A2|]. cbn [fst snd].
    replace (4 * comb_sum d 3 66 + 2 * comb_sum d 2 66) with ((2 * comb_sum d 3 66 + comb_sum d 2 66) + (2 * comb_sum d 3 66 + comb_sum d 2 66)) by ring.
    rewrite pmul_add by exact OC. apply gej_double_ok; [apply f1_nz|exact R2]. }
  rewrite gen_outer_S. change (Z.of_nat 1) with 1.
  destruct (outer_step c tabs rec d 1 _ _ HC HR ltac:(lia) HT HL S1) as (r1 & a1 & E1 & A1 & R1). rewrite E1. clear E1.
  assert (S0 : st_ok (gej_double r1, a1, false) (8 * comb_sum d 3 66 + 4 * comb_sum d 2 66 + 2 * comb_sum d 1 66)).
  { split; [exact A1|]. cbn [fst snd].
    replace (8 * comb_sum d 3 66 + 4 * comb_sum d 2 66 + 2 * comb_sum d 1 66) with
      ((4 * comb_sum d 3 66 + 2 * comb_sum d 2 66 + comb_sum d 1 66) + (4 * comb_sum d 3 66 + 2 * comb_sum d 2 66 + comb_sum d 1 66)) by ring.
    rewrite pmul_add by exact OC. apply gej_double_ok; [apply f1_nz|exact R1]. }
  rewrite gen_outer_0.
  destruct (outer_step c tabs rec d 0 _ _ HC HR ltac:(lia) HT HL S0) as (r0 & a0 & E0 & A0 & R0). rewrite E0. clear E0.
  replace (comb_sum d 0 66 + 2 * comb_sum d 1 66 + 4 * comb_sum d 2 66 + 8 * comb_sum d 3 66) with
    (8 * comb_sum d 3 66 + 4 * comb_sum d 2 66 + 2 * comb_sum d 1 66 + comb_sum d 0 66) by ring.
  exact R0.
Qed.

(** ** The context invariant and the main theorem *)
(** [b] is the blinding value: scalar_offset = (2^264 - 1)/2 - b and ge_offset = b*G. *)
Definition half_n : Z := (n + 1) / 2.
Definition gen_diff : Z := ((2 ^ 264 - 1) * half_n) mod n.
Definition gen_ctx_ok (c : gen_ctx) : Prop :=
  sc_ok (g_scalar_offset c) /\ gctx_blind_ok c /\
  exists b, sv (g_scalar_offset c) = (gen_diff - b) mod n /\ ge_rep f1 (g_ge_offset c) (pmul b G) /\ ginf (g_ge_offset c) = false.

Lemma two_half : 2 * half_n = n + 1. Proof. reflexivity. Qed.
Lemma pmul_2_HG k : pmul (2 * k) HG = pmul k G.
Proof.
  rewrite <- HG_double. rewrite pmul_padd by apply HG_on_curve. rewrite <- pmul_add by apply HG_on_curve. f_equal. lia.
Qed.
Lemma HG_pmul k : pmul k HG = pmul (k * half_n) G.
Proof.
  rewrite <- pmul_2_HG. replace (2 * (k * half_n)) with (k + k * n) by (rewrite Z.mul_assoc, (Z.mul_comm 2 k), <- Z.mul_assoc, two_half; ring).
  rewrite pmul_add by apply HG_on_curve. rewrite (Z.mul_comm k n), pmul_mul by apply HG_on_curve.
  rewrite (pmul_n_any (pmul k HG)) by (apply on_curve_mul, HG_on_curve). now rewrite padd_Inf_r.
Qed.

Theorem ecmult_gen_ok c a : gen_ctx_ok c -> sc_ok a -> gej_rep f1 (ecmult_gen c a) (pmul (sv a) G).
Proof.
  intros (HO & HB & b & Eb & HG1 & HG2) Ha. unfold ecmult_gen.
  set (d := sc_add (g_scalar_offset c) a). assert (Hd : sc_ok d) by now apply sc_add_ok.
  assert (Ed : sv d = (gen_diff - b + sv a) mod n).
  { unfold d. rewrite sc_add_sv, Eb by assumption. now rewrite Zplus_mod_idemp_l. }
  clearbody d. cbv zeta. set (st := (_, _, true)). pose proof (sc_ok_range _ Hd) as Rd. assert (Hn : n < 2 ^ 264) by reflexivity.
  assert (S : st_ok st 0) by (unfold st; split; [|reflexivity]; repeat split; cbn; lia). clearbody st.
  destruct gen_prec_table_ok as [T1 T2].
  pose proof (gen_outer_ok c gen_prec_table (gen_recode d) (sv d) st HB (gen_recode_ok d Hd) T1 T2 S ltac:(lia)) as R.
  pose proof (gej_add_ge_ok f1 _ _ _ _ f1_nz R HG1 HG2) as K.
  rewrite HG_pmul, <- pmul_add in K by auto with curve.
  match type of K with gej_rep _ _ (pmul ?e G) => assert (EE : pmul (sv a) G = pmul e G) end.
  { apply pmul_eq_mod; [apply on_curve_G|]. rewrite Ed. rewrite <- Zplus_mod_idemp_l. 
    replace ((2 * ((gen_diff - b + sv a) mod n) - (2 ^ 264 - 1)) * half_n) with (((gen_diff - b + sv a) mod n) * (2 * half_n) - (2 ^ 264 - 1) * half_n) by ring.
    rewrite two_half. rewrite Zplus_mod_idemp_l.
    replace ((gen_diff - b + sv a) mod n * (n + 1) - (2 ^ 264 - 1) * half_n + b) with
      ((gen_diff - b + sv a) mod n + (b - (2 ^ 264 - 1) * half_n) + (gen_diff - b + sv a) mod n * n) by ring.
    rewrite Z.mod_add by discriminate. rewrite Zplus_mod_idemp_l.
    replace (gen_diff - b + sv a + (b - (2 ^ 264 - 1) * half_n)) with (gen_diff + (sv a - (2 ^ 264 - 1) * half_n)) by ring.
    unfold gen_diff. rewrite Zplus_mod_idemp_l. f_equal. ring. }
  rewrite EE. exact K.
Qed.

(** ** Blinding *)
Lemma sc_one_ok : sc_ok sc_one /\ sv sc_one = 1.
Proof. apply sc_of_Z_ok. pose proof n_pos. split; [lia|reflexivity]. Qed.
Lemma double_n_ok k : forall a, sc_ok a -> sc_ok (double_n k a).
Proof. induction k as [|k IH]; intros a Ha; cbn [double_n]; [exact Ha|]. apply IH. now apply sc_add_ok. Qed.
Lemma gen_scalar_diff_ok : sc_ok gen_scalar_diff /\ sv gen_scalar_diff = gen_diff.
Proof.
  split; [|vm_cast_no_check (eq_refl gen_diff)]. unfold gen_scalar_diff. apply sc_add_ok.
  - apply double_n_ok, sc_one_ok.
  - apply sc_negate_ok, sc_half_ok, sc_one_ok.
Qed.

Lemma ge_neg_G_ok : ge_rep f1 (ge_neg ge_const_g) (pmul (-1) G) /\ ginf (ge_neg ge_const_g) = false.
Proof.
  split; [|reflexivity]. change (-1) with (- (1)). rewrite pmul_neg by apply on_curve_G. rewrite pmul_1. apply ge_neg_ok, ge_const_g_ok.
Qed.

Theorem gen_blind_none_ok c : gen_ctx_ok (ecmult_gen_blind c None).
Proof.
  unfold ecmult_gen_blind. destruct gen_scalar_diff_ok as [D1 D2]. destruct sc_one_ok as [O1 O2]. split; [|split].
  - cbn [g_scalar_offset]. now apply sc_add_ok.
  - split; cbn [g_proj_blind]; [exact (fx_mag_w _ 8 _ _ fx_one eq_refl)|]. rewrite (fx_fv _ _ _ fx_one). apply f1_nz.
  - exists (-1). cbn [g_scalar_offset g_ge_offset]. split.
    + rewrite sc_add_sv, O2, D2 by assumption. f_equal.
    + apply ge_neg_G_ok.
Qed.

Lemma blind_factor_ok l : byte_list l -> length l = 32%nat ->
  let f := fe_set_b32_mod l in let f' := fe_cmov f fe_one (b2z (fe_normalizes_to_zero f)) in fe_mag 8 f' /\ fv f' <> f0.
Proof.
  intros Hl Ll f. pose proof (fe_set_b32_mod_mag l Hl Ll) as M. fold f in M. clearbody f. cbv zeta.
  pose proof (fx_of _ _ M) as X. pose proof (fx_cmov _ _ _ _ _ _ (fe_normalizes_to_zero f) X fx_one eq_refl) as XC.
  split; [exact (fx_mag_w _ 8 _ _ XC eq_refl)|]. rewrite (fx_fv _ _ _ XC).
  pose proof (fx_ntz _ _ _ X eq_refl) as Z. destruct (fe_normalizes_to_zero f); [apply f1_nz|]. intros E. apply Z in E. discriminate.
Qed.

Lemma blind_scalar_ok l : byte_list l -> length l = 32%nat ->
  let b := fst (sc_set_b32 l) in let b' := sc_cmov b sc_one (b2z (sc_is_zero b)) in sc_ok b' /\ 0 < sv b' < n.
Proof.
  intros Hl Ll b. destruct (sc_set_b32_ok l Hl Ll) as (B & _ & _). fold b in B. clearbody b. destruct sc_one_ok as [O1 O2]. cbv zeta.
  rewrite sc_is_zero_spec by apply B. rewrite sc_cmov_ok; [|apply B|apply O1|destruct (sv b =? 0); cbn; auto].
  pose proof (sc_ok_range _ B). pose proof n_pos. destruct (Z.eqb_spec (sv b) 0) as [E|E]; cbn [b2z Z.eqb].
  - split; [exact O1|]. rewrite O2. split; [lia|reflexivity].
  - split; [exact B|]. lia.
Qed.

Lemma gen_blind_some_ok c f b : gen_ctx_ok c -> fe_mag 8 f -> fv f <> f0 -> sc_ok b -> 0 < sv b < n ->
  gen_ctx_ok (mkgen (g_built c) (sc_add (sc_negate b) gen_scalar_diff)
    (ge_set_gej (ecmult_gen (mkgen (g_built c) (g_scalar_offset c) (g_ge_offset c) f) b)) f).
Proof.
  intros (HO & HB & b0 & Eb & HG1 & HG2) Mf Nf Hb Rb. destruct gen_scalar_diff_ok as [D1 D2].
  assert (HC : gen_ctx_ok (mkgen (g_built c) (g_scalar_offset c) (g_ge_offset c) f)).
  { split; [exact HO|]. split; [split; assumption|]. exists b0. split; [exact Eb|]. split; [exact HG1|exact HG2]. }
  pose proof (ecmult_gen_ok _ _ HC Hb) as R. destruct (ge_set_gej_ok _ _ _ R) as (GR & _ & _).
  destruct (sc_negate_ok b Hb) as [N1 N2].
  split; [|split].
  - cbn [g_scalar_offset]. now apply sc_add_ok.
  - split; assumption.
  - exists (sv b). cbn [g_scalar_offset g_ge_offset]. split; [|split].
    + rewrite sc_add_sv, N2, D2 by assumption. rewrite Zplus_mod_idemp_l. f_equal. ring.
    + exact GR.
    + set (g := ge_set_gej _) in *. clearbody g. destruct (ginf g) eqn:E; [|reflexivity]. exfalso. apply (ge_rep_ginf _ _ _ GR) in E. apply pmul_G_Inf in E.
      clear - E Rb. rewrite Z.mod_small in E by lia. lia.
Qed.


Lemma RFC6979_bytes k seed : byte_list seed -> Z.of_nat (length seed) < 2 ^ 60 -> byte_list (RFC6979 k seed) /\ length (RFC6979 k seed) = 32%nat.
Proof. intros Hs Ls. destruct (rng_nth_ok seed k Hs Ls) as (_ & _ & _ & (_ & _ & K1 & K2)). split; [exact K1|exact K2]. Qed.

Lemma two_generates seed r1 n1 r2 n2 : byte_list seed -> Z.of_nat (length seed) < 2 ^ 60 ->
  rfc6979_generate (rfc6979_initialize seed) 32 = (r1, n1) -> rfc6979_generate r1 32 = (r2, n2) ->
  n1 = RFC6979 0 seed /\ n2 = RFC6979 1 seed.
Proof.
  intros Hs Ls E1 E2. destruct (rng_nth_ok seed 0 Hs Ls) as (A & _). destruct (rng_nth_ok seed 1 Hs Ls) as (B & _).
  rewrite rng_nth_S in B. rewrite rng_nth_0 in A, B. rewrite E1 in A, B. cbn [fst snd] in A, B. rewrite E2 in B. cbn [snd] in B. split; assumption.
Qed.

Theorem gen_blind_ok c seed : gen_ctx_ok c -> (forall s, seed = Some s -> byte_list s /\ length s = 32%nat) -> gen_ctx_ok (ecmult_gen_blind c seed).
Proof.
  intros HC HS. destruct seed as [s|]; [|apply gen_blind_none_ok]. destruct (HS s eq_refl) as [Bs Ls]. clear HS.
  unfold ecmult_gen_blind. cbv zeta.
  set (seed := sc_get_b32 (g_scalar_offset c) ++ s).
  assert (B : byte_list seed). { unfold seed. rewrite sc_get_b32_ok by apply HC. apply byte_list_app. split; [apply be_bytes_byte_list|exact Bs]. }
  assert (L : Z.of_nat (length seed) < 2 ^ 60) by (unfold seed; rewrite app_length, sc_get_b32_length, Ls; reflexivity).
  clearbody seed.
  destruct (rfc6979_generate (rfc6979_initialize seed) 32) as [r1 n1] eqn:E1. destruct (rfc6979_generate r1 32) as [r2 n2] eqn:E2.
  destruct (two_generates seed r1 n1 r2 n2 B L E1 E2) as [-> ->].
  destruct (RFC6979_bytes 0 seed B L) as [B1 L1]. destruct (RFC6979_bytes 1 seed B L) as [B2 L2].
  destruct (blind_factor_ok _ B1 L1) as [F1 F2]. destruct (blind_scalar_ok _ B2 L2) as [S1 S2].
  cbn [g_built g_scalar_offset g_ge_offset g_proj_blind].
  exact (gen_blind_some_ok c _ _ HC F1 F2 S1 S2).
Qed.

Theorem gen_build_ok c : gen_ctx_ok (gen_context_build c).
Proof. destruct (gen_blind_none_ok c) as (A & B & C). split; [exact A|]. split; [exact B|exact C]. Qed.
