(** secp256k1_ecmult_const and secp256k1_ecmult_const_xonly. *)
Require Import ZArith List Bool Lia Field.
From Verif Require Import Word Bytes Spec ZmField Curve FieldModel FieldMul FieldProof FieldProof2 FieldBytes FieldOps ScalarModel ScalarProof ScalarProof2 ScalarSplit
  GroupModel GroupProof GroupProof2 GroupProof3 GroupProof4 GroupProof5 Endo HashModel EcmultModel WnafProof NumTheory Primes EcmultProof EcmultProof2.
Import ListNotations.
Local Open Scope Z_scope.

Lemma cmov_b m r a b : fe_mag m r -> fe_mag m a -> 0 <= m <= 32 -> fe_cmov r a (b2z b) = if b then a else r.
Proof. intros Hr Ha Hm. rewrite (fe_cmov_ok m _ _ _ Hr Ha Hm); [now destruct b|]. destruct b; [right|left]; reflexivity. Qed.

Lemma const_scan_ok l : forall m index r, Forall (fun g => fe_mag 4 (gx g) /\ fe_mag 4 (gy g)) l -> fe_mag 4 (gx r) -> fe_mag 4 (gy r) -> m <= index < m + Z.of_nat (length l) ->
  gx (const_scan l m index r) = gx (nth (Z.to_nat (index - m)) l ge0) /\ gy (const_scan l m index r) = gy (nth (Z.to_nat (index - m)) l ge0).
Proof.
  assert (STOP : forall l m index r, index < m -> Forall (fun g => fe_mag 4 (gx g) /\ fe_mag 4 (gy g)) l -> fe_mag 4 (gx r) -> fe_mag 4 (gy r) ->
    gx (const_scan l m index r) = gx r /\ gy (const_scan l m index r) = gy r).
  { intros l0. induction l0 as [|e l0 IH]; intros m index r H F Mx My; cbn [const_scan]; [split; reflexivity|].
    inversion F as [|? ? [Ex Ey] F']; subst. assert (E : (m =? index) = false) by (apply Z.eqb_neq; lia). rewrite E.
    rewrite (cmov_b 4 _ _ false), (cmov_b 4 _ _ false) by (try assumption; lia).
    apply (IH (m + 1) index (mkge (gx r) (gy r) (ginf r))); try assumption. lia. }
  induction l as [|e l IH]; intros m index r F Mx My H; cbn [length] in H; [lia|]. cbn [const_scan].
  inversion F as [|? ? [Ex Ey] F']; subst.
  destruct (Z.eqb_spec m index) as [-> | N].
  - rewrite (cmov_b 4 _ _ true), (cmov_b 4 _ _ true) by (try assumption; lia). rewrite Z.sub_diag. cbn [Z.to_nat nth].
    apply (STOP l (index + 1) index (mkge (gx e) (gy e) (ginf r))); try assumption. lia.
  - rewrite (cmov_b 4 _ _ false), (cmov_b 4 _ _ false) by (try assumption; lia).
    replace (Z.to_nat (index - m)) with (S (Z.to_nat (index - (m + 1)))) by lia. cbn [nth].
    apply IH; try assumption. lia.
Qed.

Definition get_neg (v : Z) : Z := Z.lxor (Z.shiftr v (ec_group_size - 1)) 1.
Definition get_index (v : Z) : Z := Z.land (Z.lxor (w32 (- get_neg v)) v) (w32 (Z.shiftl 1 (ec_group_size - 1) - 1)).
Lemma get_index_all : forallb (fun i => let v := Z.of_nat i in
   (get_neg v =? (if v <? 16 then 1 else 0)) && (get_index v =? (if v <? 16 then 15 - v else v - 16))) (seq 0 32) = true.
Proof. vm_compute. reflexivity. Qed.
Lemma get_index_ok v : 0 <= v < 32 -> get_neg v = (if v <? 16 then 1 else 0) /\ get_index v = if v <? 16 then 15 - v else v - 16.
Proof.
  intros H. pose proof get_index_all as A. rewrite forallb_forall in A. specialize (A (Z.to_nat v)). cbv zeta in A. rewrite Z2Nat.id in A by lia.
  assert (I : In (Z.to_nat v) (seq 0 32)) by (apply in_seq; lia). apply A in I. apply andb_true_iff in I as [I1 I2].
  split; now apply Z.eqb_eq.
Qed.

Lemma tab_ok_mags t k m pre : length pre = m -> tab_ok t k m pre -> Forall (fun g => fe_mag 4 (gx g) /\ fe_mag 4 (gy g)) pre.
Proof.
  intros L T. apply Forall_nth. intros i d Hi. rewrite (nth_indep _ d ge0) by exact Hi. destruct (T i ltac:(lia)) as [R _].
  destruct (ge_rep_mags _ _ _ R) as (Mx & My & _). split; [mw Mx|mw My].
Qed.

Lemma const_table_get_ge_ok t k pre v : length pre = 16%nat -> tab_ok t k 16 pre -> k mod n <> 0 -> 0 <= v < 32 ->
  ge_rep t (const_table_get_ge pre v) (K ((2 * v - 31) * k)) /\ ginf (const_table_get_ge pre v) = false.
Proof.
  intros L T Nk Hv. split; [|reflexivity]. pose proof (tab_ok_mags _ _ _ _ L T) as FM.
  destruct (get_index_ok v Hv) as [EN EI].
  unfold const_table_get_ge. fold (get_neg v). fold (get_index v).
  set (idx := get_index v) in *. assert (HI : 0 <= idx < 16) by (rewrite EI; destruct (Z.ltb_spec v 16); lia).
  destruct pre as [|e0 pre']; [discriminate L|]. cbn [hd tl]. inversion FM as [|? ? [M0x M0y] FM']; subst.
  cbn [length] in L.
  set (r := const_scan pre' 1 idx (mkge (gx e0) (gy e0) false)).
  assert (ER : gx r = gx (nth (Z.to_nat idx) (e0 :: pre') ge0) /\ gy r = gy (nth (Z.to_nat idx) (e0 :: pre') ge0)).
  { destruct (Z.eq_dec idx 0) as [E0 | N0].
    - unfold r. rewrite E0. cbn [Z.to_nat nth].
      assert (ST : forall l m q, Forall (fun g => fe_mag 4 (gx g) /\ fe_mag 4 (gy g)) l -> 0 < m -> fe_mag 4 (gx q) -> fe_mag 4 (gy q) ->
        gx (const_scan l m 0 q) = gx q /\ gy (const_scan l m 0 q) = gy q).
      { induction l as [|e l IH]; intros m q F Hm Mx My; cbn [const_scan]; [split; reflexivity|].
        inversion F as [|? ? [Ex Ey] F']; subst. assert (E : (m =? 0) = false) by (apply Z.eqb_neq; lia). rewrite E.
        rewrite (cmov_b 4 _ _ false), (cmov_b 4 _ _ false) by (try assumption; lia).
        apply (IH (m + 1) (mkge (gx q) (gy q) (ginf q))); try assumption. lia. }
      apply (ST pre' 1 (mkge (gx e0) (gy e0) false)); try assumption. lia.
    - unfold r. destruct (const_scan_ok pre' 1 idx (mkge (gx e0) (gy e0) false)) as [E1 E2]; try assumption; [lia|].
      rewrite E1, E2. replace (Z.to_nat idx) with (S (Z.to_nat (idx - 1))) by lia. split; reflexivity. }
  destruct ER as [E1 E2]. clearbody r. rewrite E1, E2.
  destruct (T (Z.to_nat idx) ltac:(lia)) as [R M]. rewrite Z2Nat.id in R by lia.
  set (e := nth (Z.to_nat idx) (e0 :: pre') ge0) in *. clearbody e.
  assert (Fe : ginf e = false).
  { apply (ge_rep_K_fin _ _ _ R). apply small_mult_nz; [exact Nk|]. pose proof n_big. split; [lia|]. apply Z.lt_trans with (2 ^ 255); [lia|exact H]. }
  rewrite EN.
  pose proof (neg_y_ok _ _ _ R M) as RN. rewrite K_neg, Fe in RN.
  destruct (ge_rep_mags _ _ _ RN) as (_ & MNy & _). cbn [gy] in MNy. apply fx_mag in MNy.
  assert (M3 : fe_mag 3 (gy e)) by (clear - M; pose proof (fx_of _ _ M) as H; mw H).
  destruct (Z.ltb_spec v 16) as [Lv | Gv].
  - rewrite (cmov_b 3 _ _ true) by (try assumption; lia).
    replace ((2 * v - 31) * k) with (- ((2 * idx + 1) * k)) by (rewrite EI; ring). exact RN.
  - rewrite (cmov_b 3 _ _ false) by (try assumption; lia).
    replace ((2 * v - 31) * k) with ((2 * idx + 1) * k) by (rewrite EI; ring).
    replace (mkge (gx e) (gy e) false) with e; [exact R|]. destruct e as [a b c]. cbn in *. now rewrite Fe.
Qed.

Lemma const_double_ok t m : t <> f0 -> forall a k, gej_rep t a (K k) -> gej_rep t (const_double m a) (K (2 ^ Z.of_nat m * k)).
Proof.
  intros Ht. induction m as [|m IH]; intros a k R; cbn [const_double].
  - change (2 ^ Z.of_nat 0) with 1. now rewrite Z.mul_1_l.
  - pose proof (gej_double_ok t a _ Ht R) as R2. rewrite K_dbl in R2.
    apply IH in R2. rewrite Nat2Z.inj_succ, Z.pow_succ_r by lia. replace (2 * 2 ^ Z.of_nat m * k) with (2 ^ Z.of_nat m * (2 * k)) by ring. exact R2.
Qed.

(** What remains of v above group g, as the signed-digit value. *)
Definition cval (v : Z) (g : nat) : Z := 2 * (v / 32 ^ Z.of_nat g) + 1 - 32 ^ (26 - Z.of_nat g).
Lemma cval_step v g : (S g <= 26)%nat -> cval v g = 32 * cval v (S g) + (2 * (v / 32 ^ Z.of_nat g mod 32) - 31).
Proof.
  intros Hg. unfold cval. rewrite Nat2Z.inj_succ, Z.pow_succ_r by lia.
  rewrite (Z.mul_comm 32 (32 ^ Z.of_nat g)), <- Z.div_div by (try lia; apply Z.pow_nonzero; lia).
  replace (26 - Z.of_nat g) with (Z.succ (26 - Z.succ (Z.of_nat g))) by lia. rewrite Z.pow_succ_r by lia.
  rewrite (Z.div_mod (v / 32 ^ Z.of_nat g) 32) at 1 by lia. ring.
Qed.

Lemma const_loop_ok t k pre v1 v2 g : t <> f0 -> k mod n <> 0 -> length pre = 16%nat -> tab_ok t k 16 pre -> sc_ok v1 -> sc_ok v2 -> (g <= 26)%nat ->
  forall pre_lam r, pre_lam = map ge_mul_lambda pre ->
  (g = 26%nat \/ gej_rep t r (K ((cval (sv v1) g + lambda * cval (sv v2) g) * k))) ->
  sv v1 < 2 ^ 130 -> sv v2 < 2 ^ 130 -> (1 <= g)%nat ->
  gej_rep t (const_loop g v1 v2 pre pre_lam r) (K ((cval (sv v1) 0 + lambda * cval (sv v2) 0) * k)).
Proof.
  intros Ht Nk L T O1 O2. induction g as [|g IH]; intros Hg pre_lam r EL HR B1 B2 Hg1; [lia|]. cbn [const_loop].
  assert (E32 : 2 ^ (Z.of_nat g * ec_group_size) = 32 ^ Z.of_nat g).
  { unfold ec_group_size. rewrite Z.mul_comm, Z.pow_mul_r by lia. reflexivity. }
  assert (GB : forall v, sc_ok v -> sc_get_bits_var v (Z.of_nat g * ec_group_size) ec_group_size = sv v / 32 ^ Z.of_nat g mod 32).
  { intros v Hv. rewrite sc_get_bits_var_ok; [rewrite E32; reflexivity|apply Hv|unfold ec_group_size; lia|unfold ec_group_size; lia|unfold ec_group_size; lia]. }
  rewrite (GB v1 O1), (GB v2 O2).
  set (b1 := sv v1 / 32 ^ Z.of_nat g mod 32). set (b2 := sv v2 / 32 ^ Z.of_nat g mod 32).
  assert (Hb1 : 0 <= b1 < 32) by (apply Z.mod_pos_bound; lia). assert (Hb2 : 0 <= b2 < 32) by (apply Z.mod_pos_bound; lia).
  destruct (const_table_get_ge_ok t k pre b1 L T Nk Hb1) as [RT1 F1].
  assert (LamNk : (lambda * k) mod n <> 0) by (apply small_mult_nz; [exact Nk|split; reflexivity]).
  assert (TL : tab_ok t (lambda * k) 16 pre_lam).
  { intros i Hi. rewrite EL. destruct (T i Hi) as [R M].
    rewrite (nth_indep _ ge0 (ge_mul_lambda ge0)) by (rewrite map_length; lia). rewrite map_nth.
    pose proof (ge_mul_lambda_ok _ _ _ R) as R2. rewrite K_lam in R2. split; [|exact M].
    replace ((2 * Z.of_nat i + 1) * (lambda * k)) with (lambda * ((2 * Z.of_nat i + 1) * k)) by ring. exact R2. }
  assert (LL : length pre_lam = 16%nat) by (rewrite EL, map_length; exact L).
  destruct (const_table_get_ge_ok t (lambda * k) pre_lam b2 LL TL LamNk Hb2) as [RT2 F2].
  assert (R1 : gej_rep t (if Nat.eqb g (ec_groups - 1) then gej_set_ge (const_table_get_ge pre b1)
                          else gej_add_ge (const_double (Z.to_nat ec_group_size) r) (const_table_get_ge pre b1))
     (K ((cval (sv v1) g + lambda * (32 * cval (sv v2) (S g))) * k))).
  { destruct (Nat.eqb_spec g (ec_groups - 1)) as [Eg | Ng].
    - assert (E25 : g = 25%nat) by exact Eg. clear Eg. subst g.
      replace ((cval (sv v1) 25 + lambda * (32 * cval (sv v2) 26)) * k) with ((2 * b1 - 31) * k); [apply gej_set_ge_ok; exact RT1|].
      rewrite cval_step by lia. fold b1.
      assert (C26 : forall v, 0 <= v < 2 ^ 130 -> cval v 26 = 0) by (intros v Hv; unfold cval; change (32 ^ Z.of_nat 26) with (2 ^ 130); rewrite Z.div_small by lia; reflexivity).
      pose proof (sc_ok_range _ O1). pose proof (sc_ok_range _ O2). rewrite !C26 by lia. ring.
    - destruct HR as [HR | HR]; [exfalso; apply Ng; change (ec_groups - 1)%nat with 25%nat; lia|].
      pose proof (const_double_ok t (Z.to_nat ec_group_size) Ht _ _ HR) as RD. change (2 ^ Z.of_nat (Z.to_nat ec_group_size)) with 32 in RD.
      pose proof (gej_add_ge_ok t _ _ _ _ Ht RD RT1 F1) as RA. rewrite K_add in RA.
      replace ((cval (sv v1) g + lambda * (32 * cval (sv v2) (S g))) * k) with
        (32 * ((cval (sv v1) (S g) + lambda * cval (sv v2) (S g)) * k) + (2 * b1 - 31) * k); [exact RA|].
      rewrite (cval_step (sv v1) g) by lia. fold b1. ring. }
  pose proof (gej_add_ge_ok t _ _ _ _ Ht R1 RT2 F2) as R2. rewrite K_add in R2.
  replace ((cval (sv v1) g + lambda * (32 * cval (sv v2) (S g))) * k + (2 * b2 - 31) * (lambda * k)) with ((cval (sv v1) g + lambda * cval (sv v2) g) * k) in R2
    by (rewrite (cval_step (sv v2) g) by lia; fold b2; ring).
  destruct g as [|g']; [exact R2|]. apply IH; try assumption; try lia. right. exact R2.
Qed.

Lemma ec_K_val : sc_ok ec_K /\ (sv ec_K) mod n = ((2 ^ 130 - 2 ^ 129 - 1) * (1 + lambda)) mod n.
Proof.
  destruct (sc_of_Z_ok 0xa4e88a7dcb13034ec2bdd6bf7c118d6b589ae84826ba29e4b5c2c1dcde9798d9) as [O E]; [split; [discriminate|reflexivity]|].
  unfold ec_K. split; [exact O|]. rewrite E. vm_cast_no_check (eq_refl (0xa4e88a7dcb13034ec2bdd6bf7c118d6b589ae84826ba29e4b5c2c1dcde9798d9)).
Qed.
Lemma ec_off_val : sc_ok ec_S_OFFSET /\ sv ec_S_OFFSET = 2 ^ 128.
Proof. apply sc_of_Z_ok. split; [discriminate|reflexivity]. Qed.

Lemma const_total q s K0 k1 k2 v1 v2 : (2 * s) mod n = (q + K0) mod n -> (k1 + lambda * k2) mod n = s mod n ->
  K0 mod n = ((2 ^ 130 - 2 ^ 129 - 1) * (1 + lambda)) mod n -> v1 = k1 + 2 ^ 128 -> v2 = k2 + 2 ^ 128 ->
  (cval v1 0 + lambda * cval v2 0) mod n = q mod n.
Proof.
  intros E1 E2 E3 -> ->. unfold cval. change (32 ^ Z.of_nat 0) with 1. change (32 ^ (26 - Z.of_nat 0)) with (2 ^ 130). rewrite !Z.div_1_r.
  assert (Nn : n <> 0) by (clear; intros E0; discriminate E0).
  assert (EE : 2 * (k1 + 2 ^ 128) + 1 - 2 ^ 130 + lambda * (2 * (k2 + 2 ^ 128) + 1 - 2 ^ 130) = 2 * (k1 + lambda * k2) - (2 ^ 130 - 2 ^ 129 - 1) * (1 + lambda)).
  { change (2 ^ 130) with (4 * 2 ^ 128). change (2 ^ 129) with (2 * 2 ^ 128). ring. }
  rewrite EE. rewrite Zminus_mod, <- E3, <- Zminus_mod.
  rewrite <- Zminus_mod_idemp_l, <- Z.mul_mod_idemp_r, E2, Z.mul_mod_idemp_r, E1, Zminus_mod_idemp_l by exact Nn.
  f_equal. ring.
Qed.

Theorem ecmult_const_ok t a q P : t <> f0 -> ge_rep t a P -> sc_ok q -> gej_rep t (ecmult_const a q) (pmul (sv q) P).
Proof.
  intros Ht Ra Hq. unfold ecmult_const, ge_is_infinity. destruct (ginf a) eqn:Ia.
  - rewrite (ge_rep_inf _ _ _ Ra Ia), pmul_Inf. apply gej_infinity_rep.
  - destruct (all_points_multiples_of_G P (ge_rep_oc _ _ _ Ra)) as (k & _ & ->). rewrite K_mul.
    assert (Nk : k mod n <> 0).
    { intros E0. apply pmul_G_Inf in E0. apply (proj2 (ge_rep_ginf _ _ _ Ra)) in E0. congruence. }
    destruct ec_K_val as [OK EK]. destruct ec_off_val as [OO EO].
    pose proof (sc_add_ok q ec_K Hq OK) as O1. pose proof (sc_add_sv q ec_K Hq OK) as E1.
    destruct (sc_half_ok _ O1) as [O2 E2]. set (s := sc_half (sc_add q ec_K)) in *. clearbody s.
    pose proof (sc_split_lambda_ok s O2) as SP. destruct (sc_split_lambda s) as [w1 w2]. cbn [fst snd] in SP.
    destruct SP as (P1 & P2 & k1 & k2 & B1 & B2 & F1 & F2 & Es & _).
    assert (HV : forall w kk, sc_ok w -> sv w = kk mod n -> - 2 ^ 128 < kk < 2 ^ 128 -> sc_ok (sc_add w ec_S_OFFSET) /\ sv (sc_add w ec_S_OFFSET) = kk + 2 ^ 128).
    { intros w kk Ow Ew Bk. split; [now apply sc_add_ok|]. rewrite sc_add_sv by assumption. rewrite Ew, EO, Z.add_mod_idemp_l by (clear; intros E0; discriminate E0).
      pose proof n_big as NB. apply Z.mod_small. clear - NB Bk. lia. }
    destruct (HV w1 k1 P1 F1 ltac:(lia)) as [OV1 EV1]. destruct (HV w2 k2 P2 F2 ltac:(lia)) as [OV2 EV2]. clear HV.
    set (v1 := sc_add w1 ec_S_OFFSET) in *. set (v2 := sc_add w2 ec_S_OFFSET) in *. clearbody v1 v2.
    unfold const_table_globalz.
    pose proof (odd_multiples_table_ok t _ k ec_table_size Ht (gej_set_ge_ok _ _ _ Ra) Nk ltac:(unfold ec_table_size; lia)) as TB.
    destruct (odd_multiples_table ec_table_size (gej_set_ge a)) as [tab z]. destruct TB as (ZL & MZ & NZ & Lt).
    assert (ZC : zchain (fv z * t)%F (rev tab) (rev (odd_from k k ec_table_size))).
    { eapply zlink_zchain; [exact ZL|]. intros E0. apply (f_equal (@length _)) in E0. rewrite rev_length, Lt in E0. discriminate E0. }
    pose proof (ge_table_set_globalz_ok _ _ _ ZC) as HT. pose proof (globalz_mag1 _ _ _ ZC) as HM.
    set (pre := ge_table_set_globalz tab) in *. clearbody pre.
    assert (Tt : (fv z * t)%F <> f0) by now apply fmul_nz.
    assert (TO : tab_ok (fv z * t)%F k 16 pre). { apply (tab_ok_intro _ k 16 pre []); [rewrite app_nil_r; exact HT|exact HM]. }
    assert (LP : length pre = 16%nat). { apply Forall2_len in HT. rewrite HT. unfold odd_from. now rewrite map_length, seq_length. }
    assert (V1 : sv v1 < 2 ^ 130) by lia. assert (V2 : sv v2 < 2 ^ 130) by lia.
    pose proof (const_loop_ok _ k pre v1 v2 26 Tt Nk LP TO OV1 OV2 ltac:(lia) (map ge_mul_lambda pre) gej_infinity eq_refl (or_introl eq_refl) V1 V2 ltac:(lia)) as RF.
    change ec_groups with 26%nat. set (r := const_loop _ _ _ _ _ _) in *. clearbody r.
    assert (EQ : K ((cval (sv v1) 0 + lambda * cval (sv v2) 0) * k) = K (sv q * k)).
    { apply pmul_G_eq. assert (Nn : n <> 0) by (clear; intros E0; discriminate E0). rewrite Z.mul_mod by exact Nn.
      rewrite (const_total (sv q) (sv s) (sv ec_K) k1 k2 (sv v1) (sv v2)); [now rewrite <- Z.mul_mod by exact Nn| | |exact EK|exact EV1|exact EV2].
      - rewrite E2, E1. apply Z.mod_mod. exact Nn.
      - rewrite Es. symmetry. apply Z.mod_small. apply sc_ok_range, O2. }
    rewrite EQ in RF. eapply unframe; [exact Tt|exact RF| |exact MZ]. reflexivity.
Qed.

(** ** x-only multiplication *)
Lemma xonly_core nn g q (D : F) y : fe_mag 8 nn -> D <> f0 ->
  let N := fv nn in let gv := (N * N * N + b7 * (D * D * D))%F in let x := zv (N / D)%F in
  fx 2 g gv -> on_curve (Aff x y) -> sc_ok q -> sv q <> 0 ->
  let rj := ecmult_const (mkge (fe_mul g nn) (fe_sqr g) false) q in
  fe_mag 1 (jz rj) /\ fe_mag 4 (jx rj) /\ fv (jz rj) <> f0 /\ gv <> f0 /\
  fv (jx rj) = (toF (xcoord (pmul (sv q) (Aff x y))) * (fv (jz rj) * fv (jz rj) * gv * D))%F.
Proof.
  intros Mn HD N gv x Hg OC Hq Nq.
  assert (ED : (toF x * D = N)%F). { unfold x. rewrite toF_zv. field. exact HD. }
  pose proof (on_curve_eqn _ _ OC) as EQ. unfold eqn in EQ. pose proof (on_curve_ynz _ _ OC) as NY.
  set (X := toF x) in *. set (Y := toF y) in *.
  assert (EG : gv = (Y * Y * (D * D * D))%F). { unfold gv. rewrite EQ, <- ED. ring. }
  set (v := (Y * (D * D))%F).
  assert (Nv : v <> f0) by (apply fmul_nz; [exact NY|now apply fmul_nz]).
  assert (Ng : gv <> f0) by (rewrite EG; apply fmul_nz; [now apply fmul_nz|apply fmul_nz; [now apply fmul_nz|exact HD]]).
  pose proof (fx_mul _ _ _ _ _ _ Hg (fx_of _ _ Mn) eq_refl) as HX. pose proof (fx_sqr _ _ _ Hg eq_refl) as HY.
  assert (RP : ge_rep v (mkge (fe_mul g nn) (fe_sqr g) false) (Aff x y)).
  { split; [cbn [gx]; mw HX|]. split; [cbn [gy]; mw HY|]. split; [exact OC|]. split; [reflexivity|]. cbn [gx gy].
    rewrite (fx_fv _ _ _ HX), (fx_fv _ _ _ HY). fold N. fold X. fold Y. rewrite EG. unfold v. split; [rewrite <- ED; ring|ring]. }
  intros rj. pose proof (ecmult_const_ok v _ q _ Nv RP Hq) as RJ. fold rj in RJ. clearbody rj.
  destruct (gej_rep_mags _ _ _ RJ) as (Mx & _ & Mz & _).
  assert (Fj : jinf rj = false).
  { destruct (all_points_multiples_of_G _ OC) as (k & _ & EP). rewrite EP, K_mul in RJ. apply (gej_rep_K_fin _ _ _ RJ).
    apply small_mult_nz; [|pose proof (sc_ok_range _ Hq); lia].
    intros E0. apply pmul_G_Inf in E0. congruence. }
  destruct (gej_rep_fin _ _ _ RJ Fj) as (x3 & y3 & EP & Nz & Ex & _). rewrite EP. cbn [xcoord].
  split; [exact (fx_mag _ _ _ Mz)|]. split; [exact (fx_mag _ _ _ Mx)|]. split; [exact Nz|]. split; [exact Ng|].
  rewrite Ex, EG. unfold v. ring.
Qed.

Definition xden (d : option fe) : F := match d with Some d => fv d | None => f1 end.

Lemma finv_cancel (a b : F) : b <> f0 -> (a * b * finv b = a)%F.
Proof. intros H. field. exact H. Qed.

Theorem ecmult_const_xonly_ok nn d q koc : fe_mag 8 nn -> match d with Some d => fe_mag 8 d /\ fv d <> f0 | None => True end -> sc_ok q -> sv q <> 0 ->
  let x := zv (fv nn / xden d)%F in
  (koc = true -> is_square_mod_p (x * x * x + 7)) ->
  match ecmult_const_xonly nn d q koc with
  | None => ~ is_square_mod_p (x * x * x + 7)
  | Some r => is_square_mod_p (x * x * x + 7) /\ fe_mag 1 r /\ forall y, on_curve (Aff x y) -> fv r = toF (xcoord (pmul (sv q) (Aff x y)))
  end.
Proof.
  intros Mn Hd Hq Nq x Hk. unfold ecmult_const_xonly.
  pose proof (fx_mul _ _ _ _ _ _ (fx_sqr _ _ _ (fx_of _ _ Mn) eq_refl) (fx_of _ _ Mn) eq_refl) as H3.
  assert (ND : xden d <> f0) by (destruct d as [d|]; [apply Hd|exact f1_nz]).
  set (N := fv nn) in *. set (D := xden d) in *.
  set (gv := (N * N * N + b7 * (D * D * D))%F).
  assert (SQ : is_square_mod_p (x * x * x + 7) <-> exists y : F, (y * y = gv * D)%F).
  { rewrite is_square_F'. unfold x. rewrite cubic_fv.
    rewrite (square_scale _ (D * D)%F) by now apply fmul_nz.
    assert (EE : ((N / D * (N / D) * (N / D) + b7) * (D * D * (D * D)) = gv * D)%F) by (unfold gv; field; exact ND). rewrite EE. tauto. }
  assert (HG : exists g ok, match d with
      | Some d => let b := fe_mul (fe_mul_int (fe_sqr d) curve_b) d in
                  let g := fe_add (fe_mul (fe_sqr nn) nn) b in (g, koc || fe_is_square_var (fe_mul g d))
      | None => let g := fe_add_int (fe_mul (fe_sqr nn) nn) curve_b in (g, koc || fe_is_square_var g)
      end = (g, ok) /\ fx 2 g gv /\ (ok = true <-> is_square_mod_p (x * x * x + 7))).
  { assert (KC : forall e : fe, fe_mag 32 e -> fv e = (gv * D)%F -> (koc || fe_is_square_var e = true <-> is_square_mod_p (x * x * x + 7))).
    { intros e Me Ee. rewrite orb_true_iff, (fe_is_square_var_spec e Me), (is_square_F e), Ee, <- SQ. split; [intros [K1 | S1]; auto|auto]. }
    destruct d as [d|].
    - destruct Hd as [Md _].
      pose proof (fx_mul_int _ curve_b _ _ (fx_sqr _ _ _ (fx_of _ _ Md) eq_refl) eq_refl) as H4.
      pose proof (fx_mul _ _ _ _ _ _ H4 (fx_of _ _ Md) eq_refl) as H5.
      pose proof (fx_add _ _ _ _ _ _ H3 H5 eq_refl) as H6. change (1 + 1) with 2 in H6.
      assert (EV : (N * N * N + fv d * fv d * toF curve_b * fv d = gv)%F).
      { unfold gv, D. cbn [xden]. change (toF curve_b) with b7. ring. }
      rewrite EV in H6. eexists _, _. split; [reflexivity|]. split; [exact H6|].
      pose proof (fx_mul _ _ _ _ _ _ H6 (fx_of _ _ Md) eq_refl) as H7.
      apply KC; [mw H7|rewrite (fx_fv _ _ _ H7); reflexivity].
    - pose proof (fx_add_int _ curve_b _ _ H3 eq_refl) as H6. change (1 + 1) with 2 in H6.
      assert (EV : (N * N * N + toF curve_b = gv)%F).
      { unfold gv, D. cbn [xden]. change (toF curve_b) with b7. ring. }
      rewrite EV in H6. eexists _, _. split; [reflexivity|]. split; [exact H6|].
      apply KC; [mw H6|]. rewrite (fx_fv _ _ _ H6). unfold D. cbn [xden]. ring. }
  destruct HG as (g & ok & EG & Hg & Hok). cbv zeta in EG |- *. rewrite EG.
  destruct ok.
  2:{ intros S. apply Hok in S. discriminate S. }
  assert (SQ1 : is_square_mod_p (x * x * x + 7)) by now apply Hok. split; [exact SQ1|].
  set (rj := ecmult_const _ q).
  assert (HR : exists y0, on_curve (Aff x y0)).
  { apply is_square_F' in SQ1 as [yy Ey]. exists (zv yy). unfold x in *. rewrite cubic_fv in Ey. exact (on_curve_psi (ECGroup.A F (N / D)%F yy) Ey). }
  destruct HR as [y0 OC0].
  destruct (xonly_core nn g q D y0 Mn ND Hg OC0 Hq Nq) as (Mz & Mx & Nz & Ng & _). fold rj in Mz, Mx, Nz. fold N in Ng. fold gv in Ng.
  pose proof (fx_mul _ _ _ _ _ _ (fx_sqr _ _ _ (fx_of _ _ Mz) eq_refl) Hg eq_refl) as HI.
  assert (HI2 : fx 1 (match d with Some d => fe_mul (fe_mul (fe_sqr (jz rj)) g) d | None => fe_mul (fe_sqr (jz rj)) g end) (fv (jz rj) * fv (jz rj) * gv * D)%F).
  { destruct d as [d|].
    - destruct Hd as [Md _]. exact (fx_mul _ _ _ _ _ _ HI (fx_of _ _ Md) eq_refl).
    - destruct HI as [M V]. split; [exact M|]. rewrite V. unfold D. cbn [xden]. ring. }
  pose proof (fx_mul _ _ _ _ _ _ (fx_of _ _ Mx) (fx_inv _ _ _ HI2 eq_refl) eq_refl) as HF.
  split; [exact (fx_mag _ _ _ HF)|]. intros y OC. rewrite (fx_fv _ _ _ HF).
  destruct (xonly_core nn g q D y Mn ND Hg OC Hq Nq) as (_ & _ & _ & _ & EJ). fold rj in EJ. fold N in EJ. fold gv in EJ. fold x in EJ.
  rewrite EJ. apply finv_cancel. apply fmul_nz; [|exact ND]. apply fmul_nz; [now apply fmul_nz|exact Ng].
Qed.
