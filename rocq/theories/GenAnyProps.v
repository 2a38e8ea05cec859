(** C61 in the vocabulary of SpecGenAny. *)
Require Import ZArith List Bool Lia.
From Verif Require Import Word Bytes Spec ZmField Curve FieldModel FieldMul FieldProof FieldProof2 FieldBytes FieldOps ScalarModel ScalarProof ScalarProof2 ScalarSplit
  GroupModel GroupProof GroupProof2 GroupProof3 GroupProof4 GroupProof5 SpecHash HashModel HashProof GenTable GenTableProof GenModel GenProof GenAnyModel GenAnyProof GenAnyTable
  SpecRep RepProof SpecApi ApiModel ApiProof SpecGenAny.
Import ListNotations.
Local Open Scope Z_scope.

Lemma spacing_unique g s s' : spacing_is g s -> spacing_is g s' -> s = s'.
Proof.
  unfold spacing_is. intros [A B] [C D]. generalize dependent (blocks g * teeth g)%nat. intros m A B C D.
  assert (~ (s' < s)%nat). { intros L. assert (m * s' <= m * (s - 1))%nat by (apply Nat.mul_le_mono_l; lia). lia. }
  assert (~ (s < s')%nat). { intros L. assert (m * s <= m * (s' - 1))%nat by (apply Nat.mul_le_mono_l; lia). lia. }
  lia.
Qed.
Lemma spacing_spec g : (1 <= blocks g)%nat -> (1 <= teeth g)%nat -> spacing_is g (spacing g).
Proof.
  intros HB HT. unfold spacing_is, spacing, ceil_div. set (m := (blocks g * teeth g)%nat).
  assert (Hm : (1 <= m)%nat) by (unfold m; change 1%nat with (1 * 1)%nat; now apply Nat.mul_le_mono). clearbody m.
  change (256 - 1)%nat with 255%nat.
  pose proof (Nat.div_mod 255 m ltac:(lia)) as D. pose proof (Nat.mod_upper_bound 255 m ltac:(lia)) as R.
  set (q := (255 / m)%nat) in *. set (r := (255 mod m)%nat) in *. clearbody q r.
  rewrite (Nat.add_comm 1 q), Nat.add_sub. rewrite Nat.mul_add_distr_l, Nat.mul_1_r. lia.
Qed.
Lemma prop_allowed g : comb_compiles g = true <-> allowed g.
Proof.
  unfold comb_compiles. rewrite !andb_true_iff, !negb_true_iff, !Nat.leb_le, Nat.ltb_ge, !Nat.leb_gt. unfold allowed. split.
  - intros (((((A & B) & C & D) & E) & F) & H). split; [auto|]. split; [auto|]. exists (spacing g). split; [now apply spacing_spec|auto].
  - intros ((A & B) & (C & D) & s & S & F & H). pose proof (spacing_unique g s (spacing g) S (spacing_spec g A C)) as EQ. subst s.
    assert (256 <= bits_covered g)%nat by apply S. auto 10.
Qed.
Lemma coef_eq g b i : comb_coefficient g (spacing g) b i = any_coef g (Z.of_nat b) (Z.of_nat i).
Proof.
  unfold comb_coefficient, any_coef. generalize (teeth g) at 2 4. intros k. induction k as [|k IH]; [reflexivity|].
  rewrite seq_S, map_app, fold_right_app. cbn [tsum map fold_right]. rewrite Nat.add_0_l, Z.add_0_r, <- IH.
  replace (Z.of_nat ((b * teeth g + k) * spacing g)) with ((Z.of_nat (teeth g) * Z.of_nat b + Z.of_nat k) * Z.of_nat (spacing g)) by lia.
  fold (pm (Z.testbit (Z.of_nat i) (Z.of_nat k))). set (v := pm _ * _). clearbody v. clear IH.
  generalize (map (fun t => (if Z.testbit (Z.of_nat i) (Z.of_nat t) then 1 else -1) * 2 ^ Z.of_nat ((b * teeth g + t) * spacing g)) (seq 0 k)).
  induction l as [|a l IH]; cbn [fold_right]; [ring|]. rewrite IH. ring.
Qed.
Lemma prop_table g s b i : allowed g -> spacing_is g s -> (b < blocks g)%nat -> (i < 2 ^ (teeth g - 1))%nat ->
  exists P, stored_point (nth i (nth b (prec_table g) []) (mkges (mkfes 0 0 0 0) (mkfes 0 0 0 0))) P /\ padd P P = pmul (comb_coefficient g s b i) G.
Proof.
  intros A S Hb Hi. apply prop_allowed in A. destruct (compiles_bounds g A) as (B1 & T1 & _).
  rewrite (spacing_unique g s (spacing g) S) by (apply spacing_spec; lia). rewrite coef_eq.
  destruct (prec_table_ok g A) as [HT HL]. fold (points g) in Hi.
  assert (K : forall tabs b0 c, (c < length tabs)%nat -> any_tabs_ok g b0 tabs -> any_tab_ok g (b0 + Z.of_nat c) (nth c tabs [])).
  { induction tabs as [|t tabs IH]; intros b0 c Hc H; cbn [length] in Hc; [lia|]. destruct H as [H1 H2]. destruct c; [now rewrite Z.add_0_r|].
    cbn [nth]. replace (b0 + Z.of_nat (Datatypes.S c)) with (b0 + 1 + Z.of_nat c) by lia. apply IH; [lia|exact H2]. }
  destruct (K (prec_table g) 0 b ltac:(lia) HT) as (L & F & E). rewrite Z.add_0_l in E. destruct (E i Hi) as (x & y & OC & EP & SX & SY).
  fold ges0. exists (Aff x y). split.
  - exists x, y. split; [reflexivity|]. split; [exact OC|]. rewrite Forall_forall in F.
    destruct (F (nth i (nth b (prec_table g) []) ges0) ltac:(apply nth_In; lia)) as [F1 F2]. unfold stored_int, fes_ok, sval in *. lia.
  - rewrite EP, <- pmul_add by apply HG_on_curve. rewrite <- pmul_2_HG. f_equal. ring.
Qed.
Lemma context_of_ok g c : comb_compiles g = true -> gen_context_of g c -> any_ctx_ok g c.
Proof.
  intros A H. destruct (prec_table_ok g A) as [HT HL]. induction H as [m|c seed H IH Hs]; [now apply any_build_ok|now apply any_blind_ok].
Qed.
Lemma prop_multiplication g c a : allowed g -> gen_context_of g c -> scalar_valid a ->
  jacobian_point (any_ecmult_gen g (prec_table g) c a) (pmul (scalar_int a) G).
Proof.
  intros A H V. apply prop_allowed in A. apply valid_iff in V. rewrite jac_iff, scalar_int_eq. destruct (prec_table_ok g A) as [HT HL].
  apply any_ecmult_gen_ok; try assumption. now apply context_of_ok.
Qed.
Lemma prop_agree g1 g2 c1 c2 a : allowed g1 -> allowed g2 -> gen_context_of g1 c1 -> gen_context_of g2 c2 -> scalar_valid a -> 0 < scalar_int a ->
  pubkey_save (ge_set_gej (any_ecmult_gen g1 (prec_table g1) c1 a)) = pubkey_save (ge_set_gej (any_ecmult_gen g2 (prec_table g2) c2 a)).
Proof.
  intros A1 A2 H1 H2 V P. pose proof (prop_multiplication g1 c1 a A1 H1 V) as R1. pose proof (prop_multiplication g2 c2 a A2 H2 V) as R2.
  apply jac_iff in R1, R2. destruct (ge_set_gej_ok _ _ _ R1) as (G1 & _). destruct (ge_set_gej_ok _ _ _ R2) as (G2 & _).
  destruct (pmul (scalar_int a) G) as [|x y] eqn:E.
  - apply pmul_G_Inf in E. destruct V as [_ V]. rewrite Z.mod_small in E by lia. lia.
  - unfold pubkey_save. rewrite (ge_to_bytes_ok _ x y G1). now rewrite (ge_to_bytes_ok _ x y G2).
Qed.

(** ** The instance (11, 6) is GenModel *)
Lemma default_bits k rec : forall tooth bp bits, any_bits k default_comb rec tooth bp bits = gen_bits k rec tooth bp bits.
Proof. induction k as [|k IH]; intros; [reflexivity|]. cbn [any_bits gen_bits]. apply IH. Qed.
Lemma default_blocks c rec tabs : forall bp st, any_blocks default_comb c rec tabs bp st = gen_blocks c rec tabs bp st.
Proof.
  induction tabs as [|t tabs IH]; intros bp [[r adds] first]; [reflexivity|]. cbn [any_blocks gen_blocks]. rewrite default_bits. apply IH.
Qed.
Lemma default_outer k c tabs rec : forall st, any_outer k default_comb c tabs rec st = gen_outer k c tabs rec st.
Proof.
  induction k as [|k IH]; intros st; [rewrite any_outer_0, gen_outer_0|rewrite any_outer_S, gen_outer_S]; rewrite default_blocks; destruct gen_blocks as [[r a] f]; [reflexivity|apply IH].
Qed.
Lemma default_recode d : any_recode default_comb d = gen_recode d.
Proof. reflexivity. Qed.
Lemma prop_default_mult c a : any_ecmult_gen default_comb (prec_table default_comb) c a = ecmult_gen c a.
Proof.
  rewrite default_table. unfold any_ecmult_gen, ecmult_gen. cbv zeta. rewrite default_outer, default_recode. reflexivity.
Qed.
Lemma default_diff : any_scalar_diff default_comb = gen_scalar_diff.
Proof. unfold any_scalar_diff, gen_scalar_diff. change (bits_covered default_comb - 1)%nat with 263%nat. reflexivity. Qed.
Lemma prop_default_blind c seed : any_blind default_comb (prec_table default_comb) c seed = ecmult_gen_blind c seed.
Proof.
  unfold any_blind, ecmult_gen_blind. rewrite default_diff. destruct seed as [s|]; [|reflexivity]. cbv zeta.
  destruct (rfc6979_generate (rfc6979_initialize (sc_get_b32 (g_scalar_offset c) ++ s)) 32) as [r1 n1].
  destruct (rfc6979_generate r1 32) as [r2 n2]. now rewrite prop_default_mult.
Qed.

Lemma ex_allowed : allowed (mkcomb 2 5) /\ allowed (mkcomb 11 6) /\ allowed (mkcomb 43 6) /\ allowed (mkcomb 1 8) /\ allowed (mkcomb 256 1) /\ ~ allowed (mkcomb 12 6).
Proof. rewrite <- !prop_allowed. repeat split; try reflexivity. discriminate. Qed.
Lemma ex_context : gen_context_of (mkcomb 43 6) (any_blind (mkcomb 43 6) (prec_table (mkcomb 43 6))
  (any_context_build (mkcomb 43 6) (prec_table (mkcomb 43 6)) (mkgen false (mksc 1 2 3 4) ge_const_g fe_one)) (Some (repeat 7 32))).
Proof.
  apply Blinded; [apply Built|]. intros s E. injection E as <-. split; [|reflexivity]. apply Forall_forall. intros x Hx. assert (x = 7) by exact (repeat_spec 32 7 x Hx). lia.
Qed.
Lemma ex_coefficient : comb_coefficient (mkcomb 2 5) 26 1 5 = 2 ^ 130 - 2 ^ 156 + 2 ^ 182 - 2 ^ 208 - 2 ^ 234 /\ spacing_is (mkcomb 2 5) 26.
Proof. split; [reflexivity|]. unfold spacing_is. cbn [blocks teeth]. lia. Qed.
