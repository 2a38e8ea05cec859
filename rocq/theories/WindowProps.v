(** C62 in the vocabulary of SpecRep. *)
Require Import ZArith List Bool Lia.
From Verif Require Import Word Bytes Spec ZmField Curve FieldModel FieldMul FieldProof FieldProof2 FieldBytes FieldOps ScalarModel ScalarProof ScalarProof2
  GroupModel GroupProof GroupProof2 GroupProof3 GroupProof4 GroupProof5 EcmultModel WnafProof EcmultProof EcmultProof2
  SpecRep RepProof RepProof2 ApiModel ApiProof WindowModel WindowProof SpecWindow.
Import ListNotations.
Local Open Scope Z_scope.

Lemma windows w : window_compiles w = true <-> 2 <= w <= 24.
Proof. unfold window_compiles. rewrite Z.gtb_ltb. destruct (Z.ltb_spec w 2), (Z.ltb_spec 24 w); cbn; split; intros; try lia; discriminate. Qed.
Lemma prop_windows built w : program_compiles built w = true <-> window_allowed built w.
Proof.
  unfold program_compiles, window_allowed, file_window. rewrite !andb_true_iff, !windows, negb_true_iff, Z.gtb_ltb, Z.ltb_ge.
  destruct (Z.ltb_spec built 15); lia.
Qed.
Lemma prop_win_lengths built w : window_allowed built w ->
  Z.of_nat (length (fst (precomputed built w))) = 2 ^ (w - 2) /\ Z.of_nat (length (snd (precomputed built w))) = 2 ^ (w - 2).
Proof.
  intros (_ & H1 & H2). rewrite precomputed_ok by (try assumption; lia). unfold compute_two_tables. cbn [fst snd]. pose proof (size_pos w ltac:(lia)).
  rewrite !table_length, size_Z by lia. auto.
Qed.
Lemma prop_win_entries built w i : window_allowed built w -> Z.of_nat i < 2 ^ (w - 2) ->
  affine_point (ge_from_storage (nth i (fst (precomputed built w)) ges0)) (pmul (2 * Z.of_nat i + 1) G) /\
  affine_point (ge_from_storage (nth i (snd (precomputed built w)) ges0)) (pmul ((2 * Z.of_nat i + 1) * 2 ^ 128) G).
Proof.
  intros (_ & H1 & H2) Hi. rewrite precomputed_ok by (try assumption; lia). destruct (window_tables w H1) as [T1 T2].
  assert (L : (i < table_size w)%nat) by (apply Nat2Z.inj_lt; rewrite size_Z by lia; exact Hi).
  rewrite !aff_iff. split; [|apply T2, L]. destruct (T1 i L) as [R _]. now rewrite Z.mul_1_r in R.
Qed.
Lemma prop_win_strauss built w l m ng : window_allowed built w -> Forall2 term_of l m -> opt_valid ng ->
  jacobian_point (win_strauss w (fst (precomputed built w)) (snd (precomputed built w)) l ng) (padd (lin_comb m) (pmul (opt_int ng) G)).
Proof.
  rewrite jac_iff, opt_valid_iff, opt_int_eq. intros (_ & H1 & H2) H O. rewrite precomputed_ok by (try assumption; lia). destruct (window_tables w H1) as [T1 T2].
  destruct (terms_K l m H) as (kvs & F & ->). rewrite K_add. now apply win_strauss_ok.
Qed.
Lemma prop_win_ecmult built w a na ng P : window_allowed built w -> jacobian_point a P -> scalar_valid na -> opt_valid ng ->
  jacobian_point (win_ecmult w (fst (precomputed built w)) (snd (precomputed built w)) a na ng) (padd (pmul (scalar_int na) P) (pmul (opt_int ng) G)).
Proof.
  rewrite !jac_iff, valid_iff, opt_valid_iff, scalar_int_eq, opt_int_eq. intros (_ & H1 & H2). rewrite precomputed_ok by (try assumption; lia).
  destruct (window_tables w H1) as [T1 T2]. now apply win_ecmult_ok.
Qed.
Lemma prop_win_agree b1 w1 b2 w2 a na ng P : window_allowed b1 w1 -> window_allowed b2 w2 ->
  jacobian_point a P -> scalar_valid na -> opt_valid ng ->
  let r1 := win_ecmult w1 (fst (precomputed b1 w1)) (snd (precomputed b1 w1)) a na ng in
  let r2 := win_ecmult w2 (fst (precomputed b2 w2)) (snd (precomputed b2 w2)) a na ng in
  gej_is_infinity r1 = gej_is_infinity r2 /\
  (gej_is_infinity r1 = false -> pubkey_save (ge_set_gej_var r1) = pubkey_save (ge_set_gej_var r2)).
Proof.
  intros H1 H3 Ha Hn Hg r1 r2.
  pose proof (prop_win_ecmult b1 w1 a na ng P H1 Ha Hn Hg) as R1. pose proof (prop_win_ecmult b2 w2 a na ng P H3 Ha Hn Hg) as R2.
  fold r1 in R1. fold r2 in R2. clearbody r1 r2. unfold gej_is_infinity.
  pose proof R1 as (_ & _ & _ & _ & I1). pose proof R2 as (_ & _ & _ & _ & I2). apply jac_iff in R1, R2.
  destruct (padd (pmul (scalar_int na) P) (pmul (opt_int ng) G)) as [|x y].
  - rewrite I1, I2. split; [reflexivity|discriminate].
  - destruct I1 as [-> _], I2 as [-> _]. split; [reflexivity|]. intros _.
    destruct (ge_set_gej_var_ok _ _ _ R1) as (G1 & _). destruct (ge_set_gej_var_ok _ _ _ R2) as (G2 & _).
    unfold pubkey_save. rewrite (ge_to_bytes_ok _ x y G1). now rewrite (ge_to_bytes_ok _ x y G2).
Qed.
Lemma prop_win_bounds w pre pre128 b1 b2 l ng : 2 <= w <= 24 -> opt_valid ng ->
  Z.of_nat (length pre) = 2 ^ (w - 2) -> Z.of_nat (length pre128) = 2 ^ (w - 2) ->
  win_strauss w (pre ++ b1) (pre128 ++ b2) l ng = win_strauss w pre pre128 l ng.
Proof. rewrite opt_valid_iff. intros H O L1 L2. rewrite <- size_Z in L1, L2 by lia. apply Nat2Z.inj in L1, L2. now apply strauss_junk. Qed.
#[local] Transparent pre_g pre_g_128.
Lemma prop_win_default built : precomputed built 15 = (pre_g, pre_g_128).
Proof. rewrite precomputed_ok by lia. unfold pre_g, pre_g_128, window_g. apply surjective_pairing. Qed.
#[local] Opaque pre_g pre_g_128.
Lemma prop_win_default_mult built l a na ng :
  win_strauss 15 (fst (precomputed built 15)) (snd (precomputed built 15)) l ng = ecmult_strauss_wnaf l ng /\
  win_ecmult 15 (fst (precomputed built 15)) (snd (precomputed built 15)) a na ng = ecmult a na ng.
Proof. rewrite prop_win_default. cbn [fst snd]. split; [apply default_strauss|]. unfold win_ecmult, ecmult. apply default_strauss. Qed.
Lemma ex_windows : window_allowed 15 2 /\ window_allowed 15 15 /\ window_allowed 24 24 /\ window_allowed 2 15 /\ ~ window_allowed 15 16 /\ ~ window_allowed 24 25.
Proof. unfold window_allowed. lia. Qed.
