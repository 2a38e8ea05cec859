(** The C55 statements, from the 32-bit scalar lemmas. *)
Require Import ZArith List Bool Lia.
From Verif Require Import Word Word32 Spec Bytes Curve ScalarModel ScalarProof ScalarProof2 ScalarMul ScalarSplit SpecRep RepProof Scalar32Model Scalar32Proof Scalar32Proof2 Scalar32Mul Scalar32Ops SpecScalar32.
Import ListNotations.
Local Open Scope Z_scope.

Lemma scalar8_int_eq a : scalar8_int a = s8v a. Proof. unfold scalar8_int, s8v. ring. Qed.
Lemma words8_iff a : scalar8_words a <-> s8_lim a. Proof. unfold scalar8_words, s8_lim, hw. tauto. Qed.
Lemma valid8_iff a : scalar8_valid a <-> s8_ok a. Proof. unfold scalar8_valid, s8_ok. rewrite scalar8_int_eq, words8_iff. tauto. Qed.
Ltac srep8 := rewrite ?valid8_iff, ?words8_iff, ?scalar8_int_eq in *.

(** Every program keeps the two builds on the same valid scalar. *)
Lemma srun_same e : sx_ok e -> same (srun32 e) (srun64 e).
Proof.
  induction e; cbn [sx_ok srun32 srun64]; intros H.
  - destruct H as [H1 H2]. destruct (s8_set_b32_ok l H1 H2) as (A & B & _). destruct (sc_set_b32_ok l H1 H2) as (C & D & _).
    split; [exact A|]. split; [exact C|]. now rewrite B, D.
  - destruct (s8_set_int_ok k H) as [A B]. destruct (sc_set_int_ok k H) as [C D]. split; [exact A|]. split; [exact C|]. now rewrite B, D.
  - destruct H as [H1 H2]. apply same_add; auto.
  - destruct H as [H1 H2]. destruct (IHe1 H1) as ([A _] & [B _] & C). apply same_mul; auto.
  - apply same_negate; auto.
  - specialize (IHe H). pose proof IHe as (A & B & C). unfold flag_int.
    destruct flag; rewrite s8_cond_negate_ok, sc_cond_negate_ok by (assumption || (left; reflexivity) || (right; reflexivity)); cbn [fst Z.eqb]; [now apply same_negate|assumption].
  - apply same_half; auto.
  - destruct H as [H1 H2]. specialize (IHe1 H1). specialize (IHe2 H2). pose proof IHe1 as ([A _] & [B _] & C). pose proof IHe2 as ([A2 _] & [B2 _] & C2). unfold flag_int.
    destruct flag; rewrite s8_cmov_ok, sc_cmov_ok by (assumption || (left; reflexivity) || (right; reflexivity)); cbn [Z.eqb]; assumption.
  - destruct (IHe H) as (A & B & C). destruct (s8_split_128_ok _ A) as (A1 & A2 & A3 & A4). destruct (sc_split_128_ok _ B) as (B1 & B2 & B3 & B4).
    split; [exact A1|]. split; [exact B1|]. now rewrite A3, B3, C.
  - destruct (IHe H) as (A & B & C). destruct (s8_split_128_ok _ A) as (A1 & A2 & A3 & A4). destruct (sc_split_128_ok _ B) as (B1 & B2 & B3 & B4).
    split; [exact A2|]. split; [exact B2|]. now rewrite A4, B4, C.
  - exact (proj1 (same_split_lambda _ _ (IHe H))).
  - exact (proj2 (same_split_lambda _ _ (IHe H))).
Qed.

Lemma prop8_add a b : scalar8_valid a -> scalar8_valid b ->
  scalar8_valid (fst (s8_add_ov a b)) /\ scalar8_int (fst (s8_add_ov a b)) = (scalar8_int a + scalar8_int b) mod n /\
  snd (s8_add_ov a b) = (if n <=? scalar8_int a + scalar8_int b then 1 else 0).
Proof.
  srep8. intros A B. destruct (s8_add_ov_ok a b A B) as (C & D & E). rewrite E. split; [exact C|split; [exact D|]]. now destruct (n <=? s8v a + s8v b).
Qed.
Lemma prop8_mul a b : scalar8_words a -> scalar8_words b ->
  scalar8_valid (s8_mul a b) /\ scalar8_int (s8_mul a b) = (scalar8_int a * scalar8_int b) mod n.
Proof.
  srep8. intros A B. split; [now apply s8_mul_ok|now apply s8_mul_sv].
Qed.
Lemma prop8_reduce_512 l0 l1 l2 l3 l4 l5 l6 l7 l8 l9 l10 l11 l12 l13 l14 l15 :
  Forall (fun x => 0 <= x < 2 ^ 32) [l0; l1; l2; l3; l4; l5; l6; l7; l8; l9; l10; l11; l12; l13; l14; l15] ->
  forall r, s8_reduce_512 [l0; l1; l2; l3; l4; l5; l6; l7; l8; l9; l10; l11; l12; l13; l14; l15] = r ->
  scalar8_valid r /\ scalar8_int r =
    (l0 + 2 ^ 32 * l1 + 2 ^ 64 * l2 + 2 ^ 96 * l3 + 2 ^ 128 * l4 + 2 ^ 160 * l5 + 2 ^ 192 * l6 + 2 ^ 224 * l7 + 2 ^ 256 * l8 + 2 ^ 288 * l9 + 2 ^ 320 * l10 + 2 ^ 352 * l11 + 2 ^ 384 * l12 + 2 ^ 416 * l13 + 2 ^ 448 * l14 + 2 ^ 480 * l15) mod n.
Proof.
  intros H r <-. rewrite valid8_iff, scalar8_int_eq. match type of H with Forall _ ?l => assert (HL : l16_lim l) by (split; [reflexivity|exact H]) end.
  destruct (s8_reduce_512_val _ HL) as (A & B).
  split; [exact A|]. rewrite B. clear. unfold lv16. cbn [nth]. f_equal. ring.
Qed.
Lemma prop8_negate a : scalar8_valid a ->
  scalar8_valid (s8_negate a) /\ scalar8_int (s8_negate a) = (- scalar8_int a) mod n /\
  s8_cond_negate a 0 = (a, 1) /\ s8_cond_negate a 1 = (s8_negate a, -1).
Proof.
  srep8. intro A. destruct (s8_negate_ok a A) as (B & C). split; [exact B|split; [exact C|]].
  split; [rewrite (s8_cond_negate_ok a 0 A (or_introl eq_refl))|rewrite (s8_cond_negate_ok a 1 A (or_intror eq_refl))]; reflexivity.
Qed.
Lemma prop8_half a : scalar8_valid a -> scalar8_valid (s8_half a) /\ (2 * scalar8_int (s8_half a)) mod n = scalar8_int a.
Proof.
  srep8. intro A. destruct (s8_half_ok a A) as (B & C). split; [exact B|]. rewrite C. now apply s8_ok_mod.
Qed.
Lemma prop8_cadd_bit a bit flag : scalar8_words a -> 0 <= bit < 256 -> flag = 0 \/ flag = 1 -> scalar8_int a + flag * 2 ^ bit < 2 ^ 256 ->
  scalar8_words (s8_cadd_bit a bit flag) /\ scalar8_int (s8_cadd_bit a bit flag) = scalar8_int a + flag * 2 ^ bit.
Proof.
  srep8. apply s8_cadd_bit_ok.
Qed.
Lemma prop8_tests a b : scalar8_words a -> scalar8_words b ->
  s8_is_zero a = (scalar8_int a =? 0) /\ s8_is_one a = (scalar8_int a =? 1) /\ s8_is_even a = Z.even (scalar8_int a) /\
  s8_is_high a = (n / 2 <? scalar8_int a) /\ s8_eq a b = (scalar8_int a =? scalar8_int b) /\ s8_check_overflow a = (n <=? scalar8_int a).
Proof.
  srep8. intros A B. split; [now apply s8_is_zero_spec|split; [now apply s8_is_one_spec|split; [apply s8_is_even_spec|split; [now apply s8_is_high_spec|split]]]];
  [now apply s8_eq_spec|now apply s8_check_overflow_spec].
Qed.
Lemma prop8_bits a offset count : scalar8_words a -> 0 <= offset -> 1 <= count <= 32 -> offset + count <= 256 ->
  s8_get_bits_var a offset count = (scalar8_int a / 2 ^ offset) mod 2 ^ count /\
  ((offset + count - 1) / 32 = offset / 32 -> s8_get_bits_limb32 a offset count = (scalar8_int a / 2 ^ offset) mod 2 ^ count).
Proof.
  srep8. intros A O1 C1 S1. split; [now apply s8_get_bits_var_ok|now apply s8_get_bits_limb32_ok].
Qed.
Lemma prop8_mul_shift a b : scalar8_words a -> scalar8_words b ->
  scalar8_words (s8_mul_shift_var a b 384) /\ scalar8_int (s8_mul_shift_var a b 384) = (scalar8_int a * scalar8_int b + 2 ^ 383) / 2 ^ 384.
Proof.
  srep8. apply s8_mul_shift_384.
Qed.
Lemma prop8_bytes a l : (scalar8_words a -> s8_get_b32 a = be_bytes 32 (scalar8_int a)) /\
  (byte_list l -> length l = 32%nat ->
     scalar8_valid (fst (s8_set_b32 l)) /\ scalar8_int (fst (s8_set_b32 l)) = be_val l mod n /\ snd (s8_set_b32 l) = (n <=? be_val l) /\
     snd (s8_set_b32_seckey l) = ((0 <? be_val l) && (be_val l <? n))).
Proof.
  srep8. split; [apply s8_get_b32_ok|]. intros B L. destruct (s8_set_b32_ok l B L) as (C & D & E). destruct (s8_set_b32_seckey_ok l B L) as (_ & _ & H). srep8. tauto.
Qed.
Lemma prop8_split_128 k : scalar8_valid k ->
  scalar8_valid (fst (s8_split_128 k)) /\ scalar8_valid (snd (s8_split_128 k)) /\
  scalar8_int (fst (s8_split_128 k)) = scalar8_int k mod 2 ^ 128 /\ scalar8_int (snd (s8_split_128 k)) = scalar8_int k / 2 ^ 128.
Proof.
  srep8. apply s8_split_128_ok.
Qed.
Lemma prop8_cmov r a flag : scalar8_words r -> scalar8_words a -> flag = 0 \/ flag = 1 -> s8_cmov r a flag = if flag =? 0 then r else a.
Proof.
  srep8. apply s8_cmov_ok.
Qed.
Lemma prop8_split_lambda k : scalar8_valid k -> forall r1 r2, s8_split_lambda k = (r1, r2) ->
  scalar8_valid r1 /\ scalar8_valid r2 /\ (scalar8_int r1 + lambda * scalar8_int r2) mod n = scalar8_int k /\
  (scalar8_int r1 < 2 ^ 128 \/ n - scalar8_int r1 < 2 ^ 128) /\ (scalar8_int r2 < 2 ^ 128 \/ n - scalar8_int r2 < 2 ^ 128).
Proof.
  intros K r1 r2 E. rewrite !valid8_iff, !scalar8_int_eq in *. pose proof (s8_ok_range k K) as R.
  destruct (sc_of_Z_ok (s8v k) R) as [O V].
  assert (S : same k (sc_of_Z (s8v k))) by (split; [exact K|split; [exact O|now rewrite V]]).
  destruct (same_split_lambda _ _ S) as [(A1 & B1 & C1) (A2 & B2 & C2)]. rewrite E in A1, A2, C1, C2. cbn [fst snd] in A1, A2, C1, C2.
  destruct (sc_split_lambda (sc_of_Z (s8v k))) as [q1 q2] eqn:Q. cbn [fst snd] in C1, C2, B1, B2.
  destruct (prop_split (sc_of_Z (s8v k))) with (2 := Q) as (_ & _ & T1 & T2 & T3); [now rewrite valid_iff|].
  rewrite !scalar_int_eq in T1. rewrite !scalar_int_eq in T2. rewrite !scalar_int_eq in T3. rewrite V, <- C1, <- C2 in T1. rewrite <- C1 in T2. rewrite <- C2 in T3. tauto.
Qed.
Lemma prop8_agree e : sx_ok e ->
  s8_get_b32 (srun32 e) = sc_get_b32 (srun64 e) /\
  s8_is_zero (srun32 e) = sc_is_zero (srun64 e) /\ s8_is_one (srun32 e) = sc_is_one (srun64 e) /\
  s8_is_even (srun32 e) = sc_is_even (srun64 e) /\ s8_is_high (srun32 e) = sc_is_high (srun64 e) /\
  (forall offset count, 0 <= offset -> 1 <= count <= 32 -> offset + count <= 256 ->
     s8_get_bits_var (srun32 e) offset count = sc_get_bits_var (srun64 e) offset count).
Proof.
  intros H. destruct (srun_same e H) as (A & B & E). pose proof (proj1 A) as A'. pose proof (proj1 B) as B'.
  split; [now rewrite s8_get_b32_ok, sc_get_b32_ok, E by assumption|].
  split; [now rewrite s8_is_zero_spec, sc_is_zero_spec, E by assumption|].
  split; [now rewrite s8_is_one_spec, sc_is_one_spec, E by assumption|].
  split; [now rewrite s8_is_even_spec, sc_is_even_spec, E|].
  split; [now rewrite s8_is_high_spec, sc_is_high_spec, E by assumption|].
  intros o c H1 H2 H3. now rewrite s8_get_bits_var_ok, sc_get_bits_var_ok, E by assumption.
Qed.

Lemma big_s8 : scalar8_valid (mks8 (S8_N_0 - 1) S8_N_1 S8_N_2 S8_N_3 S8_N_4 S8_N_5 S8_N_6 S8_N_7) /\
  scalar8_int (mks8 (S8_N_0 - 1) S8_N_1 S8_N_2 S8_N_3 S8_N_4 S8_N_5 S8_N_6 S8_N_7) = n - 1.
Proof. split; [|vm_compute; reflexivity]. repeat split; vm_compute; try reflexivity; discriminate. Qed.
