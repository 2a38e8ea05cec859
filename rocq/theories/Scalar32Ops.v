(** 32-bit scalars: bytes, selection, bit extraction, rounded multiplication, the lambda split. *)
Require Import ZArith List Bool Lia Znumtheory.
From Verif Require Import Word Word32 Spec Bytes ZmField Curve FieldModel ScalarModel ScalarProof ScalarProof2 ScalarMul ScalarSplit FieldBytes HashModel HashProof Scalar32Model Scalar32Proof Scalar32Proof2 Scalar32Mul.
Import ListNotations.
Local Open Scope Z_scope.

(** ** Bytes *)
Lemma read_be32_ok l i : byte_list l -> (i + 4 <= length l)%nat ->
  read_be32 l i = be_val (firstn 4 (skipn i l)) /\ hw (read_be32 l i).
Proof.
  intros H L.
  assert (W : read_be32 l i = read_be32 (skipn i l) 0).
  { unfold read_be32, byte_at. cbn [Nat.add].
    assert (N : forall k, nth (i + k) l 0 = nth k (skipn i l) 0).
    { intros k. rewrite <- (firstn_skipn i l) at 1. rewrite app_nth2; rewrite firstn_length_le by lia; [f_equal; lia|lia]. }
    rewrite <- !N. rewrite Nat.add_0_r. reflexivity. }
  rewrite W. clear W. apply (byte_list_skipn i) in H. assert (L' : (4 <= length (skipn i l))%nat) by (rewrite skipn_length; lia).
  remember (skipn i l) as m eqn:E. clear E L l i.
  do 4 (destruct m as [|? m]; [cbn in L'; lia|]). clear L'.
  do 4 (apply byte_list_cons in H as [? H]). unfold read_be32, byte_at. cbn [nth Nat.add].
  change (firstn 4 _) with [z; z0; z1; z2].
  assert (B0 : 0 <= z <= 255) by lia. assert (B1 : 0 <= z0 <= 255) by lia. assert (B2 : 0 <= z1 <= 255) by lia. assert (B3 : 0 <= z2 <= 255) by lia.
  remember (Z.lor _ _) as w eqn:Ew.
  assert (J : w = Z.lor (Z.lor (Z.lor z2 (w32 (Z.shiftl z1 8))) (w32 (Z.shiftl z0 16))) (w32 (Z.shiftl z 24))).
  { rewrite Ew. apply Z.bits_inj'. intros j _. rewrite !Z.lor_spec.
    destruct (Z.testbit z2 j), (Z.testbit (w32 (Z.shiftl z1 8)) j), (Z.testbit (w32 (Z.shiftl z0 16)) j), (Z.testbit (w32 (Z.shiftl z 24)) j); reflexivity. }
  clear Ew. ib_step J. split; [rewrite J; unfold be_val; cbn [be_val_acc]; ring|unfold hw; lia].
Qed.
Lemma be_val_8x4 l : byte_list l -> length l = 32%nat ->
  be_val l = be_val (firstn 4 (skipn 0 l)) * 2 ^ 224 + be_val (firstn 4 (skipn 4 l)) * 2 ^ 192 + be_val (firstn 4 (skipn 8 l)) * 2 ^ 160 + be_val (firstn 4 (skipn 12 l)) * 2 ^ 128 + be_val (firstn 4 (skipn 16 l)) * 2 ^ 96 + be_val (firstn 4 (skipn 20 l)) * 2 ^ 64 + be_val (firstn 4 (skipn 24 l)) * 2 ^ 32 + be_val (firstn 4 (skipn 28 l)).
Proof.
  intros H L. rewrite <- (firstn_all l) at 1. rewrite L.

  change 32%nat with (4 + 28)%nat at 1. rewrite <- firstn_skipn_app.
  change 28%nat with (4 + 24)%nat at 1. rewrite <- firstn_skipn_app.
  change 24%nat with (4 + 20)%nat at 1. rewrite <- firstn_skipn_app.
  change 20%nat with (4 + 16)%nat at 1. rewrite <- firstn_skipn_app.
  change 16%nat with (4 + 12)%nat at 1. rewrite <- firstn_skipn_app.
  change 12%nat with (4 + 8)%nat at 1. rewrite <- firstn_skipn_app.
  change 8%nat with (4 + 4)%nat at 1. rewrite <- firstn_skipn_app.
  rewrite !skipn_add. rewrite !be_val_app, !app_length, !firstn_length, !skipn_length, L. cbn [Nat.add Nat.sub Nat.min].
  change (256 ^ Z.of_nat 28) with (2 ^ 224). change (256 ^ Z.of_nat 24) with (2 ^ 192). change (256 ^ Z.of_nat 20) with (2 ^ 160). change (256 ^ Z.of_nat 16) with (2 ^ 128).
  change (256 ^ Z.of_nat 12) with (2 ^ 96). change (256 ^ Z.of_nat 8) with (2 ^ 64). change (256 ^ Z.of_nat 4) with (2 ^ 32).
  change (skipn 0 l) with l. ring.
Qed.
Lemma s8_set_b32_ok l : byte_list l -> length l = 32%nat ->
  s8_ok (fst (s8_set_b32 l)) /\ s8v (fst (s8_set_b32 l)) = be_val l mod n /\ snd (s8_set_b32 l) = (n <=? be_val l).
Proof.
  intros H L. unfold s8_set_b32. cbn [fst snd].
  destruct (read_be32_ok l 28 H ltac:(lia)) as [E0 W0].
  destruct (read_be32_ok l 24 H ltac:(lia)) as [E1 W1].
  destruct (read_be32_ok l 20 H ltac:(lia)) as [E2 W2].
  destruct (read_be32_ok l 16 H ltac:(lia)) as [E3 W3].
  destruct (read_be32_ok l 12 H ltac:(lia)) as [E4 W4].
  destruct (read_be32_ok l 8 H ltac:(lia)) as [E5 W5].
  destruct (read_be32_ok l 4 H ltac:(lia)) as [E6 W6].
  destruct (read_be32_ok l 0 H ltac:(lia)) as [E7 W7].
  remember (mks8 _ _ _ _ _ _ _ _) as r eqn:Er.
  assert (LR : s8_lim r) by (rewrite Er; unfold s8_lim; s8proj; tauto).
  assert (V : s8v r = be_val l).
  { unfold s8v. rewrite Er. s8proj. rewrite E0, E1, E2, E3, E4, E5, E6, E7, (be_val_8x4 l H L). ring. }
  rewrite <- V. destruct (s8_reduce_final r LR) as [K1 K2]. split; [exact K1|]. split; [exact K2|]. now apply s8_check_overflow_spec.
Qed.
Lemma s8_get_b32_ok a : s8_lim a -> s8_get_b32 a = be_bytes 32 (s8v a).
Proof.
  intros (A0 & A1 & A2 & A3 & A4 & A5 & A6 & A7). unfold s8_get_b32. rewrite !write_be32_ok.
  apply be_bytes_unique.
  - rewrite !app_length, !be_bytes_length. reflexivity.
  - rewrite !byte_list_app. repeat split; apply be_bytes_byte_list.
  - rewrite !be_val_app, !app_length, !be_bytes_length, !be_val_be_bytes. cbn [Nat.add].
    change (256 ^ Z.of_nat 28) with (2 ^ 224). change (256 ^ Z.of_nat 24) with (2 ^ 192). change (256 ^ Z.of_nat 20) with (2 ^ 160). change (256 ^ Z.of_nat 16) with (2 ^ 128).
    change (256 ^ Z.of_nat 12) with (2 ^ 96). change (256 ^ Z.of_nat 8) with (2 ^ 64). change (256 ^ Z.of_nat 4) with (2 ^ 32).
    unfold hw in *. rewrite !Z.mod_small by assumption. unfold s8v. ring.
Qed.
Lemma s8_set_b32_seckey_ok l : byte_list l -> length l = 32%nat ->
  s8_ok (fst (s8_set_b32_seckey l)) /\ s8v (fst (s8_set_b32_seckey l)) = be_val l mod n /\
  snd (s8_set_b32_seckey l) = (0 <? be_val l) && (be_val l <? n).
Proof.
  intros H L. destruct (s8_set_b32_ok l H L) as (K & V & O). unfold s8_set_b32_seckey.
  destruct (s8_set_b32 l) as [r o]. cbn [fst snd] in *. split; [assumption|]. split; [assumption|].
  rewrite s8_is_zero_spec by apply K. rewrite O, V. pose proof (be_val_32 l H L) as R.
  destruct (Z.leb_spec n (be_val l)); cbn [negb andb].
  - destruct (Z.ltb_spec (be_val l) n); [lia|]. now rewrite andb_false_r.
  - destruct (Z.ltb_spec (be_val l) n); [|lia]. rewrite andb_true_r. rewrite Z.mod_small by lia.
    destruct (Z.eqb_spec (be_val l) 0), (Z.ltb_spec 0 (be_val l)); try reflexivity; lia.
Qed.

(** ** Selection, splitting, constants *)
Lemma s8_cmov_ok r a flag : s8_lim r -> s8_lim a -> flag = 0 \/ flag = 1 -> s8_cmov r a flag = if flag =? 0 then r else a.
Proof.
  intros (R0 & R1 & R2 & R3 & R4 & R5 & R6 & R7) (A0 & A1 & A2 & A3 & A4 & A5 & A6 & A7) Hf. unfold s8_cmov.
  rewrite !cmov32_spec by assumption. destruct r, a. destruct Hf as [-> | ->]; reflexivity.
Qed.
Lemma s8_split_128_ok k : s8_ok k ->
  s8_ok (fst (s8_split_128 k)) /\ s8_ok (snd (s8_split_128 k)) /\
  s8v (fst (s8_split_128 k)) = s8v k mod 2 ^ 128 /\ s8v (snd (s8_split_128 k)) = s8v k / 2 ^ 128.
Proof.
  intros [(K0 & K1 & K2 & K3 & K4 & K5 & K6 & K7) _]. unfold s8_split_128. cbn [fst snd].
  pose proof hw_0 as Z0.
  assert (L1 : s8_lim (mks8 (sd0 k) (sd1 k) (sd2 k) (sd3 k) 0 0 0 0)) by (unfold s8_lim; s8proj; tauto).
  assert (L2 : s8_lim (mks8 (sd4 k) (sd5 k) (sd6 k) (sd7 k) 0 0 0 0)) by (unfold s8_lim; s8proj; tauto).
  assert (B1 : 0 <= s8v (mks8 (sd0 k) (sd1 k) (sd2 k) (sd3 k) 0 0 0 0) < 2 ^ 128) by (unfold s8v; s8proj; unfold hw in *; lia).
  assert (B2 : 0 <= s8v (mks8 (sd4 k) (sd5 k) (sd6 k) (sd7 k) 0 0 0 0) < 2 ^ 128) by (unfold s8v; s8proj; unfold hw in *; lia).
  assert (E : s8v k = 2 ^ 128 * s8v (mks8 (sd4 k) (sd5 k) (sd6 k) (sd7 k) 0 0 0 0) + s8v (mks8 (sd0 k) (sd1 k) (sd2 k) (sd3 k) 0 0 0 0)) by (unfold s8v; s8proj; ring).
  assert (2 ^ 128 < n) by reflexivity.
  split; [split; [exact L1|lia]|]. split; [split; [exact L2|lia]|]. split.
  - apply Z.mod_unique with (s8v (mks8 (sd4 k) (sd5 k) (sd6 k) (sd7 k) 0 0 0 0)); [left; exact B1|exact E].
  - apply Z.div_unique with (s8v (mks8 (sd0 k) (sd1 k) (sd2 k) (sd3 k) 0 0 0 0)); [left; exact B1|exact E].
Qed.
Lemma s8_of_Z_ok v : 0 <= v < n -> s8_ok (s8_of_Z v) /\ s8v (s8_of_Z v) = v.
Proof.
  intros H. assert (NN : n < 2 ^ 256) by reflexivity.
  assert (V : s8v (s8_of_Z v) = v).
  { unfold s8_of_Z. rewrite s8v_horner. unfold horner. s8proj.
    pose proof (Z.div_mod (v / 2 ^ 0) (2 ^ 32) ltac:(discriminate)) as D0. rewrite Z.div_div in D0; [|discriminate|reflexivity]. change (2 ^ 0 * 2 ^ 32) with (2 ^ 32) in D0.
    pose proof (Z.div_mod (v / 2 ^ 32) (2 ^ 32) ltac:(discriminate)) as D1. rewrite Z.div_div in D1; [|discriminate|reflexivity]. change (2 ^ 32 * 2 ^ 32) with (2 ^ 64) in D1.
    pose proof (Z.div_mod (v / 2 ^ 64) (2 ^ 32) ltac:(discriminate)) as D2. rewrite Z.div_div in D2; [|discriminate|reflexivity]. change (2 ^ 64 * 2 ^ 32) with (2 ^ 96) in D2.
    pose proof (Z.div_mod (v / 2 ^ 96) (2 ^ 32) ltac:(discriminate)) as D3. rewrite Z.div_div in D3; [|discriminate|reflexivity]. change (2 ^ 96 * 2 ^ 32) with (2 ^ 128) in D3.
    pose proof (Z.div_mod (v / 2 ^ 128) (2 ^ 32) ltac:(discriminate)) as D4. rewrite Z.div_div in D4; [|discriminate|reflexivity]. change (2 ^ 128 * 2 ^ 32) with (2 ^ 160) in D4.
    pose proof (Z.div_mod (v / 2 ^ 160) (2 ^ 32) ltac:(discriminate)) as D5. rewrite Z.div_div in D5; [|discriminate|reflexivity]. change (2 ^ 160 * 2 ^ 32) with (2 ^ 192) in D5.
    pose proof (Z.div_mod (v / 2 ^ 192) (2 ^ 32) ltac:(discriminate)) as D6. rewrite Z.div_div in D6; [|discriminate|reflexivity]. change (2 ^ 192 * 2 ^ 32) with (2 ^ 224) in D6.
    change (2 ^ 0) with 1 in D0. rewrite Z.div_1_r in D0.
    remember (v mod 2 ^ 32) as m0 eqn:Q; clear Q.
    remember (v / 2 ^ 32 mod 2 ^ 32) as m1 eqn:Q; clear Q.
    remember (v / 2 ^ 64 mod 2 ^ 32) as m2 eqn:Q; clear Q.
    remember (v / 2 ^ 96 mod 2 ^ 32) as m3 eqn:Q; clear Q.
    remember (v / 2 ^ 128 mod 2 ^ 32) as m4 eqn:Q; clear Q.
    remember (v / 2 ^ 160 mod 2 ^ 32) as m5 eqn:Q; clear Q.
    remember (v / 2 ^ 192 mod 2 ^ 32) as m6 eqn:Q; clear Q.
    remember (v / 2 ^ 32) as q1 eqn:Q; clear Q.
    remember (v / 2 ^ 64) as q2 eqn:Q; clear Q.
    remember (v / 2 ^ 96) as q3 eqn:Q; clear Q.
    remember (v / 2 ^ 128) as q4 eqn:Q; clear Q.
    remember (v / 2 ^ 160) as q5 eqn:Q; clear Q.
    remember (v / 2 ^ 192) as q6 eqn:Q; clear Q.
    remember (v / 2 ^ 224) as q7 eqn:Q; clear Q.
    rewrite D0, D1, D2, D3, D4, D5, D6. ring. }
  split; [|exact V]. split; [|rewrite V; lia]. unfold s8_of_Z, s8_lim. s8proj.
  assert (B : forall x, hw (x mod 2 ^ 32)) by (intros; apply Z.mod_pos_bound; reflexivity).
  repeat (split; [apply B|]). split; [apply Z.div_pos; lia|].
  apply Z.div_lt_upper_bound; [reflexivity|]. change (2 ^ 224 * 2 ^ 32) with (2 ^ 256). lia.
Qed.
Lemma s8_set_int_ok v : 0 <= v < 2 ^ 32 -> s8_ok (s8_set_int v) /\ s8v (s8_set_int v) = v.
Proof.
  intros H. assert (2 ^ 32 < n) by reflexivity. pose proof hw_0 as Z0. assert (Hv : hw v) by exact H.
  assert (E : s8v (s8_set_int v) = v) by (unfold s8_set_int, s8v; s8proj; ring).
  split; [|exact E]. split; [unfold s8_set_int, s8_lim; s8proj; tauto|rewrite E; lia].
Qed.

(** ** Bits *)
Lemma limb8_div a q : s8_lim a -> 0 <= q < 8 -> limb8 a q = s8v a / 2 ^ (32 * q) mod 2 ^ 32.
Proof.
  intros (A0 & A1 & A2 & A3 & A4 & A5 & A6 & A7) Hq. unfold hw in *.
  assert (C : q = 0 \/ q = 1 \/ q = 2 \/ q = 3 \/ q = 4 \/ q = 5 \/ q = 6 \/ q = 7) by lia. unfold s8v.
  destruct C as [-> | [-> | [-> | [-> | [-> | [-> | [-> | ->]]]]]]];
    unfold limb8, limbs8; change (Z.to_nat 0) with 0%nat; change (Z.to_nat 1) with 1%nat; change (Z.to_nat 2) with 2%nat; change (Z.to_nat 3) with 3%nat; change (Z.to_nat 4) with 4%nat; change (Z.to_nat 5) with 5%nat; change (Z.to_nat 6) with 6%nat; change (Z.to_nat 7) with 7%nat; cbn [nth].
  - change (2 ^ (32 * 0)) with (2 ^ 0). rewrite <- (Z.div_unique _ (2 ^ 0) (sd0 a + sd1 a * 2 ^ 32 + sd2 a * 2 ^ 64 + sd3 a * 2 ^ 96 + sd4 a * 2 ^ 128 + sd5 a * 2 ^ 160 + sd6 a * 2 ^ 192 + sd7 a * 2 ^ 224) (0)) by lia.
    apply Z.mod_unique with (sd1 a + sd2 a * 2 ^ 32 + sd3 a * 2 ^ 64 + sd4 a * 2 ^ 96 + sd5 a * 2 ^ 128 + sd6 a * 2 ^ 160 + sd7 a * 2 ^ 192); lia.
  - change (2 ^ (32 * 1)) with (2 ^ 32). rewrite <- (Z.div_unique _ (2 ^ 32) (sd1 a + sd2 a * 2 ^ 32 + sd3 a * 2 ^ 64 + sd4 a * 2 ^ 96 + sd5 a * 2 ^ 128 + sd6 a * 2 ^ 160 + sd7 a * 2 ^ 192) (sd0 a)) by lia.
    apply Z.mod_unique with (sd2 a + sd3 a * 2 ^ 32 + sd4 a * 2 ^ 64 + sd5 a * 2 ^ 96 + sd6 a * 2 ^ 128 + sd7 a * 2 ^ 160); lia.
  - change (2 ^ (32 * 2)) with (2 ^ 64). rewrite <- (Z.div_unique _ (2 ^ 64) (sd2 a + sd3 a * 2 ^ 32 + sd4 a * 2 ^ 64 + sd5 a * 2 ^ 96 + sd6 a * 2 ^ 128 + sd7 a * 2 ^ 160) (sd0 a + sd1 a * 2 ^ 32)) by lia.
    apply Z.mod_unique with (sd3 a + sd4 a * 2 ^ 32 + sd5 a * 2 ^ 64 + sd6 a * 2 ^ 96 + sd7 a * 2 ^ 128); lia.
  - change (2 ^ (32 * 3)) with (2 ^ 96). rewrite <- (Z.div_unique _ (2 ^ 96) (sd3 a + sd4 a * 2 ^ 32 + sd5 a * 2 ^ 64 + sd6 a * 2 ^ 96 + sd7 a * 2 ^ 128) (sd0 a + sd1 a * 2 ^ 32 + sd2 a * 2 ^ 64)) by lia.
    apply Z.mod_unique with (sd4 a + sd5 a * 2 ^ 32 + sd6 a * 2 ^ 64 + sd7 a * 2 ^ 96); lia.
  - change (2 ^ (32 * 4)) with (2 ^ 128). rewrite <- (Z.div_unique _ (2 ^ 128) (sd4 a + sd5 a * 2 ^ 32 + sd6 a * 2 ^ 64 + sd7 a * 2 ^ 96) (sd0 a + sd1 a * 2 ^ 32 + sd2 a * 2 ^ 64 + sd3 a * 2 ^ 96)) by lia.
    apply Z.mod_unique with (sd5 a + sd6 a * 2 ^ 32 + sd7 a * 2 ^ 64); lia.
  - change (2 ^ (32 * 5)) with (2 ^ 160). rewrite <- (Z.div_unique _ (2 ^ 160) (sd5 a + sd6 a * 2 ^ 32 + sd7 a * 2 ^ 64) (sd0 a + sd1 a * 2 ^ 32 + sd2 a * 2 ^ 64 + sd3 a * 2 ^ 96 + sd4 a * 2 ^ 128)) by lia.
    apply Z.mod_unique with (sd6 a + sd7 a * 2 ^ 32); lia.
  - change (2 ^ (32 * 6)) with (2 ^ 192). rewrite <- (Z.div_unique _ (2 ^ 192) (sd6 a + sd7 a * 2 ^ 32) (sd0 a + sd1 a * 2 ^ 32 + sd2 a * 2 ^ 64 + sd3 a * 2 ^ 96 + sd4 a * 2 ^ 128 + sd5 a * 2 ^ 160)) by lia.
    apply Z.mod_unique with (sd7 a); lia.
  - change (2 ^ (32 * 7)) with (2 ^ 224). rewrite <- (Z.div_unique _ (2 ^ 224) (sd7 a) (sd0 a + sd1 a * 2 ^ 32 + sd2 a * 2 ^ 64 + sd3 a * 2 ^ 96 + sd4 a * 2 ^ 128 + sd5 a * 2 ^ 160 + sd6 a * 2 ^ 192)) by lia.
    apply Z.mod_unique with (0); lia.
Qed.
Lemma limb8_bit a q j : s8_lim a -> 0 <= q < 8 -> 0 <= j < 32 -> Z.testbit (limb8 a q) j = Z.testbit (s8v a) (32 * q + j).
Proof.
  intros L Hq Hj. rewrite limb8_div by assumption. rewrite Z.mod_pow2_bits_low by lia. rewrite Z.div_pow2_bits by lia. f_equal. lia.
Qed.
Lemma off_split32 o : 0 <= o -> o = 32 * Z.shiftr o 5 + Z.land o 0x1F /\ 0 <= Z.land o 0x1F < 32.
Proof.
  intros H. change 0x1F with (Z.ones 5). rewrite Z.land_ones by lia. rewrite Z.shiftr_div_pow2 by lia. change (2 ^ 5) with 32.
  split; [apply Z.div_mod; lia|apply Z.mod_pos_bound; lia].
Qed.
Lemma s8_get_bits_limb32_ok a offset count : s8_lim a -> 0 <= offset -> 1 <= count <= 32 -> offset + count <= 256 ->
  (offset + count - 1) / 32 = offset / 32 ->
  s8_get_bits_limb32 a offset count = s8v a / 2 ^ offset mod 2 ^ count.
Proof.
  intros L H0 H1 H2 H3. unfold s8_get_bits_limb32. destruct (off_split32 offset H0) as [E R].
  assert (Q : offset / 32 = Z.shiftr offset 5) by (rewrite Z.shiftr_div_pow2 by lia; reflexivity).
  remember (Z.shiftr offset 5) as q eqn:Eq. remember (Z.land offset 31) as r eqn:Er. clear Eq Er.
  assert (Rb : r + count <= 32).
  { rewrite Q in H3. pose proof (Z.div_mod (offset + count - 1) 32 ltac:(lia)) as D.
    pose proof (Z.mod_pos_bound (offset + count - 1) 32 ltac:(lia)). rewrite H3 in D. lia. }
  rewrite mask_ones by lia. rewrite Z.land_ones by lia.
  apply Z.bits_inj'. intros i Hi. destruct (Z_lt_le_dec i count).
  - rewrite !Z.mod_pow2_bits_low by lia. rewrite Z.shiftr_spec by lia. rewrite limb8_bit by lia || assumption.
    rewrite Z.div_pow2_bits by lia. f_equal. lia.
  - rewrite !Z.mod_pow2_bits_high by lia. reflexivity.
Qed.
Lemma s8_get_bits_var_ok a offset count : s8_lim a -> 0 <= offset -> 1 <= count <= 32 -> offset + count <= 256 ->
  s8_get_bits_var a offset count = s8v a / 2 ^ offset mod 2 ^ count.
Proof.
  intros L H0 H1 H2. unfold s8_get_bits_var.
  destruct (Z.eqb_spec (Z.shiftr (offset + count - 1) 5) (Z.shiftr offset 5)) as [E|E].
  - apply s8_get_bits_limb32_ok; try assumption. rewrite !Z.shiftr_div_pow2 in E by lia. exact E.
  - destruct (off_split32 offset H0) as [Eo R].
    assert (Q2 : (offset + count - 1) / 32 <> Z.shiftr offset 5) by (rewrite Z.shiftr_div_pow2 in E by lia; exact E).
    remember (Z.shiftr offset 5) as q eqn:Eq. remember (Z.land offset 31) as r eqn:Er. clear Eq Er.
    assert (Q3 : 32 * (q + 1) <= offset + count - 1).
    { pose proof (Z.div_mod (offset + count - 1) 32 ltac:(lia)) as D.
      pose proof (Z.mod_pos_bound (offset + count - 1) 32 ltac:(lia)). nia. }
    rewrite mask_ones by lia. rewrite Z.land_ones by lia.
    apply Z.bits_inj'. intros i Hi. destruct (Z_lt_le_dec i count).
    + rewrite !Z.mod_pow2_bits_low by lia. rewrite Z.lor_spec, Z.shiftr_spec by lia.
      rewrite Z.div_pow2_bits by lia. unfold w32. rewrite Z.mod_pow2_bits_low by lia. rewrite Z.shiftl_spec by lia.
      destruct (Z_lt_le_dec (i + r) 32).
      * rewrite limb8_bit by lia || assumption. rewrite (Z.testbit_neg_r _ (i - (32 - r))) by lia. rewrite orb_false_r. f_equal. lia.
      * rewrite (limb8_bit _ (q + 1)) by lia || assumption.
        rewrite (limb8_div a q) by lia || assumption. rewrite Z.mod_pow2_bits_high by lia. cbn [orb]. f_equal. lia.
    + rewrite !Z.mod_pow2_bits_high by lia. reflexivity.
Qed.

(** ** Rounded multiplication with shift 384 (the only shift the library uses) *)
Lemma round_bit32 L11 Hi Lo : 0 <= Lo < 2 ^ 352 -> hw L11 ->
  Hi + L11 / 2 ^ 31 = (Lo + L11 * 2 ^ 352 + Hi * 2 ^ 384 + 2 ^ 383) / 2 ^ 384.
Proof.
  unfold hw. intros H0 H5. pose proof (Z.div_mod L11 (2 ^ 31) ltac:(discriminate)) as D. pose proof (Z.mod_pos_bound L11 (2 ^ 31) ltac:(reflexivity)) as M.
  remember (L11 / 2 ^ 31) as b eqn:Eb. remember (L11 mod 2 ^ 31) as m eqn:Em. clear Eb Em.
  apply Z.div_unique with (Lo + m * 2 ^ 352 + 2 ^ 383 - b * 2 ^ 383); [left|]; [|lia].
  assert (b = 0 \/ b = 1) as [-> | ->] by lia; lia.
Qed.
Lemma mul_shift8_384_eq a b : exists l, s8_mul_512 a b = l /\
  s8_mul_shift_var a b 384 = s8_cadd_bit (mks8 (nth 12 l 0) (nth 13 l 0) (nth 14 l 0) (nth 15 l 0) 0 0 0 0) 0 (Z.land (Z.shiftr (nth 11 l 0) 31) 1).
Proof.
  exists (s8_mul_512 a b). split; [reflexivity|]. unfold s8_mul_shift_var. generalize (s8_mul_512 a b) as l. intros l. cbv zeta.
  assert (E1 : (384 <? 512) = true) by reflexivity. assert (E2 : (384 <? 480) = true) by reflexivity.
  assert (E3 : (384 <? 448) = true) by reflexivity. assert (E4 : (384 <? 416) = true) by reflexivity.
  assert (E5 : (384 <? 384) = false) by reflexivity. assert (E6 : (384 <? 352) = false) by reflexivity.
  assert (E7 : (384 <? 320) = false) by reflexivity. assert (E8 : (384 <? 288) = false) by reflexivity.
  assert (F1 : Z.land 384 31 = 0) by reflexivity. assert (F2 : Z.shiftr 384 5 = 12) by reflexivity.
  assert (F3 : Z.shiftr (384 - 1) 5 = 11) by reflexivity. assert (F4 : Z.land (384 - 1) 31 = 31) by reflexivity.
  rewrite E1, E2, E3, E4, E5, E6, E7, E8, F1, F2, F3, F4.
  assert (F : negb (0 =? 0) = false) by reflexivity. rewrite F. cbv iota. rewrite !andb_false_r. cbv iota. rewrite !Z.shiftr_0_r, !Z.lor_0_r.
  change (Z.to_nat 11) with 11%nat. change (Z.to_nat (0 + 12)) with 12%nat. change (Z.to_nat (1 + 12)) with 13%nat.
  change (Z.to_nat (2 + 12)) with 14%nat. change (Z.to_nat (3 + 12)) with 15%nat. reflexivity.
Qed.
Lemma s8_mul_shift_384 a b : s8_lim a -> s8_lim b ->
  s8_lim (s8_mul_shift_var a b 384) /\ s8v (s8_mul_shift_var a b 384) = (s8v a * s8v b + 2 ^ 383) / 2 ^ 384.
Proof.
  intros La Lb. destruct (mul_shift8_384_eq a b) as (l & El & ->).
  destruct (s8_mul_512_val a b _ El La Lb) as [[Hl HF] E]. rewrite <- E. clear E El La Lb a b.
  destruct l as [|l0 l]; [discriminate Hl|]. destruct l as [|l1 l]; [discriminate Hl|]. destruct l as [|l2 l]; [discriminate Hl|]. destruct l as [|l3 l]; [discriminate Hl|]. destruct l as [|l4 l]; [discriminate Hl|]. destruct l as [|l5 l]; [discriminate Hl|]. destruct l as [|l6 l]; [discriminate Hl|]. destruct l as [|l7 l]; [discriminate Hl|]. destruct l as [|l8 l]; [discriminate Hl|]. destruct l as [|l9 l]; [discriminate Hl|]. destruct l as [|l10 l]; [discriminate Hl|]. destruct l as [|l11 l]; [discriminate Hl|]. destruct l as [|l12 l]; [discriminate Hl|]. destruct l as [|l13 l]; [discriminate Hl|]. destruct l as [|l14 l]; [discriminate Hl|]. destruct l as [|l15 l]; [discriminate Hl|]. destruct l; [|discriminate Hl]. clear Hl.
  apply Forall_cons_iff in HF as [L0 HF]. apply Forall_cons_iff in HF as [L1 HF]. apply Forall_cons_iff in HF as [L2 HF]. apply Forall_cons_iff in HF as [L3 HF]. apply Forall_cons_iff in HF as [L4 HF]. apply Forall_cons_iff in HF as [L5 HF]. apply Forall_cons_iff in HF as [L6 HF]. apply Forall_cons_iff in HF as [L7 HF]. apply Forall_cons_iff in HF as [L8 HF]. apply Forall_cons_iff in HF as [L9 HF]. apply Forall_cons_iff in HF as [L10 HF]. apply Forall_cons_iff in HF as [L11 HF]. apply Forall_cons_iff in HF as [L12 HF]. apply Forall_cons_iff in HF as [L13 HF]. apply Forall_cons_iff in HF as [L14 HF]. apply Forall_cons_iff in HF as [L15 HF]. clear HF.
  unfold lv16. cbn [nth].
  assert (F : Z.land (Z.shiftr l11 31) 1 = l11 / 2 ^ 31 /\ (l11 / 2 ^ 31 = 0 \/ l11 / 2 ^ 31 = 1)).
  { rewrite shiftr_div by lia. assert (B : 0 <= l11 / 2 ^ 31 < 2).
    { unfold hw in L11. split; [apply Z.div_pos; lia|apply Z.div_lt_upper_bound; lia]. }
    rewrite land_1. rewrite Z.mod_small by exact B. split; [reflexivity|]. clear - B. lia. }
  destruct F as [-> F]. pose proof hw_0 as Z0.
  assert (LR : s8_lim (mks8 l12 l13 l14 l15 0 0 0 0)) by (unfold s8_lim; s8proj; tauto).
  assert (SR : s8v (mks8 l12 l13 l14 l15 0 0 0 0) = l12 + l13 * 2 ^ 32 + l14 * 2 ^ 64 + l15 * 2 ^ 96) by (unfold s8v; s8proj; ring).
  destruct (s8_cadd_bit_ok _ 0 (l11 / 2 ^ 31) LR ltac:(lia) F) as [K V].
  { rewrite SR. clear - L12 L13 L14 L15 F. unfold hw in *. destruct F as [-> | ->]; lia. }
  split; [exact K|]. rewrite V, SR. rewrite Z.mul_1_r.
  rewrite (round_bit32 l11 _ (l0 + l1 * 2 ^ 32 + l2 * 2 ^ 64 + l3 * 2 ^ 96 + l4 * 2 ^ 128 + l5 * 2 ^ 160 + l6 * 2 ^ 192 + l7 * 2 ^ 224 + l8 * 2 ^ 256 + l9 * 2 ^ 288 + l10 * 2 ^ 320)).
  - f_equal. ring.
  - clear - L0 L1 L2 L3 L4 L5 L6 L7 L8 L9 L10. unfold hw in *. lia.
  - assumption.
Qed.

(** ** Agreement with the 64-bit scalars, and the lambda split *)
Definition same (a : sc8) (b : sc) : Prop := s8_ok a /\ sc_ok b /\ s8v a = sv b.
Lemma same_of_Z v : (0 <=? v) && (v <? n) = true -> same (s8_of_Z v) (sc_of_Z v).
Proof.
  intros H. destruct (sc_const_ok v H) as [O V]. apply andb_prop in H as [H1 H2]. apply Z.leb_le in H1. apply Z.ltb_lt in H2.
  destruct (s8_of_Z_ok v (conj H1 H2)) as [O8 V8]. split; [exact O8|]. split; [exact O|]. now rewrite V8, V.
Qed.
Lemma same_add a b a' b' : same a a' -> same b b' -> same (s8_add a b) (sc_add a' b').
Proof.
  intros (A & A' & E) (B & B' & F). split; [now apply s8_add_ok|]. split; [now apply sc_add_ok|].
  rewrite s8_add_sv, sc_add_sv by assumption. now rewrite E, F.
Qed.
Lemma same_mul a b a' b' : s8_lim a -> sc_lim a' -> s8v a = sv a' -> same b b' -> same (s8_mul a b) (sc_mul a' b').
Proof.
  intros A A' E ([B _] & [B' _] & F). split; [now apply s8_mul_ok|]. split; [now apply sc_mul_ok|].
  rewrite s8_mul_sv, sc_mul_sv by assumption. now rewrite E, F.
Qed.
Lemma same_negate a a' : same a a' -> same (s8_negate a) (sc_negate a').
Proof.
  intros (A & A' & E). split; [now apply s8_negate_ok|]. split; [now apply sc_negate_ok|].
  rewrite s8_negate_sv, sc_negate_sv by assumption. now rewrite E.
Qed.
Lemma same_half a a' : same a a' -> same (s8_half a) (sc_half a').
Proof.
  intros (A & A' & E). destruct (s8_half_ok a A) as [O V]. destruct (sc_half_ok a' A') as [O' V'].
  split; [exact O|]. split; [exact O'|].
  pose proof (s8_ok_range _ O) as R1. pose proof (sc_ok_range _ O') as R2. rewrite <- E, <- V in V'.
  apply (f_equal (fun z => (z * ((n + 1) / 2)) mod n)) in V'. rewrite !Zmult_mod_idemp_l in V'.
  assert (H : forall x, 0 <= x < n -> (2 * x * ((n + 1) / 2)) mod n = x).
  { intros x Hx. replace (2 * x * ((n + 1) / 2)) with (x + x * n); [rewrite Z_mod_plus_full; now apply Z.mod_small|].
    change n with (2 * ((n + 1) / 2) - 1) at 1. ring. }
  rewrite !H in V' by assumption. now rewrite V'.
Qed.
Lemma same_split_lambda k k' : same k k' -> same (fst (s8_split_lambda k)) (fst (sc_split_lambda k')) /\ same (snd (s8_split_lambda k)) (snd (sc_split_lambda k')).
Proof.
  intros Hk. pose proof Hk as ([Lk _] & [Lk' _] & Ek). unfold s8_split_lambda, sc_split_lambda. cbv zeta. cbn [fst snd].
  assert (G1 : same (s8_of_Z g1) (sc_of_Z g1)) by (apply same_of_Z; vm_compute; reflexivity).
  assert (G2 : same (s8_of_Z g2) (sc_of_Z g2)) by (apply same_of_Z; vm_compute; reflexivity).
  assert (B1 : same (s8_of_Z minus_b1) (sc_of_Z minus_b1)) by (apply same_of_Z; vm_compute; reflexivity).
  assert (B2 : same (s8_of_Z minus_b2) (sc_of_Z minus_b2)) by (apply same_of_Z; vm_compute; reflexivity).
  assert (LL : same (s8_of_Z lambda) (sc_of_Z lambda)) by (apply same_of_Z; vm_compute; reflexivity).
  destruct G1 as ([G1 _] & [G1' _] & E1). destruct G2 as ([G2 _] & [G2' _] & E2).
  destruct (s8_mul_shift_384 k _ Lk G1) as [C1 V1]. destruct (s8_mul_shift_384 k _ Lk G2) as [C2 V2].
  destruct (sc_mul_shift_384 k' _ Lk' G1') as [C1' V1']. destruct (sc_mul_shift_384 k' _ Lk' G2') as [C2' V2'].
  assert (W1 : s8v (s8_mul_shift_var k (s8_of_Z g1) 384) = sv (sc_mul_shift_var k' (sc_of_Z g1) 384)) by (rewrite V1, V1', Ek, E1; reflexivity).
  assert (W2 : s8v (s8_mul_shift_var k (s8_of_Z g2) 384) = sv (sc_mul_shift_var k' (sc_of_Z g2) 384)) by (rewrite V2, V2', Ek, E2; reflexivity).
  remember (s8_mul_shift_var k (s8_of_Z g1) 384) as c1 eqn:Q; clear Q. remember (s8_mul_shift_var k (s8_of_Z g2) 384) as c2 eqn:Q; clear Q.
  remember (sc_mul_shift_var k' (sc_of_Z g1) 384) as c1' eqn:Q; clear Q. remember (sc_mul_shift_var k' (sc_of_Z g2) 384) as c2' eqn:Q; clear Q.
  assert (R2 : same (s8_add (s8_mul c1 (s8_of_Z minus_b1)) (s8_mul c2 (s8_of_Z minus_b2))) (sc_add (sc_mul c1' (sc_of_Z minus_b1)) (sc_mul c2' (sc_of_Z minus_b2)))).
  { apply same_add; apply same_mul; assumption. }
  split; [|exact R2]. apply same_add; [|exact Hk]. apply same_negate. apply same_mul; [apply R2|apply R2|apply R2|exact LL].
Qed.
