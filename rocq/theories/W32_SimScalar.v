(** The scalars of the 32-bit build next to those of the 64-bit build, and the bytes of the
    objects that hold field elements and scalars. *)
Require Import ZArith List Bool Lia.
From Verif Require Import Word Word32 Bytes Spec ZmField Primes Curve FieldModel FieldBytes ScalarModel ScalarProof ScalarProof2 ScalarMul ScalarSplit
  Field32Model Field32Bytes Scalar32Model Scalar32Proof Scalar32Proof2 Scalar32Mul Scalar32Ops SpecRep SpecRep32 SpecScalar32 Scalar32Props Modinv32Model ModinvProof4 ModinvProof5 Modinv32Props
  GroupModel GroupProof5 ApiModel EcdsaProof W32_Base W32_Group W32_Api W32_SimField.
Import ListNotations.
Local Open Scope Z_scope.

Lemma same_mul' a b a' b' : same a a' -> same b b' -> same (s8_mul a b) (sc_mul a' b').
Proof. intros ([A _] & [A' _] & E) B. exact (same_mul _ _ _ _ A A' E B). Qed.
Lemma same_zero_test a b : same a b -> s8_is_zero a = sc_is_zero b.
Proof. intros ([A _] & [B _] & E). rewrite (s8_is_zero_spec _ A), (sc_is_zero_spec _ B), E. reflexivity. Qed.
Lemma same_is_one a b : same a b -> s8_is_one a = sc_is_one b.
Proof. intros ([A _] & [B _] & E). rewrite (s8_is_one_spec _ A), (sc_is_one_spec _ B), E. reflexivity. Qed.
Lemma same_is_high a b : same a b -> s8_is_high a = sc_is_high b.
Proof. intros ([A _] & [B _] & E). rewrite (s8_is_high_spec _ A), (sc_is_high_spec _ B), E. reflexivity. Qed.
Lemma same_is_even a b : same a b -> s8_is_even a = sc_is_even b.
Proof. intros (_ & _ & E). rewrite s8_is_even_spec, sc_is_even_spec, E. reflexivity. Qed.
Lemma same_eq a b c d : same a b -> same c d -> s8_eq a c = sc_eq b d.
Proof. intros ([A _] & [B _] & E) ([C _] & [D _] & G). rewrite (s8_eq_spec _ _ A C), (sc_eq_spec _ _ B D), E, G. reflexivity. Qed.
Lemma same_cmov a b c d flag : same a b -> same c d -> flag = 0 \/ flag = 1 -> same (s8_cmov a c flag) (sc_cmov b d flag).
Proof.
  intros Ha Hc Hf. pose proof Ha as ([A _] & [B _] & _). pose proof Hc as ([C _] & [D _] & _).
  rewrite (s8_cmov_ok _ _ _ A C Hf), (sc_cmov_ok _ _ _ B D Hf). destruct (flag =? 0); assumption.
Qed.
Lemma same_cond_negate a b flag : same a b -> flag = 0 \/ flag = 1 ->
  same (fst (s8_cond_negate a flag)) (fst (sc_cond_negate b flag)) /\ snd (s8_cond_negate a flag) = snd (sc_cond_negate b flag).
Proof.
  intros H Hf. pose proof H as (A & B & _). rewrite (s8_cond_negate_ok _ _ A Hf), (sc_cond_negate_ok _ _ B Hf). cbn [fst snd].
  split; [destruct (flag =? 0); [exact H|exact (same_negate _ _ H)]|reflexivity].
Qed.
Lemma same_set_b32 l : byte_list l -> length l = 32%nat ->
  same (fst (s8_set_b32 l)) (fst (sc_set_b32 l)) /\ snd (s8_set_b32 l) = snd (sc_set_b32 l).
Proof.
  intros B L. destruct (s8_set_b32_ok l B L) as (O1 & V1 & F1). destruct (sc_set_b32_ok l B L) as (O2 & V2 & F2).
  split; [split; [exact O1|]; split; [exact O2|]; rewrite V1, V2; reflexivity|rewrite F1, F2; reflexivity].
Qed.
Lemma same_set_b32_seckey l : byte_list l -> length l = 32%nat ->
  same (fst (s8_set_b32_seckey l)) (fst (sc_set_b32_seckey l)) /\ snd (s8_set_b32_seckey l) = snd (sc_set_b32_seckey l).
Proof.
  intros B L. destruct (s8_set_b32_seckey_ok l B L) as (O1 & V1 & F1). destruct (sc_set_b32_seckey_ok l B L) as (O2 & V2 & F2).
  split; [split; [exact O1|]; split; [exact O2|]; rewrite V1, V2; reflexivity|rewrite F1, F2; reflexivity].
Qed.
Lemma same_get_b32 a b : same a b -> s8_get_b32 a = sc_get_b32 b.
Proof. intros ([A _] & [B _] & E). rewrite (s8_get_b32_ok _ A), (sc_get_b32_ok _ B), E. reflexivity. Qed.
Lemma same_set_int v : 0 <= v < 2 ^ 32 -> same (s8_set_int v) (sc_set_int v).
Proof.
  intros H. destruct (s8_set_int_ok v H) as (A & V). destruct (sc_set_int_ok v H) as (B & W).
  split; [exact A|]. split; [exact B|]. rewrite V, W. reflexivity.
Qed.
Lemma same_one : same s8_one sc_one.
Proof. apply (same_of_Z 1). vm_compute. reflexivity. Qed.
Lemma same_zero : same s8_zero sc_zero.
Proof. apply (same_of_Z 0). vm_compute. reflexivity. Qed.
Lemma same_split_128 k k' : same k k' -> same (fst (s8_split_128 k)) (fst (sc_split_128 k')) /\ same (snd (s8_split_128 k)) (snd (sc_split_128 k')).
Proof.
  intros (A & B & E). destruct (s8_split_128_ok k A) as (P1 & P2 & P3 & P4). destruct (sc_split_128_ok k' B) as (Q1 & Q2 & Q3 & Q4).
  split; (split; [assumption|]; split; [assumption|]).
  - rewrite P3, Q3, E. reflexivity.
  - rewrite P4, Q4, E. reflexivity.
Qed.
Lemma same_get_bits_var a b o c : same a b -> 0 <= o -> 1 <= c <= 32 -> o + c <= 256 -> s8_get_bits_var a o c = sc_get_bits_var b o c.
Proof.
  intros ([A _] & [B _] & E) H1 H2 H3. rewrite (s8_get_bits_var_ok _ _ _ A H1 H2 H3), (sc_get_bits_var_ok _ _ _ B H1 H2 H3), E. reflexivity.
Qed.
Lemma same_get_bits_limb32 a b o c : same a b -> 0 <= o -> 1 <= c <= 32 -> o + c <= 256 -> (o + c - 1) / 32 = o / 32 -> (o + c - 1) / 64 = o / 64 ->
  s8_get_bits_limb32 a o c = sc_get_bits_limb32 b o c.
Proof.
  intros ([A _] & [B _] & E) H1 H2 H3 H4 H5. rewrite (s8_get_bits_limb32_ok _ _ _ A H1 H2 H3 H4), (sc_get_bits_limb32_ok _ _ _ B H1 H2 H3 H5), E. reflexivity.
Qed.
Lemma inv8_value x r : s8_ok x -> s8_inverse x = Some r -> s8_ok r /\ s8v r = inv_mod (s8v x) n.
Proof.
  intros Hx E. destruct (prop30_scalar x (proj2 (valid8_iff _) Hx)) as (r' & E' & N & Z0 & Z1 & _). rewrite E in E'. injection E' as <-.
  pose proof (proj1 (valid8_iff _) N) as Nr. split; [exact Nr|]. rewrite !scalar8_int_eq in Z0, Z1.
  apply inverse_unique; [exact prime_n|exact n_gt2|exact (s8_ok_range _ Hx)|].
  split; [exact (s8_ok_range _ Nr)|]. split; [exact Z0|].
  intros G. rewrite Z.mul_comm. apply Z1. intros C. rewrite C, Z.gcd_0_r in G. discriminate G.
Qed.
Lemma same_inverse a b : same a b -> same (s8_inverse_w32 a) (sc_inverse b).
Proof.
  intros (A & B & E). destruct (prop30_scalar a (proj2 (valid8_iff _) A)) as (r & Er & _).
  unfold s8_inverse_w32. rewrite Er. destruct (inv8_value a r A Er) as (O1 & V1). destruct (sc_inverse_ok b) as (O2 & V2).
  split; [exact O1|]. split; [exact O2|]. rewrite V1, V2, E. reflexivity.
Qed.
Lemma same_inverse_var a b : same a b -> same (s8_inverse_var_w32 a) (sc_inverse_var b).
Proof.
  intros (A & B & E). destruct (prop30_scalar a (proj2 (valid8_iff _) A)) as (r & Er & _ & _ & _ & Ev & _).
  unfold s8_inverse_var_w32. rewrite (Ev 25%nat (le_n _)). destruct (inv8_value a r A Er) as (O1 & V1). destruct (sc_inverse_ok b) as (O2 & V2).
  split; [exact O1|]. split; [exact O2|]. unfold sc_inverse_var. rewrite V1, V2, E. reflexivity.
Qed.

(** ** Bytes *)
Definition words_bytes (a b c d e f g h : Z) : list Z :=
  le_bytes 4 a ++ le_bytes 4 b ++ le_bytes 4 c ++ le_bytes 4 d ++ le_bytes 4 e ++ le_bytes 4 f ++ le_bytes 4 g ++ le_bytes 4 h.
Lemma words_bytes_val a b c d e f g h : hw a -> hw b -> hw c -> hw d -> hw e -> hw f -> hw g -> hw h ->
  words_bytes a b c d e f g h = le_bytes 32 (a + b * 2 ^ 32 + c * 2 ^ 64 + d * 2 ^ 96 + e * 2 ^ 128 + f * 2 ^ 160 + g * 2 ^ 192 + h * 2 ^ 224).
Proof.
  unfold hw. intros A B C D E F G H. apply le_bytes_unique.
  - unfold words_bytes. rewrite !app_length, !le_bytes_length. reflexivity.
  - unfold words_bytes. rewrite !byte_list_app. repeat split; apply le_bytes_byte_list.
  - unfold words_bytes. rewrite !le_val_app, !le_bytes_length, !le_val_le_bytes. change (256 ^ Z.of_nat 4) with (2 ^ 32).
    rewrite (Z.mod_small a), (Z.mod_small b), (Z.mod_small c), (Z.mod_small d), (Z.mod_small e), (Z.mod_small f), (Z.mod_small g), (Z.mod_small h) by assumption.
    ring.
Qed.
Lemma word_range l i : byte_list l -> length l = 32%nat -> (i <= 28)%nat -> hw (le_val (firstn 4 (skipn i l))).
Proof.
  intros B L Hi. assert (B' : byte_list (firstn 4 (skipn i l))) by (apply byte_list_firstn, byte_list_skipn; exact B).
  pose proof (le_val_range _ B') as R. rewrite firstn_length, skipn_length, L in R.
  replace (Nat.min 4 (32 - i)) with 4%nat in R by lia. exact R.
Qed.
Lemma words_val l : byte_list l -> length l = 32%nat ->
  le_val (firstn 4 l) + le_val (firstn 4 (skipn 4 l)) * 2 ^ 32 + le_val (firstn 4 (skipn 8 l)) * 2 ^ 64 + le_val (firstn 4 (skipn 12 l)) * 2 ^ 96 +
  le_val (firstn 4 (skipn 16 l)) * 2 ^ 128 + le_val (firstn 4 (skipn 20 l)) * 2 ^ 160 + le_val (firstn 4 (skipn 24 l)) * 2 ^ 192 + le_val (firstn 4 (skipn 28 l)) * 2 ^ 224 = le_val l.
Proof.
  intros _ L. do 32 (destruct l as [|? l]; [discriminate L|]). destruct l; [|discriminate L]. cbn [firstn skipn le_val]. ring.
Qed.
Lemma rs_bytes a b : rs a b -> fes_bytes_w32 a = fes_bytes b.
Proof.
  intros ((H0 & H1 & H2 & H3 & H4 & H5 & H6 & H7) & B & E). rewrite (fes_bytes_val _ B), <- E.
  exact (words_bytes_val _ _ _ _ _ _ _ _ H0 H1 H2 H3 H4 H5 H6 H7).
Qed.
Lemma rs_of_bytes l : byte_list l -> length l = 32%nat -> rs (fes_of_bytes_w32 l) (fes_of_bytes l).
Proof.
  intros B L. destruct (fes_of_bytes_ok l B L) as (O2 & V2). split.
  - unfold fes_of_bytes_w32, s26_ok. cbn [q0 q1 q2 q3 q4 q5 q6 q7].
    split; [exact (word_range l 0 B L ltac:(lia))|]. split; [exact (word_range l 4 B L ltac:(lia))|]. split; [exact (word_range l 8 B L ltac:(lia))|].
    split; [exact (word_range l 12 B L ltac:(lia))|]. split; [exact (word_range l 16 B L ltac:(lia))|]. split; [exact (word_range l 20 B L ltac:(lia))|].
    split; [exact (word_range l 24 B L ltac:(lia))|]. exact (word_range l 28 B L ltac:(lia)).
  - split; [exact O2|]. rewrite V2. exact (words_val l B L).
Qed.
Lemma same_bytes a b : same a b -> sc_bytes_w32 a = sc_bytes b.
Proof.
  intros ([(H0 & H1 & H2 & H3 & H4 & H5 & H6 & H7) _] & [B _] & E). rewrite (sc_bytes_ok _ B), <- E.
  exact (words_bytes_val _ _ _ _ _ _ _ _ H0 H1 H2 H3 H4 H5 H6 H7).
Qed.
Lemma same_of_bytes l : byte_list l -> length l = 32%nat -> le_val l < n -> same (sc_of_bytes_w32 l) (sc_of_bytes l).
Proof.
  intros B L V. destruct (fes_of_bytes_ok l B L) as ((W0 & W1 & W2 & W3) & V2).
  assert (V1 : s8v (sc_of_bytes_w32 l) = le_val l) by exact (words_val l B L).
  assert (V3 : sv (sc_of_bytes l) = le_val l) by exact V2.
  split.
  - split; [|rewrite V1; exact V]. unfold sc_of_bytes_w32, s8_lim. cbn [sd0 sd1 sd2 sd3 sd4 sd5 sd6 sd7].
    split; [exact (word_range l 0 B L ltac:(lia))|]. split; [exact (word_range l 4 B L ltac:(lia))|]. split; [exact (word_range l 8 B L ltac:(lia))|].
    split; [exact (word_range l 12 B L ltac:(lia))|]. split; [exact (word_range l 16 B L ltac:(lia))|]. split; [exact (word_range l 20 B L ltac:(lia))|].
    split; [exact (word_range l 24 B L ltac:(lia))|]. exact (word_range l 28 B L ltac:(lia)).
  - split; [split; [split; [exact W0|split; [exact W1|split; [exact W2|exact W3]]]|rewrite V3; exact V]|]. rewrite V1, V3. reflexivity.
Qed.
