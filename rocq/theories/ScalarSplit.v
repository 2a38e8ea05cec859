(** Bit extraction, rounded multiplication and the lambda split of a scalar. *)
Require Import ZArith List Bool Lia Znumtheory.
From Verif Require Import Word Spec Bytes ZmField Curve FieldModel ScalarModel ScalarProof ScalarProof2 ScalarMul.
Import ListNotations.
Local Open Scope Z_scope.

Lemma limb_div a q : sc_lim a -> 0 <= q < 4 -> limb a q = sv a / 2 ^ (64 * q) mod 2 ^ 64.
Proof.
  intros (A0 & A1 & A2 & A3) Hq. unfold wd in *.
  assert (C : q = 0 \/ q = 1 \/ q = 2 \/ q = 3) by lia. unfold sv.
  destruct C as [-> | [-> | [-> | ->]]]; unfold limb; cbn.
  - rewrite Z.div_1_r. apply Z.mod_unique with (d1 a + d2 a * 2 ^ 64 + d3 a * 2 ^ 128); lia.
  - change (Z.pow_pos 2 64) with (2 ^ 64).
    rewrite <- (Z.div_unique _ (2 ^ 64) (d1 a + d2 a * 2 ^ 64 + d3 a * 2 ^ 128) (d0 a)) by lia.
    apply Z.mod_unique with (d2 a + d3 a * 2 ^ 64); lia.
  - change (Z.pow_pos 2 128) with (2 ^ 128).
    rewrite <- (Z.div_unique _ (2 ^ 128) (d2 a + d3 a * 2 ^ 64) (d0 a + d1 a * 2 ^ 64)) by lia.
    apply Z.mod_unique with (d3 a); lia.
  - change (Z.pow_pos 2 192) with (2 ^ 192).
    rewrite <- (Z.div_unique _ (2 ^ 192) (d3 a) (d0 a + d1 a * 2 ^ 64 + d2 a * 2 ^ 128)) by lia.
    symmetry. apply Z.mod_small. lia.
Qed.
Lemma limb_bit a q j : sc_lim a -> 0 <= q < 4 -> 0 <= j < 64 -> Z.testbit (limb a q) j = Z.testbit (sv a) (64 * q + j).
Proof.
  intros L Hq Hj. rewrite limb_div by assumption. rewrite Z.mod_pow2_bits_low by lia. rewrite Z.div_pow2_bits by lia. f_equal. lia.
Qed.
Lemma mask_ones c : 0 <= c <= 32 -> Z.shiftr 0xFFFFFFFF (32 - c) = Z.ones c.
Proof.
  intros H. rewrite Z.shiftr_div_pow2 by lia. change 0xFFFFFFFF with (Z.ones 32).
  rewrite Z.ones_div_pow2 by lia. f_equal. lia.
Qed.
Lemma w32_mod_small x c : 0 <= c <= 32 -> w32 (x mod 2 ^ c) = x mod 2 ^ c.
Proof.
  intros H. apply w32_id. pose proof (Z.mod_pos_bound x (2 ^ c) ltac:(apply Z.pow_pos_nonneg; lia)).
  pose proof (Z.pow_le_mono_r 2 c 32 ltac:(lia) ltac:(lia)). lia.
Qed.
Lemma off_split o : 0 <= o -> o = 64 * Z.shiftr o 6 + Z.land o 0x3F /\ 0 <= Z.land o 0x3F < 64.
Proof.
  intros H. change 0x3F with (Z.ones 6). rewrite Z.land_ones by lia. rewrite Z.shiftr_div_pow2 by lia. change (2 ^ 6) with 64.
  split; [apply Z.div_mod; lia|apply Z.mod_pos_bound; lia].
Qed.

Lemma sc_get_bits_limb32_ok a offset count : sc_lim a -> 0 <= offset -> 1 <= count <= 32 -> offset + count <= 256 ->
  (offset + count - 1) / 64 = offset / 64 ->
  sc_get_bits_limb32 a offset count = sv a / 2 ^ offset mod 2 ^ count.
Proof.
  intros L H0 H1 H2 H3. unfold sc_get_bits_limb32. destruct (off_split offset H0) as [E R].
  set (q := Z.shiftr offset 6) in *. set (r := Z.land offset 63) in *.
  assert (Q : offset / 64 = q) by (unfold q; rewrite Z.shiftr_div_pow2 by lia; reflexivity).
  assert (Rb : r + count <= 64).
  { rewrite Q in H3. pose proof (Z.div_mod (offset + count - 1) 64 ltac:(lia)) as D.
    pose proof (Z.mod_pos_bound (offset + count - 1) 64 ltac:(lia)). rewrite H3 in D. lia. }
  rewrite mask_ones by lia. rewrite Z.land_ones by lia. rewrite w32_mod_small by lia.
  apply Z.bits_inj'. intros i Hi. destruct (Z_lt_le_dec i count).
  - rewrite !Z.mod_pow2_bits_low by lia. rewrite Z.shiftr_spec by lia. rewrite limb_bit by lia || assumption.
    rewrite Z.div_pow2_bits by lia. f_equal. lia.
  - rewrite !Z.mod_pow2_bits_high by lia. reflexivity.
Qed.
Lemma sc_get_bits_var_ok a offset count : sc_lim a -> 0 <= offset -> 1 <= count <= 32 -> offset + count <= 256 ->
  sc_get_bits_var a offset count = sv a / 2 ^ offset mod 2 ^ count.
Proof.
  intros L H0 H1 H2. unfold sc_get_bits_var.
  destruct (Z.eqb_spec (Z.shiftr (offset + count - 1) 6) (Z.shiftr offset 6)) as [E|E].
  - apply sc_get_bits_limb32_ok; try assumption. rewrite !Z.shiftr_div_pow2 in E by lia. exact E.
  - destruct (off_split offset H0) as [Eo R].
    set (q := Z.shiftr offset 6) in *. set (r := Z.land offset 63) in *.
    assert (Q2 : (offset + count - 1) / 64 <> q) by (rewrite Z.shiftr_div_pow2 in E by lia; exact E).
    assert (Q3 : 64 * (q + 1) <= offset + count - 1).
    { pose proof (Z.div_mod (offset + count - 1) 64 ltac:(lia)) as D.
      pose proof (Z.mod_pos_bound (offset + count - 1) 64 ltac:(lia)). nia. }
    rewrite mask_ones by lia. rewrite Z.land_ones by lia. rewrite w32_mod_small by lia.
    apply Z.bits_inj'. intros i Hi. destruct (Z_lt_le_dec i count).
    + rewrite !Z.mod_pow2_bits_low by lia. rewrite Z.lor_spec, Z.shiftr_spec by lia.
      rewrite Z.div_pow2_bits by lia. unfold w64. rewrite Z.mod_pow2_bits_low by lia. rewrite Z.shiftl_spec by lia.
      destruct (Z_lt_le_dec (i + r) 64).
      * rewrite limb_bit by lia || assumption. rewrite (Z.testbit_neg_r _ (i - (64 - r))) by lia. rewrite orb_false_r. f_equal. lia.
      * rewrite (limb_bit _ (q + 1)) by lia || assumption.
        rewrite (limb_div a q) by lia || assumption. rewrite Z.mod_pow2_bits_high by lia. cbn [orb]. f_equal. lia.
    + rewrite !Z.mod_pow2_bits_high by lia. reflexivity.
Qed.

(** ** Rounded multiplication with shift 384 (the only shift the library uses) *)
Lemma round_bit L5 L6 L7 Lo : 0 <= Lo < 2 ^ 320 -> wd L5 -> wd L6 -> wd L7 ->
  (L6 + L7 * 2 ^ 64) + L5 / 2 ^ 63 = (Lo + L5 * 2 ^ 320 + L6 * 2 ^ 384 + L7 * 2 ^ 448 + 2 ^ 383) / 2 ^ 384.
Proof.
  unfold wd. intros H0 H5 H6 H7. pose proof (Z.div_mod L5 (2 ^ 63) ltac:(discriminate)) as D. pose proof (Z.mod_pos_bound L5 (2 ^ 63) ltac:(reflexivity)) as M.
  set (b := L5 / 2 ^ 63) in *. set (m := L5 mod 2 ^ 63) in *. clearbody b m.
  apply Z.div_unique with (Lo + m * 2 ^ 320 + 2 ^ 383 - b * 2 ^ 383); [left|]; [|lia].
  assert (b = 0 \/ b = 1) as [-> | ->] by lia; lia.
Qed.
Lemma mul_shift_384_eq a b : exists l, sc_mul_512 a b = l /\
  sc_mul_shift_var a b 384 = sc_cadd_bit (mksc (l_6 l) (l_7 l) 0 0) 0 (Z.land (Z.shiftr (l_5 l) 63) 1).
Proof.
  exists (sc_mul_512 a b). split; [reflexivity|]. unfold sc_mul_shift_var. set (l := sc_mul_512 a b). clearbody l. cbv zeta.
  assert (E1 : (384 <? 512) = true) by reflexivity. assert (E2 : (384 <? 448) = true) by reflexivity.
  assert (E3 : (384 <? 384) = false) by reflexivity. assert (E4 : (384 <? 320) = false) by reflexivity.
  assert (E5 : Z.land 384 63 = 0) by reflexivity. assert (E6 : Z.shiftr 384 6 = 6) by reflexivity.
  assert (E7 : Z.shiftr (384 - 1) 6 = 5) by reflexivity. assert (E8 : Z.land (384 - 1) 63 = 63) by reflexivity.
  rewrite E1, E2, E3, E4, E5, E6, E7, E8.
  assert (F : negb (0 =? 0) = false) by reflexivity. rewrite F. cbv iota. rewrite !andb_false_r. cbv iota. rewrite !Z.shiftr_0_r, !Z.lor_0_r.
  assert (G5 : l8_limb l 5 = l_5 l) by reflexivity. assert (G6 : l8_limb l (0 + 6) = l_6 l) by reflexivity.
  assert (G7 : l8_limb l (1 + 6) = l_7 l) by reflexivity. rewrite G5, G6, G7. reflexivity.
Qed.
Lemma sc_mul_shift_384 a b : sc_lim a -> sc_lim b ->
  sc_lim (sc_mul_shift_var a b 384) /\ sv (sc_mul_shift_var a b 384) = (sv a * sv b + 2 ^ 383) / 2 ^ 384.
Proof.
  intros La Lb. destruct (mul_shift_384_eq a b) as (l & El & ->).
  destruct (sc_mul_512_val a b _ El La Lb) as [L E]. rewrite <- E. clear E El.
  destruct L as (L0 & L1 & L2 & L3 & L4 & L5 & L6 & L7).
  assert (F : Z.land (Z.shiftr (l_5 l) 63) 1 = l_5 l / 2 ^ 63 /\ (l_5 l / 2 ^ 63 = 0 \/ l_5 l / 2 ^ 63 = 1)).
  { rewrite shiftr_div by lia. assert (B : 0 <= l_5 l / 2 ^ 63 < 2).
    { unfold wd in L5. split; [apply Z.div_pos; lia|apply Z.div_lt_upper_bound; lia]. }
    rewrite land_1. rewrite Z.mod_small by exact B. split; [reflexivity|]. clear - B. lia. }
  destruct F as [-> F].
  assert (LR : sc_lim (mksc (l_6 l) (l_7 l) 0 0)).
  { unfold sc_lim. cbn [d0 d1 d2 d3]. repeat split; try apply L6; try apply L7; reflexivity || discriminate. }
  assert (SR : sv (mksc (l_6 l) (l_7 l) 0 0) = l_6 l + l_7 l * 2 ^ 64) by (unfold sv; cbn [d0 d1 d2 d3]; ring).
  destruct (sc_cadd_bit_ok _ 0 (l_5 l / 2 ^ 63) LR ltac:(lia) F) as [K V].
  { rewrite SR. clear - L6 L7 F. unfold wd in *. destruct F as [-> | ->]; lia. }
  split; [exact K|]. rewrite V, SR. rewrite Z.mul_1_r.
  rewrite (round_bit (l_5 l) (l_6 l) (l_7 l) (l_0 l + l_1 l * 2 ^ 64 + l_2 l * 2 ^ 128 + l_3 l * 2 ^ 192 + l_4 l * 2 ^ 256)).
  - reflexivity.
  - clear - L0 L1 L2 L3 L4. unfold wd in *. lia.
  - assumption.
  - assumption.
  - assumption.
Qed.

(** ** The lambda split *)
(** The lattice basis of src/scalar_impl.h:105-108. *)
Definition lat_a1 : Z := 0x3086d221a7d46bcde86c90e49284eb15.
Definition lat_b1 : Z := - 0xe4437ed6010e88286f547fa90abfe4c3.
Definition lat_a2 : Z := 0x114ca50f7a8e2f3f657c1108d9d44cfd8.
Definition lat_b2 : Z := 0x3086d221a7d46bcde86c90e49284eb15.

Lemma split_bounds K C1 C2 : 0 <= K < n ->
  2 ^ 384 * C1 <= K * g1 + 2 ^ 383 < 2 ^ 384 * C1 + 2 ^ 384 ->
  2 ^ 384 * C2 <= K * g2 + 2 ^ 383 < 2 ^ 384 * C2 + 2 ^ 384 ->
  (- 0xa2a8918ca85bafe22016d0b917e4dd77 < K - C1 * lat_a1 - C2 * lat_a2 < 0xa2a8918ca85bafe22016d0b917e4dd77) /\
  (- 0x8a65287bd47179fb2be08846cea267ed < - C1 * lat_b1 - C2 * lat_b2 < 0x8a65287bd47179fb2be08846cea267ed).
Proof.
  change n with 0xFFFFFFFFFFFFFFFFFFFFFFFFFFFFFFFEBAAEDCE6AF48A03BBFD25E8CD0364141.
  unfold g1, g2, lat_a1, lat_b1, lat_a2, lat_b2. intros HK H1 H2. split; lia.
Qed.

Lemma rdiv_bounds x : 2 ^ 384 * ((x + 2 ^ 383) / 2 ^ 384) <= x + 2 ^ 383 < 2 ^ 384 * ((x + 2 ^ 383) / 2 ^ 384) + 2 ^ 384.
Proof.
  pose proof (Z.div_mod (x + 2 ^ 383) (2 ^ 384) ltac:(discriminate)) as D.
  pose proof (Z.mod_pos_bound (x + 2 ^ 383) (2 ^ 384) ltac:(reflexivity)) as M. lia.
Qed.

Lemma sc_const_ok v : (0 <=? v) && (v <? n) = true -> sc_ok (sc_of_Z v) /\ sv (sc_of_Z v) = v.
Proof. intros H. apply andb_prop in H as [H1 H2]. apply sc_of_Z_ok. apply Z.leb_le in H1. apply Z.ltb_lt in H2. lia. Qed.

Lemma lat_a1_eq : (lat_a1 + lat_b1 * lambda) mod n = 0. Proof. vm_compute. reflexivity. Qed.
Lemma lat_a2_eq : (lat_a2 + lat_b2 * lambda) mod n = 0. Proof. vm_compute. reflexivity. Qed.

Lemma mod_eq_sub a b m : m <> 0 -> (a - b) mod m = 0 -> a mod m = b mod m.
Proof. intros Hm H. replace a with (b + (a - b)) by ring. rewrite Z.add_mod, H, Z.add_0_r, Z.mod_mod by assumption. reflexivity. Qed.

Lemma split_alg K c1 c2 a1 b1 a2 b2 lam nn q qa qb r2 : - c1 * b1 - c2 * b2 = nn * q + r2 -> a1 + b1 * lam = nn * qa + 0 ->
  a2 + b2 * lam = nn * qb + 0 -> K - r2 * lam - (K - c1 * a1 - c2 * a2) = (q * lam + c1 * qa + c2 * qb) * nn.
Proof.
  intros Q QA QB. replace r2 with (- c1 * b1 - c2 * b2 - nn * q) by (rewrite Q; ring).
  transitivity (c1 * (nn * qa + 0) + c2 * (nn * qb + 0) + q * lam * nn); [|ring]. rewrite <- QA, <- QB. ring.
Qed.

Lemma minus_b1_eq : minus_b1 = - lat_b1. Proof. vm_compute. reflexivity. Qed.
Lemma minus_b2_eq : minus_b2 = n - lat_b2. Proof. vm_compute. reflexivity. Qed.
Definition split_spec (k r1 r2 : sc) : Prop :=
  sc_ok r1 /\ sc_ok r2 /\ exists k1 k2,
   - 0xa2a8918ca85bafe22016d0b917e4dd77 < k1 < 0xa2a8918ca85bafe22016d0b917e4dd77 /\
   - 0x8a65287bd47179fb2be08846cea267ed < k2 < 0x8a65287bd47179fb2be08846cea267ed /\
   sv r1 = k1 mod n /\ sv r2 = k2 mod n /\ (k1 + lambda * k2) mod n = sv k /\ (sv r1 + lambda * sv r2) mod n = sv k.
Lemma split_core k c1 c2 sb1 sb2 sl r1 r2 : sc_ok k -> sc_lim c1 -> sc_lim c2 -> sc_ok sb1 -> sc_ok sb2 -> sc_ok sl ->
  sv sb1 = minus_b1 -> sv sb2 = minus_b2 -> sv sl = lambda ->
  (- 0xa2a8918ca85bafe22016d0b917e4dd77 < sv k - sv c1 * lat_a1 - sv c2 * lat_a2 < 0xa2a8918ca85bafe22016d0b917e4dd77) ->
  (- 0x8a65287bd47179fb2be08846cea267ed < - sv c1 * lat_b1 - sv c2 * lat_b2 < 0x8a65287bd47179fb2be08846cea267ed) ->
  r2 = sc_add (sc_mul c1 sb1) (sc_mul c2 sb2) -> r1 = sc_add (sc_negate (sc_mul r2 sl)) k -> split_spec k r1 r2.
Proof.
  intros Hk LC1 LC2 B1 B2 Lam VB1 VB2 VLam BK1 BK2 Er2 Er1.
  pose proof (sc_mul_ok c1 sb1 LC1 (proj1 B1)) as O1. pose proof (sc_mul_sv c1 sb1 LC1 (proj1 B1)) as V1.
  pose proof (sc_mul_ok c2 sb2 LC2 (proj1 B2)) as O2. pose proof (sc_mul_sv c2 sb2 LC2 (proj1 B2)) as V2.
  pose proof (sc_add_ok _ _ O1 O2) as O3. pose proof (sc_add_sv _ _ O1 O2) as V3.
  rewrite <- Er2 in O3, V3.
  pose proof (sc_mul_ok r2 sl (proj1 O3) (proj1 Lam)) as O4. pose proof (sc_mul_sv r2 sl (proj1 O3) (proj1 Lam)) as V4.
  destruct (sc_negate_ok _ O4) as [O5 V5]. 
  pose proof (sc_add_ok _ _ O5 Hk) as O6. pose proof (sc_add_sv _ _ O5 Hk) as V6.
  rewrite <- Er1 in O6, V6.
  rewrite V1, V2, VB1, VB2 in V3. rewrite V5, V4, VLam in V6.
  assert (N0 : n <> 0) by discriminate.
  assert (E2 : sv r2 = (- sv c1 * lat_b1 - sv c2 * lat_b2) mod n).
  { rewrite V3. rewrite <- Z.add_mod by exact N0. apply mod_eq_sub; [exact N0|].
    rewrite minus_b1_eq, minus_b2_eq.
    replace (sv c1 * - lat_b1 + sv c2 * (n - lat_b2) - (- sv c1 * lat_b1 - sv c2 * lat_b2)) with (sv c2 * n) by ring.
    apply Z.mod_mul. exact N0. }
  assert (E1 : sv r1 = (sv k - sv r2 * lambda) mod n).
  { rewrite V6. rewrite Z.add_mod_idemp_l by exact N0. 
    rewrite (Z.add_comm (- _)). rewrite Z.add_opp_r, Zminus_mod_idemp_r. reflexivity. }
  assert (E3 : sv r1 = (sv k - sv c1 * lat_a1 - sv c2 * lat_a2) mod n).
  { rewrite E1. apply mod_eq_sub; [exact N0|].
    pose proof (Z.div_mod (- sv c1 * lat_b1 - sv c2 * lat_b2) n N0) as Q. rewrite <- E2 in Q.
    pose proof (Z.div_mod (lat_a1 + lat_b1 * lambda) n N0) as QA. rewrite lat_a1_eq in QA.
    pose proof (Z.div_mod (lat_a2 + lat_b2 * lambda) n N0) as QB. rewrite lat_a2_eq in QB.
    rewrite (split_alg _ _ _ _ _ _ _ _ _ _ _ _ _ Q QA QB). apply Z.mod_mul. exact N0. }
  split; [exact O6|]. split; [exact O3|].
  exists (sv k - sv c1 * lat_a1 - sv c2 * lat_a2), (- sv c1 * lat_b1 - sv c2 * lat_b2).
  split; [exact BK1|]. split; [exact BK2|]. split; [exact E3|]. split; [exact E2|].
  assert (F : (sv r1 + lambda * sv r2) mod n = sv k).
  { rewrite E1. rewrite Z.add_mod_idemp_l by exact N0. replace (sv k - sv r2 * lambda + lambda * sv r2) with (sv k) by ring. now apply sc_ok_mod. }
  split; [|exact F]. etransitivity; [|exact F]. rewrite E3, E2. rewrite Z.add_mod_idemp_l by exact N0.
  rewrite (Z.add_mod _ (lambda * (_ mod n))) by exact N0. rewrite Z.mul_mod_idemp_r by exact N0. rewrite <- Z.add_mod by exact N0. reflexivity.
Qed.

Lemma sc_split_lambda_ok k : sc_ok k -> split_spec k (fst (sc_split_lambda k)) (snd (sc_split_lambda k)).
Proof.
  intros Hk. pose proof (sc_ok_range k Hk) as R. destruct (Hk) as [Lk _].
  destruct (sc_const_ok g1 ltac:(vm_compute; reflexivity)) as [G1 VG1]. destruct (sc_const_ok g2 ltac:(vm_compute; reflexivity)) as [G2 VG2].
  destruct (sc_const_ok minus_b1 ltac:(vm_compute; reflexivity)) as [B1 VB1]. destruct (sc_const_ok minus_b2 ltac:(vm_compute; reflexivity)) as [B2 VB2].
  destruct (sc_const_ok lambda ltac:(vm_compute; reflexivity)) as [Lam VLam].
  destruct (sc_mul_shift_384 k _ Lk (proj1 G1)) as [LC1 VC1]. destruct (sc_mul_shift_384 k _ Lk (proj1 G2)) as [LC2 VC2].
  rewrite VG1 in VC1. rewrite VG2 in VC2.
  pose proof (rdiv_bounds (sv k * g1)) as D1. pose proof (rdiv_bounds (sv k * g2)) as D2. rewrite <- VC1 in D1. rewrite <- VC2 in D2.
  pose proof (split_bounds (sv k) _ _ R D1 D2) as [BK1 BK2].
  exact (split_core k _ _ _ _ _ _ _ Hk LC1 LC2 B1 B2 Lam VB1 VB2 VLam BK1 BK2 eq_refl eq_refl).
Qed.
