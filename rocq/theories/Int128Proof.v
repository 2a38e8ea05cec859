(** The two-word 128-bit arithmetic is exact (C48). *)
Require Import ZArith List Bool Lia.
From Verif Require Import Word FieldModel Int128Model SpecWords.
Local Open Scope Z_scope.

(** Quotient and remainder as variables. *)
Lemma div_parts x k : 0 < k -> exists q r, x = q * k + r /\ 0 <= r < k /\ x / k = q /\ x mod k = r.
Proof. intros K. exists (x / k), (x mod k). repeat split; try (apply Z.mod_pos_bound; lia). rewrite Z.mul_comm. now apply Z.div_mod; lia. Qed.
Ltac parts x k q r E := destruct (div_parts x k ltac:(reflexivity)) as (q & r & ? & ? & E & ?).

Lemma prod_bound a b m k : 0 <= a <= m -> 0 <= b <= k -> 0 <= a * b <= m * k.
Proof. intros. split; [apply Z.mul_nonneg_nonneg; lia|]. apply Z.mul_le_mono_nonneg; lia. Qed.

Lemma umul_ok a b : is_u64 a -> is_u64 b -> let (h, l) := umul128 a b in is_u64 h /\ is_u64 l /\ h * 2 ^ 64 + l = a * b.
Proof.
  intros A B. unfold umul128, is_u64, w32 in *. rewrite !shiftr_div by lia. change (2 ^ 64) with 18446744073709551616 in *. change (2 ^ 32) with 4294967296.
  destruct (div_parts a 4294967296 ltac:(reflexivity)) as (a1 & a0 & Ea & Ra & -> & ->).
  destruct (div_parts b 4294967296 ltac:(reflexivity)) as (b1 & b0 & Eb & Rb & -> & ->).
  assert (0 <= a1 <= 4294967295) by lia. assert (0 <= b1 <= 4294967295) by lia.
  pose proof (prod_bound a0 b0 4294967295 4294967295 ltac:(lia) ltac:(lia)). pose proof (prod_bound a0 b1 4294967295 4294967295 ltac:(lia) ltac:(lia)).
  pose proof (prod_bound a1 b0 4294967295 4294967295 ltac:(lia) ltac:(lia)). pose proof (prod_bound a1 b1 4294967295 4294967295 ltac:(lia) ltac:(lia)).
  rewrite !(w64_id (_ * _)) by (change (2 ^ 64) with 18446744073709551616; lia).
  assert (E : a * b = a1 * b1 * 18446744073709551616 + (a0 * b1 + a1 * b0) * 4294967296 + a0 * b0) by (subst a b; ring).
  pose proof (prod_bound a b 18446744073709551615 18446744073709551615 ltac:(lia) ltac:(lia)) as AB.
  set (ll := a0 * b0) in *. set (lh := a0 * b1) in *. set (hl := a1 * b0) in *. set (hh := a1 * b1) in *. set (ab := a * b) in *. clearbody ll lh hl hh ab.
  destruct (div_parts ll 4294967296 ltac:(reflexivity)) as (l1 & l0 & El & Rl & -> & ->).
  destruct (div_parts lh 4294967296 ltac:(reflexivity)) as (m1 & m0 & Em & Rm & -> & ->).
  destruct (div_parts hl 4294967296 ltac:(reflexivity)) as (k1 & k0 & Ek & Rk & -> & ->).
  rewrite !(w64_id (l1 + _)) by (change (2 ^ 64) with 18446744073709551616; lia). rewrite (w64_id (l1 + m0 + k0)) by (change (2 ^ 64) with 18446744073709551616; lia).
  rewrite Z.shiftl_mul_pow2 by lia. change (2 ^ 32) with 4294967296.
  destruct (div_parts (l1 + m0 + k0) 4294967296 ltac:(reflexivity)) as (u1 & u0 & Eu & Ru & -> & _).
  replace (w64 ((l1 + m0 + k0) * 4294967296)) with (u0 * 4294967296).
  2: { rewrite Eu. unfold w64. replace ((u1 * 4294967296 + u0) * 4294967296) with (u0 * 4294967296 + u1 * 2 ^ 64) by (change (2 ^ 64) with 18446744073709551616; lia). rewrite Z.mod_add by discriminate.
       symmetry. apply Z.mod_small. change (2 ^ 64) with 18446744073709551616. lia. }
  rewrite (w64_id (u0 * _ + l0)) by (change (2 ^ 64) with 18446744073709551616; lia).
  rewrite (w64_id (hh + m1)) by (change (2 ^ 64) with 18446744073709551616; lia). rewrite (w64_id (hh + m1 + k1)) by (change (2 ^ 64) with 18446744073709551616; lia).
  rewrite (w64_id (hh + m1 + k1 + u1)) by (change (2 ^ 64) with 18446744073709551616; lia). lia.
Qed.

Lemma uval_inj r x : words r -> 0 <= x < 2 ^ 128 -> uval r = x <-> hi128 r = x / 2 ^ 64 /\ lo128 r = x mod 2 ^ 64.
Proof.
  intros [H L] X. unfold uval. split.
  - intros <-. split; [rewrite Z.div_add_l by discriminate; rewrite Z.div_small by assumption; lia|]. rewrite Z.add_comm, Z.mod_add by discriminate. symmetry. now apply Z.mod_small.
  - intros [-> ->]. rewrite (Z.div_mod x (2 ^ 64)) at 3 by discriminate. lia.
Qed.
Lemma uval_range r : words r -> 0 <= uval r < 2 ^ 128.
Proof. intros [H L]. unfold uval. change (2 ^ 128) with (2 ^ 64 * 2 ^ 64). change (2 ^ 64) with 18446744073709551616 in *. lia. Qed.
(** Word-wise additions and subtractions with the carry or borrow as computed. *)
Lemma add_words r s c : words r -> is_u64 s -> is_u64 c ->
  words (mkw (w64 (hi128 r + w64 (s + b2z (w64 (lo128 r + c) <? c)))) (w64 (lo128 r + c))) /\
  uval (mkw (w64 (hi128 r + w64 (s + b2z (w64 (lo128 r + c) <? c)))) (w64 (lo128 r + c))) = (uval r + (s * 2 ^ 64 + c)) mod 2 ^ 128.
Proof.
  intros [H L] S C. unfold words, uval, is_u64, w64 in *. cbn [hi128 lo128]. split; [split; apply Z.mod_pos_bound; reflexivity|].
  rewrite Zplus_mod_idemp_r. change (2 ^ 128) with (18446744073709551616 * 18446744073709551616). change (2 ^ 64) with 18446744073709551616 in *.
  destruct (div_parts (lo128 r + c) 18446744073709551616 ltac:(reflexivity)) as (q & l & E & R & _ & ->).
  assert (Q : b2z (l <? c) = q). { unfold b2z. destruct (Z.ltb_spec l c); lia. }
  rewrite Q. replace (hi128 r * 18446744073709551616 + lo128 r + (s * 18446744073709551616 + c)) with (l + (hi128 r + (s + q)) * 18446744073709551616) by lia.
  rewrite (Z.rem_mul_r) by lia. rewrite Z.mod_add, Z.div_add by lia. rewrite (Z.mod_small l), (Z.div_small l) by lia. cbn [Z.add]. lia.
Qed.
Lemma sub_words r s c : words r -> is_u64 s -> is_u64 c ->
  words (mkw (w64 (hi128 r - w64 (s + b2z (lo128 r <? c)))) (w64 (lo128 r - c))) /\
  uval (mkw (w64 (hi128 r - w64 (s + b2z (lo128 r <? c)))) (w64 (lo128 r - c))) = (uval r - (s * 2 ^ 64 + c)) mod 2 ^ 128.
Proof.
  intros [H L] S C. unfold words, uval, is_u64, w64 in *. cbn [hi128 lo128]. split; [split; apply Z.mod_pos_bound; reflexivity|].
  rewrite Zminus_mod_idemp_r. change (2 ^ 128) with (18446744073709551616 * 18446744073709551616). change (2 ^ 64) with 18446744073709551616 in *.
  destruct (div_parts (lo128 r - c) 18446744073709551616 ltac:(reflexivity)) as (q & l & E & R & _ & ->).
  assert (Q : b2z (lo128 r <? c) = - q). { unfold b2z. destruct (Z.ltb_spec (lo128 r) c); lia. }
  rewrite Q. replace (hi128 r * 18446744073709551616 + lo128 r - (s * 18446744073709551616 + c)) with (l + (hi128 r - (s + - q)) * 18446744073709551616) by lia.
  rewrite (Z.rem_mul_r) by lia. rewrite Z.mod_add, Z.div_add by lia. rewrite (Z.mod_small l), (Z.div_small l) by lia. cbn [Z.add]. lia.
Qed.

Lemma prop_u128_mul a b : is_u64 a -> is_u64 b -> words (s_u128_mul a b) /\ uval (s_u128_mul a b) = a * b.
Proof. intros A B. pose proof (umul_ok a b A B) as U. unfold s_u128_mul. destruct (umul128 a b) as [h l]. destruct U as (H & L & E). split; [split; assumption|exact E]. Qed.
Lemma prop_u128_accum_mul r a b : words r -> is_u64 a -> is_u64 b ->
  words (s_u128_accum_mul r a b) /\ uval (s_u128_accum_mul r a b) = (uval r + a * b) mod 2 ^ 128.
Proof.
  intros R A B. pose proof (umul_ok a b A B) as U. unfold s_u128_accum_mul. destruct (umul128 a b) as [h l]. destruct U as (H & L & <-). exact (add_words r h l R H L).
Qed.
Lemma prop_u128_accum_u64 r a : words r -> is_u64 a -> words (s_u128_accum_u64 r a) /\ uval (s_u128_accum_u64 r a) = (uval r + a) mod 2 ^ 128.
Proof.
  intros R A. pose proof (add_words r 0 a R ltac:(split; [lia|reflexivity]) A) as H. unfold s_u128_accum_u64. cbn zeta.
  rewrite (w64_id (0 + _)) in H by (destruct (w64 (lo128 r + a) <? a); split; reflexivity || (vm_compute; discriminate)). exact H.
Qed.
Lemma lor_shift h l k : 0 < k < 64 -> is_u64 h -> is_u64 l ->
  Z.lor (w64 (Z.shiftl h (64 - k))) (Z.shiftr l k) = (h mod 2 ^ k) * 2 ^ (64 - k) + l / 2 ^ k /\
  0 <= (h mod 2 ^ k) * 2 ^ (64 - k) + l / 2 ^ k < 2 ^ 64.
Proof.
  intros K H L. unfold is_u64 in *. rewrite shiftr_div, Z.shiftl_mul_pow2 by lia. unfold w64.
  assert (P : 2 ^ 64 = 2 ^ k * 2 ^ (64 - k)) by (rewrite <- Z.pow_add_r by lia; f_equal; lia).
  assert (0 < 2 ^ k) by (apply Z.pow_pos_nonneg; lia). assert (0 < 2 ^ (64 - k)) by (apply Z.pow_pos_nonneg; lia).
  assert (E : (h * 2 ^ (64 - k)) mod 2 ^ 64 = (h mod 2 ^ k) * 2 ^ (64 - k)) by (rewrite P; now rewrite Z.mul_mod_distr_r by lia).
  rewrite E. assert (Q : 0 <= l / 2 ^ k < 2 ^ (64 - k)). { split; [apply Z.div_pos; lia|]. apply Z.div_lt_upper_bound; [lia|]. rewrite <- P. lia. }
  rewrite lor_disjoint' by lia. split; [lia|]. pose proof (Z.mod_pos_bound h (2 ^ k) ltac:(lia)). rewrite P. nia.
Qed.
Lemma shift_val hi lo k : 0 < k < 64 -> is_u64 lo -> (hi * 2 ^ 64 + lo) / 2 ^ k = (hi / 2 ^ k) * 2 ^ 64 + ((hi mod 2 ^ k) * 2 ^ (64 - k) + lo / 2 ^ k).
Proof.
  intros K L. assert (P : 2 ^ 64 = 2 ^ k * 2 ^ (64 - k)) by (rewrite <- Z.pow_add_r by lia; f_equal; lia).
  assert (0 < 2 ^ k) by (apply Z.pow_pos_nonneg; lia).
  rewrite P at 1. replace (hi * (2 ^ k * 2 ^ (64 - k)) + lo) with (hi * 2 ^ (64 - k) * 2 ^ k + lo) by ring. rewrite Z.div_add_l by lia.
  rewrite (Z.div_mod hi (2 ^ k)) at 1 by lia. rewrite P. ring.
Qed.
Lemma high_val hi lo k : 64 <= k -> is_u64 lo -> (hi * 2 ^ 64 + lo) / 2 ^ k = hi / 2 ^ (k - 64).
Proof.
  intros K L. replace (2 ^ k) with (2 ^ 64 * 2 ^ (k - 64)) by (rewrite <- Z.pow_add_r by lia; f_equal; lia). rewrite <- Z.div_div by (try lia; apply Z.pow_pos_nonneg; lia).
  rewrite Z.div_add_l by discriminate. rewrite (Z.div_small lo) by exact L. f_equal. lia.
Qed.
Lemma div_u64 x k : is_u64 x -> 0 <= k -> is_u64 (x / 2 ^ k).
Proof. intros [A B] K. assert (0 < 2 ^ k) by (apply Z.pow_pos_nonneg; lia). split; [apply Z.div_pos; lia|]. apply Z.le_lt_trans with x; [|exact B]. apply Z.div_le_upper_bound; nia. Qed.
Lemma prop_u128_rshift r k : words r -> 0 <= k < 128 -> words (s_u128_rshift r k) /\ uval (s_u128_rshift r k) = uval r / 2 ^ k.
Proof.
  intros [H L] K. unfold s_u128_rshift, uval. rewrite Z.geb_leb. destruct (Z.leb_spec 64 k) as [K1|K1]; [|rewrite Z.gtb_ltb; destruct (Z.ltb_spec 0 k) as [K2|K2]].
  - unfold words. cbn [hi128 lo128]. rewrite shiftr_div by lia. split; [split; [split; [lia|reflexivity]|apply div_u64; [exact H|lia]]|]. rewrite high_val by (lia || exact L). lia.
  - unfold words. cbn [hi128 lo128]. destruct (lor_shift (hi128 r) (lo128 r) k ltac:(lia) H L) as [-> R]. rewrite shiftr_div by lia.
    split; [split; [apply div_u64; [exact H|lia]|exact R]|]. now rewrite shift_val by (lia || exact L).
  - assert (k = 0) by lia. subst k. rewrite Z.div_1_r. split; [split; assumption|reflexivity].
Qed.
Lemma prop_u128_parts r a : words r -> is_u64 a -> s_u128_to_u64 r = uval r mod 2 ^ 64 /\ s_u128_hi_u64 r = uval r / 2 ^ 64 /\
  words (s_u128_from_u64 a) /\ uval (s_u128_from_u64 a) = a.
Proof.
  intros R A. pose proof (proj1 (uval_inj r (uval r) R (uval_range r R)) eq_refl) as [E F]. split; [exact F|]. split; [exact E|].
  split; [split; [cbn; split; [lia|reflexivity]|exact A]|]. reflexivity.
Qed.
Lemma prop_u128_check_bits r k : words r -> 0 <= k < 128 -> s_u128_check_bits r k = (uval r <? 2 ^ k).
Proof.
  intros [H L] K. unfold s_u128_check_bits. assert (P : 0 < 2 ^ k) by (apply Z.pow_pos_nonneg; lia).
  assert (E : (uval r <? 2 ^ k) = (uval r / 2 ^ k =? 0)).
  { pose proof (uval_range r (conj H L)). apply eq_true_iff_eq. rewrite Z.ltb_lt, Z.eqb_eq. rewrite Z.div_small_iff by lia. lia. }
  rewrite E. unfold uval. rewrite Z.geb_leb. destruct (Z.leb_spec 64 k) as [K1|K1].
  - rewrite high_val, shiftr_div by (lia || exact L). reflexivity.
  - rewrite shiftr_div by lia. apply eq_true_iff_eq. rewrite andb_true_iff, !Z.eqb_eq. rewrite !Z.div_small_iff by lia. destruct L as [L0 L1]. destruct H as [H0 H1].
    assert (2 ^ k <= 2 ^ 64) by (apply Z.pow_le_mono_r; lia). change (2 ^ 64) with 18446744073709551616 in *. lia.
Qed.

(** ** Signed *)
Lemma i64_id x : is_i64 x -> i64 x = Some x.
Proof. intros [A B]. unfold i64. replace (- 2 ^ 63 <=? x) with true by (symmetry; now apply Z.leb_le). now replace (x <? 2 ^ 63) with true by (symmetry; now apply Z.ltb_lt). Qed.
Lemma to_i64_id x : is_i64 x -> to_i64 x = x.
Proof.
  intros [A B]. unfold to_i64, w64. change (2 ^ 63) with 9223372036854775808 in *. change (2 ^ 64) with 18446744073709551616.
  destruct (div_parts x 18446744073709551616 ltac:(reflexivity)) as (q & r & E & R & _ & ->). destruct (Z.ltb_spec r 9223372036854775808); lia.
Qed.
Lemma to_i64_range x : is_i64 (to_i64 x).
Proof. unfold to_i64, is_i64. pose proof (w64_range x). change (2 ^ 64) with 18446744073709551616 in *. change (2 ^ 63) with 9223372036854775808. destruct (Z.ltb_spec (w64 x) 9223372036854775808); lia. Qed.
Lemma w64_to_i64 x : w64 (to_i64 x) = w64 x.
Proof. unfold to_i64. destruct (w64 x <? 2 ^ 63); unfold w64; [now rewrite Z.mod_mod by discriminate|]. rewrite <- (Z.mod_add _ 1) by discriminate. replace (x mod 2 ^ 64 - 2 ^ 64 + 1 * 2 ^ 64) with (x mod 2 ^ 64) by lia. now rewrite Z.mod_mod by discriminate. Qed.
Lemma w64_w64 x : w64 (w64 x) = w64 x. Proof. apply Z.mod_mod. discriminate. Qed.
Lemma to_i64_w64 x : to_i64 (w64 x) = to_i64 x. Proof. unfold to_i64. now rewrite w64_w64. Qed.
Lemma sprod_bound a b m k : - m <= a <= m -> - k <= b <= k -> - (m * k) <= a * b <= m * k.
Proof. intros. assert (Z.abs (a * b) <= m * k) by (rewrite Z.abs_mul; apply Z.mul_le_mono_nonneg; lia). lia. Qed.
Lemma mul_ok a b : is_i64 a -> is_i64 b -> exists h l, mul128 a b = Some (h, l) /\ - 2 ^ 62 <= h <= 2 ^ 62 /\ h * 2 ^ 64 + w64 l = a * b.
Proof.
  intros A B. unfold mul128, is_i64, w32 in *. rewrite !shiftr_div by lia. change (2 ^ 63) with 9223372036854775808 in *. change (2 ^ 62) with 4611686018427387904. change (2 ^ 32) with 4294967296.
  destruct (div_parts a 4294967296 ltac:(reflexivity)) as (a1 & a0 & Ea & Ra & -> & ->).
  destruct (div_parts b 4294967296 ltac:(reflexivity)) as (b1 & b0 & Eb & Rb & -> & ->).
  assert (-2147483648 <= a1 <= 2147483647) by lia. assert (-2147483648 <= b1 <= 2147483647) by lia.
  pose proof (prod_bound a0 b0 4294967295 4294967295 ltac:(lia) ltac:(lia)). pose proof (sprod_bound a0 b1 4294967295 2147483648 ltac:(lia) ltac:(lia)).
  pose proof (sprod_bound a1 b0 2147483648 4294967295 ltac:(lia) ltac:(lia)). pose proof (sprod_bound a1 b1 2147483648 2147483648 ltac:(lia) ltac:(lia)).
  rewrite !(w64_id (_ * _)) by (change (2 ^ 64) with 18446744073709551616; lia).
  rewrite (i64_id (a0 * b1)) by (unfold is_i64; change (2 ^ 63) with 9223372036854775808; lia). rewrite (i64_id (a1 * b0)) by (unfold is_i64; change (2 ^ 63) with 9223372036854775808; lia).
  rewrite (i64_id (a1 * b1)) by (unfold is_i64; change (2 ^ 63) with 9223372036854775808; lia).
  assert (E : a * b = a1 * b1 * 18446744073709551616 + (a0 * b1 + a1 * b0) * 4294967296 + a0 * b0) by (subst a b; ring).
  pose proof (sprod_bound a b 9223372036854775808 9223372036854775808 ltac:(lia) ltac:(lia)) as AB.
  set (ll := a0 * b0) in *. set (lh := a0 * b1) in *. set (hl := a1 * b0) in *. set (hh := a1 * b1) in *. set (ab := a * b) in *. clearbody ll lh hl hh ab.
  rewrite !shiftr_div by lia. change (2 ^ 32) with 4294967296.
  destruct (div_parts ll 4294967296 ltac:(reflexivity)) as (l1 & l0 & El & Rl & -> & ->).
  destruct (div_parts lh 4294967296 ltac:(reflexivity)) as (m1 & m0 & Em & Rm & -> & ->).
  destruct (div_parts hl 4294967296 ltac:(reflexivity)) as (k1 & k0 & Ek & Rk & -> & ->).
  rewrite !(w64_id (l1 + _)) by (change (2 ^ 64) with 18446744073709551616; lia). rewrite (w64_id (l1 + m0 + k0)) by (change (2 ^ 64) with 18446744073709551616; lia).
  rewrite Z.shiftl_mul_pow2 by lia. change (2 ^ 32) with 4294967296.
  destruct (div_parts (l1 + m0 + k0) 4294967296 ltac:(reflexivity)) as (u1 & u0 & Eu & Ru & -> & _).
  replace (w64 ((l1 + m0 + k0) * 4294967296)) with (u0 * 4294967296).
  2: { rewrite Eu. unfold w64. replace ((u1 * 4294967296 + u0) * 4294967296) with (u0 * 4294967296 + u1 * 2 ^ 64) by (change (2 ^ 64) with 18446744073709551616; lia). rewrite Z.mod_add by discriminate.
       symmetry. apply Z.mod_small. change (2 ^ 64) with 18446744073709551616. lia. }
  rewrite (i64_id (hh + m1)) by (unfold is_i64; change (2 ^ 63) with 9223372036854775808; lia). rewrite (i64_id (hh + m1 + k1)) by (unfold is_i64; change (2 ^ 63) with 9223372036854775808; lia).
  rewrite (to_i64_id (hh + m1 + k1 + u1)) by (unfold is_i64; change (2 ^ 63) with 9223372036854775808; lia).
  eexists _, _. split; [reflexivity|]. rewrite w64_to_i64, w64_w64.
  rewrite (w64_id (u0 * _ + l0)) by (change (2 ^ 64) with 18446744073709551616; lia). change (2 ^ 64) with 18446744073709551616. lia.
Qed.
Lemma ival_of r x : words r -> uval r = x mod 2 ^ 128 -> is_i128 x -> ival r = x.
Proof.
  intros R E [A B]. unfold ival. rewrite E. change (2 ^ 127) with 170141183460469231731687303715884105728 in *. change (2 ^ 128) with 340282366920938463463374607431768211456 in *.
  destruct (div_parts x 340282366920938463463374607431768211456 ltac:(reflexivity)) as (q & s & Ex & Rs & _ & ->). destruct (Z.ltb_spec s 170141183460469231731687303715884105728); lia.
Qed.
Lemma ival_mod r : words r -> uval r = ival r mod 2 ^ 128.
Proof.
  intros R. pose proof (uval_range r R). unfold ival. destruct (uval r <? 2 ^ 127); [symmetry; now apply Z.mod_small|]. rewrite <- (Z.mod_add _ 1) by discriminate.
  replace (uval r - 2 ^ 128 + 1 * 2 ^ 128) with (uval r) by lia. symmetry. now apply Z.mod_small.
Qed.
Lemma ival_range r : words r -> is_i128 (ival r).
Proof. intros R. pose proof (uval_range r R). unfold ival, is_i128. change (2 ^ 127) with 170141183460469231731687303715884105728 in *. change (2 ^ 128) with 340282366920938463463374607431768211456 in *. destruct (Z.ltb_spec (uval r) 170141183460469231731687303715884105728); lia. Qed.
Lemma ival_hi r : words r -> ival r = to_i64 (hi128 r) * 2 ^ 64 + lo128 r.
Proof.
  intros R. apply ival_of; [assumption| |].
  - unfold uval. rewrite Z.mul_comm. change (2 ^ 128) with (2 ^ 64 * 2 ^ 64). destruct R as [H L]. unfold to_i64. rewrite (w64_id _ H).
    assert (U : 0 <= hi128 r * 2 ^ 64 + lo128 r < 2 ^ 64 * 2 ^ 64) by (change (2 ^ 64) with 18446744073709551616 in *; lia).
    destruct (hi128 r <? 2 ^ 63); [symmetry; rewrite Z.mul_comm; now apply Z.mod_small; rewrite Z.mul_comm|].
    rewrite <- (Z.mod_add _ 1) by discriminate. symmetry. replace ((hi128 r - 2 ^ 64) * 2 ^ 64 + lo128 r + 1 * (2 ^ 64 * 2 ^ 64)) with (2 ^ 64 * hi128 r + lo128 r) by ring. apply Z.mod_small. rewrite Z.mul_comm. exact U.
  - destruct R as [H L]. pose proof (to_i64_range (hi128 r)) as T. unfold is_i64, is_i128 in *. change (2 ^ 127) with 170141183460469231731687303715884105728. change (2 ^ 64) with 18446744073709551616 in *. change (2 ^ 63) with 9223372036854775808 in *. lia.
Qed.
Lemma small_prod a b : is_i64 a -> is_i64 b -> is_i128 (a * b).
Proof. intros A B. unfold is_i64, is_i128 in *. pose proof (sprod_bound a b (2 ^ 63) (2 ^ 63) ltac:(lia) ltac:(lia)). change (2 ^ 127) with 170141183460469231731687303715884105728. change (2 ^ 63 * 2 ^ 63) with 85070591730234615865843651857942052864 in *. lia. Qed.
Lemma prop_i128_mul a b : is_i64 a -> is_i64 b -> exists r, s_i128_mul a b = Some r /\ words r /\ ival r = a * b.
Proof.
  intros A B. destruct (mul_ok a b A B) as (h & l & E & H & V). unfold s_i128_mul. rewrite E. cbn [fst snd]. eexists. split; [reflexivity|].
  assert (W : words (mkw (w64 h) (w64 l))) by (split; apply w64_range). split; [exact W|]. rewrite ival_hi by exact W. cbn [hi128 lo128]. rewrite <- V. f_equal. f_equal.
  rewrite to_i64_w64. apply to_i64_id. unfold is_i64. change (2 ^ 62) with 4611686018427387904 in *. change (2 ^ 63) with 9223372036854775808. lia.
Qed.
Lemma w64_add_w64 x y : w64 (x + w64 y) = w64 (x + y). Proof. unfold w64. now rewrite Zplus_mod_idemp_r. Qed.
Lemma w64_add_w64l x y : w64 (w64 x + y) = w64 (x + y). Proof. unfold w64. now rewrite Zplus_mod_idemp_l. Qed.
Lemma w64_sub_w64 x y : w64 (x - w64 y) = w64 (x - y). Proof. unfold w64. now rewrite Zminus_mod_idemp_r. Qed.
Lemma mod128_hi u h l : (u + (w64 h * 2 ^ 64 + l)) mod 2 ^ 128 = (u + (h * 2 ^ 64 + l)) mod 2 ^ 128.
Proof.
  unfold w64. change (2 ^ 128) with (2 ^ 64 * 2 ^ 64). rewrite (Z.div_mod h (2 ^ 64)) at 2 by discriminate.
  replace (u + ((2 ^ 64 * (h / 2 ^ 64) + h mod 2 ^ 64) * 2 ^ 64 + l)) with (u + (h mod 2 ^ 64 * 2 ^ 64 + l) + (h / 2 ^ 64) * (2 ^ 64 * 2 ^ 64)) by ring. now rewrite Z.mod_add by discriminate.
Qed.
Lemma mod128_hi_sub u h l : (u - (w64 h * 2 ^ 64 + l)) mod 2 ^ 128 = (u - (h * 2 ^ 64 + l)) mod 2 ^ 128.
Proof.
  unfold w64. change (2 ^ 128) with (2 ^ 64 * 2 ^ 64). rewrite (Z.div_mod h (2 ^ 64)) at 2 by discriminate.
  replace (u - ((2 ^ 64 * (h / 2 ^ 64) + h mod 2 ^ 64) * 2 ^ 64 + l)) with (u - (h mod 2 ^ 64 * 2 ^ 64 + l) + (- (h / 2 ^ 64)) * (2 ^ 64 * 2 ^ 64)) by ring. now rewrite Z.mod_add by discriminate.
Qed.
Lemma b2z_range b : 0 <= b2z b <= 1. Proof. destruct b; cbn; lia. Qed.
Lemma prop_i128_accum_mul r a b : words r -> is_i64 a -> is_i64 b -> exists r', s_i128_accum_mul r a b = Some r' /\ words r' /\
  uval r' = (ival r + a * b) mod 2 ^ 128 /\ (is_i128 (ival r + a * b) -> ival r' = ival r + a * b).
Proof.
  intros R A B. destruct (mul_ok a b A B) as (h & l & E & H & V). unfold s_i128_accum_mul. rewrite E. cbn [fst snd]. cbv zeta.
  rewrite i64_id by (pose proof (b2z_range (w64 (lo128 r + w64 l) <? w64 l)); unfold is_i64; change (2 ^ 62) with 4611686018427387904 in *; change (2 ^ 63) with 9223372036854775808; lia).
  eexists. split; [reflexivity|]. destruct (add_words r (w64 h) (w64 l) R (w64_range h) (w64_range l)) as [W U]. rewrite w64_add_w64l in W, U.
  rewrite mod128_hi, V in U. split; [exact W|]. assert (U2 : (uval r + a * b) mod 2 ^ 128 = (ival r + a * b) mod 2 ^ 128) by (rewrite (ival_mod r R); now rewrite Zplus_mod_idemp_l).
  rewrite U2 in U. split; [exact U|]. exact (ival_of _ _ W U).
Qed.
Lemma prop_i128_dissip_mul r a b : words r -> is_i64 a -> is_i64 b -> exists r', s_i128_dissip_mul r a b = Some r' /\ words r' /\
  uval r' = (ival r - a * b) mod 2 ^ 128 /\ (is_i128 (ival r - a * b) -> ival r' = ival r - a * b).
Proof.
  intros R A B. destruct (mul_ok a b A B) as (h & l & E & H & V). unfold s_i128_dissip_mul. rewrite E. cbn [fst snd]. cbv zeta.
  rewrite i64_id by (pose proof (b2z_range (lo128 r <? w64 l)); unfold is_i64; change (2 ^ 62) with 4611686018427387904 in *; change (2 ^ 63) with 9223372036854775808; lia).
  eexists. split; [reflexivity|]. destruct (sub_words r (w64 h) (w64 l) R (w64_range h) (w64_range l)) as [W U]. rewrite w64_add_w64l in W, U.
  rewrite mod128_hi_sub, V in U. split; [exact W|]. assert (U2 : (uval r - a * b) mod 2 ^ 128 = (ival r - a * b) mod 2 ^ 128) by (rewrite (ival_mod r R); now rewrite Zminus_mod_idemp_l).
  rewrite U2 in U. split; [exact U|]. exact (ival_of _ _ W U).
Qed.
Lemma prop_i128_det a b c d : is_i64 a -> is_i64 b -> is_i64 c -> is_i64 d -> exists r, s_i128_det a b c d = Some r /\ words r /\
  uval r = (a * d - b * c) mod 2 ^ 128 /\ (is_i128 (a * d - b * c) -> ival r = a * d - b * c).
Proof.
  intros A B C D. destruct (prop_i128_mul a d A D) as (r & E & W & V). unfold s_i128_det. rewrite E. destruct (prop_i128_dissip_mul r b c W B C) as (r' & E' & W' & U & I).
  rewrite V in U, I. exists r'. auto.
Qed.
Lemma prop_i128_rshift r k : words r -> 0 <= k < 128 -> words (s_i128_rshift r k) /\ ival (s_i128_rshift r k) = ival r / 2 ^ k.
Proof.
  intros R K. assert (W : words (s_i128_rshift r k)).
  { destruct R as [H L]. unfold s_i128_rshift. rewrite Z.geb_leb. destruct (Z.leb_spec 64 k) as [K1|K1]; [split; apply w64_range|]. rewrite Z.gtb_ltb. destruct (Z.ltb_spec 0 k) as [K2|K2]; [|split; assumption].
    split; cbn [hi128 lo128]; [apply w64_range|]. destruct (lor_shift (hi128 r) (lo128 r) k ltac:(lia) H L) as [-> Q]. exact Q. }
  split; [exact W|]. rewrite !ival_hi by assumption. destruct R as [H L]. pose proof (to_i64_range (hi128 r)) as T. unfold s_i128_rshift. rewrite Z.geb_leb.
  destruct (Z.leb_spec 64 k) as [K1|K1]; [|rewrite Z.gtb_ltb; destruct (Z.ltb_spec 0 k) as [K2|K2]]; cbn [hi128 lo128].
  - rewrite high_val by (lia || exact L). rewrite !shiftr_div by lia.
    assert (B : 0 < 2 ^ (k - 64)) by (apply Z.pow_pos_nonneg; lia). assert (B1 : 1 <= 2 ^ (k - 64)) by lia. set (m := 2 ^ (k - 64)) in *. clearbody m. set (t := to_i64 (hi128 r)) in *. clearbody t. unfold is_i64 in T.
    change (2 ^ 63) with 9223372036854775808 in *.
    assert (Q : - 9223372036854775808 <= t / m < 9223372036854775808) by (split; [apply Z.div_le_lower_bound; nia|apply Z.div_lt_upper_bound; nia]).
    assert (SG : t / 9223372036854775808 = if t <? 0 then -1 else 0).
    { destruct (Z.ltb_spec t 0); [symmetry; apply Z.div_unique with (r := t + 9223372036854775808); lia|apply Z.div_small; lia]. }
    assert (SM : t < 0 <-> t / m < 0). { split; intros X; [apply Z.div_lt_upper_bound; lia|]. destruct (Z_lt_le_dec t 0); [assumption|]. pose proof (Z.div_pos t m ltac:(lia) ltac:(lia)). lia. }
    rewrite SG. set (q := t / m) in *. clearbody q. destruct (Z.ltb_spec t 0) as [N|N].
    + change (to_i64 (w64 (-1))) with (-1). unfold w64. change (2 ^ 64) with 18446744073709551616. rewrite <- (Z.mod_add q 1) by discriminate. rewrite Z.mod_small by lia. lia.
    + change (to_i64 (w64 0)) with 0. rewrite w64_id; [lia|]. change (2 ^ 64) with 18446744073709551616. lia.
  - rewrite shift_val by (lia || exact L). destruct (lor_shift (hi128 r) (lo128 r) k ltac:(lia) H L) as [-> Q]. rewrite shiftr_div by lia.
    set (t := to_i64 (hi128 r)) in *. assert (TM : t mod 2 ^ k = hi128 r mod 2 ^ k).
    { assert (DV : (2 ^ k | 2 ^ 64)) by (exists (2 ^ (64 - k)); rewrite <- Z.pow_add_r by lia; f_equal; lia). subst t. unfold to_i64. rewrite (w64_id _ H). destruct (hi128 r <? 2 ^ 63); [reflexivity|].
      destruct DV as [z ->]. rewrite <- (Z.mod_add (hi128 r - z * 2 ^ k) z) by (apply Z.pow_nonzero; lia). f_equal. lia. }
    rewrite TM. f_equal. f_equal. rewrite to_i64_w64. apply to_i64_id.
    assert (B : 1 <= 2 ^ k) by (assert (0 < 2 ^ k) by (apply Z.pow_pos_nonneg; lia); lia). set (m := 2 ^ k) in *. clearbody m t. unfold is_i64 in *. change (2 ^ 63) with 9223372036854775808 in *.
    split; [apply Z.div_le_lower_bound; nia|apply Z.div_lt_upper_bound; nia].
  - assert (k = 0) by lia. subst k. now rewrite Z.div_1_r.
Qed.
Lemma prop_i128_parts r a hi lo : words r -> is_i64 a -> is_i64 hi -> is_u64 lo ->
  s_i128_to_u64 r = ival r mod 2 ^ 64 /\ (is_i64 (ival r) -> s_i128_to_i64 r = ival r) /\
  words (s_i128_from_i64 a) /\ ival (s_i128_from_i64 a) = a /\ words (s_i128_load hi lo) /\ ival (s_i128_load hi lo) = hi * 2 ^ 64 + lo.
Proof.
  intros R A H L. split; [|split; [|split; [|split; [|split]]]].
  - unfold s_i128_to_u64. rewrite ival_hi by assumption. rewrite Z.add_comm, Z.mod_add by discriminate. symmetry. apply Z.mod_small. exact (proj2 R).
  - intros I. unfold s_i128_to_i64, s_i128_to_u64. rewrite <- (to_i64_id (ival r) I). rewrite ival_hi by assumption.
    rewrite <- (to_i64_w64 (_ + _)). unfold w64. rewrite Z.add_comm, Z.mod_add by discriminate. fold (w64 (lo128 r)). now rewrite to_i64_w64.
  - split; apply w64_range.
  - rewrite ival_hi by (split; apply w64_range). unfold s_i128_from_i64. cbn [hi128 lo128]. rewrite to_i64_w64, shiftr_div by lia. unfold is_i64 in A. unfold w64. change (2 ^ 63) with 9223372036854775808 in *.
    assert (SG : a / 9223372036854775808 = if a <? 0 then -1 else 0).
    { destruct (Z.ltb_spec a 0); [symmetry; apply Z.div_unique with (r := a + 9223372036854775808); lia|apply Z.div_small; lia]. }
    rewrite SG. change (2 ^ 64) with 18446744073709551616. destruct (Z.ltb_spec a 0).
    + change (to_i64 (-1)) with (-1). rewrite <- (Z.mod_add a 1) by discriminate. rewrite Z.mod_small by lia. lia.
    + change (to_i64 0) with 0. rewrite Z.mod_small by lia. lia.
  - split; [apply w64_range|exact L].
  - rewrite ival_hi by (split; [apply w64_range|exact L]). cbn [s_i128_load hi128 lo128]. rewrite to_i64_w64. now rewrite (to_i64_id hi H).
Qed.
Lemma uval_eq r s : words r -> words s -> uval r = uval s -> r = s.
Proof.
  intros R S E. destruct (proj1 (uval_inj r (uval s) R (uval_range s S)) E) as [A B]. destruct (proj1 (uval_inj s (uval s) S (uval_range s S)) eq_refl) as [C D].
  destruct r as [h l], s as [h2 l2]. cbn in A, B, C, D. congruence.
Qed.
Lemma ival_eq r s : words r -> words s -> ival r = ival s -> r = s.
Proof. intros R S E. apply uval_eq; try assumption. rewrite (ival_mod r R), (ival_mod s S). now rewrite E. Qed.
Lemma eq_var_iff r s : s_i128_eq_var r s = true <-> r = s.
Proof. unfold s_i128_eq_var. rewrite andb_true_iff, !Z.eqb_eq. destruct r as [h l], s as [h2 l2]. cbn. split; [intros [-> ->]; reflexivity|]. intros E. injection E. auto. Qed.
Lemma prop_i128_eq r s : words r -> words s -> s_i128_eq_var r s = (ival r =? ival s).
Proof. intros R S. apply eq_true_iff_eq. rewrite eq_var_iff, Z.eqb_eq. split; [intros ->; reflexivity|now apply ival_eq]. Qed.
(** The two words of sign * 2^k. *)
Definition pow2_words (k sign : Z) : w128s :=
  if k >=? 64 then mkw (w64 (Z.shiftl (w64 sign) (k - 64))) 0 else mkw (w64 (Z.shiftr sign 1)) (w64 (Z.shiftl (w64 sign) k)).
Lemma w64_mul_l x y : w64 (w64 x * y) = w64 (x * y). Proof. unfold w64. now rewrite Zmult_mod_idemp_l. Qed.
Lemma pow2_words_ok k sign : 0 <= k < 127 -> sign = 1 \/ sign = -1 -> words (pow2_words k sign) /\ ival (pow2_words k sign) = sign * 2 ^ k.
Proof.
  intros K S. assert (I : is_i128 (sign * 2 ^ k)).
  { assert (0 < 2 ^ k) by (apply Z.pow_pos_nonneg; lia). assert (2 ^ k < 2 ^ 127) by (apply Z.pow_lt_mono_r; lia). unfold is_i128. destruct S as [-> | ->]; lia. }
  assert (W : words (pow2_words k sign)). { unfold pow2_words. destruct (k >=? 64); split; cbn [hi128 lo128]; try apply w64_range. split; [lia|reflexivity]. }
  split; [exact W|]. apply ival_of; [exact W| |exact I]. unfold uval, pow2_words. rewrite Z.geb_leb. destruct (Z.leb_spec 64 k) as [K1|K1]; cbn [hi128 lo128]; rewrite !Z.shiftl_mul_pow2 by lia; rewrite w64_mul_l.
  - rewrite Z.add_0_r. unfold w64. rewrite <- Zmult_mod_distr_r. change (2 ^ 64 * 2 ^ 64) with (2 ^ 128). f_equal. rewrite <- Z.mul_assoc, <- Z.pow_add_r by lia. f_equal. f_equal. lia.
  - assert (P : 0 < 2 ^ k) by (apply Z.pow_pos_nonneg; lia). assert (Q : 2 ^ k < 2 ^ 64) by (apply Z.pow_lt_mono_r; lia). set (m := 2 ^ k) in *. clearbody m. destruct S as [-> | ->].
    + change (w64 (Z.shiftr 1 1)) with 0. rewrite !Z.mul_1_l, w64_id by lia. symmetry. apply Z.mod_small. change (2 ^ 128) with (2 ^ 64 * 2 ^ 64). change (2 ^ 64) with 18446744073709551616 in *. lia.
    + change (w64 (Z.shiftr (-1) 1)) with 18446744073709551615. unfold w64. rewrite <- (Z.mod_add _ 1 (2 ^ 64)), <- (Z.mod_add (-1 * m) 1 (2 ^ 128)) by discriminate.
      change (2 ^ 128) with 340282366920938463463374607431768211456. change (2 ^ 64) with 18446744073709551616 in *. rewrite !Z.mod_small by lia. lia.
Qed.
Lemma prop_i128_check_pow2 r k sign : words r -> 0 <= k < 127 -> sign = 1 \/ sign = -1 -> s_i128_check_pow2 r k sign = (ival r =? sign * 2 ^ k).
Proof.
  intros R K S. destruct (pow2_words_ok k sign K S) as [W <-]. rewrite <- prop_i128_eq by assumption. unfold s_i128_check_pow2, s_i128_eq_var, pow2_words. destruct (k >=? 64); reflexivity.
Qed.

(** ** Agreement with the native type as modelled for the field and scalar code *)
Lemma prop_native r a b k : words r -> is_u64 a -> is_u64 b -> 0 <= k < 128 ->
  uval (s_u128_mul a b) = u128_mul a b /\ uval (s_u128_accum_mul r a b) = u128_accum_mul (uval r) a b /\ uval (s_u128_accum_u64 r a) = u128_accum_u64 (uval r) a /\
  uval (s_u128_rshift r k) = u128_rshift (uval r) k /\ s_u128_to_u64 r = u128_to_u64 (uval r).
Proof.
  intros R A B K. split; [|split; [|split; [|split]]].
  - rewrite (proj2 (prop_u128_mul a b A B)). symmetry. apply w128_id. unfold is_u64 in *. pose proof (prod_bound a b (2 ^ 64 - 1) (2 ^ 64 - 1) ltac:(lia) ltac:(lia)). change (2 ^ 128) with (2 ^ 64 * 2 ^ 64). change (2 ^ 64) with 18446744073709551616 in *. lia.
  - exact (proj2 (prop_u128_accum_mul r a b R A B)).
  - exact (proj2 (prop_u128_accum_u64 r a R A)).
  - rewrite (proj2 (prop_u128_rshift r k R K)). symmetry. apply shiftr_div. lia.
  - exact (proj1 (prop_u128_parts r a R A)).
Qed.
