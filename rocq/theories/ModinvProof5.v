(** Inverses of scalars and field elements: conversions and the link to the specification. *)
Require Import ZArith Lia List Bool Znumtheory.
From Verif Require Import Word Spec ZmField Primes FieldModel ScalarModel Int128Model SpecWords Int128Proof FieldMul FieldProof FieldProof2 FieldOps ScalarProof ScalarProof2
  ModinvModel Safegcd SafegcdBound ModinvProof ModinvProof2 ModinvProof3 ModinvProof4.
Import ListNotations.
Local Open Scope Z_scope.

(** ** Repacking of limbs *)
Lemma w64_shl_mod y s : 0 <= s <= 64 -> w64 (Z.shiftl y s) = 2 ^ s * (y mod 2 ^ (64 - s)).
Proof.
  intros Hs. rewrite Z.shiftl_mul_pow2 by lia. unfold w64.
  replace (2 ^ 64) with (2 ^ (64 - s) * 2 ^ s) by (rewrite <- Z.pow_add_r by lia; f_equal; lia).
  rewrite Z.mul_mod_distr_r; [ring|apply Z.pow_nonzero; lia|apply Z.pow_nonzero; lia].
Qed.
Lemma lor_mul a b s : 0 <= s -> 0 <= a < 2 ^ s -> 0 <= b -> Z.lor a (2 ^ s * b) = a + 2 ^ s * b.
Proof.
  intros Hs Ha Hb.
  assert (L0 : Z.land a (2 ^ s * b) = 0).
  { apply Z.bits_inj'. intros j Hj. rewrite Z.land_spec, testbit_pow2_mul, Z.bits_0 by lia.
    destruct (Z.leb_spec s j); [|now rewrite andb_false_r].
    assert (T : Z.testbit a j = false); [|now rewrite T].
    apply Z.testbit_false; [lia|]. rewrite Z.div_small; [reflexivity|]. pose proof (Z.pow_le_mono_r 2 s j). lia. }
  rewrite <- Z.lxor_lor by exact L0. symmetry. now apply Z.add_nocarry_lxor.
Qed.
Lemma join64 a y s : 0 <= s <= 64 -> 0 <= a < 2 ^ s -> Z.lor a (w64 (Z.shiftl y s)) = a + 2 ^ s * (y mod 2 ^ (64 - s)).
Proof. intros Hs Ha. rewrite w64_shl_mod by lia. apply lor_mul; [lia|exact Ha|apply Z.mod_pos_bound, Z.pow_pos_nonneg; lia]. Qed.
Lemma mod_mod_pow y a b : 0 <= b <= a -> (y mod 2 ^ a) mod 2 ^ b = y mod 2 ^ b.
Proof.
  intros H. replace (2 ^ a) with (2 ^ b * 2 ^ (a - b)) by (rewrite <- Z.pow_add_r by lia; f_equal; lia).
  rewrite Z.rem_mul_r by (try apply Z.pow_nonzero; try apply Z.pow_pos_nonneg; lia).
  rewrite Z.mul_comm, Z.mod_add by (apply Z.pow_nonzero; lia). apply Z.mod_mod, Z.pow_nonzero; lia.
Qed.
Lemma joinc a y s c : 0 <= s <= c -> c <= 64 -> 0 <= a < 2 ^ s ->
  Z.land (Z.lor a (w64 (Z.shiftl y s))) (2 ^ c - 1) = a + 2 ^ s * (y mod 2 ^ (c - s)).
Proof.
  intros Hs Hc Ha. rewrite join64 by lia. replace (2 ^ c - 1) with (Z.ones c) by (rewrite Z.ones_equiv; lia).
  rewrite Z.land_ones by lia.
  assert (P : 0 < 2 ^ s) by (apply Z.pow_pos_nonneg; lia). assert (Pc : 0 < 2 ^ (c - s)) by (apply Z.pow_pos_nonneg; lia).
  replace (2 ^ c) with (2 ^ s * 2 ^ (c - s)) by (rewrite <- Z.pow_add_r by lia; f_equal; lia).
  rewrite Z.rem_mul_r by lia. rewrite (Z.mul_comm (2 ^ s)), Z.mod_add, Z.div_add by lia.
  rewrite Z.mod_small, (Z.div_small a) by lia. rewrite Z.add_0_l, mod_mod_pow by lia. ring.
Qed.
Lemma mask_c a c : 0 <= c -> Z.land a (2 ^ c - 1) = a mod 2 ^ c.
Proof. intros H. replace (2 ^ c - 1) with (Z.ones c) by (rewrite Z.ones_equiv; lia). now apply Z.land_ones. Qed.
Lemma div_range a k b : 0 <= a < 2 ^ b -> 0 <= k <= b -> 0 <= a / 2 ^ k < 2 ^ (b - k).
Proof.
  intros Ha Hk. split; [apply Z.div_pos; [lia|apply Z.pow_pos_nonneg; lia]|].
  apply Z.div_lt_upper_bound; [apply Z.pow_pos_nonneg; lia|]. rewrite <- Z.pow_add_r by lia. replace (k + (b - k)) with b by lia. lia.
Qed.
Ltac dm a k := let H := fresh "DM" in pose proof (Z.div_mod a (2 ^ k) ltac:(lia)) as H;
  pose proof (Z.mod_pos_bound a (2 ^ k) ltac:(lia)).

Definition limbs62 (v : Z) (l : list Z) : Prop := length l = 5%nat /\ canon l /\ small (2 ^ 62) l /\ lval l = v.

Lemma limbs62_intro a0 a1 a2 a3 a4 v : 0 <= a0 < 2 ^ 62 -> 0 <= a1 < 2 ^ 62 -> 0 <= a2 < 2 ^ 62 -> 0 <= a3 < 2 ^ 62 -> 0 <= a4 < 2 ^ 62 ->
  a0 + 2 ^ 62 * a1 + 2 ^ 124 * a2 + 2 ^ 186 * a3 + 2 ^ 248 * a4 = v ->
  limbs62 v [to_i64 a0; to_i64 a1; to_i64 a2; to_i64 a3; to_i64 a4].
Proof.
  intros H0 H1 H2 H3 H4 E. rewrite !to_i64_id by (unfold is_i64; lia). split; [reflexivity|]. split; [cbn; lia|]. split.
  - repeat constructor; lia.
  - cbn [lval]. rewrite <- E. ring.
Qed.

Lemma scalar_to_ok x : sc_lim x -> limbs62 (sv x) (scalar_to_signed62 x).
Proof.
  intros (W0 & W1 & W2 & W3). destruct x as [x0 x1 x2 x3]. cbn [d0 d1 d2 d3] in *. unfold wd in *.
  unfold scalar_to_signed62, M62. cbn [d0 d1 d2 d3]. rewrite !shiftr_div by lia.
  pose proof (div_range x0 62 64 W0 ltac:(lia)) as R0. pose proof (div_range x1 60 64 W1 ltac:(lia)) as R1.
  pose proof (div_range x2 58 64 W2 ltac:(lia)) as R2. pose proof (div_range x3 56 64 W3 ltac:(lia)) as R3.
  change (64 - 62) with 2 in *. change (64 - 60) with 4 in *. change (64 - 58) with 6 in *. change (64 - 56) with 8 in *.
  rewrite !joinc by lia. rewrite mask_c by lia.
  change (62 - 2) with 60. change (62 - 4) with 58. change (62 - 6) with 56.
  dm x0 62. dm x1 60. dm x2 58. dm x3 56.
  apply limbs62_intro; try lia.
  unfold sv. cbn [d0 d1 d2 d3]. lia.
Qed.

Lemma scalar_from_ok l v : limbs62 v l -> 0 <= v < 2 ^ 256 -> sc_lim (scalar_from_signed62 l) /\ sv (scalar_from_signed62 l) = v.
Proof.
  intros (Ll & Cl & Sl & Vl) Hv. destruct (canon5 l Ll Cl) as (a0 & a1 & a2 & a3 & a4 & -> & A0 & A1 & A2 & A3).
  assert (A4 : 0 <= a4 < 2 ^ 8) by (cbn [lval] in Vl; lia).
  unfold scalar_from_signed62, lm. cbn [nth]. rewrite (w64_id a0), (w64_id a1), (w64_id a2), (w64_id a3), (w64_id a4) by (split; lia). rewrite !shiftr_div by lia.
  pose proof (div_range a1 2 62 A1 ltac:(lia)) as R1. pose proof (div_range a2 4 62 A2 ltac:(lia)) as R2. pose proof (div_range a3 6 62 A3 ltac:(lia)) as R3.
  change (62 - 2) with 60 in *. change (62 - 4) with 58 in *. change (62 - 6) with 56 in *.
  rewrite !join64 by lia. change (64 - 62) with 2. change (64 - 60) with 4. change (64 - 58) with 6. change (64 - 56) with 8.
  dm a1 2. dm a2 4. dm a3 6. rewrite (Z.mod_small a4) by lia.
  cbn [lval] in Vl. unfold sc_lim, wd, sv. cbn [d0 d1 d2 d3]. repeat split; lia.
Qed.

Lemma fe_to_ok x : fe_norm x -> limbs62 (fval x) (fe_to_signed62 x).
Proof.
  intros (W0 & W1 & W2 & W3 & W4 & Wp). destruct x as [x0 x1 x2 x3 x4]. cbn [n0 n1 n2 n3 n4] in *.
  change M52 with (2 ^ 52 - 1) in *. change M48 with (2 ^ 48 - 1) in *.
  unfold fe_to_signed62, M62. cbn [n0 n1 n2 n3 n4]. rewrite !shiftr_div by lia.
  pose proof (div_range x1 10 52 ltac:(lia) ltac:(lia)) as R1. pose proof (div_range x2 20 52 ltac:(lia) ltac:(lia)) as R2.
  pose proof (div_range x3 30 52 ltac:(lia) ltac:(lia)) as R3. pose proof (div_range x4 40 48 ltac:(lia) ltac:(lia)) as R4.
  change (52 - 10) with 42 in *. change (52 - 20) with 32 in *. change (52 - 30) with 22 in *. change (48 - 40) with 8 in *.
  rewrite !joinc by lia. change (62 - 52) with 10. change (62 - 42) with 20. change (62 - 32) with 30. change (62 - 22) with 40.
  dm x1 10. dm x2 20. dm x3 30. dm x4 40.
  apply limbs62_intro; try lia.
  unfold fval. cbn [n0 n1 n2 n3 n4]. lia.
Qed.

Lemma fe_from_ok l v : limbs62 v l -> 0 <= v < p -> fe_norm (fe_from_signed62 l) /\ fval (fe_from_signed62 l) = v.
Proof.
  intros (Ll & Cl & Sl & Vl) Hv. destruct (canon5 l Ll Cl) as (a0 & a1 & a2 & a3 & a4 & -> & A0 & A1 & A2 & A3).
  assert (Hp : p < 2 ^ 256) by reflexivity.
  assert (A4 : 0 <= a4 < 2 ^ 8) by (cbn [lval] in Vl; lia).
  unfold fe_from_signed62, lm. cbn [nth]. rewrite (w64_id a0), (w64_id a1), (w64_id a2), (w64_id a3), (w64_id a4) by (split; lia). rewrite !shiftr_div by lia.
  pose proof (div_range a0 52 62 A0 ltac:(lia)) as R0. pose proof (div_range a1 42 62 A1 ltac:(lia)) as R1.
  pose proof (div_range a2 32 62 A2 ltac:(lia)) as R2. pose proof (div_range a3 22 62 A3 ltac:(lia)) as R3.
  change (62 - 52) with 10 in *. change (62 - 42) with 20 in *. change (62 - 32) with 30 in *. change (62 - 22) with 40 in *.
  change M52 with (2 ^ 52 - 1). rewrite !joinc by lia. rewrite mask_c by lia. rewrite join64 by lia.
  change (52 - 10) with 42. change (52 - 20) with 32. change (52 - 30) with 22. change (64 - 40) with 24.
  dm a0 52. dm a1 42. dm a2 32. dm a3 22. rewrite (Z.mod_small a4) by lia.
  cbn [lval] in Vl.
  assert (V : fval (mkfe (a0 mod 2 ^ 52) (a0 / 2 ^ 52 + 2 ^ 10 * (a1 mod 2 ^ 42)) (a1 / 2 ^ 42 + 2 ^ 20 * (a2 mod 2 ^ 32)) (a2 / 2 ^ 32 + 2 ^ 30 * (a3 mod 2 ^ 22)) (a3 / 2 ^ 22 + 2 ^ 40 * a4)) = v).
  { unfold fval. cbn [n0 n1 n2 n3 n4]. lia. }
  split; [|exact V]. unfold fe_norm. rewrite V. cbn [n0 n1 n2 n3 n4]. change M52 with (2 ^ 52 - 1). change M48 with (2 ^ 48 - 1).
  repeat split; lia.
Qed.

(** ** The two moduli *)
Lemma mod_ok_scalar : mod_ok modinfo_scalar n.
Proof.
  unfold mod_ok. refine (conj eq_refl (conj _ (conj _ (conj _ (conj _ (conj _ (conj _ _))))))).
  - repeat constructor; lia.
  - reflexivity.
  - cbn. lia.
  - unfold word. cbn [modulus_inv62 modinfo_scalar]. lia.
  - reflexivity.
  - split; vm_compute; discriminate.
  - reflexivity.
Qed.
Lemma mod_ok_fe : mod_ok modinfo_fe p.
Proof.
  unfold mod_ok. refine (conj eq_refl (conj _ (conj _ (conj _ (conj _ (conj _ (conj _ _))))))).
  - repeat constructor; lia.
  - reflexivity.
  - cbn. lia.
  - unfold word. cbn [modulus_inv62 modinfo_fe]. lia.
  - reflexivity.
  - split; vm_compute; discriminate.
  - reflexivity.
Qed.

Lemma prime_gcd m x : prime m -> 0 < x < m -> Z.gcd m x = 1.
Proof.
  intros Pm Hx. apply Zgcd_1_rel_prime. apply prime_rel_prime; [exact Pm|].
  intros D. apply Z.divide_pos_le in D; lia.
Qed.

Lemma inv_mod_0 m : 2 < m -> inv_mod 0 m = 0.
Proof. intros H. unfold inv_mod. rewrite pow_mod_correct by lia. rewrite Z.pow_0_l by lia. reflexivity. Qed.

Lemma inverse_unique m x r : prime m -> 2 < m -> 0 <= x < m -> inverse_of m x r -> r = inv_mod x m.
Proof.
  intros Pm Hm Hx (Rr & R0 & R1). pose proof (inv_mod_range x m ltac:(lia)) as Ri.
  destruct (Z.eq_dec x 0) as [->|NZ].
  - rewrite R0 by reflexivity. now rewrite inv_mod_0.
  - specialize (R1 (prime_gcd m x Pm ltac:(lia))).
    pose proof (inv_mod_correct x m Pm ltac:(rewrite Z.mod_small by lia; exact NZ)) as C.
    assert (D : (m | x * (r - inv_mod x m))).
    { apply Z.mod_divide; [lia|]. replace (x * (r - inv_mod x m)) with (r * x - inv_mod x m * x) by ring.
      rewrite Zminus_mod, R1, C. reflexivity. }
    apply Gauss in D; [|apply Zgcd_1_rel_prime, prime_gcd; [exact Pm|lia]].
    destruct D as [q Hq]. assert (q = 0) by nia. lia.
Qed.

Lemma p_gt2 : 2 < p. Proof. reflexivity. Qed.
Lemma n_gt2 : 2 < n. Proof. reflexivity. Qed.

Lemma from_list v l : length l = 5%nat -> canon l -> lval l = v -> 0 <= v < 2 ^ 256 -> limbs62 v l.
Proof.
  intros Ll Cl Vl Hv. split; [exact Ll|]. split; [exact Cl|]. split; [|exact Vl]. apply canon_small; [exact Cl|].
  apply canon_last; [exact Cl|]. rewrite Ll. change (62 * Z.of_nat 5) with 310. lia.
Qed.

(** ** Scalars *)
Definition scalar_inv_ok (x r : sc) : Prop :=
  sc_ok r /\ (sv x = 0 -> sv r = 0) /\ (sv x <> 0 -> (sv r * sv x) mod n = 1).

Lemma scalar_finish x o : sc_ok x -> length o = 5%nat -> canon o -> inverse_of n (sv x) (lval o) ->
  scalar_from_signed62 o = sc_inverse x.
Proof.
  intros [Lx Rx] Lo Co Io. assert (Hn : n < 2 ^ 256) by reflexivity. pose proof (sc_lim_range x Lx) as R0.
  pose proof (inverse_unique n (sv x) (lval o) prime_n n_gt2 ltac:(lia) Io) as E.
  destruct Io as (Ro & _ & _).
  destruct (scalar_from_ok o (lval o) (from_list _ o Lo Co eq_refl ltac:(lia)) ltac:(lia)) as [S1 S2].
  destruct (sc_inverse_ok x) as [T1 T2]. apply sc_ok_inj; [split; [exact S1|lia]|exact T1|]. rewrite S2, T2. exact E.
Qed.

Theorem scalar_inverse_ok x : sc_ok x -> scalar_inverse x = Some (sc_inverse x).
Proof.
  intros Hx. assert (Hx' := Hx). destruct Hx' as [Lx Rx]. pose proof (sc_lim_range x Lx) as R0.
  destruct (scalar_to_ok x Lx) as (T1 & _ & T3 & T4).
  destruct (modinv64_ok (scalar_to_signed62 x) modinfo_scalar n mod_ok_scalar (conj T1 T3)) as (o & E & Lo & Co & Io); [rewrite T4; lia|].
  rewrite T4 in Io. unfold scalar_inverse. rewrite E. f_equal. now apply scalar_finish.
Qed.
Theorem scalar_inverse_var_ok fuel x : (12 <= fuel)%nat -> sc_ok x -> scalar_inverse_var fuel x = Some (sc_inverse x).
Proof.
  intros Hf Hx. assert (Hx' := Hx). destruct Hx' as [Lx Rx]. pose proof (sc_lim_range x Lx) as R0.
  destruct (scalar_to_ok x Lx) as (T1 & _ & T3 & T4).
  destruct (modinv64_var_ok fuel (scalar_to_signed62 x) modinfo_scalar n Hf mod_ok_scalar (conj T1 T3)) as (o & E & Lo & Co & Io); [rewrite T4; lia|].
  rewrite T4 in Io. unfold scalar_inverse_var. rewrite E. f_equal. now apply scalar_finish.
Qed.

(** ** Field elements *)
Lemma fe_finish x o : 0 <= x < p -> length o = 5%nat -> canon o -> inverse_of p x (lval o) ->
  fe_from_signed62 o = fe_of_Z (inv_mod x p).
Proof.
  intros Rx Lo Co Io. assert (Hp : p < 2 ^ 256) by reflexivity.
  pose proof (inverse_unique p x (lval o) prime_p p_gt2 Rx Io) as E.
  destruct Io as (Ro & _ & _).
  destruct (fe_from_ok o (lval o) (from_list _ o Lo Co eq_refl ltac:(lia)) Ro) as [S1 S2].
  destruct (fe_of_Z_ok (inv_mod x p)) as [T1 T2]; [apply inv_mod_range; reflexivity|].
  apply fe_norm_inj; [exact S1|exact T1|]. rewrite S2, T2. exact E.
Qed.
Lemma fe_norm_range x : fe_norm x -> 0 <= fval x < p.
Proof. intros (A & B & C & D & E & H). split; [unfold fval; lia|exact H]. Qed.

Theorem fe_impl_inv_ok x : fe_mag 32 x -> fe_impl_inv x = Some (fe_inv x).
Proof.
  intros Hx. destruct (fe_normalize_ok x Hx) as [Nx _].
  destruct (fe_to_ok _ Nx) as (T1 & _ & T3 & T4).
  destruct (modinv64_ok (fe_to_signed62 (fe_normalize x)) modinfo_fe p mod_ok_fe (conj T1 T3)) as (o & E & Lo & Co & Io); [rewrite T4; now apply fe_norm_range|].
  rewrite T4 in Io. unfold fe_impl_inv. rewrite E. f_equal. unfold fe_inv. apply fe_finish; [now apply fe_norm_range|assumption..].
Qed.
Theorem fe_impl_inv_var_ok fuel x : (12 <= fuel)%nat -> fe_mag 32 x -> fe_impl_inv_var fuel x = Some (fe_inv_var x).
Proof.
  intros Hf Hx. destruct (fe_normalize_ok x Hx) as [Nx _]. rewrite <- (fe_normalize_var_eq x Hx) in Nx.
  destruct (fe_to_ok _ Nx) as (T1 & _ & T3 & T4).
  destruct (modinv64_var_ok fuel (fe_to_signed62 (fe_normalize_var x)) modinfo_fe p Hf mod_ok_fe (conj T1 T3)) as (o & E & Lo & Co & Io); [rewrite T4; now apply fe_norm_range|].
  rewrite T4 in Io. unfold fe_impl_inv_var. rewrite E. f_equal. unfold fe_inv_var. apply fe_finish; [now apply fe_norm_range|assumption..].
Qed.

(** ** Properties *)
Theorem scalar_inverse_exact x : sc_ok x ->
  exists r, scalar_inverse x = Some r /\ scalar_inv_ok x r /\ forall fuel, (12 <= fuel)%nat -> scalar_inverse_var fuel x = Some r.
Proof.
  intros Hx. exists (sc_inverse x). split; [now apply scalar_inverse_ok|].
  split; [|intros; now apply scalar_inverse_var_ok].
  destruct (sc_inverse_ok x) as [T1 T2]. assert (Hx' := Hx). destruct Hx' as [Lx Rx]. pose proof (sc_lim_range x Lx) as R0.
  split; [exact T1|]. rewrite T2. split.
  - intros ->. apply inv_mod_0, n_gt2.
  - intros NZ. apply inv_mod_correct; [exact prime_n|]. rewrite Z.mod_small by lia. exact NZ.
Qed.

Theorem field_inverse_exact x : fe_mag 32 x ->
  exists r, fe_impl_inv x = Some r /\ fe_norm r /\ (fval x mod p = 0 -> fval r = 0) /\
    (fval x mod p <> 0 -> (fval r * fval x) mod p = 1) /\
    forall fuel, (12 <= fuel)%nat -> fe_impl_inv_var fuel x = Some r.
Proof.
  intros Hx. exists (fe_inv x). split; [now apply fe_impl_inv_ok|]. split; [apply fe_inv_norm|].
  destruct (fe_normalize_ok x Hx) as [Nx Vx].
  destruct (fe_of_Z_ok (inv_mod (fval (fe_normalize x)) p)) as [T1 T2]; [apply inv_mod_range; reflexivity|].
  unfold fe_inv at 1 2. rewrite T2, Vx. split; [|split].
  - intros ->. apply inv_mod_0, p_gt2.
  - intros NZ. rewrite <- Zmult_mod_idemp_r. apply inv_mod_correct; [exact prime_p|]. rewrite Zmod_mod. exact NZ.
  - intros fuel Hf. rewrite fe_impl_inv_var_ok by assumption. f_equal. now apply fe_inv_var_eq.
Qed.

(** ** The trailing zero tables *)
Lemma pos_land_opp x : Z.land (Zpos x) (- Zpos x) = 2 ^ ctz_pos x.
Proof.
  induction x as [x IH|x IH|].
  - cbn [ctz_pos]. apply Z.bits_inj'. intros j Hj. rewrite Z.land_spec. change (2 ^ 0) with 1.
    replace (- Zpos x~1) with (Z.lnot (Zpos x~1 - 1)) by (unfold Z.lnot; lia).
    rewrite Z.lnot_spec by lia. change (Zpos x~1 - 1) with (2 * Zpos x). change (Zpos x~1) with (2 * Zpos x + 1).
    destruct (Z.eq_dec j 0) as [->|N].
    + rewrite Z.testbit_odd_0, Z.testbit_even_0. reflexivity.
    + replace j with (Z.succ (j - 1)) by lia. rewrite Z.testbit_odd_succ, Z.testbit_even_succ by lia.
      rewrite andb_negb_r. symmetry. apply Z.bits_above_log2; [lia|]. change (Z.log2 1) with 0. lia.
  - cbn [ctz_pos]. destruct (ctz_pos_spec x) as [Hk _]. rewrite Z.pow_add_r by lia. change (2 ^ 1) with 2. rewrite <- IH.
    change (Zpos x~0) with (2 * Zpos x). replace (- (2 * Zpos x)) with (2 * - Zpos x) by ring.
    apply Z.bits_inj'. intros j Hj. rewrite Z.land_spec. destruct (Z.eq_dec j 0) as [->|N].
    + rewrite !Z.testbit_even_0. reflexivity.
    + replace j with (Z.succ (j - 1)) by lia. rewrite !Z.testbit_even_succ by lia. now rewrite Z.land_spec.
  - reflexivity.
Qed.

Lemma word_low_bit W x : 0 < W -> 0 < x < 2 ^ W -> exists k, ctz64 x = Some k /\ 0 <= k < W /\ Z.land x ((- x) mod 2 ^ W) = 2 ^ k.
Proof.
  intros HW Hx. destruct x as [|x|x]; [lia| |lia]. exists (ctz_pos x). split; [reflexivity|].
  destruct (ctz_pos_spec x) as (Hk & y & Oy & Ey).
  assert (Hy : 1 <= y). { destruct (Z.leb_spec 1 y); [assumption|]. pose proof (Z.pow_pos_nonneg 2 (ctz_pos x)). nia. }
  assert (HkW : ctz_pos x < W).
  { apply (Z.pow_lt_mono_r_iff 2); [lia|lia|]. pose proof (Z.pow_pos_nonneg 2 (ctz_pos x)). nia. }
  split; [lia|]. rewrite <- Z.land_ones by lia. rewrite Z.land_assoc, pos_land_opp.
  rewrite Z.land_ones by lia. apply Z.mod_small. split; [apply Z.pow_nonneg; lia|]. apply Z.pow_lt_mono_r; lia.
Qed.

Definition table_ok (f : Z -> option Z) (W : nat) : bool :=
  forallb (fun k => match f (2 ^ Z.of_nat k) with Some v => v =? Z.of_nat k | None => false end) (seq 0 W).
Lemma table_use f W k : table_ok f W = true -> 0 <= k < Z.of_nat W -> f (2 ^ k) = Some k.
Proof.
  intros H Hk. unfold table_ok in H. rewrite forallb_forall in H. specialize (H (Z.to_nat k) ltac:(apply in_seq; lia)).
  rewrite Z2Nat.id in H by lia. destruct (f (2 ^ k)) as [v|]; [|discriminate]. apply Z.eqb_eq in H. now subst.
Qed.

Theorem ctz64_debruijn_ok x : 0 < x < 2 ^ 64 -> ctz64_debruijn x = ctz64 x.
Proof.
  intros Hx. destruct (word_low_bit 64 x ltac:(lia) Hx) as (k & E & Hk & L). rewrite E. unfold ctz64_debruijn, w64 at 2. rewrite L.
  exact (table_use (fun y => nth_error debruijn (Z.to_nat (Z.shiftr (w64 (y * 0x022FDD63CC95386D)) 58))) 64 k eq_refl Hk).
Qed.
Theorem ctz32_debruijn_ok x : 0 < x < 2 ^ 32 -> ctz32_debruijn x = ctz64 x.
Proof.
  intros Hx. destruct (word_low_bit 32 x ltac:(lia) Hx) as (k & E & Hk & L). rewrite E. unfold ctz32_debruijn, w32 at 2. rewrite L.
  exact (table_use (fun y => nth_error debruijn32 (Z.to_nat (Z.shiftr (w32 (y * 0x04D7651F)) 27))) 32 k eq_refl Hk).
Qed.
Theorem ctz64_spec x k : 0 < x -> (ctz64 x = Some k <-> 0 <= k /\ (2 ^ k | x) /\ ~ (2 ^ (k + 1) | x)).
Proof.
  intros Hx. destruct x as [|x|x]; [lia| |lia]. cbn [ctz64]. destruct (ctz_pos_spec x) as (Hk & y & Oy & Ey). set (c := ctz_pos x) in *.
  assert (A : (2 ^ c | Zpos x)) by (exists y; rewrite Ey; ring).
  assert (B : ~ (2 ^ (c + 1) | Zpos x)).
  { intros [q Hq]. rewrite Ey, Z.pow_add_r, Z.pow_1_r in Hq by lia. assert (y = q * 2).
    { apply (Z.mul_reg_l _ _ (2 ^ c)); [apply Z.pow_nonzero; lia|]. rewrite Hq. ring. }
    subst y. rewrite Z.odd_mul, andb_comm in Oy. discriminate. }
  split.
  - intros E. injection E as <-. auto.
  - intros (K0 & K1 & K2). f_equal. destruct (Z.lt_trichotomy c k) as [L|[E|L]]; [|exact E|].
    + exfalso. apply B. eapply Z.divide_trans; [|exact K1]. exists (2 ^ (k - (c + 1))). rewrite <- Z.pow_add_r by lia. f_equal. lia.
    + exfalso. apply K2. eapply Z.divide_trans; [|exact A]. exists (2 ^ (c - (k + 1))). rewrite <- Z.pow_add_r by lia. f_equal. lia.
Qed.
