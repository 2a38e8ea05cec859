(** Linear operations, inverse, square root and constants of the field model. *)
Require Import ZArith List Bool Lia Znumtheory Zpow_facts.
From Verif Require Import Word Spec Bytes ZmField Curve FieldModel FieldMul FieldProof FieldProof2 NumTheory Primes.
Import ListNotations.
Local Open Scope Z_scope.

Lemma mag_limit m a : fe_mag m a -> 0 <= m <= 32 -> 
  0 <= n0 a <= 64 * M52 /\ 0 <= n1 a <= 64 * M52 /\ 0 <= n2 a <= 64 * M52 /\ 0 <= n3 a <= 64 * M52 /\ 0 <= n4 a <= 64 * M48.
Proof. unfold fe_mag. fconst. intros. lia. Qed.

Lemma fe_add_ok m k a b : fe_mag m a -> fe_mag k b -> 0 <= m -> 0 <= k -> m + k <= 32 ->
  fe_mag (m + k) (fe_add a b) /\ fval (fe_add a b) = fval a + fval b.
Proof.
  intros (A0 & A1 & A2 & A3 & A4) (B0 & B1 & B2 & B3 & B4) Hm Hk Hs.
  unfold fe_add. rewrite !w64_id; try (clear -A0 A1 A2 A3 A4 B0 B1 B2 B3 B4 Hm Hk Hs; fconst; lia).
  unfold fe_mag, fval. cbn [n0 n1 n2 n3 n4]. split; [|ring].
  clear -A0 A1 A2 A3 A4 B0 B1 B2 B3 B4. lia.
Qed.
Lemma fe_add_mag m k a b : fe_mag m a -> fe_mag k b -> 0 <= m -> 0 <= k -> m + k <= 32 -> fe_mag (m + k) (fe_add a b).
Proof. intros. now apply fe_add_ok. Qed.
Lemma fe_add_fv m k a b : fe_mag m a -> fe_mag k b -> 0 <= m -> 0 <= k -> m + k <= 32 -> fv (fe_add a b) = (fv a + fv b)%F.
Proof. intros. unfold fv. rewrite (proj2 (fe_add_ok m k a b ltac:(assumption) ltac:(assumption) ltac:(assumption) ltac:(assumption) ltac:(assumption))). apply toF_add. Qed.

Lemma fe_add_int_ok m k a : fe_mag m a -> 0 <= k <= 0x7FFF -> 0 <= m <= 31 ->
  fe_mag (m + 1) (fe_add_int a k) /\ fval (fe_add_int a k) = fval a + k.
Proof.
  intros (A0 & A1 & A2 & A3 & A4) Hk Hm. unfold fe_add_int.
  rewrite !w64_id by (clear -A0 Hm Hk; fconst; lia).
  unfold fe_mag, fval. cbn [n0 n1 n2 n3 n4]. split; [|ring].
  clear -A0 A1 A2 A3 A4 Hk. fconst. lia.
Qed.
Lemma fe_add_int_mag m k a : fe_mag m a -> 0 <= k <= 0x7FFF -> 0 <= m <= 31 -> fe_mag (m + 1) (fe_add_int a k).
Proof. intros. now apply fe_add_int_ok. Qed.
Lemma fe_add_int_fv m k a : fe_mag m a -> 0 <= k <= 0x7FFF -> 0 <= m <= 31 -> fv (fe_add_int a k) = (fv a + toF k)%F.
Proof. intros H1 H2 H3. unfold fv. rewrite (proj2 (fe_add_int_ok m k a H1 H2 H3)). apply toF_add. Qed.

Lemma neg_word C m x K : 0 <= C < 2 ^ 52 -> 0 <= m <= 31 -> 0 <= x <= 2 * m * K -> K + 2 ^ 40 >= C -> m * K <= (m + 1) * C -> 
  w64 (w64 (w64 (C * 2) * (m + 1)) - x) = C * 2 * (m + 1) - x.
Proof.
  intros HC Hm Hx HK HM. 
  assert (0 <= C * 2 < 2 ^ 53) by lia.
  assert (0 <= C * 2 * (m + 1) <= 2 ^ 53 * 32) by nia.
  rewrite (w64_id (C * 2)) by lia. rewrite (w64_id (C * 2 * (m + 1))) by lia.
  apply w64_id. lia.
Qed.

Lemma fe_negate_ok m a : fe_mag m a -> 0 <= m <= 31 ->
  fe_mag (m + 1) (fe_negate a m) /\ fval (fe_negate a m) = 2 * (m + 1) * p - fval a.
Proof.
  intros (A0 & A1 & A2 & A3 & A4) Hm. unfold fe_negate.
  rewrite (neg_word P0 m (n0 a) M52), (neg_word M52 m (n1 a) M52), (neg_word M52 m (n2 a) M52),
    (neg_word M52 m (n3 a) M52), (neg_word M48 m (n4 a) M48);
    try assumption; try (split; [discriminate|reflexivity]); try discriminate; try (clear -Hm; fconst; lia).
  unfold fe_mag, fval. cbn [n0 n1 n2 n3 n4]. split.
  - clear -A0 A1 A2 A3 A4 Hm. fconst. lia.
  - change p with (P0 + M52 * 2 ^ 52 + M52 * 2 ^ 104 + M52 * 2 ^ 156 + M48 * 2 ^ 208). ring.
Qed.
Lemma fe_negate_mag m a : fe_mag m a -> 0 <= m <= 31 -> fe_mag (m + 1) (fe_negate a m).
Proof. intros. now apply fe_negate_ok. Qed.
Lemma fe_negate_fv m a : fe_mag m a -> 0 <= m <= 31 -> fv (fe_negate a m) = (- fv a)%F.
Proof.
  intros H1 H2. unfold fv. rewrite (proj2 (fe_negate_ok m a H1 H2)). rewrite <- toF_opp. apply toF_eq.
  replace (2 * (m + 1) * p - fval a) with (- fval a + (2 * (m + 1)) * p) by ring. apply Z_mod_plus_full.
Qed.

Lemma fe_mul_int_ok m k a : fe_mag m a -> 0 <= m -> 0 <= k -> m * k <= 32 ->
  fe_mag (m * k) (fe_mul_int a k) /\ fval (fe_mul_int a k) = fval a * k.
Proof.
  intros (A0 & A1 & A2 & A3 & A4) Hm Hk Hs. unfold fe_mul_int.
  assert (P : forall x K, 0 <= x <= 2 * m * K -> 0 <= x * k <= 2 * (m * k) * K).
  { intros x K Hx. split; [nia|]. replace (2 * (m * k) * K) with (2 * m * K * k) by ring. nia. }
  pose proof (P _ _ A0) as B0. pose proof (P _ _ A1) as B1. pose proof (P _ _ A2) as B2. pose proof (P _ _ A3) as B3. pose proof (P _ _ A4) as B4.
  set (mk := m * k) in *. clearbody mk.
  rewrite !w64_id; try (clear -B0 B1 B2 B3 B4 Hs; fconst; lia).
  unfold fe_mag, fval. cbn [n0 n1 n2 n3 n4]. split; [|ring].
  tauto.
Qed.
Lemma fe_mul_int_mag m k a : fe_mag m a -> 0 <= m -> 0 <= k -> m * k <= 32 -> fe_mag (m * k) (fe_mul_int a k).
Proof. intros. now apply fe_mul_int_ok. Qed.
Lemma fe_mul_int_fv m k a : fe_mag m a -> 0 <= m -> 0 <= k -> m * k <= 32 -> fv (fe_mul_int a k) = (fv a * toF k)%F.
Proof. intros H1 H2 H3 H4. unfold fv. rewrite (proj2 (fe_mul_int_ok m k a H1 H2 H3 H4)). apply toF_mul. Qed.

Lemma fe_set_int_ok k : 0 <= k <= 0x7FFF -> fe_norm (fe_set_int k) /\ fval (fe_set_int k) = k.
Proof.
  intros H. unfold fe_set_int, fe_norm, fval. cbn [n0 n1 n2 n3 n4]. change p with (2 ^ 256 - 4294968273). fconst. lia.
Qed.

Lemma fe_cmov_ok m r a flag : fe_mag m r -> fe_mag m a -> 0 <= m <= 32 -> flag = 0 \/ flag = 1 ->
  fe_cmov r a flag = if flag =? 0 then r else a.
Proof.
  intros Hr Ha Hm Hf. apply (mag_limit m r Hr) in Hm as HR. apply (mag_limit m a Ha) in Hm as HA.
  destruct HR as (R0 & R1 & R2 & R3 & R4). destruct HA as (A0 & A1 & A2 & A3 & A4).
  unfold fe_cmov. clear Hr Ha.
  rewrite !cmov64_spec; try assumption; try (clear -R0 R1 R2 R3 R4; fconst; lia); try (clear -A0 A1 A2 A3 A4; fconst; lia).
  destruct r, a; destruct Hf as [-> | ->]; reflexivity.
Qed.

(** Halving. *)
Lemma odd_word x : 0 <= x -> (Z.land x 1 = 0 /\ exists h, x = 2 * h) \/ (Z.land x 1 = 1 /\ exists h, x = 2 * h + 1).
Proof.
  intros Hx. rewrite land_1.
  pose proof (Z.div_mod x 2 ltac:(discriminate)) as D. pose proof (Z.mod_pos_bound x 2 eq_refl) as B.
  assert (x mod 2 = 0 \/ x mod 2 = 1) as [E|E] by lia; rewrite E in *.
  - left. split; [reflexivity|]. exists (x / 2). lia.
  - right. split; [reflexivity|]. exists (x / 2). lia.
Qed.
Lemma half_limb t u : 0 <= t < 2 ^ 60 -> 0 <= u < 2 ^ 60 -> exists th tb ub, t = 2 * th + tb /\ 0 <= tb <= 1 /\ 0 <= th /\
  Z.land u 1 = ub /\ 0 <= ub <= 1 /\ Z.land t 1 = tb /\
  w64 (Z.shiftr t 1 + w64 (Z.shiftl (Z.land u 1) 51)) = th + ub * 2 ^ 51.
Proof.
  intros Ht Hu. exists (t / 2), (t mod 2), (u mod 2).
  pose proof (Z.div_mod t 2 ltac:(discriminate)) as D. pose proof (Z.mod_pos_bound t 2 eq_refl) as B.
  pose proof (Z.mod_pos_bound u 2 eq_refl) as B'.
  rewrite !land_1.
  rewrite shiftr_div by lia. rewrite Z.shiftl_mul_pow2 by lia. change (2 ^ 1) with 2.
  split; [exact D|]. split; [lia|]. split; [lia|]. split; [reflexivity|]. split; [lia|]. split; [reflexivity|].
  rewrite (w64_id (u mod 2 * 2 ^ 51)) by lia. apply w64_id. lia.
Qed.

Lemma fe_half_ok m a : fe_mag m a -> 0 <= m <= 31 ->
  fe_mag (m / 2 + 1) (fe_half a) /\ exists k, 2 * fval (fe_half a) = fval a + k * p.
Proof.
  intros (A0 & A1 & A2 & A3 & A4) Hm. unfold fe_half.
  assert (exists o, (o = 0 \/ o = 1) /\ Z.land (n0 a) 1 = o /\ exists h, n0 a = 2 * h + o) as (o & Ho & Eo & h & Eh).
  { destruct (odd_word (n0 a) ltac:(lia)) as [[E [h H]]|[E [h H]]]; rewrite E; [exists 0|exists 1]; (split; [auto|]); (split; [reflexivity|]); exists h; lia. }
  rewrite Eo.
  assert (Em : Z.shiftr (w64 (- o)) 12 = o * M52 /\ Z.land P0 (o * M52) = o * P0 /\ Z.shiftr (o * M52) 4 = o * M48).
  { destruct Ho as [-> | ->]; repeat split. }
  destruct Em as (-> & -> & ->).
  assert (L : 2 * m < 2 * (m / 2 + 1) * 2 /\ (m + 1) <= 2 * (m / 2 + 1)).
  { pose proof (Z.div_mod m 2 ltac:(discriminate)). pose proof (Z.mod_pos_bound m 2 eq_refl). lia. }
  set (m' := m / 2 + 1) in *. clearbody m'.
  assert (T0 : 0 <= n0 a + o * P0 <= (2 * m + 1) * M52) by (clear -A0 Ho; fconst; destruct Ho; subst; lia).
  assert (T1 : 0 <= n1 a + o * M52 <= (2 * m + 1) * M52) by (clear -A1 Ho; fconst; destruct Ho; subst; lia).
  assert (T2 : 0 <= n2 a + o * M52 <= (2 * m + 1) * M52) by (clear -A2 Ho; fconst; destruct Ho; subst; lia).
  assert (T3 : 0 <= n3 a + o * M52 <= (2 * m + 1) * M52) by (clear -A3 Ho; fconst; destruct Ho; subst; lia).
  assert (T4 : 0 <= n4 a + o * M48 <= (2 * m + 1) * M48) by (clear -A4 Ho; fconst; destruct Ho; subst; lia).
  assert (MM : 0 <= (2 * m + 1) * M52 < 2 ^ 60 /\ 0 <= (2 * m + 1) * M48 < 2 ^ 60) by (clear -Hm; fconst; lia).
  destruct MM as [MM1 MM2].
  rewrite !(w64_id (_ + o * _)) by (clear -T0 T1 T2 T3 T4 MM1 MM2; lia).
  assert (PV : p = P0 + M52 * 2 ^ 52 + M52 * 2 ^ 104 + M52 * 2 ^ 156 + M48 * 2 ^ 208) by reflexivity.
  assert (EV : exists z, n0 a + o * P0 = 2 * z).
  { exists (h + o * (P0 + 1) / 2). rewrite Eh. clear -Ho. destruct Ho as [-> | ->].
    - change (0 * (P0 + 1) / 2) with 0. lia.
    - change (1 * (P0 + 1) / 2) with 2251797666201112. fconst. lia. }
  unfold fval.
  assert (FV : n0 a + n1 a * 2 ^ 52 + n2 a * 2 ^ 104 + n3 a * 2 ^ 156 + n4 a * 2 ^ 208 + o * p =
    (n0 a + o * P0) + (n1 a + o * M52) * 2 ^ 52 + (n2 a + o * M52) * 2 ^ 104 + (n3 a + o * M52) * 2 ^ 156 + (n4 a + o * M48) * 2 ^ 208).
  { rewrite PV. ring. }
  set (t0 := n0 a + o * P0) in *. set (t1 := n1 a + o * M52) in *. set (t2 := n2 a + o * M52) in *.
  set (t3 := n3 a + o * M52) in *. set (t4 := n4 a + o * M48) in *. clearbody t0 t1 t2 t3 t4.
  destruct (half_limb t0 t1 ltac:(lia) ltac:(lia)) as (h0 & b0 & b1 & X0 & Y0 & Z0 & U0 & V0 & W0 & ->).
  destruct (half_limb t1 t2 ltac:(lia) ltac:(lia)) as (h1 & b1' & b2 & X1 & Y1 & Z1 & U1 & V1 & W1 & ->).
  destruct (half_limb t2 t3 ltac:(lia) ltac:(lia)) as (h2 & b2' & b3 & X2 & Y2 & Z2 & U2 & V2 & W2 & ->).
  destruct (half_limb t3 t4 ltac:(lia) ltac:(lia)) as (h3 & b3' & b4 & X3 & Y3 & Z3 & U3 & V3 & W3 & ->).
  destruct (half_limb t4 t4 ltac:(lia) ltac:(lia)) as (h4 & b4' & b5 & X4 & Y4 & Z4 & U4 & V4 & W4 & _).
  assert (S4 : Z.shiftr t4 1 = h4).
  { rewrite shiftr_div by lia. change (2 ^ 1) with 2. rewrite X4. symmetry. apply Z.div_unique with b4'; lia. }
  rewrite S4. 
  assert (b1' = b1) by congruence. assert (b2' = b2) by congruence. assert (b3' = b3) by congruence. assert (b4' = b4) by congruence. clear U0 U1 U2 U3 U4 W0 W1 W2 W3 W4. subst b1' b2' b3' b4'.
  assert (b0 = 0) by (destruct EV; lia). subst b0.
  cbn [n0 n1 n2 n3 n4]. unfold fe_mag. cbn [n0 n1 n2 n3 n4]. split.
  - clear -L Hm T0 T1 T2 T3 T4 X0 X1 X2 X3 X4 Y1 Y2 Y3 Y4 Z0 Z1 Z2 Z3 Z4. fconst. change (2 ^ 51) with 2251799813685248.
    split; [clear -L T0 X0 Y1 Z0; lia|]. split; [clear -L T1 X1 Y1 Y2 Z1; lia|]. split; [clear -L T2 X2 Y2 Y3 Z2; lia|].
    split; [clear -L T3 X3 Y3 Y4 Z3; lia|]. clear -L T4 X4 Y4 Z4. lia.
  - exists o. rewrite FV, X0, X1, X2, X3, X4. ring.
Qed.
Lemma fe_half_mag m a : fe_mag m a -> 0 <= m <= 31 -> fe_mag (m / 2 + 1) (fe_half a).
Proof. intros. now apply fe_half_ok. Qed.
Lemma fe_half_fv m a : fe_mag m a -> 0 <= m <= 31 -> ((1 + 1) * fv (fe_half a) = fv a)%F.
Proof.
  intros H1 H2. destruct (fe_half_ok m a H1 H2) as [_ [k E]]. unfold fv.
  change (f1) with (toF 1). rewrite <- toF_add, <- toF_mul. change (1 + 1) with 2. rewrite E.
  apply toF_eq. apply Z_mod_plus_full.
Qed.

(** Constants and the inverse. *)
Lemma fe_of_Z_ok v : 0 <= v < p -> fe_norm (fe_of_Z v) /\ fval (fe_of_Z v) = v.
Proof.
  intros H. 
  assert (V : fval (fe_of_Z v) = v).
  { unfold fe_of_Z, fval. cbn [n0 n1 n2 n3 n4].
    pose proof (Z.div_mod v (2 ^ 52) ltac:(discriminate)) as D0.
    pose proof (Z.div_mod (v / 2 ^ 52) (2 ^ 52) ltac:(discriminate)) as D1.
    pose proof (Z.div_mod (v / 2 ^ 104) (2 ^ 52) ltac:(discriminate)) as D2.
    pose proof (Z.div_mod (v / 2 ^ 156) (2 ^ 52) ltac:(discriminate)) as D3.
    rewrite Z.div_div in D1, D2, D3 by lia. change (2 ^ 52 * 2 ^ 52) with (2 ^ 104) in D1.
    change (2 ^ 104 * 2 ^ 52) with (2 ^ 156) in D2. change (2 ^ 156 * 2 ^ 52) with (2 ^ 208) in D3.
    clear H. set (q1 := v / 2 ^ 52) in *. set (q2 := v / 2 ^ 104) in *. set (q3 := v / 2 ^ 156) in *. set (q4 := v / 2 ^ 208) in *.
    set (r1 := v mod _) in *. set (r2 := q1 mod _) in *. set (r3 := q2 mod _) in *. set (r4 := q3 mod _) in *.
    clearbody r1 r2 r3 r4 q1 q2 q3 q4. lia. }
  split; [|exact V]. unfold fe_norm. rewrite V. unfold fe_of_Z. cbn [n0 n1 n2 n3 n4].
  assert (B : forall x, 0 <= x mod 2 ^ 52 <= M52).
  { intros x. pose proof (Z.mod_pos_bound x (2 ^ 52) eq_refl). unfold M52. lia. }
  repeat (split; [apply B|]). split; [|lia].
  split; [apply Z.div_pos; lia|].
  assert (v / 2 ^ 208 < 2 ^ 48); [|unfold M48; lia].
  apply Z.div_lt_upper_bound; [reflexivity|]. change (2 ^ 208 * 2 ^ 48) with (2 ^ 256). change p with (2 ^ 256 - 4294968273) in H. lia.
Qed.
Lemma fe_of_Z_fv v : 0 <= v < p -> fv (fe_of_Z v) = toF v.
Proof. intros H. unfold fv. now rewrite (proj2 (fe_of_Z_ok v H)). Qed.
Lemma fe_of_Z_norm v : 0 <= v < p -> fe_norm (fe_of_Z v).
Proof. intros H. now apply fe_of_Z_ok. Qed.

Lemma fe_inv_norm x : fe_norm (fe_inv x).
Proof. apply fe_of_Z_norm. apply inv_mod_range. reflexivity. Qed.
Lemma fe_inv_fv x : fe_mag 32 x -> fv (fe_inv x) = finv (fv x).
Proof.
  intros H. unfold fe_inv. rewrite fe_of_Z_fv by (apply inv_mod_range; reflexivity).
  rewrite toF_inv. f_equal. change (toF (fval (fe_normalize x))) with (fv (fe_normalize x)). now apply fe_normalize_fv.
Qed.
Lemma fe_inv_var_norm x : fe_norm (fe_inv_var x).
Proof. apply fe_of_Z_norm. apply inv_mod_range. reflexivity. Qed.
Lemma fe_inv_var_eq x : fe_mag 32 x -> fe_inv_var x = fe_inv x.
Proof. intros H. unfold fe_inv_var. rewrite fe_normalize_var_eq by assumption. reflexivity. Qed.
Lemma fe_inv_var_fv x : fe_mag 32 x -> fv (fe_inv_var x) = finv (fv x).
Proof. intros H. rewrite fe_inv_var_eq by assumption. now apply fe_inv_fv. Qed.

Lemma fsub_0 (x y : F) : (- x + y)%F = f0 <-> x = y.
Proof. split; [|intros ->; ring]. intros E. transitivity (x + (- x + y))%F; [rewrite E; ring|ring]. Qed.

Lemma fe_equal_spec m a b : fe_mag 1 a -> fe_mag m b -> 0 <= m <= 30 -> (fe_equal a b = true <-> fv a = fv b).
Proof.
  intros Ha Hb Hm. unfold fe_equal.
  assert (N : fe_mag 2 (fe_negate a 1)) by (apply (fe_negate_mag 1); [assumption|lia]).
  rewrite fe_normalizes_to_zero_spec.
  - rewrite (fe_add_fv 2 m) by (assumption || lia). rewrite (fe_negate_fv 1) by (assumption || lia). apply fsub_0.
  - apply (mag_weaken (2 + m)); [apply fe_add_mag; assumption || lia|lia].
Qed.

(** The square root: x = a^((p+1)/4). *)
Lemma fe_sqr_n_ok v k : forall x e, fe_mag 8 x -> 0 <= e -> fv x = toF (v ^ e) ->
  fe_mag 8 (fe_sqr_n k x) /\ fv (fe_sqr_n k x) = toF (v ^ (e * 2 ^ Z.of_nat k)).
Proof.
  induction k as [|k IH]; intros x e Hx He Ex; cbn [fe_sqr_n].
  - change (Z.of_nat 0) with 0. rewrite Z.pow_0_r, Z.mul_1_r. auto.
  - rewrite Nat2Z.inj_succ, Z.pow_succ_r by lia.
    replace (e * (2 * 2 ^ Z.of_nat k)) with (2 * e * 2 ^ Z.of_nat k) by ring.
    apply IH; [|lia|].
    + apply (mag_weaken 1); [now apply fe_sqr_mag|lia].
    + rewrite fe_sqr_fv, Ex, <- toF_mul by assumption. rewrite <- Z.pow_add_r by lia. now replace (e + e) with (2 * e) by ring.
Qed.
Lemma fe_mul_pow v x y e f : fe_mag 8 x /\ fv x = toF (v ^ e) -> fe_mag 8 y /\ fv y = toF (v ^ f) -> 0 <= e -> 0 <= f ->
  fe_mag 8 (fe_mul x y) /\ fv (fe_mul x y) = toF (v ^ (e + f)).
Proof.
  intros [Hx Ex] [Hy Ey] He Hf. split.
  - apply (mag_weaken 1); [now apply fe_mul_mag|lia].
  - rewrite fe_mul_fv, Ex, Ey, <- toF_mul, <- Z.pow_add_r by assumption. reflexivity.
Qed.
Lemma fe_sqr_n_pow v k x e : fe_mag 8 x /\ fv x = toF (v ^ e) -> 0 <= e ->
  fe_mag 8 (fe_sqr_n k x) /\ fv (fe_sqr_n k x) = toF (v ^ (e * 2 ^ Z.of_nat k)).
Proof. intros [H1 H2] H3. now apply fe_sqr_n_ok. Qed.
Lemma fe_sqr_pow v x e : fe_mag 8 x /\ fv x = toF (v ^ e) -> 0 <= e ->
  fe_mag 8 (fe_sqr x) /\ fv (fe_sqr x) = toF (v ^ (e * 2 ^ Z.of_nat 1)).
Proof. intros H1 H3. exact (fe_sqr_n_pow v 1 x e H1 H3). Qed.

Definition is_pow (v : Z) (x : fe) (e : Z) : Prop := fe_mag 8 x /\ fv x = toF (v ^ e).
Lemma pow_step v k x e y f g : is_pow v x e -> is_pow v y f ->
  (0 <=? e) && (0 <=? f) && (e * 2 ^ Z.of_nat k + f =? g) = true -> is_pow v (fe_mul (fe_sqr_n k x) y) g.
Proof.
  intros Hx Hy HH. apply andb_prop in HH as [HH Eg]. apply andb_prop in HH as [He Hf].
  apply Z.leb_le in He, Hf. apply Z.eqb_eq in Eg. subst g.
  apply fe_mul_pow; [now apply fe_sqr_n_pow|assumption| |assumption].
  apply Z.mul_nonneg_nonneg; [assumption|]. apply Z.pow_nonneg. lia.
Qed.
Lemma pow_sqr v x e g : is_pow v x e -> (0 <=? e) && (e * 2 =? g) = true -> is_pow v (fe_sqr x) g.
Proof.
  intros Hx HH. apply andb_prop in HH as [He Eg]. apply Z.leb_le in He. apply Z.eqb_eq in Eg. subst g.
  exact (fe_sqr_pow v x e Hx He).
Qed.
Lemma pow_sqr_mul v x e y f g : is_pow v x e -> is_pow v y f ->
  (0 <=? e) && (0 <=? f) && (e * 2 ^ Z.of_nat 1 + f =? g) = true -> is_pow v (fe_mul (fe_sqr x) y) g.
Proof. exact (pow_step v 1 x e y f g). Qed.

Lemma fe_sqrt_chain a q : fe_sqrt a = q -> fe_mag 8 a -> fe_mag 1 (snd q) /\ fv (snd q) = toF (fval a ^ ((p + 1) / 4)) /\
  fst q = fe_equal (fe_sqr (snd q)) a.
Proof.
  intros H Ha. set (v := fval a). 
  assert (P1 : is_pow v a 1) by (unfold is_pow; rewrite Z.pow_1_r; now split).
  clearbody v. cbv beta delta [fe_sqrt] in H. let_steps H.
  assert (P2 : is_pow v x2 3) by (rewrite Ex2; now apply pow_sqr_mul with 1 1).
  assert (P3 : is_pow v x3 7) by (rewrite Ex3; now apply pow_sqr_mul with 3 1).
  assert (P6 : is_pow v x6 (2 ^ 6 - 1)) by (rewrite Ex6; now apply pow_step with 7 7).
  assert (P9 : is_pow v x9 (2 ^ 9 - 1)) by (rewrite Ex9; now apply pow_step with (2 ^ 6 - 1) 7).
  assert (P11 : is_pow v x11 (2 ^ 11 - 1)) by (rewrite Ex11; now apply pow_step with (2 ^ 9 - 1) 3).
  assert (P22 : is_pow v x22 (2 ^ 22 - 1)) by (rewrite Ex22; now apply pow_step with (2 ^ 11 - 1) (2 ^ 11 - 1)).
  assert (P44 : is_pow v x44 (2 ^ 44 - 1)) by (rewrite Ex44; now apply pow_step with (2 ^ 22 - 1) (2 ^ 22 - 1)).
  assert (P88 : is_pow v x88 (2 ^ 88 - 1)) by (rewrite Ex88; now apply pow_step with (2 ^ 44 - 1) (2 ^ 44 - 1)).
  assert (P176 : is_pow v x176 (2 ^ 176 - 1)) by (rewrite Ex176; now apply pow_step with (2 ^ 88 - 1) (2 ^ 88 - 1)).
  assert (P220 : is_pow v x220 (2 ^ 220 - 1)) by (rewrite Ex220; now apply pow_step with (2 ^ 176 - 1) (2 ^ 44 - 1)).
  assert (P223 : is_pow v x223 (2 ^ 223 - 1)) by (rewrite Ex223; now apply pow_step with (2 ^ 220 - 1) 7).
  assert (PA : is_pow v t1 ((2 ^ 223 - 1) * 2 ^ 23 + 2 ^ 22 - 1)) by (rewrite Et1; now apply pow_step with (2 ^ 223 - 1) (2 ^ 22 - 1)).
  assert (PB : is_pow v t0 (((2 ^ 223 - 1) * 2 ^ 23 + 2 ^ 22 - 1) * 2 ^ 6 + 3)) by (rewrite Et0; now apply pow_step with ((2 ^ 223 - 1) * 2 ^ 23 + 2 ^ 22 - 1) 3).
  assert (PC : is_pow v (fe_sqr t0) ((((2 ^ 223 - 1) * 2 ^ 23 + 2 ^ 22 - 1) * 2 ^ 6 + 3) * 2)) by (now apply pow_sqr with (((2 ^ 223 - 1) * 2 ^ 23 + 2 ^ 22 - 1) * 2 ^ 6 + 3)).
  assert (PD : is_pow v r ((p + 1) / 4)) by (rewrite Er; now apply pow_sqr with ((((2 ^ 223 - 1) * 2 ^ 23 + 2 ^ 22 - 1) * 2 ^ 6 + 3) * 2)).
  subst q. cbn [fst snd]. split; [|split; [apply PD|reflexivity]]. rewrite Er. apply fe_sqr_mag. apply PC.
Qed.

Lemma fe_sqrt_root a : fe_mag 8 a -> 
  fe_mag 1 (snd (fe_sqrt a)) /\ fv (snd (fe_sqrt a)) = toF (fval a ^ ((p + 1) / 4)).
Proof. intros Ha. destruct (fe_sqrt_chain a _ eq_refl Ha) as (H1 & H2 & _). now split. Qed.

Lemma F_square_iff (x : F) : (exists y : F, (y * y)%F = x) <-> is_square_mod_p (zv x).
Proof.
  unfold is_square_mod_p. split.
  - intros [y <-]. exists (zv y). rewrite <- (toF_zv y) at 3 4. rewrite <- toF_mul, zv_toF. now rewrite Zmod_mod.
  - intros [b E]. exists (toF b). rewrite <- toF_mul, <- (toF_zv x). now apply toF_eq.
Qed.

Lemma sqrt_power_gen v b e : 0 <= e -> 4 * e = 2 + (p - 1) -> (b * b) mod p = v mod p -> (v ^ e * v ^ e) mod p = v mod p.
Proof.
  intros He R E.
  assert (Q : v ^ e mod p = (b ^ 2) ^ e mod p).
  { rewrite Z.pow_2_r, Zpow_facts.Zpower_mod, <- E, <- Zpow_facts.Zpower_mod by reflexivity. reflexivity. }
  rewrite Zmult_mod, Q, <- Zmult_mod, <- E.
  rewrite <- Z.pow_mul_r, <- Z.pow_add_r by lia.
  replace (2 * e + 2 * e) with (2 + (p - 1)) by lia.
  assert (0 <= p - 1) by discriminate. rewrite Z.pow_add_r by lia.
  destruct (Z.eq_dec (b mod p) 0) as [Z0|NZ].
  - rewrite Zmult_mod. rewrite Z.pow_2_r. rewrite (Zmult_mod b b), Z0. reflexivity.
  - rewrite Zmult_mod, fermat_p by assumption. rewrite Z.mul_1_r, Zmod_mod, Z.pow_2_r. reflexivity.
Qed.
Lemma sqrt_power v b : (b * b) mod p = v mod p -> (v ^ ((p + 1) / 4) * v ^ ((p + 1) / 4)) mod p = v mod p.
Proof.
  assert (H1 : 0 <= (p + 1) / 4) by (vm_compute; discriminate). assert (H2 : 4 * ((p + 1) / 4) = 2 + (p - 1)) by reflexivity.
  exact (sqrt_power_gen v b ((p + 1) / 4) H1 H2).
Qed.

Lemma fe_sqrt_spec a : fe_mag 8 a ->
  (fst (fe_sqrt a) = true <-> is_square_mod_p (fval a)) /\
  (fst (fe_sqrt a) = true -> (fv (snd (fe_sqrt a)) * fv (snd (fe_sqrt a)))%F = fv a) /\
  fe_mag 1 (snd (fe_sqrt a)).
Proof.
  intros Ha. destruct (fe_sqrt_root a Ha) as [M R].
  assert (FE : fst (fe_sqrt a) = fe_equal (fe_sqr (snd (fe_sqrt a))) a) by (now apply fe_sqrt_chain).
  set (r := snd (fe_sqrt a)) in *. clearbody r. rewrite FE. clear FE.
  assert (M8 : fe_mag 8 r) by (apply (mag_weaken 1); [assumption|lia]).
  assert (ES : fe_equal (fe_sqr r) a = true <-> (fv r * fv r)%F = fv a).
  { rewrite (fe_equal_spec 8); [|now apply fe_sqr_mag|assumption|lia]. now rewrite fe_sqr_fv. }
  split; [|split; [apply ES|exact M]].
  rewrite ES. split.
  - intros E. exists (zv (fv r)). rewrite <- (toF_zv (fv r)), <- toF_mul in E. apply toF_inj in E. exact E.
  - intros [b E]. rewrite R, <- toF_mul. apply toF_eq. now apply sqrt_power with b.
Qed.

Lemma fe_is_square_var_spec x : fe_mag 32 x -> (fe_is_square_var x = true <-> is_square_mod_p (fval x)).
Proof.
  intros H. unfold fe_is_square_var. rewrite fe_normalize_var_eq by assumption.
  destruct (fe_normalize_ok x H) as [N V].
  assert (Q : is_square_mod_p (fval (fe_normalize x)) <-> is_square_mod_p (fval x)).
  { unfold is_square_mod_p. rewrite V, Zmod_mod. reflexivity. }
  destruct (fe_is_zero (fe_normalize x)) eqn:E0.
  - split; [|reflexivity]. intros _. apply Q. apply fe_is_zero_spec in E0; [|assumption].
    exists 0. apply fv_zero_iff in E0. now rewrite E0.
  - rewrite <- Q. apply fe_sqrt_spec. apply (mag_weaken 1); [now apply norm_mag|lia].
Qed.

Lemma fe_one_norm : fe_norm fe_one. Proof. now apply fe_of_Z_norm. Qed.
Lemma fe_one_fv : fv fe_one = f1. Proof. unfold fe_one. now rewrite fe_of_Z_fv. Qed.
Definition beta : Z := 0x7ae96a2b657c07106e64479eac3434e99cf0497512f58995c1396c28719501ee.
Lemma const_beta_norm : fe_norm const_beta. Proof. now apply fe_of_Z_norm. Qed.
Lemma const_beta_fv : fv const_beta = toF beta. Proof. unfold const_beta. now rewrite fe_of_Z_fv. Qed.
