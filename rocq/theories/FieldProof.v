(** Correctness of the field arithmetic model: values modulo p and limb bounds. *)
Require Import ZArith List Bool Lia Znumtheory.
From Verif Require Import Word Spec ZmField Curve FieldModel FieldMul.
Import ListNotations.
Local Open Scope Z_scope.

(** ** Values *)
Definition fv (a : fe) : F := toF (fval a).

Lemma toF_k x y k : x = y + k * p -> toF x = toF y.
Proof.
  intros ->. apply toF_eq. rewrite Z_mod_plus_full. reflexivity.
Qed.

Lemma mag_weaken m m' a : fe_mag m a -> m <= m' -> fe_mag m' a.
Proof. unfold fe_mag. fconst. lia. Qed.

Lemma norm_mag a : fe_norm a -> fe_mag 1 a.
Proof. unfold fe_mag, fe_norm. fconst. lia. Qed.

Lemma fe_mul_mag a b : fe_mag 8 a -> fe_mag 8 b -> fe_mag 1 (fe_mul a b).
Proof.
  intros Ha Hb. apply mag_mul_in in Ha, Hb; try lia.
  destruct (fe_mul_inner_ok a b Ha Hb _ eq_refl) as (_ & H). unfold fe_mag. fconst. lia.
Qed.
Lemma fe_mul_fv a b : fe_mag 8 a -> fe_mag 8 b -> fv (fe_mul a b) = (fv a * fv b)%F.
Proof.
  intros Ha Hb. apply mag_mul_in in Ha, Hb; try lia.
  destruct (fe_mul_inner_ok a b Ha Hb _ eq_refl) as ((k & H) & _). unfold fv. rewrite <- toF_mul.
  symmetry. exact (toF_k _ _ _ H).
Qed.
Lemma fe_sqr_mag a : fe_mag 8 a -> fe_mag 1 (fe_sqr a).
Proof.
  intros Ha. apply mag_mul_in in Ha; try lia.
  destruct (fe_sqr_inner_ok a Ha _ eq_refl) as (_ & H). unfold fe_mag. fconst. lia.
Qed.
Lemma fe_sqr_fv a : fe_mag 8 a -> fv (fe_sqr a) = (fv a * fv a)%F.
Proof.
  intros Ha. apply mag_mul_in in Ha; try lia.
  destruct (fe_sqr_inner_ok a Ha _ eq_refl) as ((k & H) & _). unfold fv. rewrite <- toF_mul.
  symmetry. exact (toF_k _ _ _ H).
Qed.

(** ** Normalization *)

(** The first pass shared by all normalization functions. *)
Lemma first_pass r : fe_mag 32 r -> exists x u4 c0 c1 c2 c3 t0 t1 t2 t3 t4,
  Z.shiftr (n4 r) 48 = x /\ Z.land (n4 r) M48 = u4 /\ n4 r = x * 2 ^ 48 + u4 /\
  w64 (n0 r + w64 (x * RED)) = c0 * 2 ^ 52 + t0 /\ c0 * 2 ^ 52 + t0 = n0 r + x * RED /\
  Z.shiftr (c0 * 2 ^ 52 + t0) 52 = c0 /\ Z.land (c0 * 2 ^ 52 + t0) M52 = t0 /\
  w64 (n1 r + c0) = c1 * 2 ^ 52 + t1 /\ c1 * 2 ^ 52 + t1 = n1 r + c0 /\
  Z.shiftr (c1 * 2 ^ 52 + t1) 52 = c1 /\ Z.land (c1 * 2 ^ 52 + t1) M52 = t1 /\
  w64 (n2 r + c1) = c2 * 2 ^ 52 + t2 /\ c2 * 2 ^ 52 + t2 = n2 r + c1 /\
  Z.shiftr (c2 * 2 ^ 52 + t2) 52 = c2 /\ Z.land (c2 * 2 ^ 52 + t2) M52 = t2 /\
  w64 (n3 r + c2) = c3 * 2 ^ 52 + t3 /\ c3 * 2 ^ 52 + t3 = n3 r + c2 /\
  Z.shiftr (c3 * 2 ^ 52 + t3) 52 = c3 /\ Z.land (c3 * 2 ^ 52 + t3) M52 = t3 /\
  w64 (u4 + c3) = t4 /\ t4 = u4 + c3 /\
  0 <= t0 <= M52 /\ 0 <= t1 <= M52 /\ 0 <= t2 <= M52 /\ 0 <= t3 <= M52 /\ 0 <= t4 <= M48 + 100 /\ 0 <= x <= 64.
Proof.
  destruct r as [r0 r1 r2 r3 r4]. unfold fe_mag. cbn [n0 n1 n2 n3 n4]. intros (H0 & H1 & H2 & H3 & H4).
  destruct (split_word r4 48) as (x & u4 & E4 & Hu4 & Hx & X1 & X2); [lia|lia|].
  assert (Bx : x <= 64) by (fconst; lia).
  destruct (split_word (r0 + x * RED) 52) as (c0 & t0 & E0 & Ht0 & Hc0 & X3 & X4); [lia|fconst; lia|].
  assert (Bc0 : c0 <= 65) by (fconst; lia).
  destruct (split_word (r1 + c0) 52) as (c1 & t1 & E1 & Ht1 & Hc1 & X5 & X6); [lia|fconst; lia|].
  assert (Bc1 : c1 <= 65) by (fconst; lia).
  destruct (split_word (r2 + c1) 52) as (c2 & t2 & E2 & Ht2 & Hc2 & X7 & X8); [lia|fconst; lia|].
  assert (Bc2 : c2 <= 65) by (fconst; lia).
  destruct (split_word (r3 + c2) 52) as (c3 & t3 & E3 & Ht3 & Hc3 & X9 & X10); [lia|fconst; lia|].
  assert (Bc3 : c3 <= 65) by (fconst; lia).
  exists x, u4, c0, c1, c2, c3, t0, t1, t2, t3, (u4 + c3).
  rewrite <- E0, <- E1, <- E2, <- E3.
  assert (W0 : w64 (x * RED) = x * RED) by (apply w64_id; fconst; lia). rewrite W0.
  change (2 ^ 52 - 1) with M52 in *. change (2 ^ 48 - 1) with M48 in *.
  repeat match goal with |- _ /\ _ => split end; try assumption; try reflexivity; try (apply w64_id); fconst; lia.
Qed.

Ltac pass H r Hr :=
  destruct (first_pass r Hr) as (x & u4 & c0 & c1 & c2 & c3 & t0 & t1 & t2 & t3 & t4 &
    X1 & X2 & X3 & X4 & X5 & X6 & X7 & X8 & X9 & X10 & X11 & X12 & X13 & X14 & X15 & X16 & X17 & X18 & X19 & X20 & X21 &
    B0 & B1 & B2 & B3 & B4 & BX);
  rewrite X1, X2 in H.

Lemma fe_normalize_weak_ok r : fe_mag 32 r ->
  fe_mag 1 (fe_normalize_weak r) /\ fv (fe_normalize_weak r) = fv r.
Proof.
  intros Hr. destruct (first_pass r Hr) as (x & u4 & c0 & c1 & c2 & c3 & t0 & t1 & t2 & t3 & t4 &
    X1 & X2 & X3 & X4 & X5 & X6 & X7 & X8 & X9 & X10 & X11 & X12 & X13 & X14 & X15 & X16 & X17 & X18 & X19 & X20 & X21 &
    B0 & B1 & B2 & B3 & B4 & BX).
  assert (E : fe_normalize_weak r = mkfe t0 t1 t2 t3 t4).
  { unfold fe_normalize_weak.
    rewrite X1, X2, X4, X6, X7, X8, X10, X11, X12, X14, X15, X16, X18, X19, X20. reflexivity. }
  rewrite E. split.
  - unfold fe_mag. cbn [n0 n1 n2 n3 n4]. fconst. lia.
  - unfold fv, fval. cbn [n0 n1 n2 n3 n4]. symmetry. apply (toF_k _ _ x).
    change p with (2 ^ 256 - 4294968273). fconst. lia.
Qed.

(** All-ones test of a conjunction. *)
Lemma land_ones52 a b : 0 <= a <= M52 -> 0 <= b <= M52 -> 0 <= Z.land a b <= M52 /\ (Z.land a b = M52 <-> a = M52 /\ b = M52).
Proof.
  intros Ha Hb.
  assert (La : Z.land a b <= a). { apply land_le; lia. }
  assert (Lb : Z.land a b <= b). { rewrite Z.land_comm. apply land_le; lia. }
  assert (0 <= Z.land a b) by (apply Z.land_nonneg; lia).
  split; [lia|]. split; [lia|]. intros [-> ->]. reflexivity.
Qed.

Definition tval t0 t1 t2 t3 t4 := t0 + t1 * 2 ^ 52 + t2 * 2 ^ 104 + t3 * 2 ^ 156 + t4 * 2 ^ 208.

(** The final comparison with p. *)
Lemma final_x t0 t1 t2 t3 t4 :
  0 <= t0 <= M52 -> 0 <= t1 <= M52 -> 0 <= t2 <= M52 -> 0 <= t3 <= M52 -> 0 <= t4 <= M48 + 100 ->
  Z.lor (Z.shiftr t4 48) (Z.land (Z.land (b2z (t4 =? M48)) (b2z (Z.land (Z.land t1 t2) t3 =? M52))) (b2z (t0 >=? P0)))
  = b2z (p <=? tval t0 t1 t2 t3 t4).
Proof.
  intros H0 H1 H2 H3 H4.
  destruct (land_ones52 t1 t2 H1 H2) as [La Lb].
  destruct (land_ones52 (Z.land t1 t2) t3 La H3) as [Lc Ld].
  set (m := Z.land (Z.land t1 t2) t3) in *.
  assert (Em : m = M52 <-> t1 = M52 /\ t2 = M52 /\ t3 = M52) by tauto.
  assert (Hiff : p <= tval t0 t1 t2 t3 t4 <-> M48 < t4 \/ (t4 = M48 /\ m = M52 /\ P0 <= t0)).
  { rewrite Em. unfold tval. clear -H0 H1 H2 H3 H4. change p with (2 ^ 256 - 4294968273). fconst. lia. }
  destruct (split_word t4 48) as (q & u & E & Hu & Hq & X1 & X2); [lia|lia|]. rewrite X1.
  assert (Hq' : (q = 0 /\ ~ M48 < t4) \/ (q = 1 /\ M48 < t4)) by (clear - E Hu H4; fconst; lia).
  destruct Hq' as [[-> Hlt] | [-> Hlt]].
  - rewrite Z.lor_0_l.
    destruct (Z.leb_spec p (tval t0 t1 t2 t3 t4)) as [HL|HL].
    + apply Hiff in HL as [HL|(Ha & Hb & Hc)]; [contradiction|].
      rewrite Ha, Hb, !Z.eqb_refl. replace (t0 >=? P0) with true by (symmetry; apply Z.geb_le; exact Hc). reflexivity.
    + destruct (Z.eqb_spec t4 M48), (Z.eqb_spec m M52), (Z.geb_spec t0 P0); cbn [b2z]; rewrite ?Z.land_0_r, ?Z.land_0_l; try reflexivity.
      exfalso. apply Z.lt_nge in HL. apply HL. apply Hiff. right. auto.
  - replace (t4 =? M48) with false by (symmetry; apply Z.eqb_neq; intros K; rewrite K in Hlt; exact (Z.lt_irrefl _ Hlt)).
    cbn [b2z]. rewrite !Z.land_0_l, Z.lor_0_r.
    replace (p <=? tval t0 t1 t2 t3 t4) with true; [reflexivity|]. symmetry. apply Z.leb_le. apply Hiff. left. exact Hlt.
Qed.

(** The final subtraction of p. *)
Lemma final_pass t0 t1 t2 t3 t4 :
  0 <= t0 <= M52 -> 0 <= t1 <= M52 -> 0 <= t2 <= M52 -> 0 <= t3 <= M52 -> 0 <= t4 <= M48 + 100 ->
  let x := b2z (p <=? tval t0 t1 t2 t3 t4) in
  exists c0 c1 c2 c3 v0 v1 v2 v3 v4,
  w64 (t0 + w64 (x * RED)) = c0 * 2 ^ 52 + v0 /\
  Z.shiftr (c0 * 2 ^ 52 + v0) 52 = c0 /\ Z.land (c0 * 2 ^ 52 + v0) M52 = v0 /\
  w64 (t1 + c0) = c1 * 2 ^ 52 + v1 /\ 
  Z.shiftr (c1 * 2 ^ 52 + v1) 52 = c1 /\ Z.land (c1 * 2 ^ 52 + v1) M52 = v1 /\
  w64 (t2 + c1) = c2 * 2 ^ 52 + v2 /\ 
  Z.shiftr (c2 * 2 ^ 52 + v2) 52 = c2 /\ Z.land (c2 * 2 ^ 52 + v2) M52 = v2 /\
  w64 (t3 + c2) = c3 * 2 ^ 52 + v3 /\ 
  Z.shiftr (c3 * 2 ^ 52 + v3) 52 = c3 /\ Z.land (c3 * 2 ^ 52 + v3) M52 = v3 /\
  Z.land (w64 (t4 + c3)) M48 = v4 /\
  tval v0 v1 v2 v3 v4 = tval t0 t1 t2 t3 t4 - x * p /\
  0 <= v0 <= M52 /\ 0 <= v1 <= M52 /\ 0 <= v2 <= M52 /\ 0 <= v3 <= M52 /\ 0 <= v4 <= M48 /\ tval v0 v1 v2 v3 v4 < p.
Proof.
  intros H0 H1 H2 H3 H4 x.
  assert (HX : (x = 1 /\ p <= tval t0 t1 t2 t3 t4) \/ (x = 0 /\ tval t0 t1 t2 t3 t4 < p)).
  { subst x. destruct (Z.leb_spec p (tval t0 t1 t2 t3 t4)); [left|right]; split; try assumption; reflexivity. }
  clearbody x. assert (Hx : 0 <= x <= 1) by lia.
  assert (Hp : p = 2 ^ 256 - 4294968273) by reflexivity. 
  destruct (split_word (t0 + x * RED) 52) as (c0 & v0 & E0 & Ht0 & Hc0 & X3 & X4); [lia|fconst; lia|].
  assert (Bc0 : c0 <= 1) by (fconst; lia).
  destruct (split_word (t1 + c0) 52) as (c1 & v1 & E1 & Ht1 & Hc1 & X5 & X6); [lia|fconst; lia|].
  assert (Bc1 : c1 <= 1) by (fconst; lia).
  destruct (split_word (t2 + c1) 52) as (c2 & v2 & E2 & Ht2 & Hc2 & X7 & X8); [lia|fconst; lia|].
  assert (Bc2 : c2 <= 1) by (fconst; lia).
  destruct (split_word (t3 + c2) 52) as (c3 & v3 & E3 & Ht3 & Hc3 & X9 & X10); [lia|fconst; lia|].
  assert (Bc3 : c3 <= 1) by (fconst; lia).
  destruct (split_word (t4 + c3) 48) as (q & v4 & E4 & Ht4 & Hq & X11 & X12); [lia|fconst; lia|].
  exists c0, c1, c2, c3, v0, v1, v2, v3, v4.
  rewrite <- E0, <- E1, <- E2, <- E3.
  assert (W0 : w64 (x * RED) = x * RED) by (apply w64_id; fconst; lia). rewrite W0.
  assert (W4 : w64 (t4 + c3) = t4 + c3) by (apply w64_id; fconst; lia). rewrite W4.
  change (2 ^ 52 - 1) with M52 in *. change (2 ^ 48 - 1) with M48 in *.
  rewrite Hp in HX. unfold tval in *.
  assert (Q : q = x) by (fconst; lia). subst q.
  assert (V : v0 + v1 * 2 ^ 52 + v2 * 2 ^ 104 + v3 * 2 ^ 156 + v4 * 2 ^ 208 =
    t0 + t1 * 2 ^ 52 + t2 * 2 ^ 104 + t3 * 2 ^ 156 + t4 * 2 ^ 208 - x * p).
  { rewrite Hp. clear HX. fconst. lia. }
  repeat match goal with |- _ /\ _ => split end; try assumption; try reflexivity; try (apply w64_id);
    try (fconst; lia).
Qed.

Lemma norm_result r x v0 v1 v2 v3 v4 :
  tval v0 v1 v2 v3 v4 = fval r - x * p -> 
  0 <= v0 <= M52 /\ 0 <= v1 <= M52 /\ 0 <= v2 <= M52 /\ 0 <= v3 <= M52 /\ 0 <= v4 <= M48 /\ tval v0 v1 v2 v3 v4 < p ->
  fe_norm (mkfe v0 v1 v2 v3 v4) /\ fval (mkfe v0 v1 v2 v3 v4) = fval r mod p.
Proof.
  intros E (H0 & H1 & H2 & H3 & H4 & H5). unfold fe_norm. cbn [n0 n1 n2 n3 n4].
  change (fval (mkfe v0 v1 v2 v3 v4)) with (tval v0 v1 v2 v3 v4).
  split; [repeat split; lia|].
  apply Z.mod_unique with x; [|lia]. left. split; [|assumption]. unfold tval. lia.
Qed.

Lemma fe_normalize_ok r : fe_mag 32 r ->
  fe_norm (fe_normalize r) /\ fval (fe_normalize r) = fval r mod p.
Proof.
  intros Hr. destruct (first_pass r Hr) as (x & u4 & c0 & c1 & c2 & c3 & t0 & t1 & t2 & t3 & t4 &
    X1 & X2 & X3 & X4 & X5 & X6 & X7 & X8 & X9 & X10 & X11 & X12 & X13 & X14 & X15 & X16 & X17 & X18 & X19 & X20 & X21 &
    B0 & B1 & B2 & B3 & B4 & BX).
  destruct (final_pass t0 t1 t2 t3 t4 B0 B1 B2 B3 B4) as (d0 & d1 & d2 & d3 & v0 & v1 & v2 & v3 & v4 &
    Y1 & Y2 & Y3 & Y4 & Y5 & Y6 & Y7 & Y8 & Y9 & Y10 & Y11 & Y12 & Y13 & Y14 & Y15).
  assert (E : fe_normalize r = mkfe v0 v1 v2 v3 v4).
  { unfold fe_normalize.
    rewrite X1, X2, X4, X6, X7, X8, X10, X11, X12, X14, X15, X16, X18, X19, X20.
    rewrite (final_x t0 t1 t2 t3 t4 B0 B1 B2 B3 B4).
    rewrite Y1, Y2, Y3, Y4, Y5, Y6, Y7, Y8, Y9, Y10, Y11, Y12, Y13. reflexivity. }
  rewrite E. apply norm_result with (x := x + b2z (p <=? tval t0 t1 t2 t3 t4)); [|exact Y15].
  rewrite Y14. unfold tval at 1, fval.
  generalize (b2z (p <=? tval t0 t1 t2 t3 t4)). intros b.
  change p with (2 ^ 256 - 4294968273). fconst. lia.
Qed.

Lemma fe_normalize_var_eq r : fe_mag 32 r -> fe_normalize_var r = fe_normalize r.
Proof.
  intros Hr. destruct (first_pass r Hr) as (x & u4 & c0 & c1 & c2 & c3 & t0 & t1 & t2 & t3 & t4 &
    X1 & X2 & X3 & X4 & X5 & X6 & X7 & X8 & X9 & X10 & X11 & X12 & X13 & X14 & X15 & X16 & X17 & X18 & X19 & X20 & X21 &
    B0 & B1 & B2 & B3 & B4 & BX).
  destruct (final_pass t0 t1 t2 t3 t4 B0 B1 B2 B3 B4) as (d0 & d1 & d2 & d3 & v0 & v1 & v2 & v3 & v4 &
    Y1 & Y2 & Y3 & Y4 & Y5 & Y6 & Y7 & Y8 & Y9 & Y10 & Y11 & Y12 & Y13 & Y14 & Y15).
  unfold fe_normalize, fe_normalize_var.
  rewrite X1, X2, X4, X6, X7, X8, X10, X11, X12, X14, X15, X16, X18, X19, X20.
  rewrite (final_x t0 t1 t2 t3 t4 B0 B1 B2 B3 B4).
  rewrite Y1, Y2, Y3, Y4, Y5, Y6, Y7, Y8, Y9, Y10, Y11, Y12, Y13.
  destruct (p <=? tval t0 t1 t2 t3 t4) eqn:C; cbn [b2z Z.eqb] in *.
  - change (w64 (1 * RED)) with RED in Y1.
    rewrite Y1, Y2, Y3, Y4, Y5, Y6, Y7, Y8, Y9, Y10, Y11, Y12, Y13. reflexivity.
  - unfold tval in Y14. clear -Y14 Y15 B0 B1 B2 B3 B4.
    assert (v4 = t4) by (fconst; lia). subst v4. assert (v3 = t3) by (fconst; lia). subst v3.
    assert (v2 = t2) by (fconst; lia). subst v2. assert (v1 = t1) by (fconst; lia). subst v1.
    f_equal. lia.
Qed.
