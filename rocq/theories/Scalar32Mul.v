(** Correctness of 32-bit scalar multiplication: mul_512, reduce_512, mul. *)
Require Import ZArith List Bool Lia Znumtheory.
From Verif Require Import Word Word32 Spec Bytes ZmField Curve FieldModel ScalarModel ScalarProof ScalarProof2 ScalarMul Scalar32Model Scalar32Proof Scalar32Proof2.
Import ListNotations.
Local Open Scope Z_scope.

(** The accumulator (c0,c1,c2) holds the value V. *)
Definition ac (c : acc3) (V : Z) : Prop :=
  exists c0 c1 c2, c = (c0, c1, c2) /\ hw c0 /\ hw c1 /\ 0 <= c2 /\ V = c0 + c1 * 2 ^ 32 + c2 * 2 ^ 64.
Definition acb (c : acc3) (V B : Z) : Prop := ac c V /\ V <= B.
Lemma acb_nonneg c V B : acb c V B -> 0 <= V.
Proof. intros [(c0 & c1 & c2 & -> & H0 & H1 & H2 & ->) _]. unfold hw in *. lia. Qed.
(** 32-bit addition with carry detected by comparison. *)
Lemma add_carry32 x y : hw x -> hw y -> exists k e, w32 (x + y) = e /\ b2z (e <? y) = k /\ 0 <= k <= 1 /\ hw e /\ x + y = e + k * 2 ^ 32.
Proof.
  unfold hw. intros Hx Hy. exists (b2z (w32 (x + y) <? y)), (w32 (x + y)). split; [reflexivity|]. split; [reflexivity|].
  split; [apply b2z_range|]. split; [apply Z.mod_pos_bound; reflexivity|].
  destruct (Z_lt_le_dec (x + y) (2 ^ 32)).
  - rewrite w32_id by lia. destruct (Z.ltb_spec (x + y) y); [lia|]. cbn [b2z]. lia.
  - assert (E : w32 (x + y) = x + y - 2 ^ 32).
    { unfold w32. symmetry. apply Z.mod_unique with 1; [left; lia|lia]. }
    rewrite E. destruct (Z.ltb_spec (x + y - 2 ^ 32) y); [|lia]. cbn [b2z]. lia.
Qed.
Lemma mul_split32 a b : hw a -> hw b -> exists th tl, w32 (Z.shiftr (w64 (a * b)) 32) = th /\ w32 (w64 (a * b)) = tl /\
  a * b = tl + th * 2 ^ 32 /\ hw tl /\ 0 <= th <= 2 ^ 32 - 2.
Proof.
  intros Ha Hb. unfold hw in *.
  assert (P : 0 <= a * b <= (2 ^ 32 - 1) * (2 ^ 32 - 1)) by nia.
  rewrite w64_id by lia. rewrite shiftr_div by lia.
  assert (Q : 0 <= a * b / 2 ^ 32 <= 2 ^ 32 - 2).
  { split; [apply Z.div_pos; lia|]. assert (a * b / 2 ^ 32 < 2 ^ 32 - 1); [|lia]. apply Z.div_lt_upper_bound; lia. }
  rewrite w32_id by lia. exists (a * b / 2 ^ 32), (w32 (a * b)). split; [reflexivity|]. split; [reflexivity|].
  pose proof (Z.div_mod (a * b) (2 ^ 32) ltac:(discriminate)) as D. unfold w32.
  split; [rewrite D at 1; ring|]. split; [apply Z.mod_pos_bound; reflexivity|exact Q].
Qed.
Lemma muladd_gen32 c0 c1 c2 a b V th tl : hw c0 -> hw c1 -> 0 <= c2 -> V = c0 + c1 * 2 ^ 32 + c2 * 2 ^ 64 ->
  a * b = tl + th * 2 ^ 32 -> hw tl -> 0 <= th <= 2 ^ 32 - 2 ->
  exists e0 e1 e2, hw e0 /\ hw e1 /\ 0 <= e2 <= 1 /\ w32 (c0 + tl) = e0 /\
  w32 (c1 + w32 (th + b2z (e0 <? tl))) = e1 /\ b2z (e1 <? w32 (th + b2z (e0 <? tl))) = e2 /\
  V + a * b = e0 + e1 * 2 ^ 32 + (c2 + e2) * 2 ^ 64.
Proof.
  intros H0 H1 H2 EV EP Htl Hth.
  destruct (add_carry32 c0 tl H0 Htl) as (k & e0 & E0 & K0 & Bk & W0 & S0).
  exists e0. rewrite K0.
  assert (Wt : hw (th + k)) by (unfold hw in *; lia).
  rewrite (w32_id (th + k)) by exact Wt.
  destruct (add_carry32 c1 _ H1 Wt) as (k1 & e1 & E1 & K1 & Bk1 & W1 & S1).
  exists e1, k1. repeat (split; [assumption|]). rewrite EV, EP. clear -S0 S1. lia.
Qed.
Lemma muladd32_ok c V a b : ac c V -> hw a -> hw b -> V + a * b < 2 ^ 96 -> ac (muladd32 c a b) (V + a * b).
Proof.
  intros (c0 & c1 & c2 & -> & H0 & H1 & H2 & EV) Ha Hb HL. unfold muladd32.
  destruct (mul_split32 a b Ha Hb) as (th & tl & -> & -> & EP & Htl & Hth).
  destruct (muladd_gen32 c0 c1 c2 a b V th tl H0 H1 H2 EV EP Htl Hth) as (e0 & e1 & e2 & W0 & W1 & W2 & E0 & E1 & E2 & S).
  cbv zeta. rewrite E0, E1, E2. unfold hw in *. rewrite w32_id by lia. exists e0, e1, (c2 + e2). repeat split; assumption || apply W0 || apply W1 || lia.
Qed.
Lemma muladd_fast32_ok c V a b : ac c V -> hw a -> hw b -> V + a * b < 2 ^ 64 -> ac (muladd_fast32 c a b) (V + a * b).
Proof.
  intros (c0 & c1 & c2 & -> & H0 & H1 & H2 & EV) Ha Hb HL. unfold muladd_fast32.
  destruct (mul_split32 a b Ha Hb) as (th & tl & -> & -> & EP & Htl & Hth).
  destruct (muladd_gen32 c0 c1 c2 a b V th tl H0 H1 H2 EV EP Htl Hth) as (e0 & e1 & e2 & W0 & W1 & W2 & E0 & E1 & E2 & S).
  cbv zeta. rewrite E0, E1. unfold hw in *. exists e0, e1, c2. replace (c2 + e2) with c2 in S by lia.
  repeat split; assumption || apply W0 || apply W1 || lia.
Qed.
Lemma sumadd_gen32 c0 c1 c2 a V : hw c0 -> hw c1 -> 0 <= c2 -> V = c0 + c1 * 2 ^ 32 + c2 * 2 ^ 64 -> hw a ->
  exists e0 e1 e2, hw e0 /\ hw e1 /\ 0 <= e2 <= 1 /\ w32 (c0 + a) = e0 /\ w32 (c1 + b2z (e0 <? a)) = e1 /\
   b2z (e1 <? b2z (e0 <? a)) = e2 /\ V + a = e0 + e1 * 2 ^ 32 + (c2 + e2) * 2 ^ 64.
Proof.
  intros H0 H1 H2 EV Ha. destruct (add_carry32 c0 a H0 Ha) as (k & e0 & E0 & K0 & Bk & W0 & S0).
  assert (Wk : hw k) by (unfold hw; lia).
  destruct (add_carry32 c1 k H1 Wk) as (k1 & e1 & E1 & K1 & Bk1 & W1 & S1).
  exists e0, e1, k1. rewrite K0. repeat (split; [assumption|]). rewrite EV. clear -S0 S1. lia.
Qed.
Lemma sumadd32_ok c V a : ac c V -> hw a -> V + a < 2 ^ 96 -> ac (sumadd32 c a) (V + a).
Proof.
  intros (c0 & c1 & c2 & -> & H0 & H1 & H2 & EV) Ha HL. unfold sumadd32.
  destruct (sumadd_gen32 c0 c1 c2 a V H0 H1 H2 EV Ha) as (e0 & e1 & e2 & W0 & W1 & W2 & E0 & E1 & E2 & S).
  cbv zeta. rewrite E0, E1, E2. unfold hw in *. rewrite w32_id by lia. exists e0, e1, (c2 + e2). repeat split; assumption || apply W0 || apply W1 || lia.
Qed.
Lemma sumadd_fast32_ok c V a : ac c V -> hw a -> V + a < 2 ^ 64 -> ac (sumadd_fast32 c a) (V + a).
Proof.
  intros (c0 & c1 & c2 & -> & H0 & H1 & H2 & EV) Ha HL. unfold sumadd_fast32.
  destruct (sumadd_gen32 c0 c1 c2 a V H0 H1 H2 EV Ha) as (e0 & e1 & e2 & W0 & W1 & W2 & E0 & E1 & E2 & S).
  cbv zeta. rewrite E0, E1. unfold hw in *. exists e0, e1, c2. replace (c2 + e2) with c2 in S by lia.
  repeat split; assumption || apply W0 || apply W1 || lia.
Qed.

Definition W32 : Z := 2 ^ 32 - 1.
Lemma hw_le x : hw x -> x <= W32. Proof. unfold hw, W32. lia. Qed.
Lemma hw_mul a b A B : hw a -> hw b -> a <= A -> b <= B -> 0 <= A -> a * b <= A * B.
Proof. unfold hw. intros. nia. Qed.
Lemma mul32_b c V B a b A1 B1 : acb c V B -> hw a -> hw b -> a <= A1 -> b <= B1 -> (0 <=? A1) && (B + A1 * B1 <? 2 ^ 96) = true -> acb (muladd32 c a b) (V + a * b) (B + A1 * B1).
Proof.
  intros [HA HB] Ha Hb HA1 HB1 HL. apply andb_prop in HL as [H0 HL]. apply Z.leb_le in H0. apply Z.ltb_lt in HL.
  pose proof (hw_mul a b _ _ Ha Hb HA1 HB1 H0) as P.
  split; [|lia]. apply muladd32_ok; [assumption|assumption|assumption|]. lia.
Qed.
Lemma mulf32_b c V B a b A1 B1 : acb c V B -> hw a -> hw b -> a <= A1 -> b <= B1 -> (0 <=? A1) && (B + A1 * B1 <? 2 ^ 64) = true -> acb (muladd_fast32 c a b) (V + a * b) (B + A1 * B1).
Proof.
  intros [HA HB] Ha Hb HA1 HB1 HL. apply andb_prop in HL as [H0 HL]. apply Z.leb_le in H0. apply Z.ltb_lt in HL.
  pose proof (hw_mul a b _ _ Ha Hb HA1 HB1 H0) as P.
  split; [|lia]. apply muladd_fast32_ok; [assumption|assumption|assumption|]. lia.
Qed.
Lemma sum32_b c V B a A1 : acb c V B -> hw a -> a <= A1 -> (B + A1 <? 2 ^ 96) = true -> acb (sumadd32 c a) (V + a) (B + A1).
Proof.
  intros [HA HB] Ha HA1 HL. apply Z.ltb_lt in HL. split; [|lia]. apply sumadd32_ok; [assumption|assumption|]. lia.
Qed.
Lemma sumf32_b c V B a A1 : acb c V B -> hw a -> a <= A1 -> (B + A1 <? 2 ^ 64) = true -> acb (sumadd_fast32 c a) (V + a) (B + A1).
Proof.
  intros [HA HB] Ha HA1 HL. apply Z.ltb_lt in HL. split; [|lia]. apply sumadd_fast32_ok; [assumption|assumption|]. lia.
Qed.
Lemma ext32_b c V B : acb c V B -> (B <? 2 ^ 96) = true -> exists q r, V = q * 2 ^ 32 + r /\ hw r /\ extract_limb32 c = r /\ acb (extract_rest32 c) q (B / 2 ^ 32).
Proof.
  intros [(c0 & c1 & c2 & -> & H0 & H1 & H2 & EV) HB] HL. apply Z.ltb_lt in HL.
  exists (c1 + c2 * 2 ^ 32), c0. unfold extract_limb32, extract_rest32. cbn [fst snd].
  split; [rewrite EV; ring|]. split; [assumption|]. split; [reflexivity|]. unfold hw in *.
  split; [|apply Z.div_le_lower_bound; lia]. exists c1, c2, 0. repeat split; lia.
Qed.
Lemma extf32_b c V B : acb c V B -> (B <? 2 ^ 64) = true -> exists q r, V = q * 2 ^ 32 + r /\ hw r /\ extract_limb32 c = r /\ acb (extract_fast_rest32 c) q (B / 2 ^ 32).
Proof.
  intros [(c0 & c1 & c2 & -> & H0 & H1 & H2 & EV) HB] HL. apply Z.ltb_lt in HL. unfold hw in *. assert (c2 = 0) by lia. subst c2.
  exists c1, c0. unfold extract_limb32, extract_fast_rest32. cbn [fst snd].
  split; [rewrite EV; ring|]. split; [assumption|]. split; [reflexivity|].
  split; [|apply Z.div_le_lower_bound; lia]. exists c1, 0, 0. repeat split; lia.
Qed.
Lemma acb_limb c V B : acb c V B -> (B <? 2 ^ 32) = true -> extract_limb32 c = V /\ hw V.
Proof.
  intros [(c0 & c1 & c2 & -> & H0 & H1 & H2 & EV) HB] HL. apply Z.ltb_lt in HL. unfold hw in *. unfold extract_limb32. cbn [fst].
  assert (c1 = 0) by lia. assert (c2 = 0) by lia. lia.
Qed.
Lemma acb_0 : acb (0, 0, 0) 0 0.
Proof. split; [|lia]. exists 0, 0, 0. unfold hw. repeat split; lia. Qed.
Lemma acb_init x : hw x -> acb (x, 0, 0) x W32.
Proof. intros H. unfold hw, W32 in *. split; [|lia]. exists x, 0, 0. unfold hw. repeat split; lia. Qed.

Ltac nb32 A := match type of A with acb ?c ?V ?B => let B' := eval vm_compute in B in change (acb c V B') in A end.
Ltac ub32 x := match goal with H : x <= ?B |- _ => constr:(H) | H : hw x |- _ => constr:(hw_le x H) end.
Ltac st32 E A :=
  let A' := fresh "A" in
  lazymatch type of E with
  | ?c' = muladd32 ?c ?a ?b => let Ha := ub32 a in let Hb := ub32 b in
      pose proof (mul32_b c _ _ a b _ _ A ltac:(assumption) ltac:(assumption) Ha Hb eq_refl) as A'
  | ?c' = muladd_fast32 ?c ?a ?b => let Ha := ub32 a in let Hb := ub32 b in
      pose proof (mulf32_b c _ _ a b _ _ A ltac:(assumption) ltac:(assumption) Ha Hb eq_refl) as A'
  | ?c' = sumadd32 ?c ?a => let Ha := ub32 a in
      pose proof (sum32_b c _ _ a _ A ltac:(assumption) Ha eq_refl) as A'
  | ?c' = sumadd_fast32 ?c ?a => let Ha := ub32 a in
      pose proof (sumf32_b c _ _ a _ A ltac:(assumption) Ha eq_refl) as A'
  end; rewrite <- E in A'; nb32 A'; clear E A; rename A' into A.
Ltac ex32 L Er Ec A q S :=
  let A' := fresh "A" in let r := fresh "r" in let Hr := fresh "H" in let EL := fresh "E" in
  destruct (L _ _ _ A eq_refl) as (q & r & S & Hr & EL & A'); rewrite <- Er in EL; rewrite <- Ec in A'; nb32 A';
  clear Er Ec A; rename A' into A; subst r.
Ltac go32 A :=
  match type of A with acb ?c _ _ =>
    match goal with
    | E : _ = muladd32 c _ _ |- _ => st32 E A
    | E : _ = muladd_fast32 c _ _ |- _ => st32 E A
    | E : _ = sumadd32 c _ |- _ => st32 E A
    | E : _ = sumadd_fast32 c _ |- _ => st32 E A
    | Er : _ = extract_limb32 c, Ec : _ = extract_rest32 c |- _ => let q := fresh "q" in let S := fresh "S" in ex32 ext32_b Er Ec A q S
    | Er : _ = extract_limb32 c, Ec : _ = extract_fast_rest32 c |- _ => let q := fresh "q" in let S := fresh "S" in ex32 extf32_b Er Ec A q S
    end end.

Lemma mul512_8 a0 a1 a2 a3 a4 a5 a6 a7 b0 b1 b2 b3 b4 b5 b6 b7 x0 x1 x2 x3 x4 x5 x6 x7 x8 x9 x10 x11 x12 x13 x14 x15 q0 q1 q2 q3 q4 q5 q6 q7 q8 q9 q10 q11 q12 q13 :
  0 + a0 * b0 = q0 * 2 ^ 32 + x0 ->
  q0 + a0 * b1 + a1 * b0 = q1 * 2 ^ 32 + x1 ->
  q1 + a0 * b2 + a1 * b1 + a2 * b0 = q2 * 2 ^ 32 + x2 ->
  q2 + a0 * b3 + a1 * b2 + a2 * b1 + a3 * b0 = q3 * 2 ^ 32 + x3 ->
  q3 + a0 * b4 + a1 * b3 + a2 * b2 + a3 * b1 + a4 * b0 = q4 * 2 ^ 32 + x4 ->
  q4 + a0 * b5 + a1 * b4 + a2 * b3 + a3 * b2 + a4 * b1 + a5 * b0 = q5 * 2 ^ 32 + x5 ->
  q5 + a0 * b6 + a1 * b5 + a2 * b4 + a3 * b3 + a4 * b2 + a5 * b1 + a6 * b0 = q6 * 2 ^ 32 + x6 ->
  q6 + a0 * b7 + a1 * b6 + a2 * b5 + a3 * b4 + a4 * b3 + a5 * b2 + a6 * b1 + a7 * b0 = q7 * 2 ^ 32 + x7 ->
  q7 + a1 * b7 + a2 * b6 + a3 * b5 + a4 * b4 + a5 * b3 + a6 * b2 + a7 * b1 = q8 * 2 ^ 32 + x8 ->
  q8 + a2 * b7 + a3 * b6 + a4 * b5 + a5 * b4 + a6 * b3 + a7 * b2 = q9 * 2 ^ 32 + x9 ->
  q9 + a3 * b7 + a4 * b6 + a5 * b5 + a6 * b4 + a7 * b3 = q10 * 2 ^ 32 + x10 ->
  q10 + a4 * b7 + a5 * b6 + a6 * b5 + a7 * b4 = q11 * 2 ^ 32 + x11 ->
  q11 + a5 * b7 + a6 * b6 + a7 * b5 = q12 * 2 ^ 32 + x12 ->
  q12 + a6 * b7 + a7 * b6 = q13 * 2 ^ 32 + x13 ->
  q13 + a7 * b7 = x15 * 2 ^ 32 + x14 ->
  x0 + x1 * 2 ^ 32 + x2 * 2 ^ 64 + x3 * 2 ^ 96 + x4 * 2 ^ 128 + x5 * 2 ^ 160 + x6 * 2 ^ 192 + x7 * 2 ^ 224 + x8 * 2 ^ 256 + x9 * 2 ^ 288 + x10 * 2 ^ 320 + x11 * 2 ^ 352 + x12 * 2 ^ 384 + x13 * 2 ^ 416 + x14 * 2 ^ 448 + x15 * 2 ^ 480 =
  (a0 + a1 * 2 ^ 32 + a2 * 2 ^ 64 + a3 * 2 ^ 96 + a4 * 2 ^ 128 + a5 * 2 ^ 160 + a6 * 2 ^ 192 + a7 * 2 ^ 224) * (b0 + b1 * 2 ^ 32 + b2 * 2 ^ 64 + b3 * 2 ^ 96 + b4 * 2 ^ 128 + b5 * 2 ^ 160 + b6 * 2 ^ 192 + b7 * 2 ^ 224).
Proof.
  intros H0 H1 H2 H3 H4 H5 H6 H7 H8 H9 H10 H11 H12 H13 H14.
  transitivity (((q0 * 2 ^ 32 + x0)) + ((q1 * 2 ^ 32 + x1) - q0) * 2 ^ 32 + ((q2 * 2 ^ 32 + x2) - q1) * 2 ^ 64 + ((q3 * 2 ^ 32 + x3) - q2) * 2 ^ 96 + ((q4 * 2 ^ 32 + x4) - q3) * 2 ^ 128 + ((q5 * 2 ^ 32 + x5) - q4) * 2 ^ 160 + ((q6 * 2 ^ 32 + x6) - q5) * 2 ^ 192 + ((q7 * 2 ^ 32 + x7) - q6) * 2 ^ 224 + ((q8 * 2 ^ 32 + x8) - q7) * 2 ^ 256 + ((q9 * 2 ^ 32 + x9) - q8) * 2 ^ 288 + ((q10 * 2 ^ 32 + x10) - q9) * 2 ^ 320 + ((q11 * 2 ^ 32 + x11) - q10) * 2 ^ 352 + ((q12 * 2 ^ 32 + x12) - q11) * 2 ^ 384 + ((q13 * 2 ^ 32 + x13) - q12) * 2 ^ 416 + ((x15 * 2 ^ 32 + x14) - q13) * 2 ^ 448).
  - ring.
  - rewrite <- H0, <- H1, <- H2, <- H3, <- H4, <- H5, <- H6, <- H7, <- H8, <- H9, <- H10, <- H11, <- H12, <- H13, <- H14. ring.
Qed.
Lemma red512_8a l0 l1 l2 l3 l4 l5 l6 l7 l8 l9 l10 l11 l12 l13 l14 l15 K0 K1 K2 K3 m0 m1 m2 m3 m4 m5 m6 m7 m8 m9 m10 m11 m12 q0 q1 q2 q3 q4 q5 q6 q7 q8 q9 q10 :
  l0 + l8 * K0 = q0 * 2 ^ 32 + m0 ->
  q0 + l1 + l9 * K0 + l8 * K1 = q1 * 2 ^ 32 + m1 ->
  q1 + l2 + l10 * K0 + l9 * K1 + l8 * K2 = q2 * 2 ^ 32 + m2 ->
  q2 + l3 + l11 * K0 + l10 * K1 + l9 * K2 + l8 * K3 = q3 * 2 ^ 32 + m3 ->
  q3 + l4 + l12 * K0 + l11 * K1 + l10 * K2 + l9 * K3 + l8 = q4 * 2 ^ 32 + m4 ->
  q4 + l5 + l13 * K0 + l12 * K1 + l11 * K2 + l10 * K3 + l9 = q5 * 2 ^ 32 + m5 ->
  q5 + l6 + l14 * K0 + l13 * K1 + l12 * K2 + l11 * K3 + l10 = q6 * 2 ^ 32 + m6 ->
  q6 + l7 + l15 * K0 + l14 * K1 + l13 * K2 + l12 * K3 + l11 = q7 * 2 ^ 32 + m7 ->
  q7 + l15 * K1 + l14 * K2 + l13 * K3 + l12 = q8 * 2 ^ 32 + m8 ->
  q8 + l15 * K2 + l14 * K3 + l13 = q9 * 2 ^ 32 + m9 ->
  q9 + l15 * K3 + l14 = q10 * 2 ^ 32 + m10 ->
  q10 + l15 = m12 * 2 ^ 32 + m11 ->
  m0 + m1 * 2 ^ 32 + m2 * 2 ^ 64 + m3 * 2 ^ 96 + m4 * 2 ^ 128 + m5 * 2 ^ 160 + m6 * 2 ^ 192 + m7 * 2 ^ 224 + (m8 + m9 * 2 ^ 32 + m10 * 2 ^ 64 + m11 * 2 ^ 96 + m12 * 2 ^ 128) * 2 ^ 256 =
  l0 + l1 * 2 ^ 32 + l2 * 2 ^ 64 + l3 * 2 ^ 96 + l4 * 2 ^ 128 + l5 * 2 ^ 160 + l6 * 2 ^ 192 + l7 * 2 ^ 224 + (l8 + l9 * 2 ^ 32 + l10 * 2 ^ 64 + l11 * 2 ^ 96 + l12 * 2 ^ 128 + l13 * 2 ^ 160 + l14 * 2 ^ 192 + l15 * 2 ^ 224) * (K0 + K1 * 2 ^ 32 + K2 * 2 ^ 64 + K3 * 2 ^ 96 + 2 ^ 128).
Proof.
  intros H0 H1 H2 H3 H4 H5 H6 H7 H8 H9 H10 H11.
  transitivity (((q0 * 2 ^ 32 + m0)) + ((q1 * 2 ^ 32 + m1) - q0) * 2 ^ 32 + ((q2 * 2 ^ 32 + m2) - q1) * 2 ^ 64 + ((q3 * 2 ^ 32 + m3) - q2) * 2 ^ 96 + ((q4 * 2 ^ 32 + m4) - q3) * 2 ^ 128 + ((q5 * 2 ^ 32 + m5) - q4) * 2 ^ 160 + ((q6 * 2 ^ 32 + m6) - q5) * 2 ^ 192 + ((q7 * 2 ^ 32 + m7) - q6) * 2 ^ 224 + ((q8 * 2 ^ 32 + m8) - q7) * 2 ^ 256 + ((q9 * 2 ^ 32 + m9) - q8) * 2 ^ 288 + ((q10 * 2 ^ 32 + m10) - q9) * 2 ^ 320 + ((m12 * 2 ^ 32 + m11) - q10) * 2 ^ 352).
  - ring.
  - rewrite <- H0, <- H1, <- H2, <- H3, <- H4, <- H5, <- H6, <- H7, <- H8, <- H9, <- H10, <- H11. ring.
Qed.
Lemma red512_8b m0 m1 m2 m3 m4 m5 m6 m7 m8 m9 m10 m11 m12 K0 K1 K2 K3 p0 p1 p2 p3 p4 p5 p6 p7 q7 q0 q1 q2 q3 q4 q5 q6 :
  m0 + m8 * K0 = q0 * 2 ^ 32 + p0 ->
  q0 + m1 + m9 * K0 + m8 * K1 = q1 * 2 ^ 32 + p1 ->
  q1 + m2 + m10 * K0 + m9 * K1 + m8 * K2 = q2 * 2 ^ 32 + p2 ->
  q2 + m3 + m11 * K0 + m10 * K1 + m9 * K2 + m8 * K3 = q3 * 2 ^ 32 + p3 ->
  q3 + m4 + m12 * K0 + m11 * K1 + m10 * K2 + m9 * K3 + m8 = q4 * 2 ^ 32 + p4 ->
  q4 + m5 + m12 * K1 + m11 * K2 + m10 * K3 + m9 = q5 * 2 ^ 32 + p5 ->
  q5 + m6 + m12 * K2 + m11 * K3 + m10 = q6 * 2 ^ 32 + p6 ->
  q6 + m7 + m12 * K3 + m11 = q7 * 2 ^ 32 + p7 ->
  p0 + p1 * 2 ^ 32 + p2 * 2 ^ 64 + p3 * 2 ^ 96 + p4 * 2 ^ 128 + p5 * 2 ^ 160 + p6 * 2 ^ 192 + p7 * 2 ^ 224 + (q7 + m12) * 2 ^ 256 =
  m0 + m1 * 2 ^ 32 + m2 * 2 ^ 64 + m3 * 2 ^ 96 + m4 * 2 ^ 128 + m5 * 2 ^ 160 + m6 * 2 ^ 192 + m7 * 2 ^ 224 + (m8 + m9 * 2 ^ 32 + m10 * 2 ^ 64 + m11 * 2 ^ 96 + m12 * 2 ^ 128) * (K0 + K1 * 2 ^ 32 + K2 * 2 ^ 64 + K3 * 2 ^ 96 + 2 ^ 128).
Proof.
  intros H0 H1 H2 H3 H4 H5 H6 H7.
  transitivity (((q0 * 2 ^ 32 + p0)) + ((q1 * 2 ^ 32 + p1) - q0) * 2 ^ 32 + ((q2 * 2 ^ 32 + p2) - q1) * 2 ^ 64 + ((q3 * 2 ^ 32 + p3) - q2) * 2 ^ 96 + ((q4 * 2 ^ 32 + p4) - q3) * 2 ^ 128 + ((q5 * 2 ^ 32 + p5) - q4) * 2 ^ 160 + ((q6 * 2 ^ 32 + p6) - q5) * 2 ^ 192 + ((q7 * 2 ^ 32 + p7) - q6) * 2 ^ 224 + m12 * 2 ^ 256).
  - ring.
  - rewrite <- H0, <- H1, <- H2, <- H3, <- H4, <- H5, <- H6, <- H7. ring.
Qed.

(** The value of a list of sixteen limbs. *)
Definition lv16 (l : list Z) : Z := nth 0 l 0 + nth 1 l 0 * 2 ^ 32 + nth 2 l 0 * 2 ^ 64 + nth 3 l 0 * 2 ^ 96 + nth 4 l 0 * 2 ^ 128 + nth 5 l 0 * 2 ^ 160 + nth 6 l 0 * 2 ^ 192 + nth 7 l 0 * 2 ^ 224 + nth 8 l 0 * 2 ^ 256 + nth 9 l 0 * 2 ^ 288 + nth 10 l 0 * 2 ^ 320 + nth 11 l 0 * 2 ^ 352 + nth 12 l 0 * 2 ^ 384 + nth 13 l 0 * 2 ^ 416 + nth 14 l 0 * 2 ^ 448 + nth 15 l 0 * 2 ^ 480.
Definition l16_lim (l : list Z) : Prop := length l = 16%nat /\ Forall hw l.
Lemma s8_mul_512_val a b l : s8_mul_512 a b = l -> s8_lim a -> s8_lim b -> l16_lim l /\ lv16 l = s8v a * s8v b.
Proof.
  intros H (A0 & A1 & A2 & A3 & A4 & A5 & A6 & A7) (B0 & B1 & B2 & B3 & B4 & B5 & B6 & B7).
  cbv beta delta [s8_mul_512] in H. unfold s8v.
  remember (sd0 a) as a0 eqn:Q; clear Q.
  remember (sd1 a) as a1 eqn:Q; clear Q.
  remember (sd2 a) as a2 eqn:Q; clear Q.
  remember (sd3 a) as a3 eqn:Q; clear Q.
  remember (sd4 a) as a4 eqn:Q; clear Q.
  remember (sd5 a) as a5 eqn:Q; clear Q.
  remember (sd6 a) as a6 eqn:Q; clear Q.
  remember (sd7 a) as a7 eqn:Q; clear Q.
  remember (sd0 b) as b0 eqn:Q; clear Q.
  remember (sd1 b) as b1 eqn:Q; clear Q.
  remember (sd2 b) as b2 eqn:Q; clear Q.
  remember (sd3 b) as b3 eqn:Q; clear Q.
  remember (sd4 b) as b4 eqn:Q; clear Q.
  remember (sd5 b) as b5 eqn:Q; clear Q.
  remember (sd6 b) as b6 eqn:Q; clear Q.
  remember (sd7 b) as b7 eqn:Q; clear Q.
  letb_steps H. pose proof acb_0 as A. rewrite <- Ec0 in A. clear Ec0.
  repeat go32 A. destruct (acb_limb _ _ _ A eq_refl) as [EL Wq]. rewrite <- Ex15 in EL. clear Ex15 A.
  rewrite <- EL in *. clear EL. subst l. split; [split; [reflexivity|]; repeat (apply Forall_cons; [assumption|]); apply Forall_nil|].
  unfold lv16. cbn [nth]. eapply mul512_8; eassumption.
Qed.

Lemma red385 l0 l1 l2 l3 l4 l5 l6 l7 l8 l9 l10 l11 l12 l13 l14 l15 : hw l0 -> hw l1 -> hw l2 -> hw l3 -> hw l4 -> hw l5 -> hw l6 -> hw l7 -> hw l8 -> hw l9 -> hw l10 -> hw l11 -> hw l12 -> hw l13 -> hw l14 -> hw l15 ->
  exists m0 m1 m2 m3 m4 m5 m6 m7 m8 m9 m10 m11 m12, s8_reduce_385 [l0; l1; l2; l3; l4; l5; l6; l7; l8; l9; l10; l11; l12; l13; l14; l15] = [m0; m1; m2; m3; m4; m5; m6; m7; m8; m9; m10; m11; m12] /\
  hw m0 /\ hw m1 /\ hw m2 /\ hw m3 /\ hw m4 /\ hw m5 /\ hw m6 /\ hw m7 /\ hw m8 /\ hw m9 /\ hw m10 /\ hw m11 /\ 0 <= m12 <= 1 /\
  m0 + m1 * 2 ^ 32 + m2 * 2 ^ 64 + m3 * 2 ^ 96 + m4 * 2 ^ 128 + m5 * 2 ^ 160 + m6 * 2 ^ 192 + m7 * 2 ^ 224 + (m8 + m9 * 2 ^ 32 + m10 * 2 ^ 64 + m11 * 2 ^ 96 + m12 * 2 ^ 128) * 2 ^ 256 =
  l0 + l1 * 2 ^ 32 + l2 * 2 ^ 64 + l3 * 2 ^ 96 + l4 * 2 ^ 128 + l5 * 2 ^ 160 + l6 * 2 ^ 192 + l7 * 2 ^ 224 + (l8 + l9 * 2 ^ 32 + l10 * 2 ^ 64 + l11 * 2 ^ 96 + l12 * 2 ^ 128 + l13 * 2 ^ 160 + l14 * 2 ^ 192 + l15 * 2 ^ 224) * (S8_NC_0 + S8_NC_1 * 2 ^ 32 + S8_NC_2 * 2 ^ 64 + S8_NC_3 * 2 ^ 96 + 2 ^ 128).
Proof.
  intros L0 L1 L2 L3 L4 L5 L6 L7 L8 L9 L10 L11 L12 L13 L14 L15.
  remember (s8_reduce_385 [l0; l1; l2; l3; l4; l5; l6; l7; l8; l9; l10; l11; l12; l13; l14; l15]) as r eqn:H. symmetry in H. cbv beta delta [s8_reduce_385] in H. cbn [nth] in H.
  assert (HK0 : hw S8_NC_0) by (apply hw_cst; reflexivity). assert (LK0 : S8_NC_0 <= 0x2FC9BEBF) by (vm_compute; discriminate).
  assert (HK1 : hw S8_NC_1) by (apply hw_cst; reflexivity). assert (LK1 : S8_NC_1 <= 0x402DA173) by (vm_compute; discriminate).
  assert (HK2 : hw S8_NC_2) by (apply hw_cst; reflexivity). assert (LK2 : S8_NC_2 <= 0x50B75FC4) by (vm_compute; discriminate).
  assert (HK3 : hw S8_NC_3) by (apply hw_cst; reflexivity). assert (LK3 : S8_NC_3 <= 0x45512319) by (vm_compute; discriminate).
  remember S8_NC_0 as K0 eqn:Q; clear Q.
  remember S8_NC_1 as K1 eqn:Q; clear Q.
  remember S8_NC_2 as K2 eqn:Q; clear Q.
  remember S8_NC_3 as K3 eqn:Q; clear Q.
  letb_steps H. subst n0 n1 n2 n3 n4 n5 n6 n7. pose proof (acb_init _ L0) as A. rewrite <- Ec1 in A. clear Ec1.
  repeat go32 A. destruct (acb_limb _ _ _ A eq_refl) as [EL Wq]. rewrite <- Em12 in EL. clear Em12.
  assert (M12 : 0 <= m12 <= 1). { rewrite EL. pose proof (acb_nonneg _ _ _ A). destruct A as [_ A]. lia. } clear A. rewrite <- EL in *. clear EL.
  exists m0, m1, m2, m3, m4, m5, m6, m7, m8, m9, m10, m11, m12. split; [now rewrite H|]. do 12 (split; [assumption|]). split; [exact M12|].
  eapply red512_8a; eassumption.
Qed.
Lemma red258 m0 m1 m2 m3 m4 m5 m6 m7 m8 m9 m10 m11 m12 : hw m0 -> hw m1 -> hw m2 -> hw m3 -> hw m4 -> hw m5 -> hw m6 -> hw m7 -> hw m8 -> hw m9 -> hw m10 -> hw m11 -> 0 <= m12 <= 1 ->
  exists p0 p1 p2 p3 p4 p5 p6 p7 p8, s8_reduce_258 [m0; m1; m2; m3; m4; m5; m6; m7; m8; m9; m10; m11; m12] = [p0; p1; p2; p3; p4; p5; p6; p7; p8] /\
  hw p0 /\ hw p1 /\ hw p2 /\ hw p3 /\ hw p4 /\ hw p5 /\ hw p6 /\ hw p7 /\ 0 <= p8 <= 3 /\
  p0 + p1 * 2 ^ 32 + p2 * 2 ^ 64 + p3 * 2 ^ 96 + p4 * 2 ^ 128 + p5 * 2 ^ 160 + p6 * 2 ^ 192 + p7 * 2 ^ 224 + p8 * 2 ^ 256 =
  m0 + m1 * 2 ^ 32 + m2 * 2 ^ 64 + m3 * 2 ^ 96 + m4 * 2 ^ 128 + m5 * 2 ^ 160 + m6 * 2 ^ 192 + m7 * 2 ^ 224 + (m8 + m9 * 2 ^ 32 + m10 * 2 ^ 64 + m11 * 2 ^ 96 + m12 * 2 ^ 128) * (S8_NC_0 + S8_NC_1 * 2 ^ 32 + S8_NC_2 * 2 ^ 64 + S8_NC_3 * 2 ^ 96 + 2 ^ 128).
Proof.
  intros M0 M1 M2 M3 M4 M5 M6 M7 M8 M9 M10 M11 [M12 M12'].
  remember (s8_reduce_258 [m0; m1; m2; m3; m4; m5; m6; m7; m8; m9; m10; m11; m12]) as r eqn:H. symmetry in H. cbv beta delta [s8_reduce_258] in H. cbn [nth] in H.
  assert (HK0 : hw S8_NC_0) by (apply hw_cst; reflexivity). assert (LK0 : S8_NC_0 <= 0x2FC9BEBF) by (vm_compute; discriminate).
  assert (HK1 : hw S8_NC_1) by (apply hw_cst; reflexivity). assert (LK1 : S8_NC_1 <= 0x402DA173) by (vm_compute; discriminate).
  assert (HK2 : hw S8_NC_2) by (apply hw_cst; reflexivity). assert (LK2 : S8_NC_2 <= 0x50B75FC4) by (vm_compute; discriminate).
  assert (HK3 : hw S8_NC_3) by (apply hw_cst; reflexivity). assert (LK3 : S8_NC_3 <= 0x45512319) by (vm_compute; discriminate).
  remember S8_NC_0 as K0 eqn:Q; clear Q.
  remember S8_NC_1 as K1 eqn:Q; clear Q.
  remember S8_NC_2 as K2 eqn:Q; clear Q.
  remember S8_NC_3 as K3 eqn:Q; clear Q.
  assert (Wm12 : hw m12) by (unfold hw; lia).
  letb_steps H.
  match goal with E : ?x = m12 |- _ => is_var x; subst x end.
  match goal with E : ?x = m11 |- _ => is_var x; subst x end.
  match goal with E : ?x = m10 |- _ => is_var x; subst x end.
  match goal with E : ?x = m9 |- _ => is_var x; subst x end.
  match goal with E : ?x = m8 |- _ => is_var x; subst x end.
  match goal with E : ?x = m7 |- _ => is_var x; subst x end.
  match goal with E : ?x = m6 |- _ => is_var x; subst x end.
  match goal with E : ?x = m5 |- _ => is_var x; subst x end.
  match goal with E : ?x = m4 |- _ => is_var x; subst x end.
  match goal with E : ?x = m3 |- _ => is_var x; subst x end.
  match goal with E : ?x = m2 |- _ => is_var x; subst x end.
  match goal with E : ?x = m1 |- _ => is_var x; subst x end.
  match goal with E : ?x = m0 |- _ => is_var x; subst x end.
  pose proof (acb_init _ M0) as A. rewrite <- Ec1 in A. clear Ec1.
  repeat go32 A. destruct (acb_limb _ _ _ A eq_refl) as [EL Wq]. rewrite EL in Ep8. clear EL.
  pose proof (acb_nonneg _ _ _ A) as Q0. destruct A as [_ Q1].
  match goal with Q : 0 <= ?q |- _ => is_var q; rename q into qq end.
  rewrite w32_id in Ep8 by lia.
  exists p0, p1, p2, p3, p4, p5, p6, p7, p8. split; [now rewrite H|]. do 8 (split; [assumption|]). split; [lia|]. rewrite Ep8.
  eapply red512_8b; eassumption.
Qed.
Lemma red256 p0 p1 p2 p3 p4 p5 p6 p7 p8 : hw p0 -> hw p1 -> hw p2 -> hw p3 -> hw p4 -> hw p5 -> hw p6 -> hw p7 -> 0 <= p8 <= 3 ->
  s8_ok (s8_reduce_256 [p0; p1; p2; p3; p4; p5; p6; p7; p8]) /\ s8v (s8_reduce_256 [p0; p1; p2; p3; p4; p5; p6; p7; p8]) = ((p0 + S8_NC_0 * p8) + (p1 + S8_NC_1 * p8) * 2 ^ 32 + (p2 + S8_NC_2 * p8) * 2 ^ 64 + (p3 + S8_NC_3 * p8) * 2 ^ 96 + (p4 + p8) * 2 ^ 128 + p5 * 2 ^ 160 + p6 * 2 ^ 192 + p7 * 2 ^ 224) mod n.
Proof.
  intros P0 P1 P2 P3 P4 P5 P6 P7 P8.
  remember (s8_reduce_256 [p0; p1; p2; p3; p4; p5; p6; p7; p8]) as s eqn:H. symmetry in H. cbv beta delta [s8_reduce_256] in H. cbn [nth] in H.
  letb_steps H.
  match goal with E : ?x = p8 |- _ => is_var x; subst x end.
  match goal with E : ?x = p7 |- _ => is_var x; subst x end.
  match goal with E : ?x = p6 |- _ => is_var x; subst x end.
  match goal with E : ?x = p5 |- _ => is_var x; subst x end.
  match goal with E : ?x = p4 |- _ => is_var x; subst x end.
  match goal with E : ?x = p3 |- _ => is_var x; subst x end.
  match goal with E : ?x = p2 |- _ => is_var x; subst x end.
  match goal with E : ?x = p1 |- _ => is_var x; subst x end.
  match goal with E : ?x = p0 |- _ => is_var x; subst x end.
  rland.
  assert (KK : forall x k, hw x -> 0 <= k <= 0x50B75FC4 -> w64 (x + w64 (k * p8)) = x + k * p8 /\ xb (x + k * p8)).
  { clear -P8. intros x k Hx Hk. unfold hw, xb in *. assert (0 <= k * p8 <= 3 * 0x50B75FC4) by nia. rewrite (w64_id (k * p8)) by lia. rewrite w64_id by lia. lia. }
  destruct (KK p0 S8_NC_0 P0 ltac:(vm_compute; split; discriminate)) as [Q0 X0]. rewrite Q0 in Et0.
  destruct (KK p1 S8_NC_1 P1 ltac:(vm_compute; split; discriminate)) as [Q1 X1]. rewrite Q1 in Et1.
  destruct (KK p2 S8_NC_2 P2 ltac:(vm_compute; split; discriminate)) as [Q2 X2]. rewrite Q2 in Et2.
  destruct (KK p3 S8_NC_3 P3 ltac:(vm_compute; split; discriminate)) as [Q3 X3]. rewrite Q3 in Et3.
  destruct (add_w p4 p8 P4 ltac:(clear -P8; unfold hw; lia)) as [Q4 X4]. rewrite Q4 in Et4. clear KK.
  destruct (chain8 _ _ _ _ _ _ _ _ _ _ _ _ _ _ _ _ Et0 Et1 Et2 Et3 Et4 Et5 Et6 Et7 X0 X1 X2 X3 X4 (hw_xb _ P5) (hw_xb _ P6) (hw_xb _ P7) r Er) as (L & C & V).
  rewrite shiftr_div in H by lia.
  destruct (s8_reduce_carry r _ _ L (proj1 C) eq_refl) as (_ & F2 & F3).
  { rewrite V. clear -P0 P1 P2 P3 P4 P5 P6 P7 P8. unfold hw in *. rewrite n_NC. unfold NC.
    change S8_NC_0 with 0x2FC9BEBF. change S8_NC_1 with 0x402DA173. change S8_NC_2 with 0x50B75FC4. change S8_NC_3 with 0x45512319. lia. }
  rewrite H in F2, F3. split; [exact F2|]. rewrite F3, V. reflexivity.
Qed.
Lemma NC_split8 : NC = (S8_NC_0 + S8_NC_1 * 2 ^ 32 + S8_NC_2 * 2 ^ 64 + S8_NC_3 * 2 ^ 96 + 2 ^ 128). Proof. reflexivity. Qed.
Lemma s8_reduce_512_val l : l16_lim l -> s8_ok (s8_reduce_512 l) /\ s8v (s8_reduce_512 l) = lv16 l mod n.
Proof.
  intros [Hl HF]. destruct l as [|l0 l]; [discriminate Hl|]. destruct l as [|l1 l]; [discriminate Hl|]. destruct l as [|l2 l]; [discriminate Hl|]. destruct l as [|l3 l]; [discriminate Hl|]. destruct l as [|l4 l]; [discriminate Hl|]. destruct l as [|l5 l]; [discriminate Hl|]. destruct l as [|l6 l]; [discriminate Hl|]. destruct l as [|l7 l]; [discriminate Hl|]. destruct l as [|l8 l]; [discriminate Hl|]. destruct l as [|l9 l]; [discriminate Hl|]. destruct l as [|l10 l]; [discriminate Hl|]. destruct l as [|l11 l]; [discriminate Hl|]. destruct l as [|l12 l]; [discriminate Hl|]. destruct l as [|l13 l]; [discriminate Hl|]. destruct l as [|l14 l]; [discriminate Hl|]. destruct l as [|l15 l]; [discriminate Hl|]. destruct l; [|discriminate Hl]. clear Hl.
  apply Forall_cons_iff in HF as [L0 HF]. apply Forall_cons_iff in HF as [L1 HF]. apply Forall_cons_iff in HF as [L2 HF]. apply Forall_cons_iff in HF as [L3 HF]. apply Forall_cons_iff in HF as [L4 HF]. apply Forall_cons_iff in HF as [L5 HF]. apply Forall_cons_iff in HF as [L6 HF]. apply Forall_cons_iff in HF as [L7 HF]. apply Forall_cons_iff in HF as [L8 HF]. apply Forall_cons_iff in HF as [L9 HF]. apply Forall_cons_iff in HF as [L10 HF]. apply Forall_cons_iff in HF as [L11 HF]. apply Forall_cons_iff in HF as [L12 HF]. apply Forall_cons_iff in HF as [L13 HF]. apply Forall_cons_iff in HF as [L14 HF]. apply Forall_cons_iff in HF as [L15 HF]. clear HF. unfold s8_reduce_512, lv16. cbn [nth].
  destruct (red385 l0 l1 l2 l3 l4 l5 l6 l7 l8 l9 l10 l11 l12 l13 l14 l15 L0 L1 L2 L3 L4 L5 L6 L7 L8 L9 L10 L11 L12 L13 L14 L15) as (m0 & m1 & m2 & m3 & m4 & m5 & m6 & m7 & m8 & m9 & m10 & m11 & m12 & EM & M0 & M1 & M2 & M3 & M4 & M5 & M6 & M7 & M8 & M9 & M10 & M11 & M12 & LM). rewrite EM. clear EM.
  destruct (red258 m0 m1 m2 m3 m4 m5 m6 m7 m8 m9 m10 m11 m12 M0 M1 M2 M3 M4 M5 M6 M7 M8 M9 M10 M11 M12) as (p0 & p1 & p2 & p3 & p4 & p5 & p6 & p7 & p8 & EP & P0 & P1 & P2 & P3 & P4 & P5 & P6 & P7 & P8 & LP). rewrite EP. clear EP.
  destruct (red256 p0 p1 p2 p3 p4 p5 p6 p7 p8 P0 P1 P2 P3 P4 P5 P6 P7 P8) as [OK Val].
  split; [exact OK|]. rewrite Val. clear - LP LM.
  rewrite (red512_tail _ _ _ _ _ _ _ _ NC_split8 LP LM).
  - f_equal. ring.
  - rewrite NC_split8. ring.
Qed.
Lemma s8_mul_ok a b : s8_lim a -> s8_lim b -> s8_ok (s8_mul a b).
Proof. intros Ha Hb. destruct (s8_mul_512_val a b _ eq_refl Ha Hb) as [L E]. apply (s8_reduce_512_val _ L). Qed.
Lemma s8_mul_sv a b : s8_lim a -> s8_lim b -> s8v (s8_mul a b) = (s8v a * s8v b) mod n.
Proof. intros Ha Hb. destruct (s8_mul_512_val a b _ eq_refl Ha Hb) as [L E]. rewrite <- E. apply (s8_reduce_512_val _ L). Qed.
