(** Correctness of scalar multiplication: mul_512, reduce_512, mul. *)
Require Import ZArith List Bool Lia Znumtheory.
From Verif Require Import Word Spec Bytes ZmField Curve FieldModel ScalarModel ScalarProof ScalarProof2.
Import ListNotations.
Local Open Scope Z_scope.

(** The accumulator (c0,c1,c2) holds the value V. *)
Definition acc (c : acc3) (V : Z) : Prop :=
  0 <= V /\ fst (fst c) = V mod 2 ^ 64 /\ snd (fst c) = V / 2 ^ 64 mod 2 ^ 64 /\ snd c = V / 2 ^ 128.

Lemma acc_val c V : acc c V -> exists c0 c1 c2, c = (c0, c1, c2) /\ wd c0 /\ wd c1 /\ 0 <= c2 /\ V = c0 + c1 * 2 ^ 64 + c2 * 2 ^ 128.
Proof.
  intros (HV & E0 & E1 & E2). destruct c as [[c0 c1] c2]. cbn [fst snd] in *. exists c0, c1, c2. split; [reflexivity|].
  pose proof (Z.div_mod V (2 ^ 64) ltac:(discriminate)) as D0. pose proof (Z.div_mod (V / 2 ^ 64) (2 ^ 64) ltac:(discriminate)) as D1.
  rewrite Z.div_div in D1 by lia. change (2 ^ 64 * 2 ^ 64) with (2 ^ 128) in D1.
  rewrite <- E0 in D0. rewrite <- E1, <- E2 in D1.
  split; [rewrite E0; apply Z.mod_pos_bound; reflexivity|]. split; [rewrite E1; apply Z.mod_pos_bound; reflexivity|].
  split; [rewrite E2; apply Z.div_pos; lia|]. rewrite D0, D1. ring.
Qed.
Lemma acc_intro c0 c1 c2 V : wd c0 -> wd c1 -> 0 <= c2 -> V = c0 + c1 * 2 ^ 64 + c2 * 2 ^ 128 -> acc (c0, c1, c2) V.
Proof.
  intros H0 H1 H2 ->. unfold acc, wd in *. cbn [fst snd]. split; [lia|]. split.
  - apply Z.mod_unique with (c1 + c2 * 2 ^ 64); [left; lia|lia].
  - assert (E : (c0 + c1 * 2 ^ 64 + c2 * 2 ^ 128) / 2 ^ 64 = c1 + c2 * 2 ^ 64) by (symmetry; apply Z.div_unique with c0; [left; lia|lia]).
    rewrite E. split.
    + apply Z.mod_unique with c2; [left; lia|lia].
    + change (2 ^ 128) with (2 ^ 64 * 2 ^ 64) at 2. rewrite <- Z.div_div by lia. rewrite E. apply Z.div_unique with c1; [left; lia|lia].
Qed.

(** 64-bit addition with carry detected by comparison. *)
Lemma add_carry x y : wd x -> wd y -> exists c s, w64 (x + y) = s /\ b2z (s <? y) = c /\ 0 <= c <= 1 /\ wd s /\ x + y = s + c * 2 ^ 64.
Proof.
  intros Hx Hy. unfold wd in *. exists (b2z (w64 (x + y) <? y)), (w64 (x + y)).
  destruct (Z_lt_le_dec (x + y) (2 ^ 64)).
  - rewrite w64_id by lia. destruct (Z.ltb_spec (x + y) y); [lia|]. cbn [b2z]. lia.
  - assert (E : w64 (x + y) = x + y - 2 ^ 64).
    { unfold w64. symmetry. apply Z.mod_unique with 1; [left; lia|lia]. }
    rewrite E. destruct (Z.ltb_spec (x + y - 2 ^ 64) y); [|lia]. cbn [b2z]. lia.
Qed.

Lemma mul_split a b : wd a -> wd b -> exists th tl, Z.shiftr (u128_mul a b) 64 = th /\ u128_to_u64 (u128_mul a b) = tl /\
  a * b = tl + th * 2 ^ 64 /\ wd tl /\ 0 <= th <= 2 ^ 64 - 2.
Proof.
  intros Ha Hb. unfold wd in *.
  assert (P : 0 <= a * b <= (2 ^ 64 - 1) * (2 ^ 64 - 1)) by nia.
  unfold u128_mul, u128_to_u64. rewrite w128_id by lia.
  exists (a * b / 2 ^ 64), (w64 (a * b)). rewrite shiftr_div by lia. split; [reflexivity|]. split; [reflexivity|].
  pose proof (Z.div_mod (a * b) (2 ^ 64) ltac:(discriminate)) as D. unfold w64.
  split; [rewrite D at 1; ring|]. split; [apply Z.mod_pos_bound; reflexivity|].
  split; [apply Z.div_pos; lia|].
  assert (a * b / 2 ^ 64 < 2 ^ 64 - 1); [|lia]. apply Z.div_lt_upper_bound; lia.
Qed.

Lemma muladd_gen c0 c1 c2 a b V : wd c0 -> wd c1 -> 0 <= c2 -> V = c0 + c1 * 2 ^ 64 + c2 * 2 ^ 128 -> wd a -> wd b ->
  exists e0 e1 e2, wd e0 /\ wd e1 /\ 0 <= e2 <= 1 /\ 
  w64 (c0 + u128_to_u64 (u128_mul a b)) = e0 /\
  w64 (c1 + w64 (Z.shiftr (u128_mul a b) 64 + b2z (e0 <? u128_to_u64 (u128_mul a b)))) = e1 /\
  b2z (e1 <? w64 (Z.shiftr (u128_mul a b) 64 + b2z (e0 <? u128_to_u64 (u128_mul a b)))) = e2 /\
  V + a * b = e0 + e1 * 2 ^ 64 + (c2 + e2) * 2 ^ 128.
Proof.
  intros H0 H1 H2 EV Ha Hb. destruct (mul_split a b Ha Hb) as (th & tl & -> & -> & EP & Htl & Hth).
  destruct (add_carry c0 tl H0 Htl) as (k & e0 & E0 & <- & Bk & W0 & S0).
  exists e0. 
  assert (Wt : wd (th + b2z (e0 <? tl))) by (unfold wd in *; lia).
  rewrite (w64_id (th + b2z (e0 <? tl))) by exact Wt.
  destruct (add_carry c1 _ H1 Wt) as (k1 & e1 & E1 & K1 & Bk1 & W1 & S1).
  exists e1, k1. repeat (split; [assumption|]). rewrite EV, EP. 
  clear -S0 S1. set (k := b2z (e0 <? tl)) in *. clearbody k. lia.
Qed.

Lemma muladd_ok w2 lim c V a b : (forall x, 0 <= x < lim -> w2 x = x) -> acc c V -> wd a -> wd b -> V + a * b < lim * 2 ^ 128 ->
  acc (muladd w2 c a b) (V + a * b).
Proof.
  intros Hw HA Ha Hb HL. destruct (acc_val c V HA) as (c0 & c1 & c2 & -> & H0 & H1 & H2 & EV).
  unfold muladd. destruct (muladd_gen c0 c1 c2 a b V H0 H1 H2 EV Ha Hb) as (e0 & e1 & e2 & W0 & W1 & W2 & E0 & E1 & E2 & S).
  rewrite E0, E1, E2. unfold wd in *. rewrite Hw by lia. apply acc_intro; [exact W0|exact W1|lia|exact S].
Qed.
Lemma muladd_fast_ok c V a b : acc c V -> wd a -> wd b -> V + a * b < 2 ^ 128 -> acc (muladd_fast c a b) (V + a * b).
Proof.
  intros HA Ha Hb HL. destruct (acc_val c V HA) as (c0 & c1 & c2 & -> & H0 & H1 & H2 & EV).
  unfold muladd_fast. destruct (muladd_gen c0 c1 c2 a b V H0 H1 H2 EV Ha Hb) as (e0 & e1 & e2 & W0 & W1 & W2 & E0 & E1 & E2 & S).
  rewrite E0, E1. unfold wd in *. replace (c2 + e2) with c2 in S by lia. apply acc_intro; [exact W0|exact W1|lia|exact S].
Qed.
Lemma sumadd_gen c0 c1 c2 a V : wd c0 -> wd c1 -> 0 <= c2 -> V = c0 + c1 * 2 ^ 64 + c2 * 2 ^ 128 -> wd a ->
  exists e0 e1 e2, wd e0 /\ wd e1 /\ 0 <= e2 <= 1 /\ w64 (c0 + a) = e0 /\ w64 (c1 + b2z (e0 <? a)) = e1 /\
   b2z (e1 <? b2z (e0 <? a)) = e2 /\ V + a = e0 + e1 * 2 ^ 64 + (c2 + e2) * 2 ^ 128.
Proof.
  intros H0 H1 H2 EV Ha. destruct (add_carry c0 a H0 Ha) as (k & e0 & E0 & K0 & Bk & W0 & S0).
  assert (Wk : wd k) by (unfold wd; lia).
  destruct (add_carry c1 k H1 Wk) as (k1 & e1 & E1 & K1 & Bk1 & W1 & S1).
  exists e0, e1, k1. rewrite K0. repeat (split; [assumption|]). rewrite EV. clear -S0 S1. lia.
Qed.
Lemma sumadd_ok w2 lim c V a : (forall x, 0 <= x < lim -> w2 x = x) -> acc c V -> wd a -> V + a < lim * 2 ^ 128 ->
  acc (sumadd w2 c a) (V + a).
Proof.
  intros Hw HA Ha HL. destruct (acc_val c V HA) as (c0 & c1 & c2 & -> & H0 & H1 & H2 & EV).
  unfold sumadd. destruct (sumadd_gen c0 c1 c2 a V H0 H1 H2 EV Ha) as (e0 & e1 & e2 & W0 & W1 & W2 & E0 & E1 & E2 & S).
  rewrite E0, E1, E2. unfold wd in *. rewrite Hw by lia. apply acc_intro; [exact W0|exact W1|lia|exact S].
Qed.
Lemma sumadd_fast_ok c V a : acc c V -> wd a -> V + a < 2 ^ 128 -> acc (sumadd_fast c a) (V + a).
Proof.
  intros HA Ha HL. destruct (acc_val c V HA) as (c0 & c1 & c2 & -> & H0 & H1 & H2 & EV).
  unfold sumadd_fast. destruct (sumadd_gen c0 c1 c2 a V H0 H1 H2 EV Ha) as (e0 & e1 & e2 & W0 & W1 & W2 & E0 & E1 & E2 & S).
  rewrite E0, E1. unfold wd in *. replace (c2 + e2) with c2 in S by lia. apply acc_intro; [exact W0|exact W1|lia|exact S].
Qed.
Lemma extract_ok c V : acc c V -> V < 2 ^ 192 -> exists q r, V = q * 2 ^ 64 + r /\ wd r /\ 0 <= q /\ extract_limb c = r /\ acc (extract_rest c) q.
Proof.
  intros HA HL. destruct (acc_val c V HA) as (c0 & c1 & c2 & -> & H0 & H1 & H2 & EV).
  exists (c1 + c2 * 2 ^ 64), c0. unfold extract_limb, extract_rest. cbn [fst snd]. unfold wd in *.
  split; [lia|]. split; [exact H0|]. split; [lia|]. split; [reflexivity|]. apply acc_intro; unfold wd; lia.
Qed.
Lemma extract_fast_ok c V : acc c V -> V < 2 ^ 128 -> exists q r, V = q * 2 ^ 64 + r /\ wd r /\ wd q /\ extract_limb c = r /\ acc (extract_fast_rest c) q.
Proof.
  intros HA HL. destruct (acc_val c V HA) as (c0 & c1 & c2 & -> & H0 & H1 & H2 & EV).
  unfold wd in *. assert (c2 = 0) by lia. subst c2.
  exists c1, c0. unfold extract_limb, extract_fast_rest. cbn [fst snd].
  split; [lia|]. split; [exact H0|]. split; [exact H1|]. split; [reflexivity|]. apply acc_intro; unfold wd; lia.
Qed.

Lemma w32_lim x : 0 <= x < 2 ^ 32 -> w32 x = x. Proof. apply w32_id. Qed.
Lemma w64_lim x : 0 <= x < 2 ^ 64 -> w64 x = x. Proof. apply w64_id. Qed.

(** Interval propagation for the accumulators: hypotheses [acc c V] with
    [V <= B] for a literal B. *)
Definition accb (c : acc3) (V B : Z) : Prop := acc c V /\ V <= B.
Definition W : Z := 2 ^ 64 - 1.
Lemma wd_mul a b A B : wd a -> wd b -> a <= A -> b <= B -> 0 <= A -> a * b <= A * B.
Proof. unfold wd. intros. nia. Qed.
Lemma muladd32_b c V B a b : accb c V B -> wd a -> wd b -> (B + W * W <? 2 ^ 160) = true -> accb (muladd w32 c a b) (V + a * b) (B + W * W).
Proof.
  intros [HA HB] Ha Hb HL. apply Z.ltb_lt in HL. pose proof (wd_mul a b W W Ha Hb) as P. unfold W in *.
  specialize (P ltac:(unfold wd in *; lia) ltac:(unfold wd in *; lia) ltac:(lia)).
  split; [|lia]. apply (muladd_ok w32 (2 ^ 32)); [exact w32_lim|assumption|assumption|assumption|]. lia.
Qed.
Lemma muladd64_b c V B a b A1 B1 : accb c V B -> wd a -> wd b -> a <= A1 -> b <= B1 -> (0 <=? A1) && (B + A1 * B1 <? 2 ^ 192) = true -> accb (muladd w64 c a b) (V + a * b) (B + A1 * B1).
Proof.
  intros [HA HB] Ha Hb HA1 HB1 HL. apply andb_prop in HL as [H0 HL]. apply Z.leb_le in H0. apply Z.ltb_lt in HL.
  pose proof (wd_mul a b _ _ Ha Hb HA1 HB1 H0) as P.
  split; [|lia]. apply (muladd_ok w64 (2 ^ 64)); [exact w64_lim|assumption|assumption|assumption|]. lia.
Qed.
Lemma muladdf_b c V B a b A1 B1 : accb c V B -> wd a -> wd b -> a <= A1 -> b <= B1 -> (0 <=? A1) && (B + A1 * B1 <? 2 ^ 128) = true -> accb (muladd_fast c a b) (V + a * b) (B + A1 * B1).
Proof.
  intros [HA HB] Ha Hb HA1 HB1 HL. apply andb_prop in HL as [H0 HL]. apply Z.leb_le in H0. apply Z.ltb_lt in HL.
  pose proof (wd_mul a b _ _ Ha Hb HA1 HB1 H0) as P.
  split; [|lia]. apply muladd_fast_ok; [assumption|assumption|assumption|]. lia.
Qed.
Lemma sumadd64_b c V B a A1 : accb c V B -> wd a -> a <= A1 -> (B + A1 <? 2 ^ 192) = true -> accb (sumadd w64 c a) (V + a) (B + A1).
Proof.
  intros [HA HB] Ha HA1 HL. apply Z.ltb_lt in HL. 
  split; [|lia]. apply (sumadd_ok w64 (2 ^ 64)); [exact w64_lim|assumption|assumption|]. lia.
Qed.
Lemma sumaddf_b c V B a A1 : accb c V B -> wd a -> a <= A1 -> (B + A1 <? 2 ^ 128) = true -> accb (sumadd_fast c a) (V + a) (B + A1).
Proof.
  intros [HA HB] Ha HA1 HL. apply Z.ltb_lt in HL. 
  split; [|lia]. apply sumadd_fast_ok; [assumption|assumption|]. lia.
Qed.
Lemma extract_b c V B : accb c V B -> (B <? 2 ^ 192) = true -> exists q r, V = q * 2 ^ 64 + r /\ wd r /\ extract_limb c = r /\ accb (extract_rest c) q (B / 2 ^ 64).
Proof.
  intros [HA HB] HL. apply Z.ltb_lt in HL. destruct (extract_ok c V HA ltac:(lia)) as (q & r & E & Wr & Q & EL & AR).
  exists q, r. do 3 (split; [assumption|]). split; [exact AR|]. apply Z.div_le_lower_bound; [reflexivity|]. unfold wd in Wr. lia.
Qed.
Lemma extractf_b c V B : accb c V B -> (B <? 2 ^ 128) = true -> exists q r, V = q * 2 ^ 64 + r /\ wd r /\ extract_limb c = r /\ accb (extract_fast_rest c) q (B / 2 ^ 64).
Proof.
  intros [HA HB] HL. apply Z.ltb_lt in HL. destruct (extract_fast_ok c V HA ltac:(lia)) as (q & r & E & Wr & Q & EL & AR).
  exists q, r. do 3 (split; [assumption|]). split; [exact AR|]. apply Z.div_le_lower_bound; [reflexivity|]. unfold wd in Wr. lia.
Qed.
Lemma accb_limb c V B : accb c V B -> (B <? 2 ^ 64) = true -> extract_limb c = V /\ wd V.
Proof.
  intros [HA HB] HL. apply Z.ltb_lt in HL. destruct HA as (H0 & E & _). unfold extract_limb. rewrite E.
  rewrite Z.mod_small by lia. split; [reflexivity|]. unfold wd. lia.
Qed.
Lemma accb_0 : accb (0, 0, 0) 0 0.
Proof. split; [|lia]. apply acc_intro; unfold wd; lia. Qed.
Lemma accb_init x : wd x -> accb (x, 0, 0) x W.
Proof. intros H. unfold wd, W in *. split; [|lia]. apply acc_intro; unfold wd; lia. Qed.
Lemma wd_le x : wd x -> x <= W. Proof. unfold wd, W. lia. Qed.

(** Steps: [E : c' = op c ...] and [A : accb c V B] become [accb c' ...]. *)
Ltac nb A := match type of A with accb ?c ?V ?B => let B' := eval vm_compute in B in change (accb c V B') in A end.
Ltac st_ml32 E A := 
  match type of E with ?c' = muladd w32 ?c ?a ?b =>
    let A' := fresh "A" in pose proof (muladd32_b c _ _ a b A ltac:(assumption) ltac:(assumption) eq_refl) as A'; rewrite <- E in A'; nb A'; clear E A; rename A' into A end.
Ltac ub x := match goal with H : x <= ?B |- _ => constr:(H) | H : wd x |- _ => constr:(wd_le x H) end.
Ltac st E A :=
  let A' := fresh "A" in
  lazymatch type of E with
  | ?c' = muladd w32 ?c ?a ?b => pose proof (muladd32_b c _ _ a b A ltac:(assumption) ltac:(assumption) eq_refl) as A'
  | ?c' = muladd w64 ?c ?a ?b => let Ha := ub a in let Hb := ub b in
      pose proof (muladd64_b c _ _ a b _ _ A ltac:(assumption) ltac:(assumption) Ha Hb eq_refl) as A'
  | ?c' = muladd_fast ?c ?a ?b => let Ha := ub a in let Hb := ub b in
      pose proof (muladdf_b c _ _ a b _ _ A ltac:(assumption) ltac:(assumption) Ha Hb eq_refl) as A'
  | ?c' = sumadd w64 ?c ?a => let Ha := ub a in
      pose proof (sumadd64_b c _ _ a _ A ltac:(assumption) Ha eq_refl) as A'
  | ?c' = sumadd_fast ?c ?a => let Ha := ub a in
      pose proof (sumaddf_b c _ _ a _ A ltac:(assumption) Ha eq_refl) as A'
  end; rewrite <- E in A'; nb A'; clear E A; rename A' into A.
Ltac ex Er Ec A q S :=
  let A' := fresh "A" in let r := fresh "r" in let Hr := fresh "H" in let EL := fresh "E" in
  destruct (extract_b _ _ _ A eq_refl) as (q & r & S & Hr & EL & A'); rewrite <- Er in EL; rewrite <- Ec in A'; nb A';
  clear Er Ec A; rename A' into A; subst r.
Ltac exf Er Ec A q S :=
  let A' := fresh "A" in let r := fresh "r" in let Hr := fresh "H" in let EL := fresh "E" in
  destruct (extractf_b _ _ _ A eq_refl) as (q & r & S & Hr & EL & A'); rewrite <- Er in EL; rewrite <- Ec in A'; nb A';
  clear Er Ec A; rename A' into A; subst r.

Definition l8_lim (l : l8) : Prop :=
  wd (l_0 l) /\ wd (l_1 l) /\ wd (l_2 l) /\ wd (l_3 l) /\ wd (l_4 l) /\ wd (l_5 l) /\ wd (l_6 l) /\ wd (l_7 l).

Lemma mul512_lin a0 a1 a2 a3 b0 b1 b2 b3 x0 x1 x2 x3 x4 x5 x6 x7 q0 q1 q2 q3 q4 q5 :
  0 + a0 * b0 = q0 * 2 ^ 64 + x0 ->
  q0 + a0 * b1 + a1 * b0 = q1 * 2 ^ 64 + x1 ->
  q1 + a0 * b2 + a1 * b1 + a2 * b0 = q2 * 2 ^ 64 + x2 ->
  q2 + a0 * b3 + a1 * b2 + a2 * b1 + a3 * b0 = q3 * 2 ^ 64 + x3 ->
  q3 + a1 * b3 + a2 * b2 + a3 * b1 = q4 * 2 ^ 64 + x4 ->
  q4 + a2 * b3 + a3 * b2 = q5 * 2 ^ 64 + x5 ->
  q5 + a3 * b3 = x7 * 2 ^ 64 + x6 ->
  x0 + x1 * 2 ^ 64 + x2 * 2 ^ 128 + x3 * 2 ^ 192 + x4 * 2 ^ 256 + x5 * 2 ^ 320 + x6 * 2 ^ 384 + x7 * 2 ^ 448 =
  (a0 + a1 * 2 ^ 64 + a2 * 2 ^ 128 + a3 * 2 ^ 192) * (b0 + b1 * 2 ^ 64 + b2 * 2 ^ 128 + b3 * 2 ^ 192).
Proof.
  intros E0 E1 E2 E3 E4 E5 E6.
  transitivity ((q0 * 2 ^ 64 + x0) + ((q1 * 2 ^ 64 + x1) - q0) * 2 ^ 64 + ((q2 * 2 ^ 64 + x2) - q1) * 2 ^ 128 + ((q3 * 2 ^ 64 + x3) - q2) * 2 ^ 192
   + ((q4 * 2 ^ 64 + x4) - q3) * 2 ^ 256 + ((q5 * 2 ^ 64 + x5) - q4) * 2 ^ 320 + ((x7 * 2 ^ 64 + x6) - q5) * 2 ^ 384).
  - ring.
  - rewrite <- E0, <- E1, <- E2, <- E3, <- E4, <- E5, <- E6. ring.
Qed.

Ltac go A :=
  match type of A with accb ?c _ _ =>
    match goal with
    | E : _ = muladd _ c _ _ |- _ => st E A
    | E : _ = muladd_fast c _ _ |- _ => st E A
    | E : _ = sumadd _ c _ |- _ => st E A
    | E : _ = sumadd_fast c _ |- _ => st E A
    | Er : _ = extract_limb c, Ec : _ = extract_rest c |- _ => let q := fresh "q" in let S := fresh "S" in ex Er Ec A q S
    | Er : _ = extract_limb c, Ec : _ = extract_fast_rest c |- _ => let q := fresh "q" in let S := fresh "S" in exf Er Ec A q S
    end end.

Lemma sc_mul_512_val a b l : sc_mul_512 a b = l -> sc_lim a -> sc_lim b -> l8_lim l /\ lv l = sv a * sv b.
Proof.
  intros H (A0 & A1 & A2 & A3) (B0 & B1 & B2 & B3).
  cbv beta delta [sc_mul_512] in H. 
  let_steps H. pose proof accb_0 as A. rewrite <- Ec in A. clear Ec.
  repeat go A. destruct (accb_limb _ _ _ A eq_refl) as [EL Wq]. rewrite <- Ex7 in EL. subst q5. subst l.
  split; [unfold l8_lim; cbn [l_0 l_1 l_2 l_3 l_4 l_5 l_6 l_7]; tauto|].
  unfold lv, sv; cbn [l_0 l_1 l_2 l_3 l_4 l_5 l_6 l_7]. eapply mul512_lin; eassumption.
Qed.

Lemma wd_NC0 : wd N_C_0. Proof. nconst; unfold wd; lia. Qed.
Lemma wd_NC1 : wd N_C_1. Proof. nconst; unfold wd; lia. Qed.

Lemma u_acc_mul d a b D : 0 <= d <= D -> 0 <= a * b <= 2 ^ 66 -> D + 2 ^ 66 < 2 ^ 128 -> u128_accum_mul d a b = d + a * b.
Proof. intros. unfold u128_accum_mul. apply w128_id. lia. Qed.
Lemma u_acc_u64 d a D : 0 <= d <= D -> wd a -> D + 2 ^ 64 < 2 ^ 128 -> u128_accum_u64 d a = d + a.
Proof. unfold wd. intros. unfold u128_accum_u64. apply w128_id. lia. Qed.
Lemma u_rsh d D : 0 <= d <= D -> D < 2 ^ 68 -> u128_rshift d 64 = d / 2 ^ 64 /\ 0 <= d / 2 ^ 64 <= 15.
Proof.
  intros. unfold u128_rshift. rewrite shiftr_div by lia. split; [reflexivity|]. split; [apply Z.div_pos; lia|].
  assert (d / 2 ^ 64 < 16); [|lia]. apply Z.div_lt_upper_bound; lia.
Qed.

Lemma red512_lin1 l0 l1 l2 l3 l4 l5 l6 l7 K0 K1 m0 m1 m2 m3 m4 m5 m6 q0 q1 q2 q3 q4 :
  l0 + l4 * K0 = q0 * 2 ^ 64 + m0 ->
  q0 + l1 + l5 * K0 + l4 * K1 = q1 * 2 ^ 64 + m1 ->
  q1 + l2 + l6 * K0 + l5 * K1 + l4 = q2 * 2 ^ 64 + m2 ->
  q2 + l3 + l7 * K0 + l6 * K1 + l5 = q3 * 2 ^ 64 + m3 ->
  q3 + l7 * K1 + l6 = q4 * 2 ^ 64 + m4 ->
  q4 + l7 = m6 * 2 ^ 64 + m5 ->
  m0 + m1 * 2 ^ 64 + m2 * 2 ^ 128 + m3 * 2 ^ 192 + (m4 + m5 * 2 ^ 64 + m6 * 2 ^ 128) * 2 ^ 256 =
  l0 + l1 * 2 ^ 64 + l2 * 2 ^ 128 + l3 * 2 ^ 192 + (l4 + l5 * 2 ^ 64 + l6 * 2 ^ 128 + l7 * 2 ^ 192) * (K0 + K1 * 2 ^ 64 + 2 ^ 128).
Proof.
  intros E0 E1 E2 E3 E4 E5.
  transitivity ((q0 * 2 ^ 64 + m0) + ((q1 * 2 ^ 64 + m1) - q0) * 2 ^ 64 + ((q2 * 2 ^ 64 + m2) - q1) * 2 ^ 128 + ((q3 * 2 ^ 64 + m3) - q2) * 2 ^ 192
   + ((q4 * 2 ^ 64 + m4) - q3) * 2 ^ 256 + ((m6 * 2 ^ 64 + m5) - q4) * 2 ^ 320).
  - ring.
  - rewrite <- E0, <- E1, <- E2, <- E3, <- E4, <- E5. ring.
Qed.
Lemma red512_lin2 m0 m1 m2 m3 m4 m5 m6 K0 K1 p0 p1 p2 p3 q0 q1 q2 q3 :
  m0 + m4 * K0 = q0 * 2 ^ 64 + p0 ->
  q0 + m1 + m5 * K0 + m4 * K1 = q1 * 2 ^ 64 + p1 ->
  q1 + m2 + m6 * K0 + m5 * K1 + m4 = q2 * 2 ^ 64 + p2 ->
  q2 + m3 + m6 * K1 + m5 = q3 * 2 ^ 64 + p3 ->
  p0 + p1 * 2 ^ 64 + p2 * 2 ^ 128 + p3 * 2 ^ 192 + (q3 + m6) * 2 ^ 256 =
  m0 + m1 * 2 ^ 64 + m2 * 2 ^ 128 + m3 * 2 ^ 192 + (m4 + m5 * 2 ^ 64 + m6 * 2 ^ 128) * (K0 + K1 * 2 ^ 64 + 2 ^ 128).
Proof.
  intros E0 E1 E2 E3.
  transitivity ((q0 * 2 ^ 64 + p0) + ((q1 * 2 ^ 64 + p1) - q0) * 2 ^ 64 + ((q2 * 2 ^ 64 + p2) - q1) * 2 ^ 128 + ((q3 * 2 ^ 64 + p3) - q2) * 2 ^ 192 + m6 * 2 ^ 256).
  - ring.
  - rewrite <- E0, <- E1, <- E2, <- E3. ring.
Qed.

Lemma fold_mod P H : (P + H * 2 ^ 256) mod n = (P + H * NC) mod n.
Proof. replace (P + H * 2 ^ 256) with (P + H * NC + H * n) by (rewrite n_NC; ring). rewrite Z_mod_plus_full. reflexivity. Qed.

Lemma NC_split : NC = N_C_0 + N_C_1 * 2 ^ 64 + 2 ^ 128. Proof. reflexivity. Qed.
Lemma red512_tail P p4 ML MH Lo Hi K V : NC = K -> P + p4 * 2 ^ 256 = ML + MH * K -> ML + MH * 2 ^ 256 = Lo + Hi * K ->
  V = P + p4 * NC -> V mod n = (Lo + Hi * 2 ^ 256) mod n.
Proof.
  intros <- E1 E2 ->. rewrite <- fold_mod, E1, <- fold_mod, E2, <- fold_mod. reflexivity.
Qed.

Lemma red512_final p0 p1 p2 p3 p4 : wd p0 -> wd p1 -> wd p2 -> wd p3 -> 0 <= p4 <= 3 ->
  sc_ok (sc_reduce_256 p0 p1 p2 p3 p4) /\
  sv (sc_reduce_256 p0 p1 p2 p3 p4) = ((p0 + N_C_0 * p4) + (p1 + N_C_1 * p4) * 2 ^ 64 + (p2 + p4) * 2 ^ 128 + p3 * 2 ^ 192) mod n.
Proof.
  intros WP0 WP1 WP2 WP3 P4b. remember (sc_reduce_256 p0 p1 p2 p3 p4) as r eqn:H. symmetry in H.
  cbv beta delta [sc_reduce_256] in H. let_steps H. subst t.
  pose proof wd_NC0 as H0. pose proof wd_NC1 as H1.
  assert (H2 : N_C_0 <= 0x402DA1732FC9BEBF) by (vm_compute; discriminate).
  assert (H3 : N_C_1 <= 0x4551231950B75FC4) by (vm_compute; discriminate).
  assert (Wp4 : wd p4) by (unfold wd; lia).
  assert (K0 : 0 <= N_C_0 * p4 <= 2 ^ 66) by (clear - P4b H0 H2; unfold wd in H0; nia).
  assert (K1 : 0 <= N_C_1 * p4 <= 2 ^ 66) by (clear - P4b H1 H3; unfold wd in H1; nia).
  assert (X0 : 0 <= p0 <= 2 ^ 64) by (unfold wd in *; lia).
  rewrite (u_acc_mul _ _ _ _ X0 K0) in Et0 by lia.
  assert (B0 : 0 <= t0 <= 2 ^ 67) by lia.
  destruct (u_rsh _ _ B0 ltac:(lia)) as [R0 B0']. rewrite R0 in Et1. rewrite <- Et1 in B0'.
  rewrite (u_acc_u64 _ p1 _ B0' ltac:(assumption)) in Et2 by lia.
  assert (B2 : 0 <= t2 <= 2 ^ 65) by (unfold wd in *; lia).
  rewrite (u_acc_mul _ _ _ _ B2 K1) in Et3 by lia.
  assert (B3 : 0 <= t3 <= 2 ^ 67) by lia.
  destruct (u_rsh _ _ B3 ltac:(lia)) as [R3 B3']. rewrite R3 in Et4. rewrite <- Et4 in B3'.
  rewrite (u_acc_u64 _ p2 _ B3' ltac:(assumption)) in Et5 by lia.
  assert (B5 : 0 <= t5 <= 2 ^ 65) by (unfold wd in *; lia).
  rewrite (u_acc_u64 _ p4 _ B5 ltac:(assumption)) in Et6 by lia.
  assert (B6 : 0 <= t6 <= 2 ^ 66) by (unfold wd in *; lia).
  destruct (u_rsh _ _ B6 ltac:(lia)) as [R6 B6']. rewrite R6 in Et7. rewrite <- Et7 in B6'.
  rewrite (u_acc_u64 _ p3 _ B6' ltac:(assumption)) in Et8 by lia.
  assert (B8 : 0 <= t8 <= 2 ^ 66) by (unfold wd in *; lia).
  destruct (u_rsh _ _ B8 ltac:(lia)) as [R8 B8']. unfold u128_rshift in R8. rewrite R8 in Ecc. rewrite <- Ecc in B8'.
  assert (C4 : carry4 (p0 + N_C_0 * p4) (p1 + N_C_1 * p4) (p2 + p4) p3 = (r4, cc)).
  { unfold carry4. cbv zeta. rewrite <- Et0, <- Et1.
    replace (t1 + (p1 + N_C_1 * p4)) with t3 by lia. rewrite <- Et4.
    replace (t4 + (p2 + p4)) with t6 by lia. rewrite <- Et7, <- Et8, <- Ecc, Er4, Er0, Er1, Er2, Er3. reflexivity. }
  destruct (carry4_ok _ _ _ _ _ _ C4) as (L & Hcc & EV); [lia|unfold wd in *; lia|unfold wd in *; lia|unfold wd in *; lia|].
  rewrite w32_id in H by (pose proof (b2z_range (sc_check_overflow r4)); lia).
  destruct (sc_reduce_carry r4 cc _ L Hcc eq_refl) as (_ & OK & Val).
  { rewrite EV. clear - P4b WP0 WP1 WP2 WP3. unfold wd in *. rewrite n_NC. unfold NC. nconst. lia. }
  rewrite H in OK, Val. split; [exact OK|]. rewrite Val, EV. reflexivity.
Qed.

Lemma red512_m l : l8_lim l -> exists m0 m1 m2 m3 m4 m5 m6, sc_reduce_385 l = (m0, m1, m2, m3, m4, m5, m6) /\
  wd m0 /\ wd m1 /\ wd m2 /\ wd m3 /\ wd m4 /\ wd m5 /\ 0 <= m6 <= 1 /\
  m0 + m1 * 2 ^ 64 + m2 * 2 ^ 128 + m3 * 2 ^ 192 + (m4 + m5 * 2 ^ 64 + m6 * 2 ^ 128) * 2 ^ 256 =
  l_0 l + l_1 l * 2 ^ 64 + l_2 l * 2 ^ 128 + l_3 l * 2 ^ 192 + (l_4 l + l_5 l * 2 ^ 64 + l_6 l * 2 ^ 128 + l_7 l * 2 ^ 192) * (N_C_0 + N_C_1 * 2 ^ 64 + 2 ^ 128).
Proof.
  intros (L0 & L1 & L2 & L3 & L4 & L5 & L6 & L7). remember (sc_reduce_385 l) as r eqn:H. symmetry in H.
  cbv beta delta [sc_reduce_385] in H. 
  pose proof wd_NC0. pose proof wd_NC1.
  assert (N_C_0 <= 0x402DA1732FC9BEBF) by (vm_compute; discriminate).
  assert (N_C_1 <= 0x4551231950B75FC4) by (vm_compute; discriminate).
  let_steps H. subst n0 n1 n2 n3. pose proof (accb_init _ L0) as A. rewrite <- Ec in A. clear Ec.
  repeat go A. destruct (accb_limb _ _ _ A eq_refl) as [EL Wq]. rewrite EL in Em6. 
  assert (M6 : m6 = q4). { rewrite Em6. apply w32_id. destruct A as [(A & _) B]. lia. }
  assert (M6b : 0 <= m6 <= 1) by (rewrite M6; destruct A as [(A & _) B]; lia). rewrite <- M6 in S4, Wq. clear EL Em6 A M6 q4.
  exists m0, m1, m2, m3, m4, m5, m6. do 8 (split; [auto|]).
  exact (red512_lin1 _ _ _ _ _ _ _ _ _ _ _ _ _ _ _ _ _ _ _ _ _ _ S S0 S1 S2 S3 S4).
Qed.
Lemma red512_p m0 m1 m2 m3 m4 m5 m6 : wd m0 -> wd m1 -> wd m2 -> wd m3 -> wd m4 -> wd m5 -> 0 <= m6 <= 1 ->
  exists p0 p1 p2 p3 p4, sc_reduce_258 m0 m1 m2 m3 m4 m5 m6 = (p0, p1, p2, p3, p4) /\
  wd p0 /\ wd p1 /\ wd p2 /\ wd p3 /\ 0 <= p4 <= 3 /\
  p0 + p1 * 2 ^ 64 + p2 * 2 ^ 128 + p3 * 2 ^ 192 + p4 * 2 ^ 256 =
  m0 + m1 * 2 ^ 64 + m2 * 2 ^ 128 + m3 * 2 ^ 192 + (m4 + m5 * 2 ^ 64 + m6 * 2 ^ 128) * (N_C_0 + N_C_1 * 2 ^ 64 + 2 ^ 128).
Proof.
  intros L0 L1 L2 L3 L4 L5 [L6 L6']. remember (sc_reduce_258 m0 m1 m2 m3 m4 m5 m6) as r eqn:H. symmetry in H.
  cbv beta delta [sc_reduce_258] in H. 
  pose proof wd_NC0. pose proof wd_NC1. assert (Wm6 : wd m6) by (unfold wd; lia).
  assert (N_C_0 <= 0x402DA1732FC9BEBF) by (vm_compute; discriminate).
  assert (N_C_1 <= 0x4551231950B75FC4) by (vm_compute; discriminate).
  let_steps H. pose proof (accb_init _ L0) as A. rewrite <- Ec in A. clear Ec.
  repeat go A. destruct (accb_limb _ _ _ A eq_refl) as [EL Wq]. rewrite EL in Ep4.
  assert (P4 : p4 = q2 + m6). { rewrite Ep4. apply w32_id. destruct A as [(A & _) B]. lia. }
  assert (P4b : 0 <= p4 <= 3) by (destruct A as [(A & _) B]; lia).
  exists p0, p1, p2, p3, p4. do 6 (split; [auto|]). rewrite P4.
  exact (red512_lin2 _ _ _ _ _ _ _ _ _ _ _ _ _ _ _ _ _ S S0 S1 S2).
Qed.

Lemma sc_reduce_512_val l : l8_lim l -> sc_ok (sc_reduce_512 l) /\ sv (sc_reduce_512 l) = lv l mod n.
Proof.
  intros L. destruct (red512_m l L) as (m0 & m1 & m2 & m3 & m4 & m5 & m6 & EM & M0 & M1 & M2 & M3 & M4 & M5 & M6 & LM).
  destruct (red512_p m0 m1 m2 m3 m4 m5 m6 M0 M1 M2 M3 M4 M5 M6) as (p0 & p1 & p2 & p3 & p4 & EP & P0 & P1 & P2 & P3 & P4 & LP).
  destruct (red512_final p0 p1 p2 p3 p4 P0 P1 P2 P3 P4) as [OK Val].
  unfold sc_reduce_512. rewrite EM, EP. split; [exact OK|]. rewrite Val. clear - LP LM.
  rewrite (red512_tail _ _ _ _ _ _ _ _ NC_split LP LM).
  - unfold lv. f_equal. ring.
  - rewrite NC_split. ring.
Qed.

Lemma sc_mul_ok a b : sc_lim a -> sc_lim b -> sc_ok (sc_mul a b).
Proof. intros Ha Hb. destruct (sc_mul_512_val a b _ eq_refl Ha Hb) as [L E]. apply (sc_reduce_512_val _ L). Qed.
Lemma sc_mul_sv a b : sc_lim a -> sc_lim b -> sv (sc_mul a b) = (sv a * sv b) mod n.
Proof. intros Ha Hb. destruct (sc_mul_512_val a b _ eq_refl Ha Hb) as [L E]. rewrite <- E. apply (sc_reduce_512_val _ L). Qed.
