(** The matrix products of Modinv32Model.v are exact, and the final normalization lands in [0, M).
    Same argument as ModinvProof2.v, for nine limbs of 30 bits. *)
Require Import ZArith Lia List Bool Znumtheory.
From Verif Require Import Word Word32 Int128Model SpecWords Int128Proof ModinvModel JacobiModel Modinv32Model Safegcd ModinvProof ModinvProof2 Modinv32Proof.
Import ListNotations.
Local Open Scope Z_scope.

(** Value of a list of limbs. *)
Fixpoint lval30 (l : list Z) : Z := match l with [] => 0 | x :: r => x + 2 ^ 30 * lval30 r end.

Lemma pow_S30 n : 2 ^ (30 * Z.of_nat (S n)) = 2 ^ 30 * 2 ^ (30 * Z.of_nat n).
Proof. rewrite <- Z.pow_add_r by lia. f_equal. lia. Qed.

(** All limbs but the last are in [0, 2^62). *)
Fixpoint canon30 (l : list Z) : Prop :=
  match l with
  | [] => False
  | x :: r => match r with [] => True | _ => 0 <= x < 2 ^ 30 /\ canon30 r end
  end.

Lemma canon_cons30 x r : r <> [] -> (canon30 (x :: r) <-> 0 <= x < 2 ^ 30 /\ canon30 r).
Proof. destruct r; [congruence|]. cbn [canon30]. tauto. Qed.

(** The carry chain30 shared by the products. *)
Fixpoint chain30 (c : Z) (ts : list Z) : list Z :=
  match ts with
  | [] => [c]
  | t :: r => (c + t) mod 2 ^ 30 :: chain30 ((c + t) / 2 ^ 30) r
  end.

Lemma chain_nonnil30 c ts : chain30 c ts <> []. Proof. destruct ts; discriminate. Qed.
Lemma chain_length30 ts : forall c, length (chain30 c ts) = S (length ts).
Proof. induction ts as [|t r IH]; intros c; cbn [chain30 length]; [reflexivity|]. now rewrite IH. Qed.
Lemma chain_val30 ts : forall c, lval30 (chain30 c ts) = c + lval30 ts.
Proof.
  induction ts as [|t r IH]; intros c; cbn [chain30 lval30]; [lia|].
  rewrite IH. pose proof (Z.div_mod (c + t) (2 ^ 30)). lia.
Qed.
Lemma chain_canon30 ts : forall c, canon30 (chain30 c ts).
Proof.
  induction ts as [|t r IH]; intros c; cbn [chain30]; [exact I|].
  apply canon_cons30; [apply chain_nonnil30|]. split; [apply Z.mod_pos_bound; lia|apply IH].
Qed.

Lemma canon_last30 l : canon30 l -> - 2 ^ (30 * Z.of_nat (length l)) <= lval30 l <= 2 ^ (30 * Z.of_nat (length l)) ->
  - 2 ^ 30 <= last l 0 <= 2 ^ 30.
Proof.
  induction l as [|x r IH]; [contradiction|]. intros Hc Hv. destruct r as [|y r].
  - cbn [length lval30 last] in *. change (30 * Z.of_nat 1) with 30 in Hv. lia.
  - change (last (x :: y :: r) 0) with (last (y :: r) 0). apply canon_cons30 in Hc; [|discriminate]. destruct Hc as [Hx Hc].
    cbn [length] in Hv. rewrite pow_S30 in Hv. apply IH; [exact Hc|].
    change (lval30 (x :: y :: r)) with (x + 2 ^ 30 * lval30 (y :: r)) in Hv.
    cbn [length]. set (P := 2 ^ (30 * Z.of_nat (S (length r)))) in *. lia.
Qed.

Lemma canon_small30 l : canon30 l -> - 2 ^ 30 <= last l 0 <= 2 ^ 30 -> small (2 ^ 30) l.
Proof.
  induction l as [|x r IH]; intros Hc Hl; [constructor|]. destruct r as [|y r].
  - constructor; [exact Hl|constructor].
  - apply canon_cons30 in Hc; [|discriminate]. destruct Hc as [Hx Hc].
    constructor; [lia|]. apply IH; assumption.
Qed.


Lemma land_M30 x : Z.land x M30 = x mod 2 ^ 30.
Proof. unfold M30. change (2 ^ 30 - 1) with (Z.ones 30). apply Z.land_ones. lia. Qed.
Lemma w32_mod30 x : w32 x mod 2 ^ 30 = x mod 2 ^ 30.
Proof.
  unfold w32. change (2 ^ 32) with (2 ^ 30 * 4).
  rewrite Z.rem_mul_r by lia. rewrite Z.mul_comm, Z.mod_add by lia. apply Z.mod_mod. lia.
Qed.
Lemma to_i32_mod30 x : to_i32 x mod 2 ^ 30 = x mod 2 ^ 30.
Proof.
  unfold to_i32. rewrite <- (w32_mod30 x). destruct (w32 x <? 2 ^ 31); [reflexivity|].
  replace (w32 x - 2 ^ 32) with (w32 x + (-4) * 2 ^ 30) by lia. apply Z.mod_add. lia.
Qed.
Lemma to_i32_land_M30 x : Z.land (to_i32 x) M30 = x mod 2 ^ 30.
Proof. rewrite land_M30. apply to_i32_mod30. Qed.

Definition uv_ok30 (u v : Z) : Prop := Z.abs u + Z.abs v <= 2 ^ 30.

Lemma i64_ok x : - 2 ^ 63 <= x < 2 ^ 63 -> i64 x = Some x.
Proof. intros H. apply i64_id. exact H. Qed.
Lemma lin30_ok u v f g : uv_ok30 u v -> Z.abs f <= 2 ^ 30 -> Z.abs g <= 2 ^ 30 ->
  lin30 u v f g = Some (u * f + v * g) /\ Z.abs (u * f + v * g) <= 2 ^ 60.
Proof.
  unfold uv_ok30. intros Huv Hf Hg. unfold lin30.
  pose proof (mul_abs u f (2 ^ 30) (2 ^ 30) ltac:(lia) ltac:(lia) ltac:(lia) Hf).
  pose proof (mul_abs v g (2 ^ 30) (2 ^ 30) ltac:(lia) ltac:(lia) ltac:(lia) Hg).
  pose proof (lin_abs u v f g (2 ^ 30) (2 ^ 30) ltac:(lia) Huv Hf Hg).
  rewrite (i64_ok (u * f)) by lia. rewrite (i64_ok (v * g)) by lia. rewrite i64_ok by lia. split; [reflexivity|lia].
Qed.
Lemma lin2_val30 u v : forall fs gs, length fs = length gs -> lval30 (lin2 u v fs gs) = u * lval30 fs + v * lval30 gs.
Proof. induction fs as [|f fs IH]; intros [|g gs] H; cbn [lin2 lval30 length] in *; try lia. rewrite IH by lia. ring. Qed.

Lemma carry_bound30 c t : Z.abs c <= 2 ^ 34 -> Z.abs t <= 2 ^ 63 -> Z.abs ((c + t) / 2 ^ 30) <= 2 ^ 34.
Proof.
  intros Hc Ht. assert (- 2 ^ 34 <= (c + t) / 2 ^ 30 <= 2 ^ 34); [|lia]. split.
  - apply Z.div_le_lower_bound; lia.
  - apply Z.div_le_upper_bound; lia.
Qed.

Lemma fg_loop_ok30 u v : uv_ok30 u v -> forall fs gs c, length fs = length gs -> small (2 ^ 30) fs -> small (2 ^ 30) gs ->
  Z.abs c <= 2 ^ 34 ->
  exists o, fg_row30_loop c u v fs gs = Some o /\
    removelast o = removelast (chain30 c (lin2 u v fs gs)) /\ last o 0 = to_i32 (last (chain30 c (lin2 u v fs gs)) 0) /\ o <> [].
Proof.
  intros Huv. induction fs as [|f fs IH]; intros [|g gs] c Hl Hf Hg Hc; cbn [length] in Hl; try lia.
  - exists [to_i32 c]. cbn. repeat split. discriminate.
  - inversion Hf as [|? ? Hf1 Hf2]. inversion Hg as [|? ? Hg1 Hg2]. subst.
    cbn [fg_row30_loop]. destruct (lin30_ok u v f g Huv ltac:(lia) ltac:(lia)) as [-> Ht].
    rewrite i64_ok by lia. rewrite to_i32_land_M30, shiftr_div by lia.
    destruct (IH gs ((c + (u * f + v * g)) / 2 ^ 30)) as (o & -> & E1 & E2 & E3); [lia|assumption|assumption|apply carry_bound30; [exact Hc|lia]|].
    eexists. split; [reflexivity|]. cbn [lin2 chain30].
    assert (E4 := chain_nonnil30 ((c + (u * f + v * g)) / 2 ^ 30) (lin2 u v fs gs)).
    destruct o as [|o1 o]; [congruence|]. destruct (chain30 _ (lin2 u v fs gs)) as [|c1 cr]; [congruence|].
    split; [|split; [exact E2|discriminate]].
    change (removelast (?a :: ?b :: ?l)) with (a :: removelast (b :: l)).
    cbn [removelast] in *. now rewrite E1.
Qed.

(** One row of the product with f and g. *)
Lemma fg_row_ok30 len u v f g H : (1 <= len)%nat -> length f = len -> length g = len ->
  uv_ok30 u v -> small (2 ^ 30) f -> small (2 ^ 30) g ->
  u * lval30 f + v * lval30 g = 2 ^ 30 * H -> Z.abs H <= 2 ^ (30 * Z.of_nat len) ->
  exists o, fg_row30_var len u v f g = Some o /\ length o = len /\ canon30 o /\ lval30 o = H /\ small (2 ^ 30) o.
Proof.
  intros Hl Lf Lg Huv Sf Sg E HH. destruct f as [|f0 f]; [cbn in Lf; lia|]. destruct g as [|g0 g]; [cbn in Lg; lia|].
  cbn [length] in Lf, Lg. inversion Sf as [|? ? Sf0 Sf']. inversion Sg as [|? ? Sg0 Sg']. subst.
  unfold fg_row30_var. cbn [lm nth tl].
  destruct (lin30_ok u v f0 g0 Huv ltac:(lia) ltac:(lia)) as [-> Ht].
  cbn [Nat.sub]. rewrite !Nat.sub_0_r, !firstn_all2 by lia.
  rewrite shiftr_div by lia. set (c := (u * f0 + v * g0) / 2 ^ 30).
  assert (Hc : 2 ^ 30 * c = u * f0 + v * g0).
  { unfold c. cbn [lval30] in E. pose proof (Z.div_mod (u * f0 + v * g0) (2 ^ 30)) as D.
    assert (D0 : (u * f0 + v * g0) mod 2 ^ 30 = 0).
    { apply Z.mod_divide; [lia|]. exists (H - u * lval30 f - v * lval30 g). lia. }
    lia. }
  destruct (fg_loop_ok30 u v Huv f g c) as (o & Eo & E1 & E2 & E3); [lia|assumption|assumption|lia|].
  assert (Lc := chain_length30 (lin2 u v f g) c). rewrite lin2_length in Lc by lia.
  assert (Vc : lval30 (chain30 c (lin2 u v f g)) = H).
  { rewrite chain_val30, lin2_val30 by lia. cbn [lval30] in E. lia. }
  assert (Cc := chain_canon30 (lin2 u v f g) c).
  set (ch := chain30 c (lin2 u v f g)) in *.
  assert (Hlast : - 2 ^ 30 <= last ch 0 <= 2 ^ 30).
  { apply canon_last30; [exact Cc|]. rewrite Lc, Vc. lia. }
  assert (Ech : o = ch).
  { rewrite (app_last o E3), (app_last ch) by (unfold ch; apply chain_nonnil30).
    rewrite E1, E2, to_i32_id; [reflexivity|unfold is_i32; lia]. }
  exists o. rewrite Eo, Ech. repeat split; auto. now apply canon_small30.
Qed.

(** The fixed length version computes the same as the loop. *)
Lemma fg_row_eq30 u v f g : length f = 9%nat -> length g = 9%nat -> fg_row30 u v f g = fg_row30_var 9 u v f g.
Proof.
  intros Lf Lg. unfold fg_row30, fg_row30_var. destruct f as [|? f]; [discriminate Lf|]. destruct g as [|? g]; [discriminate Lg|].
  cbn [length] in *. cbn [tl Nat.sub]. rewrite !firstn_all2 by lia. reflexivity.
Qed.

(** What the modulus has to satisfy. *)
Definition mod_ok30 (mi : modinfo30) (M : Z) : Prop :=
  length (modulus30 mi) = 9%nat /\ small (2 ^ 30 - 1) (modulus30 mi) /\ lval30 (modulus30 mi) = M /\
  word32 (modulus_inv30 mi) /\ (lm (modulus30 mi) 0 * modulus_inv30 mi) mod 2 ^ 30 = 1 /\
  3 <= M <= 2 ^ 256 /\ Z.odd M = true.

(** The top limb determines the value up to the limbs below. *)
Lemma canon_value30 : forall l, canon30 l ->
  2 ^ (30 * (Z.of_nat (length l) - 1)) * last l 0 <= lval30 l < 2 ^ (30 * (Z.of_nat (length l) - 1)) * (last l 0 + 1).
Proof.
  induction l as [|x r IH]; [contradiction|]. intros Hc. destruct r as [|y r].
  - cbn [length lval30 last]. change (2 ^ (30 * (Z.of_nat 1 - 1))) with 1. lia.
  - change (last (x :: y :: r) 0) with (last (y :: r) 0). apply canon_cons30 in Hc; [|discriminate]. destruct Hc as [Hx Hc].
    specialize (IH Hc). set (t := y :: r) in *. clearbody t. change (lval30 (x :: t)) with (x + 2 ^ 30 * lval30 t).
    change (length (x :: t)) with (S (length t)).
    assert (Ht : (1 <= length t)%nat) by (destruct t; [contradiction|cbn; lia]).
    replace (30 * (Z.of_nat (S (length t)) - 1)) with (30 + 30 * (Z.of_nat (length t) - 1)) by lia.
    rewrite Z.pow_add_r by lia. set (P := 2 ^ (30 * (Z.of_nat (length t) - 1))) in *. clearbody P.
    assert (E1 : 2 ^ 30 * P * last t 0 = 2 ^ 30 * (P * last t 0)) by ring.
    assert (E2 : 2 ^ 30 * P * (last t 0 + 1) = 2 ^ 30 * (P * (last t 0 + 1))) by ring.
    lia.
Qed.
Lemma canon_value9 l : length l = 9%nat -> canon30 l -> 2 ^ 240 * last l 0 <= lval30 l < 2 ^ 240 * (last l 0 + 1).
Proof. intros L C. pose proof (canon_value30 l C) as H. rewrite L in H. exact H. Qed.
Lemma lm8_last l : length l = 9%nat -> lm l 8 = last l 0.
Proof.
  intros L. do 9 (destruct l as [|? l]; [discriminate L|]). destruct l; [reflexivity|discriminate L].
Qed.
Lemma canon_sign9 l : length l = 9%nat -> canon30 l -> (lval30 l <? 0) = (lm l 8 <? 0).
Proof.
  intros L C. pose proof (canon_value9 l L C). rewrite (lm8_last l L).
  destruct (Z.ltb_spec (lval30 l) 0), (Z.ltb_spec (last l 0) 0); lia.
Qed.
Lemma canon_top9 l B : length l = 9%nat -> canon30 l -> - 2 ^ 240 * B <= lval30 l < 2 ^ 240 * B -> - B <= last l 0 < B.
Proof. intros L C H. pose proof (canon_value9 l L C). lia. Qed.
(** A canonical list with a small top limb has all its limbs small. *)
Lemma canon_small9 l : length l = 9%nat -> canon30 l -> - 2 ^ 257 <= lval30 l <= 2 ^ 257 -> small (2 ^ 30 - 1) l.
Proof.
  intros L C H. pose proof (canon_top9 l (2 ^ 18) L C ltac:(lia)) as T. clear L H.
  induction l as [|x r IH]; [constructor|]. destruct r as [|y r].
  - constructor; [cbn [last] in T; lia|constructor].
  - apply canon_cons30 in C; [|discriminate]. destruct C as [Hx C].
    constructor; [lia|]. apply IH; assumption.
Qed.

Lemma land_sign30 x c : - 2 ^ 31 <= c < 2 ^ 31 -> Z.land x (Z.shiftr c 31) = if c <? 0 then x else 0.
Proof. intros H. rewrite sign_mask32 by exact H. destruct (c <? 0); [apply Z.land_m1_r|apply Z.land_0_r]. Qed.

Definition de_in30 (M : Z) (d : list Z) : Prop := length d = 9%nat /\ canon30 d /\ - 2 * M < lval30 d < M.

Lemma de_range30 u v D E M kk W : uv_ok30 u v -> - 2 * M < D < M -> - 2 * M < E < M -> 0 <= kk < 2 ^ 30 ->
  2 ^ 30 * W = u * D + v * E + ((if D <? 0 then u else 0) + (if E <? 0 then v else 0) - kk) * M -> - 2 * M < W < M.
Proof.
  intros Huv Hd He Hk Eq.
  assert (HM : 0 < M) by lia.
  set (d' := D + (if D <? 0 then M else 0)) in *. set (e' := E + (if E <? 0 then M else 0)) in *.
  assert (Hd' : Z.abs d' <= M - 1) by (unfold d'; destruct (Z.ltb_spec D 0); lia).
  assert (He' : Z.abs e' <= M - 1) by (unfold e'; destruct (Z.ltb_spec E 0); lia).
  pose proof (lin_abs u v d' e' (2 ^ 30) (M - 1) ltac:(lia) Huv Hd' He') as L.
  assert (Eq' : 2 ^ 30 * W = u * d' + v * e' - kk * M).
  { rewrite Eq. unfold d', e'. destruct (D <? 0), (E <? 0); ring. }
  assert (0 <= kk * M <= (2 ^ 30 - 1) * M) by (split; [apply Z.mul_nonneg_nonneg; lia|apply Z.mul_le_mono_nonneg_r; lia]).
  lia.
Qed.

Fixpoint lin3 (u v w : Z) (ds es ms : list Z) : list Z :=
  match ds, es, ms with d :: ds', e :: es', m :: ms' => (u * d + v * e + m * w) :: lin3 u v w ds' es' ms' | _, _, _ => [] end.
Lemma lin3_length u v w : forall ds es ms, length ds = length es -> length ds = length ms -> length (lin3 u v w ds es ms) = length ds.
Proof. induction ds as [|d ds IH]; intros [|e es] [|m ms] H K; cbn in *; try lia. rewrite IH; lia. Qed.
Lemma lin3_val u v w : forall ds es ms, length ds = length es -> length ds = length ms ->
  lval30 (lin3 u v w ds es ms) = u * lval30 ds + v * lval30 es + w * lval30 ms.
Proof. induction ds as [|d ds IH]; intros [|e es] [|m ms] H K; cbn [lin3 lval30 length] in *; try lia. rewrite IH by lia. ring. Qed.

Lemma de_loop_ok30 u v md : uv_ok30 u v -> Z.abs md <= 2 ^ 31 -> forall ds es ms c, length ds = length es -> length ds = length ms ->
  small (2 ^ 30 - 1) ds -> small (2 ^ 30 - 1) es -> small (2 ^ 30 - 1) ms -> Z.abs c <= 2 ^ 34 ->
  exists o, de_row30_loop c u v md ds es ms = Some o /\
    removelast o = removelast (chain30 c (lin3 u v md ds es ms)) /\ last o 0 = to_i32 (last (chain30 c (lin3 u v md ds es ms)) 0) /\ o <> [].
Proof.
  intros Huv Bmd. induction ds as [|d ds IH]; intros [|e es] [|m ms] c Hl Hk Hd He Hm Hc; cbn [length] in Hl, Hk; try lia.
  - exists [to_i32 c]. cbn. repeat split. discriminate.
  - inversion Hd as [|? ? Hd1 Hd2]. inversion He as [|? ? He1 He2]. inversion Hm as [|? ? Hm1 Hm2]. subst.
    cbn [de_row30_loop]. destruct (lin30_ok u v d e Huv ltac:(lia) ltac:(lia)) as [-> Ht].
    pose proof (mul_abs m md (2 ^ 30) (2 ^ 31) ltac:(lia) ltac:(lia) ltac:(lia) Bmd) as Hy.
    rewrite (i64_ok (c + (u * d + v * e))) by lia. rewrite (i64_ok (m * md)) by lia. rewrite i64_ok by lia.
    rewrite to_i32_land_M30, shiftr_div by lia.
    replace (c + (u * d + v * e) + m * md) with (c + (u * d + v * e + m * md)) by ring.
    destruct (IH es ms ((c + (u * d + v * e + m * md)) / 2 ^ 30)) as (o & -> & E1 & E2 & E3); try assumption; try lia.
    { apply carry_bound30; [exact Hc|lia]. }
    eexists. split; [reflexivity|]. cbn [lin3 chain30].
    assert (E4 := chain_nonnil30 ((c + (u * d + v * e + m * md)) / 2 ^ 30) (lin3 u v md ds es ms)).
    destruct o as [|o1 o]; [congruence|]. destruct (chain30 _ (lin3 u v md ds es ms)) as [|c1 cr]; [congruence|].
    split; [|split; [exact E2|discriminate]].
    change (removelast (?a :: ?b :: ?l)) with (a :: removelast (b :: l)).
    cbn [removelast] in *. now rewrite E1.
Qed.

(** One row of the product with d and e, modulo M. *)
Lemma de_row_ok30 u v d e mi M : mod_ok30 mi M -> uv_ok30 u v -> de_in30 M d -> de_in30 M e ->
  exists o k, de_row30 u v d e mi = Some o /\ de_in30 M o /\ 2 ^ 30 * lval30 o = u * lval30 d + v * lval30 e + k * M.
Proof.
  intros (Lm & Sm & Vm & Wi & Inv & RM & OM) Huv (Ld & Cd & Rd) (Le & Ce & Re).
  pose proof (canon_small9 d Ld Cd ltac:(lia)) as Sd. pose proof (canon_small9 e Le Ce ltac:(lia)) as Se.
  pose proof (canon_top9 d (2 ^ 18) Ld Cd ltac:(lia)) as Td. pose proof (canon_top9 e (2 ^ 18) Le Ce ltac:(lia)) as Te.
  rewrite <- (lm8_last d Ld) in Td. rewrite <- (lm8_last e Le) in Te.
  destruct mi as [m inv]. cbn [modulus30 modulus_inv30] in *.
  unfold de_row30. cbn [modulus30 modulus_inv30].
  rewrite !land_sign30 by lia. rewrite <- (canon_sign9 d Ld Cd), <- (canon_sign9 e Le Ce).
  set (D := lval30 d) in *. set (E := lval30 e) in *.
  assert (VD : D = lm d 0 + 2 ^ 30 * lval30 (tl d)) by (unfold D; destruct d; [discriminate Ld|reflexivity]).
  assert (VE : E = lm e 0 + 2 ^ 30 * lval30 (tl e)) by (unfold E; destruct e; [discriminate Le|reflexivity]).
  assert (VM : M = lm m 0 + 2 ^ 30 * lval30 (tl m)) by (rewrite <- Vm; destruct m; [discriminate Lm|reflexivity]).
  assert (Ldt : length (tl d) = 8%nat) by (destruct d; [discriminate Ld|cbn in *; lia]).
  assert (Let : length (tl e) = 8%nat) by (destruct e; [discriminate Le|cbn in *; lia]).
  assert (Lmt : length (tl m) = 8%nat) by (destruct m; [discriminate Lm|cbn in *; lia]).
  assert (Sdt : small (2 ^ 30 - 1) (tl d) /\ Z.abs (lm d 0) <= 2 ^ 30 - 1) by (destruct d; [discriminate Ld|]; inversion Sd; cbn [tl lm nth]; split; [assumption|lia]).
  assert (Set' : small (2 ^ 30 - 1) (tl e) /\ Z.abs (lm e 0) <= 2 ^ 30 - 1) by (destruct e; [discriminate Le|]; inversion Se; cbn [tl lm nth]; split; [assumption|lia]).
  assert (Smt : small (2 ^ 30 - 1) (tl m) /\ Z.abs (lm m 0) <= 2 ^ 30 - 1) by (destruct m; [discriminate Lm|]; inversion Sm; cbn [tl lm nth]; split; [assumption|lia]).
  destruct Sdt as [Sdt Bd0], Set' as [Set' Be0], Smt as [Smt Bm0].
  set (a0 := lm d 0) in *. set (b0 := lm e 0) in *. set (m0 := lm m 0) in *.
  set (mu := (if D <? 0 then u else 0) + (if E <? 0 then v else 0)).
  assert (Hmu : Z.abs mu <= 2 ^ 30) by (unfold mu, uv_ok30 in *; destruct (D <? 0), (E <? 0); lia).
  rewrite i32_id by (unfold is_i32; lia).
  destruct (lin30_ok u v a0 b0 Huv ltac:(lia) ltac:(lia)) as [-> Bc0].
  set (c0 := u * a0 + v * b0) in *.
  set (kk := Z.land (w32 (w32 (inv * w32 c0) + w32 mu)) M30).
  assert (Hkk : kk = (inv * c0 + mu) mod 2 ^ 30).
  { unfold kk. rewrite land_M30, w32_mod30.
    rewrite Z.add_mod, !w32_mod30 by lia. rewrite Z.mul_mod, w32_mod30 by lia. rewrite <- Z.mul_mod, <- Z.add_mod by lia. reflexivity. }
  assert (Bk : 0 <= kk < 2 ^ 30) by (rewrite Hkk; apply Z.mod_pos_bound; lia).
  assert (Hmd : to_i32 (w32 (w32 mu - kk)) = mu - kk).
  { rewrite to_i32_w32. rewrite <- to_i32_w32. unfold Z.sub. rewrite w32_add_w32l, to_i32_w32. apply to_i32_id. unfold is_i32. lia. }
  rewrite Hmd. set (md := mu - kk) in *.
  assert (Bmd : Z.abs md <= 2 ^ 31) by lia.
  pose proof (mul_abs m0 md (2 ^ 30) (2 ^ 31) ltac:(lia) ltac:(lia) ltac:(lia) Bmd).
  rewrite (i64_ok (m0 * md)) by lia. rewrite i64_ok by lia. rewrite shiftr_div by lia.
  assert (Hdiv : 2 ^ 30 * ((c0 + m0 * md) / 2 ^ 30) = c0 + m0 * md).
  { symmetry. apply Z_div_exact_full_2; [lia|]. apply Z.mod_divide; [lia|].
    pose proof (Z.div_mod (inv * c0 + mu) (2 ^ 30) ltac:(lia)) as D1. rewrite <- Hkk in D1.
    pose proof (Z.div_mod (m0 * inv) (2 ^ 30) ltac:(lia)) as D2. rewrite Inv in D2.
    set (q1 := (inv * c0 + mu) / 2 ^ 30) in *. set (q2 := m0 * inv / 2 ^ 30) in *.
    exists (m0 * q1 - q2 * c0).
    unfold md. replace (mu - kk) with (2 ^ 30 * q1 - inv * c0) by lia.
    replace (c0 + m0 * (2 ^ 30 * q1 - inv * c0)) with (c0 + m0 * 2 ^ 30 * q1 - (m0 * inv) * c0) by ring.
    rewrite D2. ring. }
  set (k0 := (c0 + m0 * md) / 2 ^ 30) in *.
  assert (K0 : Z.abs k0 <= 2 ^ 34) by lia.
  destruct (de_loop_ok30 u v md Huv Bmd (tl d) (tl e) (tl m) k0) as (o & Eo & E1 & E2 & E3); try assumption; try congruence.
  set (ts := lin3 u v md (tl d) (tl e) (tl m)) in *.
  assert (Lts : length ts = 8%nat) by (unfold ts; rewrite lin3_length; congruence).
  assert (Vts : lval30 ts = u * lval30 (tl d) + v * lval30 (tl e) + md * lval30 (tl m)) by (unfold ts; apply lin3_val; congruence).
  clearbody ts.
  set (ch := chain30 k0 ts) in *.
  assert (Vch : 2 ^ 30 * lval30 ch = u * D + v * E + md * M).
  { unfold ch. rewrite chain_val30, Vts. rewrite Z.mul_add_distr_l, Hdiv. rewrite VD, VE, VM. unfold c0. ring. }
  assert (Rch : - 2 * M < lval30 ch < M).
  { apply (de_range30 u v D E M kk); assumption. }
  assert (Cch := chain_canon30 ts k0). fold ch in Cch.
  assert (Lch := chain_length30 ts k0). fold ch in Lch. rewrite Lts in Lch.
  assert (O4 : - 2 ^ 18 <= last ch 0 < 2 ^ 18) by (apply (canon_top9 ch (2 ^ 18) Lch Cch); clear - Rch RM; lia).
  assert (Ech : o = ch).
  { rewrite (app_last o E3), (app_last ch) by (unfold ch; apply chain_nonnil30).
    rewrite E1, E2, to_i32_id; [reflexivity|unfold is_i32; lia]. }
  exists ch, md. rewrite Eo, Ech. exact (conj eq_refl (conj (conj Lch (conj Cch Rch)) Vch)).
Qed.

(** Carry propagation. *)
Lemma div30_bound x : - 2 ^ 31 <= x < 2 ^ 31 -> -2 <= x / 2 ^ 30 <= 1.
Proof. intros Hx. split; [apply Z.div_le_lower_bound; lia|]. apply Z.lt_succ_r. apply Z.div_lt_upper_bound; lia. Qed.
Lemma propagate_ok30 : forall r x, - 2 ^ 31 <= x < 2 ^ 31 -> small (2 ^ 31 - 2) r ->
  exists o, propagate30 x r = Some o /\ length o = S (length r) /\ canon30 o /\ lval30 o = x + 2 ^ 30 * lval30 r.
Proof.
  induction r as [|y r IH]; intros x Hx Hr; cbn [propagate30].
  - exists [x]. cbn [length lval30 canon30]. repeat split.
  - inversion Hr as [|? ? Hy Hr']. subst. rewrite shiftr_div by lia. pose proof (div30_bound x Hx).
    rewrite i32_id by (unfold is_i32; lia).
    destruct (IH (y + x / 2 ^ 30) ltac:(lia) Hr') as (o & -> & L & C & V).
    eexists. split; [reflexivity|]. cbn [length]. split; [now rewrite L|]. split.
    + apply canon_cons30; [destruct o; [discriminate L|discriminate]|]. split; [|exact C]. rewrite land_M30. apply Z.mod_pos_bound. lia.
    + cbn [lval30]. rewrite V, land_M30. pose proof (Z.div_mod x (2 ^ 30) ltac:(lia)). lia.
Qed.
Lemma propagate_all30 r : small (2 ^ 31 - 2) r -> r <> [] ->
  exists o, propagate30 (lm r 0) (tl r) = Some o /\ length o = length r /\ canon30 o /\ lval30 o = lval30 r.
Proof.
  intros Hr Hn. destruct r as [|x r]; [congruence|]. inversion Hr as [|? ? Hx Hr']. subst. cbn [lm nth tl].
  destruct (propagate_ok30 r x ltac:(lia) Hr') as (o & E & L & C & V). exists o. cbn [length lval30]. auto.
Qed.
Lemma add_limbs_ok30 c : - 2 ^ 31 <= c < 2 ^ 31 -> forall r m, length r = length m -> small (2 ^ 30 - 1) r -> small (2 ^ 30 - 1) m ->
  exists o, add_limbs30 r m (Z.shiftr c 31) = Some o /\ length o = length r /\ small (2 ^ 31 - 2) o /\
    lval30 o = lval30 r + if c <? 0 then lval30 m else 0.
Proof.
  intros Hc. induction r as [|x r IH]; intros [|y m] L Hr Hm; cbn [length] in L; try lia; cbn [add_limbs30].
  - exists []. cbn [length lval30]. destruct (c <? 0); repeat split; constructor.
  - inversion Hr as [|? ? Hx Hr']. inversion Hm as [|? ? Hy Hm']. subst. rewrite land_sign30 by exact Hc.
    rewrite i32_id by (unfold is_i32; destruct (c <? 0); lia).
    destruct (IH m ltac:(lia) Hr' Hm') as (o & -> & Lo & So & Vo). eexists. split; [reflexivity|]. cbn [length lval30].
    split; [now rewrite Lo|]. split; [constructor; [destruct (c <? 0); lia|exact So]|]. rewrite Vo. destruct (c <? 0); ring.
Qed.
Lemma neg_limbs_ok30 c : - 2 ^ 31 <= c < 2 ^ 31 -> forall r, small (2 ^ 31 - 2) r ->
  exists o, neg_limbs30 r (Z.shiftr c 31) = Some o /\ length o = length r /\ small (2 ^ 31 - 2) o /\
    lval30 o = if c <? 0 then - lval30 r else lval30 r.
Proof.
  intros Hc. induction r as [|x r IH]; intros Hr; cbn [neg_limbs30].
  - exists []. cbn [length lval30]. destruct (c <? 0); repeat split; constructor.
  - inversion Hr as [|? ? Hx Hr']. subst. destruct (IH Hr') as (o & Eo & Lo & So & Vo).
    assert (E : i32 (Z.lxor x (Z.shiftr c 31) - Z.shiftr c 31) = Some (if c <? 0 then - x else x)).
    { rewrite sign_mask32 by exact Hc. destruct (c <? 0).
      - rewrite Z.lxor_m1_r. unfold Z.lnot. replace (Z.pred (- x) - -1) with (- x) by lia. apply i32_id. unfold is_i32. lia.
      - rewrite Z.lxor_0_r, Z.sub_0_r. apply i32_id. unfold is_i32. lia. }
    rewrite E, Eo. eexists. split; [reflexivity|]. cbn [length lval30]. split; [now rewrite Lo|].
    split; [constructor; [destruct (c <? 0); lia|exact So]|]. rewrite Vo. destruct (c <? 0); ring.
Qed.

(** The final normalization. *)
Lemma normalize_ok30 r sign mi M : mod_ok30 mi M -> de_in30 M r -> - 2 ^ 31 <= sign < 2 ^ 31 ->
  exists o k, normalize_30 r sign mi = Some o /\ length o = 9%nat /\ canon30 o /\ 0 <= lval30 o < M /\
    lval30 o = (if sign <? 0 then - lval30 r else lval30 r) + k * M.
Proof.
  intros (Lm & Sm & Vm & Wi & Inv & RM & OM) (Lr & Cr & Rr) Hs.
  pose proof (canon_small9 r Lr Cr ltac:(lia)) as Sr. pose proof (canon_top9 r (2 ^ 18) Lr Cr ltac:(lia)) as Tr.
  rewrite <- (lm8_last r Lr) in Tr.
  unfold normalize_30. destruct (add_limbs_ok30 (lm r 8) ltac:(lia) r (modulus30 mi) ltac:(congruence) Sr Sm) as (r1 & -> & L1 & S1 & V1).
  rewrite <- (canon_sign9 r Lr Cr), Vm in V1.
  destruct (neg_limbs_ok30 sign Hs r1 S1) as (r2 & -> & L2 & S2 & V2). rewrite V1 in V2.
  destruct (propagate_all30 r2 S2 ltac:(intros ->; cbn in L2; lia)) as (r3 & -> & L3 & C3 & V3). rewrite V2 in V3.
  assert (L3' : length r3 = 9%nat) by lia.
  assert (R3 : - M < lval30 r3 < M).
  { rewrite V3. destruct (sign <? 0), (Z.ltb_spec (lval30 r) 0); lia. }
  pose proof (canon_small9 r3 L3' C3 ltac:(lia)) as S3. pose proof (canon_top9 r3 (2 ^ 18) L3' C3 ltac:(lia)) as T3.
  rewrite <- (lm8_last r3 L3') in T3.
  destruct (add_limbs_ok30 (lm r3 8) ltac:(lia) r3 (modulus30 mi) ltac:(congruence) S3 Sm) as (r4 & -> & L4 & S4 & V4).
  rewrite <- (canon_sign9 r3 L3' C3), Vm in V4.
  destruct (propagate_all30 r4 S4 ltac:(intros ->; cbn in L4; lia)) as (r5 & -> & L5 & C5 & V5). rewrite V4 in V5.
  exists r5, ((if lval30 r3 <? 0 then 1 else 0) + (if lval30 r <? 0 then (if sign <? 0 then -1 else 1) else 0)).
  assert (L5' : length r5 = 9%nat) by congruence.
  refine (conj eq_refl (conj L5' (conj C5 (conj _ _)))).
  - rewrite V5. destruct (Z.ltb_spec (lval30 r3) 0); lia.
  - rewrite V5. rewrite V3 at 1. destruct (sign <? 0), (lval30 r <? 0), (lval30 r3 <? 0); ring.
Qed.
