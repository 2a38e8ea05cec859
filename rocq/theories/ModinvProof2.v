(** The matrix products of ModinvModel.v are exact, and the final normalization lands in [0, M). *)
Require Import ZArith Lia List Bool Znumtheory.
From Verif Require Import Word Int128Model SpecWords Int128Proof ScalarProof2 ModinvModel Safegcd ModinvProof.
Import ListNotations.
Local Open Scope Z_scope.

(** Value of a list of limbs. *)
Fixpoint lval (l : list Z) : Z := match l with [] => 0 | x :: r => x + 2 ^ 62 * lval r end.
Definition small (B : Z) (l : list Z) : Prop := Forall (fun x => - B <= x <= B) l.

Lemma pow62_S n : 2 ^ (62 * Z.of_nat (S n)) = 2 ^ 62 * 2 ^ (62 * Z.of_nat n).
Proof. rewrite <- Z.pow_add_r by lia. f_equal. lia. Qed.

(** All limbs but the last are in [0, 2^62). *)
Fixpoint canon (l : list Z) : Prop :=
  match l with
  | [] => False
  | x :: r => match r with [] => True | _ => 0 <= x < 2 ^ 62 /\ canon r end
  end.

Lemma canon_cons x r : r <> [] -> (canon (x :: r) <-> 0 <= x < 2 ^ 62 /\ canon r).
Proof. destruct r; [congruence|]. cbn [canon]. tauto. Qed.

(** The carry chain shared by the products. *)
Fixpoint chain (c : Z) (ts : list Z) : list Z :=
  match ts with
  | [] => [c]
  | t :: r => (c + t) mod 2 ^ 62 :: chain ((c + t) / 2 ^ 62) r
  end.

Lemma chain_nonnil c ts : chain c ts <> []. Proof. destruct ts; discriminate. Qed.
Lemma chain_length ts : forall c, length (chain c ts) = S (length ts).
Proof. induction ts as [|t r IH]; intros c; cbn [chain length]; [reflexivity|]. now rewrite IH. Qed.
Lemma chain_val ts : forall c, lval (chain c ts) = c + lval ts.
Proof.
  induction ts as [|t r IH]; intros c; cbn [chain lval]; [lia|].
  rewrite IH. pose proof (Z.div_mod (c + t) (2 ^ 62)). lia.
Qed.
Lemma chain_canon ts : forall c, canon (chain c ts).
Proof.
  induction ts as [|t r IH]; intros c; cbn [chain]; [exact I|].
  apply canon_cons; [apply chain_nonnil|]. split; [apply Z.mod_pos_bound; lia|apply IH].
Qed.

Lemma canon_last l : canon l -> - 2 ^ (62 * Z.of_nat (length l)) <= lval l <= 2 ^ (62 * Z.of_nat (length l)) ->
  - 2 ^ 62 <= last l 0 <= 2 ^ 62.
Proof.
  induction l as [|x r IH]; [contradiction|]. intros Hc Hv. destruct r as [|y r].
  - cbn [length lval last] in *. change (62 * Z.of_nat 1) with 62 in Hv. lia.
  - change (last (x :: y :: r) 0) with (last (y :: r) 0). apply canon_cons in Hc; [|discriminate]. destruct Hc as [Hx Hc].
    cbn [length] in Hv. rewrite pow62_S in Hv. apply IH; [exact Hc|].
    change (lval (x :: y :: r)) with (x + 2 ^ 62 * lval (y :: r)) in Hv.
    cbn [length]. set (P := 2 ^ (62 * Z.of_nat (S (length r)))) in *. lia.
Qed.

Lemma canon_small l : canon l -> - 2 ^ 62 <= last l 0 <= 2 ^ 62 -> small (2 ^ 62) l.
Proof.
  induction l as [|x r IH]; intros Hc Hl; [constructor|]. destruct r as [|y r].
  - constructor; [exact Hl|constructor].
  - apply canon_cons in Hc; [|discriminate]. destruct Hc as [Hx Hc].
    constructor; [lia|]. apply IH; assumption.
Qed.

Lemma land_M62 x : Z.land x M62 = x mod 2 ^ 62.
Proof. unfold M62. change (2 ^ 62 - 1) with (Z.ones 62). apply Z.land_ones. lia. Qed.
Lemma w64_land_M62 x : Z.land (w64 x) M62 = x mod 2 ^ 62.
Proof.
  rewrite land_M62. unfold w64. symmetry. change (2 ^ 64) with (2 ^ 62 * 4).
  rewrite Z.rem_mul_r by lia. rewrite Z.mul_comm, Z.mod_add by lia. symmetry. apply Z.mod_mod. lia.
Qed.
Lemma to_i64_mod62 x : to_i64 (x mod 2 ^ 62) = x mod 2 ^ 62.
Proof. apply to_i64_id. unfold is_i64. pose proof (Z.mod_pos_bound x (2 ^ 62)). lia. Qed.
Lemma i128_ok x : - 2 ^ 127 <= x < 2 ^ 127 -> i128 x = Some x.
Proof. intros H. unfold i128. destruct (Z.leb_spec (- 2 ^ 127) x), (Z.ltb_spec x (2 ^ 127)); try lia. reflexivity. Qed.
Lemma rshift_div x : i128_rshift x 62 = x / 2 ^ 62.
Proof. unfold i128_rshift. apply shiftr_div. lia. Qed.

Lemma mul_abs a b A B : 0 <= A -> 0 <= B -> Z.abs a <= A -> Z.abs b <= B -> Z.abs (a * b) <= A * B.
Proof. intros. rewrite Z.abs_mul. apply Z.mul_le_mono_nonneg; lia. Qed.
Lemma lin_abs u v f g K B : 0 <= B -> Z.abs u + Z.abs v <= K -> Z.abs f <= B -> Z.abs g <= B -> Z.abs (u * f + v * g) <= K * B.
Proof.
  intros HB Huv Hf Hg. pose proof (mul_abs u f (Z.abs u) B ltac:(lia) HB ltac:(lia) Hf).
  pose proof (mul_abs v g (Z.abs v) B ltac:(lia) HB ltac:(lia) Hg). nia.
Qed.

Definition uv_ok (u v : Z) : Prop := Z.abs u + Z.abs v <= 2 ^ 62.

Lemma fg_limb_ok c u v f g : uv_ok u v -> Z.abs f <= 2 ^ 62 -> Z.abs g <= 2 ^ 62 -> Z.abs c <= 2 ^ 66 ->
  fg_limb c u v f g = Some (c + (u * f + v * g)).
Proof.
  unfold uv_ok. intros Huv Hf Hg Hc. unfold fg_limb, i128_accum_mul.
  pose proof (mul_abs u f (2 ^ 62) (2 ^ 62) ltac:(lia) ltac:(lia) ltac:(lia) Hf).
  pose proof (mul_abs v g (2 ^ 62) (2 ^ 62) ltac:(lia) ltac:(lia) ltac:(lia) Hg).
  rewrite (i128_ok (u * f)) by lia. rewrite i128_ok by lia. rewrite (i128_ok (v * g)) by lia. rewrite i128_ok by lia.
  f_equal. ring.
Qed.

Fixpoint lin2 (u v : Z) (fs gs : list Z) : list Z :=
  match fs, gs with f :: fs', g :: gs' => (u * f + v * g) :: lin2 u v fs' gs' | _, _ => [] end.
Lemma lin2_length u v : forall fs gs, length fs = length gs -> length (lin2 u v fs gs) = length fs.
Proof. induction fs as [|f fs IH]; intros [|g gs] H; cbn in *; try lia. rewrite IH; lia. Qed.
Lemma lin2_val u v : forall fs gs, length fs = length gs -> lval (lin2 u v fs gs) = u * lval fs + v * lval gs.
Proof. induction fs as [|f fs IH]; intros [|g gs] H; cbn [lin2 lval length] in *; try lia. rewrite IH by lia. ring. Qed.

Lemma carry_bound c t : Z.abs c <= 2 ^ 66 -> Z.abs t <= 2 ^ 127 -> Z.abs ((c + t) / 2 ^ 62) <= 2 ^ 66.
Proof.
  intros Hc Ht. assert (- 2 ^ 66 <= (c + t) / 2 ^ 62 <= 2 ^ 66); [|lia]. split.
  - apply Z.div_le_lower_bound; lia.
  - apply Z.div_le_upper_bound; lia.
Qed.

Lemma fg_loop_ok u v : uv_ok u v -> forall fs gs c, length fs = length gs -> small (2 ^ 62) fs -> small (2 ^ 62) gs ->
  Z.abs c <= 2 ^ 66 ->
  exists o, fg_row_var_loop c u v fs gs = Some o /\
    removelast o = removelast (chain c (lin2 u v fs gs)) /\ last o 0 = to_i64 (last (chain c (lin2 u v fs gs)) 0) /\ o <> [].
Proof.
  intros Huv. induction fs as [|f fs IH]; intros [|g gs] c Hl Hf Hg Hc; cbn [length] in Hl; try lia.
  - exists [to_i64 c]. cbn. repeat split. discriminate.
  - inversion Hf as [|? ? Hf1 Hf2]. inversion Hg as [|? ? Hg1 Hg2]. subst.
    cbn [fg_row_var_loop]. rewrite fg_limb_ok by (assumption || lia).
    pose proof (lin_abs u v f g (2 ^ 62) (2 ^ 62) ltac:(lia) Huv ltac:(lia) ltac:(lia)) as Ht.
    rewrite rshift_div. unfold i128_to_u64. rewrite w64_land_M62, to_i64_mod62.
    destruct (IH gs ((c + (u * f + v * g)) / 2 ^ 62)) as (o & -> & E1 & E2 & E3); [lia|assumption|assumption|apply carry_bound; [exact Hc|lia]|].
    eexists. split; [reflexivity|]. cbn [lin2 chain].
    assert (E4 := chain_nonnil ((c + (u * f + v * g)) / 2 ^ 62) (lin2 u v fs gs)).
    destruct o as [|o1 o]; [congruence|]. destruct (chain _ (lin2 u v fs gs)) as [|c1 cr]; [congruence|].
    split; [|split; [exact E2|discriminate]].
    change (removelast (?a :: ?b :: ?l)) with (a :: removelast (b :: l)).
    cbn [removelast] in *. now rewrite E1.
Qed.

Lemma app_last (l : list Z) : l <> [] -> l = removelast l ++ [last l 0].
Proof. apply app_removelast_last. Qed.

(** One row of the product with f and g. *)
Lemma fg_row_ok len u v f g H : (1 <= len)%nat -> length f = len -> length g = len ->
  uv_ok u v -> small (2 ^ 62) f -> small (2 ^ 62) g ->
  u * lval f + v * lval g = 2 ^ 62 * H -> Z.abs H <= 2 ^ (62 * Z.of_nat len) ->
  exists o, fg_row_var len u v f g = Some o /\ length o = len /\ canon o /\ lval o = H /\ small (2 ^ 62) o.
Proof.
  intros Hl Lf Lg Huv Sf Sg E HH. destruct f as [|f0 f]; [cbn in Lf; lia|]. destruct g as [|g0 g]; [cbn in Lg; lia|].
  cbn [length] in Lf, Lg. inversion Sf as [|? ? Sf0 Sf']. inversion Sg as [|? ? Sg0 Sg']. subst.
  unfold fg_row_var. cbn [lm nth tl].
  pose proof (mul_abs u f0 (2 ^ 62) (2 ^ 62) ltac:(lia) ltac:(lia) ltac:(unfold uv_ok in Huv; lia) ltac:(lia)) as M1.
  pose proof (mul_abs v g0 (2 ^ 62) (2 ^ 62) ltac:(lia) ltac:(lia) ltac:(unfold uv_ok in Huv; lia) ltac:(lia)) as M2.
  unfold i128_mul, i128_accum_mul. rewrite (i128_ok (u * f0)) by lia. rewrite (i128_ok (v * g0)) by lia.
  rewrite i128_ok by lia. cbn [Nat.sub]. rewrite !Nat.sub_0_r, !firstn_all2 by lia.
  rewrite rshift_div. set (c := (u * f0 + v * g0) / 2 ^ 62).
  assert (Hc : 2 ^ 62 * c = u * f0 + v * g0).
  { unfold c. cbn [lval] in E. pose proof (Z.div_mod (u * f0 + v * g0) (2 ^ 62)) as D.
    assert (D0 : (u * f0 + v * g0) mod 2 ^ 62 = 0).
    { apply Z.mod_divide; [lia|]. exists (H - u * lval f - v * lval g). lia. }
    lia. }
  destruct (fg_loop_ok u v Huv f g c) as (o & Eo & E1 & E2 & E3); [lia|assumption|assumption|lia|].
  assert (Lc := chain_length (lin2 u v f g) c). rewrite lin2_length in Lc by lia.
  assert (Vc : lval (chain c (lin2 u v f g)) = H).
  { rewrite chain_val, lin2_val by lia. cbn [lval] in E. lia. }
  assert (Cc := chain_canon (lin2 u v f g) c).
  set (ch := chain c (lin2 u v f g)) in *.
  assert (Hlast : - 2 ^ 62 <= last ch 0 <= 2 ^ 62).
  { apply canon_last; [exact Cc|]. rewrite Lc, Vc. lia. }
  assert (Ech : o = ch).
  { rewrite (app_last o E3), (app_last ch) by (unfold ch; apply chain_nonnil).
    rewrite E1, E2, to_i64_id; [reflexivity|unfold is_i64; lia]. }
  exists o. rewrite Eo, Ech. repeat split; auto. now apply canon_small.
Qed.

Ltac osplit := match goal with |- (match ?x with Some _ => _ | None => _ end) = _ => destruct x; [|reflexivity] end.

(** The unrolled five limb version computes the same as the loop. *)
Lemma fg_row_eq u v f g : length f = 5%nat -> length g = 5%nat -> fg_row u v f g = fg_row_var 5 u v f g.
Proof.
  intros Lf Lg. do 5 (destruct f as [|? f]; [discriminate Lf|]). destruct f; [|discriminate Lf].
  do 5 (destruct g as [|? g]; [discriminate Lg|]). destruct g; [|discriminate Lg].
  unfold fg_row, fg_row_var. cbn [lm nth tl Nat.sub firstn fg_row_var_loop].
  repeat osplit. reflexivity.
Qed.

(** What the modulus has to satisfy. *)
Definition mod_ok (mi : modinfo) (M : Z) : Prop :=
  length (modulus mi) = 5%nat /\ small (2 ^ 62 - 1) (modulus mi) /\ lval (modulus mi) = M /\
  Z.abs (lm (modulus mi) 4) <= 2 ^ 9 /\
  word (modulus_inv62 mi) /\ (lm (modulus mi) 0 * modulus_inv62 mi) mod 2 ^ 62 = 1 /\
  3 <= M <= 2 ^ 256 /\ Z.odd M = true.

Definition five (a0 a1 a2 a3 a4 : Z) : Z := lval [a0; a1; a2; a3; a4].

Lemma canon5 l : length l = 5%nat -> canon l -> exists a0 a1 a2 a3 a4, l = [a0; a1; a2; a3; a4] /\
  0 <= a0 < 2 ^ 62 /\ 0 <= a1 < 2 ^ 62 /\ 0 <= a2 < 2 ^ 62 /\ 0 <= a3 < 2 ^ 62.
Proof.
  intros Hl Hc. do 5 (destruct l as [|? l]; [discriminate Hl|]). destruct l; [|discriminate Hl].
  cbn in Hc. repeat eexists; lia.
Qed.

Lemma canon_sign a0 a1 a2 a3 a4 : 0 <= a0 < 2 ^ 62 -> 0 <= a1 < 2 ^ 62 -> 0 <= a2 < 2 ^ 62 -> 0 <= a3 < 2 ^ 62 ->
  (lval [a0; a1; a2; a3; a4] <? 0) = (a4 <? 0).
Proof. intros. cbn [lval]. destruct (Z.ltb_spec a4 0), (Z.ltb_spec (a0 + 2 ^ 62 * (a1 + 2 ^ 62 * (a2 + 2 ^ 62 * (a3 + 2 ^ 62 * (a4 + 2 ^ 62 * 0))))) 0); lia. Qed.

Lemma canon_top a0 a1 a2 a3 a4 B : 0 <= a0 < 2 ^ 62 -> 0 <= a1 < 2 ^ 62 -> 0 <= a2 < 2 ^ 62 -> 0 <= a3 < 2 ^ 62 ->
  - 2 ^ 248 * B <= lval [a0; a1; a2; a3; a4] < 2 ^ 248 * B -> - B <= a4 < B.
Proof. intros. cbn [lval] in *. lia. Qed.

Lemma land_sign x c : - 2 ^ 63 <= c < 2 ^ 63 -> Z.land x (Z.shiftr c 63) = if c <? 0 then x else 0.
Proof. intros H. rewrite sign_mask by exact H. destruct (c <? 0); [apply Z.land_m1_r|apply Z.land_0_r]. Qed.

Lemma accum_ok c a b : Z.abs c <= 2 ^ 126 -> Z.abs (a * b) <= 2 ^ 125 -> i128_accum_mul c a b = Some (c + a * b).
Proof. intros. unfold i128_accum_mul. rewrite (i128_ok (a * b)) by lia. apply i128_ok. lia. Qed.

Lemma de_limb_ok c u v d e m md skip : Z.abs c <= 2 ^ 66 -> uv_ok u v -> Z.abs d <= 2 ^ 62 -> Z.abs e <= 2 ^ 62 ->
  Z.abs m <= 2 ^ 62 -> Z.abs md <= 2 ^ 63 -> de_limb c u v d e m md skip = Some (c + (u * d + v * e + m * md)).
Proof.
  intros Hc Huv Hd He Hm Hmd. unfold de_limb, uv_ok in *.
  pose proof (mul_abs u d (2 ^ 62) (2 ^ 62) ltac:(lia) ltac:(lia) ltac:(lia) Hd).
  pose proof (mul_abs v e (2 ^ 62) (2 ^ 62) ltac:(lia) ltac:(lia) ltac:(lia) He).
  pose proof (mul_abs m md (2 ^ 62) (2 ^ 63) ltac:(lia) ltac:(lia) Hm Hmd).
  rewrite accum_ok by lia. rewrite accum_ok by lia.
  destruct skip; cbn [andb]; [destruct (Z.eqb_spec m 0) as [->|]|].
  - f_equal. lia.
  - rewrite accum_ok by lia. f_equal. ring.
  - rewrite accum_ok by lia. f_equal. ring.
Qed.

Definition de_in (M : Z) (d : list Z) : Prop := length d = 5%nat /\ canon d /\ - 2 * M < lval d < M.

Lemma de_range u v D E M kk W : uv_ok u v -> - 2 * M < D < M -> - 2 * M < E < M -> 0 <= kk < 2 ^ 62 ->
  2 ^ 62 * W = u * D + v * E + ((if D <? 0 then u else 0) + (if E <? 0 then v else 0) - kk) * M -> - 2 * M < W < M.
Proof.
  intros Huv Hd He Hk Eq.
  assert (HM : 0 < M) by lia.
  set (d' := D + (if D <? 0 then M else 0)) in *. set (e' := E + (if E <? 0 then M else 0)) in *.
  assert (Hd' : Z.abs d' <= M - 1) by (unfold d'; destruct (Z.ltb_spec D 0); lia).
  assert (He' : Z.abs e' <= M - 1) by (unfold e'; destruct (Z.ltb_spec E 0); lia).
  pose proof (lin_abs u v d' e' (2 ^ 62) (M - 1) ltac:(lia) Huv Hd' He') as L.
  assert (Eq' : 2 ^ 62 * W = u * d' + v * e' - kk * M).
  { rewrite Eq. unfold d', e'. destruct (D <? 0), (E <? 0); ring. }
  assert (0 <= kk * M <= (2 ^ 62 - 1) * M) by (split; [apply Z.mul_nonneg_nonneg; lia|apply Z.mul_le_mono_nonneg_r; lia]).
  lia.
Qed.

(** One row of the product with d and e, modulo M. *)
Lemma de_row_ok u v d e mi M : mod_ok mi M -> uv_ok u v -> de_in M d -> de_in M e ->
  exists o k, de_row u v d e mi = Some o /\ de_in M o /\ 2 ^ 62 * lval o = u * lval d + v * lval e + k * M.
Proof.
  intros (Lm & Sm & Vm & Tm & Wi & Inv & RM & OM) Huv (Ld & Cd & Rd) (Le & Ce & Re).
  destruct (canon5 d Ld Cd) as (a0 & a1 & a2 & a3 & a4 & -> & A0 & A1 & A2 & A3).
  destruct (canon5 e Le Ce) as (b0 & b1 & b2 & b3 & b4 & -> & B0 & B1 & B2 & B3).
  destruct mi as [m inv]. cbn [modulus modulus_inv62] in *.
  do 5 (destruct m as [|? m]; [discriminate Lm|]). destruct m; [|discriminate Lm].
  rename z into m0, z0 into m1, z1 into m2, z2 into m3, z3 into m4.
  unfold small in Sm. inversion Sm as [|? ? S0 Sm1]. inversion Sm1 as [|? ? S1 Sm2]. inversion Sm2 as [|? ? S2 Sm3].
  inversion Sm3 as [|? ? S3 Sm4]. inversion Sm4 as [|? ? S4 Sm5]. subst. clear Sm Sm1 Sm2 Sm3 Sm4 Sm5.
  set (M := lval [m0; m1; m2; m3; m4]) in *.
  assert (T4 : - 2 ^ 10 <= a4 < 2 ^ 10) by (apply (canon_top a0 a1 a2 a3); auto; lia).
  assert (U4 : - 2 ^ 10 <= b4 < 2 ^ 10) by (apply (canon_top b0 b1 b2 b3); auto; lia).
  unfold de_row. cbn [modulus modulus_inv62 lm nth] in *.
  rewrite !land_sign by lia.
  rewrite <- (canon_sign a0 a1 a2 a3 a4), <- (canon_sign b0 b1 b2 b3 b4) by assumption.
  set (D := lval [a0; a1; a2; a3; a4]) in *. set (E := lval [b0; b1; b2; b3; b4]) in *.
  set (mu := (if D <? 0 then u else 0) + (if E <? 0 then v else 0)).
  assert (Hmu : Z.abs mu <= 2 ^ 62) by (unfold mu, uv_ok in *; destruct (D <? 0), (E <? 0); lia).
  rewrite i64_id by (unfold is_i64; lia).
  unfold i128_mul.
  pose proof (mul_abs u a0 (2 ^ 62) (2 ^ 62) ltac:(lia) ltac:(lia) ltac:(unfold uv_ok in Huv; lia) ltac:(lia)).
  pose proof (mul_abs v b0 (2 ^ 62) (2 ^ 62) ltac:(lia) ltac:(lia) ltac:(unfold uv_ok in Huv; lia) ltac:(lia)).
  rewrite (i128_ok (u * a0)) by lia. rewrite accum_ok by lia.
  set (c0 := u * a0 + v * b0) in *. unfold i128_to_u64.
  set (kk := Z.land (w64 (w64 (inv * w64 c0) + w64 mu)) M62).
  assert (Hkk : kk = (inv * c0 + mu) mod 2 ^ 62).
  { unfold kk. rewrite w64_land_M62.
    assert (X : forall x, (w64 x) mod 2 ^ 62 = x mod 2 ^ 62) by (intros x; rewrite <- land_M62; apply w64_land_M62).
    rewrite Z.add_mod, !X by lia. rewrite Z.mul_mod, X by lia. rewrite <- Z.mul_mod, <- Z.add_mod by lia. reflexivity. }
  assert (Bk : 0 <= kk < 2 ^ 62) by (rewrite Hkk; apply Z.mod_pos_bound; lia).
  assert (Hmd : to_i64 (w64 (w64 mu - kk)) = mu - kk).
  { rewrite to_i64_w64. rewrite <- to_i64_w64. unfold Z.sub. rewrite w64_add_w64l, to_i64_w64. apply to_i64_id. unfold is_i64. lia. }
  rewrite Hmd. set (md := mu - kk) in *.
  assert (Bmd : Z.abs md <= 2 ^ 63) by lia.
  pose proof (mul_abs m0 md (2 ^ 62) (2 ^ 63) ltac:(lia) ltac:(lia) ltac:(lia) Bmd).
  rewrite accum_ok by lia. rewrite rshift_div.
  assert (Hdiv : 2 ^ 62 * ((c0 + m0 * md) / 2 ^ 62) = c0 + m0 * md).
  { symmetry. apply Z_div_exact_full_2; [lia|]. apply Z.mod_divide; [lia|].
    pose proof (Z.div_mod (inv * c0 + mu) (2 ^ 62) ltac:(lia)) as D1. rewrite <- Hkk in D1.
    pose proof (Z.div_mod (m0 * inv) (2 ^ 62) ltac:(lia)) as D2. rewrite Inv in D2.
    set (q1 := (inv * c0 + mu) / 2 ^ 62) in *. set (q2 := m0 * inv / 2 ^ 62) in *.
    exists (m0 * q1 - q2 * c0).
    unfold md. replace (mu - kk) with (2 ^ 62 * q1 - inv * c0) by lia.
    replace (c0 + m0 * (2 ^ 62 * q1 - inv * c0)) with (c0 + m0 * 2 ^ 62 * q1 - (m0 * inv) * c0) by ring.
    rewrite D2. ring. }
  set (k0 := (c0 + m0 * md) / 2 ^ 62) in *.
  assert (Ht : forall x y z, Z.abs x <= 2 ^ 62 -> Z.abs y <= 2 ^ 62 -> Z.abs z <= 2 ^ 62 -> Z.abs (u * x + v * y + z * md) <= 2 ^ 127).
  { intros x y z X Y Zz. pose proof (lin_abs u v x y (2 ^ 62) (2 ^ 62) ltac:(lia) Huv X Y).
    pose proof (mul_abs z md (2 ^ 62) (2 ^ 63) ltac:(lia) ltac:(lia) Zz Bmd). lia. }
  assert (K0 : Z.abs k0 <= 2 ^ 66) by lia.
  rewrite de_limb_ok by (assumption || lia). rewrite !rshift_div.
  pose proof (carry_bound k0 _ K0 (Ht a1 b1 m1 ltac:(lia) ltac:(lia) ltac:(lia))) as K1.
  rewrite de_limb_ok by (assumption || lia). rewrite !rshift_div.
  pose proof (carry_bound _ _ K1 (Ht a2 b2 m2 ltac:(lia) ltac:(lia) ltac:(lia))) as K2.
  rewrite de_limb_ok by (assumption || lia). rewrite !rshift_div.
  pose proof (carry_bound _ _ K2 (Ht a3 b3 m3 ltac:(lia) ltac:(lia) ltac:(lia))) as K3.
  rewrite de_limb_ok by (assumption || lia). rewrite !rshift_div.
  rewrite !w64_land_M62, !to_i64_mod62. unfold i128_to_i64.
  set (t1 := u * a1 + v * b1 + m1 * md) in *. set (t2 := u * a2 + v * b2 + m2 * md) in *.
  set (t3 := u * a3 + v * b3 + m3 * md) in *. set (t4 := u * a4 + v * b4 + m4 * md) in *.
  set (ch := chain k0 [t1; t2; t3; t4]).
  assert (Vch : 2 ^ 62 * lval ch = u * D + v * E + md * M).
  { unfold ch. rewrite chain_val. rewrite Z.mul_add_distr_l, Hdiv.
    unfold c0, D, E, M, t1, t2, t3, t4. cbn [lval]. ring. }
  assert (Rch : - 2 * M < lval ch < M).
  { apply (de_range u v D E M kk); assumption. }
  assert (Cch := chain_canon [t1; t2; t3; t4] k0). fold ch in Cch.
  assert (Lch := chain_length [t1; t2; t3; t4] k0). fold ch in Lch. cbn [length] in Lch.
  exists ch, md. refine (conj _ (conj (conj Lch (conj Cch Rch)) Vch)).
  destruct (canon5 ch Lch Cch) as (o0 & o1 & o2 & o3 & o4 & Eo & O0 & O1 & O2 & O3).
  assert (O4 : - 2 ^ 10 <= o4 < 2 ^ 10).
  { apply (canon_top o0 o1 o2 o3); auto. rewrite <- Eo. lia. }
  assert (X4 : is_i64 (last ch 0)) by (rewrite Eo; cbn [last]; unfold is_i64; lia). clear Eo.
  unfold ch in X4 |- *. cbn [chain last] in X4 |- *. rewrite (to_i64_id _ X4). reflexivity.
Qed.

(** Carry propagation. *)
Lemma propagate_ok r0 r1 r2 r3 r4 : - (2 ^ 63 - 2) <= r0 <= 2 ^ 63 - 2 -> - (2 ^ 63 - 2) <= r1 <= 2 ^ 63 - 2 ->
  - (2 ^ 63 - 2) <= r2 <= 2 ^ 63 - 2 -> - (2 ^ 63 - 2) <= r3 <= 2 ^ 63 - 2 -> - 2 ^ 20 <= r4 <= 2 ^ 20 ->
  exists o, propagate r0 r1 r2 r3 r4 = Some o /\ length o = 5%nat /\ canon o /\ lval o = lval [r0; r1; r2; r3; r4].
Proof.
  intros R0 R1 R2 R3 R4. unfold propagate. rewrite !shiftr_div by lia.
  assert (Hd : forall x, - 2 ^ 63 <= x < 2 ^ 63 -> -2 <= x / 2 ^ 62 <= 1).
  { intros x Hx. split; [apply Z.div_le_lower_bound; lia|]. apply Z.lt_succ_r. apply Z.div_lt_upper_bound; lia. }
  pose proof (Hd r0 ltac:(lia)). rewrite (i64_id (r1 + _)) by (unfold is_i64; lia).
  rewrite !shiftr_div by lia. pose proof (Hd (r1 + r0 / 2 ^ 62) ltac:(lia)). rewrite (i64_id (r2 + _)) by (unfold is_i64; lia).
  rewrite !shiftr_div by lia. pose proof (Hd (r2 + (r1 + r0 / 2 ^ 62) / 2 ^ 62) ltac:(lia)). rewrite (i64_id (r3 + _)) by (unfold is_i64; lia).
  rewrite !shiftr_div by lia. pose proof (Hd (r3 + (r2 + (r1 + r0 / 2 ^ 62) / 2 ^ 62) / 2 ^ 62) ltac:(lia)). rewrite (i64_id (r4 + _)) by (unfold is_i64; lia).
  rewrite !land_M62. eexists. split; [reflexivity|]. split; [reflexivity|]. split.
  - cbn [canon]. repeat split; try (apply Z.mod_pos_bound; lia).
  - cbn [lval].
    pose proof (Z.div_mod r0 (2 ^ 62) ltac:(lia)). pose proof (Z.div_mod (r1 + r0 / 2 ^ 62) (2 ^ 62) ltac:(lia)).
    pose proof (Z.div_mod (r2 + (r1 + r0 / 2 ^ 62) / 2 ^ 62) (2 ^ 62) ltac:(lia)).
    pose proof (Z.div_mod (r3 + (r2 + (r1 + r0 / 2 ^ 62) / 2 ^ 62) / 2 ^ 62) (2 ^ 62) ltac:(lia)). lia.
Qed.

Lemma norm_limb_ok r m c : - 2 ^ 63 <= c < 2 ^ 63 -> - 2 ^ 62 <= r <= 2 ^ 62 - 1 -> - (2 ^ 62 - 1) <= m <= 2 ^ 62 - 1 ->
  norm_limb r m (Z.shiftr c 63) = Some (r + if c <? 0 then m else 0).
Proof. intros. unfold norm_limb. rewrite land_sign by lia. apply i64_id. unfold is_i64. destruct (c <? 0); lia. Qed.
Lemma neg_limb_ok r c : - 2 ^ 63 <= c < 2 ^ 63 -> - (2 ^ 63 - 2) <= r <= 2 ^ 63 - 2 ->
  neg_limb r (Z.shiftr c 63) = Some (if c <? 0 then - r else r).
Proof.
  intros. unfold neg_limb. rewrite sign_mask by lia. destruct (c <? 0).
  - rewrite Z.lxor_m1_r. unfold Z.lnot. replace (Z.pred (- r) - -1) with (- r) by lia. apply i64_id. unfold is_i64. lia.
  - rewrite Z.lxor_0_r, Z.sub_0_r. apply i64_id. unfold is_i64. lia.
Qed.

(** The final normalization. *)
Lemma normalize_ok r sign mi M : mod_ok mi M -> de_in M r -> - 2 ^ 63 <= sign < 2 ^ 63 ->
  exists o k, normalize_62 r sign mi = Some o /\ length o = 5%nat /\ canon o /\ 0 <= lval o < M /\
    lval o = (if sign <? 0 then - lval r else lval r) + k * M.
Proof.
  intros (Lm & Sm & Vm & Tm & Wi & Inv & RM & OM) (Lr & Cr & Rr) Hs.
  destruct (canon5 r Lr Cr) as (a0 & a1 & a2 & a3 & a4 & -> & A0 & A1 & A2 & A3).
  destruct mi as [m inv]. cbn [modulus modulus_inv62] in *.
  do 5 (destruct m as [|? m]; [discriminate Lm|]). destruct m; [|discriminate Lm].
  rename z into m0, z0 into m1, z1 into m2, z2 into m3, z3 into m4.
  unfold small in Sm. inversion Sm as [|? ? S0 Sm1]. inversion Sm1 as [|? ? S1 Sm2]. inversion Sm2 as [|? ? S2 Sm3].
  inversion Sm3 as [|? ? S3 Sm4]. inversion Sm4 as [|? ? S4 Sm5]. subst. clear Sm Sm1 Sm2 Sm3 Sm4 Sm5.
  set (M := lval [m0; m1; m2; m3; m4]) in *.
  assert (T4 : - 2 ^ 10 <= a4 < 2 ^ 10) by (apply (canon_top a0 a1 a2 a3); auto; lia).
  unfold normalize_62. cbn [modulus lm nth] in *.
  rewrite !norm_limb_ok by lia.
  rewrite <- (canon_sign a0 a1 a2 a3 a4) by assumption.
  set (A := lval [a0; a1; a2; a3; a4]) in *. set (b := A <? 0).
  rewrite !neg_limb_ok by (try exact Hs; destruct b; lia).
  set (sg := sign <? 0) in *.
  set (r0 := if sg then _ else _). set (r1 := if sg then - (a1 + _) else _). set (r2 := if sg then - (a2 + _) else _).
  set (r3 := if sg then - (a3 + _) else _). set (r4 := if sg then - (a4 + _) else _).
  destruct (propagate_ok r0 r1 r2 r3 r4) as (o & Eo & Lo & Co & Vo).
  1-5: unfold r0, r1, r2, r3, r4; destruct sg, b; lia.
  rewrite Eo. cbn [lm].
  assert (Vo' : lval o = let x := A + (if b then M else 0) in if sg then - x else x).
  { rewrite Vo. unfold r0, r1, r2, r3, r4, A, M. cbv zeta. destruct sg, b; cbn [lval]; ring. }
  assert (Ro : - M < lval o < M).
  { rewrite Vo'. cbv zeta. unfold b in *. destruct sg; destruct (Z.ltb_spec A 0); lia. }
  destruct (canon5 o Lo Co) as (o0 & o1 & o2 & o3 & o4 & -> & O0 & O1 & O2 & O3).
  assert (O4 : - 2 ^ 10 <= o4 < 2 ^ 10) by (apply (canon_top o0 o1 o2 o3); auto; lia).
  unfold lm. cbn [nth]. rewrite !norm_limb_ok by lia.
  rewrite <- (canon_sign o0 o1 o2 o3 o4) by assumption.
  set (O := lval [o0; o1; o2; o3; o4]) in *. set (b' := O <? 0).
  edestruct (propagate_ok (o0 + if b' then m0 else 0) (o1 + if b' then m1 else 0) (o2 + if b' then m2 else 0)
    (o3 + if b' then m3 else 0) (o4 + if b' then m4 else 0)) as (w & Ew & Lw & Cw & Vw).
  1-5: destruct b'; lia.
  assert (Vw' : lval w = O + if b' then M else 0).
  { rewrite Vw. unfold O, M. destruct b'; cbn [lval]; ring. }
  exists w, ((if b' then 1 else 0) + (if b then (if sg then -1 else 1) else 0)).
  refine (conj Ew (conj Lw (conj Cw (conj _ _)))).
  - rewrite Vw'. unfold b'. destruct (Z.ltb_spec O 0); lia.
  - rewrite Vw', Vo'. cbv zeta. destruct sg, b, b'; ring.
Qed.
