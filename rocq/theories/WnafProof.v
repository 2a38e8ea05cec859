(** secp256k1_ecmult_wnaf: the digits represent the scalar, are zero or odd and
    bounded by the window. *)
Require Import ZArith List Bool Lia.
From Verif Require Import Word Bytes Spec ScalarModel ScalarProof ScalarProof2 ScalarSplit HashModel EcmultModel.
Import ListNotations.
Local Open Scope Z_scope.

(** The number a digit list (least significant first) stands for. *)
Fixpoint weval (l : list Z) : Z := match l with [] => 0 | d :: l' => d + 2 * weval l' end.

Lemma weval_upd l : forall i v, (i < length l)%nat -> weval (upd i v l) = weval l + (v - nth i l 0) * 2 ^ Z.of_nat i.
Proof.
  induction l as [|x l IH]; intros i v H; [cbn in H; lia|].
  destruct i as [|i]; cbn [upd weval nth].
  - change (2 ^ Z.of_nat 0) with 1. lia.
  - rewrite IH by (cbn in H; lia). rewrite Nat2Z.inj_succ, Z.pow_succ_r by lia. ring.
Qed.
Lemma upd_len {A} (l : list A) : forall i v, length (upd i v l) = length l.
Proof. induction l; intros [|i] v; cbn; auto. Qed.
Lemma nth_upd {A} (d : A) l : forall i v j, nth j (upd i v l) d = if Nat.eqb j i && Nat.ltb i (length l) then v else nth j l d.
Proof.
  induction l as [|x l IH]; intros i v j; [destruct i, j; cbn; try reflexivity; now rewrite andb_false_r|].
  destruct i as [|i], j as [|j]; cbn [upd nth Nat.eqb andb length]; try reflexivity. rewrite IH. reflexivity.
Qed.
Lemma weval_repeat0 k : weval (repeat 0 k) = 0.
Proof. induction k; cbn [repeat weval]; lia. Qed.
Lemma weval_step l i : weval (skipn i l) = nth i l 0 + 2 * weval (skipn (S i) l).
Proof.
  revert i; induction l as [|x l IH]; intros [|i]; try reflexivity.
  change (weval (skipn i l) = nth i l 0 + 2 * weval (skipn (S i) l)). apply IH.
Qed.

Definition digit_ok (w d : Z) : Prop := d = 0 \/ (Z.odd d = true /\ Z.abs d < 2 ^ (w - 1)).
Lemma digit_ok_opp w d : digit_ok w d -> digit_ok w (- d).
Proof. intros [-> | [O B]]; [left; reflexivity|right]. rewrite Z.odd_opp, Z.abs_opp. auto. Qed.

(** Everything known about the array when the loop stands at [bit]. *)
Definition wst (w s sign len bit carry : Z) (l : list Z) (last : Z) : Prop :=
  0 <= bit <= len /\ (carry = 0 \/ carry = 1) /\ Z.of_nat (length l) = len /\
  weval l = sign * (s mod 2 ^ bit - carry * 2 ^ bit) /\
  (forall j, digit_ok w (nth j l 0)) /\
  (forall j, bit <= Z.of_nat j -> nth j l 0 = 0) /\
  (forall j, last < Z.of_nat j -> nth j l 0 = 0) /\ -1 <= last < len.

Lemma mod_pow_split s b c : 0 <= b -> 0 <= c -> s mod 2 ^ (b + c) = s mod 2 ^ b + 2 ^ b * (s / 2 ^ b mod 2 ^ c).
Proof. intros. rewrite Z.pow_add_r by lia. apply Z.rem_mul_r; [|]; [pose proof (Z.pow_pos_nonneg 2 b); lia|apply Z.pow_pos_nonneg; lia]. Qed.

Lemma wst_skip w s sign len bit carry l last : 0 <= s -> bit < len -> wst w s sign len bit carry l last ->
  s / 2 ^ bit mod 2 = carry -> wst w s sign len (bit + 1) carry l last.
Proof.
  intros Hs Hb (B & C & L & E & D & Zr & La & LL) K.
  split; [lia|]. split; [exact C|]. split; [exact L|]. split; [|split; [exact D|split; [|split; assumption]]].
  - rewrite E. f_equal. rewrite mod_pow_split by lia. change (2 ^ 1) with 2. rewrite K, Z.pow_add_r by lia. change (2 ^ 1) with 2. ring.
  - intros j Hj. apply Zr. lia.
Qed.

Lemma shiftr_land1 x k : 0 <= k -> 0 <= x < 2 ^ (k + 1) -> Z.land (Z.shiftr x k) 1 = if 2 ^ k <=? x then 1 else 0.
Proof.
  intros Hk Hx. change 1 with (2 ^ 1 - 1) at 1. rewrite land_ones_mod by lia. rewrite shiftr_div by lia. change (2 ^ 1) with 2.
  rewrite Z.pow_add_r in Hx by lia. change (2 ^ 1) with 2 in Hx.
  assert (P : 0 < 2 ^ k) by (apply Z.pow_pos_nonneg; lia).
  destruct (Z.leb_spec (2 ^ k) x).
  - rewrite <- (Z.div_unique x (2 ^ k) 1 (x - 2 ^ k)); [reflexivity|lia|lia].
  - rewrite Z.div_small by lia. reflexivity.
Qed.

Lemma wst_digit w s sign len bit carry l last now word : 2 <= w -> 0 <= s < 2 ^ (len - 1) -> (sign = 1 \/ sign = -1) -> bit < len ->
  wst w s sign len bit carry l last ->
  s / 2 ^ bit mod 2 <> carry ->
  now = (if w >? len - bit then len - bit else w) ->
  word = s / 2 ^ bit mod 2 ^ now + carry ->
  let carry' := Z.land (Z.shiftr word (w - 1)) 1 in
  let word' := word - Z.shiftl carry' w in
  wst w s sign len (bit + now) carry' (upd (Z.to_nat bit) (sign * word') l) bit /\ (bit + now = len -> carry' = 0).
Proof.
  intros Hw Hs Hsg Hb (B & C & L & E & D & Zr & La & LL) K En Ew.
  assert (Hnow : 1 <= now <= w /\ bit + now <= len /\ (now < w -> bit + now = len)).
  { rewrite Z.gtb_ltb in En. destruct (Z.ltb_spec (len - bit) w); lia. }
  assert (Pn : 0 < 2 ^ now) by (apply Z.pow_pos_nonneg; lia).
  set (x := s / 2 ^ bit mod 2 ^ now) in *.
  assert (Hx : 0 <= x < 2 ^ now) by (apply Z.mod_pos_bound; lia).
  assert (Px : x mod 2 = s / 2 ^ bit mod 2).
  { unfold x. symmetry. apply Znumtheory.Zmod_div_mod; try lia. exists (2 ^ (now - 1)).
    replace now with (now - 1 + 1) at 1 by lia. rewrite Z.pow_add_r by lia. reflexivity. }
  assert (Hodd : Z.odd word = true).
  { assert (M2 : word mod 2 = 1); [|pose proof (Zmod_odd word); destruct (Z.odd word); [reflexivity|lia]].
    rewrite Ew, Z.add_mod, Px by lia.
    pose proof (Z.mod_pos_bound (s / 2 ^ bit) 2 ltac:(lia)).
    assert (CC : (s / 2 ^ bit mod 2 = 0 /\ carry = 1) \/ (s / 2 ^ bit mod 2 = 1 /\ carry = 0)) by lia.
    destruct CC as [[-> ->]|[-> ->]]; reflexivity. }
  assert (Hev : Z.odd (2 ^ now) = false).
  { replace now with (now - 1 + 1) by lia. rewrite Z.pow_add_r by lia. rewrite Z.odd_mul. apply andb_false_r. }
  assert (Hword : 1 <= word <= 2 ^ now - 1).
  { assert (word <> 2 ^ now) by (intros EE; rewrite EE in Hodd; congruence).
    assert (word <> 0) by (intros EE; rewrite EE in Hodd; discriminate). lia. }
  assert (Pw : 2 ^ w = 2 ^ (w - 1) * 2) by (replace w with (w - 1 + 1) at 1 by lia; rewrite Z.pow_add_r by lia; reflexivity).
  assert (Pw0 : 0 < 2 ^ (w - 1)) by (apply Z.pow_pos_nonneg; lia).
  assert (Hle : 2 ^ now <= 2 ^ w) by (apply Z.pow_le_mono_r; lia).
  intros carry' word'.
  assert (Ec : carry' = if 2 ^ (w - 1) <=? word then 1 else 0).
  { apply shiftr_land1; [lia|]. replace (w - 1 + 1) with w by lia. lia. }
  assert (Ew' : word' = word - carry' * 2 ^ w) by (unfold word'; rewrite Z.shiftl_mul_pow2 by lia; reflexivity).
  clearbody carry' word'.
  assert (Eev : Z.odd (2 ^ (w - 1)) = false).
  { replace (w - 1) with (w - 2 + 1) by lia. rewrite Z.pow_add_r by lia. rewrite Z.odd_mul. apply andb_false_r. }
  assert (Hdig : digit_ok w word').
  { right. split.
    - rewrite Ew', Z.odd_sub, Hodd, Z.odd_mul, Pw, Z.odd_mul. change (Z.odd 2) with false. now rewrite !andb_false_r.
    - assert (word <> 2 ^ (w - 1)) by (intros EE; rewrite EE in Hodd; congruence).
      rewrite Ew'. rewrite Ec. destruct (Z.leb_spec (2 ^ (w - 1)) word); lia. }
  assert (Eval : x + carry = word' + carry' * 2 ^ w) by lia.
  assert (Lnat : (Z.to_nat bit < length l)%nat) by lia.
  assert (Hfin : bit + now = len -> carry' = 0).
  { intros Hend. rewrite Ec. destruct (Z.leb_spec (2 ^ (w - 1)) word) as [Hge|]; [exfalso|reflexivity].
    destruct (Z.eq_dec now w) as [EN|NE].
    - (* the top bit of the last full window is zero *)
      assert (x < 2 ^ (w - 1)).
      { unfold x. eapply Z.le_lt_trans; [apply Z.mod_le; [apply Z.div_pos; [lia|apply Z.pow_pos_nonneg; lia]|lia]|].
        apply Z.div_lt_upper_bound; [apply Z.pow_pos_nonneg; lia|]. rewrite <- Z.pow_add_r by lia.
        replace (bit + (w - 1)) with (len - 1) by lia. lia. }
      assert (word <> 2 ^ (w - 1)) by (intros EE; rewrite EE in Hodd; congruence). lia.
    - assert (2 ^ now <= 2 ^ (w - 1)) by (apply Z.pow_le_mono_r; lia). lia. }
  split; [|exact Hfin].
  split; [lia|]. split; [destruct (2 ^ (w - 1) <=? word); lia|]. split; [rewrite upd_len; exact L|].
  split; [|split; [|split; [|split; [|lia]]]].
  - rewrite weval_upd by exact Lnat. rewrite Zr by lia. rewrite E. rewrite Z2Nat.id by lia. rewrite mod_pow_split by lia. fold x.
    rewrite (Z.pow_add_r 2 bit now) by lia.
    destruct (Z.eq_dec now w) as [-> | NE].
    + replace x with (word' + carry' * 2 ^ w - carry) by lia. ring.
    + rewrite Hfin in * by lia. replace x with (word' - carry) by lia. ring.
  - intros j. rewrite nth_upd. destruct (Nat.eqb j (Z.to_nat bit) && Nat.ltb (Z.to_nat bit) (length l)); [|apply D].
    destruct Hsg as [-> | ->]; [rewrite Z.mul_1_l; exact Hdig|].
    replace (-1 * word') with (- word') by ring. now apply digit_ok_opp.
  - intros j Hj. rewrite nth_upd. destruct (Nat.eqb_spec j (Z.to_nat bit)) as [-> |]; [lia|]. apply Zr. lia.
  - intros j Hj. rewrite nth_upd. destruct (Nat.eqb_spec j (Z.to_nat bit)) as [-> |]; [lia|]. apply Zr. lia.
Qed.

Lemma wnaf_loop_ok fuel : forall s w sign len bit carry l last, sc_lim s -> 2 <= w <= 31 -> len <= 256 -> 0 <= sv s < 2 ^ (len - 1) ->
  (sign = 1 \/ sign = -1) -> wst w (sv s) sign len bit carry l last -> (bit = len -> carry = 0) -> len - bit <= Z.of_nat fuel ->
  exists l' last', wnaf_loop fuel s w sign len bit carry l last = (l', last') /\ wst w (sv s) sign len len 0 l' last'.
Proof.
  induction fuel as [|fuel IH]; intros s w sign len bit carry l last Hs Hw Hlen Hsv Hsg HW Hfin Hf; cbn [wnaf_loop].
  - exists l, last. split; [reflexivity|]. assert (bit = len) by (destruct HW as (? & _); lia). subst bit. rewrite Hfin in HW by reflexivity. exact HW.
  - destruct (Z.ltb_spec bit len) as [Hb | Hb].
    2:{ exists l, last. split; [reflexivity|]. assert (bit = len) by (destruct HW as (? & _); lia). subst bit. rewrite Hfin in HW by reflexivity. exact HW. }
    assert (B : 0 <= bit) by (destruct HW as (? & _); lia).
    rewrite sc_get_bits_limb32_ok; [|exact Hs|lia|lia|lia|f_equal; lia]. change (2 ^ 1) with 2.
    destruct (Z.eqb_spec (sv s / 2 ^ bit mod 2) carry) as [Ek | Nk].
    + apply IH; try assumption; try lia.
      * apply wst_skip; try assumption; lia.
      * intros Hend. rewrite <- Ek. rewrite Z.div_small; [reflexivity|]. replace bit with (len - 1) by lia. lia.
    + set (now := if w >? len - bit then len - bit else w).
      assert (Hnow : 1 <= now <= w /\ bit + now <= len).
      { unfold now. rewrite Z.gtb_ltb. destruct (Z.ltb_spec (len - bit) w); lia. }
      rewrite sc_get_bits_var_ok; [|exact Hs|lia|lia|lia].
      cbv zeta.
      destruct (wst_digit w (sv s) sign len bit carry l last now (sv s / 2 ^ bit mod 2 ^ now + carry)) as [W' F']; try assumption; try lia; try reflexivity.
      apply IH; try assumption; try lia.
Qed.

(** The signed value of a scalar: representatives above 2^255 count as negative. *)
Definition sgn_val (a : sc) : Z := if sv a <? 2 ^ 255 then sv a else sv a - n.

Theorem ecmult_wnaf_ok len a w l b : sc_ok a -> 2 <= w <= 31 -> (len <= 256)%nat -> (1 <= len)%nat -> Z.abs (sgn_val a) < 2 ^ (Z.of_nat len - 1) ->
  ecmult_wnaf len a w = (l, b) ->
  length l = len /\ weval l = sgn_val a /\ Forall (digit_ok w) l /\ 0 <= b <= Z.of_nat len /\ (forall j, b <= Z.of_nat j -> nth j l 0 = 0).
Proof.
  intros Ha Hw Hl Hl1 Hv. unfold ecmult_wnaf. pose proof (sc_ok_range _ Ha) as R.
  rewrite sc_get_bits_limb32_ok; [|apply Ha|lia|lia|lia|reflexivity]. change (2 ^ 1) with 2.
  assert (Eb : sv a / 2 ^ 255 mod 2 = if sv a <? 2 ^ 255 then 0 else 1).
  { assert (n < 2 ^ 256) by reflexivity.
    destruct (Z.ltb_spec (sv a) (2 ^ 255)); [rewrite Z.div_small by lia; reflexivity|].
    rewrite <- (Z.div_unique (sv a) (2 ^ 255) 1 (sv a - 2 ^ 255)); [reflexivity|lia|lia]. }
  rewrite Eb. unfold sgn_val in *.
  assert (W0 : forall s sign, wst w s sign (Z.of_nat len) 0 0 (repeat 0 len) (-1)).
  { intros s sign. split; [lia|]. split; [left; reflexivity|]. split; [now rewrite repeat_length|].
    split; [rewrite weval_repeat0, Z.pow_0_r, Z.mod_1_r; ring|].
    assert (N0 : forall j, nth j (repeat 0 len) 0 = 0) by (intros j; apply nth_repeat).
    split; [intros j; left; apply N0|]. split; [intros; apply N0|]. split; [intros; apply N0|lia]. }
  destruct (Z.ltb_spec (sv a) (2 ^ 255)) as [Lt | Ge].
  - change (negb (0 =? 0)) with false. cbv iota.
    destruct (wnaf_loop_ok len a w 1 (Z.of_nat len) 0 0 (repeat 0 len) (-1)) as (l' & last' & E & (B1 & _ & L' & V & D & Zr & La & LL)); try lia; try apply Ha; try apply W0.
    rewrite E. intros EE. injection EE as <- <-. split; [lia|]. split.
    + rewrite V, Z.mod_small; [ring|]. split; [lia|]. apply Z.lt_trans with (2 ^ (Z.of_nat len - 1)); [lia|apply Z.pow_lt_mono_r; lia].
    + split; [apply Forall_nth; intros i d Hi; rewrite (nth_indep _ d 0) by exact Hi; apply D|]. split; [lia|]. intros j Hj. apply La. lia.
  - change (negb (1 =? 0)) with true. cbv iota.
    destruct (sc_negate_ok a Ha) as [Hn En].
    assert (Ev : sv (sc_negate a) = n - sv a).
    { rewrite En. replace (- sv a) with (n - sv a + (-1) * n) by ring. rewrite Z.mod_add by (clear - R; lia). apply Z.mod_small. lia. }
    destruct (wnaf_loop_ok len (sc_negate a) w (-1) (Z.of_nat len) 0 0 (repeat 0 len) (-1)) as (l' & last' & E & (B1 & _ & L' & V & D & Zr & La & LL)); try lia; try apply Hn; try apply W0.
    rewrite E. intros EE. injection EE as <- <-. split; [lia|]. split.
    + rewrite V, Z.mod_small; [rewrite Ev; ring|]. split; [lia|]. apply Z.lt_trans with (2 ^ (Z.of_nat len - 1)); [lia|apply Z.pow_lt_mono_r; lia].
    + split; [apply Forall_nth; intros i d Hi; rewrite (nth_indep _ d 0) by exact Hi; apply D|]. split; [lia|]. intros j Hj. apply La. lia.
Qed.
