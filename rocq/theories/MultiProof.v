(** Fixed-window digits and Pippenger's algorithm. *)
Require Import ZArith List Bool Lia Znumtheory.
From Verif Require Import Word Bytes Spec ZmField Curve FieldModel FieldMul FieldProof FieldProof2 FieldBytes FieldOps ScalarModel ScalarProof ScalarProof2 ScalarSplit
  GroupModel GroupProof GroupProof2 GroupProof3 GroupProof4 GroupProof5 Endo HashModel EcmultModel WnafProof NumTheory Primes EcmultProof EcmultProof2 ScratchModel MultiModel.
Import ListNotations.
Local Open Scope Z_scope.

(** ** Digits *)
Lemma wnaf_size_ok w : 2 <= w <= 13 -> 2 <= wnaf_size w <= 64 /\ (wnaf_size w - 1) * w <= 127 /\ 128 <= wnaf_size w * w.
Proof. intros W. unfold wnaf_size. change (128 - 1) with 127. pose proof (Z.div_mod 127 w ltac:(lia)). pose proof (Z.mod_pos_bound 127 w ltac:(lia)). nia. Qed.
Lemma fixed_bits_ok s w pos : sc_lim s -> 0 <= sv s < 2 ^ 128 -> 2 <= w <= 13 -> 0 <= pos < wnaf_size w -> fixed_bits s w pos = sv s / 2 ^ (w * pos) mod 2 ^ w.
Proof.
  intros L S W P. destruct (wnaf_size_ok w W) as (A & B & C). unfold fixed_bits. destruct (Z.eqb_spec pos (wnaf_size w - 1)) as [E|E].
  - rewrite sc_get_bits_var_ok by (try assumption; nia). subst pos. rewrite (Z.mul_comm w). set (o := (wnaf_size w - 1) * w) in *.
    assert (Q : 0 <= sv s / 2 ^ o < 2 ^ (128 - o)).
    { split; [apply Z.div_pos; [lia|apply Z.pow_pos_nonneg; nia]|]. apply Z.div_lt_upper_bound; [apply Z.pow_pos_nonneg; nia|]. rewrite <- Z.pow_add_r by nia. replace (o + (128 - o)) with 128 by ring. lia. }
    rewrite !Z.mod_small; [reflexivity| |exact Q]. split; [apply Q|]. eapply Z.lt_le_trans; [apply Q|]. apply Z.pow_le_mono_r; nia.
  - rewrite sc_get_bits_var_ok by (try assumption; nia). now rewrite (Z.mul_comm w).
Qed.
Lemma fixed_max_ok s w : sc_lim s -> 0 <= sv s < 2 ^ 128 -> 2 <= w <= 13 -> forall k, Z.of_nat k < wnaf_size w -> sv s < 2 ^ (w * (Z.of_nat k + 1)) ->
  (fixed_max s w k <= k)%nat /\ sv s < 2 ^ (w * (Z.of_nat (fixed_max s w k) + 1)).
Proof.
  intros L S W. induction k as [|k IH]; intros K H; cbn [fixed_max]; [auto|].
  destruct (Z.eqb_spec (fixed_bits s w (Z.of_nat (Datatypes.S k))) 0) as [E|E]; cbn [negb]; [|auto].
  rewrite fixed_bits_ok in E by (assumption || lia).
  assert (P : 0 < 2 ^ (w * Z.of_nat (Datatypes.S k))) by (apply Z.pow_pos_nonneg; nia).
  assert (D : sv s / 2 ^ (w * Z.of_nat (Datatypes.S k)) = 0).
  { rewrite Z.mod_small in E; [exact E|]. split; [apply Z.div_pos; lia|]. apply Z.div_lt_upper_bound; [lia|]. rewrite <- Z.pow_add_r by nia. replace (w * Z.of_nat (Datatypes.S k) + w) with (w * (Z.of_nat (Datatypes.S k) + 1)) by ring. exact H. }
  assert (Q : sv s < 2 ^ (w * (Z.of_nat k + 1))).
  { replace (Z.of_nat k + 1) with (Z.of_nat (Datatypes.S k)) by lia. pose proof (Z.div_mod (sv s) (2 ^ (w * Z.of_nat (Datatypes.S k))) ltac:(lia)) as M. pose proof (Z.mod_pos_bound (sv s) _ P). rewrite D in M. lia. }
  destruct (IH ltac:(lia) Q). split; [lia|assumption].
Qed.
Definition fdig (w d : Z) : Prop := d = 0 \/ (Z.odd d = true /\ - 2 ^ w < d < 2 ^ w).
Definition ftop (w d : Z) : Prop := Z.odd d = true /\ 0 < d < 2 ^ w.
(** Value of digits, last first. *)
Fixpoint rval (w : Z) (l : list Z) : Z := match l with [] => 0 | d :: r => d * 2 ^ (w * Z.of_nat (length r)) + rval w r end.
Lemma odd_sub_pow w d : 1 <= w -> Z.odd (d - 2 ^ w) = Z.odd d.
Proof. intros W. rewrite Z.odd_sub. replace (Z.odd (2 ^ w)) with false; [apply xorb_false_r|]. symmetry. rewrite <- Z.negb_even, Z.even_pow by lia. reflexivity. Qed.
Lemma odd_add_pow w d : 1 <= w -> Z.odd (d + 2 ^ w) = Z.odd d.
Proof. intros W. rewrite Z.odd_add. replace (Z.odd (2 ^ w)) with false; [apply xorb_false_r|]. symmetry. rewrite <- Z.negb_even, Z.even_pow by lia. reflexivity. Qed.
Lemma val_odd w x : 2 <= w -> 0 <= x < 2 ^ w -> ftop w (if Z.land x 1 =? 0 then x + 1 else x).
Proof.
  intros W X. assert (E : Z.land x 1 = x mod 2) by (change 1 with (Z.ones 1); apply Z.land_ones; lia). rewrite E. 
  pose proof (Zmod_odd x) as O. destruct (Z.odd x) eqn:OX; rewrite O; cbn [Z.eqb]; (split; [|]).
  - exact OX.
  - destruct (Z.eq_dec x 0) as [->|]; [discriminate OX|lia].
  - rewrite Z.odd_add, OX. reflexivity.
  - assert (Z.odd (2 ^ w - 1) = true) by (rewrite Z.odd_sub, <- Z.negb_even, Z.even_pow by lia; reflexivity).
    destruct (Z.eq_dec x (2 ^ w - 1)) as [->|]; [congruence|lia].
Qed.
Lemma rval_cons w d r : rval w (d :: r) = d * 2 ^ (w * Z.of_nat (length r)) + rval w r. Proof. reflexivity. Qed.
Lemma pow_len w (r : list Z) : 0 <= w -> 2 ^ (w * Z.of_nat (Datatypes.S (length r))) = 2 ^ w * 2 ^ (w * Z.of_nat (length r)).
Proof. intros W. rewrite <- Z.pow_add_r by nia. f_equal. lia. Qed.
Lemma fixed_loop_ok s w v : sc_lim s -> 0 <= sv s < 2 ^ 128 -> 2 <= w <= 13 -> forall todo pos d r, pos = Z.of_nat (length (d :: r)) -> pos + Z.of_nat todo <= wnaf_size w ->
  ftop w d -> Forall (fdig w) r -> rval w (d :: r) = sv s mod 2 ^ (w * pos) + v ->
  let l := fixed_loop s w todo pos (d :: r) in Forall (fdig w) l /\ length l = (todo + length (d :: r))%nat /\ rval w l = sv s mod 2 ^ (w * (pos + Z.of_nat todo)) + v.
Proof.
  intros L S W. induction todo as [|todo IH]; intros pos d r EP HP TD FR V; cbn [fixed_loop].
  - rewrite Z.add_0_r. split; [|auto]. constructor; [|exact FR]. right. destruct TD. split; [assumption|lia].
  - set (val := fixed_bits s w pos). assert (EV : val = sv s / 2 ^ (w * pos) mod 2 ^ w) by (apply fixed_bits_ok; try assumption; cbn [length] in EP; lia).
    assert (RV : 0 <= val < 2 ^ w) by (rewrite EV; apply Z.mod_pos_bound, Z.pow_pos_nonneg; lia).
    assert (NV : sv s mod 2 ^ (w * (pos + 1)) = sv s mod 2 ^ (w * pos) + 2 ^ (w * pos) * val).
    { rewrite EV. replace (w * (pos + 1)) with (w * pos + w) by ring. apply mod_pow_split; cbn [length] in EP; nia. }
    pose proof (val_odd w val ltac:(lia) RV) as TV. clearbody val.
    set (cur := if Z.land val 1 =? 0 then val + 1 else val) in *. set (prev := if Z.land val 1 =? 0 then d - 2 ^ w else d).
    replace (if Z.land val 1 =? 0 then (val + 1, d - 2 ^ w) else (val, d)) with (cur, prev) by (unfold cur, prev; now destruct (Z.land val 1 =? 0)).
    assert (PP : 0 < 2 ^ w) by (apply Z.pow_pos_nonneg; lia).
    assert (FP : fdig w prev) by (unfold prev; destruct TD as [T1 T2]; right; destruct (Z.land val 1 =? 0); [rewrite odd_sub_pow by lia|]; split; (assumption || lia)).
    assert (VP : rval w (cur :: prev :: r) = sv s mod 2 ^ (w * (pos + 1)) + v).
    { rewrite NV. rewrite !rval_cons in *. cbn [length] in *. rewrite EP in *. rewrite pow_len in * by lia. unfold cur, prev. destruct (Z.land val 1 =? 0); nia. }
    assert (NX : forall prev' r', fdig w prev' -> Forall (fdig w) r' -> length r' = length r -> rval w (cur :: prev' :: r') = rval w (cur :: prev :: r) ->
      let l := fixed_loop s w todo (pos + 1) (cur :: prev' :: r') in Forall (fdig w) l /\ length l = (Datatypes.S todo + length (d :: r))%nat /\ rval w l = sv s mod 2 ^ (w * (pos + Z.of_nat (Datatypes.S todo))) + v).
    { intros prev' r' F1 F2 E1 E2. cbv zeta. cbn [length] in EP. destruct (IH (pos + 1) cur (prev' :: r')) as (A & B & C).
      - cbn [length]. rewrite E1. lia.
      - lia.
      - exact TV.
      - constructor; assumption.
      - rewrite E2. exact VP.
      - split; [exact A|]. split; [rewrite B; cbn [length]; rewrite E1; lia|]. rewrite C. f_equal. f_equal. f_equal. lia. }
    destruct r as [|prev2 r']; [now apply NX|].
    destruct ((pos >=? 2) && _) eqn:Q; [|now apply NX].
    apply andb_prop in Q. destruct Q as [_ Q]. inversion FR as [|? ? F2 F3]; subst. apply NX; [now left| |reflexivity|].
    + constructor; [|exact F3]. right. destruct F2 as [->|[O2 R2]]; [rewrite andb_false_r, andb_false_r in Q; discriminate Q|].
      destruct (Z.eqb_spec prev 1) as [E1|E1]; [rewrite odd_add_pow by lia|rewrite odd_sub_pow by lia]; (split; [exact O2|]).
      * cbn [andb] in Q. replace (prev =? -1) with false in Q by (rewrite E1; reflexivity). rewrite orb_false_r in Q. lia.
      * cbn [andb orb] in Q. lia.
    + rewrite !rval_cons. cbn [length]. rewrite !pow_len by lia. destruct (Z.eqb_spec prev 1) as [E1|E1]; [rewrite E1; ring|].
      cbn [andb orb] in Q. replace prev with (-1) by lia. ring.
Qed.
(** Value of digits, first first. *)
Fixpoint fval (w : Z) (l : list Z) : Z := match l with [] => 0 | d :: r => d + 2 ^ w * fval w r end.
Lemma fval_app w a b : 0 <= w -> fval w (a ++ b) = fval w a + 2 ^ (w * Z.of_nat (length a)) * fval w b.
Proof.
  intros W. induction a as [|d a IH]; cbn [app fval length].
  - rewrite Z.mul_0_r. change (2 ^ 0) with 1. lia.
  - rewrite IH, pow_len by lia. ring.
Qed.
Lemma fval_rev w l : 0 <= w -> fval w (rev l) = rval w l.
Proof.
  intros W. induction l as [|d r IH]; [reflexivity|]. cbn [rev rval]. rewrite fval_app, IH, rev_length by lia. cbn [fval]. ring.
Qed.
Lemma fval_zero w k : fval w (repeat 0 k) = 0.
Proof. induction k as [|k IH]; cbn [repeat fval]; [reflexivity|]. rewrite IH. ring. Qed.
Lemma fdig_zero w k : Forall (fdig w) (repeat 0 k).
Proof. induction k; constructor; [now left|assumption]. Qed.
Theorem wnaf_fixed_ok s w : sc_lim s -> sv s < 2 ^ 128 -> 2 <= w <= 13 -> let (skew, l) := wnaf_fixed s w in
  (skew = 0 \/ skew = 1) /\ Z.of_nat (length l) = wnaf_size w /\ Forall (fdig w) l /\ fval w l = sv s + skew.
Proof.
  intros L S W. destruct (wnaf_size_ok w W) as (A & B & C). assert (S0 : 0 <= sv s) by (destruct L as (? & ? & ? & ?); unfold sv, wd in *; lia).
  unfold wnaf_fixed. rewrite sc_is_zero_spec by exact L. destruct (Z.eqb_spec (sv s) 0) as [Z0|Z0].
  - split; [auto|]. split; [rewrite repeat_length; lia|]. split; [apply fdig_zero|]. rewrite fval_zero, Z0. reflexivity.
  - set (size := Z.to_nat (wnaf_size w)). assert (ES : Z.of_nat size = wnaf_size w) by (unfold size; lia).
    rewrite sc_is_even_spec. rewrite sc_get_bits_var_ok by (try assumption; lia). change (2 ^ 0) with 1. rewrite Z.div_1_r.
    set (skew := if Z.even (sv s) then 1 else 0).
    destruct (fixed_max_ok s w L (conj S0 S) W (size - 1)) as [M1 M2]; [lia| |].
    { eapply Z.lt_le_trans; [exact S|]. apply Z.pow_le_mono_r; nia. }
    set (m := fixed_max s w (size - 1)) in *. assert (PP : 0 < 2 ^ w) by (apply Z.pow_pos_nonneg; lia).
    assert (T : ftop w (sv s mod 2 ^ w + skew)).
    { pose proof (val_odd w (sv s mod 2 ^ w) ltac:(lia) (Z.mod_pos_bound _ _ PP)) as V. assert (E : Z.land (sv s mod 2 ^ w) 1 = b2z (Z.odd (sv s))).
      { change 1 with (Z.ones 1). rewrite Z.land_ones by lia. change (2 ^ 1) with 2. rewrite <- Znumtheory.Zmod_div_mod; [rewrite Zmod_odd; now destruct (Z.odd (sv s))|lia|lia|].
        exists (2 ^ (w - 1)). rewrite Z.mul_comm, <- Z.pow_succ_r by lia. f_equal. lia. }
      rewrite E in V. unfold skew. rewrite <- Z.negb_odd. destruct (Z.odd (sv s)); cbn [b2z Z.eqb negb] in *; [now rewrite Z.add_0_r|exact V]. }
    destruct (fixed_loop_ok s w skew L (conj S0 S) W m 1 (sv s mod 2 ^ w + skew) []) as (D1 & D2 & D3).
    + reflexivity.
    + lia.
    + exact T.
    + constructor.
    + cbn [rval length]. change (Z.of_nat 0) with 0. rewrite Z.mul_0_r, (Z.mul_1_r w). change (2 ^ 0) with 1. ring.
    + cbn [length] in D2. split; [unfold skew; destruct (Z.even (sv s)); auto|]. split; [|split].
      * rewrite app_length, rev_length, D2, repeat_length. lia.
      * apply Forall_app. split; [apply Forall_rev, D1|apply fdig_zero].
      * rewrite fval_app, fval_zero, fval_rev by lia. rewrite D3, Z.mul_0_r, Z.add_0_r. f_equal. apply Z.mod_small. split; [exact S0|]. rewrite Z.add_comm. exact M2.
Qed.
