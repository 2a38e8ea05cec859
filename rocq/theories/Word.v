(** Fixed-width machine arithmetic on [Z].  Every C expression of unsigned type is
    modelled by an integer expression with the wrap-around written out. *)
Require Import ZArith List Bool Lia.
Import ListNotations.
Local Open Scope Z_scope.

(** Conversion to uint8_t, uint32_t, uint64_t and unsigned __int128. *)
Definition w8 (x : Z) : Z := x mod 2 ^ 8.
Definition w32 (x : Z) : Z := x mod 2 ^ 32.
Definition w64 (x : Z) : Z := x mod 2 ^ 64.
Definition w128 (x : Z) : Z := x mod 2 ^ 128.

Declare Scope c_scope.
Delimit Scope c_scope with C.
Notation "a +! b" := (w64 (a + b)) (at level 50, left associativity) : c_scope.
Notation "a -! b" := (w64 (a - b)) (at level 50, left associativity) : c_scope.
Notation "a *! b" := (w64 (a * b)) (at level 40, left associativity) : c_scope.
Notation "a <<! k" := (w64 (Z.shiftl a k)) (at level 55, left associativity) : c_scope.
Notation "a >>! k" := (Z.shiftr a k) (at level 55, left associativity) : c_scope.
Notation "a &! b" := (Z.land a b) (at level 57, left associativity) : c_scope.
Notation "a ^! b" := (Z.lxor a b) (at level 58, left associativity) : c_scope.
Notation "a |! b" := (Z.lor a b) (at level 59, left associativity) : c_scope.

(** A comparison used as a C int. *)
Definition b2z (b : bool) : Z := if b then 1 else 0.

(** Bitwise complement of a uint64_t. *)
Definition not64 (x : Z) : Z := 2 ^ 64 - 1 - x.

(** The masks of the cmov idiom: mask0 = flag + ~0, mask1 = ~mask0, and the select. *)
Definition cmov64 (r a flag : Z) : Z :=
  let mask0 := w64 (flag + (2 ^ 64 - 1)) in
  let mask1 := not64 mask0 in
  Z.lor (Z.land r mask0) (Z.land a mask1).

(** Element [i] of a byte buffer (only used within bounds). *)
Definition byte_at (l : list Z) (i : nat) : Z := nth i l 0.

(** ** Lemmas *)

Lemma w64_id x : 0 <= x < 2 ^ 64 -> w64 x = x.
Proof. apply Z.mod_small. Qed.
Lemma w32_id x : 0 <= x < 2 ^ 32 -> w32 x = x.
Proof. apply Z.mod_small. Qed.
Lemma w8_id x : 0 <= x < 2 ^ 8 -> w8 x = x.
Proof. apply Z.mod_small. Qed.
Lemma w128_id x : 0 <= x < 2 ^ 128 -> w128 x = x.
Proof. apply Z.mod_small. Qed.
Lemma w64_range x : 0 <= w64 x < 2 ^ 64.
Proof. apply Z.mod_pos_bound. reflexivity. Qed.
Lemma w32_range x : 0 <= w32 x < 2 ^ 32.
Proof. apply Z.mod_pos_bound. reflexivity. Qed.
Lemma w8_range x : 0 <= w8 x < 2 ^ 8.
Proof. apply Z.mod_pos_bound. reflexivity. Qed.
Lemma w128_range x : 0 <= w128 x < 2 ^ 128.
Proof. apply Z.mod_pos_bound. reflexivity. Qed.

Lemma land_ones_mod x k : 0 <= k -> Z.land x (2 ^ k - 1) = x mod 2 ^ k.
Proof. intros. rewrite <- Z.land_ones by assumption. f_equal. rewrite Z.ones_equiv. lia. Qed.

Lemma land_1 x : Z.land x 1 = x mod 2.
Proof. exact (land_ones_mod x 1 ltac:(lia)). Qed.

Lemma shiftr_div x k : 0 <= k -> Z.shiftr x k = x / 2 ^ k.
Proof. intros. now apply Z.shiftr_div_pow2. Qed.

(** Splitting a word: the high and the low part as fresh variables. *)
Lemma split_word x k : 0 <= k -> 0 <= x ->
  exists q r, x = q * 2 ^ k + r /\ 0 <= r < 2 ^ k /\ 0 <= q /\ Z.shiftr x k = q /\ Z.land x (2 ^ k - 1) = r.
Proof.
  intros Hk Hx. exists (x / 2 ^ k), (x mod 2 ^ k).
  assert (0 < 2 ^ k) by (apply Z.pow_pos_nonneg; lia).
  repeat split; try (apply Z.mod_pos_bound; lia).
  - rewrite Z.mul_comm. apply Z.div_mod. lia.
  - apply Z.div_pos; lia.
  - now apply shiftr_div.
  - now apply land_ones_mod.
Qed.

Lemma lor_disjoint a b k : 0 <= k -> 0 <= a < 2 ^ k -> Z.lor a (b * 2 ^ k) = a + b * 2 ^ k.
Proof.
  intros Hk Ha.
  assert (E : Z.land a (b * 2 ^ k) = 0).
  { apply Z.bits_inj'. intros i Hi. rewrite Z.land_spec, Z.bits_0.
    rewrite <- Z.shiftl_mul_pow2 by assumption. rewrite Z.shiftl_spec by assumption.
    destruct (Z_lt_le_dec i k).
    - rewrite (Z.testbit_neg_r b) by lia. apply andb_false_r.
    - replace (Z.testbit a i) with false; [reflexivity|].
      symmetry. destruct (Z.eq_dec a 0) as [->|]; [apply Z.bits_0|].
      apply Z.bits_above_log2; [lia|].
      apply Z.log2_lt_pow2; [lia|]. apply Z.lt_le_trans with (2 ^ k); [lia|].
      apply Z.pow_le_mono_r; lia. }
  rewrite <- Z.lxor_lor by assumption. symmetry. now apply Z.add_nocarry_lxor.
Qed.

Lemma lor_disjoint' a b k : 0 <= k -> 0 <= a < 2 ^ k -> Z.lor (b * 2 ^ k) a = a + b * 2 ^ k.
Proof. intros. rewrite Z.lor_comm. now apply lor_disjoint. Qed.

Lemma cmov64_spec r a flag : 0 <= r < 2 ^ 64 -> 0 <= a < 2 ^ 64 -> flag = 0 \/ flag = 1 ->
  cmov64 r a flag = if flag =? 0 then r else a.
Proof.
  intros Hr Ha [-> | ->]; unfold cmov64, not64.
  - change (w64 (0 + (2 ^ 64 - 1))) with (2 ^ 64 - 1). rewrite Z.sub_diag, Z.land_0_r, Z.lor_0_r.
    rewrite land_ones_mod by lia. rewrite Z.mod_small by lia. reflexivity.
  - change (w64 (1 + (2 ^ 64 - 1))) with 0. rewrite Z.sub_0_r, Z.land_0_r, Z.lor_0_l.
    rewrite land_ones_mod by lia. rewrite Z.mod_small by lia. reflexivity.
Qed.

Lemma land_le a b : 0 <= a -> Z.land a b <= a.
Proof.
  intros Ha.
  assert (E : a - Z.land a b = Z.ldiff a (Z.land a b)).
  { apply Z.sub_nocarry_ldiff. apply Z.bits_inj'. intros i Hi.
    rewrite Z.ldiff_spec, Z.land_spec, Z.bits_0. destruct (Z.testbit a i), (Z.testbit b i); reflexivity. }
  assert (0 <= Z.ldiff a (Z.land a b)) by (apply Z.ldiff_nonneg; lia).
  lia.
Qed.

Lemma b2z_range b : 0 <= b2z b <= 1.
Proof. destruct b; cbn; lia. Qed.
Lemma b2z_01 b : b2z b = 0 \/ b2z b = 1.
Proof. destruct b; cbn; auto. Qed.

(** Stepping through a [let] in an equation [H : (let x := v in b) = r]. *)
Ltac let_step H :=
  lazymatch type of H with
  | (let x := ?v in @?b x) = ?r =>
    let y := fresh x in
    let E := fresh "E" y in
    pose (y := v); assert (E : y = v) by reflexivity;
    change (b y = r) in H; cbv beta in H; clearbody y
  end.
Ltac let_steps H := repeat let_step H.
