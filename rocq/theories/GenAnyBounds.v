(** The recoded scalar is read within its array. *)
Require Import ZArith List Bool Lia.
From Verif Require Import Word Spec FieldModel ScalarModel GroupModel GenModel GenProof GenAnyModel GenAnyProof SpecGenAny GenAnyProps.
Import ListNotations.
Local Open Scope Z_scope.

Lemma any_recode_length g d : (256 <= bits_covered g)%nat -> length (any_recode g d) = ((bits_covered g + 31) / 32)%nat.
Proof.
  intros H. unfold any_recode. cbv zeta. rewrite app_length, map_length, seq_length, repeat_length.
  assert (8 <= (bits_covered g + 31) / 32)%nat by (apply Nat.div_le_lower_bound; lia). set (w := ((bits_covered g + 31) / 32)%nat) in *. clearbody w. lia.
Qed.
Section Junk.
  Variable g : comb.
  Variable rec junk : list Z.
  Hypothesis HR : forall pos, 0 <= pos < Z.of_nat (bits_covered g) -> (Z.to_nat (Z.shiftr pos 5) < length rec)%nat.
  Local Notation s := (Z.of_nat (spacing g)).
  Lemma junk_bits k : forall tooth bp bits, 0 <= bp -> (k = 0%nat \/ bp + Z.of_nat (k - 1) * s < Z.of_nat (bits_covered g)) ->
    any_bits k g (rec ++ junk) tooth bp bits = any_bits k g rec tooth bp bits.
  Proof.
    induction k as [|k IH]; intros tooth bp bits Hb Hk; [reflexivity|]. cbn [any_bits].
    assert (A : 0 <= Z.of_nat (S k - 1) * s) by (apply Z.mul_nonneg_nonneg; lia).
    rewrite app_nth1 by (apply HR; lia). apply IH; [lia|]. destruct k; [now left|right].
    replace (S (S k) - 1)%nat with (S k) in * by lia. replace (S k - 1)%nat with k by lia. lia.
  Qed.
  Lemma junk_blocks c off : (1 <= teeth g)%nat -> 0 <= off < s -> forall tabs b st, (b + length tabs <= blocks g)%nat ->
    any_blocks g c (rec ++ junk) tabs (Z.of_nat b * Z.of_nat (teeth g) * s + off) st = any_blocks g c rec tabs (Z.of_nat b * Z.of_nat (teeth g) * s + off) st.
  Proof.
    intros HT Ho. induction tabs as [|t tabs IH]; intros b [[r adds] first] Hb; [reflexivity|]. cbn [any_blocks length] in *.
    rewrite junk_bits.
    - replace (Z.of_nat b * Z.of_nat (teeth g) * s + off + Z.of_nat (teeth g) * s) with (Z.of_nat (S b) * Z.of_nat (teeth g) * s + off) by lia. apply IH. lia.
    - apply Z.add_nonneg_nonneg; [|lia]. apply Z.mul_nonneg_nonneg; [apply Z.mul_nonneg_nonneg|]; lia.
    - right. unfold bits_covered. rewrite !Nat2Z.inj_mul. 
      assert ((Z.of_nat b + 1) * Z.of_nat (teeth g) * s <= Z.of_nat (blocks g) * Z.of_nat (teeth g) * s).
      { apply Z.mul_le_mono_nonneg_r; [lia|]. apply Z.mul_le_mono_nonneg_r; lia. }
      rewrite Nat2Z.inj_sub by lia. lia.
  Qed.
  Lemma junk_outer c tabs : (1 <= teeth g)%nat -> (length tabs <= blocks g)%nat -> forall k st, (k < spacing g)%nat ->
    any_outer k g c tabs (rec ++ junk) st = any_outer k g c tabs rec st.
  Proof.
    intros HT HL. induction k as [|k IH]; intros st Hk.
    - rewrite !any_outer_0. pose proof (junk_blocks c 0 HT ltac:(lia) tabs 0 st ltac:(lia)) as E. cbn [Z.of_nat Z.mul Z.add] in E. now rewrite E.
    - rewrite !any_outer_S. pose proof (junk_blocks c (Z.of_nat (S k)) HT ltac:(lia) tabs 0 st ltac:(lia)) as E.
      change (Z.of_nat 0 * Z.of_nat (teeth g) * s + Z.of_nat (S k)) with (Z.of_nat (S k)) in E. rewrite E.
      destruct (any_blocks g c rec tabs (Z.of_nat (S k)) st) as [[r a] f]. apply IH. lia.
  Qed.
End Junk.
Lemma prop_reads_in_bounds g c tabs d st junk : allowed g -> length tabs = blocks g ->
  any_outer (spacing g - 1) g c tabs (any_recode g d ++ junk) st = any_outer (spacing g - 1) g c tabs (any_recode g d) st.
Proof.
  intros A L. apply prop_allowed in A. destruct (compiles_bounds g A) as (_ & HT & HB & HS & _). apply junk_outer; try lia.
  intros pos Hp. rewrite any_recode_length by exact HB. rewrite shiftr_div by lia. change (2 ^ 5) with 32.
  apply Nat2Z.inj_lt. rewrite Z2Nat.id by (apply Z.div_pos; lia). rewrite Nat2Z.inj_div. change (Z.of_nat 32) with 32.
  apply Z.lt_le_trans with ((pos + 32) / 32); [|apply Z.div_le_mono; lia].
  replace (pos + 32) with (pos + 1 * 32) by ring. rewrite Z.div_add by lia. lia.
Qed.
