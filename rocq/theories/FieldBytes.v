(** Byte and storage conversions of field elements. *)
Require Import ZArith List Bool Lia Znumtheory.
From Verif Require Import Word Spec Bytes ZmField Curve FieldModel FieldMul FieldProof FieldProof2.
Import ListNotations.
Local Open Scope Z_scope.

Lemma lor_shl a b k h : 0 <= k -> 0 <= h -> 0 <= a < 2 ^ k -> 0 <= b < 2 ^ h -> k + h <= 64 ->
  Z.lor a (w64 (Z.shiftl b k)) = a + b * 2 ^ k /\ 0 <= a + b * 2 ^ k < 2 ^ (k + h).
Proof.
  intros Hk Hh Ha Hb Hs.
  assert (0 < 2 ^ k) by (apply Z.pow_pos_nonneg; lia).
  assert (B : 0 <= a + b * 2 ^ k < 2 ^ (k + h)).
  { rewrite Z.pow_add_r by lia. nia. }
  split; [|exact B].
  assert (2 ^ (k + h) <= 2 ^ 64) by (apply Z.pow_le_mono_r; lia).
  rewrite Z.shiftl_mul_pow2 by assumption. rewrite w64_id by nia.
  apply lor_disjoint; lia.
Qed.

Lemma split_list {A} (l : list A) k : length l = S k -> exists x l', l = x :: l' /\ length l' = k.
Proof. destruct l; cbn; intros H; [discriminate|]. injection H as H. eauto. Qed.

Lemma nibbles b : 0 <= b < 256 -> exists h l, b = 16 * h + l /\ 0 <= h < 16 /\ 0 <= l < 16 /\
  Z.land b 15 = l /\ Z.land (Z.shiftr b 4) 15 = h.
Proof.
  intros H. exists (b / 16), (b mod 16).
  assert (0 <= b / 16 < 16) by (split; [apply Z.div_pos|apply Z.div_lt_upper_bound]; lia).
  repeat split; try (apply Z.mod_pos_bound; lia); try lia.
  - apply Z.div_mod. lia.
  - change 15 with (2 ^ 4 - 1). now rewrite land_ones_mod by lia.
  - rewrite shiftr_div by lia. change 15 with (2 ^ 4 - 1). rewrite land_ones_mod by lia.
    change (2 ^ 4) with 16. apply Z.mod_small. lia.
Qed.

(** One [|! (b <<! k)] step, recording the new bound. *)
Ltac lor_step :=
  match goal with
  | |- context [Z.lor ?a (w64 (Z.shiftl ?b ?k))] =>
    lazymatch a with context [Z.lor] => fail | _ => idtac end;
    let E := fresh "E" in let B := fresh "B" in
    first
    [ destruct (lor_shl a b k 8 ltac:(lia) ltac:(lia) ltac:(lia) ltac:(change (2 ^ 8) with 256; lia) ltac:(lia)) as [E B]
    | destruct (lor_shl a b k 4 ltac:(lia) ltac:(lia) ltac:(lia) ltac:(change (2 ^ 4) with 16; lia) ltac:(lia)) as [E B] ];
    rewrite E; clear E; simpl (_ + _)%Z in B
  end.

Definition hlimb0 (b0 b1 b2 b3 b4 b5 l : Z) : Z :=
  b0 + b1 * 2 ^ 8 + b2 * 2 ^ 16 + b3 * 2 ^ 24 + b4 * 2 ^ 32 + b5 * 2 ^ 40 + l * 2 ^ 48.
Definition hlimb1 (h b0 b1 b2 b3 b4 b5 : Z) : Z :=
  h + b0 * 2 ^ 4 + b1 * 2 ^ 12 + b2 * 2 ^ 20 + b3 * 2 ^ 28 + b4 * 2 ^ 36 + b5 * 2 ^ 44.
Definition isb (b : Z) := 0 <= b < 256.

Lemma lor_byte a b k : 0 <= k <= 56 -> 0 <= a < 2 ^ k -> isb b ->
  Z.lor a (w64 (Z.shiftl b k)) = a + b * 2 ^ k /\ 0 <= a + b * 2 ^ k < 2 ^ (k + 8).
Proof. intros Hk Ha Hb. apply lor_shl; unfold isb in *; lia. Qed.
Lemma lor_nib a b k : 0 <= k <= 60 -> 0 <= a < 2 ^ k -> 0 <= b < 16 ->
  Z.lor a (w64 (Z.shiftl b k)) = a + b * 2 ^ k /\ 0 <= a + b * 2 ^ k < 2 ^ (k + 4).
Proof. intros Hk Ha Hb. apply lor_shl; unfold isb in *; lia. Qed.

Ltac lor_b b k E B :=
  match goal with |- context [Z.lor ?a (w64 (Z.shiftl b k))] =>
    destruct (lor_byte a b k) as [E B]; [split; discriminate|assumption|assumption|]; rewrite E; clear E end.

Lemma join0 b0 b1 b2 b3 b4 b5 l : isb b0 -> isb b1 -> isb b2 -> isb b3 -> isb b4 -> isb b5 -> 0 <= l < 16 ->
  (Z.lor (Z.lor (Z.lor (Z.lor (Z.lor (Z.lor b0 (w64 (Z.shiftl b1 8))) (w64 (Z.shiftl b2 16))) (w64 (Z.shiftl b3 24)))
    (w64 (Z.shiftl b4 32))) (w64 (Z.shiftl b5 40))) (w64 (Z.shiftl l 48))) = hlimb0 b0 b1 b2 b3 b4 b5 l.
Proof.
  intros H0 H1 H2 H3 H4 H5 Hl. assert (B0 : 0 <= b0 < 2 ^ 8) by exact H0.
  lor_b b1 8 E B1. lor_b b2 16 E B2. lor_b b3 24 E B3. lor_b b4 32 E B4. lor_b b5 40 E B5.
  apply lor_nib; [split; discriminate|assumption|assumption].
Qed.
Lemma join0' b0 b1 b2 b3 b4 b5 : isb b0 -> isb b1 -> isb b2 -> isb b3 -> isb b4 -> isb b5 ->
  (Z.lor (Z.lor (Z.lor (Z.lor (Z.lor b0 (w64 (Z.shiftl b1 8))) (w64 (Z.shiftl b2 16))) (w64 (Z.shiftl b3 24)))
    (w64 (Z.shiftl b4 32))) (w64 (Z.shiftl b5 40))) = hlimb0 b0 b1 b2 b3 b4 b5 0.
Proof.
  intros H0 H1 H2 H3 H4 H5. assert (B0 : 0 <= b0 < 2 ^ 8) by exact H0.
  lor_b b1 8 E B1. lor_b b2 16 E B2. lor_b b3 24 E B3. lor_b b4 32 E B4. lor_b b5 40 E B5.
  unfold hlimb0. ring.
Qed.
Lemma join1 h b0 b1 b2 b3 b4 b5 : 0 <= h < 16 -> isb b0 -> isb b1 -> isb b2 -> isb b3 -> isb b4 -> isb b5 ->
  (Z.lor (Z.lor (Z.lor (Z.lor (Z.lor (Z.lor h (w64 (Z.shiftl b0 4))) (w64 (Z.shiftl b1 12))) (w64 (Z.shiftl b2 20)))
    (w64 (Z.shiftl b3 28))) (w64 (Z.shiftl b4 36))) (w64 (Z.shiftl b5 44))) = hlimb1 h b0 b1 b2 b3 b4 b5.
Proof.
  intros Hh H0 H1 H2 H3 H4 H5. assert (Bh : 0 <= h < 2 ^ 4) by exact Hh.
  lor_b b0 4 E B0. lor_b b1 12 E B1. lor_b b2 20 E B2. lor_b b3 28 E B3. lor_b b4 36 E B4. lor_b b5 44 E B5. reflexivity.
Qed.

Lemma hlimb0_range b0 b1 b2 b3 b4 b5 l : isb b0 -> isb b1 -> isb b2 -> isb b3 -> isb b4 -> isb b5 -> 0 <= l < 16 ->
  0 <= hlimb0 b0 b1 b2 b3 b4 b5 l <= M52.
Proof. unfold isb, hlimb0, M52. intros. lia. Qed.
Lemma hlimb0_range' b0 b1 b2 b3 b4 b5 : isb b0 -> isb b1 -> isb b2 -> isb b3 -> isb b4 -> isb b5 ->
  0 <= hlimb0 b0 b1 b2 b3 b4 b5 0 <= M48.
Proof. unfold isb, hlimb0, M48. intros. lia. Qed.
Lemma hlimb1_range h b0 b1 b2 b3 b4 b5 : 0 <= h < 16 -> isb b0 -> isb b1 -> isb b2 -> isb b3 -> isb b4 -> isb b5 ->
  0 <= hlimb1 h b0 b1 b2 b3 b4 b5 <= M52.
Proof. unfold isb, hlimb1, M52. intros. lia. Qed.

Ltac next_byte l H L b :=
  destruct l as [|b l]; [discriminate L|]; injection L as L;
  let Hb := fresh "H" b in apply byte_list_cons in H as [Hb H]; change (isb b) in Hb.

(** The limbs of the element read from 32 bytes. *)
Lemma fe_set_b32_mod_ok l : byte_list l -> length l = 32%nat ->
  let r := fe_set_b32_mod l in
  fval r = be_val l /\ (0 <= n0 r <= M52 /\ 0 <= n1 r <= M52 /\ 0 <= n2 r <= M52 /\ 0 <= n3 r <= M52 /\ 0 <= n4 r <= M48).
Proof.
  intros H L.
  next_byte l H L x0. next_byte l H L x1. next_byte l H L x2. next_byte l H L x3. next_byte l H L x4.
  next_byte l H L x5. next_byte l H L x6. next_byte l H L x7. next_byte l H L x8. next_byte l H L x9.
  next_byte l H L x10. next_byte l H L x11. next_byte l H L x12. next_byte l H L x13. next_byte l H L x14.
  next_byte l H L x15. next_byte l H L x16. next_byte l H L x17. next_byte l H L x18. next_byte l H L x19.
  next_byte l H L x20. next_byte l H L x21. next_byte l H L x22. next_byte l H L x23. next_byte l H L x24.
  next_byte l H L x25. next_byte l H L x26. next_byte l H L x27. next_byte l H L x28. next_byte l H L x29.
  next_byte l H L x30. next_byte l H L x31. destruct l; [|discriminate L]. clear H L.
  unfold fe_set_b32_mod, byte_at. cbn [nth].
  destruct (nibbles x25 Hx25) as (h25 & l25 & E25 & Hh25 & Hl25 & -> & ->).
  destruct (nibbles x12 Hx12) as (h12 & l12 & E12 & Hh12 & Hl12 & -> & ->).
  rewrite !join0, !join1, join0' by assumption.
  cbv zeta. cbn [n0 n1 n2 n3 n4]. split.
  - unfold fval, hlimb0, hlimb1, be_val. cbn [n0 n1 n2 n3 n4 be_val_acc]. rewrite E25, E12. ring.
  - split; [now apply hlimb0_range|]. split; [now apply hlimb1_range|]. split; [now apply hlimb0_range|].
    split; [now apply hlimb1_range|]. now apply hlimb0_range'.
Qed.

Lemma fe_set_b32_mod_mag l : byte_list l -> length l = 32%nat -> fe_mag 1 (fe_set_b32_mod l).
Proof.
  intros H L. destruct (fe_set_b32_mod_ok l H L) as [_ (H0 & H1 & H2 & H3 & H4)].
  unfold fe_mag. clear -H0 H1 H2 H3 H4. fconst. lia.
Qed.
Lemma fe_set_b32_mod_fv l : byte_list l -> length l = 32%nat -> fv (fe_set_b32_mod l) = toF (be_val l).
Proof. intros H L. unfold fv. now destruct (fe_set_b32_mod_ok l H L) as [-> _]. Qed.

Lemma land52_3 a b c : 0 <= a <= M52 -> 0 <= b <= M52 -> 0 <= c <= M52 ->
  (Z.land (Z.land a b) c = M52 <-> a = M52 /\ b = M52 /\ c = M52).
Proof.
  intros Ha Hb Hc. destruct (land_ones52 a b Ha Hb) as [L1 L1']. destruct (land_ones52 _ c L1 Hc) as [L2 L2'].
  rewrite L2', L1'. tauto.
Qed.

Lemma fe_set_b32_limit_ok l : byte_list l -> length l = 32%nat ->
  fst (fe_set_b32_limit l) = (be_val l <? p) /\ snd (fe_set_b32_limit l) = fe_set_b32_mod l.
Proof.
  intros H L. unfold fe_set_b32_limit. destruct (fe_set_b32_mod_ok l H L) as [E (H0 & H1 & H2 & H3 & H4)].
  set (r := fe_set_b32_mod l) in *. clearbody r. rewrite <- E. cbn [fst snd]. split; [|reflexivity].
  pose proof (land52_3 (n3 r) (n2 r) (n1 r) H3 H2 H1) as LL.
  set (z := Z.land _ (n1 r)) in *. clearbody z.
  apply eq_true_iff_eq. rewrite negb_true_iff, Z.ltb_lt.
  rewrite !andb_false_iff, !Z.eqb_neq, Z.geb_leb, Z.leb_gt, LL. unfold fval.
  change p with (2 ^ 256 - 4294968273). clear -H0 H1 H2 H3 H4. fconst.
  destruct r as [a b c d e]. cbn [n0 n1 n2 n3 n4] in *. lia.
Qed.
Lemma fe_set_b32_limit_norm l : byte_list l -> length l = 32%nat -> fst (fe_set_b32_limit l) = true ->
  fe_norm (snd (fe_set_b32_limit l)) /\ fval (snd (fe_set_b32_limit l)) = be_val l.
Proof.
  intros H L F. destruct (fe_set_b32_limit_ok l H L) as [F' ->]. rewrite F' in F. apply Z.ltb_lt in F.
  destruct (fe_set_b32_mod_ok l H L) as [E (H0 & H1 & H2 & H3 & H4)]. rewrite E.
  unfold fe_norm. rewrite E. repeat split; tauto.
Qed.

(** Bytes of a limb. *)
Lemma get_byte x k : 0 <= k -> 0 <= x -> exists b q, Z.shiftr x k = b + 256 * q /\ isb b /\ 0 <= q /\
  Z.land (Z.shiftr x k) 255 = b /\ Z.shiftr x (k + 8) = q.
Proof.
  intros Hk Hx. exists ((x / 2 ^ k) mod 256), (x / 2 ^ k / 256). rewrite !shiftr_div by lia.
  assert (0 < 2 ^ k) by (apply Z.pow_pos_nonneg; lia).
  change 255 with (2 ^ 8 - 1). rewrite land_ones_mod by lia.
  split; [rewrite Z.add_comm; apply Z.div_mod; lia|].
  split; [apply Z.mod_pos_bound; lia|].
  split; [apply Z.div_pos; [apply Z.div_pos; lia|lia]|]. split; [reflexivity|].
  rewrite Z.pow_add_r, Z.div_div by lia. reflexivity.
Qed.
Lemma get_nib x k : 0 <= k -> 0 <= x -> exists b q, Z.shiftr x k = b + 16 * q /\ 0 <= b < 16 /\ 0 <= q /\
  Z.land (Z.shiftr x k) 15 = b /\ Z.shiftr x (k + 4) = q.
Proof.
  intros Hk Hx. exists ((x / 2 ^ k) mod 16), (x / 2 ^ k / 16). rewrite !shiftr_div by lia.
  assert (0 < 2 ^ k) by (apply Z.pow_pos_nonneg; lia).
  change 15 with (2 ^ 4 - 1). rewrite land_ones_mod by lia.
  split; [rewrite Z.add_comm; apply Z.div_mod; lia|].
  split; [apply Z.mod_pos_bound; lia|].
  split; [apply Z.div_pos; [apply Z.div_pos; lia|lia]|]. split; [reflexivity|].
  rewrite Z.pow_add_r, Z.div_div by lia. reflexivity.
Qed.

Lemma split_limb0 x : 0 <= x <= M52 -> exists b0 b1 b2 b3 b4 b5 l, isb b0 /\ isb b1 /\ isb b2 /\ isb b3 /\ isb b4 /\ isb b5 /\
  0 <= l < 16 /\ x = hlimb0 b0 b1 b2 b3 b4 b5 l /\
  Z.land x 255 = b0 /\ Z.land (Z.shiftr x 8) 255 = b1 /\ Z.land (Z.shiftr x 16) 255 = b2 /\ Z.land (Z.shiftr x 24) 255 = b3 /\
  Z.land (Z.shiftr x 32) 255 = b4 /\ Z.land (Z.shiftr x 40) 255 = b5 /\ Z.land (Z.shiftr x 48) 15 = l.
Proof.
  intros Hx. assert (Hx0 : 0 <= x) by apply Hx.
  destruct (get_byte x 0 ltac:(lia) Hx0) as (b0 & q0 & A0 & B0 & C0 & D0 & E0).
  destruct (get_byte x 8 ltac:(lia) Hx0) as (b1 & q1 & A1 & B1 & C1 & D1 & E1).
  destruct (get_byte x 16 ltac:(lia) Hx0) as (b2 & q2 & A2 & B2 & C2 & D2 & E2).
  destruct (get_byte x 24 ltac:(lia) Hx0) as (b3 & q3 & A3 & B3 & C3 & D3 & E3).
  destruct (get_byte x 32 ltac:(lia) Hx0) as (b4 & q4 & A4 & B4 & C4 & D4 & E4).
  destruct (get_byte x 40 ltac:(lia) Hx0) as (b5 & q5 & A5 & B5 & C5 & D5 & E5).
  destruct (get_nib x 48 ltac:(lia) Hx0) as (l & q6 & A6 & B6 & C6 & D6 & E6).
  change (0 + 8) with 8 in *. change (8 + 8) with 16 in *. change (16 + 8) with 24 in *. change (24 + 8) with 32 in *.
  change (32 + 8) with 40 in *. change (40 + 8) with 48 in *.
  rewrite (Z.shiftr_0_r x) in A0, D0. subst q0 q1 q2 q3 q4 q5.
  exists b0, b1, b2, b3, b4, b5, l. repeat (split; [assumption|]).
  split; [|repeat (split; [assumption|]); assumption].
  assert (Q : q6 = 0).
  { clear -A0 A1 A2 A3 A4 A5 A6 Hx B0 B1 B2 B3 B4 B5 B6 C6. unfold isb in *. fconst. lia. }
  unfold hlimb0. rewrite Q in A6. clear -A0 A1 A2 A3 A4 A5 A6. lia.
Qed.
Lemma split_limb1 x : 0 <= x <= M52 -> exists h b0 b1 b2 b3 b4 b5, 0 <= h < 16 /\ isb b0 /\ isb b1 /\ isb b2 /\ isb b3 /\ isb b4 /\ isb b5 /\
  x = hlimb1 h b0 b1 b2 b3 b4 b5 /\
  Z.land x 15 = h /\ Z.land (Z.shiftr x 4) 255 = b0 /\ Z.land (Z.shiftr x 12) 255 = b1 /\ Z.land (Z.shiftr x 20) 255 = b2 /\ Z.land (Z.shiftr x 28) 255 = b3 /\
  Z.land (Z.shiftr x 36) 255 = b4 /\ Z.land (Z.shiftr x 44) 255 = b5.
Proof.
  intros Hx. assert (Hx0 : 0 <= x) by apply Hx.
  destruct (get_nib x 0 ltac:(lia) Hx0) as (l & q6 & A6 & B6 & C6 & D6 & E6).
  destruct (get_byte x 4 ltac:(lia) Hx0) as (b0 & q0 & A0 & B0 & C0 & D0 & E0).
  destruct (get_byte x 12 ltac:(lia) Hx0) as (b1 & q1 & A1 & B1 & C1 & D1 & E1).
  destruct (get_byte x 20 ltac:(lia) Hx0) as (b2 & q2 & A2 & B2 & C2 & D2 & E2).
  destruct (get_byte x 28 ltac:(lia) Hx0) as (b3 & q3 & A3 & B3 & C3 & D3 & E3).
  destruct (get_byte x 36 ltac:(lia) Hx0) as (b4 & q4 & A4 & B4 & C4 & D4 & E4).
  destruct (get_byte x 44 ltac:(lia) Hx0) as (b5 & q5 & A5 & B5 & C5 & D5 & E5).
  change (0 + 4) with 4 in *. change (4 + 8) with 12 in *. change (12 + 8) with 20 in *. change (20 + 8) with 28 in *. change (28 + 8) with 36 in *.
  change (36 + 8) with 44 in *.
  rewrite (Z.shiftr_0_r x) in A6, D6. subst q0 q1 q2 q3 q4 q6.
  exists l, b0, b1, b2, b3, b4, b5. repeat (split; [assumption|]).
  split; [|repeat (split; [assumption|]); assumption].
  assert (Q : q5 = 0).
  { clear -A0 A1 A2 A3 A4 A5 A6 Hx B0 B1 B2 B3 B4 B5 B6 C5. unfold isb in *. fconst. lia. }
  unfold hlimb1. rewrite Q in A5. clear -A0 A1 A2 A3 A4 A5 A6. lia.
Qed.

Lemma nib_join l h : 0 <= l < 16 -> 0 <= h < 16 -> Z.lor l (w64 (Z.shiftl h 4)) = l + h * 16 /\ isb (l + h * 16).
Proof. intros Hl Hh. destruct (lor_nib l h 4) as [E B]; [lia|exact Hl|exact Hh|]. split; [exact E|exact B]. Qed.

Lemma fe_get_b32_ok a : fe_norm a -> fe_get_b32 a = be_bytes 32 (fval a).
Proof.
  intros (H0 & H1 & H2 & H3 & H4 & _). unfold fe_get_b32.
  destruct (split_limb0 (n0 a) H0) as (a0 & a1 & a2 & a3 & a4 & a5 & a6 & A0 & A1 & A2 & A3 & A4 & A5 & A6 & EA & -> & -> & -> & -> & -> & -> & ->).
  destruct (split_limb1 (n1 a) H1) as (b0 & b1 & b2 & b3 & b4 & b5 & b6 & B0 & B1 & B2 & B3 & B4 & B5 & B6 & EB & -> & -> & -> & -> & -> & -> & ->).
  destruct (split_limb0 (n2 a) H2) as (c0 & c1 & c2 & c3 & c4 & c5 & c6 & C0 & C1 & C2 & C3 & C4 & C5 & C6 & EC & -> & -> & -> & -> & -> & -> & ->).
  destruct (split_limb1 (n3 a) H3) as (d0 & d1 & d2 & d3 & d4 & d5 & d6 & D0 & D1 & D2 & D3 & D4 & D5 & D6 & ED & -> & -> & -> & -> & -> & -> & ->).
  assert (H4' : 0 <= n4 a <= M52) by (clear -H4; fconst; lia).
  destruct (split_limb0 (n4 a) H4') as (e0 & e1 & e2 & e3 & e4 & e5 & e6 & E0 & E1 & E2 & E3 & E4 & E5 & E6 & EE & -> & -> & -> & -> & -> & -> & _).
  assert (e6 = 0). { unfold hlimb0, isb in *. clear -EE H4 E0 E1 E2 E3 E4 E5 E6. fconst. lia. } subst e6.
  destruct (nib_join a6 b0 A6 B0) as [-> F1]. destruct (nib_join c6 d0 C6 D0) as [-> F2].
  apply be_bytes_unique; [reflexivity| |].
  - repeat (apply Forall_cons; [assumption|]). apply Forall_nil.
  - unfold fval. rewrite EA, EB, EC, ED, EE. unfold be_val, hlimb0, hlimb1. cbn [be_val_acc]. ring.
Qed.

(** ** Storage *)
Definition fes_ok (s : fe_storage) : Prop :=
  0 <= s0 s < 2 ^ 64 /\ 0 <= s1 s < 2 ^ 64 /\ 0 <= s2 s < 2 ^ 64 /\ 0 <= s3 s < 2 ^ 64.

Lemma sto_word lo hi k : 0 <= k <= 52 -> 0 <= lo < 2 ^ k -> 0 <= hi ->
  Z.lor lo (w64 (Z.shiftl hi k)) = lo + (hi mod 2 ^ (64 - k)) * 2 ^ k.
Proof.
  intros Hk Hlo Hhi. rewrite Z.shiftl_mul_pow2 by lia. unfold w64.
  replace (2 ^ 64) with (2 ^ (64 - k) * 2 ^ k) by (rewrite <- Z.pow_add_r by lia; f_equal; lia).
  assert (0 < 2 ^ k) by (apply Z.pow_pos_nonneg; lia).
  assert (0 < 2 ^ (64 - k)) by (apply Z.pow_pos_nonneg; lia).
  rewrite Zmult_mod_distr_r. now apply lor_disjoint.
Qed.

Lemma fe_to_storage_ok a : fe_norm a -> fes_ok (fe_to_storage a) /\ sval (fe_to_storage a) = fval a.
Proof.
  intros (H0 & H1 & H2 & H3 & H4 & _). unfold fe_to_storage, fes_ok, sval. cbn [s0 s1 s2 s3].
  assert (R : forall x k j, 0 <= x <= M52 -> 0 <= k <= 52 -> 52 - k <= j -> 0 <= Z.shiftr x k < 2 ^ j).
  { intros x k j Hx Hk Hj. rewrite shiftr_div by lia. split; [apply Z.div_pos; [lia|apply Z.pow_pos_nonneg; lia]|].
    apply Z.div_lt_upper_bound; [apply Z.pow_pos_nonneg; lia|]. rewrite <- Z.pow_add_r by lia.
    apply Z.lt_le_trans with (2 ^ 52); [fconst; lia|]. apply Z.pow_le_mono_r; lia. }
  rewrite !sto_word; try lia; try (apply R; lia); try (split; [lia|clear -H0; fconst; lia]).
  rewrite !shiftr_div by lia.
  change (64 - 52) with 12. change (64 - 40) with 24. change (64 - 28) with 36. change (64 - 16) with 48.
  pose proof (Z.div_mod (n1 a) (2 ^ 12) ltac:(discriminate)). pose proof (Z.div_mod (n2 a) (2 ^ 24) ltac:(discriminate)).
  pose proof (Z.div_mod (n3 a) (2 ^ 36) ltac:(discriminate)).
  pose proof (Z.mod_pos_bound (n1 a) (2 ^ 12) eq_refl). pose proof (Z.mod_pos_bound (n2 a) (2 ^ 24) eq_refl).
  pose proof (Z.mod_pos_bound (n3 a) (2 ^ 36) eq_refl).
  rewrite (Z.mod_small (n4 a)) by (clear -H4; fconst; change (2 ^ 48) with 281474976710656 in *; lia).
  unfold fval. set (u1 := n1 a / _) in *. set (u2 := n2 a / _) in *. set (u3 := n3 a / _) in *.
  set (v1 := n1 a mod _) in *. set (v2 := n2 a mod _) in *. set (v3 := n3 a mod _) in *. clearbody u1 u2 u3 v1 v2 v3.
  change (2 ^ 12) with 4096 in *. change (2 ^ 24) with 16777216 in *. change (2 ^ 36) with 68719476736 in *.
  change (2 ^ 48) with 281474976710656 in *.
  fconst. change (2 ^ 40) with 1099511627776. change (2 ^ 28) with 268435456. change (2 ^ 16) with 65536. lia.
Qed.

Lemma from_limb lo hi c d : 0 <= c -> 0 <= d -> c + d = 52 -> 0 <= lo < 2 ^ c -> 0 <= hi ->
  Z.lor lo (Z.land (w64 (Z.shiftl hi c)) M52) = lo + (hi mod 2 ^ d) * 2 ^ c.
Proof.
  intros Hc Hd Hs Hlo Hhi. assert (0 < 2 ^ c) by (apply Z.pow_pos_nonneg; lia).
  assert (0 < 2 ^ d) by (apply Z.pow_pos_nonneg; lia).
  rewrite land_w64_52. rewrite Z.shiftl_mul_pow2 by lia. replace 52 with (d + c) by lia.
  rewrite Z.pow_add_r by lia. rewrite Zmult_mod_distr_r.
  now apply lor_disjoint.
Qed.

Lemma fe_from_storage_ok s : fes_ok s ->
  fval (fe_from_storage s) = sval s /\ fe_mag 1 (fe_from_storage s) /\ (sval s < p -> fe_norm (fe_from_storage s)).
Proof.
  intros (H0 & H1 & H2 & H3). unfold fe_from_storage.
  rewrite (from_limb _ _ 12 40), (from_limb _ _ 24 28), (from_limb _ _ 36 16); try lia.
  2,3,4: rewrite shiftr_div by lia; split; [apply Z.div_pos; lia|apply Z.div_lt_upper_bound; [lia|fconst; lia]].
  rewrite !shiftr_div by lia. change (Z.land (s0 s) M52) with (Z.land (s0 s) (2 ^ 52 - 1)). rewrite !land_ones_mod by lia.
  pose proof (Z.div_mod (s0 s) (2 ^ 52) ltac:(discriminate)). pose proof (Z.mod_pos_bound (s0 s) (2 ^ 52) eq_refl).
  pose proof (Z.div_mod (s1 s) (2 ^ 40) ltac:(discriminate)). pose proof (Z.mod_pos_bound (s1 s) (2 ^ 40) eq_refl).
  pose proof (Z.div_mod (s2 s) (2 ^ 28) ltac:(discriminate)). pose proof (Z.mod_pos_bound (s2 s) (2 ^ 28) eq_refl).
  pose proof (Z.div_mod (s3 s) (2 ^ 16) ltac:(discriminate)). pose proof (Z.mod_pos_bound (s3 s) (2 ^ 16) eq_refl).
  set (u0 := s0 s / _) in *. set (v0 := s0 s mod _) in *. set (u1 := s1 s / _) in *. set (v1 := s1 s mod _) in *.
  set (u2 := s2 s / _) in *. set (v2 := s2 s mod _) in *. set (u3 := s3 s / _) in *. set (v3 := s3 s mod _) in *.
  clearbody u0 v0 u1 v1 u2 v2 u3 v3.
  unfold fe_norm, fe_mag, sval, fval. cbn [n0 n1 n2 n3 n4].
  assert (E : v0 + (u0 + v1 * 2 ^ 12) * 2 ^ 52 + (u1 + v2 * 2 ^ 24) * 2 ^ 104 + (u2 + v3 * 2 ^ 36) * 2 ^ 156 + u3 * 2 ^ 208 =
    s0 s + s1 s * 2 ^ 64 + s2 s * 2 ^ 128 + s3 s * 2 ^ 192) by lia.
  assert (B0 : 0 <= v0 <= M52) by (fconst; lia).
  assert (B1 : 0 <= u0 + v1 * 2 ^ 12 <= M52) by (clear -H0 H H4 H6; fconst; lia).
  assert (B2 : 0 <= u1 + v2 * 2 ^ 24 <= M52) by (clear -H1 H5 H6 H8; fconst; lia).
  assert (B3 : 0 <= u2 + v3 * 2 ^ 36 <= M52) by (clear -H2 H7 H8 H10; fconst; lia).
  assert (B4 : 0 <= u3 <= M48) by (clear -H3 H9 H10; fconst; lia).
  split; [exact E|]. split.
  - clear -B0 B1 B2 B3 B4. fconst. lia.
  - intros K. rewrite E. repeat (split; [assumption|]). assumption.
Qed.

Lemma fe_storage_round a : fe_norm a -> fe_from_storage (fe_to_storage a) = a.
Proof.
  intros H. destruct (fe_to_storage_ok a H) as [O V]. destruct (fe_from_storage_ok _ O) as (E & _ & N).
  apply fe_norm_inj; [apply N; rewrite V; apply H|assumption|]. now rewrite E.
Qed.

Lemma fe_storage_cmov_ok r a flag : fes_ok r -> fes_ok a -> flag = 0 \/ flag = 1 ->
  fe_storage_cmov r a flag = if flag =? 0 then r else a.
Proof.
  intros (R0 & R1 & R2 & R3) (A0 & A1 & A2 & A3) Hf. unfold fe_storage_cmov.
  rewrite !cmov64_spec by assumption. destruct r, a. destruct Hf as [-> | ->]; reflexivity.
Qed.
