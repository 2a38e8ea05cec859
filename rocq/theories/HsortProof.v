(** The heap sort: permutation for any comparison, sorted for a total preorder. *)
Require Import ZArith List Bool Lia Permutation Arith.
From Verif Require Import Word Spec HashModel EcdsaModel ApiModel HsortModel.
Import ListNotations.
Local Open Scope nat_scope.

Section S.
Context {A : Type} (d : A).
Notation get l k := (nth k l d).

Lemma upd_length i x (l : list A) : length (upd i x l) = length l.
Proof. revert i; induction l as [|a l IH]; intros [|i]; cbn; try reflexivity. f_equal. apply IH. Qed.
Lemma upd_get i x (l : list A) k : i < length l -> get (upd i x l) k = if k =? i then x else get l k.
Proof.
  revert i k; induction l as [|a l IH]; intros i k H; [cbn in H; lia|]. destruct i as [|i], k as [|k]; cbn; try reflexivity.
  rewrite IH by (cbn in H; lia). reflexivity.
Qed.
Lemma swap_ok (l : list A) i j : i < length l -> j < length l -> i <> j ->
  exists l', heap_swap l i j = Some l' /\ length l' = length l /\ Permutation l l' /\
    forall k, get l' k = if k =? i then get l j else if k =? j then get l i else get l k.
Proof.
  intros I J NE. unfold heap_swap. rewrite !(nth_error_nth' l d) by assumption. exists (upd j (get l i) (upd i (get l j) l)).
  split; [reflexivity|]. split; [now rewrite !upd_length|].
  assert (G : forall k, get (upd j (get l i) (upd i (get l j) l)) k = if k =? i then get l j else if k =? j then get l i else get l k).
  { intro k. rewrite upd_get by (rewrite upd_length; lia). rewrite upd_get by lia. destruct (Nat.eqb_spec k j), (Nat.eqb_spec k i); subst; congruence || reflexivity. }
  split; [|exact G].
  apply (Permutation_nth _ _ d). rewrite !upd_length. split; [reflexivity|].
  exists (fun k => if k =? i then j else if k =? j then i else k). split; [|split].
  - intros k K. destruct (Nat.eqb_spec k i), (Nat.eqb_spec k j); lia.
  - intros a b _ _. destruct (Nat.eqb_spec a i), (Nat.eqb_spec a j), (Nat.eqb_spec b i), (Nat.eqb_spec b j); lia.
  - intros k K. rewrite G. destruct (k =? i), (k =? j); reflexivity.
Qed.
Lemma cmp_at_ok (cmp : A -> A -> Z * Z) l i j : i < length l -> j < length l -> cmp_at cmp l i j = Some (cmp (get l i) (get l j)).
Proof. intros I J. unfold cmp_at. now rewrite !(nth_error_nth' l d). Qed.

(** What a sequence of swaps of positions in [lo, hi) preserves. *)
Definition within (lo hi : nat) (l l' : list A) : Prop :=
  Permutation l l' /\ length l' = length l /\ (forall k, k < lo \/ hi <= k -> get l' k = get l k) /\
  forall P : A -> Prop, (forall k, lo <= k < hi -> P (get l k)) -> forall k, lo <= k < hi -> P (get l' k).
Lemma within_refl lo hi l : within lo hi l l.
Proof. repeat split; auto. Qed.
Lemma within_trans lo hi l1 l2 l3 : within lo hi l1 l2 -> within lo hi l2 l3 -> within lo hi l1 l3.
Proof.
  intros (P1 & L1 & O1 & C1) (P2 & L2 & O2 & C2). split; [now transitivity l2|]. split; [congruence|]. split.
  - intros k K. rewrite O2, O1 by assumption. reflexivity.
  - intros P H k K. apply (C2 P); [|assumption]. now apply C1.
Qed.
Lemma within_mono lo hi lo' hi' l l' : lo' <= lo -> hi <= hi' -> within lo hi l l' -> within lo' hi' l l'.
Proof.
  intros H1 H2 (P & L & O & C). split; [assumption|]. split; [assumption|]. split.
  - intros k K. apply O. lia.
  - intros Q H k K. destruct (le_lt_dec lo k); [destruct (lt_dec k hi)|].
    + apply C; [|lia]. intros; apply H; lia.
    + rewrite O by lia. apply H. lia.
    + rewrite O by lia. apply H. lia.
Qed.
Lemma swap_within lo hi l i j : i < length l -> j < length l -> i <> j -> lo <= i < hi -> lo <= j < hi ->
  exists l', heap_swap l i j = Some l' /\ within lo hi l l' /\ forall k, get l' k = if k =? i then get l j else if k =? j then get l i else get l k.
Proof.
  intros I J NE HI HJ. destruct (swap_ok l i j I J NE) as (l' & E & L & P & G). exists l'. split; [exact E|]. split; [|exact G].
  split; [exact P|]. split; [exact L|]. split.
  - intros k K. rewrite G. destruct (Nat.eqb_spec k i), (Nat.eqb_spec k j); lia || reflexivity.
  - intros Q H k K. rewrite G. destruct (k =? i), (k =? j); apply H; lia.
Qed.

Lemma half_lt i hs : (i <? hs / 2) = true <-> 2 * i + 2 <= hs.
Proof.
  rewrite Nat.ltb_lt. pose proof (Nat.div_mod hs 2 ltac:(lia)). pose proof (Nat.mod_upper_bound hs 2 ltac:(lia)). lia.
Qed.

(** One iteration of the while loop. *)
Definition child (j c : nat) : Prop := c = 2 * j + 1 \/ c = 2 * j + 2.
Definition noill (cmp : A -> A -> Z * Z) (l : list A) : Prop := forall x y, In x l -> In y l -> snd (cmp x y) = 0%Z.
Lemma noill_perm cmp l l' : Permutation l l' -> noill cmp l -> noill cmp l'.
Proof. intros P H x y X Y. apply H; now apply (Permutation_in _ (Permutation_sym P)). Qed.
Definition ordered (cmp : A -> A -> Z * Z) (le : A -> A -> Prop) : Prop :=
  (forall x y, (0 <= fst (cmp x y))%Z <-> le y x) /\ (forall x y, (0 < fst (cmp x y))%Z <-> ~ le x y) /\
  (forall x y, le x y \/ le y x) /\ (forall x y z, le x y -> le y z -> le x z).
Lemma heap_down_step cmp fuel l i hs ill : hs <= length l ->
  (exists ill', heap_down (S fuel) cmp l i hs ill = Some (l, ill') /\ (noill cmp l -> ill' = ill) /\
     forall le, ordered cmp le -> forall c, child i c -> c < hs -> le (get l c) (get l i)) \/
  (exists c l' ill', child i c /\ c < hs /\ heap_down (S fuel) cmp l i hs ill = heap_down fuel cmp l' c hs ill' /\ (noill cmp l -> ill' = ill) /\
     within i hs l l' /\ (forall k, get l' k = if k =? i then get l c else if k =? c then get l i else get l k) /\
     forall le, ordered cmp le -> le (get l i) (get l c) /\ forall c', child i c' -> c' < hs -> le (get l c') (get l c)).
Proof.
  intros L. cbn [heap_down]. destruct (i <? hs / 2) eqn:H.
  2:{ left. exists ill. split; [reflexivity|]. split; [reflexivity|]. intros le _ c C CH. exfalso. assert (2 * i + 2 <= hs -> False) by (intro; apply half_lt in H0; congruence).
      destruct C; subst c; try lia.  }
  apply half_lt in H. unfold heap_child2, heap_child1. cbv zeta.
  assert (C1 : 2 * i + 1 < length l) by lia. assert (CI : i < length l) by lia.
  rewrite (cmp_at_ok cmp l (2 * i + 1) i C1 CI).
  (* the comparison with the first child, when it decides *)
  assert (T1 : forall ill, (forall le, ordered cmp le -> 2 * i + 2 < hs -> le (get l (2 * i + 2)) (get l (2 * i + 1))) ->
    (exists ill', (let (c, k) := cmp (get l (2 * i + 1)) (get l i) in
        if (0 <? c)%Z then match heap_swap l i (2 * i + 1) with None => None | Some arr => heap_down fuel cmp arr (2 * i + 1) hs (ill + k) end
        else Some (l, (ill + k)%Z)) = Some (l, ill') /\ (noill cmp l -> ill' = ill) /\
       forall le, ordered cmp le -> forall c, child i c -> c < hs -> le (get l c) (get l i)) \/
    (exists c l' ill', child i c /\ c < hs /\ (let (c, k) := cmp (get l (2 * i + 1)) (get l i) in
        if (0 <? c)%Z then match heap_swap l i (2 * i + 1) with None => None | Some arr => heap_down fuel cmp arr (2 * i + 1) hs (ill + k) end
        else Some (l, (ill + k)%Z)) = heap_down fuel cmp l' c hs ill' /\ (noill cmp l -> ill' = ill) /\
       within i hs l l' /\ (forall k, get l' k = if k =? i then get l c else if k =? c then get l i else get l k) /\
       forall le, ordered cmp le -> le (get l i) (get l c) /\ forall c', child i c' -> c' < hs -> le (get l c') (get l c))).
  { intros il OTH. pose proof (surjective_pairing (cmp (get l (2 * i + 1)) (get l i))) as E. rewrite E.
    destruct (0 <? fst (cmp (get l (2 * i + 1)) (get l i)))%Z eqn:Q.
    - right. apply Z.ltb_lt in Q. destruct (swap_within i hs l i (2 * i + 1) CI C1 ltac:(lia) ltac:(lia) ltac:(lia)) as (l' & ES & W & G).
      exists (2 * i + 1), l', (il + snd (cmp (get l (2 * i + 1)) (get l i)))%Z. rewrite ES.
      split; [now left|]. split; [lia|]. split; [reflexivity|]. split; [intro NI; unfold noill in NI; rewrite ?NI by (apply nth_In; lia); lia|]. split; [exact W|]. split; [exact G|].
      intros le (O1 & O2 & O3 & O4). apply O2 in Q. split; [destruct (O3 (get l i) (get l (2 * i + 1))); [assumption|contradiction]|].
      intros c' [->| ->] HC; [destruct (O3 (get l (2 * i + 1)) (get l (2 * i + 1))); assumption|]. apply OTH; [|assumption]. repeat split; apply O1 || apply O2 || apply O3 || apply O4.
    - left. apply Z.ltb_ge in Q. eexists. split; [reflexivity|]. split; [intro NI; unfold noill in NI; rewrite ?NI by (apply nth_In; lia); lia|]. intros le (O1 & O2 & O3 & O4) c C HC.
      assert (B : le (get l (2 * i + 1)) (get l i)).
      { destruct (O3 (get l (2 * i + 1)) (get l i)) as [?|?]; [assumption|]. specialize (O1 (get l i) (get l (2 * i + 1))). specialize (O2 (get l (2 * i + 1)) (get l i)).
        destruct (Z.le_gt_cases 0 (fst (cmp (get l i) (get l (2 * i + 1))))) as [X|X]; [now apply O1|].
        exfalso. assert (~ le (get l (2 * i + 1)) (get l i)) as Y by (intro Y; apply O1 in Y; lia). apply O2 in Y. lia. }
      destruct C as [->| ->]; [exact B|]. apply (O4 _ (get l (2 * i + 1))); [|exact B]. apply OTH; [|assumption]. repeat split; apply O1 || apply O2 || apply O3 || apply O4. }
  destruct (2 * i + 1 + 1 <? hs) eqn:H2.
  - apply Nat.ltb_lt in H2. replace (2 * i + 1 + 1) with (2 * i + 2) in * by lia. assert (C2 : 2 * i + 2 < length l) by lia.
    rewrite (cmp_at_ok cmp l (2 * i + 2) (2 * i + 1) C2 C1), (cmp_at_ok cmp l (2 * i + 2) i C2 CI).
    pose proof (surjective_pairing (cmp (get l (2 * i + 2)) (get l (2 * i + 1)))) as E. rewrite E.
    destruct (0 <=? fst (cmp (get l (2 * i + 2)) (get l (2 * i + 1))))%Z eqn:Q0.
    + apply Z.leb_le in Q0. pose proof (surjective_pairing (cmp (get l (2 * i + 2)) (get l i))) as E2. rewrite E2.
      destruct (0 <? fst (cmp (get l (2 * i + 2)) (get l i)))%Z eqn:Q.
      * right. apply Z.ltb_lt in Q. destruct (swap_within i hs l i (2 * i + 2) CI C2 ltac:(lia) ltac:(lia) ltac:(lia)) as (l' & ES & W & G).
        eexists (2 * i + 2), l', _. rewrite ES. split; [now right|]. split; [lia|]. split; [reflexivity|]. split; [intro NI; unfold noill in NI; rewrite ?NI by (apply nth_In; lia); lia|]. split; [exact W|]. split; [exact G|].
        intros le (O1 & O2 & O3 & O4). apply O2 in Q. apply O1 in Q0. split; [destruct (O3 (get l i) (get l (2 * i + 2))); [assumption|contradiction]|].
        intros c' [->| ->] HC; [exact Q0|]. destruct (O3 (get l (2 * i + 2)) (get l (2 * i + 2))); assumption.
      * left. apply Z.ltb_ge in Q. eexists. split; [reflexivity|]. split; [intro NI; unfold noill in NI; rewrite ?NI by (apply nth_In; lia); lia|]. intros le (O1 & O2 & O3 & O4) c C HC. apply O1 in Q0.
        assert (B : le (get l (2 * i + 2)) (get l i)).
        { destruct (O3 (get l (2 * i + 2)) (get l i)) as [?|X]; [assumption|]. 
          assert (D : (0 <= fst (cmp (get l (2 * i + 2)) (get l i)))%Z) by now apply O1.
          assert (E0 : fst (cmp (get l (2 * i + 2)) (get l i)) = 0%Z) by lia.
          destruct (Z.le_gt_cases 0 (fst (cmp (get l i) (get l (2 * i + 2))))) as [Y|Y]; [now apply O1|].
          exfalso. assert (~ le (get l (2 * i + 2)) (get l i)) as Y' by (intro Y'; apply O1 in Y'; lia). apply O2 in Y'. lia. }
        destruct C as [->| ->]; [|exact B]. now apply (O4 _ (get l (2 * i + 2))).
    + apply Z.leb_gt in Q0. assert (NI0 : noill cmp l -> (ill + snd (cmp (get l (2 * i + 2)) (get l (2 * i + 1))))%Z = ill).
      { intro NI; unfold noill in NI; rewrite ?NI by (apply nth_In; lia); lia. }
      destruct (T1 (ill + snd (cmp (get l (2 * i + 2)) (get l (2 * i + 1))))%Z) as [(i' & TE & TN & TT)|(c & l' & i' & TC & TH & TE & TN & TT)].
      * intros le (O1 & O2 & O3 & O4) _.
        destruct (O3 (get l (2 * i + 2)) (get l (2 * i + 1))) as [X|X]; [assumption|]. apply O1 in X. lia.
      * left. exists i'. split; [exact TE|]. split; [intro NI; rewrite (TN NI); auto|exact TT].
      * right. exists c, l', i'. split; [exact TC|]. split; [exact TH|]. split; [exact TE|]. split; [intro NI; rewrite (TN NI); auto|exact TT].
  - apply Nat.ltb_ge in H2. apply T1. intros; lia.
Qed.

(** The heap condition on the nodes from [i0] on, except at node [e]. *)
Definition heap_but (le : A -> A -> Prop) (i0 hs e : nat) (l : list A) : Prop :=
  (forall j c, i0 <= j -> j <> e -> child j c -> c < hs -> le (get l c) (get l j)) /\
  (forall j c, i0 <= j -> child j e -> child e c -> c < hs -> le (get l c) (get l j)).
Definition heap (le : A -> A -> Prop) (i0 hs : nat) (l : list A) : Prop :=
  forall j c, i0 <= j -> child j c -> c < hs -> le (get l c) (get l j).
Lemma heap_down_ok cmp : forall fuel l i hs ill, hs <= length l -> hs + 1 <= fuel + i -> 1 <= fuel ->
  exists l' ill', heap_down fuel cmp l i hs ill = Some (l', ill') /\ (noill cmp l -> ill' = ill) /\ within i hs l l' /\
    forall le i0, ordered cmp le -> i0 <= i -> heap_but le i0 hs i l -> heap le i0 hs l'.
Proof.
  induction fuel as [|fuel IH]; intros l i hs ill L F F1; [lia|].
  destruct (heap_down_step cmp fuel l i hs ill L) as [(ill' & E & NI & ST)|(c & l1 & ill1 & C & CH & E & NI & W & G & SW)].
  - exists l, ill'. split; [exact E|]. split; [exact NI|]. split; [apply within_refl|]. intros le i0 O I0 (H1 & H2) j k J K KH.
    destruct (Nat.eq_dec j i) as [->|NE]; [now apply (ST le O)|now apply H1].
  - assert (LC : c >= 2 * i + 1) by (destruct C; lia).
    assert (L1 : length l1 = length l) by apply W.
    destruct (IH l1 c hs ill1 ltac:(lia) ltac:(lia) ltac:(lia)) as (l' & ill' & E' & NI' & W' & HP). exists l', ill'.
    split; [now rewrite E|]. split; [intro N; rewrite NI' by (apply (noill_perm cmp l); [apply W|exact N]); auto|]. split.
    + apply (within_trans _ _ _ l1); [exact W|]. apply (within_mono c hs); [lia|lia|exact W'].
    + intros le i0 O I0 (H1 & H2). apply (HP le i0 O ltac:(lia)). destruct (SW le O) as (S1 & S2). destruct O as (O1 & O2 & O3 & O4).
      split.
      * intros j k J NE K KH. rewrite !G. unfold child in *.
        destruct (Nat.eqb_spec j i) as [->|NJI].
        { destruct (Nat.eqb_spec k i); [lia|]. destruct (Nat.eqb_spec k c) as [->|]; [exact S1|]. now apply S2. }
        destruct (Nat.eqb_spec j c); [contradiction|].
        destruct (Nat.eqb_spec k i) as [->|].
        { apply H2; assumption. }
        destruct (Nat.eqb_spec k c) as [->|]; [lia|]. now apply H1.
      * intros j k J JC CK KH. unfold child in *. assert (j = i) as -> by lia. rewrite !G.
        destruct (Nat.eqb_spec k i); [lia|]. destruct (Nat.eqb_spec k c); [lia|]. rewrite Nat.eqb_refl. apply H1; lia.
Qed.
Lemma build_ok cmp : forall i l count ill, count <= length l -> i <= count ->
  exists l' ill', hsort_build cmp l i count ill = Some (l', ill') /\ (noill cmp l -> ill' = ill) /\ within 0 count l l' /\
    forall le, ordered cmp le -> heap le i count l -> heap le 0 count l'.
Proof.
  induction i as [|i IH]; intros l count ill L I; cbn [hsort_build].
  - exists l, ill. split; [reflexivity|]. split; [reflexivity|]. split; [apply within_refl|]. auto.
  - destruct (heap_down_ok cmp (S count) l i count ill L ltac:(lia) ltac:(lia)) as (l1 & ill1 & E & NI & W & HP). rewrite E.
    assert (L1 : length l1 = length l) by apply W.
    destruct (IH l1 count ill1 ltac:(lia) ltac:(lia)) as (l' & ill' & E' & NI' & W' & HP'). exists l', ill'. split; [exact E'|]. split; [intro N; rewrite NI' by (apply (noill_perm cmp l); [apply W|exact N]); auto|]. split.
    + apply (within_trans _ _ _ l1); [|exact W']. apply (within_mono i count); [lia|lia|exact W].
    + intros le O H. apply (HP' le O). apply (HP le i O (Nat.le_refl _)). split.
      * intros j c J NE C CH. apply (H j c); [lia|exact C|exact CH].
      * intros j c J C. unfold child in C. lia.
Qed.
Lemma heap_root (le : A -> A -> Prop) hs l : (forall x y z, le x y -> le y z -> le x z) -> (forall x, le x x) -> heap le 0 hs l -> forall k, k < hs -> le (get l k) (get l 0).
Proof.
  intros T R H k. induction k as [k IH] using lt_wf_ind. intros K. destruct k as [|k]; [apply R|].
  assert (C : child (k / 2) (S k)).
  { unfold child. pose proof (Nat.div_mod k 2 ltac:(lia)). pose proof (Nat.mod_upper_bound k 2 ltac:(lia)). lia. }
  assert (k / 2 <= k) by (apply Nat.div_le_upper_bound; lia).
  apply (T _ (get l (k / 2))); [apply H; [lia|exact C|exact K]|]. apply IH; lia.
Qed.
(** Sorted positions [i, count), and everything before is below. *)
Definition tail_sorted (le : A -> A -> Prop) (i count : nat) (l : list A) : Prop := forall a b, a < b < count -> i <= b -> le (get l a) (get l b).
Lemma pop_ok cmp : forall i l count ill, count <= length l -> i <= count ->
  exists l' ill', hsort_pop cmp l i ill = Some (l', ill') /\ (noill cmp l -> ill' = ill) /\ within 0 i l l' /\
    forall le, ordered cmp le -> heap le 0 i l -> tail_sorted le i count l -> tail_sorted le 0 count l'.
Proof.
  induction i as [|i IH]; intros l count ill L I; cbn [hsort_pop].
  { exists l, ill. split; [reflexivity|]. split; [reflexivity|]. split; [apply within_refl|]. auto. }
  destruct (1 <? S i) eqn:Q.
  2:{ exists l, ill. split; [reflexivity|]. split; [reflexivity|]. split; [apply within_refl|]. intros le O H T a b AB _. apply Nat.ltb_ge in Q. apply T; lia. }
  apply Nat.ltb_lt in Q.
  destruct (swap_within 0 (S i) l 0 i ltac:(lia) ltac:(lia) ltac:(lia) ltac:(lia) ltac:(lia)) as (l1 & E1 & W1 & G1). rewrite E1.
  assert (L1 : length l1 = length l) by apply W1.
  destruct (heap_down_ok cmp (S i) l1 0 i ill ltac:(lia) ltac:(lia) ltac:(lia)) as (l2 & ill2 & E2 & NI2 & W2 & HP2). rewrite E2.
  assert (L2 : length l2 = length l1) by apply W2.
  destruct (IH l2 count ill2 ltac:(lia) ltac:(lia)) as (l' & ill' & E' & NI' & W' & HP'). exists l', ill'. split; [exact E'|].
  split; [intro N; rewrite NI' by (apply (noill_perm cmp l1); [apply W2|]; apply (noill_perm cmp l); [apply W1|exact N]); apply NI2; apply (noill_perm cmp l); [apply W1|exact N]|]. split.
  - apply (within_trans _ _ _ l1); [exact W1|]. apply (within_trans _ _ _ l2); [|apply (within_mono 0 i); [lia|lia|exact W']].
    apply (within_mono 0 i); [lia|lia|exact W2].
  - intros le O H T. pose proof O as (O1 & O2 & O3 & O4).
    assert (RF : forall x, le x x) by (intro x; destruct (O3 x x); assumption).
    pose proof (heap_root le (S i) l O4 RF H) as RT.
    apply (HP' le O).
    + apply (HP2 le 0 O (Nat.le_refl _)). split.
      * intros j c J NE C CH. rewrite !G1. unfold child in C. destruct (Nat.eqb_spec c 0); [lia|]. destruct (Nat.eqb_spec c i); [lia|].
        destruct (Nat.eqb_spec j 0); [lia|]. destruct (Nat.eqb_spec j i); [lia|]. apply H; [lia|exact C|lia].
      * intros j c J C. unfold child in C. lia.
    + destruct W2 as (_ & _ & OUT & ALL). intros a b AB IB.
      rewrite (OUT b) by lia. destruct (le_lt_dec i a) as [A1|A1].
      * rewrite (OUT a) by lia. rewrite !G1. destruct (Nat.eqb_spec a 0); [lia|]. destruct (Nat.eqb_spec b 0); [lia|]. destruct (Nat.eqb_spec b i); [lia|].
        destruct (Nat.eqb_spec a i) as [->|]; apply T; lia.
      * apply (ALL (fun x => le x (get l1 b))); [|lia]. intros k K. rewrite !G1. destruct (Nat.eqb_spec b 0); [lia|].
        destruct (Nat.eqb_spec k i); [lia|]. destruct (Nat.eqb_spec b i) as [->|].
        { destruct (Nat.eqb_spec k 0); apply RT; lia. }
        destruct (Nat.eqb_spec k 0); apply T; lia.
Qed.
Lemma hsort_ok cmp l count : count <= length l ->
  exists l' ill, hsort cmp l count = Some (l', ill) /\ (noill cmp l -> ill = 0%Z) /\ within 0 count l l' /\ forall le, ordered cmp le -> tail_sorted le 0 count l'.
Proof.
  intros L. unfold hsort.
  assert (D : count / 2 <= count) by (apply Nat.div_le_upper_bound; lia).
  destruct (build_ok cmp (count / 2) l count 0 L D) as (l1 & ill1 & E1 & NI1 & W1 & HP1). rewrite E1.
  assert (L1 : length l1 = length l) by apply W1.
  destruct (pop_ok cmp count l1 count ill1 ltac:(lia) (Nat.le_refl _)) as (l' & ill & E & NI & W & HP). exists l', ill. split; [exact E|].
  split; [intro N; rewrite NI by (apply (noill_perm cmp l); [apply W1|exact N]); auto|].
  split; [now apply (within_trans _ _ _ l1)|]. intros le O. apply (HP le O).
  - apply (HP1 le O). intros j c J C CH. exfalso. unfold child in C.
    pose proof (Nat.div_mod count 2 ltac:(lia)). pose proof (Nat.mod_upper_bound count 2 ltac:(lia)). lia.
  - intros a b AB B. lia.
Qed.
End S.
