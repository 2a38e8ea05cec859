(** Facts about big-endian byte strings. *)
Require Import ZArith List Bool Lia.
From Verif Require Import Spec.
Import ListNotations.
Local Open Scope Z_scope.

Lemma be_val_acc_eq l : forall acc, be_val_acc acc l = acc * 256 ^ Z.of_nat (length l) + be_val l.
Proof.
  unfold be_val. induction l as [|b l IH]; intros acc; cbn [be_val_acc length].
  - change (Z.of_nat 0) with 0. rewrite Z.pow_0_r. lia.
  - rewrite IH, (IH (0 * 256 + b)). rewrite Nat2Z.inj_succ, Z.pow_succ_r by lia. lia.
Qed.
Lemma be_val_nil : be_val [] = 0. Proof. reflexivity. Qed.
Lemma be_val_cons b l : be_val (b :: l) = b * 256 ^ Z.of_nat (length l) + be_val l.
Proof. unfold be_val at 1. cbn [be_val_acc]. rewrite be_val_acc_eq. lia. Qed.
Lemma be_val_app l1 l2 : be_val (l1 ++ l2) = be_val l1 * 256 ^ Z.of_nat (length l2) + be_val l2.
Proof.
  induction l1 as [|b l1 IH]; cbn [app].
  - rewrite be_val_nil. lia.
  - rewrite !be_val_cons, IH, app_length, Nat2Z.inj_add, Z.pow_add_r by lia. lia.
Qed.
Lemma be_val_snoc l b : be_val (l ++ [b]) = be_val l * 256 + b.
Proof. rewrite be_val_app, be_val_cons, be_val_nil. cbn [length]. change (Z.of_nat 0) with 0. change (Z.of_nat 1) with 1. rewrite Z.pow_0_r, Z.pow_1_r. lia. Qed.

Lemma byte_list_app l1 l2 : byte_list (l1 ++ l2) <-> byte_list l1 /\ byte_list l2.
Proof. apply Forall_app. Qed.
Lemma byte_list_cons b l : byte_list (b :: l) <-> 0 <= b < 256 /\ byte_list l.
Proof. apply Forall_cons_iff. Qed.
Lemma byte_list_nil : byte_list []. Proof. constructor. Qed.
Lemma byte_list_firstn k l : byte_list l -> byte_list (firstn k l).
Proof. intros H. rewrite <- (firstn_skipn k l) in H. now apply byte_list_app in H. Qed.
Lemma byte_list_skipn k l : byte_list l -> byte_list (skipn k l).
Proof. intros H. rewrite <- (firstn_skipn k l) in H. now apply byte_list_app in H. Qed.
Lemma byte_list_repeat b k : 0 <= b < 256 -> byte_list (repeat b k).
Proof. intros H. apply Forall_forall. intros x Hx. apply repeat_spec in Hx. now subst. Qed.
Lemma byte_list_rev l : byte_list l -> byte_list (rev l).
Proof. intros H. apply Forall_rev. exact H. Qed.
Lemma byte_list_nth l i : byte_list l -> 0 <= nth i l 0 < 256.
Proof.
  intros H. destruct (Nat.lt_ge_cases i (length l)).
  - unfold byte_list in H. rewrite Forall_forall in H. apply H. now apply nth_In.
  - rewrite nth_overflow by assumption. lia.
Qed.

Lemma be_val_range l : byte_list l -> 0 <= be_val l < 256 ^ Z.of_nat (length l).
Proof.
  induction l as [|b l IH]; intros H.
  - rewrite be_val_nil. cbn. lia.
  - apply byte_list_cons in H as [Hb H]. specialize (IH H). rewrite be_val_cons. cbn [length].
    rewrite Nat2Z.inj_succ, Z.pow_succ_r by lia. nia.
Qed.

Lemma be_bytes_length k : forall v, length (be_bytes k v) = k.
Proof. induction k; intros v; cbn [be_bytes]; [reflexivity|]. rewrite app_length, IHk. cbn. lia. Qed.
Lemma be_bytes_byte_list k : forall v, byte_list (be_bytes k v).
Proof.
  induction k; intros v; cbn [be_bytes]; [constructor|]. apply byte_list_app. split; [apply IHk|].
  apply byte_list_cons. split; [|constructor]. apply Z.mod_pos_bound. lia.
Qed.
Lemma be_val_be_bytes k : forall v, be_val (be_bytes k v) = v mod 256 ^ Z.of_nat k.
Proof.
  induction k; intros v; cbn [be_bytes].
  - change (Z.of_nat 0) with 0. rewrite Z.pow_0_r, Z.mod_1_r. reflexivity.
  - rewrite be_val_snoc, IHk, Nat2Z.inj_succ, Z.pow_succ_r by lia.
    rewrite Z.rem_mul_r by lia. lia.
Qed.
Lemma be_bytes_be_val l : byte_list l -> be_bytes (length l) (be_val l) = l.
Proof.
  induction l as [|b l IH] using rev_ind; intros H; [reflexivity|].
  apply byte_list_app in H as [H Hb]. apply byte_list_cons in Hb as [Hb _].
  rewrite app_length. cbn [length]. rewrite Nat.add_1_r. cbn [be_bytes]. rewrite be_val_snoc.
  rewrite Z.div_add_l, Z.div_small, Z.add_0_r by lia. rewrite IH by assumption.
  rewrite Z.add_comm, Z_mod_plus_full, Z.mod_small by lia. reflexivity.
Qed.
Lemma be_bytes_unique k l v : length l = k -> byte_list l -> be_val l = v -> l = be_bytes k v.
Proof. intros <- H <-. symmetry. now apply be_bytes_be_val. Qed.
Lemma be_val_inj l1 l2 : length l1 = length l2 -> byte_list l1 -> byte_list l2 -> be_val l1 = be_val l2 -> l1 = l2.
Proof. intros HL H1 H2 E. rewrite <- (be_bytes_be_val l1), <- (be_bytes_be_val l2), HL, E by assumption. reflexivity. Qed.
Lemma be_bytes_inj k u v : 0 <= u < 256 ^ Z.of_nat k -> 0 <= v < 256 ^ Z.of_nat k -> be_bytes k u = be_bytes k v -> u = v.
Proof.
  intros Hu Hv E. rewrite <- (Z.mod_small u (256 ^ Z.of_nat k)), <- (Z.mod_small v (256 ^ Z.of_nat k)) by assumption.
  rewrite <- !be_val_be_bytes. now f_equal.
Qed.

(** 32-byte strings. *)
Lemma be_val_32 l : byte_list l -> length l = 32%nat -> 0 <= be_val l < 2 ^ 256.
Proof. intros H HL. pose proof (be_val_range l H) as R. rewrite HL in R. exact R. Qed.
Lemma be_bytes_32_val v : 0 <= v < 2 ^ 256 -> be_val (be_bytes 32 v) = v.
Proof. intros H. rewrite be_val_be_bytes. apply Z.mod_small. exact H. Qed.

Lemma skipn_add {A} (a b : nat) (l : list A) : skipn a (skipn b l) = skipn (b + a) l.
Proof.
  revert l. induction b as [|b IH]; intros l; [reflexivity|]. destruct l; cbn [skipn Nat.add]; [apply skipn_nil|apply IH].
Qed.
Lemma firstn_skipn_app {A} (l : list A) i j : firstn i l ++ firstn j (skipn i l) = firstn (i + j) l.
Proof.
  revert l. induction i as [|i IH]; intros l; [reflexivity|].
  destruct l; cbn [firstn skipn Nat.add app]; [now rewrite firstn_nil|]. now rewrite IH.
Qed.
