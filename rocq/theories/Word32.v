(** 32-bit machine words: operators that wrap modulo 2^32, and a tactic that shows
    a straight-line computation on words free of overflow. *)
Require Import ZArith List Bool Lia.
From Verif Require Import Word.
Local Open Scope Z_scope.
Local Open Scope c_scope.

Declare Scope c32_scope.
Notation "a +% b" := (w32 (a + b)) (at level 50, left associativity) : c32_scope.
Notation "a -% b" := (w32 (a - b)) (at level 50, left associativity) : c32_scope.
Notation "a *% b" := (w32 (a * b)) (at level 40, left associativity) : c32_scope.
Notation "a <<% k" := (w32 (Z.shiftl a k)) (at level 55, left associativity) : c32_scope.
Local Open Scope c32_scope.

(** Sequencing of assignments in long straight-line code: [let! x := v in k] is
    [let x := v in k].  As a constant it keeps the kernel from expanding every
    assignment into its uses. *)
Definition let_ {A B : Type} (v : A) (k : A -> B) : B := k v.
Notation "'let!' x := v 'in' k" := (let_ v (fun x => k))
  (at level 200, x name, v at level 200, k at level 200, right associativity).
Lemma let_elim {A B : Type} (v : A) (k : A -> B) r : let_ v k = r -> exists y, y = v /\ k y = r.
Proof. intros H. exists v. now split. Qed.
Ltac letb_step H :=
  lazymatch type of H with
  | let_ ?v (fun x => _) = _ =>
    let y := fresh x in let E := fresh "E" y in
    apply let_elim in H; destruct H as (y & E & H); cbv beta in H
  end.
Ltac letb_steps H := repeat letb_step H.

(** [~x] on uint32_t. *)
Definition not32 (x : Z) : Z := 2 ^ 32 - 1 - x.

(** The conditional-move idiom on uint32_t (for example src/field_10x26_impl.h:1018-1020):
    mask0 = flag + ~0; mask1 = ~mask0; (r & mask0) | (a & mask1). *)
Definition cmov32 (r a flag : Z) : Z :=
  let mask0 := w32 (flag + (2 ^ 32 - 1)) in
  let mask1 := not32 mask0 in
  (r &! mask0) |! (a &! mask1).

Lemma cmov32_spec r a flag : 0 <= r < 2 ^ 32 -> 0 <= a < 2 ^ 32 -> flag = 0 \/ flag = 1 ->
  cmov32 r a flag = if flag =? 0 then r else a.
Proof.
  intros Hr Ha [-> | ->]; unfold cmov32.
  - change (w32 (0 + (2 ^ 32 - 1))) with (2 ^ 32 - 1). change (not32 (2 ^ 32 - 1)) with 0.
    rewrite Z.land_0_r, Z.lor_0_r, land_ones_mod by lia. now apply Z.mod_small.
  - change (w32 (1 + (2 ^ 32 - 1))) with 0. change (not32 0) with (2 ^ 32 - 1).
    rewrite Z.land_0_r, Z.lor_0_l, land_ones_mod by lia. now apply Z.mod_small.
Qed.

(** ** Interval propagation: [ib e v B] says the machine value [e] is the integer [v], in [0, B]. *)
Definition ib (e v B : Z) : Prop := e = v /\ 0 <= v <= B.

Lemma ib_var x B : 0 <= x <= B -> ib x x B.
Proof. now split. Qed.
Lemma ib_add64 a b u v A B : ib a u A -> ib b v B -> (A + B <? 2 ^ 64) = true -> ib (w64 (a + b)) (u + v) (A + B).
Proof. intros [-> HA] [-> HB] H. apply Z.ltb_lt in H. split; [apply w64_id; lia|lia]. Qed.
Lemma ib_add32 a b u v A B : ib a u A -> ib b v B -> (A + B <? 2 ^ 32) = true -> ib (w32 (a + b)) (u + v) (A + B).
Proof. intros [-> HA] [-> HB] H. apply Z.ltb_lt in H. split; [apply w32_id; lia|lia]. Qed.
Lemma ib_prod u v A B : 0 <= u <= A -> 0 <= v <= B -> 0 <= u * v <= A * B.
Proof. intros. nia. Qed.
Lemma ib_mul64 a b u v A B : ib a u A -> ib b v B -> (A * B <? 2 ^ 64) = true -> ib (w64 (a * b)) (u * v) (A * B).
Proof.
  intros [-> HA] [-> HB] H. apply Z.ltb_lt in H. pose proof (ib_prod u v A B HA HB).
  split; [apply w64_id; lia|lia].
Qed.
Lemma ib_mul32 a b u v A B : ib a u A -> ib b v B -> (A * B <? 2 ^ 32) = true -> ib (w32 (a * b)) (u * v) (A * B).
Proof.
  intros [-> HA] [-> HB] H. apply Z.ltb_lt in H. pose proof (ib_prod u v A B HA HB).
  split; [apply w32_id; lia|lia].
Qed.
Lemma ib_w32 a u A : ib a u A -> (A <? 2 ^ 32) = true -> ib (w32 a) u A.
Proof. intros [-> HA] H. apply Z.ltb_lt in H. split; [apply w32_id; lia|lia]. Qed.
Lemma ib_shl32 a u A k : ib a u A -> (0 <=? k) && (A * 2 ^ k <? 2 ^ 32) = true -> ib (w32 (Z.shiftl a k)) (u * 2 ^ k) (A * 2 ^ k).
Proof.
  intros [-> HA] H. apply andb_prop in H as [H1 H]. apply Z.ltb_lt in H. apply Z.leb_le in H1.
  assert (0 < 2 ^ k) by (apply Z.pow_pos_nonneg; lia).
  rewrite Z.shiftl_mul_pow2 by lia. split; [apply w32_id; nia|nia].
Qed.
(** A shift that may lose high bits. *)
Lemma ib_shl32_trunc a u A k : ib a u A -> (0 <=? k) && (k <=? 32) = true ->
  ib (w32 (Z.shiftl a k)) ((u mod 2 ^ (32 - k)) * 2 ^ k) ((2 ^ (32 - k) - 1) * 2 ^ k).
Proof.
  intros [-> HA] H. apply andb_prop in H as [H1 H]. apply Z.leb_le in H, H1.
  assert (0 < 2 ^ k) by (apply Z.pow_pos_nonneg; lia).
  assert (0 < 2 ^ (32 - k)) by (apply Z.pow_pos_nonneg; lia).
  rewrite Z.shiftl_mul_pow2 by lia. unfold w32.
  replace (2 ^ 32) with (2 ^ (32 - k) * 2 ^ k) by (rewrite <- Z.pow_add_r by lia; f_equal; lia).
  rewrite Zmult_mod_distr_r. pose proof (Z.mod_pos_bound u (2 ^ (32 - k)) ltac:(lia)). split; [reflexivity|nia].
Qed.
Lemma ib_shl64 a u A k : ib a u A -> (0 <=? k) && (A * 2 ^ k <? 2 ^ 64) = true -> ib (w64 (Z.shiftl a k)) (u * 2 ^ k) (A * 2 ^ k).
Proof.
  intros [-> HA] H. apply andb_prop in H as [H1 H]. apply Z.ltb_lt in H. apply Z.leb_le in H1.
  assert (0 < 2 ^ k) by (apply Z.pow_pos_nonneg; lia).
  rewrite Z.shiftl_mul_pow2 by lia. split; [apply w64_id; nia|nia].
Qed.
Lemma ib_shr a u A k : ib a u A -> (0 <=? k) = true -> ib (Z.shiftr a k) (u / 2 ^ k) (A / 2 ^ k).
Proof.
  intros [-> HA] H. apply Z.leb_le in H. assert (0 < 2 ^ k) by (apply Z.pow_pos_nonneg; lia).
  rewrite shiftr_div by lia. split; [reflexivity|]. split; [apply Z.div_pos; lia|apply Z.div_le_mono; lia].
Qed.
(** Masking with 2^k - 1. *)
Lemma ib_and a u A m k : ib a u A -> (0 <=? k) && (m =? 2 ^ k - 1) = true -> ib (Z.land a m) (u mod 2 ^ k) m.
Proof.
  intros [-> HA] H. apply andb_prop in H as [H1 H2]. apply Z.leb_le in H1. apply Z.eqb_eq in H2. subst m.
  assert (0 < 2 ^ k) by (apply Z.pow_pos_nonneg; lia).
  rewrite land_ones_mod by lia. pose proof (Z.mod_pos_bound u (2 ^ k) ltac:(lia)). split; [reflexivity|lia].
Qed.
(** Joining disjoint bit fields. *)
Lemma ib_lor a b u v A B k : ib a u A -> ib b (v * 2 ^ k) B -> (0 <=? k) && (A <? 2 ^ k) = true ->
  ib (Z.lor a b) (u + v * 2 ^ k) (A + B).
Proof.
  intros [-> HA] [-> HB] H. apply andb_prop in H as [H1 H2]. apply Z.leb_le in H1. apply Z.ltb_lt in H2.
  split; [apply lor_disjoint; lia|lia].
Qed.
Lemma ib_lor' a b u v A B k : ib b u A -> ib a (v * 2 ^ k) B -> (0 <=? k) && (A <? 2 ^ k) = true ->
  ib (Z.lor a b) (u + v * 2 ^ k) (A + B).
Proof. intros H1 H2 H3. rewrite Z.lor_comm. now apply ib_lor. Qed.
Lemma ib_elim x e v B : x = e -> ib e v B -> x = v /\ 0 <= x <= B.
Proof. intros -> [-> H]. now split. Qed.

Lemma ib_shl_and a u A k m j : ib a u A -> (0 <=? k) && (k <=? j) && (j <=? 32) && (m =? 2 ^ j - 1) = true ->
  ib (Z.land (w32 (Z.shiftl a k)) m) ((u mod 2 ^ (j - k)) * 2 ^ k) ((2 ^ (j - k) - 1) * 2 ^ k).
Proof.
  intros [-> HA] H. apply andb_prop in H as [H H4]. apply andb_prop in H as [H H3]. apply andb_prop in H as [H1 H2].
  apply Z.leb_le in H1, H2, H3. apply Z.eqb_eq in H4. subst m.
  assert (0 < 2 ^ k) by (apply Z.pow_pos_nonneg; lia).
  assert (0 < 2 ^ j) by (apply Z.pow_pos_nonneg; lia).
  assert (0 < 2 ^ (j - k)) by (apply Z.pow_pos_nonneg; lia).
  rewrite land_ones_mod by lia. rewrite Z.shiftl_mul_pow2 by lia. unfold w32.
  replace (2 ^ 32) with (2 ^ j * 2 ^ (32 - j)) by (rewrite <- Z.pow_add_r by lia; f_equal; lia).
  rewrite Z.rem_mul_r by (lia || (apply Z.pow_pos_nonneg; lia)).
  rewrite (Z.mul_comm (2 ^ j)), Z_mod_plus_full, Zmod_mod.
  replace (2 ^ j) with (2 ^ (j - k) * 2 ^ k) by (rewrite <- Z.pow_add_r by lia; f_equal; lia).
  rewrite Zmult_mod_distr_r. pose proof (Z.mod_pos_bound u (2 ^ (j - k)) ltac:(lia)). split; [reflexivity|nia].
Qed.
Lemma ib_cst c : (0 <=? c) = true -> ib c c c.
Proof. intros H. apply Z.leb_le in H. split; [reflexivity|lia]. Qed.

(** [ibt e] builds the proof of [ib e _ _]; variables need a hypothesis [0 <= x <= B]. *)
Ltac ibt e :=
  lazymatch e with
  | w64 (?a + ?b) => let p := ibt a in let q := ibt b in constr:(ib_add64 _ _ _ _ _ _ p q eq_refl)
  | w64 (?a * ?b) => let p := ibt a in let q := ibt b in constr:(ib_mul64 _ _ _ _ _ _ p q eq_refl)
  | w32 (?a + ?b) => let p := ibt a in let q := ibt b in constr:(ib_add32 _ _ _ _ _ _ p q eq_refl)
  | w32 (?a * ?b) => let p := ibt a in let q := ibt b in constr:(ib_mul32 _ _ _ _ _ _ p q eq_refl)
  | w32 (Z.shiftl ?a ?k) => let p := ibt a in
      match goal with
      | _ => constr:(ib_shl32 _ _ _ k p eq_refl)
      | _ => constr:(ib_shl32_trunc _ _ _ k p eq_refl)
      end
  | w64 (Z.shiftl ?a ?k) => let p := ibt a in constr:(ib_shl64 _ _ _ k p eq_refl)
  | w32 ?a => let p := ibt a in constr:(ib_w32 _ _ _ p eq_refl)
  | Z.shiftr ?a ?k => let p := ibt a in constr:(ib_shr _ _ _ k p eq_refl)
  | Z.lor ?a (w32 (Z.shiftl ?b ?k)) =>
      let p := ibt a in let q := ibt (w32 (Z.shiftl b k)) in constr:(ib_lor _ _ _ _ _ _ k p q eq_refl)
  | Z.lor (w32 (Z.shiftl ?b ?k)) ?a =>
      let p := ibt a in let q := ibt (w32 (Z.shiftl b k)) in constr:(ib_lor' _ _ _ _ _ _ k p q eq_refl)
  | Z.lor ?a (Z.land (w32 (Z.shiftl ?b ?k)) ?m) =>
      let p := ibt a in let q := ibt (Z.land (w32 (Z.shiftl b k)) m) in constr:(ib_lor _ _ _ _ _ _ k p q eq_refl)
  | Z.land (w32 (Z.shiftl ?b ?k)) ?m =>
      let j := eval vm_compute in (Z.log2 m + 1) in let p := ibt b in constr:(ib_shl_and _ _ _ k m j p eq_refl)
  | Z.land ?a ?m => let k := eval vm_compute in (Z.log2 m + 1) in let p := ibt a in constr:(ib_and _ _ _ m k p eq_refl)
  | _ => match goal with
         | H : 0 <= e <= _ |- _ => constr:(ib_var _ _ H)
         | _ => let t := isZcst e in lazymatch t with true => constr:(ib_cst e eq_refl) end
         | _ => let c := eval vm_compute in e in
                let t := isZcst c in lazymatch t with true => constr:(ib_cst c eq_refl : ib e c c) end
         end
  end.
Ltac norm_ub H :=
  match type of H with 0 <= ?x <= ?B => let B' := eval vm_compute in B in change (0 <= x <= B') in H end.
(** Turns [E : x = e] into [E : x = v] with [v] free of wrap-around, and bounds [x]. *)
Ltac ib_step E :=
  lazymatch type of E with ?x = ?e =>
    let p := ibt e in let T := fresh in let B := fresh "B" x in
    pose proof (ib_elim x e _ _ E p) as T; clear E; destruct T as [E B]; norm_ub B
  end.
(** Splits [x] into high and low part when the code takes [x >> k] and [x & (2^k - 1)]. *)
Lemma split_b x X k : 0 <= x <= X -> (0 <=? k) = true -> exists q r, x = q * 2 ^ k + r /\
  Z.shiftr x k = q /\ Z.land x (2 ^ k - 1) = r /\ 0 <= r <= 2 ^ k - 1 /\ 0 <= q <= X / 2 ^ k.
Proof.
  intros H Hk. apply Z.leb_le in Hk. destruct (split_word x k) as (q & r & E & Hr & Hq & E1 & E2); [lia|lia|].
  exists q, r. assert (0 < 2 ^ k) by (apply Z.pow_pos_nonneg; lia).
  repeat split; try assumption; try lia.
  rewrite <- E1, shiftr_div by lia. apply Z.div_le_mono; lia.
Qed.
