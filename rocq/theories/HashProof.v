(** The SHA-256 model computes FIPS 180-4 SHA-256, for any split of the message
    into writes; HMAC and the RFC 6979 generator follow. *)
Require Import ZArith List Bool Lia Arith.
From Coq Require Import ZifyBool ZifyNat.
From Verif Require Import Word Spec SpecHash Bytes HashModel.
Import ListNotations.
Local Open Scope Z_scope.

Definition word (x : Z) : Prop := 0 <= x < 2 ^ 32.

Lemma compl_ldiff x : word x -> 2 ^ 32 - 1 - x = Z.ldiff (Z.ones 32) x.
Proof.
  intros Hx. change (2 ^ 32 - 1) with (Z.ones 32). apply Z.sub_nocarry_ldiff.
  rewrite Z.ldiff_ones_r by lia. rewrite Z.shiftr_div_pow2 by lia.
  rewrite Z.div_small by exact Hx. apply Z.shiftl_0_l.
Qed.
Lemma word_high x i : word x -> 32 <= i -> Z.testbit x i = false.
Proof.
  intros Hx Hi. rewrite <- (Z.mod_small x (2 ^ 32)) by exact Hx.
  apply Z.mod_pow2_bits_high. lia.
Qed.
Lemma ch_eq x y z : word x -> word y -> word z -> cCh x y z = sCh x y z.
Proof.
  intros Hx Hy Hz. unfold cCh, sCh. rewrite compl_ldiff by exact Hx.
  apply Z.bits_inj'. intros i Hi.
  rewrite !Z.lxor_spec, !Z.land_spec, !Z.lxor_spec, Z.ldiff_spec.
  destruct (Z_lt_ge_dec i 32).
  - rewrite Z.ones_spec_low by lia.
    destruct (Z.testbit x i), (Z.testbit y i), (Z.testbit z i); reflexivity.
  - rewrite Z.ones_spec_high by lia. rewrite (word_high x), (word_high y), (word_high z) by (assumption || lia). reflexivity.
Qed.
Lemma maj_eq x y z : cMaj x y z = sMaj x y z.
Proof.
  unfold cMaj, sMaj. apply Z.bits_inj'. intros i Hi.
  rewrite Z.lor_spec, !Z.lxor_spec, !Z.land_spec, Z.lor_spec.
  destruct (Z.testbit x i), (Z.testbit y i), (Z.testbit z i); reflexivity.
Qed.
Lemma S0_eq x : cSigma0 x = bSigma0 x. Proof. reflexivity. Qed.
Lemma S1_eq x : cSigma1 x = bSigma1 x. Proof. reflexivity. Qed.
Lemma s0_eq x : csigma0 x = lsigma0 x. Proof. reflexivity. Qed.
Lemma s1_eq x : csigma1 x = lsigma1 x. Proof. reflexivity. Qed.
Lemma K_eq : c_K = sha_K. Proof. reflexivity. Qed.

Lemma w32_eq x : w32 x = x mod 2 ^ 32. Proof. reflexivity. Qed.
Lemma word_w32 x : word (w32 x). Proof. apply w32_range. Qed.
Lemma word_mod x : word (x mod 2 ^ 32). Proof. apply Z.mod_pos_bound. reflexivity. Qed.

(** ** Rounds *)
Definition view (t : nat) (regs : list Z) : sha_state :=
  S8 (reg t 0 regs) (reg t 1 regs) (reg t 2 regs) (reg t 3 regs)
     (reg t 4 regs) (reg t 5 regs) (reg t 6 regs) (reg t 7 regs).

Lemma len8 {A} (l : list A) : length l = 8%nat -> exists a b c d e f g h, l = [a; b; c; d; e; f; g; h].
Proof.
  intros H. do 8 (destruct l as [|? l]; [discriminate H|]). destruct l; [|discriminate H].
  repeat eexists.
Qed.
Lemma upd_length {A} (v : A) l : forall i, length (upd i v l) = length l.
Proof. induction l as [|x l IH]; intros [|i]; cbn; auto. Qed.
Lemma upd_Forall {A} (P : A -> Prop) (v : A) l : forall i, P v -> Forall P l -> Forall P (upd i v l).
Proof.
  induction l as [|x l IH]; intros [|i] Hv H; cbn; auto; inversion H; subst; constructor; auto.
Qed.
Lemma nth_word l i : Forall word l -> word (nth i l 0).
Proof.
  intros H. destruct (Nat.lt_ge_cases i (length l)).
  - apply (proj1 (Forall_nth word l) H). exact H0.
  - rewrite nth_overflow by exact H0. split; [lia|reflexivity].
Qed.

Lemma lt_cases (P : nat -> Prop) (k : nat) : Forall P (seq 0 k) -> forall t, (t < k)%nat -> P t.
Proof. intros H t Ht. rewrite Forall_forall in H. apply H. apply in_seq. lia. Qed.

Lemma view_step X Y regs : length regs = 8%nat -> forall t, (t < 64)%nat ->
  view (S t) (upd (reg_idx t 7) X (upd (reg_idx t 3) Y regs)) =
  S8 X (reg t 0 regs) (reg t 1 regs) (reg t 2 regs) Y (reg t 4 regs) (reg t 5 regs) (reg t 6 regs).
Proof.
  intros HL. destruct (len8 _ HL) as (a & b & c & d & e & f & g & h & ->).
  apply lt_cases. cbn [seq]. repeat (constructor; [reflexivity|]). constructor.
Qed.

Lemma add_mod_l a b : w32 (w32 a + b) = (a + b) mod 2 ^ 32.
Proof. unfold w32. apply Z.add_mod_idemp_l. discriminate. Qed.
Lemma add_mod_l' a b : (w32 a + b) mod 2 ^ 32 = (a + b) mod 2 ^ 32.
Proof. apply add_mod_l. Qed.

Lemma w32_add a b : w32 (w32 a + b) = w32 (a + b).
Proof. apply add_mod_l. Qed.
Lemma sum5 a b c d e : w32 (w32 (w32 (w32 (a + b) + c) + d) + e) = (a + b + c + d + e) mod 2 ^ 32.
Proof. rewrite (w32_add (a + b) c), (w32_add (a + b + c) d), (w32_add (a + b + c + d) e). reflexivity. Qed.
Lemma sum4 x a b c : w32 (x + w32 (w32 (a + b) + c)) = (a + b + c + x) mod 2 ^ 32.
Proof. rewrite Z.add_comm, (w32_add (a + b) c), (w32_add (a + b + c) x). reflexivity. Qed.

Lemma c_round_ok t k w regs : (t < 64)%nat -> length regs = 8%nat -> Forall word regs ->
  view (S t) (c_round t k w regs) = sha_round (view t regs) (k, w) /\
  length (c_round t k w regs) = 8%nat /\ Forall word (c_round t k w regs).
Proof.
  intros Ht HL HW. unfold c_round.
  split; [|split].
  - rewrite view_step by assumption. unfold view, sha_round.
    rewrite S1_eq, S0_eq, maj_eq. rewrite ch_eq by (apply nth_word; assumption).
    rewrite (sum5 (reg t 7 regs) (bSigma1 (reg t 4 regs))). reflexivity.
  - now rewrite !upd_length.
  - apply upd_Forall; [apply word_w32|]. apply upd_Forall; [apply word_w32|]. exact HW.
Qed.

(** ** Reading words *)
Lemma read_be32_ok buf i : byte_list buf -> (i + 4 <= length buf)%nat ->
  read_be32 buf i = be_val (firstn 4 (skipn i buf)).
Proof.
  intros HB HL.
  assert (E : exists a b c d r, skipn i buf = a :: b :: c :: d :: r).
  { pose proof (skipn_length i buf) as Hs. destruct (skipn i buf) as [|a [|b [|c [|d r]]]]; cbn in Hs; try lia.
    repeat eexists. }
  destruct E as (a & b & c & d & r & E).
  pose proof (byte_list_skipn i buf HB) as HS. rewrite E in *.
  assert (N : forall j, nth (i + j) buf 0 = nth j (skipn i buf) 0).
  { intros j. clear. revert buf. induction i as [|i IH]; intros buf; [reflexivity|]. destruct buf; [now destruct j|]. apply IH. }
  unfold read_be32, byte_at. rewrite <- (Nat.add_0_r i) at 1. rewrite !N, E. cbn [nth].
  rewrite !byte_list_cons in HS. destruct HS as (Ha & Hb & Hc & Hd & _).
  cbn [firstn]. unfold be_val. cbn [be_val_acc].
  rewrite (w32_id (Z.shiftl a 24)) by (rewrite Z.shiftl_mul_pow2; lia).
  rewrite (w32_id (Z.shiftl b 16)) by (rewrite Z.shiftl_mul_pow2; lia).
  rewrite (w32_id (Z.shiftl c 8)) by (rewrite Z.shiftl_mul_pow2; lia).
  rewrite !Z.shiftl_mul_pow2 by lia.
  replace (b * 2 ^ 16) with (b * 2 ^ 16) by reflexivity.
  rewrite (lor_disjoint' (b * 2 ^ 16) a 24) by lia.
  replace (b * 2 ^ 16 + a * 2 ^ 24) with ((b + a * 2 ^ 8) * 2 ^ 16) by lia.
  rewrite (lor_disjoint' (c * 2 ^ 8) _ 16) by lia.
  replace (c * 2 ^ 8 + (b + a * 2 ^ 8) * 2 ^ 16) with ((c + b * 2 ^ 8 + a * 2 ^ 16) * 2 ^ 8) by lia.
  rewrite (lor_disjoint' d _ 8) by lia. lia.
Qed.
Lemma be_words_read k : forall i buf, byte_list buf -> (4 * i + 4 * k <= length buf)%nat ->
  be_words k (skipn (4 * i) buf) = map (fun t => read_be32 buf (4 * t)) (seq i k).
Proof.
  induction k as [|k IH]; intros i buf HB HL; [reflexivity|].
  cbn [be_words seq map]. rewrite read_be32_ok by (assumption || lia). f_equal.
  rewrite skipn_add. replace (4 * i + 4)%nat with (4 * S i)%nat by lia. apply IH; [assumption|lia].
Qed.
Lemma be_words_ok buf : byte_list buf -> length buf = 64%nat ->
  be_words 16 buf = map (fun t => read_be32 buf (4 * t)) (seq 0 16).
Proof. intros HB HL. apply (be_words_read 16 0 buf HB). lia. Qed.
Lemma read_be32_word buf i : byte_list buf -> (i + 4 <= length buf)%nat -> word (read_be32 buf i).
Proof.
  intros HB HL. rewrite read_be32_ok by assumption.
  pose proof (be_val_range (firstn 4 (skipn i buf)) (byte_list_firstn _ _ (byte_list_skipn _ _ HB))) as H.
  rewrite firstn_length_le in H by (rewrite skipn_length; lia). exact H.
Qed.

(** ** The two loops *)
Lemma skipn_nth (l : list Z) : forall t, (t < length l)%nat -> skipn t l = nth t l 0 :: skipn (S t) l.
Proof.
  induction l as [|x l IH]; intros t H; cbn in H; [lia|].
  destruct t; [reflexivity|]. apply IH. lia.
Qed.
Lemma rounds_read_ok k : forall t buf regs, (t + k <= 64)%nat -> length regs = 8%nat -> Forall word regs ->
  view (t + k) (rounds_read k t buf regs) =
    fold_left sha_round (combine (firstn k (skipn t sha_K)) (map (fun t => read_be32 buf (4 * t)) (seq t k))) (view t regs) /\
  length (rounds_read k t buf regs) = 8%nat /\ Forall word (rounds_read k t buf regs).
Proof.
  induction k as [|k IH]; intros t buf regs Ht HL HW.
  - rewrite Nat.add_0_r. cbn. auto.
  - cbn [rounds_read]. destruct (c_round_ok t (nth t c_K 0) (read_be32 buf (4 * t)) regs ltac:(lia) HL HW) as (V & L & W).
    destruct (IH (S t) buf _ ltac:(lia) L W) as (V' & L' & W').
    split; [|auto]. replace (t + S k)%nat with (S t + k)%nat by lia. rewrite V', V.
    rewrite (skipn_nth sha_K t) by (change (length sha_K) with 64%nat; lia).
    rewrite K_eq. reflexivity.
Qed.

Definition window (t : nat) (w : list Z) : list Z := map (fun j => nth (Nat.modulo (t + 15 - j) 16) w 0) (seq 0 16).

Lemma len16 {A} (l : list A) : length l = 16%nat -> exists a b c d e f g h a' b' c' d' e' f' g' h',
  l = [a; b; c; d; e; f; g; h; a'; b'; c'; d'; e'; f'; g'; h'].
Proof.
  intros H. do 16 (destruct l as [|? l]; [discriminate H|]). destruct l; [|discriminate H].
  repeat eexists.
Qed.
Lemma window_step X w : length w = 16%nat -> forall t, (t < 64)%nat ->
  window (S t) (upd (Nat.modulo t 16) X w) = X :: firstn 15 (window t w) /\
  nth (Nat.modulo t 16) (upd (Nat.modulo t 16) X w) 0 = X /\
  nth (Nat.modulo t 16) w 0 = nth 15 (window t w) 0 /\
  nth (Nat.modulo (t + 14) 16) w 0 = nth 1 (window t w) 0 /\
  nth (Nat.modulo (t + 9) 16) w 0 = nth 6 (window t w) 0 /\
  nth (Nat.modulo (t + 1) 16) w 0 = nth 14 (window t w) 0.
Proof.
  intros HL. destruct (len16 _ HL) as (a & b & c & d & e & f & g & h & a' & b' & c' & d' & e' & f' & g' & h' & ->).
  apply lt_cases. cbn [seq]. repeat (constructor; [repeat split|]). constructor.
Qed.

Fixpoint new_Ws (k : nat) (w : list Z) : list Z :=
  match k with O => [] | S k' => next_W w :: new_Ws k' (next_W w :: w) end.
Lemma extend_new k : forall w, extend_W k w = rev (new_Ws k w) ++ w.
Proof.
  induction k as [|k IH]; intros w; [reflexivity|]. cbn [extend_W new_Ws rev]. rewrite IH, <- app_assoc. reflexivity.
Qed.
Lemma next_W_firstn w : next_W (firstn 16 w) = next_W w.
Proof.
  assert (H : forall i, (i < 16)%nat -> nth i (firstn 16 w) 0 = nth i w 0).
  { intros i Hi. rewrite <- (firstn_skipn 16 w) at 2. destruct (Nat.lt_ge_cases i (length (firstn 16 w))).
    - now rewrite app_nth1.
    - rewrite app_nth2 by assumption. rewrite (nth_overflow (firstn 16 w)) by assumption.
      rewrite skipn_all2; [now destruct (i - length (firstn 16 w))%nat|].
      rewrite firstn_length in H. lia. }
  unfold next_W. rewrite !H by lia. reflexivity.
Qed.

Lemma rounds_sched_ok k : forall t w regs wr, (t + k <= 64)%nat -> length regs = 8%nat -> Forall word regs ->
  length w = 16%nat -> firstn 16 wr = window t w ->
  view (t + k) (rounds_sched k t w regs) =
    fold_left sha_round (combine (firstn k (skipn t sha_K)) (new_Ws k wr)) (view t regs) /\
  length (rounds_sched k t w regs) = 8%nat /\ Forall word (rounds_sched k t w regs).
Proof.
  induction k as [|k IH]; intros t w regs wr Ht HL HW Hw HR.
  - rewrite Nat.add_0_r. cbn. auto.
  - cbn [rounds_sched new_Ws].
    assert (HN : nth (Nat.modulo t 16) (w_update t w) 0 = next_W wr /\
                 firstn 16 (next_W wr :: wr) = window (S t) (w_update t w) /\ length (w_update t w) = 16%nat).
    { unfold w_update.
      match goal with |- context [upd _ ?X w] => destruct (window_step X w Hw t ltac:(lia)) as (A1 & A2 & A3 & A4 & A5 & A6) end.
      split; [|split].
      - rewrite A2. rewrite <- next_W_firstn, HR. unfold next_W. rewrite A3, A4, A5, A6, s0_eq, s1_eq.
        apply sum4.
      - rewrite A1. change (firstn 16 (next_W wr :: wr)) with (next_W wr :: firstn 15 wr).
        f_equal.
        + symmetry. rewrite <- next_W_firstn, HR. unfold next_W. rewrite A3, A4, A5, A6, s0_eq, s1_eq.
          apply sum4.
        + rewrite <- HR, firstn_firstn. reflexivity.
      - now rewrite upd_length. }
    destruct HN as (N1 & N2 & N3). rewrite N1.
    destruct (c_round_ok t (nth t c_K 0) (next_W wr) regs ltac:(lia) HL HW) as (V & L & W).
    destruct (IH (S t) _ _ _ ltac:(lia) L W N3 N2) as (V' & L' & W').
    split; [|auto]. replace (t + S k)%nat with (S t + k)%nat by lia. rewrite V', V.
    rewrite (skipn_nth sha_K t) by (change (length sha_K) with 64%nat; lia).
    rewrite K_eq. reflexivity.
Qed.

(** ** The compression function *)
Definition st_of (s : list Z) : sha_state := view 0 s.
Lemma view64 s : view 64 s = view 0 s. Proof. reflexivity. Qed.

Lemma combine_app {A B} (l1 l2 : list A) (m1 m2 : list B) : length l1 = length m1 ->
  combine (l1 ++ l2) (m1 ++ m2) = combine l1 m1 ++ combine l2 m2.
Proof.
  revert m1. induction l1 as [|x l1 IH]; intros [|y m1] H; try discriminate H; [reflexivity|].
  cbn. f_equal. apply IH. now injection H.
Qed.

Lemma transform_ok s buf : length s = 8%nat -> Forall word s -> byte_list buf -> length buf = 64%nat ->
  st_of (sha256_transform s buf) = compress (st_of s) buf /\
  length (sha256_transform s buf) = 8%nat /\ Forall word (sha256_transform s buf).
Proof.
  intros HL HW HB HBL. unfold sha256_transform.
  destruct (rounds_read_ok 16 0 buf s ltac:(lia) HL HW) as (V1 & L1 & W1).
  set (ws := map (fun t => read_be32 buf (4 * t)) (seq 0 16)) in *.
  assert (Lw : length ws = 16%nat) by (unfold ws; now rewrite map_length, seq_length).
  assert (HR : firstn 16 (rev ws) = window 16 ws).
  { clearbody ws. destruct (len16 _ Lw) as (a & b & c & d & e & f & g & h & a' & b' & c' & d' & e' & f' & g' & h' & ->). reflexivity. }
  destruct (rounds_sched_ok 48 16 ws (rounds_read 16 0 buf s) (rev ws) ltac:(lia) L1 W1 Lw HR) as (V2 & L2 & W2).
  set (r1 := rounds_read 16 0 buf s) in *. set (r2 := rounds_sched 48 16 ws r1) in *.
  clearbody r2 r1. change (16 + 48)%nat with 64%nat in V2. change (0 + 16)%nat with 16%nat in V1.
  rewrite view64 in V2. change (view 0 r2) with (st_of r2) in V2. change (view 0 s) with (st_of s) in V1.
  assert (E : fold_left sha_round (combine sha_K (schedule buf)) (st_of s) = st_of r2).
  { rewrite V2, V1.
    unfold schedule. rewrite extend_new, (be_words_ok buf HB HBL). fold ws.
    rewrite rev_app_distr, !rev_involutive.
    assert (EK : sha_K = firstn 16 (skipn 0 sha_K) ++ firstn 48 (skipn 16 sha_K)) by reflexivity.
    rewrite EK at 1. rewrite combine_app by (rewrite Lw; reflexivity).
    rewrite fold_left_app. reflexivity. }
  unfold compress. rewrite E. clear - L2 HL.
  destruct (len8 _ HL) as (a & b & c & d & e & f & g & h & ->).
  destruct (len8 _ L2) as (a' & b' & c' & d' & e' & f' & g' & h' & ->).
  split; [reflexivity|]. split; [reflexivity|].
  cbn [combine map fst snd]. repeat (constructor; [apply word_w32|]). constructor.
Qed.

(** ** Streaming *)
Definition Inv (s buf : list Z) (k : nat) (pre tail : list Z) : Prop :=
  length pre = (64 * k)%nat /\ (length tail < 64)%nat /\
  st_of s = fold_left compress (take_blocks k pre) IV /\
  firstn (length tail) buf = tail /\ length buf = 64%nat /\ byte_list buf /\
  length s = 8%nat /\ Forall word s.

Lemma take_blocks_snoc k : forall pre b, length pre = (64 * k)%nat -> length b = 64%nat ->
  take_blocks (S k) (pre ++ b) = take_blocks k pre ++ [b].
Proof.
  induction k as [|k IH]; intros pre b HP Hb.
  - destruct pre; [|cbn in HP; lia]. cbn [take_blocks app]. rewrite firstn_all2 by lia. reflexivity.
  - change (take_blocks (S (S k)) (pre ++ b)) with (firstn 64 (pre ++ b) :: take_blocks (S k) (skipn 64 (pre ++ b))).
    rewrite firstn_app, skipn_app.
    replace (64 - length pre)%nat with 0%nat by lia. rewrite firstn_O, skipn_O, app_nil_r.
    rewrite IH; [reflexivity| rewrite skipn_length; lia|exact Hb].
Qed.

Lemma copy_at_length off d buf : (off + length d <= length buf)%nat -> length (copy_at off d buf) = length buf.
Proof. intros H. unfold copy_at. rewrite !app_length, firstn_length, skipn_length. lia. Qed.
Lemma copy_at_bytes off d buf : byte_list d -> byte_list buf -> byte_list (copy_at off d buf).
Proof.
  intros Hd Hb. unfold copy_at. rewrite !byte_list_app. split; [apply byte_list_firstn; exact Hb|].
  split; [exact Hd|apply byte_list_skipn; exact Hb].
Qed.
Lemma copy_at_firstn off d buf : (off + length d <= length buf)%nat ->
  firstn (off + length d) (copy_at off d buf) = firstn off buf ++ d.
Proof.
  intros H. unfold copy_at. rewrite app_assoc, firstn_app.
  rewrite app_length, firstn_length_le by lia. rewrite Nat.sub_diag, firstn_O, app_nil_r.
  rewrite firstn_all2; [reflexivity|]. rewrite app_length, firstn_length_le; lia.
Qed.

Lemma write_loop_ok fuel : forall s buf k pre tail data, Inv s buf k pre tail -> byte_list data ->
  (length data < fuel)%nat ->
  exists s' buf' k' pre' tail' data',
    sha256_write_loop fuel s buf (length tail) data = (s', buf', length tail', data') /\
    Inv s' buf' k' pre' tail' /\ pre ++ tail ++ data = pre' ++ tail' ++ data' /\
    (length tail' + length data' < 64)%nat /\ byte_list data'.
Proof.
  induction fuel as [|fuel IH]; intros s buf k pre tail data HI HD HF; [lia|].
  cbn [sha256_write_loop]. pose proof HI as (HP & HT & HS & HB & HBL & HBB & HSL & HSW).
  destruct (Nat.leb_spec (64 - length tail) (length data)) as [Hle|Hlt].
  - set (c := firstn (64 - length tail) data).
    assert (Lc : length c = (64 - length tail)%nat) by (unfold c; rewrite firstn_length_le; lia).
    assert (Hc : byte_list c) by (apply byte_list_firstn; exact HD).
    set (buf1 := copy_at (length tail) c buf).
    assert (L1 : length buf1 = 64%nat) by (unfold buf1; rewrite copy_at_length; lia).
    assert (B1 : byte_list buf1) by (apply copy_at_bytes; assumption).
    assert (E1 : buf1 = tail ++ c).
    { pose proof (copy_at_firstn (length tail) c buf ltac:(lia)) as E. fold buf1 in E.
      rewrite HB in E. rewrite firstn_all2 in E by lia. exact E. }
    destruct (transform_ok s buf1 HSL HSW B1 L1) as (T1 & T2 & T3).
    assert (HI' : Inv (sha256_transform s buf1) buf1 (S k) (pre ++ buf1) []).
    { split; [rewrite app_length; lia|]. split; [cbn; lia|]. split; [|auto 10].
      rewrite T1, HS, take_blocks_snoc by assumption. rewrite fold_left_app. reflexivity. }
    destruct (IH _ buf1 _ _ _ (skipn (64 - length tail) data) HI' (byte_list_skipn _ _ HD)
                ltac:(rewrite skipn_length; lia)) as (s' & buf' & k' & pre' & tail' & data' & A1 & A2 & A3 & A4 & A5).
    exists s', buf', k', pre', tail', data'. split; [exact A1|]. split; [exact A2|]. split; [|auto].
    rewrite <- A3, E1, <- app_assoc, app_nil_l, <- app_assoc. unfold c. rewrite firstn_skipn. reflexivity.
  - exists s, buf, k, pre, tail, data. split; [reflexivity|]. split; [exact HI|]. split; [reflexivity|]. split; [lia|exact HD].
Qed.

(** [sha_at h m]: the state [h] has absorbed the message [m]. *)
Definition sha_at (h : sha256) (m : list Z) : Prop :=
  (exists k pre tail, m = pre ++ tail /\ Inv (sh_s h) (sh_buf h) k pre tail) /\
  sh_bytes h = w64 (Z.of_nat (length m)).

Lemma initialize_at : sha_at sha256_initialize [].
Proof.
  split; [|reflexivity]. exists 0%nat, [], []. split; [reflexivity|].
  split; [reflexivity|]. split; [cbn; lia|]. split; [reflexivity|]. split; [reflexivity|]. split; [reflexivity|].
  split; [apply byte_list_repeat; lia|]. split; [reflexivity|].
  cbn [sh_s sha256_initialize]. repeat (constructor; [split; [lia|reflexivity]|]). constructor.
Qed.

Lemma land63_w64 x : 0 <= x -> Z.land (w64 x) 0x3F = x mod 64.
Proof.
  intros Hx. change 0x3F with (2 ^ 6 - 1). rewrite land_ones_mod by lia. unfold w64.
  change (2 ^ 6) with 64. change (2 ^ 64) with (64 * 2 ^ 58).
  rewrite Z.rem_mul_r by lia. rewrite Z.mul_comm, Z.mod_add by lia. apply Z.mod_mod. lia.
Qed.

Lemma write_at h m data : sha_at h m -> byte_list data -> sha_at (sha256_write h data) (m ++ data).
Proof.
  intros [(k & pre & tail & -> & HI) HB] HD. unfold sha256_write.
  assert (E : Z.to_nat (Z.land (sh_bytes h) 0x3F) = length tail).
  { rewrite HB, land63_w64 by lia. destruct HI as (HP & HT & _).
    rewrite app_length, HP, Nat2Z.inj_add, Nat2Z.inj_mul. change (Z.of_nat 64) with 64.
    rewrite Z.mul_comm, Z.add_comm, Z.mod_add, Z.mod_small by lia. lia. }
  rewrite E.
  destruct (write_loop_ok (S (length data)) _ _ _ _ _ data HI HD ltac:(lia)) as (s' & buf' & k' & pre' & tail' & data' & A1 & A2 & A3 & A4 & A5).
  rewrite A1. destruct A2 as (HP & HT & HS & HF & HBL & HBB & HSL & HSW).
  split.
  - exists k', pre', (tail' ++ data'). split; [rewrite <- app_assoc; exact A3|].
    split; [exact HP|]. split; [rewrite app_length; exact A4|]. split; [exact HS|].
    cbn [sh_s sh_buf].
    destruct (Nat.eqb_spec (length data') 0) as [H0|H0].
    + destruct data'; [|discriminate H0]. rewrite app_nil_r. auto 10.
    + split; [rewrite app_length, copy_at_firstn by lia; now rewrite HF|].
      split; [rewrite copy_at_length; lia|]. split; [apply copy_at_bytes; assumption|]. auto.
  - cbn [sh_bytes]. rewrite HB. unfold w64. rewrite Z.add_mod_idemp_l by discriminate.
    f_equal. rewrite !app_length. lia.
Qed.

Lemma write_be32_ok x : write_be32 x = be_bytes 4 x.
Proof.
  unfold write_be32, w8. rewrite !shiftr_div by lia. cbn [be_bytes app].
  rewrite !Z.div_div by lia. reflexivity.
Qed.
Lemma be_bytes_app a b v : be_bytes (a + b) v = be_bytes a (v / 256 ^ Z.of_nat b) ++ be_bytes b v.
Proof.
  revert v. induction b as [|b IH]; intros v.
  - rewrite Nat.add_0_r. cbn [be_bytes]. rewrite app_nil_r. change (256 ^ Z.of_nat 0) with 1. now rewrite Z.div_1_r.
  - rewrite Nat.add_succ_r. cbn [be_bytes]. rewrite IH, app_assoc. f_equal. f_equal. f_equal.
    rewrite Z.div_div by lia. f_equal. rewrite Nat2Z.inj_succ, Z.pow_succ_r; lia.
Qed.
Lemma be_bytes_mod k v : be_bytes k (v mod 256 ^ Z.of_nat k) = be_bytes k v.
Proof.
  symmetry. apply be_bytes_unique; [apply be_bytes_length|apply be_bytes_byte_list|apply be_val_be_bytes].
Qed.

Lemma state_bytes_ok s : length s = 8%nat -> flat_map write_be32 s = state_bytes (st_of s).
Proof.
  intros HL. destruct (len8 _ HL) as (a & b & c & d & e & f & g & h & ->).
  cbn [flat_map]. rewrite !write_be32_ok, app_nil_r. reflexivity.
Qed.

Lemma firstn_repeat (x : Z) k : forall j, (j <= k)%nat -> firstn j (repeat x k) = repeat x j.
Proof. induction k as [|k IH]; intros [|j] H; try reflexivity; [lia|]. cbn. f_equal. apply IH. lia. Qed.

Theorem finalize_ok h m : sha_at h m -> Z.of_nat (length m) < 2 ^ 61 ->
  sha256_finalize h = SHA256 m.
Proof.
  intros HA HLen. unfold sha256_finalize.
  pose proof (proj2 HA) as HB. rewrite w64_id in HB by lia.
  set (len := Z.of_nat (length m)) in *.
  set (sz := write_be32 _ ++ write_be32 _).
  assert (Esz : sz = be_bytes 8 (8 * len)).
  { unfold sz. rewrite !write_be32_ok, HB.
    change 8%nat with (4 + 4)%nat. rewrite be_bytes_app. f_equal.
    - rewrite shiftr_div by lia.
      rewrite w32_id by (split; [apply Z.div_pos; lia|apply Z.div_lt_upper_bound; lia]).
      f_equal. change (256 ^ Z.of_nat 4) with (8 * 2 ^ 29). rewrite Z.div_mul_cancel_l by lia. reflexivity.
    - rewrite Z.shiftl_mul_pow2 by lia. rewrite w64_id by lia. change (2 ^ 3) with 8. rewrite Z.mul_comm.
      change (w32 (8 * len)) with ((8 * len) mod 256 ^ Z.of_nat 4). apply be_bytes_mod. }
  rewrite HB. set (pl := Z.to_nat (1 + _)).
  assert (Epl : pl = S (Z.to_nat ((55 - len) mod 64))).
  { unfold pl. rewrite Zminus_mod_idemp_r. replace (119 - len) with (55 - len + 1 * 64) by lia. rewrite Z.mod_add by lia.
    pose proof (Z.mod_pos_bound (55 - len) 64). lia. }
  assert (Ep : firstn pl (0x80 :: repeat 0 63) = 0x80 :: repeat 0 (Z.to_nat ((55 - len) mod 64))).
  { rewrite Epl. cbn [firstn]. f_equal. apply firstn_repeat. pose proof (Z.mod_pos_bound (55 - len) 64). lia. }
  rewrite Ep.
  assert (Hp : byte_list (0x80 :: repeat 0 (Z.to_nat ((55 - len) mod 64)))).
  { rewrite byte_list_cons. split; [lia|]. apply byte_list_repeat. lia. }
  pose proof (write_at _ _ _ HA Hp) as HA1.
  assert (Hs : byte_list sz) by (rewrite Esz; apply be_bytes_byte_list).
  pose proof (write_at _ _ _ HA1 Hs) as HA2.
  set (h2 := sha256_write _ sz) in *.
  assert (EM : (m ++ 0x80 :: repeat 0 (Z.to_nat ((55 - len) mod 64))) ++ sz = sha_pad m).
  { rewrite Esz, <- app_assoc. reflexivity. }
  rewrite EM in HA2. destruct HA2 as [(k & pre & tail & E & HP & HT & HS & _ & _ & _ & HSL & _) _].
  rewrite state_bytes_ok, HS by exact HSL. unfold SHA256. do 2 f_equal.
  assert (HL : (Z.of_nat (length (sha_pad m))) mod 64 = 0).
  { unfold sha_pad. rewrite !app_length, repeat_length, be_bytes_length. fold len. cbn [length].
    rewrite !Nat2Z.inj_add. fold len. rewrite Z2Nat.id by (apply Z.mod_pos_bound; lia).
    change (Z.of_nat 1) with 1. change (Z.of_nat 8) with 8.
    replace (len + (1 + ((55 - len) mod 64 + 8))) with ((55 - len) mod 64 + (len + 9)) by lia.
    rewrite Z.add_mod_idemp_l by lia. replace (55 - len + (len + 9)) with 64 by lia. reflexivity. }
  assert (T0 : tail = []).
  { rewrite E, app_length, HP, Nat2Z.inj_add, Nat2Z.inj_mul in HL. change (Z.of_nat 64) with 64 in HL.
    rewrite Z.mul_comm, Z.add_comm, Z.mod_add, Z.mod_small in HL by lia. destruct tail; [reflexivity|cbn in HL; lia]. }
  rewrite E, T0, app_nil_r. unfold blocks. rewrite HP, Nat.mul_comm, Nat.div_mul by lia. reflexivity.
Qed.

Lemma SHA256_length m : length (SHA256 m) = 32%nat.
Proof. unfold SHA256. destruct (fold_left _ _ _). cbn [state_bytes]. rewrite !app_length, !be_bytes_length. reflexivity. Qed.
Lemma SHA256_bytes m : byte_list (SHA256 m).
Proof.
  unfold SHA256. destruct (fold_left _ _ _). cbn [state_bytes]. rewrite !byte_list_app.
  repeat (split; [apply be_bytes_byte_list|]). apply be_bytes_byte_list.
Qed.

(** Any sequence of writes. *)
Lemma writes_at chunks : forall h m, sha_at h m -> Forall byte_list chunks ->
  sha_at (fold_left sha256_write chunks h) (m ++ concat chunks).
Proof.
  induction chunks as [|c l IH]; intros h m HA HC; cbn [fold_left concat].
  - rewrite app_nil_r. exact HA.
  - inversion HC; subst. rewrite app_assoc. apply IH; [apply write_at; assumption|assumption].
Qed.

Lemma tagged_at tag : byte_list tag -> Z.of_nat (length tag) < 2 ^ 61 ->
  sha_at (sha256_initialize_tagged tag) (SHA256 tag ++ SHA256 tag).
Proof.
  intros HT HL. unfold sha256_initialize_tagged.
  assert (E : sha256_finalize (sha256_write sha256_initialize tag) = SHA256 tag).
  { apply finalize_ok; [|exact HL]. apply (write_at _ [] tag initialize_at HT). }
  rewrite E. apply (write_at _ (SHA256 tag)); [|apply SHA256_bytes].
  apply (write_at _ [] (SHA256 tag) initialize_at). apply SHA256_bytes.
Qed.

(** A midstate constant: the state after absorbing one 64-byte block. *)
Lemma midstate_at s buf (m : list Z) : length m = 64%nat -> length s = 8%nat -> Forall word s ->
  length buf = 64%nat -> byte_list buf -> st_of s = compress IV m -> sha_at (mksha s buf 64) m.
Proof.
  intros Hm HL HW HB HBB HS. split.
  - exists 1%nat, m, []. split; [now rewrite app_nil_r|].
    split; [exact Hm|]. split; [cbn; lia|]. split; [|auto 10].
    cbn [sh_s take_blocks fold_left]. rewrite firstn_all2 by lia. exact HS.
  - rewrite Hm. reflexivity.
Qed.

(** ** HMAC *)
Lemma lxor_byte a b : 0 <= a < 256 -> 0 <= b < 256 -> 0 <= Z.lxor a b < 256.
Proof.
  intros Ha Hb. split; [apply Z.lxor_nonneg; lia|].
  destruct (Z.eq_dec (Z.lxor a b) 0) as [->|H]; [lia|].
  change 256 with (2 ^ 8). apply Z.log2_lt_pow2; [pose proof (proj2 (Z.lxor_nonneg a b)); lia|].
  eapply Z.le_lt_trans; [apply Z.log2_lxor; lia|].
  assert (forall x, 0 <= x < 256 -> Z.log2 x < 8).
  { intros x Hx. destruct (Z.eq_dec x 0) as [->|]; [reflexivity|]. apply Z.log2_lt_pow2; lia. }
  apply Z.max_lub_lt; auto.
Qed.
Lemma byte_list_map_lxor c l : 0 <= c < 256 -> byte_list l -> byte_list (map (Z.lxor c) l).
Proof.
  intros Hc H. unfold byte_list in *. rewrite Forall_map. eapply Forall_impl; [|exact H].
  intros a Ha. apply lxor_byte; assumption.
Qed.

Definition hmac_at (h : hmac_sha256) (key m : list Z) : Prop :=
  sha_at (hm_inner h) (map (Z.lxor 0x36) (hmac_key key) ++ m) /\
  sha_at (hm_outer h) (map (Z.lxor 0x5c) (hmac_key key)).

Lemma hmac_key_bytes key : byte_list key -> byte_list (hmac_key key).
Proof.
  intros H. unfold hmac_key. rewrite byte_list_app. split; [|apply byte_list_repeat; lia].
  destruct (64 <? _); [apply SHA256_bytes|exact H].
Qed.
Lemma hmac_key_length key : length (hmac_key key) = 64%nat.
Proof.
  unfold hmac_key. rewrite app_length, repeat_length. destruct (Z.ltb_spec 64 (Z.of_nat (length key))).
  - rewrite SHA256_length. reflexivity.
  - lia.
Qed.

Lemma hmac_init_at key : byte_list key -> Z.of_nat (length key) < 2 ^ 61 -> hmac_at (hmac_initialize key) key [].
Proof.
  intros HK HL. unfold hmac_initialize.
  assert (E : (if Nat.leb (length key) 64 then key ++ repeat 0 (64 - length key)
               else sha256_finalize (sha256_write sha256_initialize key) ++ repeat 0 32) = hmac_key key).
  { unfold hmac_key. destruct (Nat.leb_spec (length key) 64), (Z.ltb_spec 64 (Z.of_nat (length key))); try lia.
    - reflexivity.
    - rewrite (finalize_ok _ key); [|apply (write_at _ [] key initialize_at HK)|exact HL].
      rewrite SHA256_length. reflexivity. }
  rewrite E. rewrite map_map.
  assert (E1 : map (fun b => Z.lxor b 0x5c) (hmac_key key) = map (Z.lxor 0x5c) (hmac_key key)).
  { apply map_ext. intros. apply Z.lxor_comm. }
  assert (E2 : map (fun x => Z.lxor (Z.lxor x 0x5c) (Z.lxor 0x5c 0x36)) (hmac_key key) = map (Z.lxor 0x36) (hmac_key key)).
  { apply map_ext. intros a. rewrite Z.lxor_assoc, Z.lxor_comm. f_equal. }
  rewrite E1, E2. split; cbn [hm_inner hm_outer].
  - rewrite app_nil_r. apply (write_at _ [] _ initialize_at). apply byte_list_map_lxor; [lia|]. now apply hmac_key_bytes.
  - apply (write_at _ [] _ initialize_at). apply byte_list_map_lxor; [lia|]. now apply hmac_key_bytes.
Qed.
Lemma hmac_write_at h key m d : hmac_at h key m -> byte_list d -> hmac_at (hmac_write h d) key (m ++ d).
Proof. intros [H1 H2] Hd. split; [|exact H2]. rewrite app_assoc. apply write_at; assumption. Qed.
Lemma hmac_finalize_ok h key m : hmac_at h key m -> Z.of_nat (length m) < 2 ^ 61 - 64 ->
  hmac_finalize h = HMAC key m.
Proof.
  intros [H1 H2] HL. unfold hmac_finalize, HMAC.
  rewrite (finalize_ok _ _ H1) by (rewrite app_length, map_length, hmac_key_length; lia).
  apply finalize_ok.
  - apply write_at; [exact H2|apply SHA256_bytes].
  - rewrite app_length, map_length, hmac_key_length, SHA256_length. reflexivity.
Qed.
Lemma HMAC_length k m : length (HMAC k m) = 32%nat. Proof. apply SHA256_length. Qed.
Lemma HMAC_bytes k m : byte_list (HMAC k m). Proof. apply SHA256_bytes. Qed.

Lemma hmac1 k v : byte_list k -> length k = 32%nat -> byte_list v -> length v = 32%nat ->
  hmac_finalize (hmac_write (hmac_initialize k) v) = HMAC k v.
Proof.
  intros Hk Lk Hv Lv. apply hmac_finalize_ok; [|rewrite Lv; reflexivity].
  apply (hmac_write_at _ _ [] v); [|exact Hv]. apply hmac_init_at; [exact Hk|rewrite Lk; reflexivity].
Qed.

(** ** RFC 6979 *)
Definition kv_ok (KV : list Z * list Z) : Prop :=
  byte_list (fst KV) /\ length (fst KV) = 32%nat /\ byte_list (snd KV) /\ length (snd KV) = 32%nat.
Lemma update_kv K V d t : kv_ok (drbg_update K V d t).
Proof. unfold drbg_update. split; [apply HMAC_bytes|]. split; [apply HMAC_length|]. split; [apply HMAC_bytes|apply HMAC_length]. Qed.

Lemma model_update k v d t : kv_ok (k, v) -> 0 <= t < 256 -> byte_list d -> Z.of_nat (length d) < 2 ^ 60 ->
  hmac_finalize (hmac_write (hmac_write (hmac_write (hmac_initialize k) v) [t]) d) = fst (drbg_update k v d t) /\
  hmac_finalize (hmac_write (hmac_initialize (fst (drbg_update k v d t))) v) = snd (drbg_update k v d t).
Proof.
  intros (Hk & Lk & Hv & Lv) Ht Hd Ld. cbn [fst snd] in *. unfold drbg_update. cbn [fst snd]. split.
  - apply hmac_finalize_ok; [|rewrite !app_length, Lv; cbn [length]; lia].
    assert (A : hmac_at (hmac_write (hmac_write (hmac_write (hmac_initialize k) v) [t]) d) k (((([] ++ v) ++ [t])) ++ d)).
    { apply hmac_write_at; [|exact Hd]. apply hmac_write_at.
      - apply hmac_write_at; [|exact Hv]. apply hmac_init_at; [exact Hk|rewrite Lk; reflexivity].
      - rewrite byte_list_cons. split; [exact Ht|apply byte_list_nil]. }
    rewrite app_nil_l, <- app_assoc in A. exact A.
  - apply hmac1; [apply HMAC_bytes|apply HMAC_length|exact Hv|exact Lv].
Qed.

Lemma rfc_init_ok seed : byte_list seed -> Z.of_nat (length seed) < 2 ^ 60 ->
  rfc6979_initialize seed = mkrng (snd (drbg_init seed)) (fst (drbg_init seed)) false.
Proof.
  intros Hs Ls. unfold rfc6979_initialize, drbg_init.
  assert (K0 : kv_ok (repeat 0 32, repeat 1 32)).
  { split; [apply byte_list_repeat; lia|]. split; [reflexivity|]. split; [apply byte_list_repeat; lia|reflexivity]. }
  destruct (model_update _ _ seed 0 K0 ltac:(lia) Hs Ls) as [U1 U2]. cbv zeta. rewrite U1, U2.
  pose proof (update_kv (repeat 0 32) (repeat 1 32) seed 0) as K1.
  destruct (drbg_update (repeat 0 32) (repeat 1 32) seed 0) as [k v]. cbn [fst snd] in *.
  destruct (model_update _ _ seed 1 K1 ltac:(lia) Hs Ls) as [U3 U4]. rewrite U3, U4. reflexivity.
Qed.

Lemma rfc6979_loop_S fuel v k outlen out : rfc6979_loop (S fuel) v k outlen out =
  if Nat.eqb outlen 0 then (v, out)
  else rfc6979_loop fuel (hmac_finalize (hmac_write (hmac_initialize k) v)) k (outlen - Nat.min outlen 32)
         (out ++ firstn (Nat.min outlen 32) (hmac_finalize (hmac_write (hmac_initialize k) v))).
Proof. reflexivity. Qed.
Lemma rfc6979_loop_32 v k : rfc6979_loop 33 v k 32 [] =
  (hmac_finalize (hmac_write (hmac_initialize k) v), firstn 32 (hmac_finalize (hmac_write (hmac_initialize k) v))).
Proof.
  rewrite rfc6979_loop_S. change (Nat.eqb 32 0) with false. cbn iota.
  change (32 - Nat.min 32 32)%nat with 0%nat. change (Nat.min 32 32) with 32%nat.
  rewrite rfc6979_loop_S. change (Nat.eqb 0 0) with true. cbn iota. rewrite app_nil_l. reflexivity.
Qed.
Definition rng_kv (r : rfc6979) : list Z * list Z := (rng_k r, rng_v r).
Lemma generate_ok r : kv_ok (rng_kv r) ->
  let KV := if rng_retry r then drbg_retry (rng_kv r) else rng_kv r in
  rfc6979_generate r 32 = (mkrng (snd (drbg_block KV)) (fst KV) true, snd (drbg_block KV)) /\ kv_ok KV.
Proof.
  intros HK. destruct r as [v k rt]. unfold rng_kv, rfc6979_generate in *. cbn [rng_k rng_v rng_retry] in *.
  set (k1 := if rt then _ else k). set (v1 := if rt then hmac_finalize (hmac_write (hmac_initialize k1) v) else v).
  assert (E : (k1, v1) = if rt then drbg_retry (k, v) else (k, v)).
  { unfold v1, k1. destruct rt; [|reflexivity]. unfold drbg_retry.
    destruct HK as (Hk & Lk & Hv & Lv). cbn [fst snd] in *.
    assert (E1 : hmac_finalize (hmac_write (hmac_write (hmac_initialize k) v) [0]) = HMAC k (v ++ [0] ++ [])).
    { rewrite app_nil_r. apply hmac_finalize_ok; [|rewrite app_length, Lv; reflexivity].
      apply (hmac_write_at _ _ v [0]).
      - apply (hmac_write_at _ _ [] v); [|exact Hv]. apply hmac_init_at; [exact Hk|rewrite Lk; reflexivity].
      - rewrite byte_list_cons. split; [lia|apply byte_list_nil]. }
    rewrite E1. rewrite hmac1; [reflexivity|apply HMAC_bytes|apply HMAC_length|exact Hv|exact Lv]. }
  cbv zeta. rewrite <- E.
  assert (KV1 : kv_ok (k1, v1)).
  { rewrite E. destruct rt; [apply update_kv|exact HK]. }
  split; [|exact KV1]. clearbody k1 v1. destruct KV1 as (Hk & Lk & Hv & Lv). cbn [fst snd drbg_block] in *.
  rewrite rfc6979_loop_32. rewrite (hmac1 k1 v1) by assumption.
  cbn iota beta. rewrite firstn_all2 by (rewrite HMAC_length; lia). reflexivity.
Qed.

Lemma block_kv KV : kv_ok KV -> kv_ok (drbg_block KV).
Proof.
  destruct KV as [K V]. intros (? & ? & ? & ?). split; [assumption|]. split; [assumption|].
  split; [apply HMAC_bytes|apply HMAC_length].
Qed.
Lemma generate_step r KV b : rng_kv r = KV -> rng_retry r = b -> kv_ok KV ->
  let KV' := drbg_block (if b then drbg_retry KV else KV) in
  snd (rfc6979_generate r 32) = snd KV' /\ rng_kv (fst (rfc6979_generate r 32)) = KV' /\
  rng_retry (fst (rfc6979_generate r 32)) = true /\ kv_ok KV'.
Proof.
  intros <- <- HK. destruct (generate_ok r HK) as [G1 G2]. cbv zeta. rewrite G1.
  generalize dependent (if rng_retry r then drbg_retry (rng_kv r) else rng_kv r). intros [K V] _ G2.
  split; [reflexivity|]. split; [reflexivity|]. split; [reflexivity|]. apply block_kv. exact G2.
Qed.

(** The generator after seeding and [k + 1] requests of 32 bytes. *)
Fixpoint rng_nth (k : nat) (r : rfc6979) : rfc6979 * list Z :=
  match k with O => rfc6979_generate r 32 | S k' => rfc6979_generate (fst (rng_nth k' r)) 32 end.
Lemma rng_nth_S k r : rng_nth (S k) r = rfc6979_generate (fst (rng_nth k r)) 32. Proof. reflexivity. Qed.
Lemma rng_nth_0 r : rng_nth 0 r = rfc6979_generate r 32. Proof. reflexivity. Qed.
Lemma drbg_state_S k seed : drbg_state (S k) seed = drbg_block (drbg_retry (drbg_state k seed)). Proof. reflexivity. Qed.
Lemma drbg_state_0 seed : drbg_state 0 seed = drbg_block (drbg_init seed). Proof. reflexivity. Qed.
Lemma rng_nth_ok seed k : byte_list seed -> Z.of_nat (length seed) < 2 ^ 60 ->
  snd (rng_nth k (rfc6979_initialize seed)) = RFC6979 k seed /\
  rng_kv (fst (rng_nth k (rfc6979_initialize seed))) = drbg_state k seed /\
  rng_retry (fst (rng_nth k (rfc6979_initialize seed))) = true /\ kv_ok (drbg_state k seed).
Proof.
  intros Hs Ls. unfold RFC6979. induction k as [|k IH].
  - rewrite rng_nth_0, drbg_state_0, (rfc_init_ok seed Hs Ls).
    assert (K0 : kv_ok (drbg_init seed)) by (unfold drbg_init; destruct (drbg_update _ _ seed 0); apply update_kv).
    destruct (drbg_init seed) as [K V].
    apply (generate_step (mkrng V K false) (K, V) false eq_refl eq_refl K0).
  - destruct IH as (_ & I2 & I3 & I4). rewrite rng_nth_S, drbg_state_S.
    apply (generate_step _ _ true I2 I3 I4).
Qed.

(** Known answers: SHA-256 of "abc" and of the empty string. *)
Example SHA256_abc : SHA256 [97; 98; 99] =
  be_bytes 32 0xba7816bf8f01cfea414140de5dae2223b00361a396177a9cb410ff61f20015ad.
Proof. vm_compute. reflexivity. Qed.
