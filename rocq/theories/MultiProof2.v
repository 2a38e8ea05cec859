(** Pippenger's algorithm computes the linear combination. *)
Require Import ZArith List Bool Lia.
From Verif Require Import Word Bytes Spec ZmField Curve FieldModel FieldMul FieldProof FieldProof2 FieldBytes FieldOps ScalarModel ScalarProof ScalarProof2 ScalarSplit
  GroupModel GroupProof GroupProof2 GroupProof3 GroupProof4 GroupProof5 Endo HashModel EcmultModel WnafProof NumTheory Primes EcmultProof EcmultProof2 ScratchModel MultiModel MultiProof NField.
Import ListNotations.
Local Open Scope Z_scope.

(** ** Buckets *)
Definition brep (bs : list gej) (xs : list Z) : Prop := Forall2 (fun b x => gej_rep f1 b (K x)) bs xs.
(** Weighted sums: weights c, c + 2, ... and c, c + 1, ... *)
Fixpoint wsum (c : Z) (xs : list Z) : Z := match xs with [] => 0 | x :: r => c * x + wsum (c + 2) r end.
Fixpoint isum (c : Z) (xs : list Z) : Z := match xs with [] => 0 | x :: r => c * x + isum (c + 1) r end.
Definition sum (xs : list Z) : Z := fold_right Z.add 0 xs.
Lemma wsum_isum xs : forall c, wsum (2 * c + 1) xs = 2 * isum c xs + sum xs.
Proof. induction xs as [|x r IH]; intros c; cbn [wsum isum sum fold_right]; [reflexivity|]. replace (2 * c + 1 + 2) with (2 * (c + 1) + 1) by ring. rewrite IH. unfold sum. ring. Qed.
Lemma isum_succ xs : forall c, isum (c + 1) xs = isum c xs + sum xs.
Proof. induction xs as [|x r IH]; intros c; cbn [isum sum fold_right]; [reflexivity|]. rewrite IH. unfold sum. ring. Qed.
Lemma wsum_upd k xs : forall c i, (i < length xs)%nat -> wsum c (upd i (nth i xs 0 + k) xs) = wsum c xs + (c + 2 * Z.of_nat i) * k.
Proof.
  induction xs as [|x r IH]; intros c i H; [cbn in H; lia|]. destruct i as [|i]; cbn [upd nth wsum].
  - change (Z.of_nat 0) with 0. ring.
  - rewrite IH by (cbn in H; lia). rewrite Nat2Z.inj_succ. ring.
Qed.
Lemma brep_len bs xs : brep bs xs -> length bs = length xs.
Proof. induction 1; cbn [length]; congruence. Qed.
Lemma brep_nth bs xs : brep bs xs -> forall i, gej_rep f1 (nth i bs gej_infinity) (K (nth i xs 0)).
Proof. induction 1 as [|b x bs xs H _ IH]; intros [|i]; cbn [nth]; try apply gej_infinity_rep; auto. Qed.
Lemma brep_upd bs xs : brep bs xs -> forall i b x, gej_rep f1 b (K x) -> brep (upd i b bs) (upd i x xs).
Proof. induction 1 as [|b0 x0 bs xs H T IH]; intros [|i] b x R; cbn [upd]; constructor; auto. now apply IH. Qed.
Lemma bucket_add_ok bs xs idx p k : brep bs xs -> 0 <= idx < Z.of_nat (length bs) -> ge_rep f1 p (K k) ->
  exists bs' xs', bucket_add bs idx p = Some bs' /\ brep bs' xs' /\ length bs' = length bs /\ wsum 1 xs' = wsum 1 xs + (1 + 2 * idx) * k.
Proof.
  intros B I R. unfold bucket_add. replace ((0 <=? idx) && (idx <? Z.of_nat (length bs))) with true by (symmetry; apply andb_true_intro; split; [apply Z.leb_le|apply Z.ltb_lt]; lia).
  eexists. exists (upd (Z.to_nat idx) (nth (Z.to_nat idx) xs 0 + k) xs). split; [reflexivity|]. split; [|split].
  - apply brep_upd; [exact B|]. rewrite <- K_add. apply (gej_add_ge_var_ok f1 _ _ _ _ f1_nz (brep_nth _ _ B _) R).
  - apply upd_len.
  - rewrite wsum_upd by (rewrite <- (brep_len _ _ B); lia). rewrite Z2Nat.id by lia. reflexivity.
Qed.
Lemma ge_neg_K p k : ge_rep f1 p (K k) -> ge_rep f1 (ge_neg p) (K (- k)).
Proof. intros R. rewrite <- K_neg. now apply ge_neg_ok. Qed.

(** ** Entries: the point [K k] and the number [v] its digits and skew stand for *)
Definition entry_rep (bw : Z) (e : pip_entry) (kv : Z * Z) : Prop :=
  ge_rep f1 (pe_pt e) (K (fst kv)) /\ (pe_skew e = 0 \/ pe_skew e = 1) /\ Z.of_nat (length (pe_wnaf e)) = wnaf_size (bw + 1) /\ Forall (fdig (bw + 1)) (pe_wnaf e) /\
  fval (bw + 1) (pe_wnaf e) = snd kv + pe_skew e.
(** The digit with the skew taken into account. *)
Definition dig (e : pip_entry) (i : nat) : Z := nth i (pe_wnaf e) 0 - match i with O => pe_skew e | _ => 0 end.
Lemma quot2 x : 0 <= x -> Z.quot (2 * x) 2 = x.
Proof. intros X. rewrite Z.quot_div_nonneg by lia. rewrite Z.mul_comm. apply Z.div_mul. discriminate. Qed.
Lemma pip_fill1_ok bw e kv i bs xs : 1 <= bw <= 12 -> entry_rep bw e kv -> brep bs xs -> Z.of_nat (length bs) = 2 ^ bw ->
  exists bs' xs', pip_fill1 i e bs = Some bs' /\ brep bs' xs' /\ length bs' = length bs /\ wsum 1 xs' = wsum 1 xs + dig e i * fst kv.
Proof.
  intros W (RP & RS & RL & RD & RV) B LB. assert (PW : 2 <= 2 ^ bw) by (change 2 with (2 ^ 1) at 1; apply Z.pow_le_mono_r; lia).
  assert (FD : fdig (bw + 1) (nth i (pe_wnaf e) 0)).
  { destruct (Nat.lt_ge_cases i (length (pe_wnaf e))) as [H|H]; [|left; now apply nth_overflow]. rewrite Forall_forall in RD. apply RD, nth_In, H. }
  unfold pip_fill1.
  assert (F : exists bs1 xs1, (match i with O => if negb (pe_skew e =? 0) then bucket_add bs 0 (ge_neg (pe_pt e)) else Some bs | Datatypes.S _ => Some bs end) = Some bs1 /\
    brep bs1 xs1 /\ length bs1 = length bs /\ wsum 1 xs1 = wsum 1 xs - match i with O => pe_skew e | _ => 0 end * fst kv).
  { destruct i as [|i]; [|exists bs, xs; repeat split; [exact B|lia]]. destruct RS as [->| ->]; cbn [Z.eqb negb].
    - exists bs, xs. repeat split; [exact B|lia].
    - destruct (bucket_add_ok bs xs 0 _ _ B ltac:(lia) (ge_neg_K _ _ RP)) as (b & x & E & R & L & V). exists b, x. repeat split; try assumption. rewrite V. ring. }
  destruct F as (bs1 & xs1 & -> & B1 & L1 & V1). unfold dig. set (d := nth i (pe_wnaf e) 0) in *. clearbody d.
  assert (E2 : 2 ^ (bw + 1) = 2 * 2 ^ bw) by (rewrite Z.pow_add_r by lia; change (2 ^ 1) with 2; ring).
  destruct FD as [->|[O R]].
  - cbn [Z.gtb Z.ltb Z.compare]. exists bs1, xs1. repeat split; try assumption. rewrite V1. ring.
  - apply Z.odd_spec in O. destruct O as [m ->]. rewrite E2 in R. destruct (Z.gtb_spec (2 * m + 1) 0) as [G|G].
    + replace (2 * m + 1 - 1) with (2 * m) by ring. rewrite quot2 by lia.
      destruct (bucket_add_ok bs1 xs1 m _ _ B1 ltac:(lia) RP) as (b & x & E & R' & L & V). exists b, x. repeat split; [exact E|exact R'|congruence|]. rewrite V, V1. ring.
    + replace (2 * m + 1 <? 0) with true by (symmetry; apply Z.ltb_lt; lia). replace (- (2 * m + 1 + 1)) with (2 * (- m - 1)) by ring. rewrite quot2 by lia.
      destruct (bucket_add_ok bs1 xs1 (- m - 1) _ _ B1 ltac:(lia) (ge_neg_K _ _ RP)) as (b & x & E & R' & L & V). exists b, x. repeat split; [exact E|exact R'|congruence|]. rewrite V, V1. ring.
Qed.
(** Sum over the entries of the point's logarithm times a number that depends on the entry. *)
Fixpoint esum (f : pip_entry -> Z) (es : list pip_entry) (kvs : list (Z * Z)) : Z :=
  match es, kvs with e :: es', kv :: kvs' => f e * fst kv + esum f es' kvs' | _, _ => 0 end.
Lemma pip_fill_ok bw i : 1 <= bw <= 12 -> forall es kvs, Forall2 (entry_rep bw) es kvs -> forall bs xs, brep bs xs -> Z.of_nat (length bs) = 2 ^ bw ->
  exists bs' xs', pip_fill i es bs = Some bs' /\ brep bs' xs' /\ length bs' = length bs /\ wsum 1 xs' = wsum 1 xs + esum (fun e => dig e i) es kvs.
Proof.
  intros W es kvs F. induction F as [|e kv es kvs H _ IH]; intros bs xs B L; cbn [pip_fill esum].
  - exists bs, xs. repeat split; [exact B|lia].
  - destruct (pip_fill1_ok bw e kv i bs xs W H B L) as (b1 & x1 & -> & B1 & L1 & V1). destruct (IH b1 x1 B1 ltac:(lia)) as (b2 & x2 & E & B2 & L2 & V2).
    exists b2, x2. repeat split; [exact E|exact B2|congruence|]. rewrite V2, V1. ring.
Qed.
Lemma pip_sum_ok down ys : brep down ys -> forall a r x y, gej_rep f1 a (K x) -> gej_rep f1 r (K y) ->
  gej_rep f1 (fst (pip_sum down a r)) (K (fst (fold_left (fun s b => (fst s + b, snd s + (fst s + b))) ys (x, y)))) /\
  gej_rep f1 (snd (pip_sum down a r)) (K (snd (fold_left (fun s b => (fst s + b, snd s + (fst s + b))) ys (x, y)))).
Proof.
  induction 1 as [|b y0 down ys H _ IH]; intros a r x y RA RR; cbn [pip_sum fold_left fst snd]; [auto|].
  assert (R1 : gej_rep f1 (gej_add_var a b) (K (x + y0))) by (rewrite <- K_add; apply gej_add_var_ok; [exact f1_nz|exact RA|exact H]).
  apply IH; [exact R1|]. rewrite <- K_add. apply gej_add_var_ok; [exact f1_nz|exact RR|exact R1].
Qed.
Lemma fold_down xs x y : fold_left (fun s b => (fst s + b, snd s + (fst s + b))) (rev xs) (x, y) = (x + sum xs, y + Z.of_nat (length xs) * x + isum 1 xs).
Proof.
  induction xs as [|b xs IH]; cbn [rev fold_left length]; [cbn [sum fold_right isum]; f_equal; lia|].
  rewrite fold_left_app, IH. cbn [fold_left fst snd isum]. change (sum (b :: xs)) with (b + sum xs). change (1 + 1) with 2. replace (isum 2 xs) with (isum 1 xs + sum xs) by (symmetry; apply (isum_succ xs 1)).
  rewrite Nat2Z.inj_succ. f_equal; ring.
Qed.
Lemma brep_rev bs xs : brep bs xs -> brep (rev bs) (rev xs).
Proof. induction 1 as [|b x bs xs H _ IH]; cbn [rev]; [constructor|]. apply Forall2_app; [exact IH|]. constructor; [exact H|constructor]. Qed.
Lemma brep_zero k : brep (repeat gej_infinity k) (repeat 0 k).
Proof. induction k; cbn [repeat]; constructor; [apply gej_infinity_rep|assumption]. Qed.
Lemma wsum_zero k : forall c, wsum c (repeat 0 k) = 0.
Proof. induction k as [|k IH]; intros c; cbn [repeat wsum]; [reflexivity|]. rewrite IH. ring. Qed.
Lemma pip_round_ok bw i es kvs r x : 1 <= bw <= 12 -> Forall2 (entry_rep bw) es kvs -> gej_rep f1 r (K x) ->
  exists r', pip_round bw i es r = Some r' /\ gej_rep f1 r' (K (2 ^ (bw + 1) * x + esum (fun e => dig e i) es kvs)).
Proof.
  intros W F R. unfold pip_round. assert (P2 : 0 < 2 ^ bw) by (apply Z.pow_pos_nonneg; lia).
  assert (TS : Z.of_nat (table_size (bw + 2)) = 2 ^ bw) by (unfold table_size; replace (bw + 2 - 2) with bw by ring; lia).
  destruct (pip_fill_ok bw i W es kvs F _ _ (brep_zero (table_size (bw + 2)))) as (bs & xs & -> & B & L & V); [now rewrite repeat_length|].
  rewrite wsum_zero in V. rewrite repeat_length in L. destruct B as [|b0 x0 bs xs R0 B]; [cbn [length] in L; lia|]. cbn [tl hd].
  pose proof (double_times_ok (Z.to_nat bw) r x R) as RD. rewrite Z2Nat.id in RD by lia.
  pose proof (pip_sum_ok _ _ (brep_rev _ _ B) gej_infinity _ 0 _ (gej_infinity_rep f1) RD) as [R1 R2]. rewrite fold_down in R1, R2. cbn [fst snd] in R1, R2.
  destruct (pip_sum (rev bs) gej_infinity (double_times (Z.to_nat bw) r)) as [rs rr]. cbn [fst snd] in R1, R2.
  eexists. split; [reflexivity|].
  destruct (gej_double_var_ok f1 rr _ f1_nz R2) as [R3 _]. rewrite K_dbl in R3. fold (gej_double_var rr) in R3.
  pose proof (gej_add_var_ok f1 _ _ _ _ f1_nz R1 R0) as R4. rewrite K_add in R4. pose proof (gej_add_var_ok f1 _ _ _ _ f1_nz R3 R4) as R5. rewrite K_add in R5.
  cbn [wsum] in V. change (1 + 2) with (2 * 1 + 1) in V. rewrite wsum_isum in V.
  replace (2 ^ (bw + 1) * x + esum (fun e => dig e i) es kvs) with (2 * (2 ^ bw * x + Z.of_nat (length xs) * 0 + isum 1 xs) + (0 + sum xs + x0)); [exact R5|].
  rewrite Z.pow_add_r by lia. change (2 ^ 1) with 2. lia.
Qed.
(** Digits below [i]. *)
Fixpoint dlow (w : Z) (e : pip_entry) (i : nat) : Z := match i with O => 0 | S i' => dlow w e i' + 2 ^ (w * Z.of_nat i') * dig e i' end.
Lemma esum_lin a f g es : forall kvs, esum (fun e => f e + a * g e) es kvs = esum f es kvs + a * esum g es kvs.
Proof. induction es as [|e es IH]; intros [|kv kvs]; cbn [esum]; try ring. rewrite IH. ring. Qed.
Lemma pip_loop_ok bw es kvs : 1 <= bw <= 12 -> Forall2 (entry_rep bw) es kvs -> forall i r x, gej_rep f1 r (K x) ->
  exists r', pip_loop bw i es r = Some r' /\ gej_rep f1 r' (K (2 ^ ((bw + 1) * Z.of_nat i) * x + esum (fun e => dlow (bw + 1) e i) es kvs)).
Proof.
  intros W F. induction i as [|i IH]; intros r x R; cbn [pip_loop].
  - exists r. split; [reflexivity|]. replace (esum (fun e => dlow (bw + 1) e 0) es kvs) with 0; [change (Z.of_nat 0) with 0; rewrite Z.mul_0_r; change (2 ^ 0) with 1; now rewrite Z.mul_1_l, Z.add_0_r|].
    clear. revert kvs. induction es as [|e es IH]; intros [|kv kvs]; cbn [esum]; try reflexivity. rewrite <- IH. reflexivity.
  - destruct (pip_round_ok bw i es kvs r x W F R) as (r1 & -> & R1). destruct (IH r1 _ R1) as (r2 & E & R2). exists r2. split; [exact E|].
    cbn [dlow]. rewrite esum_lin. rewrite Nat2Z.inj_succ. replace ((bw + 1) * Z.succ (Z.of_nat i)) with ((bw + 1) * Z.of_nat i + (bw + 1)) by lia. rewrite (Z.pow_add_r 2 ((bw + 1) * Z.of_nat i)) by lia.
    match goal with |- gej_rep _ _ (K ?a) => match type of R2 with gej_rep _ _ (K ?b) => replace a with b by ring end end. exact R2.
Qed.
Lemma dlow_fval w e : 0 <= w -> forall i, (i <= length (pe_wnaf e))%nat -> dlow w e i = fval w (firstn i (pe_wnaf e)) - match i with O => 0 | _ => pe_skew e end.
Proof.
  intros W. induction i as [|i IH]; intros H; [reflexivity|]. cbn [dlow]. rewrite IH by lia.
  assert (E : firstn (Datatypes.S i) (pe_wnaf e) = firstn i (pe_wnaf e) ++ [nth i (pe_wnaf e) 0]).
  { clear - H. revert i H. generalize (pe_wnaf e). induction l as [|d l IH]; intros i H; [cbn in H; lia|]. destruct i; [reflexivity|]. cbn [firstn app nth]. f_equal. apply IH. cbn in H. lia. }
  rewrite E, fval_app, firstn_length_le by lia. cbn [fval]. unfold dig. destruct i as [|i]; [cbn [firstn fval length]; change (Z.of_nat 0) with 0; rewrite !Z.mul_0_r; change (2 ^ 0) with 1|]; ring.
Qed.
Lemma esum_ext bw es kvs : Forall2 (entry_rep bw) es kvs -> forall f, (forall e kv, entry_rep bw e kv -> f e = snd kv) -> esum f es kvs = lin kvs.
Proof. induction 1 as [|e kv es kvs H _ IH]; intros f E; cbn [esum lin fold_right]; [reflexivity|]. rewrite (E e kv H), (IH f E). reflexivity. Qed.

(** ** The multiplication *)
(** A scalar with at most 128 bits and a point. *)
Definition half_term (sp : sc * ge) (kv : Z * Z) : Prop := sc_ok (fst sp) /\ sv (fst sp) = snd kv /\ snd kv < 2 ^ 128 /\ ge_rep f1 (snd sp) (K (fst kv)).
Lemma pip_select_ok bw l kvs : 1 <= bw <= 12 -> Forall2 half_term l kvs -> exists evs, Forall2 (entry_rep bw) (pip_select bw l) evs /\ K (lin evs) = K (lin kvs).
Proof.
  intros W F. induction F as [|[s p] [k v] l kvs (H1 & H2 & H3 & H4) _ (evs & E1 & E2)]; cbn [pip_select]; [exists []; split; [constructor|reflexivity]|]. cbn [fst snd] in *.
  rewrite sc_is_zero_spec by apply H1. destruct (Z.eqb_spec (sv s) 0) as [Z0|Z0]; cbn [orb].
  - exists evs. split; [exact E1|]. rewrite E2. cbn [lin fold_right fst snd]. rewrite <- H2, Z0. now rewrite Z.mul_0_l, Z.add_0_l.
  - destruct (ginf p) eqn:I.
    + exists evs. split; [exact E1|]. cbn [lin fold_right fst snd]. fold (lin kvs). rewrite <- K_add, <- K_mul, (ge_rep_inf _ _ _ H4 I), pmul_Inf. exact E2.
    + pose proof (wnaf_fixed_ok s (bw + 1) (proj1 H1) ltac:(lia) ltac:(lia)) as D. destruct (wnaf_fixed s (bw + 1)) as [skew d]. destruct D as (D1 & D2 & D3 & D4).
      exists ((k, v) :: evs). split.
      * constructor; [|exact E1]. unfold entry_rep. cbn [pe_pt pe_skew pe_wnaf fst snd]. rewrite <- H2. auto.
      * cbn [lin fold_right fst snd]. fold (lin kvs) (lin evs). rewrite <- K_add, E2, K_add. reflexivity.
Qed.
Theorem ecmult_pippenger_wnaf_ok bw l kvs : 1 <= bw <= 12 -> Forall2 half_term l kvs -> exists r, ecmult_pippenger_wnaf bw l = Some r /\ gej_rep f1 r (K (lin kvs)).
Proof.
  intros W F. destruct (pip_select_ok bw l kvs W F) as (evs & E & V). unfold ecmult_pippenger_wnaf. destruct (pip_select bw l) as [|e es] eqn:ES.
  - exists gej_infinity. split; [reflexivity|]. rewrite <- V. inversion E. apply gej_infinity_rep.
  - destruct (pip_loop_ok bw (e :: es) evs W E (Z.to_nat (wnaf_size (bw + 1))) gej_infinity 0 (gej_infinity_rep f1)) as (r & -> & R). exists r. split; [reflexivity|].
    rewrite Z.mul_0_r, Z.add_0_l in R. rewrite <- V. rewrite (esum_ext bw _ _ E) in R; [exact R|]. intros e' kv (_ & _ & L & _ & FV).
    destruct (wnaf_size_ok (bw + 1) ltac:(lia)) as (A & _ & _). rewrite dlow_fval by lia. rewrite firstn_all2 by lia.
    destruct (Z.to_nat (wnaf_size (bw + 1))) eqn:EN; [lia|]. rewrite FV. ring.
Qed.

(** ** Splitting with the endomorphism *)
Lemma half_bound k1 (r : sc) p k : - 2 ^ 128 < k1 < 2 ^ 128 -> sc_ok r -> sv r = k1 mod n -> ge_rep f1 p (K k) ->
  exists j v, half_term (if sc_is_high r then (sc_negate r, ge_neg p) else (r, p)) (j, v) /\ K (v * j) = K (k1 * k).
Proof.
  intros B O E R. rewrite sc_is_high_spec by apply O. destruct (sc_negate_ok r O) as [ON VN].
  assert (NV : n = 115792089237316195423570985008687907852837564279074904382605163141518161494337) by reflexivity. change (2 ^ 128) with 340282366920938463463374607431768211456 in B.
  destruct (Z_lt_le_dec k1 0) as [N|N].
  - assert (M : k1 mod n = k1 + n) by (rewrite <- (Z.mod_add k1 1) by (rewrite NV; lia); rewrite Z.mul_1_l; apply Z.mod_small; rewrite NV; lia).
    rewrite E, M. replace (n / 2 <? k1 + n) with true by (symmetry; apply Z.ltb_lt; replace (n / 2) with 57896044618658097711785492504343953926418782139537452191302581570759080747168 by reflexivity; rewrite NV; lia).
    exists (- k), (- k1). split; [|f_equal; ring]. split; [exact ON|]. cbn [fst snd]. split; [|split; [change (2 ^ 128) with 340282366920938463463374607431768211456; lia|now apply ge_neg_K]].
    rewrite VN, E, M. replace (- (k1 + n)) with (- k1 + (-1) * n) by ring. rewrite Z.mod_add by (rewrite NV; lia). apply Z.mod_small. rewrite NV. lia.
  - assert (M : k1 mod n = k1) by (apply Z.mod_small; rewrite NV; lia).
    rewrite E, M. replace (n / 2 <? k1) with false by (symmetry; apply Z.ltb_ge; replace (n / 2) with 57896044618658097711785492504343953926418782139537452191302581570759080747168 by reflexivity; lia).
    exists k, k1. split; [|reflexivity]. split; [exact O|]. cbn [fst snd]. split; [congruence|]. split; [change (2 ^ 128) with 340282366920938463463374607431768211456; lia|exact R].
Qed.
Lemma endo_split_ok s p k : sc_ok s -> ge_rep f1 p (K k) -> exists kvs, Forall2 half_term (ecmult_endo_split s p) kvs /\ K (lin kvs) = K (sv s * k).
Proof.
  intros O R. pose proof (sc_split_lambda_ok s O) as H. unfold ecmult_endo_split. destruct (sc_split_lambda s) as [r1 r2]. cbn [fst snd] in H.
  destruct H as (O1 & O2 & k1 & k2 & B1 & B2 & V1 & V2 & V3 & _). pose proof (ge_mul_lambda_ok _ _ _ R) as RL. rewrite K_lam in RL.
  destruct (half_bound k1 r1 p k ltac:(change (2 ^ 128) with 340282366920938463463374607431768211456; lia) O1 V1 R) as (j1 & v1 & T1 & E1).
  destruct (half_bound k2 r2 _ _ ltac:(change (2 ^ 128) with 340282366920938463463374607431768211456; lia) O2 V2 RL) as (j2 & v2 & T2 & E2).
  exists [(j1, v1); (j2, v2)]. split; [constructor; [exact T1|constructor; [exact T2|constructor]]|].
  cbn [lin fold_right fst snd]. rewrite Z.add_0_r, <- K_add, E1, E2, K_add. rewrite <- V3.
  replace (k1 * k + k2 * (lambda * k)) with ((k1 + lambda * k2) * k) by ring. apply NField.K_eq, NField.toN_eq. now rewrite Z.mul_mod_idemp_l by discriminate.
Qed.
