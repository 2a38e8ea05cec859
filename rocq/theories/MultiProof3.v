(** Batches: allocations, the order of the callback's calls and the sum. *)
Require Import ZArith List Bool Lia.
From Verif Require Import Word Bytes Spec ZmField Curve FieldModel FieldMul FieldProof FieldProof2 FieldBytes FieldOps ScalarModel ScalarProof ScalarProof2 ScalarSplit
  GroupModel GroupProof GroupProof2 GroupProof3 GroupProof4 GroupProof5 Endo HashModel EcmultModel WnafProof NumTheory Primes EcmultProof EcmultProof2 ScratchModel MultiModel MultiProof MultiProof2
  SpecRep RepProof RepProof2 SpecScratch ScratchProof SpecMulti.
Import ListNotations.
Local Open Scope Z_scope.
Local Opaque ecmult_strauss_wnaf ecmult_pippenger_wnaf.

(** ** Sizes *)
Lemma w64_id x : 0 <= x < 2 ^ 64 -> w64 x = x. Proof. apply Z.mod_small. Qed.
Lemma ceil_div_ok x y : 1 <= x < 2 ^ 64 -> 1 <= y -> ceil_div x y = 1 + (x - 1) / y /\ (ceil_div x y - 1) * y < x <= ceil_div x y * y /\ 1 <= ceil_div x y <= x.
Proof.
  intros X Y. unfold ceil_div. rewrite (w64_id (x - 1)) by lia. pose proof (Z.div_mod (x - 1) y ltac:(lia)). pose proof (Z.mod_pos_bound (x - 1) y ltac:(lia)).
  assert (0 <= (x - 1) / y <= x - 1) by (split; [apply Z.div_pos; lia|apply Z.div_le_upper_bound; nia]). rewrite w64_id by lia. split; [reflexivity|]. nia.
Qed.
Lemma batch_sizes m n nb bp : 0 <= m -> 1 <= n < 2 ^ 64 -> batch_size_helper m n = Some (nb, bp) -> 1 <= bp <= m /\ bp <= max_points_per_batch /\ (nb - 1) * bp < n <= nb * bp /\ 1 <= nb.
Proof.
  intros M N. unfold batch_size_helper. destruct (Z.eqb_spec m 0); [discriminate|]. set (m' := if m >? max_points_per_batch then max_points_per_batch else m).
  assert (M' : 1 <= m' <= m /\ m' <= max_points_per_batch) by (unfold m', max_points_per_batch; destruct (Z.gtb_spec m 5000000); lia). clearbody m'.
  replace (n =? 0) with false by (symmetry; apply Z.eqb_neq; lia). intros E. injection E as <- <-.
  destruct (ceil_div_ok n m' N ltac:(lia)) as (A1 & A2 & A3). set (nb := ceil_div n m') in *. destruct (ceil_div_ok n nb N ltac:(lia)) as (B1 & B2 & B3). set (bp := ceil_div n nb) in *. clearbody nb bp.
  assert (bp <= m') by nia. repeat split; try lia; nia.
Qed.
Lemma window_range n : 1 <= pippenger_bucket_window n <= 12.
Proof. unfold pippenger_bucket_window, pippenger_max_bucket_window. repeat (destruct (_ <=? _); [lia|]). lia. Qed.
Definition pip_need (b n : Z) : Z := sizeof_gej * 2 ^ b + pippenger_entry_size b + sizeof_pippenger_state + n * pippenger_entry_size b.
Lemma entry_size_pos b : 1 <= b <= 12 -> 0 < pippenger_entry_size b.
Proof. intros B. unfold pippenger_entry_size, sizeof_ge, sizeof_scalar, sizeof_pippenger_ps, sizeof_int. destruct (wnaf_size_ok (b + 1) ltac:(lia)). lia. Qed.
Lemma max_points_ok ma n : 1 <= n -> forall todo bw res, 1 <= bw -> bw + Z.of_nat todo = 13 -> res < n -> (forall b, 1 <= b < bw -> pippenger_bucket_window_inv b < n) ->
  n <= max_points_loop todo bw ma res -> exists b, 1 <= b <= 12 /\ n <= pippenger_bucket_window_inv b /\ (forall b', 1 <= b' < b -> pippenger_bucket_window_inv b' < n) /\ pip_need b n <= ma.
Proof.
  intros N. induction todo as [|todo IH]; intros bw res B T R M H; cbn [max_points_loop] in H; [lia|]. cbv zeta in H.
  set (inv := pippenger_bucket_window_inv bw) in *. pose proof (entry_size_pos bw ltac:(lia)) as EP. set (es := pippenger_entry_size bw) in *.
  destruct (Z.gtb_spec (sizeof_gej * 2 ^ bw + es + sizeof_pippenger_state) ma) as [G|G]; [lia|].
  set (q := (ma - (sizeof_gej * 2 ^ bw + es + sizeof_pippenger_state)) / es) in *.
  assert (Q : q * es <= ma - (sizeof_gej * 2 ^ bw + es + sizeof_pippenger_state)) by (unfold q; rewrite Z.mul_comm; apply Z.mul_div_le; exact EP).
  destruct (Z_le_gt_dec n inv) as [L|L].
  - exists bw. split; [lia|]. split; [exact L|]. split; [exact M|]. unfold pip_need. fold es. assert (n <= q); [|nia].
    destruct (Z.gtb_spec q inv); [lia|]. destruct (Z_le_gt_dec n q); [assumption|exfalso]. replace (q <? inv) with true in H by (symmetry; apply Z.ltb_lt; lia).
    destruct (q >? res); lia.
  - set (np := if q >? inv then inv else q) in *. assert (np < n) by (unfold np; destruct (Z.gtb_spec q inv); lia). clearbody np.
    set (res' := if np >? res then np else res) in *. assert (res' < n) by (unfold res'; destruct (np >? res); lia). clearbody res'. destruct (np <? inv); [lia|].
    apply (IH (bw + 1) res'); try lia. intros b HB. destruct (Z.eq_dec b bw) as [->|]; [unfold inv in L; lia|apply M; lia].
Qed.
Lemma window_least b n : 1 <= b <= 12 -> n <= pippenger_bucket_window_inv b -> (forall b', 1 <= b' < b -> pippenger_bucket_window_inv b' < n) -> b = pippenger_bucket_window n.
Proof.
  intros B L M. assert (C : b = 1 \/ b = 2 \/ b = 3 \/ b = 4 \/ b = 5 \/ b = 6 \/ b = 7 \/ b = 8 \/ b = 9 \/ b = 10 \/ b = 11 \/ b = 12) by lia.
  assert (M1 : forall b', (1 <=? b') && (b' <? b) = true -> pippenger_bucket_window_inv b' < n) by (intros b' H; apply andb_prop in H; apply M; lia). clear M.
  unfold pippenger_bucket_window, pippenger_max_bucket_window.
  repeat (destruct C as [->|C]); try subst b;
    try (pose proof (M1 1 eq_refl)); try (pose proof (M1 2 eq_refl)); try (pose proof (M1 3 eq_refl)); try (pose proof (M1 4 eq_refl)); try (pose proof (M1 5 eq_refl)); try (pose proof (M1 6 eq_refl));
    try (pose proof (M1 7 eq_refl)); try (pose proof (M1 8 eq_refl)); try (pose proof (M1 9 eq_refl)); try (pose proof (M1 10 eq_refl)); try (pose proof (M1 11 eq_refl));
    cbv [pippenger_bucket_window_inv] in *; clear M1 B; repeat (match goal with |- context [n <=? ?c] => destruct (Z.leb_spec n c) end; try lia).
Qed.
Lemma pippenger_room align w n : 1 <= n <= pippenger_max_points align w -> pip_need (pippenger_bucket_window n) n <= snd (scratch_max_allocation align w pippenger_scratch_objects).
Proof.
  intros [N1 N2]. unfold pippenger_max_points in N2. destruct (max_points_ok _ n N1 (Z.to_nat pippenger_max_bucket_window) 1 0 ltac:(lia) eq_refl ltac:(lia) ltac:(intros b Hb; lia) N2) as (b & B & L & M & Q).
  now rewrite <- (window_least b n B L M).
Qed.

(** ** Allocations *)
Section Align.
Variable align : Z.
Hypothesis AL : alignment align.
Definition sinv (max : Z) (w : space) : Prop := inv align max (mkcaller w [] []).
(** [w'] is [w] with more allocated. *)
Definition grown (w w' : space) : Prop :=
  let s := sp_scratch w in let s' := sp_scratch w' in
  sc_magic s' = sc_magic s /\ sc_data s' = sc_data s /\ sc_max s' = sc_max s /\ sc_alloc s <= sc_alloc s' /\ sp_addr w' = sp_addr w /\ sp_size w' = sp_size w /\
  forall x, sc_data s + sc_alloc s <= x < sc_data s + sc_max s \/ sp_mem w' x = sp_mem w x.
Lemma grown_refl w : grown w w. Proof. unfold grown. repeat split; lia. Qed.
Lemma grown_trans a b c : grown a b -> grown b c -> grown a c.
Proof.
  intros (A1 & A2 & A3 & A4 & A5 & A6 & A7) (B1 & B2 & B3 & B4 & B5 & B6 & B7). unfold grown. repeat split; try congruence; try lia.
Qed.
Lemma allocs_ok max : forall sizes w, sinv max w -> Forall (fun x => 0 <= x < 2 ^ 64) sizes ->
  total sizes + Z.of_nat (length sizes) * (align - 1) <= max - sc_alloc (sp_scratch w) ->
  exists ps w', allocs align w sizes = Some (ps, w') /\ some_null ps = false /\ sinv max w' /\ grown w w' /\
    sc_alloc (sp_scratch w') <= sc_alloc (sp_scratch w) + total sizes + Z.of_nat (length sizes) * (align - 1).
Proof.
  induction sizes as [|x sizes IH]; intros w I F T; cbn [allocs].
  - exists [], w. split; [reflexivity|]. split; [reflexivity|]. split; [exact I|]. split; [apply grown_refl|]. cbn [length total fold_right]. lia.
  - inversion F as [|? ? Fx Fs]; subst. pose proof (al_pos align AL) as P. cbn [length] in *. rewrite Nat2Z.inj_succ in *. change (total (x :: sizes)) with (x + total sizes) in *.
    assert (T0 : 0 <= total sizes) by (clear - Fs; induction Fs as [|y l Hy _ IH]; cbn [total fold_right]; [lia|]; unfold total in IH; lia).
    destruct (step_inv align AL max (mkcaller w [] []) (Alloc x) I Fx) as (c1 & E1 & I1). cbn [do_op c_space c_live c_marks] in E1.
    destruct (alloc_inv align AL max (mkcaller w [] []) x I Fx) as [(E & r & R1 & R2 & R3)|(p & r & mem & E & P1 & R1 & R2 & R3 & R4 & R5)]; cbn [c_space] in *; [nia|].
    rewrite E in E1 |- *. injection E1 as <-. set (w1 := mkspace _ _ _ mem) in *.
    assert (J : sinv max w1). { destruct I1 as (base & data & J1 & J2 & J3 & J4 & J5 & J6 & J7 & J8 & J9 & J10). exists base, data. cbn [c_space c_live c_marks] in *. repeat (split; [assumption|]). split; [|exact Logic.I]. cbn [stacked]. destruct J8 as (_ & _ & _ & J8 & _). apply J8. }
    assert (GR : grown w w1).
    { unfold grown, w1. cbn [sp_scratch sp_addr sp_size sp_mem sc_magic sc_data sc_alloc sc_max]. repeat (split; [lia||reflexivity|]). intros a. rewrite R5. destruct ((p <=? a) && (a <? p + r)) eqn:Q; [|now right]. left. apply andb_prop in Q.
      destruct I as (? & ? & _ & _ & _ & _ & _ & _ & _ & O & _). destruct O as (_ & _ & O3 & _). cbn [c_space] in O3. lia. }
    destruct (IH w1 J Fs) as (ps & w2 & E2 & N2 & I2 & G2 & L2).
    { unfold w1. cbn [sp_scratch sc_alloc]. nia. }
    exists (Some p :: ps), w2. rewrite E2. split; [reflexivity|]. split; [exact N2|]. split; [exact I2|]. split; [exact (grown_trans _ _ _ GR G2)|]. unfold w1 in L2. cbn [sp_scratch sc_alloc] in L2. nia.
Qed.
(** Giving everything back. *)
Lemma restored max w w' : sinv max w -> grown w w' -> let w2 := snd (scratch_apply_checkpoint w' (snd (scratch_checkpoint w))) in sinv max w2 /\ same_space (Some w2) (Some w).
Proof.
  intros I (A1 & A2 & A3 & A4 & A5 & A6 & A7). pose proof I as (base & data & I1 & I2 & I3 & I4 & I5 & I6 & I7 & O & ST & MK). cbn [c_space c_live c_marks] in *. destruct O as (O1 & O2 & O3 & O4 & O5).
  unfold scratch_checkpoint. rewrite (magic_t _ O1). cbn [negb snd]. unfold scratch_apply_checkpoint. rewrite (magic_t (sp_scratch w')) by congruence. cbn [negb].
  replace (sc_alloc (sp_scratch w) >? sc_alloc (sp_scratch w')) with false by (symmetry; rewrite Z.gtb_ltb; apply Z.ltb_ge; lia). cbn [snd].
  rewrite A1, A2, A3, A5, A6. replace (mkscratch (sc_magic (sp_scratch w)) (sc_data (sp_scratch w)) (sc_alloc (sp_scratch w)) (sc_max (sp_scratch w))) with (sp_scratch w) by now destruct (sp_scratch w). split.
  - exists base, data. cbn [c_space c_live c_marks sp_scratch sp_addr sp_size]. repeat (split; [assumption|]). split; [|split; [exact ST|exact MK]]. repeat split; assumption || apply O4.
  - cbn [same_space sp_scratch sp_addr sp_size sp_mem]. repeat split. exact A7.
Qed.
Lemma max_alloc_ok max w objects : sinv max w -> 0 <= objects < 16 -> let m := snd (scratch_max_allocation align w objects) in
  0 <= m /\ (0 < m -> m + objects * (align - 1) <= max - sc_alloc (sp_scratch w)) /\ m < 2 ^ 64.
Proof.
  intros (base & data & I1 & I2 & I3 & I4 & I5 & I6 & I7 & O & ST & MK) OB. cbn [c_space c_live c_marks] in *. destruct O as (O1 & O2 & O3 & O4 & O5). pose proof (al_pos align AL) as P. pose proof (al_small align AL) as Q.
  unfold scratch_max_allocation. rewrite (magic_t _ O1), O3. cbn [negb]. change (2 ^ 64) with 18446744073709551616 in *.
  destruct ((align >? 1) && _); [cbn [snd]; lia|]. unfold w64. change (2 ^ 64) with 18446744073709551616. rewrite (Z.mod_small (max - _)) by lia. rewrite (Z.mod_small (objects * _)) by nia.
  destruct (Z.leb_spec (max - sc_alloc (sp_scratch w)) (objects * (align - 1))); cbn [snd]; [lia|]. rewrite Z.mod_small by nia. lia.
Qed.
End Align.
