(** Multi-point multiplication in the vocabulary of SpecMulti, and cases that meet the hypotheses. *)
Require Import ZArith List Bool Lia.
From Verif Require Import Word Bytes Spec ZmField Curve FieldModel FieldMul FieldProof FieldProof2 FieldBytes FieldOps ScalarModel ScalarProof ScalarProof2 ScalarSplit
  GroupModel GroupProof GroupProof2 GroupProof3 GroupProof4 GroupProof5 Endo HashModel EcmultModel WnafProof NumTheory Primes EcmultProof EcmultProof2 ScratchModel MultiModel MultiProof MultiProof2
  SpecRep RepProof RepProof2 SpecScratch ScratchProof SpecMulti MultiProof3 MultiProof4.
Import ListNotations.
Local Open Scope Z_scope.
Local Opaque ecmult_strauss_wnaf ecmult_pippenger_wnaf gej_add_var ecmult_endo_split ecmult.

Lemma scratch_sinv align scratch : alignment align -> any_scratch align scratch -> exists max, forall w, scratch = Some w -> sinv align max w.
Proof.
  intros AL A. destruct scratch as [w|]; [|exists 0; discriminate]. destruct A as (size & c & S0 & S1 & R & <-). exists size. intros w E. injection E as <-.
  destruct (reached_inv align AL size c S0 S1 R) as (base & data & I1 & I2 & I3 & I4 & I5 & I6 & I7 & O & ST & MK). exists base, data. cbn [c_space c_live c_marks].
  repeat (split; [assumption|]). split; [|exact I]. cbn [stacked]. destruct O as (_ & _ & _ & O & _). apply O.
Qed.
Lemma stands_terms l m : Forall2 stands_for l m -> exists kvs, terms l kvs /\ lin_comb m = K (lin kvs).
Proof.
  intro H. induction H as [|a [k P] l m (A & B & C) H (kvs & F & E)].
  - exists []. split; [constructor|]. reflexivity.
  - cbn [fst snd] in *. rewrite aff_iff in C. rewrite valid_iff in A. rewrite scalar_int_eq in B.
    destruct (all_points_multiples_of_G P) as (j & _ & EP); [exact (ge_rep_oc _ _ _ C)|]. exists ((j, k) :: kvs). split.
    + constructor; [|exact F]. cbn [fst snd]. rewrite <- EP. tauto.
    + unfold lin_comb, psum in *. cbn [map fold_right fst snd lin] in *. rewrite E, EP, K_mul, K_add. reflexivity.
Qed.
Lemma prop_multi {T} (cb : T -> Z -> option (sc * ge) * T) align scratch ng st n : alignment align -> any_scratch align scratch -> answers_valid cb -> opt_valid ng -> 0 <= n < 2 ^ 64 ->
  exists res st' scratch', ecmult_multi_var cb align scratch ng st n = Some (res, st', scratch') /\ same_space scratch' scratch /\ st' = snd (ask cb (Z.to_nat n) 0 st) /\
    (res = None <-> fst (ask cb (Z.to_nat n) 0 st) = None).
Proof.
  intros AL S CB O N. rewrite opt_valid_iff in O. destruct (scratch_sinv align scratch AL S) as (max & HI). destruct (ecmult_multi_var_ok cb CB align AL max scratch ng st n HI O N) as (res & st' & s' & E & SS & D1 & D2).
  exists res, st', s'. split; [exact E|]. split; [exact SS|]. split; [exact D1|]. destruct (fst (ask cb (Z.to_nat n) 0 st)) as [l|]; [|tauto]. destruct D2 as (g & -> & _). split; discriminate.
Qed.
Lemma prop_multi_sum {T} (cb : T -> Z -> option (sc * ge) * T) align scratch ng st n l m : alignment align -> any_scratch align scratch -> answers_valid cb -> opt_valid ng -> 0 <= n < 2 ^ 64 ->
  fst (ask cb (Z.to_nat n) 0 st) = Some l -> Forall2 stands_for l m ->
  exists g st' scratch', ecmult_multi_var cb align scratch ng st n = Some (Some g, st', scratch') /\ jacobian_point g (padd (lin_comb m) (pmul (opt_int ng) G)).
Proof.
  intros AL S CB O N EL F. rewrite opt_valid_iff in O. destruct (scratch_sinv align scratch AL S) as (max & HI). destruct (ecmult_multi_var_ok cb CB align AL max scratch ng st n HI O N) as (res & st' & s' & E & SS & D1 & D2).
  rewrite EL in D2. destruct D2 as (g & -> & H). exists g, st', s'. split; [exact E|]. destruct (stands_terms l m F) as (kvs & TK & EK). specialize (H kvs TK).
  rewrite jac_iff, EK, opt_int_eq, K_add. rewrite Z.add_0_l in H. exact H.
Qed.
(** Logging callbacks. *)
Lemma upto_app a : forall b i, upto (a + b) i = upto a i ++ upto b (i + Z.of_nat a).
Proof. induction a as [|a IH]; intros b i; cbn [Nat.add upto app]; [f_equal; lia|]. rewrite IH. do 3 f_equal. lia. Qed.
Lemma ask_logging_all f k : forall i log, (forall j, i <= j < i + Z.of_nat k -> f j <> None) -> exists l, ask (logging f) k i log = (Some l, log ++ upto k i).
Proof.
  induction k as [|k IH]; intros i log H; cbn [ask upto]; [rewrite app_nil_r; eauto|]. unfold logging at 1. destruct (f i) as [a|] eqn:E; [|destruct (H i ltac:(lia) E)].
  destruct (IH (i + 1) (log ++ [i])) as (l & ->); [intros j J; apply H; lia|]. rewrite <- app_assoc. eauto.
Qed.
Lemma ask_logging_fail f k : forall i log j, i <= j < i + Z.of_nat k -> f j = None -> (forall j', i <= j' < j -> f j' <> None) -> ask (logging f) k i log = (None, log ++ upto (Z.to_nat (j - i + 1)) i).
Proof.
  induction k as [|k IH]; intros i log j J F H; [lia|]. cbn [ask]. unfold logging at 1. destruct (Z.eq_dec i j) as [->|N].
  - rewrite F. replace (j - j + 1) with 1 by ring. reflexivity.
  - destruct (f i) as [a|] eqn:E; [|destruct (H i ltac:(lia) E)]. rewrite (IH (i + 1) (log ++ [i]) j) by (assumption || lia || (intros; apply H; lia)).
    rewrite <- app_assoc. replace (Z.to_nat (j - i + 1)) with (Datatypes.S (Z.to_nat (j - (i + 1) + 1))) by lia. reflexivity.
Qed.
Lemma prop_multi_indices f align scratch ng n : alignment align -> any_scratch align scratch -> answers_valid (logging f) -> opt_valid ng -> 0 <= n < 2 ^ 64 ->
  exists res log scratch', ecmult_multi_var (logging f) align scratch ng [] n = Some (res, log, scratch') /\
    ((forall i, 0 <= i < n -> f i <> None) -> res <> None /\ log = upto (Z.to_nat n) 0) /\
    (forall j, 0 <= j < n -> f j = None -> (forall i, 0 <= i < j -> f i <> None) -> res = None /\ log = upto (Z.to_nat (j + 1)) 0).
Proof.
  intros AL S CB O N. destruct (prop_multi (logging f) align scratch ng [] n AL S CB O N) as (res & log & s' & E & _ & -> & R). exists res, (snd (ask (logging f) (Z.to_nat n) 0 [])), s'. split; [exact E|]. split.
  - intros H. destruct (ask_logging_all f (Z.to_nat n) 0 []) as (l & A); [intros j J; apply H; lia|]. rewrite A in R |- *. cbn [fst snd app] in *. split; [intros Q; apply R in Q; discriminate Q|reflexivity].
  - intros j J F H. rewrite (ask_logging_fail f (Z.to_nat n) 0 [] j ltac:(lia) F ltac:(intros; apply H; lia)) in R |- *. cbn [fst snd app] in *. rewrite Z.sub_0_r. tauto.
Qed.

(** ** Cases *)
(** The i-th answer: i + 1 times the generator, refused from [lim] on. *)
Definition w_answer (lim i : Z) : option (sc * ge) := if i <? lim then Some (sc_of_Z ((i + 1) mod 1000), ge_const_g) else None.
Lemma w_scalar k : scalar_valid (sc_of_Z (k mod 1000)) /\ scalar_int (sc_of_Z (k mod 1000)) = k mod 1000.
Proof.
  pose proof (Z.mod_pos_bound k 1000 ltac:(lia)) as B. set (x := k mod 1000) in *. clearbody x. rewrite valid_iff, scalar_int_eq.
  assert (E : sv (sc_of_Z x) = x /\ sc_lim (sc_of_Z x)).
  { unfold sc_of_Z. rewrite (Z.mod_small x) by lia. rewrite !(Z.div_small x) by lia. unfold sv, sc_lim, wd. cbn [d0 d1 d2 d3]. rewrite (Z.mod_small 0) by lia. lia. }
  destruct E as [E L]. rewrite E. repeat split; try apply L. rewrite E. change n with 115792089237316195423570985008687907852837564279074904382605163141518161494337. lia.
Qed.
Lemma w_answers_valid lim : answers_valid (logging (w_answer lim)).
Proof.
  intros st i s g st' E. unfold logging, w_answer in E. destruct (i <? lim); [|discriminate E]. injection E as <- <- <-. split; [apply w_scalar|]. exists G. apply g_affine.
Qed.
(** A space in use, too small for any batch, and a new one with room for Pippenger's algorithm on 200 points at once. *)
Lemma w_small_scratch : exists w, any_scratch 16 (Some w) /\ 0 < sc_alloc (sp_scratch w) /\ pippenger_max_points 16 w = 0.
Proof.
  destruct w_reached as (c & R & L & _). pose proof R as (malloc & mem & w & ops & _). exists (c_space c).
  split; [exists 1000, c; repeat split; try lia; try exact R|]. 
  destruct (reached_inv 16 align_16 1000 c ltac:(lia) ltac:(reflexivity) R) as (base & data & _ & _ & _ & _ & _ & _ & _ & O & ST & _). rewrite L in ST. destruct ST as (off & A1 & A2 & A3 & A4 & A5 & A6). destruct A6 as (off' & B1 & B2 & B3 & B4 & B5 & B6). split; [lia|].
  destruct O as (O1 & O2 & O3 & O4 & O5). unfold pippenger_max_points, scratch_max_allocation. rewrite (magic_t _ O1), O3. cbn [negb]. change ((16 >? 1) && (pippenger_scratch_objects >? (2 ^ 64 - 1) / (16 - 1))) with false. cbv iota.
  assert (M : forall ma, ma < 1000 -> max_points_loop (Z.to_nat pippenger_max_bucket_window) 1 ma 0 = 0).
  { intros ma H. generalize (Z.to_nat pippenger_max_bucket_window). intros [|t]; [reflexivity|]. cbn [max_points_loop]. change (sizeof_gej * 2 ^ 1 + pippenger_entry_size 1 + sizeof_pippenger_state) with 1064. replace (1064 >? ma) with true by (symmetry; apply Z.gtb_lt; lia). reflexivity. }
  apply M. set (a := sc_alloc _) in *. unfold w64. rewrite (Z.mod_small (1000 - a)) by lia. change (pippenger_scratch_objects * (16 - 1)) with 90. change (90 mod 2 ^ 64) with 90. destruct (Z.leb_spec (1000 - a) 90); cbn [snd]; [lia|]. rewrite Z.mod_small; [lia|]. change (2 ^ 64) with 18446744073709551616. lia.
Qed.
Lemma w_big_scratch : exists w, any_scratch 16 (Some w) /\ batch_size_helper (pippenger_max_points 16 w) 500 = Some (3, 167).
Proof.
  assert (E : exists w, scratch_create 16 w_malloc (fun _ => 7) 100000 = Some (0, Some w) /\ batch_size_helper (pippenger_max_points 16 w) 500 = Some (3, 167)) by (eexists; split; [reflexivity|vm_compute; reflexivity]).
  destruct E as (w & E & B). exists w. split; [|exact B]. exists 100000, (mkcaller w [] []). split; [lia|]. split; [reflexivity|]. split; [|reflexivity].
  exists w_malloc, (fun _ => 7), w, []. split; [exact w_malloc_ok|]. split; [exact E|]. split; [constructor|reflexivity].
Qed.
Lemma w_ask : exists l, fst (ask (logging (w_answer 1000)) (Z.to_nat 3) 0 []) = Some l /\ Forall2 stands_for l [(1, G); (2, G); (3, G)].
Proof.
  eexists. split; [reflexivity|]. repeat (constructor; [split; [apply w_scalar|]; split; [apply w_scalar|apply g_affine]|]). constructor.
Qed.
