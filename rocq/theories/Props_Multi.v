(** Multi-point multiplication: C43, C46. *)
Require Import ZArith List Bool.
From Verif Require Import Word Spec FieldModel ScalarModel GroupModel ScratchModel MultiModel SpecRep SpecScratch SpecMulti ScratchProof MultiProps.
Import ListNotations.
Local Open Scope Z_scope.

(** C46: whatever the scratch space (none, or any size after any history), the number of
    points, and the callback's decisions [f], the callback is asked for 0, 1, ..., n - 1,
    each once and in this order; the call succeeds if none is refused.  If [j] is the
    first index refused the call fails and nothing after [j] is asked for.  There is no
    undefined behaviour. *)
Theorem C46_indices f align scratch ng n : alignment align -> any_scratch align scratch -> answers_valid (logging f) -> opt_valid ng -> 0 <= n < 2 ^ 64 ->
  exists res log scratch', ecmult_multi_var (logging f) align scratch ng [] n = Some (res, log, scratch') /\
    ((forall i, 0 <= i < n -> f i <> None) -> res <> None /\ log = upto (Z.to_nat n) 0) /\
    (forall j, 0 <= j < n -> f j = None -> (forall i, 0 <= i < j -> f i <> None) -> res = None /\ log = upto (Z.to_nat (j + 1)) 0).
Proof. exact (prop_multi_indices f align scratch ng n). Qed.
Print Assumptions C46_indices.
(** C46: the same for callbacks with a state of their own: the state afterwards is that of
    asking for the indices in order, the call fails exactly if one is refused, and the
    scratch space is given back with the allocations it had. *)
Theorem C46_callback_histories {T} (cb : T -> Z -> option (sc * ge) * T) align scratch ng st n :
  alignment align -> any_scratch align scratch -> answers_valid cb -> opt_valid ng -> 0 <= n < 2 ^ 64 ->
  exists res st' scratch', ecmult_multi_var cb align scratch ng st n = Some (res, st', scratch') /\ same_space scratch' scratch /\
    st' = snd (ask cb (Z.to_nat n) 0 st) /\ (res = None <-> fst (ask cb (Z.to_nat n) 0 st) = None).
Proof. exact (prop_multi cb align scratch ng st n). Qed.
Print Assumptions C46_callback_histories.
(** C43: whichever algorithm and batches the scratch space leads to, the result is the sum of
    the multiples of the points the callback answered with, plus the multiple of the
    generator. *)
Theorem C43_multi {T} (cb : T -> Z -> option (sc * ge) * T) align scratch ng st n l m :
  alignment align -> any_scratch align scratch -> answers_valid cb -> opt_valid ng -> 0 <= n < 2 ^ 64 ->
  fst (ask cb (Z.to_nat n) 0 st) = Some l -> Forall2 stands_for l m ->
  exists g st' scratch', ecmult_multi_var cb align scratch ng st n = Some (Some g, st', scratch') /\
    jacobian_point g (padd (lin_comb m) (pmul (opt_int ng) G)).
Proof. exact (prop_multi_sum cb align scratch ng st n l m). Qed.
Print Assumptions C43_multi.

(** Cases that meet the hypotheses: a space in use with no room for a batch, a space for
    which 500 points are done by Pippenger's algorithm in three batches, a callback that
    refuses from some index on, and three answers with their meaning. *)
Example small_scratch : exists w, any_scratch 16 (Some w) /\ 0 < sc_alloc (sp_scratch w) /\ pippenger_max_points 16 w = 0.
Proof. exact w_small_scratch. Qed.
Example big_scratch : exists w, any_scratch 16 (Some w) /\ batch_size_helper (pippenger_max_points 16 w) 500 = Some (3, 167).
Proof. exact w_big_scratch. Qed.
Example aligned : alignment 16.
Proof. exact align_16. Qed.
Example valid_answers : answers_valid (logging (w_answer 1000)) /\ w_answer 1000 999 <> None /\ w_answer 1000 1000 = None.
Proof. split; [exact (w_answers_valid 1000)|]. split; [discriminate|reflexivity]. Qed.
Example three_answers : exists l, fst (ask (logging (w_answer 1000)) (Z.to_nat 3) 0 []) = Some l /\ Forall2 stands_for l [(1, G); (2, G); (3, G)].
Proof. exact w_ask. Qed.
