(** The batches put together. *)
Require Import ZArith List Bool Lia.
From Verif Require Import Word Bytes Spec ZmField Curve FieldModel FieldMul FieldProof FieldProof2 FieldBytes FieldOps ScalarModel ScalarProof ScalarProof2 ScalarSplit
  GroupModel GroupProof GroupProof2 GroupProof3 GroupProof4 GroupProof5 Endo HashModel EcmultModel WnafProof NumTheory Primes EcmultProof EcmultProof2 ScratchModel MultiModel MultiProof MultiProof2
  SpecRep RepProof RepProof2 SpecScratch ScratchProof SpecMulti MultiProof3.
Import ListNotations.
Local Open Scope Z_scope.
Local Opaque ecmult_strauss_wnaf ecmult_pippenger_wnaf gej_add_var ecmult_endo_split ecmult.

Definition terms (l : list (sc * ge)) (kvs : list (Z * Z)) : Prop := Forall2 (fun sp kv => sc_ok (fst sp) /\ sv (fst sp) = snd kv /\ ge_rep f1 (snd sp) (K (fst kv))) l kvs.
Lemma terms_fun l kvs kvs2 : terms l kvs -> terms l kvs2 -> K (lin kvs) = K (lin kvs2).
Proof.
  intros TK. revert kvs2. induction TK as [|[s g] [k v] l kvs (A1 & A2 & A3) _ IH]; intros kvs2 TK2; inversion TK2 as [|? [k' v'] ? kvs3 (B1 & B2 & B3) TK3]; subst; [reflexivity|]. cbn [lin fold_right fst snd] in *. fold (lin kvs) (lin kvs3).
  rewrite <- !K_add, (IH _ TK3). f_equal. rewrite <- A2, <- B2, <- !K_mul. f_equal. exact (ge_rep_fun f1 _ _ _ f1_nz A3 B3).
Qed.
Section Callback.
Context {T : Type}.
Variable cb : T -> Z -> option (sc * ge) * T.
Hypothesis CB : answers_valid cb.

Lemma ask_terms k : forall i st l st', ask cb k i st = (Some l, st') -> exists kvs, terms l kvs.
Proof.
  induction k as [|k IH]; intros i st l st' E; cbn [ask] in E; [injection E as <- _; exists []; constructor|].
  destruct (cb st i) as [[[s g]|] st1] eqn:C; [|discriminate E]. destruct (ask cb k (i + 1) st1) as [[l1|] st2] eqn:A; [|discriminate E]. injection E as <- _.
  destruct (IH _ _ _ _ A) as (kvs & F). destruct (CB _ _ _ _ _ C) as (V & P & R). rewrite valid_iff in V. rewrite aff_iff in R. destruct (all_points_multiples_of_G P (ge_rep_oc _ _ _ R)) as (j & _ & ->).
  exists ((j, sv s) :: kvs). constructor; [|exact F]. cbn [fst snd]. auto.
Qed.
Lemma ask_app a : forall b i st, ask cb (a + b) i st =
  match ask cb a i st with
  | (None, st1) => (None, st1)
  | (Some l, st1) => match ask cb b (i + Z.of_nat a) st1 with (None, st2) => (None, st2) | (Some l', st2) => (Some (l ++ l'), st2) end
  end.
Proof.
  induction a as [|a IH]; intros b i st; cbn [Nat.add ask].
  - rewrite Z.add_0_r. destruct (ask cb b i st) as [[l|] st1]; reflexivity.
  - destruct (cb st i) as [[x|] st1]; [|reflexivity]. rewrite IH. destruct (ask cb a (i + 1) st1) as [[l|] st2]; [|reflexivity].
    rewrite Nat2Z.inj_succ. replace (i + 1 + Z.of_nat a) with (i + Z.succ (Z.of_nat a)) by lia. destruct (ask cb b _ st2) as [[l'|] st3]; reflexivity.
Qed.
Lemma strauss_ask_eq k : forall i off st, 0 <= i -> 0 <= off -> i + off + Z.of_nat k <= 2 ^ 64 ->
  strauss_ask cb k i off st = let r := ask cb k (i + off) st in (option_map (map (fun sp => (gej_set_ge (snd sp), fst sp))) (fst r), snd r).
Proof.
  induction k as [|k IH]; intros i off st I O B; cbn [strauss_ask ask]; [reflexivity|]. rewrite w64_id by lia. destruct (cb st (i + off)) as [[[s g]|] st1]; [|reflexivity].
  rewrite IH by lia. replace (i + 1 + off) with (i + off + 1) by ring. destruct (ask cb k (i + off + 1) st1) as [[l|] st2]; reflexivity.
Qed.
Lemma pippenger_ask_eq k : forall i off st, 0 <= i -> 0 <= off -> i + off + Z.of_nat k <= 2 ^ 64 ->
  pippenger_ask cb k i off st = let r := ask cb k (i + off) st in (option_map (flat_map (fun sp => ecmult_endo_split (fst sp) (snd sp))) (fst r), snd r).
Proof.
  induction k as [|k IH]; intros i off st I O B; cbn [pippenger_ask ask]; [reflexivity|]. rewrite w64_id by lia. destruct (cb st (i + off)) as [[[s g]|] st1]; [|reflexivity].
  rewrite IH by lia. replace (i + 1 + off) with (i + off + 1) by ring. destruct (ask cb k (i + off + 1) st1) as [[l|] st2]; reflexivity.
Qed.
(** What a call has to do: ask for the indices in order and return the sum. *)
Definition done (ng : option sc) (x : Z) (k : nat) (i : Z) (st : T) (res : option gej) (st' : T) : Prop :=
  st' = snd (ask cb k i st) /\
  match fst (ask cb k i st) with
  | None => res = None
  | Some l => exists g, res = Some g /\ forall kvs, terms l kvs -> gej_rep f1 g (K (x + lin kvs + opt_sv ng))
  end.
Lemma simple_loop_ok k : forall i st r x, gej_rep f1 r (K x) -> done None x k i st (fst (simple_loop cb k i st r)) (snd (simple_loop cb k i st r)).
Proof.
  induction k as [|k IH]; intros i st r x R; unfold done; cbn [simple_loop ask].
  - cbn [fst snd]. split; [reflexivity|]. exists r. split; [reflexivity|]. intros kvs F. inversion F. cbn [lin fold_right opt_sv]. now rewrite !Z.add_0_r.
  - destruct (cb st i) as [[[s g]|] st1] eqn:C; [|cbn [fst snd]; auto]. destruct (CB _ _ _ _ _ C) as (V & P & RP). rewrite valid_iff in V. rewrite aff_iff in RP.
    pose proof (ecmult_ok (gej_set_ge g) s None P (gej_set_ge_ok _ _ _ RP) V Logic.I) as M. cbn [opt_sv] in M. change (pmul 0 G) with Inf in M. rewrite padd_Inf_r in M.
    destruct (all_points_multiples_of_G P (ge_rep_oc _ _ _ RP)) as (j & _ & EP). rewrite EP, K_mul in M. pose proof (gej_add_var_ok f1 _ _ _ _ f1_nz R M) as A. rewrite K_add in A.
    destruct (IH (i + 1) st1 _ _ A) as [S1 S2]. rewrite S1. destruct (ask cb k (i + 1) st1) as [[l|] st2]; cbn [fst snd] in *; (split; [reflexivity|]); [|exact S2].
    destruct S2 as (h & -> & H). exists h. split; [reflexivity|]. intros kvs F. inversion F as [|? [j' v'] ? kvs' (F1 & F2 & F3) F4]; subst. cbn [fst snd] in *. specialize (H kvs' F4).
    assert (E : K j' = K j) by exact (ge_rep_fun f1 _ _ _ f1_nz F3 RP).
    assert (E1 : K (sv s * j') = K (sv s * j)) by (rewrite <- !K_mul, E; reflexivity).
    cbn [lin fold_right fst snd]. fold (lin kvs'). cbn [opt_sv] in *. rewrite <- F2. replace (x + (sv s * j' + lin kvs') + 0) with (sv s * j' + (x + lin kvs')) by ring.
    rewrite <- (K_add (sv s * j')). rewrite E1, K_add. replace (sv s * j + (x + lin kvs')) with (x + sv s * j + lin kvs' + 0) by ring. exact H.
Qed.
Lemma multi_simple_ok ng st n : opt_ok ng -> let r := multi_simple_var cb ng st n in done ng 0 (Z.to_nat n) 0 st (fst r) (snd r).
Proof.
  intros O. unfold multi_simple_var. cbv zeta. pose proof (ecmult_ok gej_infinity sc_zero ng Inf (gej_infinity_rep f1)) as M.
  assert (Z0 : sc_ok sc_zero /\ sv sc_zero = 0) by (repeat split; vm_compute; congruence). specialize (M (proj1 Z0) O). rewrite (proj2 Z0) in M. change (pmul 0 Inf) with Inf in M. change (padd Inf ?a) with a in M.
  destruct (simple_loop_ok (Z.to_nat n) 0 st _ _ M) as [S1 S2]. split; [exact S1|]. destruct (fst (ask cb (Z.to_nat n) 0 st)) as [l|]; [|exact S2].
  destruct S2 as (g & E & H). exists g. split; [exact E|]. intros kvs F. specialize (H kvs F). cbn [opt_sv] in H. replace (0 + lin kvs + opt_sv ng) with (opt_sv ng + lin kvs + 0) by ring. exact H.
Qed.

(** ** Batches *)
Section Align.
Variable align : Z.
Hypothesis AL : alignment align.
(** A batch function with room for [n] points. *)
Definition batch_ok (room : space -> Z -> Prop) (f : space -> option sc -> T -> Z -> Z -> option (option gej * T * space)) : Prop :=
  forall max w ng st n off, sinv align max w -> room w n -> opt_ok ng -> 1 <= n -> 0 <= off -> off + n <= 2 ^ 64 ->
    exists res st' w', f w ng st n off = Some (res, st', w') /\ sinv align max w' /\ same_space (Some w') (Some w) /\ done ng 0 (Z.to_nat n) off st res st'.
Lemma strauss_terms l kvs : terms l kvs -> Forall2 (fun an kv => gej_rep f1 (fst an) (K (fst kv)) /\ sc_ok (snd an) /\ sv (snd an) = snd kv) (map (fun sp => (gej_set_ge (snd sp), fst sp)) l) kvs.
Proof. induction 1 as [|[s g] kv l kvs (A & B & C) _ IH]; cbn [map]; constructor; [|exact IH]. cbn [fst snd] in *. split; [now apply gej_set_ge_ok|auto]. Qed.
Lemma pippenger_terms l kvs : terms l kvs -> exists kvs', Forall2 half_term (flat_map (fun sp => ecmult_endo_split (fst sp) (snd sp)) l) kvs' /\ K (lin kvs') = K (lin kvs).
Proof.
  induction 1 as [|[s g] [k v] l kvs (A & B & C) _ (kvs' & F & E)]; cbn [flat_map]; [exists []; split; [constructor|reflexivity]|]. cbn [fst snd] in *.
  destruct (endo_split_ok s g k A C) as (k1 & F1 & E1). exists (k1 ++ kvs'). split; [now apply Forall2_app|]. rewrite lin_app, <- K_add, E1, E, K_add. cbn [lin fold_right fst snd]. rewrite B. reflexivity.
Qed.
Definition strauss_room (w : space) (n : Z) : Prop := n <= strauss_max_points align w.
Definition pippenger_room_for (w : space) (n : Z) : Prop := n <= pippenger_max_points align w /\ n <= max_points_per_batch.
Lemma strauss_batch_ok : batch_ok strauss_room (ecmult_strauss_batch cb align).
Proof.
  intros max w ng st n off I R O N F1 F2. unfold ecmult_strauss_batch. replace (n =? 0) with false by (symmetry; apply Z.eqb_neq; lia).
  unfold strauss_room, strauss_max_points in R. change (strauss_scratch_size 1) with 2224 in R. destruct (max_alloc_ok align AL max w strauss_scratch_objects I ltac:(unfold strauss_scratch_objects; lia)) as (M1 & M2 & M3).
  set (ma := snd (scratch_max_allocation align w strauss_scratch_objects)) in *. unfold strauss_scratch_objects in M2.
  assert (MA : n * 2224 <= ma) by (pose proof (Z.mul_div_le ma 2224 ltac:(lia)); nia). specialize (M2 ltac:(lia)). clearbody ma.
  change (Z.of_nat (table_size window_a)) with 8. unfold sizeof_gej, sizeof_scalar, sizeof_fe, sizeof_ge, sizeof_strauss_ps. change (2 ^ 64) with 18446744073709551616 in *.
  rewrite !w64_id by (change (2 ^ 64) with 18446744073709551616; rewrite ?w64_id by (change (2 ^ 64) with 18446744073709551616; lia); lia).
  destruct (allocs_ok align AL max [n * 128; n * 32; n * 8 * 40; n * 8 * 88; n * 1040] w I) as (ps & w1 & E & NU & I1 & G1 & _).
  { change (2 ^ 64) with 18446744073709551616. repeat (apply Forall_cons; [lia|]). constructor. }
  { cbn [length total fold_right]. lia. }
  destruct (restored align max w w1 I G1) as [IR SR]. set (w2 := snd (scratch_apply_checkpoint w1 (snd (scratch_checkpoint w)))) in *.
  assert (GO : exists res st' w', (match allocs align w [n * 128; n * 32; n * 8 * 40; n * 8 * 88; n * 1040] with
     | None => None
     | Some (ps, w0) => if some_null ps then Some (None, st, snd (scratch_apply_checkpoint w0 (snd (scratch_checkpoint w)))) else
        match strauss_ask cb (Z.to_nat n) 0 off st with
        | (None, st0) => Some (None, st0, snd (scratch_apply_checkpoint w0 (snd (scratch_checkpoint w))))
        | (Some l, st0) => Some (Some (ecmult_strauss_wnaf l ng), st0, snd (scratch_apply_checkpoint w0 (snd (scratch_checkpoint w))))
        end end) = Some (res, st', w') /\ sinv align max w' /\ same_space (Some w') (Some w) /\ done ng 0 (Z.to_nat n) off st res st').
  { rewrite E, NU. fold w2. rewrite strauss_ask_eq by (change (2 ^ 64) with 18446744073709551616; lia). rewrite Z.add_0_l. unfold done. cbv zeta.
    destruct (ask cb (Z.to_nat n) off st) as [[l|] st1]; cbn [fst snd option_map]; (eexists; eexists; eexists; split; [reflexivity|]; split; [exact IR|]; split; [exact SR|]; split; [reflexivity|]); [|reflexivity].
    eexists. split; [reflexivity|]. intros kvs TK. rewrite Z.add_0_l. apply ecmult_strauss_wnaf_ok; [now apply strauss_terms|exact O]. }
  destruct ng; exact GO.
Qed.
Lemma pippenger_batch_ok : batch_ok pippenger_room_for (ecmult_pippenger_batch cb align).
Proof.
  intros max w ng st n off I [R R5] O N F1 F2. unfold ecmult_pippenger_batch. replace (n =? 0) with false by (symmetry; apply Z.eqb_neq; lia).
  pose proof (pippenger_room align w n (conj N R)) as ND. pose proof (window_range n) as WR. set (bw := pippenger_bucket_window n) in *.
  destruct (max_alloc_ok align AL max w pippenger_scratch_objects I ltac:(unfold pippenger_scratch_objects; lia)) as (M1 & M2 & M3).
  set (ma := snd (scratch_max_allocation align w pippenger_scratch_objects)) in *. unfold pippenger_scratch_objects in M2.
  destruct (wnaf_size_ok (bw + 1) ltac:(lia)) as (WS & _ & _). assert (PB : 0 < 2 ^ bw <= 4096) by (split; [apply Z.pow_pos_nonneg; lia|change 4096 with (2 ^ 12); apply Z.pow_le_mono_r; lia]).
  unfold pip_need, pippenger_entry_size, sizeof_gej, sizeof_ge, sizeof_scalar, sizeof_pippenger_ps, sizeof_pippenger_state, sizeof_int in *. set (ws := wnaf_size (bw + 1)) in *.
  assert (MP : 0 < ma) by nia. specialize (M2 MP). unfold max_points_per_batch in R5.
  pose proof (al_pos align AL) as AP. assert (AM : sc_alloc (sp_scratch w) <= max /\ 0 <= sc_alloc (sp_scratch w)) by (destruct I as (? & ? & _ & _ & _ & _ & _ & _ & _ & OO & _); destruct OO as (_ & _ & _ & OO & _); cbn [c_space] in OO; lia).
  change (2 ^ 64) with 18446744073709551616 in *. rewrite (w64_id (2 * n + 2)) by (change (2 ^ 64) with 18446744073709551616; lia).
  rewrite !w64_id by (change (2 ^ 64) with 18446744073709551616; rewrite ?w64_id by (change (2 ^ 64) with 18446744073709551616; nia); nia).
  destruct (allocs_ok align AL max [(2 * n + 2) * 88; (2 * n + 2) * 32; 16] w I) as (ps & w1 & E & NU & I1 & G1 & L1).
  { change (2 ^ 64) with 18446744073709551616. repeat (apply Forall_cons; [lia|]). constructor. }
  { cbn [length total fold_right]. nia. }
  cbn [length total fold_right] in L1.
  destruct (allocs_ok align AL max [(2 * n + 2) * 16; (2 * n + 2) * ws * 4; 2 ^ bw * 128] w1 I1) as (ps2 & w1' & E2 & NU2 & I2 & G2 & _).
  { change (2 ^ 64) with 18446744073709551616. repeat (apply Forall_cons; [nia|]). constructor. }
  { cbn [length total fold_right]. nia. }
  destruct (restored align max w w1' I ltac:(eapply grown_trans; eassumption)) as [IR SR]. set (w2 := snd (scratch_apply_checkpoint w1' (snd (scratch_checkpoint w)))) in *.
  rewrite E, NU, E2, NU2. rewrite pippenger_ask_eq by (change (2 ^ 64) with 18446744073709551616; lia). rewrite Z.add_0_l. fold w2. clear E E2.
  set (first := match ng with Some g => ecmult_endo_split g ge_const_g | None => [] end).
  assert (FT : exists k0, Forall2 half_term first k0 /\ K (lin k0) = K (opt_sv ng)).
  { unfold first. destruct ng as [g|]; [|exists []; split; [constructor|reflexivity]]. destruct (endo_split_ok g ge_const_g 1 O) as (k0 & F & EK); [rewrite pmul_1; apply ge_const_g_ok|]. exists k0. split; [exact F|]. rewrite EK, Z.mul_1_r. reflexivity. }
  destruct FT as (k0 & FF & EF). clearbody first.
  assert (GO : exists res st' w', match (let r := ask cb (Z.to_nat n) off st in (option_map (flat_map (fun sp => ecmult_endo_split (fst sp) (snd sp))) (fst r), snd r)) with
     | (None, st0) => Some (None, st0, w2)
     | (Some l, st0) => match ecmult_pippenger_wnaf bw (first ++ l) with None => None | Some r => Some (Some r, st0, w2) end
     end = Some (res, st', w') /\ sinv align max w' /\ same_space (Some w') (Some w) /\ done ng 0 (Z.to_nat n) off st res st').
  { unfold done. cbv zeta. destruct (ask cb (Z.to_nat n) off st) as [[l|] st1] eqn:EA; cbn [fst snd option_map].
    - destruct (ask_terms _ _ _ _ _ EA) as (kvs & TK). destruct (pippenger_terms l kvs TK) as (kvs' & F' & E').
      destruct (ecmult_pippenger_wnaf_ok bw (first ++ flat_map (fun sp => ecmult_endo_split (fst sp) (snd sp)) l) (k0 ++ kvs') WR ltac:(now apply Forall2_app)) as (r & -> & RR).
      rewrite lin_app, <- K_add, EF, E', K_add in RR.
      eexists; eexists; eexists; split; [reflexivity|]; split; [exact IR|]; split; [exact SR|]; split; [reflexivity|]. eexists. split; [reflexivity|]. intros kvs2 TK2.
      assert (EL : K (lin kvs2) = K (lin kvs)) by exact (terms_fun _ _ _ TK2 TK).
      rewrite Z.add_0_l, <- K_add, EL, K_add, Z.add_comm. exact RR.
    - eexists; eexists; eexists; split; [reflexivity|]; split; [exact IR|]; split; [exact SR|]; split; reflexivity. }
  destruct ng; exact GO.
Qed.
(** Only the object matters for the room. *)
Lemma max_allocation_same w w' o : sp_scratch w' = sp_scratch w -> scratch_max_allocation align w' o = scratch_max_allocation align w o.
Proof. intros E. unfold scratch_max_allocation. now rewrite E. Qed.
Definition room_ok (room : space -> Z -> Prop) : Prop := (forall w n m, room w n -> m <= n -> room w m) /\ (forall w w' n, sp_scratch w' = sp_scratch w -> room w n -> room w' n).
Lemma strauss_room_ok : room_ok strauss_room.
Proof. split; unfold strauss_room; [lia|]. intros w w' n E. unfold strauss_max_points. now rewrite (max_allocation_same w w' _ E). Qed.
Lemma pippenger_room_ok : room_ok pippenger_room_for.
Proof. split; unfold pippenger_room_for; [lia|]. intros w w' n E. unfold pippenger_max_points. now rewrite (max_allocation_same w w' _ E). Qed.
Lemma same_trans a b c : same_space (Some a) (Some b) -> same_space (Some b) (Some c) -> same_space (Some a) (Some c).
Proof.
  cbn [same_space]. intros (A1 & A2 & A3 & A4) (B1 & B2 & B3 & B4). repeat split; try congruence. intros x. destruct (B4 x) as [B|B]; [now left|]. destruct (A4 x) as [A|A]; [left; rewrite <- B1; exact A|right; congruence].
Qed.
Lemma multi_loop_ok room f bp max : batch_ok room f -> room_ok room -> 1 <= bp -> forall todo i n w ng st r x, sinv align max w -> room w bp -> opt_ok ng -> 0 <= i -> 0 <= n ->
  (Z.of_nat todo - 1) * bp < n -> n <= Z.of_nat todo * bp -> i * bp + n <= 2 ^ 64 -> gej_rep f1 r (K x) ->
  exists res st' w', multi_loop f ng bp todo i n w st r = Some (res, st', w') /\ same_space (Some w') (Some w) /\ done (if i =? 0 then (match todo with O => None | _ => ng end) else None) x (Z.to_nat n) (i * bp) st res st'.
Proof.
  intros FO [RM RS] BP. induction todo as [|todo IH]; intros i n w ng st r x I R O I0 N0 T1 T2 B RR; cbn [multi_loop].
  - replace n with 0 by lia. exists (Some r), st, w. split; [reflexivity|]. split; [cbn [same_space]; repeat split; intros y; now right|]. split; [reflexivity|]. cbn [Z.to_nat ask fst]. exists r. split; [reflexivity|].
    intros kvs F. inversion F. destruct (i =? 0); cbn [lin fold_right opt_sv]; now rewrite !Z.add_0_r.
  - set (nbp := if n <? bp then n else bp). assert (NB : 1 <= nbp <= bp /\ nbp <= n /\ (nbp = n \/ nbp = bp)) by (unfold nbp; destruct (Z.ltb_spec n bp); nia).
    assert (NC : nbp = bp \/ todo = 0%nat) by (unfold nbp; destruct (Z.ltb_spec n bp); [right; nia|now left]). clearbody nbp.
    rewrite w64_id by nia. set (ng0 := if i =? 0 then ng else None). assert (O0 : opt_ok ng0) by (unfold ng0; destruct (i =? 0); [exact O|exact Logic.I]).
    destruct (FO max w ng0 st nbp (bp * i) I (RM _ _ _ R (proj2 (proj1 NB))) O0 ltac:(lia) ltac:(nia) ltac:(nia)) as (res & st1 & w1 & -> & I1 & S1 & D1).
    rewrite (Z.mul_comm i bp). replace (Z.to_nat n) with (Z.to_nat nbp + Z.to_nat (n - nbp))%nat by lia. unfold done in D1 |- *. rewrite ask_app. replace (if i =? 0 then ng else None) with ng0 by reflexivity.
    destruct D1 as [-> D1]. destruct (ask cb (Z.to_nat nbp) (bp * i) st) as [[l|] st2] eqn:EA; cbn [fst snd] in *.
    2: { rewrite D1. eexists; eexists; eexists. split; [reflexivity|]. split; [exact S1|]. split; reflexivity. }
    destruct D1 as (g & -> & G0). rewrite Z2Nat.id by lia.
    destruct (ask_terms _ _ _ _ _ EA) as (kvs0 & T0). pose proof (G0 kvs0 T0) as RG. pose proof (gej_add_var_ok f1 _ _ _ _ f1_nz RR RG) as RA. rewrite K_add in RA.
    assert (SUM : forall kvs, terms l kvs -> forall y, K (x + (0 + lin kvs0 + opt_sv ng0) + y) = K (x + (lin kvs + y) + opt_sv ng0)).
    { intros kvs TK y. replace (x + (0 + lin kvs0 + opt_sv ng0) + y) with (lin kvs0 + (x + opt_sv ng0 + y)) by ring. rewrite <- K_add, (terms_fun _ _ _ T0 TK), K_add. f_equal. ring. }
    destruct todo as [|todo'].
    + cbn [multi_loop]. replace (n - nbp) with 0 by lia. cbn [Z.to_nat ask fst snd]. eexists; eexists; eexists. split; [reflexivity|]. split; [exact S1|]. split; [reflexivity|].
      eexists. split; [reflexivity|]. rewrite app_nil_r. intros kvs TK. pose proof (SUM kvs TK 0) as E0. rewrite !Z.add_0_r in E0. rewrite <- E0. rewrite Z.add_0_l in RA |- *. exact RA.
    + assert (nbp = bp) by (destruct NC as [NC|NC]; [exact NC|discriminate NC]). subst nbp.
      destruct (IH (i + 1) (n - bp) w1 ng st2 _ _ I1 (RS _ _ _ (proj1 S1) R) O ltac:(lia) ltac:(lia) ltac:(lia) ltac:(lia) ltac:(lia) RA) as (res & st3 & w3 & E3 & S3 & D3 & D4).
      rewrite E3. exists res, st3, w3. split; [reflexivity|]. split; [exact (same_trans _ _ _ S3 S1)|]. replace ((i + 1) * bp) with (bp * i + bp) in D3, D4 by ring.
      replace (i + 1 =? 0) with false in D4 by (symmetry; apply Z.eqb_neq; lia). split; [destruct (ask cb (Z.to_nat (n - bp)) (bp * i + bp) st2) as [[l'|] st4]; exact D3|].
      destruct (ask cb (Z.to_nat (n - bp)) (bp * i + bp) st2) as [[l'|] st4]; cbn [fst snd] in *; [|exact D4]. destruct D4 as (h & -> & H). exists h. split; [reflexivity|].
      intros kvs TK. apply Forall2_app_inv_l in TK. destruct TK as (k1 & k2 & TK1 & TK2 & ->). specialize (H k2 TK2). cbn [opt_sv] in H. rewrite Z.add_0_r, (SUM k1 TK1 (lin k2)) in H. rewrite lin_app. exact H.
Qed.
(** ** The whole function *)
Theorem ecmult_multi_var_ok max scratch ng st n : (forall w, scratch = Some w -> sinv align max w) -> opt_ok ng -> 0 <= n < 2 ^ 64 ->
  exists res st' scratch', ecmult_multi_var cb align scratch ng st n = Some (res, st', scratch') /\ same_space scratch' scratch /\ done ng 0 (Z.to_nat n) 0 st res st'.
Proof.
  intros HI O N. assert (SS : same_space scratch scratch) by (destruct scratch; cbn [same_space]; repeat split; auto). unfold ecmult_multi_var. destruct (Z.eqb_spec n 0) as [->|N0].
  - cbn [Z.to_nat]. unfold done. cbn [ask fst snd].
    assert (M : exists g, (match ng with None => Some (Some gej_infinity, st, scratch) | Some _ => Some (Some (ecmult gej_infinity sc_zero ng), st, scratch) end) = Some (Some g, st, scratch) /\ gej_rep f1 g (K (opt_sv ng))).
    { destruct (multi_simple_ok ng st 0 O) as [_ D]. cbn [Z.to_nat ask fst] in D. destruct D as (g & E & H). unfold multi_simple_var in E. cbn [Z.to_nat simple_loop fst] in E. injection E as E.
      specialize (H [] (Forall2_nil _)). cbn [lin fold_right] in H. rewrite !Z.add_0_l in H.
      destruct ng as [s|]; [exists g; rewrite E; split; [reflexivity|exact H]|]. exists gej_infinity. split; [reflexivity|]. apply gej_infinity_rep. }
    destruct M as (g & -> & RG). exists (Some g), st, scratch. split; [reflexivity|]. split; [exact SS|]. split; [reflexivity|]. exists g. split; [reflexivity|]. intros kvs F. inversion F. cbn [lin fold_right]. rewrite !Z.add_0_l. exact RG.
  - assert (SIMPLE : exists res st' scratch', Some (multi_simple_var cb ng st n, scratch) = Some (res, st', scratch') /\ same_space scratch' scratch /\ done ng 0 (Z.to_nat n) 0 st res st').
    { pose proof (multi_simple_ok ng st n O) as D. cbv zeta in D. destruct (multi_simple_var cb ng st n) as [res st']. cbn [fst snd] in D. exists res, st', scratch. auto. }
    destruct scratch as [w|]; [|exact SIMPLE]. specialize (HI w eq_refl).
    assert (LOOP : forall room f nb bp m, batch_ok room f -> room_ok room -> 0 <= m -> batch_size_helper m n = Some (nb, bp) -> (bp <= m -> bp <= max_points_per_batch -> room w bp) ->
      exists res st' scratch', match multi_loop f ng bp (Z.to_nat nb) 0 n w st gej_infinity with None => None | Some (r, st0, w0) => Some (r, st0, Some w0) end = Some (res, st', scratch') /\ same_space scratch' (Some w) /\ done ng 0 (Z.to_nat n) 0 st res st').
    { intros room f nb bp m BO RO M0 E HR. destruct (batch_sizes m n nb bp M0 ltac:(lia) E) as (B1 & B2 & B3 & B4).
      destruct (multi_loop_ok room f bp max BO RO ltac:(lia) (Z.to_nat nb) 0 n w ng st gej_infinity 0 HI (HR ltac:(lia) B2) O ltac:(lia) ltac:(lia) ltac:(lia) ltac:(lia) ltac:(lia) (gej_infinity_rep f1)) as (res & st' & w' & -> & S1 & D1).
      exists res, st', (Some w'). split; [reflexivity|]. split; [exact S1|]. rewrite Z.mul_0_l in D1. cbn [Z.eqb] in D1. destruct (Z.to_nat nb) eqn:EN; [lia|]. exact D1. }
    destruct (max_alloc_ok align AL max w pippenger_scratch_objects HI ltac:(unfold pippenger_scratch_objects; lia)) as (P1 & _ & _).
    destruct (max_alloc_ok align AL max w strauss_scratch_objects HI ltac:(unfold strauss_scratch_objects; lia)) as (Q1 & _ & _).
    assert (MP : 0 <= pippenger_max_points align w).
    { unfold pippenger_max_points. set (ma := snd _) in *. clearbody ma. assert (Q : forall todo bw res, 0 <= res -> 0 <= max_points_loop todo bw ma res); [|apply Q; lia].
      induction todo as [|todo IH]; intros bw res R; cbn [max_points_loop]; [exact R|]. cbv zeta. destruct (_ >? ma); [exact R|]. match goal with |- context [if ?a >? res then ?a else res] => destruct (Z.gtb_spec a res) end; destruct (_ <? _); try lia; apply IH; lia. }
    assert (MS : 0 <= strauss_max_points align w) by (unfold strauss_max_points; apply Z.div_pos; [exact Q1|reflexivity]).
    destruct (batch_size_helper (pippenger_max_points align w) n) as [[nb bp]|] eqn:E1; [|exact SIMPLE].
    destruct (bp >=? pippenger_threshold).
    + apply (LOOP pippenger_room_for _ nb bp _ pippenger_batch_ok pippenger_room_ok MP E1). intros; split; assumption.
    + destruct (batch_size_helper (strauss_max_points align w) n) as [[nb2 bp2]|] eqn:E2; [|exact SIMPLE].
      apply (LOOP strauss_room _ nb2 bp2 _ strauss_batch_ok strauss_room_ok MS E2). intros; assumption.
Qed.
End Align.
End Callback.
