(** The point multiplications of the 32-bit build next to those of the 64-bit build. *)
Require Import ZArith List Bool Lia.
From Verif Require Import Word Word32 Bytes Spec FieldModel ScalarModel Field32Model Field32Bytes Scalar32Model Scalar32Ops FieldBytes GroupModel EcmultModel EcmultProof W32_Base W32_Group W32_Ecmult W32_Tight W32_SimField W32_SimScalar W32_SimGroup.
Import ListNotations.
Local Open Scope Z_scope.

Lemma Forall2_nth_d {A B} (R : A -> B -> Prop) da db : R da db -> forall l m, Forall2 R l m -> forall i, R (nth i l da) (nth i m db).
Proof. intros D. induction 1 as [|x y l m Hx Hl IH]; intros [|i]; cbn [nth]; [exact D|exact D|exact Hx|apply IH]. Qed.
Lemma Forall2_skipn' {A B} (R : A -> B -> Prop) l m : Forall2 R l m -> forall k, Forall2 R (skipn k l) (skipn k m).
Proof. induction 1 as [|x y l m Hx Hl IH]; intros [|k]; cbn [skipn]; [constructor|constructor|constructor; assumption|apply IH]. Qed.
Lemma Forall2_rev' {A B} (R : A -> B -> Prop) l m : Forall2 R l m -> Forall2 R (rev l) (rev m).
Proof. induction 1 as [|x y l m Hx Hl IH]; cbn [rev]; [constructor|]. apply Forall2_app; [exact IH|constructor; [exact Hx|constructor]]. Qed.
Lemma Forall2_map' {A B C D} (R : A -> B -> Prop) (Q : C -> D -> Prop) f g l m : (forall a b, R a b -> Q (f a) (g b)) -> Forall2 R l m -> Forall2 Q (map f l) (map g m).
Proof. intros H. induction 1; cbn [map]; constructor; auto. Qed.

(** ** Signed-digit recoding *)
Lemma r_wnaf_loop w sign len s s' : same s s' -> 1 <= w <= 31 -> 0 <= len <= 256 -> forall fuel bit carry l last, 0 <= bit ->
  wnaf_loop_w32 fuel s w sign len bit carry l last = wnaf_loop fuel s' w sign len bit carry l last.
Proof.
  intros Hs Hw Hl. induction fuel as [|fuel IH]; intros bit carry l last Hb; cbn [wnaf_loop_w32 wnaf_loop]; [reflexivity|].
  destruct (Z.ltb_spec bit len) as [L|L]; [|reflexivity].
  assert (Q32 : (bit + 1 - 1) / 32 = bit / 32) by (f_equal; lia). assert (Q64 : (bit + 1 - 1) / 64 = bit / 64) by (f_equal; lia).
  rewrite (same_get_bits_limb32 s s' bit 1 Hs Hb ltac:(lia) ltac:(lia) Q32 Q64).
  destruct (_ =? carry); [apply IH; lia|]. cbv zeta.
  set (now := if w >? len - bit then len - bit else w).
  assert (N : 1 <= now <= 31 /\ bit + now <= len) by (unfold now; destruct (Z.gtb_spec w (len - bit)); lia).
  rewrite (same_get_bits_var s s' bit now Hs Hb ltac:(lia) ltac:(lia)). apply IH. lia.
Qed.
Lemma r_wnaf len a a' w : same a a' -> 1 <= w <= 31 -> (len <= 256)%nat -> ecmult_wnaf_w32 len a w = ecmult_wnaf len a' w.
Proof.
  intros Hs Hw Hl. unfold ecmult_wnaf_w32, ecmult_wnaf.
  rewrite (same_get_bits_limb32 a a' 255 1 Hs ltac:(lia) ltac:(lia) ltac:(lia) eq_refl eq_refl). cbv zeta.
  set (b := negb _). rewrite (r_wnaf_loop w _ _ (if b then s8_negate a else a) (if b then sc_negate a' else a')); [reflexivity| |exact Hw|lia|lia].
  destruct b; [exact (same_negate _ _ Hs)|exact Hs].
Qed.

(** ** Tables *)
Definition rgz (m : Z) (a : ge_w32 * fe26) (b : ge * fe) : Prop := RG (fst a) (fst b) /\ rf m (snd a) (snd b).
Lemma rgz_weaken m k a b : rgz m a b -> m <= k -> rgz k a b.
Proof. intros (A & B) H. split; [exact A|exact (rf_weaken _ _ _ _ B H)]. Qed.
Lemma rg_set_xy4 x y x' y' : rf 4 x x' -> rf 4 y y' -> RG (ge_set_xy_w32 x y) (ge_set_xy x' y').
Proof. intros. apply rg_set_xy; assumption. Qed.
Lemma rg_4 a b : rge 1 1 a b -> RG a b.
Proof. intros H. apply (rge_weaken 1 1); [exact H|lia..]. Qed.
Lemma r_odd_loop d d' : RG d d' -> forall k a a', RJ a a' ->
  Forall2 (rgz 6) (fst (odd_loop_w32 k a d)) (fst (odd_loop k a' d')) /\ RJ (snd (odd_loop_w32 k a d)) (snd (odd_loop k a' d')).
Proof.
  intros Hd. induction k as [|k IH]; intros a a' Ha; cbn [odd_loop_w32 odd_loop]; [split; [constructor|exact Ha]|].
  pose proof (rjz_add_ge_gen _ _ _ _ _ Ha Hd eq_refl) as Q.
  destruct (gej_add_ge_var_rzr_w32 a d) as [ai zr], (gej_add_ge_var_rzr a' d') as [ai' zr']. destruct Q as (Q1 & Q2). cbn [fst snd] in Q1, Q2.
  destruct (IH _ _ Q1) as (I1 & I2). destruct (odd_loop_w32 k ai d), (odd_loop k ai' d'). cbn [fst snd] in *.
  split; [|exact I2]. constructor; [|exact I1]. split; cbn [fst snd]; [|exact Q2]. destruct Q1 as (X & Y & _). apply rg_set_xy; assumption.
Qed.
Lemma r_odd_table size a a' : RJ a a' ->
  Forall2 (rgz 6) (fst (odd_multiples_table_w32 size a)) (fst (odd_multiples_table size a')) /\ RF (snd (odd_multiples_table_w32 size a)) (snd (odd_multiples_table size a')).
Proof.
  intros H. unfold odd_multiples_table_w32, odd_multiples_table. cbv zeta.
  pose proof (rj_double_var _ _ H) as D. pose proof D as (DX & DY & DZ & _).
  pose proof (rg_set_gej_zinv 1 1 _ _ _ _ H DZ ltac:(lia)) as P0. pose proof (rj_set_ge _ _ _ _ P0) as (AX & AY & _ & AI).
  assert (A0 : RJ (mkgej_w32 (jx_w32 (gej_set_ge_w32 (ge_set_gej_zinv_w32 a (jz_w32 (gej_double_var_w32 a))))) (jy_w32 (gej_set_ge_w32 (ge_set_gej_zinv_w32 a (jz_w32 (gej_double_var_w32 a))))) (jz_w32 a) (jinf_w32 (gej_set_ge_w32 (ge_set_gej_zinv_w32 a (jz_w32 (gej_double_var_w32 a))))))
             (mkgej (jx (gej_set_ge (ge_set_gej_zinv a' (jz (gej_double_var a'))))) (jy (gej_set_ge (ge_set_gej_zinv a' (jz (gej_double_var a'))))) (jz a') (jinf (gej_set_ge (ge_set_gej_zinv a' (jz (gej_double_var a'))))))).
  { destruct H as (_ & _ & HZ & _). apply rgej_intro; [apply (rf_weaken 1); [exact AX|lia]|apply (rf_weaken 1); [exact AY|lia]|exact HZ|exact AI]. }
  assert (Dg : RG (ge_set_xy_w32 (jx_w32 (gej_double_var_w32 a)) (jy_w32 (gej_double_var_w32 a))) (ge_set_xy (jx (gej_double_var a')) (jy (gej_double_var a')))).
  { apply rg_set_xy4; rgw. }
  destruct (r_odd_loop _ _ Dg (size - 1) _ _ A0) as (L1 & L2).
  destruct (odd_loop_w32 _ _ _) as [l aif], (odd_loop _ _ _) as [l' aif']. cbn [fst snd] in *. destruct L2 as (_ & _ & LZ & _).
  split; [|rgo]. constructor; [|exact L1]. split; cbn [fst snd]; [exact (rg_4 _ _ P0)|rgw].
Qed.
Lemma r_globalz_back l l' : Forall2 (rgz 6) l l' -> forall m z z', rf m z z' -> m <= 8 -> Forall2 (rge 1 1) (globalz_back_w32 l z) (globalz_back l' z').
Proof.
  induction 1 as [|[a r] [a' r'] l l' (Ha & Hr) Hl IH]; intros m z z' Hz Hm; cbn [globalz_back_w32 globalz_back]; constructor.
  - exact (rg_set_ge_zinv _ _ _ _ _ Ha Hz Hm).
  - apply (IH 1); [cbn [fst snd] in Hr; rgo|lia].
Qed.
Lemma r_globalz l l' : Forall2 (rgz 6) l l' -> Forall2 (rge 4 1) (ge_table_set_globalz_w32 l) (ge_table_set_globalz l').
Proof.
  intros H. apply Forall2_rev' in H. unfold ge_table_set_globalz_w32, ge_table_set_globalz.
  destruct H as [|[a r] [a' r'] l0 l0' (Ha & Hr) Hl]; [constructor|]. apply Forall2_rev'. cbn [fst snd] in Ha, Hr. destruct Ha as (X & Y & E). constructor.
  - apply rge_intro; [exact X|rgo|exact E].
  - pose proof (r_globalz_back _ _ Hl 6 _ _ Hr ltac:(lia)) as G. clear - G. induction G; constructor; [|assumption]. apply (rge_weaken 1 1); [assumption|lia..].
Qed.
Lemma rg0 : rge 1 1 ge0_w32 ge0. Proof. exact rg_infinity. Qed.
Lemma rf0 : RF fe0_w32 fe0. Proof. exact (rf_set_int 0 ltac:(lia)). Qed.
Lemma rgs0 : rgs ges0_w32 ges0. Proof. split; apply rs_to; apply rn_set_int; lia. Qed.
Lemma rg_neg_entry a b : rge 4 1 a b -> RG (mkge_w32 (gx_w32 a) (f26_negate (gy_w32 a) 1) (ginf_w32 a)) (mkge (gx b) (fe_negate (gy b) 1) (ginf b)).
Proof. intros (X & Y & E). apply rge_intro; [exact X|rgw|exact E]. Qed.
Lemma rg_41 a b : rge 4 1 a b -> RG a b. Proof. intros H. apply (rge_weaken 4 1); [exact H|lia..]. Qed.
Lemma rg0_41 : rge 4 1 ge0_w32 ge0. Proof. apply (rge_weaken 1 1); [exact rg0|lia..]. Qed.
Lemma r_table_get pre pre' m : Forall2 (rge 4 1) pre pre' -> RG (table_get_ge_w32 pre m) (table_get_ge pre' m).
Proof.
  intros H. unfold table_get_ge_w32, table_get_ge. destruct (m >? 0).
  - apply rg_41, Forall2_nth_d; [exact rg0_41|exact H].
  - cbv zeta. apply rg_neg_entry, Forall2_nth_d; [exact rg0_41|exact H].
Qed.
Lemma r_table_get_lambda pre pre' x x' m : Forall2 (rge 4 1) pre pre' -> Forall2 RF x x' -> RG (table_get_ge_lambda_w32 pre x m) (table_get_ge_lambda pre' x' m).
Proof.
  intros H K. unfold table_get_ge_lambda_w32, table_get_ge_lambda.
  assert (R : forall i, rge 4 1 (ge_set_xy_w32 (nth i x fe0_w32) (gy_w32 (nth i pre ge0_w32))) (ge_set_xy (nth i x' fe0) (gy (nth i pre' ge0)))).
  { intros i. pose proof (Forall2_nth_d _ _ _ rf0 _ _ K i) as X. pose proof (Forall2_nth_d _ _ _ rg0_41 _ _ H i) as (_ & Y & _).
    apply rg_set_xy; [rgw|exact Y]. }
  destruct (m >? 0); [apply rg_41, R|]. cbv zeta. apply rg_neg_entry, R.
Qed.
Lemma r_table_get_storage pre pre' m : Forall2 rgs pre pre' -> RG (table_get_ge_storage_w32 pre m) (table_get_ge_storage pre' m).
Proof.
  intros H. unfold table_get_ge_storage_w32, table_get_ge_storage.
  assert (R : forall i, rge 4 1 (ge_from_storage_w32 (nth i pre ges0_w32)) (ge_from_storage (nth i pre' ges0))).
  { intros i. pose proof (rgt_rge _ _ (rgt_from _ _ (Forall2_nth_d _ _ _ rgs0 _ _ H i))) as X. apply (rge_weaken 1 1); [exact X|lia..]. }
  destruct (m >? 0); [apply rg_41, R|]. cbv zeta. apply rg_neg_entry, R.
Qed.

(** ** The generator tables *)
Lemma rs_halves s : fes_ok s -> rs (fes_halves s) s.
Proof.
  intros H. split; [|split; [exact H|]].
  - destruct H as (H0 & H1 & H2 & H3). unfold fes_halves, s26_ok. cbn [q0 q1 q2 q3 q4 q5 q6 q7].
    assert (R : forall v, 0 <= v < 2 ^ 64 -> 0 <= v mod 2 ^ 32 < 2 ^ 32 /\ 0 <= v / 2 ^ 32 < 2 ^ 32).
    { intros v Hv. split; [apply Z.mod_pos_bound; reflexivity|]. split; [apply Z.div_pos; [apply Hv|reflexivity]|].
      apply Z.div_lt_upper_bound; [reflexivity|]. change (2 ^ 32 * 2 ^ 32) with (2 ^ 64). apply Hv. }
    pose proof (R _ H0) as [? ?]. pose proof (R _ H1) as [? ?]. pose proof (R _ H2) as [? ?]. pose proof (R _ H3) as [? ?].
    repeat (split; [assumption|]). assumption.
  - unfold fes_halves, s26val, sval. cbn [q0 q1 q2 q3 q4 q5 q6 q7].
    assert (R : forall v, v mod 2 ^ 32 + v / 2 ^ 32 * 2 ^ 32 = v) by (intros v; pose proof (Z.div_mod v (2 ^ 32) ltac:(discriminate)); lia).
    rewrite <- (R (s0 s)) at 3. rewrite <- (R (s1 s)) at 3. rewrite <- (R (s2 s)) at 3. rewrite <- (R (s3 s)) at 3. ring.
Qed.
Lemma rgs_halves s : fes_ok (stx s) -> fes_ok (sty s) -> rgs (ges_halves s) s.
Proof. intros H K. split; apply rs_halves; assumption. Qed.
(** The 64-bit table generator works within the magnitude limits: each of its values is the
    partner of some 32-bit value. *)
Lemma pg_storage b : (exists a, rge 1 1 a b) -> fes_ok (stx (ge_to_storage b)) /\ fes_ok (sty (ge_to_storage b)).
Proof. intros (a & H). destruct (rgs_to _ _ (rg_4 _ _ H)) as ((_ & A & _) & (_ & B & _)). split; assumption. Qed.
Lemma pg_loop d : (exists c, rge 1 1 c d) -> forall k g, (exists a, rge 1 1 a g) -> Forall (fun s => fes_ok (stx s) /\ fes_ok (sty s)) (compute_table_loop k g d).
Proof.
  intros (c & Hc). induction k as [|k IH]; intros g (a & Ha); cbn [compute_table_loop]; [constructor|]. cbv zeta.
  assert (N : exists a, rge 1 1 a (ge_set_gej_var (gej_add_ge_var (gej_set_ge g) d))).
  { eexists. apply rg_set_gej_var, rj_add_ge_var; [apply rj_set_ge, rg_4, Ha|apply rg_4, Hc]. }
  constructor; [exact (pg_storage _ N)|apply IH; exact N].
Qed.
Lemma pg_table size gen : (exists a, RJ a gen) -> Forall (fun s => fes_ok (stx s) /\ fes_ok (sty s)) (compute_table size gen).
Proof.
  intros (a & Ha). unfold compute_table. cbv zeta.
  assert (N : exists a, rge 1 1 a (ge_set_gej_var gen)) by (eexists; apply rg_set_gej_var; exact Ha).
  constructor; [exact (pg_storage _ N)|]. apply pg_loop; [|exact N].
  eexists. apply rg_set_gej_var. apply (rj_weaken 3 4 1); [apply rj_double_var; exact Ha|lia..].
Qed.
Lemma pg_double k : forall b, (exists a, RJ a b) -> exists a, RJ a (double_times k b).
Proof.
  induction k as [|k IH]; intros b (a & Ha); cbn [double_times]; [exists a; exact Ha|]. apply IH. eexists.
  apply (rj_weaken 3 4 1); [apply rj_double_var; exact Ha|lia..].
Qed.
Lemma pg_gen : exists a, RJ a (gej_set_ge ge_const_g).
Proof. eexists. apply rj_set_ge, rg_4, rg_const_g. Qed.
Lemma r_halves_table l : Forall (fun s => fes_ok (stx s) /\ fes_ok (sty s)) l -> Forall2 rgs (map ges_halves l) l.
Proof. induction 1 as [|s l (A & B) Hl IH]; cbn [map]; constructor; [apply rgs_halves; assumption|exact IH]. Qed.
Lemma two_tables_ok size : Forall (fun s => fes_ok (stx s) /\ fes_ok (sty s)) (fst (compute_two_tables size ge_const_g)) /\
  Forall (fun s => fes_ok (stx s) /\ fes_ok (sty s)) (snd (compute_two_tables size ge_const_g)).
Proof. unfold compute_two_tables. cbn [fst snd]. split; apply pg_table; [exact pg_gen|exact (pg_double 128 _ pg_gen)]. Qed.
#[local] Transparent pre_g pre_g_128.
Lemma r_pre_g : Forall2 rgs pre_g_w32 pre_g.
Proof. apply r_halves_table. exact (proj1 (two_tables_ok (table_size window_g))). Qed.
Lemma r_pre_g_128 : Forall2 rgs pre_g_128_w32 pre_g_128.
Proof. apply r_halves_table. exact (proj2 (two_tables_ok (table_size window_g))). Qed.
#[local] Opaque pre_g pre_g_128 pre_g_w32 pre_g_128_w32.

(** ** Strauss *)
Lemma r_mul_first t t' z z' : Forall2 (rgz 6) t t' -> RF z z' -> Forall2 (rgz 6) (mul_first_zr_w32 t z) (mul_first_zr t' z').
Proof.
  intros H Hz. destruct H as [|[g r] [g' r'] t t' (A & B) Ht]; cbn [mul_first_zr_w32 mul_first_zr]; constructor; [|exact Ht].
  cbn [fst snd] in A, B. split; cbn [fst snd]; [exact A|rgw].
Qed.
Definition rterm (a : gej_w32 * sc8) (b : gej * sc) : Prop := RJ (fst a) (fst b) /\ same (snd a) (snd b).
Lemma r_strauss_prep l l' : Forall2 rterm l l' -> forall ps tab tab' z z', Forall2 (rgz 6) tab tab' -> RF z z' ->
  fst (fst (strauss_prep_w32 l ps tab z)) = fst (fst (strauss_prep l' ps tab' z')) /\
  Forall2 (rgz 6) (snd (fst (strauss_prep_w32 l ps tab z))) (snd (fst (strauss_prep l' ps tab' z'))) /\
  RF (snd (strauss_prep_w32 l ps tab z)) (snd (strauss_prep l' ps tab' z')).
Proof.
  induction 1 as [|[a na] [a' na'] l l' (Ha & Hn) Hl IH]; intros ps tab tab' z z' Ht Hz; cbn [strauss_prep_w32 strauss_prep].
  { split; [reflexivity|]. split; assumption. }
  cbn [fst snd] in Ha, Hn. unfold gej_is_infinity_w32, gej_is_infinity. rewrite (same_zero_test _ _ Hn), (r_jinf _ _ _ _ _ Ha).
  destruct (sc_is_zero na' || jinf a'); [apply IH; assumption|].
  pose proof (same_split_lambda _ _ Hn) as (S1 & S2). destruct (s8_split_lambda na) as [n1 nl], (sc_split_lambda na') as [n1' nl']. cbn [fst snd] in S1, S2.
  rewrite (r_wnaf 129 _ _ window_a S1 ltac:(unfold window_a; lia) ltac:(lia)), (r_wnaf 129 _ _ window_a S2 ltac:(unfold window_a; lia) ltac:(lia)).
  destruct (ecmult_wnaf 129 n1' window_a) as [w1 b1], (ecmult_wnaf 129 nl' window_a) as [wl bl]. cbv zeta.
  set (first := match ps with [] => true | _ => false end).
  assert (T : RJ (if first then a else gej_rescale_w32 a z) (if first then a' else gej_rescale a' z')).
  { destruct first; [exact Ha|]. apply (rj_weaken 1 1 1); [exact (rj_rescale _ _ _ _ Ha Hz)|lia..]. }
  destruct (r_odd_table (table_size window_a) _ _ T) as (T1 & T2).
  destruct (odd_multiples_table_w32 _ _) as [t Zn], (odd_multiples_table _ _) as [t' Zn']. cbn [fst snd] in T1, T2.
  apply IH; [|exact T2]. apply Forall2_app; [exact Ht|]. destruct first; [exact T1|]. apply r_mul_first; [exact T1|]. destruct Ha as (_ & _ & HZ & _). exact HZ.
Qed.
Lemma r_strauss_points i ps : forall pre pre' aux aux' r r', Forall2 (rge 4 1) pre pre' -> Forall2 RF aux aux' -> RJ r r' ->
  RJ (strauss_points_w32 i ps pre aux r) (strauss_points i ps pre' aux' r').
Proof.
  induction ps as [|s ps IH]; intros pre pre' aux aux' r r' Hp Hx Hr; cbn [strauss_points_w32 strauss_points]; [exact Hr|]. cbv zeta.
  apply IH; [apply Forall2_skipn'; exact Hp|apply Forall2_skipn'; exact Hx|].
  match goal with |- RJ (if ?b then _ else _) _ => destruct b end.
  - apply rj_add_ge_var; [|apply r_table_get_lambda; assumption].
    match goal with |- RJ (if ?b then _ else _) _ => destruct b end; [apply rj_add_ge_var; [exact Hr|apply r_table_get; exact Hp]|exact Hr].
  - match goal with |- RJ (if ?b then _ else _) _ => destruct b end; [apply rj_add_ge_var; [exact Hr|apply r_table_get; exact Hp]|exact Hr].
Qed.
Lemma r_strauss_gen i wb pre pre' z z' r r' : Forall2 rgs pre pre' -> RF z z' -> RJ r r' -> RJ (strauss_gen_w32 i wb pre z r) (strauss_gen i wb pre' z' r').
Proof.
  intros Hp Hz Hr. unfold strauss_gen_w32, strauss_gen. cbv zeta. match goal with |- RJ (if ?b then _ else _) _ => destruct b end; [|exact Hr].
  apply rj_add_zinv; [exact Hr|apply r_table_get_storage; exact Hp|exact Hz].
Qed.
Lemma r_strauss_loop ps pre pre' aux aux' g1 g128 z z' : Forall2 (rge 4 1) pre pre' -> Forall2 RF aux aux' -> RF z z' -> forall i r r', RJ r r' ->
  RJ (strauss_loop_w32 i ps pre aux g1 g128 z r) (strauss_loop i ps pre' aux' g1 g128 z' r').
Proof.
  intros Hp Hx Hz. induction i as [|i IH]; intros r r' Hr; cbn [strauss_loop_w32 strauss_loop]; [exact Hr|]. cbv zeta. apply IH.
  apply r_strauss_gen; [exact r_pre_g_128|exact Hz|]. apply r_strauss_gen; [exact r_pre_g|exact Hz|].
  apply r_strauss_points; [exact Hp|exact Hx|]. apply (rj_weaken 3 4 1); [apply rj_double_var; exact Hr|lia..].
Qed.
Definition rso (a : option sc8) (b : option sc) : Prop := match a, b with Some x, Some y => same x y | None, None => True | _, _ => False end.
Lemma r_strauss l l' ng ng' : Forall2 rterm l l' -> rso ng ng' -> RJ (ecmult_strauss_wnaf_w32 l ng) (ecmult_strauss_wnaf l' ng').
Proof.
  intros H Hg. unfold ecmult_strauss_wnaf_w32, ecmult_strauss_wnaf.
  destruct (r_strauss_prep _ _ H [] [] [] (f26_set_int 1) (fe_set_int 1) (Forall2_nil _) (rf_set_int 1 ltac:(lia))) as (P1 & P2 & P3).
  destruct (strauss_prep_w32 _ _ _ _) as [[ps tab] Zv], (strauss_prep _ _ _ _) as [[ps' tab'] Zv']. cbn [fst snd] in P1, P2, P3. subst ps'.
  pose proof (r_globalz _ _ P2) as G.
  assert (A : Forall2 RF (map (fun g => f26_mul (gx_w32 g) const_beta_w32) (ge_table_set_globalz_w32 tab)) (map (fun g => fe_mul (gx g) const_beta) (ge_table_set_globalz tab'))).
  { eapply Forall2_map'; [|exact G]. intros a b (X & _). rgo. }
  cbv zeta.
  assert (W : match ng with None => (([], 0), ([], 0)) | Some k => let (k1, k128) := s8_split_128 k in (ecmult_wnaf_w32 129 k1 window_g, ecmult_wnaf_w32 129 k128 window_g) end
            = match ng' with None => (([], 0), ([], 0)) | Some k => let (k1, k128) := sc_split_128 k in (ecmult_wnaf 129 k1 window_g, ecmult_wnaf 129 k128 window_g) end).
  { destruct ng as [k|], ng' as [k'|]; try contradiction; [|reflexivity]. pose proof (same_split_128 _ _ Hg) as (S1 & S2).
    destruct (s8_split_128 k) as [k1 k2], (sc_split_128 k') as [k1' k2']. cbn [fst snd] in S1, S2.
    rewrite (r_wnaf 129 _ _ window_g S1 ltac:(unfold window_g; lia) ltac:(lia)), (r_wnaf 129 _ _ window_g S2 ltac:(unfold window_g; lia) ltac:(lia)). reflexivity. }
  rewrite W. match goal with |- context [match ng' with _ => _ end] => destruct (match ng' with None => _ | _ => _ end) as [g1 g128] end.
  pose proof (r_strauss_loop ps _ _ _ _ g1 g128 _ _ G A P3 (Z.to_nat (Z.max (Z.max (strauss_bits ps) (snd g1)) (snd g128))) _ _ rj_inf4) as L.
  rewrite (r_jinf _ _ _ _ _ L). match goal with |- RJ (if ?b then _ else _) _ => destruct b end; [exact L|].
  destruct L as (X & Y & Z' & E). apply rgej_intro; [exact X|exact Y|rgo|first [exact E|reflexivity]].
Qed.
Lemma r_ecmult a a' na na' ng ng' : RJ a a' -> same na na' -> rso ng ng' -> RJ (ecmult_w32 a na ng) (ecmult a' na' ng').
Proof. intros Ha Hn Hg. apply r_strauss; [|exact Hg]. constructor; [split; assumption|constructor]. Qed.

(** ** Constant-time multiplication *)
Lemma r_const_table a a' : RJ a a' -> Forall2 (rge 4 1) (fst (const_table_globalz_w32 a)) (fst (const_table_globalz a')) /\ RF (snd (const_table_globalz_w32 a)) (snd (const_table_globalz a')).
Proof.
  intros H. unfold const_table_globalz_w32, const_table_globalz. destruct (r_odd_table ec_table_size _ _ H) as (A & B).
  destruct (odd_multiples_table_w32 _ _), (odd_multiples_table _ _). cbn [fst snd] in *. split; [apply r_globalz; exact A|exact B].
Qed.
Lemma r_const_scan l l' index : Forall2 (rge 4 1) l l' -> forall m r r', rge 4 1 r r' -> rge 4 1 (const_scan_w32 l m index r) (const_scan l' m index r').
Proof.
  induction 1 as [|e e' l l' (X & Y & _) Hl IH]; intros m r r' Hr; cbn [const_scan_w32 const_scan]; [exact Hr|]. apply IH. destruct Hr as (X' & Y' & E').
  apply rge_intro; [apply rf_cmov; [exact X'|exact X|lia|apply b2z_01]|apply rf_cmov; [exact Y'|exact Y|lia|apply b2z_01]|exact E'].
Qed.
Lemma lxor1_01 v : v = 0 \/ v = 1 -> Z.lxor v 1 = 0 \/ Z.lxor v 1 = 1.
Proof. intros [->| ->]; [right|left]; reflexivity. Qed.
Lemma r_const_get pre pre' v : Forall2 (rge 4 1) pre pre' -> 0 <= v < 2 ^ ec_group_size -> RG (const_table_get_ge_w32 pre v) (const_table_get_ge pre' v).
Proof.
  intros H Hv. unfold const_table_get_ge_w32, const_table_get_ge. cbv zeta.
  assert (N : Z.lxor (Z.shiftr v (ec_group_size - 1)) 1 = 0 \/ Z.lxor (Z.shiftr v (ec_group_size - 1)) 1 = 1).
  { apply lxor1_01. unfold ec_group_size in *. rewrite Z.shiftr_div_pow2 by lia.
    assert (0 <= v / 2 ^ (5 - 1) < 2) by (split; [apply Z.div_pos; lia|apply Z.div_lt_upper_bound; lia]). lia. }
  set (idx := Z.land _ _).
  assert (R : rge 4 1 (const_scan_w32 (tl pre) 1 idx (mkge_w32 (gx_w32 (hd ge0_w32 pre)) (gy_w32 (hd ge0_w32 pre)) false)) (const_scan (tl pre') 1 idx (mkge (gx (hd ge0 pre')) (gy (hd ge0 pre')) false))).
  { destruct H as [|e e' l l' He Hl]; cbn [tl hd].
    - destruct rg0_41 as (X & Y & _). apply r_const_scan; [constructor|]. apply rge_intro; [exact X|exact Y|reflexivity].
    - destruct He as (X & Y & _). apply r_const_scan; [exact Hl|]. apply rge_intro; [exact X|exact Y|reflexivity]. }
  destruct R as (X & Y & _). apply rge_intro; [exact X| |reflexivity].
  apply rf_cmov; [rgw|rgw|lia|exact N].
Qed.
Lemma rj_const_double k : forall a b, RJ a b -> RJ (const_double_w32 k a) (const_double k b).
Proof. induction k as [|k IH]; intros a b H; cbn [const_double_w32 const_double]; [exact H|]. apply IH. apply (rj_weaken 3 4 1); [apply rj_double; exact H|lia..]. Qed.
Lemma r_const_loop v1 v1' v2 v2' pre pre' lam lam' : same v1 v1' -> same v2 v2' -> Forall2 (rge 4 1) pre pre' -> Forall2 (rge 4 1) lam lam' ->
  forall g r r', (g <= ec_groups)%nat -> RJ r r' -> RJ (const_loop_w32 g v1 v2 pre lam r) (const_loop g v1' v2' pre' lam' r').
Proof.
  intros S1 S2 Hp Hl. induction g as [|g IH]; intros r r' Hg Hr; cbn [const_loop_w32 const_loop]; [exact Hr|].
  assert (O1 : 0 <= Z.of_nat g * ec_group_size) by (unfold ec_group_size; lia).
  assert (O2 : Z.of_nat g * ec_group_size + ec_group_size <= 256) by (unfold ec_group_size, ec_groups in *; lia).
  assert (O3 : 1 <= ec_group_size <= 32) by (unfold ec_group_size; lia).
  rewrite (same_get_bits_var _ _ _ _ S1 O1 O3 O2), (same_get_bits_var _ _ _ _ S2 O1 O3 O2). cbv zeta.
  assert (B : forall v, ScalarProof.sc_ok v -> 0 <= sc_get_bits_var v (Z.of_nat g * ec_group_size) ec_group_size < 2 ^ ec_group_size).
  { intros v [Hv _]. rewrite (ScalarSplit.sc_get_bits_var_ok _ _ _ Hv O1 O3 O2). apply Z.mod_pos_bound. reflexivity. }
  pose proof S1 as (_ & V1 & _). pose proof S2 as (_ & V2 & _).
  apply IH; [lia|]. apply rj_add_ge; [|apply r_const_get; [exact Hl|apply B; exact V2]].
  destruct (Nat.eqb g (ec_groups - 1)).
  - apply rj_set_ge. apply r_const_get; [exact Hp|apply B; exact V1].
  - apply rj_add_ge; [apply rj_const_double; exact Hr|apply r_const_get; [exact Hp|apply B; exact V1]].
Qed.
Lemma r_ecmult_const a a' q q' : RG a a' -> same q q' -> RJ (ecmult_const_w32 a q) (ecmult_const a' q').
Proof.
  intros Ha Hq. unfold ecmult_const_w32, ecmult_const, ge_is_infinity_w32, ge_is_infinity. rewrite (r_ginf _ _ _ _ Ha). destruct (ginf a'); [exact rj_inf4|]. cbv zeta.
  assert (KK : same ec_K_w32 ec_K) by (apply same_of_Z; vm_compute; reflexivity).
  assert (KS : same ec_S_OFFSET_w32 ec_S_OFFSET) by (apply same_of_Z; vm_compute; reflexivity).
  pose proof (same_split_lambda _ _ (same_half _ _ (same_add _ _ _ _ Hq KK))) as (S1 & S2).
  destruct (s8_split_lambda _) as [v1 v2], (sc_split_lambda _) as [v1' v2']. cbn [fst snd] in S1, S2.
  destruct (r_const_table _ _ (rj_set_ge _ _ _ _ Ha)) as (T1 & T2).
  destruct (const_table_globalz_w32 _) as [pre gz], (const_table_globalz _) as [pre' gz']. cbn [fst snd] in T1, T2.
  assert (T3 : Forall2 (rge 4 1) (map ge_mul_lambda_w32 pre) (map ge_mul_lambda pre')).
  { eapply Forall2_map'; [|exact T1]. intros x y Hxy. apply (rge_weaken 1 1); [exact (rg_mul_lambda _ _ _ Hxy)|lia..]. }
  pose proof (r_const_loop _ _ _ _ _ _ _ _ (same_add _ _ _ _ S1 KS) (same_add _ _ _ _ S2 KS) T1 T3 ec_groups _ _ (le_n _) rj_inf4) as (X & Y & Z' & E).
  apply rgej_intro; [exact X|exact Y|rgo|exact E].
Qed.
Definition rfo (m : Z) (a : option fe26) (b : option fe) : Prop := match a, b with Some x, Some y => rf m x y | None, None => True | _, _ => False end.
Lemma r_const_xonly x x' d d' q q' known : rf 8 x x' -> rfo 8 d d' -> same q q' -> rfo 1 (ecmult_const_xonly_w32 x d q known) (ecmult_const_xonly x' d' q' known).
Proof.
  intros Hx Hd Hq. unfold ecmult_const_xonly_w32, ecmult_const_xonly. cbv zeta.
  set (t := match d with Some d0 => _ | None => _ end). set (t' := match d' with Some d0 => _ | None => _ end).
  assert (T : rf 2 (fst t) (fst t') /\ snd t = snd t').
  { subst t t'. destruct d as [d|], d' as [d'|]; try contradiction; cbn [fst snd rfo] in *.
    - split; [rgw|]. f_equal. eapply rf_is_square; [rgo|lia].
    - split; [rgw|]. f_equal. eapply rf_is_square; [rgo|lia]. }
  destruct t as [g ok], t' as [g' ok']. cbn [fst snd] in T. destruct T as (Tg & <-). destruct ok; [|exact I].
  assert (P : RG (mkge_w32 (f26_mul g x) (f26_sqr g) false) (mkge (fe_mul g' x') (fe_sqr g') false)) by (apply rge_intro; [rgw|rgw|reflexivity]).
  pose proof (r_ecmult_const _ _ _ _ P Hq) as (X & Y & Z' & E). cbn [rfo].
  destruct d as [d|], d' as [d'|]; try contradiction; cbn [rfo] in Hd; rgo.
Qed.
