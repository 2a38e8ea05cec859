(** The group operations of the 32-bit build next to those of the 64-bit build. *)
Require Import ZArith List Bool Lia.
From Verif Require Import Word Word32 Bytes Spec FieldModel ScalarModel Field32Model Field32Bytes Scalar32Model FieldBytes GroupModel GroupProof5 W32_Base W32_Group W32_Api W32_Tight W32_SimField W32_SimScalar.
Import ListNotations.
Local Open Scope Z_scope.

Definition rge (mx my : Z) (a : ge_w32) (b : ge) : Prop :=
  rf mx (gx_w32 a) (gx b) /\ rf my (gy_w32 a) (gy b) /\ ginf_w32 a = ginf b.
Definition rgej (mx my mz : Z) (a : gej_w32) (b : gej) : Prop :=
  rf mx (jx_w32 a) (jx b) /\ rf my (jy_w32 a) (jy b) /\ rf mz (jz_w32 a) (jz b) /\ jinf_w32 a = jinf b.
(** The magnitude limits of src/group.h (4, 3 and 4, 4, 1), with 4 for every affine coordinate. *)
Notation RG := (rge 4 4).
Notation RJ := (rgej 4 4 1).
(** Related field elements, of a magnitude that every operation accepts. *)
Notation RF := (rf 1).

Lemma rge_weaken mx my kx ky a b : rge mx my a b -> mx <= kx -> my <= ky -> rge kx ky a b.
Proof. intros (X & Y & I') H1 H2. split; [exact (rf_weaken _ _ _ _ X H1)|]. split; [exact (rf_weaken _ _ _ _ Y H2)|exact I']. Qed.
Lemma rf_negate' m k a b : rf m a b -> m <= k -> 0 <= k <= 31 -> rf (k + 1) (f26_negate a k) (fe_negate b k).
Proof. intros H Hm Hk. apply rf_negate; [exact (rf_weaken _ _ _ _ H Hm)|exact Hk]. Qed.
Lemma rf_cmov' m k a b c d flag : rf m a b -> rf k c d -> m <= 32 -> 0 <= k <= 32 -> flag = 0 \/ flag = 1 -> rf (Z.max m k) (f26_cmov a c flag) (fe_cmov b d flag).
Proof.
  intros H K Hm Hk Hf. apply rf_cmov; [apply (rf_weaken m); [exact H|lia]|apply (rf_weaken k); [exact K|lia]|lia|exact Hf].
Qed.
Lemma b2z_01 b : b2z b = 0 \/ b2z b = 1. Proof. destruct b; [right|left]; reflexivity. Qed.
Lemma rf_one : rf 1 f26_one fe_one. Proof. exact (rn_rf _ _ rn_one). Qed.
Lemma rf_beta : rf 1 const_beta_w32 const_beta. Proof. exact (rn_rf _ _ rn_beta). Qed.
Lemma rf_set_int k : 0 <= k <= 0x7FFF -> rf 1 (f26_set_int k) (fe_set_int k). Proof. intros H. exact (rn_rf _ _ (rn_set_int k H)). Qed.
Lemma rf_inv m a b : rf m a b -> m <= 31 -> rf 1 (f26_inv_w32 a) (fe_inv b). Proof. intros H K. exact (rn_rf _ _ (rn_inv m _ _ H K)). Qed.
Lemma rf_inv_var m a b : rf m a b -> m <= 31 -> rf 1 (f26_inv_var_w32 a) (fe_inv_var b). Proof. intros H K. exact (rn_rf _ _ (rn_inv_var m _ _ H K)). Qed.
Lemma rf_normalize m a b : rf m a b -> m <= 31 -> rf 1 (f26_normalize a) (fe_normalize b). Proof. intros H K. exact (rn_rf _ _ (rn_normalize m _ _ H K)). Qed.
Lemma rf_normalize_var m a b : rf m a b -> m <= 31 -> rf 1 (f26_normalize_var a) (fe_normalize_var b). Proof. intros H K. exact (rn_rf _ _ (rn_normalize_var m _ _ H K)). Qed.

Ltac zside := first [assumption | exact (b2z_01 _) | lia | unfold curve_b; lia].
(** Relates two field expressions; the magnitude may be an evar. *)
Ltac rgo :=
  lazymatch goal with
  | |- rf _ (f26_mul _ _) _ => eapply rf_mul; [rgo|rgo|zside|zside]
  | |- rf _ (f26_sqr _) _ => eapply rf_sqr; [rgo|zside]
  | |- rf _ (f26_add _ _) _ => eapply rf_add; [rgo|rgo|zside|zside|zside]
  | |- rf _ (f26_add_int _ _) _ => eapply rf_add_int; [rgo|unfold curve_b; zside|zside]
  | |- rf _ (f26_negate _ _) _ => eapply rf_negate'; [rgo|zside|zside]
  | |- rf _ (f26_mul_int _ _) _ => eapply rf_mul_int; [rgo|zside|unfold curve_b; zside|unfold curve_b; zside]
  | |- rf _ (f26_half _) _ => eapply rf_half; [rgo|zside]
  | |- rf _ (f26_cmov _ _ _) _ => eapply rf_cmov'; [rgo|rgo|zside|zside|zside]
  | |- rf _ (f26_normalize_weak _) _ => eapply rf_normalize_weak; [rgo|zside]
  | |- rf _ (f26_normalize _) _ => eapply rf_normalize; [rgo|zside]
  | |- rf _ (f26_normalize_var _) _ => eapply rf_normalize_var; [rgo|zside]
  | |- rf _ (f26_inv_w32 _) _ => eapply rf_inv; [rgo|zside]
  | |- rf _ (f26_inv_var_w32 _) _ => eapply rf_inv_var; [rgo|zside]
  | |- rf _ (f26_set_int _) _ => apply rf_set_int; lia
  | |- rf _ f26_one _ => exact rf_one
  | |- rf _ const_beta_w32 _ => exact rf_beta
  | H : rf _ ?a ?b |- rf _ ?a ?b => exact H
  end.
(** The same against a given magnitude. *)
Ltac rgw := eapply rf_weaken; [rgo|first [lia | vm_compute; congruence]].
(** One [let] on each side. *)
Ltac rlet :=
  lazymatch goal with
  | |- ?R (let x := ?e in @?k x) (let y := ?e' in @?k' y) =>
    tryif is_var e then change (R (k e) (k' e')); cbv beta else
    let m := fresh "mm" in let H := fresh "Hl" in
    evar (m : Z); assert (H : rf m e e') by (subst m; rgo);
    let m' := eval vm_compute in m in change (rf m' e e') in H; clear m;
    change (R (k e) (k' e')); revert H; generalize e; generalize e'; let v := fresh "v" in let w := fresh "w" in intros v w H; cbv beta
  end.
Ltac bnz_go k :=
  lazymatch goal with
  | |- context [f26_normalizes_to_zero_var ?a] =>
    match goal with H : rf ?m a ?b |- _ => rewrite (rf_nz_var m a b H ltac:(lia)); k (fe_normalizes_to_zero_var b) end
  | |- context [f26_normalizes_to_zero ?a] =>
    match goal with H : rf ?m a ?b |- _ => rewrite (rf_nz m a b H ltac:(lia)); k (fe_normalizes_to_zero b) end
  end.
Ltac bnz := bnz_go ltac:(fun t => destruct t).
Ltac bnz_keep := bnz_go ltac:(fun t => idtac).

Lemma rgej_intro mx my mz x y z i x' y' z' i' : rf mx x x' -> rf my y y' -> rf mz z z' -> i = i' -> rgej mx my mz (mkgej_w32 x y z i) (mkgej x' y' z' i').
Proof. intros. split; [assumption|]. split; [assumption|]. split; assumption. Qed.
Lemma rge_intro mx my x y i x' y' i' : rf mx x x' -> rf my y y' -> i = i' -> rge mx my (mkge_w32 x y i) (mkge x' y' i').
Proof. intros. split; [assumption|]. split; assumption. Qed.
Ltac dj H := let x := fresh "x" in let y := fresh "y" in let z := fresh "z" in let i := fresh "i" in
  lazymatch type of H with rgej _ _ _ ?a ?b => destruct a as [x y z i]; destruct b as [? ? ? ?]; destruct H as (? & ? & ? & H); cbn [jx jy jz jinf jx_w32 jy_w32 jz_w32 jinf_w32] in *; subst i
  | rge _ _ ?a ?b => destruct a as [x y i]; destruct b as [? ? ?]; destruct H as (? & ? & H); cbn [gx gy ginf gx_w32 gy_w32 ginf_w32] in *; subst i end.
Ltac pj := cbv beta iota delta [jx jy jz jinf jx_w32 jy_w32 jz_w32 jinf_w32 gx gy ginf gx_w32 gy_w32 ginf_w32].

Lemma rg_infinity : rge 1 1 ge_infinity_w32 ge_infinity.
Proof. apply rge_intro; [rgo|rgo|reflexivity]. Qed.
Lemma rj_infinity : rgej 1 1 1 gej_infinity_w32 gej_infinity.
Proof. apply rgej_intro; [rgo|rgo|rgo|reflexivity]. Qed.
Lemma rj_weaken mx my mz kx ky kz a b : rgej mx my mz a b -> mx <= kx -> my <= ky -> mz <= kz -> rgej kx ky kz a b.
Proof. intros (X & Y & Z' & I') H1 H2 H3. split; [exact (rf_weaken _ _ _ _ X H1)|]. split; [exact (rf_weaken _ _ _ _ Y H2)|]. split; [exact (rf_weaken _ _ _ _ Z' H3)|exact I']. Qed.
Lemma rj_inf4 : RJ gej_infinity_w32 gej_infinity.
Proof. apply (rj_weaken 1 1 1); [exact rj_infinity|lia..]. Qed.
Lemma rg_const_g : rge 1 1 ge_const_g_w32 ge_const_g.
Proof.
  apply rge_intro; [apply rn_rf, rn_of_Z; vm_compute; reflexivity|apply rn_rf, rn_of_Z; vm_compute; reflexivity|reflexivity].
Qed.
Lemma rg_set_xy mx my x y x' y' : rf mx x x' -> rf my y y' -> rge mx my (ge_set_xy_w32 x y) (ge_set_xy x' y').
Proof. intros. apply rge_intro; [assumption|assumption|reflexivity]. Qed.
Lemma rg_set_gej_zinv m mz a b z z' : rgej 4 4 mz a b -> rf m z z' -> m <= 8 -> rge 1 1 (ge_set_gej_zinv_w32 a z) (ge_set_gej_zinv b z').
Proof. intros H Hz Hm. dj H. cbv beta delta [ge_set_gej_zinv_w32 ge_set_gej_zinv]. pj. repeat rlet. apply rge_intro; [rgo|rgo|reflexivity]. Qed.
Lemma rg_set_ge_zinv m a b z z' : RG a b -> rf m z z' -> m <= 8 -> rge 1 1 (ge_set_ge_zinv_w32 a z) (ge_set_ge_zinv b z').
Proof. intros H Hz Hm. dj H. cbv beta delta [ge_set_ge_zinv_w32 ge_set_ge_zinv]. pj. repeat rlet. apply rge_intro; [rgo|rgo|reflexivity]. Qed.
Lemma rg_neg mx a b : rge mx 4 a b -> rge mx 2 (ge_neg_w32 a) (ge_neg b).
Proof. intros H. dj H. cbv beta delta [ge_neg_w32 ge_neg]. pj. apply rge_intro; [assumption|rgw|reflexivity]. Qed.
Lemma rj_neg mx a b : rgej mx 4 1 a b -> rgej mx 2 1 (gej_neg_w32 a) (gej_neg b).
Proof. intros H. dj H. cbv beta delta [gej_neg_w32 gej_neg]. pj. apply rgej_intro; [assumption|rgw|assumption|reflexivity]. Qed.
Lemma rg_rescaled a b z z' : RJ a b -> RF z z' -> rgej 1 1 1 (gej_rescaled_w32 a z) (gej_rescaled b z').
Proof. intros H Hz. dj H. cbv beta delta [gej_rescaled_w32 gej_rescaled]. pj. repeat rlet. apply rgej_intro; [rgo|rgo|rgo|reflexivity]. Qed.
Lemma rg_set_gej a b : RJ a b -> rge 1 1 (ge_set_gej_w32 a) (ge_set_gej b).
Proof.
  intros H. assert (Hz : RF (f26_inv_w32 (jz_w32 a)) (fe_inv (jz b))) by (destruct H as (_ & _ & Hz & _); rgo).
  pose proof (rg_rescaled _ _ _ _ H Hz) as (A & B & _ & D). cbv beta delta [ge_set_gej_w32 ge_set_gej]. cbv zeta. apply rge_intro; assumption.
Qed.
Lemma rg_set_gej_var a b : RJ a b -> rge 1 1 (ge_set_gej_var_w32 a) (ge_set_gej_var b).
Proof.
  intros H. assert (Hz : RF (f26_inv_var_w32 (jz_w32 a)) (fe_inv_var (jz b))) by (destruct H as (_ & _ & Hz & _); rgo).
  pose proof (rg_rescaled _ _ _ _ H Hz) as (A & B & _ & D). cbv beta delta [ge_set_gej_var_w32 ge_set_gej_var]. destruct H as (_ & _ & _ & E). rewrite E.
  destruct (jinf b); [exact rg_infinity|]. cbv zeta. apply rg_set_xy; assumption.
Qed.
Lemma rj_set_ge mx my a b : rge mx my a b -> rgej mx my 1 (gej_set_ge_w32 a) (gej_set_ge b).
Proof. intros H. dj H. cbv beta delta [gej_set_ge_w32 gej_set_ge]. pj. apply rgej_intro; [assumption|assumption|rgo|reflexivity]. Qed.
Lemma r_valid a b : RG a b -> ge_is_valid_var_w32 a = ge_is_valid_var b.
Proof.
  intros H. dj H. cbv beta delta [ge_is_valid_var_w32 ge_is_valid_var]. pj. match goal with |- context [if ?b then _ else _] => destruct b end; [reflexivity|].
  repeat rlet. eapply rf_equal; [eassumption|eassumption|lia].
Qed.
Lemma rj_double a b : RJ a b -> rgej 3 4 1 (gej_double_w32 a) (gej_double b).
Proof.
  intros H. dj H. cbv beta delta [gej_double_w32 gej_double]. pj. repeat rlet. apply rgej_intro; [rgw|rgw|rgw|reflexivity].
Qed.
Lemma rp_double_rzr a b : RJ a b -> rgej 3 4 1 (fst (gej_double_var_rzr_w32 a)) (fst (gej_double_var_rzr b)) /\ RF (snd (gej_double_var_rzr_w32 a)) (snd (gej_double_var_rzr b)).
Proof.
  intros H. pose proof (rj_double _ _ H) as D. destruct H as (_ & Y & _ & E). cbv beta delta [gej_double_var_rzr_w32 gej_double_var_rzr]. rewrite E.
  destruct (jinf b); cbn [fst snd]; split; [|rgo|exact D|rgo]. apply (rj_weaken 1 1 1); [exact rj_infinity|lia..].
Qed.
Lemma rj_double_var a b : RJ a b -> rgej 3 4 1 (gej_double_var_w32 a) (gej_double_var b).
Proof. intros H. exact (proj1 (rp_double_rzr _ _ H)). Qed.
Lemma r_tail mh mi m1 m2 u s h i u' s' h' i' : rf m1 u u' -> rf m2 s s' -> rf mh h h' -> rf mi i i' -> m1 <= 8 -> m2 <= 8 -> mh <= 8 -> mi <= 8 ->
  rf 4 (fst (add_tail_w32 u s h i)) (fst (add_tail u' s' h' i')) /\ rf 2 (snd (add_tail_w32 u s h i)) (snd (add_tail u' s' h' i')).
Proof.
  intros Hu Hs Hh Hi ? ? ? ?. cbv beta delta [add_tail_w32 add_tail].
  match goal with |- ?A /\ ?B => cut (forall P, P = (fun x y => rf 4 (fst x) (fst y) /\ rf 2 (snd x) (snd y)) -> P (add_tail_w32 u s h i) (add_tail u' s' h' i')) end.
  { intros K. exact (K _ eq_refl). }
  intros P EP. cbv beta delta [add_tail_w32 add_tail].
  do 12 rlet. rewrite EP. cbn [fst snd]. split; rgw.
Qed.
Lemma pair_rel {A B C D} (P : A -> C -> Prop) (Q : B -> D -> Prop) (a : A) (b : B) (c : C) (d : D) : P a c -> Q b d -> P (fst (a, b)) (fst (c, d)) /\ Q (snd (a, b)) (snd (c, d)).
Proof. intros H K. split; assumption. Qed.
(** A pair of a point and a z-ratio. *)
Definition rjz (mx my m : Z) (a : gej_w32 * fe26) (b : gej * fe) : Prop := rgej mx my 1 (fst a) (fst b) /\ rf m (snd a) (snd b).
Lemma rjz_double a b : RJ a b -> rjz 4 4 1 (gej_double_var_rzr_w32 a) (gej_double_var_rzr b).
Proof. intros H. destruct (rp_double_rzr _ _ H) as (A & B). split; [|exact B]. apply (rj_weaken 3 4 1); [exact A|lia..]. Qed.
Lemma rjz_weaken mx my k m a b : rjz mx my k a b -> mx <= 4 -> my <= 4 -> k <= m -> rjz 4 4 m a b.
Proof. intros (A & B) H1 H2 H3. split; [|exact (rf_weaken _ _ _ _ B H3)]. apply (rj_weaken mx my 1); [exact A|lia..]. Qed.
Ltac btail := lazymatch goal with |- context [add_tail_w32 ?u ?s ?h ?i] => lazymatch goal with |- context [add_tail ?u' ?s' ?h' ?i'] =>
   let T := fresh "T" in let rx := fresh "rx" in let ry := fresh "ry" in let T1 := fresh "T" in let T2 := fresh "T" in
   assert (T : rf 4 (fst (add_tail_w32 u s h i)) (fst (add_tail u' s' h' i')) /\ rf 2 (snd (add_tail_w32 u s h i)) (snd (add_tail u' s' h' i')))
     by (eapply r_tail; [eassumption|eassumption|eassumption|eassumption|lia|lia|lia|lia]);
   destruct (add_tail_w32 u s h i), (add_tail u' s' h' i'); cbn [fst snd] in T; destruct T as [T1 T2] end end.
Lemma rjz_add_var_gen P a b c d : RJ a b -> RJ c d -> P = rjz 4 4 1 -> P (gej_add_var_rzr_w32 a c) (gej_add_var_rzr b d).
Proof.
  intros H K EP. pose proof (rjz_double _ _ H) as DD. pose proof H as H0. pose proof K as K0. cbv beta delta [gej_add_var_rzr_w32 gej_add_var_rzr].
  destruct a as [x1 y1 z1 i1], b as [x1' y1' z1' i1'], c as [x2 y2 z2 i2], d as [x2' y2' z2' i2'].
  destruct H as (X1 & Y1 & Z1 & I1), K as (X2 & Y2 & Z2 & I2). cbn [jx jy jz jinf jx_w32 jy_w32 jz_w32 jinf_w32] in * |-. pj. subst i1 i2.
  destruct i1'; [rewrite EP; split; [exact K0|cbn [snd]; rgo]|]. destruct i2'; [rewrite EP; split; [exact H0|cbn [snd]; rgo]|].
  do 8 rlet. bnz.
  - bnz; rewrite EP; [exact DD|]. split; [exact rj_inf4|cbn [snd]; rgo].
  - do 2 rlet. btail. rewrite EP. split; cbn [fst snd]; [|rgo]. apply rgej_intro; [rgw|rgw|rgw|reflexivity].
Qed.
Lemma rj_add_var a b c d : RJ a b -> RJ c d -> RJ (gej_add_var_w32 a c) (gej_add_var b d).
Proof. intros H K. exact (proj1 (rjz_add_var_gen _ _ _ _ _ H K eq_refl)). Qed.
Lemma rjz_add_ge_gen P a b c d : RJ a b -> RG c d -> P = rjz 4 4 6 -> P (gej_add_ge_var_rzr_w32 a c) (gej_add_ge_var_rzr b d).
Proof.
  intros H K EP. pose proof (rjz_double _ _ H) as DD. pose proof H as H0. pose proof (rj_set_ge _ _ _ _ K) as K0. cbv beta delta [gej_add_ge_var_rzr_w32 gej_add_ge_var_rzr].
  destruct a as [x1 y1 z1 i1], b as [x1' y1' z1' i1'], c as [x2 y2 i2], d as [x2' y2' i2'].
  destruct H as (X1 & Y1 & Z1 & I1), K as (X2 & Y2 & I2). cbn [jx jy jz jinf jx_w32 jy_w32 jz_w32 jinf_w32 gx gy ginf gx_w32 gy_w32 ginf_w32] in * |-. pj. subst i1 i2.
  destruct i1'; [rewrite EP; split; [exact K0|cbn [snd]; rgw]|]. destruct i2'; [rewrite EP; split; [exact H0|cbn [snd]; rgw]|].
  do 7 rlet. bnz.
  - bnz; rewrite EP; [exact (rjz_weaken _ _ _ 6 _ _ DD ltac:(lia) ltac:(lia) ltac:(lia))|]. split; [exact rj_inf4|cbn [snd]; rgw].
  - do 1 rlet. btail. rewrite EP. split; cbn [fst snd]; [|rgw]. apply rgej_intro; [rgw|rgw|rgw|reflexivity].
Qed.
Lemma rj_add_ge_var a b c d : RJ a b -> RG c d -> RJ (gej_add_ge_var_w32 a c) (gej_add_ge_var b d).
Proof. intros H K. exact (proj1 (rjz_add_ge_gen _ _ _ _ _ H K eq_refl)). Qed.
Lemma rj_add_zinv_gen P a b c d z z' : RJ a b -> RG c d -> RF z z' -> P = rgej 4 4 1 -> P (gej_add_zinv_var_w32 a c z) (gej_add_zinv_var b d z').
Proof.
  intros H K Hz EP. pose proof (rj_double_var _ _ H) as DD. pose proof H as H0. cbv beta delta [gej_add_zinv_var_w32 gej_add_zinv_var].
  destruct a as [x1 y1 z1 i1], b as [x1' y1' z1' i1'], c as [x2 y2 i2], d as [x2' y2' i2'].
  destruct H as (X1 & Y1 & Z1 & I1), K as (X2 & Y2 & I2). cbn [jx jy jz jinf jx_w32 jy_w32 jz_w32 jinf_w32 gx gy ginf gx_w32 gy_w32 ginf_w32] in * |-. pj. subst i1 i2.
  destruct i1'; [do 2 rlet; rewrite EP; apply rgej_intro; [rgw|rgw|rgw|reflexivity]|]. destruct i2'; [rewrite EP; exact H0|].
  do 8 rlet. bnz.
  - bnz; rewrite EP; [|exact rj_inf4]. apply (rj_weaken 3 4 1); [exact DD|lia..].
  - do 1 rlet. btail. rewrite EP. apply rgej_intro; [rgw|rgw|rgw|reflexivity].
Qed.
Lemma rj_add_zinv a b c d z z' : RJ a b -> RG c d -> RF z z' -> RJ (gej_add_zinv_var_w32 a c z) (gej_add_zinv_var b d z').
Proof. intros H K Hz. exact (rj_add_zinv_gen _ _ _ _ _ _ _ H K Hz eq_refl). Qed.

(** src/group_impl.h:724-859: the constant-time addition. *)
Lemma rj_add_ge_gen P a b c d : RJ a b -> RG c d -> P = rgej 4 4 1 -> P (gej_add_ge_w32 a c) (gej_add_ge b d).
Proof.
  intros H K EP. cbv beta delta [gej_add_ge_w32 gej_add_ge].
  destruct a as [x1 y1 z1 i1], b as [x1' y1' z1' i1'], c as [x2 y2 i2], d as [x2' y2' i2'].
  destruct H as (X1 & Y1 & Z1 & I1), K as (X2 & Y2 & I2). cbn [jx jy jz jinf jx_w32 jy_w32 jz_w32 jinf_w32 gx gy ginf gx_w32 gy_w32 ginf_w32] in * |-. pj. subst i1 i2.
  do 12 rlet. bnz_keep. match goal with |- context [fe_normalizes_to_zero ?b] => generalize (fe_normalizes_to_zero b) end. intros dg.
  lazymatch goal with |- ?R (let x := ?e in @?k x) (let y := ?e' in @?k' y) => change (R (k e) (k' e')); cbv beta end.
  do 22 rlet. rewrite EP. apply rgej_intro; [rgw|rgw|rgw|]. eapply rf_nz; [eassumption|lia].
Qed.
Lemma rj_add_ge a b c d : RJ a b -> RG c d -> RJ (gej_add_ge_w32 a c) (gej_add_ge b d).
Proof. intros H K. exact (rj_add_ge_gen _ _ _ _ _ H K eq_refl). Qed.
Lemma rj_rescale a b z z' : RJ a b -> RF z z' -> rgej 1 1 1 (gej_rescale_w32 a z) (gej_rescale b z').
Proof. intros H Hz. dj H. cbv beta delta [gej_rescale_w32 gej_rescale]. pj. repeat rlet. apply rgej_intro; [rgo|rgo|rgo|reflexivity]. Qed.
Lemma rj_neg4 a b : RJ a b -> RJ (gej_neg_w32 a) (gej_neg b).
Proof. intros H. apply (rj_weaken 4 2 1); [exact (rj_neg _ _ _ H)|lia..]. Qed.
Lemma r_jinf mx my mz a b : rgej mx my mz a b -> jinf_w32 a = jinf b. Proof. intros (_ & _ & _ & E). exact E. Qed.
Lemma r_ginf mx my a b : rge mx my a b -> ginf_w32 a = ginf b. Proof. intros (_ & _ & E). exact E. Qed.
Lemma r_gej_eq_var a b c d : RJ a b -> RJ c d -> gej_eq_var_w32 a c = gej_eq_var b d.
Proof. intros H K. exact (r_jinf _ _ _ _ _ (rj_add_var _ _ _ _ (rj_neg4 _ _ H) K)). Qed.
Lemma r_gej_eq_ge_var a b c d : RJ a b -> RG c d -> gej_eq_ge_var_w32 a c = gej_eq_ge_var b d.
Proof. intros H K. exact (r_jinf _ _ _ _ _ (rj_add_ge_var _ _ _ _ (rj_neg4 _ _ H) K)). Qed.
Lemma r_ge_eq_var a b c d : RG a b -> RG c d -> ge_eq_var_w32 a c = ge_eq_var b d.
Proof.
  intros (X1 & Y1 & I1) (X2 & Y2 & I2). unfold ge_eq_var_w32, ge_eq_var. rewrite I1, I2.
  rewrite (rf_equal 4 _ (fe_normalize_weak (gx b)) _ (gx d)); [|rgo|exact X2|lia].
  rewrite (rf_equal 4 _ (fe_normalize_weak (gy b)) _ (gy d)); [|rgo|exact Y2|lia]. reflexivity.
Qed.
Lemma r_gej_eq_x_var x x' a b : rf 8 x x' -> RJ a b -> gej_eq_x_var_w32 x a = gej_eq_x_var x' b.
Proof.
  intros X (X1 & _ & Z1 & _). unfold gej_eq_x_var_w32, gej_eq_x_var. eapply rf_equal; [rgo|exact X1|lia].
Qed.
Lemma rp_set_xo x x' odd : rf 8 x x' -> forall P, P = (fun (a : bool * ge_w32) (b : bool * ge) => fst a = fst b /\ rge 8 2 (snd a) (snd b)) ->
  P (ge_set_xo_var_w32 x odd) (ge_set_xo_var x' odd).
Proof.
  intros X P EP. cbv beta delta [ge_set_xo_var_w32 ge_set_xo_var]. do 3 rlet.
  match goal with |- context [f26_sqrt ?v] => match goal with |- context [fe_sqrt ?w] =>
    destruct (rf_sqrt 2 v w ltac:(assumption) ltac:(lia)) as (S1 & S2); destruct (f26_sqrt v) as [b1 r1], (fe_sqrt w) as [b2 r2] end end.
  cbn [fst snd] in S1, S2. subst b1. pose proof (rn_normalize_var _ _ _ S2 ltac:(lia)) as N. pose proof (rn_rf _ _ N) as N1.
  rewrite EP. cbv zeta. cbn [fst snd]. split; [reflexivity|]. rewrite (rn_is_odd _ _ N).
  apply rge_intro; [exact X| |reflexivity]. destruct (negb _); rgw.
Qed.
Lemma r_set_xo_fst x x' odd : rf 8 x x' -> fst (ge_set_xo_var_w32 x odd) = fst (ge_set_xo_var x' odd).
Proof. intros X. exact (proj1 (rp_set_xo x x' odd X _ eq_refl)). Qed.
Lemma rg_set_xo m x x' odd : rf m x x' -> m <= 8 -> rge m 2 (snd (ge_set_xo_var_w32 x odd)) (snd (ge_set_xo_var x' odd)).
Proof.
  intros X Hm. pose proof (proj2 (rp_set_xo x x' odd (rf_weaken _ _ _ _ X Hm) _ eq_refl)) as (_ & Y & Ei). split; [|split; [exact Y|exact Ei]].
  unfold ge_set_xo_var_w32, ge_set_xo_var. cbv zeta. destruct (f26_sqrt _), (fe_sqrt _). exact X.
Qed.
(** ** Storage and bytes *)
Definition rgs (a : ge_storage_w32) (b : ge_storage) : Prop := rs (stx_w32 a) (stx b) /\ rs (sty_w32 a) (sty b).
Definition rgt (a : ge_w32) (b : ge) : Prop := rt (gx_w32 a) (gx b) /\ rt (gy_w32 a) (gy b) /\ ginf_w32 a = ginf b.
Definition rgn (a : ge_w32) (b : ge) : Prop := rn (gx_w32 a) (gx b) /\ rn (gy_w32 a) (gy b) /\ ginf_w32 a = ginf b.
Lemma rgt_rge a b : rgt a b -> rge 1 1 a b.
Proof. intros (X & Y & E). split; [exact (rt_rf _ _ X)|]. split; [exact (rt_rf _ _ Y)|exact E]. Qed.
Lemma rgn_rgt a b : rgn a b -> rgt a b.
Proof. intros (X & Y & E). split; [exact (rn_rt _ _ X)|]. split; [exact (rn_rt _ _ Y)|exact E]. Qed.
Lemma rgs_to a b : RG a b -> rgs (ge_to_storage_w32 a) (ge_to_storage b).
Proof. intros (X & Y & _). split; apply rs_to; eapply rn_normalize; [exact X|lia|exact Y|lia]. Qed.
Lemma rgt_from a b : rgs a b -> rgt (ge_from_storage_w32 a) (ge_from_storage b).
Proof. intros (X & Y). split; [exact (rt_from _ _ X)|]. split; [exact (rt_from _ _ Y)|reflexivity]. Qed.
Lemma rgs_cmov a b c d flag : rgs a b -> rgs c d -> flag = 0 \/ flag = 1 -> rgs (ge_storage_cmov_w32 a c flag) (ge_storage_cmov b d flag).
Proof. intros (X & Y) (X' & Y') Hf. split; apply rs_cmov; assumption. Qed.
Lemma rj_cmov a b c d flag : RJ a b -> RJ c d -> flag = 0 \/ flag = 1 -> RJ (gej_cmov_w32 a c flag) (gej_cmov b d flag).
Proof.
  intros (X1 & Y1 & Z1 & I1) (X2 & Y2 & Z2 & I2) Hf. unfold gej_cmov_w32, gej_cmov. rewrite I1, I2.
  apply rgej_intro; [apply rf_cmov; [assumption..|lia|exact Hf]|apply rf_cmov; [assumption..|lia|exact Hf]|apply rf_cmov; [assumption..|lia|exact Hf]|reflexivity].
Qed.
Lemma rg_mul_lambda my a b : rge 4 my a b -> rge 1 my (ge_mul_lambda_w32 a) (ge_mul_lambda b).
Proof. intros H. dj H. unfold ge_mul_lambda_w32, ge_mul_lambda. pj. apply rge_intro; [rgo|assumption|reflexivity]. Qed.
Lemma r_x_on_curve x x' : rf 8 x x' -> ge_x_on_curve_var_w32 x = ge_x_on_curve_var x'.
Proof. intros X. cbv beta delta [ge_x_on_curve_var_w32 ge_x_on_curve_var]. do 3 rlet. eapply rf_is_square; [eassumption|lia]. Qed.
Lemma r_x_frac x x' y y' : rf 8 x x' -> rf 8 y y' -> ge_x_frac_on_curve_var_w32 x y = ge_x_frac_on_curve_var x' y'.
Proof. intros X Y. cbv beta delta [ge_x_frac_on_curve_var_w32 ge_x_frac_on_curve_var]. do 7 rlet. eapply rf_is_square; [eassumption|lia]. Qed.
Lemma r_to_bytes a b : RG a b -> ge_to_bytes_w32 a = ge_to_bytes b.
Proof.
  intros H. destruct (rgs_to _ _ H) as (X & Y). unfold ge_to_bytes_w32, ge_to_bytes. cbv zeta. rewrite (rs_bytes _ _ X), (rs_bytes _ _ Y). reflexivity.
Qed.
Lemma rgt_from_bytes l : byte_list l -> length l = 64%nat -> rgt (ge_from_bytes_w32 l) (ge_from_bytes l).
Proof.
  intros B L. apply rgt_from. split; apply rs_of_bytes.
  - now apply byte_list_firstn. - rewrite firstn_length, L. reflexivity. - now apply byte_list_skipn. - rewrite skipn_length, L. reflexivity.
Qed.
Lemma r_to_bytes_ext a b : RG a b -> ge_to_bytes_ext_w32 a = ge_to_bytes_ext b.
Proof. intros H. unfold ge_to_bytes_ext_w32, ge_to_bytes_ext, ge_is_infinity_w32, ge_is_infinity. rewrite (r_ginf _ _ _ _ H), (r_to_bytes _ _ H). reflexivity. Qed.
Lemma rg_from_bytes_ext l : byte_list l -> length l = 64%nat -> rge 1 1 (ge_from_bytes_ext_w32 l) (ge_from_bytes_ext l).
Proof.
  intros B L. unfold ge_from_bytes_ext_w32, ge_from_bytes_ext. destruct (forallb _ l); [exact rg_infinity|apply rgt_rge, rgt_from_bytes; assumption].
Qed.
