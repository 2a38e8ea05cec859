(** Storage and memory images of points, batch conversion, common-z tables. *)
Require Import ZArith List Bool Lia Ring Field.
From Verif Require ECGroup.
From Verif Require Import Word Spec Bytes ZmField Curve FieldModel FieldMul FieldProof FieldProof2 FieldBytes FieldOps GroupModel GroupProof GroupProof2 GroupProof3 GroupProof4.
Import ListNotations.
Local Open Scope Z_scope.

(** ** Little-endian bytes *)
Lemma le_bytes_length k : forall v, length (le_bytes k v) = k.
Proof. induction k as [|k IH]; intros v; cbn [le_bytes length]; [reflexivity|now rewrite IH]. Qed.
Lemma le_bytes_byte_list k : forall v, byte_list (le_bytes k v).
Proof. induction k as [|k IH]; intros v; cbn [le_bytes]; constructor; [apply Z.mod_pos_bound; lia|apply IH]. Qed.
Lemma le_val_le_bytes k : forall v, le_val (le_bytes k v) = v mod 256 ^ Z.of_nat k.
Proof.
  induction k as [|k IH]; intros v; cbn [le_bytes le_val]; [now rewrite Z.mod_1_r|].
  rewrite IH, Nat2Z.inj_succ, Z.pow_succ_r by lia. assert (0 < 256 ^ Z.of_nat k) by (apply Z.pow_pos_nonneg; lia).
  symmetry. apply Z.rem_mul_r; lia.
Qed.
Lemma le_val_range l : byte_list l -> 0 <= le_val l < 256 ^ Z.of_nat (length l).
Proof.
  induction 1 as [|b l Hb Hl IH]; cbn [le_val length]; [lia|]. rewrite Nat2Z.inj_succ, Z.pow_succ_r by lia. lia.
Qed.
Lemma le_bytes_le_val l : byte_list l -> le_bytes (length l) (le_val l) = l.
Proof.
  induction 1 as [|b l Hb Hl IH]; cbn [le_val length le_bytes]; [reflexivity|].
  f_equal.
  - rewrite (Z.mul_comm 256), Z_mod_plus_full. now apply Z.mod_small.
  - rewrite (Z.mul_comm 256), Z.div_add by lia. rewrite (Z.div_small b) by lia. exact IH.
Qed.
Lemma le_val_app a b : le_val (a ++ b) = le_val a + 256 ^ Z.of_nat (length a) * le_val b.
Proof.
  induction a as [|x a IH]; cbn [app le_val length]; [cbn [Z.of_nat]; lia|].
  rewrite IH, Nat2Z.inj_succ, Z.pow_succ_r by lia. ring.
Qed.
Lemma le_bytes_app j k v : le_bytes (j + k) v = le_bytes j v ++ le_bytes k (v / 256 ^ Z.of_nat j).
Proof.
  revert v. induction j as [|j IH]; intros v; cbn [Nat.add le_bytes app].
  - cbn [Z.of_nat]. now rewrite Z.div_1_r.
  - f_equal. rewrite IH. f_equal. f_equal. rewrite Nat2Z.inj_succ, Z.pow_succ_r by lia.
    rewrite Z.div_div; [reflexivity|lia|apply Z.pow_pos_nonneg; lia].
Qed.
Lemma le_bytes_unique k l v : length l = k -> byte_list l -> le_val l = v -> l = le_bytes k v.
Proof. intros <- H <-. symmetry. now apply le_bytes_le_val. Qed.

(** ** fe_storage memory images *)
Lemma fes_bytes_length s : length (fes_bytes s) = 32%nat.
Proof. unfold fes_bytes. rewrite !app_length, !le_bytes_length. reflexivity. Qed.
Lemma fes_bytes_byte_list s : byte_list (fes_bytes s).
Proof. unfold fes_bytes. rewrite !byte_list_app. repeat split; apply le_bytes_byte_list. Qed.
Lemma fes_bytes_val s : fes_ok s -> fes_bytes s = le_bytes 32 (sval s).
Proof.
  intros (H0 & H1 & H2 & H3). apply le_bytes_unique; [apply fes_bytes_length|apply fes_bytes_byte_list|].
  unfold fes_bytes, sval. rewrite !le_val_app, !le_bytes_length, !le_val_le_bytes. change (256 ^ Z.of_nat 8) with (2 ^ 64).
  rewrite !(Z.mod_small _ (2 ^ 64)) by assumption. ring.
Qed.
Lemma fes_of_bytes_ok l : byte_list l -> length l = 32%nat -> fes_ok (fes_of_bytes l) /\ sval (fes_of_bytes l) = le_val l.
Proof.
  intros H L. unfold fes_of_bytes, fes_ok, sval. cbn [s0 s1 s2 s3].
  assert (R : forall i, (i <= 24)%nat -> 0 <= le_val (firstn 8 (skipn i l)) < 2 ^ 64).
  { intros i Hi. assert (LL : length (firstn 8 (skipn i l)) = 8%nat) by (rewrite firstn_length, skipn_length, L; lia).
    pose proof (le_val_range (firstn 8 (skipn i l)) (byte_list_firstn _ _ (byte_list_skipn _ _ H))) as K. rewrite LL in K. exact K. }
  pose proof (R 0%nat ltac:(lia)) as R0. change (skipn 0 l) with l in R0. pose proof (R 8%nat ltac:(lia)). pose proof (R 16%nat ltac:(lia)). pose proof (R 24%nat ltac:(lia)).
  split; [tauto|].
  assert (E : l = firstn 8 l ++ firstn 8 (skipn 8 l) ++ firstn 8 (skipn 16 l) ++ firstn 8 (skipn 24 l)).
  { assert (E3 : firstn 8 (skipn 24 l) = skipn 24 l) by (apply firstn_all2; rewrite skipn_length, L; lia).
    rewrite E3. replace (skipn 24 l) with (skipn 8 (skipn 16 l)) by (rewrite skipn_add; reflexivity). rewrite firstn_skipn.
    replace (skipn 16 l) with (skipn 8 (skipn 8 l)) by (rewrite skipn_add; reflexivity). now rewrite !firstn_skipn. }
  rewrite E at 5. rewrite !le_val_app, !firstn_length, !skipn_length, L. cbn [Nat.min Nat.sub]. change (256 ^ Z.of_nat 8) with (2 ^ 64). ring.
Qed.

Lemma ge_to_storage_ok a x y : ge_rep f1 a (Aff x y) ->
  fes_ok (stx (ge_to_storage a)) /\ fes_ok (sty (ge_to_storage a)) /\ sval (stx (ge_to_storage a)) = x /\ sval (sty (ge_to_storage a)) = y.
Proof.
  intros H. destruct (ge_rep_zv _ _ _ H) as [EX EY]. destruct H as (M1 & M2 & _). unfold ge_to_storage. cbn [stx sty].
  assert (N1 : fe_norm (fe_normalize (gx a))) by (apply fe_normalize_norm; eapply mag_weaken; [exact M1|lia]).
  assert (N2 : fe_norm (fe_normalize (gy a))) by (apply fe_normalize_norm; eapply mag_weaken; [exact M2|lia]).
  destruct (fe_to_storage_ok _ N1) as [O1 V1]. destruct (fe_to_storage_ok _ N2) as [O2 V2].
  split; [exact O1|]. split; [exact O2|]. now rewrite V1, V2, EX, EY.
Qed.
Lemma ge_from_storage_ok s x y : fes_ok (stx s) -> fes_ok (sty s) -> sval (stx s) = x -> sval (sty s) = y -> on_curve (Aff x y) ->
  ge_rep f1 (ge_from_storage s) (Aff x y) /\ fe_norm (gx (ge_from_storage s)) /\ fe_norm (gy (ge_from_storage s)).
Proof.
  intros O1 O2 E1 E2 OC. unfold ge_from_storage. cbn [gx gy].
  destruct (fe_from_storage_ok _ O1) as (V1 & M1 & N1). destruct (fe_from_storage_ok _ O2) as (V2 & M2 & N2).
  rewrite E1 in *. rewrite E2 in *. pose proof OC as (R1 & R2 & _).
  split; [|split; [apply N1, R1|apply N2, R2]].
  apply ge_rep1_intro; cbn [gx gy ginf]; try assumption; try reflexivity.
  - eapply mag_weaken; [exact M1|lia].
  - eapply mag_weaken; [exact M2|lia].
  - unfold fv. now rewrite V1.
  - unfold fv. now rewrite V2.
Qed.
(** The 64 bytes kept in public key objects. *)
Definition point_bytes (x y : Z) : list Z := le_bytes 32 x ++ le_bytes 32 y.
Lemma point_bytes_length x y : length (point_bytes x y) = 64%nat.
Proof. unfold point_bytes. now rewrite app_length, !le_bytes_length. Qed.
Lemma point_bytes_byte_list x y : byte_list (point_bytes x y).
Proof. unfold point_bytes. rewrite byte_list_app. split; apply le_bytes_byte_list. Qed.
Lemma ge_to_bytes_ok a x y : ge_rep f1 a (Aff x y) -> ge_to_bytes a = point_bytes x y.
Proof.
  intros H. destruct (ge_to_storage_ok _ _ _ H) as (O1 & O2 & E1 & E2). unfold ge_to_bytes, point_bytes. cbv zeta.
  now rewrite !fes_bytes_val, E1, E2 by assumption.
Qed.
Lemma le32_mod x : 0 <= x < p -> x mod 256 ^ Z.of_nat 32 = x.
Proof. intros H. apply Z.mod_small. assert (p < 256 ^ Z.of_nat 32) by reflexivity. lia. Qed.
Lemma ge_from_bytes_point x y : on_curve (Aff x y) ->
  ge_rep f1 (ge_from_bytes (point_bytes x y)) (Aff x y) /\ fe_norm (gx (ge_from_bytes (point_bytes x y))) /\ fe_norm (gy (ge_from_bytes (point_bytes x y))).
Proof.
  intros OC. pose proof OC as (R1 & R2 & _). unfold ge_from_bytes, point_bytes.
  rewrite firstn_app, skipn_app, le_bytes_length. rewrite firstn_all2, skipn_all2 by (rewrite le_bytes_length; lia).
  cbn [Nat.sub firstn skipn app]. rewrite app_nil_r.
  destruct (fes_of_bytes_ok (le_bytes 32 x)) as [O1 V1]; [apply le_bytes_byte_list|apply le_bytes_length|].
  destruct (fes_of_bytes_ok (le_bytes 32 y)) as [O2 V2]; [apply le_bytes_byte_list|apply le_bytes_length|].
  rewrite le_val_le_bytes, le32_mod in V1, V2 by assumption.
  apply ge_from_storage_ok; assumption.
Qed.
Lemma point_bytes_inj x y x' y' : on_curve (Aff x y) -> on_curve (Aff x' y') -> point_bytes x y = point_bytes x' y' -> x = x' /\ y = y'.
Proof.
  intros (R1 & R2 & _) (R1' & R2' & _) E. unfold point_bytes in E.
  assert (E1 : le_bytes 32 x = le_bytes 32 x').
  { apply (f_equal (firstn 32)) in E. rewrite !firstn_app, !le_bytes_length, !(firstn_all2 (le_bytes 32 _)) in E by (rewrite le_bytes_length; lia).
    change (32 - 32)%nat with 0%nat in E. rewrite !firstn_O, !app_nil_r in E. exact E. }
  rewrite E1 in E. apply app_inv_head in E.
  apply (f_equal le_val) in E, E1. rewrite !le_val_le_bytes, !le32_mod in E, E1 by assumption. auto.
Qed.

(** ** Batch conversion *)
Definition zlast (acc : fe) (l : list gej) : fe := fold_left (fun q a => fe_mul q (jz a)) l acc.
Lemma zprods_snoc l a : forall acc, zprods acc (l ++ [a]) = zprods acc l ++ [fe_mul (zlast acc l) (jz a)].
Proof. induction l as [|b l IH]; intros acc; cbn [app zprods zlast fold_left]; [reflexivity|]. now rewrite IH. Qed.
Lemma zprods_rev l : forall acc, exists below, rev (zprods acc l) = zlast acc l :: below.
Proof.
  induction l as [|a l IH] using rev_ind; intros acc.
  - exists []. reflexivity.
  - rewrite zprods_snoc, rev_app_distr. cbn [rev app]. unfold zlast. rewrite fold_left_app. cbn [fold_left]. eexists. reflexivity.
Qed.
Lemma zlast_fx l : forall acc va, fx 1 acc va -> va <> f0 -> Forall (fun a => fe_mag 1 (jz a) /\ fv (jz a) <> f0) l ->
  fx 1 (zlast acc l) (fv (zlast acc l)) /\ fv (zlast acc l) <> f0.
Proof.
  induction l as [|a l IH]; intros acc va X N H; cbn [zlast fold_left].
  - split; [apply fx_of, X|]. rewrite (fx_fv _ _ _ X). exact N.
  - inversion H as [|? ? [M K] H']; subst. apply (IH (fe_mul acc (jz a)) (va * fv (jz a))%F).
    + eapply fx_mul; [exact X|apply fx_of, M|reflexivity].
    + now apply fmul_nz.
    + exact H'.
Qed.
Lemma zinvs_back_ok l : forall acc va u, fx 1 acc va -> va <> f0 -> Forall (fun a => fe_mag 1 (jz a) /\ fv (jz a) <> f0) l ->
  fe_mag 1 u -> (fv u * fv (zlast acc l) = 1)%F ->
  Forall2 (fun zi z => fe_mag 1 zi /\ (fv zi * z = 1)%F) (rev (zinvs_back (tl (rev (zprods acc l))) (rev (map jz l)) u)) (va :: map (fun a => fv (jz a)) l).
Proof.
  induction l as [|a l IH] using rev_ind; intros acc va u X N H Mu Eu.
  - change (Forall2 (fun zi z => fe_mag 1 zi /\ (fv zi * z = 1)%F) [u] [va]). constructor; [|constructor].
    split; [exact Mu|]. unfold zlast in Eu. cbn [fold_left] in Eu. rewrite (fx_fv _ _ _ X) in Eu. exact Eu.
  - apply Forall_app in H as [H Ha]. inversion Ha as [|? ? [Ma Na] _]; subst.
    rewrite zprods_snoc, !rev_app_distr, map_app, rev_app_distr. cbn [map rev app tl].
    destruct (zlast_fx l acc va X N H) as [XL NL].
    destruct (zprods_rev l acc) as [below EB]. pose proof (IH acc va) as IH'. rewrite EB in IH' |- *. cbn [tl] in IH'. cbn [zinvs_back rev].
    unfold zlast in Eu. rewrite fold_left_app in Eu. cbn [fold_left] in Eu. fold (zlast acc l) in Eu.
    pose proof (fx_of _ _ Ma) as XA. pose proof (fx_of _ _ Mu) as XU.
    rewrite (fx_fv _ _ _ (fx_mul _ _ _ _ _ _ XL XA eq_refl)) in Eu.
    pose proof (fx_mul _ _ _ _ _ _ XU XA eq_refl) as XUA. pose proof (fx_mul _ _ _ _ _ _ XL XU eq_refl) as XLU.
    rewrite map_app. cbn [map]. rewrite app_comm_cons. apply Forall2_app.
    + apply IH'; try assumption; [exact (fx_mag _ _ _ XUA)|]. rewrite (fx_fv _ _ _ XUA). rewrite <- Eu. ring.
    + constructor; [|constructor]. split; [exact (fx_mag _ _ _ XLU)|]. rewrite (fx_fv _ _ _ XLU). rewrite <- Eu. ring.
Qed.
Lemma combine_zinv_ok t l Ps : Forall2 (gej_rep t) l Ps -> Forall (fun a => jinf a = false) l -> forall zis,
  Forall2 (fun zi z => fe_mag 1 zi /\ (fv zi * z = 1)%F) zis (map (fun a => fv (jz a)) l) ->
  Forall2 (ge_rep t) (map (fun az => ge_set_gej_zinv (fst az) (snd az)) (combine l zis)) Ps.
Proof.
  induction 1 as [|a P l Ps HR H IH]; intros HI zis HZ; inversion HZ as [|zi z zis' zs' [M E] HZ']; subst; cbn [combine map]; constructor.
  - cbn [fst snd]. apply ge_set_gej_zinv_ok; [exact HR|eapply mag_weaken; [exact M|lia]|]. intros _. exact E.
  - inversion HI; subst. now apply IH.
Qed.
Lemma all_fin_z t l Ps : Forall2 (gej_rep t) l Ps -> Forall (fun a => jinf a = false) l -> Forall (fun a => fe_mag 1 (jz a) /\ fv (jz a) <> f0) l.
Proof.
  induction 1 as [|a P l Ps HR H IH]; intros HI; constructor; inversion HI; subst; [|now apply IH].
  destruct (gej_rep_fin _ _ _ HR) as (x & y & _ & K & _); [assumption|]. destruct HR as (_ & _ & M & _). auto.
Qed.
Lemma ge_set_all_gej_gen t (inv : fe -> fe) a0 l Ps : (forall m a va, fx m a va -> (m <=? 32) = true -> fx 1 (inv a) (finv va)) ->
  Forall2 (gej_rep t) (a0 :: l) Ps -> Forall (fun a => jinf a = false) (a0 :: l) ->
  Forall2 (ge_rep t) (match rev (zprods (jz a0) l) with
     | [] => []
     | top :: below =>
       map (fun az => ge_set_gej_zinv (fst az) (snd az)) (combine (a0 :: l) (rev (zinvs_back below (rev (map jz l)) (inv top))))
     end) Ps.
Proof.
  intros HInv H HI. pose proof (all_fin_z _ _ _ H HI) as HZ. inversion HZ as [|? ? [M0 N0] HZ']; subst.
  destruct (zprods_rev l (jz a0)) as [below EB]. pose proof (zinvs_back_ok l (jz a0) (fv (jz a0)) (inv (zlast (jz a0) l)) (fx_of _ _ M0) N0 HZ') as K.
  destruct (zlast_fx l (jz a0) _ (fx_of _ _ M0) N0 HZ') as [XL NL]. pose proof (HInv _ _ _ XL eq_refl) as XI.
  rewrite EB in K |- *. cbn [tl] in K. apply combine_zinv_ok; try assumption. cbn [map]. apply K; [exact (fx_mag _ _ _ XI)|].
  rewrite (fx_fv _ _ _ XI). now apply finv_l.
Qed.
Lemma ge_set_all_gej_ok t l Ps : Forall2 (gej_rep t) l Ps -> Forall (fun a => jinf a = false) l -> Forall2 (ge_rep t) (ge_set_all_gej l) Ps.
Proof.
  intros H HI. destruct l as [|a0 l]; [inversion H; constructor|]. unfold ge_set_all_gej. cbv zeta.
  apply ge_set_all_gej_gen; try assumption. intros. eapply fx_inv; eassumption.
Qed.
Lemma merge_inf_ok t l Ps : Forall2 (gej_rep t) l Ps -> forall r Qs,
  Forall2 (gej_rep t) (filter (fun a => negb (jinf a)) l) Qs -> Forall2 (ge_rep t) r Qs -> t <> f0 ->
  Forall2 (ge_rep t) (merge_inf l r) Ps.
Proof.
  induction 1 as [|a P l Ps HR H IH]; intros r Qs HF HQ Ht; cbn [merge_inf filter] in *; [constructor|].
  destruct (jinf a) eqn:Ei; cbn [negb] in HF.
  - constructor; [rewrite (gej_rep_inf _ _ _ HR Ei); apply ge_infinity_rep|]. now apply (IH _ Qs).
  - inversion HF as [|? Q ? Qs' HRa HF']; subst. inversion HQ as [|g ? r' ? Hg HQ']; subst. constructor; [|now apply (IH _ Qs')].
    destruct (ge_set_gej_ok _ _ _ HR) as [K1 _]. destruct (ge_set_gej_ok _ _ _ HRa) as [K2 _].
    rewrite (ge_rep_fun _ _ _ _ Ht K1 K2). exact Hg.
Qed.
Lemma filter_rep t l Ps : Forall2 (gej_rep t) l Ps -> exists Qs, Forall2 (gej_rep t) (filter (fun a => negb (jinf a)) l) Qs.
Proof.
  induction 1 as [|a P l Ps HR H [Qs IH]]; cbn [filter]; [exists []; constructor|].
  destruct (jinf a); cbn [negb]; [exists Qs; exact IH|exists (P :: Qs); now constructor].
Qed.
Lemma ge_set_all_gej_var_ok t l Ps : t <> f0 -> Forall2 (gej_rep t) l Ps -> Forall2 (ge_rep t) (ge_set_all_gej_var l) Ps.
Proof.
  intros Ht H. unfold ge_set_all_gej_var. destruct (filter_rep _ _ _ H) as [Qs HQ].
  apply (merge_inf_ok t l Ps H _ Qs HQ); [|exact Ht].
  assert (HI : Forall (fun a => jinf a = false) (filter (fun a => negb (jinf a)) l)).
  { apply Forall_forall. intros a Ha. apply filter_In in Ha as [_ Ha]. now destruct (jinf a). }
  destruct (filter (fun a => negb (jinf a)) l) as [|a0 l']; [inversion HQ; constructor|]. cbv zeta.
  apply (ge_set_all_gej_gen t fe_inv_var a0 l' Qs); try assumption. intros. eapply fx_inv_var; eassumption.
Qed.

(** ** Tables with a common z *)
Inductive zchain : F -> list (ge * fe) -> list point -> Prop :=
| zchain_one u a zr P : ge_rep u a P -> zchain u [(a, zr)] [P]
| zchain_cons u u' a zr l P Ps : ge_rep u a P -> (u' * fv zr = u)%F -> fe_mag 8 zr -> zchain u' l Ps -> zchain u ((a, zr) :: l) (P :: Ps).
Lemma globalz_back_ok top u' l Ps : zchain u' l Ps -> forall zs, fe_mag 8 zs -> (u' * fv zs = top)%F ->
  Forall2 (ge_rep top) (globalz_back l zs) Ps.
Proof.
  induction 1 as [u a zr P HR|u u' a zr l P Ps HR E M H IH]; intros zs Mz Ez; cbn [globalz_back]; constructor.
  - now apply (ge_set_ge_zinv_ok u).
  - constructor.
  - now apply (ge_set_ge_zinv_ok u).
  - pose proof (fx_mul _ _ _ _ _ _ (fx_of _ _ Mz) (fx_of _ _ M) eq_refl) as X.
    apply IH; [exact (fx_mag_w _ 8 _ _ X eq_refl)|]. rewrite (fx_fv _ _ _ X), <- Ez, <- E. ring.
Qed.
Lemma ge_table_set_globalz_ok u l Ps : zchain u (rev l) (rev Ps) -> Forall2 (ge_rep u) (ge_table_set_globalz l) Ps.
Proof.
  intros H. unfold ge_table_set_globalz. rewrite <- (rev_involutive Ps).
  assert (K : forall a P, ge_rep u a P -> ge_rep u (mkge (gx a) (fe_normalize_weak (gy a)) (ginf a)) P).
  { intros a P HR. destruct (ge_rep_mags _ _ _ HR) as (X & Y & OC). pose proof (fx_norm_weak _ _ _ Y eq_refl) as N.
    destruct HR as (_ & _ & _ & HR). split; [exact (fx_mag _ _ _ X)|]. split; [exact (fx_mag_w _ 3 _ _ N eq_refl)|]. split; [exact OC|].
    cbn [gx gy ginf]. destruct P; [exact HR|]. destruct HR as (E1 & E2 & E3). rewrite (fx_fv _ _ _ N). auto. }
  destruct (rev l) as [|[a zr] l'] eqn:EL; [exfalso; revert H; clear; generalize (rev Ps); intros q H; inversion H|].
  assert (FR : forall (A B : Type) (R : A -> B -> Prop) x y, Forall2 R x y -> Forall2 R (rev x) (rev y)).
  { intros A B R x y HH. induction HH; cbn [rev]; [constructor|]. apply Forall2_app; [assumption|]. now constructor. }
  apply FR. revert H. generalize (rev Ps). intros qs H. inversion H; subst.
  - cbn [globalz_back]. constructor; [now apply K|constructor].
  - constructor; [now apply K|]. match goal with HZ : zchain ?v l' _ |- _ => apply (globalz_back_ok _ v _ _ HZ) end; first [assumption | reflexivity].
Qed.
