(** Tables of odd multiples and the interleaved multiplication. *)
Require Import ZArith List Bool Lia.
From Verif Require Import Word Bytes Spec ZmField Curve FieldModel FieldMul FieldProof FieldProof2 FieldBytes FieldOps ScalarModel ScalarProof ScalarProof2 ScalarSplit
  GroupModel GroupProof GroupProof2 GroupProof3 GroupProof4 GroupProof5 Endo HashModel EcmultModel WnafProof NumTheory Primes.
Import ListNotations.
Local Open Scope Z_scope.

Ltac mw H := eapply fx_mag_w; [exact H|reflexivity].
(** Points by their discrete logarithm. *)
Notation K k := (pmul k G).
Lemma oc_K k : on_curve (K k). Proof. apply on_curve_mul, on_curve_G. Qed.
Lemma K_add a b : padd (K a) (K b) = K (a + b). Proof. symmetry. apply pmul_add, on_curve_G. Qed.
Lemma K_neg a : pneg (K a) = K (- a). Proof. symmetry. apply pmul_neg, on_curve_G. Qed.
Lemma K_dbl a : padd (K a) (K a) = K (2 * a). Proof. rewrite K_add. f_equal. ring. Qed.
Lemma K_lam a : pmul lambda (K a) = K (lambda * a). Proof. symmetry. apply pmul_mul, on_curve_G. Qed.
Lemma K_mul a b : pmul a (K b) = K (a * b). Proof. symmetry. apply pmul_mul, on_curve_G. Qed.

Lemma gej_rep_K_fin t a k : gej_rep t a (K k) -> k mod n <> 0 -> jinf a = false.
Proof.
  intros R H. destruct (jinf a) eqn:E; [|reflexivity]. exfalso. apply H. apply pmul_G_Inf. now apply (gej_rep_inf _ _ _ R).
Qed.
Lemma ge_rep_K_fin t a k : ge_rep t a (K k) -> k mod n <> 0 -> ginf a = false.
Proof.
  intros R H. destruct (ginf a) eqn:E; [|reflexivity]. exfalso. apply H. apply pmul_G_Inf. now apply (ge_rep_inf _ _ _ R).
Qed.

(** A Jacobian point with its z dropped is an affine point in the frame z * t. *)
Lemma drop_z t a P : gej_rep t a P -> jinf a = false -> fe_mag 3 (jy a) -> ge_rep (fv (jz a) * t)%F (ge_set_xy (jx a) (jy a)) P.
Proof.
  intros R F M. destruct (gej_rep_mags _ _ _ R) as (Mx & My & Mz & OC). destruct (gej_rep_fin _ _ _ R F) as (x & y & -> & Nz & Ex & Ey).
  split; [apply (fx_mag _ _ _ Mx)|]. split; [exact M|]. split; [exact OC|]. split; [reflexivity|]. split; assumption.
Qed.

Lemma gej_add_ge_var_ymag t a b P Q : t <> f0 -> gej_rep t a P -> ge_rep t b Q -> ginf b = false -> fe_mag 3 (jy (fst (gej_add_ge_var_rzr a b))).
Proof.
  intros Ht Ra Rb Fb. destruct (gej_rep_mags _ _ _ Ra) as (Ma & Mb & Mc & OCa). destruct (ge_rep_mags _ _ _ Rb) as (Mbx & Mby & OCb).
  unfold gej_add_ge_var_rzr. destruct (jinf a) eqn:Ia; [exact (fx_mag _ _ _ Mby)|]. rewrite Fb.
  assert (Hz12 := fx_sqr _ _ _ Mc eq_refl).
  assert (Hu2 := fx_mul _ _ _ _ _ _ Mbx Hz12 eq_refl).
  assert (Hs2 := fx_mul _ _ _ _ _ _ (fx_mul _ _ _ _ _ _ Mby Hz12 eq_refl) Mc eq_refl).
  assert (Hh := fx_add _ _ _ _ _ _ (fx_negate _ 4 _ _ Ma eq_refl) Hu2 eq_refl).
  assert (Hi := fx_add _ _ _ _ _ _ (fx_negate _ 1 _ _ Hs2 eq_refl) Mb eq_refl).
  change (4 + 1 + 1) with 6 in Hh. change (1 + 1 + 4) with 6 in Hi.
  cbv zeta. destruct (fe_normalizes_to_zero_var _) eqn:E1.
  - destruct (fe_normalizes_to_zero_var (fe_add (fe_negate (fe_mul _ _) 1) _)).
    + unfold gej_double_var_rzr. rewrite Ia. cbn [fst].
      destruct (gej_double_fx a _ eq_refl (fx_mag _ _ _ Ma) (fx_mag _ _ _ Mb) (fx_mag _ _ _ Mc)) as (_ & Hy & _). exact (fx_mag _ _ _ Hy).
    + cbn [fst]. exact (fx_mag_w 1 3 (fe_set_int 0) f0 fx_int0 eq_refl).
  - destruct (add_tail_fx _ _ _ _ _ _ _ _ _ eq_refl Ma Mb Hh Hi) as [_ Hy].
    destruct (add_tail _ _ _ _) as [rx ry]. cbn [fst snd jy] in *. exact (fx_mag_w 2 3 ry _ Hy eq_refl).
Qed.

(** A run of table entries (last first), each linked by its z-ratio to the frame of
    the entry before it; the first one is linked to the frame [u0]. *)
Inductive zlink : F -> list (ge * fe) -> list point -> F -> Prop :=
| zlink_nil u : zlink u [] [] u
| zlink_cons u u' u0 a zr l P Ps : ge_rep u a P -> (u' * fv zr = u)%F -> fe_mag 8 zr -> zlink u' l Ps u0 -> zlink u ((a, zr) :: l) (P :: Ps) u0.

Lemma zlink_app u l Ps u1 : zlink u l Ps u1 -> forall l' Ps' u0, zlink u1 l' Ps' u0 -> zlink u (l ++ l') (Ps ++ Ps') u0.
Proof. induction 1; intros l2 P2 u2 HH; [exact HH|]. cbn [app]. econstructor; eauto. Qed.
Lemma zlink_zchain u l Ps u0 : zlink u l Ps u0 -> l <> [] -> zchain u l Ps.
Proof.
  induction 1 as [|u u' u0 a zr l P Ps R E M H IH]; [congruence|]. intros _. destruct H; [constructor; exact R|].
  econstructor; eauto. apply IH. discriminate.
Qed.
Lemma zlink_len u l Ps u0 : zlink u l Ps u0 -> length l = length Ps.
Proof. induction 1; cbn; congruence. Qed.

Definition odd_from (c k : Z) (m : nat) : list point := map (fun i => K (c + 2 * k * Z.of_nat i)) (seq 0 m).
Lemma odd_from_S c k m : odd_from c k (S m) = K c :: odd_from (c + 2 * k) k m.
Proof.
  unfold odd_from. cbn [seq map]. f_equal; [f_equal; ring|]. rewrite <- seq_shift, map_map. apply map_ext. intros i. f_equal. lia.
Qed.

Lemma odd_loop_ok m : forall T ai d_ge c k, T <> f0 -> gej_rep T ai (K c) -> ge_rep T d_ge (K (2 * k)) -> (2 * k) mod n <> 0 -> c mod n <> 0 ->
  (forall i, (1 <= i <= m)%nat -> (c + 2 * k * Z.of_nat i) mod n <> 0) ->
  let (l, aif) := odd_loop m ai d_ge in
  gej_rep T aif (K (c + 2 * k * Z.of_nat m)) /\ jinf aif = false /\
  zlink (fv (jz aif) * T)%F (rev l) (rev (odd_from (c + 2 * k) k m)) (fv (jz ai) * T)%F.
Proof.
  induction m as [|m IH]; intros T ai d_ge c k HT Ra Rd Nd Nc Hi; cbn [odd_loop].
  - split; [|split; [now apply (gej_rep_K_fin _ _ _ Ra)|constructor]]. replace (c + 2 * k * Z.of_nat 0) with c by lia. exact Ra.
  - destruct (gej_add_ge_var_ok T ai d_ge _ _ HT Ra Rd) as [R1 [Mz Ez]].
    pose proof (gej_add_ge_var_ymag T ai d_ge _ _ HT Ra Rd (ge_rep_K_fin _ _ _ Rd Nd)) as My.
    destruct (gej_add_ge_var_rzr ai d_ge) as [ai' zr]. cbn [fst snd] in *. rewrite K_add in R1.
    assert (N1 : (c + 2 * k) mod n <> 0) by (specialize (Hi 1%nat ltac:(lia)); now rewrite Z.mul_1_r in Hi).
    specialize (IH T ai' d_ge (c + 2 * k) k HT R1 Rd Nd N1).
    assert (Hi' : forall i, (1 <= i <= m)%nat -> (c + 2 * k + 2 * k * Z.of_nat i) mod n <> 0).
    { intros i Hb. specialize (Hi (S i) ltac:(lia)). replace (c + 2 * k + 2 * k * Z.of_nat i) with (c + 2 * k * Z.of_nat (S i)) by lia. exact Hi. }
    specialize (IH Hi'). destruct (odd_loop m ai' d_ge) as [l aif]. destruct IH as (Rf & Ff & ZL).
    split; [|split; [exact Ff|]].
    + replace (c + 2 * k * Z.of_nat (S m)) with (c + 2 * k + 2 * k * Z.of_nat m) by lia. exact Rf.
    + rewrite odd_from_S. cbn [rev]. eapply zlink_app; [exact ZL|].
      assert (F1 : jinf ai' = false) by apply (gej_rep_K_fin _ _ _ R1 N1).
      econstructor; [apply (drop_z _ _ _ R1 F1 My)| |exact Mz|constructor].
      rewrite (Ez (gej_rep_K_fin _ _ _ Ra Nc) F1). ring.
Qed.

(** No small odd multiple of a finite point is infinity. *)
Lemma small_mult_nz k j : k mod n <> 0 -> 0 < j < n -> (j * k) mod n <> 0.
Proof.
  intros Hk Hj E. apply Z.mod_divide in E; [|lia]. destruct (Znumtheory.prime_mult n prime_n _ _ E) as [D | D].
  - apply Znumtheory.Zdivide_le in D; lia.
  - apply Hk. apply Z.mod_divide; [lia|exact D].
Qed.

Theorem odd_multiples_table_ok t a k size : t <> f0 -> gej_rep t a (K k) -> k mod n <> 0 -> (1 <= size <= 1000)%nat ->
  let (tab, z) := odd_multiples_table size a in
  zlink (fv z * t)%F (rev tab) (rev (odd_from k k size)) (fv (jz a) * t)%F /\ fe_mag 1 z /\ fv z <> f0 /\ length tab = size.
Proof.
  intros Ht Ra Nk Hsz. unfold odd_multiples_table.
  assert (Bn : 2 ^ 250 < n) by reflexivity.
  assert (Hn : 3000 < n) by (eapply Z.lt_trans; [|exact Bn]; reflexivity). clear Bn.
  assert (Fa : jinf a = false) by apply (gej_rep_K_fin _ _ _ Ra Nk).
  destruct (gej_rep_mags _ _ _ Ra) as (Mx & My & Mz & OC).
  destruct (gej_rep_fin _ _ _ Ra Fa) as (x & y & EP & Nz & Ex & Ey).
  unfold gej_double_var, gej_double_var_rzr. rewrite Fa. cbn [fst].
  pose proof (gej_double_ok t a _ Ht Ra) as Rd. rewrite K_dbl in Rd.
  destruct (gej_double_fx a _ eq_refl (fx_mag _ _ _ Mx) (fx_mag _ _ _ My) (fx_mag _ _ _ Mz)) as (_ & Dy & Dz & Di).
  set (d := gej_double a) in *. clearbody d.
  assert (N2 : (2 * k) mod n <> 0) by (apply small_mult_nz; [exact Nk|lia]).
  assert (Fd : jinf d = false) by apply (gej_rep_K_fin _ _ _ Rd N2).
  assert (NC : fv (jz d) <> f0) by (destruct (gej_rep_fin _ _ _ Rd Fd) as (? & ? & _ & H & _); exact H).
  apply fx_mag in Dz. apply fx_mag in Dy.
  set (C := fv (jz d)) in *. assert (HC : fx 1 (jz d) C) by (split; [exact Dz|reflexivity]).
  set (T := (C * t)%F). assert (HT : T <> f0) by (apply fmul_nz; assumption).
  (* d_ge *)
  assert (Rdg : ge_rep T (ge_set_xy (jx d) (jy d)) (K (2 * k))) by (apply drop_z; assumption).
  (* pre0 and ai *)
  set (zi2 := fe_sqr (jz d)). assert (H2 : fx 1 zi2 (C * C)%F) by (apply (fx_sqr _ _ _ HC); reflexivity).
  set (zi3 := fe_mul zi2 (jz d)). assert (H3 : fx 1 zi3 (C * C * C)%F) by (apply (fx_mul _ _ _ _ _ _ H2 HC); reflexivity).
  assert (H4 : fx 1 (fe_mul (jx a) zi2) (fv (jx a) * (C * C))%F) by (apply (fx_mul _ _ _ _ _ _ Mx H2); reflexivity).
  assert (H5 : fx 1 (fe_mul (jy a) zi3) (fv (jy a) * (C * C * C))%F) by (apply (fx_mul _ _ _ _ _ _ My H3); reflexivity).
  unfold ge_set_gej_zinv. fold zi2. fold zi3. unfold gej_set_ge. cbn [gx gy ginf jx jy jz jinf].
  assert (Rai : gej_rep T (mkgej (fe_mul (jx a) zi2) (fe_mul (jy a) zi3) (jz a) (jinf a)) (K k)).
  { split; [mw H4|]. split; [mw H5|]. split; [exact (fx_mag _ _ _ Mz)|]. split; [exact OC|].
    cbn [jx jy jz jinf]. rewrite EP. split; [exact Fa|]. split; [exact Nz|].
    cbv zeta. rewrite (fx_fv _ _ _ H4), (fx_fv _ _ _ H5), Ex, Ey. unfold T. split; ring. }
  assert (Rp0 : ge_rep (fv (jz a) * T)%F (mkge (fe_mul (jx a) zi2) (fe_mul (jy a) zi3) (jinf a)) (K k)).
  { pose proof (drop_z _ _ _ Rai Fa ltac:(mw H5)) as H. rewrite Fa. exact H. }
  pose proof (odd_loop_ok (size - 1) T _ _ k k HT Rai Rdg N2 Nk) as HL.
  assert (HI : forall i, (1 <= i <= size - 1)%nat -> (k + 2 * k * Z.of_nat i) mod n <> 0).
  { intros i Hi. replace (k + 2 * k * Z.of_nat i) with ((1 + 2 * Z.of_nat i) * k) by ring. apply small_mult_nz; [exact Nk|lia]. }
  specialize (HL HI). clear HI.
  destruct (odd_loop (size - 1) _ _) as [l aif]. destruct HL as (Rf & Ff & ZL). cbn [jz] in ZL.
  destruct (gej_rep_mags _ _ _ Rf) as (_ & _ & Mzf & _).
  destruct (gej_rep_fin _ _ _ Rf Ff) as (? & ? & _ & Nzf & _).
  pose proof (fx_mul _ _ _ _ _ _ Mzf HC eq_refl) as Hz.
  assert (Ll : length l = (size - 1)%nat).
  { apply zlink_len in ZL. rewrite !rev_length in ZL. unfold odd_from in ZL. rewrite map_length, seq_length in ZL. exact ZL. }
  split; [|split; [exact (fx_mag _ _ _ Hz)|split; [rewrite (fx_fv _ _ _ Hz); now apply fmul_nz|cbn [length]; lia]]].
  cbn [rev]. replace size with (S (size - 1)) at 1 by lia. rewrite odd_from_S. cbn [rev].
  rewrite (fx_fv _ _ _ Hz).
  assert (EE : (fv (jz aif) * C * t = fv (jz aif) * T)%F) by (unfold T; ring). rewrite EE. clear EE.
  replace (k + 2 * k) with (k + 2 * k) by reflexivity.
  eapply zlink_app; [exact ZL|]. econstructor; [exact Rp0| |mw HC|constructor].
  change (fv (jz d)) with C. unfold T. ring.
Qed.

(** ** Table lookups *)
Lemma neg_y_ok t r P : ge_rep t r P -> fe_mag 1 (gy r) -> ge_rep t (mkge (gx r) (fe_negate (gy r) 1) (ginf r)) (pneg P).
Proof.
  intros R M. destruct (ge_rep_mags _ _ _ R) as (Mx & My & OC).
  pose proof (fx_negate 1 1 _ _ (fx_of _ _ M) eq_refl) as N. change (1 + 1) with 2 in N.
  split; [exact (fx_mag _ _ _ Mx)|]. split; [cbn [gy]; mw N|]. split; [now apply on_curve_neg|].
  destruct R as (_ & _ & _ & R). destruct P as [|x y]; cbn [pneg]; [exact R|]. destruct R as (F & Ex & Ey). cbn [gx gy ginf].
  split; [exact F|]. split; [exact Ex|]. rewrite (fx_fv _ _ _ N), Ey, toF_pneg_y. ring.
Qed.

Lemma globalz_mag1 u l Ps : zchain u (rev l) Ps -> Forall (fun g => fe_mag 1 (gy g)) (ge_table_set_globalz l).
Proof.
  intros H. unfold ge_table_set_globalz. destruct (rev l) as [|[a zr] l']; [constructor|].
  apply Forall_rev.
  assert (HB : forall u' Q Qs zs, zchain u' Q Qs -> fe_mag 8 zs -> Forall (fun g => fe_mag 1 (gy g)) (globalz_back Q zs)).
  { intros u' Q Qs zs HQ. revert zs. induction HQ as [u1 a1 zr1 P1 R1|u1 u2 a1 zr1 l1 P1 Ps1 R1 E1 M1 HQ IH]; intros zs Mz; cbn [globalz_back].
    - constructor; [|constructor]. destruct (ge_rep_mags _ _ _ R1) as (_ & My & _).
      pose proof (fx_sqr _ _ _ (fx_of _ _ Mz) eq_refl) as H2. pose proof (fx_mul _ _ _ _ _ _ H2 (fx_of _ _ Mz) eq_refl) as H3.
      exact (fx_mag _ _ _ (fx_mul _ _ _ _ _ _ My H3 eq_refl)).
    - constructor.
      + destruct (ge_rep_mags _ _ _ R1) as (_ & My & _).
        pose proof (fx_sqr _ _ _ (fx_of _ _ Mz) eq_refl) as H2. pose proof (fx_mul _ _ _ _ _ _ H2 (fx_of _ _ Mz) eq_refl) as H3.
        exact (fx_mag _ _ _ (fx_mul _ _ _ _ _ _ My H3 eq_refl)).
      + apply IH. pose proof (fx_mul _ _ _ _ _ _ (fx_of _ _ Mz) (fx_of _ _ M1) eq_refl) as H4. mw H4. }
  constructor.
  - cbn [gy]. inversion H as [? ? ? ? R|? ? ? ? ? ? ? R]; subst; destruct (ge_rep_mags _ _ _ R) as (_ & My & _); exact (fx_mag _ _ _ (fx_norm_weak _ _ _ My eq_refl)).
  - inversion H as [? ? ? ? R|? u2 ? ? ? ? ? R E M Hc]; subst; [constructor|]. eapply HB; [exact Hc|exact M].
Qed.

(** A table of the odd multiples of k * G in frame t. *)
Definition tab_ok (t : F) (k : Z) (m : nat) (pre : list ge) : Prop :=
  forall i, (i < m)%nat -> ge_rep t (nth i pre ge0) (K ((2 * Z.of_nat i + 1) * k)) /\ fe_mag 1 (gy (nth i pre ge0)).

Lemma odd_from_nth k m i : (i < m)%nat -> nth i (odd_from k k m) Inf = K ((2 * Z.of_nat i + 1) * k).
Proof.
  intros H. unfold odd_from. rewrite (nth_indep _ Inf (K (k + 2 * k * Z.of_nat 0))) by (rewrite map_length, seq_length; exact H).
  rewrite (map_nth (fun j => K (k + 2 * k * Z.of_nat j))). rewrite seq_nth by exact H. f_equal. cbn [Nat.add]. ring.
Qed.
Lemma Forall2_nth_gen {A B} (R : A -> B -> Prop) l l' da db : Forall2 R l l' -> forall i, (i < length l')%nat -> R (nth i l da) (nth i l' db).
Proof. induction 1; intros i Hi; cbn in Hi; [lia|]. destruct i; cbn; [assumption|]. apply IHForall2. lia. Qed.
Lemma Forall2_len {A B} (R : A -> B -> Prop) l l' : Forall2 R l l' -> length l = length l'.
Proof. induction 1; cbn; congruence. Qed.
Lemma tab_ok_intro t k m pre rest : Forall2 (ge_rep t) pre (odd_from k k m ++ rest) -> Forall (fun g => fe_mag 1 (gy g)) pre -> tab_ok t k m pre.
Proof.
  intros H M i Hi. assert (L : length (odd_from k k m) = m) by (unfold odd_from; now rewrite map_length, seq_length).
  assert (Li : (i < length (odd_from k k m ++ rest))%nat) by (rewrite app_length; lia).
  split.
  - pose proof (Forall2_nth_gen _ _ _ ge0 Inf H i Li) as R. rewrite app_nth1 in R by lia. now rewrite odd_from_nth in R by exact Hi.
  - assert (L2 : length pre = length (odd_from k k m ++ rest)) by (exact (Forall2_len _ _ _ H)).
    rewrite Forall_forall in M. apply M. apply nth_In. lia.
Qed.

Lemma digit_index w d m : 2 <= w -> digit_ok w d -> d <> 0 -> m = table_size w ->
  exists i, (i < m)%nat /\ ((d > 0 /\ (d - 1) / 2 = Z.of_nat i /\ d = 2 * Z.of_nat i + 1) \/ (d < 0 /\ (- d - 1) / 2 = Z.of_nat i /\ d = - (2 * Z.of_nat i + 1))).
Proof.
  intros Hw [-> | [O B]] N ->; [congruence|].
  assert (P : 2 ^ (w - 1) = 2 * 2 ^ (w - 2)) by (replace (w - 1) with (w - 2 + 1) by lia; rewrite Z.pow_add_r by lia; change (2 ^ 1) with 2; ring).
  apply Z.odd_spec in O. destruct O as [q Eq].
  assert (P0 : 0 < 2 ^ (w - 2)) by (apply Z.pow_pos_nonneg; lia).
  destruct (Z_lt_le_dec 0 d) as [Hp | Hp].
  - exists (Z.to_nat q). split; [unfold table_size; apply Z2Nat.inj_lt; lia|]. left. rewrite Z2Nat.id by lia.
    split; [lia|]. split; [|lia]. rewrite Eq. replace (2 * q + 1 - 1) with (q * 2) by ring. apply Z.div_mul. lia.
  - exists (Z.to_nat (- q - 1)). split; [unfold table_size; apply Z2Nat.inj_lt; lia|]. right. rewrite Z2Nat.id by lia.
    split; [lia|]. split; [|lia]. rewrite Eq. replace (- (2 * q + 1) - 1) with ((- q - 1) * 2) by ring. apply Z.div_mul. lia.
Qed.

Lemma gtb_pos d : d > 0 -> (d >? 0) = true. Proof. intros. apply Z.gtb_lt. lia. Qed.
Lemma gtb_neg d : d < 0 -> (d >? 0) = false. Proof. intros. rewrite Z.gtb_ltb. apply Z.ltb_ge. lia. Qed.

Lemma table_get_ge_ok t k w pre d : 2 <= w -> tab_ok t k (table_size w) pre -> digit_ok w d -> d <> 0 -> ge_rep t (table_get_ge pre d) (K (d * k)).
Proof.
  intros Hw T D N. destruct (digit_index w d _ Hw D N eq_refl) as (i & Hi & [(Hp & Ei & Ed) | (Hp & Ei & Ed)]); unfold table_get_ge.
  - rewrite gtb_pos by exact Hp. rewrite Ei, Nat2Z.id, Ed. apply T, Hi.
  - rewrite gtb_neg by exact Hp. rewrite Ei, Nat2Z.id. destruct (T i Hi) as [R M]. pose proof (neg_y_ok _ _ _ R M) as R2.
    rewrite K_neg in R2. replace (d * k) with (- ((2 * Z.of_nat i + 1) * k)) by (rewrite Ed; ring). exact R2.
Qed.

Definition lam_xs (pre : list ge) : list fe := map (fun g => fe_mul (gx g) const_beta) pre.
Lemma table_get_ge_lambda_ok t k w pre d : 2 <= w -> 2 * Z.of_nat (table_size w) < n -> k mod n <> 0 -> (table_size w <= length pre)%nat ->
  tab_ok t k (table_size w) pre -> digit_ok w d -> d <> 0 -> ge_rep t (table_get_ge_lambda pre (lam_xs pre) d) (K (d * (lambda * k))).
Proof.
  intros Hw Hm Nk Hl T D N.
  assert (HE : forall i, (i < table_size w)%nat ->
    ge_set_xy (nth i (lam_xs pre) fe0) (gy (nth i pre ge0)) = ge_mul_lambda (nth i pre ge0) /\
    ge_rep t (ge_mul_lambda (nth i pre ge0)) (K ((2 * Z.of_nat i + 1) * (lambda * k)))).
  { intros i Hi. destruct (T i Hi) as [R M]. split.
    - unfold ge_mul_lambda, ge_set_xy. rewrite (ge_rep_K_fin _ _ _ R) by (apply small_mult_nz; [exact Nk|lia]). f_equal.
      unfold lam_xs. rewrite (nth_indep _ fe0 (fe_mul (gx ge0) const_beta)) by (rewrite map_length; lia).
      exact (map_nth (fun g => fe_mul (gx g) const_beta) pre ge0 i).
    - pose proof (ge_mul_lambda_ok _ _ _ R) as R2. rewrite K_lam in R2.
      replace ((2 * Z.of_nat i + 1) * (lambda * k)) with (lambda * ((2 * Z.of_nat i + 1) * k)) by ring. exact R2. }
  destruct (digit_index w d _ Hw D N eq_refl) as (i & Hi & [(Hp & Ei & Ed) | (Hp & Ei & Ed)]); unfold table_get_ge_lambda.
  - rewrite gtb_pos by exact Hp. rewrite Ei, Nat2Z.id. destruct (HE i Hi) as [-> R]. rewrite Ed. exact R.
  - rewrite gtb_neg by exact Hp. rewrite Ei, Nat2Z.id. destruct (HE i Hi) as [-> R].
    pose proof (neg_y_ok _ _ _ R (proj2 (T i Hi))) as R2. rewrite K_neg in R2.
    replace (d * (lambda * k)) with (- ((2 * Z.of_nat i + 1) * (lambda * k))) by (rewrite Ed; ring). exact R2.
Qed.

(** ** The generator tables *)
Definition stab_ok (k : Z) (m : nat) (pre : list ge_storage) : Prop :=
  forall i, (i < m)%nat -> ge_rep f1 (ge_from_storage (nth i pre ges0)) (K ((2 * Z.of_nat i + 1) * k)) /\ fe_mag 1 (gy (ge_from_storage (nth i pre ges0))).

Lemma table_get_ge_storage_ok k w pre d : 2 <= w -> stab_ok k (table_size w) pre -> digit_ok w d -> d <> 0 -> ge_rep f1 (table_get_ge_storage pre d) (K (d * k)).
Proof.
  intros Hw T D N. destruct (digit_index w d _ Hw D N eq_refl) as (i & Hi & [(Hp & Ei & Ed) | (Hp & Ei & Ed)]); unfold table_get_ge_storage.
  - rewrite gtb_pos by exact Hp. rewrite Ei, Nat2Z.id, Ed. apply T, Hi.
  - rewrite gtb_neg by exact Hp. rewrite Ei, Nat2Z.id. destruct (T i Hi) as [R M]. pose proof (neg_y_ok _ _ _ R M) as R2.
    rewrite K_neg in R2. replace (d * k) with (- ((2 * Z.of_nat i + 1) * k)) by (rewrite Ed; ring). exact R2.
Qed.

Lemma storage_rt a k : ge_rep f1 a (K k) -> k mod n <> 0 ->
  ge_rep f1 (ge_from_storage (ge_to_storage a)) (K k) /\ fe_mag 1 (gy (ge_from_storage (ge_to_storage a))).
Proof.
  intros R N. pose proof (ge_rep_K_fin _ _ _ R N) as F. destruct (ge_rep_fin _ _ _ R F) as (x & y & E & _). rewrite E in *.
  destruct (ge_to_storage_ok _ _ _ R) as (O1 & O2 & E1 & E2).
  destruct (ge_from_storage_ok _ x y O1 O2 E1 E2 (ge_rep_oc _ _ _ R)) as (R2 & _ & N2). split; [exact R2|]. now apply fe_norm_mag.
Qed.

Lemma compute_loop_ok m : forall g dgen c k, ge_rep f1 g (K c) -> ge_rep f1 dgen (K (2 * k)) ->
  (forall i, (1 <= i <= m)%nat -> (c + 2 * k * Z.of_nat i) mod n <> 0) ->
  forall i, (i < m)%nat -> ge_rep f1 (ge_from_storage (nth i (compute_table_loop m g dgen) ges0)) (K (c + 2 * k * Z.of_nat (S i))) /\
                           fe_mag 1 (gy (ge_from_storage (nth i (compute_table_loop m g dgen) ges0))).
Proof.
  induction m as [|m IH]; intros g dgen c k Rg Rd HN i Hi; [lia|]. cbn [compute_table_loop].
  destruct (gej_add_ge_var_ok f1 _ _ _ _ f1_nz (gej_set_ge_ok _ _ _ Rg) Rd) as [R1 _]. rewrite K_add in R1.
  fold (gej_add_ge_var (gej_set_ge g) dgen) in R1.
  destruct (ge_set_gej_var_ok _ _ _ R1) as [R2 _].
  set (g' := ge_set_gej_var (gej_add_ge_var (gej_set_ge g) dgen)) in *. clearbody g'.
  destruct i as [|i]; cbn [nth].
  - replace (c + 2 * k * Z.of_nat 1) with (c + 2 * k) by lia. apply storage_rt; [exact R2|].
    specialize (HN 1%nat ltac:(lia)). now replace (c + 2 * k * Z.of_nat 1) with (c + 2 * k) in HN by lia.
  - replace (c + 2 * k * Z.of_nat (S (S i))) with (c + 2 * k + 2 * k * Z.of_nat (S i)) by lia.
    apply IH; [exact R2|exact Rd| |lia]. intros j Hj. specialize (HN (S j) ltac:(lia)).
    now replace (c + 2 * k + 2 * k * Z.of_nat j) with (c + 2 * k * Z.of_nat (S j)) by lia.
Qed.

Lemma compute_table_ok m gen k : gej_rep f1 gen (K k) -> k mod n <> 0 -> 2 * Z.of_nat m < n -> stab_ok k m (compute_table m gen).
Proof.
  intros R N Hm i Hi. unfold compute_table.
  destruct (ge_set_gej_var_ok _ _ _ R) as [R1 _].
  destruct (gej_double_var_ok f1 gen _ f1_nz R) as [R2 _]. rewrite K_dbl in R2. fold (gej_double_var gen) in R2.
  destruct (ge_set_gej_var_ok _ _ _ R2) as [R3 _].
  destruct i as [|i]; cbn [nth].
  - replace ((2 * Z.of_nat 0 + 1) * k) with k by (change (Z.of_nat 0) with 0; ring). now apply storage_rt.
  - replace ((2 * Z.of_nat (S i) + 1) * k) with (k + 2 * k * Z.of_nat (S i)) by ring.
    apply compute_loop_ok; [exact R1|exact R3| |lia]. intros j Hj.
    replace (k + 2 * k * Z.of_nat j) with ((1 + 2 * Z.of_nat j) * k) by ring. apply small_mult_nz; [exact N|lia].
Qed.

Lemma double_times_ok m : forall a k, gej_rep f1 a (K k) -> gej_rep f1 (double_times m a) (K (2 ^ Z.of_nat m * k)).
Proof.
  induction m as [|m IH]; intros a k R; cbn [double_times].
  - change (2 ^ Z.of_nat 0) with 1. now rewrite Z.mul_1_l.
  - destruct (gej_double_var_ok f1 a _ f1_nz R) as [R2 _]. rewrite K_dbl in R2. fold (gej_double_var a) in R2.
    apply IH in R2. rewrite Nat2Z.inj_succ, Z.pow_succ_r by lia. replace (2 * 2 ^ Z.of_nat m * k) with (2 ^ Z.of_nat m * (2 * k)) by ring. exact R2.
Qed.

Lemma n_big : 2 ^ 255 < n. Proof. reflexivity. Qed.
Lemma pre_g_gen size : 2 * Z.of_nat size < n ->
  stab_ok 1 size (fst (compute_two_tables size ge_const_g)) /\ stab_ok (2 ^ 128) size (snd (compute_two_tables size ge_const_g)).
Proof.
  intros Hs. unfold compute_two_tables. cbn [fst snd].
  assert (R : gej_rep f1 (gej_set_ge ge_const_g) (K 1)) by (rewrite pmul_1; apply gej_set_ge_ok, ge_const_g_ok).
  pose proof n_big as NB.
  pose proof (double_times_ok 128 _ _ R) as R2. rewrite Z.mul_1_r in R2. change (Z.of_nat 128) with 128 in R2.
  split; (apply compute_table_ok; [| |exact Hs]).
  - exact R.
  - rewrite Z.mod_small by (clear - NB; lia). lia.
  - exact R2.
  - rewrite Z.mod_small by (clear - NB; lia). discriminate.
Qed.
Lemma table_size_g : 2 * Z.of_nat (table_size window_g) < n.
Proof. apply Z.lt_trans with (2 ^ 255); [|apply n_big]. unfold table_size, window_g. rewrite Z2Nat.id by (cbn; lia). reflexivity. Qed.
Lemma pre_g_ok : stab_ok 1 (table_size window_g) pre_g.
Proof. exact (proj1 (pre_g_gen _ table_size_g)). Qed.
Lemma pre_g_128_ok : stab_ok (2 ^ 128) (table_size window_g) pre_g_128.
Proof. exact (proj2 (pre_g_gen _ table_size_g)). Qed.
#[global] Opaque pre_g pre_g_128.
