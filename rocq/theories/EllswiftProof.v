(** ElligatorSwift: decoding and encoding. *)
Require Import ZArith List Bool Lia Field.
From Verif Require Import NumTheory Spec SpecApi SpecHash SpecEllswift Primes ZmField Curve NField Word Bytes.
From Verif Require Import FieldModel FieldMul FieldProof FieldProof2 FieldBytes FieldOps.
From Verif Require Import ScalarModel ScalarProof ScalarProof2 ScalarMul.
From Verif Require Import GroupModel GroupProof GroupProof2 GroupProof3 GroupProof4 GroupProof5.
From Verif Require Import HashModel HashProof GenModel GenProof EcmultModel EcmultProof EcmultProof2 EcmultConst EcdsaModel ApiModel ApiVocab ApiProof ApiProof2 ApiProof3 EcdsaProof EcdsaProof2 KeyProps KeyProps2.
From Verif Require Import EllswiftModel EllswiftAlg.
Import ListNotations.
Local Open Scope Z_scope.
Local Opaque p n SHA256.

Lemma fx_const v : (0 <=? v) && (v <? p) = true -> fx 1 (fe_of_Z v) (toF v).
Proof.
  intros L. apply andb_prop in L as [L1 L2]. apply Z.leb_le in L1. apply Z.ltb_lt in L2.
  split; [apply fe_norm_mag, fe_of_Z_norm; now split|apply fe_of_Z_fv; now split].
Qed.
Lemma fx_c1 : fx 1 ellswift_c1 om. Proof. apply fx_const. reflexivity. Qed.
Lemma fx_c2 : fx 1 ellswift_c2 (- om - 1)%F. Proof. rewrite <- c2_eq. apply fx_const. reflexivity. Qed.
Lemma fx_c3 : fx 1 ellswift_c3 (- om)%F. Proof. rewrite <- c3_eq. apply fx_const. reflexivity. Qed.
Lemma fx_c4 : fx 1 ellswift_c4 (om + 1)%F. Proof. rewrite <- c4_eq. apply fx_const. reflexivity. Qed.
Lemma toF_3 : toF 3 = (1 + 1 + 1)%F. Proof. rewrite <- toF_one, <- !toF_add. reflexivity. Qed.
Lemma ntzv_case m a va : fx m a va -> (m <=? 32) = true -> (fe_normalizes_to_zero_var a = true /\ va = f0) \/ (fe_normalizes_to_zero_var a = false /\ va <> f0).
Proof.
  intros H L. pose proof (fx_ntzv _ _ _ H L) as Q. destruct (fe_normalizes_to_zero_var a).
  - left. split; [reflexivity|now apply Q].
  - right. split; [reflexivity|]. intros E. apply Q in E. discriminate.
Qed.
Lemma frac_case m k xn xd (vn vd : F) : fx m xn vn -> fx k xd vd -> (m <=? 8) && (k <=? 8) = true -> vd <> f0 ->
  (ge_x_frac_on_curve_var xn xd = true <-> issq (cub (vn / vd))).
Proof.
  intros X1 X2 L N. apply andb_prop in L as [L1 L2]. pose proof (fx_mag_w _ 8 _ _ X1 L1) as M1. pose proof (fx_mag_w _ 8 _ _ X2 L2) as M2.
  rewrite <- (fx_fv _ _ _ X1), <- (fx_fv _ _ _ X2) in *. rewrite ge_x_frac_on_curve_var_ok by assumption. cbv zeta.
  rewrite is_square_F', cubic_fv. reflexivity.
Qed.
Lemma frac_b m k xn xd (vn vd : F) : fx m xn vn -> fx k xd vd -> (m <=? 8) && (k <=? 8) = true -> vd <> f0 ->
  (ge_x_frac_on_curve_var xn xd = true /\ issq (cub (vn / vd))) \/ (ge_x_frac_on_curve_var xn xd = false /\ ~ issq (cub (vn / vd))).
Proof.
  intros X1 X2 L N. pose proof (frac_case _ _ _ _ _ _ X1 X2 L N) as Q. destruct (ge_x_frac_on_curve_var xn xd).
  - left. split; [reflexivity|now apply Q].
  - right. split; [reflexivity|]. intros E. apply Q in E. discriminate.
Qed.

(** The result of xswiftec_frac_var. *)
Definition frac_res (r : fe * fe) (x : F) : Prop :=
  fe_mag 8 (fst r) /\ fe_mag 8 (snd r) /\ fv (snd r) <> f0 /\ x = (fv (fst r) / fv (snd r))%F.
Lemma frac_res_intro m k xn xd (vn vd x : F) : fx m xn vn -> fx k xd vd -> (m <=? 8) && (k <=? 8) = true -> vd <> f0 -> x = (vn / vd)%F -> frac_res (xn, xd) x.
Proof.
  intros X1 X2 L N E. apply andb_prop in L as [L1 L2]. unfold frac_res. cbn [fst snd]. rewrite (fx_fv _ _ _ X1), (fx_fv _ _ _ X2).
  split; [exact (fx_mag_w _ 8 _ _ X1 L1)|]. split; [exact (fx_mag_w _ 8 _ _ X2 L2)|]. now split.
Qed.
Lemma frac_core u1 s pp g l (U S0 : F) : fx 1 u1 U -> fx 4 s S0 -> fx 2 g (cub U) -> fx 6 pp (cub U + S0)%F -> fx 1 l (U * U)%F ->
  U <> f0 -> S0 <> f0 -> (cub U + S0)%F <> f0 -> (exists t, t * t = S0)%F ->
  exists x, frac_res
    (let d := fe_mul s l in let d := fe_mul_int d 3 in let l := fe_sqr pp in let l := fe_negate l 1 in let n := fe_mul d u1 in let n := fe_add n l in
     if ge_x_frac_on_curve_var n d then (n, d)
     else let l := fe_mul ellswift_c1 s in let n := fe_mul ellswift_c2 g in let n := fe_add n l in let n := fe_mul n u1 in
       if ge_x_frac_on_curve_var n pp then (n, pp)
       else let l := fe_mul pp u1 in let n := fe_add n l in (fe_negate n 2, pp)) x /\ fvalid3 U S0 x.
Proof.
  intros XU XS XG XP XL NU NS NP HT. cbv zeta. pose proof fx_c1 as XC1. pose proof fx_c2 as XC2.
  fxs d (fe_mul_int (fe_mul s l) 3) XD. fxs nn (fe_add (fe_mul d u1) (fe_negate (fe_sqr pp) 1)) XN. rewrite toF_3 in XD, XN.
  assert (ND : (S0 * (U * U) * (1 + 1 + 1))%F <> f0) by (repeat apply fmul_nz; assumption || exact f3_nz).
  assert (E3 : ((S0 * (U * U) * (1 + 1 + 1) * U + - ((cub U + S0) * (cub U + S0))) / (S0 * (U * U) * (1 + 1 + 1)) = x3f U S0)%F).
  { unfold x3f. field. split; [exact NU|split; [exact NS|exact f3_nz]]. }
  destruct (frac_b _ _ _ _ _ _ XN XD eq_refl ND) as [[-> Q]|[-> Q]]; rewrite E3 in Q.
  { exists (x3f U S0). split; [exact (frac_res_intro _ _ _ _ _ _ _ XN XD eq_refl ND (eq_sym E3))|]. left. split; [exact Q|reflexivity]. }
  clear d nn XD XN E3 ND. fxs nn (fe_mul (fe_add (fe_mul ellswift_c2 g) (fe_mul ellswift_c1 s)) u1) XN.
  assert (E2 : (((- om - 1) * cub U + om * S0) * U / (cub U + S0) = x2f U S0)%F) by (unfold x2f; field; exact NP).
  destruct (frac_b _ _ _ _ _ _ XN XP eq_refl NP) as [[-> Q2]|[-> Q2]]; rewrite E2 in Q2.
  { exists (x2f U S0). split; [exact (frac_res_intro _ _ _ _ _ _ _ XN XP eq_refl NP (eq_sym E2))|]. right. split; [exact Q|]. left. split; [exact Q2|reflexivity]. }
  fxs nm (fe_negate (fe_add nn (fe_mul pp u1)) 2) XN2.
  exists (x1f U S0). split.
  - refine (frac_res_intro _ _ _ _ _ _ _ XN2 XP eq_refl NP _). unfold x1f. rewrite <- E2. field. exact NP.
  - right. split; [exact Q|]. right. split; [exact Q2|]. split; [|reflexivity]. destruct HT as [t <-]. apply dec_some; try assumption. intros ->. apply NS. ring.
Qed.
Lemma frac_ok u t (vu vt : F) : fx 1 u vu -> fx 1 t vt ->
  exists x, frac_res (xswiftec_frac_var u t) x /\ fvalid3 (cor_u vu) (cor_t (cor_u vu) vt * cor_t (cor_u vu) vt)%F x.
Proof.
  intros XU XT. unfold xswiftec_frac_var. pose proof (cor_u_nz vu) as NU. pose proof (cor_t_nz (cor_u vu) vt) as [NT NS].
  assert (XU1 : fx 1 (if fe_normalizes_to_zero_var u then fe_one else u) (cor_u vu)).
  { unfold cor_u. destruct (ntzv_case _ _ _ XU eq_refl) as [[-> E]|[-> E]]; destruct (F_eq_dec vu f0); try contradiction; [exact fx_one|exact XU]. }
  set (u1 := if fe_normalizes_to_zero_var u then fe_one else u) in *. clearbody u1. set (U := cor_u vu) in *. clearbody U. clear XU.
  cbv beta zeta. change curve_b with 7.
  fxs l (fe_sqr u1) XL. fxs g (fe_add_int (fe_mul l u1) 7) XG. fold b7 in XG. change (fx 2 g (cub U)) in XG.
  unfold cor_t in NT, NS |- *. cbv zeta in NT, NS |- *.
  assert (XS : fx 1 (if fe_normalizes_to_zero_var t then fe_one else fe_sqr t) ((if F_eq_dec vt f0 then f1 else vt) * (if F_eq_dec vt f0 then f1 else vt))%F).
  { destruct (ntzv_case _ _ _ XT eq_refl) as [[-> E]|[-> E]]; destruct (F_eq_dec vt f0); try contradiction.
    - replace (1 * 1)%F with f1 by ring. exact fx_one.
    - let pf := fxc (fe_sqr t) in exact pf. }
  set (s1 := if fe_normalizes_to_zero_var t then fe_one else fe_sqr t) in *. clearbody s1. set (t1 := if F_eq_dec vt f0 then f1 else vt) in *. clearbody t1.
  fxs pp (fe_add g s1) XP.
  destruct (ntzv_case _ _ _ XP eq_refl) as [[-> E]|[-> E]]; destruct (F_eq_dec (cub U + t1 * t1)%F f0); try contradiction.
  - assert (XS2 : fx 4 (fe_mul_int s1 4) ((t1 + t1) * (t1 + t1))%F).
    { assert (X : fx 4 (fe_mul_int s1 4) _) by (let pf := fxc (fe_mul_int s1 4) in exact pf). rewrite toF_4 in X.
      replace ((t1 + t1) * (t1 + t1))%F with (t1 * t1 * (1 + 1 + (1 + 1)))%F by ring. exact X. }
    assert (XP2 : fx 6 (fe_add g (fe_mul_int s1 4)) (cub U + (t1 + t1) * (t1 + t1))%F) by exact (fx_add _ _ _ _ _ _ XG XS2 eq_refl).
    apply (frac_core u1 (fe_mul_int s1 4) _ g l U); try assumption; [now apply fmul_nz|]. exists (t1 + t1)%F. reflexivity.
  - apply (frac_core u1 s1 _ g l U); try assumption; [exact (fx_weaken _ 4 _ _ XS eq_refl)|exact (fx_weaken _ 6 _ _ XP eq_refl)|now apply fmul_nz|].
    exists t1. reflexivity.
Qed.

Lemma issq_zv (x : F) : is_square_mod_p (zv x * zv x * zv x + 7) <-> issq (cub x).
Proof. rewrite is_square_F', cubic_fv. reflexivity. Qed.
Lemma xswiftec_var_ok u t (vu vt : F) : fx 1 u vu -> fx 1 t vt ->
  exists x, fx 1 (xswiftec_var u t) x /\ fvalid3 (cor_u vu) (cor_t (cor_u vu) vt * cor_t (cor_u vu) vt)%F x.
Proof.
  intros XU XT. destruct (frac_ok u t vu vt XU XT) as (x & (M1 & M2 & N & E) & V). exists x. split; [|exact V].
  unfold xswiftec_var. destruct (xswiftec_frac_var u t) as [xn xd]. cbn [fst snd] in *. apply fx_of in M1, M2.
  assert (X : fx 1 (fe_mul xn (fe_inv_var xd)) (fv xn * finv (fv xd))%F).
  { exact (fx_mul _ _ _ _ _ _ M1 (fx_inv_var _ _ _ M2 eq_refl) eq_refl). }
  rewrite E. exact X.
Qed.
Lemma swiftec_ok u t (vu : F) : fx 1 u vu -> fe_norm t ->
  exists x y, ge_rep f1 (swiftec_var u t) (Aff x y) /\ fvalid3 (cor_u vu) (cor_t (cor_u vu) (fv t) * cor_t (cor_u vu) (fv t))%F (toF x) /\ Z.odd y = Z.odd (fval t).
Proof.
  intros XU NT. assert (XT : fx 1 t (fv t)) by (apply fx_of; now apply fe_norm_mag).
  destruct (xswiftec_var_ok u t _ _ XU XT) as (x & X & V). unfold swiftec_var.
  destruct (ge_set_xo_var_ok (xswiftec_var u t) (fe_is_odd t) (fx_mag_w _ 4 _ _ X eq_refl)) as (Q & _ & _ & _ & R).
  cbv zeta in Q, R. rewrite (fx_fv _ _ _ X) in Q, R. rewrite issq_zv in Q. destruct R as (y & R & O). { apply Q. exact (fvalid3_issq _ _ _ V). }
  exists (zv x), y. split; [exact R|]. split; [rewrite toF_zv; exact V|]. rewrite O. now apply fe_is_odd_spec.
Qed.
Lemma ell_parts ell : bytes_n 64 ell -> bytes_n 32 (firstn 32 ell) /\ bytes_n 32 (skipn 32 ell) /\ firstn 32 (skipn 32 ell) = skipn 32 ell.
Proof.
  intros [B L]. assert (L2 : length (skipn 32 ell) = 32%nat) by (rewrite skipn_length, L; reflexivity).
  split; [|split; [|apply firstn_all2; rewrite L2; auto]].
  - split; [now apply byte_list_firstn|]. rewrite firstn_length, L. reflexivity.
  - split; [now apply byte_list_skipn|exact L2].
Qed.
Lemma fx_b32_mod l : bytes_n 32 l -> fx 1 (fe_set_b32_mod l) (toF (be_val l)).
Proof. intros [B L]. split; [now apply fe_set_b32_mod_mag|now apply fe_set_b32_mod_fv]. Qed.
Lemma normv_b32 l : bytes_n 32 l -> fe_norm (fe_normalize_var (fe_set_b32_mod l)) /\ fval (fe_normalize_var (fe_set_b32_mod l)) = be_val l mod p.
Proof.
  intros H. pose proof (fx_b32_mod l H) as X. pose proof (fx_mag_w _ 32 _ _ X eq_refl) as M.
  rewrite fe_normalize_var_eq by exact M. destruct (fe_normalize_ok _ M) as [N V]. split; [exact N|]. rewrite V.
  apply toF_inj. exact (fx_fv _ _ _ X).
Qed.
Lemma decode_ok init ell : bytes_n 64 ell ->
  exists pk Q, ellswift_decode (Some init) (Some ell) = mkres 1 0 (Some pk) /\ pubkey_holds pk Q /\ ell_point ell Q.
Proof.
  intros HB. destruct (ell_parts ell HB) as (B1 & B2 & E2). unfold ellswift_decode. rewrite E2.
  destruct (normv_b32 _ B2) as [NT VT].
  destruct (swiftec_ok _ _ _ (fx_b32_mod _ B1) NT) as (x & y & R & V & O).
  exists (pubkey_save (swiftec_var (fe_set_b32_mod (firstn 32 ell)) (fe_normalize_var (fe_set_b32_mod (skipn 32 ell))))), (Aff x y).
  split; [reflexivity|]. split; [apply pubkey_save_ok; [exact R|discriminate]|].
  assert (OC : on_curve (Aff x y)) by exact (ge_rep_oc _ _ _ R).
  unfold ell_point. split; [exact OC|]. split; [|rewrite O, VT; reflexivity].
  apply spec_F. split; [destruct OC as (HX & _); exact HX|]. unfold ell_u, ell_t.
  replace (fv (fe_normalize_var (fe_set_b32_mod (skipn 32 ell)))) with (toF (be_val (skipn 32 ell))) in V; [exact V|].
  unfold fv. rewrite VT. symmetry. apply toF_mod.
Qed.
Lemma ell_point_fun ell P Q : ell_point ell P -> ell_point ell Q -> P = Q.
Proof.
  destruct P as [|x y]; [intros []|]. destruct Q as [|x' y']; [intros _ []|]. intros (C & X & O) (C' & X' & O').
  apply spec_F in X as [HX VX]. apply spec_F in X' as [HX' VX'].
  pose proof (fvalid3_fun _ _ _ _ VX VX') as E. apply toF_range_eq in E; try assumption. subst x'.
  f_equal. apply (same_x_parity _ _ _ C C'). congruence.
Qed.
