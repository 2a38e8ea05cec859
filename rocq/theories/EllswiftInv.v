(** ElligatorSwift: the inverse map. *)
Require Import ZArith List Bool Lia Field.
From Verif Require Import NumTheory Spec SpecApi SpecHash SpecEllswift Primes ZmField Curve NField Word Bytes.
From Verif Require Import FieldModel FieldMul FieldProof FieldProof2 FieldBytes FieldOps.
From Verif Require Import GroupModel GroupProof GroupProof2 GroupProof3 GroupProof4.
From Verif Require Import EllswiftModel EllswiftAlg EllswiftProof.
Import ListNotations.
Local Open Scope Z_scope.
Local Opaque p n.

(** ** The part before "Let w = sqrt(s)" *)
Definition inv_core0 (x u : fe) : option (fe * fe) :=
  let m := fe_negate (fe_add x u) 2 in
  if ge_x_on_curve_var m then None else
  let s := fe_add (fe_negate (fe_sqr m) 1) (fe_mul u x) in
  let g := fe_add_int (fe_mul (fe_sqr u) u) 7 in
  if negb (fe_is_square_var (fe_mul s g)) then None else Some (fe_mul (fe_inv_var s) g, x).
Definition inv_core1 (x u : fe) (b1 : bool) : option (fe * fe) :=
  let m := fe_negate u 1 in
  let s := fe_add m x in
  if negb (fe_is_square_var s) then None else
  let q := fe_negate (fe_mul (fe_add (fe_mul_int (fe_mul s (fe_sqr u)) 3) (fe_add_int (fe_mul_int (fe_mul (fe_sqr u) u) 4) (4 * 7))) s) 1 in
  if negb (fe_is_square_var q) then None else
  let r := snd (fe_sqrt q) in
  if b1 && fe_normalizes_to_zero_var r then None else
  if fe_normalizes_to_zero_var s then None else
  Some (s, fe_half (fe_add (fe_mul (fe_inv_var s) r) m)).
Definition inv_core (x u : fe) (b2 b1 : bool) : option (fe * fe) := if b2 then inv_core1 x u b1 else inv_core0 x u.
Lemma inv_core_eq x u c : xswiftec_inv_var x u c =
  match inv_core (fe_normalize_weak x) (fe_normalize_weak u) (negb (Z.land c 2 =? 0)) (negb (Z.land c 1 =? 0)) with
  | Some (s, v) => Some (inv_finish s (fe_normalize_weak u) v c) | None => None end.
Proof.
  unfold xswiftec_inv_var, inv_core, inv_core0, inv_core1. cbv zeta. change curve_b with 7. destruct (Z.land c 2 =? 0); cbn [negb].
  - destruct (ge_x_on_curve_var _); [reflexivity|]. destruct (fe_is_square_var _); reflexivity.
  - destruct (fe_is_square_var (fe_add _ _)); [|reflexivity]. cbn [negb]. destruct (fe_is_square_var (fe_negate _ _)); [|reflexivity]. cbn [negb].
    destruct (negb (Z.land c 1 =? 0) && _); [reflexivity|]. destruct (fe_normalizes_to_zero_var _); reflexivity.
Qed.
Lemma sq_b m a va : fx m a va -> (m <=? 32) = true -> (fe_is_square_var a = true /\ issq va) \/ (fe_is_square_var a = false /\ ~ issq va).
Proof.
  intros X L. pose proof (fe_is_square_var_spec a (fx_mag_w _ 32 _ _ X L)) as Q. rewrite is_square_F, (fx_fv _ _ _ X) in Q. fold (issq va) in Q.
  destruct (fe_is_square_var a).
  - left. split; [reflexivity|now apply Q].
  - right. split; [reflexivity|]. intros E. apply Q in E. discriminate.
Qed.
Lemma sqrt_fx m a va : fx m a va -> (m <=? 8) = true -> issq va -> exists r, fx 1 (snd (fe_sqrt a)) r /\ (r * r)%F = va.
Proof.
  intros X L H. destruct (fe_sqrt_spec a (fx_mag_w _ 8 _ _ X L)) as (A & B & M). rewrite is_square_F, (fx_fv _ _ _ X) in A. fold (issq va) in A.
  exists (fv (snd (fe_sqrt a))). split; [now apply fx_of|]. rewrite <- (fx_fv _ _ _ X). apply B. now apply A.
Qed.
Definition discr (U S0 : F) : F := (- ((S0 * (U * U) * (1 + 1 + 1) + (U * U * U * (1 + 1 + (1 + 1)) + toF 28)) * S0))%F.
Lemma toF_28 : toF 28 = (b7 * (1 + 1 + (1 + 1)))%F.
Proof. unfold b7. rewrite <- toF_4, <- toF_mul. reflexivity. Qed.
Lemma discr_eq U S0 : discr U S0 = (- (((1 + 1 + 1) * (U * U) * S0 + (1 + 1 + (1 + 1)) * cub U) * S0))%F.
Proof. unfold discr, cub. rewrite toF_28. ring. Qed.

Definition core_some (b2 b1 : bool) (X U S0 V : F) : Prop :=
  issq S0 /\ (S0 * qf U V = - cub U)%F /\
  if b2 then X = (U + S0)%F /\ (b1 = true -> (V + V + U)%F <> f0) else V = X /\ ~ issq (cub (- U - X)).
Definition core_none (b2 b1 : bool) (X U : F) : Prop :=
  if b2 then ~ issq (X - U)%F \/ ~ issq (discr U (X - U)) \/ (b1 = true /\ discr U (X - U) = f0) \/ X = U
  else issq (cub (- U - X)) \/ ~ issq (- qf U X * cub U)%F.
Lemma issq_div (a b : F) : b <> f0 -> issq (b * a)%F -> issq (finv b * a)%F.
Proof. intros N [r E]. exists (r / b)%F. transitivity (r * r / (b * b))%F; [field; exact N|]. rewrite E. field. exact N. Qed.
Lemma discr_nz_v (U S0 V R : F) : S0 <> f0 -> (R * R)%F = discr U S0 -> V = ((finv S0 * R + - U) / (1 + 1))%F ->
  (S0 * qf U V = - cub U)%F /\ (R <> f0 -> (V + V + U)%F <> f0).
Proof.
  intros N ER ->. pose proof f2_nz as H2. assert (H4 : (1 + 1 + (1 + 1))%F <> f0). { replace (1 + 1 + (1 + 1))%F with ((1 + 1) * (1 + 1))%F by ring. now apply fmul_nz. }
  rewrite discr_eq in ER. set (V := ((finv S0 * R + - U) / (1 + 1))%F).
  assert (EV : (V + V + U = finv S0 * R)%F) by (unfold V; field; split; assumption). clearbody V.
  assert (EH : (finv S0 * S0 = 1)%F) by (field; exact N). set (h := finv S0) in *. clearbody h.
  split.
  - assert (Z0 : ((1 + 1 + (1 + 1)) * (S0 * qf U V + cub U) = 0)%F).
    { transitivity (S0 * ((1 + 1 + 1) * (U * U) + (V + V + U) * (V + V + U)) + (1 + 1 + (1 + 1)) * cub U)%F; [unfold qf; ring|]. rewrite EV.
      transitivity ((1 + 1 + 1) * (U * U) * S0 + (h * S0) * h * (R * R) + (1 + 1 + (1 + 1)) * cub U)%F; [ring|]. rewrite ER, EH.
      transitivity ((1 + 1 + 1) * (U * U) * S0 + - ((1 + 1 + 1) * (U * U) * S0 + (1 + 1 + (1 + 1)) * cub U) * (h * S0) + (1 + 1 + (1 + 1)) * cub U)%F; [ring|]. rewrite EH. ring. }
    destruct (F_eq_dec (S0 * qf U V + cub U)%F f0) as [E|E]; [|exfalso; exact (fmul_nz _ _ H4 E Z0)].
    transitivity (S0 * qf U V + cub U - cub U)%F; [ring|rewrite E; ring].
  - intros NR E. apply NR. transitivity (h * S0 * R)%F; [rewrite EH; ring|]. transitivity (S0 * (V + V + U))%F; [rewrite EV; ring|rewrite E; ring].
Qed.
Lemma fx_discr s u (S0 U : F) : fx 3 s S0 -> fx 1 u U ->
  fx 2 (fe_negate (fe_mul (fe_add (fe_mul_int (fe_mul s (fe_sqr u)) 3) (fe_add_int (fe_mul_int (fe_mul (fe_sqr u) u) 4) (4 * 7))) s) 1) (discr U S0).
Proof.
  intros XS XU. unfold discr. rewrite <- toF_3, <- toF_4. change (4 * 7) with 28.
  let pf := fxc (fe_negate (fe_mul (fe_add (fe_mul_int (fe_mul s (fe_sqr u)) 3) (fe_add_int (fe_mul_int (fe_mul (fe_sqr u) u) 4) 28)) s) 1) in exact pf.
Qed.
Lemma inv_core1_ok x u b1 (X U : F) : fx 1 x X -> fx 1 u U ->
  match inv_core1 x u b1 with
  | Some (s, v) => exists S0 V, fx 3 s S0 /\ fx 2 v V /\ core_some true b1 X U S0 V
  | None => core_none true b1 X U
  end.
Proof.
  intros XX XU. unfold inv_core1, core_some, core_none. cbv zeta.
  fxs m (fe_negate u 1) XM. fxs s (fe_add m x) XS. replace (- U + X)%F with (X - U)%F in XS by ring. set (S0 := (X - U)%F) in *.
  destruct (sq_b _ _ _ XS eq_refl) as [[-> Q1]|[-> Q1]]; cbn [negb]; [|now left].
  pose proof (fx_discr s u S0 U (fx_weaken _ 3 _ _ XS eq_refl) XU) as XQ. set (q := fe_negate _ _) in *.
  clearbody q. destruct (sq_b _ _ _ XQ eq_refl) as [[-> Q2]|[-> Q2]]; cbn [negb]; [|now (right; left)].
  destruct (sqrt_fx _ _ _ XQ eq_refl Q2) as (R & XR & ER). set (r := snd (fe_sqrt q)) in *. clearbody r.
  destruct (b1 && fe_normalizes_to_zero_var r) eqn:E0.
  { apply andb_prop in E0 as [E1 E0]. apply (fx_ntzv _ _ _ XR eq_refl) in E0. right. right. left. split; [exact E1|]. rewrite <- ER, E0. ring. }
  assert (RN : b1 = true -> R <> f0).
  { intros E1 ER0. pose proof (proj2 (fx_ntzv _ _ _ XR eq_refl) ER0) as E2. rewrite E1, E2 in E0. discriminate E0. }
  clear E0. destruct (ntzv_case _ _ _ XS eq_refl) as [[-> E]|[-> E]].
  { right. right. right. transitivity (S0 + U)%F; [unfold S0; ring|rewrite E; ring]. }
  fxs v (fe_half (fe_add (fe_mul (fe_inv_var s) r) m)) XV.
  exists S0, ((finv S0 * R + - U) / (1 + 1))%F. destruct (discr_nz_v U S0 _ R E ER eq_refl) as [A B].
  split; [exact (fx_weaken _ 3 _ _ XS eq_refl)|]. split; [exact (fx_weaken _ 2 _ _ XV eq_refl)|].
  split; [exact Q1|]. split; [exact A|]. split; [unfold S0; ring|]. intros E1. exact (B (RN E1)).
Qed.
Lemma inv_core0_ok x u b1 (X U : F) : fx 1 x X -> fx 1 u U -> issq (cub X) ->
  match inv_core0 x u with
  | Some (s, v) => exists S0 V, fx 3 s S0 /\ fx 2 v V /\ core_some false b1 X U S0 V
  | None => core_none false b1 X U
  end.
Proof.
  intros XX XU HX. unfold inv_core0, core_some, core_none. cbv zeta.
  fxs m (fe_negate (fe_add x u) 2) XM. pose proof (ge_x_on_curve_var_ok m (fx_mag_w _ 4 _ _ XM eq_refl)) as Q. cbv zeta in Q. rewrite issq_zv, (fx_fv _ _ _ XM) in Q.
  replace (- (X + U))%F with (- U - X)%F in Q, XM by ring.
  destruct (ge_x_on_curve_var m); [left; now apply Q|]. assert (NQ : ~ issq (cub (- U - X))) by (intros K; apply Q in K; discriminate). clear Q.
  fxs s (fe_add (fe_negate (fe_sqr m) 1) (fe_mul u x)) XS. fxs g (fe_add_int (fe_mul (fe_sqr u) u) 7) XG. fold b7 in XG. change (fx 2 g (cub U)) in XG.
  replace (- ((- U - X) * (- U - X)) + U * X)%F with (- qf U X)%F in XS by (unfold qf; ring).
  assert (NS : (- qf U X)%F <> f0).
  { intros E. apply NQ. destruct HX as [r Er]. exists r. rewrite Er. unfold cub. unfold qf in E.
    transitivity (X * X * X + b7 + (U + X + X) * (- (U * U + U * X + X * X)))%F; [rewrite E; ring|ring]. }
  fxs mm (fe_mul s g) XMM. destruct (sq_b _ _ _ XMM eq_refl) as [[-> Q2]|[-> Q2]]; cbn [negb]; [|now right].
  fxs sss (fe_mul (fe_inv_var s) g) XS2. exists (finv (- qf U X) * cub U)%F, X.
  split; [exact (fx_weaken _ 3 _ _ XS2 eq_refl)|]. split; [exact (fx_weaken _ 2 _ _ XX eq_refl)|].
  split; [now apply issq_div|]. split; [field; intros K; apply NS; rewrite K; ring|]. split; [reflexivity|exact NQ].
Qed.
Lemma inv_core_ok x u b2 b1 (X U : F) : fx 1 x X -> fx 1 u U -> issq (cub X) ->
  match inv_core x u b2 b1 with
  | Some (s, v) => exists S0 V, fx 3 s S0 /\ fx 2 v V /\ core_some b2 b1 X U S0 V
  | None => core_none b2 b1 X U
  end.
Proof.
  intros XX XU HX. unfold inv_core. destruct b2; [now apply inv_core1_ok|now apply inv_core0_ok].
Qed.
Lemma inv_core_b1 x u : inv_core x u true true = None \/ inv_core x u true true = inv_core x u true false.
Proof.
  unfold inv_core, inv_core1. cbv zeta. destruct (fe_is_square_var _); cbn [negb]; [|now left]. destruct (fe_is_square_var _); cbn [negb]; [|now left].
  rewrite andb_false_l, andb_true_l. destruct (fe_normalizes_to_zero_var (snd _)); [now left|now right].
Qed.

(** ** The part after it *)
Definition kap (c : Z) : F := if negb (Z.land c 1 =? 0) then (om + 1)%F else (- om)%F.
Definition sgn (c : Z) (w : F) : F := if (Z.land c 5 =? 0) || (Z.land c 5 =? 5) then (- w)%F else w.
Lemma sgn_sq c w : (sgn c w * sgn c w = w * w)%F.
Proof. unfold sgn. destruct (_ || _); ring. Qed.
Lemma finish_ok s u v c (S0 U V : F) : fx 3 s S0 -> fx 1 u U -> fx 2 v V -> issq S0 ->
  exists w, (w * w)%F = S0 /\ w = fv (snd (fe_sqrt s)) /\ fx 1 (inv_finish s u v c) (sgn c w * (kap c * U + V))%F.
Proof.
  intros XS XU XV Q. destruct (sqrt_fx _ _ _ XS eq_refl Q) as (w & XW & E). exists w. split; [exact E|]. split; [symmetry; exact (fx_fv _ _ _ XW)|].
  unfold inv_finish. cbv zeta. set (m := snd (fe_sqrt s)) in *. clearbody m.
  assert (XM : fx 2 (if (Z.land c 5 =? 0) || (Z.land c 5 =? 5) then fe_negate m 1 else m) (sgn c w)).
  { unfold sgn. destruct (_ || _); [exact (fx_negate _ 1 _ _ XW eq_refl)|exact (fx_weaken _ 2 _ _ XW eq_refl)]. }
  set (m' := if _ || _ then _ else _) in *. clearbody m'.
  assert (XK : fx 1 (if negb (Z.land c 1 =? 0) then ellswift_c4 else ellswift_c3) (kap c)) by (unfold kap; destruct (negb _); [exact fx_c4|exact fx_c3]).
  set (k := if negb _ then ellswift_c4 else ellswift_c3) in *. clearbody k.
  assert (X : fx 1 (fe_mul m' (fe_add (fe_mul u k) v)) (sgn c w * (U * kap c + V))%F) by (let pf := fxc (fe_mul m' (fe_add (fe_mul u k) v)) in exact pf).
  replace (kap c * U + V)%F with (U * kap c + V)%F by ring. exact X.
Qed.
Lemma surface_t c (U V w : F) : U <> f0 -> (w * w * qf U V = - cub U)%F ->
  let t := (sgn c w * (kap c * U + V))%F in
  t <> f0 /\ (cub U + t * t)%F <> f0 /\ x3f U (t * t) = (U + w * w)%F /\
  if negb (Z.land c 1 =? 0) then x2f U (t * t) = V /\ x1f U (t * t) = (- U - V)%F else x2f U (t * t) = (- U - V)%F /\ x1f U (t * t) = V.
Proof.
  intros NU SF. cbv zeta. rewrite <- (sgn_sq c w) in SF |- *. set (w' := sgn c w) in *. clearbody w'. unfold kap. destruct (negb _).
  - destruct (inv_c4 U V w' NU SF) as (A & B & C & D & E). exact (conj A (conj B (conj C (conj D E)))).
  - destruct (inv_c3 U V w' NU SF) as (A & B & C & D & E). exact (conj A (conj B (conj C (conj D E)))).
Qed.

(** ** Every result decodes to x *)
Lemma core_valid c (X U S0 V w : F) : U <> f0 -> issq (cub X) -> (w * w)%F = S0 ->
  core_some (negb (Z.land c 2 =? 0)) (negb (Z.land c 1 =? 0)) X U S0 V ->
  let t := (sgn c w * (kap c * U + V))%F in t <> f0 /\ (cub U + t * t)%F <> f0 /\ fvalid3 U (t * t)%F X.
Proof.
  intros NU HX <- (_ & SF & C). destruct (surface_t c U V w NU SF) as (A & B & X3 & X12). cbv zeta in *.
  set (t := (sgn c w * (kap c * U + V))%F) in *. clearbody t. split; [exact A|]. split; [exact B|]. unfold fvalid3. rewrite X3.
  destruct (negb (Z.land c 2 =? 0)).
  - destruct C as [-> _]. left. split; [exact HX|reflexivity].
  - destruct C as [-> NQ]. right. split.
    + intros K. apply NQ. pose proof (surface_prod U X w SF) as PR. cbv zeta in PR.
      refine (sq_third' _ _ _ _ _ HX K (cub_nz _) (cub_nz _)). etransitivity; [|exact PR]. ring.
    + destruct (negb (Z.land c 1 =? 0)); destruct X12 as [-> ->].
      * left. split; [exact HX|reflexivity].
      * right. split; [exact NQ|]. split; [exact HX|reflexivity].
Qed.
Theorem inv_sound x u c (X U : F) : fx 1 x X -> fx 1 u U -> issq (cub X) -> U <> f0 ->
  match xswiftec_inv_var x u c with
  | Some t => exists T, fx 1 t T /\ T <> f0 /\ (cub U + T * T)%F <> f0 /\ fvalid3 U (T * T)%F X
  | None => True
  end.
Proof.
  intros XX XU HX NU. rewrite inv_core_eq. apply (fx_norm_weak 1) in XX; [|reflexivity]. apply (fx_norm_weak 1) in XU; [|reflexivity].
  pose proof (inv_core_ok _ _ (negb (Z.land c 2 =? 0)) (negb (Z.land c 1 =? 0)) X U XX XU HX) as H.
  destruct (inv_core _ _ _ _) as [[s v]|]; [|exact I]. destruct H as (S0 & V & XS & XV & C).
  destruct (finish_ok s _ v c S0 U V XS XU XV (proj1 C)) as (w & Ew & _ & XT). exists (sgn c w * (kap c * U + V))%F. split; [exact XT|].
  exact (core_valid c X U S0 V w NU HX Ew C).
Qed.

(** ** Different c give different results *)
Definition bit2 (c : Z) : bool := negb (Z.land c 2 =? 0).
Definition bit1 (c : Z) : bool := negb (Z.land c 1 =? 0).
Definition negs (c : Z) : bool := (Z.land c 5 =? 0) || (Z.land c 5 =? 5).
Lemma fopp_opp (w : F) : w = (- - w)%F. Proof. ring. Qed.
Lemma bits_all : forallb (fun i => forallb (fun j => let c := Z.of_nat i in let c' := Z.of_nat j in
  negb (Bool.eqb (bit2 c) (bit2 c') && Bool.eqb (bit1 c) (bit1 c')) || (c =? c') || Bool.eqb (negs c) (negb (negs c'))) (seq 0 8)) (seq 0 8) = true.
Proof. vm_compute. reflexivity. Qed.
Lemma bits_ok c c' : 0 <= c < 8 -> 0 <= c' < 8 -> bit2 c = bit2 c' -> bit1 c = bit1 c' -> c = c' \/ negs c = negb (negs c').
Proof.
  intros H H' E2 E1. pose proof bits_all as A. rewrite forallb_forall in A. specialize (A (Z.to_nat c)). rewrite forallb_forall in A.
  specialize (A ltac:(apply in_seq; lia) (Z.to_nat c') ltac:(apply in_seq; lia)). cbv zeta in A. rewrite (Z2Nat.id c), (Z2Nat.id c') in A by (apply H || apply H').
  rewrite E2, E1, !eqb_reflx in A. cbn [andb negb orb] in A. apply orb_true_iff in A as [A|A]; [left; now apply Z.eqb_eq|right; now apply eqb_prop].
Qed.
Lemma sgn_other c c' : 0 <= c < 8 -> 0 <= c' < 8 -> bit2 c = bit2 c' -> bit1 c = bit1 c' -> c = c' \/ forall w, sgn c w = (- sgn c' w)%F.
Proof.
  intros H H' E2 E1. destruct (bits_ok c c' H H' E2 E1) as [E|E]; [now left|right]. intros w. unfold sgn. fold (negs c) (negs c'). rewrite E.
  destruct (negs c'); cbn [negb]; [apply fopp_opp|reflexivity].
Qed.
Lemma opp_self (t : F) : t = (- t)%F -> t = f0.
Proof.
  intros E. destruct (F_eq_dec t f0) as [K|K]; [exact K|]. exfalso. refine (fmul_nz _ _ f2_nz K _). transitivity (t + t)%F; [ring|]. rewrite E at 1. ring.
Qed.
Theorem inv_inj x u c c' t t' (X U : F) : fx 1 x X -> fx 1 u U -> issq (cub X) -> U <> f0 -> 0 <= c < 8 -> 0 <= c' < 8 ->
  xswiftec_inv_var x u c = Some t -> xswiftec_inv_var x u c' = Some t' -> fv t = fv t' -> c = c'.
Proof.
  intros XX XU HX NU HC HC'. rewrite !inv_core_eq. apply (fx_norm_weak 1) in XX; [|reflexivity]. apply (fx_norm_weak 1) in XU; [|reflexivity].
  set (x' := fe_normalize_weak x) in *. set (u' := fe_normalize_weak u) in *. clearbody x' u'. fold (bit2 c) (bit2 c') (bit1 c) (bit1 c').
  pose proof (inv_core_ok _ _ (bit2 c) (bit1 c) X U XX XU HX) as H. pose proof (inv_core_ok _ _ (bit2 c') (bit1 c') X U XX XU HX) as H'.
  destruct (inv_core x' u' (bit2 c) (bit1 c)) as [[s v]|] eqn:EC; [|discriminate]. destruct (inv_core x' u' (bit2 c') (bit1 c')) as [[s' v']|] eqn:EC'; [|discriminate].
  intros E E' ET. assert (Et : t = inv_finish s u' v c) by congruence. assert (Et' : t' = inv_finish s' u' v' c') by congruence. clear E E'. subst t t'.
  destruct H as (S0 & V & XS & XV & C). destruct H' as (S0' & V' & XS' & XV' & C').
  destruct (finish_ok s _ v c S0 U V XS XU XV (proj1 C)) as (w & Ew & Dw & XT). destruct (finish_ok s' _ v' c' S0' U V' XS' XU XV' (proj1 C')) as (w' & Ew' & Dw' & XT').
  rewrite (fx_fv _ _ _ XT), (fx_fv _ _ _ XT') in ET.
  destruct C as (_ & SF & C). destruct C' as (_ & SF' & C'). subst S0 S0'.
  destruct (surface_t c U V w NU SF) as (N0 & _ & X3 & X12). destruct (surface_t c' U V' w' NU SF') as (_ & _ & X3' & X12'). cbv zeta in *. fold (bit1 c) in X12. fold (bit1 c') in X12'.
  rewrite <- ET in X3', X12'. set (T := (sgn c w * (kap c * U + V))%F) in *.
  assert (B2 : bit2 c = bit2 c').
  { assert (HH : forall (a : F), issq (cub a) -> ~ issq (cub (- U - a)) -> (w * w * qf U a = - cub U)%F -> ~ issq (cub (U + w * w))).
    { intros a Q NQ SFa K. apply NQ. pose proof (surface_prod U a w SFa) as PR. cbv zeta in PR.
      refine (sq_third' _ _ _ _ _ Q K (cub_nz _) (cub_nz _)). etransitivity; [|exact PR]. ring. }
    assert (EW : (w * w = w' * w')%F) by (transitivity (U + w * w - U)%F; [ring|rewrite <- X3, X3'; ring]).
    destruct (bit2 c), (bit2 c'); try reflexivity; exfalso.
    - destruct C as [C _]. destruct C' as [-> NQ]. rewrite <- EW in SF'. apply (HH X HX NQ SF'). rewrite <- C. exact HX.
    - destruct C' as [C' _]. destruct C as [-> NQ]. apply (HH X HX NQ SF). rewrite EW, <- C'. exact HX. }
  assert (B1 : bit1 c = bit1 c').
  { assert (SAME : bit2 c = true -> bit1 c <> bit1 c' -> V' = V).
    { intros Q2 NB. assert (K : inv_core x' u' true true = inv_core x' u' true false).
      { destruct (inv_core_b1 x' u') as [K|K]; [|exact K]. exfalso. rewrite Q2 in EC. rewrite <- B2, Q2 in EC'. destruct (bit1 c); [congruence|]. destruct (bit1 c'); [congruence|]. now apply NB. }
      assert (KV : Some (s, v) = Some (s', v')).
      { rewrite <- EC, <- EC', <- B2, Q2. destruct (bit1 c), (bit1 c'); [exfalso; now apply NB|exact K|exact (eq_sym K)|exfalso; now apply NB]. }
      assert (EV : v = v') by congruence. subst v'. rewrite <- (fx_fv _ _ _ XV), <- (fx_fv _ _ _ XV'). reflexivity. }
    assert (HALF : forall a : F, a = (- U - a)%F -> (a + a + U)%F = f0) by (intros a Ea; rewrite Ea at 1; ring).
    rewrite <- B2 in C'. clear - C C' X12 X12' HX SAME HALF. destruct (bit1 c) eqn:E1, (bit1 c') eqn:E1'; try reflexivity; exfalso; destruct X12 as [A1 A2], X12' as [A1' A2']; rewrite A1 in A1'; rewrite A2 in A2'; destruct (bit2 c).
    - destruct C as [_ C]. apply (C eq_refl), HALF. rewrite (SAME eq_refl ltac:(discriminate)) in A1'. exact A1'.
    - destruct C as [-> NQ]. destruct C' as [-> NQ']. apply NQ'. rewrite <- A1'. exact HX.
    - destruct C' as [_ C']. apply (C' eq_refl), HALF. rewrite (SAME eq_refl ltac:(discriminate)) in A1' |- *. exact (eq_sym A1').
    - destruct C as [-> NQ]. destruct C' as [-> NQ']. apply NQ. rewrite A1'. exact HX. }
  destruct (sgn_other c c' HC HC' B2 B1) as [E|E]; [exact E|exfalso].
  rewrite <- B2, <- B1, EC in EC'. assert (ES : s' = s) by congruence. assert (EV : v' = v) by congruence. subst s' v'.
  assert (EW : w' = w) by congruence. clear Dw Dw'. assert (EVV : V' = V) by (rewrite <- (fx_fv _ _ _ XV), <- (fx_fv _ _ _ XV'); reflexivity). subst w' V'.
  assert (EK : kap c = kap c') by (unfold kap; fold (bit1 c) (bit1 c'); now rewrite B1).
  apply N0. apply opp_self. transitivity (- (sgn c' w * (kap c' * U + V)))%F; [unfold T; rewrite E, EK; ring|rewrite <- ET; reflexivity].
Qed.

(** ** Every t that decodes to x is found *)
Lemma t_forms_gen (u t g o : F) : (o * o = - o - 1)%F -> u <> f0 -> t <> f0 -> (g + t * t)%F <> f0 -> (o + o + 1)%F <> f0 ->
  let w := ((g + t * t) / ((o + o + 1) * t * u))%F in let v2 := (u * (o * (t * t) + (- o - 1) * g) / (g + t * t))%F in
  (t = - (w * (- o * u + - (v2 + u))))%F /\ (t = w * ((o + 1) * u + v2))%F.
Proof. intros Ho Hu Ht Hg Hc. cbv zeta. split; field [Ho]; repeat split; assumption. Qed.
Lemma t_forms (U T : F) : U <> f0 -> T <> f0 -> (cub U + T * T)%F <> f0 ->
  exists W, (W * W * qf U (x2f U (T * T)) = - cub U)%F /\ x3f U (T * T) = (U + W * W)%F /\ T = (- (W * (- om * U + x1f U (T * T))))%F /\ T = (W * ((om + 1) * U + x2f U (T * T)))%F.
Proof.
  intros NU NT NS. exists ((cub U + T * T) / ((om + om + 1) * T * U))%F.
  pose proof (dec_surface_gen U T (cub U) om om_eq NU NT NS c0_nz) as SF. pose proof (dec_x3_gen U T (cub U) om om_eq NU NT c0_nz f3_nz) as E3.
  destruct (t_forms_gen U T (cub U) om om_eq NU NT NS c0_nz) as [F1 F2]. cbv zeta in *.
  split; [exact SF|]. split; [symmetry; exact E3|]. split; [exact F1|exact F2].
Qed.
Lemma sq_eq (a b : F) : (a * a = b * b)%F -> a = b \/ a = (- b)%F.
Proof.
  intros E. destruct (F_eq_dec (a - b)%F f0) as [K|K].
  - left. transitivity (a - b + b)%F; [ring|rewrite K; ring].
  - right. destruct (F_eq_dec (a + b)%F f0) as [K'|K']; [transitivity (a + b - b)%F; [ring|rewrite K'; ring]|].
    exfalso. refine (fmul_nz _ _ K K' _). transitivity (a * a - b * b)%F; [ring|rewrite E; ring].
Qed.
(** [c] or [c + 4]. *)
Lemma pick_sign x u c s v (X U S0 V W T : F) : (c = 0 \/ c = 1 \/ c = 2 \/ c = 3) -> fx 1 x X -> fx 1 u U -> fx 3 s S0 -> fx 2 v V -> issq S0 ->
  inv_core (fe_normalize_weak x) (fe_normalize_weak u) (bit2 c) (bit1 c) = Some (s, v) -> S0 = (W * W)%F -> (T = W * (kap c * U + V) \/ T = - (W * (kap c * U + V)))%F ->
  exists c' t, 0 <= c' < 8 /\ xswiftec_inv_var x u c' = Some t /\ fx 1 t T.
Proof.
  intros HC XX XU XS XV Q EC ES ET. apply (fx_norm_weak 1) in XU; [|reflexivity].
  assert (B : 0 <= c < 4) by lia. assert (D : bit2 (c + 4) = bit2 c /\ bit1 (c + 4) = bit1 c /\ negs (c + 4) = negb (negs c)).
  { destruct HC as [->|[->|[->| ->]]]; repeat split; reflexivity. }
  destruct D as (D2 & D1 & DN).
  destruct (finish_ok s _ v c S0 U V XS XU XV Q) as (w & Ew & Dw & X1). destruct (finish_ok s _ v (c + 4) S0 U V XS XU XV Q) as (w' & Ew' & Dw' & X2).
  assert (EW : w' = w) by congruence. clear Dw Dw' Ew'. rewrite EW in X2. clear w' EW.
  assert (I1 : xswiftec_inv_var x u c = Some (inv_finish s (fe_normalize_weak u) v c)) by (rewrite inv_core_eq; fold (bit2 c) (bit1 c); rewrite EC; reflexivity).
  assert (I2 : xswiftec_inv_var x u (c + 4) = Some (inv_finish s (fe_normalize_weak u) v (c + 4))) by (rewrite inv_core_eq; fold (bit2 (c + 4)) (bit1 (c + 4)); rewrite D2, D1, EC; reflexivity).
  assert (EK : kap (c + 4) = kap c) by (unfold kap; fold (bit1 c) (bit1 (c + 4)); now rewrite D1). rewrite EK in X2.
  unfold sgn in X1, X2. fold (negs c) in X1. fold (negs (c + 4)) in X2. rewrite DN in X2.
  set (K := (kap c * U + V)%F) in *. clearbody K.
  assert (ET' : T = (w * K)%F \/ T = (- w * K)%F).
  { destruct (sq_eq w W) as [E|E]; [congruence| |]; destruct ET as [->| ->]; rewrite E; (left; ring) || (right; ring). }
  destruct (negs c); cbn [negb] in X2; destruct ET' as [->| ->].
  - exists (c + 4), (inv_finish s (fe_normalize_weak u) v (c + 4)). split; [lia|now split].
  - exists c, (inv_finish s (fe_normalize_weak u) v c). split; [lia|now split].
  - exists c, (inv_finish s (fe_normalize_weak u) v c). split; [lia|now split].
  - exists (c + 4), (inv_finish s (fe_normalize_weak u) v (c + 4)). split; [lia|now split].
Qed.
Lemma fmul_cancel (a b c : F) : a <> f0 -> (a * b = a * c)%F -> b = c.
Proof. intros N E. transitivity (finv a * (a * b))%F; [field; exact N|]. rewrite E. field. exact N. Qed.
Theorem inv_complete x u (X U T : F) : fx 1 x X -> fx 1 u U -> issq (cub X) -> U <> f0 -> T <> f0 -> (cub U + T * T)%F <> f0 -> fvalid3 U (T * T)%F X ->
  exists c t, 0 <= c < 8 /\ xswiftec_inv_var x u c = Some t /\ fx 1 t T.
Proof.
  intros XX XU HX NU NT NS HV. destruct (t_forms U T NU NT NS) as (W & SF2 & X3 & F1 & F2).
  assert (E12 : x1f U (T * T) = (- U - x2f U (T * T))%F) by (unfold x1f; ring).
  unfold fvalid3 in HV. rewrite X3 in HV. set (V1 := x1f U (T * T)%F) in *. set (V2 := x2f U (T * T)%F) in *. clearbody V1 V2.
  assert (SF1 : (W * W * qf U V1 = - cub U)%F) by (rewrite E12, qf_sym; exact SF2).
  assert (NW : (W * W)%F <> f0). { intros E. rewrite E in SF1. apply (cub_nz U). transitivity (- (0 * qf U V1))%F; [rewrite SF1; ring|ring]. }
  assert (NQ : qf U V1 <> f0). { intros E. rewrite E in SF1. apply (cub_nz U). transitivity (- (W * W * 0))%F; [rewrite SF1; ring|ring]. }
  pose proof (fx_norm_weak 1 _ _ XX eq_refl) as XX'. pose proof (fx_norm_weak 1 _ _ XU eq_refl) as XU'.
  set (x' := fe_normalize_weak x) in *. set (u' := fe_normalize_weak u) in *.
  destruct HV as [[_ EX]|[N3 HV]].
  - (* x3 *)
    assert (ES : (X - U = W * W)%F) by (rewrite EX; ring).
    assert (ED : discr U (X - U) = (W * W * (V1 + V1 + U) * (W * W * (V1 + V1 + U)))%F).
    { rewrite ES, discr_eq. transitivity (- ((1 + 1 + 1) * (U * U) * (W * W) * (W * W)) + (1 + 1 + (1 + 1)) * (- cub U) * (W * W))%F; [ring|]. rewrite <- SF1. unfold qf. ring. }
    assert (NONE : forall b1, core_none true b1 X U -> b1 = true /\ (V1 + V1 + U)%F = f0).
    { intros b1 [K|[K|[[K1 K]|K]]].
      - exfalso. apply K. rewrite ES. now exists W.
      - exfalso. apply K. rewrite ED. eexists. reflexivity.
      - split; [exact K1|]. rewrite ED in K. destruct (F_eq_dec (V1 + V1 + U)%F f0) as [Z0|Z0]; [exact Z0|]. exfalso. assert (NN : (W * W * (V1 + V1 + U))%F <> f0) by (exact (fmul_nz _ _ NW Z0)). exact (fmul_nz _ _ NN NN K).
      - exfalso. apply NW. rewrite <- ES, K. ring. }
    pose proof (inv_core_ok x' u' true false X U XX' XU' HX) as H. destruct (inv_core x' u' true false) as [[s v]|] eqn:EC; [|destruct (NONE _ H); discriminate].
    destruct H as (S0 & V & XS & XV & Q & SF & EX' & _).
    assert (ES0 : S0 = (W * W)%F). { transitivity (U + S0 - U)%F; [ring|]. rewrite <- EX'. exact ES. }
    assert (EV : V = V1 \/ V = V2).
    { rewrite ES0 in SF. rewrite <- SF1 in SF. apply fmul_cancel in SF; [|exact NW]. unfold qf in SF.
      destruct (F_eq_dec (V - V1)%F f0) as [K|K]; [left; transitivity (V - V1 + V1)%F; [ring|rewrite K; ring]|right].
      assert (V2 = (- U - V1)%F) as -> by (rewrite E12; ring).
      destruct (F_eq_dec (V + V1 + U)%F f0) as [K'|K']; [transitivity (V + V1 + U - U - V1)%F; [ring|rewrite K'; ring]|].
      exfalso. refine (fmul_nz _ _ K K' _). transitivity (U * U + U * V + V * V - (U * U + U * V1 + V1 * V1))%F; [ring|rewrite SF; ring]. }
    destruct (F_eq_dec V V1) as [->|NV].
    + apply (pick_sign x u 2 s v X U S0 V1 W T); try assumption; [auto|]. right. exact F1.
    + assert (V = V2) as -> by (destruct EV; [contradiction|assumption]).
      assert (K : inv_core x' u' true true = Some (s, v)).
      { destruct (inv_core_b1 x' u') as [K|K]; [|now rewrite K]. exfalso. pose proof (inv_core_ok x' u' true true X U XX' XU' HX) as H. rewrite K in H.
        destruct (NONE _ H) as [_ Z0]. apply NV. transitivity (- U - V1)%F; [rewrite E12; ring|]. transitivity (V1 + V1 + U - U - V1)%F; [rewrite Z0; ring|ring]. }
      apply (pick_sign x u 3 s v X U S0 V2 W T); try assumption; [auto|]. left. exact F2.
  - assert (DQ : (- qf U X * cub U)%F = (W * qf U V1 * (W * qf U V1))%F -> issq (- qf U X * cub U)%F) by (intros ->; eexists; reflexivity).
    assert (DE : qf U X = qf U V1 -> (- qf U X * cub U)%F = (W * qf U V1 * (W * qf U V1))%F).
    { intros ->. transitivity (qf U V1 * (- cub U))%F; [ring|]. rewrite <- SF1. ring. }
    pose proof (surface_prod U V1 W SF1) as PR. cbv zeta in PR. assert (E21 : (- U - V1)%F = V2) by (rewrite E12; ring). rewrite E21 in PR.
    destruct HV as [[Q2 EX]|(N2 & Q1 & EX)]; subst X.
    + (* x2 *)
      assert (QQ : qf U V2 = qf U V1) by (rewrite <- E21; apply qf_sym).
      pose proof (inv_core_ok x' u' false true V2 U XX' XU' HX) as H. destruct (inv_core x' u' false true) as [[s v]|] eqn:EC.
      * destruct H as (S0 & V & XS & XV & Q & SF & -> & _).
        apply (pick_sign x u 1 s v V2 U S0 V2 W T); try assumption; [auto| |left; exact F2].
        apply (fmul_cancel (qf U V1)); [exact NQ|]. rewrite QQ in SF. transitivity (S0 * qf U V1)%F; [ring|]. rewrite SF, <- SF1. ring.
      * exfalso. destruct H as [K|K]; [|apply K, DQ, DE; exact QQ]. apply N3. rewrite <- E12 in K.
        refine (sq_third' _ _ _ _ _ K Q2 (cub_nz _) (cub_nz _)). exact PR.
    + (* x1 *)
      pose proof (inv_core_ok x' u' false false V1 U XX' XU' HX) as H. destruct (inv_core x' u' false false) as [[s v]|] eqn:EC.
      * destruct H as (S0 & V & XS & XV & Q & SF & -> & _).
        apply (pick_sign x u 0 s v V1 U S0 V1 W T); try assumption; [auto| |right; exact F1].
        apply (fmul_cancel (qf U V1)); [exact NQ|]. transitivity (S0 * qf U V1)%F; [ring|]. rewrite SF, <- SF1. ring.
      * exfalso. destruct H as [K|K]; [|apply K, DQ, DE; reflexivity]. rewrite E21 in K. contradiction.
Qed.
