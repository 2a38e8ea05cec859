(** The algebra behind ElligatorSwift, in the field with p elements. *)
Require Import ZArith List Bool Lia Field.
From Verif Require Import Word Spec SpecEllswift Primes ZmField Curve GroupProof FieldOps GroupProof4.
Local Open Scope Z_scope.
Local Opaque p.

Definition issq (a : F) : Prop := exists r : F, (r * r)%F = a.
Definition cub (x : F) : F := (x * x * x + b7)%F.

Lemma sq_or_neg_gen (v e h : Z) : 0 <= e -> 0 <= h -> e + e = 1 + h -> h + h = p - 1 -> v mod p <> 0 ->
  (toF (v ^ e) * toF (v ^ e) = toF v)%F \/ (toF (v ^ e) * toF (v ^ e) = - toF v)%F.
Proof.
  intros He Hh E1 E2 NZ.
  assert (A : (toF (v ^ e) * toF (v ^ e) = toF v * toF (v ^ h))%F).
  { rewrite <- !toF_mul, <- Z.pow_add_r by lia. rewrite E1, Z.pow_add_r, Z.pow_1_r by lia. reflexivity. }
  assert (B : (toF (v ^ h) * toF (v ^ h) = f1)%F).
  { rewrite <- toF_mul, <- Z.pow_add_r by lia. rewrite E2. rewrite <- toF_one. apply toF_eq. rewrite fermat_p by exact NZ. reflexivity. }
  set (H := toF (v ^ h)) in *. clearbody H.
  assert (C : ((H - f1) * (H + f1) = f0)%F) by (transitivity (H * H - f1)%F; [ring|rewrite B; ring]).
  destruct (F_eq_dec (H - f1)%F f0) as [D|D].
  - left. rewrite A. assert (H = f1)%F as -> by (transitivity (H - f1 + f1)%F; [ring|rewrite D; ring]). ring.
  - right. rewrite A. assert (D2 : (H + f1)%F = f0). { destruct (F_eq_dec (H + f1)%F f0) as [E|E]; [exact E|]. exfalso. exact (fmul_nz _ _ D E C). }
    assert (H = - f1)%F as -> by (transitivity (H + f1 - f1)%F; [ring|rewrite D2; ring]). ring.
Qed.
Lemma sq_or_neg (a : F) : issq a \/ issq (- a)%F.
Proof.
  destruct (F_eq_dec a f0) as [->|N]. { left. exists f0. ring. }
  assert (NZ : zv a mod p <> 0). { intro E. apply N. rewrite <- (toF_zv a). apply toF_0_iff. exact E. }
  assert (H1 : 0 <= (p + 1) / 4) by (vm_compute; discriminate). assert (H2 : 0 <= (p - 1) / 2) by (vm_compute; discriminate).
  destruct (sq_or_neg_gen (zv a) ((p + 1) / 4) ((p - 1) / 2) H1 H2 eq_refl eq_refl NZ) as [E|E]; rewrite toF_zv in E; [left|right]; eexists; exact E.
Qed.
Lemma nsq_nz (a : F) : ~ issq a -> a <> f0.
Proof. intros H ->. apply H. exists f0. ring. Qed.
Lemma sq_third (a b c z : F) : (a * b * c = z * z)%F -> ~ issq a -> ~ issq b -> issq c.
Proof.
  intros E Ha Hb. pose proof (nsq_nz _ Ha) as Na. pose proof (nsq_nz _ Hb) as Nb.
  destruct (sq_or_neg a) as [|[r Er]]; [contradiction|]. destruct (sq_or_neg b) as [|[s Es]]; [contradiction|].
  exists (z / (r * s))%F.
  assert (AB : (r * s * (r * s) = a * b)%F) by (transitivity (r * r * (s * s))%F; [ring|rewrite Er, Es; ring]).
  assert (Nr : r <> f0). { intros ->. apply Na. transitivity (- (f0 * f0))%F; [rewrite Er; ring|ring]. }
  assert (Ns : s <> f0). { intros ->. apply Nb. transitivity (- (f0 * f0))%F; [rewrite Es; ring|ring]. }
  transitivity (z * z / (r * s * (r * s)))%F; [field; now split|]. rewrite <- E, AB. field. now split.
Qed.
Lemma sq_third' (a b c z : F) : (a * b * c = z * z)%F -> issq a -> issq b -> a <> f0 -> b <> f0 -> issq c.
Proof.
  intros E [r Er] [s Es] Na Nb. exists (z / (r * s))%F.
  assert (Nr : r <> f0). { intros ->. apply Na. rewrite <- Er. ring. }
  assert (Ns : s <> f0). { intros ->. apply Nb. rewrite <- Es. ring. }
  transitivity (z * z / (r * r * (s * s)))%F; [field; now split|]. rewrite <- E, Er, Es. field. now split.
Qed.
Lemma cub_nz x : cub x <> f0.
Proof. apply F_no2tors. Qed.

(** ** The surface w^2 (u^2 + uv + v^2) = -(u^3 + 7) *)
Definition qf (u v : F) : F := (u * u + u * v + v * v)%F.
Lemma surface_prod (u v w : F) : (w * w * qf u v = - cub u)%F ->
  let z := (qf u v * w * (w * w + u - v) * (w * w + u + u + v))%F in
  (cub v * cub (- u - v) * cub (u + w * w) = z * z)%F.
Proof.
  intros E. unfold cub in *. assert (B : b7 = (- (w * w * qf u v) - u * u * u)%F) by (rewrite E; ring).
  cbv zeta. rewrite B. unfold qf. ring.
Qed.

(** ** The cube root of unity *)
Definition om : F := toF 0x851695d49a83f8ef919bb86153cbcb16630fb68aed0a766a3ec693d68e6afa40.
Definition c0 : F := (om + om + 1)%F.
Lemma om_eq : (om * om = - om - 1)%F.
Proof. unfold om. rewrite <- toF_one, <- toF_mul, <- toF_opp, <- toF_sub. apply toF_eq. vm_compute. reflexivity. Qed.
Lemma c2_eq : toF 0x7ae96a2b657c07106e64479eac3434e99cf0497512f58995c1396c28719501ee = (- om - 1)%F.
Proof. unfold om. rewrite <- toF_one, <- toF_opp, <- toF_sub. apply toF_eq. vm_compute. reflexivity. Qed.
Lemma c3_eq : toF 0x7ae96a2b657c07106e64479eac3434e99cf0497512f58995c1396c28719501ef = (- om)%F.
Proof. unfold om. rewrite <- toF_opp. apply toF_eq. vm_compute. reflexivity. Qed.
Lemma c4_eq : toF 0x851695d49a83f8ef919bb86153cbcb16630fb68aed0a766a3ec693d68e6afa41 = (om + 1)%F.
Proof. unfold om. rewrite <- toF_one, <- toF_add. apply toF_eq. vm_compute. reflexivity. Qed.
Lemma c0_eq : toF sqrt_m3 = c0.
Proof. unfold c0, om. rewrite <- toF_one, <- !toF_add. apply toF_eq. vm_compute. reflexivity. Qed.
Lemma f3_nz : (1 + 1 + 1)%F <> f0.
Proof. rewrite <- toF_one, <- !toF_add. apply toF_nz. vm_compute. discriminate. Qed.
Lemma c0_sq : (c0 * c0 = - (1 + 1 + 1))%F.
Proof. unfold c0. transitivity ((om * om) * (1 + 1 + 1 + 1) + om * (1 + 1 + 1 + 1) + 1)%F; [ring|]. rewrite om_eq. ring. Qed.
Lemma c0_nz : c0 <> f0.
Proof. intros E. apply f3_nz. transitivity (- (c0 * c0))%F; [rewrite c0_sq; ring|rewrite E; ring]. Qed.

(** ** Decoding *)
Definition x3f (u s : F) : F := (u - (cub u + s) * (cub u + s) / ((1 + 1 + 1) * s * (u * u)))%F.
Definition x2f (u s : F) : F := (u * (om * s + (- om - 1) * cub u) / (cub u + s))%F.
Definition x1f (u s : F) : F := (- (x2f u s + u))%F.

Lemma om_c0 : om = ((c0 - 1) / (1 + 1))%F.
Proof. unfold c0. field. exact f2_nz. Qed.
Lemma dec_surface_gen (u t g o : F) : (o * o = - o - 1)%F -> u <> f0 -> t <> f0 -> (g + t * t)%F <> f0 -> (o + o + 1)%F <> f0 ->
  let w := ((g + t * t) / ((o + o + 1) * t * u))%F in let v := (u * (o * (t * t) + (- o - 1) * g) / (g + t * t))%F in
  (w * w * qf u v = - g)%F.
Proof.
  intros Ho Hu Ht Hg Hc. cbv zeta. unfold qf. field [Ho]. repeat split; assumption.
Qed.
Lemma dec_x3_gen (u t g o : F) : (o * o = - o - 1)%F -> u <> f0 -> t <> f0 -> (o + o + 1)%F <> f0 -> (1 + 1 + 1)%F <> f0 ->
  let w := ((g + t * t) / ((o + o + 1) * t * u))%F in
  (u + w * w = u - (g + t * t) * (g + t * t) / ((1 + 1 + 1) * (t * t) * (u * u)))%F.
Proof. intros Ho Hu Ht Hc H3. cbv zeta. field [Ho]. repeat split; assumption. Qed.

Lemma dec_some (u t : F) : u <> f0 -> t <> f0 -> (cub u + t * t)%F <> f0 ->
  ~ issq (cub (x3f u (t * t))) -> ~ issq (cub (x2f u (t * t))) -> issq (cub (x1f u (t * t))).
Proof.
  intros Hu Ht Hg N3 N2. pose proof (dec_surface_gen u t (cub u) om om_eq Hu Ht Hg c0_nz) as SF. pose proof (dec_x3_gen u t (cub u) om om_eq Hu Ht c0_nz f3_nz) as E3.
  cbv zeta in SF, E3. fold (x2f u (t * t)%F) in SF. fold (x3f u (t * t)%F) in E3.
  set (w := ((cub u + t * t) / ((om + om + 1) * t * u))%F) in *. clearbody w.
  pose proof (surface_prod u (x2f u (t * t)%F) w SF) as PR. cbv zeta in PR. rewrite E3 in PR.
  assert (E1 : (- u - x2f u (t * t) = x1f u (t * t))%F) by (unfold x1f; ring). rewrite E1 in PR.
  refine (sq_third _ _ _ _ _ N3 N2). etransitivity; [|exact PR]. ring.
Qed.

(** ** Inverting *)
Lemma inv_gen (u v w g o : F) : (o * o = - o - 1)%F -> (o + o + 1)%F <> f0 -> (1 + 1 + 1)%F <> f0 -> u <> f0 -> g <> f0 -> (w * w * qf u v = - g)%F ->
  let t := (w * (- o * u + v))%F in
  t <> f0 /\ (g + t * t)%F <> f0 /\ (u - (g + t * t) * (g + t * t) / ((1 + 1 + 1) * (t * t) * (u * u)) = u + w * w)%F /\
  (u * (o * (t * t) + (- o - 1) * g) / (g + t * t) = - u - v)%F.
Proof.
  intros Ho Hc H3 Hu Hg SF. cbv zeta. set (a := (- o * u + v)%F). set (b := (v + (1 + o) * u)%F).
  assert (EQ : (a * b = qf u v)%F) by (unfold a, b, qf; ring [Ho]).
  assert (EG : (g = - (w * w * (a * b)))%F) by (rewrite EQ, SF; ring).
  assert (Nw : w <> f0). { intros E. apply Hg. rewrite EG, E. ring. }
  assert (Na : a <> f0). { intros E. apply Hg. rewrite EG, E. ring. }
  assert (Eb : (b = a + (o + o + 1) * u)%F) by (unfold a, b; ring).
  assert (ES : (g + w * a * (w * a) = - (w * w * a * ((o + o + 1) * u)))%F) by (rewrite EG, Eb; ring).
  assert (NS : (g + w * a * (w * a))%F <> f0).
  { intros E. assert (Z0 : (w * w * a * ((o + o + 1) * u))%F = f0) by (transitivity (- (- (w * w * a * ((o + o + 1) * u))))%F; [ring|rewrite <- ES, E; ring]).
    revert Z0. repeat (apply fmul_nz; try assumption). }
  split; [now apply fmul_nz|]. split; [exact NS|]. pose proof NS as NS'. rewrite ES in NS' |- *. split.
  - field [Ho]. repeat split; try assumption.
  - rewrite EG. unfold b. assert (Ev : v = (a + o * u)%F) by (unfold a; ring). clearbody a. clear - Ho Hc H3 Hu Nw Na NS' Ev. rewrite Ev. field [Ho]. repeat split; assumption.
Qed.
Lemma qf_sym (u v : F) : qf u (- u - v)%F = qf u v.
Proof. unfold qf. ring. Qed.

(** The two values of t (up to sign) of a point of the surface. *)
Lemma inv_c3 (u v w : F) : u <> f0 -> (w * w * qf u v = - cub u)%F ->
  let t := (w * (- om * u + v))%F in
  t <> f0 /\ (cub u + t * t)%F <> f0 /\ x3f u (t * t) = (u + w * w)%F /\ x2f u (t * t) = (- u - v)%F /\ x1f u (t * t) = v.
Proof.
  intros Hu SF. cbv zeta. destruct (inv_gen u v w (cub u) om om_eq c0_nz f3_nz Hu (cub_nz u) SF) as (A & B & C & D). cbv zeta in *.
  fold (x3f u (w * (- om * u + v) * (w * (- om * u + v)))%F) in C. fold (x2f u (w * (- om * u + v) * (w * (- om * u + v)))%F) in D.
  split; [exact A|]. split; [exact B|]. split; [exact C|]. split; [exact D|]. unfold x1f. rewrite D. ring.
Qed.
Lemma inv_c4 (u v w : F) : u <> f0 -> (w * w * qf u v = - cub u)%F ->
  let t := (w * ((om + 1) * u + v))%F in
  t <> f0 /\ (cub u + t * t)%F <> f0 /\ x3f u (t * t) = (u + w * w)%F /\ x2f u (t * t) = v /\ x1f u (t * t) = (- u - v)%F.
Proof.
  intros Hu SF. cbv zeta. rewrite <- qf_sym in SF. destruct (inv_c3 u _ w Hu SF) as (A & B & C & D & E). cbv zeta in *.
  set (t' := (w * (- om * u + (- u - v)))%F) in *. set (t := (w * ((om + 1) * u + v))%F).
  assert (ET : (t = - t')%F) by (unfold t, t'; ring). assert (ETT : (t * t = t' * t')%F) by (rewrite ET; ring). rewrite ETT.
  split. { intros K. apply A. transitivity (- t)%F; [rewrite ET; ring|rewrite K; ring]. }
  split; [exact B|]. split; [exact C|]. split; [rewrite D; ring|exact E].
Qed.

(** ** The map, in the field *)
Definition cor_u (u : F) : F := if F_eq_dec u f0 then f1 else u.
Definition cor_t (u t : F) : F :=
  let t := if F_eq_dec t f0 then f1 else t in if F_eq_dec (cub u + t * t)%F f0 then (t + t)%F else t.
Definition fvalid3 (u s x : F) : Prop :=
  (issq (cub (x3f u s)) /\ x = x3f u s) \/
  (~ issq (cub (x3f u s)) /\ ((issq (cub (x2f u s)) /\ x = x2f u s) \/ (~ issq (cub (x2f u s)) /\ issq (cub (x1f u s)) /\ x = x1f u s))).
Lemma cor_u_nz u : cor_u u <> f0.
Proof. unfold cor_u. destruct (F_eq_dec u f0); [exact f1_nz|assumption]. Qed.
Lemma cor_t_nz u t : cor_t u t <> f0 /\ (cub u + cor_t u t * cor_t u t)%F <> f0.
Proof.
  unfold cor_t. cbv zeta. set (t1 := if F_eq_dec t f0 then f1 else t).
  assert (N1 : t1 <> f0) by (unfold t1; destruct (F_eq_dec t f0); [exact f1_nz|assumption]). clearbody t1.
  destruct (F_eq_dec (cub u + t1 * t1)%F f0) as [E|E]; [|now split]. split.
  - intros K. assert (Z0 : ((1 + 1) * t1)%F = f0) by (rewrite <- K; ring). revert Z0. apply fmul_nz; [exact f2_nz|exact N1].
  - intros K. assert (Z0 : ((1 + 1 + 1) * (t1 * t1))%F = f0).
    { transitivity ((cub u + (t1 + t1) * (t1 + t1)) - (cub u + t1 * t1))%F; [ring|rewrite K, E; ring]. }
    revert Z0. apply fmul_nz; [exact f3_nz|now apply fmul_nz].
Qed.
Lemma fvalid3_issq u s x : fvalid3 u s x -> issq (cub x).
Proof. intros [[H ->]|[_ [[H ->]|(_ & H & ->)]]]; exact H. Qed.
Lemma fvalid3_fun u s x y : fvalid3 u s x -> fvalid3 u s y -> x = y.
Proof. intros [[H ->]|[N [[H ->]|(N2 & H & ->)]]] [[H' ->]|[N' [[H' ->]|(N2' & H' & ->)]]]; congruence || contradiction. Qed.

(** ** The specification *)
Lemma valid_x_F x : valid_x x <-> issq (cub (toF x)).
Proof.
  unfold valid_x. rewrite is_square_F'. unfold issq, cub, b7. rewrite toF_add. replace (x ^ 3) with (x * x * x) by ring. rewrite !toF_mul. reflexivity.
Qed.
Lemma toF_sqr x : toF (x ^ 2) = (toF x * toF x)%F. Proof. replace (x ^ 2) with (x * x) by ring. apply toF_mul. Qed.
Lemma toF_cub x : toF (x ^ 3 + 7) = cub (toF x).
Proof. unfold cub, b7. rewrite toF_add. replace (x ^ 3) with (x * x * x) by ring. now rewrite !toF_mul. Qed.
Lemma toF_2 : toF 2 = (1 + 1)%F. Proof. rewrite <- toF_one, <- toF_add. reflexivity. Qed.
Lemma toF_4 : toF 4 = (1 + 1 + (1 + 1))%F. Proof. rewrite <- toF_one, <- !toF_add. reflexivity. Qed.
Lemma cand_gen (u t g o : F) : (o * o = - o - 1)%F -> (o + o + 1)%F <> f0 -> (1 + 1 + 1)%F <> f0 -> u <> f0 -> t <> f0 -> (g + t * t)%F <> f0 ->
  let X := ((g - t * t) * finv ((1 + 1) * t))%F in
  let Y := ((X + t) * finv ((o + o + 1) * u))%F in
  (u + (1 + 1 + (1 + 1)) * (Y * Y) = u - (g + t * t) * (g + t * t) / ((1 + 1 + 1) * (t * t) * (u * u)))%F /\
  ((- X * finv Y - u) * finv (1 + 1) = u * (o * (t * t) + (- o - 1) * g) / (g + t * t))%F /\
  ((X * finv Y - u) * finv (1 + 1) = - (u * (o * (t * t) + (- o - 1) * g) / (g + t * t) + u))%F.
Proof.
  intros Ho Hc H3 Hu Ht Hg. pose proof f2_nz as H2. cbv zeta.
  assert (EY : (((g - t * t) * finv ((1 + 1) * t) + t) * finv ((o + o + 1) * u) = (g + t * t) / ((1 + 1) * t * ((o + o + 1) * u)))%F) by (field; repeat split; assumption).
  rewrite !EY. split; [|split].
  - field [Ho]. repeat split; assumption.
  - field [Ho]. repeat split; assumption.
  - field [Ho]. repeat split; assumption.
Qed.
Lemma spec_cor_u u : toF (if u mod p =? 0 then 1 else u) = cor_u (toF u).
Proof.
  unfold cor_u. destruct (Z.eqb_spec (u mod p) 0) as [E|E]; destruct (F_eq_dec (toF u) f0) as [E'|E']; try reflexivity; exfalso.
  - apply E'. now apply toF_0_iff.
  - apply E. now apply toF_0_iff.
Qed.
Lemma spec_cor_t u t : let t1 := if t mod p =? 0 then 1 else t in toF (if (u ^ 3 + t1 ^ 2 + 7) mod p =? 0 then 2 * t1 else t1) = cor_t (toF u) (toF t).
Proof.
  cbv zeta. unfold cor_t. cbv zeta. pose proof (spec_cor_u t) as E1. unfold cor_u in E1. set (t1 := if t mod p =? 0 then 1 else t) in *. rewrite <- E1. clearbody t1. clear E1.
  assert (EE : toF (u ^ 3 + t1 ^ 2 + 7) = (cub (toF u) + toF t1 * toF t1)%F).
  { replace (u ^ 3 + t1 ^ 2 + 7) with ((u ^ 3 + 7) + t1 ^ 2) by ring. now rewrite toF_add, toF_cub, toF_sqr. }
  destruct (Z.eqb_spec ((u ^ 3 + t1 ^ 2 + 7) mod p) 0) as [E|E]; apply toF_0_iff in E || idtac;
  destruct (F_eq_dec (cub (toF u) + toF t1 * toF t1)%F f0) as [E'|E']; try reflexivity.
  - replace (2 * t1) with (t1 + t1) by ring. apply toF_add.
  - exfalso. apply E'. now rewrite <- EE.
  - exfalso. apply E. apply toF_0_iff. now rewrite EE.
Qed.
Theorem spec_F u t x : xswiftec u t x <-> 0 <= x < p /\ fvalid3 (cor_u (toF u)) (cor_t (cor_u (toF u)) (toF t) * cor_t (cor_u (toF u)) (toF t))%F (toF x).
Proof.
  unfold xswiftec. pose proof (spec_cor_u u) as EU. set (u1 := if u mod p =? 0 then 1 else u) in *. clearbody u1. cbv zeta.
  pose proof (spec_cor_t u1 t) as ET. cbv zeta in ET. set (t1 := if t mod p =? 0 then 1 else t) in *. clearbody t1. rewrite EU in ET.
  set (t2 := if _ =? 0 then 2 * t1 else t1) in *. clearbody t2. rewrite <- ET, <- EU.
  assert (NU : toF u1 <> f0) by (rewrite EU; apply cor_u_nz). pose proof (cor_t_nz (cor_u (toF u)) (toF t)) as [NT NS]. rewrite <- ET in NT, NS. rewrite <- EU in NS.
  destruct (cand_gen (toF u1) (toF t2) (cub (toF u1)) om om_eq c0_nz f3_nz NU NT NS) as (C3 & C2 & C1). cbv zeta in C1, C2, C3.
  fold (x3f (toF u1) (toF t2 * toF t2)%F) in C3. fold (x2f (toF u1) (toF t2 * toF t2)%F) in C2, C1. fold (x1f (toF u1) (toF t2 * toF t2)%F) in C1.
  set (X := (u1 ^ 3 + 7 - t2 ^ 2) * inv_mod (2 * t2) p) in *. set (Y := (X + t2) * inv_mod (sqrt_m3 * u1) p) in *.
  assert (EX : toF X = ((cub (toF u1) - toF t2 * toF t2) * finv ((1 + 1) * toF t2))%F).
  { unfold X. rewrite toF_mul, toF_sub, toF_cub, toF_sqr, toF_inv, toF_mul, toF_2. reflexivity. }
  assert (EY : toF Y = (((cub (toF u1) - toF t2 * toF t2) * finv ((1 + 1) * toF t2) + toF t2) * finv ((om + om + 1) * toF u1))%F).
  { unfold Y. rewrite toF_mul, toF_add, EX, toF_inv, toF_mul, c0_eq. reflexivity. }
  rewrite <- EX in C1, C2. rewrite <- EX in EY. rewrite <- EX in C3. rewrite <- EY in C3, C2, C1. clearbody Y. clearbody X.
  assert (D3 : toF ((u1 + 4 * Y ^ 2) mod p) = x3f (toF u1) (toF t2 * toF t2)) by (rewrite toF_mod, toF_add, toF_mul, toF_4, toF_sqr; exact C3).
  assert (D2 : toF (((- X * inv_mod Y p - u1) * inv_mod 2 p) mod p) = x2f (toF u1) (toF t2 * toF t2)).
  { rewrite toF_mod, toF_mul, toF_sub, toF_mul, toF_opp, !toF_inv, toF_2. exact C2. }
  assert (D1 : toF (((X * inv_mod Y p - u1) * inv_mod 2 p) mod p) = x1f (toF u1) (toF t2 * toF t2)).
  { rewrite toF_mod, toF_mul, toF_sub, toF_mul, !toF_inv, toF_2. exact C1. }
  assert (P0 : 0 < p) by reflexivity.
  set (a3 := (u1 + 4 * Y ^ 2) mod p) in *. set (a2 := ((- X * inv_mod Y p - u1) * inv_mod 2 p) mod p) in *. set (a1 := ((X * inv_mod Y p - u1) * inv_mod 2 p) mod p) in *.
  assert (R3 : 0 <= a3 < p) by (apply Z.mod_pos_bound; exact P0). assert (R2 : 0 <= a2 < p) by (apply Z.mod_pos_bound; exact P0). assert (R1 : 0 <= a1 < p) by (apply Z.mod_pos_bound; exact P0).
  clearbody a3 a2 a1. unfold fvalid3. rewrite <- D3, <- D2, <- D1. unfold first_valid. rewrite !valid_x_F.
  assert (Q : forall a, 0 <= a < p -> (x = a <-> 0 <= x < p /\ toF x = toF a)).
  { intros a Ha. split; [intros ->; split; [exact Ha|reflexivity]|]. intros [Hx E]. now apply toF_range_eq. }
  rewrite (Q a3 R3), (Q a2 R2), (Q a1 R1). clear. tauto.
Qed.
