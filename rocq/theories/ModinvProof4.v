(** Modular inversion by division steps is exact: for every input the code returns the inverse. *)
Require Import ZArith Lia List Bool Znumtheory.
From Verif Require Import Word Int128Model SpecWords Int128Proof ScalarProof2 ModinvModel Safegcd SafegcdBound ModinvProof ModinvProof2 ModinvProof3.
Import ListNotations.
Local Open Scope Z_scope.

(** ** Facts about the steps *)
Lemma dstep_cbound h c f g c' f' g' B : h = 1 \/ h = 2 -> - B <= c <= B -> dstep h (c, f, g) = (c', f', g') -> - (B + 2) <= c' <= B + 2.
Proof. intros Hh Hc E. unfold dstep in E. destruct (Z.odd g); [destruct (c <? 0)|]; apply (f_equal (fun p => fst (fst p))) in E; cbn [fst] in E; lia. Qed.

Lemma dsteps_cbound h : h = 1 \/ h = 2 -> forall n c f g c' f' g' B, - B <= c <= B -> dsteps h n (c, f, g) = (c', f', g') ->
  - (B + 2 * Z.of_nat n) <= c' <= B + 2 * Z.of_nat n.
Proof.
  intros Hh. induction n as [|n IH]; intros c f g c' f' g' B Hc E; cbn [dsteps] in E.
  - injection E as E1 E2 E3. lia.
  - destruct (dstep h (c, f, g)) as [[c1 f1] g1] eqn:E1.
    pose proof (dstep_cbound h c f g c1 f1 g1 B Hh Hc E1) as H1.
    specialize (IH c1 f1 g1 c' f' g' (B + 2) H1 E). lia.
Qed.

Lemma gcd_half_odd a b : Z.odd a = true -> Z.odd b = false -> Z.gcd a (b / 2) = Z.gcd a b.
Proof.
  intros Oa Ob. rewrite <- (even_half b Ob) at 2.
  symmetry. rewrite Z.gcd_comm. rewrite (Z.gcd_comm a (b / 2)).
  apply Zis_gcd_gcd; [apply Z.gcd_nonneg|].
  destruct (Zgcd_is_gcd (b / 2) a) as [H1 H2 H3]. constructor.
  - now apply Z.divide_mul_r.
  - exact H2.
  - intros y Y1 Y2. apply H3; [|exact Y2]. apply (Gauss y 2); [exact Y1|].
    apply rel_prime_sym. apply prime_rel_prime; [exact prime_2|]. intros [q Hq].
    destruct Y2 as [q2 ->]. rewrite Hq, !Z.odd_mul in Oa. change (Z.odd 2) with false in Oa. rewrite !andb_false_r in Oa. discriminate.
Qed.

Lemma dstep_gcd h c f g c' f' g' : Z.odd f = true -> dstep h (c, f, g) = (c', f', g') -> Z.odd f' = true /\ Z.gcd f' g' = Z.gcd f g.
Proof.
  intros Of E. unfold dstep in E. destruct (Z.odd g) eqn:Og; [destruct (c <? 0)|]; injection E as E1 E2 E3; subst f' g'; split; auto.
  - rewrite gcd_half_odd; [|exact Og|rewrite Z.odd_sub, Og, Of; reflexivity].
    rewrite (Z.gcd_comm f g). replace (g - f) with (- f + 1 * g) by ring. rewrite Z.gcd_add_mult_diag_r. apply Z.gcd_opp_r.
  - rewrite gcd_half_odd; [|exact Of|rewrite Z.odd_add, Og, Of; reflexivity].
    replace (g + f) with (g + 1 * f) by ring. apply Z.gcd_add_mult_diag_r.
  - now apply gcd_half_odd.
Qed.

Lemma dsteps_gcd h : forall n c f g c' f' g', Z.odd f = true -> dsteps h n (c, f, g) = (c', f', g') -> Z.odd f' = true /\ Z.gcd f' g' = Z.gcd f g.
Proof.
  induction n as [|n IH]; intros c f g c' f' g' Of E; cbn [dsteps] in E.
  - injection E as E1 E2 E3. subst. auto.
  - destruct (dstep h (c, f, g)) as [[c1 f1] g1] eqn:E1. destruct (dstep_gcd _ _ _ _ _ _ _ Of E1) as [O1 G1].
    destruct (IH _ _ _ _ _ _ O1 E) as [O2 G2]. split; [exact O2|]. now rewrite G2.
Qed.

(** ** The invariant of the rounds *)
Definition minv (M x D E F G : Z) : Prop :=
  (M | D * x - F) /\ (M | E * x - G) /\ Z.odd F = true /\ Z.abs F <= M /\ Z.abs G <= M /\ Z.gcd F G = Z.gcd M x /\
  (x = 0 -> F = M /\ G = 0 /\ (M | D)).

Definition mat_ok (t : trans2x2) (F G F' G' : Z) : Prop :=
  tu t * F + tv t * G = 2 ^ 62 * F' /\ tq t * F + tr t * G = 2 ^ 62 * G' /\
  Z.abs (tu t) + Z.abs (tv t) <= 2 ^ 62 /\ Z.abs (tq t) + Z.abs (tr t) <= 2 ^ 62.

Lemma scale_abs K a B : 0 < K -> Z.abs (K * a) <= K * B -> Z.abs a <= B.
Proof. intros HK H. rewrite Z.abs_mul, (Z.abs_eq K) in H by now apply Z.lt_le_incl. now apply Z.mul_le_mono_pos_l in H. Qed.
Lemma mat_bound t F G F' G' B : 0 <= B -> mat_ok t F G F' G' -> Z.abs F <= B -> Z.abs G <= B -> Z.abs F' <= B /\ Z.abs G' <= B.
Proof.
  intros HB (E1 & E2 & B1 & B2) HF HG. assert (P : 0 < 2 ^ 62) by reflexivity.
  pose proof (lin_abs _ _ F G (2 ^ 62) B HB B1 HF HG) as H1. pose proof (lin_abs _ _ F G (2 ^ 62) B HB B2 HF HG) as H2.
  rewrite E1 in H1. rewrite E2 in H2. split; [exact (scale_abs _ _ _ P H1)|exact (scale_abs _ _ _ P H2)].
Qed.

Lemma odd_cancel M a : Z.odd M = true -> (M | 2 ^ 62 * a) -> (M | a).
Proof. intros OM H. apply (Gauss M (2 ^ 62)); [exact H|]. apply rel_prime_sym. apply odd_coprime_pow2; [exact OM|lia]. Qed.

Lemma minv_step M x D E F G F' G' D' E' t k1 k2 h n c c' : Z.odd M = true -> 0 < M -> minv M x D E F G -> mat_ok t F G F' G' ->
  2 ^ 62 * D' = tu t * D + tv t * E + k1 * M -> 2 ^ 62 * E' = tq t * D + tr t * E + k2 * M ->
  dsteps h n (c, F, G) = (c', F', G') -> minv M x D' E' F' G'.
Proof.
  intros OM HM (I1 & I2 & I3 & I4 & I5 & I6 & I7) Hm ED EE ES.
  destruct (dsteps_gcd _ _ _ _ _ _ _ _ I3 ES) as [O' G1].
  destruct (mat_bound _ _ _ _ _ M ltac:(lia) Hm I4 I5) as [BF BG].
  destruct Hm as (E1 & E2 & B1 & B2). destruct I1 as [a1 A1], I2 as [a2 A2].
  refine (conj _ (conj _ (conj O' (conj BF (conj BG (conj _ _)))))).
  - apply odd_cancel; [exact OM|]. exists (tu t * a1 + tv t * a2 + k1 * x).
    replace (2 ^ 62 * (D' * x - F')) with (2 ^ 62 * D' * x - 2 ^ 62 * F') by ring. rewrite ED, <- E1.
    replace ((tu t * D + tv t * E + k1 * M) * x - (tu t * F + tv t * G)) with (tu t * (D * x - F) + tv t * (E * x - G) + k1 * x * M) by ring.
    rewrite A1, A2. ring.
  - apply odd_cancel; [exact OM|]. exists (tq t * a1 + tr t * a2 + k2 * x).
    replace (2 ^ 62 * (E' * x - G')) with (2 ^ 62 * E' * x - 2 ^ 62 * G') by ring. rewrite EE, <- E2.
    replace ((tq t * D + tr t * E + k2 * M) * x - (tq t * F + tr t * G)) with (tq t * (D * x - F) + tr t * (E * x - G) + k2 * x * M) by ring.
    rewrite A1, A2. ring.
  - now rewrite G1.
  - intros X. destruct (I7 X) as (EF & EG & [dd DD]). subst G. rewrite EF in *.
    destruct (dsteps_zero h n c M) as [c'' Z0]. rewrite Z0 in ES. injection ES as X1 X2 X3. subst F' G'.
    split; [reflexivity|]. split; [reflexivity|].
    assert (U : tu t = 2 ^ 62) by (apply (Z.mul_reg_r _ _ M); lia).
    assert (V : tv t = 0) by lia. apply odd_cancel; [exact OM|].
    rewrite ED, U, V, DD. exists (2 ^ 62 * dd + k1). ring.
Qed.

Lemma minv_start M x : Z.odd M = true -> 0 < M -> 0 <= x < M -> minv M x 0 1 M x.
Proof.
  intros OM HM Hx. refine (conj _ (conj _ (conj OM (conj _ (conj _ (conj eq_refl _)))))); try lia.
  - exists (-1). ring.
  - exists 0. ring.
  - intros ->. split; [reflexivity|]. split; [reflexivity|]. apply Z.divide_0_r.
Qed.

(** The result. *)
Definition inverse_of (M x r : Z) : Prop :=
  0 <= r < M /\ (x = 0 -> r = 0) /\ (Z.gcd M x = 1 -> (r * x) mod M = 1).

Lemma minv_end M x D E F r k : 1 < M -> minv M x D E F 0 -> 0 <= r < M ->
  r = (if F <? 0 then - D else D) + k * M -> inverse_of M x r.
Proof.
  intros HM (I1 & _ & I3 & _ & _ & I6 & I7) Hr Er. split; [exact Hr|]. split.
  - intros X. destruct (I7 X) as (_ & _ & [dd DD]).
    assert (H : (M | r)). { rewrite Er, DD. destruct (F <? 0); [exists (- dd + k)|exists (dd + k)]; ring. }
    destruct H as [q Hq]. assert (q = 0) by nia. lia.
  - intros Hg. rewrite Hg, Z.gcd_0_r in I6. destruct I1 as [a A].
    assert (Ex : r * x = 1 + ((if F <? 0 then - a else a) + k * x) * M).
    { rewrite Er. destruct (Z.ltb_spec F 0).
      - replace ((- D + k * M) * x) with (- (D * x - F) - F + k * x * M) by ring. rewrite A. lia.
      - replace ((D + k * M) * x) with ((D * x - F) + F + k * x * M) by ring. rewrite A. lia. }
    rewrite Ex, Z.mod_add by lia. apply Z.mod_small. lia.
Qed.

(** ** Constant time *)
Definition fg_in (len : nat) (f : list Z) : Prop := length f = len /\ small (2 ^ 62) f.

Lemma low_cong f len : (1 <= len)%nat -> fg_in len f -> word (w64 (lm f 0)) /\ cong 62 (w64 (lm f 0)) (lval f).
Proof.
  intros Hl [Lf _]. split; [apply w64_word|]. destruct f as [|x r]; [cbn in Lf; lia|].
  unfold lm. cbn [nth lval]. eapply cong_trans; [apply cong_w64; lia|]. exists (- lval r). ring.
Qed.

Lemma mat_rows t d e mi M : mod_ok mi M -> Z.abs (tu t) + Z.abs (tv t) <= 2 ^ 62 -> Z.abs (tq t) + Z.abs (tr t) <= 2 ^ 62 ->
  de_in M d -> de_in M e -> exists d' e' k1 k2, update_de_62 d e t mi = Some (d', e') /\ de_in M d' /\ de_in M e' /\
  2 ^ 62 * lval d' = tu t * lval d + tv t * lval e + k1 * M /\ 2 ^ 62 * lval e' = tq t * lval d + tr t * lval e + k2 * M.
Proof.
  intros HM B1 B2 Hd He. destruct (de_row_ok (tu t) (tv t) d e mi M HM B1 Hd He) as (d' & k1 & E1 & D1 & V1).
  destruct (de_row_ok (tq t) (tr t) d e mi M HM B2 Hd He) as (e' & k2 & E2 & D2 & V2).
  exists d', e', k1, k2. unfold update_de_62. rewrite E1, E2. auto 6.
Qed.

Lemma const_loop M x mi : mod_ok mi M -> forall k zeta d e f g,
  de_in M d -> de_in M e -> fg_in 5 f -> fg_in 5 g -> minv M x (lval d) (lval e) (lval f) (lval g) ->
  - (2 ^ 60 - 118 * Z.of_nat k) <= zeta <= 2 ^ 60 - 118 * Z.of_nat k ->
  exists d' e' f' g' zeta', modinv64_loop k zeta d e f g mi = Some (d', f', g') /\ de_in M d' /\
    minv M x (lval d') e' (lval f') (lval g') /\ (canon f -> canon f') /\ ((0 < k)%nat -> canon f') /\ fg_in 5 f' /\
    dsteps 1 (59 * k) (zeta, lval f, lval g) = (zeta', lval f', lval g').
Proof.
  intros HM. assert (HM' := HM). destruct HM' as (_ & _ & _ & _ & _ & _ & RM & OM).
  induction k as [|k IH]; intros zeta d e f g Hd He Hf Hg Hi Hz.
  - exists d, (lval e), f, g, zeta. cbn [modinv64_loop]. rewrite Nat.mul_0_r. cbn [dsteps].
    refine (conj eq_refl (conj Hd (conj Hi (conj (fun c => c) (conj _ (conj Hf eq_refl)))))). lia.
  - cbn [modinv64_loop].
    destruct (low_cong f 5 ltac:(lia) Hf) as [Wf Cf]. destruct (low_cong g 5 ltac:(lia) Hg) as [Wg Cg].
    destruct (divsteps_59_ok zeta (lval f) (lval g) _ _ (proj1 (proj2 (proj2 Hi))) ltac:(lia) Wf Wg Cf Cg) as (F & G & zeta1 & Es & Ez & Hm).
    destruct (divsteps_59 zeta (w64 (lm f 0)) (w64 (lm g 0))) as [z1 t] eqn:Ed. cbn [fst snd] in Ez, Hm. subst z1.
    assert (Hm' : mat_ok t (lval f) (lval g) F G) by exact Hm.
    destruct Hm as (E1 & E2 & B1 & B2).
    destruct (mat_rows t d e mi M HM B1 B2 Hd He) as (d1 & e1 & k1 & k2 & -> & Hd1 & He1 & V1 & V2).
    pose proof (minv_step _ _ _ _ _ _ _ _ _ _ _ _ _ _ _ _ _ OM ltac:(lia) Hi Hm' V1 V2 Es) as Hi1.
    assert (BF : Z.abs F <= 2 ^ (62 * Z.of_nat 5)) by (destruct Hi1 as (_ & _ & _ & B & _); change (62 * Z.of_nat 5) with 310; lia).
    assert (BG : Z.abs G <= 2 ^ (62 * Z.of_nat 5)) by (destruct Hi1 as (_ & _ & _ & _ & B & _); change (62 * Z.of_nat 5) with 310; lia).
    destruct Hf as [Lf Sf], Hg as [Lg Sg].
    destruct (fg_row_ok 5 (tu t) (tv t) f g F ltac:(lia) Lf Lg B1 Sf Sg E1 BF) as (f1 & R1 & L1 & C1 & VF & SF).
    destruct (fg_row_ok 5 (tq t) (tr t) f g G ltac:(lia) Lf Lg B2 Sf Sg E2 BG) as (g1 & R2 & L2 & C2 & VG & SG).
    unfold update_fg_62. rewrite !fg_row_eq by assumption. rewrite R1, R2. cbn [fst snd].
    assert (Bz : - (2 ^ 60 - 118 * Z.of_nat k) <= zeta1 <= 2 ^ 60 - 118 * Z.of_nat k).
    { pose proof (dsteps_cbound 1 (or_introl eq_refl) 59 _ _ _ _ _ _ (2 ^ 60 - 118 * Z.of_nat (S k)) Hz Es). lia. }
    rewrite <- VF, <- VG in Hi1.
    destruct (IH zeta1 d1 e1 f1 g1 Hd1 He1 (conj L1 SF) (conj L2 SG) Hi1 Bz) as (d' & e' & f' & g' & z' & A1 & A2 & A3 & A4 & A5 & A6 & A7).
    exists d', e', f', g', z'. refine (conj A1 (conj A2 (conj A3 (conj (fun _ => A4 C1) (conj (fun _ => A4 C1) (conj A6 _)))))).
    replace (59 * S k)%nat with (59 + 59 * k)%nat by lia. rewrite dsteps_add, Es, <- VF, <- VG. exact A7.
Qed.

Lemma lm4_sign f : fg_in 5 f -> canon f -> is_i64 (lm f 4) /\ (lm f 4 <? 0) = (lval f <? 0).
Proof.
  intros [Lf Sf] Cf. destruct (canon5 f Lf Cf) as (a0 & a1 & a2 & a3 & a4 & -> & A0 & A1 & A2 & A3).
  unfold lm. cbn [nth]. split.
  - unfold small in Sf. rewrite Forall_forall in Sf. specialize (Sf a4 ltac:(cbn; tauto)). unfold is_i64. lia.
  - symmetry. now apply canon_sign.
Qed.

Lemma small_weaken B B' l : B <= B' -> small B l -> small B' l.
Proof. intros H. unfold small. apply Forall_impl. intros a. lia. Qed.

Lemma start_fg mi M : mod_ok mi M -> fg_in 5 (modulus mi) /\ lval (modulus mi) = M.
Proof. intros (L & Sm & V & _). split; [|exact V]. split; [exact L|]. apply (small_weaken (2 ^ 62 - 1)); [lia|exact Sm]. Qed.
Lemma start_d M : 1 < M -> de_in M [0; 0; 0; 0; 0] /\ de_in M [1; 0; 0; 0; 0].
Proof. intros HM. split; (split; [reflexivity|split; [cbn; lia|cbn [lval]; lia]]). Qed.

Theorem modinv64_ok x mi M : mod_ok mi M -> fg_in 5 x -> 0 <= lval x < M ->
  exists o, modinv64 x mi = Some o /\ length o = 5%nat /\ canon o /\ inverse_of M (lval x) (lval o).
Proof.
  intros HM Hx Rx. assert (HM' := HM). destruct HM' as (_ & _ & _ & _ & _ & _ & RM & OM).
  destruct (start_fg mi M HM) as [Hf Vf]. destruct (start_d M ltac:(lia)) as [Hd He].
  destruct (const_loop M (lval x) mi HM 10 (-1) [0; 0; 0; 0; 0] [1; 0; 0; 0; 0] (modulus mi) x Hd He Hf Hx) as (d' & e' & f' & g' & z' & A1 & A2 & A3 & _ & A5 & A6 & A7).
  { rewrite Vf. change (lval [0; 0; 0; 0; 0]) with 0. change (lval [1; 0; 0; 0; 0]) with 1. apply minv_start; auto. lia. }
  { lia. }
  specialize (A5 ltac:(lia)). change (59 * 10)%nat with 590%nat in A7. rewrite Vf in A7.
  destruct (dsteps_590 M (lval x) OM ltac:(lia) ltac:(lia)) as (c & ff & E590). rewrite E590 in A7. injection A7 as _ _ E0.
  rewrite <- E0 in A3.
  unfold modinv64. rewrite A1. destruct (lm4_sign f' A6 A5) as [S1 S2].
  destruct (normalize_ok d' (lm f' 4) mi M HM A2 S1) as (o & k & N1 & N2 & N3 & N4 & N5).
  exists o. refine (conj N1 (conj N2 (conj N3 _))). rewrite S2 in N5.
  apply (minv_end M (lval x) (lval d') e' (lval f') (lval o) k); [lia|exact A3|exact N4|exact N5].
Qed.

(** ** Variable time *)
Lemma canon_bound l : canon l -> - 2 ^ 62 <= last l 0 < 2 ^ 62 -> Z.abs (lval l) <= 2 ^ (62 * Z.of_nat (length l)).
Proof.
  induction l as [|x r IH]; [contradiction|]. intros Hc Hl. destruct r as [|y r].
  - cbn [length lval last] in *. change (62 * Z.of_nat 1) with 62. lia.
  - change (last (x :: y :: r) 0) with (last (y :: r) 0) in Hl. apply canon_cons in Hc; [|discriminate]. destruct Hc as [Hx Hc].
    specialize (IH Hc Hl). change (length (x :: y :: r)) with (S (length (y :: r))). rewrite pow62_S.
    change (lval (x :: y :: r)) with (x + 2 ^ 62 * lval (y :: r)).
    assert (Hs : - 2 ^ (62 * Z.of_nat (length (y :: r))) <= lval (y :: r) <= 2 ^ (62 * Z.of_nat (length (y :: r))) - 1).
    { clear - Hc Hl IH. revert y Hc Hl IH. induction r as [|z r IH2]; intros y Hc Hl IH.
      - cbn [length lval last] in *. change (62 * Z.of_nat 1) with 62 in *. lia.
      - change (last (y :: z :: r) 0) with (last (z :: r) 0) in Hl. apply canon_cons in Hc; [|discriminate]. destruct Hc as [Hy Hc].
        change (length (y :: z :: r)) with (S (length (z :: r))) in *. rewrite pow62_S in *.
        change (lval (y :: z :: r)) with (y + 2 ^ 62 * lval (z :: r)) in *.
        specialize (IH2 z Hc Hl). set (P := 2 ^ (62 * Z.of_nat (length (z :: r)))) in *.
        assert (Z.abs (lval (z :: r)) <= P) by lia. specialize (IH2 H). lia. }
    set (P := 2 ^ (62 * Z.of_nat (length (y :: r)))) in *. lia.
Qed.

Lemma canon_zero l : canon l -> lval l = 0 -> Forall (fun x => x = 0) l.
Proof.
  induction l as [|x r IH]; [constructor|]. intros Hc Hv. destruct r as [|y r].
  - cbn [lval] in Hv. constructor; [lia|constructor].
  - apply canon_cons in Hc; [|discriminate]. destruct Hc as [Hx Hc].
    change (lval (x :: y :: r)) with (x + 2 ^ 62 * lval (y :: r)) in Hv.
    assert (lval (y :: r) = 0) by lia. constructor; [lia|]. now apply IH.
Qed.

Lemma fold_lor_zero l : forall a, fold_left Z.lor l a = 0 <-> a = 0 /\ Forall (fun x => x = 0) l.
Proof.
  induction l as [|x r IH]; intros a; cbn [fold_left].
  - split; [intros ->; auto|intros [H _]; exact H].
  - rewrite IH, Z.lor_eq_0_iff. split.
    + intros [[H1 H2] H3]. auto.
    + intros [H1 H2]. inversion H2. auto.
Qed.

Lemma lval_zeros l : Forall (fun x => x = 0) l -> lval l = 0.
Proof. induction 1 as [|x l -> _ IH]; cbn [lval]; [reflexivity|]. rewrite IH. reflexivity. Qed.

Lemma g_zero_spec ga gt : ga <> [] -> canon ga -> g_is_zero (length ga) (ga ++ gt) = (lval ga =? 0).
Proof.
  intros Hn Hc. destruct ga as [|x r]; [congruence|]. unfold g_is_zero, lm. cbn [length app nth tl Nat.sub].
  rewrite Nat.sub_0_r, firstn_app, Nat.sub_diag, firstn_all. cbn [firstn]. rewrite app_nil_r.
  apply eq_true_iff_eq. rewrite andb_true_iff, !Z.eqb_eq, fold_lor_zero. split.
  - intros (H1 & _ & H2). apply lval_zeros. auto.
  - intros H. pose proof (canon_zero _ Hc H) as F. inversion F. auto.
Qed.

Lemma row_var_app len u v fa ft ga gt : (1 <= len)%nat -> length fa = len -> length ga = len ->
  fg_row_var len u v (fa ++ ft) (ga ++ gt) = fg_row_var len u v fa ga.
Proof.
  intros Hl Lf Lg. destruct fa as [|a fa]; [cbn in Lf; lia|]. destruct ga as [|b ga]; [cbn in Lg; lia|].
  cbn [length] in Lf, Lg. unfold fg_row_var, lm. cbn [app nth tl].
  rewrite !firstn_app. replace (len - 1 - length fa)%nat with 0%nat by lia. replace (len - 1 - length ga)%nat with 0%nat by lia.
  cbn [firstn]. now rewrite !app_nil_r.
Qed.

Lemma skipn_app_exact (a b : list Z) n : length a = n -> skipn n (a ++ b) = b.
Proof. intros <-. rewrite skipn_app, skipn_all, Nat.sub_diag. reflexivity. Qed.
Lemma firstn_app_exact (a b : list Z) n : length a = n -> firstn n (a ++ b) = a.
Proof. intros <-. rewrite firstn_app, Nat.sub_diag, firstn_all. cbn [firstn]. apply app_nil_r. Qed.

Lemma sign_xor x : is_i64 x -> (Z.lxor x (Z.shiftr x 63) = 0 <-> x = 0 \/ x = -1).
Proof.
  intros Hx. rewrite sign_mask by exact Hx. destruct (Z.ltb_spec x 0).
  - rewrite Z.lxor_m1_r. unfold Z.lnot. lia.
  - rewrite Z.lxor_0_r. lia.
Qed.

Lemma lval_app a b : lval (a ++ b) = lval a + 2 ^ (62 * Z.of_nat (length a)) * lval b.
Proof.
  induction a as [|x a IH]; cbn [app lval length]; [change (2 ^ (62 * Z.of_nat 0)) with 1; ring|].
  rewrite IH, pow62_S. ring.
Qed.

Lemma canon_app a b : canon (a ++ b) -> b <> [] -> Forall (fun x => 0 <= x < 2 ^ 62) a /\ canon b.
Proof.
  induction a as [|x a IH]; cbn [app]; intros H Hb; [auto|].
  apply canon_cons in H; [|destruct a; [exact Hb|discriminate]]. destruct H as [Hx H].
  destruct (IH H Hb) as [H1 H2]. auto.
Qed.
Lemma canon_snoc a t : Forall (fun x => 0 <= x < 2 ^ 62) a -> canon (a ++ [t]).
Proof.
  induction 1 as [|x a Hx _ IH]; cbn [app]; [exact I|]. apply canon_cons; [destruct a; discriminate|]. auto.
Qed.

Lemma two_last (l : list Z) : (2 <= length l)%nat -> exists p y s, l = p ++ [y; s].
Proof.
  intros H. destruct (exists_last (l := l)) as (l1 & s & ->); [destruct l; [cbn in H; lia|discriminate]|].
  rewrite app_length in H. cbn [length] in H.
  destruct (exists_last (l := l1)) as (p & y & ->); [destruct l1; [cbn in H; lia|discriminate]|].
  exists p, y, s. now rewrite <- app_assoc.
Qed.

Lemma absorb_word y s : 0 <= y < 2 ^ 62 -> s = 0 \/ s = -1 ->
  to_i64 (Z.lor (w64 y) (w64 (Z.shiftl (w64 s) 62))) = y + 2 ^ 62 * s.
Proof.
  intros Hy Hs. rewrite (w64_id y) by (split; lia). destruct Hs as [-> | ->].
  - change (w64 (Z.shiftl (w64 0) 62)) with 0. rewrite Z.lor_0_r, Z.mul_0_r, Z.add_0_r. apply to_i64_id. unfold is_i64. lia.
  - change (w64 (Z.shiftl (w64 (-1)) 62)) with (2 ^ 62 * 3).
    assert (E : Z.lor y (2 ^ 62 * 3) = y + 2 ^ 62 * 3).
    { assert (L0 : Z.land y (2 ^ 62 * 3) = 0).
      { apply Z.bits_inj'. intros j Hj. rewrite Z.land_spec, testbit_pow2_mul, Z.bits_0 by lia.
        destruct (Z.leb_spec 62 j); [|now rewrite andb_false_r].
        assert (T : Z.testbit y j = false); [|now rewrite T].
        apply Z.testbit_false; [lia|]. rewrite Z.div_small; [reflexivity|]. pose proof (Z.pow_le_mono_r 2 62 j). lia. }
      rewrite <- Z.lxor_lor by exact L0. symmetry. now apply Z.add_nocarry_lxor. }
    rewrite E. unfold to_i64. rewrite w64_id by (split; lia).
    destruct (Z.ltb_spec (y + 2 ^ 62 * 3) (2 ^ 63)); lia.
Qed.

Lemma absorb_ok fa ft : (2 <= length fa)%nat -> canon fa -> last fa 0 = 0 \/ last fa 0 = -1 ->
  exists fa' s, absorb_top (length fa) (fa ++ ft) = fa' ++ (s :: ft) /\ length fa' = (length fa - 1)%nat /\ canon fa' /\
    small (2 ^ 62) fa' /\ lval fa' = lval fa /\ Z.abs (lval fa') <= 2 ^ (62 * Z.of_nat (length fa - 1)).
Proof.
  intros Hl Hc Hs. destruct (two_last fa Hl) as (p & y & s & ->).
  assert (Es : last (p ++ [y; s]) 0 = s) by (change [y; s] with ([y] ++ [s]); rewrite app_assoc; apply last_last). rewrite Es in Hs.
  destruct (canon_app p [y; s] Hc ltac:(discriminate)) as [Hp [Hy _]].
  exists (p ++ [y + 2 ^ 62 * s]), s.
  rewrite app_length. cbn [length]. replace (length p + 2 - 1)%nat with (S (length p)) by lia.
  assert (C' : canon (p ++ [y + 2 ^ 62 * s])) by (apply canon_snoc; exact Hp).
  assert (L' : - 2 ^ 62 <= last (p ++ [y + 2 ^ 62 * s]) 0 < 2 ^ 62) by (rewrite last_last; lia).
  assert (N' : length (p ++ [y + 2 ^ 62 * s]) = S (length p)) by (rewrite app_length; cbn [length]; lia).
  refine (conj _ (conj N' (conj C' (conj _ (conj _ _))))).
  - unfold absorb_top. replace (length p + 2 - 2)%nat with (length p) by lia. replace (length p + 2 - 1)%nat with (S (length p)) by lia.
    unfold lm. rewrite <- !app_assoc. cbn [app].
    rewrite firstn_app_exact by reflexivity. f_equal. rewrite !app_nth2 by lia.
    replace (length p - length p)%nat with 0%nat by lia. replace (S (length p) - length p)%nat with 1%nat by lia. cbn [nth].
    rewrite absorb_word by assumption. f_equal.
    change (p ++ y :: s :: ft) with (p ++ [y] ++ s :: ft). rewrite app_assoc. apply skipn_app_exact. rewrite app_length. cbn [length]. lia.
  - apply canon_small; [exact C'|lia].
  - rewrite !lval_app. cbn [lval]. ring.
  - pose proof (canon_bound _ C' L') as B. rewrite N' in B. exact B.
Qed.

Lemma last_sign l : canon l -> (last l 0 <? 0) = (lval l <? 0).
Proof.
  induction l as [|x r IH]; [contradiction|]. intros Hc. destruct r as [|y r].
  - cbn [last lval]. f_equal. ring.
  - apply canon_cons in Hc; [|discriminate]. destruct Hc as [Hx Hc].
    change (last (x :: y :: r) 0) with (last (y :: r) 0). rewrite IH by exact Hc.
    change (lval (x :: y :: r)) with (x + 2 ^ 62 * lval (y :: r)).
    destruct (Z.ltb_spec (lval (y :: r)) 0), (Z.ltb_spec (x + 2 ^ 62 * lval (y :: r)) 0); lia.
Qed.

Lemma nth_last (l t : list Z) : l <> [] -> lm (l ++ t) (length l - 1) = last l 0.
Proof.
  intros H. unfold lm. rewrite app_nth1 by (destruct l; [congruence|cbn; lia]).
  induction l as [|x l IH]; [congruence|]. destruct l as [|y l]; [reflexivity|].
  cbn [length Nat.sub] in IH |- *. rewrite Nat.sub_0_r in IH. change (last (x :: y :: l) 0) with (last (y :: l) 0).
  rewrite <- IH by discriminate. reflexivity.
Qed.

Lemma var_loop M x mi : mod_ok mi M -> forall n fuel len eta d e fa ft ga gt,
  (1 <= n <= fuel)%nat -> (1 <= len)%nat -> de_in M d -> de_in M e -> fg_in len fa -> fg_in len ga ->
  Z.abs (lval fa) <= 2 ^ (62 * Z.of_nat len) -> Z.abs (lval ga) <= 2 ^ (62 * Z.of_nat len) ->
  minv M x (lval d) (lval e) (lval fa) (lval ga) ->
  - (2 ^ 19 - 124 * Z.of_nat n) <= eta <= 2 ^ 19 - 124 * Z.of_nat n ->
  (exists c f', dsteps 2 (62 * n) (eta, lval fa, lval ga) = (c, f', 0)) ->
  exists d' e' sg F', modinv64_var_loop fuel len eta d e (fa ++ ft) (ga ++ gt) mi = Some (d', sg) /\ de_in M d' /\ is_i64 sg /\
    (sg <? 0) = (F' <? 0) /\ minv M x (lval d') e' F' 0.
Proof.
  intros HM. assert (HM' := HM). destruct HM' as (_ & _ & _ & _ & _ & _ & RM & OM).
  induction n as [|n IH]; intros fuel len eta d e fa ft ga gt Hn Hl Hd He Hf Hg Bf Bg Hi Hz Hend; [lia|].
  destruct fuel as [|fuel]; [lia|]. cbn [modinv64_var_loop].
  assert (Hlow : forall l t, length l = len -> lm (l ++ t) 0 = lm l 0).
  { intros l t Ll. unfold lm. apply app_nth1. lia. }
  rewrite (Hlow fa ft (proj1 Hf)), (Hlow ga gt (proj1 Hg)).
  destruct (low_cong fa len Hl Hf) as [Wf Cf]. destruct (low_cong ga len Hl Hg) as [Wg Cg].
  destruct (divsteps_62_var_ok eta (lval fa) (lval ga) _ _ (proj1 (proj2 (proj2 Hi))) ltac:(lia) Wf Wg Cf Cg) as (F & G & eta1 & t & Es & -> & Hm).
  assert (Hm' : mat_ok t (lval fa) (lval ga) F G) by exact Hm.
  destruct Hm as (E1 & E2 & B1 & B2).
  destruct (mat_rows t d e mi M HM B1 B2 Hd He) as (d1 & e1 & k1 & k2 & -> & Hd1 & He1 & V1 & V2).
  pose proof (minv_step _ _ _ _ _ _ _ _ _ _ _ _ _ _ _ _ _ OM ltac:(lia) Hi Hm' V1 V2 Es) as Hi1.
  assert (PL : 0 <= 2 ^ (62 * Z.of_nat len)) by (apply Z.pow_nonneg; lia).
  destruct (mat_bound _ _ _ _ _ _ PL Hm' Bf Bg) as [BF BG].
  destruct Hf as [Lf Sf], Hg as [Lg Sg].
  destruct (fg_row_ok len (tu t) (tv t) fa ga F Hl Lf Lg B1 Sf Sg E1 BF) as (f1 & R1 & L1 & C1 & VF & SF).
  destruct (fg_row_ok len (tq t) (tr t) fa ga G Hl Lf Lg B2 Sf Sg E2 BG) as (g1 & R2 & L2 & C2 & VG & SG).
  unfold update_fg_62_var. rewrite !row_var_app by assumption. rewrite R1, R2.
  rewrite !skipn_app_exact by assumption.
  assert (Nf : f1 <> []) by (intros ->; cbn in L1; clear - L1 Hl; lia). assert (Ng : g1 <> []) by (intros ->; cbn in L2; clear - L2 Hl; lia).
  assert (If : is_i64 (last f1 0)).
  { pose proof (canon_last f1 C1) as X. rewrite L1, VF in X. specialize (X ltac:(clear - BF; lia)). unfold is_i64. clear - X. lia. }
  assert (Ig : is_i64 (last g1 0)).
  { pose proof (canon_last g1 C2) as X. rewrite L2, VG in X. specialize (X ltac:(clear - BG; lia)). unfold is_i64. clear - X. lia. }
  assert (GZ := g_zero_spec g1 gt Ng C2). rewrite L2 in GZ. rewrite GZ.
  assert (NLf := nth_last f1 ft Nf). rewrite L1 in NLf. assert (NLg := nth_last g1 gt Ng). rewrite L2 in NLg. rewrite NLf, NLg.
  destruct (Z.eqb_spec (lval g1) 0) as [Z0|NZ].
  { exists d1, (lval e1), (last f1 0), (lval f1). refine (conj eq_refl (conj Hd1 (conj If (conj (last_sign f1 C1) _)))).
    rewrite VF. rewrite VG in Z0. rewrite Z0 in Hi1. exact Hi1. }
  assert (Hn1 : (1 <= n)%nat).
  { destruct n as [|n]; [|lia]. exfalso. apply NZ. destruct Hend as (c & f' & Hend). change (62 * 1)%nat with 62%nat in Hend.
    rewrite Es in Hend. injection Hend as _ _ EG. now rewrite VG. }
  assert (Hend1 : exists c f', dsteps 2 (62 * n) (eta1, lval f1, lval g1) = (c, f', 0)).
  { destruct Hend as (c & f' & Hend). exists c, f'. replace (62 * S n)%nat with (62 + 62 * n)%nat in Hend by lia.
    rewrite dsteps_add, Es in Hend. rewrite VF, VG. exact Hend. }
  assert (Bz : - (2 ^ 19 - 124 * Z.of_nat n) <= eta1 <= 2 ^ 19 - 124 * Z.of_nat n).
  { pose proof (dsteps_cbound 2 (or_intror eq_refl) 62 _ _ _ _ _ _ (2 ^ 19 - 124 * Z.of_nat (S n)) Hz Es). lia. }
  rewrite <- VF, <- VG in Hi1.
  match goal with |- context [if ?c =? 0 then _ else _] => destruct (Z.eqb_spec c 0) as [C0|_] end.
  - apply Z.lor_eq_0_iff in C0. destruct C0 as [C0 Cg0]. apply Z.lor_eq_0_iff in C0. destruct C0 as [Cl0 Cf0].
    apply sign_xor in Cf0; [|exact If]. apply sign_xor in Cg0; [|exact Ig].
    assert (Hlen : (2 <= len)%nat).
    { rewrite shiftr_div in Cl0 by lia. destruct (Nat.le_gt_cases 2 len) as [?|C]; [assumption|]. exfalso.
      replace len with 1%nat in Cl0 by lia. vm_compute in Cl0. discriminate Cl0. }
    assert (Hlf : (2 <= length f1)%nat) by (rewrite L1; exact Hlen). assert (Hlg : (2 <= length g1)%nat) by (rewrite L2; exact Hlen).
    destruct (absorb_ok f1 ft Hlf C1 Cf0) as (fb & sf & F1 & F2 & F3 & F4 & F5 & F6).
    destruct (absorb_ok g1 gt Hlg C2 Cg0) as (gb & sg & G1 & G2 & G3 & G4 & G5 & G6).
    rewrite L1 in F1, F2, F6. rewrite L2 in G1, G2, G6. rewrite F1, G1.
    assert (Hl1 : (1 <= len - 1)%nat) by (clear - Hlen; lia).
    assert (Hnf : (1 <= n <= fuel)%nat) by (clear - Hn Hn1; lia).
    apply (IH fuel (len - 1)%nat eta1 d1 e1 fb (sf :: ft) gb (sg :: gt) Hnf Hl1 Hd1 He1 (conj F2 F4) (conj G2 G4) F6 G6).
    + rewrite F5, G5. exact Hi1.
    + exact Bz.
    + rewrite F5, G5. exact Hend1.
  - assert (Hnf : (1 <= n <= fuel)%nat) by (clear - Hn Hn1; lia).
    rewrite <- VF in BF. rewrite <- VG in BG.
    exact (IH fuel len eta1 d1 e1 f1 ft g1 gt Hnf Hl Hd1 He1 (conj L1 SF) (conj L2 SG) BF BG Hi1 Bz Hend1).
Qed.

Theorem modinv64_var_ok fuel x mi M : (12 <= fuel)%nat -> mod_ok mi M -> fg_in 5 x -> 0 <= lval x < M ->
  exists o, modinv64_var fuel x mi = Some o /\ length o = 5%nat /\ canon o /\ inverse_of M (lval x) (lval o).
Proof.
  intros Hfuel HM Hx Rx. assert (HM' := HM). destruct HM' as (_ & _ & _ & _ & _ & _ & RM & OM).
  destruct (start_fg mi M HM) as [Hf Vf]. destruct (start_d M ltac:(lia)) as [Hd He].
  destruct (var_loop M (lval x) mi HM 12 fuel 5 (-1) [0; 0; 0; 0; 0] [1; 0; 0; 0; 0] (modulus mi) [] x []) as (d' & e' & sg & F' & A1 & A2 & A3 & A4 & A5);
    try assumption; try lia.
  - rewrite Vf. change (lval [0; 0; 0; 0; 0]) with 0. change (lval [1; 0; 0; 0; 0]) with 1. apply minv_start; auto. lia.
  - change (62 * 12)%nat with 744%nat. rewrite Vf. destruct (dsteps_744 M (lval x) OM ltac:(lia) ltac:(lia)) as (c & ff & E744). eauto.
  - rewrite !app_nil_r in A1. unfold modinv64_var. rewrite A1. cbn [fst snd].
    destruct (normalize_ok d' sg mi M HM A2 A3) as (o & k & N1 & N2 & N3 & N4 & N5).
    exists o. refine (conj N1 (conj N2 (conj N3 _))). rewrite A4 in N5.
    apply (minv_end M (lval x) (lval d') e' F' (lval o) k); [lia|exact A5|exact N4|exact N5].
Qed.
