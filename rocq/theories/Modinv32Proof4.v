(** Modular inversion with 30-bit limbs is exact: for every input the code returns the inverse.
    Same argument as ModinvProof4.v: rounds of 30 steps, 20 in constant time and at most 25 otherwise. *)
Require Import ZArith Lia List Bool Znumtheory.
From Verif Require Import Word Word32 Int128Model SpecWords Int128Proof ScalarProof2 ModinvModel JacobiModel Modinv32Model Safegcd SafegcdBound
  ModinvProof ModinvProof2 ModinvProof3 ModinvProof4 Modinv32Proof Modinv32Proof2 Modinv32Proof3.
Import ListNotations.
Local Open Scope Z_scope.

Definition mat_ok30 (t : trans2x2) (F G F' G' : Z) : Prop :=
  tu t * F + tv t * G = 2 ^ 30 * F' /\ tq t * F + tr t * G = 2 ^ 30 * G' /\
  Z.abs (tu t) + Z.abs (tv t) <= 2 ^ 30 /\ Z.abs (tq t) + Z.abs (tr t) <= 2 ^ 30.

Lemma mat_bound30 t F G F' G' B : 0 <= B -> mat_ok30 t F G F' G' -> Z.abs F <= B -> Z.abs G <= B -> Z.abs F' <= B /\ Z.abs G' <= B.
Proof.
  intros HB (E1 & E2 & B1 & B2) HF HG. assert (P : 0 < 2 ^ 30) by reflexivity.
  pose proof (lin_abs _ _ F G (2 ^ 30) B HB B1 HF HG) as H1. pose proof (lin_abs _ _ F G (2 ^ 30) B HB B2 HF HG) as H2.
  rewrite E1 in H1. rewrite E2 in H2. split; [exact (scale_abs _ _ _ P H1)|exact (scale_abs _ _ _ P H2)].
Qed.

Lemma odd_cancel30 M a : Z.odd M = true -> (M | 2 ^ 30 * a) -> (M | a).
Proof. intros OM H. apply (Gauss M (2 ^ 30)); [exact H|]. apply rel_prime_sym. apply odd_coprime_pow2; [exact OM|lia]. Qed.

Lemma minv_step30 M x D E F G F' G' D' E' t k1 k2 h n c c' : Z.odd M = true -> 0 < M -> minv M x D E F G -> mat_ok30 t F G F' G' ->
  2 ^ 30 * D' = tu t * D + tv t * E + k1 * M -> 2 ^ 30 * E' = tq t * D + tr t * E + k2 * M ->
  dsteps h n (c, F, G) = (c', F', G') -> minv M x D' E' F' G'.
Proof.
  intros OM HM (I1 & I2 & I3 & I4 & I5 & I6 & I7) Hm ED EE ES.
  destruct (dsteps_gcd _ _ _ _ _ _ _ _ I3 ES) as [O' G1].
  destruct (mat_bound30 _ _ _ _ _ M ltac:(lia) Hm I4 I5) as [BF BG].
  destruct Hm as (E1 & E2 & B1 & B2). destruct I1 as [a1 A1], I2 as [a2 A2].
  refine (conj _ (conj _ (conj O' (conj BF (conj BG (conj _ _)))))).
  - apply odd_cancel30; [exact OM|]. exists (tu t * a1 + tv t * a2 + k1 * x).
    replace (2 ^ 30 * (D' * x - F')) with (2 ^ 30 * D' * x - 2 ^ 30 * F') by ring. rewrite ED, <- E1.
    replace ((tu t * D + tv t * E + k1 * M) * x - (tu t * F + tv t * G)) with (tu t * (D * x - F) + tv t * (E * x - G) + k1 * x * M) by ring.
    rewrite A1, A2. ring.
  - apply odd_cancel30; [exact OM|]. exists (tq t * a1 + tr t * a2 + k2 * x).
    replace (2 ^ 30 * (E' * x - G')) with (2 ^ 30 * E' * x - 2 ^ 30 * G') by ring. rewrite EE, <- E2.
    replace ((tq t * D + tr t * E + k2 * M) * x - (tq t * F + tr t * G)) with (tq t * (D * x - F) + tr t * (E * x - G) + k2 * x * M) by ring.
    rewrite A1, A2. ring.
  - now rewrite G1.
  - intros X. destruct (I7 X) as (EF & EG & [dd DD]). subst G. rewrite EF in *.
    destruct (dsteps_zero h n c M) as [c'' Z0]. rewrite Z0 in ES. injection ES as X1 X2 X3. subst F' G'.
    split; [reflexivity|]. split; [reflexivity|].
    assert (U : tu t = 2 ^ 30) by (apply (Z.mul_reg_r _ _ M); lia).
    assert (V : tv t = 0) by lia. apply odd_cancel30; [exact OM|].
    rewrite ED, U, V, DD. exists (2 ^ 30 * dd + k1). ring.
Qed.

Definition fg_in30 (len : nat) (f : list Z) : Prop := length f = len /\ small (2 ^ 30) f.

Lemma low_cong30 f len : (1 <= len)%nat -> fg_in30 len f -> word32 (w32 (lm f 0)) /\ cong 30 (w32 (lm f 0)) (lval30 f).
Proof.
  intros Hl [Lf _]. split; [apply w32_word|]. destruct f as [|x r]; [cbn in Lf; lia|].
  unfold lm. cbn [nth lval30]. eapply cong_trans; [apply cong_w32'; lia|]. exists (- lval30 r). ring.
Qed.

Lemma mat_rows30 t d e mi M : mod_ok30 mi M -> Z.abs (tu t) + Z.abs (tv t) <= 2 ^ 30 -> Z.abs (tq t) + Z.abs (tr t) <= 2 ^ 30 ->
  de_in30 M d -> de_in30 M e -> exists d' e' k1 k2, update_de_30 d e t mi = Some (d', e') /\ de_in30 M d' /\ de_in30 M e' /\
  2 ^ 30 * lval30 d' = tu t * lval30 d + tv t * lval30 e + k1 * M /\ 2 ^ 30 * lval30 e' = tq t * lval30 d + tr t * lval30 e + k2 * M.
Proof.
  intros HM B1 B2 Hd He. destruct (de_row_ok30 (tu t) (tv t) d e mi M HM B1 Hd He) as (d' & k1 & E1 & D1 & V1).
  destruct (de_row_ok30 (tq t) (tr t) d e mi M HM B2 Hd He) as (e' & k2 & E2 & D2 & V2).
  exists d', e', k1, k2. unfold update_de_30. rewrite E1, E2. auto 6.
Qed.

Lemma const_loop30 M x mi : mod_ok30 mi M -> forall k zeta d e f g,
  de_in30 M d -> de_in30 M e -> fg_in30 9 f -> fg_in30 9 g -> minv M x (lval30 d) (lval30 e) (lval30 f) (lval30 g) ->
  - (2 ^ 28 - 60 * Z.of_nat k) <= zeta <= 2 ^ 28 - 60 * Z.of_nat k ->
  exists d' e' f' g' zeta', modinv32_loop k zeta d e f g mi = Some (d', f', g') /\ de_in30 M d' /\
    minv M x (lval30 d') e' (lval30 f') (lval30 g') /\ (canon30 f -> canon30 f') /\ ((0 < k)%nat -> canon30 f') /\ fg_in30 9 f' /\
    dsteps 1 (30 * k) (zeta, lval30 f, lval30 g) = (zeta', lval30 f', lval30 g').
Proof.
  intros HM. assert (HM' := HM). destruct HM' as (_ & _ & _ & _ & _ & RM & OM).
  induction k as [|k IH]; intros zeta d e f g Hd He Hf Hg Hi Hz.
  - exists d, (lval30 e), f, g, zeta. cbn [modinv32_loop]. rewrite Nat.mul_0_r. cbn [dsteps].
    refine (conj eq_refl (conj Hd (conj Hi (conj (fun c => c) (conj _ (conj Hf eq_refl)))))). lia.
  - cbn [modinv32_loop].
    destruct (low_cong30 f 9 ltac:(lia) Hf) as [Wf Cf]. destruct (low_cong30 g 9 ltac:(lia) Hg) as [Wg Cg].
    destruct (divsteps_30_ok zeta (lval30 f) (lval30 g) _ _ (proj1 (proj2 (proj2 Hi))) ltac:(lia) Wf Wg Cf Cg) as (F & G & zeta1 & Es & Ez & Hm).
    destruct (divsteps_30 zeta (w32 (lm f 0)) (w32 (lm g 0))) as [z1 t] eqn:Ed. cbn [fst snd] in Ez, Hm. subst z1.
    assert (Hm' : mat_ok30 t (lval30 f) (lval30 g) F G) by exact Hm.
    destruct Hm as (E1 & E2 & B1 & B2).
    destruct (mat_rows30 t d e mi M HM B1 B2 Hd He) as (d1 & e1 & k1 & k2 & -> & Hd1 & He1 & V1 & V2).
    pose proof (minv_step30 _ _ _ _ _ _ _ _ _ _ _ _ _ _ _ _ _ OM ltac:(lia) Hi Hm' V1 V2 Es) as Hi1.
    assert (BF : Z.abs F <= 2 ^ (30 * Z.of_nat 9)) by (destruct Hi1 as (_ & _ & _ & B & _); change (30 * Z.of_nat 9) with 270; lia).
    assert (BG : Z.abs G <= 2 ^ (30 * Z.of_nat 9)) by (destruct Hi1 as (_ & _ & _ & _ & B & _); change (30 * Z.of_nat 9) with 270; lia).
    destruct Hf as [Lf Sf], Hg as [Lg Sg].
    destruct (fg_row_ok30 9 (tu t) (tv t) f g F ltac:(lia) Lf Lg B1 Sf Sg E1 BF) as (f1 & R1 & L1 & C1 & VF & SF).
    destruct (fg_row_ok30 9 (tq t) (tr t) f g G ltac:(lia) Lf Lg B2 Sf Sg E2 BG) as (g1 & R2 & L2 & C2 & VG & SG).
    unfold update_fg_30. rewrite !fg_row_eq30 by assumption. rewrite R1, R2. cbn [fst snd].
    assert (Bz : - (2 ^ 28 - 60 * Z.of_nat k) <= zeta1 <= 2 ^ 28 - 60 * Z.of_nat k).
    { pose proof (dsteps_cbound 1 (or_introl eq_refl) 30 _ _ _ _ _ _ (2 ^ 28 - 60 * Z.of_nat (S k)) Hz Es). lia. }
    rewrite <- VF, <- VG in Hi1.
    destruct (IH zeta1 d1 e1 f1 g1 Hd1 He1 (conj L1 SF) (conj L2 SG) Hi1 Bz) as (d' & e' & f' & g' & z' & A1 & A2 & A3 & A4 & A5 & A6 & A7).
    exists d', e', f', g', z'. refine (conj A1 (conj A2 (conj A3 (conj (fun _ => A4 C1) (conj (fun _ => A4 C1) (conj A6 _)))))).
    replace (30 * S k)%nat with (30 + 30 * k)%nat by lia. rewrite dsteps_add, Es, <- VF, <- VG. exact A7.
Qed.

Lemma lm8_sign30 f : fg_in30 9 f -> canon30 f -> is_i32 (lm f 8) /\ (lm f 8 <? 0) = (lval30 f <? 0).
Proof.
  intros [Lf Sf] Cf. split; [|symmetry; now apply canon_sign9].
  unfold small in Sf. rewrite Forall_forall in Sf.
  assert (Hin : In (lm f 8) f) by (unfold lm; apply nth_In; lia).
  specialize (Sf _ Hin). unfold is_i32. lia.
Qed.

Lemma start_fg30 mi M : mod_ok30 mi M -> fg_in30 9 (modulus30 mi) /\ lval30 (modulus30 mi) = M.
Proof. intros (L & Sm & V & _). split; [|exact V]. split; [exact L|]. apply (small_weaken (2 ^ 30 - 1)); [lia|exact Sm]. Qed.
Lemma start_d30 M : 1 < M -> de_in30 M zero30 /\ de_in30 M one30.
Proof. intros HM. split; (split; [reflexivity|split; [cbn; lia|unfold zero30, one30; cbn [lval30]; lia]]). Qed.

Lemma dsteps_600 M x : Z.odd M = true -> 0 <= x < M -> 1 < M <= 2 ^ 256 -> exists c ff, dsteps 1 600 (-1, M, x) = (c, ff, 0).
Proof.
  intros OM Hx HM. destruct (dsteps_590 M x OM ltac:(lia) ltac:(lia)) as (c & ff & E).
  change 600%nat with (590 + 10)%nat. rewrite dsteps_add, E. destruct (dsteps_zero 1 10 c ff) as [c' E']. rewrite E'. eauto.
Qed.
Lemma dsteps_750 M x : Z.odd M = true -> 0 <= x < M -> 1 < M <= 2 ^ 256 -> exists c ff, dsteps 2 750 (-1, M, x) = (c, ff, 0).
Proof.
  intros OM Hx HM. destruct (dsteps_744 M x OM ltac:(lia) ltac:(lia)) as (c & ff & E).
  change 750%nat with (744 + 6)%nat. rewrite dsteps_add, E. destruct (dsteps_zero 2 6 c ff) as [c' E']. rewrite E'. eauto.
Qed.

Theorem modinv32_ok x mi M : mod_ok30 mi M -> fg_in30 9 x -> 0 <= lval30 x < M ->
  exists o, modinv32 x mi = Some o /\ length o = 9%nat /\ canon30 o /\ inverse_of M (lval30 x) (lval30 o).
Proof.
  intros HM Hx Rx. assert (HM' := HM). destruct HM' as (_ & _ & _ & _ & _ & RM & OM).
  destruct (start_fg30 mi M HM) as [Hf Vf]. destruct (start_d30 M ltac:(lia)) as [Hd He].
  destruct (const_loop30 M (lval30 x) mi HM 20 (-1) zero30 one30 (modulus30 mi) x Hd He Hf Hx) as (d' & e' & f' & g' & z' & A1 & A2 & A3 & _ & A5 & A6 & A7).
  { rewrite Vf. change (lval30 zero30) with 0. change (lval30 one30) with 1. apply minv_start; auto. lia. }
  { lia. }
  specialize (A5 ltac:(lia)). change (30 * 20)%nat with 600%nat in A7. rewrite Vf in A7.
  destruct (dsteps_600 M (lval30 x) OM ltac:(lia) ltac:(lia)) as (c & ff & E600). rewrite E600 in A7. injection A7 as _ _ E0.
  rewrite <- E0 in A3.
  unfold modinv32. rewrite A1. destruct (lm8_sign30 f' A6 A5) as [S1 S2].
  destruct (normalize_ok30 d' (lm f' 8) mi M HM A2 S1) as (o & k & N1 & N2 & N3 & N4 & N5).
  exists o. refine (conj N1 (conj N2 (conj N3 _))). rewrite S2 in N5.
  apply (minv_end M (lval30 x) (lval30 d') e' (lval30 f') (lval30 o) k); [lia|exact A3|exact N4|exact N5].
Qed.

(** ** Variable time *)
Lemma canon_bound30 l : canon30 l -> - 2 ^ 30 <= last l 0 < 2 ^ 30 -> Z.abs (lval30 l) <= 2 ^ (30 * Z.of_nat (length l)).
Proof.
  induction l as [|x r IH]; [contradiction|]. intros Hc Hl. destruct r as [|y r].
  - cbn [length lval30 last] in *. change (30 * Z.of_nat 1) with 30. lia.
  - change (last (x :: y :: r) 0) with (last (y :: r) 0) in Hl. apply canon_cons30 in Hc; [|discriminate]. destruct Hc as [Hx Hc].
    specialize (IH Hc Hl). change (length (x :: y :: r)) with (S (length (y :: r))). rewrite pow_S30.
    change (lval30 (x :: y :: r)) with (x + 2 ^ 30 * lval30 (y :: r)).
    assert (Hs : - 2 ^ (30 * Z.of_nat (length (y :: r))) <= lval30 (y :: r) <= 2 ^ (30 * Z.of_nat (length (y :: r))) - 1).
    { clear - Hc Hl IH. revert y Hc Hl IH. induction r as [|z r IH2]; intros y Hc Hl IH.
      - cbn [length lval30 last] in *. change (30 * Z.of_nat 1) with 30 in *. lia.
      - change (last (y :: z :: r) 0) with (last (z :: r) 0) in Hl. apply canon_cons30 in Hc; [|discriminate]. destruct Hc as [Hy Hc].
        change (length (y :: z :: r)) with (S (length (z :: r))) in *. rewrite pow_S30 in *.
        change (lval30 (y :: z :: r)) with (y + 2 ^ 30 * lval30 (z :: r)) in *.
        specialize (IH2 z Hc Hl). set (P := 2 ^ (30 * Z.of_nat (length (z :: r)))) in *.
        assert (Z.abs (lval30 (z :: r)) <= P) by lia. specialize (IH2 H). lia. }
    set (P := 2 ^ (30 * Z.of_nat (length (y :: r)))) in *. lia.
Qed.

Lemma canon_zero30 l : canon30 l -> lval30 l = 0 -> Forall (fun x => x = 0) l.
Proof.
  induction l as [|x r IH]; [constructor|]. intros Hc Hv. destruct r as [|y r].
  - cbn [lval30] in Hv. constructor; [lia|constructor].
  - apply canon_cons30 in Hc; [|discriminate]. destruct Hc as [Hx Hc].
    change (lval30 (x :: y :: r)) with (x + 2 ^ 30 * lval30 (y :: r)) in Hv.
    assert (lval30 (y :: r) = 0) by lia. constructor; [lia|]. now apply IH.
Qed.

Lemma lval_zeros30 l : Forall (fun x => x = 0) l -> lval30 l = 0.
Proof. induction 1 as [|x l -> _ IH]; cbn [lval30]; [reflexivity|]. rewrite IH. reflexivity. Qed.

Lemma g_zero_spec30 ga gt : ga <> [] -> canon30 ga -> g_is_zero (length ga) (ga ++ gt) = (lval30 ga =? 0).
Proof.
  intros Hn Hc. destruct ga as [|x r]; [congruence|]. unfold g_is_zero, lm. cbn [length app nth tl Nat.sub].
  rewrite Nat.sub_0_r, firstn_app, Nat.sub_diag, firstn_all. cbn [firstn]. rewrite app_nil_r.
  apply eq_true_iff_eq. rewrite andb_true_iff, !Z.eqb_eq, fold_lor_zero. split.
  - intros (H1 & _ & H2). apply lval_zeros30. auto.
  - intros H. pose proof (canon_zero30 _ Hc H) as F. inversion F. auto.
Qed.

Lemma row_var_app30 len u v fa ft ga gt : (1 <= len)%nat -> length fa = len -> length ga = len ->
  fg_row30_var len u v (fa ++ ft) (ga ++ gt) = fg_row30_var len u v fa ga.
Proof.
  intros Hl Lf Lg. destruct fa as [|a fa]; [cbn in Lf; lia|]. destruct ga as [|b ga]; [cbn in Lg; lia|].
  cbn [length] in Lf, Lg. unfold fg_row30_var, lm. cbn [app nth tl].
  rewrite !firstn_app. replace (len - 1 - length fa)%nat with 0%nat by lia. replace (len - 1 - length ga)%nat with 0%nat by lia.
  cbn [firstn]. now rewrite !app_nil_r.
Qed.

Lemma sign_xor30 x : is_i32 x -> (Z.lxor x (Z.shiftr x 31) = 0 <-> x = 0 \/ x = -1).
Proof.
  intros Hx. rewrite sign_mask32 by exact Hx. destruct (Z.ltb_spec x 0).
  - rewrite Z.lxor_m1_r. unfold Z.lnot. lia.
  - rewrite Z.lxor_0_r. lia.
Qed.

Lemma lval_app30 a b : lval30 (a ++ b) = lval30 a + 2 ^ (30 * Z.of_nat (length a)) * lval30 b.
Proof.
  induction a as [|x a IH]; cbn [app lval30 length]; [change (2 ^ (30 * Z.of_nat 0)) with 1; ring|].
  rewrite IH, pow_S30. ring.
Qed.

Lemma canon_app30 a b : canon30 (a ++ b) -> b <> [] -> Forall (fun x => 0 <= x < 2 ^ 30) a /\ canon30 b.
Proof.
  induction a as [|x a IH]; cbn [app]; intros H Hb; [auto|].
  apply canon_cons30 in H; [|destruct a; [exact Hb|discriminate]]. destruct H as [Hx H].
  destruct (IH H Hb) as [H1 H2]. auto.
Qed.
Lemma canon_snoc30 a t : Forall (fun x => 0 <= x < 2 ^ 30) a -> canon30 (a ++ [t]).
Proof.
  induction 1 as [|x a Hx _ IH]; cbn [app]; [exact I|]. apply canon_cons30; [destruct a; discriminate|]. auto.
Qed.

Lemma absorb_word30 y s : 0 <= y < 2 ^ 30 -> s = 0 \/ s = -1 ->
  to_i32 (Z.lor (w32 y) (w32 (Z.shiftl (w32 s) 30))) = y + 2 ^ 30 * s.
Proof.
  intros Hy Hs. rewrite (w32_id y) by (split; lia). destruct Hs as [-> | ->].
  - change (w32 (Z.shiftl (w32 0) 30)) with 0. rewrite Z.lor_0_r, Z.mul_0_r, Z.add_0_r. apply to_i32_id. unfold is_i32. lia.
  - change (w32 (Z.shiftl (w32 (-1)) 30)) with (2 ^ 30 * 3).
    assert (E : Z.lor y (2 ^ 30 * 3) = y + 2 ^ 30 * 3).
    { assert (L0 : Z.land y (2 ^ 30 * 3) = 0).
      { apply Z.bits_inj'. intros j Hj. rewrite Z.land_spec, testbit_pow2_mul, Z.bits_0 by lia.
        destruct (Z.leb_spec 30 j); [|now rewrite andb_false_r].
        assert (T : Z.testbit y j = false); [|now rewrite T].
        apply Z.testbit_false; [lia|]. rewrite Z.div_small; [reflexivity|]. pose proof (Z.pow_le_mono_r 2 30 j). lia. }
      rewrite <- Z.lxor_lor by exact L0. symmetry. now apply Z.add_nocarry_lxor. }
    rewrite E. unfold to_i32. rewrite w32_id by (split; lia).
    destruct (Z.ltb_spec (y + 2 ^ 30 * 3) (2 ^ 31)); lia.
Qed.

Lemma absorb_ok30 fa ft : (2 <= length fa)%nat -> canon30 fa -> last fa 0 = 0 \/ last fa 0 = -1 ->
  exists fa' s, absorb_top30 (length fa) (fa ++ ft) = fa' ++ (s :: ft) /\ length fa' = (length fa - 1)%nat /\ canon30 fa' /\
    small (2 ^ 30) fa' /\ lval30 fa' = lval30 fa /\ Z.abs (lval30 fa') <= 2 ^ (30 * Z.of_nat (length fa - 1)).
Proof.
  intros Hl Hc Hs. destruct (two_last fa Hl) as (p & y & s & ->).
  assert (Es : last (p ++ [y; s]) 0 = s) by (change [y; s] with ([y] ++ [s]); rewrite app_assoc; apply last_last). rewrite Es in Hs.
  destruct (canon_app30 p [y; s] Hc ltac:(discriminate)) as [Hp [Hy _]].
  exists (p ++ [y + 2 ^ 30 * s]), s.
  rewrite app_length. cbn [length]. replace (length p + 2 - 1)%nat with (S (length p)) by lia.
  assert (C' : canon30 (p ++ [y + 2 ^ 30 * s])) by (apply canon_snoc30; exact Hp).
  assert (L' : - 2 ^ 30 <= last (p ++ [y + 2 ^ 30 * s]) 0 < 2 ^ 30) by (rewrite last_last; lia).
  assert (N' : length (p ++ [y + 2 ^ 30 * s]) = S (length p)) by (rewrite app_length; cbn [length]; lia).
  refine (conj _ (conj N' (conj C' (conj _ (conj _ _))))).
  - unfold absorb_top30. replace (length p + 2 - 2)%nat with (length p) by lia. replace (length p + 2 - 1)%nat with (S (length p)) by lia.
    unfold lm. rewrite <- !app_assoc. cbn [app].
    rewrite firstn_app_exact by reflexivity. f_equal. rewrite !app_nth2 by lia.
    replace (length p - length p)%nat with 0%nat by lia. replace (S (length p) - length p)%nat with 1%nat by lia. cbn [nth].
    rewrite absorb_word30 by assumption. f_equal.
    change (p ++ y :: s :: ft) with (p ++ [y] ++ s :: ft). rewrite app_assoc. apply skipn_app_exact. rewrite app_length. cbn [length]. lia.
  - apply canon_small30; [exact C'|lia].
  - rewrite !lval_app30. cbn [lval30]. ring.
  - pose proof (canon_bound30 _ C' L') as B. rewrite N' in B. exact B.
Qed.

Lemma last_sign30 l : canon30 l -> (last l 0 <? 0) = (lval30 l <? 0).
Proof.
  induction l as [|x r IH]; [contradiction|]. intros Hc. destruct r as [|y r].
  - cbn [last lval30]. f_equal. ring.
  - apply canon_cons30 in Hc; [|discriminate]. destruct Hc as [Hx Hc].
    change (last (x :: y :: r) 0) with (last (y :: r) 0). rewrite IH by exact Hc.
    change (lval30 (x :: y :: r)) with (x + 2 ^ 30 * lval30 (y :: r)).
    destruct (Z.ltb_spec (lval30 (y :: r)) 0), (Z.ltb_spec (x + 2 ^ 30 * lval30 (y :: r)) 0); lia.
Qed.

Lemma var_loop30 M x mi : mod_ok30 mi M -> forall n fuel len eta d e fa ft ga gt,
  (1 <= n <= fuel)%nat -> (1 <= len)%nat -> de_in30 M d -> de_in30 M e -> fg_in30 len fa -> fg_in30 len ga ->
  Z.abs (lval30 fa) <= 2 ^ (30 * Z.of_nat len) -> Z.abs (lval30 ga) <= 2 ^ (30 * Z.of_nat len) ->
  minv M x (lval30 d) (lval30 e) (lval30 fa) (lval30 ga) ->
  - (2 ^ 19 - 60 * Z.of_nat n) <= eta <= 2 ^ 19 - 60 * Z.of_nat n ->
  (exists c f', dsteps 2 (30 * n) (eta, lval30 fa, lval30 ga) = (c, f', 0)) ->
  exists d' e' sg F', modinv32_var_loop fuel len eta d e (fa ++ ft) (ga ++ gt) mi = Some (d', sg) /\ de_in30 M d' /\ is_i32 sg /\
    (sg <? 0) = (F' <? 0) /\ minv M x (lval30 d') e' F' 0.
Proof.
  intros HM. assert (HM' := HM). destruct HM' as (_ & _ & _ & _ & _ & RM & OM).
  induction n as [|n IH]; intros fuel len eta d e fa ft ga gt Hn Hl Hd He Hf Hg Bf Bg Hi Hz Hend; [lia|].
  destruct fuel as [|fuel]; [lia|]. cbn [modinv32_var_loop].
  assert (Hlow : forall l t, length l = len -> lm (l ++ t) 0 = lm l 0).
  { intros l t Ll. unfold lm. apply app_nth1. lia. }
  rewrite (Hlow fa ft (proj1 Hf)), (Hlow ga gt (proj1 Hg)).
  destruct (low_cong30 fa len Hl Hf) as [Wf Cf]. destruct (low_cong30 ga len Hl Hg) as [Wg Cg].
  destruct (divsteps_30_var_ok eta (lval30 fa) (lval30 ga) _ _ (proj1 (proj2 (proj2 Hi))) ltac:(lia) Wf Wg Cf Cg) as (F & G & eta1 & t & Es & -> & Hm).
  assert (Hm' : mat_ok30 t (lval30 fa) (lval30 ga) F G) by exact Hm.
  destruct Hm as (E1 & E2 & B1 & B2).
  destruct (mat_rows30 t d e mi M HM B1 B2 Hd He) as (d1 & e1 & k1 & k2 & -> & Hd1 & He1 & V1 & V2).
  pose proof (minv_step30 _ _ _ _ _ _ _ _ _ _ _ _ _ _ _ _ _ OM ltac:(lia) Hi Hm' V1 V2 Es) as Hi1.
  assert (PL : 0 <= 2 ^ (30 * Z.of_nat len)) by (apply Z.pow_nonneg; lia).
  destruct (mat_bound30 _ _ _ _ _ _ PL Hm' Bf Bg) as [BF BG].
  destruct Hf as [Lf Sf], Hg as [Lg Sg].
  destruct (fg_row_ok30 len (tu t) (tv t) fa ga F Hl Lf Lg B1 Sf Sg E1 BF) as (f1 & R1 & L1 & C1 & VF & SF).
  destruct (fg_row_ok30 len (tq t) (tr t) fa ga G Hl Lf Lg B2 Sf Sg E2 BG) as (g1 & R2 & L2 & C2 & VG & SG).
  unfold update_fg_30_var. rewrite !row_var_app30 by assumption. rewrite R1, R2.
  rewrite !skipn_app_exact by assumption.
  assert (Nf : f1 <> []) by (intros ->; cbn in L1; clear - L1 Hl; lia). assert (Ng : g1 <> []) by (intros ->; cbn in L2; clear - L2 Hl; lia).
  assert (If : is_i32 (last f1 0)).
  { pose proof (canon_last30 f1 C1) as X. rewrite L1, VF in X. specialize (X ltac:(clear - BF; lia)). unfold is_i32. clear - X. lia. }
  assert (Ig : is_i32 (last g1 0)).
  { pose proof (canon_last30 g1 C2) as X. rewrite L2, VG in X. specialize (X ltac:(clear - BG; lia)). unfold is_i32. clear - X. lia. }
  assert (GZ := g_zero_spec30 g1 gt Ng C2). rewrite L2 in GZ. rewrite GZ.
  assert (NLf := nth_last f1 ft Nf). rewrite L1 in NLf. assert (NLg := nth_last g1 gt Ng). rewrite L2 in NLg. rewrite NLf, NLg.
  destruct (Z.eqb_spec (lval30 g1) 0) as [Z0|NZ].
  { exists d1, (lval30 e1), (last f1 0), (lval30 f1). refine (conj eq_refl (conj Hd1 (conj If (conj (last_sign30 f1 C1) _)))).
    rewrite VF. rewrite VG in Z0. rewrite Z0 in Hi1. exact Hi1. }
  assert (Hn1 : (1 <= n)%nat).
  { destruct n as [|n]; [|lia]. exfalso. apply NZ. destruct Hend as (c & f' & Hend). change (30 * 1)%nat with 30%nat in Hend.
    rewrite Es in Hend. injection Hend as _ _ EG. now rewrite VG. }
  assert (Hend1 : exists c f', dsteps 2 (30 * n) (eta1, lval30 f1, lval30 g1) = (c, f', 0)).
  { destruct Hend as (c & f' & Hend). exists c, f'. replace (30 * S n)%nat with (30 + 30 * n)%nat in Hend by lia.
    rewrite dsteps_add, Es in Hend. rewrite VF, VG. exact Hend. }
  assert (Bz : - (2 ^ 19 - 60 * Z.of_nat n) <= eta1 <= 2 ^ 19 - 60 * Z.of_nat n).
  { pose proof (dsteps_cbound 2 (or_intror eq_refl) 30 _ _ _ _ _ _ (2 ^ 19 - 60 * Z.of_nat (S n)) Hz Es). lia. }
  rewrite <- VF, <- VG in Hi1.
  match goal with |- context [if ?c =? 0 then _ else _] => destruct (Z.eqb_spec c 0) as [C0|_] end.
  - apply Z.lor_eq_0_iff in C0. destruct C0 as [C0 Cg0]. apply Z.lor_eq_0_iff in C0. destruct C0 as [Cl0 Cf0].
    apply sign_xor30 in Cf0; [|exact If]. apply sign_xor30 in Cg0; [|exact Ig].
    assert (Hlen : (2 <= len)%nat).
    { rewrite shiftr_div in Cl0 by lia. destruct (Nat.le_gt_cases 2 len) as [?|C]; [assumption|]. exfalso.
      replace len with 1%nat in Cl0 by lia. vm_compute in Cl0. discriminate Cl0. }
    assert (Hlf : (2 <= length f1)%nat) by (rewrite L1; exact Hlen). assert (Hlg : (2 <= length g1)%nat) by (rewrite L2; exact Hlen).
    destruct (absorb_ok30 f1 ft Hlf C1 Cf0) as (fb & sf & F1 & F2 & F3 & F4 & F5 & F6).
    destruct (absorb_ok30 g1 gt Hlg C2 Cg0) as (gb & sg & G1 & G2 & G3 & G4 & G5 & G6).
    rewrite L1 in F1, F2, F6. rewrite L2 in G1, G2, G6. rewrite F1, G1.
    assert (Hl1 : (1 <= len - 1)%nat) by (clear - Hlen; lia).
    assert (Hnf : (1 <= n <= fuel)%nat) by (clear - Hn Hn1; lia).
    apply (IH fuel (len - 1)%nat eta1 d1 e1 fb (sf :: ft) gb (sg :: gt) Hnf Hl1 Hd1 He1 (conj F2 F4) (conj G2 G4) F6 G6).
    + rewrite F5, G5. exact Hi1.
    + exact Bz.
    + rewrite F5, G5. exact Hend1.
  - assert (Hnf : (1 <= n <= fuel)%nat) by (clear - Hn Hn1; lia).
    rewrite <- VF in BF. rewrite <- VG in BG.
    exact (IH fuel len eta1 d1 e1 f1 ft g1 gt Hnf Hl Hd1 He1 (conj L1 SF) (conj L2 SG) BF BG Hi1 Bz Hend1).
Qed.

Theorem modinv32_var_ok fuel x mi M : (25 <= fuel)%nat -> mod_ok30 mi M -> fg_in30 9 x -> 0 <= lval30 x < M ->
  exists o, modinv32_var fuel x mi = Some o /\ length o = 9%nat /\ canon30 o /\ inverse_of M (lval30 x) (lval30 o).
Proof.
  intros Hfuel HM Hx Rx. assert (HM' := HM). destruct HM' as (_ & _ & _ & _ & _ & RM & OM).
  destruct (start_fg30 mi M HM) as [Hf Vf]. destruct (start_d30 M ltac:(lia)) as [Hd He].
  destruct (var_loop30 M (lval30 x) mi HM 25 fuel 9 (-1) zero30 one30 (modulus30 mi) [] x []) as (d' & e' & sg & F' & A1 & A2 & A3 & A4 & A5);
    try assumption; try lia.
  - rewrite Vf. change (lval30 zero30) with 0. change (lval30 one30) with 1. apply minv_start; auto. lia.
  - change (30 * 25)%nat with 750%nat. rewrite Vf. destruct (dsteps_750 M (lval30 x) OM ltac:(lia) ltac:(lia)) as (c & ff & E750). eauto.
  - rewrite !app_nil_r in A1. unfold modinv32_var. rewrite A1. cbn [fst snd].
    destruct (normalize_ok30 d' sg mi M HM A2 A3) as (o & k & N1 & N2 & N3 & N4 & N5).
    exists o. refine (conj N1 (conj N2 (conj N3 _))). rewrite A4 in N5.
    apply (minv_end M (lval30 x) (lval30 d') e' F' (lval30 o) k); [lia|exact A5|exact N4|exact N5].
Qed.
