(** C41 in the vocabulary of SpecModinv and SpecRep. *)
Require Import ZArith Lia List Bool Znumtheory.
From Verif Require Import Word Spec SpecRep ZmField Primes FieldModel ScalarModel Int128Model SpecWords Int128Proof FieldMul ScalarProof RepProof
  ModinvModel SpecModinv Safegcd SafegcdBound ModinvProof ModinvProof2 ModinvProof3 ModinvProof4 ModinvProof5.
Import ListNotations.
Local Open Scope Z_scope.

Lemma limbs_int_lval l : length l = 5%nat -> limbs_int l = lval l.
Proof.
  intros H. do 5 (destruct l as [|? l]; [discriminate H|]). destruct l; [|discriminate H].
  unfold limbs_int. cbn [nth lval]. ring.
Qed.
Lemma five_split (P : Z -> Prop) a b c d e : (forall i, (i < 5)%nat -> P (nth i [a; b; c; d; e] 0)) -> P a /\ P b /\ P c /\ P d /\ P e.
Proof.
  intros H. split; [apply (H 0%nat); lia|]. split; [apply (H 1%nat); lia|]. split; [apply (H 2%nat); lia|].
  split; [apply (H 3%nat); lia|apply (H 4%nat); lia].
Qed.
Lemma describes_ok mi M : describes mi M -> mod_ok mi M.
Proof.
  destruct mi as [m inv]. intros (L & R & V & O & B & I1 & I2). cbn [modulus modulus_inv62] in *. rewrite limbs_int_lval in V by exact L.
  assert (L' := L). do 5 (destruct m as [|? m]; [discriminate L'|]). destruct m; [|discriminate L'].
  destruct (five_split (fun x => - 2 ^ 62 < x < 2 ^ 62) _ _ _ _ _ R) as (R0 & R1 & R2 & R3 & R4).
  assert (T : Z.abs (nth 4 [z; z0; z1; z2; z3] 0) <= 2 ^ 9) by (cbn [nth lval] in *; lia).
  refine (conj L (conj _ (conj V (conj T (conj I1 (conj _ (conj B O))))))); cbn [modulus modulus_inv62].
  - repeat constructor; lia.
  - unfold lm. cbn [nth]. rewrite <- I2, <- V. cbn [lval].
    match goal with |- _ = ((?a + 2 ^ 62 * ?r) * inv) mod _ => replace ((a + 2 ^ 62 * r) * inv) with (a * inv + (r * inv) * 2 ^ 62) by ring end.
    now rewrite Z.mod_add by lia.
Qed.
Lemma five_fg l : five_limbs l -> fg_in 5 l.
Proof.
  intros [L R]. split; [exact L|]. do 5 (destruct l as [|? l]; [discriminate L|]). destruct l; [|discriminate L].
  destruct (five_split (fun x => 0 <= x < 2 ^ 62) _ _ _ _ _ R) as (R0 & R1 & R2 & R3 & R4). repeat constructor; lia.
Qed.
Lemma canon_five M l : length l = 5%nat -> canon l -> 0 <= lval l < M -> M <= 2 ^ 256 -> five_limbs l.
Proof.
  intros L C V HM. split; [exact L|]. destruct (canon5 l L C) as (a0 & a1 & a2 & a3 & a4 & -> & A0 & A1 & A2 & A3).
  assert (A4 : 0 <= a4 < 2 ^ 62) by (cbn [lval] in V; lia).
  intros i Hi. do 5 (destruct i as [|i]; [cbn [nth]; assumption|]). lia.
Qed.
Lemma inverse_iff M x r : inverse_of M x r -> is_inverse M x r.
Proof. intros (A & B & C). split; [exact A|]. split; [exact B|]. intros H. rewrite Z.mul_comm. apply C. now rewrite Z.gcd_comm. Qed.

Lemma prop_modinv mi M x : describes mi M -> five_limbs x -> limbs_int x < M ->
  exists r, modinv64 x mi = Some r /\ five_limbs r /\ is_inverse M (limbs_int x) (limbs_int r).
Proof.
  intros HM Hx Rx. pose proof (describes_ok mi M HM) as HM'. destruct HM' as (_ & _ & _ & _ & _ & _ & RM & _).
  assert (V : limbs_int x = lval x) by (apply limbs_int_lval, Hx). rewrite V in *.
  assert (X0 : 0 <= lval x).
  { destruct Hx as [L R]. do 5 (destruct x as [|? x]; [discriminate L|]). destruct x; [|discriminate L].
    destruct (five_split (fun x => 0 <= x < 2 ^ 62) _ _ _ _ _ R) as (R0 & R1 & R2 & R3 & R4). cbn [lval]. lia. }
  destruct (modinv64_ok x mi M (describes_ok mi M HM) (five_fg x Hx) (conj X0 Rx)) as (o & E & L & C & Io).
  exists o. split; [exact E|]. split; [apply (canon_five M); [exact L|exact C|apply Io|lia]|]. rewrite limbs_int_lval by exact L. now apply inverse_iff.
Qed.
Lemma prop_modinv_var mi M x fuel : describes mi M -> five_limbs x -> limbs_int x < M -> (12 <= fuel)%nat ->
  exists r, modinv64_var fuel x mi = Some r /\ five_limbs r /\ is_inverse M (limbs_int x) (limbs_int r).
Proof.
  intros HM Hx Rx Hf. pose proof (describes_ok mi M HM) as HM'. destruct HM' as (_ & _ & _ & _ & _ & _ & RM & _).
  assert (V : limbs_int x = lval x) by (apply limbs_int_lval, Hx). rewrite V in *.
  assert (X0 : 0 <= lval x).
  { destruct Hx as [L R]. do 5 (destruct x as [|? x]; [discriminate L|]). destruct x; [|discriminate L].
    destruct (five_split (fun x => 0 <= x < 2 ^ 62) _ _ _ _ _ R) as (R0 & R1 & R2 & R3 & R4). cbn [lval]. lia. }
  destruct (modinv64_var_ok fuel x mi M Hf (describes_ok mi M HM) (five_fg x Hx) (conj X0 Rx)) as (o & E & L & C & Io).
  exists o. split; [exact E|]. split; [apply (canon_five M); [exact L|exact C|apply Io|lia]|]. rewrite limbs_int_lval by exact L. now apply inverse_iff.
Qed.

Lemma prop_scalar x : scalar_valid x -> exists r, scalar_inverse x = Some r /\ scalar_valid r /\
  (scalar_int x = 0 -> scalar_int r = 0) /\ (scalar_int x <> 0 -> (scalar_int x * scalar_int r) mod n = 1) /\
  sc_inverse x = r /\ forall fuel, (12 <= fuel)%nat -> scalar_inverse_var fuel x = Some r.
Proof.
  intros Hx. apply valid_iff in Hx. destruct (scalar_inverse_exact x Hx) as (r & E & (R1 & R2 & R3) & Ev).
  exists r. rewrite !scalar_int_eq. split; [exact E|]. split; [now apply valid_iff|]. split; [exact R2|].
  split; [intros H; rewrite Z.mul_comm; auto|]. split; [|exact Ev].
  rewrite scalar_inverse_ok in E by exact Hx. congruence.
Qed.
Lemma prop_field x : magnitude 32 x -> exists r, fe_impl_inv x = Some r /\ normalized r /\
  (fe_res x = 0 -> fe_int r = 0) /\ (fe_res x <> 0 -> (fe_int x * fe_int r) mod p = 1) /\
  fe_inv x = r /\ fe_inv_var x = r /\ forall fuel, (12 <= fuel)%nat -> fe_impl_inv_var fuel x = Some r.
Proof.
  intros Hx. apply mag_iff in Hx. destruct (field_inverse_exact x Hx) as (r & E & R1 & R2 & R3 & Ev).
  exists r. unfold fe_res. rewrite !fe_int_eq. split; [exact E|]. split; [now apply norm_iff|]. split; [exact R2|].
  split; [intros H; rewrite Z.mul_comm; auto|].
  assert (Er : fe_inv x = r) by (rewrite fe_impl_inv_ok in E by exact Hx; congruence).
  split; [exact Er|]. split; [rewrite <- Er; now apply FieldOps.fe_inv_var_eq|exact Ev].
Qed.

(** The steps of Safegcd.v are those of SpecModinv: the two counters determine each other. *)
Lemma divsteps_S k s : divsteps (S k) s = divsteps k (divstep s).
Proof. unfold divsteps. revert s. induction k as [|k IH]; intros s; [reflexivity|]. change (divstep (Nat.iter (S k) divstep s) = divstep (Nat.iter k divstep (divstep s))). now rewrite IH. Qed.
Definition dof (h c : Z) : Z := 2 * (- c) - (2 - h).
Lemma divstep_dstep h c f g : h = 1 \/ h = 2 ->
  divstep (dof h c, f, g) = let '(c', f', g') := dstep h (c, f, g) in (dof h c', f', g').
Proof.
  intros Hh. unfold divstep, dstep, dof. destruct (Z.odd g).
  - destruct (Z.ltb_spec 0 (2 * - c - (2 - h))), (Z.ltb_spec c 0); try lia; f_equal; f_equal; lia.
  - f_equal. f_equal. lia.
Qed.
Lemma divsteps_dsteps h : h = 1 \/ h = 2 -> forall k c f g,
  divsteps k (dof h c, f, g) = let '(c', f', g') := dsteps h k (c, f, g) in (dof h c', f', g').
Proof.
  intros Hh. induction k as [|k IH]; intros c f g; [reflexivity|]. rewrite divsteps_S, divstep_dstep by exact Hh.
  cbn [dsteps]. destruct (dstep h (c, f, g)) as [[c' f'] g']. apply IH.
Qed.
Lemma prop_590 m x : Z.odd m = true -> 0 <= x <= m -> m <= 2 ^ 256 ->
  exists d f, divsteps 590 (1, m, x) = (d, f, 0) /\ Z.abs f = Z.gcd m x.
Proof.
  intros Om Hx Hm. destruct (dsteps_590 m x Om Hx Hm) as (c & f & E).
  destruct (dsteps_gcd _ _ _ _ _ _ _ _ Om E) as [_ G]. rewrite Z.gcd_0_r in G.
  exists (dof 1 c), f. split; [|exact G]. pose proof (divsteps_dsteps 1 (or_introl eq_refl) 590 (-1) m x) as D. rewrite E in D. exact D.
Qed.
Lemma prop_744 m x : Z.odd m = true -> 0 <= x <= m -> m <= 2 ^ 256 ->
  exists d f, divsteps 744 (2, m, x) = (d, f, 0) /\ Z.abs f = Z.gcd m x.
Proof.
  intros Om Hx Hm. destruct (dsteps_744 m x Om Hx Hm) as (c & f & E).
  destruct (dsteps_gcd _ _ _ _ _ _ _ _ Om E) as [_ G]. rewrite Z.gcd_0_r in G.
  exists (dof 2 c), f. split; [|exact G]. pose proof (divsteps_dsteps 2 (or_intror eq_refl) 744 (-1) m x) as D. rewrite E in D. exact D.
Qed.

Lemma prop_ctz x k : 0 < x < 2 ^ 64 -> (ctz64_debruijn x = Some k <-> 0 <= k /\ (2 ^ k | x) /\ ~ (2 ^ (k + 1) | x)).
Proof. intros H. rewrite ctz64_debruijn_ok by exact H. apply ctz64_spec. lia. Qed.
Lemma prop_ctz32 x k : 0 < x < 2 ^ 32 -> (ctz32_debruijn x = Some k <-> 0 <= k /\ (2 ^ k | x) /\ ~ (2 ^ (k + 1) | x)).
Proof. intros H. rewrite ctz32_debruijn_ok by exact H. apply ctz64_spec. lia. Qed.
Lemma describes_scalar : describes modinfo_scalar n.
Proof.
  refine (conj eq_refl (conj _ (conj _ (conj _ (conj _ (conj _ _)))))).
  - intros i Hi. do 5 (destruct i as [|i]; [cbn; lia|]). lia.
  - reflexivity.
  - reflexivity.
  - split; vm_compute; discriminate.
  - cbn [modulus_inv62 modinfo_scalar]. lia.
  - reflexivity.
Qed.
Lemma describes_fe : describes modinfo_fe p.
Proof.
  refine (conj eq_refl (conj _ (conj _ (conj _ (conj _ (conj _ _)))))).
  - intros i Hi. do 5 (destruct i as [|i]; [cbn; lia|]). lia.
  - reflexivity.
  - reflexivity.
  - split; vm_compute; discriminate.
  - cbn [modulus_inv62 modinfo_fe]. lia.
  - reflexivity.
Qed.
