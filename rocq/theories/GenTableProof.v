(** Every entry of the comb table of src/precomputed_ecmult_gen.c is the point the
    comb algorithm needs, checked from the certificate in GenTableCert.v. *)
Require Import ZArith List Bool Lia.
From Verif Require Import Spec Curve GenTable GenTableCert.
Import ListNotations.
Local Open Scope Z_scope.

(** The coefficient (in units of G/2) of the entry [i] of block [b]: tooth t
    contributes + or - 2^((6b+t)*4) according to bit t of i (bit 5 of i is 0). *)
Definition tooth_coef (b t i : Z) : Z := (if Z.testbit i t then 1 else -1) * 2 ^ ((6 * b + t) * 4).
Definition tab_coef (b i : Z) : Z :=
  tooth_coef b 0 i + tooth_coef b 1 i + tooth_coef b 2 i + tooth_coef b 3 i + tooth_coef b 4 i + tooth_coef b 5 i.

Definition isPt (H : point) (k : Z) (q : Z * Z) : Prop :=
  in_rng (fst q) = true /\ in_rng (snd q) = true /\ Aff (fst q) (snd q) = pmul k H.

(** ** The checker *)
Fixpoint chk_dbls (x y : Z) (l : list dstep) : option (list (Z * Z)) :=
  match l with
  | [] => Some [(x, y)]
  | DS s x3 y3 k1 k2 k3 :: l' =>
    if check_dbl x y s x3 y3 k1 k2 k3 then option_map (cons (x, y)) (chk_dbls x3 y3 l') else None
  end.
Fixpoint chk_sum (x y : Z) (us : list (Z * Z)) (l : list dstep) : option (Z * Z) :=
  match us, l with
  | [], [] => Some (x, y)
  | (x2, y2) :: us', DS s x3 y3 k1 k2 k3 :: l' =>
    if check_add x y x2 y2 s x3 y3 k1 k2 k3 then chk_sum x3 y3 us' l' else None
  | _, _ => None
  end.
Fixpoint chk_level (ents : list (Z * Z)) (d : Z * Z) (l : list lstep) (news : list (Z * Z)) : bool :=
  match ents, l, news with
  | [], [], [] => true
  | (x, y) :: ents', LS s k1 k2 k3 :: l', (x3, y3) :: news' =>
    check_add x y (fst d) (snd d) s x3 y3 k1 k2 k3 && chk_level ents' d l' news'
  | _, _, _ => false
  end.
Fixpoint chk_levels (ents : list (Z * Z)) (ds : list (Z * Z)) (ls : list (list lstep)) (rest : list (Z * Z)) : bool :=
  match ds, ls with
  | [], [] => match rest with [] => true | _ => false end
  | d :: ds', l :: ls' =>
    let k := length ents in
    chk_level ents d l (firstn k rest) && chk_levels (ents ++ firstn k rest) ds' ls' (skipn k rest)
  | _, _ => false
  end.
(** [us], [ds]: the six points U_t = 2^(4(6b+t)) G/2 and their doubles. *)
Definition chk_block (us ds : list (Z * Z)) (c : list dstep * list (list lstep)) (tab : list (Z * Z)) : bool :=
  match us, tab with
  | (x, y) :: us', (tx, ty) :: rest =>
    match chk_sum x y us' (fst c) with
    | Some (sx, sy) => (tx =? sx) && (ty =? p - sy) && negb (sy =? 0) && chk_levels [(tx, ty)] (firstn 5 ds) (snd c) rest
    | None => false
    end
  | _, _ => false
  end.
(** The points at positions 0, 4, 8, ... and 1, 5, 9, ... of the doubling chain. *)
Fixpoint every4 (k : nat) (l : list (Z * Z)) : list (Z * Z) * list (Z * Z) :=
  match k, l with
  | S k', u :: d :: l' => let (us, ds) := every4 k' (skipn 2 l') in (u :: us, d :: ds)
  | _, _ => ([], [])
  end.
Fixpoint chk_blocks (us ds : list (Z * Z)) (cs : list (list dstep * list (list lstep))) (tabs : list (list (Z * Z))) : bool :=
  match cs, tabs with
  | [], [] => true
  | c :: cs', t :: tabs' => chk_block (firstn 6 us) (firstn 6 ds) c t && chk_blocks (skipn 6 us) (skipn 6 ds) cs' tabs'
  | _, _ => false
  end.
Definition chk_table (h : Z * Z) (dc : list dstep) (bc : list (list dstep * list (list lstep))) (tabs : list (list (Z * Z))) : bool :=
  match chk_dbls (fst h) (snd h) dc with
  | Some pts => let (us, ds) := every4 66 pts in
                on_curveb (Aff (fst h) (snd h)) && match nth_error pts 1 with Some (x, y) => (x =? Gx) && (y =? Gy) | None => false end
                && chk_blocks us ds bc tabs
  | None => false
  end.

(** ** Soundness *)
Section Sound.
  Variable HG : point.
  Hypothesis HC : on_curve HG.
  Notation isP := (isPt HG).

  Lemma isP_add k m x1 y1 x2 y2 s x3 y3 a b c : isP k (x1, y1) -> isP m (x2, y2) ->
    check_add x1 y1 x2 y2 s x3 y3 a b c = true -> isP (k + m) (x3, y3).
  Proof.
    intros (A1 & A2 & A3) (B1 & B2 & B3) C. cbn [fst snd] in *.
    destruct (check_add_ok _ _ _ _ _ _ _ _ _ _ A1 B1 C) as (E & R1 & R2).
    split; [exact R1|]. split; [exact R2|]. cbn [fst snd]. rewrite <- E, A3, B3, <- pmul_add by auto with curve. reflexivity.
  Qed.
  Lemma isP_dbl k x1 y1 s x3 y3 a b c : isP k (x1, y1) ->
    check_dbl x1 y1 s x3 y3 a b c = true -> isP (2 * k) (x3, y3).
  Proof.
    intros (A1 & A2 & A3) C. cbn [fst snd] in *.
    destruct (check_dbl_ok _ _ _ _ _ _ _ _ A1 A2 C) as (E & R1 & R2).
    split; [exact R1|]. split; [exact R2|]. cbn [fst snd]. rewrite <- E, A3, <- pmul_add by auto with curve. f_equal. lia.
  Qed.
  Lemma isP_neg k x y : isP k (x, y) -> negb (y =? 0) = true -> isP (- k) (x, p - y).
  Proof.
    intros (A1 & A2 & A3) N. cbn [fst snd] in *. apply negb_true_iff, Z.eqb_neq in N.
    unfold in_rng in A2. apply andb_true_iff in A2 as [A2 A2']. apply Z.leb_le in A2. apply Z.ltb_lt in A2'.
    assert (E : (- y) mod p = p - y).
    { replace (- y) with (p - y + (-1) * p) by ring. rewrite Z.mod_add by lia. apply Z.mod_small. lia. }
    split; [exact A1|]. split.
    - unfold in_rng. cbn [snd]. apply andb_true_iff. split; [apply Z.leb_le|apply Z.ltb_lt]; lia.
    - cbn [fst snd]. rewrite pmul_neg, <- A3 by exact HC. cbn [pneg]. now rewrite E.
  Qed.

  Fixpoint dcoefs (k : Z) (m : nat) : list Z := match m with O => [k] | S m' => k :: dcoefs (2 * k) m' end.
  Lemma chk_dbls_ok l : forall k x y pts, isP k (x, y) -> chk_dbls x y l = Some pts -> Forall2 isP (dcoefs k (length l)) pts.
  Proof.
    induction l as [|[s x3 y3 k1 k2 k3] l IH]; cbn [chk_dbls length dcoefs]; intros k x y pts I H.
    - injection H as <-. repeat constructor; apply I.
    - destruct check_dbl eqn:C; [|discriminate]. destruct chk_dbls eqn:R; [|discriminate]. cbn [option_map] in H. injection H as <-.
      constructor; [exact I|]. eapply IH; [|exact R]. eapply isP_dbl; eassumption.
  Qed.
  Lemma chk_sum_ok ks us : Forall2 isP ks us -> forall l k x y sx sy, isP k (x, y) -> chk_sum x y us l = Some (sx, sy) ->
    isP (k + fold_right Z.add 0 ks) (sx, sy).
  Proof.
    induction 1 as [|m [x2 y2] ks us I H IH]; intros [|[s x3 y3 k1 k2 k3] l] k x y sx sy Ik E; cbn [chk_sum] in E; try discriminate.
    - injection E as <- <-. cbn [fold_right]. now rewrite Z.add_0_r.
    - destruct check_add eqn:C; [|discriminate]. cbn [fold_right]. rewrite Z.add_assoc.
      eapply IH; [|exact E]. eapply isP_add; eassumption.
  Qed.
  Lemma chk_level_ok ks ents m d : Forall2 isP ks ents -> isP m d -> forall l news,
    chk_level ents d l news = true -> Forall2 isP (map (fun k => k + m) ks) news.
  Proof.
    intros F I. induction F as [|k [x y] ks ents Ik F IH]; intros [|[s k1 k2 k3] l] [|[x3 y3] news] E; cbn [chk_level] in E; try discriminate.
    - constructor.
    - apply andb_true_iff in E as [E1 E2]. destruct d as [dx dy]. constructor; [|eapply IH; exact E2]. eapply isP_add; eassumption.
  Qed.
  Fixpoint lcoefs (ks ms : list Z) : list Z :=
    match ms with [] => ks | m :: ms' => lcoefs (ks ++ map (fun k => k + m) ks) ms' end.
  Lemma chk_levels_ok ms ds : Forall2 isP ms ds -> forall ks ents ls rest, Forall2 isP ks ents ->
    chk_levels ents ds ls rest = true -> Forall2 isP (lcoefs ks ms) (ents ++ rest).
  Proof.
    induction 1 as [|m d ms ds I F IH]; intros ks ents [|l ls] rest Fk E; cbn [chk_levels] in E; try discriminate.
    - destruct rest; [|discriminate]. now rewrite app_nil_r.
    - cbv zeta in E. apply andb_true_iff in E as [E1 E2]. cbn [lcoefs].
      rewrite <- (firstn_skipn (length ents) rest), app_assoc. apply (IH _ _ ls); [|exact E2].
      apply Forall2_app; [exact Fk|]. eapply chk_level_ok; eassumption.
  Qed.
  Definition bcoefs (us ds : list Z) : list Z := lcoefs [- fold_right Z.add 0 us] (firstn 5 ds).
  Lemma Forall2_firstn {A B} (R : A -> B -> Prop) k : forall l m, Forall2 R l m -> Forall2 R (firstn k l) (firstn k m).
  Proof. induction k; intros l m H; [constructor|]. destruct H; cbn [firstn]; constructor; auto. Qed.
  Lemma Forall2_skipn {A B} (R : A -> B -> Prop) k : forall l m, Forall2 R l m -> Forall2 R (skipn k l) (skipn k m).
  Proof. induction k; intros l m H; [exact H|]. destruct H; cbn [skipn]; auto. Qed.
  Lemma chk_block_ok ku kd us ds c tab : Forall2 isP ku us -> Forall2 isP kd ds -> chk_block us ds c tab = true ->
    Forall2 isP (bcoefs ku kd) tab.
  Proof.
    intros FU FD E. unfold chk_block in E. destruct FU as [|k [x y] ku us I FU]; [discriminate|].
    destruct tab as [|[tx ty] rest]; [discriminate|]. destruct chk_sum as [[sx sy]|] eqn:S; [|discriminate].
    rewrite !andb_true_iff in E. destruct E as (((E1 & E2) & E3) & E4). apply Z.eqb_eq in E1, E2. subst tx ty.
    pose proof (isP_neg _ _ _ (chk_sum_ok _ _ FU _ _ _ _ _ _ I S) E3) as N.
    apply (chk_levels_ok _ _ (Forall2_firstn isP 5 _ _ FD) [_] [_] (snd c) rest); [|exact E4]. repeat constructor; apply N.
  Qed.
  Fixpoint ecoefs (k : nat) (l : list Z) : list Z * list Z :=
    match k, l with
    | S k', u :: d :: l' => let (us, ds) := ecoefs k' (skipn 2 l') in (u :: us, d :: ds)
    | _, _ => ([], [])
    end.
  Lemma every4_ok k : forall ks l, Forall2 isP ks l ->
    Forall2 isP (fst (ecoefs k ks)) (fst (every4 k l)) /\ Forall2 isP (snd (ecoefs k ks)) (snd (every4 k l)).
  Proof.
    induction k as [|k IH]; intros ks l F; [split; constructor|]. destruct F as [|a u ks l Ia F]; [split; constructor|].
    destruct F as [|b d ks l Ib F]; [split; constructor|]. cbn [ecoefs every4].
    destruct (IH _ _ (Forall2_skipn isP 2 _ _ F)) as [F1 F2]. destruct ecoefs, every4. cbn [fst snd] in *. split; constructor; assumption.
  Qed.
  Fixpoint bscoefs (us ds : list Z) (k : nat) : list (list Z) :=
    match k with O => [] | S k' => bcoefs (firstn 6 us) (firstn 6 ds) :: bscoefs (skipn 6 us) (skipn 6 ds) k' end.
  Lemma chk_blocks_ok cs : forall ku kd us ds tabs, Forall2 isP ku us -> Forall2 isP kd ds -> chk_blocks us ds cs tabs = true ->
    Forall2 (Forall2 isP) (bscoefs ku kd (length cs)) tabs.
  Proof.
    induction cs as [|c cs IH]; intros ku kd us ds [|t tabs] FU FD E; cbn [chk_blocks] in E; try discriminate; [constructor|].
    apply andb_true_iff in E as [E1 E2]. cbn [length bscoefs]. constructor.
    - eapply chk_block_ok; [| |exact E1]; now apply Forall2_firstn.
    - eapply IH; [| |exact E2]; now apply Forall2_skipn.
  Qed.
End Sound.

Definition all_coefs : list (list Z) := let (us, ds) := ecoefs 66 (dcoefs 1 264) in bscoefs us ds 11.
Definition coef_eq : bool :=
  forallb (fun b => forallb (fun i => nth i (nth b all_coefs []) 0 =? tab_coef (Z.of_nat b) (Z.of_nat i)) (seq 0 32)) (seq 0 11).
Lemma coef_eq_ok : coef_eq = true. Proof. vm_compute. reflexivity. Qed.

Lemma on_curveb_true P : on_curveb P = true -> on_curve P.
Proof. apply on_curveb_spec. Qed.

Lemma chk_table_sound h dc bc tabs : chk_table h dc bc tabs = true -> length dc = 264%nat -> length bc = 11%nat ->
  let HG := Aff (fst h) (snd h) in on_curve HG /\ padd HG HG = G /\ Forall2 (Forall2 (isPt HG)) all_coefs tabs.
Proof.
  unfold chk_table. destruct chk_dbls as [pts|] eqn:E; [|discriminate]. destruct every4 as [us ds] eqn:E4.
  intros B Ld Lb. set (HG := Aff (fst h) (snd h)). apply andb_true_iff in B as [C B]. apply andb_true_iff in C as [C N]. apply on_curveb_true in C. split; [exact C|].
  assert (I0 : isPt HG 1 (fst h, snd h)).
  { pose proof C as (R1 & R2 & _). unfold isPt, in_rng. rewrite !andb_true_iff, !Z.leb_le, !Z.ltb_lt.
    split; [exact R1|]. split; [exact R2|]. symmetry. apply pmul_1. }
  assert (F : Forall2 (isPt HG) (dcoefs 1 264) pts).
  { rewrite <- Ld. exact (chk_dbls_ok HG C dc 1 (fst h) (snd h) pts I0 E). }
  split.
  - destruct (nth_error pts 1) as [[x y]|] eqn:N1; [|discriminate].
    apply andb_true_iff in N as [N2 N3]. apply Z.eqb_eq in N2, N3.
    assert (I1 : isPt HG 2 (x, y)).
    { clear - F N1. assert (EL : exists t, dcoefs 1 264 = 1 :: 2 :: t) by (eexists; reflexivity). destruct EL as [t EL]. rewrite EL in F. clear EL.
      inversion F as [|? ? ? ? _ F1]; subst. inversion F1; subst. cbn [nth_error] in N1. injection N1 as ->. assumption. }
    destruct I1 as (_ & _ & I1). cbn [fst snd] in I1. unfold G. rewrite <- N2, <- N3, I1. change 2 with (1 + 1). rewrite (pmul_add 1 1 HG C), pmul_1. reflexivity.
  - destruct (every4_ok HG 66 _ _ F) as [F1 F2]. rewrite E4 in F1, F2. cbn [fst snd] in F1, F2.
    unfold all_coefs. destruct (ecoefs 66 (dcoefs 1 264)) as [ku kd]. cbn [fst snd] in F1, F2.
    rewrite <- Lb. eapply chk_blocks_ok; eassumption.
Qed.

Definition HG : point := Aff (fst half_G_cert) (snd half_G_cert).
Lemma chk_table_true : chk_table half_G_cert dbl_cert block_cert gen_table_literal = true.
Proof. vm_cast_no_check (eq_refl true). Qed.
Lemma len_dbl : length dbl_cert = 264%nat. Proof. vm_compute. reflexivity. Qed.
Lemma len_blk : length block_cert = 11%nat. Proof. vm_compute. reflexivity. Qed.
Lemma table_facts : on_curve HG /\ padd HG HG = G /\ Forall2 (Forall2 (isPt HG)) all_coefs gen_table_literal.
Proof. exact (chk_table_sound _ _ _ _ chk_table_true len_dbl len_blk). Qed.
Lemma HG_on_curve : on_curve HG. Proof. exact (proj1 table_facts). Qed.
Lemma HG_double : padd HG HG = G. Proof. exact (proj1 (proj2 table_facts)). Qed.

Lemma Forall2_nth {A B} (R : A -> B -> Prop) da db : forall l m, Forall2 R l m -> forall i, (i < length l)%nat -> R (nth i l da) (nth i m db).
Proof. induction 1; cbn [length]; intros i Hi; [lia|]. destruct i; cbn [nth]; [assumption|]. apply IHForall2. lia. Qed.
Lemma table_entry_gen H coefs tabs : Forall2 (Forall2 (isPt H)) coefs tabs -> on_curve H ->
  forallb (fun b => forallb (fun i => nth i (nth b coefs []) 0 =? tab_coef (Z.of_nat b) (Z.of_nat i)) (seq 0 32)) (seq 0 11) = true ->
  length coefs = 11%nat -> forallb (fun l => Nat.eqb (length l) 32) coefs = true ->
  forall b i, (b < 11)%nat -> (i < 32)%nat -> let e := nth i (nth b tabs []) (0, 0) in
  on_curve (Aff (fst e) (snd e)) /\ Aff (fst e) (snd e) = pmul (tab_coef (Z.of_nat b) (Z.of_nat i)) H.
Proof.
  intros F C K L1 L2 b i Hb Hi e. rewrite forallb_forall in K.
  specialize (K b). rewrite forallb_forall in K. specialize (K ltac:(apply in_seq; lia) i ltac:(apply in_seq; lia)). apply Z.eqb_eq in K.
  pose proof (Forall2_nth _ [] [] _ _ F b ltac:(lia)) as Fb.
  assert (Lb : length (nth b coefs []) = 32%nat).
  { rewrite forallb_forall in L2. apply Nat.eqb_eq, L2, nth_In. lia. }
  pose proof (Forall2_nth _ 0 (0, 0) _ _ Fb i ltac:(lia)) as (R1 & R2 & E). fold e in R1, R2, E.
  rewrite <- K, E. split; [|reflexivity]. apply on_curve_mul. exact C.
Qed.
Lemma len_coefs : length all_coefs = 11%nat. Proof. vm_compute. reflexivity. Qed.
Lemma len_coefs2 : forallb (fun l => Nat.eqb (length l) 32) all_coefs = true. Proof. vm_compute. reflexivity. Qed.

Theorem gen_table_entry (b i : nat) : (b < 11)%nat -> (i < 32)%nat ->
  let e := nth i (nth b gen_table_literal []) (0, 0) in
  on_curve (Aff (fst e) (snd e)) /\ Aff (fst e) (snd e) = pmul (tab_coef (Z.of_nat b) (Z.of_nat i)) HG.
Proof. exact (table_entry_gen HG _ _ (proj2 (proj2 table_facts)) HG_on_curve coef_eq_ok len_coefs len_coefs2 b i). Qed.
