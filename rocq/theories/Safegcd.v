(* Division steps on integers, and a checked certificate for how many of them are enough.

   The division step is the one of /repo/src/modinv64_impl.h:180-211 (h = 1, the counter is zeta) and of
   /repo/src/modinv64_impl.h:246-296 (h = 2, the counter is eta), on whole integers instead of the bottom
   limbs.  ModinvProof*.v shows that the limb code performs exactly these steps. *)
Require Import ZArith Lia List Bool Zpow_facts Znumtheory.
Import ListNotations.
Local Open Scope Z_scope.

(* ------------------------------------------------------------------ *)
(* One division step; h is 1 in the constant time code, 2 in the variable time code.
   /repo/src/modinv64_impl.h:180-211 and :246-296. *)
Definition dstep (h : Z) (st : Z * Z * Z) : Z * Z * Z :=
  let '(c, f, g) := st in
  if Z.odd g then
    if c <? 0 then (- c - (3 - h), g, (g - f) / 2) else (c - 1, f, (g + f) / 2)
  else (c - 1, f, g / 2).

Fixpoint dsteps (h : Z) (k : nat) (st : Z * Z * Z) : Z * Z * Z :=
  match k with O => st | S k' => dsteps h k' (dstep h st) end.

Lemma dsteps_add : forall h a b st, dsteps h (a + b) st = dsteps h b (dsteps h a st).
Proof. intros h a; induction a as [|a IH]; intros b st; simpl; auto. Qed.

Lemma dsteps_zero : forall h k c f, exists c', dsteps h k (c, f, 0) = (c', f, 0).
Proof.
  intros h k; induction k as [|k IH]; intros c f; [exists c; reflexivity|].
  cbn [dsteps]. change (dstep h (c, f, 0)) with (c - 1, f, 0). apply IH.
Qed.

(* k halvings *)
Lemma dsteps_halve : forall h k c f g', dsteps h k (c, f, 2 ^ Z.of_nat k * g') = (c - Z.of_nat k, f, g').
Proof.
  intros h k; induction k as [|k IH]; intros c f g'.
  - cbn [dsteps]. change (2 ^ Z.of_nat 0) with 1. rewrite Z.mul_1_l. f_equal. f_equal. lia.
  - cbn [dsteps]. rewrite Nat2Z.inj_succ, Z.pow_succ_r by lia.
    unfold dstep at 1. rewrite <- Z.mul_assoc, Z.odd_mul. change (Z.odd 2) with false. cbn [andb].
    rewrite (Z.mul_comm 2), Z.div_mul by lia. rewrite IH. f_equal. f_equal. lia.
Qed.

(* k steps with a non-negative counter: f stays and multiples of it are added to g *)
Lemma dsteps_add_f : forall h k c f g, Z.odd f = true -> Z.of_nat k <= c + 1 ->
  exists m, 0 <= m < 2 ^ Z.of_nat k /\
  exists g1, dsteps h k (c, f, g) = (c - Z.of_nat k, f, g1) /\ 2 ^ Z.of_nat k * g1 = g + m * f.
Proof.
  intros h k; induction k as [|k IH]; intros c f g Of Hc.
  - exists 0. split; [cbn; lia|]. exists g. split; [cbn [dsteps]; f_equal; f_equal; lia|].
    change (2 ^ Z.of_nat 0) with 1. lia.
  - cbn [dsteps]. set (b := if Z.odd g then 1 else 0).
    assert (Hd : dstep h (c, f, g) = (c - 1, f, (g + b * f) / 2)).
    { unfold dstep, b. destruct (Z.odd g); [|now rewrite Z.mul_0_l, Z.add_0_r].
      assert (E : (c <? 0) = false) by (apply Z.ltb_ge; lia). rewrite E, Z.mul_1_l. reflexivity. }
    assert (Hev : 2 * ((g + b * f) / 2) = g + b * f).
    { assert (Z.odd (g + b * f) = false).
      { unfold b. rewrite Z.odd_add, Z.odd_mul. destruct (Z.odd g); rewrite ?Of; reflexivity. }
      rewrite Zodd_even_bool in H. apply negb_false_iff, Z.even_spec in H. destruct H as [q Hq].
      rewrite Hq, (Z.mul_comm 2 q), Z.div_mul by lia. lia. }
    rewrite Hd. destruct (IH (c - 1) f ((g + b * f) / 2) Of ltac:(lia)) as (m & Hm & g1 & E1 & E2).
    exists (b + 2 * m). rewrite Nat2Z.inj_succ, Z.pow_succ_r by lia.
    split; [unfold b; destruct (Z.odd g); lia|]. exists g1. split.
    + rewrite E1. f_equal. f_equal. lia.
    + rewrite <- Z.mul_assoc, E2, Z.mul_add_distr_l, Hev. ring.
Qed.

(* From counter -1 back to counter -1. *)
Lemma cycle : forall (h : nat) k f g', (h = 1 \/ h = 2)%nat -> Z.odd f = true -> Z.odd g' = true ->
  exists t, 0 < t < 2 ^ Z.of_nat (k + h) /\ Z.odd t = true /\
  exists g1, dsteps (Z.of_nat h) (2 * k + h) (-1, f, 2 ^ Z.of_nat k * g') = (-1, g', g1) /\
             2 ^ Z.of_nat (k + h) * g1 = t * g' - f.
Proof.
  intros h k f g' Hh Of Og.
  replace (2 * k + h)%nat with (k + (1 + (k + h - 1)))%nat by lia.
  rewrite !dsteps_add, dsteps_halve.
  cbn [dsteps]. unfold dstep. rewrite Og.
  assert (E : (-1 - Z.of_nat k <? 0) = true) by (apply Z.ltb_lt; lia). rewrite E.
  destruct (dsteps_add_f (Z.of_nat h) (k + h - 1) (- (-1 - Z.of_nat k) - (3 - Z.of_nat h)) g' ((g' - f) / 2) Og
              ltac:(lia)) as (m & Hm & g1 & E1 & E2).
  assert (Hev : 2 * ((g' - f) / 2) = g' - f).
  { assert (Z.odd (g' - f) = false) by (rewrite Z.odd_sub, Og, Of; reflexivity).
    rewrite Zodd_even_bool in H. apply negb_false_iff, Z.even_spec in H. destruct H as [q Hq].
    rewrite Hq, (Z.mul_comm 2 q), Z.div_mul by lia. lia. }
  assert (P2 : 2 ^ Z.of_nat (k + h) = 2 * 2 ^ Z.of_nat (k + h - 1)).
  { replace (Z.of_nat (k + h)) with (Z.succ (Z.of_nat (k + h - 1))) by lia. apply Z.pow_succ_r. lia. }
  exists (2 * m + 1). rewrite P2. split; [lia|]. split.
  - rewrite Z.odd_add, Z.odd_mul. reflexivity.
  - exists g1. split; [rewrite E1; f_equal; f_equal; lia|].
    rewrite <- Z.mul_assoc, E2, Z.mul_add_distr_l, Hev. ring.
Qed.

(* ------------------------------------------------------------------ *)
(* The certificate checker. *)
Definition pt := (Z * Z)%type.
Definition cr (a b : pt) : Z := fst a * snd b - snd a * fst b.
Definition opp (a : pt) : pt := (- fst a, - snd a).
Definition dot (a : pt) (f g : Z) : Z := fst a * f + snd a * g.

Definition entry := (Z * list pt * list nat)%type.
Definition inT (c : entry) (s f g : Z) : Prop :=
  let '(e, V, _) := c in forall v, In v V -> Z.abs (dot v f g) < 2 ^ e * s.

Fixpoint links (v : pt) (l : list pt) : list (pt * pt * Z) :=
  match l with
  | [] => []
  | w :: l' => (v, w, cr v w) :: links w l'
  end.

(* two turns round the symmetric polygon with half its corners V *)
Definition around (V : list pt) : list (pt * pt * Z) :=
  match V with
  | [] => []
  | v0 :: V' =>
    let a := links v0 (V' ++ [opp v0]) in
    let b := map (fun l => (opp (fst (fst l)), opp (snd (fst l)), snd l)) a in
    a ++ b ++ a ++ b
  end.

Fixpoint walk (z : Z) (es : list (pt * pt * Z)) : list pt -> bool :=
  match es with
  | [] => fun pts => match pts with [] => true | _ => false end
  | (v, w, d) :: es' =>
    let k := walk z es' in
    fix go pts :=
      match pts with
      | [] => true
      | P :: pts' =>
        let a := cr w P in
        if a <=? 0 then
          let b := cr v P in
          (0 <=? b) && (b - a <=? z * d) && go pts'
        else k pts
      end
  end.

(* image of a corner: one whole cycle with k halvings, parameter tau *)
Definition image (h k tau : Z) (v : pt) : pt :=
  (- snd v * 2 ^ k, 2 ^ (k + h) * fst v + tau * snd v).

Definition fits (es : list (pt * pt * Z)) (e : Z) (off : nat) (h k tau : Z) (q : entry) : bool :=
  let '(eq, Vq, _) := q in
  let s := 2 * k + h + eq - e in
  (0 <=? s) && (0 <=? eq) && walk (2 ^ s) (skipn off es) (map (image h k tau) Vq).

Definition nests (es : list (pt * pt * Z)) (e : Z) (off : nat) (q : entry) : bool :=
  let '(eq, Vq, _) := q in
  let s := 1 + eq - e in
  (0 <=? s) && (0 <=? eq) && walk (2 ^ s) (skipn off es) Vq.

(* the parameters tau to check for k: the ends of the range; at k = kx the wider range [0, 2^(k+h)] *)
Definition taus (h : Z) (kx k : nat) : list Z :=
  if (k <? kx)%nat then
    if (Z.of_nat k + h =? 1) then [1] else [1; 2 ^ (Z.of_nat k + h) - 1]
  else [0; 2 ^ (Z.of_nat k + h)].

(* hist: the earlier entries, newest first *)
Fixpoint fits_all (es : list (pt * pt * Z)) (e : Z) (h : Z) (hist : list entry)
    (todo : list (nat * Z)) (offs : list nat) : bool :=
  match todo with
  | [] => match nth_error hist 1, offs with
          | Some q, [o] => nests es e o q
          | None, [] => true
          | _, _ => false
          end
  | (k, tau) :: todo' =>
    match nth_error hist (2 * k + Z.to_nat h - 1) with
    | None => fits_all es e h hist todo' offs
    | Some q =>
      match offs with
      | [] => false
      | o :: offs' => fits es e o h (Z.of_nat k) tau q && fits_all es e h hist todo' offs'
      end
    end
  end.

Definition todo (h : Z) (kx : nat) : list (nat * Z) :=
  flat_map (fun k => map (fun t => (k, t)) (taus h kx k)) (seq 0 (kx + 1)).

Definition entry_ok (h : Z) (td : list (nat * Z)) (hist : list entry) (c : entry) : bool :=
  let '(e, V, offs) := c in
  let es := around V in
  (0 <=? e) && forallb (fun l => 0 <? snd l) es && fits_all es e h hist td offs.

Fixpoint cert_ok (h : Z) (td : list (nat * Z)) (hist l : list entry) : bool :=
  match l with
  | [] => true
  | c :: l' => entry_ok h td hist c && cert_ok h td (c :: hist) l'
  end.

(* the first two entries bound |g| by 1 and by 2^(2-h) *)
Definition base_ok (h : Z) (l : list entry) : bool :=
  match nth_error l 0, nth_error l 1 with
  | Some (e0, V0, _), Some (e1, V1, _) =>
    existsb (fun v => (fst v =? 0) && (Z.abs (snd v) =? 2 ^ e0)) V0 &&
    existsb (fun v => (fst v =? 0) && (Z.abs (snd v) =? 2 ^ (e1 - (2 - h)))) V1 &&
    (0 <=? e0) && (2 - h <=? e1)
  | _, _ => false
  end.

(* the pair (m, x) is in the last set, whenever 0 <= x <= m <= M *)
Definition start_ok (M : Z) (c : entry) : bool :=
  let '(e, V, _) := c in
  forallb (fun v => (Z.abs (fst v) * M <? 2 ^ e) && (Z.abs (fst v + snd v) * M <? 2 ^ e)) V.

(* ------------------------------------------------------------------ *)
(* Soundness of the checker. *)
Lemma dot_opp : forall v f g, dot (opp v) f g = - dot v f g.
Proof. intros [a b] f g; unfold dot, opp; cbn [fst snd]; ring. Qed.

Definition small (B f g : Z) (v : pt) : Prop := Z.abs (dot v f g) < B.

Lemma small_opp : forall B f g v, small B f g v -> small B f g (opp v).
Proof. intros B f g v H; unfold small in *. rewrite dot_opp, Z.abs_opp. exact H. Qed.

Definition link_ok (B f g : Z) (l : pt * pt * Z) : Prop :=
  small B f g (fst (fst l)) /\ small B f g (snd (fst l)) /\ snd l = cr (fst (fst l)) (snd (fst l)).

Lemma links_ok : forall B f g l v, small B f g v -> Forall (small B f g) l ->
  Forall (link_ok B f g) (links v l).
Proof.
  intros B f g l; induction l as [|w l IH]; intros v Hv Hl; cbn [links]; [constructor|].
  inversion Hl; subst. constructor; [repeat split; auto|auto].
Qed.

Lemma around_ok : forall B f g V, Forall (small B f g) V -> Forall (link_ok B f g) (around V).
Proof.
  intros B f g [|v0 V] H; [constructor|]. inversion H; subst. unfold around.
  set (a := links v0 (V ++ [opp v0])).
  assert (Ha : Forall (link_ok B f g) a).
  { apply links_ok; auto. apply Forall_app; split; auto. constructor; auto. now apply small_opp. }
  assert (Hb : Forall (link_ok B f g) (map (fun l => (opp (fst (fst l)), opp (snd (fst l)), snd l)) a)).
  { apply Forall_forall. intros x Hx. apply in_map_iff in Hx. destruct Hx as (l & <- & Hl).
    rewrite Forall_forall in Ha. destruct (Ha l Hl) as (A1 & A2 & A3).
    repeat split; cbn [fst snd]; [now apply small_opp | now apply small_opp |].
    rewrite A3. unfold cr, opp; cbn [fst snd]. ring. }
  rewrite !Forall_app. auto.
Qed.

Lemma cone : forall B f g v w P z, 0 < cr v w -> 0 <= cr P w -> 0 <= cr v P ->
  cr P w + cr v P <= cr v w * z -> 0 < z -> small B f g v -> small B f g w -> small (B * z) f g P.
Proof.
  intros B f g v w P z Hd Ha Hb Hs Hz Hv Hw. unfold small in *.
  assert (E : cr v w * dot P f g = cr P w * dot v f g + cr v P * dot w f g).
  { unfold cr, dot. ring. }
  set (d := cr v w) in *. set (a := cr P w) in *. set (b := cr v P) in *.
  set (x := dot v f g) in *. set (y := dot w f g) in *. set (X := dot P f g) in *.
  clearbody d a b x y X.
  assert (HB : 0 < B) by lia.
  apply Z.abs_lt in Hv. apply Z.abs_lt in Hw. apply Z.abs_lt.
  assert (U : a * x + b * y <= (a + b) * (B - 1)) by nia.
  assert (L : - ((a + b) * (B - 1)) <= a * x + b * y) by nia.
  assert (T : (a + b) * (B - 1) <= d * z * (B - 1)) by nia.
  assert (T2 : d * z * (B - 1) < d * (B * z)) by nia.
  split; nia.
Qed.

Lemma walk_ok : forall B f g z es pts, 0 < z -> Forall (link_ok B f g) es ->
  forallb (fun l => 0 <? snd l) es = true -> walk z es pts = true -> Forall (small (B * z) f g) pts.
Proof.
  intros B f g z es pts Hz; revert pts.
  induction es as [|[[v w] d] es IH]; intros pts Hes Hd Hw.
  - destruct pts; [constructor|discriminate].
  - cbn [forallb] in Hd. apply andb_true_iff in Hd. destruct Hd as [Hd Hd'].
    inversion Hes as [|? ? Hl Hes']; subst. destruct Hl as (L1 & L2 & L3). cbn [fst snd] in *.
    apply Z.ltb_lt in Hd.
    induction pts as [|P pts IHp]; [constructor|].
    cbn [walk] in Hw.
    destruct (cr w P <=? 0) eqn:Ea.
    + apply andb_true_iff in Hw. destruct Hw as [Hw1 Hw2]. apply andb_true_iff in Hw1.
      destruct Hw1 as [Hb Hs]. apply Z.leb_le in Ea, Hb, Hs.
      constructor; [|apply IHp; exact Hw2].
      assert (Ec : cr P w = - cr w P) by (unfold cr; ring).
      rewrite L3 in *. eapply (cone B f g v w P z); eauto; lia.
    + apply IH; auto.
Qed.

Lemma skipn_Forall : forall (A : Type) (P : A -> Prop) k l, Forall P l -> Forall P (skipn k l).
Proof.
  intros A P k; induction k as [|k IH]; intros l H; [exact H|].
  destruct l; [constructor|]. inversion H; subst. cbn [skipn]. auto.
Qed.

Lemma skipn_forallb : forall (A : Type) (p : A -> bool) k l, forallb p l = true -> forallb p (skipn k l) = true.
Proof.
  intros A p k; induction k as [|k IH]; intros l H; [exact H|].
  destruct l; [reflexivity|]. cbn [forallb skipn] in *. apply andb_true_iff in H. apply IH, H.
Qed.

Lemma dot_image : forall h k tau v f g,
  dot (image h k tau v) f g = dot v (2 ^ (k + h) * g) (tau * g - 2 ^ k * f).
Proof. intros h k tau [a b] f g. unfold dot, image. cbn [fst snd]. ring. Qed.

Definition T_in (c : entry) (s f g : Z) : Prop := Forall (small (2 ^ fst (fst c) * s) f g) (snd (fst c)).

Lemma T_inT : forall c s f g, T_in c s f g <-> inT c s f g.
Proof. intros [[e V] o] s f g. unfold T_in, inT, small. cbn [fst snd]. apply Forall_forall. Qed.

Lemma fits_ok : forall V e off h k tau q s f g,
  0 <= e -> 0 <= k -> 0 <= h -> Forall (small (2 ^ e * s) f g) V ->
  forallb (fun l => 0 <? snd l) (around V) = true -> fits (around V) e off h k tau q = true ->
  T_in q (2 ^ (2 * k + h) * s) (2 ^ (k + h) * g) (tau * g - 2 ^ k * f).
Proof.
  intros V e off h k tau [[eq Vq] oq] s f g He Hk Hh HV Hd Hf.
  unfold fits in Hf. rewrite !andb_true_iff, !Z.leb_le in Hf. destruct Hf as [[Hs Hq] Hw].
  unfold T_in; cbn [fst snd].
  pose proof (walk_ok _ f g _ _ _ (Z.pow_pos_nonneg 2 (2 * k + h + eq - e) ltac:(lia) Hs)
    (skipn_Forall _ _ off _ (around_ok _ _ _ _ HV)) (skipn_forallb _ _ off _ Hd) Hw) as H.
  rewrite Forall_forall in *. intros v Hv.
  specialize (H (image h k tau v) (in_map _ _ _ Hv)). unfold small in *.
  rewrite dot_image in H. eapply Z.lt_le_trans; [exact H|].
  apply Z.eq_le_incl.
  replace (2 ^ e * s * 2 ^ (2 * k + h + eq - e)) with (2 ^ (e + (2 * k + h + eq - e)) * s)
    by (rewrite Z.pow_add_r by lia; ring).
  replace (e + (2 * k + h + eq - e)) with (eq + (2 * k + h)) by lia.
  rewrite (Z.pow_add_r 2 eq) by lia. ring.
Qed.

Lemma nests_ok : forall V e off q s f g,
  0 <= e -> Forall (small (2 ^ e * s) f g) V ->
  forallb (fun l => 0 <? snd l) (around V) = true -> nests (around V) e off q = true ->
  T_in q (2 * s) f g.
Proof.
  intros V e off [[eq Vq] oq] s f g He HV Hd Hf.
  unfold nests in Hf. rewrite !andb_true_iff, !Z.leb_le in Hf. destruct Hf as [[Hs Hq] Hw].
  unfold T_in; cbn [fst snd].
  pose proof (walk_ok _ f g _ _ _ (Z.pow_pos_nonneg 2 (1 + eq - e) ltac:(lia) Hs)
    (skipn_Forall _ _ off _ (around_ok _ _ _ _ HV)) (skipn_forallb _ _ off _ Hd) Hw) as H.
  rewrite Forall_forall in *. intros v Hv. specialize (H v Hv). unfold small in *.
  eapply Z.lt_le_trans; [exact H|]. apply Z.eq_le_incl.
  replace (2 ^ e * s * 2 ^ (1 + eq - e)) with (2 ^ (e + (1 + eq - e)) * s)
    by (rewrite Z.pow_add_r by lia; ring).
  replace (e + (1 + eq - e)) with (1 + eq) by lia.
  rewrite Z.pow_add_r by lia. ring.
Qed.

Lemma fits_all_ok : forall es e h hist td offs, fits_all es e h hist td offs = true ->
  (forall k tau q, In (k, tau) td -> nth_error hist (2 * k + Z.to_nat h - 1) = Some q ->
     exists off, fits es e off h (Z.of_nat k) tau q = true) /\
  (forall q, nth_error hist 1 = Some q -> exists off, nests es e off q = true).
Proof.
  intros es e h hist td; induction td as [|[k tau] td IH]; intros offs H; cbn [fits_all] in H.
  - split; [intros k tau q []|]. intros q Hq. rewrite Hq in H.
    destruct offs as [|o [|? ?]]; try discriminate. eauto.
  - destruct (nth_error hist (2 * k + Z.to_nat h - 1)) as [q'|] eqn:Eq.
    + destruct offs as [|o offs]; [discriminate|]. apply andb_true_iff in H. destruct H as [H1 H2].
      destruct (IH _ H2) as [I1 I2]. split; [|exact I2].
      intros k0 tau0 q [E|Hin] Hq; [|eauto]. inversion E; subst. rewrite Eq in Hq. inversion Hq; subst. eauto.
    + destruct (IH _ H) as [I1 I2]. split; [|exact I2].
      intros k0 tau0 q [E|Hin] Hq; [|eauto]. inversion E; subst. rewrite Eq in Hq. discriminate.
Qed.

Lemma nth_error_rev_app : forall (A : Type) (l1 hist : list A) i,
  nth_error (rev l1 ++ hist) i = if (i <? length l1)%nat then nth_error l1 (length l1 - 1 - i) else nth_error hist (i - length l1).
Proof.
  intros A l1 hist i. destruct (Nat.ltb_spec i (length l1)) as [H|H].
  - rewrite nth_error_app1 by (rewrite rev_length; lia).
    destruct l1 as [|a0 l1]; [cbn in H; lia|].
    rewrite (nth_error_nth' (rev (a0 :: l1)) a0) by (rewrite rev_length; lia).
    rewrite (nth_error_nth' (a0 :: l1) a0) by lia.
    rewrite rev_nth by lia. f_equal. f_equal. lia.
  - rewrite nth_error_app2 by (rewrite rev_length; lia). rewrite rev_length. reflexivity.
Qed.

Lemma cert_ok_nth : forall h td l hist, cert_ok h td hist l = true ->
  forall r c, nth_error l r = Some c -> entry_ok h td (rev (firstn r l) ++ hist) c = true.
Proof.
  intros h td l; induction l as [|c0 l IH]; intros hist H r c Hr; [destruct r; discriminate|].
  cbn [cert_ok] in H. apply andb_true_iff in H. destruct H as [H1 H2].
  destruct r as [|r]; cbn [nth_error] in Hr.
  - inversion Hr; subst. exact H1.
  - cbn [firstn rev]. rewrite <- app_assoc. apply IH; auto.
Qed.

Lemma hist_nth : forall (l : list entry) r j c, nth_error l r = Some c -> (j < r)%nat ->
  nth_error (rev (firstn r l) ++ []) j = nth_error l (r - 1 - j).
Proof.
  intros l r j c Hr Hj. assert (Hl : (r < length l)%nat) by (apply nth_error_Some; congruence).
  assert (F : length (firstn r l) = r) by (rewrite firstn_length; lia).
  rewrite nth_error_rev_app, F. destruct (Nat.ltb_spec j r); [|lia].
  rewrite <- (firstn_skipn r l) at 2. rewrite nth_error_app1 by (rewrite F; lia). reflexivity.
Qed.

Section Bound.
Variable h : nat.
Variable kx : nat.
Variable l : list entry.
Hypothesis Hh : (h = 1 \/ h = 2)%nat.
Hypothesis Hkx : (0 < kx)%nat.
Hypothesis Hok : cert_ok (Z.of_nat h) (todo (Z.of_nat h) kx) [] l = true.
Hypothesis Hbase : base_ok (Z.of_nat h) l = true.

(* (f, g) is in the set of entry r, scaled by s *)
Definition T (r : nat) (s f g : Z) : Prop := exists c, nth_error l r = Some c /\ T_in c s f g.

Lemma has : forall r r' s f g, T r s f g -> (r' <= r)%nat -> exists c, nth_error l r' = Some c.
Proof.
  intros r r' s f g (c & Hc & _) Hr.
  assert (Hl : (r < length l)%nat) by (apply nth_error_Some; congruence).
  destruct (nth_error l r') eqn:E; [eauto|]. apply nth_error_None in E. lia.
Qed.

Lemma T_nest : forall r s f g, T (r + 2) s f g -> T r (2 * s) f g.
Proof.
  intros r s f g HT. destruct (has _ r _ _ _ HT ltac:(lia)) as [q Hq].
  destruct HT as (c & Hc & Hin). exists q. split; [exact Hq|].
  pose proof (cert_ok_nth _ _ _ _ Hok _ _ Hc) as He. destruct c as [[e V] offs].
  unfold entry_ok in He. rewrite !andb_true_iff, Z.leb_le in He. destruct He as [[He Hd] Hf].
  destruct (fits_all_ok _ _ _ _ _ _ Hf) as [_ Hn].
  rewrite (hist_nth _ _ 1 _ Hc ltac:(lia)) in Hn.
  replace (r + 2 - 1 - 1)%nat with r in Hn by lia. destruct (Hn _ Hq) as [off Ho].
  eapply nests_ok; eauto.
Qed.

Lemma T_nests : forall j r s f g, T (r + 2 * j) s f g -> T r (2 ^ Z.of_nat j * s) f g.
Proof.
  induction j as [|j IH]; intros r s f g H.
  - rewrite Nat.mul_0_r, Nat.add_0_r in H. change (2 ^ Z.of_nat 0) with 1. now rewrite Z.mul_1_l.
  - replace (r + 2 * S j)%nat with (r + 2 * j + 2)%nat in H by lia.
    apply T_nest, IH in H. rewrite Nat2Z.inj_succ, Z.pow_succ_r by lia.
    replace (2 * 2 ^ Z.of_nat j * s) with (2 ^ Z.of_nat j * (2 * s)) by ring. exact H.
Qed.

Lemma T_scale : forall r s f g w, 0 < w -> T r s f g -> T r (w * s) (w * f) (w * g).
Proof.
  intros r s f g w Hw (c & Hc & Hin). exists c. split; [exact Hc|].
  unfold T_in, small in *. rewrite Forall_forall in *. intros v Hv. specialize (Hin v Hv).
  replace (dot v (w * f) (w * g)) with (w * dot v f g) by (unfold dot; ring).
  rewrite Z.abs_mul, (Z.abs_eq w) by lia. nia.
Qed.

Lemma T_unscale : forall r s f g w, 0 < w -> T r (w * s) (w * f) (w * g) -> T r s f g.
Proof.
  intros r s f g w Hw (c & Hc & Hin). exists c. split; [exact Hc|].
  unfold T_in, small in *. rewrite Forall_forall in *. intros v Hv. specialize (Hin v Hv).
  replace (dot v (w * f) (w * g)) with (w * dot v f g) in Hin by (unfold dot; ring).
  rewrite Z.abs_mul, (Z.abs_eq w) in Hin by lia. nia.
Qed.

(* affine in the parameter, so the ends of the range are enough *)
Lemma T_between : forall r s X g f0 lo hi tau w, 0 < w -> lo * w <= tau <= hi * w ->
  T r s X (lo * g - f0) -> T r s X (hi * g - f0) -> T r (w * s) (w * X) (tau * g - w * f0).
Proof.
  intros r s X g f0 lo hi tau w Hw Ht (c & Hc & H1) (c' & Hc' & H2).
  rewrite Hc in Hc'. inversion Hc'; subst c'. clear Hc'. exists c. split; [exact Hc|].
  unfold T_in, small in *. rewrite Forall_forall in *. intros v Hv.
  specialize (H1 v Hv). specialize (H2 v Hv).
  set (B := 2 ^ fst (fst c) * s) in *. replace (2 ^ fst (fst c) * (w * s)) with (w * B) by (unfold B; ring).
  clearbody B. destruct v as [a b]. unfold dot in *. cbn [fst snd] in *.
  apply Z.abs_lt in H1. apply Z.abs_lt in H2. apply Z.abs_lt.
  replace (a * (w * X) + b * (tau * g - w * f0)) with
    (w * (a * X + b * (lo * g - f0)) + (tau - lo * w) * (b * g)) by ring.
  assert (E2 : a * X + b * (hi * g - f0) = a * X + b * (lo * g - f0) + (hi - lo) * (b * g)) by ring.
  rewrite E2 in H2. set (y := a * X + b * (lo * g - f0)) in *. set (z := b * g) in *. clearbody y z.
  clear E2. set (u := tau - lo * w) in *. assert (Hu : 0 <= u <= w * (hi - lo)) by (unfold u; lia). clearbody u.
  set (dd := hi - lo) in *. clearbody dd. clear - H1 H2 Hu Hw.
  destruct (Z.le_ge_cases 0 z) as [Hz|Hz].
  - assert (0 <= u * z <= w * (dd * z)) by nia. nia.
  - assert (w * (dd * z) <= u * z <= 0) by nia. nia.
Qed.

Lemma T_image : forall r k tau s f g, In (k, tau) (todo (Z.of_nat h) kx) -> (2 * k + h <= r)%nat -> T r s f g ->
  T (r - (2 * k + h)) (2 ^ Z.of_nat (2 * k + h) * s) (2 ^ Z.of_nat (k + h) * g) (tau * g - 2 ^ Z.of_nat k * f).
Proof.
  intros r k tau s f g Hin Hr HT. destruct (has _ (r - (2 * k + h)) _ _ _ HT ltac:(lia)) as [q Hq].
  destruct HT as (c & Hc & HTc). exists q. split; [exact Hq|].
  pose proof (cert_ok_nth _ _ _ _ Hok _ _ Hc) as He. destruct c as [[e V] offs].
  unfold entry_ok in He. rewrite !andb_true_iff, Z.leb_le in He. destruct He as [[He Hd] Hf].
  destruct (fits_all_ok _ _ _ _ _ _ Hf) as [Hi _]. specialize (Hi k tau q Hin).
  rewrite Nat2Z.id, (hist_nth _ _ (2 * k + h - 1) _ Hc ltac:(lia)) in Hi.
  replace (r - 1 - (2 * k + h - 1))%nat with (r - (2 * k + h))%nat in Hi by lia.
  destruct (Hi Hq) as [off Ho].
  rewrite !Nat2Z.inj_add, Nat2Z.inj_mul.
  eapply fits_ok; eauto; lia.
Qed.

Lemma in_todo : forall k tau, (k <= kx)%nat -> In tau (taus (Z.of_nat h) kx k) -> In (k, tau) (todo (Z.of_nat h) kx).
Proof.
  intros k tau Hk Ht. unfold todo. apply in_flat_map. exists k. split; [apply in_seq; lia|].
  apply in_map_iff. exists tau. auto.
Qed.

(* One whole cycle. *)
Lemma T_cycle : forall r k f g' g1 t, (2 * k + h <= r)%nat -> 0 < t < 2 ^ Z.of_nat (k + h) -> Z.odd t = true ->
  2 ^ Z.of_nat (k + h) * g1 = t * g' - f -> T r 1 f (2 ^ Z.of_nat k * g') -> T (r - (2 * k + h)) 1 g' g1.
Proof.
  intros r k f g' g1 t Hr Ht Ot E HT.
  assert (Pk : 0 < 2 ^ Z.of_nat k) by (apply Z.pow_pos_nonneg; lia).
  assert (P2k : 0 < 2 ^ Z.of_nat (2 * k + h)) by (apply Z.pow_pos_nonneg; lia).
  assert (Split : 2 ^ Z.of_nat (2 * k + h) = 2 ^ Z.of_nat (k + h) * 2 ^ Z.of_nat k).
  { rewrite <- Z.pow_add_r by lia. f_equal. lia. }
  destruct (Nat.lt_ge_cases k kx) as [Hk|Hk].
  - assert (Hlo : In 1 (taus (Z.of_nat h) kx k)).
    { unfold taus. rewrite (proj2 (Nat.ltb_lt _ _) Hk). destruct (_ =? 1); cbn; auto. }
    assert (Hhi : In (2 ^ Z.of_nat (k + h) - 1) (taus (Z.of_nat h) kx k)).
    { unfold taus. rewrite (proj2 (Nat.ltb_lt _ _) Hk), Nat2Z.inj_add.
      destruct (Z.eqb_spec (Z.of_nat k + Z.of_nat h) 1) as [E1|_]; [rewrite E1; cbn; auto|cbn; auto]. }
    pose proof (T_image r k 1 1 _ _ (in_todo k 1 ltac:(lia) Hlo) Hr HT) as T1.
    pose proof (T_image r k _ 1 _ _ (in_todo k _ ltac:(lia) Hhi) Hr HT) as T2.
    assert (Hr' : 1 * 1 <= t <= (2 ^ Z.of_nat (k + h) - 1) * 1) by lia.
    pose proof (T_between _ _ _ _ _ _ _ _ 1 ltac:(lia) Hr' T1 T2) as T3.
    apply T_unscale with (w := 2 ^ Z.of_nat (2 * k + h)); [exact P2k|].
    rewrite !Z.mul_1_l in T3.
    replace (2 ^ Z.of_nat (2 * k + h) * g') with (2 ^ Z.of_nat (k + h) * (2 ^ Z.of_nat k * g')) by (rewrite Split; ring).
    replace (2 ^ Z.of_nat (2 * k + h) * g1) with (t * (2 ^ Z.of_nat k * g') - 2 ^ Z.of_nat k * f)
      by (rewrite Split; transitivity (2 ^ Z.of_nat k * (2 ^ Z.of_nat (k + h) * g1)); [rewrite E|]; ring).
    exact T3.
  - assert (Hlo : In 0 (taus (Z.of_nat h) kx kx)).
    { unfold taus. rewrite Nat.ltb_irrefl. cbn; auto. }
    assert (Hhi : In (2 ^ Z.of_nat (kx + h)) (taus (Z.of_nat h) kx kx)).
    { unfold taus. rewrite Nat.ltb_irrefl, Nat2Z.inj_add. cbn; auto. }
    pose proof (T_image r kx 0 1 _ _ (in_todo kx 0 ltac:(lia) Hlo) ltac:(lia) HT) as T1.
    pose proof (T_image r kx _ 1 _ _ (in_todo kx _ ltac:(lia) Hhi) ltac:(lia) HT) as T2.
    set (w := 2 ^ Z.of_nat (k + h)) in *.
    assert (Hw : 0 < w) by (apply Z.pow_pos_nonneg; lia).
    assert (Hr' : 0 * w <= t * 2 ^ Z.of_nat (kx + h) <= 2 ^ Z.of_nat (kx + h) * w).
    { assert (0 < 2 ^ Z.of_nat (kx + h)) by (apply Z.pow_pos_nonneg; lia). nia. }
    pose proof (T_between _ _ _ _ _ _ _ _ w Hw Hr' T1 T2) as T3.
    replace (r - (2 * kx + h))%nat with (r - (2 * k + h) + 2 * (k - kx))%nat in T3 by lia.
    apply T_nests in T3.
    apply T_unscale with (w := 2 ^ Z.of_nat (kx + h) * 2 ^ Z.of_nat k * w).
    { apply Z.mul_pos_pos; [apply Z.mul_pos_pos; [apply Z.pow_pos_nonneg; lia|exact Pk]|exact Hw]. }
    assert (Sk : 2 ^ Z.of_nat (k - kx) * 2 ^ Z.of_nat (2 * kx + h) = 2 ^ Z.of_nat (kx + h) * 2 ^ Z.of_nat k).
    { rewrite <- !Z.pow_add_r by lia. f_equal. lia. }
    assert (Skk : 2 ^ Z.of_nat (kx + h) * 2 ^ Z.of_nat k = 2 ^ Z.of_nat kx * w).
    { unfold w. rewrite <- !Z.pow_add_r by lia. f_equal. lia. }
    replace (2 ^ Z.of_nat (kx + h) * 2 ^ Z.of_nat k * w * 1)
      with (2 ^ Z.of_nat (k - kx) * (w * (2 ^ Z.of_nat (2 * kx + h) * 1))) by (rewrite <- Sk; ring).
    replace (2 ^ Z.of_nat (kx + h) * 2 ^ Z.of_nat k * w * g')
      with (w * (2 ^ Z.of_nat (kx + h) * (2 ^ Z.of_nat k * g'))) by ring.
    replace (2 ^ Z.of_nat (kx + h) * 2 ^ Z.of_nat k * w * g1)
      with (t * 2 ^ Z.of_nat (kx + h) * (2 ^ Z.of_nat k * g') - w * (2 ^ Z.of_nat kx * f)).
    { exact T3. }
    replace (2 ^ Z.of_nat (kx + h) * 2 ^ Z.of_nat k * w * g1)
      with (2 ^ Z.of_nat (kx + h) * 2 ^ Z.of_nat k * (t * g' - f)) by (rewrite <- E; ring).
    rewrite Z.mul_sub_distr_l, Skk at 1. 
    replace (w * (2 ^ Z.of_nat kx * f)) with (2 ^ Z.of_nat kx * w * f) by ring.
    rewrite <- Skk. ring.
Qed.

Lemma T_g : forall r f g, T r 1 f g -> Z.abs g < 2 ^ Z.of_nat ((r + 2 - h) / 2).
Proof.
  intros r f g HT.
  assert (Hb : forall i s, T i s f g -> (i = 0 \/ i = 1)%nat -> Z.abs g < s * 2 ^ (if Nat.eqb i 0 then 0 else 2 - Z.of_nat h)).
  { intros i s (c & Hc & Hin) Hi. unfold base_ok in Hbase.
    destruct (nth_error l 0) as [[[e0 V0] o0]|] eqn:E0; [|discriminate].
    destruct (nth_error l 1) as [[[e1 V1] o1]|] eqn:E1; [|discriminate].
    rewrite !andb_true_iff, !existsb_exists, !Z.leb_le in Hbase.
    destruct Hbase as [[[(v0 & I0 & B0) (v1 & I1 & B1)] L0] L1].
    apply andb_true_iff in B0. destruct B0 as [B0 B0']. apply Z.eqb_eq in B0, B0'.
    apply andb_true_iff in B1. destruct B1 as [B1 B1']. apply Z.eqb_eq in B1, B1'.
    unfold T_in, small in Hin. rewrite Forall_forall in Hin.
    destruct Hi as [-> | ->]; cbn [Nat.eqb].
    - rewrite E0 in Hc. inversion Hc; subst c. cbn [fst snd] in Hin. specialize (Hin v0 I0).
      unfold dot in Hin. rewrite B0, Z.mul_0_l, Z.add_0_l, Z.abs_mul, B0' in Hin.
      rewrite Z.pow_0_r. apply Z.mul_lt_mono_pos_l in Hin; [lia|apply Z.pow_pos_nonneg; lia].
    - rewrite E1 in Hc. inversion Hc; subst c. cbn [fst snd] in Hin. specialize (Hin v1 I1).
      unfold dot in Hin. rewrite B1, Z.mul_0_l, Z.add_0_l, Z.abs_mul, B1' in Hin.
      replace (2 ^ e1) with (2 ^ (e1 - (2 - Z.of_nat h)) * 2 ^ (2 - Z.of_nat h)) in Hin
        by (rewrite <- Z.pow_add_r by lia; f_equal; lia).
      rewrite <- Z.mul_assoc in Hin. apply Z.mul_lt_mono_pos_l in Hin; [lia|apply Z.pow_pos_nonneg; lia]. }
  assert (Hr : exists i j, (r = i + 2 * j)%nat /\ (i = 0 \/ i = 1)%nat).
  { exists (r mod 2)%nat, (r / 2)%nat. pose proof (Nat.div_mod r 2). pose proof (Nat.mod_upper_bound r 2). lia. }
  destruct Hr as (i & j & -> & Hi). apply T_nests in HT. apply Hb in HT; [|exact Hi].
  rewrite Z.mul_1_r in HT. eapply Z.lt_le_trans; [exact HT|].
  rewrite <- Z.pow_add_r by (destruct Hi as [-> | ->]; cbn [Nat.eqb]; lia).
  apply Z.pow_le_mono_r; [lia|].
  assert (Hq : (2 * ((i + 2 * j + 2 - h) / 2) <= i + 2 * j + 2 - h < 2 * ((i + 2 * j + 2 - h) / 2) + 2)%nat).
  { pose proof (Nat.div_mod (i + 2 * j + 2 - h) 2). pose proof (Nat.mod_upper_bound (i + 2 * j + 2 - h) 2). lia. }
  destruct Hi as [-> | ->]; cbn [Nat.eqb]; lia.
Qed.

Lemma two_part : forall g, g <> 0 -> exists k g', g = 2 ^ Z.of_nat k * g' /\ Z.odd g' = true.
Proof.
  intros g. pattern g. apply (Z_lt_abs_rec). clear g. intros g IH Hg.
  destruct (Z.odd g) eqn:Og.
  - exists 0%nat, g. split; [change (2 ^ Z.of_nat 0) with 1; lia|exact Og].
  - rewrite Zodd_even_bool in Og. apply negb_false_iff, Z.even_spec in Og. destruct Og as [q Hq].
    destruct (IH q ltac:(lia) ltac:(lia)) as (k & g' & E & O'). exists (S k), g'. split; [|exact O'].
    rewrite Nat2Z.inj_succ, Z.pow_succ_r by lia. rewrite Hq, E. ring.
Qed.

Theorem steps_enough : forall r f g, Z.odd f = true -> T r 1 f g ->
  exists c f', dsteps (Z.of_nat h) r (-1, f, g) = (c, f', 0).
Proof.
  intros r. induction r as [r IH] using (well_founded_induction lt_wf). intros f g Of HT.
  destruct (Z.eq_dec g 0) as [->|Hg].
  { destruct (dsteps_zero (Z.of_nat h) r (-1) f) as [c Hc]. eauto. }
  destruct (two_part g Hg) as (k & g' & -> & Og).
  pose proof (T_g _ _ _ HT) as Hb.
  assert (Hk : (2 * k + h <= r)%nat).
  { assert (2 ^ Z.of_nat k < 2 ^ Z.of_nat ((r + 2 - h) / 2)).
    { eapply Z.le_lt_trans; [|exact Hb]. rewrite Z.abs_mul, (Z.abs_eq (2 ^ _)) by (apply Z.pow_nonneg; lia).
      assert (0 < 2 ^ Z.of_nat k) by (apply Z.pow_pos_nonneg; lia).
      assert (1 <= Z.abs g') by (destruct (Z.eq_dec g' 0) as [->|]; [discriminate|lia]). nia. }
    apply Z.pow_lt_mono_r_iff in H; [|lia|lia].
    pose proof (Nat.div_mod (r + 2 - h) 2). pose proof (Nat.mod_upper_bound (r + 2 - h) 2). lia. }
  destruct (cycle h k f g' Hh Of Og) as (t & Ht & Ot & g1 & E1 & E2).
  pose proof (T_cycle r k f g' g1 t Hk Ht Ot E2 HT) as HT1.
  assert (Er : dsteps (Z.of_nat h) r (-1, f, 2 ^ Z.of_nat k * g') =
    dsteps (Z.of_nat h) (r - (2 * k + h)) (dsteps (Z.of_nat h) (2 * k + h) (-1, f, 2 ^ Z.of_nat k * g'))).
  { rewrite <- dsteps_add. f_equal. lia. }
  rewrite Er, E1.
  apply IH; auto. destruct Hh; lia.
Qed.

Theorem steps_enough_start : forall M m x c r, nth_error l r = Some c -> start_ok M c = true ->
  0 <= x <= m -> m <= M -> Z.odd m = true ->
  exists d f', dsteps (Z.of_nat h) r (-1, m, x) = (d, f', 0).
Proof.
  intros M m x c r Hc Hs Hx Hm Om. apply steps_enough; [exact Om|]. exists c. split; [exact Hc|].
  destruct c as [[e V] o]. unfold start_ok in Hs. rewrite forallb_forall in Hs.
  unfold T_in, small. cbn [fst snd]. rewrite Forall_forall. intros v Hv. specialize (Hs v Hv).
  rewrite andb_true_iff, !Z.ltb_lt in Hs. destruct Hs as [H1 H2]. destruct v as [a b]. unfold dot. cbn [fst snd] in *.
  rewrite Z.mul_1_r. set (B := 2 ^ e) in *. clearbody B. clear - H1 H2 Hx Hm.
  assert (A1 : Z.abs (a * m) < B) by (rewrite Z.abs_mul; nia).
  assert (A2 : Z.abs (a * m + b * m) < B) by (rewrite <- Z.mul_add_distr_r, Z.abs_mul; nia).
  apply Z.abs_lt in A1. apply Z.abs_lt in A2. apply Z.abs_lt.
  destruct (Z.le_ge_cases 0 b); nia.
Qed.
End Bound.
