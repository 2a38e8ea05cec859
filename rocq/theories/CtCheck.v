(** A checker of secrecy labels for the programs of CtLang.v, and its soundness. *)
Require Import ZArith List Bool String Lia.
From Verif Require Import CtLang.
Import ListNotations.
Local Open Scope string_scope.
Local Open Scope list_scope.
Local Open Scope Z_scope.

(** * The checker *)

(** A set of variables that may hold secrets. *)
Definition sset : Type := list string.
Definition mem (x : string) (g : sset) : bool := existsb (String.eqb x) g.
Definition add (x : string) (g : sset) : sset := if mem x g then g else x :: g.
Definition remove (x : string) (g : sset) : sset := filter (fun y => negb (String.eqb x y)) g.
Definition union (a b : sset) : sset := fold_right add b a.
Definition subset (a b : sset) : bool := forallb (fun x => mem x b) a.
Definition set_label (x : string) (s : bool) (g : sset) : sset := if s then add x g else remove x g.

Section Check.
Context (p : program) (tags : list string).
(** The label of an expression; None: its evaluation leaks a secret. *)
Fixpoint lab (g : sset) (e : expr) : option bool :=
  match e with
  | Var x => Some (mem x g)
  | Num _ | Op0 _ | Addr _ => Some false
  | Op1 _ a => lab g a
  | Op2 o a b =>
      match lab g a, lab g b with
      | Some la, Some lb => if divides o && (la || lb) then None else Some (la || lb)
      | _, _ => None
      end
  | Load l a => match lab g a with Some false => Some (secret l) | _ => None end
  | Reveal tag a => match lab g a with Some _ => if mem tag tags then Some false else None | None => None end
  end.
Fixpoint labs_public (g : sset) (es : list expr) : bool :=
  match es with
  | [] => true
  | e :: es' => match lab g e with Some false => labs_public g es' | _ => false end
  end.
Fixpoint labs_fit (g : sset) (ps : list (string * bool)) (es : list expr) : bool :=
  match ps, es with
  | [], [] => true
  | (_, s) :: ps', e :: es' => match lab g e with Some l => (s || negb l) && labs_fit g ps' es' | None => false end
  | _, _ => false
  end.
(** Repeat until the secrets at the end are secrets at the start. *)
Fixpoint iterate (c : sset -> option (sset * sset)) (k : nat) (g : sset) : option (sset * sset) :=
  match k with
  | O => None
  | S k' =>
      match c g with
      | None => None
      | Some (g1, a1) => if subset g1 g then Some (a1, a1) else iterate c k' (union g1 g)
      end
  end.
(** Secrets after normal completion, and secrets at any exit. *)
Fixpoint chk (ret : bool) (s : stmt) (g : sset) : option (sset * sset) :=
  match s with
  | Skip => Some (g, g)
  | Seq s1 s2 =>
      match chk ret s1 g with
      | Some (g1, a1) => match chk ret s2 g1 with Some (g2, a2) => Some (g2, union a2 a1) | None => None end
      | None => None
      end
  | Assign x e => match lab g e with Some l => Some (set_label x l g, set_label x l g) | None => None end
  | Store l a e =>
      match lab g a, lab g e with
      | Some false, Some le => if secret l || negb le then Some (g, g) else None
      | _, _ => None
      end
  | If e s1 s2 =>
      match lab g e with
      | Some false =>
          match chk ret s1 g, chk ret s2 g with
          | Some (g1, a1), Some (g2, a2) => Some (union g1 g2, union a1 a2)
          | _, _ => None
          end
      | _ => None
      end
  | Loop b =>
      iterate (chk ret b) 6%nat g
  | Break => Some ([], g)
  | Return e => match lab g e with Some l => if ret || negb l then Some ([], g) else None | None => None end
  | Call x f args =>
      match find_func p f with
      | Some h => if labs_fit g (f_params h) args then Some (set_label x (f_secret h) g, set_label x (f_secret h) g) else None
      | None => None
      end
  | Prim _ args => if labs_public g args then Some (g, g) else None
  | PubPrim x _ args => if labs_public g args then Some (set_label x false g, set_label x false g) else None
  | Expose tag a n => match lab g a, lab g n with Some false, Some false => if mem tag tags then Some (g, g) else None | _, _ => None end
  end.
Definition secret_params (ps : list (string * bool)) : sset := map fst (filter snd ps).
Definition chk_func (f : func) : bool := match chk (f_secret f) (f_body f) (secret_params (f_params f)) with Some _ => true | None => false end.
Definition chk_program : bool := forallb chk_func p.
End Check.

(** * Soundness *)

Lemma mem_In x g : mem x g = true <-> In x g.
Proof.
  unfold mem. rewrite existsb_exists. split; [intros (y & H & E); apply String.eqb_eq in E; subst; exact H|intros H; exists x; split; [exact H|apply String.eqb_refl]].
Qed.
Lemma add_In x y g : In x (add y g) <-> x = y \/ In x g.
Proof.
  unfold add. destruct (mem y g) eqn:E; [|cbn; intuition congruence]. apply mem_In in E. split; [tauto|]. intros [-> | H]; assumption.
Qed.
Lemma union_In x a b : In x (union a b) <-> In x a \/ In x b.
Proof. unfold union. induction a as [|y a IH]; cbn; [tauto|]. rewrite add_In, IH. intuition congruence. Qed.
Lemma remove_In x y g : In x (remove y g) <-> x <> y /\ In x g.
Proof.
  unfold remove. rewrite filter_In. split; intros [A B]; (split; [|assumption]) || (split; [assumption|]).
  - intros ->. rewrite String.eqb_refl in B. discriminate.
  - destruct (String.eqb_spec y x); [congruence|reflexivity].
Qed.
Lemma subset_In a b : subset a b = true -> forall x, In x a -> In x b.
Proof. unfold subset. rewrite forallb_forall. intros H x I1. apply mem_In. exact (H x I1). Qed.

(** States that agree on what is public. *)
Definition low_eq (g : sset) (s1 s2 : state) : Prop := (forall x, ~ In x g -> vars s1 x = vars s2 x) /\ pubm s1 = pubm s2.
Lemma low_sub g h s1 s2 : (forall x, In x g -> In x h) -> low_eq g s1 s2 -> low_eq h s1 s2.
Proof. intros S [A B]. split; [|exact B]. intros x N. apply A. intros F. apply N, S, F. Qed.

Section Sound.
Context (m : machine) (p : program) (tags : list string).
(** [alike t1 t2 Q]: a revealed value differs first, or all is the same and [Q]. *)
Definition alike (t1 t2 : list event) (Q : Prop) : Prop :=
  (exists pre tag v1 v2 r1 r2, In tag tags /\ v1 <> v2 /\ t1 = pre ++ E_reveal tag v1 :: r1 /\ t2 = pre ++ E_reveal tag v2 :: r2) \/ (t1 = t2 /\ Q).
Lemma alike_app t1 t2 u1 u2 (Q R : Prop) : alike t1 t2 Q -> (Q -> alike u1 u2 R) -> alike (t1 ++ u1) (t2 ++ u2) R.
Proof.
  intros [D|[-> H]] K.
  - left. destruct D as (pre & tag & v1 & v2 & r1 & r2 & I1 & N & -> & ->). exists pre, tag, v1, v2, (r1 ++ u1), (r2 ++ u2).
    rewrite <- !app_assoc. repeat split; assumption.
  - destruct (K H) as [D|[-> H2]]; [left|right; split; [reflexivity|exact H2]].
    destruct D as (pre & tag & v1 & v2 & r1 & r2 & I1 & N & -> & ->). exists (t2 ++ pre), tag, v1, v2, r1, r2.
    rewrite <- !app_assoc. repeat split; assumption.
Qed.
Lemma alike_imp t1 t2 (Q R : Prop) : alike t1 t2 Q -> (Q -> R) -> alike t1 t2 R.
Proof. intros [D|[E H]] K; [left; exact D|right; split; [exact E|exact (K H)]]. Qed.
Lemma alike_same t (Q : Prop) : Q -> alike t t Q.
Proof. intros H. right. split; [reflexivity|exact H]. Qed.

Lemma eval_sound d s1 s2 g e : low_eq g s1 s2 -> forall l, lab tags g e = Some l ->
  alike (snd (eval m d s1 e)) (snd (eval m d s2 e)) (l = false -> fst (eval m d s1 e) = fst (eval m d s2 e)).
Proof.
  intros L. induction e as [x|z|o|o a IHa|o a IHa b IHb|x|lb a IHa|tag a IHa]; intros l E; cbn [lab eval] in *.
  - injection E as E. apply alike_same. intros ->. apply (proj1 L). intros F. apply mem_In in F. congruence.
  - apply alike_same. reflexivity.
  - apply alike_same. reflexivity.
  - specialize (IHa l E). destruct (eval m d s1 a) as [v1 t1], (eval m d s2 a) as [v2 t2]. cbn [fst snd] in *.
    apply (alike_imp _ _ _ _ IHa). intros H ->. rewrite (H eq_refl). reflexivity.
  - destruct (lab tags g a) as [la|]; [|discriminate]. destruct (lab tags g b) as [lb|]; [|discriminate].
    specialize (IHa la eq_refl). specialize (IHb lb eq_refl).
    destruct (eval m d s1 a) as [v1 t1], (eval m d s2 a) as [v2 t2], (eval m d s1 b) as [w1 u1], (eval m d s2 b) as [w2 u2]. cbn [fst snd] in *.
    destruct (divides o) eqn:D; cbn [andb] in E.
    + destruct la, lb; cbn [orb] in E; try discriminate. injection E as <-.
      apply (alike_app _ _ _ _ (v1 = v2 /\ w1 = w2)).
      * apply (alike_app _ _ _ _ (v1 = v2)); [apply (alike_imp _ _ _ _ IHa); intros H; exact (H eq_refl)|].
        intros ->. apply (alike_imp _ _ _ _ IHb). intros H. split; [reflexivity|exact (H eq_refl)].
      * intros [-> ->]. apply alike_same. reflexivity.
    + injection E as <-. rewrite !app_nil_r.
      apply (alike_app _ _ _ _ _ _ IHa). intros Ha. apply (alike_imp _ _ _ _ IHb). intros Hb F. apply orb_false_elim in F. destruct F as [-> ->].
      rewrite (Ha eq_refl), (Hb eq_refl). reflexivity.
  - apply alike_same. reflexivity.
  - destruct (lab tags g a) as [[|]|]; try discriminate. injection E as <-. specialize (IHa false eq_refl).
    destruct (eval m d s1 a) as [v1 t1], (eval m d s2 a) as [v2 t2]. cbn [fst snd] in *.
    apply (alike_app _ _ _ _ _ _ IHa). intros H. rewrite (H eq_refl). apply alike_same. destruct lb; [|discriminate]. intros _. now rewrite (proj2 L).
  - destruct (lab tags g a) as [la|]; [|discriminate]. destruct (mem tag tags) eqn:M; [|discriminate]. injection E as <-. specialize (IHa la eq_refl).
    destruct (eval m d s1 a) as [v1 t1], (eval m d s2 a) as [v2 t2]. cbn [fst snd] in *.
    apply (alike_app _ _ _ _ _ _ IHa). intros _. destruct (Z.eq_dec v1 v2) as [->|N]; [apply alike_same; reflexivity|].
    left. exists [], tag, [v1], [v2], [], []. apply mem_In in M. repeat split; [assumption|congruence].
Qed.
Lemma evals_sound d s1 s2 g es : low_eq g s1 s2 -> labs_public tags g es = true ->
  alike (snd (evals m d s1 es)) (snd (evals m d s2 es)) (fst (evals m d s1 es) = fst (evals m d s2 es)).
Proof.
  intros L. induction es as [|e es IH]; intros E; cbn [labs_public evals] in *; [apply alike_same; reflexivity|].
  destruct (lab tags g e) as [[|]|] eqn:F; try discriminate. pose proof (eval_sound d s1 s2 g e L false F) as K. specialize (IH E).
  destruct (eval m d s1 e) as [v1 t1], (eval m d s2 e) as [v2 t2], (evals m d s1 es) as [w1 u1], (evals m d s2 es) as [w2 u2]. cbn [fst snd] in *.
  apply (alike_app _ _ _ _ _ _ K). intros H. apply (alike_imp _ _ _ _ IH). intros ->. rewrite (H eq_refl). reflexivity.
Qed.
Lemma fit_sound d s1 s2 g ps es : low_eq g s1 s2 -> labs_fit tags g ps es = true ->
  alike (snd (evals m d s1 es)) (snd (evals m d s2 es)) (public_args ps (fst (evals m d s1 es)) (fst (evals m d s2 es))).
Proof.
  intros L. revert ps. induction es as [|e es IH]; intros [|[x s] ps] E; cbn [labs_fit evals] in *; try discriminate; [apply alike_same; exact I|].
  destruct (lab tags g e) as [l|] eqn:F; [|discriminate]. apply andb_prop in E. destruct E as [E1 E2]. pose proof (eval_sound d s1 s2 g e L l F) as K. specialize (IH ps E2).
  destruct (eval m d s1 e) as [v1 t1], (eval m d s2 e) as [v2 t2], (evals m d s1 es) as [w1 u1], (evals m d s2 es) as [w2 u2]. cbn [fst snd] in *.
  apply (alike_app _ _ _ _ _ _ K). intros H. apply (alike_imp _ _ _ _ IH). intros P. split; [|exact P]. intros ->. apply H. destruct l; [discriminate|reflexivity].
Qed.
Lemma bind_sound ps : forall a b, public_args ps a b -> forall x, ~ In x (secret_params ps) -> bind_params ps a x = bind_params ps b x.
Proof.
  induction ps as [|[y s] ps IH]; intros [|v a] [|w b] P x N; cbn [public_args] in P; try contradiction; [reflexivity|].
  destruct P as [P1 P2]. cbn [bind_params]. unfold update. destruct (String.eqb_spec y x) as [->|D].
  - destruct s; [exfalso; apply N; left; reflexivity|exact (P1 eq_refl)].
  - apply IH; [exact P2|]. intros F. apply N. unfold secret_params. cbn [filter]. destruct (snd (y, s)); [right|]; exact F.
Qed.
Lemma low_set g s1 s2 x l v1 v2 : low_eq g s1 s2 -> (l = false -> v1 = v2) ->
  low_eq (set_label x l g) (mkstate (update String.eqb (vars s1) x v1) (pubm s1) (secm s1)) (mkstate (update String.eqb (vars s2) x v2) (pubm s2) (secm s2)).
Proof.
  intros [A B] H. split; [|exact B]. intros y N. cbn [vars]. unfold update. destruct (String.eqb_spec x y) as [->|D].
  - apply H. destruct l; [|reflexivity]. exfalso. apply N. unfold set_label. apply add_In. left. reflexivity.
  - apply A. intros F. apply N. unfold set_label. destruct l; [apply add_In; right; exact F|]. apply remove_In. split; [congruence|exact F].
Qed.

Context (OK : chk_program p tags = true).
Lemma func_ok f g : find_func p f = Some g -> exists n a, chk p tags (f_secret g) (f_body g) (secret_params (f_params g)) = Some (n, a).
Proof.
  intros F. assert (I1 : In g p).
  { revert F. clear. induction p as [|h q IH]; cbn [find_func]; [discriminate|]. destruct (String.eqb (f_name h) f); [intros E; injection E as ->; left; reflexivity|intros E; right; exact (IH E)]. }
  unfold chk_program in OK. rewrite forallb_forall in OK. specialize (OK g I1). unfold chk_func in OK.
  destruct (chk p tags (f_secret g) (f_body g) (secret_params (f_params g))) as [[n a]|]; [eauto|discriminate].
Qed.
(** Outcomes that agree, given the label of the result. *)
Definition same_outcome (ret : bool) (o1 o2 : outcome) : Prop :=
  match o1, o2 with
  | Normal, Normal | Broke, Broke | Stuck, Stuck => True
  | Returned v, Returned w => ret = false -> v = w
  | _, _ => False
  end.
Definition after (ret : bool) (g a : sset) (r1 r2 : outcome * state * list event) : Prop :=
  alike (snd r1) (snd r2) (same_outcome ret (fst (fst r1)) (fst (fst r2)) /\
    (fst (fst r1) = Normal -> low_eq g (snd (fst r1)) (snd (fst r2))) /\
    (fst (fst r1) = Stuck \/ low_eq a (snd (fst r1)) (snd (fst r2)))).
Lemma after_nil ret g a o1 o2 s1 s2 : same_outcome ret o1 o2 -> (o1 = Normal -> low_eq g s1 s2) -> low_eq a s1 s2 -> after ret g a (o1, s1, []) (o2, s2, []).
Proof. intros A B C. unfold after. cbn [fst snd]. apply alike_same. split; [exact A|]. split; [exact B|right; exact C]. Qed.

Definition after_run (r : outcome * state * list event) (k : outcome -> state -> outcome * state * list event) : outcome * state * list event :=
  let '(o, s, t) := r in let '(o', s', t') := k o s in (o', s', t ++ t').
Lemma after_bind ret ret' g a g' a' r1 r2 k1 k2 : after ret g a r1 r2 ->
  (forall o1 o2 s1 s2, same_outcome ret o1 o2 -> (o1 = Normal -> low_eq g s1 s2) -> (o1 = Stuck \/ low_eq a s1 s2) -> after ret' g' a' (k1 o1 s1) (k2 o2 s2)) ->
  after ret' g' a' (after_run r1 k1) (after_run r2 k2).
Proof.
  destruct r1 as [[o1 s1] t1], r2 as [[o2 s2] t2]. unfold after at 1. cbn [fst snd]. intros A K. unfold after_run.
  specialize (K o1 o2 s1 s2). destruct (k1 o1 s1) as [[p1 q1] u1], (k2 o2 s2) as [[p2 q2] u2]. unfold after in *. cbn [fst snd] in *.
  apply (alike_app _ _ _ _ _ _ A). intros (B & C & D). exact (K B C D).
Qed.
Lemma after_pre ret g a t1 t2 (Q : Prop) r1 r2 : alike t1 t2 Q -> (Q -> after ret g a r1 r2) ->
  after ret g a (let '(o, s, t) := r1 in (o, s, t1 ++ t)) (let '(o, s, t) := r2 in (o, s, t2 ++ t)).
Proof.
  destruct r1 as [[o1 s1] u1], r2 as [[o2 s2] u2]. unfold after. cbn [fst snd]. intros A K. exact (alike_app _ _ _ _ _ _ A K).
Qed.
Lemma after_one ret g a o1 o2 s1 s2 t1 t2 (Q : Prop) : alike t1 t2 Q -> (Q -> same_outcome ret o1 o2 /\ (o1 = Normal -> low_eq g s1 s2) /\ low_eq a s1 s2) ->
  after ret g a (o1, s1, t1) (o2, s2, t2).
Proof. intros A K. unfold after. cbn [fst snd]. apply (alike_imp _ _ _ _ A). intros H. destruct (K H) as (B & C & D). split; [exact B|]. split; [exact C|right; exact D]. Qed.
Lemma exec_seq fuel d st sa sb : exec m p (S fuel) d st (Seq sa sb) =
  after_run (exec m p fuel d st sa) (fun o st1 => match o with Normal => exec m p fuel d st1 sb | _ => (o, st1, []) end).
Proof. cbn [exec]. destruct (exec m p fuel d st sa) as [[o s1] t1]. cbn [after_run]. destruct o; cbn [after_run]; rewrite ?app_nil_r; reflexivity. Qed.
Lemma exec_loop fuel d st b : exec m p (S fuel) d st (Loop b) =
  after_run (exec m p fuel d st b) (fun o st1 => match o with Normal => exec m p fuel d st1 (Loop b) | Broke => (Normal, st1, []) | _ => (o, st1, []) end).
Proof. cbn [exec]. destruct (exec m p fuel d st b) as [[o s1] t1]. cbn [after_run]. destruct o; cbn [after_run]; rewrite ?app_nil_r; reflexivity. Qed.
Definition back (st : state) (x : string) (o : outcome) (st' : state) : outcome * state * list event :=
  match o with
  | Stuck => (Stuck, mkstate (vars st) (pubm st') (secm st'), [])
  | _ => (Normal, mkstate (update String.eqb (vars st) x (match o with Returned v => v | _ => 0 end)) (pubm st') (secm st'), [])
  end.
Lemma exec_call fuel d st x f args g : find_func p f = Some g -> exec m p (S fuel) d st (Call x f args) =
  let '(o, s, t) := after_run (exec m p fuel (S d) (mkstate (bind_params (f_params g) (fst (evals m d st args))) (pubm st) (secm st)) (f_body g)) (back st x) in
  (o, s, (snd (evals m d st args) ++ [E_call f]) ++ t).
Proof.
  intros F. cbn [exec]. rewrite F. destruct (evals m d st args) as [vs t]. cbn [fst snd].
  destruct (exec m p fuel (S d) _ (f_body g)) as [[o s1] t1]. cbn [after_run]. destruct o; cbn [back after_run]; rewrite ?app_nil_r; reflexivity.
Qed.

(** The state found by the checker for a loop. *)
Lemma loop_inv ret b : forall k g n a,
  iterate (chk p tags ret b) k g = Some (n, a) ->
  exists h g1, (forall x, In x g -> In x h) /\ chk p tags ret b h = Some (g1, a) /\ n = a /\ (forall x, In x g1 -> In x h).
Proof.
  induction k as [|k IH]; intros g n a E; [discriminate|]. cbn [iterate] in E. destruct (chk p tags ret b g) as [[g1 a1]|] eqn:C; [|discriminate].
  destruct (subset g1 g) eqn:S1.
  - injection E as <- <-. exists g, g1. split; [tauto|]. split; [exact C|]. split; [reflexivity|exact (subset_In _ _ S1)].
  - destruct (IH _ _ _ E) as (h & g2 & A & B & D & F). exists h, g2. split; [|split; [exact B|split; [exact D|exact F]]]. intros x Hx. apply A, union_In. right. exact Hx.
Qed.
Lemma exec_sound fuel : forall s d ret g n a s1 s2, low_eq g s1 s2 -> chk p tags ret s g = Some (n, a) ->
  after ret n a (exec m p fuel d s1 s) (exec m p fuel d s2 s).
Proof.
  induction fuel as [|fuel IH]; intros s d ret g n a s1 s2 L C.
  { cbn [exec]. unfold after. cbn [fst snd]. apply alike_same. split; [exact I|]. split; [discriminate|left; reflexivity]. }
  destruct s as [|sa sb|x e|l ad e|e sa sb|b| |e|x f args|o args|x o args|tag ad]; cbn [chk] in C.
  - injection C as <- <-. apply after_nil; [exact I|intros _; exact L|exact L].
  - destruct (chk p tags ret sa g) as [[g1 a1]|] eqn:C1; [|discriminate]. destruct (chk p tags ret sb g1) as [[g2 a2]|] eqn:C2; [|discriminate]. injection C as <- <-.
    rewrite !exec_seq. apply (after_bind ret ret g1 a1); [exact (IH sa d ret g g1 a1 s1 s2 L C1)|]. intros o1 o2 q1 q2 A B D.
    assert (U1 : forall x, In x a1 -> In x (union a2 a1)) by (intros x Hx; apply union_In; right; exact Hx).
    assert (U2 : forall x, In x a2 -> In x (union a2 a1)) by (intros x Hx; apply union_In; left; exact Hx).
    assert (Q : o1 <> Normal -> after ret g2 (union a2 a1) (o1, q1, []) (o2, q2, [])).
    { intros N. unfold after. cbn [fst snd]. apply alike_same. split; [exact A|]. split; [contradiction|]. destruct D as [D|D]; [left; exact D|right; exact (low_sub _ _ _ _ U1 D)]. }
    destruct o1, o2; try contradiction; try (apply Q; discriminate).
    pose proof (IH sb d ret g1 g2 a2 q1 q2 (B eq_refl) C2) as K. destruct (exec m p fuel d q1 sb) as [[p1 z1] u1], (exec m p fuel d q2 sb) as [[p2 z2] u2].
    unfold after in *. cbn [fst snd] in *. apply (alike_imp _ _ _ _ K). intros (K1 & K2 & K3). split; [exact K1|]. split; [exact K2|].
    destruct K3 as [K3|K3]; [left; exact K3|right; exact (low_sub _ _ _ _ U2 K3)].
  - destruct (lab tags g e) as [l|] eqn:E; [|discriminate]. injection C as <- <-. pose proof (eval_sound d s1 s2 g e L l E) as K. cbn [exec].
    destruct (eval m d s1 e) as [v1 t1], (eval m d s2 e) as [v2 t2]. cbn [fst snd] in K. apply (after_one _ _ _ _ _ _ _ _ _ _ K). intros H.
    pose proof (low_set g s1 s2 x l v1 v2 L H) as R. split; [exact I|]. split; [intros _|]; exact R.
  - destruct (lab tags g ad) as [[|]|] eqn:E1; try discriminate. destruct (lab tags g e) as [le|] eqn:E2; [|discriminate].
    destruct (secret l || negb le) eqn:E3; [|discriminate]. injection C as <- <-.
    pose proof (eval_sound d s1 s2 g ad L false E1) as K1. pose proof (eval_sound d s1 s2 g e L le E2) as K2. cbn [exec].
    destruct (eval m d s1 ad) as [v1 t1], (eval m d s2 ad) as [v2 t2], (eval m d s1 e) as [w1 u1], (eval m d s2 e) as [w2 u2]. cbn [fst snd] in *.
    apply (after_one _ _ _ _ _ _ _ _ _ (v1 = v2 /\ (le = false -> w1 = w2))).
    + apply (alike_app _ _ _ _ (v1 = v2 /\ (le = false -> w1 = w2))).
      * apply (alike_app _ _ _ _ _ _ K1). intros H. apply (alike_imp _ _ _ _ K2). intros H2. split; [exact (H eq_refl)|exact H2].
      * intros [-> H]. apply alike_same. split; [reflexivity|exact H].
    + intros [-> H]. assert (R : low_eq g (match l with Pub => mkstate (vars s1) (update Z.eqb (pubm s1) v2 w1) (secm s1) | Sec => mkstate (vars s1) (pubm s1) (update Z.eqb (secm s1) v2 w1) end)
        (match l with Pub => mkstate (vars s2) (update Z.eqb (pubm s2) v2 w2) (secm s2) | Sec => mkstate (vars s2) (pubm s2) (update Z.eqb (secm s2) v2 w2) end)).
      { destruct L as [L1 L2]. destruct l; split; cbn [vars pubm]; try assumption. rewrite L2. rewrite H; [reflexivity|]. destruct le; [discriminate|reflexivity]. }
      split; [exact I|]. split; [intros _|]; exact R.
  - destruct (lab tags g e) as [[|]|] eqn:E; try discriminate. destruct (chk p tags ret sa g) as [[g1 a1]|] eqn:C1; [|discriminate].
    destruct (chk p tags ret sb g) as [[g2 a2]|] eqn:C2; [|discriminate]. injection C as <- <-.
    pose proof (eval_sound d s1 s2 g e L false E) as K. cbn [exec]. destruct (eval m d s1 e) as [v1 t1], (eval m d s2 e) as [v2 t2]. cbn [fst snd] in K. cbv zeta.
    apply (after_pre _ _ _ _ _ (v1 = v2)).
    + apply (alike_app _ _ _ _ _ _ K). intros H. rewrite (H eq_refl). apply alike_same. reflexivity.
    + intros ->. assert (W : forall sx gx ax, chk p tags ret sx g = Some (gx, ax) -> (forall x, In x gx -> In x (union g1 g2)) -> (forall x, In x ax -> In x (union a1 a2)) ->
        after ret (union g1 g2) (union a1 a2) (exec m p fuel d s1 sx) (exec m p fuel d s2 sx)).
      { intros sx gx ax Cx U V. pose proof (IH sx d ret g gx ax s1 s2 L Cx) as K2. destruct (exec m p fuel d s1 sx) as [[p1 z1] u1], (exec m p fuel d s2 sx) as [[p2 z2] u2].
        unfold after in *. cbn [fst snd] in *. apply (alike_imp _ _ _ _ K2). intros (A & B & D). split; [exact A|]. split; [intros N; exact (low_sub _ _ _ _ U (B N))|].
        destruct D as [D|D]; [left; exact D|right; exact (low_sub _ _ _ _ V D)]. }
      destruct (negb (v2 =? 0)); [apply (W sa g1 a1 C1)|apply (W sb g2 a2 C2)]; intros x Hx; apply union_In; auto.
  - destruct (loop_inv ret b _ _ _ _ C) as (h & g1 & A & B & -> & D). pose proof (low_sub _ _ _ _ A L) as L'. rewrite !exec_loop.
    apply (after_bind ret ret g1 a); [exact (IH b d ret h g1 a s1 s2 L' B)|]. intros o1 o2 q1 q2 H1 H2 H3.
    destruct o1, o2; try contradiction.
    + apply (IH (Loop b) d ret h a a q1 q2); [exact (low_sub _ _ _ _ D (H2 eq_refl))|]. cbn [chk]. cbn [iterate]. rewrite B.
      assert (S1 : subset g1 h = true) by (unfold subset; apply forallb_forall; intros x Hx; apply mem_In, D, Hx). rewrite S1. reflexivity.
    + destruct H3 as [F|H3]; [discriminate|]. apply after_nil; [exact I|intros _; exact H3|exact H3].
    + destruct H3 as [F|H3]; [discriminate|]. apply after_nil; [exact H1|discriminate|exact H3].
    + unfold after. cbn [fst snd]. apply alike_same. split; [exact I|]. split; [discriminate|left; reflexivity].
  - injection C as <- <-. apply after_nil; [exact I|discriminate|exact L].
  - destruct (lab tags g e) as [l|] eqn:E; [|discriminate]. destruct (ret || negb l) eqn:R; [|discriminate]. injection C as <- <-.
    pose proof (eval_sound d s1 s2 g e L l E) as K. cbn [exec]. destruct (eval m d s1 e) as [v1 t1], (eval m d s2 e) as [v2 t2]. cbn [fst snd] in K.
    apply (after_one _ _ _ _ _ _ _ _ _ _ K). intros H. split; [intros ->; apply H; destruct l; [discriminate|reflexivity]|]. split; [discriminate|exact L].
  - destruct (find_func p f) as [h|] eqn:F; [|discriminate]. destruct (labs_fit tags g (f_params h) args) eqn:E; [|discriminate]. injection C as <- <-.
    rewrite !(exec_call _ _ _ _ _ _ _ F). pose proof (fit_sound d s1 s2 g _ _ L E) as K.
    apply (after_pre _ _ _ _ _ (public_args (f_params h) (fst (evals m d s1 args)) (fst (evals m d s2 args)))).
    + apply (alike_app _ _ _ _ _ _ K). intros H. apply alike_same. exact H.
    + intros PA. destruct (func_ok f h F) as (n1 & a1 & Ch).
      apply (after_bind (f_secret h) ret n1 a1).
      * apply (IH _ _ _ (secret_params (f_params h)) _ _); [|exact Ch]. split; cbn [vars pubm]; [exact (bind_sound _ _ _ PA)|exact (proj2 L)].
      * intros o1 o2 q1 q2 A B D.
        assert (Y : o1 <> Stuck -> forall v1 v2, (f_secret h = false -> v1 = v2) ->
          after ret (set_label x (f_secret h) g) (set_label x (f_secret h) g)
            (Normal, mkstate (update String.eqb (vars s1) x v1) (pubm q1) (secm q1), []) (Normal, mkstate (update String.eqb (vars s2) x v2) (pubm q2) (secm q2), [])).
        { intros N v1 v2 V. destruct D as [D|[_ D]]; [contradiction|].
          pose proof (low_set g (mkstate (vars s1) (pubm q1) (secm q1)) (mkstate (vars s2) (pubm q2) (secm q2)) x (f_secret h) v1 v2 (conj (proj1 L) D) V) as W.
          apply after_nil; [exact I|intros _; exact W|exact W]. }
        destruct o1, o2; try contradiction; cbn [back]; try (apply Y; [discriminate|]; first [reflexivity|exact A]).
        unfold after. cbn [fst snd]. apply alike_same. split; [exact I|]. split; [discriminate|left; reflexivity].
  - destruct (labs_public tags g args) eqn:E; [|discriminate]. injection C as <- <-. pose proof (evals_sound d s1 s2 g args L E) as K. cbn [exec].
    destruct (evals m d s1 args) as [v1 t1], (evals m d s2 args) as [v2 t2]. cbn [fst snd] in K. apply (after_one _ _ _ _ _ _ _ _ _ True).
    + apply (alike_app _ _ _ _ _ _ K). intros ->. apply alike_same. exact I.
    + intros _. assert (R : low_eq g (mkstate (vars s1) (pubm s1) (m_prim m o v1 (pubm s1) (secm s1))) (mkstate (vars s2) (pubm s2) (m_prim m o v2 (pubm s2) (secm s2)))) by exact L.
      split; [exact I|]. split; [intros _|]; exact R.
  - destruct (labs_public tags g args) eqn:E; [|discriminate]. injection C as <- <-. pose proof (evals_sound d s1 s2 g args L E) as K. cbn [exec].
    destruct (evals m d s1 args) as [v1 t1], (evals m d s2 args) as [v2 t2]. cbn [fst snd] in K.
    destruct (m_pubprim m o v1 (pubm s1)) as [r1 pm1] eqn:P1, (m_pubprim m o v2 (pubm s2)) as [r2 pm2] eqn:P2.
    apply (after_one _ _ _ _ _ _ _ _ _ (v1 = v2)).
    + apply (alike_app _ _ _ _ _ _ K). intros ->. apply alike_same. reflexivity.
    + intros ->. rewrite (proj2 L), P2 in P1. injection P1 as -> ->.
      pose proof (low_set g (mkstate (vars s1) pm1 (secm s1)) (mkstate (vars s2) pm1 (secm s2)) x false r1 r1 (conj (proj1 L) eq_refl) (fun _ => eq_refl)) as R.
      split; [exact I|]. split; [intros _|]; exact R.
  - destruct (lab tags g ad) as [[|]|] eqn:E; try discriminate. destruct (lab tags g n0) as [[|]|] eqn:E'; try discriminate.
    destruct (mem tag tags) eqn:M; [|discriminate]. injection C as <- <-.
    pose proof (eval_sound d s1 s2 g ad L false E) as K. pose proof (eval_sound d s1 s2 g n0 L false E') as K'. cbn [exec].
    destruct (eval m d s1 ad) as [v1 t1], (eval m d s2 ad) as [v2 t2], (eval m d s1 n0) as [w1 u1], (eval m d s2 n0) as [w2 u2]. cbn [fst snd] in K, K'. cbv zeta.
    apply (after_one _ _ _ _ _ _ _ _ _ (m_cells m v1 w1 = m_cells m v2 w2 /\ map (secm s1) (m_cells m v1 w1) = map (secm s2) (m_cells m v2 w2))).
    + rewrite <- !app_assoc. apply (alike_app _ _ _ _ _ _ K). intros H. apply (alike_app _ _ _ _ _ _ K'). intros H'. rewrite (H eq_refl), (H' eq_refl).
      set (c1 := map (secm s1) _). set (c2 := map (secm s2) _).
      destruct (list_eq_dec Z.eq_dec c1 c2) as [->|N]; [apply alike_same; split; reflexivity|].
      left. exists [], tag, c1, c2, [], []. apply mem_In in M. repeat split; assumption.
    + intros [-> ->].
      assert (R : forall (q1 q2 : Z -> Z) (f : (Z -> Z) -> Z -> Z), q1 = q2 -> low_eq g (mkstate (vars s1) (f q1) (secm s1)) (mkstate (vars s2) (f q2) (secm s2))).
      { intros q1 q2 f ->. split; [exact (proj1 L)|reflexivity]. }
      specialize (R _ _ (fun q => put_cells q (m_cells m v2 w2) (map (secm s2) (m_cells m v2 w2))) (proj2 L)). split; [exact I|]. split; [intros _|]; exact R.
Qed.
End Sound.

Theorem checked_keeps_secrets p tags f : chk_program p tags = true -> find_func p f <> None -> keeps_secrets p tags f.
Proof.
  intros OK N. destruct (find_func p f) as [g|] eqn:F; [|contradiction]. exists g. split; [exact F|]. intros m fuel a b pub sec1 sec2 PA. unfold run. rewrite F.
  destruct (func_ok p tags OK f g F) as (n & x & C).
  assert (L : low_eq (secret_params (f_params g)) (mkstate (bind_params (f_params g) a) pub sec1) (mkstate (bind_params (f_params g) b) pub sec2)).
  { split; cbn [vars pubm]; [exact (bind_sound _ _ _ PA)|reflexivity]. }
  pose proof (exec_sound m p tags OK fuel (f_body g) 0%nat (f_secret g) _ n x _ _ L C) as [D|[E _]]; [right; exact D|left; exact E].
Qed.
