(** Which values a function of CtLang.v can make public on purpose, by itself or in the functions it calls. *)
Require Import ZArith List Bool String Lia.
From Verif Require Import CtLang CtCheck.
Import ListNotations.
Local Open Scope string_scope.
Local Open Scope list_scope.
Local Open Scope Z_scope.

(** * Tags in the text of a function *)

Fixpoint expr_tags (e : expr) : list string :=
  match e with
  | Var _ | Num _ | Op0 _ | Addr _ => []
  | Op1 _ a | Load _ a => expr_tags a
  | Op2 _ a b => expr_tags a ++ expr_tags b
  | Reveal t a => t :: expr_tags a
  end.
Definition exprs_tags (es : list expr) : list string := flat_map expr_tags es.
(** The tags in a statement, and the functions called by it. *)
Fixpoint stmt_tags (s : stmt) : list string :=
  match s with
  | Skip | Break => []
  | Seq a b => stmt_tags a ++ stmt_tags b
  | Assign _ e | Return e => expr_tags e
  | Store _ a e => expr_tags a ++ expr_tags e
  | If e a b => expr_tags e ++ stmt_tags a ++ stmt_tags b
  | Loop b => stmt_tags b
  | Call _ _ args | Prim _ args | PubPrim _ _ args => exprs_tags args
  | Expose t a n => t :: expr_tags a ++ expr_tags n
  end.
Fixpoint stmt_calls (s : stmt) (acc : sset) : sset :=
  match s with
  | Seq a b | If _ a b => stmt_calls b (stmt_calls a acc)
  | Loop b => stmt_calls b acc
  | Call _ f _ => add f acc
  | _ => acc
  end.

(** A table of tags by function is right for a program when every function's own tags, and the tags of the functions it calls, are in its entry. *)
Definition table : Type := list (string * list string).
Fixpoint entry (e : table) (f : string) : option (list string) :=
  match e with [] => None | (g, ts) :: e' => if String.eqb f g then Some ts else entry e' f end.
Definition entry_right (e : table) (g : func) : bool :=
  match entry e (f_name g) with
  | None => false
  | Some ts =>
      subset (stmt_tags (f_body g)) ts &&
      forallb (fun f => match entry e f with None => false | Some us => subset us ts end) (stmt_calls (f_body g) [])
  end.
Definition table_right (e : table) (p : program) : bool := forallb (entry_right e) p.

(** * The events of a run only carry these tags *)

Definition tags_in (ts : list string) (t : list event) : Prop := forall tag v, In (E_reveal tag v) t -> In tag ts.
Lemma tags_in_nil ts : tags_in ts []. Proof. intros tag v []. Qed.
Lemma tags_in_app ts a b : tags_in ts a -> tags_in ts b -> tags_in ts (a ++ b).
Proof. intros A B tag v I. apply in_app_or in I. destruct I as [I|I]; [exact (A _ _ I)|exact (B _ _ I)]. Qed.
Lemma tags_in_sub ts us t : incl us ts -> tags_in us t -> tags_in ts t.
Proof. intros S U tag v I. apply S. exact (U _ _ I). Qed.
Lemma tags_in_one ts e : (forall tag v, e <> E_reveal tag v) -> tags_in ts [e].
Proof. intros N tag v [E|[]]. exfalso. exact (N _ _ E). Qed.
Lemma calls_acc s acc f : In f acc -> In f (stmt_calls s acc).
Proof.
  revert acc. induction s; intros acc I; cbn [stmt_calls]; try exact I; auto. apply add_In. right. exact I.
Qed.
Lemma calls_mono s : forall a b f, incl a b -> In f (stmt_calls s a) -> In f (stmt_calls s b).
Proof.
  induction s; intros a' b' g S I; cbn [stmt_calls] in *; try exact (S _ I); eauto.
  - refine (IHs2 _ _ _ _ I). intros x X. eapply IHs1; eassumption.
  - refine (IHs2 _ _ _ _ I). intros x X. eapply IHs1; eassumption.
  - apply add_In in I. apply add_In. destruct I as [->|I]; [left; reflexivity|right; exact (S _ I)].
Qed.

Section Tags.
Context (m : machine) (p : program) (e : table).
Hypothesis OK : table_right e p = true.
Lemma eval_tags d st x ts : incl (expr_tags x) ts -> tags_in ts (snd (eval m d st x)).
Proof.
  induction x; cbn [expr_tags eval]; intros S; try apply tags_in_nil.
  - destruct (eval m d st x) as [v t]. cbn [snd] in *. exact (IHx S).
  - specialize (IHx1 (fun y Y => S y (in_or_app _ _ _ (or_introl Y)))). specialize (IHx2 (fun y Y => S y (in_or_app _ _ _ (or_intror Y)))).
    destruct (eval m d st x1) as [v t], (eval m d st x2) as [w u]. cbn [snd] in *. apply tags_in_app; [apply tags_in_app; assumption|].
    destruct (divides o); [apply tags_in_one; discriminate|apply tags_in_nil].
  - specialize (IHx S). destruct (eval m d st x) as [v t]. cbn [snd] in *. apply tags_in_app; [exact IHx|apply tags_in_one; discriminate].
  - specialize (IHx (fun y Y => S y (or_intror Y))). destruct (eval m d st x) as [v t]. cbn [snd] in *. apply tags_in_app; [exact IHx|].
    intros tg w [E|[]]. injection E as <- _. apply S. left. reflexivity.
Qed.
Lemma evals_tags d st xs ts : incl (exprs_tags xs) ts -> tags_in ts (snd (evals m d st xs)).
Proof.
  unfold exprs_tags. induction xs as [|x xs IH]; cbn [flat_map evals]; intros S; [apply tags_in_nil|].
  pose proof (eval_tags d st x ts (fun y Y => S y (in_or_app _ _ _ (or_introl Y)))) as A. specialize (IH (fun y Y => S y (in_or_app _ _ _ (or_intror Y)))).
  destruct (eval m d st x) as [v t], (evals m d st xs) as [w u]. cbn [snd] in *. apply tags_in_app; assumption.
Qed.
Lemma find_func_In q f g : find_func q f = Some g -> In g q /\ f_name g = f.
Proof.
  induction q as [|h q IH]; cbn [find_func]; [discriminate|]. destruct (String.eqb_spec (f_name h) f) as [E|N].
  - intros X. injection X as <-. split; [left; reflexivity|exact E].
  - intros X. destruct (IH X). split; [right; assumption|assumption].
Qed.
Definition calls_fit (s : stmt) (ts : list string) : Prop := forall f, In f (stmt_calls s []) -> exists us, entry e f = Some us /\ incl us ts.
Lemma body_fits f g : find_func p f = Some g -> exists ts, entry e f = Some ts /\ incl (stmt_tags (f_body g)) ts /\ calls_fit (f_body g) ts.
Proof.
  intros F. apply find_func_In in F. destruct F as [I <-]. unfold table_right in OK. rewrite forallb_forall in OK. specialize (OK g I). unfold entry_right in OK.
  destruct (entry e (f_name g)) as [ts|]; [|discriminate]. apply andb_prop in OK. destruct OK as [A B]. exists ts. split; [reflexivity|]. split; [exact (subset_In _ _ A)|].
  intros f I'. rewrite forallb_forall in B. specialize (B f I'). destruct (entry e f) as [us|]; [|discriminate]. exists us. split; [reflexivity|exact (subset_In _ _ B)].
Qed.
Lemma exec_tags fuel : forall d st s ts, incl (stmt_tags s) ts -> calls_fit s ts -> tags_in ts (snd (exec m p fuel d st s)).
Proof.
  induction fuel as [|fuel IH]; intros d st s ts S C; [apply tags_in_nil|]. destruct s; cbn [exec stmt_tags] in *.
  - apply tags_in_nil.
  - assert (S1 : incl (stmt_tags s1) ts) by (intros y Y; apply S, in_or_app; left; exact Y).
    assert (S2 : incl (stmt_tags s2) ts) by (intros y Y; apply S, in_or_app; right; exact Y).
    assert (C1 : calls_fit s1 ts) by (intros f F; apply C; cbn [stmt_calls]; apply calls_acc; exact F).
    assert (C2 : calls_fit s2 ts) by (intros f F; apply C; cbn [stmt_calls]; refine (calls_mono _ _ _ _ _ F); intros y []).
    pose proof (IH d st s1 ts S1 C1) as A. destruct (exec m p fuel d st s1) as [[o st1] t1]. cbn [snd] in A.
    destruct o; try exact A. pose proof (IH d st1 s2 ts S2 C2) as B. destruct (exec m p fuel d st1 s2) as [[o2 st2] t2]. cbn [snd] in *. apply tags_in_app; assumption.
  - pose proof (eval_tags d st e0 ts S) as A. destruct (eval m d st e0) as [v t]. exact A.
  - pose proof (eval_tags d st a ts (fun y Y => S y (in_or_app _ _ _ (or_introl Y)))) as A. pose proof (eval_tags d st e0 ts (fun y Y => S y (in_or_app _ _ _ (or_intror Y)))) as B.
    destruct (eval m d st a) as [v t], (eval m d st e0) as [w u]. cbn [snd] in *. apply tags_in_app; [apply tags_in_app; assumption|apply tags_in_one; discriminate].
  - pose proof (eval_tags d st e0 ts (fun y Y => S y (in_or_app _ _ _ (or_introl Y)))) as A. destruct (eval m d st e0) as [v t]. cbn [snd] in A. cbv zeta.
    assert (X : forall q, q = s1 \/ q = s2 -> tags_in ts (snd (exec m p fuel d st q))).
    { intros q Q. apply IH.
      - intros y Y. apply S, in_or_app. right. apply in_or_app. destruct Q as [->| ->]; [left|right]; exact Y.
      - intros f F. apply C. cbn [stmt_calls]. destruct Q as [->| ->]; [apply calls_acc; exact F|refine (calls_mono _ _ _ _ _ F); intros y []]. }
    specialize (X (if negb (v =? 0) then s1 else s2)). destruct (exec m p fuel d st (if negb (v =? 0) then s1 else s2)) as [[o st'] t']. cbn [snd] in *.
    apply tags_in_app; [apply tags_in_app; [exact A|apply tags_in_one; discriminate]|]. apply X. destruct (negb (v =? 0)); [left|right]; reflexivity.
  - pose proof (IH d st s ts S C) as A. destruct (exec m p fuel d st s) as [[o st1] t1]. cbn [snd] in A. destruct o; try exact A.
    pose proof (IH d st1 (Loop s) ts S C) as B. destruct (exec m p fuel d st1 (Loop s)) as [[o2 st2] t2]. cbn [snd] in *. apply tags_in_app; assumption.
  - apply tags_in_nil.
  - pose proof (eval_tags d st e0 ts S) as A. destruct (eval m d st e0) as [v t]. exact A.
  - pose proof (evals_tags d st args ts S) as A. destruct (evals m d st args) as [vs t]. cbn [snd] in A. destruct (find_func p f) as [g|] eqn:F; [|exact A].
    destruct (body_fits f g F) as (us & E & B1 & B2). destruct (C f) as (us' & E' & U); [left; reflexivity|]. rewrite E in E'. injection E' as <-.
    pose proof (tags_in_sub _ _ _ U (IH (Datatypes.S d) (mkstate (bind_params (f_params g) vs) (pubm st) (secm st)) (f_body g) us B1 B2)) as B.
    destruct (exec m p fuel (Datatypes.S d) (mkstate (bind_params (f_params g) vs) (pubm st) (secm st)) (f_body g)) as [[o st'] t']. cbn [snd] in B.
    destruct o; cbn [snd]; (apply tags_in_app; [apply tags_in_app; [exact A|apply tags_in_one; discriminate]|exact B]).
  - pose proof (evals_tags d st args ts S) as A. destruct (evals m d st args) as [vs t]. cbn [snd] in *. apply tags_in_app; [exact A|apply tags_in_one; discriminate].
  - pose proof (evals_tags d st args ts S) as A. destruct (evals m d st args) as [vs t]. destruct (m_pubprim m o vs (pubm st)) as [r pm]. cbn [snd] in *.
    apply tags_in_app; [exact A|apply tags_in_one; discriminate].
  - pose proof (eval_tags d st a ts (fun y Y => S y (or_intror (in_or_app _ _ _ (or_introl Y))))) as A.
    pose proof (eval_tags d st n ts (fun y Y => S y (or_intror (in_or_app _ _ _ (or_intror Y))))) as B.
    destruct (eval m d st a) as [v t], (eval m d st n) as [w u]. cbv zeta. cbn [snd] in *. apply tags_in_app; [apply tags_in_app; assumption|].
    intros tg w' [E|[]]. injection E as <- _. apply S. left. reflexivity.
Qed.
End Tags.

(** A checked program keeps secrets up to the tags in a function's entry. *)
Theorem checked_keeps_secrets_up_to p all e f ts : chk_program p all = true -> table_right e p = true -> find_func p f <> None -> entry e f = Some ts -> keeps_secrets p ts f.
Proof.
  intros K R N E. destruct (checked_keeps_secrets p all f K N) as (g & F & A). exists g. split; [exact F|]. intros m fuel a b pub sec1 sec2 P.
  assert (T : forall x sec, tags_in ts (snd (run m p fuel f x pub sec))).
  { intros x sec. unfold run. rewrite F. destruct (body_fits p e R f g F) as (us & E' & B1 & B2). rewrite E in E'. injection E' as <-. exact (exec_tags m p e R fuel _ _ _ _ B1 B2). }
  destruct (A m fuel a b pub sec1 sec2 P) as [Q|(pre & tag & v1 & v2 & r1 & r2 & I1 & V & T1 & T2)]; [left; exact Q|right].
  exists pre, tag, v1, v2, r1, r2. split; [|auto]. apply (T a sec1 tag v1). rewrite T1. apply in_or_app. right. left. reflexivity.
Qed.
