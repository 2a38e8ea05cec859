(** A small imperative language for C functions, what an observer of its timing sees, and a
    check of secrecy labels.  The programs are in Ct64_*.v and Ct32_*.v. *)
Require Import ZArith List Bool String.
Import ListNotations.
Local Open Scope string_scope.
Local Open Scope list_scope.
Local Open Scope Z_scope.

(** ** Syntax *)

(** Memory cells are in one of two disjoint memories, by the struct field or variable they belong
    to: [Pub] for lengths, flags and constants that control flow depends on, [Sec] for all else. *)
Inductive label : Type := Pub | Sec.
Definition secret (l : label) : bool := match l with Pub => false | Sec => true end.
(** Expressions: local variables, integer constants, constants and addresses of globals by name
    ([Op0]), unary and binary operators (arithmetic, casts, field and array addresses), the
    address of a local, a read from memory, and a value that is made public on purpose. *)
Inductive expr : Type :=
| Var (x : string)
| Num (z : Z)
| Op0 (o : string)
| Op1 (o : string) (a : expr)
| Op2 (o : string) (a b : expr)
| Addr (x : string)
| Load (l : label) (a : expr)
| Reveal (tag : string) (a : expr).
(** Statements.  [Loop] repeats until [Break] or [Return]; [Call x f args] stores the result of
    [f] in [x]; [Prim] is a library function which writes secret memory (memcpy, memset, struct copy);
    [PubPrim] one which only reads and writes public memory, with its result stored in [x];
    [Expose] makes [n] bytes at an address public on purpose. *)
Inductive stmt : Type :=
| Skip
| Seq (s1 s2 : stmt)
| Assign (x : string) (e : expr)
| Store (l : label) (a e : expr)
| If (e : expr) (s1 s2 : stmt)
| Loop (s : stmt)
| Break
| Return (e : expr)
| Call (x f : string) (args : list expr)
| Prim (o : string) (args : list expr)
| PubPrim (x o : string) (args : list expr)
| Expose (tag : string) (a n : expr).
Fixpoint seq (l : list stmt) : stmt := match l with [] => Skip | [s] => s | s :: l' => Seq s (seq l') end.
(** A function: name, parameters with labels (true: may hold a secret), label of the result, body. *)
Record func : Type := mkfunc { f_name : string; f_params : list (string * bool); f_secret : bool; f_body : stmt }.
Definition program : Type := list func.
Fixpoint find_func (p : program) (f : string) : option func :=
  match p with [] => None | g :: p' => if String.eqb (f_name g) f then Some g else find_func p' f end.

(** ** Execution with everything that timing can depend on *)

(** Branches taken, addresses read and written, operands of divisions, arguments of library
    functions, calls, and values made public on purpose. *)
Inductive event : Type :=
| E_branch (b : bool)
| E_address (a : Z)
| E_divide (a b : Z)
| E_prim (o : string) (args : list Z)
| E_call (f : string)
| E_reveal (tag : string) (v : list Z).
Record state : Type := mkstate { vars : string -> Z; pubm : Z -> Z; secm : Z -> Z }.
Inductive outcome : Type := Normal | Broke | Returned (v : Z) | Stuck.
(** The meaning of everything arithmetic is left open: constants, operators, addresses of locals
    by call depth, library functions, which may change the memory in any way, and which cells
    the bytes at an address take. *)
Record machine : Type := mkmachine {
  m_op0 : string -> Z; m_op1 : string -> Z -> Z; m_op2 : string -> Z -> Z -> Z;
  m_addr : nat -> string -> Z;
  m_prim : string -> list Z -> (Z -> Z) -> (Z -> Z) -> (Z -> Z);
  m_pubprim : string -> list Z -> (Z -> Z) -> Z * (Z -> Z);
  m_cells : Z -> Z -> list Z }.

Definition update {A : Type} (eqb : A -> A -> bool) (f : A -> Z) (x : A) (v : Z) : A -> Z := fun y => if eqb x y then v else f y.
(** Write a list of values to a list of cells. *)
Fixpoint put_cells (mem : Z -> Z) (cells vs : list Z) : Z -> Z :=
  match cells, vs with c :: cells', v :: vs' => put_cells (update Z.eqb mem c v) cells' vs' | _, _ => mem end.
Definition divides (o : string) : bool := String.eqb o "/" || String.eqb o "%".
Section Run.
Context (m : machine).
Fixpoint eval (d : nat) (st : state) (e : expr) : Z * list event :=
  match e with
  | Var x => (vars st x, [])
  | Num z => (z, [])
  | Op0 o => (m_op0 m o, [])
  | Op1 o a => let (v, t) := eval d st a in (m_op1 m o v, t)
  | Op2 o a b =>
      let (v, t) := eval d st a in let (w, t') := eval d st b in
      (m_op2 m o v w, (t ++ t') ++ (if divides o then [E_divide v w] else []))
  | Addr x => (m_addr m d x, [])
  | Load l a => let (v, t) := eval d st a in (match l with Pub => pubm st v | Sec => secm st v end, t ++ [E_address v])
  | Reveal tag a => let (v, t) := eval d st a in (v, t ++ [E_reveal tag [v]])
  end.
Fixpoint evals (d : nat) (st : state) (es : list expr) : list Z * list event :=
  match es with
  | [] => ([], [])
  | e :: es' => let (v, t) := eval d st e in let (vs, t') := evals d st es' in (v :: vs, t ++ t')
  end.
Fixpoint bind_params (ps : list (string * bool)) (vs : list Z) : string -> Z :=
  match ps, vs with
  | (x, _) :: ps', v :: vs' => update String.eqb (bind_params ps' vs') x v
  | _, _ => fun _ => 0
  end.
Context (p : program).
(** [fuel] bounds the number of steps; when it runs out, or a function is unknown, the run is stuck. *)
Fixpoint exec (fuel : nat) (d : nat) (st : state) (s : stmt) : outcome * state * list event :=
  match fuel with
  | O => (Stuck, st, [])
  | S fuel' =>
    match s with
    | Skip => (Normal, st, [])
    | Seq s1 s2 =>
        let '(o, st1, t1) := exec fuel' d st s1 in
        match o with
        | Normal => let '(o2, st2, t2) := exec fuel' d st1 s2 in (o2, st2, t1 ++ t2)
        | _ => (o, st1, t1)
        end
    | Assign x e => let (v, t) := eval d st e in (Normal, mkstate (update String.eqb (vars st) x v) (pubm st) (secm st), t)
    | Store l a e =>
        let (v, t) := eval d st a in let (w, t') := eval d st e in
        (Normal, match l with
                 | Pub => mkstate (vars st) (update Z.eqb (pubm st) v w) (secm st)
                 | Sec => mkstate (vars st) (pubm st) (update Z.eqb (secm st) v w)
                 end, (t ++ t') ++ [E_address v])
    | If e s1 s2 =>
        let (v, t) := eval d st e in
        let b := negb (v =? 0) in
        let '(o, st', t') := exec fuel' d st (if b then s1 else s2) in (o, st', (t ++ [E_branch b]) ++ t')
    | Loop b =>
        let '(o, st1, t1) := exec fuel' d st b in
        match o with
        | Normal => let '(o2, st2, t2) := exec fuel' d st1 (Loop b) in (o2, st2, t1 ++ t2)
        | Broke => (Normal, st1, t1)
        | _ => (o, st1, t1)
        end
    | Break => (Broke, st, [])
    | Return e => let (v, t) := eval d st e in (Returned v, st, t)
    | Call x f args =>
        let (vs, t) := evals d st args in
        match find_func p f with
        | None => (Stuck, st, t)
        | Some g =>
            let '(o, st', t') := exec fuel' (S d) (mkstate (bind_params (f_params g) vs) (pubm st) (secm st)) (f_body g) in
            match o with
            | Stuck => (Stuck, mkstate (vars st) (pubm st') (secm st'), (t ++ [E_call f]) ++ t')
            | _ => (Normal, mkstate (update String.eqb (vars st) x (match o with Returned v => v | _ => 0 end)) (pubm st') (secm st'), (t ++ [E_call f]) ++ t')
            end
        end
    | Prim o args =>
        let (vs, t) := evals d st args in
        (Normal, mkstate (vars st) (pubm st) (m_prim m o vs (pubm st) (secm st)), t ++ [E_prim o vs])
    | PubPrim x o args =>
        let (vs, t) := evals d st args in
        let (r, pm) := m_pubprim m o vs (pubm st) in
        (Normal, mkstate (update String.eqb (vars st) x r) pm (secm st), t ++ [E_prim o vs])
    | Expose tag a n =>
        let (v, t) := eval d st a in let (w, t') := eval d st n in
        let cells := m_cells m v w in let c := map (secm st) cells in
        (Normal, mkstate (vars st) (put_cells (pubm st) cells c) (secm st), (t ++ t') ++ [E_reveal tag c])
    end
  end.
(** A call of [f] from outside: what is returned and what is seen. *)
Definition run (fuel : nat) (f : string) (args : list Z) (pub sec : Z -> Z) : outcome * state * list event :=
  match find_func p f with
  | None => (Stuck, mkstate (fun _ => 0) pub sec, [])
  | Some g => exec fuel 0 (mkstate (bind_params (f_params g) args) pub sec) (f_body g)
  end.
End Run.

(** ** Secrecy *)

(** Two runs are seen alike, or their first difference is a value made public on purpose with one of the [tags]. *)
Definition seen_alike (tags : list string) (t1 t2 : list event) : Prop :=
  t1 = t2 \/ exists pre tag v1 v2 r1 r2, In tag tags /\ v1 <> v2 /\ t1 = (pre ++ E_reveal tag v1 :: r1) /\ t2 = (pre ++ E_reveal tag v2 :: r2).
(** Argument lists that agree on the public parameters. *)
Fixpoint public_args (ps : list (string * bool)) (a b : list Z) : Prop :=
  match ps, a, b with
  | [], [], [] => True
  | (_, sec) :: ps', x :: a', y :: b' => (sec = false -> x = y) /\ public_args ps' a' b'
  | _, _, _ => False
  end.
(** [f] keeps its secrets: on any machine, two calls which differ only in secret arguments and in
    the secret memory are seen alike, for any number of steps. *)
Definition keeps_secrets (p : program) (tags : list string) (f : string) : Prop :=
  exists g, find_func p f = Some g /\
  forall m fuel a b pub sec1 sec2, public_args (f_params g) a b ->
    seen_alike tags (snd (run m p fuel f a pub sec1)) (snd (run m p fuel f b pub sec2)).
