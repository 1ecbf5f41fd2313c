(** Go's rules for the names of a function body: every name used is declared
    before, every variable declared is used, [:=] declares something new, only
    variables are assigned to, types and packages are not hidden by variables,
    and the body ends with a return statement.
    (The Go Programming Language Specification, Declarations and scope,
    Short variable declarations, Terminating statements.) *)
From Coq Require Import Ascii String Bool List.
From Verif Require Import GoBase PgSpec.
Import ListNotations.
Local Open Scope string_scope.
Local Open Scope list_scope.

(** The names an expression mentions: those of variables and constants of the
    function, and those of packages, types and predeclared identifiers. *)
Record ex := MkEx { locals : list text; outers : list text }.

(** Statements, as far as names are concerned. *)
Inductive go :=
| Const (x : text) (e : ex)             (* const x = e *)
| Var (x : text) (e : ex)               (* var x = e; var x T *)
| Short (xs : list text) (e : ex)       (* x, y := e *)
| Assign (x : text) (e : ex)            (* x = e; x += e *)
| Eval (e : ex)                         (* calls, conditions, assignments to fields and elements *)
| Block (l : list go)                   (* the block of an if or for statement, or its body *)
| Return (e : ex).

(** What is declared: names, and whether they can be assigned to. *)
Definition scope : Type := list (text * bool).
Definition declared (x : text) (s : scope) : Prop := exists b, In (x, b) s.
(** The innermost declaration of a name *)
Inductive means : text -> bool -> scope -> Prop :=
| m_here : forall x b s, means x b ((x, b) :: s)
| m_there : forall x b y c s, x <> y -> means x b s -> means x b ((y, c) :: s).
Definition legal_ex (s : scope) (e : ex) : Prop :=
  (forall x, In x (locals e) -> declared x s) /\ (forall x, In x (outers e) -> ~ declared x s).
Definition blank : text := lit "_".

(** The new variables of a short declaration *)
Inductive fresh (s : scope) : list text -> list text -> Prop :=
| f_nil : fresh s [] []
| f_blank : forall xs ys, fresh s xs ys -> fresh s (blank :: xs) ys
| f_old : forall x xs ys, x <> blank -> means x true s -> ~ In x xs -> fresh s xs ys -> fresh s (x :: xs) ys
| f_new : forall x xs ys, x <> blank -> ~ declared x s -> ~ In x xs -> fresh s xs ys -> fresh s (x :: xs) (x :: ys).

Definition without (ys : list text) (u : list text) : list text := filter (fun x => negb (existsb (bytes_eqb x) ys)) u.

(** [scoped above here l u]: the statements [l] of a block obey the rules;
    [above] is what surrounding blocks declare, [here] what this one has
    declared so far, and [u] lists the names of either that [l] uses. *)
Inductive scoped : scope -> scope -> list go -> list text -> Prop :=
| s_nil : forall above here, scoped above here [] []
| s_const : forall above here x e l u, legal_ex (here ++ above) e -> ~ declared x here ->
    scoped above ((x, false) :: here) l u -> scoped above here (Const x e :: l) (locals e ++ without [x] u)
| s_var : forall above here x e l u, legal_ex (here ++ above) e -> ~ declared x here ->
    scoped above ((x, true) :: here) l u -> In x u -> scoped above here (Var x e :: l) (locals e ++ without [x] u)
| s_short : forall above here xs ys e l u, legal_ex (here ++ above) e -> fresh here xs ys -> ys <> [] ->
    scoped above (map (fun y => (y, true)) ys ++ here) l u -> (forall y, In y ys -> In y u) ->
    scoped above here (Short xs e :: l) (locals e ++ without ys u)
| s_assign : forall above here x e l u, legal_ex (here ++ above) e -> means x true (here ++ above) ->
    scoped above here l u -> scoped above here (Assign x e :: l) (locals e ++ u)
| s_eval : forall above here e l u, legal_ex (here ++ above) e -> scoped above here l u ->
    scoped above here (Eval e :: l) (locals e ++ u)
| s_block : forall above here b l u u', scoped (here ++ above) [] b u -> scoped above here l u' ->
    scoped above here (Block b :: l) (u ++ u')
| s_return : forall above here e l u, legal_ex (here ++ above) e -> scoped above here l u ->
    scoped above here (Return e :: l) (locals e ++ u).

(** A function with the parameters [ps], which need not be used. *)
Definition good_body (ps : list text) (l : list go) : Prop :=
  (exists u, scoped [] (map (fun p => (p, true)) ps) l u) /\ exists l' e, l = l' ++ [Return e].
