(** What the statements the generator writes do when the method is called: a
    small interpreter for that fragment of Go.  Nothing of the repository is
    transcribed here except the two functions of the package gosql the code
    calls, InValueList and the array OrdinalParameters. *)
From Coq Require Import Ascii String ZArith NArith Bool List.
From Verif Require Import GoBase AParse Analysis Oids Gen.
Import ListNotations.
Local Open Scope string_scope.
Local Open Scope list_scope.

(** ** Traversals of SQL trees *)

Fixpoint sexpr_map {P Q} (f : P -> Q) (e : sexpr P) : sexpr Q :=
  match e with
  | XDefault => XDefault
  | XParam p => XParam (f p)
  | XCol id => XCol id
  | XLit l => XLit l
  | XCast e t => XCast (sexpr_map f e) t
  | XNullif e l => XNullif (sexpr_map f e) l
  | XCoalesce a b => XCoalesce (sexpr_map f a) (sexpr_map f b)
  | XFunc g e => XFunc g (sexpr_map f e)
  | XQuant q e => XQuant q (sexpr_map f e)
  end.
Fixpoint sexpr_params {P} (e : sexpr P) : list P :=
  match e with
  | XDefault | XCol _ | XLit _ => []
  | XParam p => [p]
  | XCast e _ | XNullif e _ | XFunc _ e | XQuant _ e => sexpr_params e
  | XCoalesce a b => sexpr_params a ++ sexpr_params b
  end.

Fixpoint bexpr_map {P Q L M} (f : P -> Q) (g : L -> M) (e : bexpr P L) : bexpr Q M :=
  match e with
  | YOp op l r => YOp op (sexpr_map f l) (sexpr_map f r)
  | YIn neg l vs => YIn neg (sexpr_map f l) (g vs)
  | YTruth neg t e => YTruth neg t (sexpr_map f e)
  | YNull neg e => YNull neg (sexpr_map f e)
  | YBetween e lo hi => YBetween (sexpr_map f e) (sexpr_map f lo) (sexpr_map f hi)
  | YVal e => YVal (sexpr_map f e)
  | YNil => YNil
  | YList p items => YList p (map (fun it => (fst it, bexpr_map f g (snd it))) items)
  end.
(** The parameters of a tree; [h] lists those of an IN list. *)
Fixpoint bexpr_params {P L} (h : L -> list P) (e : bexpr P L) : list P :=
  match e with
  | YOp _ l r => sexpr_params l ++ sexpr_params r
  | YIn _ l vs => sexpr_params l ++ h vs
  | YTruth _ _ e | YNull _ e | YVal e => sexpr_params e
  | YBetween e lo hi => sexpr_params e ++ sexpr_params lo ++ sexpr_params hi
  | YNil => []
  | YList _ items => flat_map (fun it => bexpr_params h (snd it)) items
  end.
Fixpoint bexpr_lists {P L} (e : bexpr P L) : list L :=
  match e with
  | YIn _ _ vs => [vs]
  | YList _ items => flat_map (fun it => bexpr_lists (snd it)) items
  | _ => []
  end.

Definition tjoin_map {P Q L M} (f : P -> Q) (g : L -> M) (j : tjoin P L) : tjoin Q M :=
  MkTJ (tj_type j) (tj_rel j) (bexpr_map f g (tj_cond j)).
Definition texpr_map {P Q L M} (f : P -> Q) (g : L -> M) (x : texpr P L) : texpr Q M :=
  match x with TxRel r => TxRel r | TxJoin j => TxJoin (tjoin_map f g j) | TxValues => TxValues end.
Definition lim_map {P Q} (f : P -> Q) (l : lim P) : lim Q :=
  match l with LNone => LNone | LInt n => LInt n | LParam p => LParam (f p) end.
Definition stmt_map {P Q L M} (f : P -> Q) (g : L -> M) (n : sstmt P L) : sstmt Q M :=
  let es := map (sexpr_map f) in
  let js := map (tjoin_map f g) in
  let ts := map (texpr_map f g) in
  let w := option_map (bexpr_map f g) in
  match n with
  | StInsert t cols ovr vals oc ret => StInsert t cols ovr (es vals) oc (es ret)
  | StUpdate t cols vals from wh ret => StUpdate t cols (es vals) (ts from) (w wh) (es ret)
  | StSelect cols t joins wh ord l o => StSelect (es cols) t (js joins) (w wh) ord (lim_map f l) (lim_map f o)
  | StCount t joins wh ord o => StCount t (js joins) (w wh) ord (lim_map f o)
  | StExists neg open t joins wh ord l o =>
      StExists neg open t (js joins) (w wh) ord (lim_map f l) (lim_map f o)
  | StDelete t from wh ret => StDelete t (ts from) (w wh) (es ret)
  | StInsertTail oc ret => StInsertTail oc (es ret)
  | StUpdateTail alias wh ret => StUpdateTail alias (w wh) (es ret)
  end.

Definition lim_params {P} (l : lim P) : list P := match l with LParam p => [p] | _ => [] end.
Definition texpr_params {P L} (h : L -> list P) (x : texpr P L) : list P :=
  match x with TxJoin j => bexpr_params h (tj_cond j) | _ => [] end.
Definition opt_list {A B} (f : A -> list B) (o : option A) : list B := match o with Some a => f a | None => [] end.
(** All parameters of a statement, as they come in its text. *)
Definition stmt_params {P L} (h : L -> list P) (n : sstmt P L) : list P :=
  let es := flat_map (@sexpr_params P) in
  let js := flat_map (fun j => bexpr_params h (tj_cond j)) in
  let ts := flat_map (texpr_params h) in
  let w := opt_list (bexpr_params h) in
  match n with
  | StInsert _ _ _ vals _ ret => es vals ++ es ret
  | StUpdate _ _ vals from wh ret => es vals ++ ts from ++ w wh ++ es ret
  | StSelect cols _ joins wh _ l o => es cols ++ js joins ++ w wh ++ lim_params l ++ lim_params o
  | StCount _ joins wh _ o => js joins ++ w wh ++ lim_params o
  | StExists _ _ _ joins wh _ l o => js joins ++ w wh ++ lim_params l ++ lim_params o
  | StDelete _ from wh ret => ts from ++ w wh ++ es ret
  | StInsertTail _ ret => es ret
  | StUpdateTail _ wh ret => w wh ++ es ret
  end.
Definition stmt_lists {P L} (n : sstmt P L) : list L :=
  let js := flat_map (fun j => bexpr_lists (tj_cond j)) in
  let ts := flat_map (fun x => match x with TxJoin j => bexpr_lists (tj_cond j) | _ => [] end) in
  let w := opt_list (@bexpr_lists P L) in
  match n with
  | StInsert _ _ _ _ _ _ | StInsertTail _ _ => []
  | StUpdate _ _ _ from wh _ => ts from ++ w wh
  | StSelect _ _ joins wh _ _ _ => js joins ++ w wh
  | StCount _ joins wh _ _ => js joins ++ w wh
  | StExists _ _ _ joins wh _ _ _ => js joins ++ w wh
  | StDelete _ from wh _ => ts from ++ w wh
  | StUpdateTail _ wh _ => w wh
  end.

(** ** Values and query texts *)

(** Go values: nil, integers, anything else the driver is given, structs,
    slices, and the result of a function of the package pgsql.  A pointer to a
    value is written as the value.  A filter is seen through ToSQL only: its
    text, in which a number k stands for its k-th value (from 0), and its
    values (the theorems about the package filter give just this shape). *)
Inductive gv :=
| VNil | VInt (z : Z) | VData (n : nat)
| VStruct (fields : list (bytes * gv))
| VSlice (l : list gv)
| VConv (fn : bytes) (v : gv)
| VFilter (text : list (ascii + nat)) (vals : list gv).

(** The text of a query: characters, $n, and the text of an SQL tree. *)
Inductive tok := TChr (c : ascii) | TPar (n : Z) | TNode (n : sstmt Z (list Z)).
Definition toks (t : bytes) : list tok := map TChr t.

Record call := MkCall { cl_method : callm; cl_ctx : option (option gv); cl_text : list tok; cl_args : list gv }.

Record st := MkSt {
  s_q : gv; s_v : gv; s_int : ivar -> Z; s_params : list gv; s_text : list tok; s_filter : list tok;
  s_call : option call }.
Definition st0 (q : gv) : st := MkSt q VNil (fun _ => 0%Z) [] [] [] None.

Definition set_q q s := MkSt q (s_v s) (s_int s) (s_params s) (s_text s) (s_filter s) (s_call s).
Definition set_v v s := MkSt (s_q s) v (s_int s) (s_params s) (s_text s) (s_filter s) (s_call s).
Definition ivar_eqb (a b : ivar) : bool :=
  match a, b with
  | VNstatic, VNstatic | VI, VI | VPos, VPos => true
  | VLen i, VLen j | VPosK i, VPosK j => Nat.eqb i j
  | _, _ => false
  end.
Definition set_int x z s :=
  MkSt (s_q s) (s_v s) (fun y => if ivar_eqb y x then z else s_int s y) (s_params s) (s_text s) (s_filter s) (s_call s).
Definition set_params l s := MkSt (s_q s) (s_v s) (s_int s) l (s_text s) (s_filter s) (s_call s).
Definition set_text t s := MkSt (s_q s) (s_v s) (s_int s) (s_params s) t (s_filter s) (s_call s).
Definition set_filter t s := MkSt (s_q s) (s_v s) (s_int s) (s_params s) (s_text s) t (s_call s).
Definition set_call c s := MkSt (s_q s) (s_v s) (s_int s) (s_params s) (s_text s) (s_filter s) (Some c).

(** ** Expressions *)

Definition get_field (f : bytes) (l : list (bytes * gv)) : option gv :=
  match find (fun p => bytes_eqb (fst p) f) l with Some p => Some (snd p) | None => None end.
Definition gfield (v : gv) (f : bytes) : option gv :=
  match v with VStruct l => get_field f l | _ => None end.
Definition or_panic {A} (o : option A) : res A := match o with Some a => Ok a | None => Panic end.
Definition znth {A} (l : list A) (z : Z) : option A := if (z <? 0)%Z then None else nth_error l (Z.to_nat z).

(** A selector on nil panics, as does an index out of range. *)
Fixpoint eval (s : st) (e : gexpr) : res gv :=
  match e with
  | GQ => Ok (s_q s)
  | GV => Ok (s_v s)
  | GSel e f => bind (eval s e) (fun v => or_panic (gfield v f))
  | GIdx e x => bind (eval s e) (fun v => match v with VSlice l => or_panic (znth l (s_int s x)) | _ => Panic end)
  | GConv fn e => rmap (VConv fn) (eval s e)
  | GAddr e => eval s e
  end.
Definition glen (v : gv) : Z := match v with VSlice l => Z.of_nat (List.length l) | _ => 0 end.
Fixpoint ieval (s : st) (e : iexpr) : res Z :=
  match e with
  | IConst z => Ok z
  | IVar x => Ok (s_int s x)
  | IAdd a b => bind (ieval s a) (fun x => bind (ieval s b) (fun y => Ok (x + y)%Z))
  | IMul a b => bind (ieval s a) (fun x => bind (ieval s b) (fun y => Ok (x * y)%Z))
  | ILen e => rmap glen (eval s e)
  end.

(** gosql.go:408-426: an index into OrdinalParameters must be below 65535. *)
Definition ordinal_ok (i : Z) : bool := (0 <=? i)%Z && (i <? 65535)%Z.
Definition in_numbers (num pos : Z) : list Z := map (fun i => pos + 1 + Z.of_nat i)%Z (seq 0 (Z.to_nat num)).
Definition in_ok (num pos : Z) : bool := (num <=? 0)%Z || (ordinal_ok pos && ordinal_ok (pos + num - 1)).

(** The text of an SQL tree, with its calls of InValueList made. *)
Definition render (s : st) (n : gsql) : res (sstmt Z (list Z)) :=
  if forallb (fun k => in_ok (s_int s (VLen k)) (s_int s (VPosK k))) (stmt_lists n)
  then Ok (stmt_map (fun z => z) (fun k => in_numbers (s_int s (VLen k)) (s_int s (VPosK k))) n)
  else Panic.
Definition str_eval (s : st) (x : strx) : res (list tok) :=
  match x with
  | SNode n => rmap (fun n => [TNode n]) (render s n)
  | SText t => Ok (toks t)
  | SOrd i => bind (ieval s i) (fun i => if ordinal_ok i then Ok [TPar (i + 1)] else Panic)
  | SFilter => Ok (s_filter s)
  end.

(** The text of a filter whose placeholders start after n. *)
Fixpoint filter_toks (n : Z) (l : list (ascii + nat)) : res (list tok) :=
  match l with
  | [] => Ok []
  | inl c :: r => rmap (cons (TChr c)) (filter_toks n r)
  | inr k :: r =>
      let i := (n + Z.of_nat k)%Z in
      if ordinal_ok i then rmap (cons (TPar (i + 1))) (filter_toks n r) else Panic
  end.

Fixpoint set_nth {A} (n : nat) (a : A) (l : list A) : option (list A) :=
  match n, l with
  | O, _ :: r => Some (a :: r)
  | S n, x :: r => option_map (cons x) (set_nth n a r)
  | _, [] => None
  end.
Fixpoint upd_field (f : bytes) (v : gv) (l : list (bytes * gv)) : list (bytes * gv) :=
  match l with
  | [] => []
  | p :: r => if bytes_eqb (fst p) f then (f, v) :: r else p :: upd_field f v r
  end.

(** queryString[:len(queryString)-1].  Cutting the last character of the text
    of a tree (or of a placeholder) gives a text that is neither; it is
    written as an absent tree. *)
Definition chop (t : list tok) : res (list tok) :=
  match rev t with
  | [] => Panic
  | TChr _ :: r => Ok (rev r)
  | _ :: r => Ok (rev r ++ [TPar 0])
  end.

(** ** Statements *)

Fixpoint seqM {S} (l : list (S -> res S)) (s : S) : res S :=
  match l with [] => Ok s | f :: r => bind (f s) (seqM r) end.
(** for i, v := range vs, and for i := 0; i < n; i++. *)
Fixpoint range_loop (body : st -> res st) (i : Z) (vs : list gv) (s : st) : res st :=
  match vs with
  | [] => Ok s
  | v :: r => bind (body (set_int VI i (set_v v s))) (range_loop body (i + 1) r)
  end.
Fixpoint for_loop (body : st -> res st) (i : Z) (n : nat) (s : st) : res st :=
  match n with
  | O => Ok s
  | S n => bind (body (set_int VI i s)) (for_loop body (i + 1) n)
  end.

Definition elems (v : gv) : list gv := match v with VSlice l => l | _ => [] end.
Fixpoint evals (s : st) (l : list gexpr) : res (list gv) :=
  match l with
  | [] => Ok []
  | e :: r => bind (eval s e) (fun v => rmap (cons v) (evals s r))
  end.
Fixpoint strs (s : st) (l : list strx) : res (list tok) :=
  match l with
  | [] => Ok []
  | x :: r => bind (str_eval s x) (fun a => rmap (app a) (strs s r))
  end.

Fixpoint exec (g : gstmt) (s : st) : res st :=
  match g with
  | GDecl _ n => rmap (fun n => set_text [TNode n] s) (render s n)
  | GInt x e => rmap (fun z => set_int x z s) (ieval s e)
  | GMake e => bind (ieval s e) (fun z =>
      if (z <? 0)%Z then Panic else Ok (set_params (repeat VNil (Z.to_nat z)) s))
  | GSet i e => bind (ieval s i) (fun z => bind (eval s e) (fun v =>
      if (z <? 0)%Z then Panic
      else rmap (fun l => set_params l s) (or_panic (set_nth (Z.to_nat z) v (s_params s)))))
  | GRange e body => bind (eval s e) (fun v => range_loop (seqM (map exec body)) 0 (elems v) s)
  | GFor x body => for_loop (seqM (map exec body)) 0 (Z.to_nat (s_int s x)) s
  | GAppend l => rmap (fun t => set_text (s_text s ++ t) s) (strs s l)
  | GChop => rmap (fun t => set_text t s) (chop (s_text s))
  | GFilter f n => bind (or_panic (gfield (s_q s) f)) (fun v =>
      match v with
      | VFilter text vals => rmap (fun t => set_params vals (set_filter t s)) (filter_toks n text)
      | _ => Panic
      end)
  | GPrepend l => rmap (fun vs => set_params (vs ++ s_params s) s) (evals s l)
  | GIfZero f v =>
      match s_q s with
      | VStruct fs =>
          match get_field f fs with
          | Some (VInt 0) => Ok (set_q (VStruct (upd_field f (VInt (Z.of_N v)) fs)) s)
          | Some _ => Ok s
          | None => Panic
          end
      | _ => Panic
      end
  | GCall m c a =>
      bind (match a with AParams => Ok (s_params s) | AList l => evals s l end) (fun args =>
      bind (match c with
            | CtxNone => Ok None
            | CtxParam => Ok (Some None)
            | CtxField f => rmap (fun v => Some (Some v)) (or_panic (gfield (s_q s) f))
            end) (fun ctx => Ok (set_call (MkCall m ctx (s_text s) args) s)))
  end.

(** The call the method makes for a query struct value [q]. *)
Definition run (l : list gstmt) (q : gv) : res call :=
  bind (seqM (map exec l) (st0 q)) (fun s => or_panic (s_call s)).
