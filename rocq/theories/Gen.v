(** Model of internal/generator/generator.go: from a checked query struct to
    the method body that is written to the output file.

    What is kept of the output: the SQL syntax tree handed to the printer of
    github.com/frk/ast/sqlang (that printer is not part of the repository),
    and the Go statements that build the query text, collect the arguments and
    make the call.  Left out: line breaks, comments, declaration keywords, the
    method's signature, and the imports (modelled in Imports.v). *)
From Coq Require Import Ascii String ZArith NArith Bool List.
From Verif Require Import GoBase AParse Analysis Oids.
Import ListNotations.
Local Open Scope string_scope.
Local Open Scope list_scope.

(** ** What the database checker hands to the generator *)

(** postgres/types.go:236-256.  [ty_enum] is Type = TypeTypeEnum. *)
Inductive category := CatArray | CatString | CatBitstring | CatOther.
Record pgtype := MkTy { ty_oid : N; ty_fmt : bytes; ty_enum : bool; ty_cat : category; ty_elem : N }.

(** postgres/types.go:203-234.  [co_table] says that the relation is an
    ordinary table, [co_rel] is the relation's OID. *)
Record column := MkCo {
  co_num : Z; co_name : bytes; co_typmod : Z; co_notnull : bool; co_hasdef : bool; co_primary : bool;
  co_type : pgtype; co_table : bool; co_rel : N }.

(** postgres/types.go:16-25.  [fw_id] stands for the pointer Field: its
    position in the list of the relation's fields. *)
Record fwrite := MkFW {
  fw_id : nat; fw_field : FieldInfo; fw_col : column; fw_ident : ColIdent; fw_valuer : bytes }.
(** postgres/types.go:29-38 *)
Record fread := MkFR { fr_field : FieldInfo; fr_col : column; fr_ident : ColIdent; fr_scanner : bytes }.
(** postgres/types.go:41-50 *)
Record ffilter := MkFF { ff_field : FieldInfo; ff_col : column; ff_ident : ColIdent; ff_valuer : bytes }.
(** postgres/types.go:58-75 *)
Record fcond := MkFC {
  fc_name : bytes; fc_type : TypeInfo; fc_ident : ColIdent; fc_col : column;
  fc_pred : predicate; fc_quant : quantifier; fc_func : bytes; fc_valuer : bytes }.
(** postgres/types.go:79-118: a ColumnConditional is an analysis
    condition; the columns and types it also holds are not used here. *)
Inductive rbound := RBField (f : fcond) | RBColumn (c : cond).
Inductive wcond :=
| WCBool (b : boolean)
| WCField (f : fcond)
| WCColumn (c : cond)
| WCBetween (name : bytes) (id : ColIdent) (p : predicate) (lo hi : rbound)
| WCNested (name : bytes) (l : list wcond).

(** postgres/types.go:120-135 *)
Inductive ctarget := CTNone | CTIndex (expr pred : bytes) | CTConstraint (name : bytes).
Record conflict := MkCI { ci_target : ctarget; ci_update : list column }.

(** postgres/postgres.go:167-178 *)
Record tinfo := MkTInfo {
  ti_reads : list fread; ti_writes : list fwrite; ti_filters : list ffilter; ti_pkeys : list fwrite;
  ti_joins : list (list wcond); ti_where : list wcond; ti_conflict : option conflict }.

(** ** SQL syntax trees *)

(** Value expressions; [P] is what stands for a parameter.  A column
    qualified with x (SQL.ColumnIdent) is an [XCol] too. *)
Inductive sexpr (P : Type) :=
| XDefault
| XParam (p : P)
| XCol (id : ColIdent)
| XLit (l : bytes)
| XCast (e : sexpr P) (t : bytes)
| XNullif (e : sexpr P) (l : bytes)
| XCoalesce (a b : sexpr P)
| XFunc (f : bytes) (e : sexpr P)
| XQuant (q : quantifier) (e : sexpr P).
Arguments XDefault {P}. Arguments XParam {P} p. Arguments XCol {P} id. Arguments XLit {P} l.
Arguments XCast {P} e t. Arguments XNullif {P} e l. Arguments XCoalesce {P} a b.
Arguments XFunc {P} f e. Arguments XQuant {P} q e.

(** The operators of SQL.ComparisonPredicate, LikePredicate, ILikePredicate,
    SimilarPredicate, DistinctPredicate and RegexPredicate. *)
Inductive sqlop :=
| OpEq | OpNe | OpNe2 | OpLt | OpGt | OpLe | OpGe
| OpLike (neg : bool) | OpILike (neg : bool) | OpSimilar (neg : bool) | OpDistinct (neg : bool)
| OpMatch | OpMatchCi | OpNotMatch | OpNotMatchCi.
Inductive truth := TUnknown | TTrue | TFalse.

(** Boolean expressions; [L] is what stands for the list of an IN predicate.
    [YList]: SQL.BoolValueExprList; the operand Initial is the item without a
    connective.  [YNil]: no expression (a nil interface). *)
Inductive bexpr (P L : Type) :=
| YOp (op : sqlop) (l r : sexpr P)
| YIn (neg : bool) (l : sexpr P) (vs : L)
| YTruth (neg : bool) (t : truth) (e : sexpr P)
| YNull (neg : bool) (e : sexpr P)
| YBetween (e lo hi : sexpr P)
| YVal (e : sexpr P)
| YNil
| YList (paren : bool) (items : list (option boolean * bexpr P L)).
Arguments YOp {P L} op l r. Arguments YIn {P L} neg l vs. Arguments YTruth {P L} neg t e.
Arguments YNull {P L} neg e. Arguments YBetween {P L} e lo hi. Arguments YVal {P L} e.
Arguments YNil {P L}. Arguments YList {P L} paren items.

(** SQL.TableJoin, and the members of a FROM or USING list. *)
Record tjoin (P L : Type) := MkTJ { tj_type : join_type; tj_rel : RelIdent; tj_cond : bexpr P L }.
Arguments MkTJ {P L}. Arguments tj_type {P L}. Arguments tj_rel {P L}. Arguments tj_cond {P L}.
Inductive texpr (P L : Type) := TxRel (r : RelIdent) | TxJoin (j : tjoin P L) | TxValues.
Arguments TxRel {P L} r. Arguments TxJoin {P L} j. Arguments TxValues {P L}.

(** SQL.OrderBy: column, DESC, NULLS FIRST. *)
Definition order_item : Type := ColIdent * bool * bool.
(** SQL.LimitClause, SQL.OffsetClause *)
Inductive lim (P : Type) := LNone | LInt (n : N) | LParam (p : P).
Arguments LNone {P}. Arguments LInt {P} n. Arguments LParam {P} p.
(** SQL.OnConflictClause: the target and the columns of DO UPDATE (none for
    DO NOTHING). *)
Record oconf := MkOConf { on_target : ctarget; on_update : list bytes }.

(** Statements, and the tails that are appended to the text later on. *)
Inductive sstmt (P L : Type) :=
| StInsert (t : RelIdent) (cols : list bytes) (ovr : option overriding) (vals : list (sexpr P))
    (oc : option oconf) (ret : list (sexpr P))
| StUpdate (t : RelIdent) (cols : list bytes) (vals : list (sexpr P)) (fr : list (texpr P L))
    (wh : option (bexpr P L)) (ret : list (sexpr P))
| StSelect (cols : list (sexpr P)) (t : RelIdent) (joins : list (tjoin P L)) (wh : option (bexpr P L))
    (ord : list order_item) (limit offset : lim P)
| StCount (t : RelIdent) (joins : list (tjoin P L)) (wh : option (bexpr P L))
    (ord : list order_item) (offset : lim P)
| StExists (neg open : bool) (t : RelIdent) (joins : list (tjoin P L)) (wh : option (bexpr P L))
    (ord : list order_item) (limit offset : lim P)
| StDelete (t : RelIdent) (us : list (texpr P L)) (wh : option (bexpr P L)) (ret : list (sexpr P))
| StInsertTail (oc : option oconf) (ret : list (sexpr P))
| StUpdateTail (alias : option (bytes * list bytes)) (wh : option (bexpr P L)) (ret : list (sexpr P)).
Arguments StInsert {P L}. Arguments StUpdate {P L}. Arguments StSelect {P L}. Arguments StCount {P L}.
Arguments StExists {P L}. Arguments StDelete {P L}. Arguments StInsertTail {P L}. Arguments StUpdateTail {P L}.

(** What the generator builds: a parameter is its number, the list of an IN
    predicate the number k of the slice in InValueList(lenk, posk). *)
Definition gsql := sstmt Z nat.

(** ** Emitted Go code *)

(** The integer variables of the method body: nstatic, len1, pos1, ..., and
    the i and pos of its loops. *)
Inductive ivar := VNstatic | VLen (k : nat) | VPosK (k : nat) | VI | VPos.

(** Expressions: the receiver q, the loop variable v, e[x], e.f, pgsql.fn(e), &e. *)
Inductive gexpr :=
| GQ | GV
| GIdx (e : gexpr) (x : ivar)
| GSel (e : gexpr) (f : bytes)
| GConv (fn : bytes) (e : gexpr)
| GAddr (e : gexpr).

Inductive iexpr :=
| IConst (z : Z) | IVar (x : ivar) | IAdd (a b : iexpr) | IMul (a b : iexpr) | ILen (e : gexpr).

(** String expressions: the text of an SQL node, a literal,
    gosql.OrdinalParameters[i], the variable filterString. *)
Inductive strx := SNode (n : gsql) | SText (t : bytes) | SOrd (i : iexpr) | SFilter.

(** The last arguments of the call: params... or a list of expressions. *)
Inductive inargs := AParams | AList (l : list gexpr).
Inductive callm := CExec | CQueryRow | CQuery.
(** The context argument: none, the parameter ctx, or a field of q. *)
Inductive ctxarg := CtxNone | CtxParam | CtxField (f : bytes).

Inductive gstmt :=
| GDecl (const : bool) (n : gsql)          (* const/var queryString = `n` *)
| GInt (x : ivar) (e : iexpr)              (* x = e, in a var block or with := *)
| GMake (e : iexpr)                        (* params := make([]interface{}, e) *)
| GSet (i : iexpr) (e : gexpr)             (* params[i] = e *)
| GRange (e : gexpr) (body : list gstmt)   (* for i, v := range e { body } *)
| GFor (x : ivar) (body : list gstmt)      (* for i := 0; i < x; i++ { body } *)
| GAppend (l : list strx)                  (* queryString += l1 + l2 + ... *)
| GChop                                    (* queryString = queryString[:len(queryString)-1] *)
| GFilter (f : bytes) (n : Z)              (* filterString, params := q.f.ToSQL(n) *)
| GPrepend (l : list gexpr)                (* params = append([]interface{}{l}, params...) *)
| GIfZero (f : bytes) (v : N)              (* if q.f == 0 { q.f = v } *)
| GCall (m : callm) (c : ctxarg) (a : inargs).

(** ** Query struct predicates, analysis/types.go:720-803 *)

Definition is_some {A} (o : option A) : bool := match o with Some _ => true | None => false end.
Definition q_rtype (q : qstate) : RelType := match q_rel q with Some r => rf_type r | None => zero_rt end.
Definition q_relname (q : qstate) : bytes := match q_rel q with Some r => rf_name r | None => [] end.
Definition q_relid (q : qstate) : RelIdent := match q_rel q with Some r => rf_id r | None => MkRel [] [] [] end.
Definition rt_single (t : RelType) : bool := negb (rt_slice t) && negb (rt_iter t) && negb (rt_array t).

Definition IsSelectCountOrExists (q : qstate) : bool := isSelect (q_kind q) && negb (is_plain_select (q_kind q)).
Definition IsUpdateSlice (q : qstate) : bool := is_update (q_kind q) && rt_slice (q_rtype q).
Definition HasNoQualifier (q : qstate) : bool :=
  negb (is_some (q_where q)) && negb (is_some (q_filter q)) && negb (q_all q).
Definition IsUpdateWithPKeys (q : qstate) : bool := is_update (q_kind q) && HasNoQualifier q.
Definition IsInsertOrUpdate (q : qstate) : bool := is_insert (q_kind q) || is_update (q_kind q).
Definition IsInsertOrUpdateSlice (q : qstate) : bool := IsInsertOrUpdate q && rt_slice (q_rtype q).
Definition IsWithoutOutput (q : qstate) : bool :=
  negb (is_some (q_result q)) && negb (is_some (q_return q)) && negb (isSelect (q_kind q)).
Definition IsSingleOutput (q : qstate) : bool :=
  (isSelect (q_kind q) && rt_single (q_rtype q))
  || match q_result q with Some r => rt_single (rs_type r) | None => false end
  || (is_some (q_return q) && rt_single (q_rtype q)).

(** ** Helpers *)

Definition sel_path (f : FieldInfo) : list bytes := map sn_name (fi_sel f) ++ [fi_name f].
(** The selector expression root.f1.f2... *)
Definition gsel (root : gexpr) (path : list bytes) : gexpr := fold_left GSel path root.

(** generator.go:627-634 *)
Definition addConverterCallExpr (x : gexpr) (converter : bytes) : gexpr :=
  match converter with [] => x | _ => GConv converter x end.

(** analysis/types.go:655-657 *)
Definition ImplementsValuer (t : TypeInfo) : bool :=
  f_valuer (t_flags t)
  || (kind_ptr (t_kind t) && match t_elem t with Some e => f_valuer (t_flags e) | None => false end).
Definition is_iface (k : kind) : bool := match k with KInterface => true | _ => false end.
(** analysis/types.go:650-653 *)
Definition ImplementsScanner (t : TypeInfo) : bool :=
  (f_scanner (t_flags t) && negb (is_iface (t_kind t)))
  || (kind_ptr (t_kind t)
      && match t_elem t with Some e => f_scanner (t_flags e) && negb (is_iface (t_kind e)) | None => false end).

(** postgres/types.go:392-395 *)
Definition IsNULLable (c : column) : bool := co_table c && negb (co_notnull c).
(** postgres/types.go:357-360 *)
Definition NeedsNULLIF (w : fwrite) : bool :=
  IsNULLable (fw_col w) && negb (kind_ptr (t_kind (fi_type (fw_field w))))
  && negb (ImplementsValuer (fi_type (fw_field w))) && bytes_eqb (fw_valuer w) [].
(** postgres/types.go:362-369 *)
Definition NeedsCOALESCE (r : fread) : bool :=
  fi_coalesce (fr_field r)
  || (IsNULLable (fr_col r) && negb (kind_ptr (t_kind (fi_type (fr_field r))))
      && negb (ImplementsScanner (fi_type (fr_field r))) && bytes_eqb (fr_scanner r) []).

(** generator.go:683-716 *)
Definition addNULLIFCallExpr {P} (x : sexpr P) (c : column) : sexpr P :=
  let t := co_type c in
  if N.eqb (ty_oid t) oid_UUID then
    XCast (XNullif (match x with XParam _ => x | _ => XCast x (B "text") end) (B "''")) (ty_fmt t)
  else
    match find_oid (ty_oid t) TypeToZeroValue with
    | Some z => XCast (XNullif x z) (ty_fmt t)
    | None => x
    end.

(** generator.go:637-680 *)
Definition addCoalesceCallExpr {P} (x : sexpr P) (val : bytes) (c : column) : sexpr P :=
  let t := co_type c in
  match val with
  | _ :: _ => XCoalesce x (XCast (XLit val) (ty_fmt t))
  | [] =>
      if N.eqb (ty_oid t) oid_UUID then XCoalesce (XCast x (B "text")) (XLit (B "''"))
      else
        match find_oid (ty_oid t) TypeToZeroValue with
        | Some z => XCoalesce x (XCast (XLit z) (ty_fmt t))
        | None => x
        end
  end.

(** generator.go:2304-2306 *)
Definition canUseDefault (q : qstate) (f : FieldInfo) : bool :=
  fi_default f || match q_default q with Some l => Contains l (fi_col f) | None => false end.
(** generator.go:2310-2312 *)
Definition canSkipRelInit (q : qstate) : bool := IsInsertOrUpdate q && negb (is_some (q_result q)).

(** generator.go:2046-2059 *)
Definition inputPKeys (t : tinfo) : list fwrite :=
  filter (fun w => negb (existsb (fun x => Nat.eqb (fw_id x) (fw_id w)) (ti_writes t))) (ti_pkeys t).

(** ** Parameter numbers *)

(** The fields paramNum, paramSet and inputSliceArgs of the generator.  A
    where condition and the limit and offset fields are looked up in paramSet
    exactly once, so only the numbers of relation fields are recorded. *)
Record gst := MkG { g_num : Z; g_set : list (nat * Z); g_slices : list gexpr }.
Definition g_init : gst := MkG 0 [] [].

Fixpoint find_num (k : nat) (l : list (nat * Z)) : option Z :=
  match l with [] => None | (x, n) :: r => if Nat.eqb k x then Some n else find_num k r end.

(** generator.go:2249-2265 *)
Definition param_fresh (s : gst) : Z * gst :=
  let n := (g_num s + 1)%Z in (n, MkG n (g_set s) (g_slices s)).
Definition param_field (id : nat) (s : gst) : Z * gst :=
  match find_num id (g_set s) with
  | Some n => (n, s)
  | None => let n := (g_num s + 1)%Z in (n, MkG n ((id, n) :: g_set s) (g_slices s))
  end.

(** ** Input *)

(** generator.go:270-275 *)
Definition inputRoot (q : qstate) : gexpr :=
  if rt_slice (q_rtype q) then GV else GSel GQ (q_relname q).

(** generator.go:298-328: the value of one target column. *)
Definition input_val (q : qstate) (w : fwrite) (s : gst) : sexpr Z * gst :=
  if canUseDefault q (fw_field w) then (XDefault, s)
  else
    let '(n, s) := param_field (fw_id w) s in
    if NeedsNULLIF w then (addNULLIFCallExpr (XParam n) (fw_col w), s)
    else if IsUpdateSlice q then (XCast (XParam n) (ty_fmt (co_type (fw_col w))), s)
    else (XParam n, s).
Fixpoint input_vals (q : qstate) (l : list fwrite) (s : gst) : list (sexpr Z) * gst :=
  match l with
  | [] => ([], s)
  | w :: r => let '(v, s) := input_val q w s in let '(vs, s) := input_vals q r s in (v :: vs, s)
  end.
(** generator.go:330-334 *)
Fixpoint pkey_vals (l : list fwrite) (s : gst) : list (sexpr Z) * gst :=
  match l with
  | [] => ([], s)
  | w :: r =>
      let '(n, s) := param_field (fw_id w) s in let '(vs, s) := pkey_vals r s in (XParam n :: vs, s)
  end.
(** generator.go:293-336: inputVals and inputValsPKeys; nothing is built
    when there is nothing to write. *)
Definition input_target_values (q : qstate) (t : tinfo) (s : gst) : list (sexpr Z) * list (sexpr Z) * gst :=
  match ti_writes t with
  | [] => ([], [], s)
  | ws =>
      let '(vs, s) := input_vals q ws s in
      if IsUpdateSlice q
      then let '(ps, s) := pkey_vals (inputPKeys t) s in (vs, ps, s)
      else (vs, [], s)
  end.
(** generator.go:304-308: updateCols, the columns of the value list. *)
Definition updateCols {P} (q : qstate) (t : tinfo) : list (sexpr P) :=
  map (fun w => XCol (MkCol (B "x") (co_name (fw_col w))))
      (filter (fun w => negb (canUseDefault q (fw_field w))) (ti_writes t)).
(** generator.go:278-289 *)
Definition inputCols (t : tinfo) : list bytes := map (fun w => co_name (fw_col w)) (ti_writes t).
Definition inputColsPKeys (t : tinfo) : list bytes := map (fun w => co_name (fw_col w)) (inputPKeys t).

(** generator.go:341-359 *)
Definition write_args (q : qstate) (t : tinfo) : list gexpr :=
  map (fun w => addConverterCallExpr (gsel (inputRoot q) (sel_path (fw_field w))) (fw_valuer w))
      (filter (fun w => negb (canUseDefault q (fw_field w))) (ti_writes t)).

(** generator.go:387-395 *)
Definition fcond_args (sx : gexpr) (f : fcond) : list gexpr :=
  if p_array (fc_pred f) then [] else [addConverterCallExpr (GSel sx (fc_name f)) (fc_valuer f)].
(** generator.go:398-406 *)
Definition bound_args (sx : gexpr) (b : rbound) : list gexpr :=
  match b with RBField f => fcond_args sx f | RBColumn _ => [] end.
(** generator.go:372-384 *)
Fixpoint wcond_args (sx : gexpr) (c : wcond) : list gexpr :=
  match c with
  | WCField f => fcond_args sx f
  | WCBetween name _ _ lo hi => bound_args (GSel sx name) lo ++ bound_args (GSel sx name) hi
  | WCNested name l => flat_map (wcond_args (GSel sx name)) l
  | _ => []
  end.
(** generator.go:362-369 *)
Definition where_args (q : qstate) (t : tinfo) : list gexpr :=
  match q_where q with
  | Some w => flat_map (wcond_args (GSel GQ (w_name w))) (ti_where t)
  | None => []
  end.
(** generator.go:409-420 *)
Definition pkey_args (q : qstate) (t : tinfo) : list gexpr :=
  if IsUpdateWithPKeys q
  then map (fun w => gsel (inputRoot q) (sel_path (fw_field w))) (inputPKeys t)
  else [].
(** generator.go:423-440 *)
Definition lim_args (l : option LimitField) : list gexpr :=
  match l with
  | Some l => match lf_name l with [] => [] | n => [GSel GQ n] end
  | None => []
  end.
(** generator.go:254-267: the field inputArgs once it is complete. *)
Definition inputArgs (q : qstate) (t : tinfo) : list gexpr :=
  write_args q t ++ where_args q t ++ pkey_args q t ++ lim_args (q_limit q) ++ lim_args (q_offset q).

(** ** Where and join conditions *)

(** generator.go:2366-2381, 1318-1354 *)
Definition sql_op (p : predicate) : option sqlop :=
  match p with
  | IsEQ => Some OpEq | NotEQ => Some OpNe | NotEQ2 => Some OpNe2 | IsLT => Some OpLt
  | IsGT => Some OpGt | IsLTE => Some OpLe | IsGTE => Some OpGe
  | IsLike => Some (OpLike false) | NotLike => Some (OpLike true)
  | IsILike => Some (OpILike false) | NotILike => Some (OpILike true)
  | IsSimilar => Some (OpSimilar false) | NotSimilar => Some (OpSimilar true)
  | IsDistinct => Some (OpDistinct false) | NotDistinct => Some (OpDistinct true)
  | IsMatch => Some OpMatch | IsMatchi => Some OpMatchCi
  | NotMatch => Some OpNotMatch | NotMatchi => Some OpNotMatchCi
  | _ => None
  end.
(** generator.go:1373-1378, 2383-2390 *)
Definition sql_truth (p : predicate) : option (bool * truth) :=
  match p with
  | IsTrue => Some (false, TTrue) | NotTrue => Some (true, TTrue)
  | IsFalse => Some (false, TFalse) | NotFalse => Some (true, TFalse)
  | IsUnknown => Some (false, TUnknown) | NotUnknown => Some (true, TUnknown)
  | _ => None
  end.

(** generator.go:1316-1389: the predicate once its operands are known; [sx] is
    the selector of the slice of an IN predicate. *)
Definition mk_pred (sx : gexpr) (p : predicate) (lhs rhs : sexpr Z) (s : gst) : bexpr Z nat * gst :=
  match sql_op p with
  | Some op => (YOp op lhs rhs, s)
  | None =>
      match sql_truth p with
      | Some (neg, t) => (YTruth neg t lhs, s)
      | None =>
          match p with
          | IsIn | NotIn =>
              let sl := g_slices s ++ [sx] in
              (YIn (match p with NotIn => true | _ => false end) lhs (List.length sl),
               MkG (g_num s - 1) (g_set s) sl)
          | IsNull => (YNull false lhs, s)
          | NotNull => (YNull true lhs, s)
          | _ => (YVal lhs, s)
          end
      end
  end.

(** generator.go:1301-1314: the quantifier; the array type of the column is
    only added for fields. *)
Definition quantified {P} (q : quantifier) (ctype : bytes) (rhs : sexpr P) : sexpr P :=
  match q with
  | QNone => rhs
  | _ => XQuant q (match ctype with [] => rhs | _ => XCast rhs (ctype ++ B "[]") end)
  end.

(** generator.go:1268-1289 *)
Definition mk_field (sx : gexpr) (f : fcond) (s : gst) : bexpr Z nat * gst :=
  let '(n, s) := param_fresh s in
  let fn {P} (e : sexpr P) := match fc_func f with [] => e | _ => XFunc (fc_func f) e end in
  mk_pred (GSel sx (fc_name f)) (fc_pred f) (fn (XCol (fc_ident f)))
    (quantified (fc_quant f) (ty_fmt (co_type (fc_col f))) (fn (XParam n))) s.

(** generator.go:1291-1299 (fieldName is empty; a condition without a right
    side has no rhs: an empty literal stands for the nil expression) *)
Definition col_empty (id : ColIdent) : bool := bytes_eqb (c_qual id) [] && bytes_eqb (c_col id) [].
Definition column_rhs {P} (c : cond) : sexpr P := if col_empty (c_rhs c) then XLit (c_lit c) else XCol (c_rhs c).
Definition mk_column (sx : gexpr) (c : cond) (s : gst) : bexpr Z nat * gst :=
  mk_pred (GSel sx []) (c_pred c) (XCol (c_lhs c)) (quantified (c_quant c) [] (column_rhs c)) s.

(** generator.go:1410-1428 *)
Definition mk_bound (b : rbound) (s : gst) : sexpr Z * gst :=
  match b with
  | RBField _ => let '(n, s) := param_fresh s in (XParam n, s)
  | RBColumn c => (XCol (c_rhs c), s)
  end.

(** generator.go:1239-1246, 1391-1406: the loop over a list of conditions;
    [first] is i = 0, [b] the last connective seen. *)
Definition bool_items {S} (mk : wcond -> S -> bexpr Z nat * S) : bool -> option boolean -> list wcond -> S ->
    list (option boolean * bexpr Z nat) * S :=
  fix go first b l s :=
    match l with
    | [] => ([], s)
    | WCBool b' :: r => go false (Some b') r s
    | c :: r =>
        let '(e, s) := mk c s in
        let '(items, s) := go false b r s in
        (if first then (None, e) :: items
         else match b with Some _ => (b, e) :: items | None => items end, s)
    end.
(** generator.go:1239-1407 *)
Fixpoint mk_bool (sx : gexpr) (c : wcond) (s : gst) : bexpr Z nat * gst :=
  match c with
  | WCBool _ => (YNil, s)
  | WCField f => mk_field sx f s
  | WCColumn c => mk_column sx c s
  | WCBetween _ id _ lo hi =>
      let '(l, s) := mk_bound lo s in
      let '(h, s) := mk_bound hi s in
      (YBetween (XCol id) l h, s)
  | WCNested name l =>
      let '(items, s) := bool_items (mk_bool (GSel sx name)) true None l s in
      (YList true items, s)
  end.
Definition makeSQLBoolValueExprList (sx : gexpr) (l : list wcond) (s : gst) : bexpr Z nat * gst :=
  let '(items, s) := bool_items (mk_bool sx) true None l s in (YList false items, s).

(** generator.go:1216-1236.  A directive without checked conditions cannot
    occur: Joins has an entry for each.  The selector, empty in the code, is
    used by no join condition. *)
Fixpoint table_joins (dirs : list JoinDirective) (conds : list (list wcond)) (s : gst) : list (tjoin Z nat) * gst :=
  match dirs, conds with
  | d :: dirs, c :: conds =>
      let '(e, s) := makeSQLBoolValueExprList GQ c s in
      let '(js, s) := table_joins dirs conds s in
      (MkTJ (j_type d) (j_rel d) e :: js, s)
  | _, _ => ([], s)
  end.
Definition tableJoinSlice (q : qstate) (t : tinfo) (s : gst) : list (tjoin Z nat) * gst :=
  match q_join q with Some j => table_joins (j_dirs j) (ti_joins t) s | None => ([], s) end.

(** generator.go:1187-1204: the conditions on the primary keys. *)
Fixpoint pkey_conds (slice first : bool) (l : list fwrite) (s : gst) : list (option boolean * bexpr Z nat) * gst :=
  match l with
  | [] => ([], s)
  | w :: r =>
      let '(n, s) := param_field (fw_id w) s in
      let rhs := if slice
                 then XCast (XCol (MkCol (B "x") (c_col (fw_ident w)))) (ty_fmt (co_type (fw_col w)))
                 else XParam n in
      let '(items, s) := pkey_conds slice false r s in
      ((if first then None else Some BoolAnd, YOp OpEq (XCol (fw_ident w)) rhs) :: items, s)
  end.
(** generator.go:1185-1213 *)
Definition whereClause (q : qstate) (t : tinfo) (s : gst) : option (bexpr Z nat) * gst :=
  if IsUpdateWithPKeys q then
    let '(items, s) := pkey_conds (rt_slice (q_rtype q)) true (ti_pkeys t) s in
    (Some (YList false items), s)
  else
    match ti_where t with
    | [] => (None, s)
    | l =>
        let '(e, s) := makeSQLBoolValueExprList
                         (GSel GQ (match q_where q with Some w => w_name w | None => [] end)) l s in
        (Some e, s)
    end.

(** generator.go:1140-1152 *)
Definition orderClause (q : qstate) : list order_item :=
  match q_orderby q with
  | Some l => map (fun o => (o_col o, o_desc o, match o_nulls o with NullsFirst => true | _ => false end)) l
  | None => []
  end.
(** generator.go:1108-1124 *)
Definition limitClause (q : qstate) (s : gst) : lim Z * gst :=
  match q_limit q with
  | None => (if rt_single (q_rtype q) then LInt 1 else LNone, s)
  | Some l =>
      match lf_name l with
      | _ :: _ => let '(n, s) := param_fresh s in (LParam n, s)
      | [] => (if (0 <? lf_value l)%N then LInt (lf_value l) else LNone, s)
      end
  end.
(** generator.go:1127-1137 *)
Definition offsetClause (q : qstate) (s : gst) : lim Z * gst :=
  match q_offset q with
  | None => (LNone, s)
  | Some l =>
      match lf_name l with
      | _ :: _ => let '(n, s) := param_fresh s in (LParam n, s)
      | [] => (if (0 <? lf_value l)%N then LInt (lf_value l) else LNone, s)
      end
  end.
(** generator.go:1155-1182 *)
Definition onConflictClause (q : qstate) (t : tinfo) : option oconf :=
  if is_insert (q_kind q) then
    match ti_conflict t with
    | Some c => Some (MkOConf (ci_target c) (map co_name (ci_update c)))
    | None => None
    end
  else None.

(** ** Output *)

(** generator.go:582-588 *)
Definition out_val {P} (r : fread) : sexpr P :=
  if NeedsCOALESCE r
  then addCoalesceCallExpr (XCol (fr_ident r)) (fi_coalval (fr_field r)) (fr_col r)
  else XCol (fr_ident r).
Definition outputVals {P} (t : tinfo) : list (sexpr P) := map out_val (ti_reads t).

(** generator.go:456-471 *)
Definition out_type (q : qstate) : RelType :=
  match q_result q with Some r => rs_type r | None => q_rtype q end.
Definition outputRoot (q : qstate) : gexpr :=
  GSel GQ (match q_result q with Some r => rs_name r | None => q_relname q end).
Definition outputVar (q : qstate) : gexpr :=
  if rt_slice (out_type q) && canSkipRelInit q then GIdx (outputRoot q) VI
  else if rt_slice (out_type q) || rt_iter (out_type q) then GV
  else outputRoot q.

(** generator.go:555-573 *)
Definition outputArgs (q : qstate) (t : tinfo) : list gexpr :=
  if IsSelectCountOrExists q then [GAddr (outputRoot q)]
  else map (fun r => addConverterCallExpr (GAddr (gsel (outputVar q) (sel_path (fr_field r)))) (fr_scanner r))
           (ti_reads t).

(** generator.go:479-552: the statements that allocate what the scan writes
    to.  [InitRoot]: q.F = new(T); [InitNew]: v := new(T); [InitVar]: var v T;
    [InitPath]: <outputVar>.a.b = new(T). *)
Inductive init := InitRoot | InitNew | InitVar | InitPath (path : list bytes).
(** generator.go:479-516 *)
Definition init_root (q : qstate) : list init :=
  if canSkipRelInit q then []
  else
    let t := out_type q in
    if negb (rt_slice t) && negb (rt_iter t) && rt_ptr t then [InitRoot]
    else if (rt_slice t || rt_iter t) && rt_ptr t then [InitNew]
    else if rt_slice t || rt_iter t then [InitVar]
    else [].
(** generator.go:528-551: the loop over a field's selector; [pre] is the path
    and [key] the key so far. *)
Fixpoint init_sel (pre : list bytes) (key : bytes) (sel : list selnode) (done : list bytes)
    : list init * list bytes :=
  match sel with
  | [] => ([], done)
  | n :: r =>
      let key := key ++ sn_name n in
      let pre := pre ++ [sn_name n] in
      if sn_ptr n && negb (existsb (bytes_eqb key) done)
      then let '(is, done) := init_sel pre key r (key :: done) in (InitPath pre :: is, done)
      else init_sel pre key r done
  end.
Fixpoint init_fields (l : list fread) (done : list bytes) : list init :=
  match l with
  | [] => []
  | r :: l => let '(is, done) := init_sel [] [] (fi_sel (fr_field r)) done in is ++ init_fields l done
  end.
Definition outputInit (q : qstate) (t : tinfo) : list init :=
  match ti_reads t with
  | [] => if IsSelectCountOrExists q then init_root q else []
  | l => init_root q ++ (if canSkipRelInit q then [] else init_fields l [])
  end.

(** ** Statements *)

(** generator.go:968-991: the main node and the tail. *)
Definition insert_stmt (q : qstate) (t : tinfo) (vals : list (sexpr Z)) : gsql * option gsql :=
  let oc := onConflictClause q t in
  let ret := outputVals t in
  let slice := rt_slice (q_rtype q) in
  let cut := slice && (negb (match ret with [] => true | _ => false end) || is_some oc) in
  (StInsert (q_relid q) (inputCols t) (q_override q) (if slice then [] else vals)
     (if cut then None else oc) (if cut then [] else ret),
   if cut then Some (StInsertTail oc ret) else None).

Definition from_list (q : qstate) (joins : list (tjoin Z nat)) : list (texpr Z nat) :=
  match q_join q with
  | Some j => TxRel (match j_relation j with Some r => r | None => MkRel [] [] [] end) :: map TxJoin joins
  | None => []
  end.

(** generator.go:994-1030.  For a join struct without a relation the code
    dereferences a nil pointer (l.1004, 1053). *)
Definition update_stmt (q : qstate) (t : tinfo) (vals : list (sexpr Z)) (joins : list (tjoin Z nat))
    (wh : option (bexpr Z nat)) : gsql * option gsql :=
  let slice := rt_slice (q_rtype q) in
  let sv := if IsUpdateSlice q then updateCols q t else vals in
  let from := from_list q joins in
  let ret := outputVals t in
  if slice then
    (StUpdate (q_relid q) (inputCols t) sv (from ++ [TxValues]) None [],
     Some (StUpdateTail (Some (B "x", inputCols t ++ inputColsPKeys t)) wh []))
  else if is_some (q_filter q) && negb (match ret with [] => true | _ => false end) then
    (StUpdate (q_relid q) (inputCols t) sv from None [], Some (StUpdateTail None None ret))
  else (StUpdate (q_relid q) (inputCols t) sv from wh ret, None).

(** generator.go:939-962, 1033-1103: the statement (and its tail), with the
    state in which it leaves the numbering. *)
Definition querySQL (q : qstate) (t : tinfo) (vals : list (sexpr Z)) (s : gst) : gsql * option gsql * gst :=
  let '(joins, s) := tableJoinSlice q t s in
  let '(wh, s) := whereClause q t s in
  let ord := orderClause q in
  let '(limit, s) := limitClause q s in
  let '(offset, s) := offsetClause q s in
  let nof {A} (x d : A) := if is_some (q_filter q) then d else x in
  match q_kind q with
  | KInsert => (insert_stmt q t vals, s)
  | KUpdate => (update_stmt q t vals joins wh, s)
  | KSelect => (StSelect (outputVals t) (q_relid q) joins wh ord limit offset, None, s)
  | KSelectCount => (StCount (q_relid q) joins (nof wh None) (nof ord []) (nof offset LNone), None, s)
  | KSelectExists | KSelectNotExists =>
      (StExists (match q_kind q with KSelectNotExists => true | _ => false end) (is_some (q_filter q))
         (q_relid q) joins (nof wh None) (nof ord []) (nof limit LNone) (nof offset LNone), None, s)
  | KDelete => (StDelete (q_relid q) (from_list q joins) wh (outputVals t), None, s)
  end.

(** ** The statements that build the query text *)

(** generator.go:1518-1564: the text of one row; [k] is i - defaultCount. *)

Definition row_cell (sep : bytes) (k : Z) (v : sexpr Z) : list strx :=
  let ord := SOrd (IAdd (IVar VPos) (IConst k)) in
  match v with
  | XDefault => [SText (sep ++ B "DEFAULT")]
  | XNullif _ l => [SText (sep ++ B "NULLIF("); ord; SText (B ", " ++ l ++ B ")")]
  | XCast (XNullif _ l) ty =>
      [SText (sep ++ B "NULLIF("); ord; SText (B ", " ++ l ++ B ")::" ++ ty)]
  | XCast _ ty => [SText sep; ord; SText (B "::" ++ ty)]
  | _ => [SText sep; ord]
  end.
Fixpoint row_cells (sep : bytes) (k : Z) (vals : list (sexpr Z)) : list strx :=
  match vals with
  | [] => []
  | v :: r => row_cell sep k v ++ row_cells (B ", ") (match v with XDefault => k | _ => k + 1 end)%Z r
  end.
Definition row_text (vals : list (sexpr Z)) : list strx := row_cells (B "(") 0 vals ++ [SText (B "),")].

Fixpoint set_args (k : Z) (l : list gexpr) : list gstmt :=
  match l with
  | [] => []
  | a :: r => GSet (IAdd (IVar VPos) (IConst k)) a :: set_args (k + 1) r
  end.

(** generator.go:1444-1594 *)
Definition slice_rows (q : qstate) (args : list gexpr) (vals : list (sexpr Z)) (decl : gstmt) (tail : option gsql)
    : list gstmt :=
  let rel := GSel GQ (q_relname q) in
  let cnt := IConst (Z.of_nat (List.length args)) in
  let text := GAppend (row_text vals) in
  let loop :=
    match args with
    | [] => [GRange rel [text]]
    | _ => [GMake (IMul (ILen rel) cnt);
            GRange rel (GInt VPos (IMul (IVar VI) cnt) :: set_args 0 args ++ [text])]
    end in
  decl :: loop ++ [GChop]
  ++ match tail with Some n => [GAppend [SText (B " "); SNode n]] | None => [] end.

(** generator.go:1597-1696 *)
Fixpoint slice_vars (k : nat) (l : list gexpr) : list gstmt :=
  match l with
  | [] => []
  | a :: r =>
      GInt (VLen k) (ILen a)
      :: GInt (VPosK k) (match k with
                         | 1 => IVar VNstatic
                         | _ => IAdd (IVar (VPosK (k - 1))) (IVar (VLen (k - 1)))
                         end)
      :: slice_vars (S k) r
  end.
Fixpoint slice_size (e : iexpr) (k : nat) (l : list gexpr) : iexpr :=
  match l with [] => e | _ :: r => slice_size (IAdd e (IVar (VLen k))) (S k) r end.
Fixpoint set_static (k : Z) (l : list gexpr) : list gstmt :=
  match l with [] => [] | a :: r => GSet (IConst k) a :: set_static (k + 1) r end.
Fixpoint set_slices (k : nat) (l : list gexpr) : list gstmt :=
  match l with
  | [] => []
  | a :: r => GFor (VLen k) [GSet (IAdd (IVar (VPosK k)) (IVar VI)) (GIdx a VI)] :: set_slices (S k) r
  end.
Definition slice_args (num : Z) (args slices : list gexpr) (decl : gstmt) : list gstmt :=
  GInt VNstatic (IConst num) :: slice_vars 1 slices
  ++ decl :: GMake (slice_size (IVar VNstatic) 1 slices)
  :: set_static 0 args ++ set_slices 1 slices.

(** generator.go:1699-1744 *)
Definition filter_text (fld : bytes) (close : bool) (args : list gexpr) (decl : gstmt) (tail : option gsql)
    : list gstmt :=
  decl :: GFilter fld (Z.of_nat (List.length args))
  :: GAppend (SFilter :: if close then [SText (B ")")] else [])
  :: match tail with Some n => [GAppend [SText (B " "); SNode n]] | None => [] end.

(** generator.go:592-624 *)
Definition fallback (l : option LimitField) : list gstmt :=
  match l with
  | Some l =>
      match lf_name l with
      | [] => []
      | n => if (0 <? lf_value l)%N then [GIfZero n (lf_value l)] else []
      end
  | None => []
  end.

(** generator.go:2195-2224 *)
Definition call_args (q : qstate) (args slices : list gexpr) : inargs :=
  if negb (match slices with [] => true | _ => false end) || is_some (q_filter q)
     || (IsInsertOrUpdateSlice q && negb (match args with [] => true | _ => false end))
  then AParams else AList args.
Definition call_ctx (withctx : bool) (q : qstate) : ctxarg :=
  if withctx then CtxParam else match q_ctx q with Some f => CtxField f | None => CtxNone end.

(** generator.go:1099-1100, 1722-1729: closeFilter *)
Definition closes (q : qstate) : bool :=
  is_some (q_filter q) && match q_kind q with KSelectExists | KSelectNotExists => true | _ => false end.

(** generator.go:180-218: the statements of the method body up to and
    including the call.  [withctx] is the option method-with-context. *)
Definition buildQueryCode (withctx : bool) (q : qstate) (t : tinfo) : list gstmt :=
  let args := inputArgs q t in
  let '(vals, pvals, s) := input_target_values q t g_init in
  let '(main, tail, s) := querySQL q t vals s in
  let slices := g_slices s in
  let const := negb (is_some (q_filter q)) && match slices with [] => true | _ => false end
               && negb (IsInsertOrUpdateSlice q) in
  let decl := GDecl const main in
  let text :=
    if IsInsertOrUpdateSlice q then slice_rows q args (vals ++ pvals) decl tail
    else match slices with
         | _ :: _ => slice_args (g_num s) args slices decl
         | [] =>
             match q_filter q with
             | Some f => filter_text f (closes q) args decl tail
             | None => [decl]
             end
         end in
  let fparams := if is_some (q_filter q) && is_update (q_kind q) then [GPrepend args] else [] in
  let m := if IsWithoutOutput q then CExec else if IsSingleOutput q then CQueryRow else CQuery in
  text ++ fallback (q_limit q) ++ fallback (q_offset q) ++ fparams
  ++ [GCall m (call_ctx withctx q) (call_args q args slices)].
