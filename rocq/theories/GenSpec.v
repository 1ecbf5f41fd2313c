(** What a query struct means: the SQL statement it describes, written with
    the Go fields themselves in place of numbered parameters.  Nothing here
    mentions parameter numbers, argument lists or generated code. *)
From Coq Require Import Ascii String ZArith NArith Bool List.
From Verif Require Import GoBase AParse Analysis Oids Gen GenRun.
Import ListNotations.
Local Open Scope string_scope.
Local Open Scope list_scope.

(** ** Fields *)

(** A field, by the names that lead to it from the query struct (or from a
    record of the relation), and the function of pgsql applied to it, if any. *)
Record access := Acc { a_path : list bytes; a_conv : bytes }.

Fixpoint at_path (v : gv) (p : list bytes) : option gv :=
  match p with
  | [] => Some v
  | f :: r => match gfield v f with Some x => at_path x r | None => None end
  end.
Definition value (v : gv) (a : access) : option gv :=
  match at_path v (a_path a) with
  | Some x => Some (match a_conv a with [] => x | fn => VConv fn x end)
  | None => None
  end.
Definition members (v : gv) (p : list bytes) : list (option gv) :=
  match at_path v p with Some (VSlice l) => map Some l | _ => [] end.

(** A statement over fields, and one over values. *)
Definition fstmt := sstmt access (list bytes).
Definition vstmt := sstmt (option gv) (list (option gv)).
(** The values of the fields of [v]. *)
Definition filled (v : gv) : fstmt -> vstmt := stmt_map (value v) (members v).
(** The statement the server executes: $n is the n-th argument. *)
Definition argument (args : list gv) (n : Z) : option gv :=
  if (n <=? 0)%Z then None else nth_error args (Z.to_nat (n - 1)).
Definition executed (args : list gv) : sstmt Z (list Z) -> vstmt :=
  stmt_map (argument args) (map (argument args)).

(** ** Conditions *)

Definition op_sql (op : sqlop) : bytes :=
  B match op with
    | OpEq => "=" | OpNe => "<>" | OpNe2 => "!=" | OpLt => "<" | OpGt => ">" | OpLe => "<=" | OpGe => ">="
    | OpLike false => "LIKE" | OpLike true => "NOT LIKE"
    | OpILike false => "ILIKE" | OpILike true => "NOT ILIKE"
    | OpSimilar false => "SIMILAR TO" | OpSimilar true => "NOT SIMILAR TO"
    | OpDistinct false => "IS DISTINCT FROM" | OpDistinct true => "IS NOT DISTINCT FROM"
    | OpMatch => "~" | OpMatchCi => "~*" | OpNotMatch => "!~" | OpNotMatchCi => "!~*"
    end.
(** The operators of struct tags and the SQL they stand for. *)
Definition operators : list (string * string) :=
  [("=", "="); ("<>", "<>"); ("!=", "!="); ("<", "<"); (">", ">"); ("<=", "<="); (">=", ">=");
   ("~", "~"); ("~*", "~*"); ("!~", "!~"); ("!~*", "!~*");
   ("islike", "LIKE"); ("notlike", "NOT LIKE"); ("isilike", "ILIKE"); ("notilike", "NOT ILIKE");
   ("issimilar", "SIMILAR TO"); ("notsimilar", "NOT SIMILAR TO");
   ("isdistinct", "IS DISTINCT FROM"); ("notdistinct", "IS NOT DISTINCT FROM")].
(** The operator a tag with this predicate asks for. *)
Definition asks (p : predicate) (op : sqlop) : Prop :=
  exists tag sql, In (tag, sql) operators /\ stringToPredicate (B tag) = p /\ op_sql op = B sql.

(** The tests of struct tags that have no right side. *)
Definition truth_tests : list (string * (bool * truth)) :=
  [("istrue", (false, TTrue)); ("nottrue", (true, TTrue)); ("isfalse", (false, TFalse));
   ("notfalse", (true, TFalse)); ("isunknown", (false, TUnknown)); ("notunknown", (true, TUnknown))].

(** A list of conditions with a connective before each but the first. *)
Definition no_bool (c : wcond) : Prop := match c with WCBool _ => False | _ => True end.
Inductive links : list wcond -> list (option boolean * wcond) -> Prop :=
| links_nil : links [] []
| links_cons : forall b c l r, no_bool c -> links l r -> links (WCBool b :: c :: l) ((Some b, c) :: r).
Inductive chain : list wcond -> list (option boolean * wcond) -> Prop :=
| chain_nil : chain [] []
| chain_cons : forall c l r, no_bool c -> links l r -> chain (c :: l) ((None, c) :: r).

(** A modifier function is applied to both sides. *)
Definition applied {P} (f : bytes) (e : sexpr P) : sexpr P := match f with [] => e | _ => XFunc f e end.
(** any, some and all compare with the elements of an array of the column's
    type. *)
Definition quantify {P} (q : quantifier) (ty : bytes) (e : sexpr P) : sexpr P :=
  match q with QNone => e | _ => XQuant q (match ty with [] => e | _ => XCast e (ty ++ B "[]") end) end.

(** The bounds of a between condition. *)
Inductive bound_is (p : list bytes) : rbound -> sexpr access -> Prop :=
| bound_field : forall f, p_array (fc_pred f) = false ->
    bound_is p (RBField f) (XParam (Acc (p ++ [fc_name f]) (fc_valuer f)))
| bound_column : forall c, bound_is p (RBColumn c) (XCol (c_rhs c)).

(** The condition at the path [p]: what each kind of where item means. *)
Inductive says : list bytes -> wcond -> bexpr access (list bytes) -> Prop :=
| says_field : forall p f op, asks (fc_pred f) op ->
    says p (WCField f)
      (YOp op (applied (fc_func f) (XCol (fc_ident f)))
         (quantify (fc_quant f) (ty_fmt (co_type (fc_col f)))
            (applied (fc_func f) (XParam (Acc (p ++ [fc_name f]) (fc_valuer f))))))
| says_in : forall p f, fc_pred f = stringToPredicate (B "isin") ->
    says p (WCField f) (YIn false (applied (fc_func f) (XCol (fc_ident f))) (p ++ [fc_name f]))
| says_not_in : forall p f, fc_pred f = stringToPredicate (B "notin") ->
    says p (WCField f) (YIn true (applied (fc_func f) (XCol (fc_ident f))) (p ++ [fc_name f]))
| says_columns : forall p c op, asks (c_pred c) op -> col_empty (c_rhs c) = false ->
    says p (WCColumn c) (YOp op (XCol (c_lhs c)) (quantify (c_quant c) [] (XCol (c_rhs c))))
| says_literal : forall p c op, asks (c_pred c) op -> col_empty (c_rhs c) = true ->
    says p (WCColumn c) (YOp op (XCol (c_lhs c)) (quantify (c_quant c) [] (XLit (c_lit c))))
| says_truth : forall p c tag neg t, In (tag, (neg, t)) truth_tests -> c_pred c = stringToPredicate (B tag) ->
    says p (WCColumn c) (YTruth neg t (XCol (c_lhs c)))
| says_null : forall p c, c_pred c = stringToPredicate (B "isnull") ->
    says p (WCColumn c) (YNull false (XCol (c_lhs c)))
| says_not_null : forall p c, c_pred c = stringToPredicate (B "notnull") ->
    says p (WCColumn c) (YNull true (XCol (c_lhs c)))
| says_boolean : forall p c, c_pred c = PNone -> says p (WCColumn c) (YVal (XCol (c_lhs c)))
| says_between : forall p name id lo hi l h,
    bound_is (p ++ [name]) lo l -> bound_is (p ++ [name]) hi h ->
    says p (WCBetween name id (stringToPredicate (B "isbetween")) lo hi) (YBetween (XCol id) l h)
| says_nested : forall p name l e, says_all (p ++ [name]) true l e -> says p (WCNested name l) e
with says_all : list bytes -> bool -> list wcond -> bexpr access (list bytes) -> Prop :=
| says_list : forall p paren l items es,
    chain l items -> says_items p items es -> says_all p paren l (YList paren es)
with says_items : list bytes -> list (option boolean * wcond) ->
    list (option boolean * bexpr access (list bytes)) -> Prop :=
| says_none : forall p, says_items p [] []
| says_more : forall p b c e l es, says p c e -> says_items p l es -> says_items p ((b, c) :: l) ((b, e) :: es).

(** ** Columns written and read *)

(** The column's default is used for a field tagged so and for the columns of
    the query's default directive. *)
Definition defaulted (q : qstate) (w : fwrite) : bool :=
  fi_default (fw_field w)
  || match q_default q with Some l => Contains l (fi_col (fw_field w)) | None => false end.

(** The zero value of the field stands for NULL: a column that may be NULL in a
    field that has no way to hold a null value. *)
Definition null_as_zero (w : fwrite) : Prop :=
  co_table (fw_col w) = true /\ co_notnull (fw_col w) = false
  /\ kind_ptr (t_kind (fi_type (fw_field w))) = false
  /\ ImplementsValuer (fi_type (fw_field w)) = false /\ fw_valuer w = [].

Definition field_path (f : FieldInfo) : list bytes := map sn_name (fi_sel f) ++ [fi_name f].

(** The value written to a column; [cast] asks for a type for plain values. *)
Inductive stored (q : qstate) (pre : list bytes) (cast : bool) (w : fwrite) : sexpr access -> Prop :=
| stored_default : defaulted q w = true -> stored q pre cast w XDefault
| stored_plain : defaulted q w = false -> ~ null_as_zero w ->
    stored q pre cast w
      ((if cast then fun e => XCast e (ty_fmt (co_type (fw_col w))) else fun e => e)
         (XParam (Acc (pre ++ field_path (fw_field w)) (fw_valuer w))))
| stored_uuid : defaulted q w = false -> null_as_zero w -> ty_oid (co_type (fw_col w)) = oid_UUID ->
    stored q pre cast w
      (XCast (XNullif (XParam (Acc (pre ++ field_path (fw_field w)) (fw_valuer w))) (B "''"))
         (ty_fmt (co_type (fw_col w))))
| stored_nullif : forall z, defaulted q w = false -> null_as_zero w ->
    ty_oid (co_type (fw_col w)) <> oid_UUID -> find_oid (ty_oid (co_type (fw_col w))) TypeToZeroValue = Some z ->
    stored q pre cast w
      (XCast (XNullif (XParam (Acc (pre ++ field_path (fw_field w)) (fw_valuer w))) z)
         (ty_fmt (co_type (fw_col w))))
| stored_no_zero : defaulted q w = false -> null_as_zero w ->
    ty_oid (co_type (fw_col w)) <> oid_UUID -> find_oid (ty_oid (co_type (fw_col w))) TypeToZeroValue = None ->
    stored q pre cast w (XParam (Acc (pre ++ field_path (fw_field w)) (fw_valuer w))).

(** A column that may be NULL, read into a field that cannot hold NULL. *)
Definition zero_for_null (r : fread) : Prop :=
  fi_coalesce (fr_field r) = true
  \/ (co_table (fr_col r) = true /\ co_notnull (fr_col r) = false
      /\ kind_ptr (t_kind (fi_type (fr_field r))) = false
      /\ ImplementsScanner (fi_type (fr_field r)) = false /\ fr_scanner r = []).
Inductive fetched (r : fread) : sexpr access -> Prop :=
| fetched_plain : ~ zero_for_null r -> fetched r (XCol (fr_ident r))
| fetched_value : forall v, zero_for_null r -> fi_coalval (fr_field r) = v -> v <> [] ->
    fetched r (XCoalesce (XCol (fr_ident r)) (XCast (XLit v) (ty_fmt (co_type (fr_col r)))))
| fetched_uuid : zero_for_null r -> fi_coalval (fr_field r) = [] -> ty_oid (co_type (fr_col r)) = oid_UUID ->
    fetched r (XCoalesce (XCast (XCol (fr_ident r)) (B "text")) (XLit (B "''")))
| fetched_zero : forall z, zero_for_null r -> fi_coalval (fr_field r) = [] ->
    ty_oid (co_type (fr_col r)) <> oid_UUID -> find_oid (ty_oid (co_type (fr_col r))) TypeToZeroValue = Some z ->
    fetched r (XCoalesce (XCol (fr_ident r)) (XCast (XLit z) (ty_fmt (co_type (fr_col r)))))
| fetched_no_zero : zero_for_null r -> fi_coalval (fr_field r) = [] ->
    ty_oid (co_type (fr_col r)) <> oid_UUID -> find_oid (ty_oid (co_type (fr_col r))) TypeToZeroValue = None ->
    fetched r (XCol (fr_ident r)).

(** ** Clauses *)

Definition single (t : RelType) : Prop := rt_slice t = false /\ rt_iter t = false /\ rt_array t = false.

(** The joined relations with their conditions. *)
Inductive join_is : JoinDirective -> list wcond -> tjoin access (list bytes) -> Prop :=
| join_on : forall d l e, says_all [] false l e -> join_is d l (MkTJ (j_type d) (j_rel d) e).
Inductive joins_are (q : qstate) (t : tinfo) : list (tjoin access (list bytes)) -> Prop :=
| joins_none : q_join q = None -> joins_are q t []
| joins_some : forall j js, q_join q = Some j ->
    Forall2 (fun dc x => join_is (fst dc) (snd dc) x) (combine (j_dirs j) (ti_joins t)) js ->
    List.length (ti_joins t) = List.length (j_dirs j) -> joins_are q t js.
(** FROM in an update, USING in a delete: the relation and its joins. *)
Inductive from_is (q : qstate) (t : tinfo) : list (texpr access (list bytes)) -> Prop :=
| from_none : q_join q = None -> from_is q t []
| from_some : forall j r js, q_join q = Some j -> j_relation j = Some r -> joins_are q t js ->
    from_is q t (TxRel r :: map TxJoin js).

(** The where clause, from the where struct's fields. *)
Inductive where_is (q : qstate) (t : tinfo) : option (bexpr access (list bytes)) -> Prop :=
| where_none : ti_where t = [] -> where_is q t None
| where_some : forall w e, q_where q = Some w -> ti_where t <> [] ->
    says_all [w_name w] false (ti_where t) e -> where_is q t (Some e).

(** The where clause of an update without where struct: the record with the
    same primary key.  A key that is also written is compared with the value
    written. *)
Inductive key_is (q : qstate) (t : tinfo) (w : fwrite) : bexpr access (list bytes) -> Prop :=
| key_alone : (forall x, In x (ti_writes t) -> fw_id x <> fw_id w) ->
    key_is q t w (YOp OpEq (XCol (fw_ident w)) (XParam (Acc (q_relname q :: field_path (fw_field w)) [])))
| key_written : forall x, In x (ti_writes t) -> fw_id x = fw_id w -> defaulted q x = false ->
    key_is q t w
      (YOp OpEq (XCol (fw_ident w)) (XParam (Acc (q_relname q :: field_path (fw_field x)) (fw_valuer x)))).
Inductive keys_are (q : qstate) (t : tinfo) :
    option boolean -> list fwrite -> list (option boolean * bexpr access (list bytes)) -> Prop :=
| keys_none : forall b, keys_are q t b [] []
| keys_more : forall b w e l es, key_is q t w e -> keys_are q t (Some BoolAnd) l es ->
    keys_are q t b (w :: l) ((b, e) :: es).

Definition order_is (q : qstate) : list order_item :=
  match q_orderby q with
  | Some l => map (fun o => (o_col o, o_desc o, match o_nulls o with NullsFirst => true | _ => false end)) l
  | None => []
  end.
Inductive number_is : option LimitField -> lim access -> Prop :=
| number_none : number_is None LNone
| number_zero : forall l, lf_name l = [] -> lf_value l = 0%N -> number_is (Some l) LNone
| number_const : forall l, lf_name l = [] -> lf_value l <> 0%N -> number_is (Some l) (LInt (lf_value l))
| number_field : forall l, lf_name l <> [] -> number_is (Some l) (LParam (Acc [lf_name l] [])).
(** Without a limit, a relation field for one record asks for one row. *)
Inductive limit_is (q : qstate) : lim access -> Prop :=
| limit_given : forall l x, q_limit q = Some l -> number_is (Some l) x -> limit_is q x
| limit_one : q_limit q = None -> single (q_rtype q) -> limit_is q (LInt 1)
| limit_none : q_limit q = None -> ~ single (q_rtype q) -> limit_is q LNone.

Definition conflict_is (t : tinfo) : option oconf :=
  match ti_conflict t with
  | Some c => Some (MkOConf (ci_target c) (map co_name (ci_update c)))
  | None => None
  end.
Definition columns_of (l : list fwrite) : list bytes := map (fun w => co_name (fw_col w)) l.

(** ** Statements *)

(** The statement of a query that neither has a filter field nor writes a
    slice of records. *)
Inductive intended (q : qstate) (t : tinfo) : fstmt -> Prop :=
| in_insert : forall vals ret, q_kind q = KInsert -> rt_slice (q_rtype q) = false ->
    Forall2 (stored q [q_relname q] false) (ti_writes t) vals -> Forall2 fetched (ti_reads t) ret ->
    intended q t (StInsert (q_relid q) (columns_of (ti_writes t)) (q_override q) vals (conflict_is t) ret)
| in_update : forall vals from wh ret, q_kind q = KUpdate -> rt_slice (q_rtype q) = false ->
    q_where q <> None \/ q_all q = true ->
    Forall2 (stored q [q_relname q] false) (ti_writes t) vals -> from_is q t from -> where_is q t wh ->
    Forall2 fetched (ti_reads t) ret ->
    intended q t (StUpdate (q_relid q) (columns_of (ti_writes t)) vals from wh ret)
| in_update_key : forall vals from keys ret, q_kind q = KUpdate -> rt_slice (q_rtype q) = false ->
    q_where q = None -> q_all q = false ->
    Forall2 (stored q [q_relname q] false) (ti_writes t) vals -> from_is q t from ->
    keys_are q t None (ti_pkeys t) keys -> Forall2 fetched (ti_reads t) ret ->
    intended q t
      (StUpdate (q_relid q) (columns_of (ti_writes t)) vals from (Some (YList false keys)) ret)
| in_select : forall cols joins wh l o, q_kind q = KSelect ->
    Forall2 fetched (ti_reads t) cols -> joins_are q t joins -> where_is q t wh ->
    limit_is q l -> number_is (q_offset q) o ->
    intended q t (StSelect cols (q_relid q) joins wh (order_is q) l o)
| in_count : forall joins wh o, q_kind q = KSelectCount ->
    joins_are q t joins -> where_is q t wh -> number_is (q_offset q) o ->
    intended q t (StCount (q_relid q) joins wh (order_is q) o)
| in_exists : forall (neg : bool) joins wh l o,
    q_kind q = (if neg then KSelectNotExists else KSelectExists) ->
    joins_are q t joins -> where_is q t wh -> limit_is q l -> number_is (q_offset q) o ->
    intended q t (StExists neg false (q_relid q) joins wh (order_is q) l o)
| in_delete : forall from wh ret, q_kind q = KDelete ->
    from_is q t from -> where_is q t wh -> Forall2 fetched (ti_reads t) ret ->
    intended q t (StDelete (q_relid q) from wh ret).

(** The query struct with a zero limit or offset replaced by the number of the
    field's tag. *)
Definition with_default (l : option LimitField) (v : gv) : gv :=
  match l, v with
  | Some l, VStruct fs =>
      match lf_name l, get_field (lf_name l) fs with
      | _ :: _, Some (VInt 0) =>
          if (0 <? lf_value l)%N then VStruct (upd_field (lf_name l) (VInt (Z.of_N (lf_value l))) fs) else v
      | _, _ => v
      end
  | _, _ => v
  end.
Definition with_defaults (q : qstate) (v : gv) : gv := with_default (q_offset q) (with_default (q_limit q) v).

(** What the analysis and the checker guarantee about the parts used here:
    only inserts and updates write, only selects have a limit or an offset,
    inserts have neither where nor join, written fields and keys are listed
    once, and join conditions compare columns. *)
Definition checked (q : qstate) (t : tinfo) : Prop :=
  (is_insert (q_kind q) || is_update (q_kind q) = false -> ti_writes t = [])
  /\ (isSelect (q_kind q) = false -> q_limit q = None /\ q_offset q = None)
  /\ (q_where q = None -> ti_where t = [])
  /\ (q_kind q = KInsert -> q_where q = None /\ q_join q = None)
  /\ NoDup (map fw_id (ti_writes t)) /\ NoDup (map fw_id (ti_pkeys t))
  /\ Forall (Forall (fun c => match c with WCBool _ | WCColumn _ => True | _ => False end)) (ti_joins t).
