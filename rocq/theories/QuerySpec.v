(** Independent description of query structs, second part: relations in scope,
    conditions, bounds, connectives.  [parsePredicateExpr], [stringToPredicate]
    and [tolower] are taken from AParse.v; the theorems C29 describe the first
    two. *)
From Coq Require Import Ascii String ZArith NArith Bool List.
From Verif Require Import GoBase PgSpec TagSpec SqlSpec AParse Analysis AnalysisSpec.
Import ListNotations.
Local Open Scope char_scope.

(** A struct type, possibly named, with its fields. *)
Definition struct_of (t : gtype) (fs : fields) : Prop := t = TStruct fs \/ exists n, t = TNamed n (TStruct fs).
(** A slice or an array, possibly named. *)
Definition sequence (t : gtype) : Prop := exists u, under t (TSlice u) \/ exists n, under t (TArray n u).

(** *** relations in scope *)
(** The name by which the relation [qual.]name[:alias] is referred to. *)
Definition scope_name (s k : text) : Prop :=
  exists q n a, s = qualified q (aliased n a) /\ is_name n /\ (q = [] \/ is_name q)
    /\ ((a = [] /\ k = n) \/ (is_name a /\ k = a)).
(** Fields of a join struct that say nothing. *)
Definition silent (v : fvar) : Prop :=
  (exists l, sql_tag v [] l) \/ (exists l, sql_tag v (lit "-") l) \/ v_name v <> lit "_".
Inductive join_names : fields -> list text -> Prop :=
| jn_nil : join_names [] []
| jn_skip : forall v t fs l, silent v -> join_names fs l -> join_names ((v, t) :: fs) l
| jn_name : forall v t fs l s o k, ~ silent v -> sql_tag v s o -> scope_name s k ->
    join_names fs l -> join_names ((v, t) :: fs) (k :: l).
Definition joins (r : role) : Prop := r = RJoin \/ r = RFrom \/ r = RUsing.
(** The names declared by the join structs of a query, in order. *)
Inductive joined_names : list (fvar * gtype * role) -> list text -> Prop :=
| jd_nil : joined_names [] []
| jd_other : forall v t r l ks, ~ joins r -> joined_names l ks -> joined_names ((v, t, r) :: l) ks
| jd_join : forall v t r l ks fs js, joins r -> struct_of t fs -> join_names fs js -> joined_names l ks ->
    joined_names ((v, t, r) :: l) (js ++ ks).

(** *** conditions *)
Definition unary (p : predicate) : Prop :=
  In p [IsNull; NotNull; IsTrue; NotTrue; IsFalse; NotFalse; IsUnknown; NotUnknown].
(** Can be combined with ANY, SOME and ALL. *)
Definition quantifiable (p : predicate) : Prop :=
  In p [IsEQ; NotEQ; NotEQ2; IsLT; IsGT; IsLTE; IsGTE; IsDistinct; NotDistinct; IsMatch; IsMatchi; NotMatch; NotMatchi;
        IsLike; NotLike; IsILike; NotILike; IsSimilar; NotSimilar].
Definition quantifier_of (s : text) (q : quantifier) : Prop :=
  (s = lit "any" /\ q = QuantAny) \/ (s = lit "some" /\ q = QuantSome) \/ (s = lit "all" /\ q = QuantAll)
  \/ (s <> lit "any" /\ s <> lit "some" /\ s <> lit "all" /\ q = QNone).
Definition predicate_of (d : predicate) (op : text) (p : predicate) : Prop :=
  (op = [] /\ p = d) \/ (op <> [] /\ p = stringToPredicate op).
Definition column_id (scope : list text) (s : text) (id : ColIdent) : Prop := column_in scope s (c_qual id) (c_col id).
(** Looks like a column, whether or not its qualifier is known. *)
Definition column_like (s : text) : Prop :=
  exists q n, s = qualified q n /\ is_name n /\ ((q = [] /\ ~ is_value_word n) \/ is_name q).

(** [column_condition scope s c]: the text [s] of a gosql.Column or join
    directive means the condition [c]: a test on one column, or a comparison
    of a column with a column or with a literal. *)
Inductive column_condition (scope : list text) (s : text) : cond -> Prop :=
| cc_unary : forall lhs op id p,
    parsePredicateExpr s = Ok (lhs, op, [], []) -> column_id scope lhs id ->
    predicate_of IsTrue op p -> unary p -> column_condition scope s (MkCond id (MkCol [] []) [] p QNone)
| cc_column : forall lhs op q r id rid p qu,
    parsePredicateExpr s = Ok (lhs, op, q, r) -> r <> [] -> column_id scope lhs id -> column_id scope r rid ->
    p = stringToPredicate op -> ~ unary p -> quantifier_of q qu -> (qu <> QNone -> quantifiable p) ->
    column_condition scope s (MkCond id rid [] p qu)
| cc_literal : forall lhs op q r id p qu,
    parsePredicateExpr s = Ok (lhs, op, q, r) -> r <> [] -> column_id scope lhs id ->
    ~ column_like r ->
    p = stringToPredicate op -> ~ unary p -> quantifier_of q qu -> (qu <> QNone -> quantifiable p) ->
    column_condition scope s (MkCond id (MkCol [] []) r p qu).

(** *** where structs *)
(** How a condition is connected with the previous ones. *)
Definition connective (v : fvar) (b : boolean) : Prop :=
  exists x, ((exists l, tag_value (v_tag v) (lit "bool") (x :: l))
             \/ (x = [] /\ (tag_value (v_tag v) (lit "bool") [] \/ ~ tagged v (lit "bool"))))
    /\ ((b = BoolAnd /\ (tolower x = [] \/ tolower x = lit "and")) \/ (b = BoolOr /\ tolower x = lit "or")).
(** Fields that say nothing; [f]: the where struct is declared in another package. *)
Definition unsaid (f : bool) (v : fvar) : Prop :=
  (exists l, sql_tag v [] l) \/ (exists l, sql_tag v (lit "-") l)
  \/ (v_name v <> lit "_" /\ v_exported v = false /\ f = true).
Definition column_directive (v : fvar) (t : gtype) : Prop := v_name v = lit "_" /\ directive t (lit "Column").

(** A field of the struct of a BETWEEN condition gives the lower (or upper) bound. *)
Definition bound_word (lower : bool) (w : text) : Prop :=
  if lower then tolower w = lit "x" \/ tolower w = lit "lower" else tolower w = lit "y" \/ tolower w = lit "upper".
Inductive gives (scope : list text) (lower : bool) (v : fvar) (t : gtype) : bound -> Prop :=
| gv_column : forall s w o id, column_directive v t -> sql_tag v s (w :: o) -> bound_word lower w ->
    column_id scope s id -> gives scope lower v t (BoundColumn id)
| gv_field : forall s o i, v_name v <> lit "_" -> sql_tag v s o -> bound_word lower s ->
    gives scope lower v t (BoundField (v_name v) i).

(** [item_of scope v t x]: the field [v] of type [t] means the condition [x]. *)
Inductive item_of (scope : list text) (v : fvar) (t : gtype) : witem -> Prop :=
| io_column : forall s o c, column_directive v t -> sql_tag v s o -> column_condition scope s c ->
    item_of scope v t (WColumn c)
| io_field : forall s o lhs op q r i id p qu fn, v_name v <> lit "_" -> sql_tag v s o ->
    parsePredicateExpr s = Ok (lhs, op, q, r) -> (forall a b, op <> a ++ lit "between" ++ b) ->
    column_id scope lhs id -> predicate_of IsEQ op p -> ~ unary p -> quantifier_of q qu ->
    (qu <> QNone -> quantifiable p /\ sequence t) -> (p = IsIn \/ p = NotIn -> sequence t) ->
    t_kind i = analyzeTypeKind t ->
    item_of scope v t (WField (v_name v) i id p qu fn)
| io_between : forall s o lhs op r id v1 t1 v2 t2 lo hi, v_name v <> lit "_" -> sql_tag v s o ->
    parsePredicateExpr s = Ok (lhs, op, [], r) -> (exists a b, op = a ++ lit "between" ++ b) ->
    column_id scope lhs id -> struct_of t [(v1, t1); (v2, t2)] ->
    (gives scope true v1 t1 lo /\ gives scope false v2 t2 hi) \/ (gives scope true v2 t2 lo /\ gives scope false v1 t1 hi) ->
    item_of scope v t (WBetween (v_name v) id (stringToPredicate op) lo hi).

(** [where_items scope f ne fs l]: the fields [fs] of a where struct add the
    items [l]; [ne]: something precedes them. *)
Inductive where_items (scope : list text) (f : bool) : bool -> fields -> list witem -> Prop :=
| wi_nil : forall ne, where_items scope f ne [] []
| wi_skip : forall ne v t fs l, unsaid f v -> where_items scope f ne fs l -> where_items scope f ne ((v, t) :: fs) l
| wi_item : forall ne v t fs l x b, ~ unsaid f v -> ~ (exists o, sql_tag v (lit ">") o) -> item_of scope v t x ->
    (ne = true -> connective v b) -> where_items scope f true fs l ->
    where_items scope f ne ((v, t) :: fs) ((if ne then [WBool b] else []) ++ x :: l)
| wi_nested : forall ne v t fs l fs' l' b, ~ unsaid f v -> (exists o, sql_tag v (lit ">") o) -> struct_of t fs' ->
    where_items scope f false fs' l' -> (ne = true -> connective v b) -> where_items scope f true fs l ->
    where_items scope f ne ((v, t) :: fs) ((if ne then [WBool b] else []) ++ WNested (v_name v) l' :: l)
| wi_dangling : forall ne v t fs l b, ~ unsaid f v -> ~ (exists o, sql_tag v (lit ">") o) ->
    v_name v = lit "_" -> ~ column_directive v t ->
    (ne = true -> connective v b) -> where_items scope f ne fs l ->
    where_items scope f ne ((v, t) :: fs) ((if ne then [WBool b] else []) ++ l).

(** *** shape of where items *)
Definition is_bool (x : witem) : Prop := exists b, x = WBool b.
(** No item begins with a connective, no two conditions stand side by side. *)
Inductive separated : list witem -> Prop :=
| sp_nil : separated []
| sp_one : forall x, ~ is_bool x -> (forall n l, x = WNested n l -> separated l) -> separated [x]
| sp_cons : forall x b bs l, ~ is_bool x -> (forall n l', x = WNested n l' -> separated l') ->
    separated l -> separated (x :: WBool b :: map WBool bs ++ l).
(** Conditions and connectives take turns, beginning and ending with a condition. *)
Inductive alternating : list witem -> Prop :=
| al_nil : alternating []
| al_one : forall x, ~ is_bool x -> (forall n l, x = WNested n l -> alternating l) -> alternating [x]
| al_cons : forall x b y l, ~ is_bool x -> (forall n l', x = WNested n l' -> alternating l') ->
    alternating (y :: l) -> alternating (x :: WBool b :: y :: l).
(** Every tagged field named _ is a gosql.Column directive (or nested). *)
Inductive only_columns (f : bool) : fields -> Prop :=
| oc_nil : only_columns f []
| oc_cons : forall v t fs,
    (v_name v = lit "_" -> unsaid f v \/ (exists o, sql_tag v (lit ">") o) \/ column_directive v t) ->
    (forall fs', struct_of t fs' -> only_columns f fs') ->
    only_columns f fs -> only_columns f ((v, t) :: fs).

(** *** join structs *)
Definition relation_id (s : text) (rid : RelIdent) : Prop :=
  s = qualified (r_qual rid) (aliased (r_name rid) (r_alias rid)) /\ is_name (r_name rid)
  /\ (r_qual rid = [] \/ is_name (r_qual rid)) /\ (r_alias rid = [] \/ is_name (r_alias rid)).
Definition ref_name (rid : RelIdent) : text := match r_alias rid with [] => r_name rid | a => a end.

(** The left column of a join condition belongs to the joined relation.  Only
    when the relation has an alias may the column be unqualified. *)
Definition lhs_qualifier (rid : RelIdent) (id : ColIdent) : Prop :=
  c_qual id = ref_name rid \/ (c_qual id = [] /\ r_alias rid <> []).
(** The conditions between semicolons: [ne]: something precedes; [b]: how the
    first is connected with it. *)
Inductive alternatives (scope : list text) (rid : RelIdent) : bool -> boolean -> list text -> list jitem -> Prop :=
| alt_nil : forall ne b, alternatives scope rid ne b [] []
| alt_cons : forall ne b s r c l, column_condition scope s c -> lhs_qualifier rid (c_lhs c) ->
    alternatives scope rid true BoolOr r l ->
    alternatives scope rid ne b (s :: r) ((if ne then [JBool b] else []) ++ JCond c :: l).
(** The values of the tag after the relation. *)
Inductive conjuncts (scope : list text) (rid : RelIdent) : bool -> list text -> list jitem -> Prop :=
| cj_nil : forall ne, conjuncts scope rid ne [] []
| cj_cons : forall ne v r ps l l', pieces ";" ps v -> alternatives scope rid ne BoolAnd ps l ->
    conjuncts scope rid true r l' -> conjuncts scope rid ne (v :: r) (l ++ l').

Definition join_words : list (text * join_type) :=
  [(lit "LeftJoin", JLeft); (lit "RightJoin", JRight); (lit "FullJoin", JFull); (lit "CrossJoin", JCross);
   (lit "InnerJoin", JInner)].
(** [join_decl scope fs scope' rel dirs]: the fields [fs] of a join struct name
    the relation [rel] and the joins [dirs], and add their names to the scope.
    A condition can refer to the relations before it and to the one joined. *)
Inductive join_decl : list text -> fields -> list text -> option RelIdent -> list JoinDirective -> Prop :=
| jl_nil : forall sc, join_decl sc [] sc None []
| jl_skip : forall sc v t fs sc' rel ds, silent v -> join_decl sc fs sc' rel ds -> join_decl sc ((v, t) :: fs) sc' rel ds
| jl_relation : forall sc v t fs sc' ds d s o rid, ~ silent v -> directive t d -> tolower d = lit "relation" ->
    sql_tag v s o -> relation_id s rid -> ~ In (ref_name rid) sc ->
    join_decl (ref_name rid :: sc) fs sc' None ds -> join_decl sc ((v, t) :: fs) sc' (Some rid) ds
| jl_join : forall sc v t fs sc' rel ds d s o rid jt items, ~ silent v -> directive t d ->
    sql_tag v s o -> relation_id s rid -> ~ In (ref_name rid) sc ->
    (In (d, jt) join_words \/ (~ In d (map fst join_words) /\ jt = JNone
       /\ In (tolower d) (map lit ["leftjoin"; "rightjoin"; "fulljoin"; "crossjoin"; "innerjoin"]%string))) ->
    conjuncts (ref_name rid :: sc) rid false o items ->
    join_decl (ref_name rid :: sc) fs sc' rel ds ->
    join_decl sc ((v, t) :: fs) sc' rel (MkJD jt rid items :: ds).

(** *** on conflict *)
(** The directives of an on conflict struct, in order, with the values of the tag. *)
Inductive oc_names : fields -> list (text * list text) -> Prop :=
| on_nil : oc_names [] []
| on_skip : forall v t fs l, v_name v <> lit "_" -> oc_names fs l -> oc_names ((v, t) :: fs) l
| on_dir : forall v t fs l d o, v_name v = lit "_" -> directive t d ->
    tag_value (v_tag v) (lit "sql") o \/ (o = [] /\ ~ tagged v (lit "sql")) ->
    oc_names fs l -> oc_names ((v, t) :: fs) ((tolower d, o) :: l).
Definition targets : list text := map lit ["column"; "index"; "constraint"]%string.
Definition actions : list text := map lit ["ignore"; "update"]%string.
Definition once (ws : list text) (l : list (text * list text)) : Prop :=
  forall l1 x l2 y l3, l = l1 ++ x :: l2 ++ y :: l3 -> ~ (In (fst x) ws /\ In (fst y) ws).

(** *** order by *)
Inductive nulls_suffix : text -> nulls -> Prop :=
| ns_default : nulls_suffix [] NullsDefault
| ns_first : nulls_suffix (lit ":nullsfirst") NullsFirst
| ns_last : nulls_suffix (lit ":nullslast") NullsLast.
(** One value of the tag: [-]column[:nullsfirst|:nullslast] *)
Inductive order_item (scope : list text) (v : text) : OrderByTagItem -> Prop :=
| oi : forall w w' desc c suf id nl, spaces w -> spaces w' ->
    v = w ++ (if desc : bool then ["-"] else []) ++ c ++ suf ++ w' ->
    column_id scope c id -> nulls_suffix suf nl -> order_item scope v (MkOrder id desc nl).
(** Values of white space only are passed over. *)
Inductive order_items (scope : list text) : list text -> list OrderByTagItem -> Prop :=
| os_nil : order_items scope [] []
| os_blank : forall v r l, spaces v -> order_items scope r l -> order_items scope (v :: r) l
| os_item : forall v r l i, order_item scope v i -> order_items scope r l -> order_items scope (v :: r) (i :: l).

(** *** limit and offset *)
Definition digit (c : ascii) : Prop := (48 <= N_of_ascii c <= 57)%N.
(** The value of a decimal numeral. *)
Definition decimal (s : text) (n : N) : Prop :=
  s <> [] /\ Forall digit s /\ n = fold_left (fun a c => a * 10 + (N_of_ascii c - 48))%N s 0%N.

(** *** columns mentioned by a query *)
Inductive in_item (id : ColIdent) : witem -> Prop :=
| ii_field : forall n t p q fn, in_item id (WField n t id p q fn)
| ii_lhs : forall r s p q, in_item id (WColumn (MkCond id r s p q))
| ii_rhs : forall l s p q, in_item id (WColumn (MkCond l id s p q))
| ii_between : forall n p lo hi, in_item id (WBetween n id p lo hi)
| ii_lower : forall n x p hi, in_item id (WBetween n x p (BoundColumn id) hi)
| ii_upper : forall n x p lo, in_item id (WBetween n x p lo (BoundColumn id))
| ii_nested : forall n l x, In x l -> in_item id x -> in_item id (WNested n l).
Inductive mentions (q : qstate) (id : ColIdent) : Prop :=
| mn_where : forall w x, q_where q = Some w -> In x (w_items w) -> in_item id x -> mentions q id
| mn_join : forall j d c, q_join q = Some j -> In d (j_dirs j) -> In (JCond c) (j_items d) ->
    id = c_lhs c \/ id = c_rhs c -> mentions q id
| mn_target : forall oc l, q_onconflict q = Some oc -> oc_column oc = Some l -> In id l -> mentions q id
| mn_action : forall oc l, q_onconflict q = Some oc -> oc_update oc = Some l -> In id (l_items l) -> mentions q id
| mn_order : forall l o, q_orderby q = Some l -> In o l -> id = o_col o -> mentions q id
| mn_force : forall l, q_force q = Some l -> In id (l_items l) -> mentions q id
| mn_optional : forall l, q_optional q = Some l -> In id (l_items l) -> mentions q id
| mn_default : forall l, q_default q = Some l -> In id (l_items l) -> mentions q id
| mn_return : forall l, q_return q = Some l -> In id (l_items l) -> mentions q id
| mn_rel : forall r f, q_rel q = Some r -> In f (rt_fields (rf_type r)) -> id = fi_col f -> mentions q id
| mn_result : forall r f, q_result q = Some r -> In f (rt_fields (rs_type r)) -> id = fi_col f -> mentions q id.

(** *** what is in scope at a field *)
(** The names that can qualify columns at a field of the query struct [fs]
    that follows the fields [before]: that of the queried relation and those of
    the join structs so far. *)
Definition scope_at (fs before : fields) (sc : list text) : Prop :=
  exists v t s o k l ks, In (v, t) fs /\ tag_value (v_tag v) (lit "rel") (s :: o) /\ scope_name s k
    /\ roles before l /\ joined_names l ks /\ sc = rev ks ++ [k].
(** [place fs r v t sc]: the field [v] of type [t] has the role [r], no later
    one has, and [sc] is the scope there. *)
Definition place (fs : fields) (rs : list role) (v : fvar) (t : gtype) (sc : list text) : Prop :=
  exists fs1 fs2 r, fs = fs1 ++ (v, t) :: fs2 /\ has_role v t r /\ In r rs /\ scope_at fs fs1 sc
    /\ forall v' t' r', In (v', t') fs2 -> In r' rs -> ~ has_role v' t' r'.
(** The tag value of a column list. *)
Definition column_list (sc : list text) (o : list text) (l : ColIdentList) : Prop :=
  (o = [lit "*"] /\ l = MkColList true [])
  \/ exists ids, l = MkColList false ids /\ o <> [] /\ Forall2 (column_id sc) o ids.

(** *** record types *)
(** A named struct type or a pointer to one. *)
Inductive element : gtype -> bool -> tname -> fields -> Prop :=
| el_value : forall n fs, element (TNamed n (TStruct fs)) false n fs
| el_pointer : forall n fs, element (TPtr (TNamed n (TStruct fs))) true n fs.
Definition maybe_named (u t : gtype) : Prop := t = u \/ exists n, t = TNamed n u.
Definition error_type (t : gtype) : Prop := exists n u, t = TNamed n u /\ n_pkg n = None /\ n_name n = lit "error".
(** How records are held: by pointer, slice, array of a length, iterator. *)
Record holding := MkHold { h_ptr : bool; h_slice : bool; h_array : option Z; h_iter : option text }.
(** [record_of pkg t n fs h]: a field of type [t] holds records of the struct
    type with the fields [fs], named [n]; [pkg] is the package of the query. *)
Inductive record_of (pkg : text) (t : gtype) : option tname -> fields -> holding -> Prop :=
| ro_struct : forall fs, t = TStruct fs -> record_of pkg t None fs (MkHold false false None None)
| ro_named : forall n fs, t = TNamed n (TStruct fs) -> record_of pkg t (Some n) fs (MkHold false false None None)
| ro_pointer : forall n fs, maybe_named (TPtr (TNamed n (TStruct fs))) t ->
    record_of pkg t (Some n) fs (MkHold true false None None)
| ro_slice : forall u p n fs, maybe_named (TSlice u) t -> element u p n fs ->
    record_of pkg t (Some n) fs (MkHold p true None None)
| ro_array : forall k u p n fs, maybe_named (TArray k u) t -> element u p n fs ->
    record_of pkg t (Some n) fs (MkHold p false (Some k) None)
| ro_func : forall a r p n fs, maybe_named (TFunc [a] [r]) t -> element a p n fs -> error_type r ->
    record_of pkg t (Some n) fs (MkHold p false None (Some []))
| ro_iface : forall m ex a r x y z p n fs, maybe_named (TIface [(m, ex, ([a], [r]))] x y z) t -> element a p n fs ->
    error_type r -> m <> lit "_" -> (ex = true \/ ~ foreign pkg t) ->
    record_of pkg t (Some n) fs (MkHold p false None (Some m)).

(** *** the parts of the result *)
Definition present (q : qstate) (r : role) : Prop :=
  match r with
  | RRel => q_rel q <> None
  | RWhere => q_where q <> None
  | RJoin | RFrom | RUsing => q_join q <> None
  | ROnConflict => q_onconflict q <> None
  | RResult => q_result q <> None
  | RLimit => q_limit q <> None
  | ROffset => q_offset q <> None
  | RRows => q_rows q <> None
  | RAll => q_all q = true
  | RDefault => q_default q <> None
  | RForce => q_force q <> None
  | ROptional => q_optional q <> None
  | RReturn => q_return q <> None
  | ROrderBy => q_orderby q <> None
  | ROverride => q_override q <> None
  | RFilter => q_filter q <> None
  | RErrorHandler => q_errh q <> None
  | RContext => q_ctx q <> None
  | RNone => False
  end.
(** Join, From and Using structs end up in the same place. *)
Definition alike (r r' : role) : Prop := r = r' \/ (joins r /\ joins r').
(** Fields of which a query struct can have only one. *)
Definition exclusive : list (list role) :=
  [[RRel]; [RWhere; RFilter; RAll]; [RReturn; RResult; RRows]; [RLimit]; [ROffset]; [RErrorHandler]; [RContext]].
Definition integer_type (t : gtype) : Prop :=
  exists k a b, t = TBasic k a b
    /\ In k [BInt; BInt8; BInt16; BInt32; BInt64; BUint; BUint8; BUint16; BUint32; BUint64].
(** A limit or offset field: [name] is empty for a directive. *)
Definition bounds (v : fvar) (t : gtype) (name : text) (n : N) : Prop :=
  ((v_name v = lit "_" /\ name = [] /\ exists s o, sql_tag v s o /\ s <> []) \/ (v_name v <> lit "_" /\ name = v_name v /\ integer_type t))
  /\ ((exists o, sql_tag v [] o) /\ n = 0%N \/ exists s o, sql_tag v s o /\ decimal s n /\ (n < 2 ^ 64)%N).
(** The fields listed for a record type, one for each column. *)
Definition column_field (x : list fvar * fvar * (text * text)) (f : FieldInfo) : Prop :=
  let '(path, v, (q, n)) := x in
  map sn_name (fi_sel f) = map v_name path /\ map sn_tag (fi_sel f) = map v_tag path
  /\ fi_name f = v_name v /\ fi_tag f = v_tag v /\ fi_col f = MkCol q n
  /\ parseFieldMode (v_tag v) = Ok (fi_mode f).
(** A relation type describes the records of a field of type [t]. *)
Inductive relation_type (pkg : text) (sc : list text) (t : gtype) (rt : RelType) : Prop :=
| rlt : forall n fs h f l, record_of pkg t n fs h -> (f = true <-> exists m u, n = Some m /\ foreign pkg (TNamed m u)) ->
    columns pkg sc f [] [] fs l -> Forall2 column_field l (rt_fields rt) ->
    rt_ptr rt = h_ptr h -> rt_slice rt = h_slice h -> (rt_array rt = true <-> h_array h <> None) ->
    (forall k, h_array h = Some k -> rt_len rt = k) -> (rt_iter rt = true <-> h_iter h <> None) ->
    (forall m, h_iter h = Some m -> rt_method rt = m) ->
    (forall m, n = Some m -> t_name (rt_base rt) = n_name m /\ n_pkg m = Some (t_path (rt_base rt), t_pkg (rt_base rt)) /\ rt_after rt = n_afterscan m) ->
    relation_type pkg sc t rt.

(** *** filter structs *)
Definition constructs (t : gtype) : Prop := exists n u, t = TNamed n u /\ n_fctor n = true.
(** What a field of a filter struct is there for. *)
Inductive filter_role := FRel | FSearch | FCtor.
Definition blank_directive (v : fvar) (t : gtype) : Prop := v_name v = lit "_" /\ exists d, d <> [] /\ directive t d.
Inductive has_filter_role (v : fvar) (t : gtype) : filter_role -> Prop :=
| fr_rel : tagged v (lit "rel") -> has_filter_role v t FRel
| fr_search : ~ tagged v (lit "rel") -> blank_directive v t -> has_filter_role v t FSearch
| fr_ctor : ~ tagged v (lit "rel") -> ~ blank_directive v t -> constructs t -> has_filter_role v t FCtor.
(** The only field with the role, and the last one with the role, before
    which there are [fs1]. *)
Definition the_only (fs : fields) (r : filter_role) (v : fvar) (t : gtype) : Prop :=
  exists fs1 fs2, fs = fs1 ++ (v, t) :: fs2 /\ has_filter_role v t r
    /\ forall v' t', In (v', t') (fs1 ++ fs2) -> ~ has_filter_role v' t' r.
Definition the_last (fs fs1 : fields) (r : filter_role) (v : fvar) (t : gtype) : Prop :=
  exists fs2, fs = fs1 ++ (v, t) :: fs2 /\ has_filter_role v t r
    /\ forall v' t', In (v', t') fs2 -> ~ has_filter_role v' t' r.
(** The column a text search directive names, written in any case between
    optional white space. *)
Definition search_column (sc : list text) (v : fvar) (id : ColIdent) : Prop :=
  exists o w x w', sql_tag v (w ++ x ++ w') o /\ spaces w /\ spaces w' /\ TagSpec.trimmed x
    /\ (ascii7 x -> column_id sc (map lower_char x) id).
