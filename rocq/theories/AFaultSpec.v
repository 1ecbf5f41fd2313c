(** Independent description of what is wrong with a query or filter struct:
    for each error code of the analysis, the faults it stands for.  Struct
    fields, tags and types are described by AnalysisSpec.v and QuerySpec.v;
    [parsePredicateExpr], [stringToPredicate], [tolower] and [lower] are taken
    from AParse.v as there. *)
From Coq Require Import Ascii String ZArith NArith Bool List.
From Verif Require Import GoBase PgSpec TagSpec SqlSpec AParse Analysis AnalysisSpec QuerySpec FieldSpec.
Import ListNotations.
Local Open Scope char_scope.

(** *** names *)
(** The text does not name a column, or one of a relation not in scope. *)
Inductive column_fault (sc : list text) (s : text) : errc -> Prop :=
| af_bad_column : ~ column_like s -> column_fault sc s (EC EBadColId)
| af_qualifier : forall q n, s = qualified q n -> is_name q -> is_name n -> ~ In q sc -> column_fault sc s (EC EUnknownQualifier).
(** The text does not name a relation, or one whose name is taken. *)
Inductive relation_fault (sc : list text) (s : text) : errc -> Prop :=
| af_bad_relation : (forall rid, ~ relation_id s rid) -> relation_fault sc s (EC EBadRelId)
| af_taken_name : forall rid, relation_id s rid -> r_alias rid = [] -> In (ref_name rid) sc -> relation_fault sc s (EC EConflictingRelName)
| af_taken_alias : forall rid, relation_id s rid -> r_alias rid <> [] -> In (ref_name rid) sc -> relation_fault sc s (EC EConflictingRelAlias).
(** A list of columns. *)
Inductive ids_fault (sc : list text) (o : list text) : errc -> Prop :=
| af_no_columns : o = [] -> ids_fault sc o (EC EMissingColumnList)
| af_one_column : forall s c, In s o -> column_fault sc s c -> ids_fault sc o c.
Definition list_fault (sc : list text) (o : list text) (c : errc) : Prop := o <> [lit "*"] /\ ids_fault sc o c.
(** The values of a tag, none if it is missing. *)
Definition values (v : fvar) (k : text) (o : list text) : Prop :=
  tag_value (v_tag v) k o \/ (o = [] /\ ~ tagged v k).

(** *** record types *)
Inductive columns_fault (pkg : text) (sc : list text) : bool -> text -> fields -> errc -> Prop :=
| af_column_here : forall f pfx v t fs s o c, ~ passed_over f v -> sql_tag v s o ->
    ~ (exists p fs', s = ">" :: p /\ record_type t fs') -> column_fault sc (pfx ++ s) c ->
    columns_fault pkg sc f pfx ((v, t) :: fs) c
| af_column_below : forall f pfx v t fs p o fs' f' c, ~ passed_over f v -> sql_tag v (">" :: p) o -> record_type t fs' ->
    (f' = true <-> foreign pkg t) -> columns_fault pkg sc f' (pfx ++ p) fs' c ->
    columns_fault pkg sc f pfx ((v, t) :: fs) c
| af_column_later : forall f pfx v t fs c, columns_fault pkg sc f pfx fs c -> columns_fault pkg sc f pfx ((v, t) :: fs) c.
Inductive record_fault (pkg : text) (sc : list text) (t : gtype) : errc -> Prop :=
| af_iface : forall ms a b c, maybe_named (TIface ms a b c) t -> (forall n fs h, ~ record_of pkg t n fs h) ->
    record_fault pkg sc t EBadIterTypeInterface
| af_func : forall ps rs, maybe_named (TFunc ps rs) t -> (forall n fs h, ~ record_of pkg t n fs h) ->
    record_fault pkg sc t EBadIterTypeFunc
| af_shape : (forall ms a b c, ~ maybe_named (TIface ms a b c) t) -> (forall ps rs, ~ maybe_named (TFunc ps rs) t) ->
    (forall n fs h, ~ record_of pkg t n fs h) -> record_fault pkg sc t EBadRelType
| af_columns : forall n fs h f c, record_of pkg t n fs h -> (f = true <-> exists m u, n = Some m /\ foreign pkg (TNamed m u)) ->
    columns_fault pkg sc f [] fs c -> record_fault pkg sc t c.

(** *** conditions *)
(** The text of a gosql.Column or join directive. *)
Inductive condition_fault (sc : list text) (s : text) : errc -> Prop :=
| af_lhs : forall lhs op q r c, parsePredicateExpr s = Ok (lhs, op, q, r) -> column_fault sc lhs c -> condition_fault sc s c
| af_rhs : forall lhs op q r c, parsePredicateExpr s = Ok (lhs, op, q, r) -> r <> [] -> column_like r -> column_fault sc r c ->
    condition_fault sc s c
| af_unary_rhs : forall lhs op q r, parsePredicateExpr s = Ok (lhs, op, q, r) -> r <> [] -> unary (stringToPredicate op) ->
    condition_fault sc s EIllegalUnaryPredicate
| af_quantified : forall lhs op q r qu, parsePredicateExpr s = Ok (lhs, op, q, r) -> r <> [] -> quantifier_of q qu -> qu <> QNone ->
    ~ quantifiable (stringToPredicate op) -> condition_fault sc s EIllegalPredicateQuantifier
| af_no_rhs : forall lhs op q p, parsePredicateExpr s = Ok (lhs, op, q, []) -> predicate_of IsTrue op p -> ~ unary p ->
    condition_fault sc s EBadDirectiveBooleanExpr
| af_quantified_none : forall lhs op q, parsePredicateExpr s = Ok (lhs, op, q, []) -> q <> [] ->
    condition_fault sc s EIllegalPredicateQuantifier.

(** A field of the struct type [t] of a BETWEEN condition gives one bound. *)
Definition gives_bound (pkg : text) (sc : list text) (t : gtype) (lower : bool) (f : fvar * gtype) : Prop :=
  (exists b, gives sc lower (fst f) (snd f) b) /\ (v_name (fst f) = lit "_" \/ v_exported (fst f) = true \/ ~ foreign pkg t).
Definition between_struct (pkg : text) (sc : list text) (t : gtype) : Prop :=
  exists f1 f2, struct_of t [f1; f2]
    /\ ((gives_bound pkg sc t true f1 /\ gives_bound pkg sc t false f2) \/ (gives_bound pkg sc t true f2 /\ gives_bound pkg sc t false f1)).

(** A field of a where struct that is not nested. *)
Inductive item_fault (pkg : text) (sc : list text) (v : fvar) (t : gtype) : errc -> Prop :=
| af_directive : forall s o c, column_directive v t -> sql_tag v s o -> condition_fault sc s c -> item_fault pkg sc v t c
| af_field_column : forall s o lhs op q r c, v_name v <> lit "_" -> sql_tag v s o -> parsePredicateExpr s = Ok (lhs, op, q, r) ->
    column_fault sc lhs c -> item_fault pkg sc v t c
| af_field_unary : forall s o lhs op q r, v_name v <> lit "_" -> sql_tag v s o -> parsePredicateExpr s = Ok (lhs, op, q, r) ->
    unary (stringToPredicate op) -> item_fault pkg sc v t EIllegalUnaryPredicate
| af_field_quantified : forall s o lhs op q r p qu, v_name v <> lit "_" -> sql_tag v s o -> parsePredicateExpr s = Ok (lhs, op, q, r) ->
    quantifier_of q qu -> qu <> QNone -> predicate_of IsEQ op p -> ~ quantifiable p -> item_fault pkg sc v t EIllegalPredicateQuantifier
| af_field_sequence : forall s o lhs op q r qu, v_name v <> lit "_" -> sql_tag v s o -> parsePredicateExpr s = Ok (lhs, op, q, r) ->
    quantifier_of q qu -> qu <> QNone -> ~ sequence t -> item_fault pkg sc v t EIllegalFieldQuantifier
| af_field_list : forall s o lhs op q r, v_name v <> lit "_" -> sql_tag v s o -> parsePredicateExpr s = Ok (lhs, op, q, r) ->
    In (stringToPredicate op) [IsIn; NotIn] -> ~ sequence t -> item_fault pkg sc v t EIllegalListPredicate
| af_between_quantified : forall s o lhs op q r, v_name v <> lit "_" -> sql_tag v s o -> parsePredicateExpr s = Ok (lhs, op, q, r) ->
    (exists a b, op = a ++ lit "between" ++ b) -> q <> [] -> item_fault pkg sc v t EIllegalPredicateQuantifier
| af_between : forall s o lhs op q r, v_name v <> lit "_" -> sql_tag v s o -> parsePredicateExpr s = Ok (lhs, op, q, r) ->
    (exists a b, op = a ++ lit "between" ++ b) -> ~ between_struct pkg sc t -> item_fault pkg sc v t EBadBetweenPredicate
| af_between_column : forall s o lhs op q r fs v' t' s' o' c, v_name v <> lit "_" -> sql_tag v s o ->
    parsePredicateExpr s = Ok (lhs, op, q, r) -> (exists a b, op = a ++ lit "between" ++ b) ->
    struct_of t fs -> List.length fs = 2 -> In (v', t') fs -> column_directive v' t' -> sql_tag v' s' o' -> column_fault sc s' c ->
    item_fault pkg sc v t c.

(** The fields of a where struct; [ne]: a condition precedes them. *)
Definition dangling (v : fvar) (t : gtype) : Prop := v_name v = lit "_" /\ ~ column_directive v t /\ ~ (exists o, sql_tag v (lit ">") o).
Inductive where_fault (pkg : text) (sc : list text) (f : bool) : bool -> fields -> errc -> Prop :=
| af_skip : forall ne v t fs c, unsaid f v -> where_fault pkg sc f ne fs c -> where_fault pkg sc f ne ((v, t) :: fs) c
| af_connective : forall v t fs, ~ unsaid f v -> (forall b, ~ connective v b) -> where_fault pkg sc f true ((v, t) :: fs) EBadBoolTagValue
| af_no_struct : forall ne v t fs, ~ unsaid f v -> (exists o, sql_tag v (lit ">") o) -> (forall fs', ~ struct_of t fs') ->
    where_fault pkg sc f ne ((v, t) :: fs) EBadFieldTypeStruct
| af_nested : forall ne v t fs fs' c, ~ unsaid f v -> (exists o, sql_tag v (lit ">") o) -> struct_of t fs' ->
    where_fault pkg sc f false fs' c -> where_fault pkg sc f ne ((v, t) :: fs) c
| af_item : forall ne v t fs c, ~ unsaid f v -> ~ (exists o, sql_tag v (lit ">") o) -> item_fault pkg sc v t c ->
    where_fault pkg sc f ne ((v, t) :: fs) c
| af_after : forall ne v t fs c, ~ unsaid f v -> ~ dangling v t -> where_fault pkg sc f true fs c ->
    where_fault pkg sc f ne ((v, t) :: fs) c
| af_after_dangling : forall ne v t fs c, ~ unsaid f v -> dangling v t -> where_fault pkg sc f ne fs c ->
    where_fault pkg sc f ne ((v, t) :: fs) c.

(** *** join structs *)
Definition join_dirs : list text := map lit ["leftjoin"; "rightjoin"; "fulljoin"; "crossjoin"; "innerjoin"]%string.
(** [bare]: the struct may name a relation without a join; [had]: it has. *)
Inductive join_fault (bare : bool) : bool -> list text -> fields -> errc -> Prop :=
| af_silent : forall had sc v t fs c, silent v -> join_fault bare had sc fs c -> join_fault bare had sc ((v, t) :: fs) c
| af_no_join : forall had sc v t fs, ~ silent v -> (forall d, directive t d -> ~ In (tolower d) (lit "relation" :: join_dirs)) ->
    join_fault bare had sc ((v, t) :: fs) EIllegalStructDirective
| af_bare : forall had sc v t fs d, ~ silent v -> directive t d -> tolower d = lit "relation" -> bare = false ->
    join_fault bare had sc ((v, t) :: fs) EIllegalStructDirective
| af_second : forall sc v t fs d, ~ silent v -> directive t d -> tolower d = lit "relation" ->
    join_fault bare true sc ((v, t) :: fs) EConflictingRelationDirective
| af_joined : forall had sc v t fs d s o c, ~ silent v -> directive t d -> In (tolower d) (lit "relation" :: join_dirs) -> sql_tag v s o ->
    relation_fault sc s c -> join_fault bare had sc ((v, t) :: fs) c
| af_condition : forall had sc v t fs d s o rid x ps p c, ~ silent v -> directive t d -> In (tolower d) join_dirs -> sql_tag v s o ->
    relation_id s rid -> In x o -> pieces ";" ps x -> In p ps -> condition_fault (ref_name rid :: sc) p c ->
    join_fault bare had sc ((v, t) :: fs) c
| af_join_column : forall had sc v t fs d s o rid x ps p lhs op q r id, ~ silent v -> directive t d -> In (tolower d) join_dirs ->
    sql_tag v s o -> relation_id s rid -> In x o -> pieces ";" ps x -> In p ps -> parsePredicateExpr p = Ok (lhs, op, q, r) ->
    column_id (ref_name rid :: sc) lhs id -> ~ lhs_qualifier rid id ->
    join_fault bare had sc ((v, t) :: fs) EBadJoinConditionLHS
| af_join_later : forall had sc v t fs d s o rid c, ~ silent v -> directive t d -> In (tolower d) join_dirs -> sql_tag v s o ->
    relation_id s rid -> join_fault bare had (ref_name rid :: sc) fs c -> join_fault bare had sc ((v, t) :: fs) c
| af_relation_later : forall had sc v t fs d s o rid c, ~ silent v -> directive t d -> tolower d = lit "relation" -> sql_tag v s o ->
    relation_id s rid -> join_fault bare true (ref_name rid :: sc) fs c -> join_fault bare had sc ((v, t) :: fs) c.

(** *** on conflict structs *)
Definition conflict_directive (f : fvar * gtype) (w : text) : Prop :=
  v_name (fst f) = lit "_" /\ exists d, directive (snd f) d /\ tolower d = w.
Inductive conflict_fault (sc : list text) (fs : fields) : errc -> Prop :=
| af_no_directive : forall f, In f fs -> v_name (fst f) = lit "_" -> (forall w, In w (targets ++ actions) -> ~ conflict_directive f w) ->
    conflict_fault sc fs EIllegalStructDirective
| af_two_targets : forall a f b f' c w w', fs = a ++ f :: b ++ f' :: c -> In w targets -> In w' targets ->
    conflict_directive f w -> conflict_directive f' w' -> conflict_fault sc fs EConflictingOnConflictTarget
| af_two_actions : forall a f b f' c w w', fs = a ++ f :: b ++ f' :: c -> In w actions -> In w' actions ->
    conflict_directive f w -> conflict_directive f' w' -> conflict_fault sc fs EConflictingOnConflictAction
| af_target_columns : forall f o c, In f fs -> conflict_directive f (lit "column") -> values (fst f) (lit "sql") o -> ids_fault sc o c ->
    conflict_fault sc fs c
| af_target_name : forall f w s o, In f fs -> In w [lit "index"; lit "constraint"] -> conflict_directive f w -> sql_tag (fst f) s o -> ~ is_name s ->
    conflict_fault sc fs EBadIdentTagValue
| af_action_columns : forall f o c, In f fs -> conflict_directive f (lit "update") -> values (fst f) (lit "sql") o -> list_fault sc o c ->
    conflict_fault sc fs c
| af_no_target : forall f, In f fs -> conflict_directive f (lit "update") ->
    (forall f' w, In f' fs -> In w targets -> ~ conflict_directive f' w) -> conflict_fault sc fs EMissingOnConflictTarget.

(** *** the relation field *)
(** [relation_part pkg k v t sc k' slice cols]: the field [v] of type [t],
    tagged rel, of a query struct of the kind [k] makes it a query of the kind
    [k'] on records with the columns [cols], held in a slice or not. *)
Inductive relation_part (pkg : text) (k : qkind) (v : fvar) (t : gtype) (sc : list text) : qkind -> bool -> list text -> Prop :=
| af_counts : forall k', k = KSelect -> counts (v_name v) t k' -> relation_part pkg k v t sc k' false []
| af_relation : k = KDelete -> v_name v = lit "_" -> directive t (lit "Relation") -> relation_part pkg k v t sc k false []
| af_record : forall n fs h f l, (forall k', ~ counts (v_name v) t k') -> ~ (v_name v = lit "_" /\ directive t (lit "Relation")) ->
    record_of pkg t n fs h -> (f = true <-> exists m u, n = Some m /\ foreign pkg (TNamed m u)) -> columns pkg sc f [] [] fs l ->
    (h_iter h <> None -> k = KSelect \/ k = KDelete) ->
    relation_part pkg k v t sc k (h_slice h) (map (fun x => snd (snd x)) l).
Inductive relation_part_fault (pkg : text) (k : qkind) (v : fvar) (t : gtype) (sc : list text) : errc -> Prop :=
| af_not_select : forall k', k <> KSelect -> counts (v_name v) t k' -> relation_part_fault pkg k v t sc EIllegalQueryField
| af_not_delete : k <> KDelete -> v_name v = lit "_" -> directive t (lit "Relation") -> relation_part_fault pkg k v t sc EIllegalQueryField
| af_iterator : forall n fs h, (forall k', ~ counts (v_name v) t k') -> record_of pkg t n fs h -> h_iter h <> None ->
    k = KInsert \/ k = KUpdate -> relation_part_fault pkg k v t sc EIllegalQueryField
| af_record_type : forall c, (forall k', ~ counts (v_name v) t k') -> ~ (v_name v = lit "_" /\ directive t (lit "Relation")) ->
    record_fault pkg sc t c -> relation_part_fault pkg k v t sc c.

(** *** the other fields *)
Definition wheres : list role := [RWhere; RFilter; RAll].
Definition outputs : list role := [RReturn; RResult; RRows].
(** A value of an order by tag, less white space and the sign. *)
Definition order_text (x z : text) : Prop :=
  exists w y w', x = w ++ y ++ w' /\ spaces w /\ spaces w' /\ trimmed y /\ y <> [] /\ (y = "-" :: z \/ (y = z /\ forall r, z <> "-" :: r)).
(** [field_fault pkg k slice cols sc earlier v t c]: the field [v] of type [t]
    of a query of the kind [k] on records with the columns [cols] is wrong;
    [sc] are the relations in scope there, [earlier] the roles of the fields
    before it. *)
Inductive field_fault (pkg : text) (k : qkind) (slice : bool) (cols sc : list text) (earlier : list role) (v : fvar) (t : gtype) : errc -> Prop :=
| af_unknown_directive : forall d, v_name v = lit "_" -> d <> [] -> directive t d -> (forall r, ~ has_role v t r) ->
    field_fault pkg k slice cols sc earlier v t EIllegalQueryField
| af_illegal : forall r, has_role v t r -> ~ legal k r -> field_fault pkg k slice cols sc earlier v t EIllegalQueryField
| af_wheres : forall r r', has_role v t r -> In r wheres -> In r' earlier -> In r' wheres ->
    field_fault pkg k slice cols sc earlier v t EConflictingWhere
| af_outputs : forall r r', has_role v t r -> In r outputs -> In r' earlier -> In r' outputs ->
    field_fault pkg k slice cols sc earlier v t EConflictingResultTarget
| af_again : forall r, has_role v t r -> In r [RLimit; ROffset; RErrorHandler; RContext] -> In r earlier ->
    field_fault pkg k slice cols sc earlier v t EConflictingFieldOrDirective
| af_slice : forall r, has_role v t r -> In r wheres -> k = KUpdate -> slice = true ->
    field_fault pkg k slice cols sc earlier v t EIllegalSliceUpdateModifier
| af_struct : forall r, has_role v t r -> In r [RWhere; RJoin; RFrom; RUsing; ROnConflict] -> (forall fs, ~ struct_of t fs) ->
    field_fault pkg k slice cols sc earlier v t EBadFieldTypeStruct
| af_where : forall fs f c, has_role v t RWhere -> struct_of t fs -> (f = true <-> foreign pkg t) -> where_fault pkg sc f false fs c ->
    field_fault pkg k slice cols sc earlier v t c
| af_join : forall r fs bare c, has_role v t r -> joins r -> struct_of t fs -> (bare = true <-> r <> RJoin) ->
    join_fault bare false sc fs c -> field_fault pkg k slice cols sc earlier v t c
| af_conflict : forall fs c, has_role v t ROnConflict -> struct_of t fs -> conflict_fault sc fs c ->
    field_fault pkg k slice cols sc earlier v t c
| af_result : forall c, has_role v t RResult -> record_fault pkg sc t c -> field_fault pkg k slice cols sc earlier v t c
| af_integer : forall r, has_role v t r -> r = RRows \/ (In r [RLimit; ROffset] /\ v_name v <> lit "_") -> ~ integer_type t ->
    field_fault pkg k slice cols sc earlier v t EBadFieldTypeInt
| af_no_number : forall r o, has_role v t r -> In r [RLimit; ROffset] -> v_name v = lit "_" -> sql_tag v [] o ->
    field_fault pkg k slice cols sc earlier v t EMissingTagValue
| af_number : forall r s o, has_role v t r -> In r [RLimit; ROffset] -> sql_tag v s o -> s <> [] ->
    (forall n, ~ (decimal s n /\ (n < 2 ^ 64)%N)) -> field_fault pkg k slice cols sc earlier v t EBadUIntegerTagValue
| af_no_order : has_role v t ROrderBy -> values v (lit "sql") [] -> field_fault pkg k slice cols sc earlier v t (EC EMissingColumnList)
| af_nulls : forall o x a b, has_role v t ROrderBy -> values v (lit "sql") o -> In x o -> order_text x (a ++ ":" :: b) -> ~ In ":" a ->
    b <> lit "nullsfirst" -> b <> lit "nullslast" -> field_fault pkg k slice cols sc earlier v t EBadNullsOrderTagValue
| af_order : forall o x a suf nl c, has_role v t ROrderBy -> values v (lit "sql") o -> In x o -> order_text x (a ++ suf) -> ~ In ":" a ->
    nulls_suffix suf nl -> column_fault sc a c -> field_fault pkg k slice cols sc earlier v t c
| af_override : forall s o, has_role v t ROverride -> sql_tag v s o -> tolower s <> lit "system" -> tolower s <> lit "user" ->
    field_fault pkg k slice cols sc earlier v t EBadOverrideTagValue
| af_no_record : has_role v t RReturn -> cols = [] -> field_fault pkg k slice cols sc earlier v t EMissingRelField
| af_list : forall r o c, has_role v t r -> In r [RReturn; RForce; ROptional; RDefault] -> values v (lit "sql") o -> list_fault sc o c ->
    field_fault pkg k slice cols sc earlier v t c
| af_no_field : forall r o s id, has_role v t r -> In r [RReturn; RForce; ROptional] -> values v (lit "sql") o -> o <> [lit "*"] ->
    In s o -> column_id sc s id -> ~ In (c_col id) cols -> field_fault pkg k slice cols sc earlier v t EColumnFieldUnknown.

(** *** query structs *)
(** The name of a query struct begins with the kind of query. *)
Definition kind_words : list (text * qkind) :=
  [(lit "insert", KInsert); (lit "update", KUpdate); (lit "select", KSelect); (lit "delete", KDelete)].
Definition named_kind (name : text) (k : qkind) : Prop := exists w a b, In (w, k) kind_words /\ name = a ++ b /\ spelled a w.
(** The first value of the rel tag. *)
Definition rel_value (v : fvar) (s : text) : Prop := exists o, values v (lit "rel") o /\ s = hd [] o.
Inductive query_fault (pkg : text) (name : text) (fs : fields) : errc -> Prop :=
| af_no_rel : (forall f, In f fs -> ~ tagged (fst f) (lit "rel")) -> query_fault pkg name fs EMissingRelField
| af_two_rels : forall a f b f' c, fs = a ++ f :: b ++ f' :: c -> tagged (fst f) (lit "rel") -> tagged (fst f') (lit "rel") ->
    query_fault pkg name fs EConflictingRelTag
| af_rel_name : forall v t s c, In (v, t) fs -> tagged v (lit "rel") -> rel_value v s -> relation_fault [] s c -> query_fault pkg name fs c
| af_rel_type : forall v t s rid k c, In (v, t) fs -> tagged v (lit "rel") -> rel_value v s -> relation_id s rid -> named_kind name k ->
    relation_part_fault pkg k v t [ref_name rid] c -> query_fault pkg name fs c
| af_field : forall rv rt s rid k k' slice cols before v t after sc l c, In (rv, rt) fs -> tagged rv (lit "rel") -> rel_value rv s ->
    relation_id s rid -> named_kind name k -> relation_part pkg k rv rt [ref_name rid] k' slice cols ->
    fs = before ++ (v, t) :: after -> ~ tagged v (lit "rel") -> scope_at fs before sc -> roles before l ->
    field_fault pkg k' slice cols sc (map snd l) v t c -> query_fault pkg name fs c.

(** *** filter structs *)
Inductive filter_fault (pkg : text) (fs : fields) : errc -> Prop :=
| af_f_no_rel : (forall f, In f fs -> ~ has_filter_role (fst f) (snd f) FRel) -> filter_fault pkg fs EMissingRelField
| af_f_no_ctor : (forall f, In f fs -> ~ has_filter_role (fst f) (snd f) FCtor) -> filter_fault pkg fs EMissingFilterConstructor
| af_f_two_rels : forall a f b f' c, fs = a ++ f :: b ++ f' :: c -> has_filter_role (fst f) (snd f) FRel ->
    has_filter_role (fst f') (snd f') FRel -> filter_fault pkg fs EConflictingRelTag
| af_f_two_ctors : forall a f b f' c, fs = a ++ f :: b ++ f' :: c -> has_filter_role (fst f) (snd f) FCtor ->
    has_filter_role (fst f') (snd f') FCtor -> filter_fault pkg fs EConflictingFilterConstructor
| af_f_rel_name : forall v t s c, In (v, t) fs -> has_filter_role v t FRel -> rel_value v s -> relation_fault [] s c -> filter_fault pkg fs c
| af_f_record : forall v t s rid c, In (v, t) fs -> has_filter_role v t FRel -> rel_value v s -> relation_id s rid ->
    record_fault pkg [ref_name rid] t c -> filter_fault pkg fs c
| af_f_iterator : forall v t n fs' h, In (v, t) fs -> has_filter_role v t FRel -> record_of pkg t n fs' h -> h_iter h <> None ->
    filter_fault pkg fs EIllegalIteratorField
| af_f_directive : forall v t d, In (v, t) fs -> has_filter_role v t FSearch -> directive t d -> ~ spelled d (lit "textsearch") ->
    filter_fault pkg fs EIllegalQueryField
| af_f_search : forall before v t after sc w x w' o c, fs = before ++ (v, t) :: after -> has_filter_role v t FSearch ->
    ((exists v' t' s rid, In (v', t') before /\ has_filter_role v' t' FRel /\ rel_value v' s /\ relation_id s rid /\ sc = [ref_name rid])
     \/ (sc = [] /\ forall v' t', In (v', t') before -> ~ has_filter_role v' t' FRel)) ->
    sql_tag v (w ++ x ++ w') o -> spaces w -> spaces w' -> trimmed x -> column_fault sc (lower x) c -> filter_fault pkg fs c.

(** *** structs that can be analysed *)
(** The types that a type consists of; the results of functions do not
    matter. *)
Inductive part : gtype -> gtype -> Prop :=
| pt_array : forall n t, part (TArray n t) t
| pt_slice : forall t, part (TSlice t) t
| pt_ptr : forall t, part (TPtr t) t
| pt_key : forall k t, part (TMap k t) k
| pt_elem : forall k t, part (TMap k t) t
| pt_param : forall ps rs p, In p ps -> part (TFunc ps rs) p
| pt_method : forall ms a b c name x ps rs p, In (name, x, (ps, rs)) ms -> In p ps -> part (TIface ms a b c) p
| pt_field : forall fs v t, In (v, t) fs -> part (TStruct fs) t
| pt_under : forall n u, part (TNamed n u) u.
Inductive inside : gtype -> gtype -> Prop :=
| in_whole : forall t, inside t t
| in_part : forall t u w, part t u -> inside u w -> inside t w.
(** The values of the sql tag are ASCII, its options are not empty. *)
Definition tame (v : fvar) : Prop :=
  forall o, tag_value (v_tag v) (lit "sql") o -> Forall ascii7 o /\ ~ In [] (tl o).
(** No named type is predeclared. *)
Definition regular (fs : fields) : Prop :=
  forall u, inside (TStruct fs) u ->
    (forall n w, u = TNamed n w -> n_pkg n <> None) /\ (forall fs' v t, u = TStruct fs' -> In (v, t) fs' -> tame v).
