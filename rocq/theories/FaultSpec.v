(** What is wrong with a query that the type checker rejects, for each of the
    codes of its errors. *)
From Coq Require Import Ascii String ZArith NArith Bool List.
From Verif Require Import GoBase AParse Analysis Oids Compat Gen Check CheckSpec.
Import ListNotations.
Local Open Scope string_scope.
Local Open Scope list_scope.

(** The catalogs have one row per key: types by OID, casts by target and
    source, functions by name. *)
Definition keyed (k : catalog) : Prop :=
  NoDup (map ty_oid (cat_types k)) /\ NoDup (map fst (cat_casts k)) /\ NoDup (map fst (cat_procs k)).

(** A column identifier that denotes nothing. *)
Inductive bad_ident (db : database) (l : list (bytes * RelIdent)) (id : ColIdent) : dbcode -> Prop :=
| bi_qualifier : (forall rid, ~ stands_for l (c_qual id) rid) -> bad_ident db l id DColumnQualifierUnknown
| bi_column : forall rid t, stands_for l (c_qual id) rid -> db_rels db (dotted rid) = Some t -> ~ has_row t (c_col id) ->
    bad_ident db l id DColumnUnknown.

(** A condition on the column described by the row [r].  [outer]: the column
    may be null although it is declared not to be. *)
Definition truth_test (p : predicate) : Prop := In p [IsTrue; NotTrue; IsFalse; NotFalse; IsUnknown; NotUnknown].
Definition null_test (p : predicate) : Prop := In p [IsNull; NotNull].
Definition binary (p : predicate) : Prop := ~ truth_test p /\ ~ null_test p.
Inductive bad_cond (db : database) (l : list (bytes * RelIdent)) (d : cond) (r : colrow) (outer : Prop) : dbcode -> Prop :=
| bc_bool : truth_test (c_pred d) -> cr_type r <> oid_Bool -> bad_cond db l d r outer DPredicateOperandBool
| bc_null : null_test (c_pred d) -> cr_notnull r = true -> ~ outer -> bad_cond db l d r outer DPredicateOperandNull
| bc_right : forall e, binary (c_pred d) -> c_col (c_rhs d) <> [] -> bad_ident db l (c_rhs d) e -> bad_cond db l d r outer e
| bc_literal : binary (c_pred d) -> c_col (c_rhs d) = [] -> c_lit d <> [] -> db_lit db (c_lit d) = None ->
    bad_cond db l d r outer DPredicateLiteralExpr
| bc_array : forall t, binary (c_pred d) -> operand db l d t -> p_array (c_pred d) = true -> ty_cat t <> CatArray ->
    bad_cond db l d r outer DPredicateOperandArray
| bc_quantifier : forall t, binary (c_pred d) -> operand db l d t -> p_array (c_pred d) = false -> quant_set (c_quant d) = true ->
    ty_cat t <> CatArray -> bad_cond db l d r outer DPredicateOperandQuantifier
| bc_types : forall lt t e, binary (c_pred d) -> type_of (db_cat db) (cr_type r) lt -> operand db l d t ->
    compared (db_cat db) (c_pred d) (c_quant d) t e -> ~ comparable (db_cat db) (c_pred d) lt e ->
    bad_cond db l d r outer DColumnComparison.

(** A condition that compares a column with a field. *)
Definition with_valuer (f : fcond) (v : bytes) : fcond :=
  MkFC (fc_name f) (fc_type f) (fc_ident f) (fc_col f) (fc_pred f) (fc_quant f) (fc_func f) v.
Definition no_array_type (k : catalog) (t : pgtype) : Prop := forall a u, In (ty_oid t, a) TypeToArray -> ~ type_of k a u.
Inductive bad_field (k : catalog) (f : fcond) : dbcode -> Prop :=
| bf_array : fc_func f = [] -> p_array (fc_pred f) = true -> no_array_type k (co_type (fc_col f)) -> bad_field k f DPredicateOperandArray
| bf_quantifier : fc_func f = [] -> p_array (fc_pred f) = false -> quant_set (fc_quant f) = true -> no_array_type k (co_type (fc_col f)) ->
    bad_field k f DPredicateOperandQuantifier
| bf_types : fc_func f = [] -> (forall v, ~ field_sound k (with_valuer f v)) -> bad_field k f DColumnFieldComparison
| bf_func : fc_func f <> [] -> (forall v, ~ field_sound k (with_valuer f v)) -> bad_field k f DProcedureUnknown.

(** A bound of a between struct; comparisons have codes of their own there. *)
Definition between_code (e : dbcode) : dbcode :=
  match e with DColumnComparison => DBetweenColumnComparison | DColumnFieldComparison => DBetweenFieldComparison | _ => e end.
Inductive bad_bound (db : database) (l : list (bytes * RelIdent)) (id : ColIdent) (t : relrow) (r : colrow) (p : predicate) : bound -> dbcode -> Prop :=
| bb_column : forall id' e, bad_cond db l (MkCond id id' [] p QNone) r False e -> bad_bound db l id t r p (BoundColumn id') (between_code e)
| bb_field : forall n ty c e, describes (db_cat db) t r c -> bad_field (db_cat db) (MkFC n ty id c p QNone [] []) e ->
    bad_bound db l id t r p (BoundField n ty) (between_code e).
(** A condition of a where struct; [target] is the relation of the query. *)
Inductive bad_item (db : database) (target : RelIdent) (l : list (bytes * RelIdent)) : witem -> dbcode -> Prop :=
| bw_lhs : forall d e, bad_ident db l (c_lhs d) e -> bad_item db target l (WColumn d) e
| bw_column : forall d rid t r e, denotes db l (c_lhs d) rid t r -> bad_cond db l d r (rid <> target) e -> bad_item db target l (WColumn d) e
| bw_field_lhs : forall n ty id p q fn e, bad_ident db l id e -> bad_item db target l (WField n ty id p q fn) e
| bw_field : forall n ty id p q fn rid t r c e, denotes db l id rid t r -> describes (db_cat db) t r c ->
    bad_field (db_cat db) (MkFC n ty id c p q fn []) e -> bad_item db target l (WField n ty id p q fn) e
| bw_between_lhs : forall n id p lo hi e, bad_ident db l id e -> bad_item db target l (WBetween n id p lo hi) e
| bw_between_lo : forall n id p lo hi rid t r e, denotes db l id rid t r ->
    bad_bound db l id t r (match p with NotBetween | NotBetweenSym | NotBetweenAsym => IsLT | _ => IsGTE end) lo e ->
    bad_item db target l (WBetween n id p lo hi) e
| bw_between_hi : forall n id p lo hi rid t r e, denotes db l id rid t r ->
    bad_bound db l id t r (match p with NotBetween | NotBetweenSym | NotBetweenAsym => IsGT | _ => IsLTE end) hi e ->
    bad_item db target l (WBetween n id p lo hi) e
| bw_nested : forall n i is e, In i is -> bad_item db target l i e -> bad_item db target l (WNested n is) e.
(** A condition of the join of the relation [t]; its left column is one of [t]. *)
Inductive bad_join (db : database) (l : list (bytes * RelIdent)) (t : relrow) : jitem -> dbcode -> Prop :=
| bj_lhs : forall d, ~ has_row t (c_col (c_lhs d)) -> bad_join db l t (JCond d) DColumnUnknown
| bj_cond : forall d r e, row_named t (c_col (c_lhs d)) r -> bad_cond db l d r False e -> bad_join db l t (JCond d) e.

(** *** Fields *)
(** The type, or what it points to, is of a kind. *)
Definition of_kind (P : kind -> Prop) (t : TypeInfo) : Prop :=
  P (t_kind t) \/ t_kind t = KPtr /\ exists e, t_elem t = Some e /\ P (t_kind e).
Definition has_flag (g : tflags -> bool) (t : TypeInfo) : Prop :=
  g (t_flags t) = true \/ t_kind t = KPtr /\ exists e, t_elem t = Some e /\ g (t_flags e) = true.
Definition scans (t : TypeInfo) : Prop :=
  f_scanner (t_flags t) = true /\ t_kind t <> KInterface
  \/ t_kind t = KPtr /\ exists e, t_elem t = Some e /\ f_scanner (t_flags e) = true /\ t_kind e <> KInterface.
Definition json_column (c : column) : Prop := ty_oid (co_type c) = oid_JSON \/ ty_oid (co_type c) = oid_JSONB.
Definition xml_column (c : column) : Prop := ty_oid (co_type c) = oid_XML.
(** encoding/json and encoding/xml take no values of these kinds. *)
Definition no_json (k : kind) : Prop := In k [KChan; KFunc; KBasic BComplex64; KBasic BComplex128].
Definition no_xml (k : kind) : Prop := In k [KChan; KFunc; KMap].
Definition no_entry (k : catalog) (c : column) (t : TypeInfo) : Prop :=
  forall len1 e, length1 k c len1 -> ~ fits k (co_type c) len1 (GenericLiteral t) e.
(** A field that cannot take the values of the column. *)
Inductive unreadable (k : catalog) (t : TypeInfo) (c : column) : Prop :=
| ur_interface : t_kind t = KInterface -> t_empty t = false -> unreadable k t c
| ur_json : json_column c -> ~ scans t -> ~ has_flag f_jsonu t -> of_kind no_json t -> unreadable k t c
| ur_xml : xml_column c -> ~ scans t -> t_empty t = false -> ~ has_flag f_xmlu t -> of_kind no_xml t -> unreadable k t c
| ur_other : ~ json_column c -> ~ xml_column c -> ~ scans t -> t_empty t = false -> no_entry k c t -> unreadable k t c.
(** A field whose values the column cannot take. *)
Inductive unwritable (k : catalog) (t : TypeInfo) (c : column) : Prop :=
| uw_json : json_column c -> ~ has_flag f_valuer t -> ~ has_flag f_jsonm t -> of_kind no_json t -> unwritable k t c
| uw_xml : xml_column c -> ~ has_flag f_valuer t -> ~ has_flag f_xmlm t -> of_kind no_xml t -> unwritable k t c
| uw_other : ~ json_column c -> ~ xml_column c -> ~ has_flag f_valuer t -> no_entry k c t -> unwritable k t c.

(** [col_of]: the column of the field in the target. *)
Definition col_of (k : catalog) (tr : relrow) (f : FieldInfo) (r : colrow) (c : column) : Prop :=
  row_named tr (field_name f) r /\ describes k tr r c.
(** [f] is the first field for the column. *)
Definition first_field (fs : list FieldInfo) (name : bytes) (f : FieldInfo) : Prop :=
  exists l1 l2, fs = l1 ++ f :: l2 /\ field_name f = name /\ ~ In name (map field_name l1).
(** [needed]: the field must have a column. *)
Inductive bad_read (k : catalog) (tr : relrow) (needed : Prop) (f : FieldInfo) : dbcode -> Prop :=
| br_column : needed -> ~ has_row tr (field_name f) -> bad_read k tr needed f DColumnUnknown
| br_type : forall r c, col_of k tr f r c -> unreadable k (fi_type f) c -> bad_read k tr needed f DColumnFieldTypeRead.
Inductive bad_write (k : catalog) (tr : relrow) (f : FieldInfo) : dbcode -> Prop :=
| bx_column : ~ has_row tr (field_name f) -> ~ read_only f -> bad_write k tr f DColumnUnknown
| bx_default : forall r c, col_of k tr f r c -> fi_default f = true -> cr_hasdef r = false -> bad_write k tr f DColumnDefaultUnset
| bx_type : forall r c, col_of k tr f r c -> unwritable k (fi_type f) c -> bad_write k tr f DColumnFieldTypeWrite.

(** *** Conflicts *)
Definition decides (x : ixrow) : Prop := ir_unique x = true \/ ir_primary x = true.
(** The index is on as many columns as are named, and on no others. *)
Definition index_on (x : ixrow) (rows : list colrow) : Prop :=
  List.length (ir_key x) = List.length rows /\ incl (ir_key x) (map cr_num rows).
Definition first_index (tr : relrow) (n : bytes) (x : ixrow) : Prop :=
  exists l1 l2, rr_ixs tr = l1 ++ x :: l2 /\ ir_name x = n /\ ~ In n (map ir_name l1).
Definition first_constraint (tr : relrow) (n : bytes) (k : contype) : Prop :=
  exists l1 l2, rr_cons tr = l1 ++ (n, k) :: l2 /\ ~ In n (map fst l1).
Inductive bad_conflict (tr : relrow) (oc : OnConflictStruct) : dbcode -> Prop :=
| bo_column : forall ids id, oc_column oc = Some ids -> In id ids -> ~ has_row tr (c_col id) -> bad_conflict tr oc DColumnUnknown
| bo_no_index : forall ids rows, oc_column oc = Some ids -> Forall2 (fun id r => row_named tr (c_col id) r) ids rows ->
    (forall x, In x (rr_ixs tr) -> ~ index_on x rows) -> bad_conflict tr oc DIndexColumnsUnknown
| bo_not_unique : forall ids rows, oc_column oc = Some ids -> Forall2 (fun id r => row_named tr (c_col id) r) ids rows ->
    (exists x, In x (rr_ixs tr) /\ index_on x rows) -> (forall x, In x (rr_ixs tr) -> index_on x rows -> ~ decides x) ->
    bad_conflict tr oc DIndexColumnsNotUnique
| bo_index : forall n, oc_index oc = Some n -> ~ In n (map ir_name (rr_ixs tr)) -> bad_conflict tr oc DIndexUnknown
| bo_index_kind : forall n x, oc_index oc = Some n -> first_index tr n x -> ~ decides x -> bad_conflict tr oc DIndexNotUnique
| bo_constraint : forall n, oc_constraint oc = Some n -> ~ In n (map fst (rr_cons tr)) -> bad_conflict tr oc DConstraintUnknown
| bo_constraint_kind : forall n k, oc_constraint oc = Some n -> first_constraint tr n k -> k <> ConPKey -> k <> ConUnique ->
    bad_conflict tr oc DConstraintNotUnique
| bo_update : forall l id, oc_update oc = Some l -> l_all l = false -> In id (l_items l) -> ~ has_row tr (c_col id) ->
    bad_conflict tr oc DColumnUnknown.

(** *** Queries *)
Definition source_of (j : JoinStruct) : list RelIdent := match j_relation j with Some id => [id] | None => [] end.
(** The relation [tr] belongs to the query's target [rf]. *)
Inductive fault (db : database) (q : qstate) (rf : RelField) : dbcode -> Prop :=
| ft_relation : forall id, In id (rf_id rf :: joined (q_join q)) -> db_rels db (dotted id) = None -> fault db q rf DRelationUnknown
| ft_column_type : forall id t r, In id (rf_id rf :: joined (q_join q)) -> db_rels db (dotted id) = Some t -> In r (rr_cols t) ->
    (forall u, ~ type_of (db_cat db) (cr_type r) u) -> fault db q rf DColumnUnknownType
| ft_join : forall j d1 d d2 i t e, q_join q = Some j -> j_dirs j = d1 ++ d :: d2 -> In i (j_items d) -> db_rels db (dotted (j_rel d)) = Some t ->
    bad_join db (bindings rf (source_of j ++ map j_rel (d1 ++ [d]))) t i e -> fault db q rf e
| ft_force : forall l id e, q_force q = Some l -> In id (l_items l) -> bad_ident db (bindings rf (joined (q_join q))) id e -> fault db q rf e
| ft_order : forall l o e, q_orderby q = Some l -> In o l -> bad_ident db (bindings rf (joined (q_join q))) (o_col o) e -> fault db q rf e
| ft_default_column : forall l id tr, target db q rf tr -> q_default q = Some l -> In id (l_items l) -> ~ has_row tr (c_col id) -> fault db q rf DColumnUnknown
| ft_default : forall l id tr r, target db q rf tr -> q_default q = Some l -> In id (l_items l) -> row_named tr (c_col id) r -> cr_hasdef r = false ->
    fault db q rf DColumnDefaultUnset
| ft_return : forall l id e, q_return q = Some l -> l_all l = false -> In id (l_items l) -> bad_ident db (bindings rf (joined (q_join q))) id e -> fault db q rf e
| ft_return_all : forall l f tr e, target db q rf tr -> q_return q = Some l -> l_all l = true -> In f (rt_fields (rf_type rf)) ->
    bad_read (db_cat db) tr False f e -> fault db q rf e
| ft_return_some : forall l id f tr e, target db q rf tr -> q_return q = Some l -> l_all l = false -> In id (l_items l) -> first_field (rt_fields (rf_type rf)) (c_col id) f ->
    bad_read (db_cat db) tr True f e -> fault db q rf e
| ft_result : forall r f tr e, target db q rf tr -> q_result q = Some r -> In f (rt_fields (rs_type r)) -> bad_read (db_cat db) tr True f e -> fault db q rf e
| ft_select : forall f tr e, target db q rf tr -> rf_dir rf = false -> q_kind q = KSelect -> In f (rt_fields (rf_type rf)) ->
    bad_read (db_cat db) tr (~ named_in (q_optional q) (field_name f)) f e -> fault db q rf e
| ft_write : forall f tr e, target db q rf tr -> rf_dir rf = false -> (q_kind q = KInsert \/ q_kind q = KUpdate) -> In f (rt_fields (rf_type rf)) ->
    bad_write (db_cat db) tr f e -> fault db q rf e
| ft_where : forall i e, In i (where_of q) -> bad_item db (rf_id rf) (bindings rf (joined (q_join q))) i e -> fault db q rf e
| ft_conflict : forall oc tr e, target db q rf tr -> q_onconflict q = Some oc -> bad_conflict tr oc e -> fault db q rf e.

(** A filter is rejected for its fields or its text search column. *)
Inductive filter_fault (db : database) (s : fstate) (rf : RelField) : dbcode -> Prop :=
| ff_relation : db_rels db (dotted (rf_id rf)) = None -> filter_fault db s rf DRelationUnknown
| ff_column_type : forall t r, db_rels db (dotted (rf_id rf)) = Some t -> In r (rr_cols t) ->
    (forall u, ~ type_of (db_cat db) (cr_type r) u) -> filter_fault db s rf DColumnUnknownType
| ff_field : forall tr f r c, db_rels db (dotted (rf_id rf)) = Some tr -> In f (rt_fields (rf_type rf)) ->
    (forall m, In m (modes f) -> m_filter m = true) -> col_of (db_cat db) tr f r c -> unwritable (db_cat db) (fi_type f) c ->
    filter_fault db s rf DColumnFieldTypeWrite
| ff_search_column : forall tr id, db_rels db (dotted (rf_id rf)) = Some tr -> fs_ts s = Some id -> ~ has_row tr (c_col id) ->
    filter_fault db s rf DColumnUnknown
| ff_search_type : forall tr id r, db_rels db (dotted (rf_id rf)) = Some tr -> fs_ts s = Some id -> row_named tr (c_col id) r ->
    cr_type r <> oid_TSVector -> filter_fault db s rf DColumnTextSearchType.
