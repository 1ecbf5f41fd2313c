(** Independent description of target structs: what the fields of a query
    struct mean, which columns a record type lists, which relations are in
    scope.  Go types, struct fields and tags are the input language, taken
    from Analysis.v and AParse.v; nothing else of the model is used here. *)
From Coq Require Import Ascii String ZArith NArith Bool List.
From Verif Require Import GoBase PgSpec TagSpec AParse Analysis.
Import ListNotations.
Local Open Scope char_scope.

(** *** tags *)
Inductive tag_value : tag -> text -> list text -> Prop :=
| tv_here : forall k l t, tag_value ((k, l) :: t) k l
| tv_later : forall k k' l l' t, k <> k' -> tag_value t k l -> tag_value ((k', l') :: t) k l.
Definition tagged (v : fvar) (k : text) : Prop := exists l, tag_value (v_tag v) k l.
(** The values of the sql tag: the first one, and the others. *)
Inductive sql_tag (v : fvar) : text -> list text -> Prop :=
| st_some : forall x l, tag_value (v_tag v) (lit "sql") (x :: l) -> sql_tag v x l
| st_empty : tag_value (v_tag v) (lit "sql") [] -> sql_tag v [] []
| st_none : ~ tagged v (lit "sql") -> sql_tag v [] [].

(** *** types *)
(** The type behind the names. *)
Inductive under : gtype -> gtype -> Prop :=
| un_plain : forall t, (forall n u, t <> TNamed n u) -> under t t
| un_named : forall n u t, under u t -> under (TNamed n u) t.
(** A type declared in another package than [pkg]. *)
Definition foreign (pkg : text) (t : gtype) : Prop :=
  exists n u p pn, t = TNamed n u /\ n_pkg n = Some (p, pn) /\ p <> pkg.
(** No predeclared named type (error) occurs in it, leaving aside the insides
    of structs, interfaces, functions and channels. *)
Inductive packaged : gtype -> Prop :=
| pk_basic : forall k a b, packaged (TBasic k a b)
| pk_array : forall n t, packaged t -> packaged (TArray n t)
| pk_slice : forall t, packaged t -> packaged (TSlice t)
| pk_ptr : forall t, packaged t -> packaged (TPtr t)
| pk_map : forall k t, packaged k -> packaged t -> packaged (TMap k t)
| pk_chan : forall t, packaged (TChan t)
| pk_func : forall ps rs, packaged (TFunc ps rs)
| pk_iface : forall ms a b c, packaged (TIface ms a b c)
| pk_struct : forall fs, packaged (TStruct fs)
| pk_named : forall n p u, n_pkg n = Some p -> packaged u -> packaged (TNamed n u).
(** A struct or a pointer to one, with its fields. *)
Definition record_type (t : gtype) (fs : fields) : Prop :=
  under t (TStruct fs) \/ exists u, under t (TPtr u) /\ under u (TStruct fs).

(** *** identifiers in a scope *)
(** [scope]: the names by which relations can be referred to. *)
Definition column_in (scope : list text) (s : text) (q n : text) : Prop :=
  s = qualified q n /\ is_name n /\ (q <> [] -> is_name q /\ In q scope) /\ ~ is_value_word s.

(** *** the columns of a record type *)
(** Fields that are passed over: without sql tag or with -, named _, or not
    accessible because the struct that declares them is foreign. *)
Definition passed_over (foreign_struct : bool) (v : fvar) : Prop :=
  (exists l, sql_tag v [] l) \/ (exists l, sql_tag v (lit "-") l) \/ v_name v = lit "_"
  \/ (v_exported v = false /\ foreign_struct = true).
(** The option texts must not be empty. *)
Definition options_ok (v : fvar) : Prop := exists x l, sql_tag v x l /\ ~ In [] l.

(** [columns pkg scope f pfx path fs l]: the fields [fs] of a struct that is
    foreign if [f], reached through the fields [path] whose tags add up to the
    prefix [pfx], list the columns [l]: for each the path, the field and the
    qualifier and name. *)
Inductive columns (pkg : text) (scope : list text)
  : bool -> text -> list fvar -> fields -> list (list fvar * fvar * (text * text)) -> Prop :=
| cl_nil : forall f pfx path, columns pkg scope f pfx path [] []
| cl_skip : forall f pfx path v t fs l, passed_over f v ->
    columns pkg scope f pfx path fs l -> columns pkg scope f pfx path ((v, t) :: fs) l
| cl_column : forall f pfx path v t fs l s o q n, ~ passed_over f v -> packaged t ->
    sql_tag v s o -> ~ (exists p fs', s = ">" :: p /\ record_type t fs') ->
    column_in scope (pfx ++ s) q n -> options_ok v ->
    columns pkg scope f pfx path fs l -> columns pkg scope f pfx path ((v, t) :: fs) ((path, v, (q, n)) :: l)
| cl_nested : forall f pfx path v t fs l p o fs' f' l', ~ passed_over f v -> packaged t ->
    sql_tag v (">" :: p) o -> record_type t fs' -> (f' = true <-> foreign pkg t) -> options_ok v ->
    columns pkg scope f' (pfx ++ p) (path ++ [v]) fs' l' ->
    columns pkg scope f pfx path fs l -> columns pkg scope f pfx path ((v, t) :: fs) (l' ++ l).

(** *** the fields of a query struct *)
Inductive role :=
| RRel | RWhere | RJoin | RFrom | RUsing | ROnConflict | RResult | RLimit | ROffset | RRows
| RAll | RDefault | RForce | ROptional | RReturn | ROrderBy | ROverride
| RFilter | RErrorHandler | RContext | RNone.

(** A directive of the gosql package, with its name. *)
Definition directive (t : gtype) (d : text) : Prop :=
  exists n u p pn v w, t = TNamed n u /\ n_name n = d /\ n_pkg n = Some (p, pn)
    /\ (exists q, p = q ++ lit "github.com/frk/gosql") /\ u = TStruct [(v, w)] /\ v_name v = lit "_isdir".
Definition directive_roles : list (text * role) :=
  [(lit "all", RAll); (lit "default", RDefault); (lit "force", RForce); (lit "optional", ROptional);
   (lit "return", RReturn); (lit "limit", RLimit); (lit "offset", ROffset); (lit "orderby", ROrderBy);
   (lit "override", ROverride)].
Definition field_roles : list (text * role) :=
  [(lit "where", RWhere); (lit "join", RJoin); (lit "from", RFrom); (lit "using", RUsing);
   (lit "onconflict", ROnConflict); (lit "result", RResult); (lit "limit", RLimit);
   (lit "offset", ROffset); (lit "rowsaffected", RRows)].

Definition is_filter_type (t : gtype) : Prop :=
  exists n u p pn q, t = TNamed n u /\ n_name n = lit "Filter" /\ n_pkg n = Some (p, pn)
    /\ p = q ++ lit "github.com/frk/gosql".
Definition is_context_type (t : gtype) : Prop :=
  exists n u pn, t = TNamed n u /\ n_name n = lit "Context" /\ n_pkg n = Some (lit "context", pn).
Definition is_error_handler (t : gtype) : Prop :=
  exists n u, t = TNamed n u /\ (n_errh n = true \/ n_errih n = true).

(** ASCII without white space; names of fields and types are meant to be so. *)
Definition plain (s : text) : Prop := ascii7 s /\ Forall (fun c => ~ space c) s.
Definition plain_names (fs : fields) : Prop :=
  Forall (fun f => plain (v_name (fst f)) /\ forall n u, snd f = TNamed n u -> plain (n_name n)) fs.

(** What a field is there for. *)
Inductive has_role : fvar -> gtype -> role -> Prop :=
| hr_rel : forall v t, tagged v (lit "rel") -> has_role v t RRel
| hr_dir : forall v t d w r, ~ tagged v (lit "rel") -> v_name v = lit "_" -> directive t d ->
    In (w, r) directive_roles -> spelled d w -> has_role v t r
| hr_name : forall v t w r, ~ tagged v (lit "rel") -> v_name v <> lit "_" ->
    In (w, r) field_roles -> spelled (v_name v) w -> has_role v t r
| hr_filter : forall v t, ~ tagged v (lit "rel") -> v_name v <> lit "_" ->
    (forall w r, In (w, r) field_roles -> ~ spelled (v_name v) w) ->
    is_filter_type t -> has_role v t RFilter
| hr_handler : forall v t, ~ tagged v (lit "rel") -> v_name v <> lit "_" ->
    (forall w r, In (w, r) field_roles -> ~ spelled (v_name v) w) ->
    ~ is_filter_type t -> is_error_handler t -> has_role v t RErrorHandler
| hr_context : forall v t, ~ tagged v (lit "rel") -> v_name v <> lit "_" ->
    (forall w r, In (w, r) field_roles -> ~ spelled (v_name v) w) ->
    ~ is_filter_type t -> ~ is_error_handler t -> is_context_type t -> has_role v t RContext.

(** [roles fs l]: [l] are the fields of [fs] that have a role, in order. *)
Inductive roles : fields -> list (fvar * gtype * role) -> Prop :=
| rl_nil : roles [] []
| rl_role : forall v t fs r l, has_role v t r -> roles fs l -> roles ((v, t) :: fs) ((v, t, r) :: l)
| rl_none : forall v t fs l, (forall r, ~ has_role v t r) -> roles fs l -> roles ((v, t) :: fs) l.

(** Which fields a kind of query may have. *)
Definition legal (k : qkind) (r : role) : Prop :=
  match r with
  | RRel | RErrorHandler | RContext | RNone => True
  | RWhere | RFilter => k <> KInsert
  | RJoin | RLimit | ROffset | ROrderBy | ROptional =>
      k = KSelect \/ k = KSelectCount \/ k = KSelectExists \/ k = KSelectNotExists
  | RFrom => k = KUpdate
  | RUsing => k = KDelete
  | ROnConflict | ROverride => k = KInsert
  | RResult | RRows | RReturn => k = KInsert \/ k = KUpdate \/ k = KDelete
  | RAll => k = KUpdate \/ k = KDelete
  | RDefault | RForce => k = KInsert \/ k = KUpdate
  end.

(** At most one of the listed fields has one of the roles [rs]. *)
Definition at_most_one (rs : list role) (l : list (fvar * gtype * role)) : Prop :=
  forall l1 x l2 y l3, l = l1 ++ x :: l2 ++ y :: l3 -> ~ (In (snd x) rs /\ In (snd y) rs).
