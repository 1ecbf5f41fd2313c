(** What the code generated for a filter type is for. *)
From Coq Require Import Ascii String ZArith NArith Bool List.
From Verif Require Filter.
From Verif Require Import GoBase AParse Analysis Gen Check CheckSpec FilterCode.
Import ListNotations.
Local Open Scope string_scope.
Local Open Scope list_scope.

(** The column [name] of the relation with the given alias, as it is written in
    SQL. *)
Definition written (quote : bool) (alias name : bytes) : bytes :=
  (match alias with [] => [] | _ => alias ++ B "." end)
  ++ (if quote then B """" else []) ++ name ++ (if quote then B """" else []).

(** A field of the record that can be used in a filter: neither the field nor a
    struct around it is excluded, and the table has its column. *)
Definition usable (tr : relrow) (f : FieldInfo) : Prop :=
  (m_filter (fi_mode f) = true /\ forall s, In s (fi_sel f) -> m_filter (sn_mode s) = true) /\ has_row tr (field_name f).
(** The name of its method: the names on the way to the field, without dots. *)
Definition path_name (f : FieldInfo) : bytes := List.concat (map sn_name (fi_sel f) ++ [fi_name f]).
Definition reserved (n : bytes) : Prop := In n [B "UnmarshalFQL"; B "UnmarshalSort"; B "TextSearch"; B "AND"; B "OR"].
(** The first usable field with the key [k]. *)
Definition first_with_key (tr : relrow) (l : list FieldInfo) (k : bytes) (f : FieldInfo) : Prop :=
  exists l1 l2, l = l1 ++ f :: l2 /\ usable tr f /\ fi_fck f = k /\ k <> [] /\ forall g, In g l1 -> usable tr g -> fi_fck g <> k.

(** The converter the config has for the type of a field. *)
Definition converter (convs : list (bytes * fident)) (f : FieldInfo) (id : option fident) : Prop :=
  let key := t_path (fi_type f) ++ B "." ++ t_name (fi_type f) in
  match id with
  | Some id => exists l1 l2, convs = l1 ++ (key, id) :: l2 /\ ~ In key (map fst l2)
  | None => ~ In key (map fst convs)
  end.

(** What the client of a filter says: a tree of calls of the generated methods. *)
Inductive ucall :=
| UField (name op : bytes) (v : Filter.gval)
| UAnd (nest : option (list ucall)) | UOr (nest : option (list ucall)).

(** What it means: calls of the constructor on the columns of the fields. *)
Inductive means (quote : bool) (rf : RelField) (tr : relrow) : ucall -> Filter.call -> Prop :=
| m_field : forall f op v, In f (rt_fields (rf_type rf)) -> usable tr f -> ~ reserved (path_name f) ->
    means quote rf tr (UField (path_name f) op v) (Filter.KCol (written quote (r_alias (rf_id rf)) (field_name f)) op v)
| m_and : forall us ks, all_mean quote rf tr us ks -> means quote rf tr (UAnd (Some us)) (Filter.KAnd (Some ks))
| m_or : forall us ks, all_mean quote rf tr us ks -> means quote rf tr (UOr (Some us)) (Filter.KOr (Some ks))
| m_and_nil : means quote rf tr (UAnd None) (Filter.KAnd None)
| m_or_nil : means quote rf tr (UOr None) (Filter.KOr None)
with all_mean (quote : bool) (rf : RelField) (tr : relrow) : list ucall -> list Filter.call -> Prop :=
| am_nil : all_mean quote rf tr [] []
| am_cons : forall u k us ks, means quote rf tr u k -> all_mean quote rf tr us ks -> all_mean quote rf tr (u :: us) (k :: ks).

(** Running the client's calls with the generated methods. *)
Fixpoint urun (conv : fident -> Filter.gval -> res Filter.gval) (code : list fdecl) (ctor : bytes) (u : ucall) {struct u} : change :=
  let all := fix all (l : list ucall) : change :=
    match l with [] => @Ok Filter.cst | u :: r => fun s => bind (urun conv code ctor u s) (all r) end in
  match u with
  | UField n op v => invoke conv code ctor n [VString op; VAny v]
  | UAnd nest => invoke conv code ctor (B "And") [VFunc (match nest with Some l => Some (all l) | None => None end)]
  | UOr nest => invoke conv code ctor (B "Or") [VFunc (match nest with Some l => Some (all l) | None => None end)]
  end.
Fixpoint uruns (conv : fident -> Filter.gval -> res Filter.gval) (code : list fdecl) (ctor : bytes) (l : list ucall) : change :=
  match l with [] => @Ok Filter.cst | u :: r => fun s => bind (urun conv code ctor u s) (uruns conv code ctor r) end.

(** [code] is generated for the filter type [typ], which the checker has accepted;
    its relation is [rf], which is the table [tr], and its constructor field is
    [ctor], with or without the tag v2. *)
Record made (q : bool) (convs : list (bytes * fident)) (typ : bytes) (db : database) (s : fstate) (t : tinfo)
    (rf : RelField) (tr : relrow) (ctor : bytes) (v2 : bool) (code : list fdecl) : Prop := MkMade {
  md_check : check_filter db s = COk t; md_rel : fs_rel s = Some rf; md_row : db_rels db (dotted (rf_id rf)) = Some tr;
  md_ctor : fs_ctor s = Some (ctor, v2); md_code : buildFilterCode q convs typ s t = Ok code }.

(** The column that the map has for the field [f]. *)
Definition column_for (conv : fident -> Filter.gval -> res Filter.gval) (q : bool) (convs : list (bytes * fident)) (v2 : bool)
    (rf : RelField) (tr : relrow) (f : FieldInfo) (col : Filter.column) : Prop :=
  exists r id b, row_named tr (field_name f) r
    /\ col = {| Filter.c_name := written q (r_alias (rf_id rf)) (field_name f); Filter.c_conv := option_map conv id;
                Filter.c_nullable := b |}
    /\ if v2 then converter convs f id /\ (b = true <-> m_notnull (fi_mode f) = false /\ cr_notnull r = false)
       else id = None /\ b = false.
