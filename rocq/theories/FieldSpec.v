(** Independent description of what the tags of a field say about it beyond
    its column: options, the key filters know it by; and of the kind of query
    that the relation field makes.  Go types, struct fields and tags are the
    input language, taken from Analysis.v and AParse.v. *)
From Coq Require Import Ascii String ZArith NArith Bool List.
From Verif Require Import GoBase PgSpec TagSpec AParse Analysis AnalysisSpec QuerySpec.
Import ListNotations.
Local Open Scope char_scope.

(** *** the way to a field *)
(** [leads fs path v t]: the field [v] of type [t] is reached from the fields
    [fs] through the struct fields [path]. *)
Inductive leads : fields -> list (fvar * gtype) -> fvar -> gtype -> Prop :=
| ld_here : forall fs v t, In (v, t) fs -> leads fs [] v t
| ld_below : forall fs w u fs' path v t, In (w, u) fs -> record_type u fs' -> leads fs' path v t ->
    leads fs ((w, u) :: path) v t.

(** *** options *)
Definition has_option (v : fvar) (o : text) : Prop := exists x l, sql_tag v x l /\ In o l.
(** The permissions: the last word on each. *)
Definition granted (v : fvar) (m : FieldMode) : Prop :=
  exists x l, sql_tag v x l /\
    (last_word PSelect (flat_map option_says l) (m_select m)) /\ (last_word PFilter (flat_map option_says l) (m_filter m)) /\
    (last_word PInsert (flat_map option_says l) (m_insert m)) /\ (last_word PUpdate (flat_map option_says l) (m_update m)) /\
    (last_word PNull (flat_map option_says l) (negb (m_notnull m))).
(** The first option that begins with coalesce, if any, and the text between
    its parentheses, which has no line break. *)
Definition no_newline (s : text) : Prop := ~ In (ascii_of_N 10) s.
Inductive coalesces (v : fvar) : bool -> text -> Prop :=
| co_no : forall x l, sql_tag v x l -> (forall o, In (lit "coalesce" ++ o) l -> False) -> coalesces v false []
| co_value : forall x l1 l2 s, sql_tag v x (l1 ++ (lit "coalesce(" ++ s ++ lit ")") :: l2) -> (forall o, In (lit "coalesce" ++ o) l1 -> False) ->
    no_newline s -> coalesces v true s
| co_other : forall x l1 l2 s, sql_tag v x (l1 ++ (lit "coalesce" ++ s) :: l2) -> (forall o, In (lit "coalesce" ++ o) l1 -> False) ->
    (forall y, s = lit "(" ++ y ++ lit ")" -> ~ no_newline y) -> coalesces v true [].

(** *** keys *)
(** [setting k l d x]: the last of the options [l] that is k:x, or else [d]. *)
Definition setting (k : text) (l : list text) (d x : text) : Prop :=
  (exists l1 l2, l = l1 ++ (k ++ ":" :: x) :: l2 /\ forall y, ~ In (k ++ ":" :: y) l2) \/ (x = d /\ forall y, ~ In (k ++ ":" :: y) l).
Definition truths : list text := [lit "1"; lit "t"; lit "T"; lit "true"; lit "TRUE"; lit "True"].
Definition flag_setting (k : text) (l : list text) (d b : bool) : Prop :=
  (exists l1 x l2, l = l1 ++ (k ++ ":" :: x) :: l2 /\ (forall y, ~ In (k ++ ":" :: y) l2) /\ (b = true <-> In x truths))
  \/ (b = d /\ forall y, ~ In (k ++ ":" :: y) l).
(** The options of the fck tag that count, and the fields the key is made of:
    those of the field, else those of the outermost struct field that has any,
    from which the key then begins. *)
Definition no_fck (v : fvar) : Prop := forall x l, ~ tag_value (v_tag v) (lit "fck") (x :: l).
Inductive key_from (path : list fvar) (v : fvar) : list text -> list fvar -> Prop :=
| kf_own : forall x l, tag_value (v_tag v) (lit "fck") (x :: l) -> key_from path v (x :: l) (path ++ [v])
| kf_outer : forall p1 w p2 x l, no_fck v -> path = p1 ++ w :: p2 -> Forall no_fck p1 ->
    tag_value (v_tag w) (lit "fck") (x :: l) -> key_from path v (x :: l) (w :: p2 ++ [v])
| kf_none : no_fck v -> Forall no_fck path -> key_from path v [] (path ++ [v]).
(** The first value of the tag [k], empty if there is none. *)
Inductive first_value (v : fvar) (k : text) : text -> Prop :=
| fv_some : forall x l, tag_value (v_tag v) k (x :: l) -> first_value v k x
| fv_none : (forall x l, ~ tag_value (v_tag v) k (x :: l)) -> first_value v k [].
Fixpoint strung (sep : text) (l : list text) : text :=
  match l with
  | [] => []
  | [x] => x
  | x :: l => x ++ sep ++ strung sep l
  end.
(** The names that a list of fields contributes: the non-empty ones. *)
Inductive contributed (k : text) : list fvar -> list text -> Prop :=
| cb_nil : contributed k [] []
| cb_none : forall v vs l, first_value v k [] -> contributed k vs l -> contributed k (v :: vs) l
| cb_some : forall v vs l x, first_value v k x -> x <> [] -> contributed k vs l -> contributed k (v :: vs) (x :: l).
(** The key, given the three settings: the name of the tag (empty: the names
    of the fields are used), the separator, whether only the last field counts.
    A field tagged - anywhere on the way leaves the key empty. *)
Inductive key_of (vs : list fvar) (v : fvar) (tg sep : text) : bool -> text -> Prop :=
| ky_name : tg = [] -> key_of vs v tg sep true (v_name v)
| ky_names : tg = [] -> key_of vs v tg sep false (strung sep (map v_name vs))
| ky_tag : forall x, tg <> [] -> first_value v tg x -> x <> lit "-" -> key_of vs v tg sep true x
| ky_dash : tg <> [] -> first_value v tg (lit "-") -> key_of vs v tg sep true []
| ky_tags : forall l, tg <> [] -> (forall w, In w vs -> ~ first_value w tg (lit "-")) -> contributed tg vs l -> key_of vs v tg sep false (strung sep l)
| ky_dashes : forall w, tg <> [] -> In w vs -> first_value w tg (lit "-") -> key_of vs v tg sep false [].
(** [dtag], [dsep], [dbase]: the configuration. *)
Definition filter_key (dtag dsep : text) (dbase : bool) (path : list fvar) (v : fvar) (key : text) : Prop :=
  exists opts vs tg sep base, key_from path v opts vs /\ setting (lit "tag") opts dtag tg /\ setting (lit "sep") opts dsep sep
    /\ flag_setting (lit "base") opts dbase base /\ key_of vs v tg sep base key.

(** *** nodes of the path *)
(** The type itself or the one it points to. *)
Definition carrier (t u : gtype) : Prop := under t (TPtr u) \/ ((forall x, ~ under t (TPtr x)) /\ u = t).
Definition tname_of (t : gtype) : text := match t with TNamed n _ => n_name n | _ => [] end.
Definition tpkg_of (t : gtype) : text * text :=
  match t with TNamed n _ => match n_pkg n with Some p => p | None => ([], []) end | _ => ([], []) end.
Inductive node_for (pkg : text) : fvar * gtype -> selnode -> Prop :=
| nd : forall v t u n, carrier t u -> sn_name n = v_name v -> sn_tag n = v_tag v -> sn_embedded n = v_embedded v -> sn_exported n = v_exported v ->
    (sn_ptr n = true <-> exists x, under t (TPtr x)) -> granted v (sn_mode n) -> sn_tname n = tname_of u -> (sn_path n, sn_pkg n) = tpkg_of u ->
    (sn_imported n = true <-> foreign pkg u) -> node_for pkg (v, t) n.

(** *** the field *)
Record field_for (pkg dtag dsep : text) (dbase : bool) (path : list (fvar * gtype)) (v : fvar) (t : gtype) (f : FieldInfo) : Prop := {
  ff_name : fi_name f = v_name v;
  ff_tag : fi_tag f = v_tag v;
  ff_embedded : fi_embedded f = v_embedded v;
  ff_exported : fi_exported f = v_exported v;
  ff_mode : granted v (fi_mode f);
  ff_nullempty : fi_nullempty f = true <-> has_option v (lit "nullempty");
  ff_default : fi_default f = true <-> has_option v (lit "default");
  ff_add : fi_add f = true <-> has_option v (lit "add");
  ff_coalesce : coalesces v (fi_coalesce f) (fi_coalval f);
  ff_path : Forall2 (node_for pkg) path (fi_sel f);
  ff_key : filter_key dtag dsep dbase (map fst path) v (fi_fck f);
  ff_tname : t_name (fi_type f) = tname_of t /\ (t_path (fi_type f), t_pkg (fi_type f)) = tpkg_of t;
  ff_imported : t_imported (fi_type f) = true <-> foreign pkg t }.

(** *** the relation field *)
Definition bool_type (t : gtype) : Prop := exists a b, t = TBasic BBool a b.
(** What a relation field called [n] of type [t] asks of a query of the kind
    [k]: the kind [k'] and whether it is a directive. *)
Definition counts (n : text) (t : gtype) (k : qkind) : Prop :=
  (spelled n (lit "count") /\ integer_type t /\ k = KSelectCount)
  \/ (spelled n (lit "exists") /\ bool_type t /\ k = KSelectExists)
  \/ (spelled n (lit "notexists") /\ bool_type t /\ k = KSelectNotExists).
Inductive relation_kind (pkg : text) (k : qkind) (v : fvar) (t : gtype) : qkind -> RelField -> Prop :=
| rk_counts : forall k' r, k = KSelect -> counts (v_name v) t k' -> rt_fields (rf_type r) = [] -> rf_dir r = false ->
    relation_kind pkg k v t k' r
| rk_directive : forall r, k = KDelete -> v_name v = lit "_" -> directive t (lit "Relation") -> rt_fields (rf_type r) = [] -> rf_dir r = true ->
    relation_kind pkg k v t k r
| rk_record : forall r, (forall k', ~ counts (v_name v) t k') -> ~ (v_name v = lit "_" /\ directive t (lit "Relation")) ->
    relation_type pkg [ref_name (rf_id r)] t (rf_type r) -> rf_dir r = false ->
    (rt_iter (rf_type r) = true -> k = KSelect \/ k = KDelete) -> relation_kind pkg k v t k r.
