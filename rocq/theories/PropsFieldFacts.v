(** C91-C92: what the tags of a field say about it, the key filters know it by,
    and the smaller parts of query structs. *)
From Coq Require Import Ascii String ZArith NArith Bool List Lia.
From Verif Require Import GoBase Strconv ConvertUtil ConvertProofs Filter Filters2Final AParse PgSpec TagSpec SqlSpec AParseProofs TagsFinal Analysis AnalysisSpec AnalysisProofs AnalysisRoles QuerySpec QueryProofs QueryShape QuerySlots QueryFinal FieldSpec.
From Verif Require Import FieldFactsFinal.
Import ListNotations.
Local Open Scope string_scope.
Local Open Scope list_scope.

(** ** C91 *)
(** The information on every field listed for a record type is what the
    declaration and the tags on the way to it say. *)
Theorem C91_field : forall e sp t rt f, analyzeRelType e sp t = AOk rt -> In f (rt_fields rt) ->
  exists n fs h path v u, record_of (e_pkg e) t n fs h /\ leads fs path v u
    /\ field_for (e_pkg e) (e_fcktag e) (e_fcksep e) (e_fckbase e) path v u f.
Proof. exact C91_field_proof. Qed.
Print Assumptions C91_field.

Example C91_ex : match analyzeRelType ex_key_env [] ex_keys with
  | AOk rt => map (fun f => (fi_name f, fi_fck f, (fi_nullempty f, fi_default f, fi_add f), fi_coalval f)) (rt_fields rt) | _ => [] end
  = [(lit "Id", lit "id", (true, false, false), lit "0"); (lit "Mail", lit "owner.mail", (false, false, true), []);
     (lit "City", lit "Home_City", (false, false, false), []); (lit "Zip", lit "z", (false, false, false), []);
     (lit "Hidden", [], (false, true, false), [])].
Proof. vm_compute. reflexivity. Qed.

Theorem C91_key_unique : forall dtag dsep dbase path v k k', filter_key dtag dsep dbase path v k -> filter_key dtag dsep dbase path v k' -> k = k'.
Proof. exact C91_key_unique_proof. Qed.
Print Assumptions C91_key_unique.

Example C91_key_unique_ex : exists path v, filter_key (lit "json") (lit ".") false path v (lit "Home_City").
Proof.
  exists [ex_var "Owner" [(lit "json", [lit "owner"])]; ex_var "Home" [(lit "fck", [lit "tag:"; lit "sep:_"])]], (ex_var "City" []).
  apply (filter_key_spec ex_key_env _ [MkSel (lit "Owner") [(lit "json", [lit "owner"])] [] [] [] false false true false mode_default;
    MkSel (lit "Home") [(lit "fck", [lit "tag:"; lit "sep:_"])] [] [] [] false false true false mode_default]).
  repeat constructor.
Qed.

(** ** C92 *)

Theorem C92_kind : forall e name fs q k, analyzeQueryStruct e name fs = AOk q -> query_kind name = AOk k -> plain_names fs ->
  exists fs1 v t fs2 r, fs = fs1 ++ (v, t) :: fs2 /\ tagged v (lit "rel") /\ (forall v' t', In (v', t') (fs1 ++ fs2) -> ~ tagged v' (lit "rel"))
    /\ q_rel q = Some r /\ rf_name r = v_name v /\ relation_kind (e_pkg e) k v t (q_kind q) r.
Proof. exact C92_kind_proof. Qed.
Print Assumptions C92_kind.

Example C92_kind_ex : exists q, analyzeQueryStruct ex_env (lit "SelectUsers") [(ex_var "Count" (ex_tag "rel" ["user:u"]), ex_int)] = AOk q /\ q_kind q = KSelectCount
  /\ analyzeQueryStruct ex_env (lit "DeleteUsers") [(ex_var "Count" (ex_tag "rel" ["user:u"]), ex_int)] = AErr EIllegalQueryField
  /\ analyzeQueryStruct ex_env (lit "SelectUsers") [(ex_var "_" (ex_tag "rel" ["user:u"]), ex_dir "Relation")] = AErr EIllegalQueryField
  /\ plain_names [(ex_var "Count" (ex_tag "rel" ["user:u"]), ex_int)].
Proof. eexists. split; [vm_compute; reflexivity|]. split; [reflexivity|]. split; [vm_compute; reflexivity|]. split; [vm_compute; reflexivity|]. apply plain_fields. vm_compute. reflexivity. Qed.

(** The override directive names what is overridden. *)
Theorem C92_override : forall e name fs q o, analyzeQueryStruct e name fs = AOk q -> plain_names fs -> q_override q = Some o ->
  exists v t sc s l, place fs [ROverride] v t sc /\ sql_tag v s l
    /\ (plain s -> (spelled s (lit "system") /\ o = OverridingSystem) \/ (spelled s (lit "user") /\ o = OverridingUser)).
Proof. exact C92_override_proof. Qed.
Print Assumptions C92_override.

Example C92_override_ex : exists q, analyzeQueryStruct ex_env (lit "InsertUsers") (ex_override "SYSTEM") = AOk q /\ q_override q = Some OverridingSystem /\ plain_names (ex_override "SYSTEM")
  /\ analyzeQueryStruct ex_env (lit "InsertUsers") (ex_override "both") = AErr EBadOverrideTagValue.
Proof. eexists. split; [vm_compute; reflexivity|]. split; [reflexivity|]. split; [apply plain_fields|]; vm_compute; reflexivity. Qed.

(** The remaining parts are named after their fields. *)
Theorem C92_rows : forall e name fs q r, analyzeQueryStruct e name fs = AOk q -> plain_names fs -> q_rows q = Some r ->
  exists v t sc, place fs [RRows] v t sc /\ ra_name r = v_name v /\ exists k a b, t = TBasic k a b /\ ra_kind r = KBasic k /\ integer_type t.
Proof. exact C92_rows_proof. Qed.
Print Assumptions C92_rows.

Theorem C92_filter : forall e name fs q n, analyzeQueryStruct e name fs = AOk q -> plain_names fs -> q_filter q = Some n ->
  exists v t sc, place fs [RFilter] v t sc /\ n = v_name v.
Proof. exact C92_filter_proof. Qed.
Print Assumptions C92_filter.

Theorem C92_context : forall e name fs q n, analyzeQueryStruct e name fs = AOk q -> plain_names fs -> q_ctx q = Some n ->
  exists v t sc, place fs [RContext] v t sc /\ n = v_name v.
Proof. exact C92_context_proof. Qed.
Print Assumptions C92_context.

Theorem C92_handler : forall e name fs q h, analyzeQueryStruct e name fs = AOk q -> plain_names fs -> q_errh q = Some h ->
  exists v t sc n u, place fs [RErrorHandler] v t sc /\ eh_name h = v_name v /\ t = TNamed n u
    /\ (eh_info h = false -> n_errh n = true) /\ (eh_info h = true -> n_errh n = false /\ n_errih n = true).
Proof. exact C92_handler_proof. Qed.
Print Assumptions C92_handler.

Example C92_parts_ex : plain_names ex_parts /\ match analyzeQueryStruct ex_env (lit "DeleteUsers") ex_parts with
  | AOk q => (option_map ra_name (q_rows q), q_ctx q, q_filter q, option_map eh_name (q_errh q), option_map eh_info (q_errh q))
  | _ => (None, None, None, None, None) end = (Some (lit "RowsAffected"), Some (lit "Ctx"), Some (lit "F"), Some (lit "EH"), Some true).
Proof. split; [apply plain_fields|]; vm_compute; reflexivity. Qed.
