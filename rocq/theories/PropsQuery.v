(** Properties of the analysis of query structs (internal/analysis). *)
From Coq Require Import Ascii String ZArith NArith Bool List Lia.
From Verif Require Import GoBase Strconv ConvertUtil ConvertProofs Filter Filters2Final AParse PgSpec TagSpec SqlSpec AParseProofs TagsFinal Analysis AnalysisSpec AnalysisProofs AnalysisRoles QuerySpec QueryProofs QueryShape QuerySlots.
From Verif Require Import QueryFinal.
Import ListNotations.
Local Open Scope string_scope.
Local Open Scope list_scope.

(** ** C32 *)
Theorem C32_exclusive : forall e name fs q l, analyzeQueryStruct e name fs = AOk q -> plain_names fs -> roles fs l ->
  (forall rs, In rs exclusive -> at_most_one rs l) /\ (forall v t r, In (v, t, r) l -> legal (q_kind q) r).
Proof. exact C32_exclusive_proof. Qed.
Print Assumptions C32_exclusive.

Example C32_ex : exists q l, analyzeQueryStruct ex_env (lit "SelectUsers") ex_full = AOk q /\ plain_names ex_full /\ roles ex_full l /\ List.length l = 5.
Proof.
  exists ex_query, (rolel ex_full). split; [vm_compute; reflexivity|]. assert (P : plain_names ex_full) by (apply plain_fields; vm_compute; reflexivity).
  split; [exact P|]. split; [apply rolel_roles; exact P|vm_compute; reflexivity].
Qed.

(** Each part of the result is there iff a field asks for it, in particular
    the relation. *)
Theorem C32_present : forall e name fs q l, analyzeQueryStruct e name fs = AOk q -> plain_names fs -> roles fs l ->
  (exists v t, In (v, t, RRel) l) /\ forall r, present q r <-> exists v t r', In (v, t, r') l /\ alike r' r.
Proof. exact C32_present_proof. Qed.
Print Assumptions C32_present.

Example C32_present_ex : present ex_query ROrderBy /\ ~ present ex_query ROffset.
Proof. split; cbn; congruence. Qed.

(** The other directives are not checked for repetition: the last one counts. *)
Theorem C32_repetition_refuted : exists e name fs q l1 l2 l3 v v' t t', analyzeQueryStruct e name fs = AOk q /\ plain_names fs
  /\ roles fs (l1 ++ (v, t, ROrderBy) :: l2 ++ (v', t', ROrderBy) :: l3) /\ order_items [lit "u"] [lit "u.email"] (match q_orderby q with Some l => l | None => [] end).
Proof. exact C32_repetition_refuted_proof. Qed.
Print Assumptions C32_repetition_refuted.

(** ** C31 *)

Theorem C31_namespace : forall e name fs q l, analyzeQueryStruct e name fs = AOk q -> plain_names fs -> roles fs l ->
  exists v t s o k ks, In (v, t, RRel) l /\ tag_value (v_tag v) (lit "rel") (s :: o) /\ scope_name s k /\ joined_names l ks
    /\ NoDup (k :: ks) /\ forall id, mentions q id -> c_qual id = [] \/ In (c_qual id) (k :: ks).
Proof. exact C31_namespace_proof. Qed.
Print Assumptions C31_namespace.

Example C31_ex : exists l, analyzeQueryStruct ex_env (lit "SelectUsers") ex_full = AOk ex_query /\ plain_names ex_full /\ roles ex_full l
  /\ mentions ex_query (MkCol (lit "p") (lit "user_id")) /\ joined_names l [lit "p"].
Proof.
  assert (P : plain_names ex_full) by (apply plain_fields; vm_compute; reflexivity).
  exists (rolel ex_full). split; [vm_compute; reflexivity|]. split; [exact P|]. split; [now apply rolel_roles|]. split.
  - eapply mn_join; [vm_compute; reflexivity|left; reflexivity|left; reflexivity|left; vm_compute; reflexivity].
  - destruct (scope_of ex_env (lit "SelectUsers") ex_full ex_query (rolel ex_full) ltac:(vm_compute; reflexivity) P (rolel_roles _ P)) as (v & t & s & o & k & ks & A1 & A2 & A3 & A4 & A5 & A6).
    change (map fst (q_sp ex_query)) with [lit "p"; lit "u"] in A6. destruct ks as [|x [|y ks]]; try discriminate.
    + cbn in A6. injection A6 as E0. rewrite <- E0 in A4. exact A4.
    + apply (f_equal (@List.length text)) in A6. rewrite app_length, rev_length in A6. cbn in A6. lia.
Qed.

(** A second relation of the same name is rejected. *)
Example C31_collision_ex : analyzeQueryStruct ex_env (lit "SelectUsers") [ex_rel "user:p"; ex_join] = AErr (EC EConflictingRelAlias).
Proof. vm_compute. reflexivity. Qed.

(** ** C33 *)
Theorem C33_on_conflict : forall e name fs q oc, analyzeQueryStruct e name fs = AOk q -> plain_names fs -> q_onconflict q = Some oc ->
  q_kind q = KInsert /\
  exists v t sc ofs l, place fs [ROnConflict] v t sc /\ struct_of t ofs /\ oc_name oc = v_name v /\ oc_names ofs l
    /\ (forall d o, In (d, o) l -> In d (targets ++ actions)) /\ once targets l /\ once actions l
    /\ (In (lit "update") (map fst l) -> exists d, In d targets /\ In d (map fst l))
    /\ match oc_column oc with Some ids => exists o, In (lit "column", o) l /\ o <> [] /\ Forall2 (column_id sc) o ids | None => ~ In (lit "column") (map fst l) end
    /\ match oc_index oc with Some x => exists r, In (lit "index", x :: r) l /\ is_name x | None => ~ In (lit "index") (map fst l) end
    /\ match oc_constraint oc with Some x => exists r, In (lit "constraint", x :: r) l /\ is_name x | None => ~ In (lit "constraint") (map fst l) end
    /\ (oc_ignore oc = true <-> In (lit "ignore") (map fst l))
    /\ match oc_update oc with Some c => exists o, In (lit "update", o) l /\ column_list sc o c | None => ~ In (lit "update") (map fst l) end.
Proof. exact C33_on_conflict_proof. Qed.
Print Assumptions C33_on_conflict.

Example C33_ex : exists q oc, analyzeQueryStruct ex_env (lit "InsertUsers") [ex_rel "user:u"; ex_conflict [("Update", ["email"; "u.name"]); ("Column", ["id"])]] = AOk q
  /\ q_onconflict q = Some oc /\ oc_update oc <> None /\ oc_column oc = Some [MkCol [] (lit "id")].
Proof. eexists. eexists. split; [vm_compute; reflexivity|]. split; [reflexivity|]. split; [discriminate|vm_compute; reflexivity]. Qed.

(** A block with neither ignore nor update is accepted. *)
Theorem C33_some_action_refuted : exists e name fs q oc, analyzeQueryStruct e name fs = AOk q /\ plain_names fs /\ q_onconflict q = Some oc
  /\ oc_ignore oc = false /\ oc_update oc = None.
Proof. exact C33_some_action_refuted_proof. Qed.
Print Assumptions C33_some_action_refuted.

(** ** C35 *)
(** The fields of an accepted record type are its columns. *)
Theorem C35_relation : forall e name fs q r, analyzeQueryStruct e name fs = AOk q -> q_rel q = Some r ->
  exists v t s o, In (v, t) fs /\ tag_value (v_tag v) (lit "rel") (s :: o) /\ relation_id s (rf_id r) /\ rf_name r = v_name v
    /\ (rt_fields (rf_type r) = [] \/ relation_type (e_pkg e) [ref_name (rf_id r)] t (rf_type r)).
Proof. exact C35_relation_proof. Qed.
Print Assumptions C35_relation.

Theorem C35_result : forall e name fs q r, analyzeQueryStruct e name fs = AOk q -> plain_names fs -> q_result q = Some r ->
  exists v t sc, place fs [RResult] v t sc /\ rs_name r = v_name v /\ relation_type (e_pkg e) sc t (rs_type r).
Proof. exact C35_result_proof. Qed.
Print Assumptions C35_result.

(** Every record type whose columns make sense is accepted, with these columns. *)
Theorem C35_complete : forall e sp t n fs h f l, record_of (e_pkg e) t n fs h ->
  (forall m u, t = TNamed m u -> n_pkg m <> None) -> (forall m, n = Some m -> n_pkg m <> None) ->
  (f = true <-> exists m u, n = Some m /\ foreign (e_pkg e) (TNamed m u)) ->
  columns (e_pkg e) (map fst sp) f [] [] fs l ->
  exists rt, analyzeRelType e sp t = AOk rt /\ Forall2 column_field l (rt_fields rt) /\ rt_slice rt = h_slice h /\ rt_ptr rt = h_ptr h
    /\ (rt_iter rt = true <-> h_iter h <> None).
Proof. exact C35_complete_proof. Qed.
Print Assumptions C35_complete.

Example C35_ex : match analyzeRelType ex_env [] (TSlice (TPtr ex_nested)) with
  | AOk rt => map (fun f => (map sn_name (fi_sel f), fi_name f, c_col (fi_col f))) (rt_fields rt)
  | _ => [] end = [([], lit "Id", lit "id"); ([lit "Owner"], lit "Id", lit "owner_id");
                   ([lit "Owner"; lit "Address"], lit "City", lit "owner_address_city"); ([], lit "Name", lit "name")].
Proof. vm_compute. reflexivity. Qed.

(** A field of another package that is not exported is not listed unless its
    struct is reached through a pointer; then it is. *)
Theorem C35_accessible_refuted : exists e t n fs v u l rt f, t = TStruct l /\ In (v, TPtr (TNamed n (TStruct fs))) l
  /\ foreign (e_pkg e) (TNamed n (TStruct fs)) /\ analyzeRelType e [] t = AOk rt
  /\ In (u, ex_int) fs /\ v_exported u = false /\ In f (rt_fields rt) /\ fi_name f = v_name u /\ map sn_name (fi_sel f) = [v_name v].
Proof. exact C35_accessible_refuted_proof. Qed.
Print Assumptions C35_accessible_refuted.

(** ** C49 *)
Theorem C49_where : forall e name fs q w, analyzeQueryStruct e name fs = AOk q -> plain_names fs -> q_where q = Some w ->
  exists v t sc wfs f, place fs [RWhere] v t sc /\ struct_of t wfs /\ (f = true <-> foreign (e_pkg e) t)
    /\ w_name w = v_name v /\ where_items sc f false wfs (w_items w) /\ separated (w_items w) /\ (only_columns f wfs -> alternating (w_items w)).
Proof. exact C49_where_proof. Qed.
Print Assumptions C49_where.

Example C49_ex : match q_where ex_query with Some w => map (fun x => match x with WBool b => Some b | _ => None end) (w_items w) | None => [] end = [None; Some BoolOr; None].
Proof. vm_compute. reflexivity. Qed.

(** A tagged field named _ that is no Column directive leaves a connective
    without a condition after it. *)
Theorem C49_alternating_refuted : exists e name fs q w l b, analyzeQueryStruct e name fs = AOk q /\ plain_names fs /\ q_where q = Some w
  /\ w_items w = l ++ [WBool b].
Proof. exact C49_alternating_refuted_proof. Qed.
Print Assumptions C49_alternating_refuted.

(** ** C50 *)
Theorem C50_joins : forall e name fs q j, analyzeQueryStruct e name fs = AOk q -> plain_names fs -> q_join q = Some j ->
  exists v t sc jfs sc', place fs [RJoin; RFrom; RUsing] v t sc /\ struct_of t jfs
    /\ j_name j = v_name v /\ join_decl sc jfs sc' (j_relation j) (j_dirs j)
    /\ (j_relation j <> None -> tolower (v_name v) = lit "from" \/ tolower (v_name v) = lit "using").
Proof. exact C50_joins_proof. Qed.
Print Assumptions C50_joins.

Example C50_ex : match q_join ex_query with Some j => map (fun d => (j_type d, List.length (j_items d))) (j_dirs j) | None => [] end = [(JLeft, 3)].
Proof. vm_compute. reflexivity. Qed.

(** Without an alias of the joined relation its columns cannot be written
    unqualified, although with one they can. *)
Theorem C50_unqualified_refuted : exists e name fs fs' q,
  analyzeQueryStruct e name fs = AOk q /\ analyzeQueryStruct e name fs' = AErr EBadJoinConditionLHS
  /\ (exists r x y, fs = r ++ [(x, TStruct [(ex_var "_" (ex_tag "sql" ["post:p"; "user_id=u.id"]), y)])]
                 /\ fs' = r ++ [(x, TStruct [(ex_var "_" (ex_tag "sql" ["post"; "user_id=u.id"]), y)])]).
Proof. exact C50_unqualified_refuted_proof. Qed.
Print Assumptions C50_unqualified_refuted.

(** ** C51 *)
Theorem C51_order_by : forall e name fs q l, analyzeQueryStruct e name fs = AOk q -> plain_names fs -> q_orderby q = Some l ->
  exists v t sc x o, place fs [ROrderBy] v t sc /\ tag_value (v_tag v) (lit "sql") (x :: o) /\ order_items sc (x :: o) l.
Proof. exact C51_order_by_proof. Qed.
Print Assumptions C51_order_by.

(** The tag determines the items, and any well formed tag is understood. *)
Theorem C51_order_by_tag : forall sp o l, order_tags sp o = AOk l <-> order_items (map fst sp) o l.
Proof. exact C51_order_by_tag_proof. Qed.
Print Assumptions C51_order_by_tag.

Example C51_ex : q_orderby ex_query = Some [MkOrder (MkCol (lit "u") (lit "id")) true NullsFirst; MkOrder (MkCol (lit "p") (lit "date")) false NullsDefault].
Proof. vm_compute. reflexivity. Qed.

(** ** C52 *)
Theorem C52_limit : forall e name fs q l, analyzeQueryStruct e name fs = AOk q -> plain_names fs -> q_limit q = Some l ->
  exists v t sc, place fs [RLimit] v t sc /\ bounds v t (lf_name l) (lf_value l).
Proof. exact C52_limit_proof. Qed.
Print Assumptions C52_limit.

Theorem C52_offset : forall e name fs q l, analyzeQueryStruct e name fs = AOk q -> plain_names fs -> q_offset q = Some l ->
  exists v t sc, place fs [ROffset] v t sc /\ bounds v t (lf_name l) (lf_value l).
Proof. exact C52_offset_proof. Qed.
Print Assumptions C52_offset.

Theorem C52_value : forall v t l, limit_value v t = AOk l <-> bounds v t (lf_name l) (lf_value l).
Proof. exact C52_value_proof. Qed.
Print Assumptions C52_value.

Example C52_ex : q_limit ex_query = Some (MkLimit [] 25).
Proof. vm_compute. reflexivity. Qed.

Example C52_large_ex : limit_value (ex_var "_" (ex_tag "sql" ["18446744073709551616"])) (ex_dir "Limit") = AErr EBadUIntegerTagValue.
Proof. vm_compute. reflexivity. Qed.

(** ** C53 *)

Theorem C53_column_lists : forall e name fs q, analyzeQueryStruct e name fs = AOk q -> plain_names fs ->
  (forall l, q_return q = Some l -> exists v t sc o, place fs [RReturn] v t sc /\ tag_value (v_tag v) (lit "sql") o /\ column_list sc o l
     /\ forall id, In id (l_items l) -> in_record q id) /\
  (forall l, q_force q = Some l -> exists v t sc o, place fs [RForce] v t sc /\ tag_value (v_tag v) (lit "sql") o /\ column_list sc o l
     /\ forall id, In id (l_items l) -> in_record q id) /\
  (forall l, q_optional q = Some l -> exists v t sc o, place fs [ROptional] v t sc /\ tag_value (v_tag v) (lit "sql") o /\ column_list sc o l
     /\ forall id, In id (l_items l) -> in_record q id) /\
  (forall l, q_default q = Some l -> exists v t sc o, place fs [RDefault] v t sc /\ tag_value (v_tag v) (lit "sql") o /\ column_list sc o l).
Proof. exact C53_column_lists_proof. Qed.
Print Assumptions C53_column_lists.

Example C53_ex : exists q, analyzeQueryStruct ex_env (lit "InsertUsers") (ex_return "u.email") = AOk q /\ q_return q = Some (MkColList false [MkCol (lit "u") (lit "email")]).
Proof. eexists. split; vm_compute; reflexivity. Qed.

(** A column that is no field of the record is rejected. *)
Example C53_unknown_ex : analyzeQueryStruct ex_env (lit "InsertUsers") (ex_return "u.phone") = AErr EColumnFieldUnknown.
Proof. vm_compute. reflexivity. Qed.

(** ** C54 *)

Theorem C54_filter : forall e fs q, analyzeFilterStruct e fs = AOk q ->
  (exists r v t s o, fs_rel q = Some r /\ the_only fs FRel v t /\ tag_value (v_tag v) (lit "rel") (s :: o) /\ relation_id s (rf_id r) /\ rf_name r = v_name v
      /\ relation_type (e_pkg e) [ref_name (rf_id r)] t (rf_type r) /\ rt_iter (rf_type r) = false) /\
  (exists n b v t, fs_ctor q = Some (n, b) /\ the_only fs FCtor v t /\ n = v_name v
      /\ (b = true <-> exists o, tag_value (v_tag v) (lit "filter") o /\ In (lit "v2") o)).
Proof. exact C54_filter_proof. Qed.
Print Assumptions C54_filter.

(** The text search column; it can be qualified only below the relation. *)
Theorem C54_text_search : forall e fs q, analyzeFilterStruct e fs = AOk q ->
  (forall v t d, In (v, t) fs -> has_filter_role v t FSearch -> directive t d -> ascii7 d -> spelled d (lit "textsearch")) /\
  match fs_ts q with
  | None => forall v t, In (v, t) fs -> ~ has_filter_role v t FSearch
  | Some id => exists fs1 v t sc r, the_last fs fs1 FSearch v t /\ search_column sc v id /\ fs_rel q = Some r
      /\ ((sc = [ref_name (rf_id r)] /\ exists v' t', In (v', t') fs1 /\ has_filter_role v' t' FRel)
         \/ (sc = [] /\ forall v' t', In (v', t') fs1 -> ~ has_filter_role v' t' FRel))
  end.
Proof. exact C54_text_search_proof. Qed.
Print Assumptions C54_text_search.

Example C54_ex : match analyzeFilterStruct ex_env ex_filter with AOk q => (is_some (fs_rel q), fs_ts q, fs_ctor q) | _ => (false, None, None) end
  = (true, Some (MkCol (lit "u") (lit "ts")), Some (lit "F", true)).
Proof. vm_compute. reflexivity. Qed.

Example C54_order_ex : exists v f, ex_filter = v :: f /\ analyzeFilterStruct ex_env (f ++ [v]) = AErr (EC EUnknownQualifier)
  /\ analyzeFilterStruct ex_env (ex_filter ++ [v]) = AErr EConflictingRelTag.
Proof. eexists. eexists. split; [reflexivity|]. split; vm_compute; reflexivity. Qed.
