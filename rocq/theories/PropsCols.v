(** Properties of the check of queries against the database: fields, columns and conditions (internal/postgres). *)
From Coq Require Import Ascii String ZArith NArith Bool List Lia.
From Verif Require Import GoBase AParse Analysis AnalysisSpec QuerySpec AnalysisProofs AnalysisRoles QueryFinal PropsQuery Oids Compat Gen GenSpec Check ConvertProofs CheckSpec CheckProofs CheckEx.
From Verif Require Import ColsFinal.
Import ListNotations.
Local Open Scope string_scope.
Local Open Scope list_scope.

(** ** C36 *)
Theorem C36_written : forall db q t rf tr, check_query db q = COk t -> target db q rf tr -> rf_dir rf = false ->
  q_kind q = KInsert \/ q_kind q = KUpdate ->
  picked (fun f => has_row tr (field_name f) /\ (own_write (q_kind q) f \/ named_in (q_force q) (field_name f)))
         (rt_fields (rf_type rf)) (map fw_field (ti_writes t))
  /\ (forall w, In w (ti_writes t) -> connected (db_cat db) rf tr (fw_field w) (fw_col w) (fw_ident w)).
Proof. exact C36_written_proof. Qed.
Print Assumptions C36_written.

Example C36_ex : exists t rf, check_query db_ex ex_modes_update = COk t /\ target db_ex ex_modes_update rf db_user /\ rf_dir rf = false
  /\ q_kind ex_modes_update = KUpdate /\ map (fun w => field_name (fw_field w)) (ti_writes t) = map B ["id"; "email"; "login"; "city"].
Proof. eexists _, _. split; [vm_compute; reflexivity|]. split; [split; vm_compute; reflexivity|]. repeat split. Qed.

(** The statement's keys are the fields of the primary key's columns, whatever
    their options; a field without a column must be read-only. *)
Theorem C36_keys : forall db q t rf tr, check_query db q = COk t -> target db q rf tr -> rf_dir rf = false ->
  q_kind q = KInsert \/ q_kind q = KUpdate ->
  picked (fun f => exists r, row_named tr (field_name f) r /\ cr_primary r = true) (rt_fields (rf_type rf)) (map fw_field (ti_pkeys t))
  /\ (forall w, In w (ti_pkeys t) -> connected (db_cat db) rf tr (fw_field w) (fw_col w) (fw_ident w))
  /\ forall f, In f (rt_fields (rf_type rf)) -> has_row tr (field_name f) \/ read_only f.
Proof. exact C36_keys_proof. Qed.
Print Assumptions C36_keys.

Example C36_keys_ex : exists t, check_query db_ex ex_modes_update = COk t /\ map (fun w => field_name (fw_field w)) (ti_pkeys t) = [B "id"].
Proof. eexists. split; [vm_compute; reflexivity|]. reflexivity. Qed.

(** The options of the structs around a field do not count here: the fields of
    a read-only struct are written. *)
Theorem C36_nested_refuted : exists e name fs q t w, analyzeQueryStruct e name fs = AOk q /\ plain_names fs /\ check_query db_ex q = COk t
  /\ In w (ti_writes t) /\ read_only (fw_field w) /\ q_force q = None.
Proof. exact C36_nested_refuted_proof. Qed.
Print Assumptions C36_nested_refuted.

(** ** C62 *)

Theorem C62_read : forall e name fs db q t rf tr, analyzeQueryStruct e name fs = AOk q -> plain_names fs ->
  check_query db q = COk t -> target db q rf tr ->
  read_from q rf tr (map fr_field (ti_reads t))
  /\ forall r, In r (ti_reads t) -> connected (db_cat db) rf tr (fr_field r) (fr_col r) (fr_ident r).
Proof. exact C62_read_proof. Qed.
Print Assumptions C62_read.

Example C62_ex : exists t, check_query db_ex ex_query = COk t /\ map (fun r => (fr_ident r, co_num (fr_col r))) (ti_reads t)
  = [(MkCol (B "u") (B "id"), 1%Z); (MkCol (B "u") (B "email"), 2%Z)].
Proof. eexists. split; [vm_compute; reflexivity|]. reflexivity. Qed.

Example C62_result_ex : exists t, check_query db_ex (ex_analysed "UpdateUser" [ex_one ex_modes; (ex_var "Result" [], ex_modes)]) = COk t
  /\ map (fun r => field_name (fr_field r)) (ti_reads t) = map B ["id"; "login"; "city"].
Proof. eexists. split; [vm_compute; reflexivity|]. reflexivity. Qed.

(** ** C63 *)

Theorem C63_checked : forall e name fs db q t, analyzeQueryStruct e name fs = AOk q -> plain_names fs -> check_query db q = COk t -> checked q t.
Proof. exact C63_checked_proof. Qed.
Print Assumptions C63_checked.

Example C63_ex : exists t, analyzeQueryStruct ex_env (B "SelectUsers") ex_full = AOk ex_query /\ plain_names ex_full /\ check_query db_ex ex_query = COk t.
Proof. eexists. split; [vm_compute; reflexivity|]. split; [apply plain_fields; vm_compute; reflexivity|]. vm_compute. reflexivity. Qed.

(** ** C64 *)
Theorem C64_where : forall db q t rf tr, check_query db q = COk t -> target db q rf tr ->
  Forall2 (conforms db (rf_id rf) (bindings rf (joined (q_join q)))) (where_of q) (ti_where t).
Proof. exact C64_where_proof. Qed.
Print Assumptions C64_where.

Example C64_ex : exists t rf, check_query db_ex ex_query = COk t /\ target db_ex ex_query rf db_user
  /\ bindings rf (joined (q_join ex_query)) = [([], MkRel (B "user") (B "u") []); (B "u", MkRel (B "user") (B "u") []); (B "p", MkRel (B "post") (B "p") [])]
  /\ List.length (ti_where t) = 3.
Proof. eexists _, _. split; [vm_compute; reflexivity|]. split; [split; vm_compute; reflexivity|]. split; vm_compute; reflexivity. Qed.

(** The columns of Force and OrderBy exist, and so do those of Default, which
    have a default. *)
Theorem C64_directives : forall db q t rf tr, check_query db q = COk t -> target db q rf tr ->
  (forall l id, q_force q = Some l -> In id (l_items l) -> exists rid tr' r, denotes db (bindings rf (joined (q_join q))) id rid tr' r)
  /\ (forall l o, q_orderby q = Some l -> In o l -> exists rid tr' r, denotes db (bindings rf (joined (q_join q))) (o_col o) rid tr' r)
  /\ (forall l id, q_default q = Some l -> In id (l_items l) -> exists r, row_named tr (c_col id) r /\ cr_hasdef r = true).
Proof. exact C64_directives_proof. Qed.
Print Assumptions C64_directives.

Example C64_directives_ex : exists t l, check_query db_ex ex_query = COk t /\ q_orderby ex_query = Some l /\ List.length l = 2.
Proof. eexists _, _. split; [vm_compute; reflexivity|]. split; vm_compute; reflexivity. Qed.

Theorem C64_joins : forall db q t rf tr j, check_query db q = COk t -> target db q rf tr -> q_join q = Some j ->
  List.length (ti_joins t) = List.length (j_dirs j)
  /\ forall d1 d d2, j_dirs j = d1 ++ d :: d2 -> exists tr' ws, nth_error (ti_joins t) (List.length d1) = Some ws
    /\ db_rels db (dotted (j_rel d)) = Some tr'
    /\ Forall2 (join_item_conforms db (bindings rf (match j_relation j with Some id => [id] | None => [] end ++ map j_rel (d1 ++ [d]))) tr') (j_items d) ws.
Proof. exact C64_joins_proof. Qed.
Print Assumptions C64_joins.

Example C64_joins_ex : exists t j d, check_query db_ex ex_query = COk t /\ q_join ex_query = Some j /\ j_dirs j = [d] /\ List.length (j_items d) = 3.
Proof. eexists _, _, _. split; [vm_compute; reflexivity|]. repeat (split; [vm_compute; reflexivity|]). vm_compute. reflexivity. Qed.

Theorem C64_return_refuted : exists e name fs q t l r, analyzeQueryStruct e name fs = AOk q /\ plain_names fs /\ check_query db_ex q = COk t
  /\ q_return q = Some l /\ l_items l = [MkCol (B "p") (B "id")] /\ ti_reads t = [r] /\ fr_ident r = MkCol (B "u") (B "id").
Proof. exact C64_return_refuted_proof. Qed.
Print Assumptions C64_return_refuted.

Theorem C64_default_refuted : exists e name fs q t l rf, analyzeQueryStruct e name fs = AOk q /\ plain_names fs /\ check_query db_ex q = COk t
  /\ q_default q = Some l /\ l_items l = [MkCol (B "p") (B "active")] /\ target db_ex q rf db_user
  /\ forall rid tr r, ~ denotes db_ex (bindings rf (joined (q_join q))) (MkCol (B "p") (B "active")) rid tr r.
Proof. exact C64_default_refuted_proof. Qed.
Print Assumptions C64_default_refuted.

(** ** C65 *)
(** Columns of equal type are accepted for any operator. *)
Theorem C65_operator_refuted : exists e name fs q t d rt, analyzeQueryStruct e name fs = AOk q /\ plain_names fs /\ check_query db_ex q = COk t
  /\ ti_where t = [WCColumn d] /\ c_pred d = IsGT /\ c_rhs d = c_lhs d /\ row_named db_user (c_col (c_lhs d)) rt
  /\ ~ operator (db_cat db_ex) (oprname (c_pred d)) (cr_type rt) (cr_type rt).
Proof. exact C65_operator_refuted_proof. Qed.
Print Assumptions C65_operator_refuted.
