(** Properties of the check of on-conflict targets, filters and converters, and of the checker's panics (internal/postgres). *)
From Coq Require Import Ascii String ZArith NArith Bool List Lia Permutation.
From Verif Require Import GoBase Strconv AParse Analysis AnalysisSpec QuerySpec AnalysisProofs AnalysisRoles QueryFinal PropsQuery Oids Compat Gen GenSpec Check ConvertProofs CheckSpec CheckProofs CheckEx PropsIx ColsFinal PropsCols.
From Verif Require Import ConflFinal.
Import ListNotations.
Local Open Scope string_scope.
Local Open Scope list_scope.

(** ** C67 *)

Theorem C67_target : forall db q t rf tr oc, check_query db q = COk t -> target db q rf tr -> q_onconflict q = Some oc ->
  exists ci, ti_conflict t = Some ci /\ resolves tr oc (ci_target ci).
Proof. exact C67_target_proof. Qed.
Print Assumptions C67_target.

Example C67_ex : exists t ci, check_query db_ex (ex_conflict [(ex_var "_" (ex_tag "sql" ["u.login"; "u.email"]), ex_dir "Column"); (ex_var "_" [], ex_dir "Ignore")]) = COk t
  /\ ti_conflict t = Some ci /\ ci_target ci = CTIndex (B "email, login") [] /\ ci_update ci = [].
Proof. eexists _, _. split; [vm_compute; reflexivity|]. split; [reflexivity|]. split; reflexivity. Qed.

Example C67_ex_index : exists t ci, check_query db_ex (ex_conflict [(ex_var "_" (ex_tag "sql" ["user_pkey"]), ex_dir "Index"); (ex_var "_" [], ex_dir "Ignore")]) = COk t
  /\ ti_conflict t = Some ci /\ ci_target ci = CTIndex (B "id") [].
Proof. eexists _, _. split; [vm_compute; reflexivity|]. split; reflexivity. Qed.

Example C67_ex_rejected : check_query db_ex (ex_conflict [(ex_var "_" (ex_tag "sql" ["user_login"]), ex_dir "Index"); (ex_var "_" [], ex_dir "Ignore")]) = CErr DIndexNotUnique
  /\ check_query db_ex (ex_conflict [(ex_var "_" (ex_tag "sql" ["user_check"]), ex_dir "Constraint"); (ex_var "_" [], ex_dir "Ignore")]) = CErr DConstraintNotUnique
  /\ check_query db_ex (ex_conflict [(ex_var "_" (ex_tag "sql" ["u.email"]), ex_dir "Column"); (ex_var "_" [], ex_dir "Ignore")]) = CErr DIndexColumnsUnknown.
Proof. split; [|split]; vm_compute; reflexivity. Qed.

(** The columns a conflict updates: those listed, or those the statement writes. *)
Theorem C67_update : forall db q t rf tr oc ci, check_query db q = COk t -> target db q rf tr -> q_onconflict q = Some oc -> ti_conflict t = Some ci ->
  match oc_update oc with
  | None => ci_update ci = []
  | Some l => if l_all l then ci_update ci = map fw_col (ti_writes t)
              else Forall2 (fun id c => exists r, row_named tr (c_col id) r /\ describes (db_cat db) tr r c) (l_items l) (ci_update ci)
  end.
Proof. exact C67_update_proof. Qed.
Print Assumptions C67_update.

Example C67_update_ex : exists t ci, check_query db_ex (ex_conflict [(ex_var "_" (ex_tag "sql" ["user_email_key"]), ex_dir "Constraint"); (ex_var "_" (ex_tag "sql" ["u.city"; "u.login"]), ex_dir "Update")]) = COk t
  /\ ti_conflict t = Some ci /\ map co_num (ci_update ci) = [8; 3]%Z.
Proof. eexists _, _. split; [vm_compute; reflexivity|]. split; reflexivity. Qed.

(** ** C68 *)

(** The functions the table names exist and take the type the table names them
    for: a type written there, or a pointer to it. *)
Theorem C68_table : forall o m lit e, entry o m lit e ->
  (ce_valuer e <> [] -> makes_valuer (ce_valuer e) lit)
  /\ (ce_scanner e <> [] -> o <> oid_InetArr -> lit <> B "interface{}" -> makes_scanner (ce_scanner e) (B "*" ++ lit))
  /\ (ce_scanner e <> [] -> o <> oid_InetArr -> lit = B "interface{}" -> exists p, makes_scanner (ce_scanner e) p /\ (p = B "*" ++ lit \/ p = B "interface{}")).
Proof. exact C68_table_proof. Qed.
Print Assumptions C68_table.

Example C68_table_ex : entry oid_Inet false (B "net.IP") (MkCE (B "InetFromIP") (B "InetToIP")).
Proof. apply compat_entry. vm_compute. reflexivity. Qed.

Theorem C68_inet_array_refuted : exists lit e, entry oid_InetArr false lit e /\ ce_scanner e <> [] /\ forall p, ~ makes_scanner (ce_scanner e) p.
Proof. exact C68_inet_array_refuted_proof. Qed.
Print Assumptions C68_inet_array_refuted.

(** A field of the type [t] gets the converter of an entry for [t] itself. *)
Theorem C68_direct : forall en t i b s o m e, analyzeTypeInfo en t = AOk (i, b) -> spelled t s -> direct t -> entry o m (GenericLiteral i) e ->
  (ce_valuer e <> [] -> makes_valuer (ce_valuer e) s)
  /\ (ce_scanner e <> [] -> o <> oid_InetArr -> s <> B "interface{}" -> makes_scanner (ce_scanner e) (B "*" ++ s)).
Proof. exact C68_direct_proof. Qed.
Print Assumptions C68_direct.

Example C68_direct_ex : exists t i, analyzeTypeInfo ex_env t = AOk (i, TBasic BString false false) /\ spelled t (B "[]string") /\ direct t
  /\ entry oid_TextArr false (GenericLiteral i) (MkCE (B "TextArrayFromStringSlice") (B "TextArrayToStringSlice")).
Proof.
  exists (TSlice ex_str). eexists. split; [vm_compute; reflexivity|]. split; [apply (sp_slice _ (B "string")), (sp_basic BString); discriminate|].
  split; [exact Logic.I|]. apply compat_entry. vm_compute. reflexivity.
Qed.

(** What a statement writes to a column fits it, and what it reads from one fits the field. *)
Theorem C69_written : forall db q t w, check_query db q = COk t -> In w (ti_writes t ++ ti_pkeys t) ->
  (own_value (fi_type (fw_field w)) /\ fw_valuer w = [])
  \/ (document_column (fw_col w) /\ In (fw_valuer w) [[]; B "JSON"; B "XML"])
  \/ converts (db_cat db) (fi_type (fw_field w)) (fw_col w) ce_valuer (fw_valuer w).
Proof. exact C69_written_proof. Qed.
Print Assumptions C69_written.

Theorem C69_read : forall db q t r, check_query db q = COk t -> In r (ti_reads t) ->
  (own_scan (fi_type (fr_field r)) /\ fr_scanner r = [])
  \/ (document_column (fr_col r) /\ In (fr_scanner r) [[]; B "JSON"; B "XML"])
  \/ (t_empty (fi_type (fr_field r)) = true /\ fr_scanner r = B "AnyToEmptyInterface")
  \/ converts (db_cat db) (fi_type (fr_field r)) (fr_col r) ce_scanner (fr_scanner r).
Proof. exact C69_read_proof. Qed.
Print Assumptions C69_read.

Example C69_ex : exists t, check_query db_ex (ex_tags (TSlice ex_str)) = COk t
  /\ map fw_valuer (ti_writes t) = [B "TextArrayFromStringSlice"; B "JSON"] /\ map fr_scanner (ti_reads t) = [B "TextArrayToStringSlice"; B "JSON"].
Proof. eexists. split; [vm_compute; reflexivity|]. split; reflexivity. Qed.

(** A pointer gets the converter of the type it points to, and a named type the
    one of its underlying type: the function is called with an argument of a
    type other than its parameter's. *)
Theorem C68_pointer_refuted : exists t w i, check_query db_ex (ex_tags (TPtr (TSlice ex_str))) = COk t /\ In w (ti_writes t)
  /\ analyzeTypeInfo ex_env (TPtr (TSlice ex_str)) = AOk (i, ex_str) /\ fi_type (fw_field w) = i
  /\ spelled (TPtr (TSlice ex_str)) (B "*[]string") /\ makes_valuer (fw_valuer w) (B "[]string")
  /\ ~ makes_valuer (fw_valuer w) (B "*[]string").
Proof. exact C68_pointer_refuted_proof. Qed.
Print Assumptions C68_pointer_refuted.

Theorem C68_named_refuted : exists t w i s, check_query db_money ex_pay = COk t /\ In w (ti_writes t)
  /\ analyzeTypeInfo ex_env ex_cents = AOk (i, TBasic BInt64 false false) /\ fi_type (fw_field w) = i
  /\ spelled ex_cents s /\ makes_valuer (fw_valuer w) (B "int64") /\ ~ makes_valuer (fw_valuer w) s.
Proof. exact C68_named_refuted_proof. Qed.
Print Assumptions C68_named_refuted.

(** ** C70 *)

Theorem C70_filters : forall db s t rf tr, check_filter db s = COk t -> fs_rel s = Some rf -> db_rels db (dotted (rf_id rf)) = Some tr ->
  picked (fun f => filterable f /\ has_row tr (field_name f)) (rt_fields (rf_type rf)) (map ff_field (ti_filters t))
  /\ (forall x, In x (ti_filters t) -> connected (db_cat db) rf tr (ff_field x) (ff_col x) (ff_ident x)
        /\ ((own_value (fi_type (ff_field x)) /\ ff_valuer x = []) \/ (document_column (ff_col x) /\ In (ff_valuer x) [[]; B "JSON"; B "XML"])
            \/ converts (db_cat db) (fi_type (ff_field x)) (ff_col x) ce_valuer (ff_valuer x)))
  /\ (forall id, fs_ts s = Some id -> exists r, row_named tr (c_col id) r /\ cr_type r = oid_TSVector).
Proof. exact C70_filters_proof. Qed.
Print Assumptions C70_filters.

Example C70_ex : exists t rf, check_filter db_ex ex_filters = COk t /\ fs_rel ex_filters = Some rf /\ db_rels db_ex (dotted (rf_id rf)) = Some db_user
  /\ map (fun x => field_name (ff_field x)) (ti_filters t) = [B "id"; B "login"] /\ fs_ts ex_filters = Some (MkCol (B "u") (B "ts")).
Proof. eexists _, _. split; [vm_compute; reflexivity|]. split; [vm_compute; reflexivity|]. split; [reflexivity|]. split; vm_compute; reflexivity. Qed.

(** ** C71 *)

Theorem C71_no_panic : forall e name fs q db, analyzeQueryStruct e name fs = AOk q -> plain_names fs -> closed db -> check_query db q <> CPanic.
Proof. exact C71_no_panic_proof. Qed.
Print Assumptions C71_no_panic.

Example C71_ex : closed db_ex /\ exists q, analyzeQueryStruct ex_env (B "SelectUsers") ex_full = AOk q /\ plain_names ex_full.
Proof.
  split; [split|].
  - intros t I E. vm_compute in I. repeat (destruct I as [<-|I]; [try discriminate; eexists; apply find_type_ok; vm_compute; reflexivity|]). contradiction.
  - intros s o H. cbn [db_lit db_ex] in H. destruct (bytes_eqb s (B "'x'")); [injection H as <-; eexists; apply find_type_ok; vm_compute; reflexivity|].
    destruct (bytes_eqb s (B "1")); [injection H as <-; eexists; apply find_type_ok; vm_compute; reflexivity|discriminate].
  - intros n t x H I. cbn [db_rels db_ex] in H. destruct (bytes_eqb n (B "user")); [injection H as <-|destruct (bytes_eqb n (B "post")); [injection H as <-; destruct I|discriminate]].
    cbn [rr_ixs db_user] in I. repeat (destruct I as [<-|I]; [eexists; vm_compute; reflexivity|]). contradiction.
  - eexists. split; [vm_compute; reflexivity|]. apply plain_fields. vm_compute. reflexivity.
Qed.

Theorem C71_array_refuted : exists e name fs q, analyzeQueryStruct e name fs = AOk q /\ plain_names fs /\ check_query db_open q = CPanic.
Proof. exact C71_array_refuted_proof. Qed.
Print Assumptions C71_array_refuted.

Theorem C71_literal_refuted : exists e name fs q, analyzeQueryStruct e name fs = AOk q /\ plain_names fs /\ check_query db_row q = CPanic.
Proof. exact C71_literal_refuted_proof. Qed.
Print Assumptions C71_literal_refuted.

(** ** C72 *)

Theorem C72_string : forall k f c, fi_type f = string_info -> ty_cat (co_type c) = CatString -> co_typmod c <> 5%Z ->
  ~ document_column c -> exists v s, value_check k f c = COk v /\ read_check k f c = COk s.
Proof. exact C72_string_proof. Qed.
Print Assumptions C72_string.

Example C72_ex : ty_cat (co_type (ex_column 1 14 ty_varchar)) = CatString /\ co_typmod (ex_column 1 14 ty_varchar) <> 5%Z /\ ~ document_column (ex_column 1 14 ty_varchar).
Proof. split; [reflexivity|]. split; [discriminate|]. unfold document_column. vm_compute. intuition discriminate. Qed.

Theorem C72_length_one : forall k f c, ~ own_value (fi_type f) -> ~ own_scan (fi_type f) -> t_empty (fi_type f) = false ->
  co_type c = ty_varchar -> co_typmod c = 5%Z ->
  value_check k f c = CErr DColumnFieldTypeWrite /\ read_check k f c = CErr DColumnFieldTypeRead.
Proof. exact C72_length_one_proof. Qed.
Print Assumptions C72_length_one.

Example C72_length_one_ex : value_check db_cats (MkFI [] string_info [] false true [] (MkCol [] []) [] (MkMode true true true true true) false false false false []) (ex_column 1 5 ty_varchar)
  = CErr DColumnFieldTypeWrite.
Proof. vm_compute. reflexivity. Qed.

(** A column bit(n), n <> 1, fits no type either. *)
Theorem C72_bit : forall k f c, ~ own_value (fi_type f) -> ~ own_scan (fi_type f) -> t_empty (fi_type f) = false ->
  co_type c = MkTy oid_Bit (B "bit") false CatBitstring 0 -> co_typmod c <> 1%Z ->
  value_check k f c = CErr DColumnFieldTypeWrite /\ read_check k f c = CErr DColumnFieldTypeRead.
Proof. exact C72_bit_proof. Qed.
Print Assumptions C72_bit.
