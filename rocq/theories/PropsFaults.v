(** Rejected queries are at fault, and the code of the error names the fault. *)
From Coq Require Import Ascii String ZArith NArith Bool List Lia.
From Verif Require Import GoBase AParse Analysis AnalysisSpec QuerySpec AnalysisProofs AnalysisRoles QueryFinal PropsQuery Oids Compat Gen GenSpec Check ConvertProofs CheckSpec CheckProofs CheckEx ColsFinal CondsFinal ConflFinal FaultSpec.
From Verif Require Import FaultsFinal.
Import ListNotations.
Local Open Scope string_scope.
Local Open Scope list_scope.

(** ** C96 *)
Theorem C96_fault : forall db q rf e, keyed (db_cat db) -> q_rel q = Some rf -> check_query db q = CErr e -> fault db q rf e.
Proof. exact C96_fault_proof. Qed.
Print Assumptions C96_fault.

Example C96_fault_ex : keyed (db_cat db_ex)
  /\ code_of "SelectUser" [u_rel [(ex_var "Id" (ex_tag "sql" ["idd"]), ex_int)]] = Some DColumnUnknown
  /\ code_of "SelectUser" [(ex_var "Rel" (ex_tag "rel" ["users:u"]), TPtr (TNamed (ex_name "User") (TStruct [u_id])))] = Some DRelationUnknown
  /\ code_of "SelectUser" [u_rel [(ex_var "Id" (ex_tag "sql" ["id"]), TSlice ex_int)]] = Some DColumnFieldTypeRead
  /\ code_of "InsertUser" [u_rel [(ex_var "Id" (ex_tag "sql" ["id"]), TSlice ex_int)]] = Some DColumnFieldTypeWrite
  /\ code_of "InsertUser" [u_rel [(ex_var "E" (ex_tag "sql" ["email"; "default"]), ex_str)]] = Some DColumnDefaultUnset
  /\ code_of "SelectUser" (u_where [u_cond "u.email isnull"]) = Some DPredicateOperandNull
  /\ code_of "SelectUser" (u_where [u_cond "u.email istrue"]) = Some DPredicateOperandBool
  /\ code_of "SelectUser" (u_where [u_cond "u.email = u.id"]) = Some DColumnComparison
  /\ code_of "SelectUser" (u_where [u_cond "u.email = 'zz'"]) = Some DPredicateLiteralExpr
  /\ code_of "SelectUser" (u_where [u_cond "u.email = any u.id"]) = Some DPredicateOperandQuantifier
  /\ code_of "SelectUser" (u_where [(ex_var "F" (ex_tag "sql" ["u.active <"]), ex_str)]) = Some DColumnFieldComparison
  /\ code_of "SelectUser" (u_where [(ex_var "F" (ex_tag "sql" ["u.id ="; "@lower"]), ex_str)]) = Some DProcedureUnknown
  /\ code_of "SelectUser" (u_where [(ex_var "A" (ex_tag "sql" ["u.id isbetween"]), TStruct [(ex_var "_" (ex_tag "sql" ["u.email"; "x"]), ex_dir "Column"); (ex_var "Y" (ex_tag "sql" ["y"]), ex_int)])])
     = Some DBetweenColumnComparison
  /\ code_of "InsertUser" (u_conflict "u.login" "Column") = Some DIndexColumnsNotUnique /\ code_of "InsertUser" (u_conflict "u.email" "Column") = Some DIndexColumnsUnknown
  /\ code_of "InsertUser" (u_conflict "user_check" "Constraint") = Some DConstraintNotUnique /\ code_of "InsertUser" (u_conflict "user_login" "Index") = Some DIndexNotUnique.
Proof. split; [exact keyed_ex|]. repeat split; vm_compute; reflexivity. Qed.

Theorem C96_rejected : forall db q rf e t, keyed (db_cat db) -> q_rel q = Some rf -> fault db q rf e -> check_query db q <> COk t.
Proof. exact C96_rejected_proof. Qed.
Print Assumptions C96_rejected.

Example C96_rejected_ex : let q := ex_analysed "SelectUser" (u_where [u_cond "u.email istrue"]) in exists rf, q_rel q = Some rf /\ fault db_ex q rf DPredicateOperandBool.
Proof.
  cbv zeta. eexists. split; [vm_compute; reflexivity|]. apply (ft_where _ _ _ (WColumn (MkCond (MkCol (B "u") (B "email")) (MkCol [] []) [] IsTrue QNone))); [vm_compute; now left|].
  apply (bw_column _ _ _ _ (MkRel (B "user") (B "u") []) db_user (db_col 2 "email" true false false oid_Text)).
  - split; [|split; [vm_compute; reflexivity|]].
    + eexists [_], []. split; [vm_compute; reflexivity|]. intros [].
    + eexists [_], _. split; [vm_compute; reflexivity|]. split; [reflexivity|]. vm_compute. intuition discriminate.
  - apply bc_bool; [now left|]. vm_compute. discriminate.
Qed.

(** *** Filters *)
Theorem C96_filter_fault : forall db s rf e, keyed (db_cat db) -> fs_rel s = Some rf -> check_filter db s = CErr e -> filter_fault db s rf e.
Proof. exact C96_filter_fault_proof. Qed.
Print Assumptions C96_filter_fault.

Example C96_filter_fault_ex : keyed (db_cat db_ex) /\ (exists rf, fs_rel bad_filters = Some rf) /\ check_filter db_ex bad_filters = CErr DColumnTextSearchType.
Proof. split; [exact keyed_ex|]. split; [eexists|]; vm_compute; reflexivity. Qed.

Theorem C96_filter_rejected : forall db s rf e t, keyed (db_cat db) -> fs_rel s = Some rf -> filter_fault db s rf e -> check_filter db s <> COk t.
Proof. exact C96_filter_rejected_proof. Qed.
Print Assumptions C96_filter_rejected.

Example C96_filter_rejected_ex : exists rf, fs_rel bad_filters = Some rf /\ filter_fault db_ex bad_filters rf DColumnTextSearchType.
Proof.
  eexists. split; [vm_compute; reflexivity|]. apply (ff_search_type _ _ _ db_user (MkCol (B "u") (B "email")) (db_col 2 "email" true false false oid_Text)); try (vm_compute; reflexivity).
  - eexists [_], _. split; [vm_compute; reflexivity|]. split; [reflexivity|]. vm_compute. intuition discriminate.
  - vm_compute. discriminate.
Qed.

Theorem C96_decided : forall e name fs q rf db, analyzeQueryStruct e name fs = AOk q -> plain_names fs -> closed db -> keyed (db_cat db) -> q_rel q = Some rf ->
  (exists t, check_query db q = COk t) <-> (forall c, ~ fault db q rf c).
Proof. exact C96_decided_proof. Qed.
Print Assumptions C96_decided.

Example C96_decided_ex : closed db_ex /\ keyed (db_cat db_ex) /\ exists q rf, analyzeQueryStruct ex_env (B "SelectUsers") ex_full = AOk q /\ plain_names ex_full /\ q_rel q = Some rf.
Proof.
  split; [exact closed_ex|]. split; [exact keyed_ex|]. eexists _, _. split; [vm_compute; reflexivity|]. split; [|vm_compute; reflexivity]. apply plain_fields. vm_compute. reflexivity.
Qed.
