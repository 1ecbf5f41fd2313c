(** C93: the names of a generated method obey Go's rules. *)
From Coq Require Import Ascii String ZArith NArith Bool List Lia.
From Verif Require Import GoBase Strconv StrconvProofs AParse PgSpec Analysis Oids ConvertProofs AnalysisSpec AnalysisProofs AnalysisRoles QuerySlots Gen GenRun GenOut GenSpec Check Accepted ScopeSpec GoNames QueryFinal CheckEx.
From Verif Require Import ScopesFinal.
Import ListNotations.
Local Open Scope string_scope.
Local Open Scope list_scope.

(** ** Expressions *)

(** ** Statements *)

(** ** The second half *)

(** ** The call *)

(** ** The first half *)

(** ** Lists of IN predicates *)

(** ** Arguments *)

(** ** The text *)

(** ** The method *)

Theorem C93_scope : forall e name fs db q t imp wc, analyzeQueryStruct e name fs = AOk q -> check_query db q = COk t ->
  plain_types imp q t -> rows_have_columns q t -> rows_listless q t ->
  good_body (method_params wc) (method_body imp wc q t).
Proof. exact C93_scope_proof. Qed.
Print Assumptions C93_scope.

(** ** Telling bad bodies *)

(** A select into a slice, with a list and a limit *)
Example C93_ex_select : exists fs q t, analyzeQueryStruct ex_env (B "SelectUsers") fs = AOk q /\ check_query db_ex q = COk t
  /\ plain_types no_import q t /\ rows_have_columns q t /\ rows_listless q t /\ List.length (method_body no_import true q t) = 14.
Proof.
  exists [rel_of (TSlice (TPtr (rec_of "User"))); where_in; (ex_var "Limit" (ex_tag "sql" ["20"]), ex_int)]. eexists _, _.
  split; [vm_compute; reflexivity|]. split; [vm_compute; reflexivity|]. split; [|split; [|split]].
  - intros _ x [[-> _]|(r & n & R & N & _ & ->)]; [not_reserved|]. cbn [ti_reads In] in R. repeat (destruct R as [<-|R]; [cbn [fr_field fi_sel In] in N; repeat (destruct N as [<-|N]; [not_reserved|]); destruct N|]). destruct R.
  - intros _ _. split; [discriminate|reflexivity].
  - intros E. vm_compute in E. discriminate E.
  - vm_compute. reflexivity.
Qed.

(** An update of a slice, joined with another relation *)
Example C93_ex_update : exists fs q t, analyzeQueryStruct ex_env (B "UpdateUsers") fs = AOk q /\ check_query db_ex q = COk t
  /\ plain_types no_import q t /\ rows_have_columns q t /\ rows_listless q t /\ IsInsertOrUpdateSlice q = true /\ ti_joins t <> [].
Proof.
  exists [rel_of (TSlice (TPtr (rec_of "User"))); (ex_var "From" [], TStruct [(ex_var "_" (ex_tag "sql" ["post:p"]), ex_dir "Relation");
    (ex_var "_" (ex_tag "sql" ["user:v"; "v.id = p.user_id"]), ex_dir "LeftJoin")])]. eexists _, _.
  split; [vm_compute; reflexivity|]. split; [vm_compute; reflexivity|]. split; [|split; [|split; [|split]]].
  - intros _ x [[-> _]|(r & n & R & N & _ & ->)]; [not_reserved|]. cbn [ti_reads In] in R. repeat (destruct R as [<-|R]; [cbn [fr_field fi_sel In] in N; repeat (destruct N as [<-|N]; [not_reserved|]); destruct N|]). destruct R.
  - intros E. vm_compute in E. discriminate E.
  - intros _. cbn [ti_joins]. constructor; [constructor; [split; discriminate|constructor]|constructor].
  - vm_compute. reflexivity.
  - discriminate.
Qed.

(** A select into an array *)
Theorem C93_array_refuted : exists e name fs db q t, analyzeQueryStruct e name fs = AOk q /\ check_query db q = COk t
  /\ rt_array (out_type q) = true /\ forall imp wc, ~ good_body (method_params wc) (method_body imp wc q t).
Proof. exact C93_array_refuted_proof. Qed.
Print Assumptions C93_array_refuted.

(** A record type called row *)
Theorem C93_name_refuted : exists e name fs db q t, analyzeQueryStruct e name fs = AOk q /\ check_query db q = COk t
  /\ rows_have_columns q t /\ rows_listless q t /\ forall imp wc, ~ good_body (method_params wc) (method_body imp wc q t).
Proof. exact C93_name_refuted_proof. Qed.
Print Assumptions C93_name_refuted.

(** A slice update whose condition compares a column with the elements of another *)
Theorem C93_list_refuted : exists e name fs db q t, analyzeQueryStruct e name fs = AOk q /\ check_query db q = COk t
  /\ IsInsertOrUpdateSlice q = true /\ rows_have_columns q t /\ forall imp wc, ~ good_body (method_params wc) (method_body imp wc q t).
Proof. exact C93_list_refuted_proof. Qed.
Print Assumptions C93_list_refuted.
