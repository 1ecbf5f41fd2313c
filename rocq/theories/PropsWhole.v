(** C94: every accepted query describes a statement, and its method executes it. *)
From Coq Require Import Ascii String ZArith NArith Bool List Lia.
From Verif Require Import GoBase AParse PgSpec SqlSpec Analysis AnalysisSpec QuerySpec AnalysisProofs AnalysisRoles QueryFinal Oids Compat Gen GenRun GenSpec GenRowsSpec GenFilterSpec GenQFinal Check ConvertProofs Accepted CheckEx.
From Verif Require Import WholeFinal.
Import ListNotations.
Local Open Scope string_scope.
Local Open Scope list_scope.

(** ** Conditions *)

(** ** Joins *)

(** ** Values *)

(** ** The statement *)

(** Every accepted and checked query has a statement. *)
Theorem C94_described : forall e name fs db q t, analyzeQueryStruct e name fs = AOk q -> plain_names fs -> check_query db q = COk t ->
  expressible q t -> q_filter q = None -> IsInsertOrUpdateSlice q = false -> exists S, intended q t S.
Proof. exact C94_described_proof. Qed.
Print Assumptions C94_described.

(** The method executes it. *)
Theorem C94_executed : forall e name fs db q t wc D c, analyzeQueryStruct e name fs = AOk q -> plain_names fs -> check_query db q = COk t ->
  expressible q t -> q_filter q = None -> IsInsertOrUpdateSlice q = false ->
  (forall l, q_kind q = KSelectCount -> q_limit q = Some l -> lf_name l = []) -> run (buildQueryCode wc q t) D = Ok c ->
  exists S n, intended q t S /\ cl_text c = [TNode n]
    /\ (stmt_lists S = [] -> executed (cl_args c) n = filled (with_defaults q D) S)
    /\ (stmt_lists S <> [] -> executed (cl_args c) n = filled D S)
    /\ (forall i, In i (placeholders n) <-> (1 <= i <= Z.of_nat (List.length (cl_args c)))%Z)
    /\ called q (cl_method c) /\ context_is wc q (with_defaults q D) (cl_ctx c).
Proof. exact C94_executed_proof. Qed.
Print Assumptions C94_executed.

(** ** Slices of records *)

(** Writing slices: the records have columns to write, and updates set none to
    its default and return none. *)
Theorem C94_rows : forall e name fs db q t wc D c recs, analyzeQueryStruct e name fs = AOk q -> plain_names fs -> check_query db q = COk t ->
  expressible q t -> IsInsertOrUpdateSlice q = true -> ti_writes t <> [] ->
  (q_kind q = KUpdate -> ti_reads t = [] /\ forall w, In w (ti_writes t) -> defaulted q w = false) ->
  gfield D (q_relname q) = Some (VSlice recs) -> recs <> [] -> run (buildQueryCode wc q t) D = Ok c ->
  exists vals M T main tail rows, rows_intended q t vals M T
    /\ cl_text c = TNode main :: rows_sql rows ++ match tail with Some n => [TChr " "%char; TNode n] | None => [] end
    /\ executed (cl_args c) main = filled D M /\ option_map (executed (cl_args c)) tail = option_map (filled D) T
    /\ rows_hold vals recs (cl_args c) rows
    /\ (Z.of_nat (List.length (cl_args c)) <= 65535)%Z
    /\ called q (cl_method c) /\ context_is wc q D (cl_ctx c).
Proof. exact C94_rows_proof. Qed.
Print Assumptions C94_rows.

(** ** Filters *)

Theorem C94_filter : forall e name fs db q t wc fld D c text vals, analyzeQueryStruct e name fs = AOk q -> plain_names fs -> check_query db q = COk t ->
  expressible q t -> filterable q t -> q_filter q = Some fld -> gfield D fld = Some (VFilter text vals) -> run (buildQueryCode wc q t) D = Ok c ->
  exists M T main ftext tail fixed, filtered q t M T
    /\ cl_text c = TNode main :: ftext ++ closing M ++ match tail with Some n => [TChr " "%char; TNode n] | None => [] end
    /\ cl_args c = fixed ++ vals
    /\ executed (cl_args c) main = filled D M /\ option_map (executed (cl_args c)) tail = option_map (filled D) T
    /\ (forall i, In i (placeholders main) <-> (1 <= i <= Z.of_nat (List.length fixed))%Z)
    /\ filter_text_is (cl_args c) text vals ftext
    /\ called q (cl_method c) /\ context_is wc q D (cl_ctx c).
Proof. exact C94_filter_proof. Qed.
Print Assumptions C94_filter.

(** A select with joins, conditions, order, limit. *)
Example C94_ex : exists t, analyzeQueryStruct ex_env (B "SelectUsers") ex_full = AOk ex_query /\ plain_names ex_full /\ check_query db_ex ex_query = COk t
  /\ expressible ex_query t /\ q_filter ex_query = None /\ IsInsertOrUpdateSlice ex_query = false /\ ti_joins t <> [] /\ ti_where t <> [].
Proof.
  eexists. split; [vm_compute; reflexivity|]. split; [apply plain_fields; vm_compute; reflexivity|].
  split; [vm_compute; reflexivity|]. split; [|repeat split; discriminate]. split; [|split; [|split]].
  - intros w E. vm_compute in E. injection E as <-. cbn [w_items]. split; [alternates|says_so].
  - intros j d c E D C. vm_compute in E. injection E as <-. cbn [j_dirs In] in D. repeat (destruct D as [<-|D]); [..|destruct D].
    cbn [j_items In] in C. repeat (destruct C as [C|C]; [first [discriminate C|injection C as <-; apply sy_column; cbn; intuition discriminate]|]). destruct C.
  - intros j E K. vm_compute in K. discriminate K.
  - intros K. vm_compute in K. discriminate K.
Qed.

(** An insert of a slice *)
Example C94_rows_ex : exists fs q t c, analyzeQueryStruct ex_env (B "InsertUsers") fs = AOk q /\ plain_names fs /\ check_query db_ex q = COk t
  /\ expressible q t /\ IsInsertOrUpdateSlice q = true /\ ti_writes t <> []
  /\ run (buildQueryCode false q t) (VStruct [(B "Rel", VSlice [VStruct [(B "Id", VInt 1); (B "Email", VInt 2)]; VStruct [(B "Id", VInt 3); (B "Email", VInt 4)]])]) = Ok c
  /\ cl_args c = [VInt 1; VInt 2; VInt 3; VInt 4].
Proof.
  exists [rel94 (TSlice (TPtr rec94))]. do 3 eexists. split; [vm_compute; reflexivity|]. split; [apply plain_fields; vm_compute; reflexivity|].
  split; [vm_compute; reflexivity|]. split; [|split; [vm_compute; reflexivity|split; [discriminate|split; vm_compute; reflexivity]]]. split; [|split; [|split]].
  - intros w E. vm_compute in E. discriminate E.
  - intros j d c E. vm_compute in E. discriminate E.
  - intros j E. vm_compute in E. discriminate E.
  - intros K. vm_compute in K. discriminate K.
Qed.

(** A select with a filter *)
Example C94_filter_ex : exists fs q t c, analyzeQueryStruct ex_env (B "SelectUsers") fs = AOk q /\ plain_names fs /\ check_query db_ex q = COk t
  /\ expressible q t /\ filterable q t /\ q_filter q = Some (B "F")
  /\ run (buildQueryCode false q t) (VStruct [(B "F", VFilter [inl "x"%char; inr 0] [VInt 9])]) = Ok c /\ cl_args c = [VInt 9].
Proof.
  exists [rel94 (TSlice (TPtr rec94)); (ex_var "F" [], TNamed (MkName (lit "Filter") (Some (lit "github.com/frk/gosql", lit "gosql")) no_flags false false false false) (TStruct []))]. do 3 eexists. split; [vm_compute; reflexivity|]. split; [apply plain_fields; vm_compute; reflexivity|].
  split; [vm_compute; reflexivity|]. split; [|split; [split; [intros (X & _); vm_compute in X; discriminate X|repeat split]|split; [vm_compute; reflexivity|split; vm_compute; reflexivity]]]. split; [|split; [|split]].
  - intros w E. vm_compute in E. discriminate E.
  - intros j d c E. vm_compute in E. discriminate E.
  - intros j E. vm_compute in E. discriminate E.
  - intros K. vm_compute in K. discriminate K.
Qed.

(** C63 without a condition on the names of the fields. *)
Theorem C63_accepted : forall e name fs db q t, analyzeQueryStruct e name fs = AOk q -> check_query db q = COk t -> checked q t.
Proof. exact C63_accepted_proof. Qed.
Print Assumptions C63_accepted.

Example C63_accepted_ex : exists fs q t, analyzeQueryStruct ex_env (B "InsertUsers") fs = AOk q /\ check_query db_ex q = COk t /\ List.length (ti_writes t) = 2.
Proof. exists [rel94 (TSlice (TPtr rec94))]. do 2 eexists. repeat split; vm_compute; reflexivity. Qed.
