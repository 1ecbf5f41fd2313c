(** C99: the tables of types, converters and operators say what PostgreSQL says.
    C100: the constants for NULL are the zero values of Go. *)
From Coq Require Import Ascii String ZArith NArith Bool List Lia.
From Verif Require Import GoBase AParse PgSpec TagSpec Analysis AnalysisSpec QuerySpec AnalysisProofs AnalysisRoles QueryFinal Oids Compat Gen GenSpec Check ConvertProofs CheckSpec CheckProofs CheckEx PropsConds OidSpec.
From Verif Require Import TablesFinal.
Import ListNotations.
Local Open Scope string_scope.
Local Open Scope list_scope.

(** ** C99 *)
Theorem C99_arrays : forall o a, In (o, a) TypeToArray <-> exists name, In (name, o, a) pg_types /\ ~ In name ["name"; "oid"; "oidvector"].
Proof. exact C99_arrays_proof. Qed.
Print Assumptions C99_arrays.

Theorem C99_elements : forall o a, In (a, o) ArrayToElem <-> In (o, a) TypeToArray.
Proof. exact C99_elements_proof. Qed.
Print Assumptions C99_elements.

Example C99_arrays_ex : In (oid_Text, oid_TextArr) TypeToArray /\ In (oid_TextArr, oid_Text) ArrayToElem.
Proof. split; apply NN_in; vm_compute; reflexivity. Qed.

(** A column is converted by the functions for its type. *)
Theorem C99_converters : forall o m l e f, entry o m l e -> f = ce_valuer e \/ f = ce_scanner e -> f <> [] -> named_for o f.
Proof. exact C99_converters_proof. Qed.
Print Assumptions C99_converters.

Example C99_converters_ex : exists e, entry oid_TsTzRangeArr false (B "[][2]time.Time") e /\ ce_scanner e = B "TstzRangeArrayToTimeArray2Slice".
Proof.
  exists (MkCE (B "TstzRangeArrayFromTimeArray2Slice") (B "TstzRangeArrayToTimeArray2Slice")). split; [|reflexivity].
  assert (X : exists rows, find (fun r => (N.eqb (fst (fst r)) oid_TsTzRangeArr)) oid2literal = Some rows /\ snd (fst rows) = false /\ existsb (fun x => (bytes_eqb (fst x) (B "[][2]time.Time") && bytes_eqb (ce_valuer (snd x)) (B "TstzRangeArrayFromTimeArray2Slice") && bytes_eqb (ce_scanner (snd x)) (B "TstzRangeArrayToTimeArray2Slice"))%bool) (snd rows) = true)
    by (eexists; split; [vm_compute; reflexivity|split; vm_compute; reflexivity]).
  destruct X as ([[o m] rows] & F & M & X). cbn [fst snd] in *. subst m. apply find_some in F. destruct F as [I F]. cbn [fst] in F. apply N.eqb_eq in F. subst o. exists rows. split; auto.
  apply existsb_exists in X. destruct X as ([l [a b]] & J & X). cbn [fst snd ce_valuer ce_scanner] in X. apply andb_prop in X. destruct X as [X X3]. apply andb_prop in X. destruct X as [X1 X2]. apply bytes_eqb_eq in X1, X2, X3. now subst.
Qed.

(** A comparison is checked with the operator that PostgreSQL will use for what
    the statement says. *)
Theorem C99_operators : forall p op sql name, asks p op -> op_sql op = lit sql -> In (sql, name) pg_operators ->
  ~ In p [IsSimilar; NotSimilar; IsDistinct] -> oprname p = lit name.
Proof. exact C99_operators_proof. Qed.
Print Assumptions C99_operators.

Example C99_operators_ex : asks NotILike (OpILike true) /\ In ("NOT ILIKE", "!~~*") pg_operators /\ ~ In NotILike [IsSimilar; NotSimilar; IsDistinct].
Proof.
  split; [exists "notilike", "NOT ILIKE"; split; [cbn; tauto|split; reflexivity]|]. split; [cbn; tauto|]. cbn. intros H. repeat destruct H as [H|H]; try discriminate; contradiction.
Qed.

Theorem C99_lists : forall name, (In ("IN", name) pg_operators -> oprname IsIn = lit name) /\ (In ("NOT IN", name) pg_operators -> oprname NotIn = lit name).
Proof. exact C99_lists_proof. Qed.
Print Assumptions C99_lists.

(** SIMILAR TO is checked with the operator of LIKE, IS DISTINCT FROM with that
    of <>. *)
Theorem C99_similar_refuted : exists p op sql name, In p [IsSimilar; NotSimilar; IsDistinct] /\ asks p op /\ op_sql op = lit sql /\ In (sql, name) pg_operators /\ oprname p <> lit name.
Proof. exact C99_similar_refuted_proof. Qed.
Print Assumptions C99_similar_refuted.

Theorem C99_distinct_refuted : exists op sql name, asks IsDistinct op /\ op_sql op = lit sql /\ In (sql, name) pg_operators /\ oprname IsDistinct <> lit name.
Proof. exact C99_distinct_refuted_proof. Qed.
Print Assumptions C99_distinct_refuted.

(** The operands of an accepted condition are of one type, or the operator that
    PostgreSQL will look for exists. *)
Theorem C99_where : forall db q t rf tr d op sql name, check_query db q = COk t -> target db q rf tr -> within (WColumn d) (where_of q) ->
  asks (c_pred d) op -> op_sql op = lit sql -> In (sql, name) pg_operators -> ~ In (c_pred d) [IsSimilar; NotSimilar; IsDistinct] ->
  exists rid tr' r lt rt e, denotes db (bindings rf (CheckSpec.joined (q_join q))) (c_lhs d) rid tr' r
    /\ type_of (db_cat db) (cr_type r) lt /\ operand db (bindings rf (CheckSpec.joined (q_join q))) d rt /\ compared (db_cat db) (c_pred d) (c_quant d) rt e
    /\ (ty_oid lt = ty_oid e \/ ((ty_cat lt = CatString \/ ty_enum lt = true) /\ ty_oid e = 705%N)
        \/ operator (db_cat db) (lit name) (ty_oid lt) (ty_oid e)).
Proof. exact C99_where_proof. Qed.
Print Assumptions C99_where.

Example C99_where_ex : exists q t rf d, analyzeQueryStruct ex_env (B "DeleteUser") ex_gt = AOk q /\ check_query db_ex q = COk t /\ target db_ex q rf db_user
  /\ within (WColumn d) (where_of q) /\ asks (c_pred d) OpGt /\ In (">", ">") pg_operators /\ ~ In (c_pred d) [IsSimilar; NotSimilar; IsDistinct].
Proof.
  eexists _, _, _, _. split; [vm_compute; reflexivity|]. split; [vm_compute; reflexivity|]. split; [split; vm_compute; reflexivity|]. split; [apply wi_here; left; reflexivity|].
  split; [exists ">", ">"; split; [cbn; tauto|split; reflexivity]|]. split; [cbn; tauto|]. cbn. intros H. repeat destruct H as [H|H]; try discriminate; contradiction.
Qed.

(** ** C100 *)

(** Every constant is one, but that for lseg. *)
Theorem C100_constants : forall o z, In (o, z) TypeToZeroValue -> o <> 601%N -> exists s, sql_constant z s.
Proof. exact C100_constants_proof. Qed.
Print Assumptions C100_constants.

Example C100_constants_ex : In (oid_Bytea, B "'\x'") TypeToZeroValue /\ sql_constant (B "'\x'") (B "\x").
Proof.
  split; [vm_compute; repeat (first [left; reflexivity|right])|]. apply (sc_quoted (B "\x")). vm_compute. intros H. repeat destruct H as [H|H]; try discriminate; contradiction.
Qed.

Theorem C100_lseg_refuted : exists o z, In (o, z) TypeToZeroValue /\ In ("lseg", o, 1018%N) pg_types /\ forall s, ~ sql_constant z s.
Proof. exact C100_lseg_refuted_proof. Qed.
Print Assumptions C100_lseg_refuted.

(** Where the values of the Go type are those of the column, NULL is read as the
    zero value. *)
Theorem C100_read : forall r x name a gs g, fetched r x -> zero_for_null r -> fi_coalval (fr_field r) = [] ->
  In (name, ty_oid (co_type (fr_col r)), a) pg_types -> In (name, gs) native -> In g gs ->
  exists z s, x = XCoalesce (XCol (fr_ident r)) (XCast (XLit z) (ty_fmt (co_type (fr_col r)))) /\ sql_constant z (lit s) /\ In (g, s) zeros.
Proof. exact C100_read_proof. Qed.
Print Assumptions C100_read.

Theorem C100_written : forall q pre cast w x name a gs g, GenSpec.stored q pre cast w x -> defaulted q w = false -> null_as_zero w ->
  In (name, ty_oid (co_type (fw_col w)), a) pg_types -> In (name, gs) native -> In g gs ->
  exists z s, x = XCast (XNullif (XParam (Acc (pre ++ field_path (fw_field w)) (fw_valuer w))) z) (ty_fmt (co_type (fw_col w))) /\ sql_constant z (lit s) /\ In (g, s) zeros.
Proof. exact C100_written_proof. Qed.
Print Assumptions C100_written.

Example C100_read_ex : exists q t r x, analyzeQueryStruct ex_env (B "SelectUser") [(ex_var "Rel" (ex_tag "rel" ["user:u"]), TPtr ex_login)] = AOk q
  /\ check_query db_ex q = COk t /\ ti_reads t = [r] /\ fetched r x /\ zero_for_null r /\ fi_coalval (fr_field r) = []
  /\ In ("varchar", ty_oid (co_type (fr_col r)), 1015%N) pg_types /\ In ("varchar", ["string"; "[]byte"]) native.
Proof.
  eexists _, _, _, _. split; [vm_compute; reflexivity|]. split; [vm_compute; reflexivity|]. split; [reflexivity|].
  split; [eapply fetched_zero; [|reflexivity|discriminate|reflexivity]; right; repeat split; reflexivity|].
  split; [right; repeat split; reflexivity|]. split; [reflexivity|]. split; cbn; tauto.
Qed.

Example C100_written_ex : exists q t w x, analyzeQueryStruct ex_env (B "UpdateUser") ex_logins = AOk q
  /\ check_query db_ex q = COk t /\ ti_writes t = [w] /\ GenSpec.stored q [] false w x /\ defaulted q w = false /\ null_as_zero w
  /\ In ("varchar", ty_oid (co_type (fw_col w)), 1015%N) pg_types /\ In ("varchar", ["string"; "[]byte"]) native.
Proof.
  eexists _, _, _, _. split; [vm_compute; reflexivity|]. split; [vm_compute; reflexivity|]. split; [reflexivity|].
  split; [eapply stored_nullif; [reflexivity|repeat split; reflexivity|discriminate|reflexivity]|].
  split; [reflexivity|]. split; [repeat split; reflexivity|]. split; cbn; tauto.
Qed.

(** Where they are not, it is read as something else: NULL in a column of type
    box is read into a string as the box (0,0),(0,0). *)
Theorem C100_text_refuted : exists name o a e z s, In (name, o, a) pg_types /\ entry o false (lit "string") e /\ ce_scanner e = [] /\ find_oid o TypeToZeroValue = Some z
  /\ sql_constant z s /\ ~ exists s', s = lit s' /\ In ("string", s') zeros.
Proof. exact C100_text_refuted_proof. Qed.
Print Assumptions C100_text_refuted.
