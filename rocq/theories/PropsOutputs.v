(** C95: every accepted query stores the rows it receives. *)
From Coq Require Import Ascii String ZArith NArith Bool List Lia.
From Verif Require Import GoBase AParse PgSpec AParseProofs Analysis AnalysisSpec QuerySpec AnalysisProofs AnalysisRoles QuerySlots QueryFinal PropsQuery Oids Compat Gen GenOut GenOutSpec GenOutTree GenOutRun GenRFinal GenSpec Check ConvertProofs CheckSpec CheckProofs ColsFinal Accepted CheckEx.
From Verif Require Import OutputsFinal.
Import ListNotations.
Local Open Scope string_scope.
Local Open Scope list_scope.

(** ** Shapes *)

(** ** Selectors *)

(** ** Paths *)

(** ** Record types *)

(** The fields with columns are values in records of the shape of the struct,
    each listed once. *)
Theorem C95_record : forall e sp t rt, analyzeRelType e sp t = AOk rt ->
  exists n fs h, record_of (e_pkg e) t n fs h /\ held h rt /\ (go_struct fs ->
    NoDup (map sel_path (rt_fields rt))
    /\ forall ts f, shape fs ts -> In f (rt_fields rt) -> in_type (RStruct false ts) (fi_sel f) (fi_name f)).
Proof. exact C95_record_proof. Qed.
Print Assumptions C95_record.

(** Every struct has a shape. *)
Theorem C95_shape : forall fs, exists ts, shape fs ts.
Proof. exact C95_shape_proof. Qed.
Print Assumptions C95_shape.

(** ** Queries *)

Theorem C95_output : forall e name fs db q t, analyzeQueryStruct e name fs = AOk q -> plain_names fs -> check_query db q = COk t -> ti_reads t <> [] ->
  exists rfs h, output e fs q rfs h /\ (go_struct rfs -> returned_once q -> forall env, shape rfs (e_fields env) -> shaped env t).
Proof. exact C95_output_proof. Qed.
Print Assumptions C95_output.

(** Every query with an output has exactly one: the rows of a select, a result
    field, or the records written. *)
Theorem C95_one_source : forall e name fs q, analyzeQueryStruct e name fs = AOk q -> IsWithoutOutput q = false -> one_source q.
Proof. exact C95_one_source_proof. Qed.
Print Assumptions C95_one_source.

(** ** What the methods do *)
(** Rows are appended to the slice, as records. *)
Theorem C95_collected : forall e name fs db q t, analyzeQueryStruct e name fs = AOk q -> plain_names fs -> check_query db q = COk t ->
  ti_reads t <> [] -> returned_once q -> no_collision (ti_reads t) -> ~ in_place q ->
  exists rfs h, output e fs q rfs h /\ forall env vals old good end_,
    h_slice h = true -> go_struct rfs -> shape rfs (e_fields env) ->
    e_call env = None -> rows_are (e_rows env) (e_err env) good end_ -> Forall (fun ds => List.length ds = List.length (ti_reads t)) good ->
    vals (out_field q) = OSlice old ->
    exists recs s, run_result env q t vals = Done s (answer q end_) /\ Forall2 (decoded (ti_reads t)) good recs
      /\ o_q s (out_field q) = OSlice (old ++ map (finish env q) recs) /\ (forall g, g <> out_field q -> o_q s g = vals g) /\ o_closed s = true.
Proof. exact C95_collected_proof. Qed.
Print Assumptions C95_collected.

(** Rows are handed to the iterator, as records. *)
Theorem C95_iterated : forall e name fs db q t, analyzeQueryStruct e name fs = AOk q -> plain_names fs -> check_query db q = COk t ->
  ti_reads t <> [] -> returned_once q -> no_collision (ti_reads t) ->
  exists rfs h, output e fs q rfs h /\ forall env vals old good end_,
    h_iter h <> None -> go_struct rfs -> shape rfs (e_fields env) ->
    e_call env = None -> rows_are (e_rows env) (e_err env) good end_ -> Forall (fun ds => List.length ds = List.length (ti_reads t)) good ->
    vals (out_field q) = OIter old ->
    exists recs seen stop s, Forall2 (decoded (ti_reads t)) good recs /\ iterate (e_iter env) old (map (finish env q) recs) = (seen, stop)
      /\ run_result env q t vals = Done s (answer q (match stop with Some _ => stop | None => end_ end))
      /\ o_q s (out_field q) = OIter seen /\ (forall g, g <> out_field q -> o_q s g = vals g) /\ o_closed s = true.
Proof. exact C95_iterated_proof. Qed.
Print Assumptions C95_iterated.

(** The rows an insert or update of a slice returns are stored in its records. *)
Theorem C95_returned : forall e name fs db q t, analyzeQueryStruct e name fs = AOk q -> plain_names fs -> check_query db q = COk t ->
  ti_reads t <> [] -> returned_once q -> in_place q ->
  exists rfs h, output e fs q rfs h /\ forall env vals l good end_,
    h_slice h = true -> go_struct rfs -> shape rfs (e_fields env) ->
    e_call env = None -> rows_are (e_rows env) (e_err env) good end_ -> Forall (fun ds => List.length ds = List.length (ti_reads t)) good ->
    vals (out_field q) = OSlice l -> Forall (ready (e_fields env) (ti_reads t)) l -> List.length (e_rows env) <= List.length l ->
    exists recs s, run_result env q t vals = Done s (answer q end_) /\ rows_stored env t good l recs
      /\ o_q s (out_field q) = OSlice (map (finish env q) recs ++ skipn (List.length good) l)
      /\ (forall g, g <> out_field q -> o_q s g = vals g) /\ o_closed s = true.
Proof. exact C95_returned_proof. Qed.
Print Assumptions C95_returned.

(** The row of a query for one record. *)
Theorem C95_single : forall e name fs db q t, analyzeQueryStruct e name fs = AOk q -> plain_names fs -> check_query db q = COk t ->
  ti_reads t <> [] -> returned_once q ->
  exists rfs h, output e fs q rfs h /\ forall env vals old ds,
    h_slice h = false -> h_iter h = None -> h_array h = None -> go_struct rfs -> shape rfs (e_fields env) ->
    e_row env = inr ds -> List.length ds = List.length (ti_reads t) -> vals (out_field q) = ORec old ->
    (in_place q /\ ready (e_fields env) (ti_reads t) old
     \/ ~ in_place q /\ no_collision (ti_reads t) /\ (h_ptr h = true \/ GenOutSpec.fits (RStruct false (e_fields env)) old)) ->
    exists x s, run_result env q t vals = Done s (if rt_after (out_type q) then RetErr None else answer q None)
      /\ (in_place q -> updated (e_fields env) (ti_reads t) ds old x)
      /\ (~ in_place q -> scanned (ti_reads t) ds (if h_ptr h then VNil else old) x)
      /\ o_q s (out_field q) = ORec (finish env q x) /\ (forall g, g <> out_field q -> o_q s g = vals g).
Proof. exact C95_single_proof. Qed.
Print Assumptions C95_single.

Example C95_ex : exists fs q t, analyzeQueryStruct ex_env (B "SelectUsers") fs = AOk q /\ plain_names fs /\ check_query db_ex q = COk t
  /\ map read_path (ti_reads t) = [[B "Id"]; [B "Mail"; B "Email"]; [B "Mail"; B "Home"; B "City"]]
  /\ returned_once q /\ no_collision (ti_reads t) /\ ~ in_place q
  /\ output ex_env fs q user95 (MkHold true true None None) /\ go_struct user95 /\ shape user95 ts95.
Proof.
  exists [rel95 (TSlice (TPtr (TNamed (ex_name "User") (TStruct user95))))]. do 2 eexists. split; [vm_compute; reflexivity|]. split; [apply plain_fields; vm_compute; reflexivity|].
  split; [vm_compute; reflexivity|]. split; [reflexivity|]. split; [intros l E; discriminate E|]. split; [|split; [intros [E _]; discriminate E|split; [|split; [apply go_user95|apply shape95]]]].
  - apply (one_pointer _ [B "Mail"]). cbn [ti_reads]. apply Forall_cons; [|apply Forall_cons; [|apply Forall_cons; [|apply Forall_nil]]]; intros a n b E PT; cbn [fr_field fi_sel] in E.
    + destruct a; discriminate E.
    + destruct a as [|x [|y a]]; injection E; intros; subst; [reflexivity|discriminate..].
    + destruct a as [|x [|y [|z a]]]; injection E; intros; subst; [reflexivity|discriminate PT|discriminate..].
  - eexists _, _, _. split; [left; reflexivity|]. split; [reflexivity|]. split; [|repeat split]. eapply ro_slice; [now left|]. constructor.
Qed.

(** An insert that returns the keys of its records. *)
Example C95_returned_ex : exists fs q t, analyzeQueryStruct ex_env (B "InsertUsers") fs = AOk q /\ plain_names fs /\ check_query db_ex q = COk t
  /\ map read_path (ti_reads t) = [[B "Id"]] /\ returned_once q /\ in_place q /\ output ex_env fs q user95 (MkHold true true None None).
Proof.
  exists [rel95 (TSlice (TPtr (TNamed (ex_name "User") (TStruct user95)))); (ex_var "_" (ex_tag "sql" ["id"]), ex_dir "Return")].
  do 2 eexists. split; [vm_compute; reflexivity|]. split; [apply plain_fields; vm_compute; reflexivity|].
  split; [vm_compute; reflexivity|]. split; [reflexivity|]. split; [|split; [split; reflexivity|]].
  - intros l E _. injection E as <-. cbn. constructor; [intros []|constructor].
  - eexists _, _, _. split; [left; reflexivity|]. split; [reflexivity|]. split; [|repeat split]. eapply ro_slice; [now left|]. constructor.
Qed.

(** A column may be listed twice; then its field is read twice. *)
Theorem C95_returned_twice_refuted : exists e name fs db q t, analyzeQueryStruct e name fs = AOk q /\ plain_names fs /\ check_query db q = COk t
  /\ ~ NoDup (map read_path (ti_reads t)).
Proof. exact C95_returned_twice_refuted_proof. Qed.
Print Assumptions C95_returned_twice_refuted.

(** One record, and an iterator. *)
Example C95_single_ex : exists fs q t, analyzeQueryStruct ex_env (B "SelectUser") fs = AOk q /\ plain_names fs /\ check_query db_ex q = COk t
  /\ ti_reads t <> [] /\ ~ in_place q /\ output ex_env fs q user95 (MkHold true false None None).
Proof.
  exists [rel95 (TPtr (TNamed (ex_name "User") (TStruct user95)))]. do 2 eexists. split; [vm_compute; reflexivity|]. split; [apply plain_fields; vm_compute; reflexivity|].
  split; [vm_compute; reflexivity|]. split; [discriminate|]. split; [intros [E _]; discriminate E|].
  eexists _, _, _. split; [left; reflexivity|]. split; [reflexivity|]. split; [|repeat split]. eapply ro_pointer. now left.
Qed.

Example C95_iterated_ex : exists fs q t, analyzeQueryStruct ex_env (B "SelectUsers") fs = AOk q /\ plain_names fs /\ check_query db_ex q = COk t
  /\ ti_reads t <> [] /\ output ex_env fs q user95 (MkHold true false None (Some [])).
Proof.
  exists [rel95 (TFunc [TPtr (TNamed (ex_name "User") (TStruct user95))] [TNamed (MkName (lit "error") None no_flags false false false false) (TIface [(lit "Error", true, ([], [ex_str]))] true false false)])].
  do 2 eexists. split; [vm_compute; reflexivity|]. split; [apply plain_fields; vm_compute; reflexivity|].
  split; [vm_compute; reflexivity|]. split; [discriminate|].
  eexists _, _, _. split; [left; reflexivity|]. split; [reflexivity|]. split; [|repeat split]. eapply ro_func; [now left|constructor|]. eexists _, _. repeat split.
Qed.
