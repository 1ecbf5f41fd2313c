
From Coq Require Import Ascii String ZArith NArith Bool List Lia.
From Verif Require Import GoBase AParse AnalysisProofs Analysis Oids Gen GenOut GenOutSpec GenOutTree GenOutRun ConvertProofs GenExec.
From Verif Require Import GenRFinal.
Import ListNotations.
Local Open Scope string_scope.
Local Open Scope list_scope.

(** C56: the rows of a query with a slice for its output are appended to the
    slice, in order. *)
Theorem C56_rows_collected : forall env q t fs old good e,
  one_source q -> ~ in_place q -> IsSelectCountOrExists q = false ->
  rt_slice (out_type q) = true -> rt_iter (out_type q) = false ->
  shaped env t -> no_collision (ti_reads t) ->
  e_call env = None -> rows_are (e_rows env) (e_err env) good e ->
  Forall (fun ds => List.length ds = List.length (ti_reads t)) good ->
  fs (out_field q) = OSlice old ->
  exists recs s, run_result env q t fs = Done s (answer q e)
    /\ Forall2 (decoded (ti_reads t)) good recs
    /\ o_q s (out_field q) = OSlice (old ++ map (finish env q) recs)
    /\ (forall g, g <> out_field q -> o_q s g = fs g)
    /\ o_closed s = true.
Proof. exact C56_rows_collected_proof. Qed.
Print Assumptions C56_rows_collected.

(** C57: an iterator is called once for each row, in order, until it answers
    with an error, which ends the loop. *)
Theorem C57_rows_iterated : forall env q t fs old good e,
  one_source q -> ~ in_place q -> IsSelectCountOrExists q = false -> rt_iter (out_type q) = true ->
  shaped env t -> no_collision (ti_reads t) ->
  e_call env = None -> rows_are (e_rows env) (e_err env) good e ->
  Forall (fun ds => List.length ds = List.length (ti_reads t)) good ->
  fs (out_field q) = OIter old ->
  exists recs seen stop s, Forall2 (decoded (ti_reads t)) good recs
    /\ iterate (e_iter env) old (map (finish env q) recs) = (seen, stop)
    /\ run_result env q t fs = Done s (answer q (match stop with Some _ => stop | None => e end))
    /\ o_q s (out_field q) = OIter seen
    /\ (forall g, g <> out_field q -> o_q s g = fs g)
    /\ o_closed s = true.
Proof. exact C57_rows_iterated_proof. Qed.
Print Assumptions C57_rows_iterated.

(** C58: the rows an insert or update of a slice returns are written to its
    records, in order. *)
Theorem C58_rows_returned : forall env q t fs l good e,
  one_source q -> in_place q -> rt_slice (out_type q) = true -> rt_iter (out_type q) = false ->
  shaped env t -> e_call env = None -> rows_are (e_rows env) (e_err env) good e ->
  Forall (fun ds => List.length ds = List.length (ti_reads t)) good ->
  fs (out_field q) = OSlice l -> Forall (ready (e_fields env) (ti_reads t)) l ->
  List.length (e_rows env) <= List.length l ->
  exists recs s, run_result env q t fs = Done s (answer q e)
    /\ rows_stored env t good l recs
    /\ o_q s (out_field q) = OSlice (map (finish env q) recs ++ skipn (List.length good) l)
    /\ (forall g, g <> out_field q -> o_q s g = fs g)
    /\ o_closed s = true.
Proof. exact C58_rows_returned_proof. Qed.
Print Assumptions C58_rows_returned.

(** More rows than records: the method panics. *)
Theorem C58_too_many_rows : forall env q t fs l good rest,
  one_source q -> in_place q -> rt_slice (out_type q) = true -> rt_iter (out_type q) = false ->
  shaped env t -> e_call env = None -> e_rows env = map inr good ++ rest ->
  Forall (fun ds => List.length ds = List.length (ti_reads t)) good ->
  fs (out_field q) = OSlice l -> Forall (ready (e_fields env) (ti_reads t)) l ->
  List.length good = List.length l -> rest <> [] ->
  run_result env q t fs = Crash.
Proof. exact C58_too_many_rows_proof. Qed.
Print Assumptions C58_too_many_rows.

(** C59: the row of a query for one record is stored in it. *)
Theorem C59_row_scanned : forall env q t fs old ds,
  one_source q -> ~ in_place q -> IsSelectCountOrExists q = false -> rt_single (out_type q) = true ->
  shaped env t -> no_collision (ti_reads t) ->
  e_row env = inr ds -> List.length ds = List.length (ti_reads t) ->
  fs (out_field q) = ORec old -> rt_ptr (out_type q) = true \/ fits (RStruct false (e_fields env)) old ->
  exists x s, run_result env q t fs = Done s (if rt_after (out_type q) then RetErr None else answer q None)
    /\ scanned (ti_reads t) ds (if rt_ptr (out_type q) then VNil else old) x
    /\ o_q s (out_field q) = ORec (finish env q x)
    /\ (forall g, g <> out_field q -> o_q s g = fs g).
Proof. exact C59_row_scanned_proof. Qed.
Print Assumptions C59_row_scanned.

(** The row an insert or update of one record returns. *)
Theorem C59_row_returned : forall env q t fs old ds,
  one_source q -> in_place q -> rt_single (out_type q) = true -> shaped env t ->
  e_row env = inr ds -> List.length ds = List.length (ti_reads t) ->
  fs (out_field q) = ORec old -> ready (e_fields env) (ti_reads t) old ->
  exists x s, run_result env q t fs = Done s (if rt_after (out_type q) then RetErr None else answer q None)
    /\ updated (e_fields env) (ti_reads t) ds old x
    /\ o_q s (out_field q) = ORec (finish env q x)
    /\ (forall g, g <> out_field q -> o_q s g = fs g).
Proof. exact C59_row_returned_proof. Qed.
Print Assumptions C59_row_returned.

(** Without a row, or one that cannot be scanned, the error is answered and
    the other fields are as before. *)
Theorem C59_no_row : forall env q t fs old e,
  one_source q -> ~ in_place q -> IsSelectCountOrExists q = false -> rt_single (out_type q) = true ->
  shaped env t -> no_collision (ti_reads t) -> e_row env = inl e ->
  fs (out_field q) = ORec old -> rt_ptr (out_type q) = true \/ fits (RStruct false (e_fields env)) old ->
  exists s, run_result env q t fs = Done s (answer q (Some e))
    /\ (forall g, g <> out_field q -> o_q s g = fs g).
Proof. exact C59_no_row_proof. Qed.
Print Assumptions C59_no_row.

(** The number of a count or the truth value of an exists query. *)
Theorem C59_count : forall env q t fs old d,
  one_source q -> IsSelectCountOrExists q = true -> rt_single (out_type q) = true -> rt_ptr (out_type q) = false ->
  rt_after (out_type q) = false -> ti_reads t = [] -> e_row env = inr [d] -> fs (out_field q) = ORec old ->
  exists s, run_result env q t fs = Done s (answer q None)
    /\ o_q s (out_field q) = ORec (VGot [] d) /\ (forall g, g <> out_field q -> o_q s g = fs g).
Proof. exact C59_count_proof. Qed.
Print Assumptions C59_count.

(** *** Statements without rows *)
(** C60: the number of rows affected, converted to the field's type. *)
Theorem C60_rows_affected : forall env q t fs r n,
  IsWithoutOutput q = true -> q_rows q = Some r -> e_call env = None -> e_count env = inr n ->
  exists s, run_result env q t fs = Done s (RetErr None)
    /\ o_q s (ra_name r) = ONum (conv_int (ra_kind r) n)
    /\ (forall g, g <> ra_name r -> o_q s g = fs g).
Proof. exact C60_rows_affected_proof. Qed.
Print Assumptions C60_rows_affected.

(** It is the number itself when that is in the range of the type. *)
Theorem C60_in_range : forall k lo hi n, int_range k = Some (lo, hi) -> (lo <= n <= hi)%Z -> conv_int k n = n.
Proof. exact C60_in_range_proof. Qed.
Print Assumptions C60_in_range.

(** C61: errors.  An error of the call is answered and nothing is stored. *)
Theorem C61_call_error : forall env q t fs e,
  IsWithoutOutput q = true \/ IsSingleOutput q = false -> e_call env = Some e ->
  exists s, run_result env q t fs = Done s (answer q (Some e)) /\ o_q s = fs.
Proof. exact C61_call_error_proof. Qed.
Print Assumptions C61_call_error.

(** So is one of RowsAffected. *)
Theorem C61_count_error : forall env q t fs r e,
  IsWithoutOutput q = true -> q_rows q = Some r -> e_call env = None -> e_count env = inl e ->
  exists s, run_result env q t fs = Done s (answer q (Some e)) /\ o_q s = fs.
Proof. exact C61_count_error_proof. Qed.
Print Assumptions C61_count_error.

(** A statement without result answers nil for success, unless its handler
    takes an ErrorInfo. *)
Theorem C61_exec_success : forall env q t fs,
  IsWithoutOutput q = true -> q_rows q = None -> HasNoErrorInfoHandler q = true -> e_call env = None ->
  exists s, run_result env q t fs = Done s (answer q None) /\ o_q s = fs.
Proof. exact C61_exec_success_proof. Qed.
Print Assumptions C61_exec_success.

(** That handler is called, with an ErrorInfo whose error is nil. *)
Theorem C61_info_handler_refuted : exists env q t fs s h,
  IsWithoutOutput q = true /\ q_rows q = None /\ e_call env = None
  /\ run_result env q t fs = Done s (RetInfo h None) /\ answer q None = RetErr None.
Proof. exact C61_info_handler_refuted_proof. Qed.
Print Assumptions C61_info_handler_refuted.

(** *** Nested structs *)
(** C44: every struct held by pointer on the way to a field read is allocated
    once, and then the fields can be written. *)
Theorem C44_allocated_once : forall env q t s r v0,
  ~ in_place q -> IsSelectCountOrExists q = false -> ti_reads t <> [] ->
  reads_in (e_fields env) (ti_reads t) -> no_collision (ti_reads t) ->
  place (outputVar q) = Some (r, []) -> read_root s r = Some v0 -> fits (RStruct false (e_fields env)) v0 ->
  exists paths s', outputInit q t = init_root q ++ map InitPath paths
    /\ NoDup paths
    /\ (forall p, In p paths <-> exists rd, In rd (ti_reads t) /\ pointer_on rd p)
    /\ rseq env (outputVar q) (map RInit (map InitPath paths)) s = Next s'
    /\ Forall (fun e => addressable s' e = true) (outputArgs q t).
Proof. exact C44_allocated_once_proof. Qed.
Print Assumptions C44_allocated_once.

Example ex_C44 : outputInit (y_q KSelect (y_rt true true false false)) (y_t [y_x; y_id; y_y])
  = [InitNew; InitPath [B "A"]; InitPath [B "A"; B "BC"]] /\ no_collision [y_x; y_id; y_y]
  /\ shaped (y_env [] None (inr [])) (y_t [y_x; y_id; y_y]).
Proof. split; [vm_compute; reflexivity|]. split; [exact y_no_collision|apply y_shaped]. Qed.

(** Two paths that spell the same string: A.BC and AB.C. *)
Theorem C44_collision_refuted : exists env q t fs,
  one_source q /\ ~ in_place q /\ IsSelectCountOrExists q = false /\ rt_slice (out_type q) = true
  /\ rt_iter (out_type q) = false /\ shaped env t /\ e_call env = None
  /\ e_rows env = [inr [1; 2]] /\ e_err env = None /\ fs (out_field q) = OSlice []
  /\ ~ no_collision (ti_reads t) /\ ~ In (InitPath [B "AB"; B "C"]) (outputInit q t)
  /\ run_result env q t fs = Crash.
Proof. exact C44_collision_refuted_proof. Qed.
Print Assumptions C44_collision_refuted.

Example ex_C56 :
  let q := y_q KSelect (y_rt true true false true) in
  let env := y_env [inr [1; 2; 3]; inr [4; 5; 6]; inl 8; inr [7; 8; 9]] None (inr []) in
  one_source q /\ ~ in_place q /\ rows_are (e_rows env) (e_err env) [[1; 2; 3]; [4; 5; 6]] (Some 8)
  /\ result_of (run_result env q (y_t [y_x; y_id; y_y]) (y_fields (OSlice [VNil])))
     = Some (OSlice [VNil; VRec [(B "After", y_rec 1 2 3)]; VRec [(B "After", y_rec 4 5 6)]], RetErr (Some 8)).
Proof.
  split; [left; auto|]. split; [intros [H _]; discriminate|].
  split; [right; eexists; eexists; split; reflexivity|vm_compute; reflexivity].
Qed.

Example ex_C57 :
  let q := set_errh_ (Some (MkErrH (B "eh") true)) (y_q KSelect (y_rt false false true false)) in
  let env := y_env [inr [1; 2; 3]; inr [4; 5; 6]; inr [7; 8; 9]; inl 8] None (inr []) in
  one_source q /\ ~ in_place q /\ rows_are (e_rows env) (e_err env) [[1; 2; 3]; [4; 5; 6]; [7; 8; 9]] (Some 8)
  /\ iterate (e_iter env) [VNil] [y_rec 1 2 3; y_rec 4 5 6; y_rec 7 8 9] = ([VNil; y_rec 1 2 3; y_rec 4 5 6], Some 9)
  /\ result_of (run_result env q (y_t [y_x; y_id; y_y]) (y_fields (OIter [VNil])))
     = Some (OIter [VNil; y_rec 1 2 3; y_rec 4 5 6], RetInfo (B "eh") (Some 9)).
Proof.
  split; [left; auto|]. split; [intros [H _]; discriminate|].
  split; [right; eexists; eexists; split; reflexivity|]. split; vm_compute; reflexivity.
Qed.

Example ex_C58 :
  let q := y_ins (y_rt true true false false) in
  let env := y_env [inr [1; 2]; inr [3; 4]] None (inr []) in
  one_source q /\ in_place q /\ shaped env (y_t [y_id; y_y]) /\ Forall (ready y_type [y_id; y_y]) [y_old 10; y_old 20; y_old 30]
  /\ result_of (run_result env q (y_t [y_id; y_y]) (y_fields (OSlice [y_old 10; y_old 20; y_old 30])))
     = Some (OSlice [VRec [(B "ID", VGot [] 1); (B "A", VRec [(B "BC", VNil); (B "Y", VGot [] 2)]); (B "AB", VNil)];
                     VRec [(B "ID", VGot [] 3); (B "A", VRec [(B "BC", VNil); (B "Y", VGot [] 4)]); (B "AB", VNil)];
                     y_old 30], RetErr None)
  /\ run_result (y_env [inr [1; 2]; inr [3; 4]] None (inr [])) q (y_t [y_id; y_y]) (y_fields (OSlice [y_old 10])) = Crash.
Proof.
  split; [right; right; repeat split; discriminate|]. split; [split; reflexivity|]. split.
  - split; [discriminate|]. split.
    + repeat constructor; cbn; repeat (eexists; split; [reflexivity|]); reflexivity.
    + cbn. repeat constructor; cbn; intuition congruence.
  - split; [repeat (apply Forall_cons; [apply y_old_ready|]); apply Forall_nil|]. split; vm_compute; reflexivity.
Qed.

Example ex_C59 :
  let q := y_q KSelect (y_rt true false false false) in
  one_source q /\ ~ in_place q /\ rt_single (out_type q) = true
  /\ result_of (run_result (y_env [] None (inr [1; 2; 3])) q (y_t [y_x; y_id; y_y]) (y_fields (ORec VNil)))
     = Some (ORec (y_rec 1 2 3), RetErr None).
Proof. split; [left; auto|]. split; [intros [H _]; discriminate|]. split; vm_compute; reflexivity. Qed.

Example ex_C59_count :
  let q := y_q KSelectCount (y_rt false false false false) in
  one_source q /\ IsSelectCountOrExists q = true
  /\ result_of (run_result (y_env [] None (inr [41])) q (y_t []) (y_fields (ORec VZero))) = Some (ORec (VGot [] 41), RetErr None).
Proof. split; [left; auto|]. split; vm_compute; reflexivity. Qed.

(** Without a row the pointer is set all the same. *)
Theorem C59_no_row_untouched_refuted : exists env q t fs e s x,
  one_source q /\ ~ in_place q /\ IsSelectCountOrExists q = false /\ rt_single (out_type q) = true
  /\ shaped env t /\ no_collision (ti_reads t) /\ e_row env = inl e /\ fs (out_field q) = ORec VNil
  /\ run_result env q t fs = Done s (answer q (Some e)) /\ o_q s (out_field q) = ORec x /\ x <> VNil.
Proof. exact C59_no_row_untouched_refuted_proof. Qed.
Print Assumptions C59_no_row_untouched_refuted.

Example ex_C60 :
  let q := set_rows_ (Some (MkRows (B "Rel") (KBasic BUint8))) (new_query KDelete) in
  IsWithoutOutput q = true
  /\ result_of (run_result (y_env [] None (inr [])) q (y_t []) (y_fields (ONum 0))) = Some (ONum 3, RetErr None).
Proof. split; vm_compute; reflexivity. Qed.

(** Out of range it is another number. *)
Theorem C60_overflow_refuted : exists env q t fs r n s,
  IsWithoutOutput q = true /\ q_rows q = Some r /\ e_call env = None /\ e_count env = inr n /\ (0 <= n)%Z
  /\ run_result env q t fs = Done s (RetErr None) /\ o_q s (ra_name r) <> ONum n.
Proof. exact C60_overflow_refuted_proof. Qed.
Print Assumptions C60_overflow_refuted.

Example ex_C61 :
  let q := set_errh_ (Some (MkErrH (B "eh") false)) (new_query KDelete) in
  let env e := MkEnv [] e (inr []) [] None (inr 0%Z) (fun x => x) (fun _ _ => None) in
  result_of (run_result (env (Some 5)) q (y_t []) (y_fields (ONum 0))) = Some (ONum 0, RetHandler (B "eh") (Some 5))
  /\ result_of (run_result (env None) q (y_t []) (y_fields (ONum 0))) = Some (ONum 0, RetHandler (B "eh") None).
Proof. split; vm_compute; reflexivity. Qed.
