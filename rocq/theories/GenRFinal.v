(** Definitions and proofs used by PropsGenR.v. *)
From Coq Require Import Ascii String ZArith NArith Bool List Lia.
From Verif Require Import GoBase AParse AnalysisProofs Analysis Oids Gen GenOut GenOutSpec GenOutTree GenOutRun ConvertProofs GenExec.
Import ListNotations.
Local Open Scope string_scope.
Local Open Scope list_scope.

Lemma outputRoot_place : forall q, place (outputRoot q) = Some (OField (out_field q), []).
Proof. intros q. unfold outputRoot, out_field. destruct (q_result q); reflexivity. Qed.

Lemma outputArgs_reads : forall q t, IsSelectCountOrExists q = false ->
  outputArgs q t = map (arg (outputVar q)) (ti_reads t).
Proof. intros q t H. unfold outputArgs. rewrite H. reflexivity. Qed.

Lemma has_out_reads : forall q t, ti_reads t <> [] -> has_out q t = true.
Proof. intros q t H. unfold has_out. destruct (ti_reads t); [congruence|reflexivity]. Qed.

Lemma outputInit_reads : forall q t, ti_reads t <> [] ->
  outputInit q t = init_root q ++ (if canSkipRelInit q then [] else init_fields (ti_reads t) []).
Proof. intros q t H. unfold outputInit. destruct (ti_reads t); [congruence|reflexivity]. Qed.

Lemma skip_in_place : forall q, canSkipRelInit q = true <-> in_place q.
Proof.
  intros q. unfold canSkipRelInit, in_place. rewrite andb_true_iff.
  destruct (q_result q); cbn; intuition congruence.
Qed.

Lemma skip_false : forall q, ~ in_place q -> canSkipRelInit q = false.
Proof. intros q N. destruct (canSkipRelInit q) eqn:E; [|reflexivity]. exfalso. apply N, skip_in_place, E. Qed.

Lemma with_output : forall q, one_source q -> IsWithoutOutput q = false.
Proof.
  intros q H. unfold IsWithoutOutput. destruct H as [(A & B & C)|[(A & B & C)|(A & B & C)]].
  - rewrite A. cbn. rewrite andb_false_r. reflexivity.
  - destruct (q_result q); [reflexivity|congruence].
  - destruct (q_return q); [|congruence]. cbn. rewrite andb_false_r. reflexivity.
Qed.

Lemma single_output : forall q, one_source q -> IsSingleOutput q = rt_single (out_type q).
Proof.
  intros q H. unfold IsSingleOutput, out_type. destruct H as [(A & B & C)|[(A & B & C)|(A & B & C)]]; rewrite A.
  - rewrite B, C. cbn. rewrite !orb_false_r. reflexivity.
  - destruct (q_result q); [|congruence]. rewrite C. cbn. rewrite orb_false_r. reflexivity.
  - rewrite B. destruct (q_return q); [reflexivity|congruence].
Qed.

(** *** A new record for each row *)
Definition new_each (q : qstate) : Prop :=
  ~ in_place q /\ rt_slice (out_type q) || rt_iter (out_type q) = true /\ IsSelectCountOrExists q = false.

Lemma new_var : forall q, new_each q -> outputVar q = GV.
Proof.
  intros q (N & S0 & _). unfold outputVar. rewrite (skip_false _ N), andb_false_r, S0. reflexivity.
Qed.

Lemma new_root : forall env q s, new_each q ->
  rseq env GV (map RInit (init_root q)) s = Next (so_v (Some (zero_rec (e_fields env))) s).
Proof.
  intros env q s (N & S0 & _). unfold init_root. rewrite (skip_false _ N), S0.
  rewrite <- negb_orb, S0. cbn. destruct (rt_ptr (out_type q)); reflexivity.
Qed.

Lemma scanned_zero : forall reads ds ts x, scanned reads ds (zero_rec ts) x -> decoded reads ds x.
Proof.
  intros reads ds ts x (A & B & C). split; [exact A|]. split; [exact B|]. intros p fn d G.
  destruct (C _ _ _ G) as [I|G2]; [left; exact I|]. exfalso. exact (zero_of_get _ _ _ _ G2).
Qed.

Lemma zero_rec_ready0 : forall ts, fits (RStruct false ts) (zero_rec ts).
Proof. intros. apply zero_rec_fits. Qed.

Lemma new_good : forall env q t s ds rest, new_each q -> shaped env t -> no_collision (ti_reads t) ->
  o_row s = inr ds -> List.length ds = List.length (ti_reads t) ->
  exists x s2, rseq env GV (map RInit (outputInit q t) ++ [RScan (outputArgs q t); makeErrorIfStmt q] ++ rest) s = rseq env GV rest s2
    /\ decoded (ti_reads t) ds x /\ o_v s2 = Some x /\ (forall g, o_q s2 g = o_q s g) /\ o_closed s2 = o_closed s.
Proof.
  intros env q t s ds rest NE (NN & RI & ND) NC RW LE.
  destruct (alloc_and_fill _ _ _ _ RI NC (zero_rec_ready0 _) ND LE) as (L & v & x & E1 & E2 & RD & F & SC).
  rewrite (outputInit_reads _ _ NN), (skip_false _ (proj1 NE)), E1, map_app, <- app_assoc, rseq_app.
  rewrite (new_root _ _ _ NE), rseq_app.
  set (s1 := so_v (Some (zero_rec (e_fields env))) s).
  assert (H1 : holds OVar s1 (zero_rec (e_fields env)) s1) by (apply holds_self; reflexivity).
  destruct (init_holds env GV OVar s1 L _ _ s1 eq_refl H1 E2) as (s2 & -> & H2).
  rewrite (outputArgs_reads _ _ (proj2 (proj2 NE))), (new_var _ NE).
  destruct (scan_good GV OVar s1 v s2 (ti_reads t) (e_fields env) ds x eq_refl H2 RD RW LE F) as (s3 & SG & H3).
  rewrite (scan_stmt_good _ _ _ _ _ _ _ SG).
  exists x, (so_err None s3). destruct H3 as [_ Q]. split; [reflexivity|]. split; [exact (scanned_zero _ _ _ _ SC)|].
  split; [exact (eq_v _ _ Q)|]. split; [exact (eq_q _ _ Q)|exact (eq_closed _ _ Q)].
Qed.

Lemma new_bad : forall env q t s e rest, new_each q -> shaped env t -> no_collision (ti_reads t) -> o_row s = inl e ->
  exists s2, rseq env GV (map RInit (outputInit q t) ++ [RScan (outputArgs q t); makeErrorIfStmt q] ++ rest) s = Done s2 (answer q (Some e))
    /\ (forall g, o_q s2 g = o_q s g) /\ o_closed s2 = o_closed s.
Proof.
  intros env q t s e rest NE (NN & RI & ND) NC RW.
  destruct (alloc_ok _ _ _ RI NC (zero_rec_ready0 (e_fields env))) as (L & v & E1 & E2 & _ & _ & RD & _).
  rewrite (outputInit_reads _ _ NN), (skip_false _ (proj1 NE)), E1, map_app, <- app_assoc, rseq_app.
  rewrite (new_root _ _ _ NE), rseq_app.
  set (s1 := so_v (Some (zero_rec (e_fields env))) s).
  assert (H1 : holds OVar s1 (zero_rec (e_fields env)) s1) by (apply holds_self; reflexivity).
  destruct (init_holds env GV OVar s1 L _ _ s1 eq_refl H1 E2) as (s2 & -> & H2).
  rewrite (outputArgs_reads _ _ (proj2 (proj2 NE))), (new_var _ NE).
  rewrite (scan_stmt_bad _ _ _ _ _ _ _ _ (scan_bad GV OVar s1 v s2 (ti_reads t) (e_fields env) e eq_refl H2 RD RW)).
  destruct H2 as [_ Q]. eexists. split; [reflexivity|]. split; [exact (eq_q _ _ Q)|exact (eq_closed _ _ Q)].
Qed.

(** AfterScan on the variable *)
Lemma after_var : forall env q t s x rest, ti_reads t <> [] -> o_v s = Some x ->
  exists s2, rseq env GV ((if outputIsAfterScanner q t then [RAfter GV] else []) ++ rest) s = rseq env GV rest s2
    /\ o_v s2 = Some (finish env q x) /\ (forall g, o_q s2 g = o_q s g) /\ o_closed s2 = o_closed s.
Proof.
  intros env q t s x rest NN V. unfold outputIsAfterScanner, finish. rewrite (has_out_reads _ _ NN). cbn [andb].
  destruct (rt_after (out_type q)).
  - cbn [app rseq]. cbn [rexec place read_root write_root]. rewrite V. eexists. split; [reflexivity|]. cbn. auto.
  - cbn [app]. exists s. auto.
Qed.

Lemma collect_loop : forall env q t f, f = out_field q -> new_each q -> rt_iter (out_type q) = false ->
  shaped env t -> no_collision (ti_reads t) ->
  forall tail good s l, Forall (fun ds => List.length ds = List.length (ti_reads t)) good -> o_q s f = OSlice l ->
  let body := map RInit (outputInit q t) ++ [RScan (outputArgs q t); makeErrorIfStmt q]
              ++ (if outputIsAfterScanner q t then [RAfter GV] else []) ++ [RAppend (outputRoot q)] in
  exists recs s', rloop env GV body (map inr good ++ tail) s = rloop env GV body tail s'
    /\ Forall2 (decoded (ti_reads t)) good recs
    /\ o_q s' f = OSlice (l ++ map (finish env q) recs) /\ (forall g, g <> f -> o_q s' g = o_q s g) /\ o_closed s' = o_closed s.
Proof.
  intros env q t f -> NE NI SH NC tail good. induction good as [|ds good IH]; intros s l LE Q body.
  - exists [], s. cbn. rewrite app_nil_r. split; [reflexivity|]. split; [constructor|]. auto.
  - apply Forall_cons_iff in LE. destruct LE as [L1 LE]. cbn [map app rloop].
    destruct (new_good env q t (so_row (inr ds) s) ds ((if outputIsAfterScanner q t then [RAfter GV] else []) ++ [RAppend (outputRoot q)]) NE SH NC eq_refl L1)
      as (x & s2 & E & D & V & QQ & CC).
    unfold body. rewrite E.
    destruct (after_var env q t s2 x [RAppend (outputRoot q)] (proj1 SH) V) as (s3 & -> & V3 & Q3 & C3).
    cbn [rseq rexec]. rewrite outputRoot_place, V3, Q3, QQ. cbn [so_row o_q]. rewrite Q.
    match goal with |- context [rloop _ _ _ _ (set_field ?a ?b ?c)] =>
      destruct (IH (set_field a b c) (l ++ [finish env q x]) LE (set_field_same _ _ _)) as (recs & s' & E2 & F2 & Q' & O' & C') end.
    exists (x :: recs), s'. split; [exact E2|]. split; [constructor; assumption|]. split.
    + rewrite Q', <- app_assoc. reflexivity.
    + split.
      * intros g N. rewrite (O' g N), set_field_other by exact N. rewrite Q3, QQ. reflexivity.
      * rewrite C'. cbn. rewrite C3, CC. reflexivity.
Qed.

Lemma query_head : forall env q t fs, one_source q -> rt_single (out_type q) = false -> e_call env = None ->
  run_result env q t fs = rseq env (outputVar q) (buildQueryResultRowsScan q t)
    (so_closed true (so_err None (so_row (e_row env) (MkO fs None 0 None 0%Z (inr []) false)))).
Proof.
  intros env q t fs OS SI C. unfold run_result, result_stmts. rewrite (with_output _ OS), (single_output _ OS), SI.
  cbn [app rseq]. cbn [rexec]. rewrite C. cbn [so_err makeErrorIfStmt o_err]. reflexivity.
Qed.

Lemma not_single_slice : forall t, rt_slice t = true -> rt_single t = false.
Proof. intros t H. unfold rt_single. rewrite H. reflexivity. Qed.

Lemma not_single_iter : forall t, rt_iter t = true -> rt_single t = false.
Proof. intros t H. unfold rt_single. rewrite H, andb_false_r. reflexivity. Qed.

Lemma not_to_input : forall q t, ~ in_place q -> outputToInput q t = false.
Proof.
  intros q t N. unfold outputToInput, IsInsertOrUpdateSlice.
  destruct (IsInsertOrUpdate q) eqn:A; [|cbn; rewrite andb_false_r; reflexivity].
  destruct (q_result q) eqn:B; cbn; [rewrite andb_false_r; reflexivity|].
  exfalso. apply N. split; assumption.
Qed.

Lemma C56_rows_collected_proof : forall env q t fs old good e,
  one_source q -> ~ in_place q -> IsSelectCountOrExists q = false ->
  rt_slice (out_type q) = true -> rt_iter (out_type q) = false ->
  shaped env t -> no_collision (ti_reads t) ->
  e_call env = None -> rows_are (e_rows env) (e_err env) good e ->
  Forall (fun ds => List.length ds = List.length (ti_reads t)) good ->
  fs (out_field q) = OSlice old ->
  exists recs s, run_result env q t fs = Done s (answer q e)
    /\ Forall2 (decoded (ti_reads t)) good recs
    /\ o_q s (out_field q) = OSlice (old ++ map (finish env q) recs)
    /\ (forall g, g <> out_field q -> o_q s g = fs g)
    /\ o_closed s = true.
Proof.
  intros env q t fs old good e OS NP NCE SL NI SH NC CE RA LE Q0.
  assert (NE : new_each q) by (split; [exact NP|]; split; [rewrite SL; reflexivity|exact NCE]).
  rewrite (query_head _ _ _ _ OS (not_single_slice _ SL) CE). unfold buildQueryResultRowsScan.
  rewrite (not_to_input q t NP), (new_var _ NE).
  replace (outputIsIter q t) with false by (unfold outputIsIter; rewrite NI, andb_false_r; reflexivity).
  cbn [app]. set (s0 := so_closed true _).
  change (RFor ?b :: ?r) with ([RFor b] ++ r). rewrite rseq_app. cbn [rseq]. rewrite rfor.
  destruct RA as [[-> ->]|(e0 & rest & -> & ->)].
  - destruct (collect_loop env q t _ eq_refl NE NI SH NC [] good s0 old LE Q0) as (recs & s' & E & D & Q & O & C).
    rewrite app_nil_r in E. cbn [app] in E |- *. rewrite E. cbn [rloop].
    destruct (ret_rows env GV q s') as (s2 & -> & Q2 & C2). exists recs, s2. split; [reflexivity|]. split; [exact D|].
    rewrite Q2, C2, C. split; [exact Q|]. split; [exact O|reflexivity].
  - destruct (collect_loop env q t _ eq_refl NE NI SH NC (inl e0 :: rest) good s0 old LE Q0) as (recs & s' & E & D & Q & O & C).
    cbn [app] in E |- *. rewrite E. cbn [rloop].
    destruct (new_bad env q t (so_row (inl e0) s') e0 ((if outputIsAfterScanner q t then [RAfter GV] else []) ++ [RAppend (outputRoot q)]) NE SH NC eq_refl)
      as (s2 & E2 & Q2 & C2). cbn [app] in E2. rewrite E2.
    exists recs, s2. split; [reflexivity|]. split; [exact D|]. rewrite Q2, C2. split; [exact Q|]. split.
    + intros g N. rewrite Q2. exact (O g N).
    + cbn. rewrite C. reflexivity.
Qed.

(** *** Iterators *)
Lemma iterate_loop : forall env q t f, f = out_field q -> new_each q -> rt_iter (out_type q) = true ->
  shaped env t -> no_collision (ti_reads t) ->
  forall tail good s l, Forall (fun ds => List.length ds = List.length (ti_reads t)) good -> o_q s f = OIter l ->
  let body := map RInit (outputInit q t) ++ [RScan (outputArgs q t); makeErrorIfStmt q]
              ++ (if outputIsAfterScanner q t then [RAfter GV] else [])
              ++ [RIter (outputRoot q) (rt_method (out_type q)) (makeErrorReturnStmt q EVar)] in
  exists recs s', Forall2 (decoded (ti_reads t)) good recs
    /\ o_q s' f = OIter (fst (iterate (e_iter env) l (map (finish env q) recs)))
    /\ (forall g, g <> f -> o_q s' g = o_q s g) /\ o_closed s' = o_closed s
    /\ rloop env GV body (map inr good ++ tail) s =
       match snd (iterate (e_iter env) l (map (finish env q) recs)) with
       | Some e => Done s' (answer q (Some e))
       | None => rloop env GV body tail s'
       end.
Proof.
  intros env q t f -> NE NI SH NC tail good. induction good as [|ds good IH]; intros s l LE Q body.
  - exists [], s. cbn. split; [constructor|]. auto.
  - apply Forall_cons_iff in LE. destruct LE as [L1 LE]. cbn [map app rloop].
    destruct (new_good env q t (so_row (inr ds) s) ds ((if outputIsAfterScanner q t then [RAfter GV] else []) ++ [RIter (outputRoot q) (rt_method (out_type q)) (makeErrorReturnStmt q EVar)]) NE SH NC eq_refl L1)
      as (x & s2 & E & D & V & QQ & CC).
    destruct (after_var env q t s2 x [RIter (outputRoot q) (rt_method (out_type q)) (makeErrorReturnStmt q EVar)] (proj1 SH) V) as (s3 & E3 & V3 & Q3 & C3).
    set (s4 := set_field (out_field q) (OIter (l ++ [finish env q x])) s3).
    destruct (IH s4 (l ++ [finish env q x]) LE (set_field_same _ _ _)) as (recs & s' & F2 & Q' & O' & C' & E').
    assert (STEP : rseq env GV body (so_row (inr ds) s) =
       match e_iter env l (finish env q x) with
       | Some y => Done (so_err (Some y) s4) (answer q (Some y))
       | None => Next s4
       end).
    { unfold body. rewrite E, E3. cbn [rseq rexec]. rewrite outputRoot_place, V3, Q3, QQ. cbn [so_row o_q]. rewrite Q.
      destruct (e_iter env l (finish env q x)) as [y|]; [|reflexivity].
      rewrite rexec_seq, <- (app_nil_r (makeErrorReturnStmt q EVar)), (ret_err env GV q _ y []); reflexivity. }
    destruct (e_iter env l (finish env q x)) as [y|] eqn:IT.
    + (* the records after this one are not looked at *)
      exists (x :: recs), (so_err (Some y) s4). cbn [map iterate]. rewrite IT. cbn [fst snd].
      split; [constructor; assumption|]. split; [exact (set_field_same _ _ _)|]. split.
      * intros g N. cbn [so_err o_q]. unfold s4. rewrite set_field_other by exact N. rewrite Q3, QQ. reflexivity.
      * split; [cbn; rewrite C3, CC; reflexivity|]. fold body. rewrite STEP. reflexivity.
    + exists (x :: recs), s'. cbn [map iterate]. rewrite IT.
      split; [constructor; assumption|]. split; [exact Q'|]. split.
      * intros g N. rewrite (O' g N). unfold s4. rewrite set_field_other by exact N. rewrite Q3, QQ. reflexivity.
      * split; [rewrite C'; cbn; rewrite C3, CC; reflexivity|]. fold body. rewrite STEP. exact E'.
Qed.

Lemma C57_rows_iterated_proof : forall env q t fs old good e,
  one_source q -> ~ in_place q -> IsSelectCountOrExists q = false -> rt_iter (out_type q) = true ->
  shaped env t -> no_collision (ti_reads t) ->
  e_call env = None -> rows_are (e_rows env) (e_err env) good e ->
  Forall (fun ds => List.length ds = List.length (ti_reads t)) good ->
  fs (out_field q) = OIter old ->
  exists recs seen stop s, Forall2 (decoded (ti_reads t)) good recs
    /\ iterate (e_iter env) old (map (finish env q) recs) = (seen, stop)
    /\ run_result env q t fs = Done s (answer q (match stop with Some _ => stop | None => e end))
    /\ o_q s (out_field q) = OIter seen
    /\ (forall g, g <> out_field q -> o_q s g = fs g)
    /\ o_closed s = true.
Proof.
  intros env q t fs old good e OS NP NCE IT SH NC CE RA LE Q0.
  assert (NE : new_each q) by (split; [exact NP|]; split; [rewrite IT; apply orb_true_r|exact NCE]).
  rewrite (query_head _ _ _ _ OS (not_single_iter _ IT) CE). unfold buildQueryResultRowsScan.
  rewrite (not_to_input q t NP), (new_var _ NE).
  replace (outputIsIter q t) with true by (unfold outputIsIter; rewrite IT, (has_out_reads _ _ (proj1 SH)); reflexivity).
  cbn [app]. set (s0 := so_closed true _).
  change (RFor ?b :: ?r) with ([RFor b] ++ r). rewrite rseq_app. cbn [rseq]. rewrite rfor.
  assert (TAIL : exists tail, e_rows env = map inr good ++ tail /\
     forall s' : ost, exists s2, match rloop env GV (map RInit (outputInit q t) ++ [RScan (outputArgs q t); makeErrorIfStmt q]
              ++ (if outputIsAfterScanner q t then [RAfter GV] else [])
              ++ [RIter (outputRoot q) (rt_method (out_type q)) (makeErrorReturnStmt q EVar)]) tail s' with Next s => rseq env GV (makeErrorReturnStmt q ERowsErr) s | o => o end
        = Done s2 (answer q e) /\ (forall g, o_q s2 g = o_q s' g) /\ o_closed s2 = o_closed s').
  { destruct RA as [[-> ->]|(e0 & rest & -> & ->)].
    - exists []. rewrite app_nil_r. split; [reflexivity|]. intros s'. cbn [rloop].
      destruct (ret_rows env GV q s') as (s2 & E & Q2 & C2). exists s2. rewrite Q2, C2. auto.
    - exists (inl e0 :: rest). split; [reflexivity|]. intros s'. cbn [rloop].
      destruct (new_bad env q t (so_row (inl e0) s') e0 ((if outputIsAfterScanner q t then [RAfter GV] else []) ++ [RIter (outputRoot q) (rt_method (out_type q)) (makeErrorReturnStmt q EVar)]) NE SH NC eq_refl)
        as (s2 & E2 & Q2 & C2). rewrite E2. exists s2. auto. }
  destruct TAIL as (tail & -> & TAIL).
  destruct (iterate_loop env q t _ eq_refl NE IT SH NC tail good s0 old LE Q0) as (recs & s' & D & Q & O & C & E).
  cbn [app] in E, TAIL |- *. rewrite E. clear E.
  destruct (iterate (e_iter env) old (map (finish env q) recs)) as [seen stop] eqn:I. cbn [fst snd] in *.
  exists recs, seen, stop. destruct stop as [y|].
  - exists s'. split; [exact D|]. split; [exact I|]. split; [reflexivity|]. split; [exact Q|]. split; [exact O|].
    rewrite C. reflexivity.
  - destruct (TAIL s') as (s2 & E & Q2 & C2). exists s2. split; [exact D|]. split; [exact I|].
    split; [etransitivity; [|exact E]; match goal with |- context [rloop ?a ?b ?c ?d ?e] => destruct (rloop a b c d e) end; reflexivity|].
    split; [rewrite Q2; exact Q|]. split; [intros g N; rewrite Q2; exact (O g N)|]. rewrite C2, C. reflexivity.
Qed.

(** *** Rows returned for the records given *)
Lemma place_elem : forall q, place (GIdx (outputRoot q) VI) = Some (OElem (out_field q), []).
Proof. intros q. unfold outputRoot, out_field. destruct (q_result q); reflexivity. Qed.

Lemma out_type_in_place : forall q, in_place q -> out_type q = q_rtype q.
Proof. intros q [_ N]. unfold out_type. rewrite N. reflexivity. Qed.

Lemma not_count_in_place : forall q, in_place q -> IsSelectCountOrExists q = false.
Proof.
  intros q [I _]. unfold IsInsertOrUpdate in I. unfold IsSelectCountOrExists. destruct (q_kind q); cbn in *; try reflexivity; discriminate.
Qed.

Definition elem_body (q : qstate) (t : tinfo) : list rstmt :=
  [RScan (outputArgs q t); makeErrorIfStmt q]
  ++ (if outputIsAfterScanner q t then [RAfter (outputVar q)] else []) ++ [RIncr].

Lemma elem_good : forall env q t s ds l v, in_place q -> rt_slice (out_type q) = true -> shaped env t ->
  o_row s = inr ds -> List.length ds = List.length (ti_reads t) ->
  o_q s (out_field q) = OSlice l -> nth_error l (o_i s) = Some v -> ready (e_fields env) (ti_reads t) v ->
  exists x s2, rseq env (outputVar q) (elem_body q t) s = Next s2
    /\ updated (e_fields env) (ti_reads t) ds v x
    /\ o_q s2 (out_field q) = OSlice (set_nth (o_i s) (finish env q x) l)
    /\ (forall g, g <> out_field q -> o_q s2 g = o_q s g) /\ o_i s2 = S (o_i s) /\ o_closed s2 = o_closed s.
Proof.
  intros env q t s ds l v IP SL (NN & RI & ND) RW LE Q NV RD.
  set (rt := OElem (out_field q)).
  assert (OV : outputVar q = GIdx (outputRoot q) VI).
  { unfold outputVar. rewrite SL, (proj2 (skip_in_place q) IP). reflexivity. }
  assert (R0 : read_root s rt = Some v) by (cbn; rewrite Q; exact NV).
  destruct (fill_ok _ _ ds _ RI ND RD LE) as (x & F1 & _ & F3 & F4 & _).
  destruct (scan_good (outputVar q) rt s v s (ti_reads t) (e_fields env) ds x) as (s2 & SG & H2); auto.
  { rewrite OV. apply place_elem. }
  { apply holds_self. exact R0. }
  unfold elem_body. rewrite (outputArgs_reads _ _ (not_count_in_place _ IP)), (scan_stmt_good _ _ _ _ _ _ _ SG).
  set (s3 := so_err None s2).
  assert (H3 : holds rt (so_err None s) x s3).
  { destruct H2 as [_ [A1 A2 A3 A4 A5 A6 A7]]. split; [exists v; exact R0|]. unfold rt, write_root in *. cbn [so_err o_q] in *. rewrite Q in *.
    constructor; cbn in *; auto. }
  assert (AFTER : exists s4, rseq env (outputVar q) ((if outputIsAfterScanner q t then [RAfter (outputVar q)] else []) ++ [RIncr]) s3
     = Next (so_i (S (o_i s4)) s4) /\ holds rt (so_err None s) (finish env q x) s4).
  { unfold outputIsAfterScanner, finish. rewrite (has_out_reads _ _ NN). cbn [andb]. destruct (rt_after (out_type q)).
    - cbn [app rseq]. change (rexec env (outputVar q) (RAfter (outputVar q)) s3) with
        (match place (outputVar q) with Some (r, _) => match read_root s3 r with Some v => Next (write_root r (e_after env v) s3) | None => Crash end | None => Crash end).
      rewrite OV, place_elem. fold rt. rewrite (holds_read _ _ _ _ H3). eexists. split; [reflexivity|]. eapply holds_write; exact H3.
    - eexists. split; [reflexivity|exact H3]. }
  destruct AFTER as (s4 & -> & [_ H4]). exists x. eexists. split; [reflexivity|].
  split; [split; [exact LE|]; split; [exact F3|exact F4]|].
  unfold rt, write_root in H4. cbn [so_err o_q] in H4. rewrite Q in H4. destruct H4 as [A1 A2 A3 A4 A5 A6 A7].
  cbn [so_i o_q o_i o_closed]. rewrite A3. split; [|split; [|split]].
  - rewrite A1. apply set_field_same.
  - intros g N. rewrite A1. rewrite set_field_other by exact N. reflexivity.
  - reflexivity.
  - exact A7.
Qed.

Lemma elem_bad : forall env q t s e l v, in_place q -> rt_slice (out_type q) = true ->
  o_row s = inl e -> o_q s (out_field q) = OSlice l -> nth_error l (o_i s) = Some v ->
  ready (e_fields env) (ti_reads t) v ->
  rseq env (outputVar q) (elem_body q t) s = Done (so_err (Some e) s) (answer q (Some e)).
Proof.
  intros env q t s e l v IP SL RW Q NV RD.
  assert (OV : outputVar q = GIdx (outputRoot q) VI).
  { unfold outputVar. rewrite SL, (proj2 (skip_in_place q) IP). reflexivity. }
  assert (R0 : read_root s (OElem (out_field q)) = Some v) by (cbn; rewrite Q; exact NV).
  assert (PL : place (outputVar q) = Some (OElem (out_field q), [])) by (rewrite OV; apply place_elem).
  unfold elem_body. rewrite (outputArgs_reads _ _ (not_count_in_place _ IP)).
  rewrite (scan_stmt_bad _ _ _ _ _ _ _ _ (scan_bad (outputVar q) (OElem (out_field q)) s v s (ti_reads t) (e_fields env) e
     PL (holds_self _ _ _ R0) RD RW)).
  reflexivity.
Qed.

(** Beyond the last record. *)
Lemma elem_crash : forall env q t s l, in_place q -> rt_slice (out_type q) = true -> ti_reads t <> [] ->
  o_q s (out_field q) = OSlice l -> nth_error l (o_i s) = None ->
  rseq env (outputVar q) (elem_body q t) s = Crash.
Proof.
  intros env q t s l IP SL NN Q NV.
  assert (OV : outputVar q = GIdx (outputRoot q) VI).
  { unfold outputVar. rewrite SL, (proj2 (skip_in_place q) IP). reflexivity. }
  assert (PL : place (outputVar q) = Some (OElem (out_field q), [])) by (rewrite OV; apply place_elem).
  unfold elem_body. rewrite (outputArgs_reads _ _ (not_count_in_place _ IP)). cbn [app rseq]. cbn [rexec].
  unfold scan. destruct (ti_reads t) as [|r rs]; [congruence|]. cbn [map forallb]. unfold addressable at 1.
  rewrite (dest_arg _ (OElem (out_field q)) _ PL).
  unfold store. cbn [read_root]. rewrite Q, NV. reflexivity.
Qed.

(** The first records of [l], each with its row. *)
Definition rows_stored (env : oenv) (t : tinfo) (good : list (list nat)) (l recs : list rv) : Prop :=
  Forall2 (fun p x => updated (e_fields env) (ti_reads t) (fst p) (snd p) x) (combine good l) recs.

Lemma set_nth_app : forall A n (a b : list A) x, List.length a = n -> set_nth n x (a ++ b) = a ++ set_nth 0 x b.
Proof. intros A n a b x <-. induction a as [|y a IH]; cbn; [reflexivity|]. rewrite IH. reflexivity. Qed.

Lemma nth_app0 : forall A n (a b : list A), List.length a = n -> nth_error (a ++ b) n = nth_error b 0.
Proof. intros A n a b <-. induction a as [|y a IH]; cbn; [reflexivity|]. exact IH. Qed.

Lemma elem_loop : forall env q t, in_place q -> rt_slice (out_type q) = true -> shaped env t ->
  forall tail good s done l, Forall (fun ds => List.length ds = List.length (ti_reads t)) good ->
  o_q s (out_field q) = OSlice (done ++ l) -> o_i s = List.length done -> Forall (ready (e_fields env) (ti_reads t)) l ->
  List.length good <= List.length l ->
  exists recs s', rloop env (outputVar q) (elem_body q t) (map inr good ++ tail) s = rloop env (outputVar q) (elem_body q t) tail s'
    /\ rows_stored env t good l recs
    /\ o_q s' (out_field q) = OSlice (done ++ map (finish env q) recs ++ skipn (List.length good) l)
    /\ o_i s' = List.length done + List.length good
    /\ (forall g, g <> out_field q -> o_q s' g = o_q s g) /\ o_closed s' = o_closed s.
Proof.
  intros env q t IP SL SH tail good. induction good as [|ds good IH]; intros s done l LE Q I RD LL.
  - exists [], s. cbn. split; [reflexivity|]. split; [constructor|]. rewrite Nat.add_0_r. auto.
  - apply Forall_cons_iff in LE. destruct LE as [L1 LE]. destruct l as [|v l]; [cbn in LL; lia|].
    apply Forall_cons_iff in RD. destruct RD as [R1 RD]. cbn [map app rloop].
    destruct (elem_good env q t (so_row (inr ds) s) ds (done ++ v :: l) v IP SL SH eq_refl L1 Q) as (x & s2 & -> & U & Q2 & O2 & I2 & C2).
    { cbn [so_row o_i]. rewrite (nth_app0 _ _ done (v :: l)); [reflexivity|]. symmetry. exact I. }
    { exact R1. }
    cbn [so_row o_i o_q o_closed] in Q2, I2, O2, C2. rewrite (set_nth_app _ _ done) in Q2 by (symmetry; exact I). cbn [set_nth] in Q2.
    change (finish env q x :: l) with ([finish env q x] ++ l) in Q2. rewrite app_assoc in Q2.
    destruct (IH s2 (done ++ [finish env q x]) l LE Q2) as (recs & s' & E & F & Q' & I' & O' & C').
    { rewrite I2, app_length. cbn. lia. }
    { exact RD. }
    { cbn in LL. lia. }
    exists (x :: recs), s'. split; [exact E|]. split; [constructor; [exact U|exact F]|]. split.
    + rewrite Q', <- app_assoc. reflexivity.
    + split; [rewrite I', app_length; cbn; lia|]. split; [intros g N; rewrite (O' g N); exact (O2 g N)|].
      rewrite C'. exact C2.
Qed.

Lemma in_place_head : forall env q t fs, one_source q -> in_place q -> rt_slice (out_type q) = true ->
  rt_iter (out_type q) = false -> ti_reads t <> [] -> e_call env = None ->
  exists s0, o_q s0 = fs /\ o_i s0 = 0 /\ o_closed s0 = true /\
  run_result env q t fs = match rloop env (outputVar q) (elem_body q t) (e_rows env) s0 with
                          | Next s => rseq env (outputVar q) (makeErrorReturnStmt q ERowsErr) s
                          | o => o
                          end.
Proof.
  intros env q t fs OS IP SL NI NN CE.
  rewrite (query_head _ _ _ _ OS (not_single_slice _ SL) CE). unfold buildQueryResultRowsScan.
  replace (outputIsIter q t) with false by (unfold outputIsIter; rewrite NI, andb_false_r; reflexivity).
  replace (outputToInput q t) with true.
  2:{ unfold outputToInput, IsInsertOrUpdateSlice. rewrite (has_out_reads _ _ NN), <- (out_type_in_place _ IP), SL. destruct IP as [-> ->]. reflexivity. }
  rewrite (outputInit_reads _ _ NN). unfold init_root. rewrite (proj2 (skip_in_place q) IP). cbn [app map].
  match goal with |- context [rseq _ _ (RZero :: _) ?s] => exists (so_i 0 s) end.
  split; [reflexivity|]. split; [reflexivity|]. split; [reflexivity|].
  cbn [rseq]. change (rexec env (outputVar q) RZero ?s) with (Next (so_i 0 s)). cbn iota. rewrite rfor.
  match goal with |- context [rloop env (outputVar q) ?b _ _] => change b with (elem_body q t) end.
  destruct (rloop env (outputVar q) (elem_body q t) (e_rows env) _); reflexivity.
Qed.

Lemma C58_rows_returned_proof : forall env q t fs l good e,
  one_source q -> in_place q -> rt_slice (out_type q) = true -> rt_iter (out_type q) = false ->
  shaped env t -> e_call env = None -> rows_are (e_rows env) (e_err env) good e ->
  Forall (fun ds => List.length ds = List.length (ti_reads t)) good ->
  fs (out_field q) = OSlice l -> Forall (ready (e_fields env) (ti_reads t)) l ->
  List.length (e_rows env) <= List.length l ->
  exists recs s, run_result env q t fs = Done s (answer q e)
    /\ rows_stored env t good l recs
    /\ o_q s (out_field q) = OSlice (map (finish env q) recs ++ skipn (List.length good) l)
    /\ (forall g, g <> out_field q -> o_q s g = fs g)
    /\ o_closed s = true.
Proof.
  intros env q t fs l good e OS IP SL NI SH CE RA LE Q0 RD LL.
  destruct (in_place_head env q t fs OS IP SL NI (proj1 SH) CE) as (s0 & A1 & A2 & A3 & ->).
  assert (Q1 : o_q s0 (out_field q) = OSlice ([] ++ l)) by (rewrite A1; exact Q0).
  destruct RA as [[ER ->]|(e0 & rest & ER & ->)]; rewrite ER in LL |- *.
  - rewrite map_length in LL.
    destruct (elem_loop env q t IP SL SH [] good s0 [] l LE Q1 A2 RD LL) as (recs & s' & E & F & Q & I & O & C).
    rewrite app_nil_r in E. rewrite E. cbn [rloop]. destruct (ret_rows env (outputVar q) q s') as (s2 & -> & Q2 & C2).
    exists recs, s2. split; [reflexivity|]. split; [exact F|]. rewrite Q2, C2, C. split; [exact Q|].
    split; [intros g N; rewrite (O g N), A1; reflexivity|exact A3].
  - rewrite app_length, map_length in LL. cbn in LL.
    destruct (elem_loop env q t IP SL SH (inl e0 :: rest) good s0 [] l LE Q1 A2 RD ltac:(lia)) as (recs & s' & E & F & Q & I & O & C).
    rewrite E. cbn [rloop]. cbn [app] in Q.
    assert (LR : List.length recs = List.length good).
    { rewrite <- (forall2_length _ _ _ _ _ F), combine_length. lia. }
    destruct (skipn (List.length good) l) as [|v l'] eqn:SK.
    { exfalso. pose proof (skipn_length (List.length good) l) as HL. rewrite SK in HL. cbn in HL. lia. }
    assert (RV : ready (e_fields env) (ti_reads t) v).
    { rewrite Forall_forall in RD. apply RD. rewrite <- (firstn_skipn (List.length good) l), SK. apply in_or_app. right. left. reflexivity. }
    assert (NV : nth_error (map (finish env q) recs ++ v :: l') (o_i (so_row (inl e0) s')) = Some v).
    { cbn [so_row o_i]. rewrite I. cbn [List.length]. rewrite (nth_app0 _ _ (map (finish env q) recs)); [reflexivity|]. rewrite map_length. lia. }
    rewrite (elem_bad env q t (so_row (inl e0) s') e0 _ v IP SL eq_refl Q NV RV).
    exists recs. eexists. split; [reflexivity|]. split; [exact F|]. cbn [so_err so_row o_q o_closed]. split; [exact Q|].
    split; [intros g N; rewrite (O g N), A1; reflexivity|]. rewrite C. exact A3.
Qed.

Lemma C58_too_many_rows_proof : forall env q t fs l good rest,
  one_source q -> in_place q -> rt_slice (out_type q) = true -> rt_iter (out_type q) = false ->
  shaped env t -> e_call env = None -> e_rows env = map inr good ++ rest ->
  Forall (fun ds => List.length ds = List.length (ti_reads t)) good ->
  fs (out_field q) = OSlice l -> Forall (ready (e_fields env) (ti_reads t)) l ->
  List.length good = List.length l -> rest <> [] ->
  run_result env q t fs = Crash.
Proof.
  intros env q t fs l good rest OS IP SL NI SH CE ER LE Q0 RD LL NR.
  destruct (in_place_head env q t fs OS IP SL NI (proj1 SH) CE) as (s0 & A1 & A2 & A3 & ->).
  assert (Q1 : o_q s0 (out_field q) = OSlice ([] ++ l)) by (rewrite A1; exact Q0).
  rewrite ER.
  destruct (elem_loop env q t IP SL SH rest good s0 [] l LE Q1 A2 RD ltac:(lia)) as (recs & s' & E & F & Q & I & O & C).
  rewrite E. destruct rest as [|r rest]; [congruence|]. cbn [rloop]. cbn [app] in Q.
  rewrite (elem_crash env q t (so_row r s') _ IP SL (proj1 SH) Q); [reflexivity|].
  cbn [so_row o_i]. rewrite I. apply nth_error_None. rewrite app_length, map_length, skipn_length.
  rewrite <- (forall2_length _ _ _ _ _ F), combine_length. cbn. lia.
Qed.

(** *** One row *)
Lemma single_var : forall q, rt_single (out_type q) = true -> outputVar q = outputRoot q.
Proof.
  intros q H. unfold rt_single in H. apply andb_true_iff in H. destruct H as [H _]. apply andb_true_iff in H. destruct H as [A B].
  apply negb_true_iff in A, B. unfold outputVar. rewrite A, B. reflexivity.
Qed.

Lemma single_head : forall env q t fs, one_source q -> rt_single (out_type q) = true ->
  run_result env q t fs = rseq env (outputRoot q) (buildQueryResultRowScan q t)
    (so_err (e_call env) (so_row (e_row env) (MkO fs None 0 None 0%Z (inr []) false))).
Proof.
  intros env q t fs OS SI. unfold run_result, result_stmts. rewrite (with_output _ OS), (single_output _ OS), SI, (single_var _ SI).
  reflexivity.
Qed.

(** Scan and what follows it, for one row. *)
Definition scan_tail (q : qstate) (t : tinfo) : list rstmt :=
  if negb (outputIsAfterScanner q t) && HasNoErrorInfoHandler q
  then makeErrorReturnStmt q (EScan (outputArgs q t))
  else [RScan (outputArgs q t); makeErrorIfStmt q]
       ++ (if outputIsAfterScanner q t then [RAfter (outputVar q)] else [])
       ++ [RReturn None].

Lemma tail_good : forall env q t s v s1 ds x, rt_single (out_type q) = true -> IsSelectCountOrExists q = false ->
  ti_reads t <> [] -> holds (OField (out_field q)) s v s1 -> ready (e_fields env) (ti_reads t) v ->
  o_row s = inr ds -> List.length ds = List.length (ti_reads t) -> fill (ti_reads t) ds v = Some x ->
  exists s2, rseq env (outputRoot q) (scan_tail q t) s1 = Done s2 (if rt_after (out_type q) then RetErr None else answer q None)
    /\ o_q s2 (out_field q) = ORec (finish env q x) /\ (forall g, g <> out_field q -> o_q s2 g = o_q s g).
Proof.
  intros env q t s v s1 ds x SI NCE NN H RD RW LE F.
  destruct (scan_good (outputRoot q) _ s v s1 (ti_reads t) (e_fields env) ds x (outputRoot_place q) H RD RW LE F) as (s2 & SG & H2).
  unfold scan_tail. rewrite (outputArgs_reads _ _ NCE), (single_var _ SI). unfold outputIsAfterScanner, finish.
  rewrite (has_out_reads _ _ NN). cbn [andb].
  assert (GET : forall y s3, holds (OField (out_field q)) s y s3 -> o_q s3 (out_field q) = ORec y /\ forall g, g <> out_field q -> o_q s3 g = o_q s g).
  { intros y s3 [_ E]. split.
    - rewrite (eq_q _ _ E). apply set_field_same.
    - intros g N. rewrite (eq_q _ _ E). apply set_field_other. exact N. }
  destruct (rt_after (out_type q)).
  - cbn [negb andb]. rewrite (scan_stmt_good _ _ _ _ _ _ _ SG). cbn [app rseq].
    change (rexec env (outputRoot q) (RAfter (outputRoot q)) ?z) with
        (match place (outputRoot q) with Some (r, _) => match read_root z r with Some v => Next (write_root r (e_after env v) z) | None => Crash end | None => Crash end).
    rewrite outputRoot_place. change (read_root (so_err None s2) (OField (out_field q))) with (read_root s2 (OField (out_field q))).
    rewrite (holds_read _ _ _ _ H2). eexists. split; [reflexivity|].
    destruct (GET _ _ (holds_write _ _ _ (e_after env x) _ H2)) as [G1 G2]. split; [exact G1|exact G2].
  - cbn [negb andb]. destruct (GET _ _ H2) as [G1 G2]. unfold HasNoErrorInfoHandler, answer, makeErrorReturnStmt.
    destruct (q_errh q) as [h|] eqn:EH; [destruct (eh_info h) eqn:HI|]; cbn [negb].
    + rewrite (scan_stmt_good _ _ _ _ _ _ _ SG). cbn. eexists. split; [reflexivity|]. cbn. auto.
    + cbn [rseq rexec eval_err]. rewrite SG. eauto.
    + cbn [rseq rexec eval_err]. rewrite SG. eauto.
Qed.

Lemma tail_bad : forall env q t s v s1 e, rt_single (out_type q) = true -> IsSelectCountOrExists q = false ->
  holds (OField (out_field q)) s v s1 -> ready (e_fields env) (ti_reads t) v -> o_row s = inl e ->
  exists s2, rseq env (outputRoot q) (scan_tail q t) s1 = Done s2 (answer q (Some e))
    /\ forall g, o_q s2 g = o_q s1 g.
Proof.
  intros env q t s v s1 e SI NCE H RD RW.
  pose proof (scan_bad (outputRoot q) _ s v s1 (ti_reads t) (e_fields env) e (outputRoot_place q) H RD RW) as SB.
  unfold scan_tail. rewrite (outputArgs_reads _ _ NCE).
  destruct (negb (outputIsAfterScanner q t) && HasNoErrorInfoHandler q) eqn:C.
  - apply andb_true_iff in C. destruct C as [_ C]. unfold HasNoErrorInfoHandler in C. rewrite (single_var _ SI). unfold makeErrorReturnStmt, answer.
    destruct (q_errh q) as [h|]; [apply negb_true_iff in C; rewrite C|]; cbn [rseq rexec eval_err]; rewrite SB; eauto.
  - rewrite (single_var _ SI), (scan_stmt_bad _ _ _ _ _ _ _ _ SB). eexists. split; [reflexivity|]. reflexivity.
Qed.

Lemma single_root : forall env q s old, rt_single (out_type q) = true -> ~ in_place q ->
  o_q s (out_field q) = ORec old -> rt_ptr (out_type q) = true \/ fits (RStruct false (e_fields env)) old ->
  exists s1 v0, rseq env (outputRoot q) (map RInit (init_root q)) s = Next s1
    /\ v0 = (if rt_ptr (out_type q) then zero_rec (e_fields env) else old) /\ fits (RStruct false (e_fields env)) v0
    /\ read_root s1 (OField (out_field q)) = Some v0 /\ o_row s1 = o_row s
    /\ (forall g, g <> out_field q -> o_q s1 g = o_q s g).
Proof.
  intros env q s old SI NP Q D. unfold init_root. rewrite (skip_false _ NP).
  unfold rt_single in SI. apply andb_true_iff in SI. destruct SI as [H _]. apply andb_true_iff in H. destruct H as [A B].
  rewrite A, B. apply negb_true_iff in A, B. rewrite A, B. cbn [andb orb].
  destruct (rt_ptr (out_type q)).
  - cbn [map rseq rexec exec_init]. rewrite outputRoot_place. eexists. eexists. split; [reflexivity|]. split; [reflexivity|].
    split; [apply zero_rec_fits|]. cbn [read_root write_root]. rewrite set_field_same. split; [reflexivity|]. split; [reflexivity|].
    intros g N. apply set_field_other. exact N.
  - cbn [map rseq]. exists s, old. split; [reflexivity|]. split; [reflexivity|]. split; [destruct D; [discriminate|assumption]|].
    cbn [read_root]. rewrite Q. auto.
Qed.

Lemma C59_row_scanned_proof : forall env q t fs old ds,
  one_source q -> ~ in_place q -> IsSelectCountOrExists q = false -> rt_single (out_type q) = true ->
  shaped env t -> no_collision (ti_reads t) ->
  e_row env = inr ds -> List.length ds = List.length (ti_reads t) ->
  fs (out_field q) = ORec old -> rt_ptr (out_type q) = true \/ fits (RStruct false (e_fields env)) old ->
  exists x s, run_result env q t fs = Done s (if rt_after (out_type q) then RetErr None else answer q None)
    /\ scanned (ti_reads t) ds (if rt_ptr (out_type q) then VNil else old) x
    /\ o_q s (out_field q) = ORec (finish env q x)
    /\ (forall g, g <> out_field q -> o_q s g = fs g).
Proof.
  intros env q t fs old ds OS NP NCE SI (NN & RI & ND) NC RW LE Q D.
  rewrite (single_head _ _ _ _ OS SI). unfold buildQueryResultRowScan. fold (scan_tail q t).
  rewrite (outputInit_reads _ _ NN), (skip_false _ NP), map_app, <- app_assoc, rseq_app.
  set (s0 := so_err _ _).
  destruct (single_root env q s0 old SI NP Q D) as (s1 & v0 & -> & V0 & FT & R1 & W1 & O1).
  destruct (alloc_and_fill _ _ _ _ RI NC FT ND LE) as (L & v & x & E1 & E2 & RD & F & SC).
  rewrite E1, rseq_app.
  destruct (init_holds env (outputRoot q) _ s1 L _ _ s1 (outputRoot_place q) (holds_self _ _ _ R1) E2) as (s2 & -> & H2).
  assert (RW1 : o_row s1 = inr ds) by (rewrite W1; exact RW).
  destruct (tail_good env q t s1 v s2 ds x SI NCE NN H2 RD RW1 LE F) as (s3 & E3 & Q3 & O3).
  exists x, s3. split; [exact E3|]. split.
  - destruct (rt_ptr (out_type q)); subst v0; [exact (scanned_zero _ _ _ _ SC)|exact SC].
  - split; [exact Q3|]. intros g N. rewrite (O3 g N). exact (O1 g N).
Qed.

Lemma C59_row_returned_proof : forall env q t fs old ds,
  one_source q -> in_place q -> rt_single (out_type q) = true -> shaped env t ->
  e_row env = inr ds -> List.length ds = List.length (ti_reads t) ->
  fs (out_field q) = ORec old -> ready (e_fields env) (ti_reads t) old ->
  exists x s, run_result env q t fs = Done s (if rt_after (out_type q) then RetErr None else answer q None)
    /\ updated (e_fields env) (ti_reads t) ds old x
    /\ o_q s (out_field q) = ORec (finish env q x)
    /\ (forall g, g <> out_field q -> o_q s g = fs g).
Proof.
  intros env q t fs old ds OS IP SI (NN & RI & ND) RW LE Q RD.
  rewrite (single_head _ _ _ _ OS SI). unfold buildQueryResultRowScan. fold (scan_tail q t).
  rewrite (outputInit_reads _ _ NN). unfold init_root. rewrite (proj2 (skip_in_place q) IP). cbn [app map].
  set (s0 := so_err _ _).
  assert (R0 : read_root s0 (OField (out_field q)) = Some old) by (cbn; rewrite Q; reflexivity).
  destruct (fill_ok _ _ ds _ RI ND RD LE) as (x & F1 & _ & F3 & F4 & _).
  destruct (tail_good env q t s0 old s0 ds x SI (not_count_in_place _ IP) NN (holds_self _ _ _ R0) RD RW LE F1) as (s3 & E3 & Q3 & O3).
  exists x, s3. split; [exact E3|]. split; [split; [exact LE|]; split; [exact F3|exact F4]|]. split; [exact Q3|exact O3].
Qed.

Lemma C59_no_row_proof : forall env q t fs old e,
  one_source q -> ~ in_place q -> IsSelectCountOrExists q = false -> rt_single (out_type q) = true ->
  shaped env t -> no_collision (ti_reads t) -> e_row env = inl e ->
  fs (out_field q) = ORec old -> rt_ptr (out_type q) = true \/ fits (RStruct false (e_fields env)) old ->
  exists s, run_result env q t fs = Done s (answer q (Some e))
    /\ (forall g, g <> out_field q -> o_q s g = fs g).
Proof.
  intros env q t fs old e OS NP NCE SI (NN & RI & ND) NC RW Q D.
  rewrite (single_head _ _ _ _ OS SI). unfold buildQueryResultRowScan. fold (scan_tail q t).
  rewrite (outputInit_reads _ _ NN), (skip_false _ NP), map_app, <- app_assoc, rseq_app.
  set (s0 := so_err _ _).
  destruct (single_root env q s0 old SI NP Q D) as (s1 & v0 & -> & V0 & FT & R1 & W1 & O1).
  destruct (alloc_ok _ _ _ RI NC FT) as (L & v & E1 & E2 & _ & _ & RD & _).
  rewrite E1, rseq_app.
  destruct (init_holds env (outputRoot q) _ s1 L _ _ s1 (outputRoot_place q) (holds_self _ _ _ R1) E2) as (s2 & -> & H2).
  assert (RW1 : o_row s1 = inl e) by (rewrite W1; exact RW).
  destruct (tail_bad env q t s1 v s2 e SI NCE H2 RD RW1) as (s3 & E3 & O3).
  exists s3. split; [exact E3|]. intros g N. rewrite O3. destruct H2 as [_ H2]. rewrite (eq_q _ _ H2).
  cbn [write_root]. rewrite set_field_other by exact N. exact (O1 g N).
Qed.

Lemma C59_count_proof : forall env q t fs old d,
  one_source q -> IsSelectCountOrExists q = true -> rt_single (out_type q) = true -> rt_ptr (out_type q) = false ->
  rt_after (out_type q) = false -> ti_reads t = [] -> e_row env = inr [d] -> fs (out_field q) = ORec old ->
  exists s, run_result env q t fs = Done s (answer q None)
    /\ o_q s (out_field q) = ORec (VGot [] d) /\ (forall g, g <> out_field q -> o_q s g = fs g).
Proof.
  intros env q t fs old d OS CE SI NP NA RE RW Q.
  rewrite (single_head _ _ _ _ OS SI). unfold buildQueryResultRowScan.
  assert (IR : init_root q = []).
  { unfold init_root. rewrite NP, !andb_false_r. unfold rt_single in SI. apply andb_true_iff in SI. destruct SI as [H _].
    apply andb_true_iff in H. destruct H as [A B]. apply negb_true_iff in A, B. rewrite A, B. destruct (canSkipRelInit q); reflexivity. }
  unfold outputInit. rewrite RE, CE, IR. cbn [map app].
  unfold outputIsAfterScanner. rewrite NA, andb_false_r. cbn [negb andb].
  unfold outputArgs. rewrite CE. set (s0 := so_err _ _).
  assert (SC : exists s2, scan [GAddr (outputRoot q)] s0 = Some (s2, None) /\ o_q s2 (out_field q) = ORec (VGot [] d)
     /\ forall g, g <> out_field q -> o_q s2 g = fs g).
  { assert (DE : dest (GAddr (outputRoot q)) = Some ([], (OField (out_field q), []))).
    { cbn [dest]. rewrite outputRoot_place. reflexivity. }
    assert (RR : read_root s0 (OField (out_field q)) = Some old) by (cbn; rewrite Q; reflexivity).
    assert (ST : forall y, store (OField (out_field q)) [] y s0 = Some (write_root (OField (out_field q)) y s0)).
    { intros y. unfold store. rewrite RR. reflexivity. }
    unfold scan. cbn [forallb]. unfold addressable. rewrite DE, ST. cbn [is_some andb].
    change (o_row s0) with (e_row env). rewrite RW. cbn [List.length Nat.eqb write_all]. rewrite DE, ST. cbn [option_map].
    eexists. split; [reflexivity|]. cbn [write_root]. split; [apply set_field_same|]. intros g N. apply set_field_other. exact N. }
  destruct SC as (s2 & SG & Q2 & O2). unfold HasNoErrorInfoHandler, makeErrorReturnStmt, answer.
  destruct (q_errh q) as [h|]; [destruct (eh_info h)|]; cbn [negb].
  - cbn [app rseq]. cbn [rexec]. rewrite SG. cbn. eexists. split; [reflexivity|]. cbn. auto.
  - cbn [rseq rexec eval_err]. rewrite SG. eauto.
  - cbn [rseq rexec eval_err]. rewrite SG. eauto.
Qed.

Lemma C60_rows_affected_proof : forall env q t fs r n,
  IsWithoutOutput q = true -> q_rows q = Some r -> e_call env = None -> e_count env = inr n ->
  exists s, run_result env q t fs = Done s (RetErr None)
    /\ o_q s (ra_name r) = ONum (conv_int (ra_kind r) n)
    /\ (forall g, g <> ra_name r -> o_q s g = fs g).
Proof.
  intros env q t fs r n WO R CE CO. unfold run_result, result_stmts. rewrite WO, R. unfold buildQueryResultRowsAffected.
  cbn [rseq]. cbn [rexec]. rewrite CE, CO. cbn. eexists. split; [reflexivity|]. cbn. rewrite bytes_eqb_refl.
  split; [reflexivity|]. intros g N. apply bytes_eqb_neq in N. rewrite N. reflexivity.
Qed.

Definition int_range (k : kind) : option (Z * Z) :=
  match k with
  | KBasic BInt8 => Some (-128, 127)
  | KBasic BInt16 => Some (-32768, 32767)
  | KBasic BInt32 => Some (-2147483648, 2147483647)
  | KBasic BInt | KBasic BInt64 => Some (-9223372036854775808, 9223372036854775807)
  | KBasic BUint8 => Some (0, 255)
  | KBasic BUint16 => Some (0, 65535)
  | KBasic BUint32 => Some (0, 4294967295)
  | KBasic BUint | KBasic BUint64 => Some (0, 18446744073709551615)
  | _ => None
  end%Z.

Lemma C60_in_range_proof : forall k lo hi n, int_range k = Some (lo, hi) -> (lo <= n <= hi)%Z -> conv_int k n = n.
Proof.
  intros k lo hi n H R. destruct k as [|b| | | | | | | |]; try discriminate.
  destruct b; try discriminate; injection H as <- <-; cbn [conv_int]; try reflexivity;
    unfold wrapS; try (rewrite Z.mod_small by (cbn; lia); lia); rewrite Z.mod_small; cbn; lia.
Qed.

Lemma C61_call_error_proof : forall env q t fs e,
  IsWithoutOutput q = true \/ IsSingleOutput q = false -> e_call env = Some e ->
  exists s, run_result env q t fs = Done s (answer q (Some e)) /\ o_q s = fs.
Proof.
  intros env q t fs e D CE. unfold run_result, result_stmts.
  destruct (IsWithoutOutput q) eqn:WO.
  - destruct (q_rows q) as [r|].
    + unfold buildQueryResultRowsAffected. cbn [rseq]. remember (makeErrorIfStmt q) as st eqn:ST. cbn [rexec]. subst st.
      rewrite (iferr_some _ _ q _ e) by exact CE. eexists. split; [reflexivity|]. reflexivity.
    + cbn [rseq]. cbn [rexec]. rewrite <- (app_nil_r (makeErrorReturnStmt q EVar)).
      rewrite (ret_err _ _ q _ e []) by exact CE. eexists. split; [reflexivity|]. reflexivity.
  - destruct D as [D| ->]; [discriminate|]. cbn [app rseq]. remember (makeErrorIfStmt q) as st eqn:ST. cbn [rexec]. subst st.
    rewrite (iferr_some _ _ q _ e) by exact CE. eexists. split; [reflexivity|]. reflexivity.
Qed.

Lemma C61_count_error_proof : forall env q t fs r e,
  IsWithoutOutput q = true -> q_rows q = Some r -> e_call env = None -> e_count env = inl e ->
  exists s, run_result env q t fs = Done s (answer q (Some e)) /\ o_q s = fs.
Proof.
  intros env q t fs r e WO R CE CO. unfold run_result, result_stmts. rewrite WO, R. unfold buildQueryResultRowsAffected.
  cbn [rseq]. remember (makeErrorIfStmt q) as st eqn:ST. cbn [rexec]. rewrite CE. subst st.
  rewrite iferr_none by reflexivity. rewrite CO. rewrite (iferr_some _ _ q _ e) by reflexivity.
  eexists. split; [reflexivity|]. reflexivity.
Qed.

Lemma C61_exec_success_proof : forall env q t fs,
  IsWithoutOutput q = true -> q_rows q = None -> HasNoErrorInfoHandler q = true -> e_call env = None ->
  exists s, run_result env q t fs = Done s (answer q None) /\ o_q s = fs.
Proof.
  intros env q t fs WO R NI CE. unfold run_result, result_stmts. rewrite WO, R. unfold HasNoErrorInfoHandler in NI.
  unfold makeErrorReturnStmt, answer. destruct (q_errh q) as [h|].
  - apply negb_true_iff in NI. rewrite NI. cbn. rewrite CE. eexists. split; [reflexivity|]. reflexivity.
  - cbn. rewrite CE. eexists. split; [reflexivity|]. reflexivity.
Qed.

Lemma C61_info_handler_refuted_proof : exists env q t fs s h,
  IsWithoutOutput q = true /\ q_rows q = None /\ e_call env = None
  /\ run_result env q t fs = Done s (RetInfo h None) /\ answer q None = RetErr None.
Proof.
  set (q := set_errh_ (Some (MkErrH (B "eh") true)) (new_query KDelete)).
  exists (MkEnv [] None (inr []) [] None (inr 0%Z) (fun x => x) (fun _ _ => None)), q,
    (MkTInfo [] [] [] [] [] [] None), (fun _ => ONum 0).
  eexists. exists (B "eh"). split; [reflexivity|]. split; [reflexivity|]. split; [reflexivity|].
  split; [reflexivity|reflexivity].
Qed.

Lemma C44_allocated_once_proof : forall env q t s r v0,
  ~ in_place q -> IsSelectCountOrExists q = false -> ti_reads t <> [] ->
  reads_in (e_fields env) (ti_reads t) -> no_collision (ti_reads t) ->
  place (outputVar q) = Some (r, []) -> read_root s r = Some v0 -> fits (RStruct false (e_fields env)) v0 ->
  exists paths s', outputInit q t = init_root q ++ map InitPath paths
    /\ NoDup paths
    /\ (forall p, In p paths <-> exists rd, In rd (ti_reads t) /\ pointer_on rd p)
    /\ rseq env (outputVar q) (map RInit (map InitPath paths)) s = Next s'
    /\ Forall (fun e => addressable s' e = true) (outputArgs q t).
Proof.
  intros env q t s r v0 NP NCE NN RI NC PL RR FT.
  destruct (alloc_ok _ _ _ RI NC FT) as (L & v & E1 & E2 & ND & IFF & RD & _).
  rewrite (outputInit_reads _ _ NN), (skip_false _ NP), E1.
  destruct (init_holds env (outputVar q) _ s L _ _ s PL (holds_self _ _ _ RR) E2) as (s2 & E & H2).
  exists L, s2. split; [reflexivity|]. split; [exact ND|]. split; [exact IFF|]. split; [exact E|].
  rewrite (outputArgs_reads _ _ NCE). apply Forall_forall. apply forallb_forall.
  exact (args_addressable _ _ _ _ _ _ _ PL H2 RD).
Qed.

(** *** Examples *)
Fixpoint ptr_paths (pr : list bytes) (sel : list selnode) : list (list bytes) :=
  match sel with
  | [] => []
  | n :: r => (if sn_ptr n then [pr ++ [sn_name n]] else []) ++ ptr_paths (pr ++ [sn_name n]) r
  end.

Lemma ptr_paths_in : forall a pr n b, sn_ptr n = true -> In (pr ++ map sn_name a ++ [sn_name n]) (ptr_paths pr (a ++ n :: b)).
Proof.
  induction a as [|m a IH]; intros pr n b H; cbn [app ptr_paths map].
  - rewrite H. left. reflexivity.
  - apply in_or_app. right. specialize (IH (pr ++ [sn_name m]) n b H). rewrite <- app_assoc in IH. exact IH.
Qed.

Definition all_paths (reads : list fread) : list (list bytes) := flat_map (fun r => ptr_paths [] (fi_sel (fr_field r))) reads.

Definition path_eqb (a b : list bytes) : bool := if list_eq_dec (list_eq_dec Ascii.ascii_dec) a b then true else false.

Lemma no_collision_check : forall reads,
  forallb (fun p => forallb (fun q => negb (bytes_eqb (List.concat p) (List.concat q)) || path_eqb p q) (all_paths reads)) (all_paths reads) = true ->
  no_collision reads.
Proof.
  intros reads H r1 r2 p1 p2 I1 I2 (a1 & n1 & b1 & E1 & T1 & ->) (a2 & n2 & b2 & E2 & T2 & ->) E.
  rewrite forallb_forall in H.
  assert (A1 : In (map sn_name a1 ++ [sn_name n1]) (all_paths reads)).
  { apply in_flat_map. exists r1. split; [exact I1|]. rewrite E1. apply (ptr_paths_in a1 [] n1 b1 T1). }
  assert (A2 : In (map sn_name a2 ++ [sn_name n2]) (all_paths reads)).
  { apply in_flat_map. exists r2. split; [exact I2|]. rewrite E2. apply (ptr_paths_in a2 [] n2 b2 T2). }
  specialize (H _ A1). rewrite forallb_forall in H. specialize (H _ A2). rewrite E, bytes_eqb_refl in H. cbn in H.
  unfold path_eqb in H. destruct (list_eq_dec _ _ _) as [D|]; [exact D|discriminate].
Qed.

Definition y_sel (name : string) (ptr : bool) : selnode :=
  MkSel (B name) [] (B name) [] [] false false true ptr mode_default.

Definition y_read (sel : list selnode) (name conv : string) : fread :=
  MkFR (MkFI (B name) (plain_ti (KBasic BInt)) sel false true [] (MkCol [] (B name)) [] mode_default false false false false [])
       (MkCo 1 (B name) 0 true false false (MkTy oid_Int4 (B "integer") false CatOther 0) true 1) (MkCol (B "t") (B name)) (B conv).

(** struct { ID int; A *struct { BC *struct { X int }; Y int }; AB *struct { C *struct { Z int } } } *)
Definition y_type : list (bytes * rty) :=
  [(B "ID", RScal);
   (B "A", RStruct true [(B "BC", RStruct true [(B "X", RScal)]); (B "Y", RScal)]);
   (B "AB", RStruct true [(B "C", RStruct true [(B "Z", RScal)])])].

Definition y_id := y_read [] "ID" "".

Definition y_x := y_read [y_sel "A" true; y_sel "BC" true] "X" "pgsql.HStore".

Definition y_y := y_read [y_sel "A" true] "Y" "".

Definition y_z := y_read [y_sel "AB" true; y_sel "C" true] "Z" "".

Definition y_rt (ptr slice iter after : bool) : RelType := MkRT (plain_ti KStruct) ptr slice false 0 iter (B "Next") after [].

Definition y_q (k : qkind) (rt : RelType) : qstate :=
  set_rel_ (Some (MkRelF (B "Rel") (MkRel (B "t") [] []) rt false)) (new_query k).

Definition y_t (reads : list fread) : tinfo := MkTInfo reads [] [] [] [] [] None.

Definition y_env (rows : list row) (err : option nat) (r : row) : oenv :=
  MkEnv y_type None r rows err (inr 3%Z) (fun x => VRec [(B "After", x)]) (fun seen _ => if Nat.eqb (List.length seen) 2 then Some 9 else None).

Definition y_fields (x : oval) : bytes -> oval := fun g => if bytes_eqb g (B "Rel") then x else ONum 7.

Lemma y_shaped : forall rows err r, shaped (y_env rows err r) (y_t [y_x; y_id; y_y]).
Proof.
  intros rows err r. split; [discriminate|]. split.
  - repeat constructor; cbn; repeat (eexists; split; [reflexivity|]); reflexivity.
  - cbn. repeat constructor; cbn; intuition congruence.
Qed.

Lemma y_no_collision : no_collision [y_x; y_id; y_y].
Proof. apply no_collision_check. vm_compute. reflexivity. Qed.

Definition y_rec (x i y : nat) : rv :=
  VRec [(B "ID", VGot [] i);
        (B "A", VRec [(B "BC", VRec [(B "X", VGot (B "pgsql.HStore") x)]); (B "Y", VGot [] y)]);
        (B "AB", VNil)].

Definition result_of (o : outcome) : option (oval * oret) :=
  match o with Done s r => Some (o_q s (B "Rel"), r) | _ => None end.

Lemma C44_collision_refuted_proof : exists env q t fs,
  one_source q /\ ~ in_place q /\ IsSelectCountOrExists q = false /\ rt_slice (out_type q) = true
  /\ rt_iter (out_type q) = false /\ shaped env t /\ e_call env = None
  /\ e_rows env = [inr [1; 2]] /\ e_err env = None /\ fs (out_field q) = OSlice []
  /\ ~ no_collision (ti_reads t) /\ ~ In (InitPath [B "AB"; B "C"]) (outputInit q t)
  /\ run_result env q t fs = Crash.
Proof.
  exists (y_env [inr [1; 2]] None (inr [])), (y_q KSelect (y_rt true true false false)), (y_t [y_x; y_z]), (y_fields (OSlice [])).
  split; [left; auto|]. split; [intros [H _]; discriminate|]. split; [reflexivity|]. split; [reflexivity|]. split; [reflexivity|].
  split.
  { split; [discriminate|]. split.
    - repeat constructor; cbn; repeat (eexists; split; [reflexivity|]); reflexivity.
    - cbn. repeat constructor; cbn; intuition congruence. }
  split; [reflexivity|]. split; [reflexivity|]. split; [reflexivity|]. split; [reflexivity|]. split.
  { intros NC. assert (E : [B "A"; B "BC"] = [B "AB"; B "C"]); [|discriminate].
    apply (NC y_x y_z); [left; reflexivity|right; left; reflexivity| | |reflexivity].
    - exists [y_sel "A" true], (y_sel "BC" true), []. auto.
    - exists [y_sel "AB" true], (y_sel "C" true), []. auto. }
  split; [|vm_compute; reflexivity].
  vm_compute. intuition discriminate.
Qed.

(** An insert that returns the id and Y of each record. *)
Definition y_ins (rt : RelType) : qstate := set_return_ (Some (MkColList false [])) (y_q KInsert rt).

Definition y_old (i : nat) : rv := VRec [(B "ID", VZero); (B "A", VRec [(B "BC", VNil); (B "Y", VGot [] i)]); (B "AB", VNil)].

Lemma y_old_ready : forall i, ready y_type [y_id; y_y] (y_old i).
Proof.
  intros i. split.
  - cbn. right. eexists. split; [reflexivity|]. cbn. repeat split; auto.
    right. eexists. split; [reflexivity|]. cbn. repeat split; eauto.
  - intros r [<-|[<-|[]]]; vm_compute; discriminate.
Qed.

Lemma C59_no_row_untouched_refuted_proof : exists env q t fs e s x,
  one_source q /\ ~ in_place q /\ IsSelectCountOrExists q = false /\ rt_single (out_type q) = true
  /\ shaped env t /\ no_collision (ti_reads t) /\ e_row env = inl e /\ fs (out_field q) = ORec VNil
  /\ run_result env q t fs = Done s (answer q (Some e)) /\ o_q s (out_field q) = ORec x /\ x <> VNil.
Proof.
  exists (y_env [] None (inl 4)), (y_q KSelect (y_rt true false false false)), (y_t [y_x; y_id; y_y]), (y_fields (ORec VNil)), 4.
  eexists. eexists. split; [left; auto|]. split; [intros [H _]; discriminate|]. split; [reflexivity|]. split; [reflexivity|].
  split; [apply y_shaped|]. split; [exact y_no_collision|]. split; [reflexivity|]. split; [reflexivity|].
  split; [vm_compute; reflexivity|]. split; [vm_compute; reflexivity|discriminate].
Qed.

Lemma C60_overflow_refuted_proof : exists env q t fs r n s,
  IsWithoutOutput q = true /\ q_rows q = Some r /\ e_call env = None /\ e_count env = inr n /\ (0 <= n)%Z
  /\ run_result env q t fs = Done s (RetErr None) /\ o_q s (ra_name r) <> ONum n.
Proof.
  exists (MkEnv [] None (inr []) [] None (inr 300%Z) (fun x => x) (fun _ _ => None)),
    (set_rows_ (Some (MkRows (B "Rel") (KBasic BUint8))) (new_query KDelete)), (y_t []), (y_fields (ONum 0)), (MkRows (B "Rel") (KBasic BUint8)), 300%Z.
  eexists. split; [reflexivity|]. split; [reflexivity|]. split; [reflexivity|]. split; [reflexivity|]. split; [discriminate|].
  split; [vm_compute; reflexivity|]. vm_compute. discriminate.
Qed.
