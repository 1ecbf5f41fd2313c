(** Definitions and proofs used by PropsGenQ.v. *)
From Coq Require Import Ascii String ZArith NArith Bool List Lia.
From Verif Require Import GoBase AParse Analysis Oids Gen GenRun GenSpec GenProofs GenProofs2 GenProofs3 GenExec GenExec2 GenRowsSpec GenRows GenRows2 GenFilterSpec GenFilter.
Import ListNotations.
Local Open Scope string_scope.
Local Open Scope list_scope.

(** The numbers a+1, ..., a+n. *)
Definition after (a : Z) (n : nat) : list Z := map (fun i => a + Z.of_nat i)%Z (seq 1 n).

Lemma after_numbers : forall a n, after a n = in_numbers (Z.of_nat n) a.
Proof.
  intros a n. unfold after, in_numbers. rewrite Nat2Z.id, <- seq_shift, map_map. apply map_ext. intro i. lia.
Qed.

(** The placeholders of a statement, as numbers. *)
Definition placeholders (n : sstmt Z (list Z)) : list Z := stmt_params (fun l => l) n.

(** ... without those of IN lists. *)
Definition fixed_placeholders {L} (n : sstmt Z L) : list Z := stmt_params (fun _ => []) n.

(** The values of the context field, if any: a call has no context, the
    parameter of the method, or the value of a field. *)
Definition context_is (wc : bool) (q : qstate) (D : gv) (c : option (option gv)) : Prop :=
  if wc then c = Some None
  else match q_ctx q with
       | Some f => exists v, gfield D f = Some v /\ c = Some (Some v)
       | None => c = None
       end.

(** A query without output is executed, one with one record of output queried
    for a row, any other queried. *)
Definition has_output (q : qstate) : Prop := isSelect (q_kind q) = true \/ q_result q <> None \/ q_return q <> None.

Definition one_record (q : qstate) : Prop :=
  isSelect (q_kind q) = true /\ single (q_rtype q)
  \/ (exists r, q_result q = Some r /\ single (rs_type r))
  \/ q_return q <> None /\ single (q_rtype q).

Inductive called (q : qstate) : callm -> Prop :=
| called_exec : ~ has_output q -> called q CExec
| called_row : has_output q -> one_record q -> called q CQueryRow
| called_rows : has_output q -> ~ one_record q -> called q CQuery.

Lemma rt_single_spec : forall t, rt_single t = true <-> single t.
Proof.
  intro t. unfold rt_single, single. destruct (rt_slice t), (rt_iter t), (rt_array t); cbn; split; try tauto; try discriminate;
    intros (A & B & C); discriminate.
Qed.

Lemma method_called : forall q, called q (method q).
Proof.
  intro q. unfold method. destruct (IsWithoutOutput q) eqn:W.
  - constructor. unfold IsWithoutOutput in W. unfold has_output. destruct (q_result q), (q_return q), (isSelect (q_kind q)); try discriminate W.
    intros [H|[H|H]]; congruence.
  - assert (H : has_output q).
    { unfold IsWithoutOutput in W. unfold has_output. destruct (q_result q), (q_return q), (isSelect (q_kind q)); try discriminate W;
        try (left; reflexivity); right; [left|left|right]; discriminate. }
    assert (S : IsSingleOutput q = true <-> one_record q).
    { unfold IsSingleOutput, one_record. rewrite !orb_true_iff, !andb_true_iff, !rt_single_spec.
      split.
      - intros [[A|A]|A]; [left; exact A|right; left|right; right].
        + destruct (q_result q) as [r|]; [|discriminate A]. exists r. apply rt_single_spec in A. tauto.
        + destruct (q_return q); [|destruct A; discriminate]. split; [discriminate|tauto].
      - intros [A|[(r & A & B)|[A B]]]; [left; left; exact A|left; right; rewrite A; apply rt_single_spec; exact B|right].
        split; [destruct (q_return q); [reflexivity|contradiction]|exact B]. }
    destruct (IsSingleOutput q); constructor; try exact H; [apply S; reflexivity|]. intro Q. apply S in Q. discriminate Q.
Qed.

Lemma ctx_context : forall wc q D c, ctx_of wc q D = Some c -> context_is wc q D c.
Proof.
  intros wc q D c H. unfold ctx_of in H. unfold context_is. destruct wc; [congruence|]. destruct (q_ctx q) as [f|]; [|congruence].
  destruct (gfield D f) as [v|]; [|discriminate H]. exists v. split; [reflexivity|congruence].
Qed.

Lemma context_ctx : forall wc q D, (exists c, context_is wc q D c) -> ctx_of wc q D <> None.
Proof.
  intros wc q D [c H]. unfold context_is in H. unfold ctx_of. destruct wc; [discriminate|]. destruct (q_ctx q) as [f|]; [|discriminate].
  destruct H as (v & -> & _). discriminate.
Qed.

Lemma no_slices : forall q t S, intended q t S -> checked q t -> q_filter q = None ->
  (forall l, q_kind q = KSelectCount -> q_limit q = Some l -> lf_name l = []) -> where_slices q t = stmt_lists S.
Proof.
  intros q t S I C F L. destruct (code_parts true q t S I C F L) as (main & s & G & _). symmetry. exact (intended_lists _ _ _ _ _ G).
Qed.

(** * Records used in the examples *)
Definition int_t : TypeInfo := plain_ti (KBasic BInt).

Definition x_field (name : string) : FieldInfo :=
  MkFI (B name) int_t [] false true [] (MkCol [] (B name)) [] mode_default false false false false [].

Definition x_default (name : string) : FieldInfo :=
  MkFI (B name) int_t [] false true [] (MkCol [] (B name)) [] mode_default false true false false [].

Definition x_type : pgtype := MkTy oid_Int4 (B "integer") false CatOther 0.

Definition x_col (name : string) : column := MkCo 1 (B name) 0 true false false x_type true 1.

Definition x_nullable (name : string) : column := MkCo 1 (B name) 0 false false false x_type true 1.

Definition x_write (id : nat) (name : string) : fwrite := MkFW id (x_field name) (x_col name) (MkCol (B "t") (B name)) [].

Definition x_null (id : nat) (name : string) : fwrite := MkFW id (x_field name) (x_nullable name) (MkCol (B "t") (B name)) [].

Definition x_dflt (id : nat) (name : string) : fwrite := MkFW id (x_default name) (x_col name) (MkCol (B "t") (B name)) [].

Definition x_read (name : string) : fread := MkFR (x_field name) (x_col name) (MkCol (B "t") (B name)) [].

Definition x_cond (name : string) (tag : string) : wcond :=
  WCField (MkFC (B name) int_t (MkCol (B "t") (B name)) (x_col name) (stringToPredicate (B tag)) QNone [] []).

Definition x_one : RelType := MkRT int_t false false false 0 false [] false [].

Definition x_many : RelType := MkRT int_t false true false 0 false [] false [].

Definition x_rel : RelIdent := MkRel (B "test") (B "t") [].

Definition x_q (k : qkind) (rt : RelType) : qstate := set_rel_ (Some (MkRelF (B "Rel") x_rel rt false)) (new_query k).

Definition x_where : option WhereStruct := Some (MkWhere (B "Where") []).

Definition x_t (reads : list fread) (writes pkeys : list fwrite) (wh : list wcond) : tinfo :=
  MkTInfo reads writes [] pkeys [] wh None.

Lemma C39_arguments_match_placeholders_proof : forall wc q t S D c,
  intended q t S -> checked q t -> q_filter q = None ->
  (forall l, q_kind q = KSelectCount -> q_limit q = Some l -> lf_name l = []) ->
  stmt_lists S = [] -> run (buildQueryCode wc q t) D = Ok c ->
  exists n, cl_text c = [TNode n] /\ executed (cl_args c) n = filled (with_defaults q D) S
  /\ (forall i, In i (placeholders n) <-> (1 <= i <= Z.of_nat (List.length (cl_args c)))%Z)
  /\ called q (cl_method c) /\ context_is wc q (with_defaults q D) (cl_ctx c).
Proof.
  intros wc q t S D c I C F L W R. rewrite <- (no_slices q t S I C F L) in W.
  destruct (run_static wc q t S D c I C F L W R) as (n & TX & EX & P & M & X). exists n.
  split; [exact TX|]. split; [exact EX|]. split; [exact P|]. split; [rewrite M; apply method_called|apply ctx_context; exact X].
Qed.

Lemma C39_call_is_made_proof : forall wc q t S D,
  intended q t S -> checked q t -> q_filter q = None ->
  (forall l, q_kind q = KSelectCount -> q_limit q = Some l -> lf_name l = []) ->
  (forall a, In a (stmt_params (fun _ => []) S) -> value D a <> None) ->
  (forall p, In p (stmt_lists S) -> at_path D p <> None) ->
  (Z.of_nat (List.length (stmt_params (fun _ => []) S) + List.length (flat_map (members D) (stmt_lists S))) <= 65535)%Z ->
  (exists x, context_is wc q (with_defaults q D) x) ->
  exists c, run (buildQueryCode wc q t) D = Ok c.
Proof.
  intros wc q t S D I C F L V P N X. apply context_ctx in X. eapply run_succeeds; eassumption.
Qed.

Definition x39_q : qstate := set_limit_ (Some (MkLimit (B "Limit") 20)) (set_where_ x_where (x_q KSelect x_many)).

Definition x39_t : tinfo :=
  x_t [x_read "id"; x_read "age"] [] [] [x_cond "id" "="; WCBool BoolOr; x_cond "age" ">="].

Definition x39_D : gv := VStruct [(B "Where", VStruct [(B "id", VInt 7); (B "age", VInt 30)]); (B "Limit", VInt 0)].

Definition x39_S : fstmt :=
  StSelect [XCol (MkCol (B "t") (B "id")); XCol (MkCol (B "t") (B "age"))] x_rel []
    (Some (YList false [(None, YOp OpEq (XCol (MkCol (B "t") (B "id"))) (XParam (Acc [B "Where"; B "id"] [])));
                        (Some BoolOr, YOp OpGe (XCol (MkCol (B "t") (B "age"))) (XParam (Acc [B "Where"; B "age"] [])))]))
    [] (LParam (Acc [B "Limit"] [])) LNone.

Ltac not_zero := unfold null_as_zero, zero_for_null; cbn; intuition congruence.

Ltac asks_op tag sql := exists tag, sql; split; [cbn; tauto|split; reflexivity].

Lemma x39_intended : intended x39_q x39_t x39_S.
Proof.
  apply in_select; [reflexivity| | | | |constructor].
  - constructor; [apply fetched_plain; not_zero|constructor; [apply fetched_plain; not_zero|constructor]].
  - constructor. reflexivity.
  - apply where_some with (w := MkWhere (B "Where") []); [reflexivity|discriminate|].
    eapply says_list.
    + constructor; [exact Logic.I|]. constructor; [exact Logic.I|constructor].
    + constructor; [|constructor; [|constructor]]; apply (says_field [B "Where"]); [asks_op "=" "="|asks_op ">=" ">="].
  - apply limit_given with (l := MkLimit (B "Limit") 20); [reflexivity|]. apply (number_field (MkLimit (B "Limit") 20)). discriminate.
Qed.

Ltac prove_checked := repeat split; cbn; intros; try discriminate; try reflexivity;
  repeat constructor; cbn; intuition congruence.

Lemma x39_checked : checked x39_q x39_t.
Proof. prove_checked. Qed.

Lemma C39_count_limit_refuted_proof : exists q t D c n, checked q t /\ q_filter q = None /\ q_kind q = KSelectCount
  /\ intended q t (StCount (q_relid q) [] None [] LNone)
  /\ run (buildQueryCode false q t) D = Ok c /\ cl_text c = [TNode n]
  /\ placeholders n = [] /\ cl_args c = [VInt 5].
Proof.
  exists (set_limit_ (Some (MkLimit (B "Limit") 0)) (x_q KSelectCount zero_rt)), (x_t [] [] [] []),
    (VStruct [(B "Limit", VInt 5)]). eexists _, _.
  split; [prove_checked|]. split; [reflexivity|]. split; [reflexivity|]. split.
  - apply in_count; [reflexivity|constructor; reflexivity|constructor; reflexivity|constructor].
  - split; [vm_compute; reflexivity|]. split; [reflexivity|]. split; reflexivity.
Qed.

Lemma C39_default_key_refuted_proof : exists q t D c n, checked q t /\ q_filter q = None /\ q_kind q = KUpdate
  /\ ti_pkeys t = ti_writes t /\ run (buildQueryCode false q t) D = Ok c /\ cl_text c = [TNode n]
  /\ placeholders n = [1%Z] /\ cl_args c = [].
Proof.
  exists (x_q KUpdate x_one), (x_t [] [x_dflt 0 "id"] [x_dflt 0 "id"] []),
    (VStruct [(B "Rel", VStruct [(B "id", VInt 5)])]). eexists _, _.
  split; [prove_checked|]. split; [reflexivity|]. split; [reflexivity|]. split; [reflexivity|].
  split; [vm_compute; reflexivity|]. split; [reflexivity|]. split; reflexivity.
Qed.

Lemma C40_in_lists_proof : forall wc q t S D c,
  intended q t S -> checked q t -> q_filter q = None ->
  (forall l, q_kind q = KSelectCount -> q_limit q = Some l -> lf_name l = []) ->
  stmt_lists S <> [] -> run (buildQueryCode wc q t) D = Ok c ->
  exists n fixed lists, cl_text c = [TNode n] /\ executed (cl_args c) n = filled D S
  /\ cl_args c = fixed ++ List.concat lists
  /\ Forall2 (fun p l => members D p = map Some l) (stmt_lists S) lists
  /\ (forall i, In i (fixed_placeholders n) <-> (1 <= i <= Z.of_nat (List.length fixed))%Z)
  /\ List.concat (stmt_lists n) = after (Z.of_nat (List.length fixed)) (List.length (List.concat lists))
  /\ map (@List.length Z) (stmt_lists n) = map (@List.length gv) lists
  /\ (forall i, In i (placeholders n) <-> (1 <= i <= Z.of_nat (List.length (cl_args c)))%Z)
  /\ called q (cl_method c) /\ context_is wc q (with_defaults q D) (cl_ctx c).
Proof.
  intros wc q t S D c I C F L W R. rewrite <- (no_slices q t S I C F L) in W.
  destruct (run_slices wc q t S D c I C F L W R) as (n & TX & EX & P & M & X & fixed & lists & A & FP & ML & BL & _).
  exists n, fixed, lists. split; [exact TX|]. split; [exact EX|]. split; [exact A|]. split; [exact ML|].
  split; [exact FP|]. split; [rewrite BL, blocks_concat, after_numbers; reflexivity|].
  split; [rewrite BL; apply blocks_length|]. split; [exact P|]. split; [rewrite M; apply method_called|apply ctx_context; exact X].
Qed.

Definition x40_q : qstate := set_where_ x_where (x_q KDelete x_one).

Definition x40_t : tinfo :=
  x_t [] [] [] [x_cond "a" "isin"; WCBool BoolAnd; x_cond "b" "="; WCBool BoolAnd; x_cond "c" "notin"].

Definition x40_D : gv :=
  VStruct [(B "Where", VStruct [(B "a", VSlice [VInt 1; VInt 2]); (B "b", VInt 9); (B "c", VSlice [VInt 3; VInt 4; VInt 5])])].

Definition x40_S : fstmt :=
  StDelete x_rel [] (Some (YList false
    [(None, YIn false (XCol (MkCol (B "t") (B "a"))) [B "Where"; B "a"]);
     (Some BoolAnd, YOp OpEq (XCol (MkCol (B "t") (B "b"))) (XParam (Acc [B "Where"; B "b"] [])));
     (Some BoolAnd, YIn true (XCol (MkCol (B "t") (B "c"))) [B "Where"; B "c"])])) [].

Lemma x40_intended : intended x40_q x40_t x40_S.
Proof.
  apply in_delete; [reflexivity|constructor; reflexivity| |constructor].
  apply where_some with (w := MkWhere (B "Where") []); [reflexivity|discriminate|]. eapply says_list.
  - constructor; [exact Logic.I|]. constructor; [exact Logic.I|]. constructor; [exact Logic.I|constructor].
  - constructor; [apply (says_in [B "Where"]); reflexivity|]. constructor; [apply (says_field [B "Where"]); asks_op "=" "="|].
    constructor; [apply (says_not_in [B "Where"]); reflexivity|constructor].
Qed.

Lemma C40_limit_default_refuted_proof : exists q t S D c n, intended q t S /\ checked q t /\ q_filter q = None
  /\ q_kind q = KSelect /\ stmt_lists S <> [] /\ run (buildQueryCode false q t) D = Ok c /\ cl_text c = [TNode n]
  /\ executed (cl_args c) n <> filled (with_defaults q D) S
  /\ gfield D (B "Limit") = Some (VInt 0) /\ gfield (with_defaults q D) (B "Limit") = Some (VInt 20)
  /\ nth_error (cl_args c) 0 = Some (VInt 0).
Proof.
  exists x39_q, (x_t [x_read "id"] [] [] [x_cond "a" "isin"]),
    (StSelect [XCol (MkCol (B "t") (B "id"))] x_rel []
       (Some (YList false [(None, YIn false (XCol (MkCol (B "t") (B "a"))) [B "Where"; B "a"])]))
       [] (LParam (Acc [B "Limit"] [])) LNone),
    (VStruct [(B "Where", VStruct [(B "a", VSlice [VInt 1])]); (B "Limit", VInt 0)]).
  eexists _, _. split.
  - apply in_select; [reflexivity| | | | |constructor].
    + constructor; [apply fetched_plain; not_zero|constructor].
    + constructor. reflexivity.
    + apply where_some with (w := MkWhere (B "Where") []); [reflexivity|discriminate|]. eapply says_list.
      * constructor; [exact Logic.I|constructor].
      * constructor; [apply (says_in [B "Where"]); reflexivity|constructor].
    + apply limit_given with (l := MkLimit (B "Limit") 20); [reflexivity|]. apply (number_field (MkLimit (B "Limit") 20)). discriminate.
  - split; [prove_checked|]. split; [reflexivity|]. split; [reflexivity|]. split; [discriminate|].
    split; [vm_compute; reflexivity|]. split; [reflexivity|]. split; [vm_compute; discriminate|]. split; [reflexivity|]. split; reflexivity.
Qed.

Lemma C41_rows_proof : forall wc q t vals M T D c recs,
  rows_intended q t vals M T -> checked q t -> q_filter q = None ->
  gfield D (q_relname q) = Some (VSlice recs) -> recs <> [] -> run (buildQueryCode wc q t) D = Ok c ->
  exists main tail rows,
    cl_text c = TNode main :: rows_sql rows ++ match tail with Some n => [TChr " "%char; TNode n] | None => [] end
  /\ executed (cl_args c) main = filled D M /\ option_map (executed (cl_args c)) tail = option_map (filled D) T
  /\ rows_hold vals recs (cl_args c) rows
  /\ (Z.of_nat (List.length (cl_args c)) <= 65535)%Z
  /\ called q (cl_method c) /\ context_is wc q D (cl_ctx c).
Proof.
  intros wc q t vals M T D c recs I C F RD RN R.
  destruct (rows_run wc q t vals M T D c recs I C F RD RN R) as (main & tail & rows & TX & EX & ET & RH & ME & CX & LE).
  exists main, tail, rows. split; [exact TX|]. split; [exact EX|]. split; [exact ET|]. split; [exact RH|]. split; [exact LE|].
  split; [rewrite ME; apply method_called|apply ctx_context; exact CX].
Qed.

Definition x41_t : tinfo := x_t [] [x_dflt 0 "id"; x_write 1 "a"; x_null 2 "b"] [] [].

Definition x41_D : gv :=
  VStruct [(B "Rel", VSlice [VStruct [(B "id", VInt 0); (B "a", VInt 1); (B "b", VInt 2)];
                             VStruct [(B "id", VInt 0); (B "a", VInt 3); (B "b", VInt 4)]])].

Definition x41_vals : list (sexpr access) :=
  [XDefault; XParam (Acc [B "a"] []); XCast (XNullif (XParam (Acc [B "b"] [])) (B "0")) (B "integer")].

Lemma x41_intended : rows_intended (x_q KInsert x_many) x41_t x41_vals
  (StInsert x_rel [B "id"; B "a"; B "b"] None [] None []) None.
Proof.
  apply (rows_insert_plain (x_q KInsert x_many) x41_t); try reflexivity; [discriminate|].
  constructor; [apply stored_default; reflexivity|]. constructor; [apply (stored_plain (x_q KInsert x_many) [] false (x_write 1 "a")); [reflexivity|not_zero]|].
  constructor; [|constructor]. apply (stored_nullif (x_q KInsert x_many) [] false (x_null 2 "b")); [reflexivity|not_zero|discriminate|reflexivity].
Qed.

(** An update of a slice. *)
Definition x41u_t : tinfo := x_t [] [x_write 1 "a"] [x_write 0 "id"] [].

Lemma x41u_intended : rows_intended (x_q KUpdate x_many) x41u_t
  ([XCast (XParam (Acc [B "a"] [])) (B "integer")] ++ map key_value [x_write 0 "id"])
  (StUpdate x_rel [B "a"] [XCol (in_values (B "a"))] ([] ++ [TxValues]) None [])
  (Some (StUpdateTail (Some (B "x", [B "a"] ++ [B "id"])) (Some (YList false (key_conds None [x_write 0 "id"]))) [])).
Proof.
  apply (rows_update (x_q KUpdate x_many) x41u_t) with (others := [x_write 0 "id"]); try reflexivity; try discriminate.
  - intros w [<-|[]]. reflexivity.
  - constructor; [|constructor]. apply (stored_plain (x_q KUpdate x_many) [] true (x_write 1 "a")); [reflexivity|not_zero].
  - constructor. reflexivity.
  - constructor; [|constructor]. intros x [<-|[]]. discriminate.
Qed.

Lemma C41_update_default_refuted_proof : exists q t D c rel cols vals from rest, checked q t /\ q_filter q = None
  /\ q_kind q = KUpdate /\ rt_slice (q_rtype q) = true /\ q_where q = None /\ q_all q = false
  /\ run (buildQueryCode false q t) D = Ok c
  /\ cl_text c = TNode (StUpdate rel cols vals from None []) :: rest
  /\ List.length cols = 2 /\ List.length vals = 1.
Proof.
  exists (x_q KUpdate x_many), (x_t [] [x_dflt 1 "a"; x_write 2 "b"] [x_write 0 "id"] []),
    (VStruct [(B "Rel", VSlice [VStruct [(B "id", VInt 8); (B "a", VInt 1); (B "b", VInt 2)]])]).
  eexists _, _, _, _, _, _. split; [prove_checked|]. split; [reflexivity|]. split; [reflexivity|]. split; [reflexivity|].
  split; [reflexivity|]. split; [reflexivity|]. split; [vm_compute; reflexivity|]. split; [reflexivity|]. split; reflexivity.
Qed.

Lemma C41_update_return_refuted_proof : exists q t D c main rows tail, checked q t /\ q_filter q = None
  /\ q_kind q = KUpdate /\ ti_reads t <> [] /\ run (buildQueryCode false q t) D = Ok c
  /\ cl_method c = CQuery /\ cl_text c = TNode main :: rows_sql rows ++ [TChr " "%char; TNode tail]
  /\ (exists rel cols vals from, main = StUpdate rel cols vals from None [])
  /\ (exists alias wh, tail = StUpdateTail alias wh []).
Proof.
  exists (set_return_ (Some (MkColList false [MkCol (B "t") (B "a")])) (x_q KUpdate x_many)), (x_t [x_read "a"] [x_write 1 "a"] [x_write 0 "id"] []),
    (VStruct [(B "Rel", VSlice [VStruct [(B "id", VInt 8); (B "a", VInt 1)]])]).
  eexists _, _, [[XCast (XParam 1%Z) (B "integer"); XParam 2%Z]], _. split; [prove_checked|].
  split; [reflexivity|]. split; [reflexivity|]. split; [discriminate|]. split; [vm_compute; reflexivity|].
  split; [reflexivity|]. split; [vm_compute; reflexivity|]. split; repeat eexists.
Qed.

Lemma C41_empty_slice_is_cut_proof : forall wc q t vals M T D c,
  rows_intended q t vals M T -> checked q t -> q_filter q = None ->
  gfield D (q_relname q) = Some (VSlice []) -> run (buildQueryCode wc q t) D = Ok c ->
  ~ exists n rest, cl_text c = TNode n :: rest.
Proof.
  intros wc q t vals M T D c I C F RD R (n & rest & TX).
  destruct (rows_parts wc q t vals M T I C F) as (main & tail & accs & vs & E & L & O & PM & PT & VN & SQ & MM & MT & TI).
  rewrite E, L, O in R. cbn [fallback app] in R. unfold run in R. apply bind_ok in R. destruct R as (s1 & R & K).
  unfold slice_rows in R. cbn [app map seqM] in R. apply bind_ok in R. destruct R as (s2 & R1 & R). cbn [exec] in R1.
  rewrite (render_plain _ _ PM) in R1. cbn [rmap bind] in R1. injection R1 as <-.
  rewrite !map_app, <- !app_assoc, seqM_app in R. apply bind_ok in R. destruct R as (s3 & R2 & R).
  assert (T3 : s_text s3 = [TNode (rendered main)] /\ s_call s3 = None).
  { destruct accs as [|a accs']; cbn [map seqM] in R2.
    - apply bind_ok in R2. destruct R2 as (s4 & R2 & Q). injection Q as ->.
      change (exec (GRange (GSel GQ (q_relname q)) [GAppend (row_text vs)]) (set_text [TNode (rendered main)] (st0 D)))
        with (bind (eval (set_text [TNode (rendered main)] (st0 D)) (GSel GQ (q_relname q)))
              (fun v => range_loop (seqM (map exec [GAppend (row_text vs)])) 0 (elems v) (set_text [TNode (rendered main)] (st0 D)))) in R2.
      cbn [eval bind s_q set_text st0] in R2. rewrite RD in R2. cbn in R2. injection R2 as <-. split; reflexivity.
    - apply bind_ok in R2. destruct R2 as (s4 & R1 & R2). cbn [exec ieval eval s_q set_text st0 bind] in R1. rewrite RD in R1. cbn in R1. injection R1 as <-.
      apply bind_ok in R2. destruct R2 as (s5 & R2 & Q). injection Q as ->.
      match type of R2 with exec (GRange ?e ?b) ?s = _ =>
        change (exec (GRange e b) s) with (bind (eval s e) (fun v => range_loop (seqM (map exec b)) 0 (elems v) s)) in R2 end.
      cbn [eval bind s_q set_params set_text st0] in R2. rewrite RD in R2. cbn in R2. injection R2 as <-. split; reflexivity. }
  destruct T3 as [T3 C3]. cbn [map app seqM] in R. apply bind_ok in R. destruct R as (s4 & R1 & R). cbn [exec] in R1. rewrite T3 in R1. cbn in R1. injection R1 as <-.
  assert (T5 : forall l s s', (forall g, In g l -> match g with GAppend _ | GCall _ _ _ => True | _ => False end) ->
     (exists r, s_text s = TPar 0 :: r) -> (forall c, s_call s = Some c -> exists r, cl_text c = TPar 0 :: r) ->
     seqM (map exec l) s = Ok s' -> (forall c, s_call s' = Some c -> exists r, cl_text c = TPar 0 :: r)).
  { clear. induction l as [|g l IH]; intros s s' H (r & Q) QC R; cbn [map seqM] in R.
    - injection R as <-. exact QC.
    - apply bind_ok in R. destruct R as (s1 & R1 & R). assert (HG := H g (or_introl eq_refl)). destruct g; try contradiction.
      + cbn [exec] in R1. apply rmap_ok in R1. destruct R1 as (tx & _ & ->). eapply IH; [| | |exact R].
        * intros g Hg. apply H. right. exact Hg.
        * cbn [s_text set_text]. rewrite Q. eexists. reflexivity.
        * exact QC.
      + cbn [exec] in R1. apply bind_ok in R1. destruct R1 as (args & _ & R1). apply bind_ok in R1. destruct R1 as (ctx & _ & R1).
        injection R1 as <-. eapply IH; [| | |exact R].
        * intros g Hg. apply H. right. exact Hg.
        * exists r. exact Q.
        * intros c0 Q0. cbn in Q0. injection Q0 as <-. cbn [cl_text]. exists r. exact Q. }
  match type of R with context [[exec ?g]] => change [exec g] with (map exec [g]) in R end. rewrite <- map_app in R. apply or_panic_ok in K. assert (Q : exists r, cl_text c = TPar 0 :: r).
  2: { destruct Q as (r & Q). rewrite Q in TX. discriminate TX. }
  refine (T5 _ _ _ _ _ _ R c K).
  - intros g Hg. apply in_app_iff in Hg. destruct Hg as [Hg|[<-|[]]]; [|exact Logic.I]. destruct tail; [|destruct Hg].
    destruct Hg as [<-|[]]. exact Logic.I.
  - exists []. reflexivity.
  - intros c0 Q. cbn in Q. rewrite C3 in Q. discriminate Q.
Qed.

(** * C42 *)
(** Two lists of conditions that differ in the kind of their between
    conditions only. *)
Inductive but_kind : wcond -> wcond -> Prop :=
| bk_same : forall c, but_kind c c
| bk_between : forall name id p p' lo hi, but_kind (WCBetween name id p lo hi) (WCBetween name id p' lo hi)
| bk_nested : forall name l l', but_kinds l l' -> but_kind (WCNested name l) (WCNested name l')
with but_kinds : list wcond -> list wcond -> Prop :=
| bks_nil : but_kinds [] []
| bks_cons : forall c c' l l', but_kind c c' -> but_kinds l l' -> but_kinds (c :: l) (c' :: l').

Scheme but_kind_mut := Induction for but_kind Sort Prop with but_kinds_mut := Induction for but_kinds Sort Prop.

Combined Scheme but_kind_both from but_kind_mut, but_kinds_mut.

Definition with_conditions (t : tinfo) (l : list wcond) : tinfo :=
  MkTInfo (ti_reads t) (ti_writes t) (ti_filters t) (ti_pkeys t) (ti_joins t) l (ti_conflict t).

Lemma but_kind_gen :
  (forall c c', but_kind c c' -> forall sx, (forall s, mk_bool sx c s = mk_bool sx c' s) /\ wcond_args sx c = wcond_args sx c'
     /\ (forall b, c = WCBool b <-> c' = WCBool b))
  /\ (forall l l', but_kinds l l' -> forall sx, (forall first b s, bool_items (mk_bool sx) first b l s = bool_items (mk_bool sx) first b l' s)
     /\ flat_map (wcond_args sx) l = flat_map (wcond_args sx) l').
Proof.
  apply but_kind_both.
  - intros c sx. split; [reflexivity|]. split; [reflexivity|]. intro b. reflexivity.
  - intros. split; [reflexivity|]. split; [reflexivity|]. intro b; split; discriminate.
  - intros name l l' H IH sx. destruct (IH (GSel sx name)) as [A B0]. split; [|split; [exact B0|intro b; split; discriminate]].
    intro s. cbn [mk_bool]. rewrite A. reflexivity.
  - intros sx. split; reflexivity.
  - intros c c' l l' H IH HL IHL sx. destruct (IH sx) as (M & A & W). destruct (IHL sx) as [ML AL]. split.
    + intros first b s. destruct c as [b0| | | |].
      { assert (E : c' = WCBool b0) by (apply W; reflexivity). subst c'. cbn [bool_items]. apply ML. }
      all: destruct c' as [b1| | | |]; try (exfalso; assert (E := proj2 (W b1) eq_refl); discriminate E).
      all: cbn [bool_items]; rewrite M;
        (match goal with |- context [mk_bool ?a ?b ?c] => destruct (mk_bool a b c) as [e s1] end); rewrite ML; reflexivity.
    + cbn [flat_map]. rewrite A, AL. reflexivity.
Qed.

Lemma but_kinds_nil : forall l l', but_kinds l l' -> l = [] <-> l' = [].
Proof. intros l l' [|]; split; congruence || discriminate. Qed.

Lemma C42_between_kind_ignored_proof : forall wc q t l, but_kinds (ti_where t) l ->
  buildQueryCode wc q (with_conditions t l) = buildQueryCode wc q t.
Proof.
  intros wc q t l H. assert (WA : where_args q (with_conditions t l) = where_args q t).
  { unfold where_args. destruct (q_where q) as [w|]; [|reflexivity]. cbn [ti_where with_conditions].
    symmetry. exact (proj2 (proj2 but_kind_gen _ _ H (GSel GQ (w_name w)))). }
  assert (WC : forall s, whereClause q (with_conditions t l) s = whereClause q t s).
  { intro s. unfold whereClause. destruct (IsUpdateWithPKeys q); [reflexivity|]. cbn [ti_where with_conditions].
    destruct l as [|c l], (ti_where t) as [|c' l']; try reflexivity; try (exfalso; inversion H; fail).
    unfold makeSQLBoolValueExprList. rewrite (proj1 (proj2 but_kind_gen _ _ H (GSel GQ match q_where q with Some w => w_name w | None => [] end))). reflexivity. }
  assert (QS : forall vals s, querySQL q (with_conditions t l) vals s = querySQL q t vals s).
  { intros vals s. unfold querySQL. change (tableJoinSlice q (with_conditions t l) s) with (tableJoinSlice q t s).
    destruct (tableJoinSlice q t s) as [js s1]. rewrite WC. reflexivity. }
  unfold buildQueryCode. change (input_target_values q (with_conditions t l) g_init) with (input_target_values q t g_init).
  destruct (input_target_values q t g_init) as [[vals pvals] s]. rewrite QS.
  assert (IA : inputArgs q (with_conditions t l) = inputArgs q t) by (unfold inputArgs; rewrite WA; reflexivity). rewrite IA. reflexivity.
Qed.

Definition x42_between (tag : string) : wcond :=
  WCBetween (B "a") (MkCol (B "t") (B "a")) (stringToPredicate (B tag))
    (RBField (MkFC (B "Lo") int_t (MkCol [] []) (x_col "a") PNone QNone [] []))
    (RBField (MkFC (B "Hi") int_t (MkCol [] []) (x_col "a") PNone QNone [] [])).

Lemma C55_filter_proof : forall wc q t fld M T D c text vals,
  filtered q t M T -> checked q t -> q_filter q = Some fld -> q_where q = None ->
  gfield D fld = Some (VFilter text vals) -> run (buildQueryCode wc q t) D = Ok c ->
  exists main ftext tail fixed,
    cl_text c = TNode main :: ftext ++ closing M ++ match tail with Some n => [TChr " "%char; TNode n] | None => [] end
  /\ cl_args c = fixed ++ vals
  /\ executed (cl_args c) main = filled D M /\ option_map (executed (cl_args c)) tail = option_map (filled D) T
  /\ (forall i, In i (placeholders main) <-> (1 <= i <= Z.of_nat (List.length fixed))%Z)
  /\ filter_text_is (cl_args c) text vals ftext
  /\ called q (cl_method c) /\ context_is wc q D (cl_ctx c).
Proof.
  intros wc q t fld M T D c text vals I C F W FD R.
  destruct (filter_run wc q t fld M T D c text vals I C F W FD R) as (main & ftext & tail & fixed & TX & A & EX & ET & P & FT & ME & CX).
  exists main, ftext, tail, fixed. split; [exact TX|]. split; [exact A|]. split; [exact EX|]. split; [exact ET|]. split; [exact P|]. split; [exact FT|].
  split; [rewrite ME; apply method_called|apply ctx_context; exact CX].
Qed.

Definition x55_f : gv := VFilter [inl "W"%char; inr 0; inl " "%char; inr 1] [VInt 10; VInt 11].

Definition x55_q : qstate := set_filter_ (Some (B "Filter")) (x_q KUpdate x_one).

Definition x55_t : tinfo := x_t [] [x_write 0 "a"; x_dflt 1 "b"; x_write 2 "c"] [] [].

Definition x55_D : gv := VStruct [(B "Rel", VStruct [(B "a", VInt 1); (B "b", VInt 2); (B "c", VInt 3)]); (B "Filter", x55_f)].

Lemma C55_single_refuted_proof : exists q t D c cols rel rest, checked q t /\ q_filter q <> None /\ q_kind q = KSelect
  /\ run (buildQueryCode false q t) D = Ok c
  /\ cl_text c = TNode (StSelect cols rel [] None [] (LInt 1) LNone) :: TChr "W"%char :: rest.
Proof.
  exists (set_filter_ (Some (B "Filter")) (x_q KSelect x_one)), (x_t [x_read "a"] [] [] []), (VStruct [(B "Filter", x55_f)]).
  eexists _, _, _, _. split; [prove_checked|]. split; [discriminate|]. split; [reflexivity|]. split; [vm_compute; reflexivity|]. reflexivity.
Qed.

Lemma C55_order_refuted_proof : exists q t D c cols rel o ord rest, checked q t /\ q_filter q <> None /\ q_kind q = KSelect
  /\ run (buildQueryCode false q t) D = Ok c
  /\ cl_text c = TNode (StSelect cols rel [] None (o :: ord) LNone LNone) :: TChr "W"%char :: rest.
Proof.
  exists (set_orderby_ (Some [MkOrder (MkCol (B "t") (B "a")) false NullsDefault]) (set_filter_ (Some (B "Filter")) (x_q KSelect x_many))),
    (x_t [x_read "a"] [] [] []), (VStruct [(B "Filter", x55_f)]).
  eexists _, _, _, _, _, _. split; [prove_checked|]. split; [discriminate|]. split; [reflexivity|]. split; [vm_compute; reflexivity|]. reflexivity.
Qed.

Lemma C55_returning_refuted_proof : exists q t D c rel r ret rest, checked q t /\ q_filter q <> None /\ q_kind q = KDelete
  /\ run (buildQueryCode false q t) D = Ok c
  /\ cl_text c = TNode (StDelete rel [] None (r :: ret)) :: TChr "W"%char :: rest.
Proof.
  exists (set_return_ (Some (MkColList true [])) (set_filter_ (Some (B "Filter")) (x_q KDelete x_one))), (x_t [x_read "a"] [] [] []), (VStruct [(B "Filter", x55_f)]).
  eexists _, _, _, _, _. split; [prove_checked|]. split; [discriminate|]. split; [reflexivity|]. split; [vm_compute; reflexivity|]. reflexivity.
Qed.

Lemma C55_limit_refuted_proof : exists q t D c cols rel rest, checked q t /\ q_filter q <> None /\ q_kind q = KSelect
  /\ gfield D (B "Limit") = Some (VInt 5) /\ run (buildQueryCode false q t) D = Ok c
  /\ cl_text c = TNode (StSelect cols rel [] None [] (LParam 1%Z) LNone) :: TChr "W"%char :: TPar 2 :: rest
  /\ cl_args c = [VInt 10; VInt 11].
Proof.
  exists (set_limit_ (Some (MkLimit (B "Limit") 0)) (set_filter_ (Some (B "Filter")) (x_q KSelect x_many))), (x_t [x_read "a"] [] [] []),
    (VStruct [(B "Filter", x55_f); (B "Limit", VInt 5)]).
  eexists _, _, _, _. split; [prove_checked|]. split; [discriminate|]. split; [reflexivity|]. split; [reflexivity|]. split; [vm_compute; reflexivity|]. split; reflexivity.
Qed.
