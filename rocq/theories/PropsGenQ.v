
From Coq Require Import Ascii String ZArith NArith Bool List Lia.
From Verif Require Import GoBase AParse Analysis Oids Gen GenRun GenSpec GenProofs GenProofs2 GenProofs3 GenExec GenExec2 GenRowsSpec GenRows GenRows2 GenFilterSpec GenFilter.
From Verif Require Import GenQFinal.
Import ListNotations.
Local Open Scope string_scope.
Local Open Scope list_scope.

(** * C39 *)
(** A query that writes no slice of records, has no filter field and no IN
    list: its text is one statement, the arguments are such that the server
    executes the statement the query struct describes with the values of the
    struct's fields (limit and offset defaulting to their tags), and the
    placeholders are exactly $1 to $n for n arguments. *)
Theorem C39_arguments_match_placeholders : forall wc q t S D c,
  intended q t S -> checked q t -> q_filter q = None ->
  (forall l, q_kind q = KSelectCount -> q_limit q = Some l -> lf_name l = []) ->
  stmt_lists S = [] -> run (buildQueryCode wc q t) D = Ok c ->
  exists n, cl_text c = [TNode n] /\ executed (cl_args c) n = filled (with_defaults q D) S
  /\ (forall i, In i (placeholders n) <-> (1 <= i <= Z.of_nat (List.length (cl_args c)))%Z)
  /\ called q (cl_method c) /\ context_is wc q (with_defaults q D) (cl_ctx c).
Proof. exact C39_arguments_match_placeholders_proof. Qed.
Print Assumptions C39_arguments_match_placeholders.

(** The generated code does make its call: for a query struct that holds the
    fields the statement mentions and at most 65535 values. *)
Theorem C39_call_is_made : forall wc q t S D,
  intended q t S -> checked q t -> q_filter q = None ->
  (forall l, q_kind q = KSelectCount -> q_limit q = Some l -> lf_name l = []) ->
  (forall a, In a (stmt_params (fun _ => []) S) -> value D a <> None) ->
  (forall p, In p (stmt_lists S) -> at_path D p <> None) ->
  (Z.of_nat (List.length (stmt_params (fun _ => []) S) + List.length (flat_map (members D) (stmt_lists S))) <= 65535)%Z ->
  (exists x, context_is wc q (with_defaults q D) x) ->
  exists c, run (buildQueryCode wc q t) D = Ok c.
Proof. exact C39_call_is_made_proof. Qed.
Print Assumptions C39_call_is_made.

Example C39_example : intended x39_q x39_t x39_S /\ checked x39_q x39_t /\ stmt_lists x39_S = []
  /\ exists c n, run (buildQueryCode false x39_q x39_t) x39_D = Ok c
  /\ cl_text c = [TNode n] /\ placeholders n = [1; 2; 3]%Z /\ cl_args c = [VInt 7; VInt 30; VInt 20].
Proof.
  split; [exact x39_intended|]. split; [exact x39_checked|]. split; [reflexivity|].
  eexists _, _. split; [vm_compute; reflexivity|]. split; [reflexivity|]. split; reflexivity.
Qed.

(** The limit field of a count is sent as an argument but has no placeholder
    in the statement. *)
Theorem C39_count_limit_refuted : exists q t D c n, checked q t /\ q_filter q = None /\ q_kind q = KSelectCount
  /\ intended q t (StCount (q_relid q) [] None [] LNone)
  /\ run (buildQueryCode false q t) D = Ok c /\ cl_text c = [TNode n]
  /\ placeholders n = [] /\ cl_args c = [VInt 5].
Proof. exact C39_count_limit_refuted_proof. Qed.
Print Assumptions C39_count_limit_refuted.

(** A primary key that is set to its default: the condition of the update
    compares it with a placeholder for which there is no argument. *)
Theorem C39_default_key_refuted : exists q t D c n, checked q t /\ q_filter q = None /\ q_kind q = KUpdate
  /\ ti_pkeys t = ti_writes t /\ run (buildQueryCode false q t) D = Ok c /\ cl_text c = [TNode n]
  /\ placeholders n = [1%Z] /\ cl_args c = [].
Proof. exact C39_default_key_refuted_proof. Qed.
Print Assumptions C39_default_key_refuted.

(** * C40 *)
(** With IN lists: the arguments are the fixed ones followed by the members of
    the slices, one after the other; the fixed placeholders are $1 to $k, and
    each IN list has as many placeholders as its slice has members, numbered
    consecutively after the fixed ones in the order of the lists. *)
Theorem C40_in_lists : forall wc q t S D c,
  intended q t S -> checked q t -> q_filter q = None ->
  (forall l, q_kind q = KSelectCount -> q_limit q = Some l -> lf_name l = []) ->
  stmt_lists S <> [] -> run (buildQueryCode wc q t) D = Ok c ->
  exists n fixed lists, cl_text c = [TNode n] /\ executed (cl_args c) n = filled D S
  /\ cl_args c = fixed ++ List.concat lists
  /\ Forall2 (fun p l => members D p = map Some l) (stmt_lists S) lists
  /\ (forall i, In i (fixed_placeholders n) <-> (1 <= i <= Z.of_nat (List.length fixed))%Z)
  /\ List.concat (stmt_lists n) = after (Z.of_nat (List.length fixed)) (List.length (List.concat lists))
  /\ map (@List.length Z) (stmt_lists n) = map (@List.length gv) lists
  /\ (forall i, In i (placeholders n) <-> (1 <= i <= Z.of_nat (List.length (cl_args c)))%Z)
  /\ called q (cl_method c) /\ context_is wc q (with_defaults q D) (cl_ctx c).
Proof. exact C40_in_lists_proof. Qed.
Print Assumptions C40_in_lists.

Example C40_example : intended x40_q x40_t x40_S /\ checked x40_q x40_t /\ stmt_lists x40_S <> []
  /\ exists c n, run (buildQueryCode false x40_q x40_t) x40_D = Ok c
  /\ cl_text c = [TNode n] /\ fixed_placeholders n = [1]%Z /\ stmt_lists n = [[2; 3]; [4; 5; 6]]%Z
  /\ cl_args c = [VInt 9; VInt 1; VInt 2; VInt 3; VInt 4; VInt 5].
Proof.
  split; [exact x40_intended|]. split; [prove_checked|]. split; [discriminate|].
  eexists _, _. split; [vm_compute; reflexivity|]. split; [reflexivity|]. split; [reflexivity|]. split; reflexivity.
Qed.

(** With an IN list the number in the tag of the limit field is not used: the
    argument is read before the field is set. *)
Theorem C40_limit_default_refuted : exists q t S D c n, intended q t S /\ checked q t /\ q_filter q = None
  /\ q_kind q = KSelect /\ stmt_lists S <> [] /\ run (buildQueryCode false q t) D = Ok c /\ cl_text c = [TNode n]
  /\ executed (cl_args c) n <> filled (with_defaults q D) S
  /\ gfield D (B "Limit") = Some (VInt 0) /\ gfield (with_defaults q D) (B "Limit") = Some (VInt 20)
  /\ nth_error (cl_args c) 0 = Some (VInt 0).
Proof. exact C40_limit_default_refuted_proof. Qed.
Print Assumptions C40_limit_default_refuted.

(** * C41 *)
(** Writing a slice of records: one parenthesised list for each record, between
    what stands before the rows and what follows them; in each row the server
    finds the values the record describes, the placeholders of the rows are
    $1 to $n in order for n arguments, and n is at most 65535. *)
Theorem C41_rows : forall wc q t vals M T D c recs,
  rows_intended q t vals M T -> checked q t -> q_filter q = None ->
  gfield D (q_relname q) = Some (VSlice recs) -> recs <> [] -> run (buildQueryCode wc q t) D = Ok c ->
  exists main tail rows,
    cl_text c = TNode main :: rows_sql rows ++ match tail with Some n => [TChr " "%char; TNode n] | None => [] end
  /\ executed (cl_args c) main = filled D M /\ option_map (executed (cl_args c)) tail = option_map (filled D) T
  /\ rows_hold vals recs (cl_args c) rows
  /\ (Z.of_nat (List.length (cl_args c)) <= 65535)%Z
  /\ called q (cl_method c) /\ context_is wc q D (cl_ctx c).
Proof. exact C41_rows_proof. Qed.
Print Assumptions C41_rows.

Example C41_example : checked (x_q KInsert x_many) x41_t
  /\ rows_intended (x_q KInsert x_many) x41_t x41_vals (StInsert x_rel [B "id"; B "a"; B "b"] None [] None []) None
  /\ exists c main, run (buildQueryCode false (x_q KInsert x_many) x41_t) x41_D = Ok c
  /\ cl_text c = TNode main
       :: toks (B "(DEFAULT, ") ++ [TPar 1] ++ toks (B ", NULLIF(") ++ [TPar 2] ++ toks (B ", 0)::integer),")
       ++ toks (B "(DEFAULT, ") ++ [TPar 3] ++ toks (B ", NULLIF(") ++ [TPar 4] ++ toks (B ", 0)::integer)")
  /\ cl_args c = [VInt 1; VInt 2; VInt 3; VInt 4].
Proof.
  split; [prove_checked|]. split; [exact x41_intended|]. eexists _, _. split; [vm_compute; reflexivity|]. split; reflexivity.
Qed.

Example C41_update_example : checked (x_q KUpdate x_many) x41u_t
  /\ exists c main tail, run (buildQueryCode false (x_q KUpdate x_many) x41u_t)
       (VStruct [(B "Rel", VSlice [VStruct [(B "id", VInt 8); (B "a", VInt 1)]; VStruct [(B "id", VInt 9); (B "a", VInt 3)]])]) = Ok c
  /\ cl_text c = TNode main :: toks (B "(") ++ [TPar 1] ++ toks (B "::integer, ") ++ [TPar 2] ++ toks (B "),(")
       ++ [TPar 3] ++ toks (B "::integer, ") ++ [TPar 4] ++ toks (B ") ") ++ [TNode tail]
  /\ tail = StUpdateTail (Some (B "x", [B "a"; B "id"]))
       (Some (YList false [(None, YOp OpEq (XCol (MkCol (B "t") (B "id"))) (XCast (XCol (MkCol (B "x") (B "id"))) (B "integer")))])) []
  /\ cl_args c = [VInt 1; VInt 8; VInt 3; VInt 9].
Proof.
  split; [prove_checked|]. eexists _, _, _. split; [vm_compute; reflexivity|]. split; [reflexivity|]. split; reflexivity.
Qed.

(** What the theorem leaves out does go wrong.  In an update of a slice with a
    column set to its default there are fewer values than columns. *)
Theorem C41_update_default_refuted : exists q t D c rel cols vals from rest, checked q t /\ q_filter q = None
  /\ q_kind q = KUpdate /\ rt_slice (q_rtype q) = true /\ q_where q = None /\ q_all q = false
  /\ run (buildQueryCode false q t) D = Ok c
  /\ cl_text c = TNode (StUpdate rel cols vals from None []) :: rest
  /\ List.length cols = 2 /\ List.length vals = 1.
Proof. exact C41_update_default_refuted_proof. Qed.
Print Assumptions C41_update_default_refuted.

(** An update of a slice that returns columns is queried for them but has no
    RETURNING clause. *)
Theorem C41_update_return_refuted : exists q t D c main rows tail, checked q t /\ q_filter q = None
  /\ q_kind q = KUpdate /\ ti_reads t <> [] /\ run (buildQueryCode false q t) D = Ok c
  /\ cl_method c = CQuery /\ cl_text c = TNode main :: rows_sql rows ++ [TChr " "%char; TNode tail]
  /\ (exists rel cols vals from, main = StUpdate rel cols vals from None [])
  /\ (exists alias wh, tail = StUpdateTail alias wh []).
Proof. exact C41_update_return_refuted_proof. Qed.
Print Assumptions C41_update_return_refuted.

(** For an empty slice the cut of the last comma cuts the end of the statement
    itself. *)
Theorem C41_empty_slice_is_cut : forall wc q t vals M T D c,
  rows_intended q t vals M T -> checked q t -> q_filter q = None ->
  gfield D (q_relname q) = Some (VSlice []) -> run (buildQueryCode wc q t) D = Ok c ->
  ~ exists n rest, cl_text c = TNode n :: rest.
Proof. exact C41_empty_slice_is_cut_proof. Qed.
Print Assumptions C41_empty_slice_is_cut.

Example C41_empty_example : rows_intended (x_q KInsert x_many) x41_t x41_vals
    (StInsert x_rel [B "id"; B "a"; B "b"] None [] None []) None /\ checked (x_q KInsert x_many) x41_t
  /\ exists c, run (buildQueryCode false (x_q KInsert x_many) x41_t) (VStruct [(B "Rel", VSlice [])]) = Ok c.
Proof. split; [exact x41_intended|]. split; [prove_checked|]. eexists. vm_compute. reflexivity. Qed.

(** The kind of a between condition does not reach the generated code. *)
Theorem C42_between_kind_ignored : forall wc q t l, but_kinds (ti_where t) l ->
  buildQueryCode wc q (with_conditions t l) = buildQueryCode wc q t.
Proof. exact C42_between_kind_ignored_proof. Qed.
Print Assumptions C42_between_kind_ignored.

(** NOT BETWEEN deletes the rows BETWEEN does. *)
Example C42_example :
  but_kinds [x42_between "isbetween"] [x42_between "notbetween"]
  /\ x42_between "isbetween" <> x42_between "notbetween" /\ x42_between "notbetween" <> x42_between "notbetweensym"
  /\ exists c, run (buildQueryCode false x40_q (x_t [] [] [] [x42_between "notbetween"]))
       (VStruct [(B "Where", VStruct [(B "a", VStruct [(B "Lo", VInt 1); (B "Hi", VInt 5)])])]) = Ok c
  /\ cl_text c = [TNode (StDelete x_rel [] (Some (YList false
       [(None, YBetween (XCol (MkCol (B "t") (B "a"))) (XParam 1%Z) (XParam 2%Z))])) [])]
  /\ cl_args c = [VInt 1; VInt 5].
Proof.
  split; [constructor; [constructor|constructor]|]. split; [discriminate|]. split; [discriminate|].
  eexists. split; [vm_compute; reflexivity|]. split; reflexivity.
Qed.

(** * C55 *)
(** A query with a filter field: the statement without a condition, then the
    filter's text, in which each placeholder stands for the value the filter
    gives for it; the statement's own placeholders are $1 to $k for the k
    arguments that come before the filter's values. *)
Theorem C55_filter : forall wc q t fld M T D c text vals,
  filtered q t M T -> checked q t -> q_filter q = Some fld -> q_where q = None ->
  gfield D fld = Some (VFilter text vals) -> run (buildQueryCode wc q t) D = Ok c ->
  exists main ftext tail fixed,
    cl_text c = TNode main :: ftext ++ closing M ++ match tail with Some n => [TChr " "%char; TNode n] | None => [] end
  /\ cl_args c = fixed ++ vals
  /\ executed (cl_args c) main = filled D M /\ option_map (executed (cl_args c)) tail = option_map (filled D) T
  /\ (forall i, In i (placeholders main) <-> (1 <= i <= Z.of_nat (List.length fixed))%Z)
  /\ filter_text_is (cl_args c) text vals ftext
  /\ called q (cl_method c) /\ context_is wc q D (cl_ctx c).
Proof. exact C55_filter_proof. Qed.
Print Assumptions C55_filter.

Example C55_example :
  filtered x55_q x55_t (StUpdate x_rel [B "a"; B "b"; B "c"] [XParam (Acc [B "Rel"; B "a"] []); XDefault; XParam (Acc [B "Rel"; B "c"] [])] [] None []) None
  /\ checked x55_q x55_t
  /\ exists c main, run (buildQueryCode false x55_q x55_t) x55_D = Ok c
  /\ cl_text c = [TNode main; TChr "W"%char; TPar 3; TChr " "%char; TPar 4] /\ placeholders main = [1; 2]%Z
  /\ cl_args c = [VInt 1; VInt 3; VInt 10; VInt 11].
Proof.
  split; [|split; [prove_checked|eexists _, _; split; [vm_compute; reflexivity|split; [reflexivity|split; reflexivity]]]].
  apply (fil_update x55_q x55_t); try reflexivity; [|constructor; reflexivity].
  constructor; [apply (stored_plain x55_q [B "Rel"] false (x_write 0 "a")); [reflexivity|not_zero]|].
  constructor; [apply stored_default; reflexivity|].
  constructor; [apply (stored_plain x55_q [B "Rel"] false (x_write 2 "c")); [reflexivity|not_zero]|constructor].
Qed.

(** A select of one record with a filter: LIMIT 1 comes before the filter's
    WHERE. *)
Theorem C55_single_refuted : exists q t D c cols rel rest, checked q t /\ q_filter q <> None /\ q_kind q = KSelect
  /\ run (buildQueryCode false q t) D = Ok c
  /\ cl_text c = TNode (StSelect cols rel [] None [] (LInt 1) LNone) :: TChr "W"%char :: rest.
Proof. exact C55_single_refuted_proof. Qed.
Print Assumptions C55_single_refuted.

(** So does ORDER BY. *)
Theorem C55_order_refuted : exists q t D c cols rel o ord rest, checked q t /\ q_filter q <> None /\ q_kind q = KSelect
  /\ run (buildQueryCode false q t) D = Ok c
  /\ cl_text c = TNode (StSelect cols rel [] None (o :: ord) LNone LNone) :: TChr "W"%char :: rest.
Proof. exact C55_order_refuted_proof. Qed.
Print Assumptions C55_order_refuted.

(** RETURNING of a delete comes before the filter's WHERE. *)
Theorem C55_returning_refuted : exists q t D c rel r ret rest, checked q t /\ q_filter q <> None /\ q_kind q = KDelete
  /\ run (buildQueryCode false q t) D = Ok c
  /\ cl_text c = TNode (StDelete rel [] None (r :: ret)) :: TChr "W"%char :: rest.
Proof. exact C55_returning_refuted_proof. Qed.
Print Assumptions C55_returning_refuted.

(** The limit field of a select with a filter has a placeholder but no
    argument, and the filter's placeholders are numbered one too high. *)
Theorem C55_limit_refuted : exists q t D c cols rel rest, checked q t /\ q_filter q <> None /\ q_kind q = KSelect
  /\ gfield D (B "Limit") = Some (VInt 5) /\ run (buildQueryCode false q t) D = Ok c
  /\ cl_text c = TNode (StSelect cols rel [] None [] (LParam 1%Z) LNone) :: TChr "W"%char :: TPar 2 :: rest
  /\ cl_args c = [VInt 10; VInt 11].
Proof. exact C55_limit_refuted_proof. Qed.
Print Assumptions C55_limit_refuted.
