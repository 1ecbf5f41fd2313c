(** The code generated for queries with a filter field. *)
From Coq Require Import Ascii String ZArith NArith Bool List Lia.
From Verif Require Import GoBase AParse Analysis Oids Gen GenRun GenSpec GenProofs GenProofs2 GenProofs3 GenExec GenExec2 GenRowsSpec GenRows GenRows2 GenFilterSpec.
Import ListNotations.
Local Open Scope string_scope.
Local Open Scope list_scope.

Lemma filter_toks_ok : forall text n l pre vals, filter_toks n text = Ok l -> n = zlen pre ->
  filter_text_is (pre ++ vals) text vals l.
Proof.
  induction text as [|[c|k] text IH]; intros n l pre vals E N; cbn [filter_toks] in E.
  - injection E as <-. constructor.
  - apply rmap_ok in E. destruct E as (l' & E & ->). constructor; [reflexivity|]. eapply IH; eassumption.
  - destruct (ordinal_ok (n + Z.of_nat k)) eqn:Q; [|discriminate E].
    apply rmap_ok in E. destruct E as (l' & E & ->). constructor; [|eapply IH; eassumption].
    exists (n + Z.of_nat k + 1)%Z. split; [reflexivity|]. unfold ordinal_ok in Q. apply andb_true_iff in Q. destruct Q as [Q1 Q2].
    apply Z.leb_le in Q1. apply Z.ltb_lt in Q2. split; [lia|]. unfold argument.
    destruct (Z.leb_spec (n + Z.of_nat k + 1) 0); [lia|]. subst n. unfold zlen.
    replace (Z.to_nat (Z.of_nat (List.length pre) + Z.of_nat k + 1 - 1)) with (List.length pre + k) by lia.
    rewrite nth_error_app2 by lia. f_equal. lia.
Qed.

(** The statement with its tail. *)
Definition fgood (q : qstate) (t : tinfo) (main : gsql) (tail : option gsql) (M : fstmt) (T : option fstmt) : Prop :=
  let accs := map (wacc [q_relname q]) (kept q (ti_writes t)) in
  plain_stmt main /\ (forall n, tail = Some n -> plain_stmt n)
  /\ (forall X Y (f : Z -> X) (F : access -> X) (g : nat -> Y) (G : list bytes -> Y), agree f F 0 accs -> stmt_map f g main = stmt_map F G M)
  /\ tail_is tail T
  /\ (forall i, In i (stmt_params noh main) <-> (1 <= i <= zlen accs)%Z).

Lemma filter_parts : forall wc q t fld M T, filtered q t M T -> checked q t -> q_filter q = Some fld -> q_where q = None ->
  exists main tail, fgood q t main tail M T
  /\ q_limit q = None /\ q_offset q = None
  /\ buildQueryCode wc q t =
     filter_text fld (closes q) (map (acc_expr GQ) (map (wacc [q_relname q]) (kept q (ti_writes t)))) (GDecl false main) tail
     ++ (if is_update (q_kind q) then [GPrepend (map (acc_expr GQ) (map (wacc [q_relname q]) (kept q (ti_writes t))))] else [])
     ++ [GCall (method q) (call_ctx wc q) AParams]
  /\ (if closes q then [TChr ")"%char] else []) = closing M
  /\ (is_update (q_kind q) = false -> ti_writes t = []).
Proof.
  intros wc q t fld M T I (C1 & C2 & C3 & C4 & C5 & C6 & C7) FI HW. change (Forall (Forall only_columns) (ti_joins t)) in C7.
  assert (TW : ti_where t = []) by (apply C3; exact HW).
  assert (U : IsUpdateWithPKeys q = false).
  { unfold IsUpdateWithPKeys, HasNoQualifier. rewrite FI. cbn. rewrite andb_false_r. cbn. rewrite andb_false_r. reflexivity. }
  assert (WC : forall s, whereClause q t s = (None, s)) by (intro s; unfold whereClause; rewrite U, TW; reflexivity).
  assert (NOW : is_insert (q_kind q) || is_update (q_kind q) = false -> ti_writes t = [] /\ input_target_values q t g_init = ([], [], g_init)
      /\ IsInsertOrUpdateSlice q = false /\ is_update (q_kind q) = false).
  { intro Q. split; [apply C1; exact Q|]. split; [apply target_values_none, C1, Q|]. unfold IsInsertOrUpdateSlice, IsInsertOrUpdate.
    rewrite Q. split; [reflexivity|]. apply orb_false_iff in Q. apply Q. }
  assert (ARGS : rt_slice (q_rtype q) = false \/ ti_writes t = [] -> q_limit q = None -> q_offset q = None ->
     inputArgs q t = map (acc_expr GQ) (map (wacc [q_relname q]) (kept q (ti_writes t)))).
  { intros H L O. unfold inputArgs, where_args, pkey_args. rewrite HW, U, L, O. cbn [lim_args app]. rewrite app_nil_r.
    destruct H as [H|H]; [apply write_args_accs; exact H|]. unfold write_args. rewrite H. reflexivity. }
  (* a statement that writes nothing *)
  assert (READ : forall main, is_insert (q_kind q) || is_update (q_kind q) = false -> q_limit q = None -> q_offset q = None ->
     querySQL q t [] g_init = (main, None, g_init) ->
     buildQueryCode wc q t = filter_text fld (closes q) (map (acc_expr GQ) (map (wacc [q_relname q]) (kept q (ti_writes t)))) (GDecl false main) None
       ++ (if is_update (q_kind q) then [GPrepend (map (acc_expr GQ) (map (wacc [q_relname q]) (kept q (ti_writes t))))] else [])
       ++ [GCall (method q) (call_ctx wc q) AParams]).
  { intros main Q L O E. destruct (NOW Q) as (W & IT & NS & NU). unfold buildQueryCode. rewrite IT, E, NS, FI, NU.
    rewrite (ARGS (or_intror W) L O), L, O. unfold call_args. rewrite FI. cbn [g_slices g_init is_some negb andb orb fallback app].
    unfold method. reflexivity. }
  assert (ZER : is_insert (q_kind q) || is_update (q_kind q) = false -> zlen (map (wacc [q_relname q]) (kept q (ti_writes t))) = 0%Z).
  { intro Q. destruct (NOW Q) as (W & _). rewrite W. reflexivity. }
  destruct I as [cols joins K NS OB L O HR HJ|joins K L O HJ|neg joins K L O HJ|from K HR HF|vals from K SL HR HV HF|vals from ret K SL HN HV HF HR].
  - destruct (tableJoin_good _ _ _ HJ C7 g_init) as (js' & TJ & JM & JP & JK). destruct (output_good _ _ HR) as [OM OP].
    exists (StSelect (outputVals t) (q_relid q) js' None [] LNone LNone), None.
    assert (NU : is_insert (q_kind q) || is_update (q_kind q) = false) by (rewrite K; reflexivity).
    split; [|split; [exact L|split; [exact O|split; [|split; [|intro; apply C1; exact NU]]]]].
    + unfold fgood. split; [|split; [discriminate|split; [|split; [exact Logic.I|]]]].
      * unfold plain_stmt. cbn [stmt_lists opt_list]. rewrite JK. reflexivity.
      * intros. cbn [stmt_map option_map lim_map]. rewrite (OM _ f F), (JM _ _ f F g G). reflexivity.
      * intro i. cbn [stmt_params opt_list lim_params]. rewrite OP, JP, (ZER NU). cbn. lia.
    + apply READ; try assumption. unfold querySQL. rewrite TJ, WC. unfold limitClause, offsetClause, orderClause. rewrite L, O, OB, K.
      assert (RS : rt_single (q_rtype q) = false).
      { unfold rt_single. unfold single in NS. destruct (rt_slice _); [reflexivity|]. destruct (rt_iter _); [reflexivity|].
        destruct (rt_array _); [reflexivity|]. exfalso. apply NS. repeat split. }
      rewrite RS. reflexivity.
    + unfold closes. rewrite K, andb_false_r. reflexivity.
  - destruct (tableJoin_good _ _ _ HJ C7 g_init) as (js' & TJ & JM & JP & JK).
    exists (StCount (q_relid q) js' None [] LNone), None.
    assert (NU : is_insert (q_kind q) || is_update (q_kind q) = false) by (rewrite K; reflexivity).
    split; [|split; [exact L|split; [exact O|split; [|split; [|intro; apply C1; exact NU]]]]].
    + unfold fgood. split; [|split; [discriminate|split; [|split; [exact Logic.I|]]]].
      * unfold plain_stmt. cbn [stmt_lists opt_list]. rewrite JK. reflexivity.
      * intros. cbn [stmt_map option_map lim_map]. rewrite (JM _ _ f F g G). reflexivity.
      * intro i. cbn [stmt_params opt_list lim_params]. rewrite JP, (ZER NU). cbn. lia.
    + apply READ; try assumption. unfold querySQL. rewrite TJ, WC. unfold limitClause, offsetClause. rewrite L, O, K, FI. reflexivity.
    + unfold closes. rewrite K, andb_false_r. reflexivity.
  - destruct (tableJoin_good _ _ _ HJ C7 g_init) as (js' & TJ & JM & JP & JK).
    exists (StExists neg true (q_relid q) js' None [] LNone LNone), None.
    assert (NU : is_insert (q_kind q) || is_update (q_kind q) = false) by (rewrite K; destruct neg; reflexivity).
    split; [|split; [exact L|split; [exact O|split; [|split; [|intro; apply C1; exact NU]]]]].
    + unfold fgood. split; [|split; [discriminate|split; [|split; [exact Logic.I|]]]].
      * unfold plain_stmt. cbn [stmt_lists opt_list]. rewrite JK. reflexivity.
      * intros. cbn [stmt_map option_map lim_map]. rewrite (JM _ _ f F g G). reflexivity.
      * intro i. cbn [stmt_params opt_list lim_params]. rewrite JP, (ZER NU). cbn. lia.
    + apply READ; try assumption. unfold querySQL. rewrite TJ, WC. unfold limitClause, offsetClause. rewrite L, O, K, FI.
      destruct neg; reflexivity.
    + unfold closes. rewrite K, FI. destruct neg; reflexivity.
  - destruct C2 as [L O]; [rewrite K; reflexivity|].
    destruct (from_good _ _ _ HF C7 g_init) as (js' & TJ & FM & FP & FK).
    exists (StDelete (q_relid q) (from_list q js') None []), None.
    assert (NU : is_insert (q_kind q) || is_update (q_kind q) = false) by (rewrite K; reflexivity).
    split; [|split; [exact L|split; [exact O|split; [|split; [|intro; apply C1; exact NU]]]]].
    + unfold fgood. split; [|split; [discriminate|split; [|split; [exact Logic.I|]]]].
      * unfold plain_stmt. cbn [stmt_lists opt_list]. rewrite FK. reflexivity.
      * intros. cbn [stmt_map option_map map]. rewrite (FM _ _ f F g G). reflexivity.
      * intro i. cbn [stmt_params opt_list]. rewrite FP, (ZER NU). cbn. lia.
    + apply READ; try assumption. unfold querySQL. rewrite TJ, WC. unfold limitClause, offsetClause, outputVals. rewrite L, O, K, HR. reflexivity.
    + unfold closes. rewrite K, andb_false_r. reflexivity.
  - destruct C2 as [L O]; [rewrite K; reflexivity|].
    destruct (target_values_good _ _ _ SL HV C5) as (vs & s1 & E & N & SLI & MM & P & _ & _).
    destruct (from_good _ _ _ HF C7 s1) as (js' & TJ & FM & FP & FK).
    exists (StUpdate (q_relid q) (inputCols t) vs (from_list q js') None []), None.
    split; [|split; [exact L|split; [exact O|split; [|split; [|rewrite K; discriminate]]]]].
    + unfold fgood. split; [|split; [discriminate|split; [|split; [exact Logic.I|]]]].
      * unfold plain_stmt. cbn [stmt_lists opt_list]. rewrite FK. reflexivity.
      * intros X Y f F g G HA. cbn [stmt_map option_map map]. rewrite (FM _ _ f F g G), (MM _ f F HA). reflexivity.
      * intro i. cbn [stmt_params opt_list]. rewrite FP. cbn [app flat_map]. rewrite app_nil_r, P, N. unfold zlen. rewrite map_length. lia.
    + unfold buildQueryCode. assert (QS : querySQL q t vs s1 = (StUpdate (q_relid q) (inputCols t) vs (from_list q js') None [], None, s1)).
      { unfold querySQL. rewrite TJ, WC. unfold limitClause, offsetClause. rewrite L, O, K. unfold update_stmt, IsUpdateSlice, outputVals.
        rewrite SL, FI, HR, !andb_false_r. reflexivity. }
      rewrite E, QS, SLI. assert (NS : IsInsertOrUpdateSlice q = false) by (unfold IsInsertOrUpdateSlice; rewrite SL; apply andb_false_r).
      rewrite NS, FI, K, (ARGS (or_introl SL) L O), L, O. unfold call_args. rewrite FI. reflexivity.
    + unfold closes. rewrite K, andb_false_r. reflexivity.
  - destruct C2 as [L O]; [rewrite K; reflexivity|]. destruct (output_good _ _ HR) as [OM OP].
    destruct (target_values_good _ _ _ SL HV C5) as (vs & s1 & E & N & SLI & MM & P & _ & _).
    destruct (from_good _ _ _ HF C7 s1) as (js' & TJ & FM & FP & FK).
    exists (StUpdate (q_relid q) (inputCols t) vs (from_list q js') None []), (Some (StUpdateTail None None (outputVals t))).
    split; [|split; [exact L|split; [exact O|split; [|split; [|rewrite K; discriminate]]]]].
    + unfold fgood. split; [|split; [intros n Q; injection Q as <-; reflexivity|split; [|split]]].
      * unfold plain_stmt. cbn [stmt_lists opt_list]. rewrite FK. reflexivity.
      * intros X Y f F g G HA. cbn [stmt_map option_map map]. rewrite (FM _ _ f F g G), (MM _ f F HA). reflexivity.
      * cbn [tail_is]. intros. cbn [stmt_map option_map]. rewrite (OM _ f F). reflexivity.
      * intro i. cbn [stmt_params opt_list]. rewrite FP. cbn [app flat_map]. rewrite app_nil_r, P, N. unfold zlen. rewrite map_length. lia.
    + unfold buildQueryCode. assert (QS : querySQL q t vs s1 = (StUpdate (q_relid q) (inputCols t) vs (from_list q js') None [],
          Some (StUpdateTail None None (outputVals t)), s1)).
      { unfold querySQL. rewrite TJ, WC. unfold limitClause, offsetClause. rewrite L, O, K. unfold update_stmt, IsUpdateSlice.
        rewrite SL, FI, !andb_false_r. assert (Q : negb match @outputVals Z t with [] => true | _ => false end = true)
          by (unfold outputVals; destruct (ti_reads t); [contradiction|reflexivity]). rewrite Q. reflexivity. }
      rewrite E, QS, SLI. assert (NS : IsInsertOrUpdateSlice q = false) by (unfold IsInsertOrUpdateSlice; rewrite SL; apply andb_false_r).
      rewrite NS, FI, K, (ARGS (or_introl SL) L O), L, O. unfold call_args. rewrite FI. reflexivity.
    + unfold closes. rewrite K, andb_false_r. reflexivity.
Qed.

Theorem filter_run : forall wc q t fld M T D c text vals, filtered q t M T -> checked q t -> q_filter q = Some fld -> q_where q = None ->
  gfield D fld = Some (VFilter text vals) -> run (buildQueryCode wc q t) D = Ok c ->
  exists main ftext tail fixed,
    cl_text c = TNode main :: ftext ++ closing M ++ match tail with Some n => [TChr " "%char; TNode n] | None => [] end
  /\ cl_args c = fixed ++ vals
  /\ executed (cl_args c) main = filled D M /\ option_map (executed (cl_args c)) tail = option_map (filled D) T
  /\ (forall i, In i (stmt_params (fun l => l) main) <-> (1 <= i <= zlen fixed)%Z)
  /\ filter_text_is (cl_args c) text vals ftext
  /\ cl_method c = method q /\ ctx_of wc q D = Some (cl_ctx c).
Proof.
  intros wc q t fld M T D c text vals I C FI HW FD R.
  destruct (filter_parts wc q t fld M T I C FI HW) as (main & tail & (PM & PT & MM & TI & PP) & L & O & E & CL & NW).
  set (accs := map (wacc [q_relname q]) (kept q (ti_writes t))) in *. rewrite E in R. unfold run in R. apply bind_ok in R.
  destruct R as (s1 & R & K). unfold filter_text in R. rewrite map_length in R. cbn [app map seqM] in R.
  apply bind_ok in R. destruct R as (s2 & R1 & R). cbn [exec] in R1. rewrite (render_plain _ _ PM) in R1. cbn [rmap bind] in R1.
  injection R1 as <-. apply bind_ok in R. destruct R as (s3 & R1 & R). cbn [exec s_q set_text st0] in R1. rewrite FD in R1.
  cbn [or_panic bind] in R1. apply rmap_ok in R1. destruct R1 as (ftext & FT & ->).
  apply bind_ok in R. destruct R as (s4 & R1 & R). cbn [exec] in R1. apply rmap_ok in R1. destruct R1 as (tx & TX & ->).
  assert (TXE : tx = ftext ++ closing M).
  { cbn [strs str_eval bind s_filter set_params set_filter] in TX. rewrite <- CL. destruct (closes q); cbn in TX; injection TX as <-; [reflexivity|].
    reflexivity. }
  clear TX. subst tx. cbn [s_text set_params set_filter set_text st0] in R.
  match type of R with context [seqM _ ?s] => set (s5 := s) in R end.
  assert (exists s6, seqM (map exec ((if is_update (q_kind q) then [GPrepend (map (acc_expr GQ) accs)] else []) ++ [GCall (method q) (call_ctx wc q) AParams])) s6 = Ok s1
     /\ s_q s6 = D /\ s_params s6 = vals /\ s_text s6 = [TNode (rendered main)] ++ ftext ++ closing M ++ match option_map rendered tail with Some n => [TChr " "%char; TNode n] | None => [] end) as (s6 & R6 & Q6 & P6 & T6).
  { destruct tail as [n|].
    - cbn [app map seqM] in R. apply bind_ok in R. destruct R as (s6 & R1 & R). cbn [exec] in R1. apply rmap_ok in R1. destruct R1 as (tx & TX & ->).
      cbn [strs str_eval] in TX. rewrite (render_plain _ _ (PT n eq_refl)) in TX. cbn in TX. injection TX as <-.
      eexists. split; [exact R|]. split; [reflexivity|]. split; [reflexivity|]. cbn [s_text set_text s5 option_map]. rewrite <- !app_assoc. reflexivity.
    - exists s5. split; [exact R|]. split; [reflexivity|]. split; [reflexivity|]. cbn [s_text set_text s5 option_map]. rewrite app_nil_r. reflexivity. }
  clear R. clearbody s5.
  assert (exists fixed s7, Forall2 (fun a v => value D a = Some v) accs fixed /\ exec (GCall (method q) (call_ctx wc q) AParams) s7 = Ok s1
     /\ s_q s7 = D /\ s_params s7 = fixed ++ vals /\ s_text s7 = s_text s6) as (fixed & s7 & FX & R7 & Q7 & P7 & T7).
  { destruct (is_update (q_kind q)) eqn:UP.
    - cbn [app map seqM] in R6. apply bind_ok in R6. destruct R6 as (s7 & R1 & R6). apply bind_ok in R6. destruct R6 as (s8 & R6 & Q). injection Q as ->.
      cbn [exec] in R1. apply rmap_ok in R1. destruct R1 as (vs & EV & ->). apply evals_accs in EV. rewrite Q6 in EV.
      exists vs. eexists. split; [exact EV|]. split; [exact R6|]. split; [exact Q6|]. split; [cbn; rewrite P6; reflexivity|reflexivity].
    - cbn [app map seqM] in R6. apply bind_ok in R6. destruct R6 as (s8 & R6 & Q). injection Q as ->. exists [], s6.
      split; [|split; [exact R6|split; [exact Q6|split; [exact P6|reflexivity]]]]. unfold accs. rewrite (NW eq_refl). constructor. }
  apply exec_call in R7. destruct R7 as (args & ctx & A & X & ->). injection A as <-. cbn in K. injection K as <-. cbn [cl_text cl_args cl_method cl_ctx].
  rewrite Q7 in X. exists (rendered main), ftext, (option_map rendered tail), fixed.
  assert (LEN : List.length fixed = List.length accs) by (symmetry; eapply forall2_length; exact FX).
  split; [rewrite T7, T6; reflexivity|]. split; [exact P7|]. rewrite P7. split; [|split; [|split; [|split; [|split; [reflexivity|exact X]]]]].
  - unfold executed, filled, rendered. rewrite stmt_map_map. apply MM. apply accs_agree. exact FX.
  - destruct tail as [n|], T as [st|]; cbn [tail_is] in TI; try contradiction; [|reflexivity]. cbn [option_map]. f_equal.
    unfold executed, filled, rendered. rewrite stmt_map_map. apply TI.
  - intro i. unfold rendered. rewrite (stmt_split _ _ (fun l : list Z => l) _ i), stmt_lists_map, PM, stmt_params_map, map_id, PP. unfold zlen.
    rewrite LEN. split; [intros [Q|(l & [] & _)]; lia|]. intro Q. left. lia.
  - apply filter_toks_ok with (n := zlen accs); [exact FT|]. unfold zlen. rewrite LEN. reflexivity.
Qed.
