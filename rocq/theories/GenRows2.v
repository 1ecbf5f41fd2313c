(** The code generated for writing a slice of records: its parts. *)
From Coq Require Import Ascii String ZArith NArith Bool List Lia.
From Verif Require Import GoBase AParse Analysis Oids Gen GenRun GenSpec GenProofs GenProofs2 GenProofs3 GenExec GenExec2 GenRowsSpec GenRows.
Import ListNotations.
Local Open Scope string_scope.
Local Open Scope list_scope.

Lemma write_args_rows : forall q t, rt_slice (q_rtype q) = true ->
  write_args q t = map (acc_expr GV) (map (wacc []) (kept q (ti_writes t))).
Proof.
  intros q t S. unfold write_args, inputRoot. rewrite S, map_map. apply map_ext. intro w.
  unfold acc_expr, wacc. cbn [a_path a_conv app gsel]. reflexivity.
Qed.

Definition pacc (w : fwrite) : access := Acc (field_path (fw_field w)) [].
Lemma other_unwritten : forall t l r, other_keys t l r -> r = unwritten t l.
Proof.
  intros t l r H. induction H as [|w x l r IN EQ H IH|w l r A H IH]; [reflexivity| |].
  - rewrite (unwritten_cons_written _ _ _ _ IN EQ). exact IH.
  - rewrite (unwritten_cons_alone _ _ _ A), IH. reflexivity.
Qed.

Lemma pkey_vals_good : forall l s, NoDup (map fw_id l) -> (forall w, In w l -> find_num (fw_id w) (g_set s) = None) ->
  exists ps s', pkey_vals l s = (ps, s') /\ seqd (g_num s) ps (g_num s')
  /\ g_num s' = (g_num s + zlen l)%Z /\ g_slices s' = g_slices s
  /\ (forall X (f : Z -> X) (F : access -> X), agree f F (g_num s) (map pacc l) ->
       map (sexpr_map f) ps = map (sexpr_map F) (map key_value l))
  /\ (forall id n, find_num id (g_set s) = Some n -> find_num id (g_set s') = Some n)
  /\ (forall w, In w l -> find_num (fw_id w) (g_set s') <> None).
Proof.
  induction l as [|w l IH]; intros s ND FR.
  - eexists _, _. split; [reflexivity|]. split; [constructor|]. unfold zlen. cbn. split; [lia|].
    split; [reflexivity|]. split; [reflexivity|]. split; [tauto|]. intros w [].
  - cbn [map] in ND. inversion ND as [|x l' NI ND']; subst. cbn [pkey_vals]. unfold param_field.
    rewrite (FR w (or_introl eq_refl)).
    set (s1 := MkG (g_num s + 1) ((fw_id w, (g_num s + 1)%Z) :: g_set s) (g_slices s)).
    destruct (IH s1 ND') as (ps & s' & E & SQ & N & SL & M & K & HAS).
    { intros x Hx. cbn [g_set s1]. rewrite find_num_cons.
      destruct (Nat.eqb_spec (fw_id x) (fw_id w)) as [Q|Q]; [|apply FR; right; exact Hx].
      exfalso. apply NI. rewrite <- Q. apply in_map. exact Hx. }
    rewrite E. eexists _, _. split; [reflexivity|]. cbn [g_num s1] in SQ, N, M. split; [|split; [|split; [exact SL|split; [|split]]]].
    + constructor; [left; reflexivity|exact SQ].
    + unfold zlen in *. cbn [List.length]. lia.
    + intros X f F HA. cbn [map] in HA. change (pacc w :: map pacc l) with ([pacc w] ++ map pacc l) in HA.
      apply agree_app in HA. destruct HA as [HA1 HA2]. apply agree_one in HA1. cbn [map sexpr_map key_value].
      rewrite HA1. f_equal. apply (M _ f F). exact HA2.
    + intros id n Q. apply K. cbn [g_set s1]. rewrite find_num_cons. destruct (Nat.eqb_spec id (fw_id w)) as [->|]; [|exact Q].
      rewrite (FR w (or_introl eq_refl)) in Q. discriminate Q.
    + intros x [<-|Hx]; [|apply HAS; exact Hx]. rewrite (K (fw_id w) (g_num s + 1)%Z); [discriminate|].
      cbn [g_set s1]. rewrite find_num_cons, Nat.eqb_refl. reflexivity.
Qed.

Lemma pkey_conds_rows : forall l b s, (forall w, In w l -> find_num (fw_id w) (g_set s) <> None) -> (b = None \/ b = Some BoolAnd) ->
  pkey_conds true (match b with None => true | _ => false end) l s = (key_conds b l, s).
Proof.
  induction l as [|w l IH]; intros b s H HB; [reflexivity|]. cbn [pkey_conds key_conds]. unfold param_field.
  destruct (find_num (fw_id w) (g_set s)) as [n|] eqn:E; [|exfalso; apply (H w); [left; reflexivity|exact E]].
  rewrite (IH (Some BoolAnd) s); [|intros x Hx; apply H; right; exact Hx|right; reflexivity].
  destruct HB as [-> | ->]; reflexivity.
Qed.
Lemma key_conds_map : forall P Q L M (f : P -> Q) (g : L -> M) l b,
  map (fun it => (fst it, bexpr_map f g (snd it))) (key_conds b l) = key_conds b l.
Proof. induction l as [|w l IH]; intro b; [reflexivity|]. cbn [key_conds map fst snd]. rewrite IH. reflexivity. Qed.
Lemma key_conds_lists : forall P L l b, flat_map (fun it => bexpr_lists (snd it)) (@key_conds P L b l) = [].
Proof. induction l as [|w l IH]; intro b; [reflexivity|]. cbn [key_conds flat_map]. rewrite IH. reflexivity. Qed.

Lemma kept_all : forall q l, (forall w, In w l -> defaulted q w = false) -> kept q l = l.
Proof.
  intros q l H. unfold kept. induction l as [|w l IH]; [reflexivity|]. cbn [filter]. rewrite (H w (or_introl eq_refl)). cbn.
  rewrite IH; [reflexivity|]. intros x Hx. apply H. right. exact Hx.
Qed.

Definition tail_is (tail : option gsql) (T : option fstmt) : Prop :=
  match tail, T with
  | None, None => True
  | Some n, Some st => forall X Y (f : Z -> X) (F : access -> X) (g : nat -> Y) (G : list bytes -> Y), stmt_map f g n = stmt_map F G st
  | _, _ => False
  end.

Lemma rows_parts : forall wc q t es M T, rows_intended q t es M T -> checked q t -> q_filter q = None ->
  exists main tail accs vals,
  buildQueryCode wc q t = slice_rows q (map (acc_expr GV) accs) vals (GDecl false main) tail
       ++ fallback (q_limit q) ++ fallback (q_offset q) ++ []
       ++ [GCall (method q) (call_ctx wc q) (match accs with [] => AList [] | _ => AParams end)]
  /\ q_limit q = None /\ q_offset q = None
  /\ plain_stmt main /\ (forall n, tail = Some n -> plain_stmt n) /\ vals <> [] /\ seqd 0 vals (zlen accs)
  /\ (forall X (f : Z -> X) (F : access -> X), agree f F 0 accs -> map (sexpr_map f) vals = map (sexpr_map F) es)
  /\ (forall X Y (f : Z -> X) (F : access -> X) (g : nat -> Y) (G : list bytes -> Y), stmt_map f g main = stmt_map F G M)
  /\ tail_is tail T.
Proof.
  intros wc q t es M T I (C1 & C2 & C3 & C4 & C5 & C6 & C7) FI. change (Forall (Forall only_columns) (ti_joins t)) in C7.
  assert (NE : forall ws vs s s', ws <> [] -> input_vals q ws s = (vs, s') -> vs <> []).
  { intros [|w ws] vs s s' NW E Q; [contradiction|]. subst vs. cbn [input_vals] in E.
    destruct (input_val q w s). destruct (input_vals q ws g). discriminate E. }
  assert (INS : forall vals, q_kind q = KInsert -> rt_slice (q_rtype q) = true -> ti_writes t <> [] ->
    Forall2 (stored q [] false) (ti_writes t) vals ->
    exists vs s', input_target_values q t g_init = (vs, [], s') /\ g_slices s' = [] /\ vs <> []
    /\ seqd 0 vs (zlen (map (wacc []) (kept q (ti_writes t))))
    /\ (forall X (f : Z -> X) (F : access -> X), agree f F 0 (map (wacc []) (kept q (ti_writes t))) ->
          map (sexpr_map f) vs = map (sexpr_map F) vals)
    /\ inputArgs q t = map (acc_expr GV) (map (wacc []) (kept q (ti_writes t)))
    /\ q_limit q = None /\ q_offset q = None
    /\ querySQL q t vs s' = (insert_stmt q t vs, s')).
  { intros vals K SL NW HV. assert (US : IsUpdateSlice q = false) by (unfold IsUpdateSlice; rewrite K; reflexivity).
    assert (U : IsUpdateWithPKeys q = false) by (apply update_pkeys; rewrite K; reflexivity).
    destruct C4 as [W J]; [exact K|]. destruct C2 as [L O]; [rewrite K; reflexivity|]. rewrite <- US in HV.
    destruct (vals_good _ _ _ _ HV g_init C5) as (vs & s' & E & N & S & MM & P & _ & _); [reflexivity|].
    exists vs, s'. split; [|split; [exact S|split; [apply (NE _ _ _ _ NW E)|split; [|split; [exact MM|split; [|split; [exact L|split; [exact O|]]]]]]]].
    - unfold input_target_values. destruct (ti_writes t); [contradiction|]. rewrite E, US. reflexivity.
    - apply input_vals_seqd in E; [|exact C5|reflexivity]. cbn [g_num g_init] in *. unfold zlen. rewrite map_length.
      replace (Z.of_nat (List.length (kept q (ti_writes t)))) with (g_num s') by lia. exact E.
    - unfold inputArgs. rewrite (write_args_rows _ _ SL). unfold where_args, pkey_args. rewrite W, U, L, O. cbn. apply app_nil_r.
    - unfold querySQL, tableJoinSlice. rewrite J. unfold whereClause. rewrite U, (C3 W).
      destruct (limits_none q s' L O) as (x & -> & ->). rewrite K. reflexivity. }
  destruct I as [vals K SL NW HV HC HR|vals ret K SL NW HV HR HN|vals from others K SL HQ HA NW HR HD HV HF HO].
  - destruct (INS vals K SL NW HV) as (vs & s' & E & S & VN & SQ & MM & A & L & O & QS).
    exists (StInsert (q_relid q) (inputCols t) (q_override q) [] None []), None, (map (wacc []) (kept q (ti_writes t))), vs.
    split; [|split; [exact L|split; [exact O|split; [reflexivity|split; [discriminate|split; [exact VN|split; [exact SQ|split; [exact MM|split; [reflexivity|exact Logic.I]]]]]]]]].
    assert (IS : insert_stmt q t vs = (StInsert (q_relid q) (inputCols t) (q_override q) [] None [], None)).
    { unfold insert_stmt, onConflictClause, outputVals. unfold conflict_is in HC. rewrite K, SL, HR. cbn [is_insert].
      destruct (ti_conflict t); [discriminate HC|]. reflexivity. }
    unfold buildQueryCode. rewrite E, QS, IS, FI, A, S. unfold call_args, IsInsertOrUpdateSlice, IsInsertOrUpdate.
    rewrite K, SL, FI. cbn [is_insert is_update orb andb is_some negb app]. rewrite app_nil_r.
    destruct (map (wacc []) (kept q (ti_writes t))); reflexivity.
  - destruct (INS vals K SL NW HV) as (vs & s' & E & S & VN & SQ & MM & A & L & O & QS).
    destruct (output_good _ _ HR) as [OM OP].
    exists (StInsert (q_relid q) (inputCols t) (q_override q) [] None []), (Some (StInsertTail (conflict_is t) (outputVals t))),
      (map (wacc []) (kept q (ti_writes t))), vs.
    split; [|split; [exact L|split; [exact O|split; [reflexivity|split; [intros n Q; injection Q as <-; reflexivity|
      split; [exact VN|split; [exact SQ|split; [exact MM|split; [reflexivity|]]]]]]]]].
    + assert (IS : insert_stmt q t vs = (StInsert (q_relid q) (inputCols t) (q_override q) [] None [],
          Some (StInsertTail (conflict_is t) (outputVals t)))).
      { unfold insert_stmt. assert (OC : onConflictClause q t = conflict_is t) by (unfold onConflictClause; rewrite K; reflexivity).
        rewrite OC, SL. assert (CUT : negb match @outputVals Z t with [] => true | _ => false end || is_some (conflict_is t) = true).
        { destruct HN as [HN|HN]; [destruct (conflict_is t); [apply orb_true_r|contradiction]|].
          unfold outputVals. destruct (ti_reads t); [contradiction|reflexivity]. }
        rewrite CUT. reflexivity. }
      unfold buildQueryCode. rewrite E, QS, IS, FI, A, S. unfold call_args, IsInsertOrUpdateSlice, IsInsertOrUpdate.
      rewrite K, SL, FI. cbn [is_insert is_update orb andb is_some negb app]. rewrite app_nil_r.
      destruct (map (wacc []) (kept q (ti_writes t))); reflexivity.
    + cbn [tail_is]. intros. cbn [stmt_map]. rewrite (OM _ f F). reflexivity.
  - assert (US : IsUpdateSlice q = true) by (unfold IsUpdateSlice; rewrite K, SL; reflexivity).
    assert (U : IsUpdateWithPKeys q = true) by (unfold IsUpdateWithPKeys, HasNoQualifier; rewrite K, HQ, FI, HA; reflexivity).
    destruct C2 as [L O]; [rewrite K; reflexivity|]. rewrite <- US in HV. apply other_unwritten in HO. subst others.
    destruct (vals_good _ _ _ _ HV g_init C5) as (vs & s1 & E & N & S & MM & P & UU & VV); [reflexivity|].
    rewrite (kept_all _ _ HD) in *. cbn [g_num g_init g_slices g_set] in *.
    assert (UND : NoDup (map fw_id (unwritten t (ti_pkeys t)))).
    { unfold unwritten. revert C6. generalize (ti_pkeys t). clear. induction l as [|w l IH]; intro ND; [constructor|].
      cbn [map] in ND. inversion ND as [|x l' NI ND']; subst. cbn [filter]. destruct (negb _); [|apply IH; exact ND'].
      cbn [map]. constructor; [|apply IH; exact ND']. intro IN. apply NI. apply in_map_iff in IN. destruct IN as (y & Q & IN).
      apply filter_In in IN. rewrite <- Q. apply in_map. apply IN. }
    assert (FRESH : forall w, In w (unwritten t (ti_pkeys t)) -> forall x, In x (ti_writes t) -> fw_id x <> fw_id w).
    { intros w IN x Hx Q. unfold unwritten in IN. apply filter_In in IN. destruct IN as [_ IN]. apply negb_true_iff in IN.
      assert (existsb (fun x => Nat.eqb (fw_id x) (fw_id w)) (ti_writes t) = true); [|congruence].
      apply existsb_exists. exists x. split; [exact Hx|]. apply Nat.eqb_eq. exact Q. }
    destruct (pkey_vals_good (unwritten t (ti_pkeys t)) s1 UND) as (ps & s2 & PE & PS & PN & PSL & PM & PK & PH).
    { intros w IN. rewrite UU; [reflexivity|]. intro Q. apply in_map_iff in Q. destruct Q as (x & Q & Hx).
      exact (FRESH w IN x Hx Q). }
    destruct (from_good _ _ _ HF C7 s2) as (js' & TJ & FM & FP & FK).
    assert (ALL : forall w, In w (ti_pkeys t) -> find_num (fw_id w) (g_set s2) <> None).
    { intros w IN. destruct (existsb (fun x => Nat.eqb (fw_id x) (fw_id w)) (ti_writes t)) eqn:Q.
      - apply existsb_exists in Q. destruct Q as (x & Hx & Q). apply Nat.eqb_eq in Q. rewrite <- Q.
        apply In_nth_error in Hx. destruct Hx as [i Hx]. rewrite (PK _ _ (VV _ _ Hx)). discriminate.
      - apply PH. unfold unwritten. apply filter_In. rewrite Q. split; [exact IN|reflexivity]. }
    assert (WC : whereClause q t s2 = (Some (YList false (key_conds None (ti_pkeys t))), s2)).
    { unfold whereClause. rewrite U, SL. rewrite (pkey_conds_rows (ti_pkeys t) None s2 ALL (or_introl eq_refl)). reflexivity. }
    destruct (limits_none q s2 L O) as (x & LC & OC).
    exists (StUpdate (q_relid q) (inputCols t) (updateCols q t) (from_list q js' ++ [TxValues]) None []),
      (Some (StUpdateTail (Some (B "x", inputCols t ++ inputColsPKeys t)) (Some (YList false (key_conds None (ti_pkeys t)))) [])),
      (map (wacc []) (ti_writes t) ++ map pacc (unwritten t (ti_pkeys t))), (vs ++ ps).
    assert (UC : forall P, @updateCols P q t = map (fun w => XCol (in_values (co_name (fw_col w)))) (ti_writes t)).
    { intro P0. unfold updateCols. change (fun w => negb (canUseDefault q (fw_field w))) with (fun w => negb (defaulted q w)).
      change (filter (fun w => negb (defaulted q w)) (ti_writes t)) with (kept q (ti_writes t)). rewrite (kept_all _ _ HD). reflexivity. }
    split; [|split; [exact L|split; [exact O|split; [|split; [|split; [|split; [|split; [|split]]]]]]]].
    + assert (A : inputArgs q t = map (acc_expr GV) (map (wacc []) (ti_writes t) ++ map pacc (unwritten t (ti_pkeys t)))).
      { unfold inputArgs. rewrite (write_args_rows _ _ SL), (kept_all _ _ HD). unfold where_args, pkey_args, inputRoot. rewrite HQ, U, L, O, SL.
        cbn [lim_args]. rewrite !app_nil_r, map_app. cbn [app]. f_equal. rewrite map_map. reflexivity. }
      assert (IT : input_target_values q t g_init = (vs, ps, s2)).
      { unfold input_target_values. destruct (ti_writes t) eqn:Q; [contradiction|]. rewrite <- Q in *. rewrite E, US.
        change (inputPKeys t) with (unwritten t (ti_pkeys t)). rewrite PE. reflexivity. }
      assert (QS : querySQL q t vs s2 = (update_stmt q t vs js' (Some (YList false (key_conds None (ti_pkeys t)))), s2)).
      { unfold querySQL. rewrite TJ, WC, LC, OC, K. reflexivity. }
      unfold buildQueryCode. rewrite IT, QS. unfold update_stmt. rewrite SL, US, FI, A.
      assert (G2 : g_slices s2 = []) by congruence. rewrite G2.
      unfold call_args, IsInsertOrUpdateSlice, IsInsertOrUpdate.
      rewrite K, SL, FI. cbn [is_insert is_update orb andb is_some negb app].
      destruct (map (wacc []) (ti_writes t) ++ map pacc (unwritten t (ti_pkeys t))); reflexivity.
    + unfold plain_stmt. cbn [stmt_lists opt_list]. rewrite flat_map_app, FK. reflexivity.
    + intros n Q. injection Q as <-. unfold plain_stmt. cbn [stmt_lists opt_list bexpr_lists]. apply key_conds_lists.
    + intro Q. apply app_eq_nil in Q. destruct Q as [Q _]. exact (NE _ _ _ _ NW E Q).
    + apply input_vals_seqd in E; [|exact C5|reflexivity]. cbn [g_num g_init] in E. eapply seqd_app; [exact E|].
      unfold zlen in *. rewrite app_length, !map_length.
      replace (Z.of_nat (List.length (ti_writes t) + List.length (unwritten t (ti_pkeys t)))) with (g_num s2) by lia. exact PS.
    + intros X f F HG. apply agree_app in HG. destruct HG as [G1 G2]. rewrite !map_app, (MM _ f F G1). f_equal. apply (PM _ f F).
      rewrite N. rewrite map_length in G2. exact G2.
    + intros. cbn [stmt_map option_map map]. rewrite !map_app, (FM _ _ f F g G), UC, !map_map. reflexivity.
    + cbn [tail_is]. intros. cbn [stmt_map option_map bexpr_map map]. rewrite !key_conds_map. reflexivity.
Qed.

Theorem rows_run : forall wc q t es M T D c recs, rows_intended q t es M T -> checked q t -> q_filter q = None ->
  gfield D (q_relname q) = Some (VSlice recs) -> recs <> [] -> run (buildQueryCode wc q t) D = Ok c ->
  exists main tail rows,
    cl_text c = TNode main :: rows_sql rows ++ match tail with Some n => [TChr " "%char; TNode n] | None => [] end
  /\ executed (cl_args c) main = filled D M
  /\ option_map (executed (cl_args c)) tail = option_map (filled D) T
  /\ rows_hold es recs (cl_args c) rows
  /\ cl_method c = method q /\ ctx_of wc q D = Some (cl_ctx c) /\ (zlen (cl_args c) <= 65535)%Z.
Proof.
  intros wc q t es M T D c recs I C FI RD RN R.
  destruct (rows_parts wc q t es M T I C FI) as (main & tail & accs & vals & E & L & O & PM & PT & VN & SQ & MM & MT & TI).
  rewrite E in R. destruct (run_rows _ _ _ _ _ _ _ _ _ _ L O PM PT VN SQ MM RD RN R) as (rows & TX & RH & ME & CX & LE).
  exists (rendered main), (option_map rendered tail), rows.
  split; [rewrite TX; destruct tail; reflexivity|]. split; [|split; [|split; [exact RH|split; [exact ME|split; [exact CX|exact LE]]]]].
  - unfold executed, filled, rendered. rewrite stmt_map_map. apply MT.
  - destruct tail as [n|], T as [st|]; cbn [tail_is] in TI; try contradiction; [|reflexivity]. cbn [option_map]. f_equal.
    unfold executed, filled, rendered. rewrite stmt_map_map. apply TI.
Qed.
