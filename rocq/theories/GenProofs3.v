(** Lemmas about the generator: whole statements. *)
From Coq Require Import Ascii String ZArith NArith Bool List Lia.
From Verif Require Import GoBase AParse Analysis Oids Gen GenRun GenSpec GenProofs GenProofs2.
Import ListNotations.
Local Open Scope string_scope.
Local Open Scope list_scope.

Lemma tableJoin_good : forall q t js, joins_are q t js -> Forall (Forall only_columns) (ti_joins t) -> forall s,
  exists js', tableJoinSlice q t s = (js', s)
  /\ (forall X Y (f : Z -> X) (F : access -> X) (g : nat -> Y) (G : list bytes -> Y),
        map (tjoin_map f g) js' = map (tjoin_map F G) js)
  /\ flat_map (fun j => bexpr_params noh (tj_cond j)) js' = []
  /\ flat_map (fun j => bexpr_lists (tj_cond j)) js' = [].
Proof.
  intros q t js [E|j js1 E F L] C s; unfold tableJoinSlice; rewrite E.
  - exists []. repeat split; reflexivity.
  - apply joins_good; assumption.
Qed.

Lemma from_good : forall q t from, from_is q t from -> Forall (Forall only_columns) (ti_joins t) -> forall s,
  exists js', tableJoinSlice q t s = (js', s)
  /\ (forall X Y (f : Z -> X) (F : access -> X) (g : nat -> Y) (G : list bytes -> Y),
        map (texpr_map f g) (from_list q js') = map (texpr_map F G) from)
  /\ flat_map (texpr_params noh) (from_list q js') = []
  /\ flat_map (fun x => match x with TxJoin j => bexpr_lists (tj_cond j) | _ => [] end) (from_list q js') = [].
Proof.
  intros q t from [E|j r js E R J] C s.
  - unfold tableJoinSlice, from_list. rewrite E. exists []. repeat split; reflexivity.
  - destruct (tableJoin_good _ _ _ J C s) as (js' & T & M & P & K). exists js'. split; [exact T|].
    unfold from_list. rewrite E, R. split; [|split].
    + intros. cbn [map texpr_map]. f_equal. specialize (M _ _ f F g G).
      rewrite !map_map. cbn [texpr_map]. rewrite <- (map_map (tjoin_map f g) TxJoin), <- (map_map (tjoin_map F G) TxJoin), M.
      reflexivity.
    + cbn [flat_map texpr_params app]. etransitivity; [|exact P]. clear. induction js' as [|j l IH]; [reflexivity|].
      cbn [map flat_map texpr_params]. rewrite IH. reflexivity.
    + cbn [flat_map app]. etransitivity; [|exact K]. clear. induction js' as [|j l IH]; [reflexivity|].
      cbn [map flat_map]. rewrite IH. reflexivity.
Qed.

Definition written_all (q : qstate) (t : tinfo) : Prop := is_insert (q_kind q) || is_update (q_kind q) = false -> ti_writes t = [].

Lemma limits_none : forall q s, q_limit q = None -> q_offset q = None ->
  exists x, limitClause q s = (x, s) /\ offsetClause q s = (LNone, s).
Proof.
  intros q s L O. unfold limitClause, offsetClause. rewrite L, O. eexists. split; reflexivity.
Qed.

Lemma in_opt_nil : forall (P : Type) i, In i (@nil P) <-> False.
Proof. intros. split; intro H; destruct H. Qed.

Lemma target_values_none : forall q t, ti_writes t = [] -> input_target_values q t g_init = ([], [], g_init).
Proof. intros q t E. unfold input_target_values. rewrite E. reflexivity. Qed.

Lemma target_values_good : forall q t vals, rt_slice (q_rtype q) = false ->
  Forall2 (stored q [q_relname q] false) (ti_writes t) vals -> NoDup (map fw_id (ti_writes t)) ->
  exists vs s', input_target_values q t g_init = (vs, [], s')
  /\ g_num s' = Z.of_nat (List.length (kept q (ti_writes t)))
  /\ g_slices s' = []
  /\ (forall X (f : Z -> X) (F : access -> X), agree f F 0 (map (wacc [q_relname q]) (kept q (ti_writes t))) ->
        map (sexpr_map f) vs = map (sexpr_map F) vals)
  /\ (forall i, In i (flat_map sexpr_params vs) <-> (0 < i <= g_num s')%Z)
  /\ (forall id, ~ In id (map fw_id (kept q (ti_writes t))) -> find_num id (g_set s') = None)
  /\ (forall i w, nth_error (kept q (ti_writes t)) i = Some w ->
        find_num (fw_id w) (g_set s') = Some (1 + Z.of_nat i)%Z).
Proof.
  intros q t vals SL H ND. assert (US : IsUpdateSlice q = false) by (unfold IsUpdateSlice; rewrite SL; apply andb_false_r).
  rewrite <- US in H.
  destruct (vals_good _ _ _ _ H g_init ND) as (vs & s' & E & N & S & M & P & U & V); [reflexivity|].
  exists vs, s'. split; [|].
  - unfold input_target_values. destruct (ti_writes t) as [|w ws] eqn:Q.
    + cbn in E. injection E as <- <-. reflexivity.
    + rewrite E, US. reflexivity.
  - cbn [g_num g_init g_slices g_set find_num] in *.
    split; [exact N|]. split; [exact S|]. split; [exact M|]. split; [exact P|]. split; [exact U|]. exact V.
Qed.

(** The where clause of a statement whose other clauses have no parameters. *)
Lemma wgood_params : forall s s' accs sls e' e, wgood s s' accs sls e' e ->
  g_num s' = (g_num s + Z.of_nat (List.length accs))%Z /\ g_set s' = g_set s
  /\ g_slices s' = g_slices s ++ map (gsel GQ) sls
  /\ (forall X Y (f : Z -> X) (F : access -> X) (g : nat -> Y) (G : list bytes -> Y),
        agree f F (g_num s) accs -> agreeS g G (List.length (g_slices s)) sls ->
        option_map (bexpr_map f g) e' = option_map (bexpr_map F G) e)
  /\ (forall i, In i (opt_list (bexpr_params noh) e') <-> (g_num s < i <= g_num s')%Z)
  /\ opt_list (@bexpr_lists Z nat) e' = seq (S (List.length (g_slices s))) (List.length sls).
Proof.
  intros s s' accs sls [e'|] [e|] H; cbn [wgood] in H; try contradiction.
  - destruct H as (N & S & L & M & P & K). split; [exact N|]. split; [exact S|]. split; [exact L|]. split; [|split].
    + intros. cbn [option_map]. rewrite (M _ _ f F g G); [reflexivity|assumption..].
    + exact P.
    + exact K.
  - destruct H as (-> & -> & ->). cbn. rewrite app_nil_r. split; [lia|]. repeat split; try reflexivity; try lia; try tauto.
Qed.

Lemma nil_length : forall A B (f : A -> B) l, List.length (map f l) = List.length l.
Proof. intros. apply map_length. Qed.

Lemma update_pkeys : forall q, is_update (q_kind q) = false -> IsUpdateWithPKeys q = false.
Proof. intros q E. unfold IsUpdateWithPKeys. rewrite E. reflexivity. Qed.

Theorem stmt_good : forall q t S, intended q t S -> checked q t -> q_filter q = None ->
  (forall l, q_kind q = KSelectCount -> q_limit q = Some l -> lf_name l = []) ->
  exists vals s1 main s2, input_target_values q t g_init = (vals, [], s1)
  /\ querySQL q t vals s1 = (main, None, s2) /\ sgood s2 (all_accs q t) (where_slices q t) main S.
Proof.
  intros q t S H (C1 & C2 & C3 & C4 & C5 & C6 & C7) FI CL. change (Forall (Forall only_columns) (ti_joins t)) in C7.
  destruct H as [vals ret K SL HV HR|vals from wh ret K SL HQ HV HF HW HR|vals from keys ret K SL HQ HA HV HF HK HR
                |cols joins wh l o K HR HJ HW HL HO|joins wh o K HJ HW HO|neg joins wh l o K HJ HW HL HO|from wh ret K HF HW HR].
  - (* insert *)
    destruct (target_values_good _ _ _ SL HV C5) as (vs & s1 & E & N & SLI & M & P & _ & _).
    destruct C4 as [W J]; [exact K|]. destruct C2 as [L O]; [rewrite K; reflexivity|].
    destruct (output_good _ _ HR) as [OM OP].
    eexists _, _, _, _. split; [exact E|]. split.
    + unfold querySQL, tableJoinSlice. rewrite J.
      assert (U : IsUpdateWithPKeys q = false) by (apply update_pkeys; rewrite K; reflexivity).
      unfold whereClause. rewrite U, (C3 W). destruct (limits_none q s1 L O) as (x & -> & ->). rewrite K. unfold insert_stmt. rewrite SL. reflexivity.
    + cbn [andb].
      assert (AA : all_accs q t = map (wacc [q_relname q]) (kept q (ti_writes t))).
      { unfold all_accs, where_accs, key_accs. rewrite W, L, O, update_pkeys by (rewrite K; reflexivity).
        cbn. apply app_nil_r. }
      rewrite AA. unfold where_slices. rewrite W. unfold sgood. rewrite map_length. split; [exact N|]. split; [exact SLI|].
      split; [|split].
      * intros X Y f F g G A _. cbn [stmt_map]. rewrite (M _ f F A), (OM _ f F). f_equal.
        unfold onConflictClause. rewrite K. reflexivity.
      * intro i. cbn [stmt_params]. rewrite OP, app_nil_r. apply P.
      * reflexivity.
  - (* update *)
    destruct (target_values_good _ _ _ SL HV C5) as (vs & s1 & E & N & SLI & M & P & _ & _).
    destruct C2 as [L O]; [rewrite K; reflexivity|]. destruct (output_good _ _ HR) as [OM OP].
    assert (U : IsUpdateWithPKeys q = false).
    { unfold IsUpdateWithPKeys, HasNoQualifier. destruct HQ as [HQ|HQ]; [destruct (q_where q); [|contradiction]|rewrite HQ];
        cbn; rewrite ?andb_false_r; reflexivity. }
    destruct (from_good _ _ _ HF C7 s1) as (js' & TJ & FM & FP & FK).
    destruct (where_good _ _ _ s1 HW C3 U) as (wh' & s2 & WC & WG).
    destruct (wgood_params _ _ _ _ _ _ WG) as (WN & _ & WS & WM & WP & WK).
    destruct (limits_none q s2 L O) as (x & LC & OC).
    eexists _, _, _, _. split; [exact E|]. split.
    + unfold querySQL. rewrite TJ, WC, LC, OC, K. unfold update_stmt. rewrite SL, FI. reflexivity.
    + unfold IsUpdateSlice. rewrite SL, andb_false_r.
      assert (AA : all_accs q t = map (wacc [q_relname q]) (kept q (ti_writes t)) ++ where_accs q t).
      { unfold all_accs, key_accs. rewrite U, L, O. cbn. rewrite app_nil_r. reflexivity. }
      rewrite AA. unfold sgood. rewrite app_length, map_length. rewrite SLI in *. cbn [List.length] in *.
      split; [lia|]. split; [exact WS|]. split; [|split].
      * intros X Y f F g G A AS. apply agree_app in A. destruct A as [A1 A2]. rewrite map_length in A2. cbn [stmt_map].
        rewrite (M _ f F A1), (OM _ f F), (FM _ _ f F g G), (WM _ _ f F g G); [reflexivity| |exact AS].
        rewrite N. exact A2.
      * intro i. cbn [stmt_params]. rewrite FP, OP, app_nil_r. cbn [app]. rewrite in_app_iff, P, WP. lia.
      * cbn [stmt_lists]. rewrite FK. cbn [app]. rewrite WK. try rewrite SLI. reflexivity.
  - (* update by key *)
    destruct (target_values_good _ _ _ SL HV C5) as (vs & s1 & E & N & SLI & M & P & SU & SV).
    destruct C2 as [L O]; [rewrite K; reflexivity|]. destruct (output_good _ _ HR) as [OM OP].
    assert (U : IsUpdateWithPKeys q = true) by (unfold IsUpdateWithPKeys, HasNoQualifier; rewrite K, HQ, FI, HA; reflexivity).
    destruct (from_good _ _ _ HF C7 s1) as (js' & TJ & FM & FP & FK).
    assert (KEPT : forall x, In x (ti_writes t) -> defaulted q x = false -> exists i, nth_error (kept q (ti_writes t)) i = Some x).
    { intros x IN D. apply In_nth_error. unfold kept. apply filter_In. rewrite D. split; [exact IN|reflexivity]. }
    destruct (keys_good _ _ _ _ _ HK (or_introl eq_refl) s1 C6) as (items & s2 & KC & KN & KS & KM & KP1 & KP2 & KL).
    { intros w _ A. apply SU. intro IN. apply in_map_iff in IN. destruct IN as (x & Q & IN). apply filter_In in IN.
      destruct IN as [IN _]. exact (A x IN Q). }
    { intros x IN D. destruct (KEPT x IN D) as [i Q]. rewrite (SV _ _ Q). eexists. split; [reflexivity|]. rewrite N.
      assert (i < List.length (kept q (ti_writes t))) by (apply nth_error_Some; congruence). lia. }
    { rewrite N. lia. }
    destruct (limits_none q s2 L O) as (x & LC & OC).
    eexists _, _, _, _. split; [exact E|]. split.
    + unfold querySQL, whereClause. rewrite TJ, U, SL, KC, LC, OC, K. unfold update_stmt. rewrite SL, FI. reflexivity.
    + unfold IsUpdateSlice. rewrite SL, andb_false_r.
      assert (AA : all_accs q t = map (wacc [q_relname q]) (kept q (ti_writes t)) ++ map (kacc q) (unwritten t (ti_pkeys t))).
      { unfold all_accs, key_accs, where_accs. rewrite U, L, O, HQ. cbn. rewrite app_nil_r. reflexivity. }
      rewrite AA. unfold where_slices. rewrite HQ. unfold sgood. rewrite app_length, !map_length. rewrite SLI in *.
      cbn [List.length] in *. split; [lia|]. split; [exact KS|]. split; [|split].
      * intros X Y f F g G A _. apply agree_app in A. destruct A as [A1 A2]. rewrite map_length in A2. cbn [stmt_map option_map bexpr_map].
        rewrite (M _ f F A1), (OM _ f F), (FM _ _ f F g G). rewrite (KM _ _ f F g G); [reflexivity|rewrite N; exact A2|].
        intros y n IN D Q. destruct (KEPT y IN D) as [i QI]. rewrite (SV _ _ QI) in Q. injection Q as <-.
        replace (1 + Z.of_nat i)%Z with (0 + 1 + Z.of_nat i)%Z by lia. apply A1. rewrite nth_error_map, QI. reflexivity.
      * intro i. cbn [stmt_params opt_list bexpr_params]. rewrite FP, OP, app_nil_r. cbn [app]. rewrite in_app_iff, P.
        split; [intros [B|B]; [lia|apply KP2 in B; lia]|]. intro B.
        destruct (Z.le_gt_cases i (g_num s1)) as [Q|Q]; [left; lia|right; apply KP1; lia].
      * cbn [stmt_lists opt_list bexpr_lists]. rewrite FK, KL. reflexivity.
  - (* select *)
    assert (W : ti_writes t = []) by (apply C1; rewrite K; reflexivity).
    assert (U : IsUpdateWithPKeys q = false) by (apply update_pkeys; rewrite K; reflexivity).
    destruct (output_good _ _ HR) as [OM OP].
    destruct (tableJoin_good _ _ _ HJ C7 g_init) as (js' & TJ & JM & JP & JK).
    destruct (where_good _ _ _ g_init HW C3 U) as (wh' & s2 & WC & WG).
    destruct (wgood_params _ _ _ _ _ _ WG) as (WN & _ & WS & WM & WP & WK).
    destruct (limit_good _ _ s2 HL) as (l' & s3 & LC & (LN & _ & LS & LM & LP)).
    destruct (number_good _ _ s3 HO q eq_refl) as (o' & s4 & OC & (ON & _ & OS & ONM & ONP)).
    eexists _, _, _, _. split; [apply target_values_none; exact W|]. split.
    + unfold querySQL. rewrite TJ, WC, LC, OC, K. reflexivity.
    + assert (AA : all_accs q t = where_accs q t ++ lim_accs (q_limit q) ++ lim_accs (q_offset q)).
      { unfold all_accs, key_accs. rewrite U, W. reflexivity. }
      rewrite AA. unfold sgood. rewrite !app_length. cbn [g_num g_init g_slices List.length app] in *. split; [lia|].
      split; [congruence|]. split; [|split].
      * intros X Y f F g G A AS. apply agree_app in A. destruct A as [A1 A2]. apply agree_app in A2. destruct A2 as [A2 A3].
        cbn [stmt_map]. rewrite (OM _ f F), (JM _ _ f F g G), (WM _ _ f F g G A1 AS).
        rewrite (LM _ f F), (ONM _ f F); [reflexivity| |].
        -- rewrite LN, WN. exact A3.
        -- rewrite WN. exact A2.
      * intro i. cbn [stmt_params]. rewrite OP, JP. cbn [app]. rewrite !in_app_iff, WP, LP, ONP. lia.
      * cbn [stmt_lists]. rewrite JK. cbn [app]. rewrite WK. reflexivity.
  - (* count *)
    assert (W : ti_writes t = []) by (apply C1; rewrite K; reflexivity).
    assert (U : IsUpdateWithPKeys q = false) by (apply update_pkeys; rewrite K; reflexivity).
    destruct (tableJoin_good _ _ _ HJ C7 g_init) as (js' & TJ & JM & JP & JK).
    destruct (where_good _ _ _ g_init HW C3 U) as (wh' & s2 & WC & WG).
    destruct (wgood_params _ _ _ _ _ _ WG) as (WN & _ & WS & WM & WP & WK).
    assert (LC : exists l', limitClause q s2 = (l', s2) /\ lim_accs (q_limit q) = []).
    { unfold limitClause, lim_accs. destruct (q_limit q) as [l|] eqn:Q; [|eexists; split; reflexivity].
      rewrite (CL l K eq_refl). eexists. split; reflexivity. }
    destruct LC as (l' & LC & LA).
    destruct (number_good _ _ s2 HO q eq_refl) as (o' & s4 & OC & (ON & _ & OS & ONM & ONP)).
    eexists _, _, _, _. split; [apply target_values_none; exact W|]. split.
    + unfold querySQL. rewrite TJ, WC, LC, OC, K, FI. reflexivity.
    + assert (AA : all_accs q t = where_accs q t ++ lim_accs (q_offset q)).
      { unfold all_accs, key_accs. rewrite U, W, LA. reflexivity. }
      rewrite AA. unfold sgood. rewrite !app_length. cbn [g_num g_init g_slices List.length app is_some] in *. split; [lia|].
      split; [congruence|]. split; [|split].
      * intros X Y f F g G A AS. apply agree_app in A. destruct A as [A1 A2].
        cbn [stmt_map]. rewrite (JM _ _ f F g G), (WM _ _ f F g G A1 AS).
        rewrite (ONM _ f F); [reflexivity|]. rewrite WN. exact A2.
      * intro i. cbn [stmt_params]. rewrite JP. cbn [app]. rewrite !in_app_iff, WP, ONP. lia.
      * cbn [stmt_lists]. rewrite JK. cbn [app]. rewrite WK. reflexivity.
  - (* exists *)
    assert (KU : is_update (q_kind q) = false /\ is_insert (q_kind q) = false) by (rewrite K; destruct neg; split; reflexivity).
    assert (W : ti_writes t = []) by (apply C1; destruct KU as [-> ->]; reflexivity).
    assert (U : IsUpdateWithPKeys q = false) by (apply update_pkeys; apply KU).
    destruct (tableJoin_good _ _ _ HJ C7 g_init) as (js' & TJ & JM & JP & JK).
    destruct (where_good _ _ _ g_init HW C3 U) as (wh' & s2 & WC & WG).
    destruct (wgood_params _ _ _ _ _ _ WG) as (WN & _ & WS & WM & WP & WK).
    destruct (limit_good _ _ s2 HL) as (l' & s3 & LC & (LN & _ & LS & LM & LP)).
    destruct (number_good _ _ s3 HO q eq_refl) as (o' & s4 & OC & (ON & _ & OS & ONM & ONP)).
    exists [], g_init, (StExists neg false (q_relid q) js' wh' (orderClause q) l' o'), s4.
    split; [apply target_values_none; exact W|]. split.
    + unfold querySQL. rewrite TJ, WC, LC, OC, K, FI. destruct neg; reflexivity.
    + assert (AA : all_accs q t = where_accs q t ++ lim_accs (q_limit q) ++ lim_accs (q_offset q)).
      { unfold all_accs, key_accs. rewrite U, W. reflexivity. }
      rewrite AA. unfold sgood. rewrite !app_length. cbn [g_num g_init g_slices List.length app] in *. split; [lia|].
      split; [congruence|]. split; [|split].
      * intros X Y f F g G A AS. apply agree_app in A. destruct A as [A1 A2]. apply agree_app in A2. destruct A2 as [A2 A3].
        cbn [stmt_map]. rewrite (JM _ _ f F g G), (WM _ _ f F g G A1 AS).
        rewrite (LM _ f F), (ONM _ f F); [reflexivity| |].
        -- rewrite LN, WN. exact A3.
        -- rewrite WN. exact A2.
      * intro i. cbn [stmt_params]. rewrite JP. cbn [app]. rewrite !in_app_iff, WP, LP, ONP. lia.
      * cbn [stmt_lists]. rewrite JK. cbn [app]. rewrite WK. reflexivity.
  - (* delete *)
    assert (W : ti_writes t = []) by (apply C1; rewrite K; reflexivity).
    assert (U : IsUpdateWithPKeys q = false) by (apply update_pkeys; rewrite K; reflexivity).
    destruct C2 as [L O]; [rewrite K; reflexivity|]. destruct (output_good _ _ HR) as [OM OP].
    destruct (from_good _ _ _ HF C7 g_init) as (js' & TJ & FM & FP & FK).
    destruct (where_good _ _ _ g_init HW C3 U) as (wh' & s2 & WC & WG).
    destruct (wgood_params _ _ _ _ _ _ WG) as (WN & _ & WS & WM & WP & WK).
    destruct (limits_none q s2 L O) as (x & LC & OC).
    eexists _, _, _, _. split; [apply target_values_none; exact W|]. split.
    + unfold querySQL. rewrite TJ, WC, LC, OC, K. reflexivity.
    + assert (AA : all_accs q t = where_accs q t).
      { unfold all_accs, key_accs. rewrite U, W, L, O. cbn. apply app_nil_r. }
      rewrite AA. unfold sgood. cbn [g_num g_init g_slices List.length app] in *.
      split; [lia|]. split; [exact WS|]. split; [|split].
      * intros X Y f F g G A AS. cbn [stmt_map]. rewrite (OM _ f F), (FM _ _ f F g G), (WM _ _ f F g G A AS). reflexivity.
      * intro i. cbn [stmt_params]. rewrite FP, OP, app_nil_r. cbn [app]. rewrite WP. lia.
      * cbn [stmt_lists]. rewrite FK. cbn [app]. rewrite WK. reflexivity.
Qed.
