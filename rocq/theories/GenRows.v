(** Running the method of a query that writes a slice of records. *)
From Coq Require Import Ascii String ZArith NArith Bool List Lia.
From Verif Require Import GoBase ConvertProofs AParse Analysis Oids Gen GenRun GenSpec GenRowsSpec GenProofs GenProofs2 GenProofs3 GenExec GenExec2.
Import ListNotations.
Local Open Scope string_scope.
Local Open Scope list_scope.

(** ** The values of a row are numbered in order *)

Definition shaped (n : Z) (e : sexpr Z) : Prop :=
  e = XParam n \/ (exists l, e = XNullif (XParam n) l) \/ (exists l t, e = XCast (XNullif (XParam n) l) t)
  \/ (exists t, e = XCast (XParam n) t).
Inductive seqd : Z -> list (sexpr Z) -> Z -> Prop :=
| seqd_nil : forall n, seqd n [] n
| seqd_default : forall n l m, seqd n l m -> seqd n (XDefault :: l) m
| seqd_cell : forall n e l m, shaped (n + 1) e -> seqd (n + 1) l m -> seqd n (e :: l) m.
Lemma seqd_app : forall n a m b k, seqd n a m -> seqd m b k -> seqd n (a ++ b) k.
Proof. intros n a m b k H. induction H; intro K; cbn; [exact K|constructor|constructor]; auto. Qed.
Lemma seqd_le : forall n a m, seqd n a m -> (n <= m)%Z.
Proof. intros n a m H. induction H; lia. Qed.
Lemma shaped_params : forall n e, shaped n e -> sexpr_params e = [n].
Proof. intros n e [->|[(l & ->)|[(l & t & ->)|(t & ->)]]]; reflexivity. Qed.
Lemma shaped_map : forall n e f, shaped n e -> shaped (f n) (sexpr_map f e).
Proof. intros n e f [->|[(l & ->)|[(l & t & ->)|(t & ->)]]]; cbn; unfold shaped; eauto 8. Qed.
Lemma seqd_params : forall n a m, seqd n a m -> flat_map sexpr_params a = in_numbers (m - n) n.
Proof.
  intros n a m H. induction H as [n|n l m H IH|n e l m SH H IH]; cbn [flat_map].
  - rewrite Z.sub_diag. reflexivity.
  - exact IH.
  - rewrite (shaped_params _ _ SH), IH. assert (L := seqd_le _ _ _ H).
    replace (m - n)%Z with (1 + (m - (n + 1)))%Z by lia. rewrite in_numbers_app by lia.
    assert (in_numbers 1 n = [(n + 1)%Z]) as -> by (unfold in_numbers; change (Z.to_nat 1) with 1; cbn [seq map]; f_equal; lia).
    reflexivity.
Qed.

Lemma store_wrap_shaped : forall q w n, shaped n (store_wrap q w (XParam n)).
Proof.
  intros q w n. unfold store_wrap, shaped. destruct (NeedsNULLIF w); [|destruct (IsUpdateSlice q); eauto 6].
  unfold addNULLIFCallExpr. destruct (N.eqb _ _); [eauto 6|]. destruct (find_oid _ _); eauto 6.
Qed.
Lemma input_vals_seqd : forall q ws s vs s', NoDup (map fw_id ws) ->
  (forall w, In w ws -> find_num (fw_id w) (g_set s) = None) ->
  input_vals q ws s = (vs, s') -> seqd (g_num s) vs (g_num s').
Proof.
  intros q ws. induction ws as [|w ws IH]; intros s vs s' ND FR E; cbn [input_vals] in E.
  - injection E as <- <-. constructor.
  - cbn [map] in ND. inversion ND as [|x l NI ND']; subst.
    destruct (defaulted q w) eqn:D.
    + unfold input_val in E. change (canUseDefault q (fw_field w)) with (defaulted q w) in E. rewrite D in E.
      destruct (input_vals q ws s) as [vs' s1] eqn:E1. injection E as <- <-. constructor.
      eapply IH; [exact ND'| |exact E1]. intros x Hx. apply FR. right. exact Hx.
    + rewrite (input_val_kept _ _ _ D) in E. unfold param_field in E. rewrite (FR w (or_introl eq_refl)) in E. cbn [fst snd] in E.
      destruct (input_vals q ws _) as [vs' s1] eqn:E1. injection E as <- <-. constructor; [apply store_wrap_shaped|].
      apply IH in E1; [exact E1|exact ND'|]. intros x Hx. cbn [g_set]. rewrite find_num_cons.
      destruct (Nat.eqb_spec (fw_id x) (fw_id w)) as [Q|Q]; [|apply FR; right; exact Hx].
      exfalso. apply NI. rewrite <- Q. apply in_map. exact Hx.
Qed.

(** ** The text of a row *)

Definition shift (pos : Z) : sexpr Z -> sexpr Z := sexpr_map (fun n => n + pos)%Z.
Fixpoint cells_sql (sep : bytes) (l : list (sexpr Z)) : list tok :=
  match l with [] => [] | e :: r => toks sep ++ cell_sql e ++ cells_sql (B ", ") r end.
Lemma cells_separated : forall e l sep, cells_sql sep (e :: l) = toks sep ++ separated (B ", ") (map cell_sql (e :: l)).
Proof.
  intros e l. revert e. induction l as [|x l IH]; intros e sep.
  - cbn. rewrite app_nil_r. reflexivity.
  - change (cells_sql sep (e :: x :: l)) with (toks sep ++ cell_sql e ++ cells_sql (B ", ") (x :: l)). rewrite IH. reflexivity.
Qed.
Definition ords_ok (l : list Z) : bool := forallb (fun n => ordinal_ok (n - 1)) l.

Lemma strs_app : forall s a b, strs s (a ++ b) = bind (strs s a) (fun x => rmap (app x) (strs s b)).
Proof.
  intros s a b. induction a as [|x a IH].
  - cbn. destruct (strs s b); reflexivity.
  - cbn [app strs]. destruct (str_eval s x) as [t| |]; [|reflexivity..]. cbn [bind]. rewrite IH.
    destruct (strs s a) as [u| |]; [|reflexivity..]. cbn [bind rmap]. destruct (strs s b) as [v| |]; [|reflexivity..].
    cbn. rewrite app_assoc. reflexivity.
Qed.
Lemma toks_app : forall a b, toks (a ++ b) = toks a ++ toks b.
Proof. intros. apply map_app. Qed.

Lemma strs_cell : forall s sep k e, shaped (k + 1) e ->
  strs s (row_cell sep k e) =
  if ordinal_ok (s_int s VPos + k) then Ok (toks sep ++ cell_sql (shift (s_int s VPos) e)) else Panic.
Proof.
  intros s sep k e [->|[(l & ->)|[(l & t & ->)|(t & ->)]]]; cbn [row_cell strs str_eval ieval bind rmap];
    unfold shift; cbn [sexpr_map cell_sql];
    destruct (ordinal_ok (s_int s VPos + k)); unfold rmap; cbn [bind]; try reflexivity; f_equal;
    replace (s_int s VPos + k + 1)%Z with (k + 1 + s_int s VPos)%Z by lia;
    rewrite ?toks_app, <- ?app_assoc; cbn [app]; rewrite ?app_nil_r; reflexivity.
Qed.

Lemma strs_cells : forall k l m s sep, seqd k l m ->
  strs s (row_cells sep k l) =
  if ords_ok (flat_map sexpr_params (map (shift (s_int s VPos)) l)) then Ok (cells_sql sep (map (shift (s_int s VPos)) l)) else Panic.
Proof.
  intros k l m s sep H. revert sep. induction H as [n|n l m H IH|n e l m SH H IH]; intro sep.
  - reflexivity.
  - cbn [row_cells]. cbn [row_cell app strs str_eval bind]. rewrite IH. cbn [map flat_map]. 
    change (sexpr_params (shift (s_int s VPos) XDefault)) with (@nil Z). cbn [app].
    destruct (ords_ok _); [|reflexivity]. cbn. rewrite toks_app, <- app_assoc. reflexivity.
  - cbn [row_cells]. rewrite strs_app, (strs_cell _ _ _ _ SH).
    assert (E : (match e with XDefault => n | _ => n + 1 end)%Z = (n + 1)%Z).
    { destruct SH as [->|[(x & ->)|[(x & t & ->)|(t & ->)]]]; reflexivity. }
    rewrite E. cbn [map flat_map].
    assert (P : sexpr_params (shift (s_int s VPos) e) = [(n + 1 + s_int s VPos)%Z]).
    { unfold shift. rewrite sexpr_params_map, (shaped_params _ _ SH). reflexivity. }
    rewrite P. cbn [app ords_ok forallb].
    replace (n + 1 + s_int s VPos - 1)%Z with (s_int s VPos + n)%Z by lia.
    destruct (ordinal_ok (s_int s VPos + n)); cbn [bind andb]; [|reflexivity]. rewrite IH. unfold ords_ok.
    destruct (forallb _ _); [|reflexivity]. cbn. rewrite <- app_assoc. reflexivity.
Qed.

Lemma strs_row : forall l m s, l <> [] -> seqd 0 l m ->
  strs s (row_text l) =
  if ords_ok (flat_map sexpr_params (map (shift (s_int s VPos)) l))
  then Ok (row_sql (map (shift (s_int s VPos)) l) ++ toks (B ",")) else Panic.
Proof.
  intros l m s NE H. unfold row_text. rewrite strs_app, (strs_cells _ _ _ _ _ H).
  destruct (ords_ok _); [|reflexivity]. cbn [bind strs str_eval rmap].
  destruct l as [|e l]; [contradiction|]. cbn [map]. rewrite cells_separated. unfold row_sql. f_equal.
  rewrite <- !app_assoc. reflexivity.
Qed.

(** ** One record *)

Lemma set_args_ok : forall args k s pre rest,
  s_params s = pre ++ rest -> (s_int s VPos + k)%Z = zlen pre -> List.length args <= List.length rest ->
  seqM (map exec (set_args k args)) s
  = bind (evals s args) (fun vals => Ok (set_params (pre ++ vals ++ skipn (List.length args) rest) s)).
Proof.
  induction args as [|a args IH]; intros k s pre rest P K L; cbn [set_args map seqM evals].
  - cbn. rewrite <- P. destruct s; reflexivity.
  - destruct rest as [|x rest]; [cbn in L; lia|]. cbn [exec ieval bind].
    destruct (eval s a) as [v| |]; [|reflexivity..]. cbn [bind]. unfold zlen in K.
    destruct (Z.ltb_spec (s_int s VPos + k) 0) as [Q|Q]; [lia|]. rewrite P, K, Nat2Z.id, set_nth_app. cbn [or_panic rmap bind].
    rewrite (IH _ _ (pre ++ [v]) rest).
    + rewrite evals_params. destruct (evals s args) as [vals| |]; [|reflexivity..]. cbn [bind rmap].
      rewrite <- app_assoc. reflexivity.
    + cbn [s_params set_params]. rewrite <- app_assoc. reflexivity.
    + unfold zlen. rewrite app_length. cbn. lia.
    + cbn in L. lia.
Qed.
Lemma evals_accs_v : forall accs s, evals s (map (acc_expr GV) accs) =
  match mapM (fun a => or_panic (value (s_v s) a)) accs with Ok vs => Ok vs | _ => Panic end.
Proof.
  induction accs as [|a accs IH]; intro s; [reflexivity|]. cbn [map evals mapM]. rewrite eval_acc_v, IH.
  destruct (value (s_v s) a); [|reflexivity]. cbn [or_panic bind rmap]. destruct (mapM _ accs); reflexivity.
Qed.
Definition rec_values (accs : list access) (v : gv) (vs : list gv) : Prop := Forall2 (fun a x => value v a = Some x) accs vs.
Lemma mapM_values : forall accs v vs, mapM (fun a => or_panic (value v a)) accs = Ok vs <-> rec_values accs v vs.
Proof.
  unfold rec_values. induction accs as [|a accs IH]; intros v vs; cbn [mapM].
  - split; intro H; [injection H as <-; constructor|inversion H; reflexivity].
  - destruct (value v a) as [x|] eqn:E; cbn [or_panic bind].
    + destruct (mapM _ accs) as [ys| |] eqn:M; cbn [bind].
      * split; intro H; [injection H as <-; constructor; [exact E|apply IH; exact M]|].
        inversion H as [|a' b l m EA EB]; subst. rewrite E in EA. injection EA as ->. apply IH in EB. rewrite M in EB.
        injection EB as ->. reflexivity.
      * split; intro H; [discriminate H|]. inversion H as [|a' b l m EA EB]; subst. apply IH in EB. congruence.
      * split; intro H; [discriminate H|]. inversion H as [|a' b l m EA EB]; subst. apply IH in EB. congruence.
    + split; intro H; [discriminate H|]. inversion H as [|a' b l m EA EB]; subst. congruence.
Qed.

(** ** The loop *)

Definition keeps (s s' : st) : Prop := s_q s' = s_q s /\ s_filter s' = s_filter s /\ s_call s' = s_call s.
Lemma keeps_trans : forall a b c, keeps a b -> keeps b c -> keeps a c.
Proof. unfold keeps. intros a b c (A & B & C) (D & E & F). repeat split; congruence. Qed.

Fixpoint row_list (cnt pos : Z) (n : nat) (vals : list (sexpr Z)) : list (list (sexpr Z)) :=
  match n with O => [] | S n => map (shift pos) vals :: row_list cnt (pos + cnt) n vals end.
Definition comma_rows (rows : list (list (sexpr Z))) : list tok := flat_map (fun r => row_sql r ++ toks (B ",")) rows.

Lemma loop_rows : forall accs vals recs i s s' pre rest, accs <> [] -> vals <> [] ->
  seqd 0 vals (zlen accs) ->
  s_params s = pre ++ rest -> zlen pre = (i * zlen accs)%Z -> List.length rest = List.length recs * List.length accs ->
  range_loop (seqM (map exec (GInt VPos (IMul (IVar VI) (IConst (zlen accs))) :: set_args 0 (map (acc_expr GV) accs)
                              ++ [GAppend (row_text vals)]))) i recs s = Ok s' ->
  exists vss, Forall2 (rec_values accs) recs vss /\ keeps s s' /\ s_params s' = pre ++ concat vss
  /\ s_text s' = s_text s ++ comma_rows (row_list (zlen accs) (zlen pre) (List.length recs) vals)
  /\ forall r, In r (row_list (zlen accs) (zlen pre) (List.length recs) vals) -> ords_ok (flat_map sexpr_params r) = true.
Proof.
  intros accs vals recs. induction recs as [|v recs IH]; intros i s s' pre rest AN VN SQ P PO LR R.
  - cbn in R. injection R as <-. exists []. split; [constructor|]. split; [repeat split|]. cbn in LR.
    destruct rest; [|discriminate LR]. split; [exact P|]. split; [cbn; symmetry; apply app_nil_r|]. intros r [].
  - cbn [range_loop] in R. apply bind_ok in R. destruct R as (s1 & R1 & R2).
    cbn [map seqM exec ieval bind] in R1. rewrite set_int_at in R1. cbn [rmap bind] in R1.
    rewrite map_app, seqM_app in R1. set (sa := set_int VPos _ _) in R1.
    assert (PA : s_params sa = pre ++ rest) by exact P.
    assert (IP : s_int sa VPos = zlen pre) by (unfold sa; rewrite set_int_at, PO; reflexivity).
    rewrite (set_args_ok _ 0 sa pre rest PA) in R1.
    2: { rewrite IP. lia. }
    2: { rewrite map_length, LR. cbn. lia. }
    rewrite evals_accs_v in R1. change (s_v sa) with v in R1.
    destruct (mapM _ accs) as [vs| |] eqn:MV; cbn [bind] in R1; try discriminate R1. apply mapM_values in MV.
    cbn [map seqM exec bind] in R1. apply bind_ok in R1. destruct R1 as (s2 & R1 & E2). injection E2 as ->.
    rewrite (strs_row _ _ _ VN SQ) in R1.
    change (s_int (set_params (pre ++ vs ++ skipn (List.length (map (acc_expr GV) accs)) rest) sa) VPos) with (s_int sa VPos) in R1.
    rewrite IP in R1. destruct (ords_ok _) eqn:OK; [|discriminate R1]. cbn [rmap bind] in R1. injection R1 as <-.
    match type of R2 with range_loop _ _ _ ?x = _ => set (s3 := x) in R2 end.
    assert (LV : List.length vs = List.length accs) by (symmetry; eapply forall2_length; exact MV).
    destruct (IH (i + 1)%Z s3 s' (pre ++ vs) (skipn (List.length accs) rest) AN VN SQ) as (vss & F & KP & PP & TT & OO).
    + unfold s3. cbn [s_params set_params set_text]. rewrite map_length, app_assoc. reflexivity.
    + unfold zlen in *. rewrite app_length, LV. lia.
    + rewrite skipn_length, LR. cbn. lia.
    + exact R2.
    + assert (ZL : zlen (pre ++ vs) = (zlen pre + zlen accs)%Z) by (unfold zlen; rewrite app_length, LV; lia).
      rewrite ZL in TT, OO.
      exists (vs :: vss). split; [constructor; assumption|]. split; [eapply keeps_trans; [|exact KP]; repeat split|].
      split; [rewrite PP, <- app_assoc; reflexivity|]. split.
      * rewrite TT. unfold s3. cbn [s_text set_text set_params]. cbn [List.length row_list comma_rows flat_map].
        rewrite <- app_assoc. reflexivity.
      * cbn [List.length row_list]. intros r [<-|I]; [exact OK|apply OO; exact I].
Qed.

Lemma default_shift : forall n l m, seqd n l m -> (m <= n)%Z -> forall x y, map (shift x) l = map (shift y) l.
Proof.
  intros n l m SQ. induction SQ as [n|n l m H IH|n e l m SH H IH]; intros Q x y; cbn [map]; [reflexivity| |].
  - f_equal. apply IH. exact Q.
  - apply seqd_le in H. lia.
Qed.
Lemma loop_default : forall vals recs i s s', vals <> [] -> seqd 0 vals 0 ->
  range_loop (seqM (map exec [GAppend (row_text vals)])) i recs s = Ok s' ->
  keeps s s' /\ s_params s' = s_params s
  /\ s_text s' = s_text s ++ comma_rows (row_list 0 0 (List.length recs) vals).
Proof.
  intros vals recs. induction recs as [|v recs IH]; intros i s s' VN SQ R.
  - cbn in R. injection R as <-. split; [repeat split|]. split; [reflexivity|]. cbn. symmetry. apply app_nil_r.
  - cbn [range_loop] in R. apply bind_ok in R. destruct R as (s1 & R1 & R2).
    cbn [map seqM exec bind] in R1. apply bind_ok in R1. destruct R1 as (s2 & R1 & E2). injection E2 as ->.
    rewrite (strs_row _ _ _ VN SQ) in R1. destruct (ords_ok _) eqn:OK; [|discriminate R1]. injection R1 as <-.
    match type of R2 with range_loop _ _ _ ?x = _ => set (s3 := x) in R2 end.
    destruct (IH _ _ _ VN SQ R2) as (KP & PP & TT). split; [eapply keeps_trans; [|exact KP]; repeat split|].
    split; [rewrite PP; reflexivity|]. rewrite TT. unfold s3. cbn [s_text set_text].
    cbn [List.length row_list comma_rows flat_map]. rewrite <- app_assoc.
    rewrite (default_shift _ _ _ SQ ltac:(lia) _ 0%Z). reflexivity.
Qed.

Lemma comma_rows_chop : forall t r rows, chop (t ++ comma_rows (r :: rows)) = Ok (t ++ rows_sql (r :: rows)).
Proof.
  intros t r rows.
  assert (E : comma_rows (r :: rows) = rows_sql (r :: rows) ++ toks (B ",")).
  { revert r. induction rows as [|x rows IH]; intro r.
    - cbn. rewrite app_nil_r. reflexivity.
    - change (comma_rows (r :: x :: rows)) with ((row_sql r ++ toks (B ",")) ++ comma_rows (x :: rows)). rewrite IH.
      unfold rows_sql. cbn [map separated]. rewrite <- !app_assoc. reflexivity. }
  rewrite E. unfold chop. rewrite app_assoc, rev_app_distr. cbn [toks map B list_ascii_of_string rev app].
  rewrite rev_involutive. reflexivity.
Qed.

(** ** The arguments hold the records *)

Lemma row_list_params : forall n cnt pos vals m, seqd 0 vals m -> cnt = m -> (0 <= m)%Z ->
  flat_map (flat_map sexpr_params) (row_list cnt pos n vals) = in_numbers (Z.of_nat n * cnt) pos.
Proof.
  induction n as [|n IH]; intros cnt pos vals m SQ E NN; [reflexivity|]. cbn [row_list flat_map]. rewrite (IH _ _ _ _ SQ E NN).
  replace (Z.of_nat (S n) * cnt)%Z with (cnt + Z.of_nat n * cnt)%Z by lia. rewrite in_numbers_app by lia. f_equal.
  assert (FM : flat_map sexpr_params (map (shift pos) vals) = map (fun x => x + pos)%Z (flat_map sexpr_params vals)).
  { rewrite flat_map_map2, map_flat_map. apply flat_map_ext_in. intros. unfold shift. apply sexpr_params_map. }
  rewrite FM, (seqd_params _ _ _ SQ), Z.sub_0_r, E. unfold in_numbers. rewrite map_map. apply map_ext. intro. lia.
Qed.

Lemma one_to_numbers : forall l : list gv, one_to (List.length l) = in_numbers (zlen l) 0.
Proof.
  intro l. unfold one_to, in_numbers, zlen. rewrite Nat2Z.id, <- seq_shift, map_map. apply map_ext. intro. lia.
Qed.

Lemma rows_match : forall accs recs vss, Forall2 (rec_values accs) recs vss -> forall vals es pre,
  (forall X (f : Z -> X) (F : access -> X), agree f F 0 accs -> map (sexpr_map f) vals = map (sexpr_map F) es) ->
  Forall2 (fun v row => map (sexpr_map (argument (pre ++ concat vss))) row = map (sexpr_map (value v)) es) recs
    (row_list (zlen accs) (zlen pre) (List.length recs) vals).
Proof.
  intros accs recs vss H. induction H as [|v vs recs vss RV H IH]; intros vals es pre G; [constructor|].
  cbn [List.length row_list concat]. constructor.
  - rewrite map_map. erewrite map_ext; [|intro e; unfold shift; apply sexpr_map_map]. apply G.
    assert (AG := accs_agree v accs vs (concat vss) RV). intros i a E. rewrite <- (AG i a E). unfold argument.
    destruct (Z.leb_spec (0 + 1 + Z.of_nat i + zlen pre) 0); [unfold zlen in *; lia|].
    destruct (Z.leb_spec (0 + 1 + Z.of_nat i) 0); [lia|]. unfold zlen.
    replace (Z.to_nat (0 + 1 + Z.of_nat i + Z.of_nat (List.length pre) - 1)) with (List.length pre + i) by lia.
    rewrite nth_error_app2 by lia. f_equal. lia.
  - specialize (IH vals es (pre ++ vs) G). rewrite <- app_assoc in IH.
    replace (zlen (pre ++ vs)) with (zlen pre + zlen accs)%Z in IH; [exact IH|].
    unfold zlen. rewrite app_length, <- (forall2_length _ _ _ _ _ RV). lia.
Qed.

(** ** The method *)

Definition plain_stmt (n : gsql) : Prop := stmt_lists n = [].
Definition rendered (n : gsql) : sstmt Z (list Z) := stmt_map (fun z => z) (fun _ => []) n.
Lemma render_plain : forall s n, plain_stmt n -> render s n = Ok (rendered n).
Proof.
  intros s n H. unfold render. rewrite H. cbn. unfold rendered. f_equal.
  generalize (fun k : nat => in_numbers (s_int s (VLen k)) (s_int s (VPosK k))). intro g. unfold plain_stmt in H.
  assert (BE : forall e, bexpr_lists e = [] -> bexpr_map (fun z : Z => z) g e = bexpr_map (fun z => z) (fun _ => []) e).
  { intro e. induction e as [| | | | | | |p items HI] using bexpr_ind2; intro E; try reflexivity; try discriminate E.
    cbn [bexpr_map]. f_equal. apply map_ext_in. intros [b x] IN. cbn. f_equal. rewrite Forall_forall in HI. apply (HI _ IN).
    cbn [bexpr_lists] in E. cbn [snd]. apply in_split in IN. destruct IN as (l1 & l2 & ->). rewrite flat_map_app in E. cbn in E.
    apply app_eq_nil in E. destruct E as [_ E]. apply app_eq_nil in E. apply E. }
  assert (W : forall o, opt_list (@bexpr_lists Z nat) o = [] -> option_map (bexpr_map (fun z : Z => z) g) o = option_map (bexpr_map (fun z => z) (fun _ => [])) o).
  { intros [e|] E; [|reflexivity]. cbn. rewrite BE; [reflexivity|exact E]. }
  assert (J : forall l, flat_map (fun j : tjoin Z nat => bexpr_lists (tj_cond j)) l = [] ->
     map (tjoin_map (fun z : Z => z) g) l = map (tjoin_map (fun z => z) (fun _ => [])) l).
  { induction l as [|j l IH]; intro E; [reflexivity|]. cbn in E. apply app_eq_nil in E. destruct E as [E1 E2]. cbn [map].
    rewrite IH by exact E2. f_equal. unfold tjoin_map. rewrite BE by exact E1. reflexivity. }
  assert (T : forall l, flat_map (fun x : texpr Z nat => match x with TxJoin j => bexpr_lists (tj_cond j) | _ => [] end) l = [] ->
     map (texpr_map (fun z : Z => z) g) l = map (texpr_map (fun z => z) (fun _ => [])) l).
  { induction l as [|j l IH]; intro E; [reflexivity|]. cbn in E. apply app_eq_nil in E. destruct E as [E1 E2]. cbn [map].
    rewrite IH by exact E2. f_equal. destruct j; try reflexivity. cbn. unfold tjoin_map. rewrite BE by exact E1. reflexivity. }
  destruct n; cbn [stmt_lists stmt_map] in *; try reflexivity;
    repeat match goal with E : _ ++ _ = [] |- _ => apply app_eq_nil in E; destruct E end;
    rewrite ?W, ?J, ?T by assumption; reflexivity.
Qed.

Lemma run_rows : forall wc q main tail accs vals es D c recs,
  q_limit q = None -> q_offset q = None ->
  plain_stmt main -> (forall n, tail = Some n -> plain_stmt n) -> vals <> [] -> seqd 0 vals (zlen accs) ->
  (forall X (f : Z -> X) (F : access -> X), agree f F 0 accs -> map (sexpr_map f) vals = map (sexpr_map F) es) ->
  gfield D (q_relname q) = Some (VSlice recs) -> recs <> [] ->
  run (slice_rows q (map (acc_expr GV) accs) vals (GDecl false main) tail
       ++ fallback (q_limit q) ++ fallback (q_offset q) ++ []
       ++ [GCall (method q) (call_ctx wc q) (match accs with [] => AList [] | _ => AParams end)]) D = Ok c ->
  exists rows, cl_text c = TNode (rendered main) :: rows_sql rows
      ++ (match tail with Some n => [TChr " "%char; TNode (rendered n)] | None => [] end)
  /\ rows_hold es recs (cl_args c) rows /\ cl_method c = method q /\ ctx_of wc q D = Some (cl_ctx c)
  /\ (zlen (cl_args c) <= 65535)%Z.
Proof.
  intros wc q main tail accs vals es D c recs L O PM PT VN SQ G RD RN R. rewrite L, O in R. cbn [fallback app] in R.
  unfold run in R. apply bind_ok in R. destruct R as (s1 & R & K). unfold slice_rows in R.
  cbn [app map seqM] in R. apply bind_ok in R. destruct R as (s2 & R1 & R). cbn [exec] in R1.
  rewrite (render_plain _ _ PM) in R1. cbn [rmap bind] in R1. injection R1 as <-. rewrite map_length in R.
  set (s2 := set_text _ _) in R. rewrite !map_app, <- !app_assoc, seqM_app in R. apply bind_ok in R. destruct R as (s3 & R2 & R).
  assert (LOOP : exists vss, Forall2 (rec_values accs) recs vss /\ keeps s2 s3 /\ (accs <> [] -> s_params s3 = concat vss)
    /\ s_text s3 = s_text s2 ++ comma_rows (row_list (zlen accs) 0 (List.length recs) vals)
    /\ forall r, In r (row_list (zlen accs) 0 (List.length recs) vals) -> ords_ok (flat_map sexpr_params r) = true).
  { destruct accs as [|a accs'] eqn:A.
    - cbn [map seqM] in R2. apply bind_ok in R2. destruct R2 as (s4 & R2 & E4). injection E4 as ->. 
      change (exec (GRange (GSel GQ (q_relname q)) [GAppend (row_text vals)]) s2)
        with (bind (eval s2 (GSel GQ (q_relname q))) (fun v => range_loop (seqM (map exec [GAppend (row_text vals)])) 0 (elems v) s2)) in R2.
      cbn [eval bind] in R2. change (s_q s2) with D in R2. rewrite RD in R2. cbn [or_panic bind elems] in R2.
      destruct (loop_default _ _ _ _ _ VN SQ R2) as (KP & _ & TT). exists (map (fun _ => []) recs).
      split; [clear; induction recs; constructor; [constructor|assumption]|]. split; [exact KP|].
      split; [intro Q; contradiction|]. split; [exact TT|].
      intros r I. change (zlen []) with 0%Z in *. assert (PR : flat_map sexpr_params r = []).
      { assert (FM := row_list_params (List.length recs) 0 0 vals 0 SQ eq_refl ltac:(lia)). rewrite Z.mul_0_r in FM.
        change (in_numbers 0 0) with (@nil Z) in FM. apply in_split in I. destruct I as (l1 & l2 & E). rewrite E, flat_map_app in FM.
        apply app_eq_nil in FM. destruct FM as [_ FM]. cbn in FM. apply app_eq_nil in FM. apply FM. }
      rewrite PR. reflexivity.
    - rewrite <- A in *. assert (AN : accs <> []) by (rewrite A; discriminate). clear A.
      assert (R3 : seqM (map exec [GMake (IMul (ILen (GSel GQ (q_relname q))) (IConst (Z.of_nat (List.length accs))));
           GRange (GSel GQ (q_relname q)) (GInt VPos (IMul (IVar VI) (IConst (Z.of_nat (List.length accs))))
             :: set_args 0 (map (acc_expr GV) accs) ++ [GAppend (row_text vals)])]) s2 = Ok s3).
      { destruct accs; [contradiction|exact R2]. }
      clear R2. cbn [map seqM] in R3. apply bind_ok in R3. destruct R3 as (s4 & R4 & R3). apply bind_ok in R3.
      destruct R3 as (s5 & R3 & E5). injection E5 as ->. cbn [exec ieval eval] in R4. change (s_q s2) with D in R4.
      cbn [bind] in R4. rewrite RD in R4. cbn [or_panic rmap bind glen] in R4.
      destruct (Z.ltb_spec (Z.of_nat (List.length recs) * Z.of_nat (List.length accs)) 0) as [Q|_]; [lia|]. injection R4 as <-.
      set (s4 := set_params _ _) in R3.
      match type of R3 with exec (GRange ?e ?b) ?s = _ =>
        change (exec (GRange e b) s) with (bind (eval s e) (fun v => range_loop (seqM (map exec b)) 0 (elems v) s)) in R3 end.
      cbn [eval bind] in R3. change (s_q s4) with D in R3. rewrite RD in R3. cbn [or_panic bind elems] in R3.
      destruct (loop_rows accs vals recs 0 s4 s3 [] (s_params s4)) as (vss & F & KP & PP & TT & OO); try assumption; try reflexivity.
      + unfold s4. cbn [s_params set_params]. rewrite repeat_length. lia.
      + exists vss. split; [exact F|]. split; [exact KP|]. split; [intros _; exact PP|]. split; [exact TT|exact OO]. }
  destruct LOOP as (vss & F & KP & PP & TT & OO).
  assert (RL : exists r rows, row_list (zlen accs) 0 (List.length recs) vals = r :: rows).
  { destruct recs as [|v recs]; [contradiction|]. cbn [List.length row_list]. eauto. }
  destruct RL as (r0 & rows0 & RL). rewrite RL in TT. cbn [map app] in R.
  cbn [seqM] in R. apply bind_ok in R. destruct R as (s4 & R5 & R). cbn [exec] in R5. rewrite TT, comma_rows_chop in R5.
  cbn [rmap bind] in R5. injection R5 as <-. set (s4 := set_text _ s3) in R. 
  set (rest := match tail with Some n => [TChr " "%char; TNode (rendered n)] | None => [] end).
  assert (TAIL : exists s5, keeps s4 s5 /\ s_params s5 = s_params s4 /\ s_text s5 = s_text s4 ++ rest
    /\ exec (GCall (method q) (call_ctx wc q) match accs with [] => AList [] | _ => AParams end) s5 = Ok s1).
  { destruct tail as [n|].
    - cbn [map app seqM] in R. apply bind_ok in R. destruct R as (s5 & R6 & R). cbn [exec strs str_eval] in R6.
      rewrite (render_plain _ _ (PT n eq_refl)) in R6. cbn in R6. injection R6 as <-.
      apply bind_ok in R. destruct R as (s6 & R & E6). injection E6 as ->. eexists. split; [|split; [|split; [|exact R]]]; try reflexivity. repeat split.
    - cbn [map app seqM] in R. apply bind_ok in R. destruct R as (s6 & R & E6). injection E6 as ->. exists s4.
      split; [repeat split|]. split; [reflexivity|]. split; [unfold rest; symmetry; apply app_nil_r|exact R]. }
  destruct TAIL as (s5 & (Q5 & _ & _) & P5 & T5 & R7).
  apply exec_call in R7. destruct R7 as (args & ctx & A & X & ->). cbn in K. injection K as <-. cbn [cl_text cl_args cl_method cl_ctx].
  destruct KP as (Q3 & _ & _). assert (QD : s_q s5 = D) by (rewrite Q5; cbn; rewrite Q3; reflexivity). rewrite QD in X.
  assert (EA : args = concat vss).
  { destruct accs as [|a accs'].
    - cbn in A. injection A as <-. clear -F. induction F as [|v vs l m H HF IH]; [reflexivity|]. inversion H; subst. exact IH.
    - injection A as <-. rewrite P5. apply PP. discriminate. }
  subst args. exists (r0 :: rows0). rewrite T5. split; [|split; [|split; [reflexivity|split; [exact X|]]]].
  - unfold s4. cbn [s_text set_text]. reflexivity.
  - rewrite <- RL. split.
    + apply (rows_match accs recs vss F vals es [] G).
    + rewrite one_to_numbers, (row_list_params _ _ _ _ _ SQ eq_refl) by (unfold zlen; lia). f_equal.
      unfold zlen. clear -F. induction F as [|v vs l m H HF IH]; [reflexivity|]. cbn [List.length concat].
      rewrite app_length, <- (forall2_length _ _ _ _ _ H). lia.
  - destruct (Z.leb_spec (zlen (concat vss)) 0) as [Q|Q]; [lia|].
    assert (IN : In (zlen (concat vss)) (flat_map (flat_map sexpr_params) (r0 :: rows0))).
    { rewrite <- RL, (row_list_params _ _ _ _ _ SQ eq_refl) by (unfold zlen; lia). apply in_numbers_in. split; [lia|].
      assert (zlen (concat vss) = Z.of_nat (List.length recs) * zlen accs)%Z.
      { unfold zlen. clear -F. induction F as [|v vs l m H HF IH]; [reflexivity|]. cbn [List.length concat].
        rewrite app_length, <- (forall2_length _ _ _ _ _ H). lia. }
      lia. }
    apply in_flat_map in IN. destruct IN as (r & IR & IN). rewrite RL in OO. specialize (OO r IR). unfold ords_ok in OO.
    rewrite forallb_forall in OO. specialize (OO _ IN). unfold ordinal_ok in OO. rewrite andb_true_iff, Z.leb_le, Z.ltb_lt in OO. lia.
Qed.
