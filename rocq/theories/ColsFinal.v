(** Definitions and proofs used by PropsCols.v. *)
From Coq Require Import Ascii String ZArith NArith Bool List Lia.
From Verif Require Import GoBase AParse Analysis AnalysisSpec QuerySpec AnalysisProofs AnalysisRoles QueryFinal PropsQuery Oids Compat Gen GenSpec Check ConvertProofs CheckSpec CheckProofs CheckEx.
Import ListNotations.
Local Open Scope string_scope.
Local Open Scope list_scope.

Lemma same_target : forall db q t rf tr rf' tr' c, target db q rf tr -> passed db q t rf' tr' c -> rf' = rf /\ tr' = tr.
Proof.
  intros db q t rf tr rf' tr' c (T1 & T2) P. rewrite (pa_rel _ _ _ _ _ _ P) in T1. injection T1 as <-. split; [reflexivity|].
  pose proof (so_target _ _ _ _ _ (pa_state _ _ _ _ _ _ P)) as K. congruence.
Qed.

Ltac pass H T c P :=
  let rf' := fresh "rf'" in let tr' := fresh "tr'" in let E1 := fresh "E" in let E2 := fresh "E" in
  apply check_query_ok in H; destruct H as (rf' & tr' & c & P); destruct (same_target _ _ _ _ _ _ _ _ T P) as [E1 E2]; subst rf' tr'.

Lemma skip_insert_iff : forall c w, negb (skipFieldInsert c w) = true <-> m_insert (fi_mode (fw_field w)) = true \/ named_in (ck_force c) (c_col (fw_ident w)).
Proof.
  intros c w. unfold skipFieldInsert. rewrite <- forced_named. destruct (m_insert (fi_mode (fw_field w))), (forced c (fw_ident w)); cbn; intuition congruence.
Qed.

Lemma skip_update_iff : forall c w, negb (skipFieldUpdate c w) = true <-> m_update (fi_mode (fw_field w)) = true \/ named_in (ck_force c) (c_col (fw_ident w)).
Proof.
  intros c w. unfold skipFieldUpdate. rewrite <- forced_named. destruct (m_update (fi_mode (fw_field w))), (forced c (fw_ident w)); cbn; intuition congruence.
Qed.

Lemma forall_somes : forall A C (Q : C -> Prop) (l : list A) os,
  Forall2 (fun _ o => match o with Some c => Q c | None => True end) l os -> forall p, Forall Q (filter p (somes os)).
Proof. intros A C Q l os H p. apply somes_forall in H. rewrite Forall_forall in *. intros x I. apply filter_In in I. apply H. tauto. Qed.

Lemma C36_written_proof : forall db q t rf tr, check_query db q = COk t -> target db q rf tr -> rf_dir rf = false ->
  q_kind q = KInsert \/ q_kind q = KUpdate ->
  picked (fun f => has_row tr (field_name f) /\ (own_write (q_kind q) f \/ named_in (q_force q) (field_name f)))
         (rt_fields (rf_type rf)) (map fw_field (ti_writes t))
  /\ (forall w, In w (ti_writes t) -> connected (db_cat db) rf tr (fw_field w) (fw_col w) (fw_ident w)).
Proof.
  intros db q t rf tr H T D K. pass H T c P. destruct (pa_reads _ _ _ _ _ _ P) as (r1 & r2 & r3 & _ & _ & R & _).
  pose proof (pa_state _ _ _ _ _ _ P) as SO. pose proof (pa_force _ _ _ _ _ _ P) as FO.
  unfold typeCheckQueryRelField in R. rewrite D in R.
  assert (R' : exists os, check_write_fields c 0 (rt_fields (rf_type rf)) = COk os
     /\ ti_writes t = filter (fun w => negb ((if is_insert (q_kind q) then skipFieldInsert c else skipFieldUpdate c) w)) (somes os)).
  { destruct K as [K|K]; rewrite K in R; apply cbind_ok in R; destruct R as (os & R & E); injection E as _ E _; exists os; rewrite K; split; try exact R; symmetry; exact E. }
  destruct R' as (os & R' & E). destruct (write_fields_ok _ _ _ _ _ _ _ _ SO R') as (F & _). rewrite E. split.
  - apply filter_picked. revert F. apply forall2_imp. intros f [w|] W; [|tauto]. destruct W as (W1 & W2 & _). split; [exact W1|].
    destruct W2 as ((r & W2 & _) & W3). rewrite <- FO. assert (HR : has_row tr (field_name f)) by (eapply row_has; exact W2).
    destruct K as [K|K]; rewrite K; cbn [is_insert]; [rewrite skip_insert_iff|rewrite skip_update_iff]; rewrite W1, W3; cbn [own_write c_col]; tauto.
  - intros w I. revert w I. apply Forall_forall. apply (forall_somes _ _ _ (rt_fields (rf_type rf))). revert F. apply forall2_imp. intros f [w|] W; [|exact Logic.I].
    destruct W as (<- & W & _). exact W.
Qed.

(** A record with a key only set by inserts, a column only read, and a struct
    whose fields are read-only. *)
Definition ex_modes : gtype := TNamed (ex_name "User") (TStruct
  [(ex_var "Id" (ex_tag "sql" ["id"; "ro"]), ex_int); (ex_var "Email" (ex_tag "sql" ["email"; "wo"]), ex_str);
   (ex_var "Login" (ex_tag "sql" ["login"; "xf"]), ex_str);
   (ex_var "Address" (ex_tag "sql" [">"; "ro"]), TStruct [(ex_var "City" (ex_tag "sql" ["city"]), ex_str)])]).

Definition ex_modes_update : qstate := ex_analysed "UpdateUser" [ex_one ex_modes; (ex_var "_" (ex_tag "sql" ["u.id"]), ex_dir "Force")].

Lemma C36_keys_proof : forall db q t rf tr, check_query db q = COk t -> target db q rf tr -> rf_dir rf = false ->
  q_kind q = KInsert \/ q_kind q = KUpdate ->
  picked (fun f => exists r, row_named tr (field_name f) r /\ cr_primary r = true) (rt_fields (rf_type rf)) (map fw_field (ti_pkeys t))
  /\ (forall w, In w (ti_pkeys t) -> connected (db_cat db) rf tr (fw_field w) (fw_col w) (fw_ident w))
  /\ forall f, In f (rt_fields (rf_type rf)) -> has_row tr (field_name f) \/ read_only f.
Proof.
  intros db q t rf tr H T D K. pass H T c P. destruct (pa_reads _ _ _ _ _ _ P) as (r1 & r2 & r3 & _ & _ & R & _).
  pose proof (pa_state _ _ _ _ _ _ P) as SO.
  unfold typeCheckQueryRelField in R. rewrite D in R.
  assert (R' : exists os, check_write_fields c 0 (rt_fields (rf_type rf)) = COk os
     /\ ti_pkeys t = filter (fun w => co_primary (fw_col w)) (somes os)).
  { destruct K as [K|K]; rewrite K in R; apply cbind_ok in R; destruct R as (os & R & E); injection E as _ _ E; exists os; split; try exact R; symmetry; exact E. }
  destruct R' as (os & R' & E). destruct (write_fields_ok _ _ _ _ _ _ _ _ SO R') as (F & _). rewrite E. split; [|split].
  - apply filter_picked. revert F. apply forall2_imp. intros f [w|] W.
    + destruct W as (W1 & W2 & _). split; [exact W1|]. destruct W2 as ((r & W2 & W3) & _).
      assert (EP : co_primary (fw_col w) = cr_primary r) by apply W3. rewrite EP. split.
      * intros K1. exists r. split; assumption.
      * intros (r' & K1 & K2). rewrite (row_unique _ _ _ _ W2 K1). exact K2.
    + intros (r & K1 & _). apply W. eapply row_has. exact K1.
  - intros w I. revert w I. apply Forall_forall. apply (forall_somes _ _ _ (rt_fields (rf_type rf))). revert F. apply forall2_imp. intros f [w|] W; [|exact Logic.I].
    destruct W as (<- & W & _). exact W.
  - intros f I. destruct (forall2_in_l _ _ _ _ _ _ F I) as ([w|] & _ & W); [left|right; tauto].
    destruct W as (_ & ((r & W & _) & _) & _). eapply row_has. exact W.
Qed.

Lemma C36_nested_refuted_proof : exists e name fs q t w, analyzeQueryStruct e name fs = AOk q /\ plain_names fs /\ check_query db_ex q = COk t
  /\ In w (ti_writes t) /\ read_only (fw_field w) /\ q_force q = None.
Proof.
  exists ex_env, (B "UpdateUser"), [ex_one ex_modes]. eexists _, _, _. split; [vm_compute; reflexivity|].
  split; [apply plain_fields; vm_compute; reflexivity|]. split; [vm_compute; reflexivity|]. cbn [ti_writes].
  split; [right; right; left; reflexivity|]. split; [|reflexivity]. eexists. split; [right; left; reflexivity|]. repeat split.
Qed.

(** The fields that may be read. *)
Definition readable (q : qstate) (tr : relrow) (f : FieldInfo) : Prop :=
  has_row tr (field_name f) /\ (~ write_only f \/ named_in (q_force q) (field_name f)).

(** A query reads the fields named in its Return directive, those of its
    result, or, when selecting, those of its record. *)
Inductive read_from (q : qstate) (rf : RelField) (tr : relrow) : list FieldInfo -> Prop :=
| rd_return_all : forall l fs, q_return q = Some l -> l_all l = true -> picked (readable q tr) (rt_fields (rf_type rf)) fs -> read_from q rf tr fs
| rd_return : forall l fs rs, q_return q = Some l -> l_all l = false ->
    Forall2 (fun id f => In f (rt_fields (rf_type rf)) /\ field_name f = c_col id /\ has_row tr (field_name f)) (l_items l) fs ->
    picked (readable q tr) fs rs -> read_from q rf tr rs
| rd_result : forall r fs, q_result q = Some r -> (forall f, In f (rt_fields (rs_type r)) -> has_row tr (field_name f)) ->
    picked (readable q tr) (rt_fields (rs_type r)) fs -> read_from q rf tr fs
| rd_select : forall fs, q_kind q = KSelect -> rf_dir rf = false ->
    (forall f, In f (rt_fields (rf_type rf)) -> has_row tr (field_name f) \/ named_in (q_optional q) (field_name f)) ->
    picked (readable q tr) (rt_fields (rf_type rf)) fs -> read_from q rf tr fs
| rd_nothing : q_return q = None -> q_result q = None -> (q_kind q <> KSelect \/ rf_dir rf = true) -> read_from q rf tr [].

Lemma optional_named : forall o id, match o with Some l => negb (Contains l id) | None => true end = false <-> named_in o (c_col id).
Proof.
  intros o id. unfold named_in. destruct o as [l|].
  - rewrite negb_false_iff, contains_named. split; [intros H; exists l; split; [reflexivity|exact H]|intros (x & E & H)]. injection E as ->. exact H.
  - split; [discriminate|intros (x & E & _); discriminate].
Qed.

Lemma return_ok : forall db q t rf tr c r, passed db q t rf tr c -> typeCheckQueryReturnDirective c q = COk r -> q_return q <> None ->
  read_from q rf tr (map fr_field r) /\ Forall (fun r => connected (db_cat db) rf tr (fr_field r) (fr_col r) (fr_ident r)) r.
Proof.
  intros db q t rf tr c r P H N. pose proof (pa_state _ _ _ _ _ _ P) as SO. pose proof (pa_force _ _ _ _ _ _ P) as FO.
  unfold typeCheckQueryReturnDirective in H. destruct (q_return q) as [l|] eqn:Q; [|congruence].
  assert (RT : q_rtype q = rf_type rf) by (unfold q_rtype; rewrite (pa_rel _ _ _ _ _ _ P); reflexivity).
  destruct (l_all l) eqn:A.
  - apply cbind_ok in H. destruct H as (os & H & E). injection E as <-. apply check_all_ok in H.
    destruct (reads_picked _ _ _ _ _ (fun _ => false) _ _ SO H) as (R1 & R2 & _). rewrite FO, RT in R1.
    split; [exact (rd_return_all _ _ _ _ _ Q A R1)|]. revert R2. apply Forall_impl. tauto.
  - apply cbind_ok in H. destruct H as (fs & HF & H). apply cbind_ok in H. destruct H as (os & H & E). injection E as <-. apply check_all_ok in H, HF.
    destruct (reads_picked _ _ _ _ _ (fun _ => true) _ _ SO H) as (R1 & R2 & R3). rewrite FO in R1.
    split; [|revert R2; apply Forall_impl; tauto]. apply (rd_return _ _ _ l fs _ Q A); [|exact R1].
    assert (G : forall f, In f fs -> has_row tr (field_name f)) by (intros f I; now apply R3). clear - HF G RT.
    induction HF as [|id f ids fs HF _ IH]; constructor.
    + unfold findQueryColumnField in HF. rewrite RT in HF. destruct (find _ _) as [f'|] eqn:E; [|discriminate].
      apply cbind_ok in HF. destruct HF as (u & _ & HF). injection HF as <-. apply find_some in E. destruct E as [I E]. apply bytes_eqb_eq in E.
      split; [exact I|]. split; [exact E|]. apply G. now left.
    + apply IH. intros x I. apply G. now right.
Qed.

Lemma result_ok : forall db q t rf tr c r, passed db q t rf tr c -> typeCheckQueryResultField c q = COk r -> q_result q <> None ->
  read_from q rf tr (map fr_field r) /\ Forall (fun r => connected (db_cat db) rf tr (fr_field r) (fr_col r) (fr_ident r)) r.
Proof.
  intros db q t rf tr c r P H N. pose proof (pa_state _ _ _ _ _ _ P) as SO. pose proof (pa_force _ _ _ _ _ _ P) as FO.
  unfold typeCheckQueryResultField in H. destruct (q_result q) as [l|] eqn:Q; [|congruence].
  apply cbind_ok in H. destruct H as (os & H & E). injection E as <-. apply check_all_ok in H.
  destruct (reads_picked _ _ _ _ _ (fun _ => true) _ _ SO H) as (R1 & R2 & R3). rewrite FO in R1.
  split; [|revert R2; apply Forall_impl; tauto]. apply (rd_result _ _ _ _ _ Q); [intros f I; now apply R3|exact R1].
Qed.

Lemma select_ok : forall db q t rf tr c r w k, passed db q t rf tr c -> typeCheckQueryRelField c q rf = COk (r, w, k) -> q_kind q = KSelect -> rf_dir rf = false ->
  read_from q rf tr (map fr_field r) /\ Forall (fun r => connected (db_cat db) rf tr (fr_field r) (fr_col r) (fr_ident r)) r.
Proof.
  intros db q t rf tr c r w k P H K D. pose proof (pa_state _ _ _ _ _ _ P) as SO. pose proof (pa_force _ _ _ _ _ _ P) as FO.
  unfold typeCheckQueryRelField in H. rewrite D, K in H. apply cbind_ok in H. destruct H as (os & H & E). injection E as <- _ _. apply check_all_ok in H.
  destruct (reads_picked _ _ _ _ _ (fun f => match ck_optional c with Some l => negb (Contains l (fi_col f)) | None => true end) _ _ SO H) as (R1 & R2 & R3).
  rewrite FO in R1. split; [|revert R2; apply Forall_impl; tauto]. apply rd_select; try assumption. intros f I.
  specialize (R3 f I). rewrite (pa_optional _ _ _ _ _ _ P) in R3. pose proof (optional_named (q_optional q) (fi_col f)) as O.
  destruct (match q_optional q with Some l => negb (Contains l (fi_col f)) | None => true end); [left; now apply R3|right; now apply O].
Qed.

Lemma two_in : forall A (a b : A) l, In a l -> In b l -> a <> b -> exists l1 l2 l3, l = l1 ++ a :: l2 ++ b :: l3 \/ l = l1 ++ b :: l2 ++ a :: l3.
Proof.
  intros A a b l Ia Ib N. apply in_split in Ia. destruct Ia as (l1 & l2 & ->). apply in_app_iff in Ib. destruct Ib as [Ib|[Ib|Ib]]; [| congruence |].
  - apply in_split in Ib. destruct Ib as (m1 & m2 & ->). exists m1, m2, l2. right. rewrite <- app_assoc. reflexivity.
  - apply in_split in Ib. destruct Ib as (m1 & m2 & ->). exists l1, m1, m2. left. reflexivity.
Qed.

Lemma exclusive_roles : forall l rs r1 r2 x y, at_most_one rs l -> In x l -> In y l -> snd x = r1 -> snd y = r2 -> r1 <> r2 -> In r1 rs -> In r2 rs -> False.
Proof.
  intros l rs r1 r2 x y M I1 I2 <- <- N R1 R2. destruct (two_in _ x y l I1 I2) as (l1 & l2 & l3 & [E|E]); [congruence| |].
  - exact (M _ _ _ _ _ E (conj R1 R2)).
  - exact (M _ _ _ _ _ E (conj R2 R1)).
Qed.

Lemma alike_role : forall r r', alike r r' -> ~ joins r' -> r = r'.
Proof. intros r r' [H|[_ H]] N; [exact H|contradiction]. Qed.

Lemma present_legal : forall e name fs q r, analyzeQueryStruct e name fs = AOk q -> plain_names fs -> present q r -> exists r', alike r' r /\ legal (q_kind q) r'.
Proof.
  intros e name fs q r A PN H. pose proof (rolel_roles fs PN) as RL. destruct (C32_exclusive _ _ _ _ _ A PN RL) as [X1 X2].
  destruct (C32_present _ _ _ _ _ A PN RL) as [_ X3]. apply X3 in H. destruct H as (v & ty & r' & I & K). exists r'. split; [exact K|exact (X2 _ _ _ I)].
Qed.

Lemma some_dec : forall A (o : option A), o = None \/ o <> None.
Proof. intros A [a|]; [right; discriminate|now left]. Qed.

Lemma return_nil : forall c q r, typeCheckQueryReturnDirective c q = COk r -> q_return q = None -> r = [].
Proof. intros c q r H N. unfold typeCheckQueryReturnDirective in H. rewrite N in H. now injection H. Qed.

Lemma result_nil : forall c q r, typeCheckQueryResultField c q = COk r -> q_result q = None -> r = [].
Proof. intros c q r H N. unfold typeCheckQueryResultField in H. rewrite N in H. now injection H. Qed.

Lemma rel_reads_nil : forall c q rf r w k, typeCheckQueryRelField c q rf = COk (r, w, k) -> q_kind q <> KSelect \/ rf_dir rf = true -> r = [].
Proof.
  intros c q rf r w k H N. unfold typeCheckQueryRelField in H. destruct (rf_dir rf); [now injection H|]. destruct N as [N|N]; [|discriminate].
  destruct (q_kind q); try congruence; apply cbind_ok in H; destruct H as (os & _ & H); injection H as <-; reflexivity.
Qed.

Lemma C62_read_proof : forall e name fs db q t rf tr, analyzeQueryStruct e name fs = AOk q -> plain_names fs ->
  check_query db q = COk t -> target db q rf tr ->
  read_from q rf tr (map fr_field (ti_reads t))
  /\ forall r, In r (ti_reads t) -> connected (db_cat db) rf tr (fr_field r) (fr_col r) (fr_ident r).
Proof.
  intros e name fs db q t rf tr A PN H T. pass H T c P. destruct (pa_reads _ _ _ _ _ _ P) as (r1 & r2 & r3 & H1 & H2 & H3 & E).
  assert (EX : q_return q <> None -> q_result q <> None -> False).
  { pose proof (rolel_roles fs PN) as RL. destruct (C32_exclusive _ _ _ _ _ A PN RL) as [X1 X2]. destruct (C32_present _ _ _ _ _ A PN RL) as [_ X3].
    intros N1 N2. apply (X3 RReturn) in N1. apply (X3 RResult) in N2. destruct N1 as (v1 & t1 & x1 & I1 & A1). destruct N2 as (v2 & t2 & x2 & I2 & A2).
    apply alike_role in A1; [|unfold joins; intuition discriminate]. apply alike_role in A2; [|unfold joins; intuition discriminate]. subst x1 x2.
    assert (M : at_most_one [RReturn; RResult; RRows] (rolel fs)) by (apply X1; cbn; tauto).
    apply (exclusive_roles _ _ _ _ _ _ M I1 I2 eq_refl eq_refl); cbn; intuition discriminate. }
  assert (LK : q_return q <> None \/ q_result q <> None -> q_kind q <> KSelect).
  { intros [N|N].
    - destruct (present_legal _ _ _ _ RReturn A PN N) as (r' & K & L). apply alike_role in K; [|unfold joins; intuition discriminate]. subst r'.
      cbn in L. intuition congruence.
    - destruct (present_legal _ _ _ _ RResult A PN N) as (r' & K & L). apply alike_role in K; [|unfold joins; intuition discriminate]. subst r'.
      cbn in L. intuition congruence. }
  rewrite <- (Forall_forall (fun r => connected (db_cat db) rf tr (fr_field r) (fr_col r) (fr_ident r))). rewrite E.
  destruct (some_dec _ (q_return q)) as [R|R]; [destruct (some_dec _ (q_result q)) as [S0|S0]|].
  - rewrite (return_nil _ _ _ H1 R), (result_nil _ _ _ H2 S0). cbn [app].
    assert (D : (q_kind q = KSelect /\ rf_dir rf = false) \/ (q_kind q <> KSelect \/ rf_dir rf = true)).
    { destruct (rf_dir rf); [right; right; reflexivity|]. destruct (q_kind q); try (right; left; discriminate). left. split; reflexivity. }
    destruct D as [[D1 D2]|D]; [eapply select_ok; eassumption|]. rewrite (rel_reads_nil _ _ _ _ _ _ H3 D). split; [|constructor].
    now apply rd_nothing.
  - rewrite (return_nil _ _ _ H1 R), (rel_reads_nil _ _ _ _ _ _ H3 (or_introl (LK (or_intror S0)))). cbn [app]. rewrite app_nil_r.
    eapply result_ok; eassumption.
  - destruct (some_dec _ (q_result q)) as [S0|S0]; [|exfalso; exact (EX R S0)].
    rewrite (result_nil _ _ _ H2 S0), (rel_reads_nil _ _ _ _ _ _ H3 (or_introl (LK (or_introl R)))). cbn [app]. rewrite app_nil_r.
    eapply return_ok; eassumption.
Qed.

Lemma joins_shape : forall db rf t dirs l ls, joins_checked db rf t l dirs ls ->
  Forall (Forall (fun c => match c with WCBool _ | WCColumn _ => True | _ => False end)) ls.
Proof.
  induction dirs as [|d dirs IH]; intros l [|x xs] H; cbn in H; try contradiction; constructor.
  - destruct H as ((c & rel & t' & _ & _ & _ & F) & _). clear - F. induction F as [|i w is ws H _ IH]; constructor; [|exact IH].
    destruct i; cbn in H; [injection H as <-; exact Logic.I|]. apply cbind_ok in H. destruct H as (u & _ & H). injection H as <-. exact Logic.I.
  - destruct H as [_ H]. exact (IH _ _ H).
Qed.

Lemma C63_checked_proof : forall e name fs db q t, analyzeQueryStruct e name fs = AOk q -> plain_names fs -> check_query db q = COk t -> checked q t.
Proof.
  intros e name fs db q t A PN H. apply check_query_ok in H. destruct H as (rf & tr & c & P).
  destruct (pa_reads _ _ _ _ _ _ P) as (r1 & r2 & r3 & _ & _ & R & _). pose proof (pa_state _ _ _ _ _ _ P) as SO.
  assert (W : (ti_writes t = [] /\ ti_pkeys t = []) \/ exists os, check_write_fields c 0 (rt_fields (rf_type rf)) = COk os
     /\ (exists p, ti_writes t = filter p (somes os)) /\ (exists p, ti_pkeys t = filter p (somes os)) /\ IsInsertOrUpdate q = true).
  { unfold typeCheckQueryRelField in R. unfold IsInsertOrUpdate. destruct (rf_dir rf); [injection R as _ E1 E2; left; split; symmetry; assumption|].
    destruct (q_kind q); try (injection R as _ E1 E2; left; split; symmetry; assumption); apply cbind_ok in R; destruct R as (os & R & E); injection E as _ E1 E2;
      try (left; split; symmetry; assumption); right; exists os; (split; [exact R|]); (split; [eexists; symmetry; exact E1|]); (split; [eexists; symmetry; exact E2|reflexivity]). }
  unfold checked. split; [|split; [|split; [|split; [|split; [|split]]]]].
  - intros K. destruct W as [[W _]|(os & _ & _ & _ & W)]; [exact W|]. unfold IsInsertOrUpdate in W. congruence.
  - intros K. split.
    + destruct (some_dec _ (q_limit q)) as [N|N]; [exact N|]. destruct (present_legal _ _ _ _ RLimit A PN N) as (r' & L1 & L2).
      apply alike_role in L1; [|unfold joins; intuition discriminate]. subst r'. cbn in L2. destruct (q_kind q); cbn in K; intuition discriminate.
    + destruct (some_dec _ (q_offset q)) as [N|N]; [exact N|]. destruct (present_legal _ _ _ _ ROffset A PN N) as (r' & L1 & L2).
      apply alike_role in L1; [|unfold joins; intuition discriminate]. subst r'. cbn in L2. destruct (q_kind q); cbn in K; intuition discriminate.
  - intros N. pose proof (pa_where _ _ _ _ _ _ P) as K. unfold typeCheckQueryWhereStruct in K. rewrite N in K. now injection K.
  - intros K. split.
    + destruct (some_dec _ (q_where q)) as [N|N]; [exact N|]. destruct (present_legal _ _ _ _ RWhere A PN N) as (r' & L1 & L2).
      apply alike_role in L1; [|unfold joins; intuition discriminate]. subst r'. cbn in L2. congruence.
    + destruct (some_dec _ (q_join q)) as [N|N]; [exact N|]. destruct (present_legal _ _ _ _ RJoin A PN N) as (r' & L1 & L2).
      rewrite K in L2. unfold alike, joins in L1. destruct r'; cbn in L2; intuition congruence.
  - destruct W as [[-> _]|(os & W & (p & ->) & _)]; [constructor|]. apply nodup_filter. now apply (write_fields_ok _ _ _ _ _ _ _ _ SO W).
  - destruct W as [[_ ->]|(os & W & _ & (p & ->) & _)]; [constructor|]. apply nodup_filter. now apply (write_fields_ok _ _ _ _ _ _ _ _ SO W).
  - pose proof (pa_joins _ _ _ _ _ _ P) as J. destruct (q_join q); [exact (joins_shape _ _ _ _ _ _ J)|]. rewrite J. constructor.
Qed.

Lemma C64_where_proof : forall db q t rf tr, check_query db q = COk t -> target db q rf tr ->
  Forall2 (conforms db (rf_id rf) (bindings rf (joined (q_join q)))) (where_of q) (ti_where t).
Proof.
  intros db q t rf tr H T. pass H T c P. pose proof (pa_where _ _ _ _ _ _ P) as W. unfold typeCheckQueryWhereStruct in W. unfold where_of.
  destruct (q_where q) as [w|]; [|injection W as <-; constructor]. apply check_all_ok in W. revert W. apply forall2_imp.
  intros i x E. exact (where_item_ok _ _ _ _ _ (pa_state _ _ _ _ _ _ P) _ _ E).
Qed.

Lemma C64_directives_proof : forall db q t rf tr, check_query db q = COk t -> target db q rf tr ->
  (forall l id, q_force q = Some l -> In id (l_items l) -> exists rid tr' r, denotes db (bindings rf (joined (q_join q))) id rid tr' r)
  /\ (forall l o, q_orderby q = Some l -> In o l -> exists rid tr' r, denotes db (bindings rf (joined (q_join q))) (o_col o) rid tr' r)
  /\ (forall l id, q_default q = Some l -> In id (l_items l) -> exists r, row_named tr (c_col id) r /\ cr_hasdef r = true).
Proof.
  intros db q t rf tr H T. pass H T c P. pose proof (pa_state _ _ _ _ _ _ P) as SO.
  assert (K : forall ids id, check_columns c ids = COk tt -> In id ids -> exists rid tr' r, denotes db (bindings rf (joined (q_join q))) id rid tr' r).
  { intros ids id H I. unfold check_columns in H. apply cbind_ok in H. destruct H as (l & H & _). apply check_all_ok in H.
    destruct (forall2_in_l _ _ _ _ _ _ H I) as ((rid, col) & _ & F). destruct (findColumn_ok _ _ _ _ _ _ _ _ SO F) as (t' & r & D & _).
    exists rid, t', r. exact D. }
  split; [|split].
  - intros l id Q I. pose proof (pa_forced _ _ _ _ _ _ P) as W. unfold typeCheckQueryForceDirective in W. rewrite Q in W. exact (K _ _ W I).
  - intros l o Q I. pose proof (pa_orderby _ _ _ _ _ _ P) as W. unfold typeCheckQueryOrderByDirective in W. rewrite Q in W.
    apply (K _ _ W). now apply in_map.
  - intros l id Q I. pose proof (pa_default _ _ _ _ _ _ P) as W. unfold typeCheckQueryDefaultDirective in W. rewrite Q in W.
    apply cbind_ok in W. destruct W as (us & W & _). apply check_all_ok in W. destruct (forall2_in_l _ _ _ _ _ _ W I) as (u & _ & F).
    unfold check_default in F. apply cbind_ok in F. destruct F as (col & F1 & F2). apply orelse_ok in F1. apply insist_ok in F2.
    destruct (findRelColumn_some _ _ _ _ _ (so_rel _ _ _ _ _ SO) F1) as (r & R & D). exists r. split; [exact R|].
    destruct D as (_ & _ & _ & _ & D & _). congruence.
Qed.

(** Every joined relation exists.  In the condition of a join the left column is
    one of the joined relation, the right one of a relation named up to there. *)
Definition join_item_conforms (db : database) (l : list (bytes * RelIdent)) (tr : relrow) (i : jitem) (w : wcond) : Prop :=
  match i, w with
  | JBool b, WCBool b' => b = b'
  | JCond d, WCColumn d' => d = d' /\ exists r, row_named tr (c_col (c_lhs d)) r /\ sound_cond db l d r False
  | _, _ => False
  end.

Lemma joins_nth : forall db rf t dirs l ls, joins_checked db rf t l dirs ls -> List.length ls = List.length dirs /\
  forall d1 d d2, dirs = d1 ++ d :: d2 -> exists tr' ws, nth_error ls (List.length d1) = Some ws /\ db_rels db (dotted (j_rel d)) = Some tr'
    /\ Forall2 (join_item_conforms db (bindings rf (l ++ map j_rel (d1 ++ [d]))) tr') (j_items d) ws.
Proof.
  induction dirs as [|d dirs IH]; intros l [|x xs] H; cbn in H; try contradiction.
  - split; [reflexivity|]. intros [|] d d2 E; discriminate.
  - destruct H as ((c & rel & t' & SO & E & L & F) & H). destruct (IH _ _ H) as [IH1 IH2]. split; [cbn; now rewrite IH1|].
    intros [|d0 d1] d' d2 E'; cbn in E'; injection E' as <- E'.
    + exists t', x. split; [reflexivity|]. split; [exact E|]. cbn [app map]. revert F. apply forall2_imp. intros [b|dc] w W; cbn in W.
      * injection W as <-. reflexivity.
      * apply cbind_ok in W. destruct W as (u & W & K). injection K as <-. split; [reflexivity|]. unfold typeCheckJoinConditional in W.
        apply cbind_ok in W. destruct W as (col & W1 & W2). apply orelse_ok in W1. destruct (findRelColumn_some _ _ _ _ _ L W1) as (r & R & D).
        exists r. split; [exact R|]. eapply sound_cond_weaken; [|eapply column_cond_ok; eassumption]. intros [K _]. discriminate.
    + subst dirs. destruct (IH2 d1 d' d2 eq_refl) as (tr' & ws & N & K1 & K2). exists tr', ws. split; [exact N|]. split; [exact K1|].
      cbn [app map]. rewrite <- app_assoc in K2. exact K2.
Qed.

Lemma C64_joins_proof : forall db q t rf tr j, check_query db q = COk t -> target db q rf tr -> q_join q = Some j ->
  List.length (ti_joins t) = List.length (j_dirs j)
  /\ forall d1 d d2, j_dirs j = d1 ++ d :: d2 -> exists tr' ws, nth_error (ti_joins t) (List.length d1) = Some ws
    /\ db_rels db (dotted (j_rel d)) = Some tr'
    /\ Forall2 (join_item_conforms db (bindings rf (match j_relation j with Some id => [id] | None => [] end ++ map j_rel (d1 ++ [d]))) tr') (j_items d) ws.
Proof.
  intros db q t rf tr j H T J. pass H T c P. pose proof (pa_joins _ _ _ _ _ _ P) as K. rewrite J in K. exact (joins_nth _ _ _ _ _ _ K).
Qed.

(** In the directives Return and Default the qualifier is not used: a column of
    a joined relation is read from, or set to the default in, the target. *)
Definition ex_from : fvar * gtype := (ex_var "From" [], TStruct [(ex_var "_" (ex_tag "sql" ["post:p"]), ex_dir "Relation")]).

Lemma C64_return_refuted_proof : exists e name fs q t l r, analyzeQueryStruct e name fs = AOk q /\ plain_names fs /\ check_query db_ex q = COk t
  /\ q_return q = Some l /\ l_items l = [MkCol (B "p") (B "id")] /\ ti_reads t = [r] /\ fr_ident r = MkCol (B "u") (B "id").
Proof.
  exists ex_env, (B "UpdateUser"), [ex_one ex_user; ex_from; (ex_var "_" (ex_tag "sql" ["p.id"]), ex_dir "Return")].
  eexists _, _, _, _. split; [vm_compute; reflexivity|]. split; [apply plain_fields; vm_compute; reflexivity|]. split; [vm_compute; reflexivity|].
  repeat (split; [reflexivity|]). reflexivity.
Qed.

Lemma C64_default_refuted_proof : exists e name fs q t l rf, analyzeQueryStruct e name fs = AOk q /\ plain_names fs /\ check_query db_ex q = COk t
  /\ q_default q = Some l /\ l_items l = [MkCol (B "p") (B "active")] /\ target db_ex q rf db_user
  /\ forall rid tr r, ~ denotes db_ex (bindings rf (joined (q_join q))) (MkCol (B "p") (B "active")) rid tr r.
Proof.
  exists ex_env, (B "UpdateUser"), [ex_one (TNamed (ex_name "User") (TStruct [(ex_var "Id" (ex_tag "sql" ["id"]), ex_int); (ex_var "Active" (ex_tag "sql" ["active"]), TBasic BBool false false)]));
    ex_from; (ex_var "_" (ex_tag "sql" ["p.active"]), ex_dir "Default")].
  eexists _, _, _, _. split; [vm_compute; reflexivity|]. split; [apply plain_fields; vm_compute; reflexivity|]. split; [vm_compute; reflexivity|].
  split; [reflexivity|]. split; [reflexivity|]. split; [split; vm_compute; reflexivity|].
  intros rid tr r ((l1 & l2 & E & N) & D & R).
  assert (K : rid = MkRel (B "post") (B "p") []).
  { vm_compute in E. destruct l1 as [|a l1]; [discriminate|]. destruct l1 as [|b l1]; [discriminate|]. destruct l1 as [|d l1]; [now injection E|].
    destruct l1; discriminate. }
  subst rid. vm_compute in D. injection D as <-. apply row_has in R. vm_compute in R.
  repeat match goal with H : _ \/ _ |- _ => destruct H as [H|H] end; try discriminate; contradiction.
Qed.

Lemma C65_operator_refuted_proof : exists e name fs q t d rt, analyzeQueryStruct e name fs = AOk q /\ plain_names fs /\ check_query db_ex q = COk t
  /\ ti_where t = [WCColumn d] /\ c_pred d = IsGT /\ c_rhs d = c_lhs d /\ row_named db_user (c_col (c_lhs d)) rt
  /\ ~ operator (db_cat db_ex) (oprname (c_pred d)) (cr_type rt) (cr_type rt).
Proof.
  exists ex_env, (B "DeleteUser"), [(ex_var "_" (ex_tag "rel" ["user:u"]), ex_dir "Relation");
     (ex_var "Where" [], TStruct [(ex_var "_" (ex_tag "sql" ["u.data > u.data"]), ex_dir "Column")])].
  eexists _, _, _, (db_col 7 "data" false false false oid_JSON). split; [vm_compute; reflexivity|]. split; [apply plain_fields; vm_compute; reflexivity|].
  split; [vm_compute; reflexivity|]. split; [reflexivity|]. split; [reflexivity|]. split; [reflexivity|]. split.
  - exists (firstn 6 (rr_cols db_user)), (skipn 7 (rr_cols db_user)). split; [reflexivity|]. split; [reflexivity|]. vm_compute. intuition discriminate.
  - unfold operator. vm_compute. intuition discriminate.
Qed.
