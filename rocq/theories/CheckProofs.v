(** Lemmas on the type checker (Check.v). *)
From Coq Require Import Ascii String ZArith NArith Bool List Lia Permutation.
From Verif Require Import GoBase AParse AnalysisProofs Analysis Oids Compat Gen Check CheckSpec ConvertProofs GenExec.
Import ListNotations.
Local Open Scope string_scope.
Local Open Scope list_scope.

(** ** Results *)

Lemma cbind_ok : forall A C (r : cres A) (f : A -> cres C) c, cbind r f = COk c -> exists a, r = COk a /\ f a = COk c.
Proof. intros A C r f c H. destruct r as [a|e|]; try discriminate. exists a. split; [reflexivity|exact H]. Qed.
Lemma orelse_ok : forall A (o : option A) e a, orelse o e = COk a -> o = Some a.
Proof. intros A o e a H. destruct o; cbn in H; congruence. Qed.
Lemma deref_ok : forall A (o : option A) a, deref o = COk a -> o = Some a.
Proof. intros A o a H. destruct o; cbn in H; congruence. Qed.
Lemma insist_ok : forall b e u, insist b e = COk u -> b = true.
Proof. intros b e u H. destruct b; [reflexivity|discriminate]. Qed.

Ltac step H x K := let H' := fresh in apply cbind_ok in H; destruct H as (x & K & H').

Lemma check_all_ok : forall A C (f : A -> cres C) l r, check_all f l = COk r <-> Forall2 (fun a c => f a = COk c) l r.
Proof.
  induction l as [|a l IH]; intros r; cbn; split.
  - intros H. injection H as <-. constructor.
  - intros H. inversion H. reflexivity.
  - intros H. apply cbind_ok in H. destruct H as (c & H1 & H). apply cbind_ok in H. destruct H as (cs & H2 & H). injection H as <-.
    constructor; [exact H1|]. now apply IH.
  - intros H. inversion H as [|? c ? cs H1 H2]; subst. rewrite H1. cbn. apply IH in H2. rewrite H2. reflexivity.
Qed.

Lemma somes_picked : forall A C (P : A -> Prop) (g : C -> A) l os,
  Forall2 (fun a o => match o with Some c => P a /\ g c = a | None => ~ P a end) l os -> picked P l (map g (somes os)).
Proof.
  induction 1 as [|a o l os H _ IH]; cbn; [constructor|]. destruct o as [c|].
  - destruct H as [H <-]. cbn. now constructor.
  - now constructor.
Qed.
Lemma somes_forall : forall A C (P : C -> Prop) (l : list A) os,
  Forall2 (fun _ o => match o with Some c => P c | None => True end) l os -> Forall P (somes os).
Proof. induction 1 as [|a o l os H _ IH]; cbn; [constructor|]. destruct o; [constructor; assumption|exact IH]. Qed.
Lemma forall2_imp : forall A C (P Q : A -> C -> Prop) l r, (forall a c, P a c -> Q a c) -> Forall2 P l r -> Forall2 Q l r.
Proof. intros A C P Q l r H. induction 1; constructor; auto. Qed.
Lemma forall2_in_l : forall A C (P : A -> C -> Prop) l r a, Forall2 P l r -> In a l -> exists c, In c r /\ P a c.
Proof.
  induction 1 as [|x y l r H _ IH]; intros I; [contradiction|]. destruct I as [->|I].
  - exists y. split; [now left|exact H].
  - destruct (IH I) as (c & I' & K). exists c. split; [now right|exact K].
Qed.
Lemma forall2_in_r : forall A C (P : A -> C -> Prop) l r c, Forall2 P l r -> In c r -> exists a, In a l /\ P a c.
Proof.
  induction 1 as [|x y l r H _ IH]; intros I; [contradiction|]. destruct I as [->|I].
  - exists x. split; [now left|exact H].
  - destruct (IH I) as (a & I' & K). exists a. split; [now right|exact K].
Qed.

(** ** Relations *)

Lemma find_type_ok : forall k o t, find_type k o = Some t -> type_of k o t.
Proof. intros k o t H. apply find_some in H. destruct H as [H E]. apply N.eqb_eq in E. split; assumption. Qed.

Lemma load_column_ok : forall k tb o r c, load_column k tb o r = COk c ->
  exists t, find_type k (cr_type r) = Some t
    /\ c = MkCo (cr_num r) (cr_name r) (cr_typmod r) (cr_notnull r) (cr_hasdef r) (cr_primary r) t tb o.
Proof.
  intros k tb o r c H. unfold load_column in H. apply cbind_ok in H. destruct H as (t & H & E). injection E as <-.
  apply orelse_ok in H. exists t. split; [exact H|reflexivity].
Qed.
(** [i] is the checker's description of the row [r]. *)
Definition ix_describes (r : ixrow) (i : index) : Prop :=
  ix_name i = ir_name r /\ ix_unique i = ir_unique r /\ ix_primary i = ir_primary r /\ ix_key i = ir_key r
  /\ parseIndexExpr (ir_def r) = Ok (ix_expr i) /\ ix_pred i = ir_pred r.
(** [rel] is the relation [t]. *)
Definition loaded (k : catalog) (t : relrow) (rel : relation) : Prop :=
  Forall2 (describes k t) (rr_cols t) (rel_cols rel) /\ rel_cons rel = rr_cons t /\ Forall2 ix_describes (rr_ixs t) (rel_ixs rel).

Lemma QualifiedName_dotted : forall id, QualifiedName id = dotted id.
Proof. reflexivity. Qed.
Lemma loadRelation_ok : forall db id rel, loadRelation db id = COk rel ->
  exists t, db_rels db (dotted id) = Some t /\ loaded (db_cat db) t rel.
Proof.
  intros db id rel H. unfold loadRelation in H. apply cbind_ok in H. destruct H as (t & H1 & H).
  apply cbind_ok in H. destruct H as (cols & H2 & H). apply cbind_ok in H. destruct H as (ixs & H3 & H). injection H as <-.
  apply orelse_ok in H1. exists t. split; [exact H1|]. split; [|split].
  - cbn. apply check_all_ok in H2. revert H2. apply forall2_imp. intros r c H. apply load_column_ok in H. destruct H as (ty & F & ->).
    apply find_type_ok in F. destruct F as [F1 F2]. repeat split; cbn; assumption.
  - reflexivity.
  - cbn. apply check_all_ok in H3. revert H3. apply forall2_imp. intros r i H. unfold load_index in H.
    destruct (parseIndexExpr (ir_def r)) as [e| |] eqn:E; try discriminate. injection H as <-. repeat split; cbn. exact E.
Qed.

Lemma findRelColumn_some : forall k t rel n c, loaded k t rel -> findRelColumn rel n = Some c ->
  exists r, row_named t n r /\ describes k t r c.
Proof.
  intros k t rel n c (L & _) H. unfold findRelColumn in H. unfold row_named. revert H.
  induction L as [|r d rs ds D _ IH]; cbn; [discriminate|].
  assert (E : co_name d = cr_name r) by apply D. destruct (bytes_eqb (co_name d) n) eqn:B.
  - intros H. injection H as <-. apply bytes_eqb_eq in B. exists r. split; [|exact D]. exists [], rs.
    split; [reflexivity|]. split; [congruence|]. cbn. tauto.
  - intros H. destruct (IH H) as (r' & (l1 & l2 & E1 & E2 & E3) & D'). exists r'. split; [|exact D'].
    exists (r :: l1), l2. split; [cbn; now rewrite E1|]. split; [exact E2|]. cbn. intros [F|F]; [|tauto].
    apply bytes_eqb_neq in B. congruence.
Qed.
Lemma findRelColumn_none : forall k t rel n, loaded k t rel -> findRelColumn rel n = None -> ~ has_row t n.
Proof.
  intros k t rel n (L & _) H. unfold findRelColumn in H. unfold has_row. revert H.
  induction L as [|r d rs ds D _ IH]; cbn; [tauto|].
  assert (E : co_name d = cr_name r) by apply D. destruct (bytes_eqb (co_name d) n) eqn:B; [discriminate|].
  intros H [F|F]; [|exact (IH H F)]. apply bytes_eqb_neq in B. congruence.
Qed.
Lemma row_has : forall t n r, row_named t n r -> has_row t n.
Proof. intros t n r (l1 & l2 & E & N & _). unfold has_row. rewrite E, map_app. apply in_app_iff. right. left. exact N. Qed.
Lemma row_unique : forall t n r r', row_named t n r -> row_named t n r' -> r = r'.
Proof.
  intros t n r r' (l1 & l2 & E & N & F) (m1 & m2 & E' & N' & F'). rewrite E in E'. clear E.
  revert m1 E' F'. induction l1 as [|x l1 IH]; intros [|y m1] E' F'; cbn in *.
  - now injection E'.
  - injection E' as -> _. exfalso. apply F'. now left.
  - injection E' as <- _. exfalso. apply F. now left.
  - injection E' as _ E'. apply (IH ltac:(tauto) m1 E'). tauto.
Qed.

(** ** The state of the checker *)

(** [c] is the state for the target [rf] = [t] and the relations [l] joined so far. *)
Record state_of (db : database) (rf : RelField) (t : relrow) (l : list RelIdent) (c : checker) : Prop := {
  so_db : ck_db c = db;
  so_rid : ck_rid c = rf_id rf;
  so_target : db_rels db (dotted (rf_id rf)) = Some t;
  so_rel : loaded (db_cat db) t (ck_rel c);
  so_names : map (fun e => (fst e, fst (snd e))) (ck_map c) = rev (bindings rf l);
  so_map : Forall (fun e => exists t', db_rels db (dotted (fst (snd e))) = Some t' /\ loaded (db_cat db) t' (snd (snd e))) (ck_map c) }.

Lemma load_target_ok : forall db rf c, loadTargetRelation db rf = COk c -> exists t, state_of db rf t [] c.
Proof.
  intros db rf c H. unfold loadTargetRelation in H. apply cbind_ok in H. destruct H as (rel & H & E). injection E as <-.
  apply loadRelation_ok in H. destruct H as (t & H & L). exists t.
  split; cbn; try reflexivity; try assumption.
  repeat constructor; cbn; exists t; split; assumption.
Qed.
Lemma load_join_ok : forall db rf t l c id c' rel, state_of db rf t l c -> loadJoinRelation c id = COk (c', rel) ->
  state_of db rf t (l ++ [id]) c' /\ exists t', db_rels db (dotted id) = Some t' /\ loaded (db_cat db) t' rel.
Proof.
  intros db rf t l c id c' rel [S1 S2 S3 S4 S5 S6] H. unfold loadJoinRelation in H. apply cbind_ok in H.
  destruct H as (r & H & E). injection E as <- <-. rewrite S1 in H. apply loadRelation_ok in H. destruct H as (t' & H & L).
  split; [|exists t'; split; assumption]. split; cbn; try assumption.
  - rewrite S5. unfold bindings. cbn [map]. rewrite map_app. cbn [map]. change (relIdentKey id) with (ref_name id).
    change (?a :: ?b :: ?x ++ [?d]) with ((a :: b :: x) ++ [d]). rewrite rev_app_distr. reflexivity.
  - constructor; [|exact S6]. cbn. exists t'. split; assumption.
Qed.
Lemma set_force_ok : forall db rf t l c f o, state_of db rf t l c ->
  state_of db rf t l (MkCk (ck_db c) (ck_rid c) (ck_rel c) (ck_map c) f o).
Proof. intros db rf t l c f o [S1 S2 S3 S4 S5 S6]. split; cbn; assumption. Qed.

Lemma lookup_first : forall A n (m : list (bytes * A)) a, Filter.lookup n m = Some a ->
  exists m1 m2, m = m1 ++ (n, a) :: m2 /\ ~ In n (map fst m1).
Proof.
  induction m as [|[k v] m IH]; intros a H; cbn in H; [discriminate|]. destruct (bytes_eqb n k) eqn:E.
  - injection H as <-. apply bytes_eqb_eq in E. subst. exists [], m. split; [reflexivity|]. cbn. tauto.
  - destruct (IH a H) as (m1 & m2 & -> & N). exists ((k, v) :: m1), m2. split; [reflexivity|]. cbn. intros [K|K]; [|tauto].
    apply bytes_eqb_neq in E. congruence.
Qed.
Lemma findColumn_ok : forall db rf t l c id rid col, state_of db rf t l c -> findColumn c id = COk (rid, col) ->
  exists t' r, denotes db (bindings rf l) id rid t' r /\ describes (db_cat db) t' r col.
Proof.
  intros db rf t l c id rid col [S1 S2 S3 S4 S5 S6] H. unfold findColumn in H.
  destruct (Filter.lookup (c_qual id) (ck_map c)) as [[rid' rel]|] eqn:E; [|discriminate].
  apply cbind_ok in H. destruct H as (col' & H & K). injection K as <- <-. apply orelse_ok in H.
  apply lookup_first in E. destruct E as (m1 & m2 & E & N).
  rewrite E in S6. apply Forall_app in S6. destruct S6 as [_ S6]. apply Forall_inv in S6. cbn in S6. destruct S6 as (t' & D & L).
  destruct (findRelColumn_some _ _ _ _ _ L H) as (r & R & DS). exists t', r. split; [|exact DS].
  split; [|split; assumption]. rewrite E, map_app in S5. cbn [map fst snd] in S5. apply (f_equal (@rev _)) in S5.
  rewrite rev_involutive, rev_app_distr in S5. cbn [rev] in S5. rewrite <- app_assoc in S5. cbn [app] in S5.
  eexists _, _. split; [symmetry; exact S5|]. rewrite map_rev, map_map, <- in_rev. cbn. exact N.
Qed.

(** The joins are checked one after the other, each in the scope so far. *)
Fixpoint joins_checked (db : database) (rf : RelField) (t : relrow) (l : list RelIdent) (dirs : list JoinDirective)
    (ls : list (list wcond)) : Prop :=
  match dirs, ls with
  | [], [] => True
  | d :: r, x :: xs =>
      (exists c rel t', state_of db rf t (l ++ [j_rel d]) c /\ db_rels db (dotted (j_rel d)) = Some t'
         /\ loaded (db_cat db) t' rel /\ Forall2 (fun i w => check_join_item c (j_rel d) rel i = COk w) (j_items d) x)
      /\ joins_checked db rf t (l ++ [j_rel d]) r xs
  | _, _ => False
  end.
Lemma check_joins_ok : forall db rf t dirs l c c' ls, state_of db rf t l c -> check_joins c dirs = COk (c', ls) ->
  state_of db rf t (l ++ map j_rel dirs) c' /\ joins_checked db rf t l dirs ls.
Proof.
  induction dirs as [|d dirs IH]; intros l c c' ls SO H; cbn in H.
  - injection H as <- <-. cbn. rewrite app_nil_r. split; [exact SO|exact Logic.I].
  - apply cbind_ok in H. destruct H as ((c1, rel) & H1 & H). apply cbind_ok in H. destruct H as (x & H2 & H).
    apply cbind_ok in H. destruct H as ((c2, xs) & H3 & H). injection H as <- <-.
    destruct (load_join_ok _ _ _ _ _ _ _ _ SO H1) as (SO1 & t' & D & L).
    destruct (IH _ _ _ _ SO1 H3) as (SO2 & J). cbn [map]. rewrite <- app_assoc in SO2. split; [exact SO2|].
    split; [|exact J]. exists c1, rel, t'. split; [exact SO1|]. split; [exact D|]. split; [exact L|]. now apply check_all_ok.
Qed.
Lemma join_struct_ok : forall db rf t q c c' ls, state_of db rf t [] c -> typeCheckQueryJoinStruct c q = COk (c', ls) ->
  state_of db rf t (joined (q_join q)) c'
  /\ match q_join q with
     | None => ls = []
     | Some j => joins_checked db rf t (match j_relation j with Some id => [id] | None => [] end) (j_dirs j) ls
     end.
Proof.
  intros db rf t q c c' ls SO H. unfold typeCheckQueryJoinStruct in H. unfold joined. destruct (q_join q) as [j|].
  - apply cbind_ok in H. destruct H as (c1 & H1 & H). destruct (j_relation j) as [id|].
    + apply cbind_ok in H1. destruct H1 as ((c2, rel) & H1 & E). injection E as <-.
      destruct (load_join_ok _ _ _ _ _ _ _ _ SO H1) as (SO1 & _). exact (check_joins_ok _ _ _ _ _ _ _ _ SO1 H).
    + injection H1 as <-. exact (check_joins_ok _ _ _ _ _ _ _ _ SO H).
  - injection H as <- <-. split; [exact SO|reflexivity].
Qed.

(** What an accepted query has passed. *)
Record passed (db : database) (q : qstate) (t : tinfo) (rf : RelField) (tr : relrow) (c : checker) : Prop := {
  pa_rel : q_rel q = Some rf;
  pa_state : state_of db rf tr (joined (q_join q)) c;
  pa_force : ck_force c = q_force q;
  pa_optional : ck_optional c = q_optional q;
  pa_joins : match q_join q with
             | None => ti_joins t = []
             | Some j => joins_checked db rf tr (match j_relation j with Some id => [id] | None => [] end) (j_dirs j) (ti_joins t)
             end;
  pa_forced : typeCheckQueryForceDirective c q = COk tt;
  pa_default : typeCheckQueryDefaultDirective c q = COk tt;
  pa_orderby : typeCheckQueryOrderByDirective c q = COk tt;
  pa_reads : exists r1 r2 r3, typeCheckQueryReturnDirective c q = COk r1 /\ typeCheckQueryResultField c q = COk r2
               /\ typeCheckQueryRelField c q rf = COk (r3, ti_writes t, ti_pkeys t) /\ ti_reads t = r1 ++ r2 ++ r3;
  pa_where : typeCheckQueryWhereStruct c q = COk (ti_where t);
  pa_conflict : typeCheckQueryOnConflictStruct c q (ti_writes t) = COk (ti_conflict t);
  pa_filters : ti_filters t = [] }.

Lemma check_query_ok : forall db q t, check_query db q = COk t -> exists rf tr c, passed db q t rf tr c.
Proof.
  intros db q t H. unfold check_query in H. destruct (q_rel q) as [rf|] eqn:R; [|discriminate].
  apply cbind_ok in H. destruct H as (c0 & H0 & H). apply load_target_ok in H0. destruct H0 as (tr & SO).
  apply cbind_ok in H. destruct H as ((c1, joins) & H1 & H). destruct (join_struct_ok _ _ _ _ _ _ _ SO H1) as (SO1 & J).
  apply (set_force_ok _ _ _ _ _ (q_force q) (q_optional q)) in SO1. cbn zeta in H.
  remember (MkCk (ck_db c1) (ck_rid c1) (ck_rel c1) (ck_map c1) (q_force q) (q_optional q)) as c eqn:EC.
  apply cbind_ok in H. destruct H as ([] & H2 & H). apply cbind_ok in H. destruct H as ([] & H3 & H).
  apply cbind_ok in H. destruct H as ([] & H4 & H). apply cbind_ok in H. destruct H as (r1 & H5 & H).
  apply cbind_ok in H. destruct H as (r2 & H6 & H). apply cbind_ok in H. destruct H as (((r3, w), pk) & H7 & H).
  apply cbind_ok in H. destruct H as (wh & H8 & H). apply cbind_ok in H. destruct H as (oc & H9 & H). injection H as <-.
  exists rf, tr, c. split; cbn [ti_reads ti_writes ti_pkeys ti_joins ti_where ti_conflict ti_filters]; try assumption; try reflexivity.
  - rewrite EC. reflexivity.
  - rewrite EC. reflexivity.
  - exists r1, r2, r3. repeat split; assumption.
Qed.

(** ** Fields *)

Lemma contains_named : forall l id, Contains l id = true <-> l_all l = true \/ exists x, In x (l_items l) /\ c_col x = c_col id.
Proof.
  intros l id. unfold Contains. rewrite orb_true_iff, existsb_exists. split; intros [H|(x & I & E)]; try (now left); right; exists x;
    (split; [exact I|]); [now apply bytes_eqb_eq|]. rewrite E. apply bytes_eqb_refl.
Qed.
Lemma forced_named : forall c id, forced c id = true <-> named_in (ck_force c) (c_col id).
Proof.
  intros c id. unfold forced, named_in. destruct (ck_force c) as [l|].
  - rewrite contains_named. split; [intros H; exists l; split; [reflexivity|exact H]|intros (x & E & H)]. injection E as ->. exact H.
  - split; [discriminate|intros (x & E & _); discriminate].
Qed.
Lemma mode_flags : forall (p : FieldMode -> bool) f, existsb (fun s => p (sn_mode s)) (fi_sel f) || p (fi_mode f) = true <-> exists m, In m (modes f) /\ p m = true.
Proof.
  intros p f. unfold modes. rewrite orb_true_iff, existsb_exists. split.
  - intros [(s & I & E)|E]; [exists (sn_mode s)|exists (fi_mode f)]; (split; [|exact E]); [right; now apply in_map|now left].
  - intros (m & [<-|I] & E); [now right|]. apply in_map_iff in I. destruct I as (s & <- & I). left. exists s. split; assumption.
Qed.
Lemma IsReadOnly_iff : forall f, IsReadOnly f = true <-> read_only f.
Proof.
  intros f. unfold IsReadOnly. rewrite mode_flags. unfold read_only. split; intros (m & I & H); exists m; (split; [exact I|]); unfold mode_IsReadOnly in *;
    destruct (m_select m), (m_insert m), (m_update m); cbn in *; intuition congruence.
Qed.
Lemma IsWriteOnly_iff : forall f, IsWriteOnly f = true <-> write_only f.
Proof.
  intros f. unfold IsWriteOnly. rewrite mode_flags. unfold write_only. split; intros (m & I & H); exists m; (split; [exact I|]); unfold mode_IsWriteOnly in *;
    destruct (m_select m), (m_insert m), (m_update m); cbn in *; intuition congruence.
Qed.

Lemma target_connected : forall db rf t l c f col, state_of db rf t l c -> findRelColumn (ck_rel c) (c_col (fi_col f)) = Some col ->
  connected (db_cat db) rf t f col (target_ident c f).
Proof.
  intros db rf t l c f col SO H. destruct (findRelColumn_some _ _ _ _ _ (so_rel _ _ _ _ _ SO) H) as (r & R & D).
  split; [exists r; split; assumption|]. unfold target_ident. rewrite (so_rid _ _ _ _ _ SO). reflexivity.
Qed.

Lemma field_write_ok : forall db rf t l c n f o, state_of db rf t l c -> typeCheckFieldWrite c n f = COk o ->
  match o with
  | Some w => fw_field w = f /\ fw_id w = n /\ connected (db_cat db) rf t f (fw_col w) (fw_ident w)
              /\ value_check (db_cat db) f (fw_col w) = COk (fw_valuer w) /\ (fi_default f = true -> co_hasdef (fw_col w) = true)
  | None => ~ has_row t (field_name f)
  end.
Proof.
  intros db rf t l c n f o SO H. unfold typeCheckFieldWrite in H. destruct (findRelColumn (ck_rel c) (c_col (fi_col f))) as [col|] eqn:E.
  - apply cbind_ok in H. destruct H as (u & H1 & H). apply cbind_ok in H. destruct H as (v & H2 & H). injection H as <-. cbn.
    split; [reflexivity|]. split; [reflexivity|]. split; [eapply target_connected; eassumption|].
    unfold ck_cat in H2. rewrite (so_db _ _ _ _ _ SO) in H2. split; [exact H2|]. apply insist_ok in H1. intros F. rewrite F in H1. exact H1.
  - injection H as <-. eapply findRelColumn_none; [apply SO|exact E].
Qed.
Lemma field_read_ok : forall db rf t l c b f o, state_of db rf t l c -> typeCheckFieldRead c b f = COk o ->
  match o with
  | Some r => fr_field r = f /\ connected (db_cat db) rf t f (fr_col r) (fr_ident r)
              /\ read_check (db_cat db) f (fr_col r) = COk (fr_scanner r) /\ (~ write_only f \/ named_in (ck_force c) (field_name f))
  | None => ~ has_row t (field_name f) \/ (write_only f /\ ~ named_in (ck_force c) (field_name f))
  end /\ (b = true -> has_row t (field_name f)).
Proof.
  intros db rf t l c b f o SO H. unfold typeCheckFieldRead in H. destruct (findRelColumn (ck_rel c) (c_col (fi_col f))) as [col|] eqn:E.
  - apply cbind_ok in H. destruct H as (v & H2 & H). injection H as <-.
    assert (C : connected (db_cat db) rf t f col (target_ident c f)) by (eapply target_connected; eassumption).
    assert (R : has_row t (field_name f)) by (destruct C as [(r & C & _) _]; exact (row_has _ _ _ C)).
    unfold ck_cat in H2. rewrite (so_db _ _ _ _ _ SO) in H2.
    assert (F : forced c (target_ident c f) = true <-> named_in (ck_force c) (field_name f)) by apply forced_named.
    split; [|intros _; exact R]. destruct (IsWriteOnly f && negb (forced c (target_ident c f))) eqn:W.
    + apply andb_true_iff in W. destruct W as [W1 W2]. right. split; [now apply IsWriteOnly_iff|]. rewrite <- F. intros K. rewrite K in W2. discriminate.
    + cbn. split; [reflexivity|]. split; [exact C|]. split; [exact H2|]. rewrite <- F, <- IsWriteOnly_iff.
      destruct (IsWriteOnly f); [|left; discriminate]. right. destruct (forced c (target_ident c f)); [reflexivity|discriminate].
  - destruct b; [discriminate|]. injection H as <-. split; [|discriminate]. left. eapply findRelColumn_none; [apply SO|exact E].
Qed.
Lemma reads_picked : forall db rf t l c (b : FieldInfo -> bool) fs os, state_of db rf t l c ->
  Forall2 (fun f o => typeCheckFieldRead c (b f) f = COk o) fs os ->
  picked (fun f => has_row t (field_name f) /\ (~ write_only f \/ named_in (ck_force c) (field_name f))) fs (map fr_field (somes os))
  /\ Forall (fun r => connected (db_cat db) rf t (fr_field r) (fr_col r) (fr_ident r)
                   /\ read_check (db_cat db) (fr_field r) (fr_col r) = COk (fr_scanner r)) (somes os)
  /\ (forall f, In f fs -> b f = true -> has_row t (field_name f)).
Proof.
  intros db rf t l c b fs os SO H.
  assert (K : Forall2 (fun f o => match o with
       | Some r => fr_field r = f /\ connected (db_cat db) rf t f (fr_col r) (fr_ident r)
              /\ read_check (db_cat db) f (fr_col r) = COk (fr_scanner r) /\ (~ write_only f \/ named_in (ck_force c) (field_name f))
       | None => ~ has_row t (field_name f) \/ (write_only f /\ ~ named_in (ck_force c) (field_name f))
       end /\ (b f = true -> has_row t (field_name f))) fs os) by (revert H; apply forall2_imp; intros f o E; eapply field_read_ok; eassumption).
  split; [|split].
  - apply somes_picked. revert K. apply forall2_imp. intros f o [E _]. destruct o as [r|].
    + destruct E as (E1 & E2 & E3 & E4). split; [|exact E1]. split; [|exact E4]. destruct E2 as [(x & E2 & _) _]. exact (row_has _ _ _ E2).
    + intros [N1 N2]. tauto.
  - apply (somes_forall _ _ _ fs). revert K. apply forall2_imp. intros f o [E _]. destruct o as [r|]; [|exact Logic.I].
    destruct E as (<- & E2 & E3 & _). split; assumption.
  - intros f I E. destruct (forall2_in_l _ _ _ _ _ _ K I) as (o & _ & _ & N). exact (N E).
Qed.

Lemma write_fields_ok : forall db rf t l c fs n os, state_of db rf t l c -> check_write_fields c n fs = COk os ->
  Forall2 (fun f o => match o with
     | Some w => fw_field w = f /\ connected (db_cat db) rf t f (fw_col w) (fw_ident w)
                 /\ value_check (db_cat db) f (fw_col w) = COk (fw_valuer w) /\ (fi_default f = true -> co_hasdef (fw_col w) = true)
     | None => ~ has_row t (field_name f) /\ read_only f
     end) fs os
  /\ NoDup (map fw_id (somes os)) /\ Forall (fun w => n <= fw_id w)%nat (somes os).
Proof.
  induction fs as [|f fs IH]; intros n os SO H; cbn in H.
  - injection H as <-. repeat constructor.
  - apply cbind_ok in H. destruct H as (o & H1 & H). apply cbind_ok in H. destruct H as (os' & H2 & H). injection H as <-.
    destruct (IH _ _ SO H2) as (F & N & G). unfold check_write_field in H1. apply cbind_ok in H1. destruct H1 as (o' & H1 & H3).
    apply cbind_ok in H3. destruct H3 as (u & H3 & E). injection E as ->. apply insist_ok in H3.
    pose proof (field_write_ok _ _ _ _ _ _ _ _ SO H1) as W. destruct o as [w|]; cbn [somes map].
    + destruct W as (W1 & W2 & W3 & W4 & W5). split; [constructor; [tauto|exact F]|]. split.
      * constructor; [|exact N]. rewrite W2. intros I. apply in_map_iff in I. destruct I as (w' & E & I).
        rewrite Forall_forall in G. apply G in I. lia.
      * constructor; [lia|]. revert G. apply Forall_impl. intros a K. lia.
    + split; [constructor; [split; [exact W|now apply IsReadOnly_iff]|exact F]|]. split; [exact N|]. revert G. apply Forall_impl. intros a K. lia.
Qed.

Lemma filter_picked : forall A C (P : A -> Prop) (Q : C -> bool) (g : C -> A) l os,
  Forall2 (fun a o => match o with Some c => g c = a /\ (Q c = true <-> P a) | None => ~ P a end) l os ->
  picked P l (map g (filter Q (somes os))).
Proof.
  induction 1 as [|a o l os H _ IH]; cbn; [constructor|]. destruct o as [c|]; [|now constructor].
  destruct H as [<- H]. cbn. destruct (Q c); cbn; constructor; try assumption; [now apply H|]. intros K. apply H in K. discriminate.
Qed.
Lemma nodup_filter : forall A C (g : A -> C) (p : A -> bool) l, NoDup (map g l) -> NoDup (map g (filter p l)).
Proof.
  induction l as [|a l IH]; intros H; cbn; [constructor|]. cbn in H. inversion H as [|? ? N D]; subst. destruct (p a); [|now apply IH].
  cbn. constructor; [|now apply IH]. intros I. apply N. apply in_map_iff in I. destruct I as (x & <- & I). apply filter_In in I. apply in_map. tauto.
Qed.

(** ** Conditions *)

Lemma op_eqb_eq : forall a b, op_eqb a b = true -> a = b.
Proof.
  intros [[n l] r] [[n' l'] r'] H. unfold op_eqb in H. cbn in H. apply andb_true_iff in H. destruct H as [H H3].
  apply andb_true_iff in H. destruct H as [H1 H2]. apply bytes_eqb_eq in H1. apply N.eqb_eq in H2, H3. congruence.
Qed.
Lemma has_op_in : forall k n l r, has_op k n l r = true -> In (n, l, r) (cat_ops k).
Proof. intros k n l r H. unfold has_op in H. apply existsb_exists in H. destruct H as (x & I & E). apply op_eqb_eq in E. now subst. Qed.
Lemma find_cast_in : forall k t s c, find_cast k t s = Some c -> In (t, s, c) (cat_casts k).
Proof.
  intros k t s c H. unfold find_cast in H. destruct (find _ (cat_casts k)) as [[[t' s'] c']|] eqn:E; [|discriminate].
  injection H as <-. apply find_some in E. destruct E as [I E]. apply andb_true_iff in E. cbn in E.
  destruct E as [E1 E2]. apply N.eqb_eq in E1, E2. subst. exact I.
Qed.

Lemma comparison_ok : forall k l r p q u, typeCheckComparison k l r p q = COk u ->
  exists rt e, r = Some rt /\ compared k p q rt e /\ comparable k p l e.
Proof.
  intros k l r p q u H. unfold typeCheckComparison in H. apply cbind_ok in H. destruct H as (o & H1 & H).
  apply cbind_ok in H. destruct H as (e & H2 & H). apply deref_ok in H2. subst o. apply insist_ok in H.
  assert (C : comparable k p l e).
  { unfold comparable, operator. apply orb_true_iff in H. destruct H as [H|H]; [apply orb_true_iff in H; destruct H as [H|H]; [apply orb_true_iff in H; destruct H as [H|H]|]|].
    - left. now apply N.eqb_eq.
    - right; left. apply andb_true_iff in H. destruct H as [H K]. apply N.eqb_eq in K. split; [|exact K]. unfold is_string in H. apply orb_true_iff in H.
      destruct H as [H|H]; [left; destruct (ty_cat l); congruence|now right].
    - right; right; left. now apply has_op_in.
    - right; right; right. apply andb_true_iff in H. destruct H as [_ H]. apply orb_true_iff in H. destruct H as [H|H]; [left|right].
      + destruct (find_cast k (ty_oid e) (ty_oid l)) as [[]|] eqn:F; try discriminate. split; [now apply find_cast_in|now apply has_op_in].
      + destruct (find_cast k (ty_oid l) (ty_oid e)) as [[]|] eqn:F; try discriminate. split; [now apply find_cast_in|now apply has_op_in]. }
  unfold compared. destruct (p_array p || quant_set q).
  - apply cbind_ok in H1. destruct H1 as (rt & H1 & H3). apply deref_ok in H1. apply cbind_ok in H3. destruct H3 as (u' & H3 & H4).
    injection H4 as H4. apply find_type_ok in H4. apply insist_ok in H3. exists rt, e. split; [exact H1|]. split; [|exact C].
    split; [|exact H4]. unfold is_array in H3. destruct (ty_cat rt); congruence.
  - injection H1 as H1. exists e, e. split; [exact H1|]. split; [reflexivity|exact C].
Qed.

Lemma rel_eqb_eq : forall a b, rel_eqb a b = true <-> a = b.
Proof.
  intros a b. unfold rel_eqb. rewrite !andb_true_iff, !bytes_eqb_eq. destruct a, b; cbn. intuition congruence.
Qed.
Lemma describes_type : forall k t r c, describes k t r c -> type_of k (cr_type r) (co_type c).
Proof. intros k t r c H. split; apply H. Qed.

Lemma column_cond_ok : forall db rf t l c w d rid lcol tr r u, state_of db rf t l c -> describes (db_cat db) tr r lcol ->
  check_column_cond c w d (rid, lcol) = COk u ->
  sound_cond db (bindings rf l) d r (w = true /\ rid <> rf_id rf).
Proof.
  intros db rf t l c w d rid lcol tr r u SO D H. unfold check_column_cond in H. unfold sound_cond.
  pose proof (describes_type _ _ _ _ D) as T. destruct (p_unary (c_pred d)) eqn:U.
  - apply cbind_ok in H. destruct H as (u' & H1 & H2). apply insist_ok in H1, H2.
    destruct (c_pred d); try discriminate; cbn in H1, H2;
      try (apply N.eqb_eq in H1; rewrite <- H1; symmetry; apply D).
    + destruct D as (_ & _ & _ & D & _). rewrite <- D. destruct (co_notnull lcol); [right|now left]. destruct w; [|discriminate].
      split; [reflexivity|]. intros E. subst rid. rewrite (so_rid _ _ _ _ _ SO) in H2.
      rewrite (proj2 (rel_eqb_eq _ _) eq_refl) in H2. discriminate.
    + destruct D as (_ & _ & _ & D & _). rewrite <- D. destruct (co_notnull lcol); [right|now left]. destruct w; [|discriminate].
      split; [reflexivity|]. intros E. subst rid. rewrite (so_rid _ _ _ _ _ SO) in H2.
      rewrite (proj2 (rel_eqb_eq _ _) eq_refl) in H2. discriminate.
  - apply cbind_ok in H. destruct H as (ort & H1 & H2). unfold ck_cat in *. rewrite (so_db _ _ _ _ _ SO) in *.
    apply comparison_ok in H2. destruct H2 as (rt & e & -> & H3 & H4).
    assert (K : exists lt rt e, type_of (db_cat db) (cr_type r) lt /\ operand db (bindings rf l) d rt
           /\ compared (db_cat db) (c_pred d) (c_quant d) rt e /\ comparable (db_cat db) (c_pred d) lt e).
    { exists (co_type lcol), rt, e. split; [exact T|]. split; [|split; assumption]. unfold operand.
      destruct (c_col (c_rhs d)) as [|a s]; [destruct (c_lit d) as [|a s]; [discriminate|]|].
      - apply cbind_ok in H1. destruct H1 as (o & H1 & H5). injection H5 as H5. apply orelse_ok in H1. exists o. split; [exact H1|]. now apply find_type_ok.
      - apply cbind_ok in H1. destruct H1 as ((rid', rc) & H1 & H5). injection H5 as <-.
        destruct (findColumn_ok _ _ _ _ _ _ _ _ SO H1) as (t' & r' & F & G). exists rid', t', r'. split; [exact F|]. exact (describes_type _ _ _ _ G). }
    destruct (c_pred d); try exact K; discriminate.
Qed.

(** ** Fields and columns *)

Lemma lookup_in : forall A n (m : list (bytes * A)) a, Filter.lookup n m = Some a -> In (n, a) m.
Proof. intros A n m a H. apply lookup_first in H. destruct H as (m1 & m2 & -> & _). apply in_app_iff. right. now left. Qed.
Lemma compat_entry : forall o m lit e, compat o m lit = Some e -> entry o m lit e.
Proof.
  intros o m lit e H. unfold compat in H. destruct (find _ oid2literal) as [[[o' m'] rows]|] eqn:F; [|discriminate].
  apply find_some in F. destruct F as [I F]. apply andb_true_iff in F. cbn in F. destruct F as [F1 F2]. apply N.eqb_eq in F1. apply eqb_prop in F2.
  subst. exists rows. split; [exact I|]. now apply lookup_in.
Qed.
Lemma compatibility_fits : forall k t ft m e, typeCompatibility k t ft m = Some e -> fits k t m (GenericLiteral ft) e.
Proof.
  intros k t ft m e H. unfold typeCompatibility in H. fold (stored t) in H. unfold fits.
  destruct (compat (stored t) m (GenericLiteral ft)) as [e'|] eqn:C.
  - injection H as <-. left. now apply compat_entry.
  - destruct (ty_cat t) eqn:K; try discriminate.
    + destruct (find_type k (ty_elem t)) as [et|] eqn:E; [destruct (is_string et) eqn:S0|]; try congruence.
      right; right. split; [reflexivity|]. exists et. split; [now apply find_type_ok|]. unfold is_string in S0.
      split; [destruct (ty_cat et); congruence|now apply compat_entry].
    + right; left. split; [reflexivity|]. now apply compat_entry.
Qed.
Lemma length1_ok : forall k c b, isLength1Type k c = COk b -> length1 k c b.
Proof.
  intros k c b H. unfold isLength1Type in H. apply cbind_ok in H. destruct H as (t & H1 & H2). injection H2 as <-.
  exists t. split.
  - destruct (is_array (co_type c)); [apply deref_ok in H1; now apply find_type_ok|now injection H1].
  - destruct (ty_cat t); rewrite ?Z.eqb_eq; try (split; [discriminate|contradiction]); [|tauto]. lia.
Qed.
Lemma value_type_eq : forall t, GenericLiteral (valuer_as_string t) = value_type t.
Proof.
  intros t. unfold valuer_as_string, value_type. destruct (t_kind t); cbn [kind_basic negb andb]; try reflexivity; destruct (f_valuer (t_flags t)); reflexivity.
Qed.

Lemma scan_ops_ok : forall k n l ft ops best e, scan_ops k n l ft ops best = Some e ->
  best = Some e \/ exists r rt, In (n, l, r) ops /\ type_of k r rt /\ fits k rt false (GenericLiteral ft) e.
Proof.
  induction ops as [|[[n' l'] r] ops IH]; intros best e H; cbn in H; [now left|].
  assert (G : forall b, scan_ops k n l ft ops b = Some e -> b = best \/ (exists e', b = Some e' /\
      exists r1 rt, In (n, l, r1) ((n', l', r) :: ops) /\ type_of k r1 rt /\ fits k rt false (GenericLiteral ft) e') ->
      best = Some e \/ exists r0 rt, In (n, l, r0) ((n', l', r) :: ops) /\ type_of k r0 rt /\ fits k rt false (GenericLiteral ft) e).
  { intros b E K. destruct (IH b e E) as [E'|(r0 & rt & I & T & F)].
    - subst b. destruct K as [K|(e' & K & Q)]; [left; congruence|]. injection K as <-. right. exact Q.
    - right. exists r0, rt. split; [now right|]. split; assumption. }
  destruct (bytes_eqb n' n && N.eqb l' l) eqn:E; [|apply (G best H); now left].
  apply andb_true_iff in E. destruct E as [E1 E2]. apply bytes_eqb_eq in E1. apply N.eqb_eq in E2. subst n' l'.
  destruct (find_type k r) as [rt|] eqn:T; [|apply (G best H); now left].
  destruct (typeCompatibility k rt ft false) as [e'|] eqn:C; [|apply (G best H); now left].
  assert (K : exists r0 rt0, In (n, l, r0) ((n, l, r) :: ops) /\ type_of k r0 rt0 /\ fits k rt0 false (GenericLiteral ft) e').
  { exists r, rt. split; [now left|]. split; [now apply find_type_ok|now apply compatibility_fits]. }
  destruct (ce_valuer e') eqn:V; [injection H as <-; right; exact K|].
  apply (G _ H). destruct best as [bb|]; [now left|]. right. exists e'. split; [reflexivity|exact K].
Qed.
Lemma proc_pairs_ok : forall k p q pairs l x y, proc_pairs k p q pairs = COk l -> In (x, y) l ->
  exists la lr ra rr, In ((la, lr), (ra, rr)) pairs /\ type_of k la x /\ type_of k ra y
    /\ exists lt rt et, type_of k lr lt /\ type_of k rr rt /\ compared k p q rt et /\ comparable k p lt et.
Proof.
  induction pairs as [|[[la lr] [ra rr]] pairs IH]; intros l x y H I; cbn in H.
  - injection H as <-. contradiction.
  - assert (G : proc_pairs k p q pairs = COk l -> exists la0 lr0 ra0 rr0, In ((la0, lr0), (ra0, rr0)) (((la, lr), (ra, rr)) :: pairs) /\ type_of k la0 x /\ type_of k ra0 y
      /\ exists lt rt et, type_of k lr0 lt /\ type_of k rr0 rt /\ compared k p q rt et /\ comparable k p lt et).
    { intros E. destruct (IH l x y E I) as (a & b & c & d & J & K). exists a, b, c, d. split; [now right|exact K]. }
    destruct (find_type k lr) as [lt|] eqn:F1; [|exact (G H)]. destruct (find_type k rr) as [rt|] eqn:F2; [|exact (G H)].
    destruct (typeCheckComparison k lt (Some rt) p q) as [u| |] eqn:C; [|exact (G H)|discriminate].
    destruct (find_type k la) as [x'|] eqn:F3; [|exact (G H)]. destruct (find_type k ra) as [y'|] eqn:F4; [|exact (G H)].
    apply cbind_ok in H. destruct H as (l' & H & E). injection E as <-. destruct I as [I|I].
    + injection I as -> ->. exists la, lr, ra, rr. split; [now left|]. split; [now apply find_type_ok|]. split; [now apply find_type_ok|].
      apply comparison_ok in C. destruct C as (rt' & et & C1 & C2 & C3). injection C1 as <-. exists lt, rt, et.
      split; [now apply find_type_ok|]. split; [now apply find_type_ok|]. split; assumption.
    + destruct (IH l' x y H I) as (a & b & c & d & J & K). exists a, b, c, d. split; [now right|exact K].
Qed.
Lemma coercion_ok : forall k t s, checkTypeCoercion k t s = true ->
  t = s \/ t = oid_Any \/ s = oid_Unknown \/ exists c, In (t, s, c) (cat_casts k) /\ c <> CastExplicit.
Proof.
  intros k t s H. unfold checkTypeCoercion in H. apply orb_true_iff in H. destruct H as [H|H]; [apply orb_true_iff in H; destruct H as [H|H]; [apply orb_true_iff in H; destruct H as [H|H]|]|].
  - left. now apply N.eqb_eq.
  - right; left. now apply N.eqb_eq.
  - right; right; left. now apply N.eqb_eq.
  - right; right; right. destruct (find_cast k t s) as [[]|] eqn:F; try discriminate; apply find_cast_in in F; eexists; (split; [exact F|discriminate]).
Qed.

Lemma field_cond_ok : forall k f v, typeCheckFieldConditional k f = COk v ->
  field_sound k (MkFC (fc_name f) (fc_type f) (fc_ident f) (fc_col f) (fc_pred f) (fc_quant f) (fc_func f) v).
Proof.
  intros k f v H. unfold typeCheckFieldConditional in H. unfold field_sound. cbn zeta. cbn [fc_name fc_type fc_ident fc_col fc_pred fc_quant fc_func fc_valuer].
  destruct (fc_func f) as [|a s] eqn:FN.
  - cbn zeta in H. fold (stored (co_type (fc_col f))) in H. apply cbind_ok in H. destruct H as (pt & H1 & H). apply cbind_ok in H. destruct H as (o & H2 & H).
    assert (HP : if p_array (fc_pred f) || quant_set (fc_quant f) then exists a, In (ty_oid (co_type (fc_col f)), a) TypeToArray /\ type_of k a pt else pt = co_type (fc_col f)).
    { destruct (p_array (fc_pred f) || quant_set (fc_quant f)); [|now injection H1]. apply orelse_ok in H1.
      destruct (find _ TypeToArray) as [[a b]|] eqn:F; [|discriminate]. apply find_some in F. destruct F as [I F]. apply N.eqb_eq in F. cbn in F. subst a.
      exists b. split; [exact I|now apply find_type_ok]. }
    destruct o as [e|].
    + injection H as <-. exists e. split; [reflexivity|]. left. destruct (has_op k (oprname (fc_pred f)) (stored (co_type (fc_col f))) (stored (co_type (fc_col f)))) eqn:O; [|discriminate].
      apply cbind_ok in H2. destruct H2 as (m & H2 & H3). injection H3 as H3. exists m, pt. split; [now apply length1_ok|]. split; [now apply has_op_in|].
      split; [exact HP|]. apply compatibility_fits in H3. rewrite value_type_eq in H3. exact H3.
    + apply cbind_ok in H. destruct H as (e & H3 & H). injection H as <-. apply orelse_ok in H3. apply scan_ops_ok in H3. destruct H3 as [H3|(r & rt & I & T & F)]; [discriminate|].
      exists e. split; [reflexivity|]. right. exists r, rt. split; [exact I|]. split; [exact T|]. rewrite value_type_eq in F. exact F.
  - unfold typeCheckFieldConditionalWithFunc in H. rewrite FN in H. apply cbind_ok in H. destruct H as (procs & H1 & H). apply cbind_ok in H. destruct H as (pairs & H2 & H).
    apply orelse_ok in H1. apply lookup_in in H1. cbn zeta in H.
    set (found := flat_map _ pairs) in H. destruct found as [|v' found'] eqn:FO; [discriminate|]. injection H as <-.
    assert (I : In v' found) by (rewrite FO; now left). unfold found in I. apply in_flat_map in I. destruct I as ([x y] & I & K). cbn [fst snd] in K.
    destruct (checkTypeCoercion k (ty_oid x) (ty_oid (co_type (fc_col f)))) eqn:C; [|contradiction].
    destruct (typeCompatibility k y (valuer_as_string (fc_type f)) false) as [e|] eqn:TC; [|contradiction]. destruct K as [<-|[]].
    destruct (proc_pairs_ok _ _ _ _ _ _ _ H2 I) as (la & lr & ra & rr & J & T1 & T2 & CM). apply in_prod_iff in J. destruct J as [J1 J2].
    exists procs, la, lr, ra, rr. split; [exact H1|]. split; [exact J1|]. split; [exact J2|]. split; [exact CM|]. split; [exists x; exact T1|]. destruct T1 as [T1 <-].
    split; [exact (coercion_ok _ _ _ C)|]. exists y, e. split; [exact T2|]. apply compatibility_fits in TC. rewrite value_type_eq in TC. split; [exact TC|reflexivity].
Qed.

Lemma sound_cond_weaken : forall db l d r (P Q : Prop), (P -> Q) -> sound_cond db l d r P -> sound_cond db l d r Q.
Proof. intros db l d r P Q H K. unfold sound_cond in *. destruct (c_pred d); tauto. Qed.

Lemma recode_ok : forall A a b s (r : cres A) x, recode a b s r = COk x -> r = COk x.
Proof. intros A a b s r x H. destruct r; cbn in H; congruence. Qed.
Lemma bound_ok : forall db rf t l c id rid lcol tr r p b rb, state_of db rf t l c -> describes (db_cat db) tr r lcol ->
  check_bound c id (rid, lcol) p b = COk rb -> bound_conforms db (bindings rf l) id tr r p b rb.
Proof.
  intros db rf t l c id rid lcol tr r p b rb SO D H. destruct b as [n ft|id']; cbn [check_bound] in H.
  - apply cbind_ok in H. destruct H as (v & H & E). injection E as <-. apply recode_ok in H. apply field_cond_ok in H. unfold ck_cat in H. rewrite (so_db _ _ _ _ _ SO) in H.
    unfold bound_conforms. cbn [fc_name fc_type fc_ident fc_col fc_pred fc_quant fc_func]. repeat (split; [reflexivity|]). split; [exact D|exact H].
  - apply cbind_ok in H. destruct H as (v & H & E). injection E as <-. apply recode_ok in H. cbn. split; [reflexivity|].
    eapply sound_cond_weaken; [|eapply column_cond_ok; eassumption]. intros [F _]. discriminate.
Qed.

Lemma nested_all : forall c items,
  (fix all (l : list witem) : cres (list wcond) :=
     match l with
     | [] => COk []
     | i :: r => chk x <- typeCheckWhereItem c i; chk xs <- all r; COk (x :: xs)
     end) items = check_all (typeCheckWhereItem c) items.
Proof. induction items as [|i items IH]; cbn; [reflexivity|]. rewrite IH. reflexivity. Qed.

Lemma witem_ind2 : forall P : witem -> Prop, (forall b, P (WBool b)) -> (forall n t id p q fn, P (WField n t id p q fn)) ->
  (forall d, P (WColumn d)) -> (forall n id p lo hi, P (WBetween n id p lo hi)) -> (forall n is, Forall P is -> P (WNested n is)) -> forall i, P i.
Proof.
  intros P H1 H2 H3 H4 H5. fix IH 1. intros [b|n t id p q fn|d|n id p lo hi|n is]; [apply H1|apply H2|apply H3|apply H4|].
  apply H5. induction is as [|i is F]; constructor; [apply IH|exact F].
Qed.

Lemma where_item_ok : forall db rf t l c, state_of db rf t l c -> forall i w, typeCheckWhereItem c i = COk w ->
  conforms db (rf_id rf) (bindings rf l) i w.
Proof.
  intros db rf t l c SO. induction i as [b|n ft id p q fn|d|n id p lo hi|n is IH] using witem_ind2; intros w H; cbn [typeCheckWhereItem] in H.
  - injection H as <-. constructor.
  - apply cbind_ok in H. destruct H as ((rid, col) & H1 & H). apply cbind_ok in H. destruct H as (v & H2 & H). injection H as <-.
    destruct (findColumn_ok _ _ _ _ _ _ _ _ SO H1) as (tr & r & F & G). apply field_cond_ok in H2. unfold ck_cat in H2. rewrite (so_db _ _ _ _ _ SO) in H2.
    econstructor; eassumption.
  - apply cbind_ok in H. destruct H as (u & H1 & H). injection H as <-. unfold typeCheckColumnConditional in H1.
    apply cbind_ok in H1. destruct H1 as ((rid, col) & H1 & H2). destruct (findColumn_ok _ _ _ _ _ _ _ _ SO H1) as (tr & r & F & G).
    econstructor; [exact F|]. eapply sound_cond_weaken; [|eapply column_cond_ok; eassumption]. tauto.
  - apply cbind_ok in H. destruct H as ((rid, col) & H1 & H). apply cbind_ok in H. destruct H as (lo' & H2 & H).
    apply cbind_ok in H. destruct H as (hi' & H3 & H). injection H as <-. destruct (findColumn_ok _ _ _ _ _ _ _ _ SO H1) as (tr & r & F & G).
    pose proof (bound_ok _ _ _ _ _ _ _ _ _ _ _ _ _ SO G H2) as K2. pose proof (bound_ok _ _ _ _ _ _ _ _ _ _ _ _ _ SO G H3) as K3.
    econstructor; [exact F| |]; destruct p; assumption.
  - rewrite nested_all in H. apply cbind_ok in H. destruct H as (cs & H & E). injection E as <-. constructor.
    apply check_all_ok in H. clear n. revert IH. induction H as [|i w is cs H _ IH']; intros IH; constructor; inversion IH; subst; auto.
Qed.
