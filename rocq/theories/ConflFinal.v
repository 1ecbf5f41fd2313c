(** Definitions and proofs used by PropsConfl.v. *)
From Coq Require Import Ascii String ZArith NArith Bool List Lia Permutation.
From Verif Require Import GoBase Strconv AParse Analysis AnalysisSpec QuerySpec AnalysisProofs AnalysisRoles QueryFinal PropsQuery Oids Compat Gen GenSpec Check ConvertProofs CheckSpec CheckProofs CheckEx PropsIx ColsFinal PropsCols.
Import ListNotations.
Local Open Scope string_scope.
Local Open Scope list_scope.

(** An index that can decide conflicts: one the database keeps unique. *)
Definition arbiter (t : relrow) (x : ixrow) : Prop := In x (rr_ixs t) /\ (ir_unique x = true \/ ir_primary x = true).

(** The target is the index [x], by its expressions and its predicate. *)
Definition by_index (x : ixrow) (ct : ctarget) : Prop := exists e, parseIndexExpr (ir_def x) = Ok e /\ ct = CTIndex e (ir_pred x).

(** The target an on-conflict struct asks for. *)
Definition resolves (t : relrow) (oc : OnConflictStruct) (ct : ctarget) : Prop :=
  match oc_constraint oc, oc_index oc, oc_column oc with
  | Some n, _, _ => ct = CTConstraint n /\ exists k, In (n, k) (rr_cons t) /\ (k = ConPKey \/ k = ConUnique)
  | None, Some n, _ => exists x, arbiter t x /\ ir_name x = n /\ by_index x ct
  | None, None, Some ids => exists x rows, arbiter t x /\ by_index x ct /\ Forall2 (fun id r => row_named t (c_col id) r) ids rows
        /\ (NoDup (ir_key x) -> Permutation (ir_key x) (map cr_num rows))
  | None, None, None => ct = CTNone
  end.

Lemma unique_arbiter : forall t x i, In x (rr_ixs t) -> ix_describes x i -> ix_unique i || ix_primary i = true -> arbiter t x.
Proof.
  intros t x i I (_ & U & P & _) H. split; [exact I|]. apply orb_true_iff in H. rewrite U, P in H. exact H.
Qed.

Lemma describes_by_index : forall x i, ix_describes x i -> by_index x (CTIndex (ix_expr i) (ix_pred i)).
Proof. intros x i (_ & _ & _ & _ & E & P). exists (ix_expr i). split; [exact E|]. now rewrite P. Qed.

Lemma columns_rows : forall k t rel ids cols, loaded k t rel ->
  check_all (fun id => orelse (findRelColumn rel (c_col id)) DColumnUnknown) ids = COk cols ->
  exists rows, Forall2 (fun id r => row_named t (c_col id) r) ids rows /\ Forall2 (describes k t) rows cols.
Proof.
  intros k t rel ids cols L H. apply check_all_ok in H. induction H as [|id c ids cols H _ IH].
  - exists []. split; constructor.
  - destruct IH as (rows & F1 & F2). apply orelse_ok in H. destruct (findRelColumn_some _ _ _ _ _ L H) as (r & R & D).
    exists (r :: rows). split; constructor; assumption.
Qed.

Lemma describes_nums : forall k t rows cols, Forall2 (describes k t) rows cols -> map co_num cols = map cr_num rows.
Proof. intros k t rows cols F. induction F as [|r c rows cols D _ IH]; [reflexivity|]. cbn. rewrite IH. destruct D as (E & _). now rewrite E. Qed.

Lemma column_target_ok : forall k t rel ids cols ct, loaded k t rel ->
  check_all (fun id => orelse (findRelColumn rel (c_col id)) DColumnUnknown) ids = COk cols ->
  column_target rel (map co_num cols) = COk ct ->
  exists x rows, arbiter t x /\ by_index x ct /\ Forall2 (fun id r => row_named t (c_col id) r) ids rows
        /\ (NoDup (ir_key x) -> Permutation (ir_key x) (map cr_num rows)).
Proof.
  intros k t rel ids cols ct L H C. destruct (columns_rows _ _ _ _ _ L H) as (rows & F1 & F2). unfold column_target in C.
  remember (filter (fun i => matchNumbers (ix_key i) (map co_num cols)) (rel_ixs rel)) as on eqn:E.
  destruct (find (fun i => ix_unique i || ix_primary i) on) as [i|] eqn:FD; [|destruct on; discriminate].
  assert (C' : ct = CTIndex (ix_expr i) (ix_pred i)) by (destruct on; [discriminate|congruence]). clear C. subst ct.
  apply find_some in FD. destruct FD as [I U]. rewrite E in I. apply filter_In in I. destruct I as [I M].
  destruct L as (_ & _ & L). destruct (forall2_in_r _ _ _ _ _ _ L I) as (x & IX & D). exists x, rows.
  split; [exact (unique_arbiter _ _ _ IX D U)|]. split; [exact (describes_by_index _ _ D)|]. split; [exact F1|].
  intro ND. destruct D as (_ & _ & _ & K & _). rewrite (describes_nums _ _ _ _ F2), K in M. exact (proj1 (C38_columns _ _ ND) M).
Qed.

Lemma C67_target_proof : forall db q t rf tr oc, check_query db q = COk t -> target db q rf tr -> q_onconflict q = Some oc ->
  exists ci, ti_conflict t = Some ci /\ resolves tr oc (ci_target ci).
Proof.
  intros db q t rf tr oc H T Q. pass H T c P. pose proof (pa_conflict _ _ _ _ _ _ P) as H. pose proof (so_rel _ _ _ _ _ (pa_state _ _ _ _ _ _ P)) as L.
  unfold typeCheckQueryOnConflictStruct in H. rewrite Q in H. apply cbind_ok in H. destruct H as (t1 & H1 & H).
  apply cbind_ok in H. destruct H as (t2 & H2 & H). apply cbind_ok in H. destruct H as (t3 & H3 & H).
  apply cbind_ok in H. destruct H as (u & _ & H). injection H as <-. exists (MkCI t3 u). split; [reflexivity|]. unfold resolves. cbn [ci_target].
  destruct (oc_constraint oc) as [n|].
  - apply cbind_ok in H3. destruct H3 as (k & F & H3). apply cbind_ok in H3. destruct H3 as (u3 & S' & H3). injection H3 as <-.
    apply insist_ok in S'. apply orelse_ok in F. unfold findRelConstraint in F. apply find_some in F. destruct F as [I E]. apply bytes_eqb_eq in E.
    destruct L as (_ & L & _). rewrite L in I. destruct k as [n' k]. cbn in *. subst. split; [reflexivity|]. exists k. split; [exact I|]. destruct k; (discriminate || auto).
  - injection H3 as <-. destruct (oc_index oc) as [n|].
    + apply cbind_ok in H2. destruct H2 as (i & F & H2). apply cbind_ok in H2. destruct H2 as (u2 & S' & H2). injection H2 as <-.
      apply insist_ok in S'. apply orelse_ok in F. unfold findRelIndex in F. apply find_some in F. destruct F as [I E]. apply bytes_eqb_eq in E.
      destruct L as (_ & _ & L). destruct (forall2_in_r _ _ _ _ _ _ L I) as (x & IX & D). exists x. split; [exact (unique_arbiter _ _ _ IX D S')|].
      split; [destruct D as (D & _); congruence|]. exact (describes_by_index _ _ D).
    + injection H2 as <-. destruct (oc_column oc) as [ids|].
      * apply cbind_ok in H1. destruct H1 as (cols & C1 & C2). exact (column_target_ok _ _ _ _ _ _ L C1 C2).
      * injection H1 as <-. reflexivity.
Qed.

Definition ex_conflict (ofs : fields) : qstate := ex_analysed "InsertUser" [ex_one ex_modes; (ex_var "OnConflict" [], TStruct ofs)].

Lemma C67_update_proof : forall db q t rf tr oc ci, check_query db q = COk t -> target db q rf tr -> q_onconflict q = Some oc -> ti_conflict t = Some ci ->
  match oc_update oc with
  | None => ci_update ci = []
  | Some l => if l_all l then ci_update ci = map fw_col (ti_writes t)
              else Forall2 (fun id c => exists r, row_named tr (c_col id) r /\ describes (db_cat db) tr r c) (l_items l) (ci_update ci)
  end.
Proof.
  intros db q t rf tr oc ci H T Q C. pass H T c P. pose proof (pa_conflict _ _ _ _ _ _ P) as H. pose proof (so_rel _ _ _ _ _ (pa_state _ _ _ _ _ _ P)) as L.
  unfold typeCheckQueryOnConflictStruct in H. rewrite Q in H. do 3 (apply cbind_ok in H; destruct H as (? & _ & H)).
  apply cbind_ok in H. destruct H as (u & U & H). rewrite C in H. injection H as <-. cbn [ci_update].
  destruct (oc_update oc) as [l|]; [|congruence]. destruct (l_all l); [congruence|].
  apply check_all_ok in U. revert U. apply forall2_imp. intros id co F. apply orelse_ok in F. exact (findRelColumn_some _ _ _ _ _ L F).
Qed.

(** The text of a Go type in a source file of another package. *)
Inductive spelled : gtype -> bytes -> Prop :=
| sp_basic : forall k, k <> BUnsafePointer -> spelled (TBasic k false false) (basic_text k)
| sp_byte : spelled (TBasic BUint8 true false) (B "byte")
| sp_rune : spelled (TBasic BInt32 false true) (B "rune")
| sp_named : forall n u p pn, n_pkg n = Some (p, pn) -> pn <> [] -> n_name n <> [] -> spelled (TNamed n u) (pn ++ B "." ++ n_name n)
| sp_slice : forall t s, spelled t s -> spelled (TSlice t) (B "[]" ++ s)
| sp_array : forall n t s, spelled t s -> spelled (TArray n t) (B "[" ++ Strconv.format_int 10 n ++ B "]" ++ s)
| sp_map : forall k t x s, spelled k x -> spelled t s -> spelled (TMap k t) (B "map[" ++ x ++ B "]" ++ s)
| sp_ptr : forall t s, spelled t s -> spelled (TPtr t) (B "*" ++ s)
| sp_any : forall ms sc va, spelled (TIface ms true sc va) (B "interface{}").

(** Types to which the name in the table is meant literally: not a pointer, and
    not a named type whose underlying type is basic. *)
Fixpoint beneath (t : gtype) : gtype := match t with TNamed _ u => beneath u | _ => t end.

Definition direct (t : gtype) : Prop :=
  match t with
  | TPtr _ => False
  | TNamed _ u => match beneath u with TBasic _ _ _ => False | _ => True end
  | _ => True
  end.

Lemma spelled_literal : forall e t s, spelled t s -> forall i b, analyzeTypeInfo e t = AOk (i, b) -> literal false i = s.
Proof.
  intros e t s H. induction H as [k K| | |n u p pn N P Q|t s H IH|n t s H IH|k t x s H1 IH1 H2 IH2|t s H IH|ms sc va]; intros i b A; cbn in A.
  - injection A as <- <-. destruct k; reflexivity || congruence.
  - injection A as <- <-. reflexivity.
  - injection A as <- <-. reflexivity.
  - rewrite N in A. apply abind_ok in A. destruct A as ((i' & b') & A & E). injection E as <- <-. cbn. destruct (n_name n); [congruence|]. destruct pn; [congruence|]. reflexivity.
  - apply abind_ok in A. destruct A as ((i' & b') & A & E). injection E as <- <-. cbn. now rewrite (IH _ _ A).
  - apply abind_ok in A. destruct A as ((i' & b') & A & E). injection E as <- <-. cbn. now rewrite (IH _ _ A).
  - apply abind_ok in A. destruct A as ((ik & bk) & A1 & A). apply abind_ok in A. destruct A as ((i' & b') & A & E). injection E as <- <-.
    cbn. now rewrite (IH1 _ _ A1), (IH2 _ _ A).
  - apply abind_ok in A. destruct A as ((i' & b') & A & E). injection E as <- <-. cbn. now rewrite (IH _ _ A).
  - injection A as <- <-. reflexivity.
Qed.

Lemma beneath_kind : forall e t i b, analyzeTypeInfo e t = AOk (i, b) ->
  match beneath t with TBasic _ _ _ => True | _ => forall k, t_kind i <> KBasic k end.
Proof.
  intros e. fix IH 1. intros t i b A. destruct t as [k x y|n t|t|t|k t|t|ps rs|ms em sc va|fs|n u]; cbn in *; try exact Logic.I;
    try (apply abind_ok in A; destruct A as ((i' & b') & A & E)).
  - injection E as <- <-. discriminate.
  - injection E as <- <-. discriminate.
  - injection E as <- <-. discriminate.
  - apply abind_ok in E. destruct E as ((i2 & b2) & _ & E). injection E as <- <-. discriminate.
  - injection A as <- <-. discriminate.
  - injection A as <- <-. discriminate.
  - injection A as <- <-. discriminate.
  - injection A as <- <-. discriminate.
  - destruct (n_pkg n) as [[p pn]|]; [|discriminate]. apply abind_ok in A. destruct A as ((i' & b') & A & E). injection E as <- <-.
    pose proof (IH u i' b' A) as K. destruct (beneath u); try exact Logic.I; exact K.
Qed.

Lemma direct_literal : forall e t s i b, analyzeTypeInfo e t = AOk (i, b) -> spelled t s -> direct t -> GenericLiteral i = s.
Proof.
  intros e t s i b A P D. rewrite <- (spelled_literal _ _ _ P _ _ A). destruct t as [k x y|n t|t|t|k t|t|ps rs|ms em sc va|fs|n u]; cbn in A, D;
    try contradiction; try (apply abind_ok in A; destruct A as ((i' & b') & A & E)).
  - injection A as <- <-. inversion P; subst; try reflexivity. destruct k; reflexivity || congruence.
  - injection E as <- <-. reflexivity.
  - injection E as <- <-. reflexivity.
  - apply abind_ok in E. destruct E as ((i2 & b2) & _ & E). injection E as <- <-. reflexivity.
  - injection A as <- <-. reflexivity.
  - injection A as <- <-. reflexivity.
  - injection A as <- <-. reflexivity.
  - injection A as <- <-. reflexivity.
  - destruct (n_pkg n) as [[p pn]|] eqn:N; [|discriminate]. apply abind_ok in A. destruct A as ((i' & b') & A & E). injection E as <- <-.
    pose proof (beneath_kind _ _ _ _ A) as K. inversion P as [| | |? ? ? ? ? ? NN| | | | |]; subst. destruct (n_name n) as [|a l]; [congruence|].
    unfold GenericLiteral. cbn [t_kind]. destruct (t_kind i') eqn:TK; try reflexivity. destruct (beneath u); try contradiction; exfalso; eapply K; eauto.
Qed.

(** The package pgsql declares the function [fn] with the given parameter. *)
Definition makes_valuer (fn param : bytes) : Prop := exists g, In g pgsql_funcs /\ gf_name g = fn /\ gf_param g = param /\ gf_valuer g = true.

Definition makes_scanner (fn param : bytes) : Prop := exists g, In g pgsql_funcs /\ gf_name g = fn /\ gf_param g = param /\ gf_scanner g = true.

Definition all_entries (f : N -> bytes -> compentry -> bool) : bool :=
  forallb (fun r => forallb (fun x => f (fst (fst r)) (fst x) (snd x)) (snd r)) oid2literal.

Lemma all_entries_in : forall f o m lit e, all_entries f = true -> entry o m lit e -> f o lit e = true.
Proof.
  intros f o m lit e H (rows & I & J). unfold all_entries in H. rewrite forallb_forall in H. specialize (H _ I). cbn in H.
  rewrite forallb_forall in H. exact (H _ J).
Qed.

Definition has_func (flag : gofunc -> bool) (fn param : bytes) : bool :=
  existsb (fun g => bytes_eqb (gf_name g) fn && bytes_eqb (gf_param g) param && flag g) pgsql_funcs.

Lemma has_func_in : forall flag fn param, has_func flag fn param = true -> exists g, In g pgsql_funcs /\ gf_name g = fn /\ gf_param g = param /\ flag g = true.
Proof.
  intros flag fn param H. unfold has_func in H. apply existsb_exists in H. destruct H as (g & I & H). apply andb_true_iff in H. destruct H as [H F].
  apply andb_true_iff in H. destruct H as [H1 H2]. exists g. repeat split; try assumption; now apply bytes_eqb_eq.
Qed.

Lemma valuers_declared : all_entries (fun o lit e => match ce_valuer e with [] => true | v => has_func gf_valuer v lit end) = true.
Proof. vm_compute. reflexivity. Qed.

Lemma scanners_declared : all_entries (fun o lit e => match ce_scanner e with [] => true | v => has_func gf_scanner v (B "*" ++ lit) || N.eqb o oid_InetArr || (bytes_eqb lit (B "interface{}") && has_func gf_scanner v (B "interface{}")) end) = true.
Proof. vm_compute. reflexivity. Qed.

Lemma C68_table_proof : forall o m lit e, entry o m lit e ->
  (ce_valuer e <> [] -> makes_valuer (ce_valuer e) lit)
  /\ (ce_scanner e <> [] -> o <> oid_InetArr -> lit <> B "interface{}" -> makes_scanner (ce_scanner e) (B "*" ++ lit))
  /\ (ce_scanner e <> [] -> o <> oid_InetArr -> lit = B "interface{}" -> exists p, makes_scanner (ce_scanner e) p /\ (p = B "*" ++ lit \/ p = B "interface{}")).
Proof.
  intros o m lit e E. pose proof (all_entries_in _ _ _ _ _ valuers_declared E) as V. pose proof (all_entries_in _ _ _ _ _ scanners_declared E) as W. cbv beta in V, W.
  split; [|split].
  - intros N. destruct (ce_valuer e) as [|a s]; [congruence|]. exact (has_func_in _ _ _ V).
  - intros N NO NL. destruct (ce_scanner e) as [|a s]; [congruence|]. apply orb_true_iff in W. destruct W as [W|W].
    + apply orb_true_iff in W. destruct W as [W|W]; [exact (has_func_in _ _ _ W)|]. apply N.eqb_eq in W. contradiction.
    + apply andb_true_iff in W. destruct W as [W _]. apply bytes_eqb_eq in W. contradiction.
  - intros N NO NL. destruct (ce_scanner e) as [|a s]; [congruence|]. apply orb_true_iff in W. destruct W as [W|W].
    + apply orb_true_iff in W. destruct W as [W|W]; [|apply N.eqb_eq in W; contradiction]. exists (B "*" ++ lit). split; [exact (has_func_in _ _ _ W)|now left].
    + apply andb_true_iff in W. destruct W as [_ W]. exists (B "interface{}"). split; [exact (has_func_in _ _ _ W)|now right].
Qed.

(** For arrays of inet the table names functions that do not make scanners. *)
Lemma inet_array_scanners : forall lit e, entry oid_InetArr false lit e -> ce_scanner e <> [] -> forall p, ~ makes_scanner (ce_scanner e) p.
Proof.
  intros lit e (rows & I & J) N p (g & G & GN & _ & GS).
  assert (K : forallb (fun r => negb (N.eqb (fst (fst r)) oid_InetArr) || forallb (fun x => match ce_scanner (snd x) with [] => true | s => forallb (fun g => negb (bytes_eqb (gf_name g) s) || negb (gf_scanner g)) pgsql_funcs end) (snd r)) oid2literal = true)
    by (vm_compute; reflexivity).
  rewrite forallb_forall in K. specialize (K _ I). cbn [fst snd] in K. rewrite N.eqb_refl in K. cbn [negb orb] in K. rewrite forallb_forall in K. specialize (K _ J). cbn [snd] in K.
  destruct (ce_scanner e) as [|a s]; [congruence|]. rewrite forallb_forall in K. specialize (K _ G). rewrite GN, bytes_eqb_refl, GS in K. discriminate.
Qed.

Lemma C68_inet_array_refuted_proof : exists lit e, entry oid_InetArr false lit e /\ ce_scanner e <> [] /\ forall p, ~ makes_scanner (ce_scanner e) p.
Proof.
  assert (E : entry oid_InetArr false (B "[]net.IP") (MkCE (B "InetArrayFromIPSlice") (B "InetArrayFromIPSlice"))) by (apply compat_entry; vm_compute; reflexivity).
  eexists _, _. split; [exact E|]. assert (N : ce_scanner (MkCE (B "InetArrayFromIPSlice") (B "InetArrayFromIPSlice")) <> []) by discriminate.
  split; [exact N|]. exact (inet_array_scanners _ _ E N).
Qed.

Lemma C68_direct_proof : forall en t i b s o m e, analyzeTypeInfo en t = AOk (i, b) -> spelled t s -> direct t -> entry o m (GenericLiteral i) e ->
  (ce_valuer e <> [] -> makes_valuer (ce_valuer e) s)
  /\ (ce_scanner e <> [] -> o <> oid_InetArr -> s <> B "interface{}" -> makes_scanner (ce_scanner e) (B "*" ++ s)).
Proof.
  intros en t i b s o m e A P D E. rewrite (direct_literal _ _ _ _ _ A P D) in E. destruct (C68_table_proof _ _ _ _ E) as (V & W & _). split; assumption.
Qed.

(** How the value of a field gets into, and out of, a column: by the field's own
    methods, as a document, or by an entry of the table. *)
Definition own_value (t : TypeInfo) : Prop := f_valuer (t_flags t) = true \/ (t_kind t = KPtr /\ exists e, t_elem t = Some e /\ f_valuer (t_flags e) = true).

Definition own_scan (t : TypeInfo) : Prop :=
  (f_scanner (t_flags t) = true /\ t_kind t <> KInterface) \/ (t_kind t = KPtr /\ exists e, t_elem t = Some e /\ f_scanner (t_flags e) = true /\ t_kind e <> KInterface).

Definition document_column (c : column) : Prop := In (ty_oid (co_type c)) [oid_JSON; oid_JSONB; oid_XML].

Definition converts (k : catalog) (t : TypeInfo) (c : column) (get : compentry -> bytes) (fn : bytes) : Prop :=
  exists len1 e, length1 k c len1 /\ fits k (co_type c) len1 (GenericLiteral t) e /\ fn = get e.

Lemma ImplementsValuer_iff : forall t, ImplementsValuer t = true <-> own_value t.
Proof.
  intros t. unfold ImplementsValuer, own_value. rewrite orb_true_iff, andb_true_iff. unfold kind_ptr. split.
  - intros [H|[H1 H2]]; [now left|right]. destruct (t_kind t); try discriminate. split; [reflexivity|]. destruct (t_elem t) as [x|]; [|discriminate]. now exists x.
  - intros [H|(H1 & x & H2 & H3)]; [now left|right]. rewrite H1, H2. now split.
Qed.

Lemma ImplementsScanner_iff : forall t, ImplementsScanner t = true <-> own_scan t.
Proof.
  assert (K : forall k, negb (is_iface k) = true <-> k <> KInterface) by (intros []; cbn; split; congruence).
  intros t. unfold ImplementsScanner, own_scan. rewrite orb_true_iff, andb_true_iff, andb_true_iff. rewrite K. unfold kind_ptr. split.
  - intros [H|[H1 H2]]; [now left|right]. destruct (t_kind t); try discriminate. split; [reflexivity|]. destruct (t_elem t) as [x|]; [|discriminate]. exists x.
    apply andb_true_iff in H2. rewrite K in H2. tauto.
  - intros [H|(H1 & x & H2 & H3)]; [now left|right]. rewrite H1, H2. split; [reflexivity|]. rewrite andb_true_iff, K. tauto.
Qed.

Lemma by_table_ok : forall k c t get e v, by_table k c t get e = COk v -> converts k t c get v.
Proof.
  intros k c t get e v H. unfold by_table in H. apply cbind_ok in H. destruct H as (m & L & H). destruct (typeCompatibility k (co_type c) t m) as [x|] eqn:T; [|discriminate].
  injection H as <-. exists m, x. split; [now apply length1_ok|]. split; [now apply compatibility_fits|reflexivity].
Qed.

Lemma documents : forall c, is_json c = true \/ is_xml c = true <-> document_column c.
Proof.
  intros c. unfold is_json, is_xml, document_column. rewrite orb_true_iff, !N.eqb_eq. cbn. intuition auto.
Qed.

Lemma document_ok : forall custom illegal t fn e v, document custom illegal t fn e = COk v -> v = [] \/ v = fn.
Proof. intros custom illegal t fn e v H. unfold document in H. destruct custom; [right; congruence|]. destruct illegal; [discriminate|]. destruct (IsByteSlice t || IsString t); [left|right]; congruence. Qed.

Lemma value_check_sound : forall k f c v, value_check k f c = COk v ->
  (own_value (fi_type f) /\ v = []) \/ (document_column c /\ In v [[]; B "JSON"; B "XML"]) \/ converts k (fi_type f) c ce_valuer v.
Proof.
  intros k f c v H. unfold value_check in H. cbv zeta in H. destruct (ImplementsValuer (fi_type f)) eqn:V.
  - left. split; [now apply ImplementsValuer_iff|congruence].
  - right. destruct (is_json c) eqn:J; [|destruct (is_xml c) eqn:X].
    + left. split; [apply documents; now left|]. apply document_ok in H. destruct H as [-> | ->]; cbn; auto.
    + left. split; [apply documents; now right|]. apply document_ok in H. destruct H as [-> | ->]; cbn; auto.
    + right. now apply by_table_ok in H.
Qed.

Lemma read_check_sound : forall k f c v, read_check k f c = COk v ->
  (own_scan (fi_type f) /\ v = []) \/ (document_column c /\ In v [[]; B "JSON"; B "XML"])
  \/ (t_empty (fi_type f) = true /\ v = B "AnyToEmptyInterface") \/ converts k (fi_type f) c ce_scanner v.
Proof.
  intros k f c v H. unfold read_check in H. cbv zeta in H. destruct (is_iface (t_kind (fi_type f)) && negb (t_empty (fi_type f))); [discriminate|].
  destruct (ImplementsScanner (fi_type f)) eqn:V.
  - left. split; [now apply ImplementsScanner_iff|congruence].
  - destruct (is_json c) eqn:J.
    + right. left. split; [apply documents; now left|]. apply document_ok in H. destruct H as [-> | ->]; cbn; auto.
    + destruct (t_empty (fi_type f)) eqn:T; [right; right; left; split; [reflexivity|congruence]|].
      destruct (is_xml c) eqn:X.
      * right. left. split; [apply documents; now right|]. apply document_ok in H. destruct H as [-> | ->]; cbn; auto.
      * right. right. right. now apply by_table_ok in H.
Qed.

Lemma C69_written_proof : forall db q t w, check_query db q = COk t -> In w (ti_writes t ++ ti_pkeys t) ->
  (own_value (fi_type (fw_field w)) /\ fw_valuer w = [])
  \/ (document_column (fw_col w) /\ In (fw_valuer w) [[]; B "JSON"; B "XML"])
  \/ converts (db_cat db) (fi_type (fw_field w)) (fw_col w) ce_valuer (fw_valuer w).
Proof.
  intros db q t w H I. apply check_query_ok in H. destruct H as (rf & tr & c & P). destruct (pa_reads _ _ _ _ _ _ P) as (r1 & r2 & r3 & _ & _ & R & _).
  pose proof (pa_state _ _ _ _ _ _ P) as SO. apply value_check_sound. unfold typeCheckQueryRelField in R.
  assert (R' : ti_writes t ++ ti_pkeys t = [] \/ exists os f g, check_write_fields c 0 (rt_fields (rf_type rf)) = COk os
     /\ ti_writes t = filter f (somes os) /\ ti_pkeys t = filter g (somes os)).
  { destruct (rf_dir rf); [left; injection R as _ <- <-; reflexivity|].
    destruct (q_kind q); try (left; injection R as _ <- <-; reflexivity); apply cbind_ok in R; destruct R as (os & R & E).
    - right. injection E as _ E1 E2. eexists _, _, _. split; [exact R|]. split; symmetry; eassumption.
    - right. injection E as _ E1 E2. eexists _, _, _. split; [exact R|]. split; symmetry; eassumption.
    - left. injection E as _ <- <-. reflexivity. }
  destruct R' as [R'|(os & f & g & R' & E1 & E2)]; [rewrite R' in I; contradiction|].
  destruct (write_fields_ok _ _ _ _ _ _ _ _ SO R') as (F & _). assert (J : In w (somes os)).
  { rewrite E1, E2 in I. apply in_app_or in I. destruct I as [I|I]; apply filter_In in I; tauto. }
  assert (V : Forall (fun w => value_check (db_cat db) (fw_field w) (fw_col w) = COk (fw_valuer w)) (somes os)).
  { apply (somes_forall _ _ _ (rt_fields (rf_type rf))). revert F. apply forall2_imp. intros x [y|] W; [|exact Logic.I]. destruct W as (<- & _ & W & _). exact W. }
  rewrite Forall_forall in V. exact (V _ J).
Qed.

Lemma C69_read_proof : forall db q t r, check_query db q = COk t -> In r (ti_reads t) ->
  (own_scan (fi_type (fr_field r)) /\ fr_scanner r = [])
  \/ (document_column (fr_col r) /\ In (fr_scanner r) [[]; B "JSON"; B "XML"])
  \/ (t_empty (fi_type (fr_field r)) = true /\ fr_scanner r = B "AnyToEmptyInterface")
  \/ converts (db_cat db) (fi_type (fr_field r)) (fr_col r) ce_scanner (fr_scanner r).
Proof.
  intros db q t r H I. apply check_query_ok in H. destruct H as (rf & tr & c & P). destruct (pa_reads _ _ _ _ _ _ P) as (r1 & r2 & r3 & R1 & R2 & R3 & E).
  pose proof (pa_state _ _ _ _ _ _ P) as SO. apply read_check_sound.
  assert (K : forall b fs os, Forall2 (fun f o => typeCheckFieldRead c (b f) f = COk o) fs os -> In r (somes os) -> read_check (db_cat db) (fr_field r) (fr_col r) = COk (fr_scanner r)).
  { intros b fs os F J. destruct (reads_picked _ _ _ _ _ b _ _ SO F) as (_ & A & _). rewrite Forall_forall in A. destruct (A _ J) as (_ & A'). exact A'. }
  rewrite E in I. apply in_app_or in I. destruct I as [I|I]; [|apply in_app_or in I; destruct I as [I|I]].
  - unfold typeCheckQueryReturnDirective in R1. destruct (q_return q) as [l|]; [|injection R1 as <-; contradiction]. destruct (l_all l).
    + apply cbind_ok in R1. destruct R1 as (os & F & R1). injection R1 as <-. apply check_all_ok in F. exact (K (fun _ => false) _ _ F I).
    + apply cbind_ok in R1. destruct R1 as (fs & _ & R1). apply cbind_ok in R1. destruct R1 as (os & F & R1). injection R1 as <-. apply check_all_ok in F. exact (K (fun _ => true) _ _ F I).
  - unfold typeCheckQueryResultField in R2. destruct (q_result q) as [l|]; [|injection R2 as <-; contradiction].
    apply cbind_ok in R2. destruct R2 as (os & F & R2). injection R2 as <-. apply check_all_ok in F. exact (K (fun _ => true) _ _ F I).
  - unfold typeCheckQueryRelField in R3. destruct (rf_dir rf); [injection R3 as <- _ _; contradiction|].
    destruct (q_kind q); try (injection R3 as <- _ _; contradiction); apply cbind_ok in R3; destruct R3 as (os & F & R3); injection R3 as <- _ _; try contradiction.
    apply check_all_ok in F. exact (K (fun f => match ck_optional c with Some l => negb (Contains l (fi_col f)) | None => true end) _ _ F I).
Qed.

Definition ex_tags (t : gtype) : qstate := ex_analysed "InsertUser" [ex_one (TNamed (ex_name "User") (TStruct [(ex_var "Tags" (ex_tag "sql" ["tags"]), t); (ex_var "Data" (ex_tag "sql" ["data"]), TMap ex_str ex_str)]));
   (ex_var "_" (ex_tag "sql" ["*"]), ex_dir "Return")].

Lemma C68_pointer_refuted_proof : exists t w i, check_query db_ex (ex_tags (TPtr (TSlice ex_str))) = COk t /\ In w (ti_writes t)
  /\ analyzeTypeInfo ex_env (TPtr (TSlice ex_str)) = AOk (i, ex_str) /\ fi_type (fw_field w) = i
  /\ spelled (TPtr (TSlice ex_str)) (B "*[]string") /\ makes_valuer (fw_valuer w) (B "[]string")
  /\ ~ makes_valuer (fw_valuer w) (B "*[]string").
Proof.
  eexists _, _, _. split; [vm_compute; reflexivity|]. split; [left; reflexivity|]. split; [vm_compute; reflexivity|]. split; [reflexivity|].
  split; [apply (sp_ptr _ (B "[]string")), (sp_slice _ (B "string")), (sp_basic BString); discriminate|]. split.
  - apply has_func_in. vm_compute. reflexivity.
  - intros (g & I & N & P & _). assert (K : forallb (fun g => negb (bytes_eqb (gf_name g) (B "TextArrayFromStringSlice")) || negb (bytes_eqb (gf_param g) (B "*[]string"))) pgsql_funcs = true) by (vm_compute; reflexivity).
    rewrite forallb_forall in K. specialize (K _ I). cbn [fw_valuer] in N. rewrite N, P in K. vm_compute in K. discriminate.
Qed.

Definition db_money : database := MkDB (MkCat [MkTy oid_Money (B "money") false CatOther 0] [] [] [])
  (fun n => Some (MkRelRow 7003 true [db_col 1 "pay" true false false oid_Money] [] [])) (fun _ => None).

Definition ex_cents : gtype := TNamed (ex_name "Cents") (TBasic BInt64 false false).

Definition ex_pay : qstate := ex_analysed "InsertUser" [ex_one (TNamed (ex_name "User") (TStruct [(ex_var "Pay" (ex_tag "sql" ["pay"]), ex_cents)]))].

Lemma C68_named_refuted_proof : exists t w i s, check_query db_money ex_pay = COk t /\ In w (ti_writes t)
  /\ analyzeTypeInfo ex_env ex_cents = AOk (i, TBasic BInt64 false false) /\ fi_type (fw_field w) = i
  /\ spelled ex_cents s /\ makes_valuer (fw_valuer w) (B "int64") /\ ~ makes_valuer (fw_valuer w) s.
Proof.
  eexists _, _, _, _. split; [vm_compute; reflexivity|]. split; [left; reflexivity|]. split; [vm_compute; reflexivity|]. split; [reflexivity|].
  split; [eapply sp_named; [reflexivity|discriminate|discriminate]|]. split.
  - apply has_func_in. vm_compute. reflexivity.
  - intros (g & I & N & P & _). assert (K : forallb (fun g => negb (bytes_eqb (gf_name g) (B "MoneyFromInt64")) || bytes_eqb (gf_param g) (B "int64")) pgsql_funcs = true) by (vm_compute; reflexivity).
    rewrite forallb_forall in K. specialize (K _ I). cbn [fw_valuer] in N. rewrite N, P in K. vm_compute in K. discriminate.
Qed.

(** A field can be filtered by if neither it nor a struct around it is excluded. *)
Definition filterable (f : FieldInfo) : Prop := m_filter (fi_mode f) = true /\ forall s, In s (fi_sel f) -> m_filter (sn_mode s) = true.

Lemma excluded_iff : forall f, ExcludeFromFilter f = true <-> ~ filterable f.
Proof.
  intros f. unfold ExcludeFromFilter, filterable. rewrite orb_true_iff, existsb_exists. split.
  - intros [(s & I & H)|H] (K1 & K2); [rewrite (K2 _ I) in H; discriminate|rewrite K1 in H; discriminate].
  - intros H. destruct (m_filter (fi_mode f)) eqn:M; [|right; reflexivity]. left.
    destruct (existsb (fun s => negb (m_filter (sn_mode s))) (fi_sel f)) eqn:E; [now apply existsb_exists|]. exfalso. apply H. split; [reflexivity|].
    intros s I. destruct (m_filter (sn_mode s)) eqn:N; [reflexivity|]. assert (K : existsb (fun s => negb (m_filter (sn_mode s))) (fi_sel f) = true)
      by (apply existsb_exists; exists s; rewrite N; split; [exact I|reflexivity]). congruence.
Qed.

Lemma C70_filters_proof : forall db s t rf tr, check_filter db s = COk t -> fs_rel s = Some rf -> db_rels db (dotted (rf_id rf)) = Some tr ->
  picked (fun f => filterable f /\ has_row tr (field_name f)) (rt_fields (rf_type rf)) (map ff_field (ti_filters t))
  /\ (forall x, In x (ti_filters t) -> connected (db_cat db) rf tr (ff_field x) (ff_col x) (ff_ident x)
        /\ ((own_value (fi_type (ff_field x)) /\ ff_valuer x = []) \/ (document_column (ff_col x) /\ In (ff_valuer x) [[]; B "JSON"; B "XML"])
            \/ converts (db_cat db) (fi_type (ff_field x)) (ff_col x) ce_valuer (ff_valuer x)))
  /\ (forall id, fs_ts s = Some id -> exists r, row_named tr (c_col id) r /\ cr_type r = oid_TSVector).
Proof.
  intros db s t rf tr H R T. unfold check_filter in H. rewrite R in H. apply cbind_ok in H. destruct H as (c & H1 & H).
  destruct (load_target_ok _ _ _ H1) as (tr' & SO). assert (tr' = tr) by (pose proof (so_target _ _ _ _ _ SO); congruence). subst tr'.
  apply cbind_ok in H. destruct H as (os & H2 & H). apply cbind_ok in H. destruct H as (u & H3 & H). injection H as <-. cbn [ti_filters].
  apply check_all_ok in H2.
  assert (F : Forall2 (fun f o => match o with
      | Some x => ff_field x = f /\ filterable f /\ connected (db_cat db) rf tr f (ff_col x) (ff_ident x) /\ value_check (db_cat db) f (ff_col x) = COk (ff_valuer x)
      | None => ~ (filterable f /\ has_row tr (field_name f)) end) (rt_fields (rf_type rf)) os).
  { revert H2. apply forall2_imp. intros f o E. unfold typeCheckFieldFilter in E. pose proof (excluded_iff f) as X. destruct (ExcludeFromFilter f).
    - injection E as <-. intros [K _]. now apply X.
    - assert (FL : filterable f).
      { destruct (m_filter (fi_mode f)) eqn:M; [|exfalso; assert (false = true); [apply X; intros [K _]; congruence|discriminate]].
        split; [exact M|]. intros n I. destruct (m_filter (sn_mode n)) eqn:N; [reflexivity|]. exfalso. assert (false = true); [|discriminate]. apply X. intros [_ K]. specialize (K _ I). congruence. }
      destruct (findRelColumn (ck_rel c) (c_col (fi_col f))) as [col|] eqn:FC.
      + apply cbind_ok in E. destruct E as (v & V & E). injection E as <-. cbn [ff_field ff_col ff_ident ff_valuer]. split; [reflexivity|]. split; [exact FL|].
        split; [eapply target_connected; eassumption|]. unfold ck_cat in V. rewrite (so_db _ _ _ _ _ SO) in V. exact V.
      + injection E as <-. intros [_ K]. revert K. change (c_col (fi_col f)) with (field_name f) in FC. eapply findRelColumn_none; [apply SO|exact FC]. }
  split; [|split].
  - assert (E : map ff_field (somes os) = map ff_field (filter (fun _ => true) (somes os))).
    { f_equal. generalize (somes os). intros l. induction l as [|a l IH]; [reflexivity|]. cbn. now f_equal. }
    rewrite E. apply filter_picked. revert F. apply forall2_imp. intros f [x|] K; [|exact K]. destruct K as (K1 & K2 & K3 & _). split; [exact K1|].
    split; [|reflexivity]. intros _. split; [exact K2|]. destruct K3 as ((r & K3 & _) & _). eapply row_has. exact K3.
  - assert (A : Forall (fun x => connected (db_cat db) rf tr (ff_field x) (ff_col x) (ff_ident x) /\ value_check (db_cat db) (ff_field x) (ff_col x) = COk (ff_valuer x)) (somes os)).
    { apply (somes_forall _ _ _ (rt_fields (rf_type rf))). revert F. apply forall2_imp. intros f [x|] K; [|exact Logic.I]. destruct K as (<- & _ & K). exact K. }
    rewrite Forall_forall in A. intros x I. destruct (A _ I) as [A1 A2]. split; [exact A1|]. now apply value_check_sound.
  - intros id E. rewrite E in H3. apply cbind_ok in H3. destruct H3 as (col & C & H3). apply orelse_ok in C. apply insist_ok in H3. apply N.eqb_eq in H3.
    destruct (findRelColumn_some _ _ _ _ _ (so_rel _ _ _ _ _ SO) C) as (r & R1 & D). exists r. split; [exact R1|].
    destruct D as (_ & _ & _ & _ & _ & _ & _ & _ & D & _). congruence.
Qed.

Definition ex_filters : fstate := match analyzeFilterStruct ex_env
  [(ex_var "_" (ex_tag "rel" ["user:u"]), TNamed (ex_name "User") (TStruct [(ex_var "Id" (ex_tag "sql" ["id"]), ex_int); (ex_var "None" (ex_tag "sql" ["none"]), ex_int);
      (ex_var "Email" (ex_tag "sql" ["email"; "xf"]), ex_str); (ex_var "Login" (ex_tag "sql" ["login"]), ex_str)]));
   (ex_var "_" (ex_tag "sql" ["u.ts"]), ex_dir "TextSearch"); ex_ctor "F" []] with AOk s => s | _ => MkF None None None [] end.

(** A database whose catalog is complete: it has the element types of its arrays
    and the types of literals, and its index definitions can be read. *)
Record closed (db : database) : Prop := {
  cl_elem : forall t, In t (cat_types (db_cat db)) -> ty_cat t = CatArray -> exists et, type_of (db_cat db) (ty_elem t) et;
  cl_lit : forall s o, db_lit db s = Some o -> exists t, type_of (db_cat db) o t;
  cl_index : forall n t x, db_rels db n = Some t -> In x (rr_ixs t) -> exists e, parseIndexExpr (ir_def x) = Ok e }.

Definition safe {A} (r : cres A) : Prop := r <> CPanic.

Lemma safe_bind : forall A C (r : cres A) (f : A -> cres C), safe r -> (forall a, r = COk a -> safe (f a)) -> safe (cbind r f).
Proof. intros A C [a|e|] f H K; cbn; [now apply K|discriminate|contradiction]. Qed.

Lemma safe_orelse : forall A (o : option A) e, safe (orelse o e).
Proof. intros A [a|] e; discriminate. Qed.

Lemma safe_insist : forall b e, safe (insist b e).
Proof. intros [] e; discriminate. Qed.

Lemma safe_ok : forall A (a : A), safe (COk a).
Proof. discriminate. Qed.

Lemma safe_err : forall A e, safe (@CErr A e).
Proof. discriminate. Qed.

Lemma safe_deref : forall A (o : option A), o <> None -> safe (deref o).
Proof. intros A [a|] H; [discriminate|congruence]. Qed.

Lemma safe_all : forall A C (f : A -> cres C) l, (forall a, In a l -> safe (f a)) -> safe (check_all f l).
Proof.
  intros A C f l. induction l as [|a l IH]; intros H; [discriminate|]. cbn. apply safe_bind; [apply H; now left|]. intros x _.
  apply safe_bind; [apply IH; intros y I; apply H; now right|]. intros y _. discriminate.
Qed.

Lemma typed_found : forall k o, (exists t, type_of k o t) -> find_type k o <> None.
Proof. intros k o (t & I & E) N. unfold find_type in N. apply (find_none _ _ N) in I. rewrite E, N.eqb_refl in I. discriminate. Qed.

#[global] Hint Resolve safe_orelse safe_insist safe_ok safe_err : safe.

Lemma safe_load : forall db id, closed db -> safe (loadRelation db id).
Proof.
  intros db id C. unfold loadRelation. apply safe_bind; [auto with safe|]. intros t T. apply orelse_ok in T. apply safe_bind.
  - apply safe_all. intros r _. unfold load_column. apply safe_bind; [auto with safe|]. auto with safe.
  - intros cols _. apply safe_bind; [|auto with safe]. apply safe_all. intros x I. unfold load_index. destruct (cl_index _ C _ _ _ T I) as (e & ->). discriminate.
Qed.

Lemma safe_findColumn : forall c id, safe (findColumn c id).
Proof. intros c id. unfold findColumn. destruct (Filter.lookup (c_qual id) (ck_map c)) as [[rid rel]|]; [|discriminate]. apply safe_bind; auto with safe. Qed.

Lemma safe_length1 : forall db c, closed db -> In (co_type c) (cat_types (db_cat db)) -> safe (isLength1Type (db_cat db) c).
Proof.
  intros db c C I. unfold isLength1Type. apply safe_bind; [|auto with safe]. unfold is_array. destruct (ty_cat (co_type c)) eqn:E; auto with safe.
  apply safe_deref, typed_found. now apply (cl_elem _ C).
Qed.

Lemma safe_comparison : forall db l r p q, closed db -> (exists t, r = Some t /\ In t (cat_types (db_cat db))) -> safe (typeCheckComparison (db_cat db) l r p q).
Proof.
  intros db l r p q C (t & -> & I). unfold typeCheckComparison. apply safe_bind.
  - destruct (p_array p || quant_set q); [|discriminate]. cbn [deref cbind]. apply safe_bind; auto with safe.
  - intros o E. assert (N : o <> None).
    { destruct (p_array p || quant_set q); [|injection E as <-; discriminate]. cbn [deref cbind] in E. apply cbind_ok in E. destruct E as (u & A & E). injection E as <-.
      apply insist_ok in A. apply typed_found. apply (cl_elem _ C _ I). unfold is_array in A. destruct (ty_cat t); (reflexivity || discriminate). }
    apply safe_bind; [now apply safe_deref|]. auto with safe.
Qed.

Definition has_rhs (d : cond) : Prop := p_unary (c_pred d) = true \/ c_col (c_rhs d) <> [] \/ c_lit d <> [].

Lemma find_type_in : forall k o t, find_type k o = Some t -> In t (cat_types k).
Proof. intros k o t H. apply find_type_ok in H. apply H. Qed.

Lemma safe_column_cond : forall db rf tr l c b d lhs, closed db -> state_of db rf tr l c -> has_rhs d -> safe (check_column_cond c b d lhs).
Proof.
  intros db rf tr l c b d [lrid lcol] C SO R. unfold check_column_cond. destruct (p_unary (c_pred d)) eqn:U.
  - apply safe_bind; auto with safe.
  - unfold has_rhs in R. rewrite U in R. destruct R as [R|R]; [discriminate|].
    pose proof (so_db _ _ _ _ _ SO) as ED. unfold ck_cat. rewrite ED.
    apply safe_bind.
    + destruct (c_col (c_rhs d)).
      * destruct (c_lit d); [discriminate|]. apply safe_bind; auto with safe.
      * apply safe_bind; [apply safe_findColumn|]. intros [? ?] _. discriminate.
    + intros rt E. apply safe_comparison; [exact C|]. destruct (c_col (c_rhs d)) as [|a s].
      * destruct (c_lit d) as [|a s]; [destruct R; congruence|]. apply cbind_ok in E. destruct E as (o & E1 & E). apply orelse_ok in E1. injection E as <-.
        apply (cl_lit _ C) in E1. apply typed_found in E1. destruct (find_type (db_cat db) o) as [t|] eqn:F; [|congruence]. exists t. split; [reflexivity|]. eapply find_type_in. exact F.
      * apply cbind_ok in E. destruct E as ([rid col] & E1 & E). injection E as <-. destruct (findColumn_ok _ _ _ _ _ _ _ _ SO E1) as (t' & r & _ & D).
        exists (co_type col). split; [reflexivity|]. apply D.
Qed.

Lemma safe_pairs : forall db p q l, closed db -> safe (proc_pairs (db_cat db) p q l).
Proof.
  intros db p q l C. induction l as [|[[la lr] [ra rr]] l IH]; [discriminate|]. cbn [proc_pairs]. destruct (find_type (db_cat db) lr) as [lt|]; [|exact IH].
  destruct (find_type (db_cat db) rr) as [rt|] eqn:F; [|exact IH]. assert (K : safe (typeCheckComparison (db_cat db) lt (Some rt) p q)).
  { apply safe_comparison; [exact C|]. exists rt. split; [reflexivity|]. eapply find_type_in. exact F. }
  destruct (typeCheckComparison (db_cat db) lt (Some rt) p q); [|exact IH|contradiction].
  destruct (find_type (db_cat db) la); [|exact IH]. destruct (find_type (db_cat db) ra); [|exact IH]. apply safe_bind; auto with safe.
Qed.

Lemma safe_field_cond : forall db f, closed db -> In (co_type (fc_col f)) (cat_types (db_cat db)) -> safe (typeCheckFieldConditional (db_cat db) f).
Proof.
  intros db f C I. unfold typeCheckFieldConditional. destruct (fc_func f) as [|a s] eqn:FN.
  - cbv zeta. apply safe_bind; [destruct (p_array (fc_pred f) || quant_set (fc_quant f)); auto with safe|]. intros ct _. apply safe_bind.
    + match goal with |- context [if ?b then _ else _] => destruct b end; [|discriminate]. apply safe_bind; [now apply safe_length1|]. auto with safe.
    + intros [e|] _; [discriminate|]. apply safe_bind; auto with safe.
  - unfold typeCheckFieldConditionalWithFunc. apply safe_bind; [auto with safe|]. intros procs _. apply safe_bind; [now apply safe_pairs|]. intros pairs _.
    cbv zeta. match goal with |- safe (match ?x with _ => _ end) => destruct x end; auto with safe.
Qed.

Lemma safe_recode : forall A a b s (r : cres A), safe r -> safe (recode a b s r).
Proof. intros A a b s [x|e|] H; cbn; try discriminate. contradiction. Qed.

Definition bound_named (b : bound) : Prop := match b with BoundColumn id => c_col id <> [] | BoundField _ _ => True end.

Lemma safe_bound : forall db rf tr l c id lhs p b, closed db -> state_of db rf tr l c -> In (co_type (snd lhs)) (cat_types (db_cat db)) -> bound_named b -> safe (check_bound c id lhs p b).
Proof.
  intros db rf tr l c id lhs p b C SO I N. destruct b as [n t|r]; cbn [check_bound]; cbv zeta.
  - apply safe_bind; [|auto with safe]. apply safe_recode. unfold ck_cat. rewrite (so_db _ _ _ _ _ SO). now apply safe_field_cond.
  - apply safe_bind; [|auto with safe]. apply safe_recode. eapply safe_column_cond; [exact C|exact SO|]. right. left. exact N.
Qed.

Inductive item_complete : witem -> Prop :=
| ic_bool : forall b, item_complete (WBool b)
| ic_field : forall n t id p q fn, item_complete (WField n t id p q fn)
| ic_column : forall d, has_rhs d -> item_complete (WColumn d)
| ic_between : forall n id p lo hi, bound_named lo -> bound_named hi -> item_complete (WBetween n id p lo hi)
| ic_nested : forall n is, Forall item_complete is -> item_complete (WNested n is).

Lemma safe_item : forall db rf tr l c, closed db -> state_of db rf tr l c -> forall i, item_complete i -> safe (typeCheckWhereItem c i).
Proof.
  intros db rf tr l c C SO. apply (witem_ind2 (fun i => item_complete i -> safe (typeCheckWhereItem c i))).
  - intros b _. cbn. discriminate.
  - intros n t id p q fn _. cbn [typeCheckWhereItem]. apply safe_bind; [apply safe_findColumn|]. intros [rid col] E. apply safe_bind; [|auto with safe].
    unfold ck_cat. rewrite (so_db _ _ _ _ _ SO). apply safe_field_cond; [exact C|]. cbn [fc_col]. destruct (findColumn_ok _ _ _ _ _ _ _ _ SO E) as (t' & r & _ & D). apply D.
  - intros d K. inversion K; subst. cbn [typeCheckWhereItem]. apply safe_bind; [|auto with safe]. unfold typeCheckColumnConditional. apply safe_bind; [apply safe_findColumn|].
    intros lhs _. eapply safe_column_cond; eassumption.
  - intros n id p lo hi K. inversion K; subst. cbn [typeCheckWhereItem]. apply safe_bind; [apply safe_findColumn|]. intros [rid col] E.
    assert (I : In (co_type (snd (rid, col))) (cat_types (db_cat db))) by (destruct (findColumn_ok _ _ _ _ _ _ _ _ SO E) as (t' & r & _ & D); apply D).
    apply safe_bind; [eapply safe_bound; eassumption|]. intros x _. apply safe_bind; [eapply safe_bound; eassumption|]. auto with safe.
  - intros n is F K. inversion K; subst. cbn [typeCheckWhereItem]. rewrite nested_all. apply safe_bind; [|auto with safe]. apply safe_all. intros i I.
    rewrite Forall_forall in F, H0. apply F; [exact I|]. now apply H0.
Qed.

Lemma safe_document : forall a b t fn e, safe (document a b t fn e).
Proof. intros a b t fn e. unfold document. destruct a; [discriminate|]. destruct b; [discriminate|]. destruct (IsByteSlice t || IsString t); discriminate. Qed.

Lemma safe_by_table : forall db c t get e, closed db -> In (co_type c) (cat_types (db_cat db)) -> safe (by_table (db_cat db) c t get e).
Proof.
  intros db c t get e C I. unfold by_table. apply safe_bind; [now apply safe_length1|]. intros m _. destruct (typeCompatibility (db_cat db) (co_type c) t m); discriminate.
Qed.

Lemma safe_read_check : forall db f c, closed db -> In (co_type c) (cat_types (db_cat db)) -> safe (read_check (db_cat db) f c).
Proof.
  intros db f c C I. unfold read_check. cbv zeta. destruct (is_iface (t_kind (fi_type f)) && negb (t_empty (fi_type f))); [discriminate|].
  destruct (ImplementsScanner (fi_type f)); [discriminate|]. destruct (is_json c); [apply safe_document|]. destruct (t_empty (fi_type f)); [discriminate|].
  destruct (is_xml c); [apply safe_document|]. now apply safe_by_table.
Qed.

Lemma safe_value_check : forall db f c, closed db -> In (co_type c) (cat_types (db_cat db)) -> safe (value_check (db_cat db) f c).
Proof.
  intros db f c C I. unfold value_check. cbv zeta. destruct (ImplementsValuer (fi_type f)); [discriminate|]. destruct (is_json c); [apply safe_document|].
  destruct (is_xml c); [apply safe_document|]. now apply safe_by_table.
Qed.

Lemma rel_column_in : forall db rf tr l c n col, state_of db rf tr l c -> findRelColumn (ck_rel c) n = Some col -> In (co_type col) (cat_types (db_cat db)).
Proof. intros db rf tr l c n col SO H. destruct (findRelColumn_some _ _ _ _ _ (so_rel _ _ _ _ _ SO) H) as (r & _ & D). apply D. Qed.

Lemma safe_field_read : forall db rf tr l c b f, closed db -> state_of db rf tr l c -> safe (typeCheckFieldRead c b f).
Proof.
  intros db rf tr l c b f C SO. unfold typeCheckFieldRead. destruct (findRelColumn (ck_rel c) (c_col (fi_col f))) as [col|] eqn:E; [|destruct b; discriminate].
  apply safe_bind; [|auto with safe]. unfold ck_cat. rewrite (so_db _ _ _ _ _ SO). apply safe_read_check; [exact C|]. eapply rel_column_in; eassumption.
Qed.

Lemma safe_field_write : forall db rf tr l c n f, closed db -> state_of db rf tr l c -> safe (typeCheckFieldWrite c n f).
Proof.
  intros db rf tr l c n f C SO. unfold typeCheckFieldWrite. destruct (findRelColumn (ck_rel c) (c_col (fi_col f))) as [col|] eqn:E; [|discriminate].
  apply safe_bind; [auto with safe|]. intros _ _. apply safe_bind; [|auto with safe]. unfold ck_cat. rewrite (so_db _ _ _ _ _ SO). apply safe_value_check; [exact C|].
  eapply rel_column_in; eassumption.
Qed.

Lemma safe_write_fields : forall db rf tr l c fs n, closed db -> state_of db rf tr l c -> safe (check_write_fields c n fs).
Proof.
  intros db rf tr l c fs. induction fs as [|f fs IH]; intros n C SO; cbn; [discriminate|]. apply safe_bind.
  - unfold check_write_field. apply safe_bind; [eapply safe_field_write; eassumption|]. intros w _. apply safe_bind; auto with safe.
  - intros w _. apply safe_bind; [now apply IH|]. auto with safe.
Qed.

Lemma safe_rel_field : forall db rf tr l c q, closed db -> state_of db rf tr l c -> safe (typeCheckQueryRelField c q rf).
Proof.
  intros db rf tr l c q C SO. unfold typeCheckQueryRelField. destruct (rf_dir rf); [discriminate|]. destruct (q_kind q); try discriminate.
  - apply safe_bind; [eapply safe_write_fields; eassumption|]. auto with safe.
  - apply safe_bind; [eapply safe_write_fields; eassumption|]. auto with safe.
  - apply safe_bind; [|auto with safe]. apply safe_all. intros f _. unfold check_select_field. eapply safe_field_read; eassumption.
Qed.

Definition jitem_complete (i : jitem) : Prop := match i with JBool _ => True | JCond d => has_rhs d end.

Lemma safe_joins : forall db rf tr dirs l c, closed db -> state_of db rf tr l c -> Forall (fun d => Forall jitem_complete (j_items d)) dirs -> safe (check_joins c dirs).
Proof.
  intros db rf tr dirs. induction dirs as [|d dirs IH]; intros l c C SO F; cbn [check_joins]; [discriminate|]. inversion F as [|? ? F1 F2]; subst.
  assert (LD : safe (loadJoinRelation c (j_rel d))).
  { unfold loadJoinRelation. apply safe_bind; [|auto with safe]. rewrite (so_db _ _ _ _ _ SO). now apply safe_load. }
  apply safe_bind; [exact LD|]. intros [c' rel] E. destruct (load_join_ok _ _ _ _ _ _ _ _ SO E) as (SO' & _). apply safe_bind.
  - apply safe_all. intros i I. rewrite Forall_forall in F1. specialize (F1 _ I). destruct i as [b|x]; cbn [check_join_item]; [discriminate|].
    apply safe_bind; [|auto with safe]. unfold typeCheckJoinConditional. apply safe_bind; [auto with safe|]. intros col _. eapply safe_column_cond; [exact C|exact SO'|exact F1].
  - intros ls _. apply safe_bind; [eapply IH; eassumption|]. intros [c2 l2] _. discriminate.
Qed.

Lemma unary_p : forall p, p_unary p = true <-> unary p.
Proof. intros p. unfold unary. destruct p; cbn; split; intros H; try discriminate; try reflexivity; intuition discriminate. Qed.

Lemma column_id_named : forall sc s id, column_id sc s id -> c_col id <> [].
Proof. intros sc s id (_ & (c & r & E & _) & _). congruence. Qed.

Lemma condition_complete : forall sc s d, column_condition sc s d -> has_rhs d.
Proof.
  intros sc s d H. unfold has_rhs. destruct H as [lhs op id p _ _ _ U|lhs op q r id rid p qu _ _ _ H _ _ _ _|lhs op q r id p qu _ N _ _ _ _ _ _]; cbn.
  - left. now apply unary_p.
  - right. left. exact (column_id_named _ _ _ H).
  - right. right. exact N.
Qed.

Lemma gives_named : forall sc b v t x, gives sc b v t x -> bound_named x.
Proof. intros sc b v t x []; cbn; [eapply column_id_named; eassumption|exact Logic.I]. Qed.

Lemma item_of_complete : forall sc v t x, item_of sc v t x -> item_complete x.
Proof.
  intros sc v t x H. destruct H as [s o c _ _ H| |s o lhs op r id v1 t1 v2 t2 lo hi _ _ _ _ _ _ H].
  - constructor. eapply condition_complete. exact H.
  - constructor.
  - destruct H as [[H1 H2]|[H1 H2]]; constructor; eapply gives_named; eassumption.
Qed.

Lemma where_complete : forall sc f ne fs l, where_items sc f ne fs l -> Forall item_complete l.
Proof.
  intros sc f ne fs l H. induction H as [ne|ne v t fs l _ _ IH|ne v t fs l x b _ _ I _ _ IH|ne v t fs l fs' l' b _ _ _ _ IH1 _ _ IH2|ne v t fs l b _ _ _ _ _ _ IH].
  - constructor.
  - exact IH.
  - apply Forall_app. split; [destruct ne; repeat constructor|]. constructor; [eapply item_of_complete; exact I|exact IH].
  - apply Forall_app. split; [destruct ne; repeat constructor|]. constructor; [constructor; exact IH1|exact IH2].
  - apply Forall_app. split; [destruct ne; repeat constructor|]. exact IH.
Qed.

Lemma alternatives_complete : forall sc rid ne b o l, alternatives sc rid ne b o l -> Forall jitem_complete l.
Proof.
  intros sc rid ne b o l H. induction H as [|ne b s r c l C _ _ IH]; [constructor|]. apply Forall_app. split; [destruct ne; repeat constructor|].
  constructor; [eapply condition_complete; exact C|exact IH].
Qed.

Lemma conjuncts_complete : forall sc rid ne o l, conjuncts sc rid ne o l -> Forall jitem_complete l.
Proof.
  intros sc rid ne o l H. induction H as [|ne v r ps l l' _ A _ IH]; [constructor|]. apply Forall_app. split; [eapply alternatives_complete; exact A|exact IH].
Qed.

Lemma join_complete : forall sc fs sc' rel ds, join_decl sc fs sc' rel ds -> Forall (fun d => Forall jitem_complete (j_items d)) ds.
Proof.
  intros sc fs sc' rel ds H. induction H; try assumption; [constructor|]. constructor; [cbn; eapply conjuncts_complete; eassumption|assumption].
Qed.

Lemma C71_no_panic_proof : forall e name fs q db, analyzeQueryStruct e name fs = AOk q -> plain_names fs -> closed db -> check_query db q <> CPanic.
Proof.
  intros e name fs q db A PN C. change (safe (check_query db q)). unfold check_query.
  pose proof (rolel_roles fs PN) as RL. destruct (C32_present _ _ _ _ _ A PN RL) as [RE PR].
  destruct (q_rel q) as [rf|] eqn:R.
  2:{ exfalso. destruct RE as (v & t & I). assert (K : present q RRel) by (apply PR; exists v, t, RRel; split; [exact I|left; reflexivity]). cbn in K. congruence. }
  apply safe_bind; [unfold loadTargetRelation; apply safe_bind; [now apply safe_load|auto with safe]|]. intros c0 H0.
  destruct (load_target_ok _ _ _ H0) as (tr & SO0).
  assert (JC : match q_join q with Some j => Forall (fun d => Forall jitem_complete (j_items d)) (j_dirs j) | None => True end).
  { destruct (q_join q) as [j|] eqn:J; [|exact Logic.I]. destruct (C50_joins _ _ _ _ _ A PN J) as (v & t & sc & jfs & sc' & _ & _ & _ & D & _). eapply join_complete. exact D. }
  apply safe_bind.
  - unfold typeCheckQueryJoinStruct. destruct (q_join q) as [j|]; [|discriminate]. destruct (j_relation j) as [id|].
    + assert (LD : safe (loadJoinRelation c0 id)).
      { unfold loadJoinRelation. apply safe_bind; [|auto with safe]. rewrite (so_db _ _ _ _ _ SO0). now apply safe_load. }
      apply safe_bind; [apply safe_bind; [exact LD|]; intros [? ?] _; discriminate|]. intros c' E. apply cbind_ok in E. destruct E as ([c1 rel] & E & E'). injection E' as <-.
      destruct (load_join_ok _ _ _ _ _ _ _ _ SO0 E) as (SO1 & _). eapply safe_joins; eassumption.
    + cbn [cbind]. eapply safe_joins; eassumption.
  - intros [c1 joins] H1. destruct (join_struct_ok _ _ _ _ _ _ _ SO0 H1) as (SO1 & _). apply (set_force_ok _ _ _ _ _ (q_force q) (q_optional q)) in SO1. cbv zeta.
    remember (MkCk (ck_db c1) (ck_rid c1) (ck_rel c1) (ck_map c1) (q_force q) (q_optional q)) as c eqn:EC. clear EC.
    assert (SC : forall l, safe (check_columns c l)) by (intros l; unfold check_columns; apply safe_bind; [apply safe_all; intros; apply safe_findColumn|auto with safe]).
    apply safe_bind; [unfold typeCheckQueryForceDirective; destruct (q_force q); [apply SC|discriminate]|]. intros _ _.
    apply safe_bind.
    { unfold typeCheckQueryDefaultDirective. destruct (q_default q); [|discriminate]. apply safe_bind; [|auto with safe]. apply safe_all. intros id _. unfold check_default. apply safe_bind; auto with safe. }
    intros _ _. apply safe_bind; [unfold typeCheckQueryOrderByDirective; destruct (q_orderby q); [apply SC|discriminate]|]. intros _ _.
    apply safe_bind.
    { unfold typeCheckQueryReturnDirective. destruct (q_return q) as [l|] eqn:RT; [|discriminate]. destruct (l_all l).
      - apply safe_bind; [|auto with safe]. apply safe_all. intros f _. eapply safe_field_read; eassumption.
      - apply safe_bind; [|intros gs _; apply safe_bind; [apply safe_all; intros f _; eapply safe_field_read; eassumption|auto with safe]].
        apply safe_all. intros id I. unfold findQueryColumnField. destruct (find _ (rt_fields (q_rtype q))) as [f|] eqn:F.
        + apply safe_bind; [apply safe_findColumn|auto with safe].
        + exfalso. destruct (C53_column_lists _ _ _ _ A PN) as (CR & _). destruct (CR _ RT) as (v & t & sc & o & _ & _ & _ & IR).
          destruct (IR _ I) as (r & g & E1 & E2 & E3). rewrite R in E1. injection E1 as <-. unfold q_rtype in F. rewrite R in F. apply (find_none _ _ F) in E2.
          rewrite E3, bytes_eqb_refl in E2. discriminate. }
    intros r1 _. apply safe_bind.
    { unfold typeCheckQueryResultField. destruct (q_result q) as [r|]; [|discriminate]. apply safe_bind; [|auto with safe]. apply safe_all. intros f _. eapply safe_field_read; eassumption. }
    intros r2 _. apply safe_bind; [eapply safe_rel_field; eassumption|]. intros [[r3 w] pk] _. apply safe_bind.
    { unfold typeCheckQueryWhereStruct. destruct (q_where q) as [wh|] eqn:W; [|discriminate]. destruct (C49_where _ _ _ _ _ A PN W) as (v & t & sc & wfs & f & _ & _ & _ & _ & WI & _).
      apply where_complete in WI. rewrite Forall_forall in WI. apply safe_all. intros i I. eapply safe_item; [exact C|exact SO1|]. now apply WI. }
    intros wh _. apply safe_bind; [|auto with safe]. unfold typeCheckQueryOnConflictStruct. destruct (q_onconflict q) as [oc|]; [|discriminate].
    apply safe_bind.
    { destruct (oc_column oc); [|discriminate]. apply safe_bind; [apply safe_all; auto with safe|]. intros cols _. unfold column_target.
      destruct (filter _ _) as [|x xs]; [discriminate|]. match goal with |- safe (match ?z with _ => _ end) => destruct z end; discriminate. }
    intros t1 _. apply safe_bind.
    { destruct (oc_index oc); [|discriminate]. apply safe_bind; [auto with safe|]. intros i _. apply safe_bind; auto with safe. }
    intros t2 _. apply safe_bind.
    { destruct (oc_constraint oc); [|discriminate]. apply safe_bind; [auto with safe|]. intros i _. apply safe_bind; auto with safe. }
    intros t3 _. apply safe_bind; [|auto with safe]. destruct (oc_update oc) as [l|]; [|discriminate]. destruct (l_all l); [discriminate|]. apply safe_all. auto with safe.
Qed.

(** An incomplete catalog makes the checker dereference a nil type. *)
Definition db_open : database := MkDB (MkCat [MkTy oid_Int4 (B "integer") false CatOther 0; MkTy 91001 (B "mood[]") false CatArray 91000] [] [] [])
  (fun n => Some (MkRelRow 7003 true [db_col 1 "tags" true false false 91001; db_col 2 "id" true true true oid_Int4] [] [])) (fun _ => Some 99999%N).

Lemma C71_array_refuted_proof : exists e name fs q, analyzeQueryStruct e name fs = AOk q /\ plain_names fs /\ check_query db_open q = CPanic.
Proof.
  exists ex_env, (B "SelectUser"), [ex_one (TNamed (ex_name "User") (TStruct [(ex_var "Tags" (ex_tag "sql" ["tags"]), TSlice ex_str)]))]. eexists.
  split; [vm_compute; reflexivity|]. split; [apply plain_fields; vm_compute; reflexivity|]. vm_compute. reflexivity.
Qed.

(** Also for a literal whose type is not in the catalog: the catalog leaves out
    pseudo-types (postgres.go:1629), such as the type record of ROW(1). *)
Definition db_row : database := MkDB (MkCat [MkTy oid_Int4 (B "integer") false CatOther 0] [] [] [])
  (fun n => Some (MkRelRow 7003 true [db_col 1 "id" true true true oid_Int4] [] [])) (fun s => if bytes_eqb s (B "ROW(1)") then Some 2249%N else None).

Lemma C71_literal_refuted_proof : exists e name fs q, analyzeQueryStruct e name fs = AOk q /\ plain_names fs /\ check_query db_row q = CPanic.
Proof.
  exists ex_env, (B "SelectUser"), [ex_one (TNamed (ex_name "User") (TStruct [(ex_var "Id" (ex_tag "sql" ["id"]), ex_int)]));
    (ex_var "Where" [], TStruct [(ex_var "_" (ex_tag "sql" ["u.id = ROW(1)"]), ex_dir "Column")])]. eexists.
  split; [vm_compute; reflexivity|]. split; [apply plain_fields; vm_compute; reflexivity|]. vm_compute. reflexivity.
Qed.

(** Strings can be written to and read from columns of string types. *)
Definition string_info : TypeInfo := plain_ti (KBasic BString).

Lemma compat_none : forall o lit, ~ In (o, true) (map fst oid2literal) -> compat o true lit = None.
Proof.
  intros o lit N. unfold compat. destruct (find _ oid2literal) as [[[o' m] rows]|] eqn:F; [|reflexivity]. exfalso. apply N.
  apply find_some in F. destruct F as [I F]. apply andb_true_iff in F. cbn in F. destruct F as [F1 F2]. apply N.eqb_eq in F1. apply eqb_prop in F2. subst.
  apply in_map_iff. eexists. split; [|exact I]. reflexivity.
Qed.

Lemma C72_string_proof : forall k f c, fi_type f = string_info -> ty_cat (co_type c) = CatString -> co_typmod c <> 5%Z ->
  ~ document_column c -> exists v s, value_check k f c = COk v /\ read_check k f c = COk s.
Proof.
  intros k f c T S5 M N.
  assert (X : is_json c = false /\ is_xml c = false).
  { split; [destruct (is_json c) eqn:E|destruct (is_xml c) eqn:E]; try reflexivity; exfalso; apply N, documents; tauto. }
  destruct X as [J X]. unfold value_check, read_check. rewrite T, J, X. cbn [ImplementsValuer ImplementsScanner string_info plain_ti t_flags t_kind t_empty f_valuer f_scanner no_flags kind_ptr is_iface negb andb orb].
  assert (L : isLength1Type k c = COk false).
  { unfold isLength1Type, is_array. rewrite S5. cbn [cbind]. rewrite S5. destruct (Z.eqb_spec (co_typmod c - 4) 1) as [E|E]; [lia|reflexivity]. }
  assert (K : exists e, typeCompatibility k (co_type c) string_info false = Some e).
  { unfold typeCompatibility. fold (stored (co_type c)). destruct (compat (stored (co_type c)) false (GenericLiteral string_info)) as [e|]; [exists e; reflexivity|].
    rewrite S5. eexists. vm_compute. reflexivity. }
  destruct K as (e & K). unfold by_table. rewrite L. cbn [cbind]. fold string_info. rewrite K. eexists _, _. split; reflexivity.
Qed.

Definition ex_column (num : Z) (typmod : Z) (t : pgtype) : column := MkCo num (B "c") typmod true false false t true 7001.

Definition ty_varchar := MkTy oid_VarChar (B "character varying") false CatString 0.

(** Not for varchar(1) and text types of the same length: nothing but a type with
    methods of its own, or an empty interface to be read into, is accepted. *)
Lemma rejected : forall k f c, ~ own_value (fi_type f) -> ~ own_scan (fi_type f) -> t_empty (fi_type f) = false -> ~ document_column c ->
  (forall m, isLength1Type k c = COk m -> typeCompatibility k (co_type c) (fi_type f) m = None) -> (exists m, isLength1Type k c = COk m) ->
  value_check k f c = CErr DColumnFieldTypeWrite /\ read_check k f c = CErr DColumnFieldTypeRead.
Proof.
  intros k f c V R E N H (m & L).
  assert (X : is_json c = false /\ is_xml c = false).
  { split; [destruct (is_json c) eqn:K|destruct (is_xml c) eqn:K]; try reflexivity; exfalso; apply N, documents; tauto. }
  destruct X as [J X]. unfold value_check, read_check. cbv zeta. rewrite J, X, E. cbn [negb]. rewrite andb_true_r.
  assert (V' : ImplementsValuer (fi_type f) = false) by (destruct (ImplementsValuer (fi_type f)) eqn:K; [apply ImplementsValuer_iff in K; contradiction|reflexivity]).
  assert (R' : ImplementsScanner (fi_type f) = false) by (destruct (ImplementsScanner (fi_type f)) eqn:K; [apply ImplementsScanner_iff in K; contradiction|reflexivity]).
  unfold by_table. rewrite V', R', L. cbn [cbind]. rewrite (H _ L). split; [reflexivity|]. destruct (is_iface (t_kind (fi_type f))); reflexivity.
Qed.

Lemma C72_length_one_proof : forall k f c, ~ own_value (fi_type f) -> ~ own_scan (fi_type f) -> t_empty (fi_type f) = false ->
  co_type c = ty_varchar -> co_typmod c = 5%Z ->
  value_check k f c = CErr DColumnFieldTypeWrite /\ read_check k f c = CErr DColumnFieldTypeRead.
Proof.
  intros k f c V R E T M. assert (L : isLength1Type k c = COk true) by (unfold isLength1Type; rewrite T, M; reflexivity).
  apply rejected; try assumption.
  - unfold document_column. rewrite T. vm_compute. intuition discriminate.
  - intros m L'. rewrite L in L'. injection L' as <-. unfold typeCompatibility. rewrite T. cbn [ty_varchar ty_enum ty_oid ty_cat].
    rewrite compat_none; [apply compat_none|]; vm_compute; intuition discriminate.
  - eexists. exact L.
Qed.

Lemma C72_bit_proof : forall k f c, ~ own_value (fi_type f) -> ~ own_scan (fi_type f) -> t_empty (fi_type f) = false ->
  co_type c = MkTy oid_Bit (B "bit") false CatBitstring 0 -> co_typmod c <> 1%Z ->
  value_check k f c = CErr DColumnFieldTypeWrite /\ read_check k f c = CErr DColumnFieldTypeRead.
Proof.
  intros k f c V R E T M. assert (L : isLength1Type k c = COk false).
  { unfold isLength1Type. rewrite T. cbn [is_array ty_cat cbind]. destruct (Z.eqb_spec (co_typmod c) 1); [contradiction|reflexivity]. }
  apply rejected; try assumption.
  - unfold document_column. rewrite T. vm_compute. intuition discriminate.
  - intros m L'. rewrite L in L'. injection L' as <-. unfold typeCompatibility. rewrite T. cbn [ty_enum ty_oid ty_cat]. unfold compat.
    destruct (find _ oid2literal) as [[[o b] rows]|] eqn:F; [|reflexivity]. exfalso. apply find_some in F. destruct F as [I F].
    apply andb_true_iff in F. cbn in F. destruct F as [F1 F2]. apply N.eqb_eq in F1. apply eqb_prop in F2. subst.
    assert (K : forallb (fun r => negb (N.eqb (fst (fst r)) oid_Bit) || snd (fst r)) oid2literal = true) by (vm_compute; reflexivity).
    rewrite forallb_forall in K. apply K in I. vm_compute in I. discriminate.
  - eexists. exact L.
Qed.
