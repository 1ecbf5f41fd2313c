(** Definitions and proofs used by PropsAFaults.v. *)
From Coq Require Import Ascii String ZArith NArith Bool List Lia.
From Verif Require Import GoBase Strconv ConvertUtil ConvertProofs Filter Filters2Final AParse PgSpec TagSpec SqlSpec AParseProofs TagsFinal Analysis AnalysisSpec AnalysisProofs AnalysisRoles QuerySpec QueryProofs QueryShape QuerySlots QueryFinal FieldSpec FieldFactsFinal AFaultSpec.
Import ListNotations.
Local Open Scope string_scope.
Local Open Scope list_scope.
Local Open Scope char_scope.

Lemma abind_err : forall {A C} (r : ares A) (f : A -> ares C) c, abind r f = AErr c -> r = AErr c \/ exists a, r = AOk a /\ f a = AErr c.
Proof. intros A C [a|e|] f c H; cbn [abind] in H; [right; eauto|left; inversion H; auto|discriminate H]. Qed.

Lemma ensure_err : forall b e c, ensure b e = AErr c -> b = false /\ c = e.
Proof. intros [] e c H; inversion H; auto. Qed.

Lemma lift_err : forall {A} (r : A + ecode) c, lift r = AErr c -> exists e, r = inr e /\ c = EC e.
Proof. intros A [a|e] c H; inversion H; eauto. Qed.

Lemma lift_res_err : forall {A} (r : res A) c, lift_res r <> AErr c.
Proof. intros A [a| |] c; discriminate. Qed.

(** Splits an equation [… = AErr c]: the first case is the error of the first step. *)
Ltac aerr H := let a := fresh "a" in let E := fresh "E" in let K := fresh "K" in
  apply abind_err in H; destruct H as [H|(a & E & K)]; [|clear H; cbv beta in K; pairs a; cbv iota in K].

Lemma col_err : forall sp s e, parseColIdent sp s = inr e -> column_fault (map fst sp) s (EC e).
Proof.
  intros sp s e H. unfold parseColIdent in H. destruct (isColIdent s) eqn:I; cbn [negb] in H.
  - destruct (cut_last "." s) as [[q n]|] eqn:C; [|discriminate]. destruct (lookup q sp) eqn:L; [discriminate|]. injection H as <-.
    assert (P : parseColIdent ((q, MkRel [] [] []) :: sp) s = inl (MkCol q n)).
    { unfold parseColIdent. rewrite I, C. cbn [negb lookup]. rewrite bytes_eqb_refl. reflexivity. }
    apply parseColIdent_in in P. destruct P as (E & N & Q & _).
    assert (NI : ~ In q (map fst sp)).
    { clear - L. induction sp as [|[k x] sp IH]; cbn in *; [auto|]. destruct (bytes_eqb q k) eqn:B; [discriminate|]. apply bytes_eqb_neq in B. intros [->|X]; [congruence|]. now apply IH. }
    eapply af_qualifier; eauto. apply Q. intros ->. 
    assert (X : parseColIdent [] s = inr EUnknownQualifier). { unfold parseColIdent. rewrite I, C. reflexivity. }
    assert (Y : parseColIdent [] s = inl (MkCol [] n)). 
    { apply parseColIdent_in. assert (P : parseColIdent (([], MkRel [] [] []) :: sp) s = inl (MkCol [] n)).
      { unfold parseColIdent. rewrite I, C. cbn [negb lookup]. reflexivity. }
      apply parseColIdent_in in P. destruct P as (P1 & P2 & P3 & P4). repeat split; auto; congruence. }
    congruence.
  - injection H as <-. apply af_bad_column. eapply bad_col with (sp := sp). unfold parseColIdent. rewrite I. reflexivity.
Qed.

Lemma column_fault_no : forall sc s c id, column_fault sc s c -> ~ column_id sc s id.
Proof.
  intros sc s c id F (E & N & Q & V). destruct F as [F|q n S1 S2 S3 S4].
  - apply F. exists (c_qual id), (c_col id). split; auto. split; auto. destruct (c_qual id) as [|x q] eqn:X.
    + left. split; auto. cbn in E. now subst.
    + right. apply Q. discriminate.
  - assert (P : parseColIdent [(q, MkRel [] [] [])] s = inl (MkCol q n)).
    { apply parseColIdent_in. split; [exact S1|]. split; auto. split; [intros _; split; [auto|now left]|exact V]. }
    assert (P2 : parseColIdent ((q, MkRel [] [] []) :: map (fun k => (k, MkRel [] [] [])) sc) s = inl id).
    { destruct id as [q' n']. cbn in *. apply parseColIdent_in. split; [exact E|]. split; auto. split; [|exact V]. intros NE. destruct (Q NE) as [Q1 Q2]. split; auto.
      right. rewrite map_map. cbn. now rewrite map_id. }
    assert (P3 : parseColIdent ((q, MkRel [] [] []) :: map (fun k => (k, MkRel [] [] [])) sc) s = inl (MkCol q n)).
    { apply parseColIdent_in. split; [exact S1|]. split; auto. split; [intros _; split; [auto|now left]|exact V]. }
    rewrite P2 in P3. injection P3 as ->. cbn in *. apply S4. apply Q. intros ->. destruct S2 as (a & r & X & _). discriminate.
Qed.

Lemma column_fault_err : forall sp s c, column_fault (map fst sp) s c -> exists e, parseColIdent sp s = inr e.
Proof. intros sp s c F. destruct (parseColIdent sp s) as [id|e] eqn:P; [|eauto]. apply column_id_parse in P. now destruct (column_fault_no _ _ _ _ F P). Qed.

(** Errors on a text that looks like a column. *)
Lemma col_err_like : forall sp s e, parseColIdent sp s = inr e -> e <> EBadColId -> column_like s.
Proof.
  intros sp s e H N. apply col_err in H. inversion H; subst; [congruence|]. exists q, n. repeat split; auto.
Qed.

Lemma col_fault_like : forall sp s c, column_fault (map fst sp) s c -> column_like s -> parseColIdent sp s = inr EUnknownQualifier.
Proof.
  intros sp s c F L. destruct (column_fault_err _ _ _ F) as (e & P). pose proof (col_err _ _ _ P) as X. inversion X; subst; [contradiction|]. exact P.
Qed.

Lemma ids_err : forall sp tag e, colIdents sp tag = inr e -> exists s, In s tag /\ column_fault (map fst sp) s (EC e).
Proof.
  intros sp tag. induction tag as [|v r IH]; intros e H; cbn in H; [discriminate|]. destruct (parseColIdent sp v) as [id|e'] eqn:P.
  - destruct (colIdents sp r) as [ids|e'']; [discriminate|]. injection H as <-. destruct (IH _ eq_refl) as (s & I & F). exists s. split; [now right|auto].
  - injection H as <-. exists v. split; [now left|]. now apply col_err.
Qed.

Lemma col_idents_err : forall sp tag e, parseColIdents sp tag = inr e -> ids_fault (map fst sp) tag (EC e).
Proof.
  intros sp tag e H. unfold parseColIdents in H. destruct tag as [|v r]; [injection H as <-; now apply af_no_columns|].
  destruct (ids_err _ _ _ H) as (s & I & F). eapply af_one_column; eauto.
Qed.

Lemma col_list_err : forall sp tag e, parseColIdentList sp tag = inr e -> list_fault (map fst sp) tag (EC e).
Proof.
  intros sp tag e H. unfold parseColIdentList in H. 
  assert (G : tag <> [lit "*"] -> list_fault (map fst sp) tag (EC e)).
  { intros N. split; auto. apply col_idents_err. 
    assert (X : match parseColIdents sp tag with inl l => inl (MkColList false l) | inr e => inr e end = inr e).
    { destruct tag as [|x [|]]; auto. destruct (bytes_eqb x (B "*")) eqn:B0; auto. discriminate. }
    destruct (parseColIdents sp tag); [discriminate|]. injection X as <-. reflexivity. }
  apply G. intros ->. cbn in H. discriminate.
Qed.

Lemma ids_fault_no : forall sc o c ids, ids_fault sc o c -> o <> [] -> ~ Forall2 (column_id sc) o ids.
Proof.
  intros sc o c ids F N X. inversion F; subst; [congruence|]. clear F N. induction X; [inversion H|]. destruct H as [->|H]; [|auto]. eapply column_fault_no; eauto.
Qed.

Lemma list_fault_no : forall sc o c l, list_fault sc o c -> ~ column_list sc o l.
Proof. intros sc o c l [N F] [[-> _]|(ids & _ & NE & X)]; [congruence|]. eapply ids_fault_no; eauto. Qed.

Lemma column_id_det : forall sc s a b, column_id sc s a -> column_id sc s b -> a = b.
Proof.
  intros sc s a b A C. assert (M : map fst (map (fun k : bytes => (k, MkRel [] [] [])) sc) = sc) by (rewrite map_map; apply map_id).
  rewrite <- M in A, C. apply column_id_parse in A, C. congruence.
Qed.

Lemma relation_id_det : forall s a b, relation_id s a -> relation_id s b -> a = b.
Proof. intros s a b A B0. apply rel_id_spec in A, B0. congruence. Qed.

Lemma lookup_in : forall {A} k (m : list (bytes * A)), (exists v, lookup k m = Some v) <-> In k (map fst m).
Proof.
  intros A k m. induction m as [|[k' v] m IH]; cbn.
  - split; [intros (x & H); discriminate|tauto].
  - destruct (bytes_eqb k k') eqn:E.
    + apply bytes_eqb_eq in E. subst. split; eauto.
    + apply bytes_eqb_neq in E. rewrite IH. split; [auto|]. intros [->|H]; [congruence|auto].
Qed.

Lemma rel_err : forall sp s c, (do rid <- lift (parseRelIdent s); lift (addToRelSpace sp rid)) = AErr c -> relation_fault (map fst sp) s c.
Proof.
  intros sp s c H. aerr H.
  - apply lift_err in H. destruct H as (e & H & ->). destruct e; try (unfold parseRelIdent in H; destruct (rx_match _ _); cbn in H; [|discriminate];
      destruct (match cut_last "." s with Some (a, b) => (a, b) | None => ([], s) end) as [q v]; destruct (match cut_last ":" v with Some (a, b) => (a, b) | None => (v, []) end); discriminate).
    apply af_bad_relation. intros rid R. apply rel_id_spec in R. congruence.
  - apply lift_ok in E. apply rel_id_spec in E. apply lift_err in K. destruct K as (e & K & ->). unfold addToRelSpace in K.
    destruct (r_alias a) as [|x al] eqn:A.
    + destruct (lookup (r_name a) sp) eqn:L; [|discriminate]. injection K as <-. eapply af_taken_name; eauto. unfold ref_name. rewrite A. apply lookup_in. eauto.
    + destruct (lookup (x :: al) sp) eqn:L; [|discriminate]. injection K as <-. eapply af_taken_alias; eauto. congruence. unfold ref_name. rewrite A. apply lookup_in. eauto.
Qed.

Lemma relation_fault_no : forall sp s c rid sp', relation_fault (map fst sp) s c -> parseRelIdent s = inl rid -> addToRelSpace sp rid <> inl sp'.
Proof.
  intros sp s c rid sp' F P A. apply rel_id_spec in P. apply addToRelSpace_spec in A. destruct A as [_ A].
  inversion F; subst; [now apply (H rid)| |]; rewrite (relation_id_det _ _ _ H P) in *; contradiction.
Qed.

Lemma ati_no_err : forall e t c, analyzeTypeInfo e t <> AErr c.
Proof.
  intros e. fix IH 1. intros t c H. destruct t; cbn [analyzeTypeInfo] in H; try discriminate.
  - aerr H; [exact (IH _ _ H)|discriminate].
  - aerr H; [exact (IH _ _ H)|discriminate].
  - aerr H; [exact (IH _ _ H)|discriminate].
  - aerr H; [exact (IH _ _ H)|]. aerr K; [exact (IH _ _ K)|discriminate].
  - destruct (n_pkg n) as [[p pn]|]; [|discriminate]. aerr H; [exact (IH _ _ H)|discriminate].
Qed.

Lemma step_err : forall e sp fr v t c, field_step e sp fr v t = AErr c -> ~ passed_over (fr_imported fr) v /\
  exists s o, sql_tag v s o /\ ~ (exists p fs', s = ">" :: p /\ record_type t fs') /\ column_fault (map fst sp) (fr_pfx fr ++ s) c.
Proof.
  intros e sp fr v t c H. unfold field_step in H.
  destruct (bytes_eqb (tag_first (v_tag v) (B "sql")) [] || bytes_eqb (tag_first (v_tag v) (B "sql")) (B "-") || bytes_eqb (v_name v) (B "_")
     || (negb (v_exported v) && fr_imported fr)) eqn:P; [discriminate|].
  split. { intros C. apply passed_over_spec in C. congruence. }
  apply abind_err in H. destruct H as [H|([i base] & E & H)]; [now destruct (ati_no_err _ _ _ H)|].
  destruct (ati_is_struct _ _ _ _ E) as [IS BS].
  destruct (is_struct i && has_prefix (B ">") (tag_first (v_tag v) (B "sql"))) eqn:D.
  - apply andb_prop in D. destruct D as [D1 D2]. apply IS in D1. destruct D1 as (fs & R). rewrite (BS _ R) in H.
    apply abind_err in H. destruct H as [H|(m & M & H)]; [now destruct (lift_res_err _ _ H)|discriminate].
  - apply abind_err in H. destruct H as [H|(cid & C & H)].
    + apply lift_err in H. destruct H as (e' & H & ->). exists (tag_first (v_tag v) (B "sql")), (tl (tag_get (v_tag v) (B "sql"))).
      split; [apply sql_tag_first|]. split; [|now apply col_err].
      intros (p & fs' & S0 & R). rewrite S0 in D. rewrite (proj2 IS) in D by eauto. discriminate.
    + apply abind_err in H. destruct H as [H|(m & M & H)]; [now destruct (lift_res_err _ _ H)|]. destruct (parseCoalesceInfo _). discriminate.
Qed.

Lemma loop_err : forall n e sp stack out c, fields_loop n e sp stack out = AErr c ->
  exists fr, In fr stack /\ columns_fault (e_pkg e) (map fst sp) (fr_imported fr) (fr_pfx fr) (fr_fields fr) c.
Proof.
  intros n e sp. induction n as [|n IH]; intros stack out c H; cbn [fields_loop] in H; [discriminate|].
  destruct stack as [|fr rest]; [discriminate|]. destruct (fr_fields fr) as [|[v t] fs] eqn:FF.
  - destruct (IH _ _ _ H) as (f & I & F). exists f. split; [now right|auto].
  - apply abind_err in H. destruct H as [H|(s & S0 & H)].
    + destruct (step_err _ _ _ _ _ _ H) as (NP & s & o & S1 & S2 & S3). exists fr. split; [now left|]. rewrite FF. eapply af_column_here; eauto.
    + assert (L : forall f, In f (MkFrame fs (fr_imported fr) (fr_pfx fr) (fr_sel fr) :: rest) ->
         columns_fault (e_pkg e) (map fst sp) (fr_imported f) (fr_pfx f) (fr_fields f) c ->
         exists fr0, In fr0 (fr :: rest) /\ columns_fault (e_pkg e) (map fst sp) (fr_imported fr0) (fr_pfx fr0) (fr_fields fr0) c).
      { intros f [<-|I] F; [|exists f; split; [now right|auto]]. exists fr. split; [now left|]. rewrite FF. now apply af_column_later. }
      pose proof (step_sound _ _ _ _ _ _ S0) as R. destruct s; destruct (IH _ _ _ H) as (f0 & I & F); try (now apply (L f0)).
      destruct I as [<-|I]; [|now apply (L f0)]. exists fr. split; [now left|]. rewrite FF. inversion R; subst. eapply af_column_below; eauto.
Qed.

Lemma fields_err : forall e sp im fs c, analyzeFieldInfoList e sp im fs = AErr c -> columns_fault (e_pkg e) (map fst sp) im [] fs c.
Proof. intros e sp im fs c H. destruct (loop_err _ _ _ _ _ _ H) as (fr & [<-|[]] & F). exact F. Qed.

Lemma column_fault_code : forall sc s c, column_fault sc s c -> exists e, c = EC e.
Proof. intros sc s c H. destruct H; eauto. Qed.

Lemma columns_fault_code : forall pkg sc f pfx fs c, columns_fault pkg sc f pfx fs c -> exists e, c = EC e.
Proof. intros pkg sc f pfx fs c H. induction H; auto. eapply column_fault_code; eauto. Qed.

Lemma sql_tag_det : forall v s o s' o', sql_tag v s o -> sql_tag v s' o' -> s = s' /\ o = o'.
Proof. intros v s o s' o' A B0. apply sql_tag_spec in A, B0. destruct A as [<- <-], B0 as [<- <-]. auto. Qed.

Ltac tagdet := repeat match goal with A : sql_tag ?v ?s ?o, B0 : sql_tag ?v ?s' ?o' |- _ =>
  first [constr_eq s s'; constr_eq o o'; fail 1 | destruct (sql_tag_det _ _ _ _ _ A B0); clear B0; subst] end.

Lemma record_type_det : forall t a b, record_type t a -> record_type t b -> a = b.
Proof.
  intros t a b [A|(u & A1 & A2)] [B0|(u' & B1 & B2)].
  - pose proof (under_det _ _ _ A B0) as X. now injection X.
  - pose proof (under_det _ _ _ A B1) as X. discriminate.
  - pose proof (under_det _ _ _ A1 B0) as X. discriminate.
  - pose proof (under_det _ _ _ A1 B1) as X. injection X as <-. pose proof (under_det _ _ _ A2 B2) as X. now injection X.
Qed.

Lemma bool_iff : forall (a b : bool) P, (a = true <-> P) -> (b = true <-> P) -> a = b.
Proof. intros [] [] P A B0; auto; [symmetry; apply B0, A|apply A, B0]; auto. Qed.

Lemma columns_fault_no : forall pkg sc f pfx fs c, columns_fault pkg sc f pfx fs c -> forall path l, ~ columns pkg sc f pfx path fs l.
Proof.
  intros pkg sc f pfx fs c H. induction H; intros path l C.
  - inversion C; subst; try contradiction; tagdet.
    + eapply (column_fault_no _ _ _ (MkCol q n)); eauto.
    + apply H1. eauto.
  - inversion C; subst; try contradiction; tagdet.
    + match goal with X : ~ (exists _ _, _) |- _ => apply X; eauto end.
    + try match goal with X : @eq text (cons _ _) (cons _ _) |- _ => injection X as X; subst end. rewrite (bool_iff _ _ _ H2 ltac:(eassumption)) in *.
      match goal with X : record_type t ?a, Y : record_type t ?b |- _ => pose proof (record_type_det _ _ _ X Y); subst end. eapply IHcolumns_fault; eauto.
  - inversion C; subst; eapply IHcolumns_fault; eauto.
Qed.

Lemma finish_err : forall e sp n u p s a len it m c, finish_rt e sp n u p s a len it m = AErr c ->
  (c = EBadRelType /\ forall fs, u <> TStruct fs) \/ exists fs, u = TStruct fs /\ columns_fault (e_pkg e) (map fst sp) (imports (e_pkg e) n) [] fs c.
Proof.
  intros e sp n u p s a len it m c H. unfold finish_rt in H. apply abind_err in H. destruct H as [H|(base & E & H)].
  - destruct n as [k|]; [|discriminate]. destruct (n_pkg k) as [[pp pn]|]; discriminate.
  - destruct u; try (injection H as <-; left; split; [reflexivity|discriminate]). right. exists fs. split; [reflexivity|].
    apply abind_err in H. destruct H as [H|(l & _ & H)]; [|discriminate]. apply fields_err in H.
    assert (t_imported base = imports (e_pkg e) n) as <-; [|exact H].
    destruct n as [k|]; cbn [imports]; [destruct (n_pkg k) as [[pp pn]|]; [|discriminate]|]; injection E as <-; reflexivity.
Qed.

Lemma rel_type_eq : forall e sp t n fs h, record_of (e_pkg e) t n fs h ->
  analyzeRelType e sp t = finish_rt e sp n (TStruct fs) (h_ptr h) (h_slice h) (is_some (h_array h)) (match h_array h with Some k => k | None => 0%Z end)
    (is_some (h_iter h)) (match h_iter h with Some m => m | None => [] end) \/ analyzeRelType e sp t = APanic.
Proof.
  intros e sp t n fs h R. destruct R; cbn [h_ptr h_slice h_array h_iter is_some]; unfold maybe_named in *; unfold analyzeRelType.
  - subst t. now left.
  - subst t. now left.
  - destruct H as [->|(m & ->)]; now left.
  - destruct H as [->|(m & ->)]; inversion H0; subst; now left.
  - destruct H as [->|(m & ->)]; inversion H0; subst; now left.
  - assert (I : analyzeIteratorFunction [a] [r] = Some (n, TStruct fs, p)) by (apply iter_fun_ok; eauto 8).
    destruct H as [->|(m & ->)]; rewrite I; now left.
  - assert (I : analyzeIteratorFunction [a] [r] = Some (n, TStruct fs, p)) by (apply iter_fun_ok; eauto 8).
    apply bytes_eqb_neq in H2. unfold isAccessible. change (B "_") with (lit "_"). destruct H as [->|(m' & ->)]; rewrite I, H2.
    + destruct ex; now left.
    + destruct ex; [now left|]. cbn [isImportedType]. unfold pkg_path. destruct (n_pkg m') as [[pp pn]|] eqn:P; [|now right].
      cbn [abind]. destruct H3 as [H3|H3]; [discriminate|]. destruct (bytes_eqb pp (e_pkg e)) eqn:X; [now left|]. exfalso. apply H3.
      apply bytes_eqb_neq in X. do 4 eexists. conjs; eauto.
Qed.

Definition shape_code (c : errc) (t : gtype) : Prop :=
  (c = EBadIterTypeInterface /\ exists ms a b d, maybe_named (TIface ms a b d) t) \/ (c = EBadIterTypeFunc /\ exists ps rs, maybe_named (TFunc ps rs) t)
  \/ (c = EBadRelType /\ (forall ms a b d, ~ maybe_named (TIface ms a b d) t) /\ (forall ps rs, ~ maybe_named (TFunc ps rs) t)).

Lemma rel_type_err0 : forall e sp t c, analyzeRelType e sp t = AErr c -> shape_code c t \/
  exists n fs h f, record_of (e_pkg e) t n fs h /\ (f = true <-> exists m u, n = Some m /\ foreign (e_pkg e) (TNamed m u)) /\ columns_fault (e_pkg e) (map fst sp) f [] fs c.
Proof.
  intros e sp t c H. unfold analyzeRelType in H.
  set (nu := match t with TNamed n u => (Some n, u) | _ => (None, t) end) in H.
  assert (MN : maybe_named (snd nu) t). { subst nu. destruct t; cbn; try (now left). right. eauto. }
  assert (NM : t = snd nu /\ fst nu = None \/ exists n, t = TNamed n (snd nu) /\ fst nu = Some n). { subst nu. destruct t; cbn; auto. right. eauto. }
  assert (UN : forall x, maybe_named x t -> (forall n u, x <> TNamed n u) -> snd nu = x).
  { intros x [->|(m & ->)] X; subst nu; [|reflexivity]. destruct x; try reflexivity. now destruct (X n x). }
  destruct nu as [n u]. cbn [fst snd] in *.
  assert (FIN : forall n u p s a it c, finish_rt e sp n u p s (is_some a) (match a with Some k => k | None => 0%Z end) (is_some it) (match it with Some m => m | None => [] end) = AErr c ->
     (forall fs, u = TStruct fs -> record_of (e_pkg e) t n fs (MkHold p s a it)) -> (c = EBadRelType /\ forall fs, u <> TStruct fs) \/
     exists n fs h f, record_of (e_pkg e) t n fs h /\ (f = true <-> exists m u, n = Some m /\ foreign (e_pkg e) (TNamed m u)) /\ columns_fault (e_pkg e) (map fst sp) f [] fs c).
  { intros n0 u0 p s a it c0 F R. apply finish_err in F. destruct F as [F|(fs & -> & F)]; [now left|]. right. exists n0, fs, (MkHold p s a it), (imports (e_pkg e) n0).
    split; [now apply R|]. split; [apply imports_spec|exact F]. }
  assert (SH : (forall ms a b d, u <> TIface ms a b d) -> (forall ps rs, u <> TFunc ps rs) -> shape_code EBadRelType t).
  { intros A B0. right. right. split; [reflexivity|]. split.
    - intros ms a b d M. apply (A ms a b d), UN; [exact M|discriminate].
    - intros ps rs M. apply (B0 ps rs), UN; [exact M|discriminate]. }
  assert (REST : (forall ms a b d, u <> TIface ms a b d) -> (forall ps rs, u <> TFunc ps rs) -> forall u2 slice arr, (match u with TSlice v => (v, true, None) | TArray k v => (v, false, Some k) | _ => (u, false, None) end) = (u2, slice, arr) ->
     (let '(u3, isptr) := match u2 with TPtr v => (v, true) | _ => (u2, false) end in
      if slice || is_some arr || isptr then
        match u3 with
        | TNamed n v => finish_rt e sp (Some n) v isptr slice (is_some arr) (match arr with Some k => k | None => 0%Z end) false []
        | _ => AErr EBadRelType
        end
      else finish_rt e sp n u3 isptr slice (is_some arr) (match arr with Some k => k | None => 0%Z end) false []) = AErr c ->
     shape_code c t \/ exists n fs h f, record_of (e_pkg e) t n fs h /\ (f = true <-> exists m u, n = Some m /\ foreign (e_pkg e) (TNamed m u)) /\ columns_fault (e_pkg e) (map fst sp) f [] fs c).
  { intros SA SB u2 slice arr U K. destruct (match u2 with TPtr v => (v, true) | _ => (u2, false) end) as [u3 p] eqn:P.
    destruct (slice || is_some arr || p) eqn:C.
    - destruct u3 as [| | | | | | | | |m v]; try (injection K as <-; left; now apply SH).
      apply (FIN (Some m) v p slice arr None) in K; [destruct K as [[-> _]|K]; [left; now apply SH|now right]|].
      intros fs ->. pose proof (element_inv _ _ _ P m fs eq_refl) as EL.
      destruct u; injection U as <- <- <-; cbn in C; try (subst p; inversion EL; subst; eapply ro_pointer; eauto; fail).
      + eapply ro_array; eauto.
      + eapply ro_slice; eauto.
    - apply orb_false_elim in C. destruct C as [C ->]. apply orb_false_elim in C. destruct C as [-> C]. destruct arr; [discriminate|].
      apply (FIN n u3 false false None None) in K; [destruct K as [[-> _]|K]; [left; now apply SH|now right]|]. intros fs ->.
      assert (u2 = TStruct fs) as -> by (destruct u2; injection P; congruence).
      assert (u = TStruct fs) as -> by (destruct u; injection U; congruence).
      destruct NM as [[-> ->]|(k & -> & ->)]; [now apply ro_struct|now apply ro_named]. }
  destruct u as [b x y|k u|u|u|k u|u|ps rs|ms x y z|fs|m u];
    try (refine (REST _ _ _ _ _ eq_refl H); discriminate).
  - destruct (analyzeIteratorFunction ps rs) as [[[m u] p]|] eqn:I.
    + apply iter_fun_ok in I. destruct I as (a & r & fs & -> & -> & -> & EL & ER).
      apply (FIN (Some m) (TStruct fs) p false None (Some [])) in H; [|intros fs' X; injection X as <-; eapply ro_func; eauto]. destruct H as [[_ X]|H]; [now destruct (X fs)|now right].
    + injection H as <-. left. right. left. split; [reflexivity|]. eauto.
  - assert (SI : shape_code EBadIterTypeInterface t). { left. split; [reflexivity|]. eauto 6. }
    destruct ms as [|[[mn ex] [ps rs]] [|]]; try (injection H as <-; now left).
    apply abind_err in H. destruct H as [H|(ok & E & H)].
    { exfalso. unfold isAccessible in H. destruct (bytes_eqb mn (B "_")); [discriminate|]. destruct ex; [discriminate|]. destruct n as [k|]; cbn in H; [|discriminate].
      unfold pkg_path in H. destruct (n_pkg k) as [[]|]; discriminate. }
    destruct ok; [|injection H as <-; now left].
    destruct (analyzeIteratorFunction ps rs) as [[[m u] p]|] eqn:I; [|injection H as <-; now left].
    apply iter_fun_ok in I. destruct I as (a & r & fs & -> & -> & -> & EL & ER).
    apply (FIN (Some m) (TStruct fs) p false None (Some mn)) in H; [destruct H as [[_ X]|H]; [now destruct (X fs)|now right]|].
    intros fs' X. injection X as <-.
    unfold isAccessible in E. destruct (bytes_eqb mn (B "_")) eqn:U; [discriminate|]. apply bytes_eqb_neq in U. eapply ro_iface; eauto.
    destruct ex; [now left|]. right. destruct (abind_ok _ _ _ E) as (im & I & J). injection J as J. apply negb_true_iff in J. subst im.
    intros (n' & u' & pp & pn & T & P & X). destruct NM as [[-> ->]|(k & -> & ->)]; [discriminate|]. injection T as <- _.
    cbn [isImportedType] in I. unfold pkg_path in I. rewrite P in I. cbn [abind] in I. injection I as I. apply negb_false_iff, bytes_eqb_eq in I. contradiction.
Qed.

Lemma rel_type_err : forall e sp t c, analyzeRelType e sp t = AErr c -> record_fault (e_pkg e) (map fst sp) t c.
Proof.
  intros e sp t c H. destruct (rel_type_err0 _ _ _ _ H) as [S0|(n & fs & h & f & R & F & C)]; [|eapply af_columns; eauto].
  assert (N : (forall x, c <> EC x) -> forall n fs h, ~ record_of (e_pkg e) t n fs h).
  { intros X n fs h R. destruct (rel_type_eq e sp _ _ _ _ R) as [E|E]; [|congruence]. rewrite H in E. symmetry in E. apply finish_err in E.
    destruct E as [[_ E]|(fs' & _ & E)]; [now destruct (E fs)|]. apply columns_fault_code in E. destruct E as (x & E). now destruct (X x). }
  destruct S0 as [[-> (ms & a & b & d & M)]|[[-> (ps & rs & M)]|[-> [A B0]]]].
  - eapply af_iface; eauto. apply N. discriminate.
  - eapply af_func; eauto. apply N. discriminate.
  - eapply af_shape; eauto. apply N. discriminate.
Qed.

Lemma record_det : forall e t n fs h n' fs' h' rt sp, analyzeRelType e sp t = AOk rt -> record_of (e_pkg e) t n fs h -> record_of (e_pkg e) t n' fs' h' ->
  n = n' /\ fs = fs' /\ h = h'.
Proof.
  intros e t n fs h n' fs' h' rt sp _ A B0. 
  destruct A; inversion B0; subst; unfold maybe_named in *;
  repeat match goal with X : _ \/ _ |- _ => destruct X as [X|X] | X : exists _, _ |- _ => destruct X end; subst; try discriminate;
  repeat match goal with X : TNamed _ _ = TNamed _ _ |- _ => injection X; clear X; intros; subst | X : @eq gtype _ _ |- _ => progress (injection X; clear X; intros; subst) end; try discriminate;
  repeat match goal with X : element _ _ _ _ |- _ => inversion X; clear X; subst end; try discriminate; auto.
Qed.

Lemma record_fault_no : forall e sp t c rt, record_fault (e_pkg e) (map fst sp) t c -> analyzeRelType e sp t <> AOk rt.
Proof.
  intros e sp t c rt F H. destruct (rel_type_sound _ _ _ _ H) as (n & fs & h & R & N & K).
  destruct F; try (now apply (H1 n fs h)); try (now apply (H2 n fs h)).
  destruct (record_det _ _ _ _ _ _ _ _ _ _ H R H0) as (<- & <- & <-). apply finish_ok in K. destruct K as (fs' & l & X & _ & L & _). injection X as <-.
  apply fields_sound in L. destruct L as (l' & L & _). eapply columns_fault_no; [exact H2|]. 
  assert (f = imports (e_pkg e) n) as -> by (eapply bool_iff; [exact H1|apply imports_spec]). exact L.
Qed.

Lemma not_quantifiable : forall p, CanQuantify p = false -> ~ quantifiable p.
Proof. intros p H Q. apply quantifiable_spec in Q. congruence. Qed.

Lemma quant_set_ne : forall q, quant_set q = true -> q <> QNone.
Proof. intros [] H; discriminate. Qed.

Lemma quantifier_of_fun : forall s q, quantifier_of s q -> q = stringToQuantifier s.
Proof.
  intros s q H. destruct H as [[-> ->]|[[-> ->]|[[-> ->]|(H1 & H2 & H3 & ->)]]]; try reflexivity.
  destruct (quantifier_of_spec s) as [[A _]|[[A _]|[[A _]|(_ & _ & _ & E)]]]; try contradiction. now symmetry.
Qed.

Lemma binary_err : forall sp id lhs s op q r c, parsePredicateExpr s = Ok (lhs, op, q, r) -> r <> [] ->
  binary_cond sp id op q r = AErr c -> condition_fault (map fst sp) s c.
Proof.
  intros sp id lhs s op q r c P R H. unfold binary_cond in H. cbv zeta in H. apply abind_err in H. destruct H as [H|([rid rl] & E & H)].
  - destruct (parseColIdent sp r) as [x|er] eqn:PR; [discriminate|]. 
    assert (L : er <> EBadColId) by (intros ->; discriminate). 
    assert (c = EC er) as -> by (destruct er; congruence). eapply af_rhs; eauto. eapply col_err_like; eauto. now apply col_err.
  - clear E. apply abind_err in H. destruct H as [H|(? & E & H)].
    + apply ensure_err in H. destruct H as [H ->]. apply negb_false_iff in H. eapply af_unary_rhs; eauto. now apply unary_spec.
    + apply abind_err in H. destruct H as [H|(? & E' & H)]; [|discriminate]. apply ensure_err in H. destruct H as [H ->].
      apply orb_false_elim in H. destruct H as [H1 H2]. apply negb_false_iff in H1. eapply af_quantified; eauto using quantifier_of_spec, quant_set_ne, not_quantifiable.
Qed.

Lemma where_column_err : forall sp s lhs op q r c, parsePredicateExpr s = Ok (lhs, op, q, r) ->
  where_column sp lhs op q r = AErr c -> condition_fault (map fst sp) s c.
Proof.
  intros sp s lhs op q r c P H. unfold where_column in H. apply abind_err in H. destruct H as [H|(id & E & H)].
  - apply lift_err in H. destruct H as (e & H & ->). eapply af_lhs; eauto. now apply col_err.
  - destruct r as [|x r]; [|eapply binary_err; eauto; discriminate]. cbv zeta in H. apply abind_err in H. destruct H as [H|(? & E' & H)].
    + apply ensure_err in H. destruct H as [H ->]. apply (af_no_rhs _ _ lhs op q (match op with [] => IsTrue | _ => stringToPredicate op end)); auto.
      * unfold predicate_of. destruct op; [left; split; reflexivity|right; split; [discriminate|reflexivity]].
      * intros U. apply unary_spec in U. destruct op; [discriminate H|congruence].
    + apply abind_err in H. destruct H as [H|(? & E'' & H)]; [|discriminate]. apply ensure_err in H. destruct H as [H ->]. apply bytes_eqb_neq in H.
      eapply af_quantified_none; eauto.
Qed.

Lemma condition_fault_no : forall sc s c x, condition_fault sc s c -> ~ column_condition sc s x.
Proof.
  intros sc s c x F C. destruct C as [lhs op id p P L PR U|lhs op q r id rid p qu P R L RR PP NU Q QQ|lhs op q r id p qu P R L NL PP NU Q QQ];
  destruct F as [lhs' op' q' r' c P' F|lhs' op' q' r' c P' R' L' F|lhs' op' q' r' P' R' U'|lhs' op' q' r' qu' P' R' Q' QN' NQ'|lhs' op' q' p' P' PR' U'|lhs' op' q' P' Q']; rewrite P in P'; injection P'; intros; subst; clear P'; try congruence;
  try (now apply (column_fault_no _ _ _ _ F L)); try (now apply (column_fault_no _ _ _ _ F RR)).
  - apply U'. destruct PR as [[-> ->]|[N ->]], PR' as [[X ->]|[N' ->]]; auto; congruence.
  - apply quantifier_of_fun in Q, Q'. subst. apply NQ', QQ. congruence.
  - apply quantifier_of_fun in Q, Q'. subst. apply NQ', QQ. congruence.
Qed.

Lemma join_cond_err : forall sp rid s c, (exists t, relation_id t rid) -> join_cond sp rid s = AErr c ->
  condition_fault (map fst sp) s c \/ (c = EBadJoinConditionLHS /\ exists lhs op q r id, parsePredicateExpr s = Ok (lhs, op, q, r) /\ column_id (map fst sp) lhs id /\ ~ lhs_qualifier rid id).
Proof.
  intros sp rid s c (t0 & T0) H. unfold join_cond in H. apply abind_err in H. destruct H as [H|([[[lhs op] q] r] & E & H)]; [now destruct (lift_res_err _ _ H)|].
  apply lift_res_ok in E. apply abind_err in H. destruct H as [H|(id & E1 & H)].
  { left. apply lift_err in H. destruct H as (e & H & ->). eapply af_lhs; eauto. now apply col_err. }
  apply lift_ok in E1. apply column_id_parse in E1.
  apply abind_err in H. destruct H as [H|(? & E2 & H)].
  { right. apply ensure_err in H. destruct H as [H ->]. split; auto. exists lhs, op, q, r, id. split; auto. split; auto. intros L.
    assert (X : relation_id (qualified (r_qual rid) (aliased (r_name rid) (r_alias rid))) rid) by (destruct T0 as (-> & T0); split; auto).
    pose proof (lhs_spec rid id X) as Y. first [apply Y in L; congruence|rewrite (proj2 Y L) in H; discriminate]. }
  left. destruct r as [|r0 r]; [|eapply binary_err; eauto; discriminate]. cbv zeta in H. apply abind_err in H. destruct H as [H|(? & E' & H)].
  - apply ensure_err in H. destruct H as [H ->]. apply (af_no_rhs _ _ lhs op q (match op with [] => IsTrue | _ => stringToPredicate op end)); auto.
    + unfold predicate_of. destruct op; [left; split; reflexivity|right; split; [discriminate|reflexivity]].
    + intros U. apply unary_spec in U. destruct op; [discriminate H|congruence].
  - apply abind_err in H. destruct H as [H|(? & E'' & H)]; [|discriminate]. apply ensure_err in H. destruct H as [H ->]. apply bytes_eqb_neq in H.
    eapply af_quantified_none; eauto.
Qed.

Lemma directive_no_err : forall d t c, IsDirective d t <> AErr c.
Proof. intros d t c H. unfold IsDirective in H. destruct t; try discriminate. destruct (bytes_eqb _ _); [|discriminate]. unfold pkg_path in H. destruct (n_pkg n) as [[]|]; discriminate. Qed.

Lemma dir_name_no_err : forall t c, GetDirectiveName t <> AErr c.
Proof. intros t c H. unfold GetDirectiveName in H. destruct t; try discriminate. unfold pkg_path in H. destruct (n_pkg n) as [[]|]; discriminate. Qed.

Lemma accessible_no_err : forall e n x m c, isAccessible e n x m <> AErr c.
Proof. intros e n x m c H. unfold isAccessible in H. destruct (bytes_eqb _ _); [discriminate|]. destruct x; [discriminate|]. destruct m as [k|]; cbn in H; [|discriminate]. unfold pkg_path in H. destruct (n_pkg k) as [[]|]; discriminate. Qed.

Lemma accessible_spec : forall e n x m b t fs, isAccessible e n x m = AOk b -> GetStruct t = Some (m, fs) ->
  (b = true <-> n <> lit "_" /\ (x = true \/ ~ foreign (e_pkg e) t)).
Proof.
  intros e n x m b t fs H G. unfold isAccessible in H. destruct (bytes_eqb n (B "_")) eqn:U.
  - injection H as <-. apply bytes_eqb_eq in U. split; [discriminate|]. intros [N _]. now destruct N.
  - apply bytes_eqb_neq in U. destruct x; [injection H as <-; split; auto|]. apply abind_ok in H. destruct H as (im & I & J). injection J as <-.
    unfold GetStruct in G. destruct t; try discriminate.
    + injection G as <- _. cbn in I. injection I as <-. split; [|auto]. intros _. split; auto. right. intros (k & u & p & pn & T & _). discriminate.
    + destruct t; try discriminate. injection G as <- _. cbn [isImportedType] in I. unfold pkg_path in I. destruct (n_pkg n0) as [[p pn]|] eqn:P; [|discriminate].
      cbn [abind] in I. injection I as <-. rewrite negb_involutive. split.
      * intros Q. apply bytes_eqb_eq in Q. split; auto. right. intros (k & u & p' & pn' & T & P' & NE). injection T as <- _. congruence.
      * intros [_ [X|X]]; [discriminate|]. destruct (bytes_eqb p (e_pkg e)) eqn:Q; auto. exfalso. apply X. apply bytes_eqb_neq in Q. do 4 eexists. eauto.
Qed.

Lemma bound_word_pos : forall w l, bound_word l w -> bound_pos (tolower w) = Some l.
Proof. intros w l H. unfold bound_word in H. unfold bound_pos. destruct l; destruct H as [->| ->]; reflexivity. Qed.

Lemma tag_second_of : forall v s w o, sql_tag v s (w :: o) -> tag_second (v_tag v) (B "sql") = w.
Proof. intros v s w o H. apply sql_tag_spec in H. destruct H as [_ H]. unfold tag_second. destruct (tag_get _ _) as [|a [|b l]]; cbn in H; try discriminate. congruence. Qed.

Lemma tag_first_of : forall v s o, sql_tag v s o -> tag_first (v_tag v) (B "sql") = s.
Proof. intros v s o H. apply sql_tag_spec in H. destruct H as [<- _]. reflexivity. Qed.

Lemma is_dir_blank : forall v t isdir, (if bytes_eqb (v_name v) (B "_") then IsDirective (B "Column") t else AOk false) = AOk isdir ->
  (isdir = true <-> column_directive v t).
Proof.
  intros v t isdir H. unfold column_directive. destruct (bytes_eqb (v_name v) (B "_")) eqn:U.
  - apply bytes_eqb_eq in U. rewrite (IsDirective_spec _ _ _ H). tauto.
  - apply bytes_eqb_neq in U. injection H as <-. split; [discriminate|]. intros [X _]. contradiction.
Qed.

Lemma between_field_full : forall e sp T n fs v t st st', GetStruct T = Some (n, fs) -> between_field e sp n v t st = AOk st' ->
  exists pos b, st' = set_bound pos b st /\ forall l, gives_bound (e_pkg e) (map fst sp) T l (v, t) <-> pos = Some l.
Proof.
  intros e sp T n fs v t st st' G H. unfold between_field in H. cbv zeta in H. destruct (abind_ok _ _ _ H) as (isdir & E & H'). clear H.
  apply is_dir_blank in E. destruct isdir.
  - pose proof (proj1 E eq_refl) as D. destruct (abind_ok _ _ _ H') as (id & P & K). injection K as <-. apply lift_ok, column_id_parse in P.
    exists (bound_pos (tolower (tag_second (v_tag v) (B "sql")))), (BoundColumn id). split; [reflexivity|]. intros l. unfold gives_bound. cbn [fst snd]. split.
    + intros [(b & B0) _]. destruct B0 as [s w o id' CD ST BW CI|s o i N ST BW]; [|now destruct D].
      apply bound_word_pos in BW. rewrite <- BW. f_equal. now rewrite (tag_second_of _ _ _ _ ST).
    + intros L. destruct D as [U D]. split; [|now left]. exists (BoundColumn id).
      assert (W : exists w o, tl (tag_get (v_tag v) (B "sql")) = w :: o /\ tag_second (v_tag v) (B "sql") = w).
      { unfold tag_second in *. destruct (tag_get (v_tag v) (B "sql")) as [|s [|w' o]]; try discriminate L. exists w', o. split; reflexivity. }
      destruct W as (w & o & W1 & W2). pose proof (sql_tag_first v) as ST. rewrite W1 in ST. eapply gv_column; eauto. split; auto. apply bound_pos_spec. now rewrite <- W2.
  - assert (ND : ~ column_directive v t) by (intros D; apply E in D; discriminate).
    destruct (abind_ok _ _ _ H') as (acc & A & K). clear H'. pose proof (accessible_spec _ _ _ _ _ _ _ A G) as AS. destruct acc.
    + destruct (proj1 AS eq_refl) as [N X]. destruct (abind_ok _ _ _ K) as ([i b] & I & K'). injection K' as <-.
      exists (bound_pos (tolower (tag_first (v_tag v) (B "sql")))), (BoundField (v_name v) i). split; [reflexivity|]. intros l. unfold gives_bound. cbn [fst snd]. split.
      * intros [(b0 & B0) _]. destruct B0 as [s w o id' CD ST BW CI|s o i0 N' ST BW]; [contradiction|].
        apply bound_word_pos in BW. rewrite <- BW. f_equal. now rewrite (tag_first_of _ _ _ ST).
      * intros L. split; [|now right]. exists (BoundField (v_name v) i). eapply gv_field; eauto using sql_tag_first. now apply bound_pos_spec.
    + injection K as <-. exists None, (BoundColumn no_col). split; [reflexivity|]. intros l. split; [|discriminate].
      intros [(b0 & B0) X]. cbn [fst snd] in *. destruct B0 as [s w o id' CD ST BW CI|s o i0 N' ST BW]; [contradiction|].
      destruct X as [X|X]; [contradiction|]. discriminate (proj2 AS (conj N' X)).
Qed.

Lemma between_field_err : forall e sp n v t st c, between_field e sp n v t st = AErr c -> exists s o, column_directive v t /\ sql_tag v s o /\ column_fault (map fst sp) s c.
Proof.
  intros e sp n v t st c H. unfold between_field in H. cbv zeta in H. apply abind_err in H. destruct H as [H|(isdir & E & H)].
  { destruct (bytes_eqb _ _); [now destruct (directive_no_err _ _ _ H)|discriminate]. }
  apply is_dir_blank in E. destruct isdir.
  - apply abind_err in H. destruct H as [H|(id & _ & H)]; [|discriminate]. apply lift_err in H. destruct H as (x & H & ->). 
    exists (tag_first (v_tag v) (B "sql")), (tl (tag_get (v_tag v) (B "sql"))). split; [now apply E|]. split; [apply sql_tag_first|now apply col_err].
  - apply abind_err in H. destruct H as [H|(acc & A & H)]; [now destruct (accessible_no_err _ _ _ _ _ H)|]. destruct acc; [|discriminate].
    apply abind_err in H. destruct H as [H|([i b] & I & H)]; [now destruct (ati_no_err _ _ _ H)|discriminate].
Qed.

Lemma struct_of_det : forall t a b, struct_of t a -> struct_of t b -> a = b.
Proof. intros t a b [->|(n & ->)] [E|(m & E)]; congruence. Qed.

Lemma get_struct_iff : forall t n fs, GetStruct t = Some (n, fs) -> struct_of t fs.
Proof. intros t n fs H. apply GetStruct_spec in H. tauto. Qed.

Lemma no_struct : forall t, GetStruct t = None -> forall fs, ~ struct_of t fs.
Proof. intros t H fs S0. apply struct_of_get in S0. destruct S0 as (n & S0). congruence. Qed.

Lemma bounds_iff : forall e sp t n v1 t1 v2 t2 st1 st2, GetStruct t = Some (n, [(v1, t1); (v2, t2)]) ->
  between_field e sp n v1 t1 (None, None) = AOk st1 -> between_field e sp n v2 t2 st1 = AOk st2 ->
  between_struct (e_pkg e) (map fst sp) t <-> exists lo hi, st2 = (Some lo, Some hi).
Proof.
  intros e sp t n v1 t1 v2 t2 st1 st2 G F1 F2.
  destruct (between_field_full _ _ _ _ _ _ _ _ _ G F1) as (p1 & b1 & -> & P1). destruct (between_field_full _ _ _ _ _ _ _ _ _ G F2) as (p2 & b2 & -> & P2).
  split.
  - intros (f1 & f2 & S0 & X). pose proof (struct_of_det _ _ _ S0 (get_struct_iff _ _ _ G)) as Y. injection Y as -> ->.
    destruct X as [[A B0]|[A B0]]; [apply P1 in A; apply P2 in B0|apply P2 in A; apply P1 in B0]; subst; cbn; eauto.
  - intros (lo & hi & X). exists (v1, t1), (v2, t2). split; [eapply get_struct_iff; eauto|].
    destruct p1 as [[]|], p2 as [[]|]; cbn in X; try discriminate; [left; split; [now apply P1|now apply P2]|right; split; [now apply P2|now apply P1]].
Qed.

Lemma where_between_err : forall e sp v t lhs op q r c, v_name v <> lit "_" ->
  parsePredicateExpr (tag_first (v_tag v) (B "sql")) = Ok (lhs, op, q, r) -> contains (B "between") op = true ->
  where_between e sp v t lhs op q = AErr c -> item_fault (e_pkg e) (map fst sp) v t c.
Proof.
  intros e sp v t lhs op q r c N P C H. unfold where_between in H. apply contains_spec in C. pose proof (sql_tag_first v) as ST.
  apply abind_err in H. destruct H as [H|(? & E & H)].
  { apply ensure_err in H. destruct H as [H ->]. apply bytes_eqb_neq in H. eapply af_between_quantified; eauto. }
  assert (BAD : (forall n fs, GetStruct t = Some (n, fs) -> List.length fs <> 2) -> item_fault (e_pkg e) (map fst sp) v t EBadBetweenPredicate).
  { intros X. eapply af_between; eauto. intros (f1 & f2 & S0 & _). apply struct_of_get in S0. destruct S0 as (n & S0). now apply (X _ _ S0). }
  destruct (GetStruct t) as [[n fs]|] eqn:G.
  2:{ injection H as <-. apply BAD. discriminate. }
  destruct fs as [|[v1 t1] [|[v2 t2] [|]]]; try (injection H as <-; apply BAD; intros n' fs' X; injection X as <- <-; discriminate).
  pose proof (get_struct_iff _ _ _ G) as SO.
  apply abind_err in H. destruct H as [H|(st1 & F1 & H)].
  { apply between_field_err in H. destruct H as (s & o & D & T & F). eapply af_between_column; eauto. now left. }
  apply abind_err in H. destruct H as [H|(st2 & F2 & H)].
  { apply between_field_err in H. destruct H as (s & o & D & T & F). eapply af_between_column; eauto. right. now left. }
  pose proof (bounds_iff _ _ _ _ _ _ _ _ _ _ G F1 F2) as BI.
  assert (NB : (forall lo hi, st2 <> (Some lo, Some hi)) -> item_fault (e_pkg e) (map fst sp) v t EBadBetweenPredicate).
  { intros X. eapply af_between; eauto. intros Y. apply BI in Y. destruct Y as (lo & hi & Y). now apply (X lo hi). }
  destruct st2 as [[lo|] [hi|]]; try (injection H as <-; apply NB; discriminate).
  apply abind_err in H. destruct H as [H|(id & _ & H)]; [|discriminate]. apply lift_err in H. destruct H as (xe & H & ->). eapply af_field_column; eauto. now apply col_err.
Qed.

Lemma list_pred_spec : forall p, p_array p = true <-> In p [IsIn; NotIn].
Proof. intros p. split; [destruct p; cbn; intros H; try discriminate; auto|]. cbn. intros [<-|[<-|[]]]; reflexivity. Qed.

Lemma not_sequence : forall e t i b, analyzeTypeInfo e t = AOk (i, b) -> IsSequence i = false -> ~ sequence t.
Proof.
  intros e t i b A S0 Q. apply sequence_conv in Q. unfold IsSequence in S0. rewrite (ati_kind _ _ _ _ A) in S0. destruct Q as [Q|Q]; rewrite Q in S0; discriminate.
Qed.

Lemma where_field_err : forall e sp v t lhs op q r c, v_name v <> lit "_" ->
  parsePredicateExpr (tag_first (v_tag v) (B "sql")) = Ok (lhs, op, q, r) -> contains (B "between") op = false ->
  where_field e sp v t lhs op q = AErr c -> item_fault (e_pkg e) (map fst sp) v t c.
Proof.
  intros e sp v t lhs op q r c N P C H. unfold where_field in H. cbv zeta in H. pose proof (sql_tag_first v) as ST.
  assert (PO : predicate_of IsEQ op (stringToPredicate (match op with [] => B "=" | _ => op end))).
  { destruct op; [left; split; reflexivity|right; split; [discriminate|reflexivity]]. }
  apply abind_err in H. destruct H as [H|(id & E & H)].
  { apply lift_err in H. destruct H as (x & H & ->). eapply af_field_column; eauto. now apply col_err. }
  apply abind_err in H. destruct H as [H|([i b] & I & H)]; [now destruct (ati_no_err _ _ _ H)|].
  apply abind_err in H. destruct H as [H|(? & E1 & H)].
  { apply ensure_err in H. destruct H as [H ->]. apply negb_false_iff in H. eapply af_field_unary; eauto. apply unary_spec. destruct op; [discriminate H|exact H]. }
  apply abind_err in H. destruct H as [H|(? & E2 & H)].
  { apply ensure_err in H. destruct H as [H ->]. apply orb_false_elim in H. destruct H as [H1 H2]. apply negb_false_iff in H1.
    eapply af_field_quantified; eauto using quantifier_of_spec, quant_set_ne, not_quantifiable. }
  apply abind_err in H. destruct H as [H|(? & E3 & H)].
  { apply ensure_err in H. destruct H as [H ->]. apply orb_false_elim in H. destruct H as [H1 H2]. apply negb_false_iff in H1.
    eapply af_field_sequence; eauto using quantifier_of_spec, quant_set_ne, not_sequence. }
  apply abind_err in H. destruct H as [H|(? & E4 & H)]; [|discriminate].
  apply ensure_err in H. destruct H as [H ->]. apply orb_false_elim in H. destruct H as [H1 H2]. apply negb_false_iff in H1.
  eapply af_field_list; eauto using not_sequence. apply list_pred_spec. destruct op; [discriminate H1|exact H1].
Qed.

Lemma where_leaf_err : forall e sp v t c, where_leaf e sp v t (tag_first (v_tag v) (B "sql")) = AErr c -> item_fault (e_pkg e) (map fst sp) v t c.
Proof.
  intros e sp v t c H. unfold where_leaf in H. apply abind_err in H. destruct H as [H|([[[lhs op] q] r] & P & H)]; [now destruct (lift_res_err _ _ H)|].
  apply lift_res_ok in P. destruct (bytes_eqb (v_name v) (B "_")) eqn:U.
  - apply bytes_eqb_eq in U. apply abind_err in H. destruct H as [H|(isdir & D & H)]; [now destruct (directive_no_err _ _ _ H)|].
    destruct isdir; [|discriminate]. apply abind_err in H. destruct H as [H|(? & _ & H)]; [|discriminate].
    eapply af_directive; [|apply sql_tag_first|eapply where_column_err; eauto]. split; auto. now apply (IsDirective_spec _ _ _ D).
  - apply bytes_eqb_neq in U. destruct (contains (B "between") op) eqn:C; apply abind_err in H; (destruct H as [H|(? & _ & H)]; [|discriminate]).
    + eapply where_between_err; eauto.
    + eapply where_field_err; eauto.
Qed.

Definition some {A} (l : list A) : bool := match l with [] => false | _ => true end.

Lemma some_app : forall A (l m : list A), m <> [] -> some (l ++ m) = true.
Proof. intros A [|] [|]; try reflexivity. congruence. Qed.

Lemma where_bool_some : forall v items items', where_bool (v_tag v) items = AOk items' -> some items' = some items.
Proof. intros v items items' H. apply where_bool_ok in H. destruct H as (b & -> & _). destruct items; reflexivity. Qed.

Lemma bool_value : forall v x, ((exists l, tag_value (v_tag v) (lit "bool") (x :: l)) \/ (x = [] /\ (tag_value (v_tag v) (lit "bool") [] \/ ~ tagged v (lit "bool")))) ->
  tag_first (v_tag v) (B "bool") = x.
Proof.
  intros v x H. unfold tag_first, tag_get. change (B "bool") with (lit "bool"). destruct (lookup (lit "bool") (v_tag v)) as [l'|] eqn:L.
  - destruct H as [(l & T)|(-> & [T|T])].
    + apply tag_value_lookup in T. rewrite L in T. injection T as ->. reflexivity.
    + apply tag_value_lookup in T. rewrite L in T. injection T as ->. reflexivity.
    + destruct T. exists l'. now apply tag_value_lookup.
  - destruct H as [(l & T)|(-> & _)]; [|reflexivity]. apply tag_value_lookup in T. congruence.
Qed.

Lemma where_bool_err : forall v items c, where_bool (v_tag v) items = AErr c -> some items = true /\ c = EBadBoolTagValue /\ forall b, ~ connective v b.
Proof.
  intros v items c H. unfold where_bool in H. destruct items as [|i items]; [discriminate|]. cbv zeta in H.
  set (x := tag_first (v_tag v) (B "bool")) in *.
  destruct (bytes_eqb (tolower x) []) eqn:E0; [discriminate|]. destruct (bytes_eqb (tolower x) (B "or")) eqn:E1; [discriminate|].
  destruct (bytes_eqb (tolower x) (B "and")) eqn:E2; [discriminate|]. injection H as <-. split; auto. split; auto.
  apply bytes_eqb_neq in E0, E1, E2. intros b (y & Y & C). apply bool_value in Y. fold x in Y. subst y. destruct C as [(_ & [C|C])|(_ & C)]; auto.
Qed.

Lemma unsaid_not : forall f v, bytes_eqb (tag_first (v_tag v) (B "sql")) (B "-") || bytes_eqb (tag_first (v_tag v) (B "sql")) [] = false -> unsaid f v ->
  v_name v <> lit "_" /\ v_exported v = false /\ f = true.
Proof.
  intros f v H [(l & X)|[(l & X)|X]]; auto; apply sql_tag_spec in X; destruct X as [X _]; rewrite X in H; cbn in H; discriminate.
Qed.

Lemma access_unsaid : forall e n v acc, bytes_eqb (tag_first (v_tag v) (B "sql")) (B "-") || bytes_eqb (tag_first (v_tag v) (B "sql")) [] = false ->
  (if bytes_eqb (v_name v) (B "_") then AOk true else isAccessible e (v_name v) (v_exported v) n) = AOk acc -> (acc = false <-> unsaid (fo e n) v).
Proof.
  intros e n v acc US E. destruct (bytes_eqb (v_name v) (B "_")) eqn:U.
  - injection E as <-. split; [discriminate|]. intros X. apply unsaid_not in X; auto. destruct X as [X _]. apply bytes_eqb_eq in U. contradiction.
  - unfold isAccessible in E. rewrite U in E. apply bytes_eqb_neq in U. split.
    + intros ->. right; right. destruct (v_exported v); [discriminate|]. unfold fo. destruct (isImportedType e n) as [[]| |]; try discriminate. conjs; auto.
    + intros X. apply unsaid_not in X; auto. destruct X as (_ & X & F). rewrite X in E. unfold fo in F. destruct (isImportedType e n) as [b| |]; try discriminate. subst b. injection E as <-. reflexivity.
Qed.

Lemma dangling_leaf : forall e sp v t l, bytes_eqb (tag_first (v_tag v) (B "sql")) (B ">") = false ->
  where_leaf e sp v t (tag_first (v_tag v) (B "sql")) = AOk l -> (l = [] <-> dangling v t).
Proof.
  intros e sp v t l NE H. assert (NN : ~ (exists o, sql_tag v (lit ">") o)) by (rewrite nested_tag; congruence).
  destruct (where_leaf_ok _ _ _ _ _ H) as [(w & -> & I)|(-> & V & D)].
  - split; [discriminate|]. intros (V & D & _). destruct I; try contradiction.
  - unfold dangling. tauto.
Qed.

Lemma where_loop_err : forall e sp n m fs acc c, (list_sum (map (fun '(_, u) => S (tsize u)) fs) < m)%nat ->
  where_loop e sp n fs acc = AErr c -> where_fault (e_pkg e) (map fst sp) (fo e n) (some acc) fs c.
Proof.
  intros e sp n. induction m as [m IHm] using lt_wf_ind. induction fs as [|[v t] fs IH]; intros acc c LF H; cbn [where_loop] in H; [discriminate|].
  fold (where_loop e sp n) in H. cbv zeta in H. unfold list_sum in LF. cbn [map fold_right] in LF.
  assert (LF' : (list_sum (map (fun '(_, u) => S (tsize u)) fs) < m)%nat) by (unfold list_sum; lia).
  destruct (_ || _) eqn:US; [apply af_skip; [now apply unsaid_tag|eauto]|].
  apply abind_err in H. destruct H as [H|(acc' & A & H)].
  { destruct (bytes_eqb (v_name v) (B "_")); [discriminate|]. now destruct (accessible_no_err _ _ _ _ _ H). }
  apply access_unsaid in A; auto. destruct acc'; cbn [negb] in H; [|apply af_skip; [now apply A|eauto]].
  assert (NU : ~ unsaid (fo e n) v) by (intros X; apply A in X; discriminate).
  apply abind_err in H. destruct H as [H|(items & WB & H)].
  { apply where_bool_err in H. destruct H as (-> & -> & H). now apply af_connective. }
  apply where_bool_some in WB. rewrite <- WB.
  destruct (bytes_eqb (tag_first (v_tag v) (B "sql")) (B ">")) eqn:NE.
  - pose proof (proj2 (nested_tag v) NE) as ST. rewrite where_struct_eq in H. destruct (GetStruct t) as [[nn fs']|] eqn:G.
    + pose proof (get_struct_iff _ _ _ G) as SO. apply abind_err in H. destruct H as [H|(sub & _ & H)].
      * eapply af_nested; eauto. apply (IHm (S (list_sum (map (fun '(_, u) => S (tsize u)) fs')))) in H; auto.
        assert (tsize t = fsize fs') as T by (destruct SO as [->|(x & ->)]; [|cbn [tsize]]; apply tsize_struct). unfold fsize in T. lia.
      * apply IH in H; auto. rewrite some_app in H by discriminate. apply af_after; auto. intros (_ & _ & X). auto.
    + injection H as <-. apply af_no_struct; auto. now apply no_struct.
  - assert (NN : ~ (exists o, sql_tag v (lit ">") o)) by (rewrite nested_tag; congruence).
    apply abind_err in H. destruct H as [H|(l & WL & H)].
    + apply af_item; auto. eapply where_leaf_err; eauto.
    + apply dangling_leaf in WL; auto. apply IH in H; auto. destruct l as [|w l].
      * rewrite app_nil_r in H. apply af_after_dangling; auto. now apply WL.
      * rewrite some_app in H by discriminate. apply af_after; auto. intros X. apply WL in X. discriminate.
Qed.

Lemma quantifier_of_set : forall q qu, quantifier_of q qu -> qu <> QNone -> quant_set (stringToQuantifier q) = true.
Proof. intros q qu H N. pose proof (quantifier_of_fun _ _ H) as X. rewrite <- X. destruct qu; congruence || reflexivity. Qed.

Lemma predicate_of_empty : forall op p, predicate_of IsEQ op p -> p = stringToPredicate (match op with [] => B "=" | _ => op end).
Proof. intros op p [(-> & ->)|(N & ->)]; [reflexivity|]. now destruct op. Qed.

Lemma lookup_mem : forall {A} k (m : list (bytes * A)) v, lookup k m = Some v -> In (k, v) m.
Proof.
  intros A k m v. induction m as [|[k' v'] m IH]; cbn; [discriminate|]. destruct (bytes_eqb k k') eqn:E; auto.
  apply bytes_eqb_eq in E. intros X. injection X as ->. subst. now left.
Qed.

Lemma between_range : forall op, contains (B "between") op = true -> p_range (stringToPredicate op) = true \/ stringToPredicate op = PNone.
Proof.
  intros op C. unfold stringToPredicate. destruct (lookup op predicates) as [p|] eqn:L; [|now right]. left. apply lookup_mem in L.
  assert (X : forallb (fun '(s, p) => negb (contains (B "between") s) || p_range p) predicates = true) by (vm_compute; reflexivity).
  rewrite forallb_forall in X. specialize (X _ L). cbv beta iota in X. rewrite C in X. exact X.
Qed.

Lemma item_fault_no : forall e sp v t c l, item_fault (e_pkg e) (map fst sp) v t c -> where_leaf e sp v t (tag_first (v_tag v) (B "sql")) <> AOk l.
Proof.
  intros e sp v t c l F H.
  assert (D : column_directive v t -> forall s o x, sql_tag v s o -> condition_fault (map fst sp) s x -> False).
  { intros CD s o x ST CF. destruct (where_leaf_ok _ _ _ _ _ H) as [(w & -> & I)|(-> & V & ND)]; [|contradiction].
    destruct CD as [U CD]. destruct I; try contradiction. tagdet. eapply condition_fault_no; eauto. }
  unfold where_leaf in H. destruct (abind_ok _ _ _ H) as ([[[lhs op] q] r] & P & K). clear H. apply lift_res_ok in P.
  assert (PP : forall s o lhs' op' q' r', sql_tag v s o -> parsePredicateExpr s = Ok (lhs', op', q', r') -> lhs' = lhs /\ op' = op /\ q' = q /\ r' = r).
  { intros s o lhs' op' q' r' ST P'. pose proof (tag_first_of _ _ _ ST) as T. rewrite <- T in P'. pose proof (eq_trans (eq_sym P') P) as X. injection X; intros; subst; auto. }
  destruct (bytes_eqb (v_name v) (B "_")) eqn:U.
  { apply bytes_eqb_eq in U. destruct F; try contradiction. eapply D; eauto. }
  apply bytes_eqb_neq in U.
  assert (CO : forall x, column_fault (map fst sp) lhs x -> forall id, lift (parseColIdent sp lhs) <> AOk id).
  { intros x CF id L. apply lift_ok, column_id_parse in L. eapply column_fault_no; eauto. }
  destruct (contains (B "between") op) eqn:C; destruct (abind_ok _ _ _ K) as (w & W & _).
  - unfold where_between in W. destruct (abind_ok _ _ _ W) as (? & E & W'). apply ensure_ok in E. apply bytes_eqb_eq in E. subst q.
    destruct (GetStruct t) as [[n fs]|] eqn:G; [|discriminate]. destruct fs as [|[v1 t1] [|[v2 t2] [|]]]; try discriminate.
    destruct (abind_ok _ _ _ W') as (st1 & F1 & W1). destruct (abind_ok _ _ _ W1) as (st2 & F2 & W2).
    destruct st2 as [[lo|] [hi|]]; try discriminate. destruct (abind_ok _ _ _ W2) as (id & I & _).
    pose proof (bounds_iff _ _ _ _ _ _ _ _ _ _ G F1 F2) as BI. pose proof (get_struct_iff _ _ _ G) as SO.
    apply contains_spec in C.
    destruct F as [s o c CD ST CF|s o lhs' op' q' r' c N ST P' CF|s o lhs' op' q' r' N ST P' UN|s o lhs' op' q' r' p qu N ST P' QU QN PR NQ
      |s o lhs' op' q' r' qu N ST P' QU QN NS|s o lhs' op' q' r' N ST P' IN NS|s o lhs' op' q' r' N ST P' CB QN|s o lhs' op' q' r' N ST P' CB NB
      |s o lhs' op' q' r' fs' v' t' s' o' c N ST P' CB SO' LE IN CD ST' CF].
    all: try (destruct CD; contradiction).
    all: destruct (PP _ _ _ _ _ _ ST P') as (-> & -> & -> & ->).
    + eapply CO; eauto.
    + apply contains_spec in C. apply between_range in C. apply unary_spec in UN. destruct C as [C|C]; [destruct (stringToPredicate op); discriminate|rewrite C in UN; discriminate].
    + pose proof (quantifier_of_set _ _ QU QN) as X. discriminate X.
    + pose proof (quantifier_of_set _ _ QU QN) as X. discriminate X.
    + apply contains_spec in C. apply between_range in C. apply list_pred_spec in IN. destruct C as [C|C]; [destruct (stringToPredicate op); discriminate|rewrite C in IN; discriminate].
    + congruence.
    + apply NB, BI. eauto.
    + pose proof (struct_of_det _ _ _ SO' SO). subst fs'.
      assert (XX : forall v0 t0 st st', between_field e sp n v0 t0 st = AOk st' -> column_directive v0 t0 -> sql_tag v0 s' o' -> False).
      { intros v0 t0 st st' B0 [X1 X2] T0. unfold between_field in B0. cbv zeta in B0. destruct (abind_ok _ _ _ B0) as (isd & ID & B1). apply is_dir_blank in ID.
        assert (isd = true) by (apply ID; split; auto). subst isd. destruct (abind_ok _ _ _ B1) as (id' & I' & _). apply lift_ok, column_id_parse in I'.
        rewrite (tag_first_of _ _ _ T0) in I'. eapply column_fault_no; eauto. }
      destruct IN as [IN|[IN|[]]]; injection IN as <- <-; [exact (XX _ _ _ _ F1 CD ST')|exact (XX _ _ _ _ F2 CD ST')].
  - unfold where_field in W. cbv zeta in W. destruct (abind_ok _ _ _ W) as (id & E & W1). destruct (abind_ok _ _ _ W1) as ([i b] & I & W2).
    destruct (abind_ok _ _ _ W2) as (? & E2 & W3). apply ensure_ok in E2. destruct (abind_ok _ _ _ W3) as (? & E3 & W4). apply ensure_ok in E3.
    destruct (abind_ok _ _ _ W4) as (? & E4 & W5). apply ensure_ok in E4. destruct (abind_ok _ _ _ W5) as (? & E5 & _). apply ensure_ok in E5.
    destruct F as [s o c CD ST CF|s o lhs' op' q' r' c N ST P' CF|s o lhs' op' q' r' N ST P' UN|s o lhs' op' q' r' p qu N ST P' QU QN PR NQ
      |s o lhs' op' q' r' qu N ST P' QU QN NS|s o lhs' op' q' r' N ST P' IN NS|s o lhs' op' q' r' N ST P' CB QN|s o lhs' op' q' r' N ST P' CB NB
      |s o lhs' op' q' r' fs' v' t' s' o' c N ST P' CB SO' LE IN CD ST' CF].
    all: try (destruct CD; contradiction).
    all: destruct (PP _ _ _ _ _ _ ST P') as (-> & -> & -> & ->).
    all: try (apply contains_spec in CB; change (B "between") with (lit "between") in C; congruence).
    + eapply CO; eauto.
    + apply unary_spec in UN. destruct op as [|x9 op]; [discriminate UN|]. now rewrite UN in E2.
    + rewrite (quantifier_of_set _ _ QU QN) in E3. cbn [negb orb] in E3. apply NQ. apply predicate_of_empty in PR. subst p.
      apply quantifiable_spec; exact E3.
    + rewrite (quantifier_of_set _ _ QU QN) in E4. cbn [negb orb] in E4. apply NS. eapply sequence_spec; eauto.
    + apply list_pred_spec in IN. destruct op as [|x9 op]; [discriminate IN|]. rewrite IN in E5. apply NS. eapply sequence_spec; eauto.
Qed.

Lemma where_bool_no : forall v items items', some items = true -> (forall b, ~ connective v b) -> where_bool (v_tag v) items <> AOk items'.
Proof.
  intros v items items' S0 N H. apply where_bool_ok in H. destruct H as (b & _ & C). apply (N b), C. destruct items; discriminate.
Qed.

Lemma where_fault_no : forall e sp n fs ne c, where_fault (e_pkg e) (map fst sp) (fo e n) ne fs c ->
  forall acc out, some acc = ne -> where_loop e sp n fs acc <> AOk out.
Proof.
  intros e sp n fs ne c F.
  assert (SKIP : forall v t fs acc out, unsaid (fo e n) v -> where_loop e sp n ((v, t) :: fs) acc = AOk out -> where_loop e sp n fs acc = AOk out).
  { intros v t fs0 acc out U H. cbn [where_loop] in H. fold (where_loop e sp n) in H. cbv zeta in H. destruct (_ || _) eqn:US; auto.
    destruct (abind_ok _ _ _ H) as (a & A & K). apply access_unsaid in A; auto. apply A in U. subst a. exact K. }
  assert (STEP : forall v t fs acc out, ~ unsaid (fo e n) v -> where_loop e sp n ((v, t) :: fs) acc = AOk out ->
    exists items, where_bool (v_tag v) acc = AOk items /\
      (((exists o, sql_tag v (lit ">") o) /\ exists fs' sub, struct_of t fs' /\ where_loop e sp n fs' [] = AOk sub
          /\ where_loop e sp n fs (items ++ [WNested (v_name v) sub]) = AOk out)
       \/ (~ (exists o, sql_tag v (lit ">") o) /\ exists l, where_leaf e sp v t (tag_first (v_tag v) (B "sql")) = AOk l /\ (l = [] <-> dangling v t)
          /\ where_loop e sp n fs (items ++ l) = AOk out))).
  { intros v t fs0 acc out U H. cbn [where_loop] in H. fold (where_loop e sp n) in H. cbv zeta in H. destruct (_ || _) eqn:US; [destruct U; now apply unsaid_tag|].
    destruct (abind_ok _ _ _ H) as (a & A & K). clear H. apply access_unsaid in A; auto. destruct a; [|destruct U; now apply A]. cbn [negb] in K.
    destruct (abind_ok _ _ _ K) as (items & WB & K'). clear K. exists items. split; auto.
    destruct (bytes_eqb (tag_first (v_tag v) (B "sql")) (B ">")) eqn:NE.
    - left. split; [now apply nested_tag|]. rewrite where_struct_eq in K'. destruct (GetStruct t) as [[nn fs']|] eqn:G; [|discriminate].
      destruct (abind_ok _ _ _ K') as (sub & W & K). exists fs', sub. split; eauto using get_struct_iff.
    - right. split; [rewrite nested_tag; congruence|]. destruct (abind_ok _ _ _ K') as (l & W & K). exists l. split; auto. split; auto. eapply dangling_leaf; eauto. }
  induction F as [ne v t fs c U F IH|v t fs U NC|ne v t fs U ST NS|ne v t fs fs' c U ST SO F IH|ne v t fs c U ST F|ne v t fs c U D F IH|ne v t fs c U D F IH];
    intros acc out S0 H.
  - apply SKIP in H; auto. eapply IH; eauto.
  - apply STEP in H; auto. destruct H as (items & WB & _). eapply where_bool_no; eauto.
  - apply STEP in H; auto. destruct H as (items & WB & [(_ & fs' & sub & S1 & _)|(N & _)]); [eapply NS; eauto|auto].
  - apply STEP in H; auto. destruct H as (items & WB & [(_ & fs1 & sub & S1 & W & _)|(N & _)]); [|auto]. pose proof (struct_of_det _ _ _ S1 SO). subst fs1. eapply IH; eauto. reflexivity.
  - apply STEP in H; auto. destruct H as (items & WB & [(X & _)|(N & l & W & _)]); [auto|]. eapply item_fault_no; eauto.
  - apply STEP in H; auto. destruct H as (items & WB & [(_ & fs1 & sub & S1 & W & K)|(N & l & W & L & K)]).
    + eapply IH; [|exact K]. now apply some_app.
    + eapply IH; [|exact K]. apply some_app. intros X. apply L in X. auto.
  - apply STEP in H; auto. destruct H as (items & WB & [((o & X) & _)|(N & l & W & L & K)]).
    + destruct D as (_ & _ & D). apply D. eauto.
    + apply L in D. subst l. rewrite app_nil_r in K. eapply IH; [|exact K]. now rewrite (where_bool_some _ _ _ WB).
Qed.

Lemma fo_foreign : forall e t n fs, GetStruct t = Some (n, fs) -> (fo e n = true <-> foreign (e_pkg e) t).
Proof.
  intros e t n fs G. apply GetStruct_spec in G. destruct G as [_ [(-> & ->)|(m & -> & ->)]]; unfold fo, isImportedType.
  - split; [discriminate|]. intros (k & u & q & qn & E & _). discriminate.
  - unfold pkg_path, foreign. destruct (n_pkg m) as [[p pn]|] eqn:P; cbn.
    + rewrite negb_true_iff. split.
      * intros X. exists m, (TStruct fs), p, pn. conjs; auto. now apply bytes_eqb_neq.
      * intros (k & u & q & qn & E & Q & X). injection E as <- <-. rewrite P in Q. injection Q as <- <-. now apply bytes_eqb_neq.
    + split; [discriminate|]. intros (k & u & q & qn & E & Q & X). injection E as <- <-. congruence.
Qed.

Lemma split_at_of : forall sep l t, pieces sep l t -> split_at sep t = l.
Proof.
  intros sep. induction l as [|x l IH]; intros t (N & F & E); [congruence|]. inversion F as [|? ? F1 F2]; subst.
  assert (forall x rest, ~ In sep x -> split_at sep (x ++ rest) = match split_at sep rest with y :: l => (x ++ y) :: l | [] => [x] end) as SA.
  { clear. induction x as [|c x IH]; intros rest N. cbn [app]. { destruct rest as [|c r]; cbn [split_at]. reflexivity. destruct (beq c sep); auto. destruct (split_at sep r); auto. }
    cbn [app split_at]. cbn [In] in N. unfold beq. destruct (Ascii.eqb_spec c sep); [subst; tauto|]. rewrite IH by tauto. destruct (split_at sep rest); reflexivity. }
  destruct l as [|y l].
  - cbn [joined]. rewrite <- (app_nil_r x) at 1. rewrite SA; auto. cbn [split_at]. now rewrite app_nil_r.
  - change (joined [sep] (x :: y :: l)) with (x ++ sep :: joined [sep] (y :: l)). rewrite SA; auto. cbn [split_at]. unfold beq. rewrite Ascii.eqb_refl.
    rewrite IH; [now rewrite app_nil_r|]. split; [discriminate|auto].
Qed.

Lemma join_conds_err : forall sp rid vals first items c, join_conds sp rid first vals items = AErr c -> exists p, In p vals /\ join_cond sp rid p = AErr c.
Proof.
  induction vals as [|v vals IH]; intros first items c H; cbn [join_conds] in H; [discriminate|]. apply abind_err in H. destruct H as [H|(x & _ & H)].
  - exists v. split; auto. now left.
  - apply IH in H. destruct H as (p & I & H). exists p. split; auto. now right.
Qed.

Lemma join_conds_all : forall sp rid vals first items out, join_conds sp rid first vals items = AOk out -> forall p, In p vals -> exists x, join_cond sp rid p = AOk x.
Proof.
  induction vals as [|v vals IH]; intros first items c H p I; cbn [join_conds] in H; [destruct I|]. destruct (abind_ok _ _ _ H) as (x & E & K).
  destruct I as [<-|I]; eauto.
Qed.

Lemma join_vals_err : forall sp rid vals items c, join_vals sp rid vals items = AErr c ->
  exists x p ps, In x vals /\ pieces ";" ps x /\ In p ps /\ join_cond sp rid p = AErr c.
Proof.
  induction vals as [|v vals IH]; intros items c H; cbn [join_vals] in H; [discriminate|]. apply abind_err in H. destruct H as [H|(x & _ & H)].
  - apply join_conds_err in H. destruct H as (p & I & H). exists v, p, (split_at ";" v). conjs; auto using split_pieces. now left.
  - apply IH in H. destruct H as (y & p & ps & I & H). exists y, p, ps. split; auto. now right.
Qed.

Lemma join_vals_all : forall sp rid vals items out, join_vals sp rid vals items = AOk out ->
  forall x ps p, In x vals -> pieces ";" ps x -> In p ps -> exists y, join_cond sp rid p = AOk y.
Proof.
  induction vals as [|v vals IH]; intros items out H x ps p I P IP; cbn [join_vals] in H; [destruct I|]. destruct (abind_ok _ _ _ H) as (y & E & K).
  destruct I as [<-|I]; [|eauto]. apply split_at_of in P. subst ps. eapply join_conds_all; eauto.
Qed.

Lemma directive_get : forall t d, directive t d -> GetDirectiveName t = AOk d.
Proof.
  intros t d (n & u & p & pn & v & w & -> & N & P & Q & -> & E). unfold GetDirectiveName, pkg_path. rewrite P. cbn [abind fst].
  rewrite (proj2 (has_suffix_spec gosql_path p) Q). unfold is_isdir. rewrite E. change (bytes_eqb (lit "_isdir") (B "_isdir")) with true. cbn. now rewrite N.
Qed.

Lemma directive_det : forall t a b, directive t a -> directive t b -> a = b.
Proof. intros t a b A C. apply directive_get in A, C. congruence. Qed.

Lemma tolower_nonempty : forall d w, tolower d = w -> w <> [] -> d <> [].
Proof. intros d w E N ->. apply N. rewrite <- E. reflexivity. Qed.

Lemma join_dirs_spec : forall d, existsb (bytes_eqb d) [B "leftjoin"; B "rightjoin"; B "fulljoin"; B "crossjoin"; B "innerjoin"] = true <-> In d join_dirs.
Proof.
  intros d. rewrite existsb_exists. split.
  - intros (x & I & E). apply bytes_eqb_eq in E. subst. exact I.
  - intros I. exists d. split; [exact I|apply bytes_eqb_refl].
Qed.

Lemma dirs_nonempty : forall w, In w (lit "relation" :: join_dirs) -> w <> [].
Proof. intros w I. unfold join_dirs in I. cbn [map] in I. destruct I as [<-|[<-|[<-|[<-|[<-|[<-|[]]]]]]]; discriminate. Qed.

Definition gone (r : option RelIdent) : bool := match r with Some _ => true | None => false end.

Definition bare_of (j : JoinStruct) : bool := bytes_eqb (tolower (j_name j)) (B "from") || bytes_eqb (tolower (j_name j)) (B "using").

Lemma join_fields_err : forall fs sp j c, join_fields sp j fs = AErr c -> join_fault (bare_of j) (gone (j_relation j)) (map fst sp) fs c.
Proof.
  induction fs as [|[v t] fs IH]; intros sp j c H; cbn [join_fields] in H; [discriminate|]. cbv zeta in H.
  destruct (_ || negb _) eqn:SI; [apply af_silent; [now apply silent_spec|auto]|].
  assert (NS : ~ silent v) by (intros X; apply silent_spec in X; unfold text, bytes in *; rewrite X in SI; discriminate).
  apply abind_err in H. destruct H as [H|(dir & GD & H)]; [now destruct (dir_name_no_err _ _ H)|].
  pose proof (sql_tag_first v) as ST.
  destruct (bytes_eqb (tolower dir) (B "relation")) eqn:R.
  - apply bytes_eqb_eq in R. assert (D : directive t dir) by (apply directive_name; auto; apply (tolower_nonempty _ _ R); discriminate).
    apply abind_err in H. destruct H as [H|([sp' j'] & J & H)].
    + unfold join_relation in H. cbv zeta in H. apply abind_err in H. destruct H as [H|(? & E & H)].
      { apply ensure_err in H. destruct H as [H ->]. eapply af_bare; eauto. }
      apply abind_err in H. destruct H as [H|(? & E2 & H)].
      { apply ensure_err in H. destruct H as [H ->]. destruct (j_relation j); [|discriminate]. eapply af_second; eauto. }
      apply abind_err in H. destruct H as [H|(rid & P & H)].
      { eapply af_joined; eauto. left. symmetry. exact R. apply (rel_err sp). now rewrite H. }
      apply abind_err in H. destruct H as [H|(sp' & A & H)]; [|discriminate].
      eapply af_joined; eauto. left. symmetry. exact R. apply (rel_err sp). now rewrite P.
    + unfold join_relation in J. cbv zeta in J. destruct (abind_ok _ _ _ J) as (? & _ & J1). destruct (abind_ok _ _ _ J1) as (? & _ & J2).
      destruct (abind_ok _ _ _ J2) as (rid & P & J3). destruct (abind_ok _ _ _ J3) as (sp'' & A & J4). injection J4 as <- <-.
      apply lift_ok, rel_id_spec in P. apply lift_ok, addToRelSpace_spec in A. destruct A as [-> _]. apply IH in H. cbn [map fst] in H. eapply af_relation_later; eauto.
  - destruct (existsb _ _) eqn:JD.
    + apply join_dirs_spec in JD. assert (D : directive t dir) by (apply directive_name; auto; apply (tolower_nonempty _ _ eq_refl), dirs_nonempty; now right).
      apply abind_err in H. destruct H as [H|([sp' j'] & J & H)].
      * unfold join_directive in H. apply abind_err in H. destruct H as [H|(rid & P & H)].
        { eapply af_joined; eauto. now right. apply (rel_err sp). now rewrite H. }
        apply abind_err in H. destruct H as [H|(sp' & A & H)].
        { eapply af_joined; eauto. now right. apply (rel_err sp). now rewrite P. }
        apply lift_ok, rel_id_spec in P. apply lift_ok, addToRelSpace_spec in A. destruct A as [-> _].
        apply abind_err in H. destruct H as [H|(items & _ & H)]; [|discriminate].
        apply join_vals_err in H. destruct H as (x & p & ps & IX & PI & IP & H). apply join_cond_err in H; eauto.
        cbn [map fst] in H. destruct H as [H|(-> & lhs & op & q & r & id & PP & CI & NQ)].
        -- eapply af_condition; eauto.
        -- eapply af_join_column; eauto.
      * unfold join_directive in J. destruct (abind_ok _ _ _ J) as (rid & P & J3). destruct (abind_ok _ _ _ J3) as (sp'' & A & J4). destruct (abind_ok _ _ _ J4) as (items & _ & J5). injection J5 as <- <-.
        apply lift_ok, rel_id_spec in P. apply lift_ok, addToRelSpace_spec in A. destruct A as [-> _]. apply IH in H. cbn [map fst] in H. eapply af_join_later; eauto.
    + cbn [abind] in H. injection H as <-. apply af_no_join; auto. intros d D I. apply directive_get in D. rewrite D in GD. injection GD as <-. destruct I as [I|I].
      * apply bytes_eqb_neq in R. symmetry in I. contradiction.
      * apply join_dirs_spec in I. congruence.
Qed.

Lemma join_fault_no : forall bare had sc fs c, join_fault bare had sc fs c ->
  forall sp j out, map fst sp = sc -> bare_of j = bare -> gone (j_relation j) = had -> join_fields sp j fs <> AOk out.
Proof.
  intros bare had sc fs c F.
  assert (STEP : forall v t fs sp j out, ~ silent v -> join_fields sp j ((v, t) :: fs) = AOk out ->
    exists dir rid, directive t dir /\ In (tolower dir) (lit "relation" :: join_dirs) /\ relation_id (tag_first (v_tag v) (B "sql")) rid
      /\ lift (addToRelSpace sp rid) = AOk ((ref_name rid, rid) :: sp)
      /\ ((tolower dir = lit "relation" /\ bare_of j = true /\ gone (j_relation j) = false
             /\ join_fields ((ref_name rid, rid) :: sp) (MkJoin (j_name j) (Some rid) (j_dirs j)) fs = AOk out)
          \/ (In (tolower dir) join_dirs /\ exists items ds, join_vals ((ref_name rid, rid) :: sp) rid (tl (tag_get (v_tag v) (B "sql"))) [] = AOk items
             /\ join_fields ((ref_name rid, rid) :: sp) (MkJoin (j_name j) (j_relation j) ds) fs = AOk out))).
  { intros v t fs0 sp j out NS H. cbn [join_fields] in H. cbv zeta in H. destruct (_ || negb _) eqn:SI; [destruct NS; now apply silent_spec|].
    destruct (abind_ok _ _ _ H) as (dir & GD & K). clear H. exists dir. destruct (bytes_eqb (tolower dir) (B "relation")) eqn:R.
    - apply bytes_eqb_eq in R. destruct (abind_ok _ _ _ K) as ([sp' j'] & J & K'). clear K.
      assert (D : directive t dir) by (apply directive_name; auto; apply (tolower_nonempty _ _ R); discriminate).
      unfold join_relation in J. cbv zeta in J. destruct (abind_ok _ _ _ J) as (? & E1 & J1). apply ensure_ok in E1. destruct (abind_ok _ _ _ J1) as (? & E2 & J2). apply ensure_ok in E2.
      destruct (abind_ok _ _ _ J2) as (rid & P & J3). destruct (abind_ok _ _ _ J3) as (sp'' & A & J4). injection J4 as <- <-.
      apply lift_ok, rel_id_spec in P. pose proof A as A'. apply lift_ok, addToRelSpace_spec in A'. destruct A' as [-> _].
      exists rid. conjs; auto. left. symmetry. exact R. left. conjs; auto. destruct (j_relation j); auto; discriminate.
    - destruct (existsb _ _) eqn:JD; [|discriminate]. apply join_dirs_spec in JD. destruct (abind_ok _ _ _ K) as ([sp' j'] & J & K'). clear K.
      assert (D : directive t dir) by (apply directive_name; auto; apply (tolower_nonempty _ _ eq_refl), dirs_nonempty; now right).
      unfold join_directive in J. destruct (abind_ok _ _ _ J) as (rid & P & J3). destruct (abind_ok _ _ _ J3) as (sp'' & A & J4). destruct (abind_ok _ _ _ J4) as (items & JV & J5). injection J5 as <- <-.
      apply lift_ok, rel_id_spec in P. pose proof A as A'. apply lift_ok, addToRelSpace_spec in A'. destruct A' as [-> _].
      exists rid. conjs; auto. now right. right. split; auto. eauto. }
  assert (TAG : forall v s o, sql_tag v s o -> tag_first (v_tag v) (B "sql") = s /\ tl (tag_get (v_tag v) (B "sql")) = o).
  { intros v s o T. apply sql_tag_spec in T. exact T. }
  assert (RJ : ~ In (lit "relation") join_dirs) by (cbn; intros X; repeat destruct X as [X|X]; try discriminate; auto).
  induction F as [had sc v t fs c SI F IH|had sc v t fs NS ND|had sc v t fs d NS D R BA|sc v t fs d NS D R|had sc v t fs d s o c NS D I T RF
    |had sc v t fs d s o rid x ps p c NS D I T RI IX P IP CF|had sc v t fs d s o rid x ps p lhs op q r id NS D I T RI IX P IP PP CI NQ
    |had sc v t fs d s o rid c NS D I T RI F IH|had sc v t fs d s o rid c NS D R T RI F IH]; intros sp j out SC BJ HJ H; subst sc.
  - cbn [join_fields] in H. cbv zeta in H. apply silent_spec in SI. unfold text, bytes in *. rewrite SI in H. eapply IH; eauto.
  - apply STEP in H; auto. destruct H as (dir & rid & D & I & _). eapply ND; eauto.
  - apply STEP in H; auto. destruct H as (dir & rid & D' & I & _ & _ & H). pose proof (directive_det _ _ _ D D'); subst dir. destruct H as [(_ & X & _)|(X & _)]; [congruence|].
    rewrite R in X. auto.
  - apply STEP in H; auto. destruct H as (dir & rid & D' & I & _ & _ & H). pose proof (directive_det _ _ _ D D'); subst dir. destruct H as [(_ & _ & X & _)|(X & _)]; [congruence|].
    rewrite R in X. auto.
  - apply STEP in H; auto. destruct H as (dir & rid & D' & _ & RI & A & _). destruct (TAG _ _ _ T) as [T1 T2]. rewrite T1 in RI. apply lift_ok in A. apply rel_id_spec in RI.
    eapply relation_fault_no; eauto.
  - apply STEP in H; auto. destruct H as (dir & rid' & D' & _ & RI' & A & H). destruct (TAG _ _ _ T) as [T1 T2]. rewrite T1 in RI'. pose proof (relation_id_det _ _ _ RI RI'); subst rid'.
    pose proof (directive_det _ _ _ D D'); subst dir. destruct H as [(R & _)|(_ & items & ds & JV & _)]; [rewrite R in I; auto|]. rewrite T2 in JV.
    destruct (join_vals_all _ _ _ _ _ JV _ _ _ IX P IP) as (y & JC). apply join_cond_ok in JC. destruct JC as [JC _]. eapply condition_fault_no; eauto.
  - apply STEP in H; auto. destruct H as (dir & rid' & D' & _ & RI' & A & H). destruct (TAG _ _ _ T) as [T1 T2]. rewrite T1 in RI'. pose proof (relation_id_det _ _ _ RI RI'); subst rid'.
    pose proof (directive_det _ _ _ D D'); subst dir. destruct H as [(R & _)|(_ & items & ds & JV & _)]; [rewrite R in I; auto|]. rewrite T2 in JV.
    destruct (join_vals_all _ _ _ _ _ JV _ _ _ IX P IP) as (y & JC). unfold join_cond in JC. rewrite PP in JC. cbn [lift_res abind] in JC.
    destruct (abind_ok _ _ _ JC) as (id' & CI' & JC'). destruct (abind_ok _ _ _ JC') as (? & L & _). apply ensure_ok in L. apply lift_ok, column_id_parse in CI'. 
    pose proof (column_id_det _ _ _ _ CI CI'); subst id'. apply NQ. eapply lhs_spec; eauto. pose proof RI as RI2. destruct RI2 as (E & _). unfold text, bytes in *. rewrite <- E. exact RI.
  - apply STEP in H; auto. destruct H as (dir & rid' & D' & _ & RI' & A & H). destruct (TAG _ _ _ T) as [T1 T2]. rewrite T1 in RI'. pose proof (relation_id_det _ _ _ RI RI'); subst rid'.
    pose proof (directive_det _ _ _ D D'); subst dir. destruct H as [(R & _)|(_ & items & ds & JV & K)]; [rewrite R in I; auto|]. eapply IH; [| | |exact K]; auto.
  - apply STEP in H; auto. destruct H as (dir & rid' & D' & _ & RI' & A & H). destruct (TAG _ _ _ T) as [T1 T2]. rewrite T1 in RI'. pose proof (relation_id_det _ _ _ RI RI'); subst rid'.
    pose proof (directive_det _ _ _ D D'); subst dir. destruct H as [(_ & _ & _ & K)|(X & _)]; [|rewrite R in X; now destruct RJ]. eapply IH; [| | |exact K]; auto.
Qed.

Lemma values_get : forall v, values v (lit "sql") (tag_get (v_tag v) (B "sql")).
Proof. intros v. apply tag_values. Qed.

Lemma values_det : forall v k a b, values v k a -> values v k b -> a = b.
Proof.
  intros v k a b [A|(-> & A)] [C|(-> & C)]; auto.
  - apply tag_value_lookup in A, C. congruence.
  - destruct C. now exists a.
  - destruct A. now exists b.
Qed.

Lemma conflict_directive_det : forall f w w', conflict_directive f w -> conflict_directive f w' -> w = w'.
Proof. intros f w w' (_ & d & D & <-) (_ & d' & D' & <-). pose proof (directive_det _ _ _ D D'). now subst. Qed.

Definition oc_ok_at (sc : list text) (v : fvar) (w : text) : Prop :=
  (w = lit "column" -> forall c, ~ ids_fault sc (tag_get (v_tag v) (B "sql")) c)
  /\ (In w [lit "index"; lit "constraint"] -> is_name (tag_first (v_tag v) (B "sql")))
  /\ (w = lit "update" -> forall c, ~ list_fault sc (tag_get (v_tag v) (B "sql")) c).

Lemma idents_no_fault : forall sp tag ids, lift (parseColIdents sp tag) = AOk ids -> forall c, ~ ids_fault (map fst sp) tag c.
Proof. intros sp tag ids H c F. apply lift_ok in H. apply col_idents_ok in H. destruct H as [N H]. eapply ids_fault_no; eauto. Qed.

Lemma col_list_ok : forall sp tag l, parseColIdentList sp tag = inl l -> column_list (map fst sp) tag l.
Proof.
  intros sp tag l H. unfold parseColIdentList in H. unfold column_list.
  assert (G : match parseColIdents sp tag with inl l => inl (MkColList false l) | inr e => inr e end = inl l ->
              exists ids, l = MkColList false ids /\ tag <> [] /\ Forall2 (column_id (map fst sp)) tag ids).
  { intros X. destruct (parseColIdents sp tag) as [ids|] eqn:P; [|discriminate]. injection X as <-. exists ids. split; auto. now apply col_idents_ok. }
  destruct tag as [|x [|y r]]; [right; auto| |right; auto]. destruct (bytes_eqb x (B "*")) eqn:E; [|right; auto].
  left. apply bytes_eqb_eq in E. subst. injection H as <-. auto.
Qed.

Lemma list_no_fault : forall sp tag ids, lift (parseColIdentList sp tag) = AOk ids -> forall c, ~ list_fault (map fst sp) tag c.
Proof. intros sp tag ids H c F. apply lift_ok in H. eapply list_fault_no; eauto. apply col_list_ok. eauto. Qed.

Ltac notword X := exfalso; cbn in X; repeat destruct X as [X|X]; try discriminate X; try contradiction X.

Lemma oc_step_facts : forall sp w v oc oc', oc_directive sp w (v_tag v) oc = AOk oc' ->
  In w (targets ++ actions) /\ oc_ok_at (map fst sp) v w
  /\ (In w targets -> oc_has_target oc = false /\ oc_has_target oc' = true) /\ (~ In w targets -> oc_has_target oc' = oc_has_target oc)
  /\ (In w actions -> oc_has_action oc = false /\ oc_has_action oc' = true) /\ (~ In w actions -> oc_has_action oc' = oc_has_action oc)
  /\ (is_some (oc_update oc') = true <-> is_some (oc_update oc) = true \/ w = lit "update").
Proof.
  intros sp w v oc oc' H. unfold oc_directive in H.
  assert (W : forall a, bytes_eqb w a = true -> w = a) by (intros a; apply bytes_eqb_eq).
  destruct (bytes_eqb w (B "column")) eqn:E1.
  { apply W in E1. subst w. destruct (abind_ok _ _ _ H) as (? & E & K). apply ensure_ok, negb_true_iff in E. destruct (abind_ok _ _ _ K) as (ids & L & K'). injection K' as <-.
    pose proof (idents_no_fault _ _ _ L). unfold oc_has_action. conjs.
    - now left.
    - unfold oc_ok_at; conjs; auto; try discriminate; intros X; notword X.
    - intros _. split; auto.
    - intros X. destruct X. now left.
    - intros X. notword X.
    - reflexivity.
    - cbn. split; auto. intros [X|X]; auto. discriminate. }
  destruct (bytes_eqb w (B "index")) eqn:E2.
  { apply W in E2. subst w. destruct (abind_ok _ _ _ H) as (? & E & K). apply ensure_ok, negb_true_iff in E. cbv zeta in K. destruct (abind_ok _ _ _ K) as (? & L & K'). apply ensure_ok, ident_match in L. injection K' as <-.
    unfold oc_has_action. conjs.
    - right; now left.
    - unfold oc_ok_at; conjs; auto; discriminate.
    - intros _. split; auto. unfold oc_has_target. cbn. now destruct (oc_column oc).
    - intros X. destruct X. right; now left.
    - intros X. notword X.
    - reflexivity.
    - cbn. split; auto. intros [X|X]; auto. discriminate. }
  destruct (bytes_eqb w (B "constraint")) eqn:E3.
  { apply W in E3. subst w. destruct (abind_ok _ _ _ H) as (? & E & K). apply ensure_ok, negb_true_iff in E. cbv zeta in K. destruct (abind_ok _ _ _ K) as (? & L & K'). apply ensure_ok, ident_match in L. injection K' as <-.
    unfold oc_has_action. conjs.
    - right; right; now left.
    - unfold oc_ok_at; conjs; auto; discriminate.
    - intros _. split; auto. unfold oc_has_target. cbn. destruct (oc_column oc); auto. now destruct (oc_index oc).
    - intros X. destruct X. right; right; now left.
    - intros X. notword X.
    - reflexivity.
    - cbn. split; auto. intros [X|X]; auto. discriminate. }
  destruct (bytes_eqb w (B "ignore")) eqn:E4.
  { apply W in E4. subst w. destruct (abind_ok _ _ _ H) as (? & E & K). apply ensure_ok, negb_true_iff in E. injection K as <-.
    conjs.
    - do 3 right; now left.
    - unfold oc_ok_at; conjs; auto; try discriminate. intros X; notword X.
    - intros X. notword X.
    - reflexivity.
    - intros _. split; auto.
    - intros X. destruct X. now left.
    - cbn. split; auto. intros [X|X]; auto. discriminate. }
  destruct (bytes_eqb w (B "update")) eqn:E5; [|discriminate].
  apply W in E5. subst w. destruct (abind_ok _ _ _ H) as (? & E & K). apply ensure_ok, negb_true_iff in E. destruct (abind_ok _ _ _ K) as (ids & L & K'). injection K' as <-.
  pose proof (list_no_fault _ _ _ L).
  conjs.
  - do 4 right; now left.
  - unfold oc_ok_at; conjs; auto; try discriminate. intros X; notword X.
  - intros X. notword X.
  - reflexivity.
  - intros _. split; auto. unfold oc_has_action. cbn. apply orb_true_r.
  - intros X. destruct X. right; now left.
  - cbn. split; auto.
Qed.

Lemma oc_step_err : forall sp w v oc c, oc_directive sp w (v_tag v) oc = AErr c ->
  (In w targets /\ oc_has_target oc = true /\ c = EConflictingOnConflictTarget) \/ (In w actions /\ oc_has_action oc = true /\ c = EConflictingOnConflictAction)
  \/ (w = lit "column" /\ ids_fault (map fst sp) (tag_get (v_tag v) (B "sql")) c)
  \/ (In w [lit "index"; lit "constraint"] /\ ~ is_name (tag_first (v_tag v) (B "sql")) /\ c = EBadIdentTagValue)
  \/ (w = lit "update" /\ list_fault (map fst sp) (tag_get (v_tag v) (B "sql")) c)
  \/ (~ In w (targets ++ actions) /\ c = EIllegalStructDirective).
Proof.
  intros sp w v oc c H. unfold oc_directive in H.
  assert (W : forall a, bytes_eqb w a = true -> w = a) by (intros a; apply bytes_eqb_eq).
  assert (NI : rx_match rxIdent (tag_first (v_tag v) (B "sql")) = false -> ~ is_name (tag_first (v_tag v) (B "sql"))).
  { intros X Y. apply ident_match in Y. congruence. }
  destruct (bytes_eqb w (B "column")) eqn:E1.
  { apply W in E1. subst w. apply abind_err in H. destruct H as [H|(? & _ & H)].
    - apply ensure_err in H. destruct H as [H ->]. apply negb_false_iff in H. left. conjs; auto. now left.
    - apply abind_err in H. destruct H as [H|(? & _ & H)]; [|discriminate]. apply lift_err in H. destruct H as (xe & H & ->). right; right; left. split; auto. now apply col_idents_err. }
  destruct (bytes_eqb w (B "index")) eqn:E2.
  { apply W in E2. subst w. apply abind_err in H. destruct H as [H|(? & _ & H)].
    - apply ensure_err in H. destruct H as [H ->]. apply negb_false_iff in H. left. conjs; auto. right; now left.
    - cbv zeta in H. apply abind_err in H. destruct H as [H|(? & _ & H)]; [|discriminate]. apply ensure_err in H. destruct H as [H ->]. right; right; right; left. conjs; auto. now left. }
  destruct (bytes_eqb w (B "constraint")) eqn:E3.
  { apply W in E3. subst w. apply abind_err in H. destruct H as [H|(? & _ & H)].
    - apply ensure_err in H. destruct H as [H ->]. apply negb_false_iff in H. left. conjs; auto. right; right; now left.
    - cbv zeta in H. apply abind_err in H. destruct H as [H|(? & _ & H)]; [|discriminate]. apply ensure_err in H. destruct H as [H ->]. right; right; right; left. conjs; auto. right; now left. }
  destruct (bytes_eqb w (B "ignore")) eqn:E4.
  { apply W in E4. subst w. apply abind_err in H. destruct H as [H|(? & _ & H)]; [|discriminate].
    apply ensure_err in H. destruct H as [H ->]. apply negb_false_iff in H. right; left. conjs; auto. now left. }
  destruct (bytes_eqb w (B "update")) eqn:E5.
  { apply W in E5. subst w. apply abind_err in H. destruct H as [H|(? & _ & H)].
    - apply ensure_err in H. destruct H as [H ->]. apply negb_false_iff in H. right; left. conjs; auto. right; now left.
    - apply abind_err in H. destruct H as [H|(? & _ & H)]; [|discriminate]. apply lift_err in H. destruct H as (xe & H & ->). right; right; right; right; left. split; auto. now apply col_list_err. }
  injection H as <-. do 5 right. split; auto. apply bytes_eqb_neq in E1, E2, E3, E4, E5. cbn. intros X. repeat destruct X as [X|X]; auto.
Qed.

Lemma blank_cd : forall v t w d, v_name v = lit "_" -> directive t d -> tolower d = w -> conflict_directive (v, t) w.
Proof. intros v t w d N D E. split; auto. exists d. auto. Qed.

Lemma oc_words_nonempty : forall w, In w (targets ++ actions) -> w <> [].
Proof. intros w I ->. cbn in I. repeat destruct I as [I|I]; try discriminate; auto. Qed.

Lemma oc_fields_err : forall sp fs pre oc c,
  (oc_has_target oc = true -> exists f w, In f pre /\ In w targets /\ conflict_directive f w) ->
  (oc_has_action oc = true -> exists f w, In f pre /\ In w actions /\ conflict_directive f w) ->
  oc_fields sp fs oc = AErr c -> conflict_fault (map fst sp) (pre ++ fs) c.
Proof.
  intros sp. induction fs as [|[v t] fs IH]; intros pre oc c HT HA H; cbn [oc_fields] in H; [discriminate|].
  assert (REST : forall oc1, (oc_has_target oc1 = true -> exists f w, In f (pre ++ [(v, t)]) /\ In w targets /\ conflict_directive f w) ->
     (oc_has_action oc1 = true -> exists f w, In f (pre ++ [(v, t)]) /\ In w actions /\ conflict_directive f w) ->
     oc_fields sp fs oc1 = AErr c -> conflict_fault (map fst sp) (pre ++ (v, t) :: fs) c).
  { intros oc1 A1 A2 X. apply (IH (pre ++ [(v, t)])) in X; auto. rewrite <- app_assoc in X. exact X. }
  assert (OLD : forall ws, (exists f w, In f pre /\ In w ws /\ conflict_directive f w) -> exists f w, In f (pre ++ [(v, t)]) /\ In w ws /\ conflict_directive f w).
  { intros ws (f & w & I & X). exists f, w. split; auto. apply in_or_app. now left. }
  destruct (bytes_eqb (v_name v) (B "_")) eqn:U; cbn [negb] in H.
  2:{ eapply REST; eauto. }
  apply bytes_eqb_eq in U. assert (ME : In (v, t) (pre ++ (v, t) :: fs)) by (apply in_or_app; right; now left).
  apply abind_err in H. destruct H as [H|(dir & GD & H)]; [now destruct (dir_name_no_err _ _ H)|].
  assert (CD : tolower dir <> [] -> conflict_directive (v, t) (tolower dir)).
  { intros N. eapply blank_cd; eauto. apply directive_name; auto. intros ->. now apply N. }
  apply abind_err in H. destruct H as [H|(oc1 & OD & H)].
  - apply oc_step_err in H. destruct H as [(I & O & ->)|[(I & O & ->)|[(W & F)|[(I & N & ->)|[(W & F)|(N & ->)]]]]].
    + destruct (HT O) as (f & w & If & Iw & C). apply in_split in If. destruct If as (a & b & ->). rewrite <- app_assoc. cbn [app].
      eapply af_two_targets with (f := f) (f' := (v, t)); [reflexivity|exact Iw|exact I|exact C|]. apply CD, oc_words_nonempty, in_or_app; auto.
    + destruct (HA O) as (f & w & If & Iw & C). apply in_split in If. destruct If as (a & b & ->). rewrite <- app_assoc. cbn [app].
      eapply af_two_actions with (f := f) (f' := (v, t)); [reflexivity|exact Iw|exact I|exact C|]. apply CD, oc_words_nonempty, in_or_app; auto.
    + eapply af_target_columns; [exact ME| |apply values_get|exact F]. rewrite <- W. apply CD. rewrite W. discriminate.
    + eapply af_target_name; [exact ME|exact I| |apply sql_tag_first|exact N]. apply CD. intros X. rewrite X in I. notword I.
    + eapply af_action_columns; [exact ME| |apply values_get|exact F]. rewrite <- W. apply CD. rewrite W. discriminate.
    + eapply af_no_directive; [exact ME|exact U|]. intros w I (_ & d & D & E). cbn [snd] in D. apply directive_get in D. rewrite D in GD. injection GD as <-. rewrite E in N. auto.
  - apply oc_step_facts in OD. destruct OD as (I & _ & T1 & T2 & A1 & A2 & _). specialize (CD (oc_words_nonempty _ I)).
    assert (NEW : forall ws, In (tolower dir) ws -> exists f w, In f (pre ++ [(v, t)]) /\ In w ws /\ conflict_directive f w).
    { intros ws X. exists (v, t), (tolower dir). conjs; auto. apply in_or_app. right; now left. }
    eapply REST; [| |exact H].
    + intros X. destruct (in_dec (list_eq_dec ascii_dec) (tolower dir) targets) as [Y|Y]; [now apply NEW|]. rewrite (T2 Y) in X. auto.
    + intros X. destruct (in_dec (list_eq_dec ascii_dec) (tolower dir) actions) as [Y|Y]; [now apply NEW|]. rewrite (A2 Y) in X. auto.
Qed.

Lemma oc_fields_facts : forall sp fs oc oc', oc_fields sp fs oc = AOk oc' ->
  (forall v t, In (v, t) fs -> v_name v = lit "_" -> exists w, In w (targets ++ actions) /\ conflict_directive (v, t) w /\ oc_ok_at (map fst sp) v w)
  /\ (oc_has_target oc = true -> oc_has_target oc' = true /\ forall f w, In f fs -> In w targets -> ~ conflict_directive f w)
  /\ (oc_has_action oc = true -> forall f w, In f fs -> In w actions -> ~ conflict_directive f w)
  /\ (oc_has_target oc' = true <-> oc_has_target oc = true \/ exists f w, In f fs /\ In w targets /\ conflict_directive f w)
  /\ (is_some (oc_update oc') = true <-> is_some (oc_update oc) = true \/ exists f, In f fs /\ conflict_directive f (lit "update"))
  /\ (forall a f b f' c w w', fs = a ++ f :: b ++ f' :: c -> In w targets -> In w' targets -> conflict_directive f w -> ~ conflict_directive f' w')
  /\ (forall a f b f' c w w', fs = a ++ f :: b ++ f' :: c -> In w actions -> In w' actions -> conflict_directive f w -> ~ conflict_directive f' w').
Proof.
  intros sp. induction fs as [|[v t] fs IH]; intros oc oc' H; cbn [oc_fields] in H.
  { injection H as <-. conjs.
    - intros v t [].
    - intros X. split; auto; intros f w [].
    - intros _ f w [].
    - split; auto. intros [X|(f & w & [] & _)]; auto.
    - split; auto. intros [X|(f & [] & _)]; auto.
    - intros a f b f' c w w' X. destruct a; discriminate.
    - intros a f b f' c w w' X. destruct a; discriminate. }
  destruct (bytes_eqb (v_name v) (B "_")) eqn:U; cbn [negb] in H.
  2:{ apply bytes_eqb_neq in U. apply IH in H. destruct H as (P1 & P2 & P3 & P4 & P5 & P6 & P7).
      assert (NC : forall w, ~ conflict_directive (v, t) w) by (intros w [X _]; now apply U).
      conjs.
      - intros v0 t0 [E|I] N; [injection E as <- <-; contradiction|eauto].
      - intros X. destruct (P2 X) as [Y Z]. split; auto. intros f w [<-|I]; eauto.
      - intros X f w [<-|I]; eauto.
      - rewrite P4. split; (intros [X|(f & w & I & Y)]; [now left|right]); [exists f, w; split; auto; now right|]. destruct I as [<-|I]; [destruct Y as [_ Y]; now apply NC in Y|eauto].
      - rewrite P5. split; (intros [X|(f & I & Y)]; [now left|right]); [exists f; split; auto; now right|]. destruct I as [<-|I]; [now apply NC in Y|eauto].
      - intros [|x a] f b f' c w w' E I1 I2 C1; cbn in E; injection E as <- ->; [now apply NC in C1|exact (P6 _ _ _ _ _ _ _ eq_refl I1 I2 C1)].
      - intros [|x a] f b f' c w w' E I1 I2 C1; cbn in E; injection E as <- ->; [now apply NC in C1|exact (P7 _ _ _ _ _ _ _ eq_refl I1 I2 C1)]. }
  apply bytes_eqb_eq in U. destruct (abind_ok _ _ _ H) as (dir & GD & K). destruct (abind_ok _ _ _ K) as (oc1 & OD & K'). clear H K.
  apply oc_step_facts in OD. destruct OD as (I & OK & T1 & T2 & A1 & A2 & UP). apply IH in K'. destruct K' as (P1 & P2 & P3 & P4 & P5 & P6 & P7). clear IH.
  assert (CD : conflict_directive (v, t) (tolower dir)).
  { eapply blank_cd; eauto. apply directive_name; auto. apply (tolower_nonempty _ _ eq_refl). now apply oc_words_nonempty. }
  assert (DET : forall w, conflict_directive (v, t) w -> w = tolower dir) by (intros w X; eapply conflict_directive_det; eauto).
  assert (TT : forall w, In w targets -> conflict_directive (v, t) w -> oc_has_target oc = false /\ oc_has_target oc1 = true).
  { intros w X Y. apply DET in Y. subst w. auto. }
  assert (AA : forall w, In w actions -> conflict_directive (v, t) w -> oc_has_action oc = false /\ oc_has_action oc1 = true).
  { intros w X Y. apply DET in Y. subst w. auto. }
  assert (TI : oc_has_target oc1 = true <-> oc_has_target oc = true \/ In (tolower dir) targets).
  { destruct (in_dec (list_eq_dec ascii_dec) (tolower dir) targets) as [Y|Y]; [destruct (T1 Y); tauto|]. rewrite (T2 Y). tauto. }
  assert (AI : oc_has_action oc = true -> oc_has_action oc1 = true).
  { destruct (in_dec (list_eq_dec ascii_dec) (tolower dir) actions) as [Y|Y]; [destruct (A1 Y); congruence|]. now rewrite (A2 Y). }
  conjs.
  - intros v0 t0 [E|J] N; [injection E as <- <-; eauto|eauto].
  - intros X. destruct (P2 (proj2 TI (or_introl X))) as [Y Z]. split; auto. intros f w [<-|J] W C; [destruct (TT _ W C); congruence|eapply Z; eauto].
  - intros X f w [<-|J] W C; [destruct (AA _ W C); congruence|eapply P3; eauto].
  - rewrite P4, TI. split.
    + intros [[X|X]|(f & w & J & Y)]; [now left|right; exists (v, t), (tolower dir); split; auto; now left|right; exists f, w; split; auto; now right].
    + intros [X|(f & w & [<-|J] & W & C)]; [auto| |right; eauto]. apply DET in C. subst w. auto.
  - rewrite P5, UP. split.
    + intros [[X|X]|(f & J & Y)]; [now left|right; exists (v, t); split; [now left|now rewrite <- X]|right; exists f; split; auto; now right].
    + intros [X|(f & [<-|J] & C)]; [auto| |right; eauto]. apply DET in C. auto.
  - intros [|x a] f b f' c w w' E I1 I2 C1 C2; cbn in E; injection E as <- ->; [|exact (P6 _ _ _ _ _ _ _ eq_refl I1 I2 C1 C2)]. destruct (TT _ I1 C1) as [_ X]. destruct (P2 X) as [_ Z]. eapply (Z f' w'); eauto. apply in_or_app. right; now left.
  - intros [|x a] f b f' c w w' E I1 I2 C1 C2; cbn in E; injection E as <- ->; [|exact (P7 _ _ _ _ _ _ _ eq_refl I1 I2 C1 C2)]. destruct (AA _ I1 C1) as [_ X]. eapply (P3 X f' w'); eauto. apply in_or_app. right; now left.
Qed.

Lemma conflict_err : forall sp name fs c,
  (do oc <- oc_fields sp fs (MkOC name None None None false None); need negb (is_some (oc_update oc) && negb (oc_has_target oc)) or EMissingOnConflictTarget; AOk oc) = AErr c ->
  conflict_fault (map fst sp) fs c.
Proof.
  intros sp name fs c H. apply abind_err in H. destruct H as [H|(oc & E & H)].
  - apply (oc_fields_err sp fs []) in H; auto; discriminate.
  - apply abind_err in H. destruct H as [H|(? & _ & H)]; [|discriminate]. apply ensure_err in H. destruct H as [H ->]. apply negb_false_iff, andb_prop in H. destruct H as [H1 H2]. apply negb_true_iff in H2.
    apply oc_fields_facts in E. destruct E as (_ & _ & _ & P4 & P5 & _). apply P5 in H1. destruct H1 as [H1|(f & I & C)]; [discriminate|].
    eapply af_no_target; eauto. intros f' w I' W C'. assert (oc_has_target oc = true) by (apply P4; right; eauto). congruence.
Qed.

Lemma conflict_no : forall sp name fs c oc, conflict_fault (map fst sp) fs c -> oc_fields sp fs (MkOC name None None None false None) = AOk oc ->
  negb (is_some (oc_update oc) && negb (oc_has_target oc)) = false.
Proof.
  intros sp name fs c oc F H. apply oc_fields_facts in H. destruct H as (P1 & _ & _ & P4 & P5 & P6 & P7).
  destruct F as [f I N X|a f b f' d w w' E I1 I2 C1 C2|a f b f' d w w' E I1 I2 C1 C2|f o c I C V F|f w s o I W C T N|f o c I C V F|f I C X].
  - destruct f as [v t]. destruct (P1 _ _ I N) as (w & W & C & _). now destruct (X w W).
  - destruct (P6 _ _ _ _ _ _ _ E I1 I2 C1 C2).
  - destruct (P7 _ _ _ _ _ _ _ E I1 I2 C1 C2).
  - destruct f as [v t]. destruct (P1 _ _ I (proj1 C)) as (w & W & C' & OK & _). pose proof (conflict_directive_det _ _ _ C C'). subst w. destruct (OK eq_refl c). rewrite (values_det _ _ _ _ (values_get v) V). exact F.
  - destruct f as [v t]. destruct (P1 _ _ I (proj1 C)) as (w' & W' & C' & _ & OK & _). pose proof (conflict_directive_det _ _ _ C C'). subst w'. destruct N. cbn [fst] in T. pose proof (OK W) as X. now rewrite (tag_first_of _ _ _ T) in X.
  - destruct f as [v t]. destruct (P1 _ _ I (proj1 C)) as (w & W & C' & _ & _ & OK). pose proof (conflict_directive_det _ _ _ C C'). subst w. destruct (OK eq_refl c). rewrite (values_det _ _ _ _ (values_get v) V). exact F.
  - apply negb_false_iff. rewrite (proj2 P5) by (right; eauto). cbn. apply negb_true_iff. destruct (oc_has_target oc) eqn:T; auto. destruct (proj1 P4 eq_refl) as [Y|(f' & w & I' & W & C')]; [discriminate|]. destruct (X f' w I' W C').
Qed.

Definition order_rest (sp : relspace) (desc : bool) (z : bytes) : ares (option OrderByTagItem) :=
  do (nl, val) <- match cut_first ":" z with
        | Some (a, b) =>
            if bytes_eqb b (B "nullsfirst") then AOk (NullsFirst, a)
            else if bytes_eqb b (B "nullslast") then AOk (NullsLast, a)
            else AErr EBadNullsOrderTagValue
        | None => AOk (NullsDefault, z)
        end;
  do id <- lift (parseColIdent sp val); AOk (Some (MkOrder id desc nl)).

Lemma order_text_run : forall sp x z, order_text x z -> exists d, order_tag sp x = order_rest sp d z.
Proof.
  intros sp x z (w & y & w' & -> & W & W' & T & N & Y). unfold order_tag. rewrite trim_space_eq; auto. destruct y as [|c r]; [congruence|].
  destruct Y as [Y|(Y & Z)].
  - injection Y as -> ->. exists true. reflexivity.
  - subst z. destruct (beq c "-") eqn:E; [apply beq_eq in E; subst c; now destruct (Z r)|]. exists false. reflexivity.
Qed.

Lemma order_text_exists : forall x, spaces x \/ exists z, order_text x z.
Proof.
  intros x. destruct (trim_space_split x) as (w & w' & W & W' & E & T). destruct (trim_space x) as [|c r] eqn:TS.
  - left. rewrite E. now apply Forall_app.
  - right. destruct (beq c "-") eqn:D.
    + apply beq_eq in D. subst c. exists r, w, ("-" :: r), w'. conjs; auto. discriminate.
    + exists (c :: r), w, (c :: r), w'. conjs; auto; [discriminate|]. right. split; auto. intros s X. injection X as -> _. now rewrite (proj2 (beq_eq _ _)) in D.
Qed.

Lemma order_rest_err : forall sp d z c, order_rest sp d z = AErr c ->
  (exists a b, z = a ++ ":" :: b /\ ~ In ":" a /\ b <> lit "nullsfirst" /\ b <> lit "nullslast" /\ c = EBadNullsOrderTagValue)
  \/ (exists a suf nl, z = a ++ suf /\ ~ In ":" a /\ nulls_suffix suf nl /\ column_fault (map fst sp) a c).
Proof.
  intros sp d z c H. unfold order_rest in H. destruct (cut_first ":" z) as [[a b]|] eqn:C.
  - pose proof (cut_first_some _ _ _ C) as Z. assert (NA : ~ In ":" a).
    { intros I. apply in_split in I. destruct I as (a1 & a2 & ->). clear H.
      assert (X : forall a1 s, exists p q, cut_first ":" (a1 ++ ":" :: s) = Some (p, q) /\ (List.length p <= List.length a1)%nat).
      { clear. induction a1 as [|x a1 IH]; intros s; cbn [app cut_first]; [exists [], s; cbn; auto|]. destruct (beq x ":"); [exists [], (a1 ++ ":" :: s); cbn; split; auto; lia|].
        destruct (IH s) as (p & q & -> & L). exists (x :: p), q. cbn. split; auto. lia. }
      rewrite Z in C. rewrite <- app_assoc in C. cbn [app] in C. destruct (X a1 (a2 ++ ":" :: b)) as (p & q & P & L). rewrite P in C. injection C as -> _. rewrite app_length in L. cbn in L. lia. }
    destruct (bytes_eqb b (B "nullsfirst")) eqn:B1.
    + apply bytes_eqb_eq in B1. right. cbn [abind] in H. apply abind_err in H. destruct H as [H|(? & _ & H)]; [|discriminate]. apply lift_err in H. destruct H as (xe & H & ->).
      exists a, (lit ":nullsfirst"), NullsFirst. subst. conjs; auto; [constructor|now apply col_err].
    + destruct (bytes_eqb b (B "nullslast")) eqn:B2.
      * apply bytes_eqb_eq in B2. right. cbn [abind] in H. apply abind_err in H. destruct H as [H|(? & _ & H)]; [|discriminate]. apply lift_err in H. destruct H as (xe & H & ->).
        exists a, (lit ":nullslast"), NullsLast. subst. conjs; auto; [constructor|now apply col_err].
      * left. injection H as <-. apply bytes_eqb_neq in B1, B2. exists a, b. conjs; auto.
  - apply cut_first_none_inv in C. right. cbn [abind] in H. apply abind_err in H. destruct H as [H|(? & _ & H)]; [|discriminate]. apply lift_err in H. destruct H as (xe & H & ->).
    exists z, [], NullsDefault. rewrite app_nil_r. conjs; auto; [constructor|now apply col_err].
Qed.

Lemma order_tags_err : forall sp tags c, order_tags sp tags = AErr c -> exists x z d, In x tags /\ order_text x z /\ order_rest sp d z = AErr c.
Proof.
  intros sp. induction tags as [|x tags IH]; intros c H; cbn [order_tags] in H; [discriminate|]. apply abind_err in H. destruct H as [H|(o & _ & H)].
  - destruct (order_text_exists x) as [S0|(z & Z)].
    + rewrite (proj2 (order_tag_ok sp x None)) in H by auto. discriminate.
    + destruct (order_text_run sp _ _ Z) as (d & R). exists x, z, d. conjs; auto; [now left|]. rewrite <- R. exact H.
  - apply abind_err in H. destruct H as [H|(l & _ & H)]; [|discriminate]. apply IH in H. destruct H as (y & z & d & I & R). exists y, z, d. split; auto. now right.
Qed.

Lemma order_tags_all : forall sp tags l, order_tags sp tags = AOk l -> forall x z, In x tags -> order_text x z -> exists d o, order_rest sp d z = AOk o.
Proof.
  intros sp. induction tags as [|x tags IH]; intros l H y z I Z; [destruct I|]. cbn [order_tags] in H. destruct (abind_ok _ _ _ H) as (o & E & K). destruct (abind_ok _ _ _ K) as (l' & E' & _).
  destruct I as [<-|I]; [|eauto]. destruct (order_text_run sp _ _ Z) as (d & R). rewrite R in E. eauto.
Qed.

Lemma order_rest_nulls : forall sp d a b o, ~ In ":" a -> b <> lit "nullsfirst" -> b <> lit "nullslast" -> order_rest sp d (a ++ ":" :: b) <> AOk o.
Proof.
  intros sp d a b o N B1 B2 H. unfold order_rest in H. rewrite cut_first_app in H; auto. apply bytes_eqb_neq in B1, B2. change lit with B in *. rewrite B1, B2 in H. discriminate.
Qed.

Lemma order_rest_column : forall sp d a suf nl c o, ~ In ":" a -> nulls_suffix suf nl -> column_fault (map fst sp) a c -> order_rest sp d (a ++ suf) <> AOk o.
Proof.
  intros sp d a suf nl c o N NS F H. assert (X : exists id, lift (parseColIdent sp a) = AOk id).
  { unfold order_rest in H. destruct NS.
    - rewrite app_nil_r, cut_first_none in H; auto. cbn [abind] in H. destruct (abind_ok _ _ _ H) as (id & E & _). eauto.
    - change (a ++ lit ":nullsfirst") with (a ++ ":" :: lit "nullsfirst") in H. rewrite cut_first_app in H; auto. change (bytes_eqb (lit "nullsfirst") (B "nullsfirst")) with true in H. cbv iota in H. cbn [abind] in H. destruct (abind_ok _ _ _ H) as (id & E & _). eauto.
    - change (a ++ lit ":nullslast") with (a ++ ":" :: lit "nullslast") in H. rewrite cut_first_app in H; auto. change (bytes_eqb (lit "nullslast") (B "nullsfirst")) with false in H. change (bytes_eqb (lit "nullslast") (B "nullslast")) with true in H. cbv iota in H. cbn [abind] in H. destruct (abind_ok _ _ _ H) as (id & E & _). eauto. }
  destruct X as (id & X). apply lift_ok, column_id_parse in X. eapply column_fault_no; eauto.
Qed.

Definition run (e : env) (q : qstate) (v : fvar) (t : gtype) (r : role) : ares qstate :=
  match r with
  | RWhere => analyzeWhereStruct e q v t
  | RJoin | RFrom | RUsing => analyzeJoinStruct e q v t
  | ROnConflict => analyzeOnConflictStruct e q v t
  | RResult => analyzeResultField e q v t
  | RLimit => analyzeLimit e q v t
  | ROffset => analyzeOffset e q v t
  | RRows => analyzeRowsAffectedField e q v t
  | RAll => analyzeAllDirective e q v t
  | RDefault => analyzeDefaultDirective e q v t
  | RForce => analyzeForceDirective e q v t
  | ROptional => analyzeOptionalDirective e q v t
  | RReturn => analyzeReturnDirective e q v t
  | ROrderBy => analyzeOrderByDirective e q v t
  | ROverride => analyzeOverrideDirective e q v t
  | RFilter => analyzeFilterField q v
  | RErrorHandler => analyzeErrorHandlerField q v (negb (isErrorHandler t))
  | RContext => analyzeContextField q v
  | RRel | RNone => AOk q
  end.

Lemma directive_run : forall e q v t d r, lookup (lower d) directive_roles = Some r -> analyzeQueryStructDirective e q v t d = run e q v t r.
Proof.
  intros e q v t d r H. unfold analyzeQueryStructDirective, directive_analyzers. unfold directive_roles in H. change lit with B in H.
  repeat (rewrite lookup_cons in H; rewrite lookup_cons; match type of H with context [bytes_eqb ?x ?y] => destruct (bytes_eqb x y) eqn:?; cbv iota in H |- * end;
    [injection H as <-; reflexivity|]). discriminate.
Qed.

Lemma directive_unknown : forall e q v t d, lookup (lower d) directive_roles = None -> analyzeQueryStructDirective e q v t d = AErr EIllegalQueryField.
Proof.
  intros e q v t d H. unfold analyzeQueryStructDirective, directive_analyzers. unfold directive_roles in H. change lit with B in H.
  repeat (rewrite lookup_cons in H; rewrite lookup_cons; match type of H with context [bytes_eqb ?x ?y] => destruct (bytes_eqb x y) eqn:?; cbv iota in H |- * end;
    [discriminate|]). reflexivity.
Qed.

Lemma name_run : forall e q v t r, lookup (tolower (v_name v)) field_roles = Some r -> analyzeQueryStructField e q v t = run e q v t r.
Proof.
  intros e q v t r H. unfold analyzeQueryStructField, field_analyzers. unfold field_roles in H. change lit with B in H.
  repeat (rewrite lookup_cons in H; rewrite lookup_cons; match type of H with context [bytes_eqb ?x ?y] => destruct (bytes_eqb x y) eqn:?; cbv iota in H |- * end;
    [injection H as <-; reflexivity|]). discriminate.
Qed.

Lemma name_other : forall v, lookup (tolower (v_name v)) field_roles = None -> lookup (tolower (v_name v)) field_analyzers = None.
Proof.
  intros v H. unfold field_analyzers. unfold field_roles in H. change lit with B in H.
  repeat (rewrite lookup_cons in H; rewrite lookup_cons; match type of H with context [bytes_eqb ?x ?y] => destruct (bytes_eqb x y) eqn:?; cbv iota in H |- * end;
    [discriminate|]). reflexivity.
Qed.

Lemma filter_type_no_err : forall t c, isFilterType t <> AErr c.
Proof. intros t c H. unfold isFilterType in H. destruct t; try discriminate. destruct (bytes_eqb _ _); [|discriminate]. unfold pkg_path in H. destruct (n_pkg n) as [[]|]; discriminate. Qed.

Lemma pass1_run : forall e q v t, tag_has (v_tag v) (B "rel") = false ->
  field_pass1 e q v t = APanic \/ field_pass1 e q v t = run e q v t (rolef v t)
  \/ (v_name v = lit "_" /\ rolef v t = RNone /\ (exists d, d <> [] /\ GetDirectiveName t = AOk d) /\ field_pass1 e q v t = AErr EIllegalQueryField).
Proof.
  intros e q v t N. unfold field_pass1, rolef. rewrite N. destruct (GetDirectiveName t) as [d|c|] eqn:G; cbn [abind]; [|now destruct (dir_name_no_err _ _ G)|now left].
  destruct (bytes_eqb (v_name v) (B "_")) eqn:U; cbn [andb].
  - apply bytes_eqb_eq in U. destruct (bytes_eqb d []) eqn:D; cbn [negb].
    + apply bytes_eqb_eq in D. subst d. right; left. unfold analyzeQueryStructField. rewrite U. reflexivity.
    + apply bytes_eqb_neq in D. destruct (lookup (lower d) directive_roles) as [r|] eqn:L.
      * right; left. now apply directive_run.
      * right; right. conjs; auto; [eauto|]. now apply directive_unknown.
  - destruct (lookup (tolower (v_name v)) field_roles) as [r|] eqn:L.
    + right; left. now apply name_run.
    + unfold analyzeQueryStructField. rewrite (name_other _ L), U. destruct (isFilterType t) as [[]|c|] eqn:F; cbn [abind]; [right; now left| |now destruct (filter_type_no_err _ _ F)|now left].
      right; left. destruct (isErrorHandler t) eqn:H1; cbn [orb]; [cbn [run]; now rewrite H1|]. destruct (isErrorInfoHandler t) eqn:H2; [cbn [run]; now rewrite H1|]. destruct (IsContext t); reflexivity.
Qed.

Lemma pass1_unknown : forall e q v t d, tag_has (v_tag v) (B "rel") = false -> v_name v = lit "_" -> d <> [] -> GetDirectiveName t = AOk d -> rolef v t = RNone ->
  field_pass1 e q v t = AErr EIllegalQueryField.
Proof.
  intros e q v t d N U D G R. unfold field_pass1, rolef in *. rewrite N, G in *. cbn [abind]. rewrite U in *. change (bytes_eqb (lit "_") (B "_")) with true in *. cbv iota in R.
  apply bytes_eqb_neq in D. rewrite D. cbn [andb negb]. destruct (lookup (lower d) directive_roles) as [r|] eqn:L.
  - subst r. apply lookup_in_pair in L. cbn in L. repeat destruct L as [L|L]; try discriminate; contradiction.
  - now apply directive_unknown.
Qed.

Ltac kinds := match goal with |- context [q_kind ?q] => destruct (q_kind q); cbn in *; try discriminate; try congruence; try tauto; repeat match goal with |- ~ _ => intros ? | H : _ \/ _ |- _ => destruct H end; try discriminate; try congruence; auto end.

Definition grouped (q : qstate) (earlier : list role) : Prop := forall g r, In g groups -> In r g -> (has q r = true <-> In r earlier).

Definition q_cols (q : qstate) : list text := map (fun f => c_col (fi_col f)) (rt_fields (q_reltype q)).

Definition bad (e : env) (q : qstate) (earlier : list role) (v : fvar) (t : gtype) (c : errc) : Prop :=
  field_fault (e_pkg e) (q_kind q) (rt_slice (q_reltype q)) (q_cols q) (map fst (q_sp q)) earlier v t c.

Lemma has_where_iff : forall q earlier, grouped q earlier -> (has_where q = true <-> exists r, In r earlier /\ In r wheres).
Proof.
  intros q earlier G. assert (A : forall r, In r wheres -> (has q r = true <-> In r earlier)) by (intros r; apply (G wheres r); now left).
  unfold has_where. rewrite !orb_true_iff. split.
  - intros [[H|H]|H]; [exists RAll|exists RWhere|exists RFilter]; (split; [apply A; cbn; auto|cbn; auto]).
  - intros (r & I & W). apply A in I; auto. cbn in W. destruct W as [<-|[<-|[<-|[]]]]; cbn in I; auto.
Qed.

Lemma has_output_iff : forall q earlier, grouped q earlier -> (has_output q = true <-> exists r, In r earlier /\ In r outputs).
Proof.
  intros q earlier G. assert (A : forall r, In r outputs -> (has q r = true <-> In r earlier)) by (intros r; apply (G outputs r); right; now left).
  unfold has_output. rewrite !orb_true_iff. split.
  - intros [[H|H]|H]; [exists RReturn|exists RResult|exists RRows]; (split; [apply A; cbn; auto|cbn; auto]).
  - intros (r & I & W). apply A in I; auto. cbn in W. destruct W as [<-|[<-|[<-|[]]]]; cbn in I; auto.
Qed.

Lemma where_allowed_err : forall e q earlier v t r c, grouped q earlier -> has_role v t r -> r = RWhere \/ r = RFilter -> where_allowed q = AErr c -> bad e q earlier v t c.
Proof.
  intros e q earlier v t r c G R RR H. assert (W : In r wheres) by (destruct RR; subst; cbn; auto). unfold where_allowed in H. apply abind_err in H. destruct H as [H|(? & _ & H)].
  - apply ensure_err in H. destruct H as [H ->]. eapply af_illegal; eauto. destruct RR; subst r; kinds.
  - apply abind_err in H. destruct H as [H|(? & _ & H)].
    + apply ensure_err in H. destruct H as [H ->]. apply negb_false_iff, andb_prop in H. destruct H as [H1 H2]. eapply af_slice; eauto. kinds.
    + apply ensure_err in H. destruct H as [H ->]. apply negb_false_iff in H. apply (has_where_iff _ _ G) in H. destruct H as (r' & I & W'). eapply af_wheres; eauto.
Qed.

Lemma output_allowed_err : forall e q earlier v t r c, grouped q earlier -> has_role v t r -> In r outputs -> output_allowed q = AErr c -> bad e q earlier v t c.
Proof.
  intros e q earlier v t r c G R W H. unfold output_allowed in H. apply abind_err in H. destruct H as [H|(? & _ & H)].
  - apply ensure_err in H. destruct H as [H ->]. eapply af_illegal; eauto. cbn in W. destruct W as [<-|[<-|[<-|[]]]]; kinds.
  - apply ensure_err in H. destruct H as [H ->]. apply negb_false_iff in H. apply (has_output_iff _ _ G) in H. destruct H as (r' & I & W'). eapply af_outputs; eauto.
Qed.

Lemma limit_err : forall e q earlier v t r c, has_role v t r -> In r [RLimit; ROffset] -> limit_value v t = AErr c -> bad e q earlier v t c.
Proof.
  intros e q earlier v t r c R I H. unfold limit_value in H. cbv zeta in H. pose proof (sql_tag_first v) as ST. apply abind_err in H. destruct H as [H|(name & _ & H)].
  - destruct (bytes_eqb (v_name v) (B "_")) eqn:U.
    + apply bytes_eqb_eq in U. apply abind_err in H. destruct H as [H|(? & _ & H)]; [|discriminate]. apply ensure_err in H. destruct H as [H ->]. apply negb_false_iff, bytes_eqb_eq in H. rewrite H in ST. eapply af_no_number; eauto.
    + apply bytes_eqb_neq in U. apply abind_err in H. destruct H as [H|(? & _ & H)]; [|discriminate]. apply ensure_err in H. destruct H as [H ->]. eapply af_integer; eauto. intros X. apply integer_spec in X. congruence.
  - destruct (tag_first (v_tag v) (B "sql")) as [|x s] eqn:T; [discriminate|]. assert (X : forall n, ~ (decimal (x :: s) n /\ (n < 2 ^ 64)%N)).
    { intros n X. apply parse_uint_decimal in X. rewrite X in H. discriminate. }
    assert (c = EBadUIntegerTagValue) by (destruct (parse_uint 10 64 (x :: s)); congruence). subst c. eapply af_number; eauto. discriminate.
Qed.

Lemma list_err : forall e q earlier v t r c, has_role v t r -> In r [RReturn; RForce; ROptional; RDefault] -> lift (parseColIdentList (q_sp q) (tag_get (v_tag v) (B "sql"))) = AErr c -> bad e q earlier v t c.
Proof.
  intros e q earlier v t r c R I H. apply lift_err in H. destruct H as (xe & H & ->). apply col_list_err in H. eapply af_list; eauto using values_get.
Qed.

Lemma cols_spec : forall q n, HasFieldWithColumn (q_reltype q) n = true <-> In n (q_cols q).
Proof.
  intros q n. unfold HasFieldWithColumn, q_cols. rewrite existsb_exists, in_map_iff. split.
  - intros (f & I & E). apply bytes_eqb_eq in E. eauto.
  - intros (f & E & I). exists f. split; auto. now apply bytes_eqb_eq.
Qed.

Lemma known_err : forall e q earlier v t r l c, has_role v t r -> In r [RReturn; RForce; ROptional] -> lift (parseColIdentList (q_sp q) (tag_get (v_tag v) (B "sql"))) = AOk l ->
  known_columns q l = AErr c -> bad e q earlier v t c.
Proof.
  intros e q earlier v t r l c R I L H. unfold known_columns in H. apply ensure_err in H. destruct H as [H ->]. apply lift_ok in L. apply col_list_ok in L.
  destruct L as [(_ & ->)|(ids & -> & N & F)]; [discriminate|]. cbn [l_items] in H.
  assert (X : exists s id, In s (tag_get (v_tag v) (B "sql")) /\ column_id (map fst (q_sp q)) s id /\ ~ In (c_col id) (q_cols q)).
  { clear N. induction F as [|s id o ids C F IH]; [discriminate|]. cbn [forallb] in H. apply andb_false_iff in H. destruct H as [H|H].
    - exists s, id. conjs; auto; [now left|]. intros Y. apply cols_spec in Y. congruence.
    - destruct (IH H) as (s' & id' & I1 & X). exists s', id'. split; auto. now right. }
  destruct X as (s & id & IS & CI & NC). eapply af_no_field; eauto using values_get.
  intros E. rewrite E in IS. destruct IS as [<-|[]]. apply column_id_parse in CI. discriminate CI.
Qed.

Lemma join_role_name : forall v t r, tag_has (v_tag v) (B "rel") = false -> rolef v t = r -> joins r -> 
  (r = RJoin /\ tolower (v_name v) = lit "join") \/ (r = RFrom /\ tolower (v_name v) = lit "from") \/ (r = RUsing /\ tolower (v_name v) = lit "using").
Proof.
  intros v t r N R J. unfold rolef in R. rewrite N in R. destruct (bytes_eqb (v_name v) (B "_")).
  - destruct (GetDirectiveName t) as [d| |]; try (subst r; destruct J as [J|[J|J]]; discriminate). destruct (lookup (lower d) directive_roles) as [r'|] eqn:L.
    + subst r'. apply lookup_in_pair in L. cbn in L. exfalso. destruct J as [->|[->| ->]]; repeat destruct L as [L|L]; try discriminate; contradiction.
    + subst r. destruct J as [J|[J|J]]; discriminate.
  - destruct (lookup (tolower (v_name v)) field_roles) as [r'|] eqn:L.
    + subst r'. apply lookup_in_pair in L. cbn in L. repeat destruct L as [L|L]; try (injection L as <- <-); auto; try (destruct J as [J|[J|J]]; discriminate). destruct L.
    + exfalso. destruct (isFilterType t) as [[]| |]; try (subst r; destruct J as [J|[J|J]]; discriminate).
      all: destruct (_ || _); [subst r; destruct J as [J|[J|J]]; discriminate|]; destruct (IsContext t); subst r; destruct J as [J|[J|J]]; discriminate.
Qed.

Lemma not_again : forall e q earlier v t r, grouped q earlier -> has_role v t r -> In r [RLimit; ROffset; RErrorHandler; RContext] -> has q r = true -> bad e q earlier v t EConflictingFieldOrDirective.
Proof.
  intros e q earlier v t r G R I H. eapply af_again; eauto. apply (G [r] r); [|now left|auto].
  cbn in I. destruct I as [<-|[<-|[<-|[<-|[]]]]]; cbn; auto 8.
Qed.

Lemma run_err : forall e q earlier v t r c, grouped q earlier -> tag_has (v_tag v) (B "rel") = false -> rolef v t = r -> has_role v t r ->
  run e q v t r = AErr c -> bad e q earlier v t c.
Proof.
  intros e q earlier v t r c G N RF R H. destruct r; cbn [run] in H; try discriminate H.
  - (* where *) unfold analyzeWhereStruct in H. apply abind_err in H. destruct H as [H|(? & _ & H)]; [eapply where_allowed_err; eauto|].
    destruct (GetStruct t) as [[n fs]|] eqn:GS.
    + rewrite where_struct_eq, GS in H. apply abind_err in H. destruct H as [H|(? & _ & H)]; [|discriminate].
      eapply where_loop_err in H; [|apply Nat.lt_succ_diag_r]. eapply af_where with (f := fo e n); eauto using get_struct_iff, fo_foreign.
    + injection H as <-. eapply af_struct with (r := RWhere); eauto using no_struct. cbn; auto.
  - (* join *) assert (J : joins RJoin) by (left; reflexivity). destruct (join_role_name _ _ _ N RF J) as [(_ & TN)|[(X & _)|(X & _)]]; try discriminate X.
    unfold analyzeJoinStruct in H. cbv zeta in H. rewrite TN in H.
    destruct (isSelect (q_kind q)) eqn:K; [|injection H as <-; apply af_illegal with (r := RJoin); auto; kinds]. cbn [abind ensure] in H.
    change (bytes_eqb (lit "join") (B "join")) with true in H. change (bytes_eqb (lit "join") (B "from")) with false in H. change (bytes_eqb (lit "join") (B "using")) with false in H. cbn [andb negb abind ensure] in H.
    destruct (GetStruct t) as [[n fs]|] eqn:GS; [|injection H as <-; eapply af_struct with (r := RJoin); eauto using no_struct; cbn; auto].
    apply abind_err in H. destruct H as [H|([] & _ & H)]; [|discriminate]. apply join_fields_err in H. unfold bare_of in H. cbn [j_name j_relation gone] in H. rewrite TN in H.
    eapply af_join with (r := RJoin) (bare := false); eauto using get_struct_iff. split; [discriminate|congruence].
  - (* from *) assert (J : joins RFrom) by (right; left; reflexivity). destruct (join_role_name _ _ _ N RF J) as [(X & _)|[(_ & TN)|(X & _)]]; try discriminate X.
    unfold analyzeJoinStruct in H. cbv zeta in H. rewrite TN in H.
    change (bytes_eqb (lit "from") (B "join")) with false in H. change (bytes_eqb (lit "from") (B "from")) with true in H. change (bytes_eqb (lit "from") (B "using")) with false in H. cbn [andb negb abind ensure] in H.
    destruct (is_update (q_kind q)) eqn:K; [|injection H as <-; apply af_illegal with (r := RFrom); auto; kinds]. cbn [abind negb ensure] in H.
    destruct (GetStruct t) as [[n fs]|] eqn:GS; [|injection H as <-; eapply af_struct with (r := RFrom); eauto using no_struct; cbn; auto].
    apply abind_err in H. destruct H as [H|([] & _ & H)]; [|discriminate]. apply join_fields_err in H. unfold bare_of in H. cbn [j_name j_relation gone] in H. rewrite TN in H.
    eapply af_join with (r := RFrom) (bare := true); eauto using get_struct_iff. split; auto. intros _; discriminate.
  - (* using *) assert (J : joins RUsing) by (right; right; reflexivity). destruct (join_role_name _ _ _ N RF J) as [(X & _)|[(X & _)|(_ & TN)]]; try discriminate X.
    unfold analyzeJoinStruct in H. cbv zeta in H. rewrite TN in H.
    change (bytes_eqb (lit "using") (B "join")) with false in H. change (bytes_eqb (lit "using") (B "from")) with false in H. change (bytes_eqb (lit "using") (B "using")) with true in H. cbn [andb negb abind ensure] in H.
    destruct (is_delete (q_kind q)) eqn:K; [|injection H as <-; apply af_illegal with (r := RUsing); auto; kinds]. cbn [abind negb ensure] in H.
    destruct (GetStruct t) as [[n fs]|] eqn:GS; [|injection H as <-; eapply af_struct with (r := RUsing); eauto using no_struct; cbn; auto 8].
    apply abind_err in H. destruct H as [H|([] & _ & H)]; [|discriminate]. apply join_fields_err in H. unfold bare_of in H. cbn [j_name j_relation gone] in H. rewrite TN in H.
    eapply af_join with (r := RUsing) (bare := true); eauto using get_struct_iff. split; auto. intros _; discriminate.
  - (* on conflict *) unfold analyzeOnConflictStruct in H. apply abind_err in H. destruct H as [H|(? & _ & H)].
    { apply ensure_err in H. destruct H as [H ->]. apply af_illegal with (r := ROnConflict); auto; kinds. }
    destruct (GetStruct t) as [[n fs]|] eqn:GS; [|injection H as <-; eapply af_struct with (r := ROnConflict); eauto using no_struct; cbn; auto 8].
    eapply af_conflict; eauto using get_struct_iff. apply conflict_err with (name := v_name v).
    destruct (oc_fields _ _ _) as [oc| |]; cbn [abind] in *; [|injection H as <-; reflexivity|discriminate]. destruct (negb _); cbn [abind ensure] in *; [discriminate|injection H as <-; reflexivity].
  - (* result *) unfold analyzeResultField in H. apply abind_err in H. destruct H as [H|(? & _ & H)]; [eapply output_allowed_err; eauto; cbn; auto|].
    apply abind_err in H. destruct H as [H|(? & _ & H)]; [|discriminate]. eapply af_result; eauto using rel_type_err.
  - (* limit *) unfold analyzeLimit in H. apply abind_err in H. destruct H as [H|(? & _ & H)].
    { apply ensure_err in H. destruct H as [H ->]. apply af_illegal with (r := RLimit); auto; kinds. }
    apply abind_err in H. destruct H as [H|(? & _ & H)].
    { apply ensure_err in H. destruct H as [H ->]. apply negb_false_iff in H. eapply (not_again e q earlier v t RLimit); eauto. cbn; auto. }
    apply abind_err in H. destruct H as [H|(? & _ & H)]; [|discriminate]. eapply (limit_err e q earlier v t RLimit); eauto. cbn; auto.
  - (* offset *) unfold analyzeOffset in H. apply abind_err in H. destruct H as [H|(? & _ & H)].
    { apply ensure_err in H. destruct H as [H ->]. apply af_illegal with (r := ROffset); auto; kinds. }
    apply abind_err in H. destruct H as [H|(? & _ & H)].
    { apply ensure_err in H. destruct H as [H ->]. apply negb_false_iff in H. eapply (not_again e q earlier v t ROffset); eauto. cbn; auto. }
    apply abind_err in H. destruct H as [H|(? & _ & H)]; [|discriminate]. eapply (limit_err e q earlier v t ROffset); eauto. cbn; auto.
  - (* rows *) unfold analyzeRowsAffectedField in H. apply abind_err in H. destruct H as [H|(? & _ & H)]; [eapply output_allowed_err; eauto; cbn; auto|].
    apply abind_err in H. destruct H as [H|(? & _ & H)]; [|discriminate]. apply ensure_err in H. destruct H as [H ->]. eapply af_integer; eauto. intros X. apply integer_spec in X. congruence.
  - (* all *) unfold analyzeAllDirective in H. apply abind_err in H. destruct H as [H|(? & _ & H)].
    { apply ensure_err in H. destruct H as [H ->]. apply af_illegal with (r := RAll); auto; kinds. }
    apply abind_err in H. destruct H as [H|(? & _ & H)].
    { apply ensure_err in H. destruct H as [H ->]. apply negb_false_iff, andb_prop in H. destruct H as [H1 H2]. eapply af_slice with (r := RAll); eauto; [cbn; auto|kinds]. }
    apply abind_err in H. destruct H as [H|(? & _ & H)]; [|discriminate]. apply ensure_err in H. destruct H as [H ->]. apply negb_false_iff in H. apply (has_where_iff _ _ G) in H. destruct H as (r' & I & W').
    eapply af_wheres with (r := RAll); eauto. cbn; auto.
  - (* default *) unfold analyzeDefaultDirective in H. apply abind_err in H. destruct H as [H|(? & _ & H)].
    { apply ensure_err in H. destruct H as [H ->]. apply af_illegal with (r := RDefault); auto; kinds. }
    apply abind_err in H. destruct H as [H|(? & _ & H)]; [|discriminate]. eapply (list_err e q earlier v t RDefault); eauto. cbn; auto.
  - (* force *) unfold analyzeForceDirective in H. apply abind_err in H. destruct H as [H|(? & _ & H)].
    { apply ensure_err in H. destruct H as [H ->]. apply af_illegal with (r := RForce); auto; kinds. }
    apply abind_err in H. destruct H as [H|(l & L & H)]; [eapply (list_err e q earlier v t RForce); eauto; cbn; auto|].
    apply abind_err in H. destruct H as [H|(? & _ & H)]; [|discriminate]. eapply (known_err e q earlier v t RForce); eauto. cbn; auto.
  - (* optional *) unfold analyzeOptionalDirective in H. apply abind_err in H. destruct H as [H|(? & _ & H)].
    { apply ensure_err in H. destruct H as [H ->]. apply af_illegal with (r := ROptional); auto; kinds. }
    apply abind_err in H. destruct H as [H|(l & L & H)]; [eapply (list_err e q earlier v t ROptional); eauto; cbn; auto|].
    apply abind_err in H. destruct H as [H|(? & _ & H)]; [|discriminate]. eapply (known_err e q earlier v t ROptional); eauto. cbn; auto.
  - (* return *) unfold analyzeReturnDirective in H. apply abind_err in H. destruct H as [H|(? & _ & H)].
    { apply ensure_err in H. destruct H as [H ->]. apply negb_false_iff in H. apply af_no_record; auto. unfold q_cols. destruct (rt_fields (q_reltype q)); [reflexivity|discriminate]. }
    apply abind_err in H. destruct H as [H|(? & _ & H)]; [eapply output_allowed_err; eauto; cbn; auto|].
    apply abind_err in H. destruct H as [H|(l & L & H)]; [eapply (list_err e q earlier v t RReturn); eauto; cbn; auto|].
    apply abind_err in H. destruct H as [H|(? & _ & H)]; [|discriminate]. eapply (known_err e q earlier v t RReturn); eauto. cbn; auto.
  - (* order by *) unfold analyzeOrderByDirective in H. cbv zeta in H. apply abind_err in H. destruct H as [H|(? & _ & H)].
    { apply ensure_err in H. destruct H as [H ->]. apply af_illegal with (r := ROrderBy); auto; kinds. }
    pose proof (values_get v) as V. apply abind_err in H. destruct H as [H|(? & _ & H)].
    { apply ensure_err in H. destruct H as [H ->]. apply negb_false_iff in H. destruct (tag_get (v_tag v) (B "sql")); [|discriminate]. now apply af_no_order. }
    apply abind_err in H. destruct H as [H|(? & _ & H)]; [|discriminate]. apply order_tags_err in H. destruct H as (x9 & z & d & I & Z & H). apply order_rest_err in H.
    destruct H as [(a & b & -> & NA & B1 & B2 & ->)|(a & suf & nl & -> & NA & NS & F)]; [eapply af_nulls; eauto|eapply af_order; eauto].
  - (* override *) unfold analyzeOverrideDirective in H. cbv zeta in H. apply abind_err in H. destruct H as [H|(? & _ & H)].
    { apply ensure_err in H. destruct H as [H ->]. apply af_illegal with (r := ROverride); auto; kinds. }
    destruct (bytes_eqb _ (B "system")) eqn:E1; [discriminate|]. destruct (bytes_eqb _ (B "user")) eqn:E2; [discriminate|]. injection H as <-. apply bytes_eqb_neq in E1, E2.
    eapply af_override; eauto using sql_tag_first.
  - (* filter *) unfold analyzeFilterField in H. apply abind_err in H. destruct H as [H|(? & _ & H)]; [|discriminate]. eapply where_allowed_err; eauto.
  - (* error handler *) unfold analyzeErrorHandlerField in H. apply abind_err in H. destruct H as [H|(? & _ & H)]; [|discriminate]. apply ensure_err in H. destruct H as [H ->]. apply negb_false_iff in H.
    eapply (not_again e q earlier v t RErrorHandler); eauto. cbn; auto.
  - (* context *) unfold analyzeContextField in H. apply abind_err in H. destruct H as [H|(? & _ & H)]; [|discriminate]. apply ensure_err in H. destruct H as [H ->]. apply negb_false_iff in H.
    eapply (not_again e q earlier v t RContext); eauto. cbn; auto.
Qed.

Lemma no_role : forall v t, plain_field v t -> rolef v t = RNone -> forall r, ~ has_role v t r.
Proof. intros v t P R r H. apply has_role_rolef in H; auto. destruct H as [H N]. congruence. Qed.

Lemma field_err : forall e q earlier v t c, plain_field v t -> grouped q earlier -> tag_has (v_tag v) (B "rel") = false -> field_pass1 e q v t = AErr c -> bad e q earlier v t c.
Proof.
  intros e q earlier v t c P G N H. destruct (pass1_run e q v t N) as [X|[X|(U & R & (d & D & GD) & X)]]; rewrite X in H; [discriminate| |].
  - destruct (rolef v t) eqn:RF; try (eapply run_err; eauto; rewrite <- RF; apply rolef_has_role; [exact P|rewrite RF; discriminate]).
  - injection H as <-. eapply af_unknown_directive; eauto using no_role. now apply directive_name.
Qed.

Lemma where_allowed_slice : forall q u, where_allowed q = AOk u -> ~ (q_kind q = KUpdate /\ rt_slice (q_reltype q) = true).
Proof.
  intros q u H [K S0]. unfold where_allowed in H. destruct (abind_ok _ _ _ H) as (? & _ & H1). destruct (abind_ok _ _ _ H1) as (? & E & _). apply ensure_ok in E. rewrite K, S0 in E. discriminate.
Qed.

Lemma limit_ok_facts : forall v t l, limit_value v t = AOk l ->
  (v_name v <> lit "_" -> integer_type t) /\ (v_name v = lit "_" -> tag_first (v_tag v) (B "sql") <> [])
  /\ (tag_first (v_tag v) (B "sql") <> [] -> exists n, decimal (tag_first (v_tag v) (B "sql")) n /\ (n < 2 ^ 64)%N).
Proof.
  intros v t l H. unfold limit_value in H. cbv zeta in H. destruct (abind_ok _ _ _ H) as (name & E & K). conjs.
  - intros N. apply bytes_eqb_neq in N. change (lit "_") with (B "_") in N. rewrite N in E. destruct (abind_ok _ _ _ E) as (? & X & _). apply ensure_ok in X. now apply integer_spec.
  - intros N. rewrite N in E. change (bytes_eqb (lit "_") (B "_")) with true in E. cbv iota in E. destruct (abind_ok _ _ _ E) as (? & X & _). apply ensure_ok, negb_true_iff in X. now apply bytes_eqb_neq.
  - intros N. destruct (tag_first (v_tag v) (B "sql")) as [|x s]; [congruence|]. destruct (parse_uint 10 64 (x :: s)) as [u| |] eqn:P; try discriminate. apply parse_uint_decimal in P. eauto.
Qed.

Lemma run_limit : forall e q v t r q', In r [RLimit; ROffset] -> run e q v t r = AOk q' -> exists l, limit_value v t = AOk l.
Proof.
  intros e q v t r q' I H. cbn in I. destruct I as [<-|[<-|[]]]; cbn [run] in H; unfold analyzeLimit, analyzeOffset in H;
    destruct (abind_ok _ _ _ H) as (? & _ & H1); destruct (abind_ok _ _ _ H1) as (? & _ & H2); destruct (abind_ok _ _ _ H2) as (l & L & _); eauto.
Qed.

Lemma run_list : forall e q v t r q', In r [RReturn; RForce; ROptional; RDefault] -> run e q v t r = AOk q' ->
  exists l, lift (parseColIdentList (q_sp q) (tag_get (v_tag v) (B "sql"))) = AOk l /\ (r <> RDefault -> exists u, known_columns q l = AOk u).
Proof.
  intros e q v t r q' I H. cbn in I. destruct I as [<-|[<-|[<-|[<-|[]]]]]; cbn [run] in H; unfold analyzeReturnDirective, analyzeForceDirective, analyzeOptionalDirective, analyzeDefaultDirective in H.
  - destruct (abind_ok _ _ _ H) as (? & _ & H1). destruct (abind_ok _ _ _ H1) as (? & _ & H2). destruct (abind_ok _ _ _ H2) as (l & L & H3). destruct (abind_ok _ _ _ H3) as (u & K & _). eauto.
  - destruct (abind_ok _ _ _ H) as (? & _ & H2). destruct (abind_ok _ _ _ H2) as (l & L & H3). destruct (abind_ok _ _ _ H3) as (u & K & _). eauto.
  - destruct (abind_ok _ _ _ H) as (? & _ & H2). destruct (abind_ok _ _ _ H2) as (l & L & H3). destruct (abind_ok _ _ _ H3) as (u & K & _). eauto.
  - destruct (abind_ok _ _ _ H) as (? & _ & H2). destruct (abind_ok _ _ _ H2) as (l & L & _). exists l. split; auto. congruence.
Qed.

Lemma run_join : forall e q v t r q', joins r -> run e q v t r = AOk q' -> exists n fs out, GetStruct t = Some (n, fs) /\ join_fields (q_sp q) (MkJoin (v_name v) None []) fs = AOk out.
Proof.
  intros e q v t r q' J H. assert (X : analyzeJoinStruct e q v t = AOk q') by (destruct J as [->|[->| ->]]; exact H). clear H. unfold analyzeJoinStruct in X. cbv zeta in X.
  destruct (abind_ok _ _ _ X) as (? & _ & H1). destruct (abind_ok _ _ _ H1) as (? & _ & H2). destruct (abind_ok _ _ _ H2) as (? & _ & H3).
  destruct (GetStruct t) as [[n fs]|]; [|discriminate]. destruct (abind_ok _ _ _ H3) as (out & E & _). exists n, fs, out. auto.
Qed.

Lemma forall2_in_left : forall A C (P : A -> C -> Prop) l r a, Forall2 P l r -> In a l -> exists c, In c r /\ P a c.
Proof. induction 1 as [|x y l r H F IH]; intros I; [destruct I|]. destruct I as [->|I]; [exists y; cbn; auto|]. destruct (IH I) as (c & J & K). exists c. cbn. auto. Qed.

Lemma field_no : forall e q earlier v t c q', plain_field v t -> grouped q earlier -> tag_has (v_tag v) (B "rel") = false -> bad e q earlier v t c -> field_pass1 e q v t <> AOk q'.
Proof.
  intros e q earlier v t c q' P G N F H.
  assert (EF : effect q q' (rolef v t)) by (destruct (step_effect _ _ _ _ _ H) as [[X _]|[_ X]]; [congruence|exact X]).
  assert (R : run e q v t (rolef v t) = AOk q') by (destruct (pass1_run e q v t N) as [X|[X|(_ & _ & _ & X)]]; congruence).
  assert (RO : forall r, has_role v t r -> rolef v t = r) by (intros r X; now apply has_role_rolef in X).
  assert (FREE : forall g r r', In g groups -> has_role v t r -> In r g -> In r' g -> In r' earlier -> False).
  { intros g r r' Ig Hr Ir Ir' E. apply RO in Hr. rewrite Hr in EF. pose proof (ef_free _ _ _ EF g r' Ig Ir Ir') as X. apply (proj2 (G g r' Ig Ir')) in E. congruence. }
  unfold bad in F. destruct F as [d U D DI NR|r Hr NL|r r' Hr Ir Er Ir'|r r' Hr Ir Er Ir'|r Hr Ir Er|r Hr Ir KU SL|r Hr Ir NS|fs f c Hr SO FO WF|r fs bare c Hr J SO BA JF|fs c Hr SO CF|c Hr RF
    |r Hr Ir NI|r o Hr Ir U ST|r s o Hr Ir ST NE ND|Hr V|o x a b Hr V Ix OT NA B1 B2|o x a suf nl c Hr V Ix OT NA NSF CF|s o Hr ST N1 N2|Hr NC|r o c Hr Ir V LF|r o s id Hr Ir V NE Is CI NC].
  - assert (RN : rolef v t = RNone).
    { destruct (rolef v t) eqn:RF; auto; exfalso; (apply (NR (rolef v t)); apply rolef_has_role; [exact P|rewrite RF; discriminate]). }
    apply directive_name in DI; auto. rewrite (pass1_unknown e q v t d N U D DI RN) in H. discriminate.
  - apply RO in Hr. rewrite Hr in EF. apply NL. apply (ef_legal _ _ _ EF).
  - eapply (FREE wheres); eauto. now left.
  - eapply (FREE outputs); eauto. right; now left.
  - eapply (FREE [r] r r); eauto; try (now left). cbn in Ir. destruct Ir as [<-|[<-|[<-|[<-|[]]]]]; cbn; auto 8.
  - apply RO in Hr. rewrite Hr in R. cbn in Ir. destruct Ir as [<-|[<-|[<-|[]]]]; cbn [run] in R.
    + unfold analyzeWhereStruct in R. destruct (abind_ok _ _ _ R) as (? & W & _). eapply where_allowed_slice; eauto.
    + unfold analyzeFilterField in R. destruct (abind_ok _ _ _ R) as (? & W & _). eapply where_allowed_slice; eauto.
    + unfold analyzeAllDirective in R. destruct (abind_ok _ _ _ R) as (? & _ & R1). destruct (abind_ok _ _ _ R1) as (? & E & _). apply ensure_ok in E. rewrite KU, SL in E. discriminate.
  - apply RO in Hr. rewrite Hr in R. assert (X : exists n fs, GetStruct t = Some (n, fs)).
    { cbn in Ir. destruct Ir as [<-|[<-|[<-|[<-|[<-|[]]]]]].
      - cbn [run] in R. unfold analyzeWhereStruct in R. destruct (abind_ok _ _ _ R) as (? & _ & R1). destruct (GetStruct t) as [[n fs]|]; [eauto|discriminate].
      - apply run_join in R; [|now left]. destruct R as (n & fs & out & X & _). eauto.
      - apply run_join in R; [|right; now left]. destruct R as (n & fs & out & X & _). eauto.
      - apply run_join in R; [|right; now right]. destruct R as (n & fs & out & X & _). eauto.
      - cbn [run] in R. unfold analyzeOnConflictStruct in R. destruct (abind_ok _ _ _ R) as (? & _ & R1). destruct (GetStruct t) as [[n fs]|]; [eauto|discriminate]. }
    destruct X as (n & fs & X). eapply NS. eapply get_struct_iff; eauto.
  - apply RO in Hr. rewrite Hr in R. cbn [run] in R. unfold analyzeWhereStruct in R. destruct (abind_ok _ _ _ R) as (? & _ & R1). destruct (GetStruct t) as [[n fs']|] eqn:GS; [|discriminate].
    pose proof (struct_of_det _ _ _ SO (get_struct_iff _ _ _ GS)). subst fs'. rewrite where_struct_eq, GS in R1. destruct (abind_ok _ _ _ R1) as (items & WL & _).
    pose proof (bool_iff _ _ _ FO (fo_foreign e t n fs GS)). subst f. eapply where_fault_no; eauto. reflexivity.
  - apply RO in Hr. rewrite Hr in R. apply run_join in R; auto. destruct R as (n & fs' & out & GS & JO). pose proof (struct_of_det _ _ _ SO (get_struct_iff _ _ _ GS)). subst fs'.
    eapply join_fault_no; eauto; [|reflexivity]. symmetry. eapply bool_iff; [exact BA|]. unfold bare_of. cbn [j_name]. destruct (join_role_name _ _ _ N Hr J) as [(-> & ->)|[(-> & ->)|(-> & ->)]]; cbn; split; congruence.
  - apply RO in Hr. rewrite Hr in R. cbn [run] in R. unfold analyzeOnConflictStruct in R. destruct (abind_ok _ _ _ R) as (? & _ & R1). destruct (GetStruct t) as [[n fs']|] eqn:GS; [|discriminate].
    pose proof (struct_of_det _ _ _ SO (get_struct_iff _ _ _ GS)). subst fs'. destruct (abind_ok _ _ _ R1) as (oc & O & R2). destruct (abind_ok _ _ _ R2) as (? & E & _). apply ensure_ok in E.
    rewrite (conflict_no _ _ _ _ _ CF O) in E. discriminate.
  - apply RO in Hr. rewrite Hr in R. cbn [run] in R. unfold analyzeResultField in R. destruct (abind_ok _ _ _ R) as (? & _ & R1). destruct (abind_ok _ _ _ R1) as (rt & E & _). eapply record_fault_no; eauto.
  - apply RO in Hr. rewrite Hr in R. destruct Ir as [->|[Ir U]].
    + cbn [run] in R. unfold analyzeRowsAffectedField in R. destruct (abind_ok _ _ _ R) as (? & _ & R1). destruct (abind_ok _ _ _ R1) as (? & E & _). apply ensure_ok, integer_spec in E. auto.
    + destruct (run_limit _ _ _ _ _ _ Ir R) as (l & L). apply limit_ok_facts in L. destruct L as (L & _). auto.
  - apply RO in Hr. rewrite Hr in R. destruct (run_limit _ _ _ _ _ _ Ir R) as (l & L). apply limit_ok_facts in L. destruct L as (_ & L & _). apply (L U). exact (tag_first_of _ _ _ ST).
  - apply RO in Hr. rewrite Hr in R. destruct (run_limit _ _ _ _ _ _ Ir R) as (l & L). apply limit_ok_facts in L. destruct L as (_ & _ & L). rewrite (tag_first_of _ _ _ ST) in L. destruct (L NE) as (n & X). eapply ND; eauto.
  - apply RO in Hr. rewrite Hr in R. cbn [run] in R. unfold analyzeOrderByDirective in R. cbv zeta in R. destruct (abind_ok _ _ _ R) as (? & _ & R1). destruct (abind_ok _ _ _ R1) as (? & E & _). apply ensure_ok in E.
    rewrite (values_det _ _ _ _ (values_get v) V) in E. discriminate.
  - apply RO in Hr. rewrite Hr in R. cbn [run] in R. unfold analyzeOrderByDirective in R. cbv zeta in R. destruct (abind_ok _ _ _ R) as (? & _ & R1). destruct (abind_ok _ _ _ R1) as (? & _ & R2). destruct (abind_ok _ _ _ R2) as (l & O & _).
    rewrite (values_det _ _ _ _ (values_get v) V) in O. destruct (order_tags_all _ _ _ O _ _ Ix OT) as (d & o' & X). eapply order_rest_nulls; eauto.
  - apply RO in Hr. rewrite Hr in R. cbn [run] in R. unfold analyzeOrderByDirective in R. cbv zeta in R. destruct (abind_ok _ _ _ R) as (? & _ & R1). destruct (abind_ok _ _ _ R1) as (? & _ & R2). destruct (abind_ok _ _ _ R2) as (l & O & _).
    rewrite (values_det _ _ _ _ (values_get v) V) in O. destruct (order_tags_all _ _ _ O _ _ Ix OT) as (d & o' & X). eapply order_rest_column; eauto.
  - apply RO in Hr. rewrite Hr in R. cbn [run] in R. unfold analyzeOverrideDirective in R. cbv zeta in R. destruct (abind_ok _ _ _ R) as (? & _ & R1). rewrite (tag_first_of _ _ _ ST) in R1.
    apply bytes_eqb_neq in N1, N2. change lit with B in *. rewrite N1, N2 in R1. discriminate.
  - apply RO in Hr. rewrite Hr in R. cbn [run] in R. unfold analyzeReturnDirective in R. destruct (abind_ok _ _ _ R) as (? & E & _). apply ensure_ok in E. unfold q_cols in NC. destruct (rt_fields (q_reltype q)); discriminate.
  - apply RO in Hr. rewrite Hr in R. destruct (run_list _ _ _ _ _ _ Ir R) as (l & L & _). rewrite (values_det _ _ _ _ (values_get v) V) in L. eapply list_no_fault; eauto.
  - apply RO in Hr. rewrite Hr in R. assert (Ir' : In r [RReturn; RForce; ROptional; RDefault]) by (cbn in *; tauto). destruct (run_list _ _ _ _ _ _ Ir' R) as (l & L & K). rewrite (values_det _ _ _ _ (values_get v) V) in L.
    destruct K as (u & K). { intros ->. cbn in Ir. repeat destruct Ir as [Ir|Ir]; try discriminate; contradiction. }
    unfold known_columns in K. apply ensure_ok in K. apply lift_ok, col_list_ok in L. destruct L as [(X & _)|(ids & -> & _ & F2)]; [contradiction|]. cbn [l_items] in K. rewrite forallb_forall in K.
    destruct (forall2_in_left _ _ _ _ _ _ F2 Is) as (id' & I' & CI'). pose proof (column_id_det _ _ _ _ CI CI'). subst id'. apply NC, cols_spec, K, I'.
Qed.

Lemma kind_spec : forall name k, plain name -> (query_kind name = AOk k <-> named_kind name k).
Proof.
  intros name k P. unfold query_kind. rewrite plain_tolower by auto. cbv zeta. split.
  - intros H. assert (X : forall w, firstn 6 (map lower_char name) = w -> exists a b, name = a ++ b /\ spelled a w).
    { intros w <-. exists (firstn 6 name), (skipn 6 name). split; [now rewrite firstn_skipn|]. unfold spelled. now rewrite firstn_map. }
    unfold named_kind. 
    destruct (bytes_eqb _ (B "insert")) eqn:E1. { apply bytes_eqb_eq in E1. injection H as <-. destruct (X _ E1) as (a & b & Y). exists (lit "insert"), a, b. split; [cbn; auto|exact Y]. }
    destruct (bytes_eqb _ (B "update")) eqn:E2. { apply bytes_eqb_eq in E2. injection H as <-. destruct (X _ E2) as (a & b & Y). exists (lit "update"), a, b. split; [cbn; auto|exact Y]. }
    destruct (bytes_eqb _ (B "select")) eqn:E3. { apply bytes_eqb_eq in E3. injection H as <-. destruct (X _ E3) as (a & b & Y). exists (lit "select"), a, b. split; [cbn; auto|exact Y]. }
    destruct (bytes_eqb _ (B "delete")) eqn:E4. { apply bytes_eqb_eq in E4. injection H as <-. destruct (X _ E4) as (a & b & Y). exists (lit "delete"), a, b. split; [cbn; auto 6|exact Y]. }
    discriminate.
  - intros (w & a & b & I & -> & SP). assert (F : List.length w = 6%nat -> firstn 6 (map lower_char (a ++ b)) = w).
    { intros L. rewrite map_app. unfold spelled in SP. unfold text, bytes in *. rewrite SP. rewrite firstn_app, L, PeanoNat.Nat.sub_diag, firstn_O, app_nil_r. rewrite <- L. apply firstn_all. }
    unfold kind_words in I. cbn [In] in I. destruct I as [I|[I|[I|[I|[]]]]]; injection I as <- <-; unfold text, bytes in *; rewrite F by reflexivity; reflexivity.
Qed.

Lemma counts_det : forall n t a b, counts n t a -> counts n t b -> a = b.
Proof.
  intros n t a b A C. unfold counts, spelled in *. destruct A as [(A & _ & ->)|[(A & _ & ->)|(A & _ & ->)]], C as [(C & _ & ->)|[(C & _ & ->)|(C & _ & ->)]]; auto; unfold text, bytes in *; rewrite A in C; discriminate.
Qed.

Lemma counts_named : forall n t k, counts n t k -> n <> lit "_".
Proof. intros n t k C ->. destruct C as [(C & _)|[(C & _)|(C & _)]]; discriminate. Qed.

Lemma counted : forall v t, plain (v_name v) ->
  if (bytes_eqb (lower (v_name v)) (B "count") && isIntegerType t)%bool then counts (v_name v) t KSelectCount
  else if (bytes_eqb (lower (v_name v)) (B "exists") && isBoolType t)%bool then counts (v_name v) t KSelectExists
  else if (bytes_eqb (lower (v_name v)) (B "notexists") && isBoolType t)%bool then counts (v_name v) t KSelectNotExists
  else forall k, ~ counts (v_name v) t k.
Proof.
  intros v t PV. pose proof (and_spec (v_name v) (B "count") _ _ PV (integer_spec t)) as C1. pose proof (and_spec (v_name v) (B "exists") _ _ PV (bool_spec t)) as C2.
  pose proof (and_spec (v_name v) (B "notexists") _ _ PV (bool_spec t)) as C3.
  destruct (bytes_eqb (lower (v_name v)) (B "count") && isIntegerType t)%bool. { left. destruct C1 as [C1 _]. destruct (C1 eq_refl). auto. }
  destruct (bytes_eqb (lower (v_name v)) (B "exists") && isBoolType t)%bool. { right. left. destruct C2 as [C2 _]. destruct (C2 eq_refl). auto. }
  destruct (bytes_eqb (lower (v_name v)) (B "notexists") && isBoolType t)%bool. { right. right. destruct C3 as [C3 _]. destruct (C3 eq_refl). auto. }
  intros k' [(A & A' & _)|[(A & A' & _)|(A & A' & _)]]; [assert (X := proj2 C1 (conj A A'))|assert (X := proj2 C2 (conj A A'))|assert (X := proj2 C3 (conj A A'))]; discriminate X.
Qed.

Lemma lower_blank : forall n, plain n -> (bytes_eqb (lower n) (B "_") = true <-> n = lit "_").
Proof.
  intros n P. rewrite bytes_eqb_eq, plain_lower by auto. split; [|intros ->; reflexivity]. intros U.
  destruct n as [|c [|]]; try discriminate U. injection U as U. unfold lower_char in U. revert U.
  destruct ((N_of_ascii "A" <=? N_of_ascii c) && (N_of_ascii c <=? N_of_ascii "Z"))%N eqn:R; [|now intros ->]. intros X. exfalso.
  apply andb_prop in R. destruct R as [R1 R2]. apply N.leb_le in R1, R2. cbn in R1, R2. apply (f_equal N_of_ascii) in X. rewrite N_ascii_embedding in X by lia. cbn in X. lia.
Qed.

Lemma rel_dir : forall v t isd, plain (v_name v) -> (if bytes_eqb (lower (v_name v)) (B "_") then IsDirective (B "Relation") t else AOk false) = AOk isd ->
  (isd = true <-> v_name v = lit "_" /\ directive t (lit "Relation")).
Proof.
  intros v t isd P H. pose proof (lower_blank _ P) as L. destruct (bytes_eqb (lower (v_name v)) (B "_")).
  - pose proof (IsDirective_spec _ _ _ H) as DS. change (lit "Relation") with (B "Relation"). tauto.
  - injection H as <-. split; [discriminate|]. intros [V _]. apply L in V. discriminate.
Qed.

Lemma rel_dir_no_err : forall v t c, (if bytes_eqb (lower (v_name v)) (B "_") then IsDirective (B "Relation") t else AOk false) <> AErr c.
Proof.
  intros v t c. destruct (bytes_eqb _ _); [|discriminate]. unfold IsDirective, pkg_path. destruct t; try discriminate. destruct (bytes_eqb _ _); [|discriminate]. destruct (n_pkg n) as [[p pn]|]; discriminate.
Qed.

Definition four (k : qkind) : Prop := k = KInsert \/ k = KUpdate \/ k = KSelect \/ k = KDelete.

Lemma four_named : forall name k, named_kind name k -> four k.
Proof. intros name k (w & a & b & I & _). cbn in I. destruct I as [I|[I|[I|[I|[]]]]]; injection I as _ <-; unfold four; auto. Qed.

Lemma rel_value_first : forall v, rel_value v (tag_first (v_tag v) (B "rel")).
Proof.
  intros v. exists (tag_get (v_tag v) (B "rel")). split; [|reflexivity]. unfold values, tag_get. change (B "rel") with (lit "rel"). destruct (lookup (lit "rel") (v_tag v)) eqn:L.
  - left. now apply tag_value_lookup.
  - right. split; auto. intros T. apply tagged_has in T. unfold tag_has in T. rewrite L in T. discriminate.
Qed.

Lemma rel_value_det : forall v a b, rel_value v a -> rel_value v b -> a = b.
Proof. intros v a b (x & X & ->) (y & Y & ->). now rewrite (values_det _ _ _ _ X Y). Qed.

Lemma add_first : forall rid sp, addToRelSpace [] rid = inl sp -> map fst sp = [ref_name rid].
Proof. intros rid sp A. apply addToRelSpace_spec in A. destruct A as [-> _]. reflexivity. Qed.

Lemma rel_field_err : forall e k v t c, plain (v_name v) -> four k -> analyzeQueryStructRelField e (new_query k) v t = AErr c ->
  exists s, rel_value v s /\ (relation_fault [] s c \/ exists rid, relation_id s rid /\ relation_part_fault (e_pkg e) k v t [ref_name rid] c).
Proof.
  intros e k v t c P K H. exists (tag_first (v_tag v) (B "rel")). split; [apply rel_value_first|]. unfold analyzeQueryStructRelField in H. cbv zeta in H. cbn [q_rel new_query is_some negb q_sp] in H.
  apply abind_err in H. destruct H as [H|(? & _ & H)]. { apply ensure_err in H. destruct H as [H _]. discriminate. }
  apply abind_err in H. destruct H as [H|(rid & R & H)]. { left. apply (rel_err []). now rewrite H. }
  apply abind_err in H. destruct H as [H|(sp & A & H)]. { left. apply (rel_err []). now rewrite R. }
  right. apply lift_ok, rel_id_spec in R. apply lift_ok in A. pose proof (add_first _ _ A) as M. exists rid. split; auto.
  pose proof (counted v t P) as CN. cbn [set_sp_ q_kind new_query] in H.
  destruct (bytes_eqb (lower (v_name v)) (B "count") && isIntegerType t)%bool. { apply abind_err in H. destruct H as [H|(? & _ & H)]; [|discriminate]. apply ensure_err in H. destruct H as [H ->]. eapply af_not_select; eauto. intros ->. discriminate. }
  destruct (bytes_eqb (lower (v_name v)) (B "exists") && isBoolType t)%bool. { apply abind_err in H. destruct H as [H|(? & _ & H)]; [|discriminate]. apply ensure_err in H. destruct H as [H ->]. eapply af_not_select; eauto. intros ->. discriminate. }
  destruct (bytes_eqb (lower (v_name v)) (B "notexists") && isBoolType t)%bool. { apply abind_err in H. destruct H as [H|(? & _ & H)]; [|discriminate]. apply ensure_err in H. destruct H as [H ->]. eapply af_not_select; eauto. intros ->. discriminate. }
  apply abind_err in H. destruct H as [H|(isd & D & H)]; [now apply rel_dir_no_err in H|]. apply rel_dir in D; auto. destruct isd.
  - apply abind_err in H. destruct H as [H|(? & _ & H)]; [|discriminate]. apply ensure_err in H. destruct H as [H ->]. destruct (proj1 D eq_refl). apply af_not_delete; auto. intros ->. discriminate.
  - apply abind_err in H. destruct H as [H|(rt & RT & H)].
    + apply rel_type_err in H. rewrite M in H. apply af_record_type; auto. intros X. apply D in X. discriminate.
    + apply abind_err in H. destruct H as [H|(? & _ & H)]; [|discriminate]. apply ensure_err in H. destruct H as [H ->]. apply negb_false_iff, andb_prop in H. destruct H as [H1 H2].
      apply rel_type_spec in RT. destruct RT as [n fs h f l X1 X2 X3 X4 X5 X6 X7 X8 X9 X10 X11]. eapply af_iterator; eauto. now apply X9. destruct k; try discriminate; auto.
Qed.

Lemma col_names : forall l l', Forall2 column_field l l' -> map (fun f => c_col (fi_col f)) l' = map (fun x => snd (snd x)) l.
Proof. induction 1 as [|[[p v] [q n]] f l l' H F IH]; auto. cbn [map]. destruct H as (_ & _ & _ & _ & -> & _). cbn [c_col snd]. now f_equal. Qed.

Lemma rel_field_ok : forall e k v t q, plain (v_name v) -> four k -> analyzeQueryStructRelField e (new_query k) v t = AOk q ->
  exists s rid, rel_value v s /\ relation_id s rid /\ map fst (q_sp q) = [ref_name rid]
   /\ relation_part (e_pkg e) k v t [ref_name rid] (q_kind q) (rt_slice (q_reltype q)) (q_cols q).
Proof.
  intros e k v t q P K H. exists (tag_first (v_tag v) (B "rel")). unfold analyzeQueryStructRelField in H. cbv zeta in H. cbn [q_rel new_query is_some negb q_sp] in H.
  destruct (abind_ok _ _ _ H) as (? & _ & H1). clear H. destruct (abind_ok _ _ _ H1) as (rid & R & H). clear H1. destruct (abind_ok _ _ _ H) as (sp & A & H1). clear H. rename H1 into H.
  apply lift_ok, rel_id_spec in R. apply lift_ok in A. pose proof (add_first _ _ A) as M. exists rid. split; [apply rel_value_first|]. split; auto.
  pose proof (counted v t P) as CN. cbn [set_sp_ q_kind new_query] in H.
  destruct (bytes_eqb (lower (v_name v)) (B "count") && isIntegerType t)%bool. { destruct (abind_ok _ _ _ H) as (? & X & H1). apply ensure_ok in X. injection H1 as <-. split; [exact M|]. apply af_counts; auto. destruct k; try discriminate; auto. }
  destruct (bytes_eqb (lower (v_name v)) (B "exists") && isBoolType t)%bool. { destruct (abind_ok _ _ _ H) as (? & X & H1). apply ensure_ok in X. injection H1 as <-. split; [exact M|]. apply af_counts; auto. destruct k; try discriminate; auto. }
  destruct (bytes_eqb (lower (v_name v)) (B "notexists") && isBoolType t)%bool. { destruct (abind_ok _ _ _ H) as (? & X & H1). apply ensure_ok in X. injection H1 as <-. split; [exact M|]. apply af_counts; auto. destruct k; try discriminate; auto. }
  destruct (abind_ok _ _ _ H) as (isd & D & H1). clear H. rename H1 into H. apply rel_dir in D; auto. destruct isd.
  - destruct (abind_ok _ _ _ H) as (? & X & H1). apply ensure_ok in X. injection H1 as <-. split; [exact M|]. destruct (proj1 D eq_refl). apply af_relation; auto. destruct k; try discriminate; auto.
  - destruct (abind_ok _ _ _ H) as (rt & RT & H1). clear H. destruct (abind_ok _ _ _ H1) as (? & X & H). apply ensure_ok in X. injection H as <-. split; [exact M|].
    apply rel_type_spec in RT. destruct RT as [n fs h f l X1 X2 X3 X4 X5 X6 X7 X8 X9 X10 X11]. unfold q_cols. cbn [q_reltype set_rel_ set_sp_ q_rel q_kind new_query rf_type].
    rewrite (col_names _ _ X4), X6. rewrite M in X3. eapply af_record; eauto.
    + intros Y. apply D in Y. discriminate.
    + intros Y. apply X9 in Y. rewrite Y in X. destruct K as [->|[->|[->| ->]]]; try discriminate; auto.
Qed.

Lemma columns_det : forall e (sp : relspace) f fs l l', columns (e_pkg e) (map fst sp) f [] [] fs l -> columns (e_pkg e) (map fst sp) f [] [] fs l' ->
  map (fun x => snd (snd x)) l = map (fun x => snd (snd x)) l'.
Proof.
  intros e sp f fs l l' A C. apply fields_complete in A, C. destruct A as (x & A1 & A2), C as (y & C1 & C2). rewrite A1 in C1. injection C1 as <-. clear A1. revert l' C2.
  induction A2 as [|a o l x H F IH]; intros l' C2; inversion C2 as [|b o' l2 x' H' F' E1 E2]; subst; auto. cbn [map]. rewrite (IH _ F'). f_equal.
  destruct a as [[p v] [q n]], b as [[p' v'] [q' n']]. destruct H as (_ & _ & _ & _ & H & _), H' as (_ & _ & _ & _ & H' & _). cbn [snd] in *. congruence.
Qed.

Lemma record_of_det : forall pkg t n fs h n' fs' h', record_of pkg t n fs h -> record_of pkg t n' fs' h' -> n = n' /\ fs = fs' /\ h = h'.
Proof.
  intros pkg t n fs h n' fs' h' A B0. 
  destruct A; inversion B0; subst; unfold maybe_named in *;
  repeat match goal with X : _ \/ _ |- _ => destruct X as [X|X] | X : exists _, _ |- _ => destruct X end; subst; try discriminate;
  repeat match goal with X : TNamed _ _ = TNamed _ _ |- _ => injection X; clear X; intros; subst | X : @eq gtype _ _ |- _ => progress (injection X; clear X; intros; subst) end; try discriminate;
  repeat match goal with X : element _ _ _ _ |- _ => inversion X; clear X; subst end; try discriminate; auto.
Qed.

Lemma part_det : forall e (sp : relspace) k v t k1 s1 c1 k2 s2 c2, relation_part (e_pkg e) k v t (map fst sp) k1 s1 c1 -> relation_part (e_pkg e) k v t (map fst sp) k2 s2 c2 ->
  k1 = k2 /\ s1 = s2 /\ c1 = c2.
Proof.
  intros e sp k v t k1 s1 c1 k2 s2 c2 A C. destruct A as [k1 K1 N1|K1 V1 D1|n fs h f l N1 V1 R1 F1 L1 I1], C as [k2 K2 N2|K2 V2 D2|n' fs' h' f' l' N2 V2 R2 F2 L2 I2].
  - rewrite (counts_det _ _ _ _ N1 N2). auto.
  - congruence.
  - now apply N2 in N1.
  - congruence.
  - auto.
  - destruct V2. auto.
  - now apply N1 in N2.
  - destruct V1. auto.
  - destruct (record_of_det _ _ _ _ _ _ _ _ R1 R2) as (<- & <- & <-). pose proof (bool_iff _ _ _ F1 F2). subst f'. rewrite (columns_det _ _ _ _ _ _ L1 L2). auto.
Qed.

Lemma part_no_fault : forall pkg sc k v t k' s cs c, relation_part pkg k v t sc k' s cs -> ~ relation_part_fault pkg k v t sc c.
Proof.
  intros pkg sc k v t k1 s1 c1 c A C. destruct A as [k1 K1 N1|K1 V1 D1|n fs h f l N1 V1 R1 F1 L1 I1], C as [k2 K2 N2|K2 V2 D2|n' fs' h' N2 R2 H2 K2|c N2 V2 R2].
  - congruence.
  - now apply counts_named in N1.
  - now apply N2 in N1.
  - now apply N2 in N1.
  - now apply counts_named in N2.
  - congruence.
  - destruct K2; congruence.
  - destruct V2. auto.
  - now apply N1 in N2.
  - destruct V1. auto.
  - destruct (record_of_det _ _ _ _ _ _ _ _ R1 R2) as (<- & <- & <-). destruct (I1 H2), K2; congruence.
  - destruct R2 as [ms a b c M R|ps rs M R|M1 M2 R|n' fs' h' f' c R F C]; try now apply (R n fs h).
    destruct (record_of_det _ _ _ _ _ _ _ _ R1 R) as (<- & <- & <-). pose proof (bool_iff _ _ _ F1 F). subst f'. eapply columns_fault_no; eauto.
Qed.

Lemma pass1_rel : forall e q v t, tag_has (v_tag v) (B "rel") = true -> field_pass1 e q v t = AOk q.
Proof. intros e q v t H. unfold field_pass1. now rewrite H. Qed.

Lemma pass_err : forall e fs q c, field_pass e q fs = AErr c -> exists before v t after q', fs = before ++ (v, t) :: after /\ field_pass e q before = AOk q' /\ field_pass1 e q' v t = AErr c.
Proof.
  induction fs as [|[v t] fs IH]; intros q c H; [discriminate|]. cbn [field_pass] in H. apply abind_err in H. destruct H as [H|(q1 & E & H)].
  - exists [], v, t, fs, q. auto.
  - destruct (IH _ _ H) as (b & v' & t' & a & q' & -> & E1 & E2). exists ((v, t) :: b), v', t', a, q'. conjs; auto. cbn [field_pass]. now rewrite E.
Qed.

Lemma pass_at : forall e before v t after q q', field_pass e q (before ++ (v, t) :: after) = AOk q' -> exists q1 q2, field_pass e q before = AOk q1 /\ field_pass1 e q1 v t = AOk q2.
Proof.
  induction before as [|[v0 t0] b IH]; intros v t after q q' H; cbn [app field_pass] in H; destruct (abind_ok _ _ _ H) as (q1 & E & H1).
  - exists q, q1. auto.
  - destruct (IH _ _ _ _ _ H1) as (q2 & q3 & E1 & E2). exists q2, q3. cbn [field_pass]. rewrite E. auto.
Qed.

Lemma same_iff : forall g r r', In g groups -> In r g -> (same r' r = true <-> r' = r).
Proof. intros g r r' G I. cbn in G. destruct G as [<-|[<-|[<-|[<-|[<-|[<-|[]]]]]]]; cbn in I; repeat destruct I as [<-|I]; try contradiction; destruct r'; cbn; split; congruence. Qed.

Lemma fresh_has : forall e k v t q g r, analyzeQueryStructRelField e (new_query k) v t = AOk q -> In g groups -> In r g -> has q r = false.
Proof.
  intros e k v t q g r H G I. apply rel_field_effect in H. destruct H as (_ & _ & H).
  cbn in G. destruct G as [<-|[<-|[<-|[<-|[<-|[<-|[]]]]]]]; cbn in I; repeat destruct I as [<-|I]; try contradiction; rewrite H; try discriminate; reflexivity.
Qed.

Lemma pass_grouped : forall e k v t q fs q', analyzeQueryStructRelField e (new_query k) v t = AOk q -> field_pass e q fs = AOk q' -> grouped q' (map snd (rolel fs)).
Proof.
  intros e k v t q fs q' H F g r G I. apply pass_effect in F. destruct F as (_ & _ & F & _). rewrite F.
  - rewrite (fresh_has _ _ _ _ _ _ _ H G I). cbn [orb]. rewrite existsb_exists, in_map_iff. split; intros (x & A1 & A2); exists x.
    + split; auto. now apply (same_iff g r).
    + split; auto. now apply (same_iff g r).
  - cbn in G. destruct G as [<-|[<-|[<-|[<-|[<-|[<-|[]]]]]]]; cbn in I; repeat destruct I as [<-|I]; try contradiction; discriminate.
Qed.

Lemma scope_relation : forall s k, scope_name s k -> exists rid, relation_id s rid /\ k = ref_name rid.
Proof.
  intros s k (q & n & a & -> & N & Q & A). exists (MkRel n a q). unfold relation_id, ref_name. cbn [r_name r_alias r_qual].
  destruct A as [(-> & ->)|(A & ->)]; conjs; auto. destruct a; auto. apply name_nonempty in A. congruence.
Qed.

Lemma join_names_det : forall fs a b, join_names fs a -> join_names fs b -> a = b.
Proof.
  intros fs a b A. revert b. induction A as [|v t fs l S0 A IH|v t fs l s o k S0 T N A IH]; intros b C; inversion C; subst; auto; try contradiction.
  tagdet. match goal with X : scope_name ?x ?a, Y : scope_name ?x ?b |- ?a :: _ = ?b :: _ => destruct (scope_relation _ _ X) as (r1 & R1 & ->); destruct (scope_relation _ _ Y) as (r2 & R2 & ->) end.
  rewrite (relation_id_det _ _ _ R1 R2). f_equal. auto.
Qed.

Lemma joined_names_det : forall l a b, joined_names l a -> joined_names l b -> a = b.
Proof.
  intros l a b A. revert b. induction A as [|v t r l ks J A IH|v t r l ks fs js J SO JN A IH]; intros b C; inversion C; subst; auto; try contradiction.
  match goal with X : struct_of t ?f |- _ => pose proof (struct_of_det _ _ _ SO X); subst end. f_equal; eauto using join_names_det.
Qed.

Lemma values_first : forall v s, tagged v (lit "rel") -> rel_value v s -> s <> [] -> exists o, tag_value (v_tag v) (lit "rel") (s :: o).
Proof. intros v s T (o & [V|(-> & N)] & ->) NE; [|contradiction]. destruct o as [|x o]; [now destruct NE|]. exists o. exact V. Qed.

Lemma relation_nonempty : forall rid, ~ relation_id [] rid.
Proof.
  intros rid (R & N & _). apply name_nonempty in N. destruct (r_qual rid); [|discriminate]. cbn [qualified] in R. destruct (r_name rid); [congruence|]. destruct (r_alias rid); discriminate.
Qed.

Lemma relation_scope : forall s rid, relation_id s rid -> scope_name s (ref_name rid).
Proof.
  intros s rid (-> & N & Q & A). exists (r_qual rid), (r_name rid), (r_alias rid). conjs; auto. unfold ref_name. destruct (r_alias rid) as [|c a]; [now left|]. right. split; auto. destruct A; [discriminate|auto].
Qed.

Lemma at_scope : forall e k rv rt s rid q0 fs before q, In (rv, rt) fs -> tagged rv (lit "rel") -> rel_value rv s -> relation_id s rid -> map fst (q_sp q0) = [ref_name rid] ->
  analyzeQueryStructRelField e (new_query k) rv rt = AOk q0 -> plain_names before -> field_pass e q0 before = AOk q -> scope_at fs before (map fst (q_sp q)).
Proof.
  intros e k rv rt s rid q0 fs before q I T V R M H P F. apply pass_scope in F. destruct F as (ks & J & E & _).
  destruct (values_first rv s T V) as (o & TV). { intros ->. now apply relation_nonempty in R. }
  exists rv, rt, s, o, (ref_name rid), (rolel before), ks. conjs; auto using relation_scope, rolel_roles. rewrite E, M. reflexivity.
Qed.

Lemma scope_at_det : forall e k rv rt s rid q0 fs before q sc, (forall v t, In (v, t) fs -> tagged v (lit "rel") -> v = rv /\ t = rt) -> rel_value rv s -> relation_id s rid -> map fst (q_sp q0) = [ref_name rid] ->
  analyzeQueryStructRelField e (new_query k) rv rt = AOk q0 -> plain_names before -> field_pass e q0 before = AOk q -> scope_at fs before sc -> sc = map fst (q_sp q).
Proof.
  intros e k rv rt s rid q0 fs before q sc U V R M H P F (v & t & s' & o & k' & l & ks & I & TV & SN & RL & JN & ->). apply pass_scope in F. destruct F as (ks' & J & -> & _).
  assert (T : tagged v (lit "rel")) by (eexists; exact TV). destruct (U _ _ I T) as [-> ->]. assert (V' : rel_value rv s') by (exists (s' :: o); split; [now left|reflexivity]).
  pose proof (rel_value_det _ _ _ V V'). subst s'. destruct (scope_relation _ _ SN) as (r' & R' & ->). rewrite (relation_id_det _ _ _ R R') in M. rewrite M.
  rewrite (roles_rolel _ _ P RL) in JN. rewrite (joined_names_det _ _ _ J JN). reflexivity.
Qed.

Lemma rel_pass_err : forall e k fs c, rel_pass e (new_query k) fs = AErr c ->
  exists a v t b, fs = a ++ (v, t) :: b /\ tag_has (v_tag v) (B "rel") = true
    /\ (analyzeQueryStructRelField e (new_query k) v t = AErr c
        \/ c = EConflictingRelTag /\ exists b1 f b2, b = b1 ++ f :: b2 /\ tag_has (v_tag (fst f)) (B "rel") = true).
Proof.
  intros e k. assert (AGAIN : forall fs q c, is_some (q_rel q) = true -> rel_pass e q fs = AErr c -> c = EConflictingRelTag /\ exists b1 f b2, fs = b1 ++ f :: b2 /\ tag_has (v_tag (fst f)) (B "rel") = true).
  { induction fs as [|[v t] fs IH]; intros q c S0 H; [discriminate|]. cbn [rel_pass] in H. destruct (tag_has (v_tag v) (B "rel")) eqn:T.
    - unfold analyzeQueryStructRelField in H. rewrite S0 in H. injection H as <-. split; auto. exists [], (v, t), fs. auto.
    - destruct (IH _ _ S0 H) as (-> & b1 & f & b2 & -> & X). split; auto. exists ((v, t) :: b1), f, b2. auto. }
  induction fs as [|[v t] fs IH]; intros c H; [discriminate|]. cbn [rel_pass] in H. destruct (tag_has (v_tag v) (B "rel")) eqn:T.
  - exists [], v, t, fs. conjs; auto. apply abind_err in H. destruct H as [H|(q1 & E & H)]; auto. right. apply (AGAIN fs q1); auto.
    apply rel_field_inv in E. destruct E as (rid & sp & rt & dir & k' & _ & _ & _ & -> & _). reflexivity.
  - destruct (IH _ H) as (a & v' & t' & b & -> & X & Y). exists ((v, t) :: a), v', t', b. conjs; auto.
Qed.

Lemma rel_pass_nothing : forall e fs k q, rel_pass e (new_query k) fs = AOk q -> q_rel q = None -> forall f, In f fs -> tag_has (v_tag (fst f)) (B "rel") = false.
Proof.
  induction fs as [|[v t] fs IH]; intros k q H N f I; [destruct I|]. cbn [rel_pass] in H. destruct (tag_has (v_tag v) (B "rel")) eqn:T.
  - destruct (abind_ok _ _ _ H) as (q1 & E & H1). apply rel_field_inv in E. destruct E as (rid & sp & rt & dir & k' & _ & _ & _ & -> & _). apply rel_pass_none in H1; [|reflexivity]. subst q. discriminate.
  - destruct I as [<-|I]; eauto.
Qed.

Lemma plain_at : forall fs v t, plain_names fs -> In (v, t) fs -> plain_field v t.
Proof. intros fs v t P I. unfold plain_names in P. rewrite Forall_forall in P. exact (P _ I). Qed.

Lemma plain_app_l : forall a b, plain_names (a ++ b) -> plain_names a.
Proof. intros a b P. now apply plain_names_app in P. Qed.

Lemma query_error : forall e name fs c, plain name -> plain_names fs -> analyzeQueryStruct e name fs = AErr c -> query_fault (e_pkg e) name fs c.
Proof.
  intros e name fs c PN P H. unfold analyzeQueryStruct in H. apply abind_err in H. destruct H as [H|(k & K & H)].
  { unfold query_kind in H. cbv zeta in H. repeat match type of H with (if ?c then _ else _) = _ => destruct c end; discriminate. }
  apply kind_spec in K; auto. pose proof (four_named _ _ K) as K4. apply abind_err in H. destruct H as [H|(q0 & R & H)].
  - destruct (rel_pass_err _ _ _ _ H) as (a & v & t & b & -> & T & X). apply tagged_has in T. assert (I : In (v, t) (a ++ (v, t) :: b)) by (apply in_or_app; right; now left).
    destruct X as [X|(-> & b1 & f & b2 & -> & X)].
    + apply rel_field_err in X; auto; [|now apply (plain_at _ _ _ P I)]. destruct X as (s & V & [X|(rid & R & X)]); [eapply af_rel_name; eauto|eapply af_rel_type; eauto].
    + apply tagged_has in X. eapply (af_two_rels _ _ _ a (v, t) b1 f b2); auto.
  - apply abind_err in H. destruct H as [H|(? & SM & H)].
    { apply ensure_err in H. destruct H as [H ->]. apply af_no_rel. intros f I TG. apply tagged_has in TG. destruct (q_rel q0) eqn:N; [discriminate|].
      pose proof (rel_pass_nothing _ _ _ _ R N f I) as X. change (lit "rel") with (B "rel") in TG. congruence. }
    apply ensure_ok in SM. destruct (rel_pass_inv _ _ _ _ R eq_refl SM) as (a & rv & rt & b & E & T & _ & RF).
    assert (I : In (rv, rt) fs) by (rewrite E; apply in_or_app; right; now left). apply tagged_has in T.
    destruct (rel_field_ok _ _ _ _ _ (proj1 (plain_at _ _ _ P I)) K4 RF) as (s & rid & V & RI & M & PART).
    destruct (pass_err _ _ _ _ H) as (before & v & t & after & q & EB & F1 & F2). 
    assert (NT : tag_has (v_tag v) (B "rel") = false) by (destruct (tag_has (v_tag v) (B "rel")) eqn:X; auto; rewrite (pass1_rel _ _ _ _ X) in F2; discriminate).
    assert (PB : plain_names before) by (rewrite EB in P; now apply plain_app_l in P).
    assert (PF : plain_field v t) by (apply (plain_at fs); auto; rewrite EB; apply in_or_app; right; now left).
    apply (field_err e q (map snd (rolel before))) in F2; auto; [|eapply pass_grouped; eauto]. unfold bad in F2.
    pose proof (pass_effect _ _ _ _ F1) as (K1 & K2 & _). assert (QR : q_reltype q = q_reltype q0) by (unfold q_reltype; now rewrite K2). unfold q_cols in *. rewrite K1, QR in F2.
    eapply af_field with (before := before) (v := v) (t := t) (after := after); [exact I|exact T|exact V|exact RI|exact K|exact PART|exact EB| | |apply rolel_roles; exact PB|exact F2].
    + intros X. apply tagged_has in X. change (lit "rel") with (B "rel") in X. congruence.
    + eapply at_scope; eauto.
Qed.

Lemma query_accepted : forall e name fs q, plain name -> plain_names fs -> analyzeQueryStruct e name fs = AOk q -> forall c, ~ query_fault (e_pkg e) name fs c.
Proof.
  intros e name fs q PN P H c F. destruct (query_inv _ _ _ _ H) as (k & f1 & rv & rt & f2 & q0 & Q1 & Q2 & Q3 & Q4 & Q5 & Q6). apply kind_spec in Q1; auto. pose proof (four_named _ _ Q1) as K4.
  assert (KD : forall k', named_kind name k' -> k' = k) by (intros k' X; apply kind_spec in X, Q1; congruence).
  assert (I : In (rv, rt) fs) by (rewrite Q2; apply in_or_app; right; now left).
  assert (U : forall v t, In (v, t) fs -> tagged v (lit "rel") -> v = rv /\ t = rt).
  { intros v t IV T. apply tagged_has in T. rewrite Q2 in IV. eapply has_rel_unique; eauto. }
  destruct (rel_field_ok _ _ _ _ _ (proj1 (plain_at _ _ _ P I)) K4 Q5) as (s & rid & V & RI & M & PART).
  destruct F as [N|a f b f' c' E T T'|v t s' c IV T V' RF|v t s' rid' k' c IV T V' RI' NK RF|rv' rt' s' rid' k' k2 sl cols before v t after sc l c IV T V' RI' NK PT EB NT SC RL FF].
  - apply (N _ I). now apply tagged_has.
  - assert (L : forall x : fvar * gtype, In x (f1 ++ f2) -> ~ tagged (fst x) (lit "rel")).
    { intros x IX TX. rewrite Forall_forall in Q4. specialize (Q4 _ IX). apply tagged_has in TX. change (lit "rel") with (B "rel") in TX. congruence. }
    rewrite Q2 in E. clear - E L T T'. revert f1 E L. induction a as [|x a IH]; intros f1 E L; destruct f1 as [|y f1]; cbn [app] in E; injection E as E1 E2.
    + subst. apply (L f'); auto. rewrite app_nil_l. apply in_or_app. right. now left.
    + subst. apply (L f); auto. now left.
    + subst. apply (L f); auto. cbn [app]. apply in_or_app. right. now left.
    + subst. apply (IH f1 E2). intros z IZ. apply L. now right.
  - destruct (U _ _ IV T) as [-> ->]. rewrite (rel_value_det _ _ _ V' V) in RF. destruct RF as [X|rid' X A IN|rid' X A IN]; [now apply (X rid)|destruct IN|destruct IN].
  - destruct (U _ _ IV T) as [-> ->]. rewrite (rel_value_det _ _ _ V' V) in RI'. rewrite (relation_id_det _ _ _ RI' RI), (KD _ NK) in *. eapply part_no_fault; eauto.
  - destruct (U _ _ IV T) as [-> ->]. rewrite (rel_value_det _ _ _ V' V) in RI'. rewrite (relation_id_det _ _ _ RI' RI), (KD _ NK) in *. rewrite <- M in PT, PART. destruct (part_det _ _ _ _ _ _ _ _ _ _ _ PT PART) as (-> & -> & ->).
    rewrite EB in Q6. destruct (pass_at _ _ _ _ _ _ _ Q6) as (q1 & q2 & F1 & F2).
    assert (PB : plain_names before) by (rewrite EB in P; now apply plain_app_l in P).
    assert (PF : plain_field v t) by (apply (plain_at fs); auto; rewrite EB; apply in_or_app; right; now left).
    rewrite (roles_rolel _ _ PB RL) in FF. rewrite (scope_at_det _ _ _ _ _ _ _ _ _ _ _ U V RI M Q5 PB F1 SC) in FF.
    apply (field_no e q1 (map snd (rolel before)) v t c q2); auto.
    + eapply pass_grouped; eauto.
    + destruct (tag_has (v_tag v) (B "rel")) eqn:X; auto. destruct NT. now apply tagged_has.
    + unfold bad. pose proof (pass_effect _ _ _ _ F1) as (K1 & K2 & _). assert (QR : q_reltype q1 = q_reltype q0) by (unfold q_reltype; now rewrite K2). unfold q_cols in *. rewrite K1, QR. exact FF.
Qed.

Lemma filter_fields_err : forall e fs q c, filter_fields e q fs = AErr c -> exists before v t after q', fs = before ++ (v, t) :: after /\ filter_fields e q before = AOk q' /\ filter_field e q' v t = AErr c.
Proof.
  induction fs as [|[v t] fs IH]; intros q c H; [discriminate|]. cbn [filter_fields] in H. apply abind_err in H. destruct H as [H|(q1 & E & H)].
  - exists [], v, t, fs, q. auto.
  - destruct (IH _ _ H) as (b & v' & t' & a & q' & -> & E1 & E2). exists ((v, t) :: b), v', t', a, q'. conjs; auto. cbn [filter_fields]. now rewrite E.
Qed.

Lemma filter_fields_at : forall e before v t after q q', filter_fields e q (before ++ (v, t) :: after) = AOk q' -> exists q1 q2, filter_fields e q before = AOk q1 /\ filter_field e q1 v t = AOk q2.
Proof.
  induction before as [|[v0 t0] b IH]; intros v t after q q' H; cbn [app filter_fields] in H; destruct (abind_ok _ _ _ H) as (q1 & E & H1).
  - exists q, q1. auto.
  - destruct (IH _ _ _ _ _ H1) as (q2 & q3 & E1 & E2). exists q2, q3. cbn [filter_fields]. rewrite E. auto.
Qed.

Lemma filter_state : forall e fs q, filter_fields e (MkF None None None []) fs = AOk q ->
  filter_rel_state e fs q /\ filter_ctor_state fs q /\ filter_search_state e fs q.
Proof.
  intros e fs q H. apply (filter_fields_state e fs [] (MkF None None None []) q H).
  - split; [intros v t []|reflexivity].
  - intros v t [].
  - split; intros v t; [intros []|intros d []].
Qed.

Definition filter_scope (before : fields) (sc : list text) : Prop :=
  (exists v' t' s rid, In (v', t') before /\ has_filter_role v' t' FRel /\ rel_value v' s /\ relation_id s rid /\ sc = [ref_name rid])
     \/ (sc = [] /\ forall v' t', In (v', t') before -> ~ has_filter_role v' t' FRel).

Lemma only_in : forall fs r v t, the_only fs r v t -> In (v, t) fs /\ has_filter_role v t r.
Proof. intros fs r v t (a & b & -> & H & _). split; auto. apply in_or_app. right. now left. Qed.

Lemma only_is : forall fs r v t v' t', the_only fs r v t -> In (v', t') fs -> has_filter_role v' t' r -> v' = v /\ t' = t.
Proof.
  intros fs r v t v' t' (a & b & -> & H & N) I R. apply in_app_or in I. destruct I as [I|[I|I]].
  - destruct (N v' t'); auto. apply in_or_app. auto.
  - now injection I as <- <-.
  - destruct (N v' t'); auto. apply in_or_app. auto.
Qed.

Lemma value_first : forall v s o, tag_value (v_tag v) (lit "rel") (s :: o) -> rel_value v s.
Proof. intros v s o T. exists (s :: o). split; [now left|reflexivity]. Qed.

Lemma state_scope : forall e fs q, filter_rel_state e fs q -> filter_scope fs (map fst (fs_sp q)).
Proof.
  intros e fs q H. unfold filter_rel_state in H. destruct (fs_rel q) as [r|].
  - destruct H as (v & t & s & o & O & T & R & _ & _ & _ & M). destruct (only_in _ _ _ _ O) as [I F]. left. exists v, t, s, (rf_id r). conjs; auto. eapply value_first; eauto.
  - destruct H as [N ->]. right. auto.
Qed.

Lemma scope_state : forall e fs q sc, filter_rel_state e fs q -> filter_scope fs sc -> sc = map fst (fs_sp q).
Proof.
  intros e fs q sc H F. unfold filter_rel_state in H. destruct (fs_rel q) as [r|].
  - destruct H as (v & t & s & o & O & T & R & _ & _ & _ & M). destruct F as [(v' & t' & s' & rid & I & F & V & RI & ->)|(_ & N)].
    + destruct (only_is _ _ _ _ _ _ O I F) as [-> ->]. rewrite (rel_value_det _ _ _ V (value_first _ _ _ T)) in RI. now rewrite M, (relation_id_det _ _ _ RI R).
    + destruct (only_in _ _ _ _ O) as [I F]. now apply N in I.
  - destruct H as [N ->]. destruct F as [(v' & t' & s' & rid & I & F & _)|(-> & _)]; [now apply N in I|reflexivity].
Qed.

Lemma twice_rel : forall e fs q v t rest, filter_rel_state e fs q -> is_some (fs_rel q) = true -> has_filter_role v t FRel ->
  exists a f b f' c, fs ++ (v, t) :: rest = a ++ f :: b ++ f' :: c /\ has_filter_role (fst f) (snd f) FRel /\ has_filter_role (fst f') (snd f') FRel.
Proof.
  intros e fs q v t rest H SM R. unfold filter_rel_state in H. destruct (fs_rel q) as [r|]; [|discriminate]. destruct H as (v0 & t0 & s & o & (a & b & -> & F & _) & _).
  exists a, (v0, t0), b, (v, t), rest. rewrite <- app_assoc. auto.
Qed.

Lemma twice_ctor : forall fs q v t rest, filter_ctor_state fs q -> is_some (fs_ctor q) = true -> has_filter_role v t FCtor ->
  exists a f b f' c, fs ++ (v, t) :: rest = a ++ f :: b ++ f' :: c /\ has_filter_role (fst f) (snd f) FCtor /\ has_filter_role (fst f') (snd f') FCtor.
Proof.
  intros fs q v t rest H SM R. unfold filter_ctor_state in H. destruct (fs_ctor q) as [[n d]|]; [|discriminate]. destruct H as (v0 & t0 & (a & b & -> & F & _) & _).
  exists a, (v0, t0), b, (v, t), rest. rewrite <- app_assoc. auto.
Qed.

Lemma directive_plain : forall v t d, plain_field v t -> directive t d -> plain d.
Proof. intros v t d [_ P] D. destruct D as (n & u & p & pn & v1 & w & -> & E & _). rewrite <- E. eapply P; reflexivity. Qed.

Lemma filter_error : forall e fs c, plain_names fs -> analyzeFilterStruct e fs = AErr c -> filter_fault (e_pkg e) fs c.
Proof.
  intros e fs c P H. unfold analyzeFilterStruct in H. apply abind_err in H. destruct H as [H|(q & E & H)].
  - destruct (filter_fields_err _ _ _ _ H) as (before & v & t & after & q & EB & F1 & F2). destruct (filter_state _ _ _ F1) as (S1 & S2 & S3).
    assert (I : In (v, t) fs) by (rewrite EB; apply in_or_app; right; now left). pose proof (plain_at _ _ _ P I) as PF.
    unfold filter_field in F2. cbv zeta in F2. destruct (tag_has (v_tag v) (B "rel")) eqn:T.
    + assert (R : has_filter_role v t FRel) by now apply filter_rel_dec. pose proof (rel_value_first v) as RV.
      apply abind_err in F2. destruct F2 as [F2|(? & X & F2)].
      { apply ensure_err in F2. destruct F2 as [X ->]. apply negb_false_iff in X. destruct (twice_rel e before q v t after S1 X R) as (a & f & b & f' & c & Y & Z). rewrite EB. eapply af_f_two_rels; [exact Y| |]; tauto. }
      apply ensure_ok, negb_true_iff in X. assert (SP : fs_sp q = []) by (unfold filter_rel_state in S1; destruct (fs_rel q); [discriminate|tauto]). rewrite SP in F2.
      apply abind_err in F2. destruct F2 as [F2|(rid & RI & F2)]. { eapply af_f_rel_name; eauto. apply (rel_err []). now rewrite F2. }
      apply abind_err in F2. destruct F2 as [F2|(sp & A & F2)]. { eapply af_f_rel_name; eauto. apply (rel_err []). now rewrite RI. }
      apply lift_ok, rel_id_spec in RI. apply lift_ok, add_first in A. apply abind_err in F2. destruct F2 as [F2|(rt & RT & F2)].
      { apply rel_type_err in F2. rewrite A in F2. eapply af_f_record; eauto. }
      apply abind_err in F2. destruct F2 as [F2|(? & _ & F2)]; [|discriminate]. apply ensure_err in F2. destruct F2 as [IT ->]. apply negb_false_iff in IT.
      apply rel_type_spec in RT. destruct RT as [n fs' h f l X1 X2 X3 X4 X5 X6 X7 X8 X9 X10 X11]. eapply af_f_iterator; eauto. now apply X9.
    + pose proof (not_tagged _ T) as NT. apply abind_err in F2. destruct F2 as [F2|(d & GD & F2)]; [now apply dir_name_no_err in F2|]. pose proof (blank_dec v t d GD) as BD.
      destruct (bytes_eqb (v_name v) (B "_") && negb (bytes_eqb d [])) eqn:BL.
      * pose proof (proj1 BD eq_refl) as BD'. assert (R : has_filter_role v t FSearch) by now apply fr_search.
        apply andb_prop in BL. destruct BL as [_ BL]. apply negb_true_iff in BL. assert (ND : d <> []) by (intros ->; discriminate). pose proof (proj1 (directive_name t d ND) GD) as D.
        apply abind_err in F2. destruct F2 as [F2|(? & X & F2)].
        { apply ensure_err in F2. destruct F2 as [X ->]. eapply af_f_directive; eauto. intros SP. unfold spelled in SP. rewrite <- plain_lower in SP by (eapply directive_plain; eauto). rewrite SP in X. discriminate. }
        apply abind_err in F2. destruct F2 as [F2|(id & _ & F2)]; [|discriminate]. apply lift_err in F2. destruct F2 as (xe & F2 & ->). apply col_err in F2.
        pose proof (sql_tag_first v) as TG. set (xx := tag_first (v_tag v) (B "sql")) in *. destruct (trim_space_split xx) as (w & w' & A & C & E & Tr). rewrite E in TG.
        eapply af_f_search; [exact EB|exact R|eapply state_scope; exact S1|exact TG|exact A|exact C|exact Tr|exact F2].
      * destruct (ImplementsGosqlFilterConstructor t) eqn:FC; [|discriminate]. apply abind_err in F2. destruct F2 as [F2|(? & _ & F2)]; [|discriminate]. apply ensure_err in F2. destruct F2 as [X ->]. apply negb_false_iff in X.
        assert (R : has_filter_role v t FCtor). { apply fr_ctor; auto. intros Y. apply BD in Y. discriminate. destruct t; try discriminate. eexists; eexists; split; [reflexivity|exact FC]. }
        destruct (twice_ctor before q v t after S2 X R) as (a & f & b & f' & c & Y & Z). rewrite EB. eapply af_f_two_ctors; [exact Y| |]; tauto.
  - destruct (filter_state _ _ _ E) as (S1 & S2 & S3). apply abind_err in H. destruct H as [H|(? & X & H)].
    { apply ensure_err in H. destruct H as [X ->]. apply af_f_no_rel. unfold filter_rel_state in S1. destruct (fs_rel q); [discriminate|]. destruct S1 as [N _]. intros [v t] I. now apply N. }
    apply abind_err in H. destruct H as [H|(? & Y & H)]; [|discriminate]. apply ensure_err in H. destruct H as [Y ->]. apply af_f_no_ctor. unfold filter_ctor_state in S2. destruct (fs_ctor q); [discriminate|]. intros [v t] I. now apply S2.
Qed.

Lemma only_once : forall fs r v t a f b f' c, the_only fs r v t -> fs = a ++ f :: b ++ f' :: c -> has_filter_role (fst f) (snd f) r -> has_filter_role (fst f') (snd f') r -> False.
Proof.
  intros fs r v t a f b f' c (f1 & f2 & E & _ & L) E' T T'. rewrite E in E'. clear E. assert (N : forall x, In x (f1 ++ f2) -> ~ has_filter_role (fst x) (snd x) r) by (intros [x y] I; now apply L). clear L.
  rename E' into E. revert f1 E N. induction a as [|x a IH]; intros f1 E L; destruct f1 as [|y f1]; cbn [app] in E; injection E as E1 E2.
  + subst. apply (L f'); auto. rewrite app_nil_l. apply in_or_app. right. now left.
  + subst. apply (L f); auto. now left.
  + subst. apply (L f); auto. cbn [app]. apply in_or_app. right. now left.
  + subst. apply (IH f1 E2). intros z IZ. apply L. now right.
Qed.

Lemma filter_accepted : forall e fs q, plain_names fs -> analyzeFilterStruct e fs = AOk q -> forall c, ~ filter_fault (e_pkg e) fs c.
Proof.
  intros e fs q0 P H c F. unfold analyzeFilterStruct in H. destruct (abind_ok _ _ _ H) as (q & E & H1). clear H. destruct (abind_ok _ _ _ H1) as (? & X & H). clear H1. destruct (abind_ok _ _ _ H) as (? & Y & H1). clear H H1.
  apply ensure_ok in X, Y. destruct (filter_state _ _ _ E) as (S1 & S2 & S3). unfold filter_rel_state in S1. unfold filter_ctor_state in S2. destruct (fs_rel q) as [r|] eqn:QR; [|discriminate]. destruct (fs_ctor q) as [[n b]|] eqn:QC; [|discriminate].
  destruct S1 as (rv & rt & s & o & O & T & RI & _ & RT & IT & M). destruct S2 as (cv & ct & OC & _). destruct (only_in _ _ _ _ O) as [IR FR]. destruct (only_in _ _ _ _ OC) as [IC FC].
  destruct F as [N|N|a f b' f' c E' T1 T2|a f b' f' c E' T1 T2|v t s' c I R V RF|v t s' rid c I R V RI' RF|v t n' fs' h I R RO HI|v t d I R D NS|before v t after sc w y w' o' c EB R SC TG W W' TR CF].
  - now apply (N (rv, rt)).
  - now apply (N (cv, ct)).
  - eapply (only_once _ _ _ _ a f b' f' c O); eauto.
  - eapply (only_once _ _ _ _ a f b' f' c OC); eauto.
  - destruct (only_is _ _ _ _ _ _ O I R) as [-> ->]. rewrite (rel_value_det _ _ _ V (value_first _ _ _ T)) in RF. destruct RF as [Z|rid' Z A IN|rid' Z A IN]; [now apply (Z (rf_id r))|destruct IN|destruct IN].
  - destruct (only_is _ _ _ _ _ _ O I R) as [-> ->]. rewrite (rel_value_det _ _ _ V (value_first _ _ _ T)) in RI'. rewrite (relation_id_det _ _ _ RI' RI) in RF.
    destruct RT as [n1 fs1 h1 f1 l1 X1 X2 X3 X4 X5 X6 X7 X8 X9 X10 X11]. destruct RF as [ms a' b' c Z ZR|ps rs Z ZR|Z1 Z2 ZR|n' fs' h' f' c ZR ZF ZC]; try now apply (ZR n1 fs1 h1).
    destruct (record_of_det _ _ _ _ _ _ _ _ X1 ZR) as (<- & <- & <-). pose proof (bool_iff _ _ _ X2 ZF). subst f'. eapply columns_fault_no; eauto.
  - destruct (only_is _ _ _ _ _ _ O I R) as [-> ->]. destruct RT as [n1 fs1 h1 f1 l1 X1 X2 X3 X4 X5 X6 X7 X8 X9 X10 X11]. destruct (record_of_det _ _ _ _ _ _ _ _ X1 RO) as (<- & <- & <-). apply X9 in HI. congruence.
  - destruct S3 as [_ S3]. specialize (S3 v t d I R D). apply NS. unfold spelled. rewrite <- plain_lower; auto. eapply directive_plain; eauto. eapply plain_at; eauto.
  - rewrite EB in E. destruct (filter_fields_at _ _ _ _ _ _ _ E) as (q1 & q2 & F1 & F2). destruct (filter_state _ _ _ F1) as (T1 & _). rewrite (scope_state _ _ _ _ T1 SC) in CF.
    inversion R as [|NT BD|]; subst. unfold filter_field in F2. cbv zeta in F2. destruct (tag_has (v_tag v) (B "rel")) eqn:TT. { apply NT. now apply tagged_has. }
    destruct (abind_ok _ _ _ F2) as (d & GD & F3). clear F2. pose proof (blank_dec v t d GD) as BDE. rewrite (proj2 BDE BD) in F3. destruct (abind_ok _ _ _ F3) as (? & _ & F2). clear F3. destruct (abind_ok _ _ _ F2) as (id & PC & _).
    apply lift_ok in PC. rewrite (tag_first_of _ _ _ TG) in PC. rewrite (trim_space_eq w y w') in PC by auto. apply column_id_parse in PC. eapply column_fault_no; eauto.
Qed.

Definition sound (t : gtype) : Prop := forall u, inside t u ->
  (forall n w, u = TNamed n w -> n_pkg n <> None) /\ (forall fs' v t, u = TStruct fs' -> In (v, t) fs' -> tame v).

Lemma sound_part : forall t u, sound t -> part t u -> sound u.
Proof. intros t u S0 P w I. apply S0. eapply in_part; eauto. Qed.

Lemma sound_name : forall n u, sound (TNamed n u) -> exists p pn, n_pkg n = Some (p, pn).
Proof. intros n u S0. destruct (S0 _ (in_whole _)) as [H _]. specialize (H n u eq_refl). destruct (n_pkg n) as [[p pn]|]; [eauto|congruence]. Qed.

Lemma sound_field : forall fs v t, sound (TStruct fs) -> In (v, t) fs -> tame v /\ sound t.
Proof. intros fs v t S0 I. split; [|eapply sound_part; eauto; econstructor; eauto]. destruct (S0 _ (in_whole _)) as [_ H]. eapply H; eauto. Qed.

Lemma sound_packaged : forall t, sound t -> packaged t.
Proof.
  induction t as [k b r|n t IH|t IH|t IH|k IHk t IH|t IH|ps rs|ms a b c|fs|n u IH]; intros S0; try constructor;
    try (first [apply IH|apply IHk]; eapply sound_part; eauto; constructor).
  destruct (sound_name _ _ S0) as (p & pn & E). econstructor; eauto. apply IH. eapply sound_part; eauto; constructor.
Qed.

Definition fine {A} (r : ares A) : Prop := r <> APanic.

Lemma fine_bind : forall A C (a : ares A) (f : A -> ares C), fine a -> (forall x, a = AOk x -> fine (f x)) -> fine (abind a f).
Proof. intros A C a f H K. destruct a as [x| |]; cbn [abind]; [apply K; reflexivity|discriminate|now destruct H]. Qed.

Lemma fine_ensure : forall c e, fine (ensure c e).
Proof. intros [] e; discriminate. Qed.

Lemma fine_lift : forall A (r : A + ecode), fine (lift r).
Proof. intros A [x|e]; discriminate. Qed.

Lemma fine_ok : forall A (x : A), fine (AOk x).
Proof. discriminate. Qed.

Lemma fine_err : forall A e, fine (@AErr A e).
Proof. discriminate. Qed.

Ltac fine0 := repeat first [ apply fine_ensure | apply fine_lift | apply fine_ok | apply fine_err
  | match goal with |- fine (abind _ _) => apply fine_bind; [|intros ? ?]
                  | |- fine (if ?c then _ else _) => destruct c
                  | |- fine (match ?x with _ => _ end) => destruct x end ].

Lemma fine_path : forall n u, sound (TNamed n u) -> fine (pkg_path n).
Proof. intros n u S0. destruct (sound_name _ _ S0) as (p & pn & E). unfold pkg_path. rewrite E. discriminate. Qed.

Lemma fine_directive : forall d t, sound t -> fine (IsDirective d t).
Proof. intros d t S0. destruct t; try discriminate. unfold IsDirective. destruct (bytes_eqb _ _); [|discriminate]. apply fine_bind; [eapply fine_path; eauto|intros; discriminate]. Qed.

Lemma fine_dirname : forall t, sound t -> fine (GetDirectiveName t).
Proof. intros t S0. destruct t; try discriminate. unfold GetDirectiveName. apply fine_bind; [eapply fine_path; eauto|intros; discriminate]. Qed.

Lemma fine_filter : forall t, sound t -> fine (isFilterType t).
Proof. intros t S0. destruct t; try discriminate. unfold isFilterType. destruct (bytes_eqb _ _); [|discriminate]. apply fine_bind; [eapply fine_path; eauto|intros; discriminate]. Qed.

Lemma fine_access : forall e x b n, (forall m, n = Some m -> n_pkg m <> None) -> fine (isAccessible e x b n).
Proof.
  intros e x b n H. unfold isAccessible. destruct (bytes_eqb _ _); [discriminate|]. destruct b; [discriminate|]. apply fine_bind; [|intros; discriminate].
  unfold isImportedType. destruct n as [m|]; [|discriminate]. specialize (H m eq_refl). unfold pkg_path. destruct (n_pkg m) as [[p pn]|]; [discriminate|congruence].
Qed.

Lemma fine_info : forall e t, sound t -> fine (analyzeTypeInfo e t).
Proof. intros e t S0. destruct (proj2 (ati_packaged e t) (sound_packaged _ S0)) as (r & E). rewrite E. discriminate. Qed.

Lemma fine_mode : forall v, tame v -> fine (lift_res (parseFieldMode (v_tag v))).
Proof.
  intros v T. assert (O : options_ok v).
  { exists (tag_first (v_tag v) (B "sql")), (tl (tag_get (v_tag v) (B "sql"))). split; [apply sql_tag_first|]. intros I. destruct (tag_values v) as [V|[V _]].
    - apply T in V. tauto.
    - rewrite V in I. destruct I. }
  apply mode_ok in O. destruct O as (m & ->). discriminate.
Qed.

Lemma record_sound : forall t fs, record_type t fs -> sound t -> sound (TStruct fs).
Proof.
  assert (U : forall t r, under t r -> sound t -> sound r). { induction 1; auto. intros S0. apply IHunder. eapply sound_part; eauto. constructor. }
  intros t fs [H|(u & H & H')] S0; [eauto|]. apply (U _ _ H'). eapply sound_part; [eapply (U _ _ H); auto|constructor].
Qed.

Lemma fine_step : forall e sp fr v t, tame v -> sound t -> fine (field_step e sp fr v t).
Proof.
  intros e sp fr v t T S0. unfold field_step. destruct (_ || _)%bool; [discriminate|]. apply fine_bind; [now apply fine_info|]. intros [i b] E. destruct (ati_is_struct _ _ _ _ E) as [IS BS].
  destruct (is_struct i && has_prefix (B ">") (tag_first (v_tag v) (B "sql")))%bool eqn:D.
  - apply andb_prop in D. destruct D as [D _]. apply IS in D. destruct D as (fs & R). rewrite (BS _ R). apply fine_bind; [now apply fine_mode|intros; discriminate].
  - apply fine_bind; [apply fine_lift|]. intros cid _. apply fine_bind; [now apply fine_mode|]. intros m _. destruct (parseCoalesceInfo _). discriminate.
Qed.

Lemma fine_loop : forall n e sp st out, (ssize st < n)%nat -> Forall (fun fr => sound (TStruct (fr_fields fr))) st -> fine (fields_loop n e sp st out).
Proof.
  induction n as [|n IH]; intros e sp st out N F; [lia|]. cbn [fields_loop]. destruct st as [|fr st]; [discriminate|]. inversion F as [|? ? F1 F2]; subst.
  unfold ssize in N. cbn [map list_sum fold_right] in N. unfold fsize in N at 1. destruct (fr_fields fr) as [|[v t] fs] eqn:FF; cbn [map list_sum fold_right] in N.
  - apply IH; auto. unfold ssize, list_sum in *. lia.
  - destruct (sound_field _ v t F1 (or_introl eq_refl)) as [T S0]. assert (F3 : sound (TStruct fs)).
    { intros u I. inversion I as [x E1 E2|x y z P Q E1 E2]; subst.
      - split; [discriminate|]. intros fs' v' t' X J. injection X as <-. apply (sound_field _ v' t' F1). now right.
      - inversion P; subst. apply F1. eapply in_part; [|exact Q]. econstructor. right. eassumption. }
    apply fine_bind; [now apply fine_step|]. intros s E. apply step_sound in E. destruct E as [PO|s o f NP PK TG NR C O Nm Se M Tg Fk|p o fs' m nd NP PK TG R Im O Nm Tg]; apply IH;
      try (unfold ssize; cbn [map list_sum fold_right fr_fields]; try (unfold fsize at 1; unfold ssize, list_sum in *; lia)).
    all: try (constructor; [exact F3|exact F2]).
    + apply record_size in R; unfold ssize, list_sum in *; unfold fsize in *; unfold list_sum in *; cbn [fr_fields] in *; lia.
    + constructor; [|constructor; [exact F3|exact F2]]. eapply record_sound; eauto.
Qed.

Lemma fine_fields : forall e sp im fs, sound (TStruct fs) -> fine (analyzeFieldInfoList e sp im fs).
Proof.
  intros e sp im fs S0. unfold analyzeFieldInfoList. apply fine_loop; [|constructor; auto]. rewrite tsize_struct. unfold ssize, list_sum. cbn [map fold_right fr_fields]. lia.
Qed.

Lemma fine_finish : forall e sp n u p s a len it m, sound u -> (forall k, n = Some k -> n_pkg k <> None) -> fine (finish_rt e sp n u p s a len it m).
Proof.
  intros e sp n u p s a len it m S0 N. unfold finish_rt. apply fine_bind.
  - destruct n as [k|]; [|discriminate]. specialize (N k eq_refl). destruct (n_pkg k) as [[x y]|]; [discriminate|congruence].
  - intros base _. destruct u; try discriminate. apply fine_bind; [now apply fine_fields|intros; discriminate].
Qed.

Lemma named_pkg : forall n u, sound (TNamed n u) -> forall k, Some n = Some k -> n_pkg k <> None.
Proof. intros n u S0 k E. injection E as <-. destruct (sound_name _ _ S0) as (p & pn & E). congruence. Qed.

Lemma fine_iter : forall e sp ps rs (c : errc) it m, (forall p, In p ps -> sound p) ->
  fine (match analyzeIteratorFunction ps rs with Some (n, u, isptr) => finish_rt e sp (Some n) u isptr false false 0 it m | None => AErr c end).
Proof.
  intros e sp ps rs c it m H. destruct (analyzeIteratorFunction ps rs) as [[[n u] b]|] eqn:E; [|discriminate]. unfold analyzeIteratorFunction in E.
  destruct ps as [|p [|]]; try discriminate. destruct rs as [|r [|]]; try discriminate. destruct (IsError r); [|discriminate]. specialize (H p (or_introl eq_refl)).
  assert (X : sound (TNamed n u)). { destruct p; try discriminate; [|destruct p; try discriminate; injection E as <- <- _; exact H].
    apply sound_part with (u := p) in H; [|constructor]. destruct p; try discriminate. destruct p; try discriminate. injection E as <- <- _. exact H. }
  apply fine_finish; [|eapply named_pkg; eauto]. eapply sound_part; [exact X|constructor].
Qed.

Lemma fine_reltype : forall e sp t, sound t -> fine (analyzeRelType e sp t).
Proof.
  intros e sp t S0. unfold analyzeRelType. set (nu := match t with TNamed n u => (Some n, u) | _ => (None, t) end).
  assert (SU : sound (snd nu)) by (subst nu; destruct t; auto; eapply sound_part; [exact S0|constructor]).
  assert (SN : forall k, fst nu = Some k -> n_pkg k <> None) by (subst nu; destruct t; try discriminate; now apply (named_pkg _ _ S0)).
  destruct nu as [n u]. cbn [fst snd] in *.
  assert (EL : forall w p s a len, sound w -> fine (match w with TNamed m v => finish_rt e sp (Some m) v p s a len false [] | _ => AErr EBadRelType end)).
  { intros w p s a len SW. destruct w; try discriminate. apply fine_finish; [|eapply named_pkg; eauto]. eapply sound_part; [exact SW|constructor]. }
  destruct u as [k b r|k w|w|w|k w|w|ps rs|ms a b c|fs|m w]; cbn [orb]; try (apply fine_finish; auto; fail).
  - pose proof (sound_part _ w SU ltac:(constructor)) as SW. destruct w as [| | |w| | | | | |m w']; cbn [orb]; try discriminate; [|exact (EL (TNamed m w') false false true k SW)].
    apply (EL w true false true k). eapply sound_part; [exact SW|constructor].
  - pose proof (sound_part _ w SU ltac:(constructor)) as SW. destruct w as [| | |w| | | | | |m w']; cbn [orb]; try discriminate; [|exact (EL (TNamed m w') false true false 0%Z SW)].
    apply (EL w true true false 0%Z). eapply sound_part; [exact SW|constructor].
  - pose proof (sound_part _ w SU ltac:(constructor)) as SW. exact (EL w true false false 0%Z SW).
  - apply fine_iter. intros p I. eapply sound_part; [exact SU|]. now constructor.
  - destruct ms as [|[[mn mx] [ps rs]] [|]]; try discriminate. apply fine_bind; [now apply fine_access|]. intros ok _. destruct ok; [|discriminate]. apply fine_iter. intros p I. eapply sound_part; [exact SU|]. eapply pt_method; [now left|exact I].
Qed.

Lemma fine_pred : forall s, ascii7 s -> fine (lift_res (parsePredicateExpr s)).
Proof.
  intros s A. destruct (C29_result_is_in_the_text_proof s A) as (w0 & x & w1 & _ & _ & _ & _ & [H|(lhs & w & o & t & op & q & r & _ & _ & _ & _ & _ & _ & H)]); rewrite H; discriminate.
Qed.

Lemma tame_all : forall v x, tame v -> In x (tag_get (v_tag v) (B "sql")) -> ascii7 x.
Proof.
  intros v x T I. destruct (tag_values v) as [V|[V _]]; [|rewrite V in I; destruct I]. apply T in V. destruct V as [V _]. rewrite Forall_forall in V. auto.
Qed.

Lemma tame_first : forall v, tame v -> ascii7 (tag_first (v_tag v) (B "sql")).
Proof.
  intros v T. pose proof (tame_all v) as H. unfold tag_first. destruct (tag_get (v_tag v) (B "sql")) as [|x l]; [constructor|]. apply H; auto. now left.
Qed.

Lemma fine_binary : forall sp id op q r, fine (binary_cond sp id op q r).
Proof. intros sp id op q r. unfold binary_cond. cbv zeta. apply fine_bind; [destruct (parseColIdent sp r) as [x|[]]; discriminate|]. intros [a b] _. fine0. Qed.

Lemma fine_column : forall sp lhs op op2 rhs, fine (where_column sp lhs op op2 rhs).
Proof. intros. unfold where_column. apply fine_bind; [apply fine_lift|]. intros id _. destruct rhs; [|apply fine_binary]. cbv zeta. fine0. Qed.

Lemma fine_between1 : forall e sp n v t st, sound t -> (forall m, n = Some m -> n_pkg m <> None) -> fine (between_field e sp n v t st).
Proof.
  intros e sp n v t st S0 N. unfold between_field. cbv zeta. apply fine_bind; [destruct (bytes_eqb _ _); [now apply fine_directive|discriminate]|]. intros d _. destruct d; [fine0|].
  apply fine_bind; [now apply fine_access|]. intros acc _. destruct acc; [|discriminate]. apply fine_bind; [now apply fine_info|]. intros [i b] _. discriminate.
Qed.

Lemma struct_sound : forall t n fs, GetStruct t = Some (n, fs) -> sound t -> sound (TStruct fs) /\ forall m, n = Some m -> n_pkg m <> None.
Proof.
  intros t n fs G S0. destruct t; try discriminate.
  - injection G as <- <-. split; [exact S0|discriminate].
  - destruct t; try discriminate. injection G as <- <-. split; [eapply sound_part; [exact S0|constructor]|eapply named_pkg; eauto].
Qed.

Lemma fine_between : forall e sp v t lhs op op2, sound t -> fine (where_between e sp v t lhs op op2).
Proof.
  intros e sp v t lhs op op2 S0. unfold where_between. apply fine_bind; [apply fine_ensure|]. intros _ _. destruct (GetStruct t) as [[n fs]|] eqn:G; [|discriminate]. destruct (struct_sound _ _ _ G S0) as [SF N].
  destruct fs as [|[v1 t1] [|[v2 t2] [|]]]; try discriminate. destruct (sound_field _ v1 t1 SF) as [_ S1]; [now left|]. destruct (sound_field _ v2 t2 SF) as [_ S2]; [right; now left|].
  apply fine_bind; [now apply fine_between1|]. intros st _. apply fine_bind; [now apply fine_between1|]. intros [[lo|] [hi|]] _; try discriminate. fine0.
Qed.

Lemma fine_wfield : forall e sp v t lhs op op2, sound t -> fine (where_field e sp v t lhs op op2).
Proof. intros e sp v t lhs op op2 S0. unfold where_field. apply fine_bind; [apply fine_lift|]. intros id _. cbv zeta. apply fine_bind; [now apply fine_info|]. intros [i b] _. fine0. Qed.

Lemma fine_leaf : forall e sp v t, sound t -> tame v -> fine (where_leaf e sp v t (tag_first (v_tag v) (B "sql"))).
Proof.
  intros e sp v t S0 T. unfold where_leaf. apply fine_bind; [now apply fine_pred, tame_first|]. intros [[[lhs op] op2] rhs] _. destruct (bytes_eqb _ _).
  - apply fine_bind; [now apply fine_directive|]. intros d _. destruct d; [|discriminate]. apply fine_bind; [apply fine_column|intros; discriminate].
  - destruct (contains _ _); (apply fine_bind; [first [now apply fine_between|now apply fine_wfield]|intros; discriminate]).
Qed.

Lemma fine_bool : forall tg items, fine (where_bool tg items).
Proof. intros tg items. unfold where_bool. destruct items; [discriminate|]. cbv zeta. fine0. Qed.

Lemma fine_where : forall e sp n m t fs nn, (tsize t < m)%nat -> GetStruct t = Some (nn, fs) -> sound t -> (forall k, n = Some k -> n_pkg k <> None) -> forall acc, fine (where_loop e sp n fs acc).
Proof.
  intros e sp n. induction m as [m IHm] using lt_wf_ind. intros t fs nn L G S0 N. destruct (struct_sound _ _ _ G S0) as [SF _]. apply GetStruct_spec in G. destruct G as [G _].
  assert (LF : (list_sum (map (fun '(_, u) => S (tsize u)) fs) < m)%nat).
  { assert (tsize t = fsize fs) as T by (destruct G as [->|(x & ->)]; [|cbn [tsize]]; apply tsize_struct). rewrite T in L. unfold fsize in L. lia. }
  assert (F : forall v u, In (v, u) fs -> tame v /\ sound u) by (intros v u I; now apply (sound_field fs)). clear G L t nn S0 SF.
  induction fs as [|[v t] fs IH]; intros acc; cbn [where_loop]; [discriminate|]. cbn [map list_sum fold_right] in LF. destruct (F v t (or_introl eq_refl)) as [T S0].
  assert (IH' : forall acc, fine (where_loop e sp n fs acc)) by (apply IH; [unfold list_sum in *; lia|intros v' u I; apply F; now right]).
  cbv zeta. destruct (_ || _)%bool; [apply IH'|]. apply fine_bind; [destruct (bytes_eqb _ _); [discriminate|now apply fine_access]|]. intros b _. destruct b; cbn [negb]; [|apply IH'].
  apply fine_bind; [apply fine_bool|]. intros items _. destruct (bytes_eqb _ (B ">")).
  - rewrite where_struct_eq. destruct (GetStruct t) as [[nn fs']|] eqn:G; [|discriminate]. apply fine_bind; [|intros; apply IH'].
    apply (IHm (S (tsize t))) with (t := t) (nn := nn); auto. unfold list_sum in *. lia.
  - apply fine_bind; [now apply fine_leaf|]. intros; apply IH'.
Qed.

Lemma split_ascii : forall sep s, ascii7 s -> Forall ascii7 (split_at sep s).
Proof.
  intros sep s A. induction s as [|c s IH]; cbn [split_at]; [repeat constructor|]. inversion A; subst. specialize (IH H2). destruct (beq c sep); [constructor; [constructor|exact IH]|].
  destruct (split_at sep s); inversion IH; subst; constructor; auto; constructor; auto.
Qed.

Lemma fine_cond : forall sp rid s, ascii7 s -> fine (join_cond sp rid s).
Proof.
  intros sp rid s A. unfold join_cond. apply fine_bind; [now apply fine_pred|]. intros [[[lhs op] op2] rhs] _. apply fine_bind; [apply fine_lift|]. intros id _. apply fine_bind; [apply fine_ensure|]. intros _ _. destruct rhs; [|apply fine_binary]. cbv zeta. fine0.
Qed.

Lemma fine_conds : forall sp rid l first items, Forall ascii7 l -> fine (join_conds sp rid first l items).
Proof. intros sp rid. induction l as [|s l IH]; intros first items F; cbn [join_conds]; [discriminate|]. inversion F; subst. apply fine_bind; [now apply fine_cond|]. intros. cbv zeta. now apply IH. Qed.

Lemma fine_vals : forall sp rid l items, Forall ascii7 l -> fine (join_vals sp rid l items).
Proof. intros sp rid. induction l as [|s l IH]; intros items F; cbn [join_vals]; [discriminate|]. inversion F; subst. apply fine_bind; [apply fine_conds; now apply split_ascii|]. intros. now apply IH. Qed.

Lemma fine_join : forall fs sp j, (forall v u, In (v, u) fs -> tame v /\ sound u) -> fine (join_fields sp j fs).
Proof.
  induction fs as [|[v t] fs IH]; intros sp j F; cbn [join_fields]; [discriminate|]. destruct (F v t (or_introl eq_refl)) as [T S0]. assert (F' : forall v u, In (v, u) fs -> tame v /\ sound u) by (intros; apply F; now right).
  cbv zeta. destruct (_ || _)%bool; [now apply IH|]. apply fine_bind; [now apply fine_dirname|]. intros dir _. apply fine_bind.
  - destruct (bytes_eqb _ _); [unfold join_relation; cbv zeta; fine0|]. destruct (existsb _ _); [|discriminate]. unfold join_directive. apply fine_bind; [apply fine_lift|]. intros rid _. apply fine_bind; [apply fine_lift|]. intros sp' _.
    apply fine_bind; [|intros; discriminate]. apply fine_vals. apply Forall_forall. intros x I. apply (tame_all v); auto. destruct (tag_get (v_tag v) (B "sql")); [destruct I|now right].
  - intros [sp' j'] _. now apply IH.
Qed.

Lemma fine_oc : forall fs sp oc, (forall v u, In (v, u) fs -> tame v /\ sound u) -> fine (oc_fields sp fs oc).
Proof.
  induction fs as [|[v t] fs IH]; intros sp oc F; cbn [oc_fields]; [discriminate|]. destruct (F v t (or_introl eq_refl)) as [T S0]. assert (F' : forall v u, In (v, u) fs -> tame v /\ sound u) by (intros; apply F; now right).
  destruct (negb _); [now apply IH|]. apply fine_bind; [now apply fine_dirname|]. intros dir _. apply fine_bind; [|intros; now apply IH]. unfold oc_directive. cbv zeta. fine0.
Qed.

Lemma fine_limit : forall v t, fine (limit_value v t).
Proof. intros v t. unfold limit_value. cbv zeta. apply fine_bind; [fine0|]. intros name _. destruct (tag_first _ _); [discriminate|]. destruct (parse_uint _ _ _); discriminate. Qed.

Lemma fine_order : forall sp l, fine (order_tags sp l).
Proof.
  intros sp. induction l as [|x l IH]; cbn [order_tags]; [discriminate|]. apply fine_bind; [|intros o _; apply fine_bind; [exact IH|intros; discriminate]].
  unfold order_tag. destruct (trim_space x) as [|c r]; [discriminate|]. destruct (if beq c "-" then (true, r) else (false, c :: r)) as [d val]. apply fine_bind; [|intros [nl z] _; fine0].
  destruct (cut_first _ _) as [[a b]|]; [|discriminate]. fine0.
Qed.

Lemma fine_run : forall e q v t r, sound t -> fine (run e q v t r).
Proof.
  intros e q v t r S0. destruct r; cbn [run]; try discriminate.
  - unfold analyzeWhereStruct. apply fine_bind; [unfold where_allowed; fine0|]. intros _ _. destruct (GetStruct t) as [[n fs]|] eqn:G; [|discriminate]. rewrite where_struct_eq, G. apply fine_bind; [|intros; discriminate].
    eapply fine_where; eauto. now apply (struct_sound _ _ _ G).
  - unfold analyzeJoinStruct. cbv zeta. do 3 (apply fine_bind; [apply fine_ensure|intros _ _]). destruct (GetStruct t) as [[n fs]|] eqn:G; [|discriminate]. destruct (struct_sound _ _ _ G S0) as [SF _].
    apply fine_bind; [|intros [sp j] _; discriminate]. apply fine_join. intros; now apply (sound_field fs).
  - unfold analyzeJoinStruct. cbv zeta. do 3 (apply fine_bind; [apply fine_ensure|intros _ _]). destruct (GetStruct t) as [[n fs]|] eqn:G; [|discriminate]. destruct (struct_sound _ _ _ G S0) as [SF _].
    apply fine_bind; [|intros [sp j] _; discriminate]. apply fine_join. intros; now apply (sound_field fs).
  - unfold analyzeJoinStruct. cbv zeta. do 3 (apply fine_bind; [apply fine_ensure|intros _ _]). destruct (GetStruct t) as [[n fs]|] eqn:G; [|discriminate]. destruct (struct_sound _ _ _ G S0) as [SF _].
    apply fine_bind; [|intros [sp j] _; discriminate]. apply fine_join. intros; now apply (sound_field fs).
  - unfold analyzeOnConflictStruct. apply fine_bind; [apply fine_ensure|intros _ _]. destruct (GetStruct t) as [[n fs]|] eqn:G; [|discriminate]. destruct (struct_sound _ _ _ G S0) as [SF _].
    apply fine_bind; [|intros oc _; fine0]. apply fine_oc. intros; now apply (sound_field fs).
  - unfold analyzeResultField. apply fine_bind; [unfold output_allowed; fine0|]. intros _ _. apply fine_bind; [now apply fine_reltype|intros; discriminate].
  - unfold analyzeLimit. fine0. apply fine_limit.
  - unfold analyzeOffset. fine0. apply fine_limit.
  - unfold analyzeRowsAffectedField, output_allowed. fine0.
  - unfold analyzeAllDirective. fine0.
  - unfold analyzeDefaultDirective. fine0.
  - unfold analyzeForceDirective, known_columns. fine0.
  - unfold analyzeOptionalDirective, known_columns. fine0.
  - unfold analyzeReturnDirective, output_allowed, known_columns. apply fine_bind; [apply fine_ensure|intros _ _]. fine0.
  - unfold analyzeOrderByDirective. cbv zeta. do 2 (apply fine_bind; [apply fine_ensure|intros _ _]). apply fine_bind; [apply fine_order|intros; discriminate].
  - unfold analyzeOverrideDirective. cbv zeta. fine0.
  - unfold analyzeFilterField, where_allowed. fine0.
  - unfold analyzeErrorHandlerField. fine0.
  - unfold analyzeContextField. fine0.
Qed.

Lemma fine_pass1 : forall e q v t, sound t -> fine (field_pass1 e q v t).
Proof.
  intros e q v t S0. unfold field_pass1. destruct (tag_has _ _) eqn:N; [discriminate|]. apply fine_bind; [now apply fine_dirname|]. intros d G. destruct (_ && _)%bool.
  - destruct (lookup (lower d) directive_roles) as [r|] eqn:L; [rewrite (directive_run _ _ _ _ _ _ L); now apply fine_run|rewrite (directive_unknown _ _ _ _ _ L); discriminate].
  - destruct (lookup (tolower (v_name v)) field_roles) as [r|] eqn:L; [rewrite (name_run _ _ _ _ _ L); now apply fine_run|]. unfold analyzeQueryStructField. rewrite (name_other _ L).
    destruct (bytes_eqb _ _); [discriminate|]. apply fine_bind; [now apply fine_filter|]. intros isf _. destruct isf; [exact (fine_run e q v t RFilter S0)|].
    destruct (isErrorHandler t); [unfold analyzeErrorHandlerField; fine0|]. destruct (isErrorInfoHandler t); [unfold analyzeErrorHandlerField; fine0|]. destruct (IsContext t); [exact (fine_run e q v t RContext S0)|discriminate].
Qed.

Lemma fine_relfield : forall e q v t, sound t -> fine (analyzeQueryStructRelField e q v t).
Proof.
  intros e q v t S0. unfold analyzeQueryStructRelField. cbv zeta. do 3 (apply fine_bind; [first [apply fine_ensure|apply fine_lift]|intros ? _]). do 3 (destruct (_ && _)%bool; [fine0|]).
  apply fine_bind; [destruct (bytes_eqb _ _); [now apply fine_directive|discriminate]|]. intros d _. destruct d; [fine0|]. apply fine_bind; [now apply fine_reltype|]. intros rt _. fine0.
Qed.

Lemma query_fine : forall e name fs k, plain name -> named_kind name k -> regular fs -> fine (analyzeQueryStruct e name fs).
Proof.
  intros e name fs k P K R. unfold analyzeQueryStruct. apply kind_spec in K; auto. rewrite K. cbn [abind]. assert (F : forall v t, In (v, t) fs -> sound t) by (intros v t I; now apply (sound_field fs v t R)).
  apply fine_bind.
  - generalize (new_query k). clear R K. induction fs as [|[v t] fs IH]; intros q; cbn [rel_pass]; [discriminate|]. assert (IH' : forall q, fine (rel_pass e q fs)) by (apply IH; intros; apply (F v0); now right).
    destruct (tag_has _ _); [|apply IH']. apply fine_bind; [|intros; apply IH']. apply fine_relfield. apply (F v). now left.
  - intros q _. apply fine_bind; [apply fine_ensure|]. intros _ _. revert q. clear R K. induction fs as [|[v t] fs IH]; intros q; cbn [field_pass]; [discriminate|].
    apply fine_bind; [apply fine_pass1, (F v); now left|]. intros. apply IH. intros; apply (F v0); now right.
Qed.

Lemma filter_fine : forall e fs, regular fs -> fine (analyzeFilterStruct e fs).
Proof.
  intros e fs R. unfold analyzeFilterStruct. assert (F : forall v t, In (v, t) fs -> sound t) by (intros v t I; now apply (sound_field fs v t R)). apply fine_bind.
  - generalize (MkF None None None []). clear R. induction fs as [|[v t] fs IH]; intros q; cbn [filter_fields]; [discriminate|]. assert (S0 : sound t) by (apply (F v); now left).
    apply fine_bind; [|intros; apply IH; intros; apply (F v0); now right]. unfold filter_field. cbv zeta. destruct (tag_has _ _).
    + do 3 (apply fine_bind; [first [apply fine_ensure|apply fine_lift]|intros ? _]). apply fine_bind; [now apply fine_reltype|]. intros rt _. fine0.
    + apply fine_bind; [now apply fine_dirname|]. intros d _. fine0.
  - intros q _. fine0.
Qed.

Lemma query_decided : forall e name fs k, plain name -> plain_names fs -> named_kind name k -> regular fs ->
  (exists q, analyzeQueryStruct e name fs = AOk q) \/ (exists c, analyzeQueryStruct e name fs = AErr c /\ query_fault (e_pkg e) name fs c).
Proof.
  intros e name fs k PN P K R. pose proof (query_fine e name fs k PN K R) as F. destruct (analyzeQueryStruct e name fs) as [q|c|] eqn:E; [eauto| |now destruct F]. right. exists c. split; auto. now apply query_error.
Qed.

Lemma filter_decided : forall e fs, plain_names fs -> regular fs ->
  (exists q, analyzeFilterStruct e fs = AOk q) \/ (exists c, analyzeFilterStruct e fs = AErr c /\ filter_fault (e_pkg e) fs c).
Proof.
  intros e fs P R. pose proof (filter_fine e fs R) as F. destruct (analyzeFilterStruct e fs) as [q|c|] eqn:E; [eauto| |now destruct F]. right. exists c. split; auto. now apply filter_error.
Qed.

Lemma tame_check : forall v, forallb (forallb (fun c => (N_of_ascii c <? 128)%N)) (tag_get (v_tag v) (B "sql")) = true ->
  existsb (fun x => match x with [] => true | _ => false end) (tl (tag_get (v_tag v) (B "sql"))) = false -> tame v.
Proof.
  intros v H K o V. apply tag_value_lookup in V. unfold tag_get in *. change (lit "sql") with (B "sql") in V. rewrite V in *. split.
  - rewrite Forall_forall. intros x I. rewrite forallb_forall in H. specialize (H x I). rewrite forallb_forall in H. unfold ascii7. rewrite Forall_forall. intros c J. apply N.ltb_lt. auto.
  - intros I. apply Bool.not_true_iff_false in K. apply K. apply existsb_exists. exists []. auto.
Qed.

Ltac regular0 := lazymatch goal with
  | I : inside _ _ |- _ => let P := fresh "P" in let Q := fresh "Q" in let E1 := fresh "E" in let E2 := fresh "E" in inversion I as [? E1 E2|? ? ? P Q E1 E2]; subst; clear I;
      [split; [intros ? ? E; first [discriminate E|injection E; intros; subst; discriminate]
              |intros fs' ? ? E J; first [discriminate E|injection E; intros; subst fs'; cbn in J; repeat destruct J as [J|J]; try contradiction; injection J as <- <-; apply tame_check; vm_compute; reflexivity]]
      |inversion P; subst; clear P; try match goal with J : In _ _ |- _ => cbn in J; repeat destruct J as [J|J]; try contradiction; injection J as <- <- end; regular0] end.

Lemma ex_full_regular : regular ex_full.
Proof. intros u I. unfold ex_full, ex_rel, ex_join, ex_where, ex_user, ex_dir, ex_int, ex_str, ex_name, ex_var in I. regular0. Qed.

Lemma plain_name : forall s, forallb (fun c => (N_of_ascii c <? 128)%N && negb (is_space c)) s = true -> plain s.
Proof.
  intros s H. assert (P : plain_names [(MkVar s true false [], TStruct [])]) by (apply plain_fields; cbn [forallb fst snd v_name]; now rewrite H).
  inversion P as [|? ? [X _] _]. exact X.
Qed.

Definition ex_bad_return : fields := ex_return "u.nope".

Definition ex_bad_where : fields := [ex_rel "user:u"; (ex_var "Where" [], TStruct [(ex_var "Email" (ex_tag "sql" ["x.email"%string]), ex_str)])].

Definition ex_error_field : fields := [ex_rel "user:u"; (ex_var "Err" [], TNamed (MkName (lit "error") None no_flags false false false false) (TIface [] false false false))].

Lemma C98_rejected_proof : forall e name fs c, plain name -> plain_names fs -> analyzeQueryStruct e name fs = AErr c -> query_fault (e_pkg e) name fs c.
Proof. exact query_error. Qed.

Lemma C98_accepted_proof : forall e name fs q, plain name -> plain_names fs -> analyzeQueryStruct e name fs = AOk q -> forall c, ~ query_fault (e_pkg e) name fs c.
Proof. exact query_accepted. Qed.

Lemma C98_decided_proof : forall e name fs k, plain name -> plain_names fs -> named_kind name k -> regular fs ->
  (exists q, analyzeQueryStruct e name fs = AOk q) \/ (exists c, analyzeQueryStruct e name fs = AErr c /\ query_fault (e_pkg e) name fs c).
Proof. exact query_decided. Qed.

Lemma C98_ends_refuted_proof : exists e name fs k, plain name /\ plain_names fs /\ named_kind name k /\ analyzeQueryStruct e name fs = APanic.
Proof.
  exists ex_env, (lit "SelectUsers"), ex_error_field, KSelect. conjs; [apply plain_name; vm_compute; reflexivity|apply plain_fields; vm_compute; reflexivity| |vm_compute; reflexivity].
  apply kind_spec; [apply plain_name; vm_compute; reflexivity|vm_compute; reflexivity].
Qed.

Lemma C98_filter_rejected_proof : forall e fs c, plain_names fs -> analyzeFilterStruct e fs = AErr c -> filter_fault (e_pkg e) fs c.
Proof. exact filter_error. Qed.

Lemma C98_filter_accepted_proof : forall e fs q, plain_names fs -> analyzeFilterStruct e fs = AOk q -> forall c, ~ filter_fault (e_pkg e) fs c.
Proof. exact filter_accepted. Qed.

Lemma C98_filter_decided_proof : forall e fs, plain_names fs -> regular fs ->
  (exists q, analyzeFilterStruct e fs = AOk q) \/ (exists c, analyzeFilterStruct e fs = AErr c /\ filter_fault (e_pkg e) fs c).
Proof. exact filter_decided. Qed.
