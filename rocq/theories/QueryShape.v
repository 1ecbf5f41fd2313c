(** Lemmas on the shape of accepted query structs. *)
From Coq Require Import Ascii String ZArith NArith Bool List Lia.
From Verif Require Import GoBase Strconv ConvertUtil ConvertProofs Filter Filters2Final AParse PgSpec TagSpec SqlSpec AParseProofs TagsFinal Analysis AnalysisSpec AnalysisProofs AnalysisRoles QuerySpec QueryProofs.
Import ListNotations.
Local Open Scope char_scope.

(** ** Shape of where items *)
Lemma item_not_bool : forall sc v t x, item_of sc v t x -> ~ is_bool x.
Proof. intros sc v t x H (b & ->). inversion H. Qed.
Lemma item_not_nested : forall sc v t x n l, item_of sc v t x -> x <> WNested n l.
Proof. intros sc v t x n l H ->. inversion H. Qed.

(** What follows a condition: connectives, then something separated. *)
Definition after (P : list witem -> Prop) (l : list witem) : Prop :=
  l = [] \/ exists b bs l', l = WBool b :: map WBool bs ++ l' /\ P l'.
Lemma sep_after : forall x l, ~ is_bool x -> (forall n l', x = WNested n l' -> separated l') -> after separated l -> separated (x :: l).
Proof. intros x l N D [->|(b & bs & l' & -> & S1)]; constructor; auto. Qed.
Lemma where_separated : forall sc f ne fs l, where_items sc f ne fs l -> if ne : bool then after separated l else separated l.
Proof.
  induction 1 as [ne|ne v t fs l U W IH|ne v t fs l x b U N I C W IH|ne v t fs l fs' l' b U N S0 W1 IH1 C W IH|ne v t fs l b U N V D C W IH]; auto.
  - destruct ne; [now left|constructor].
  - assert (X : separated (x :: l)).
    { apply sep_after; auto. eapply item_not_bool; eauto. intros n l' E. exfalso. eapply item_not_nested; eauto. }
    destruct ne; [|exact X]. right. exists b, [], (x :: l). split; auto.
  - assert (X : separated (WNested (v_name v) l' :: l)).
    { apply sep_after; auto. intros (b' & E); discriminate. intros n l0 E. inversion E; subst. exact IH1. }
    destruct ne; [|exact X]. right. exists b, [], (WNested (v_name v) l' :: l). split; auto.
  - destruct ne; [|exact IH]. right. destruct IH as [->|(b' & bs & l' & -> & S1)].
    + exists b, [], []. split; auto. constructor.
    + exists b, (b' :: bs), l'. split; auto.
Qed.
Lemma where_alternating : forall sc f ne fs l, where_items sc f ne fs l -> only_columns f fs ->
  if ne : bool then l = [] \/ exists b y l', l = WBool b :: y :: l' /\ alternating (y :: l') else alternating l.
Proof.
  induction 1 as [ne|ne v t fs l U W IH|ne v t fs l x b U N I C W IH|ne v t fs l fs' l' b U N S0 W1 IH1 C W IH|ne v t fs l b U N V D C W IH]; intros O;
    inversion O as [|v0 t0 fs0 O1 O2 O3]; subst; auto.
  - destruct ne; [now left|constructor].
  - exact (IH O3).
  - assert (X : alternating (x :: l)).
    { assert (A : ~ is_bool x) by (eapply item_not_bool; eauto).
      assert (B0 : forall n l', x = WNested n l' -> alternating l') by (intros n l' E; exfalso; eapply item_not_nested; eauto).
      destruct (IH O3) as [->|(b' & y & l' & -> & S1)]; constructor; auto. }
    destruct ne; [|exact X]. right. exists b, x, l. split; auto.
  - assert (X : alternating (WNested (v_name v) l' :: l)).
    { assert (A : ~ is_bool (WNested (v_name v) l')) by (intros (b' & E); discriminate).
      assert (B0 : forall n l0, WNested (v_name v) l' = WNested n l0 -> alternating l0) by (intros n l0 E; inversion E; subst; auto).
      destruct (IH O3) as [->|(b' & y & l0 & -> & S1)]; constructor; auto. }
    destruct ne; [|exact X]. right. exists b, (WNested (v_name v) l'), l. split; auto.
  - exfalso. destruct (O1 V) as [X|[X|X]]; auto.
Qed.

(** ** Known qualifiers *)
Lemma known_zero : forall sc, known sc (MkCol [] []).
Proof. now left. Qed.
Lemma cond_known : forall sc s c, column_condition sc s c -> known sc (c_lhs c) /\ known sc (c_rhs c).
Proof. intros sc s c H. destruct H; cbn [c_lhs c_rhs]; split; eauto using column_id_known, known_zero. Qed.
Lemma gives_known : forall sc l v t id, gives sc l v t (BoundColumn id) -> known sc id.
Proof. intros sc l v t id H. inversion H; subst. eauto using column_id_known. Qed.
Lemma where_known : forall sc f ne fs l, where_items sc f ne fs l -> forall x id, In x l -> in_item id x -> known sc id.
Proof.
  induction 1 as [ne|ne v t fs l U W IH|ne v t fs l x b U N I C W IH|ne v t fs l fs' l' b U N S0 W1 IH1 C W IH|ne v t fs l b U N V D C W IH]; intros y id Y M; auto.
  - destruct Y.
  - eauto.
  - apply in_app_or in Y. destruct Y as [Y|[<-|Y]]; [destruct ne; [destruct Y as [<-|[]]; inversion M|destruct Y]| |eauto].
    inversion I; subst; inversion M; subst.
    + match goal with H : column_condition _ _ _ |- _ => apply cond_known in H; apply H end.
    + match goal with H : column_condition _ _ _ |- _ => apply cond_known in H; apply H end.
    + eauto using column_id_known.
    + eauto using column_id_known.
    + destruct H5 as [[A _]|[A _]]; eauto using gives_known.
    + destruct H5 as [[_ A]|[_ A]]; eauto using gives_known.
  - apply in_app_or in Y. destruct Y as [Y|[<-|Y]]; [destruct ne; [destruct Y as [<-|[]]; inversion M|destruct Y]| |eauto].
    inversion M; subst. eauto.
  - apply in_app_or in Y. destruct Y as [Y|Y]; [destruct ne; [destruct Y as [<-|[]]; inversion M|destruct Y]|eauto].
Qed.

Lemma analyze_where_ok : forall e q v t q', analyzeWhereStruct e q v t = AOk q' ->
  exists f fs items, struct_of t fs /\ (f = true <-> foreign (e_pkg e) t) /\ where_items (map fst (q_sp q)) f false fs items
    /\ q' = set_where_ (Some (MkWhere (v_name v) items)) q.
Proof.
  intros e q v t q' H. unfold analyzeWhereStruct in H. aok. destruct (GetStruct t) as [[n fs0]|] eqn:G; [|discriminate].
  destruct (where_struct _ _ _ _) as [r|] eqn:W; [|discriminate]. aok. subst. apply where_sound with (m := tsize t) in W; auto.
  destruct W as (fs & S1 & W). exists (fo e n), fs, a0. conjs; auto.
  apply GetStruct_spec in G. destruct G as [_ [[-> ->]|(m & -> & ->)]].
  - cbn. split; [discriminate|]. intros (n' & u & p & pn & E1 & _). discriminate.
  - unfold fo. cbn [isImportedType]. unfold pkg_path. split.
    + destruct (n_pkg m) as [[p pn]|] eqn:P; [|discriminate]. cbn. intros X. apply negb_true_iff, bytes_eqb_neq in X.
      exists m, (TStruct fs0), p, pn. auto.
    + intros (n' & u & p & pn & E1 & P & X). inversion E1; subst n'. rewrite P. cbn. now apply negb_true_iff, bytes_eqb_neq.
Qed.

(** ** Join structs *)
Lemma rel_id_spec : forall s rid, parseRelIdent s = inl rid <-> relation_id s rid.
Proof. intros s [n a q]. apply parseRelIdent_spec. Qed.
Lemma addToRelSpace_spec : forall sp rid sp', addToRelSpace sp rid = inl sp' -> sp' = (ref_name rid, rid) :: sp /\ ~ In (ref_name rid) (map fst sp).
Proof.
  intros sp [n a q] sp' H. unfold addToRelSpace, ref_name in *. cbn [r_alias r_name] in *.
  assert (L : forall k, lookup k sp = None -> ~ In k (map fst sp)).
  { intros k L I. apply lookup_in in I. destruct I as (x & I). congruence. }
  destruct a; (destruct (lookup _ sp) eqn:K; [discriminate|]); inversion H; auto.
Qed.
Lemma lhs_spec : forall rid id, relation_id (qualified (r_qual rid) (aliased (r_name rid) (r_alias rid))) rid ->
  join_lhs_ok rid id = true <-> lhs_qualifier rid id.
Proof.
  intros [n a q] id (_ & N & _ & _). unfold join_lhs_ok, lhs_qualifier, ref_name. cbn [r_alias r_name r_qual] in *.
  rewrite negb_true_iff, orb_false_iff. destruct a as [|x a].
  - cbn [bytes_eqb negb andb]. rewrite negb_false_iff, bytes_eqb_eq. split.
    + intros [_ E]. now left.
    + intros [E|[_ E]]; [|contradiction]. rewrite E. split; auto. destruct (negb _); reflexivity.
  - change (bytes_eqb (x :: a) []) with false. cbn [negb andb].
    destruct (bytes_eqb (c_qual id) []) eqn:C; cbn [negb andb].
    + apply bytes_eqb_eq in C. rewrite C. split; auto. intros _. right. split; [auto|discriminate].
    + apply bytes_eqb_neq in C. rewrite negb_false_iff, bytes_eqb_eq. split.
      * intros [E _]. left. now symmetry.
      * intros [E|[E _]]; [auto|contradiction].
Qed.
Lemma split_pieces : forall sep s, pieces sep (split_at sep s) s.
Proof.
  intros sep. unfold pieces. induction s as [|c s IH]; cbn [split_at].
  - conjs. discriminate. constructor; auto. reflexivity.
  - destruct IH as (A & C & D). unfold beq. destruct (Ascii.eqb_spec c sep) as [->|N].
    + conjs. discriminate. constructor; auto. destruct (split_at sep s) as [|y l]; [contradiction|]. change (sep :: s = sep :: joined [sep] (y :: l)). f_equal. exact D.
    + destruct (split_at sep s) as [|y l]; [contradiction|]. pose proof (Forall_inv C) as C1. pose proof (Forall_inv_tail C) as C2. conjs. discriminate.
      * constructor; auto. intros [E|E]; [now apply N|auto].
      * rewrite D. destruct l; reflexivity.
Qed.

Definition ne_j (items : list jitem) : bool := match items with [] => false | _ => true end.
Lemma join_conds_ok : forall sp rid vals first items out,
  relation_id (qualified (r_qual rid) (aliased (r_name rid) (r_alias rid))) rid ->
  join_conds sp rid first vals items = AOk out ->
  exists l, out = items ++ l /\ alternatives (map fst sp) rid (ne_j items) (if first then BoolAnd else BoolOr) vals l.
Proof.
  induction vals as [|v vals IH]; intros first items out R H; cbn [join_conds] in H.
  - inversion H; subst. exists []. split. now rewrite app_nil_r. constructor.
  - aok. apply join_cond_ok in E. destruct E as [E1 E2]. apply lhs_spec in E2; auto. apply IH in K; auto. destruct K as (l & -> & A).
    exists ((if ne_j items then [JBool (if first then BoolAnd else BoolOr)] else []) ++ JCond a :: l). split.
    + destruct items; cbn [ne_j]; now rewrite <- !app_assoc.
    + apply alt_cons; auto. destruct items; cbn [ne_j app] in *; exact A.
Qed.
Lemma alternatives_ne : forall sc rid ne b vs l, alternatives sc rid ne b vs l -> vs <> [] -> l <> [].
Proof. intros sc rid ne b vs l H N. destruct H; [contradiction|]. destruct ne; discriminate. Qed.
Lemma join_vals_ok : forall sp rid vals items out,
  relation_id (qualified (r_qual rid) (aliased (r_name rid) (r_alias rid))) rid ->
  join_vals sp rid vals items = AOk out ->
  exists l, out = items ++ l /\ conjuncts (map fst sp) rid (ne_j items) vals l.
Proof.
  induction vals as [|v vals IH]; intros items out R H; cbn [join_vals] in H.
  - inversion H; subst. exists []. split. now rewrite app_nil_r. constructor.
  - aok. apply join_conds_ok in E; auto. destruct E as (l & -> & A). apply IH in K; auto. destruct K as (l' & -> & C).
    pose proof (split_pieces ";" v) as P. assert (l <> []) by (eapply alternatives_ne; eauto; apply P).
    exists (l ++ l'). split. now rewrite app_assoc. eapply cj_cons; eauto.
    replace (ne_j (items ++ l)) with true in C; auto. destruct items, l; auto; contradiction.
Qed.

Lemma join_type_spec : forall d, existsb (bytes_eqb (tolower d)) [B "leftjoin"; B "rightjoin"; B "fulljoin"; B "crossjoin"; B "innerjoin"] = true ->
  In (d, stringToJoinType d) join_words \/ (~ In d (map fst join_words) /\ stringToJoinType d = JNone
       /\ In (tolower d) (map lit ["leftjoin"; "rightjoin"; "fulljoin"; "crossjoin"; "innerjoin"]%string)).
Proof.
  intros d H. apply existsb_exists in H. destruct H as (x & I & E). apply bytes_eqb_eq in E. rewrite <- E in I. clear E x.
  unfold stringToJoinType. 
  repeat match goal with |- context [if bytes_eqb d ?w then _ else _] => destruct (bytes_eqb d w) eqn:?;
    [match goal with H : bytes_eqb d _ = true |- _ => apply bytes_eqb_eq in H; subst d; left; cbn; repeat (first [left; reflexivity | right]) end|] end.
  right. conjs; auto. intros J. cbn [map fst join_words In] in J. 
  repeat match goal with H : bytes_eqb d _ = false |- _ => apply bytes_eqb_neq in H end.
  repeat (destruct J as [J|J]; [symmetry in J; contradiction|]). exact J.
Qed.
Lemma get_directive : forall t d, GetDirectiveName t = AOk d -> d <> [] -> directive t d.
Proof. intros t d H N. now apply directive_name. Qed.

Lemma join_fields_ok : forall fs sp j sp' j', join_fields sp j fs = AOk (sp', j') ->
  exists rel ds, join_decl (map fst sp) fs (map fst sp') rel ds /\ j_name j' = j_name j /\ j_dirs j' = j_dirs j ++ ds
    /\ (rel <> None -> j_relation j = None /\ (tolower (j_name j) = lit "from" \/ tolower (j_name j) = lit "using"))
    /\ j_relation j' = match rel with Some r => Some r | None => j_relation j end.
Proof.
  induction fs as [|[v t] fs IH]; intros sp j sp' j' H; cbn [join_fields] in H.
  - inversion H; subst. exists None, []. conjs; auto. constructor. now rewrite app_nil_r. congruence.
  - cbv zeta in H. destruct (_ || _) eqn:SI.
    + apply silent_spec in SI. apply IH in H. destruct H as (rel & ds & A & C & D). exists rel, ds. conjs; auto; try apply D. now apply jl_skip.
    + assert (NS : ~ silent v) by (intros X; apply silent_spec in X; congruence). aok.
      apply IH in K0. destruct K0 as (rel & ds & A & C & D & F & G). clear IH.
      destruct (bytes_eqb (tolower a) (B "relation")) eqn:RE.
      * unfold join_relation in E0. cbv zeta in E0. aok. subst. apply rel_id_spec in E2. apply addToRelSpace_spec in E3.
        destruct E3 as [-> E3]. cbn [map fst j_name j_dirs j_relation] in *. apply bytes_eqb_eq in RE.
        assert (rel = None) as -> by (destruct rel; auto; destruct F; congruence).
        exists (Some a2), ds. conjs; auto.
        -- eapply jl_relation; eauto using sql_tag_first. apply get_directive; auto. intros ->. discriminate.
        -- intros _. match goal with H : _ || _ = true |- _ => apply orb_prop in H; rename H into OR end. split; [|destruct OR as [X|X]; apply bytes_eqb_eq in X; auto]. destruct (j_relation j); [discriminate|auto].
      * destruct (existsb _ _) eqn:EX; [|discriminate]. unfold join_directive in E0. aok. subst.
        match goal with H : parseRelIdent _ = _ |- _ => rename H into F1 end. match goal with H : addToRelSpace _ _ = _ |- _ => rename H into F2 end.
        match goal with H : join_vals _ _ _ _ = _ |- _ => rename H into F3 end. apply rel_id_spec in F1. apply addToRelSpace_spec in F2.
        destruct F2 as [-> F2]. cbn [map fst j_name j_dirs j_relation] in *.
        assert (R : relation_id (qualified (r_qual a0) (aliased (r_name a0) (r_alias a0))) a0) by (pose proof F1 as (X & _); rewrite X in F1 at 1; exact F1).
        apply join_vals_ok in F3; auto. destruct F3 as (l & -> & CJ). cbn [app ne_j] in *.
        exists rel, (MkJD (stringToJoinType a) a0 l :: ds). conjs; auto.
        -- eapply jl_join; eauto using sql_tag_first, join_type_spec. apply get_directive; auto. intros ->. discriminate.
        -- rewrite D. now rewrite <- app_assoc.
Qed.
Lemma alternatives_known : forall sc rid ne b vs l, alternatives sc rid ne b vs l -> forall c, In (JCond c) l -> known sc (c_lhs c) /\ known sc (c_rhs c).
Proof.
  induction 1; intros c' I; [destruct I|]. apply in_app_or in I. destruct I as [I|[I|I]].
  - destruct ne; [destruct I as [I|[]]; discriminate|destruct I].
  - inversion I; subst. eauto using cond_known.
  - auto.
Qed.
Lemma conjuncts_known : forall sc rid ne vs l, conjuncts sc rid ne vs l -> forall c, In (JCond c) l -> known sc (c_lhs c) /\ known sc (c_rhs c).
Proof. induction 1; intros c' I; [destruct I|]. apply in_app_or in I. destruct I as [I|I]; eauto using alternatives_known. Qed.
Lemma known_incl : forall sc sc' id, incl sc sc' -> known sc id -> known sc' id.
Proof. intros sc sc' id I [K|K]; [now left|right; auto]. Qed.
Lemma join_decl_incl : forall sc fs sc' rel ds, join_decl sc fs sc' rel ds -> incl sc sc'.
Proof. induction 1; auto. apply incl_refl. intros x I. apply IHjoin_decl. now right. intros x I. apply IHjoin_decl. now right. Qed.
Lemma join_decl_known : forall sc fs sc' rel ds, join_decl sc fs sc' rel ds ->
  forall d c, In d ds -> In (JCond c) (j_items d) -> known sc' (c_lhs c) /\ known sc' (c_rhs c).
Proof.
  induction 1; intros d' c I J; eauto; [destruct I|]. destruct I as [<-|I]; eauto. cbn [j_items] in J.
  apply join_decl_incl in H6. destruct (conjuncts_known _ _ _ _ _ H5 c J) as [A C]. split; eapply known_incl; eauto.
Qed.

(** ** On conflict *)
Definition oc_start (n : bytes) : OnConflictStruct := MkOC n None None None false None.
Lemma once_nil : forall ws, once ws [].
Proof. intros ws l1 x l2 y l3 E. destruct l1; discriminate. Qed.
Lemma once_cons : forall ws a l, once ws l -> (In (fst a) ws -> forall y, In y l -> ~ In (fst y) ws) -> once ws (a :: l).
Proof.
  intros ws a l A H l1 x l2 y l3 E. destruct l1 as [|b l1]; cbn in E; injection E as -> E.
  - intros [X Y]. apply (H X y); auto. rewrite E. apply in_or_app. right. now left.
  - eapply A. exact E.
Qed.
Lemma tag_values : forall v, tag_value (v_tag v) (lit "sql") (tag_get (v_tag v) (B "sql")) \/ (tag_get (v_tag v) (B "sql") = [] /\ ~ tagged v (lit "sql")).
Proof.
  intros v. unfold tag_get. change (B "sql") with (lit "sql"). destruct (lookup (lit "sql") (v_tag v)) eqn:L.
  - left. now apply tag_value_lookup.
  - right. split; auto. intros (l & T). apply tag_value_lookup in T. congruence.
Qed.

(** One directive: which slots it fills and with what. *)
Record oc_step (sp : relspace) (d : text) (o : list text) (oc oc' : OnConflictStruct) : Prop := MkOcStep {
  os_name : oc_name oc' = oc_name oc;
  os_word : In d (targets ++ actions);
  os_target : In d targets -> oc_has_target oc = false;
  os_action : In d actions -> oc_has_action oc = false;
  os_column : oc_column oc' = oc_column oc /\ d <> lit "column" \/ d = lit "column" /\ exists l, oc_column oc' = Some l /\ o <> [] /\ Forall2 (column_id (map fst sp)) o l;
  os_index : oc_index oc' = oc_index oc /\ d <> lit "index" \/ d = lit "index" /\ exists x r, o = x :: r /\ is_name x /\ oc_index oc' = Some x;
  os_constraint : oc_constraint oc' = oc_constraint oc /\ d <> lit "constraint" \/ d = lit "constraint" /\ exists x r, o = x :: r /\ is_name x /\ oc_constraint oc' = Some x;
  os_ignore : oc_ignore oc' = oc_ignore oc /\ d <> lit "ignore" \/ d = lit "ignore" /\ oc_ignore oc' = true;
  os_update : oc_update oc' = oc_update oc /\ d <> lit "update" \/ d = lit "update" /\ exists l, oc_update oc' = Some l /\
     ((o = [lit "*"] /\ l = MkColList true []) \/ (exists ids, l = MkColList false ids /\ o <> [] /\ Forall2 (column_id (map fst sp)) o ids)) }.

Lemma forall2_ids : forall sp tag ids, Forall2 (fun v id => parseColIdent sp v = inl id) tag ids -> Forall2 (column_id (map fst sp)) tag ids.
Proof. induction 1; constructor; auto. now apply column_id_parse. Qed.
Lemma col_idents_ok : forall sp tag ids, parseColIdents sp tag = inl ids -> tag <> [] /\ Forall2 (column_id (map fst sp)) tag ids.
Proof.
  intros sp tag ids H.
  assert (L : parseColIdentList sp tag = inl (MkColList false ids) \/ tag = [lit "*"]).
  { unfold parseColIdentList. destruct tag as [|x [|y r]]; auto; rewrite H; auto. destruct (bytes_eqb x (B "*")) eqn:E; auto.
    right. apply bytes_eqb_eq in E. now rewrite E. }
  destruct L as [L|L].
  - apply C30_column_lists_proof in L. destruct L as [[_ L]|(ids' & L & N & F)]; [discriminate|]. injection L as <-. split; auto using forall2_ids.
  - subst tag. discriminate.
Qed.
Lemma first_name : forall v x, tag_first (v_tag v) (B "sql") = x -> is_name x -> exists r, tag_get (v_tag v) (B "sql") = x :: r.
Proof.
  intros v x E N. unfold tag_first in E. destruct (tag_get _ _) as [|y r]; subst; [now apply name_nonempty in N|]. eauto.
Qed.

Ltac words := cbn; repeat (first [left; reflexivity | right]).
Ltac noword I := exfalso; cbn in I; repeat (destruct I as [I|I]; [discriminate I|]); exact I.
Lemma oc_directive_ok : forall sp d v oc oc', oc_directive sp d (v_tag v) oc = AOk oc' -> oc_step sp d (tag_get (v_tag v) (B "sql")) oc oc'.
Proof.
  intros sp d v oc oc' H. unfold oc_directive in H.
  destruct (bytes_eqb d (B "column")) eqn:E1.
  { apply bytes_eqb_eq in E1. subst d. aok. apply negb_true_iff in E. subst. apply col_idents_ok in E0.
    constructor; cbn [oc_name oc_column oc_index oc_constraint oc_ignore oc_update];
      [reflexivity|words|intros _; exact E|intros I; noword I|right; split; [reflexivity|exists a0; split; [reflexivity|exact E0]]|left; split; [reflexivity|discriminate]..]. }
  destruct (bytes_eqb d (B "index")) eqn:E2.
  { apply bytes_eqb_eq in E2. subst d. cbv zeta in H. aok. apply negb_true_iff in E. apply ident_match in E0. subst.
    destruct (first_name v _ eq_refl E0) as (r & R).
    constructor; cbn [oc_name oc_column oc_index oc_constraint oc_ignore oc_update];
      [reflexivity|words|intros _; exact E|intros I; noword I|left; split; [reflexivity|discriminate]
      |right; split; [reflexivity|do 2 eexists; split; [exact R|split; [exact E0|reflexivity]]]|left; split; [reflexivity|discriminate]..]. }
  destruct (bytes_eqb d (B "constraint")) eqn:E3.
  { apply bytes_eqb_eq in E3. subst d. cbv zeta in H. aok. apply negb_true_iff in E. apply ident_match in E0. subst.
    destruct (first_name v _ eq_refl E0) as (r & R).
    constructor; cbn [oc_name oc_column oc_index oc_constraint oc_ignore oc_update];
      [reflexivity|words|intros _; exact E|intros I; noword I|left; split; [reflexivity|discriminate]|left; split; [reflexivity|discriminate]
      |right; split; [reflexivity|do 2 eexists; split; [exact R|split; [exact E0|reflexivity]]]|left; split; [reflexivity|discriminate]..]. }
  destruct (bytes_eqb d (B "ignore")) eqn:E4.
  { apply bytes_eqb_eq in E4. subst d. aok. apply negb_true_iff in E. subst.
    constructor; cbn [oc_name oc_column oc_index oc_constraint oc_ignore oc_update];
      [reflexivity|words|intros I; noword I|intros _; exact E|left; split; [reflexivity|discriminate]..|right; split; reflexivity|left; split; [reflexivity|discriminate]]. }
  destruct (bytes_eqb d (B "update")) eqn:E5; [|discriminate].
  { apply bytes_eqb_eq in E5. subst d. aok. apply negb_true_iff in E. subst. apply C30_column_lists_proof in E0.
    constructor; cbn [oc_name oc_column oc_index oc_constraint oc_ignore oc_update];
      [reflexivity|words|intros I; noword I|intros _; exact E|left; split; [reflexivity|discriminate]..|right; split; [reflexivity|]].
    exists a0. split; auto. destruct E0 as [E0|(ids & A & C & D)]; [left; exact E0|right]. exists ids. conjs; auto using forall2_ids. }
Qed.

(** The whole struct, from any state. *)
Lemma oc_fields_ok : forall sp fs oc oc', oc_fields sp fs oc = AOk oc' ->
  exists l, oc_names fs l /\ oc_name oc' = oc_name oc /\ Forall (fun x => In (fst x) (targets ++ actions)) l /\ once targets l /\ once actions l
    /\ (oc_has_target oc = true -> forall x, In x l -> ~ In (fst x) targets)
    /\ (oc_has_action oc = true -> forall x, In x l -> ~ In (fst x) actions)
    /\ (oc_column oc' = oc_column oc /\ ~ In (lit "column") (map fst l)
        \/ exists o ids, In (lit "column", o) l /\ oc_column oc' = Some ids /\ o <> [] /\ Forall2 (column_id (map fst sp)) o ids)
    /\ (oc_index oc' = oc_index oc /\ ~ In (lit "index") (map fst l)
        \/ exists x r, In (lit "index", x :: r) l /\ is_name x /\ oc_index oc' = Some x)
    /\ (oc_constraint oc' = oc_constraint oc /\ ~ In (lit "constraint") (map fst l)
        \/ exists x r, In (lit "constraint", x :: r) l /\ is_name x /\ oc_constraint oc' = Some x)
    /\ (oc_ignore oc' = oc_ignore oc /\ ~ In (lit "ignore") (map fst l) \/ In (lit "ignore") (map fst l) /\ oc_ignore oc' = true)
    /\ (oc_update oc' = oc_update oc /\ ~ In (lit "update") (map fst l)
        \/ exists o cl, In (lit "update", o) l /\ oc_update oc' = Some cl /\
             ((o = [lit "*"] /\ cl = MkColList true []) \/ (exists ids, cl = MkColList false ids /\ o <> [] /\ Forall2 (column_id (map fst sp)) o ids))).
Proof.
  induction fs as [|[v t] fs IH]; intros oc oc' H; cbn [oc_fields] in H.
  - inversion H; subst. exists []. conjs; auto using once_nil. constructor.
  - destruct (bytes_eqb (v_name v) (B "_")) eqn:U; cbn [negb] in H.
    + apply bytes_eqb_eq in U. aok. apply oc_directive_ok in E0.
      set (o := tag_get (v_tag v) (B "sql")) in *. set (d := tolower a) in *.
      apply IH in K0. destruct K0 as (l & L1 & L2 & L3 & L4 & L5 & L6 & L7 & L8 & L9 & L10 & L11 & L12).
      destruct E0 as [S1 S2 S3 S4 S5 S6 S7 S8 S9].
      assert (HT : In d targets -> oc_has_target a0 = true).
      { intros I. unfold oc_has_target. cbn [targets map In] in I. destruct I as [I|[I|[I|[]]]].
        - destruct S5 as [[_ S5]|(_ & x & -> & _)]; [congruence|reflexivity].
        - destruct S6 as [[_ S6]|(_ & x & r & _ & _ & ->)]; [congruence|destruct (oc_column a0); reflexivity].
        - destruct S7 as [[_ S7]|(_ & x & r & _ & _ & ->)]; [congruence|destruct (oc_column a0), (oc_index a0); reflexivity]. }
      assert (HA : In d actions -> oc_has_action a0 = true).
      { intros I. unfold oc_has_action. cbn [actions map In] in I. destruct I as [I|[I|[]]].
        - destruct S8 as [[_ S8]|(_ & ->)]; [congruence|reflexivity].
        - destruct S9 as [[_ S9]|(_ & x & -> & _)]; [congruence|apply orb_true_r]. }
      assert (KT : oc_has_target oc = true -> oc_has_target a0 = true).
      { unfold oc_has_target. intros T. destruct S5 as [[-> _]|(_ & x & -> & _)]; [|reflexivity].
        destruct S6 as [[-> _]|(_ & x & r & _ & _ & ->)]; [|destruct (oc_column oc); reflexivity].
        destruct S7 as [[-> _]|(_ & x & r & _ & _ & ->)]; [exact T|destruct (oc_column oc), (oc_index oc); reflexivity]. }
      assert (KA : oc_has_action oc = true -> oc_has_action a0 = true).
      { unfold oc_has_action. intros T. destruct S8 as [[-> _]|(_ & ->)]; [|reflexivity].
        destruct S9 as [[-> _]|(_ & x & -> & _)]; [exact T|apply orb_true_r]. }
      exists ((d, o) :: l). conjs.
      * apply on_dir; auto; [|exact (tag_values v)]. apply get_directive; auto. intros ->. unfold d in S2. noword S2.
      * congruence.
      * constructor; auto.
      * apply once_cons; auto.
      * apply once_cons; auto.
      * intros T x [<-|X]; [|auto]. intros I. cbn [fst] in I. rewrite (S3 I) in T. discriminate.
      * intros T x [<-|X]; [|auto]. intros I. cbn [fst] in I. rewrite (S4 I) in T. discriminate.
      * destruct L8 as [[A N]|(o' & ids & A)]; [|right; exists o', ids; destruct A; split; [now right|auto]]. rewrite A.
        destruct S5 as [[S5 D]|(D & x & X)]; [left; split; auto; intros [J|J]; [exact (D J)|auto]|].
        right. exists o, x. rewrite D. destruct X as (X1 & X2 & X3). conjs; auto. now left.
      * destruct L9 as [[A N]|(x & r & A)]; [|right; exists x, r; destruct A; split; [now right|auto]]. rewrite A.
        destruct S6 as [[S6 D]|(D & x & r & X1 & X2 & X3)]; [left; split; auto; intros [J|J]; [exact (D J)|auto]|].
        right. exists x, r. rewrite D, X1. conjs; auto. now left.
      * destruct L10 as [[A N]|(x & r & A)]; [|right; exists x, r; destruct A; split; [now right|auto]]. rewrite A.
        destruct S7 as [[S7 D]|(D & x & r & X1 & X2 & X3)]; [left; split; auto; intros [J|J]; [exact (D J)|auto]|].
        right. exists x, r. rewrite D, X1. conjs; auto. now left.
      * destruct L11 as [[A N]|A]; [|right; destruct A; split; [now right|auto]]. rewrite A.
        destruct S8 as [[S8 D]|(D & X)]; [left; split; auto; intros [J|J]; [exact (D J)|auto]|].
        right. rewrite D. split; auto. now left.
      * destruct L12 as [[A N]|(o' & cl & A)]; [|right; exists o', cl; destruct A; split; [now right|auto]]. rewrite A.
        destruct S9 as [[S9 D]|(D & x & X)]; [left; split; auto; intros [J|J]; [exact (D J)|auto]|].
        right. exists o, x. rewrite D. destruct X as (X1 & X2). conjs; auto. now left.
    + apply bytes_eqb_neq in U. apply IH in H. destruct H as (l & H1 & H2). exists l. split; [now apply on_skip|exact H2].
Qed.

(** ** Order by *)
(** Characters of a column reference. *)
Definition col_char (c : ascii) : Prop := name_char c \/ c = ".".
Lemma col_char_code : forall c, col_char c -> ~ space c /\ c <> ":" /\ c <> "-".
Proof.
  intros c H. assert (K : (N_of_ascii c = 46 \/ 48 <= N_of_ascii c <= 57 \/ 65 <= N_of_ascii c <= 90 \/ 97 <= N_of_ascii c <= 122 \/ N_of_ascii c = 95)%N).
  { destruct H as [H| ->]; [|left; reflexivity]. unfold name_char, name_start, between in H.
    change (N_of_ascii "A") with 65%N in H. change (N_of_ascii "Z") with 90%N in H. change (N_of_ascii "a") with 97%N in H.
    change (N_of_ascii "z") with 122%N in H. change (N_of_ascii "0") with 48%N in H. change (N_of_ascii "9") with 57%N in H.
    destruct H as [[H|[H| ->]]|H]; try lia. do 4 right. reflexivity. }
  conjs; try (intros ->; cbn in K; lia). unfold space. cbn [In]. lia.
Qed.
Lemma column_id_chars : forall sc c id, column_id sc c id -> c <> [] /\ Forall col_char c.
Proof.
  intros sc c id (E & N & Q & _). subst c. assert (F : forall n, is_name n -> Forall col_char n).
  { intros n X. apply name_chars in X. eapply Forall_impl; [|exact X]. now left. }
  destruct (c_qual id) as [|a q] eqn:A; cbn [qualified].
  - split; auto using name_nonempty.
  - split; [discriminate|]. assert (is_name (a :: q)) as M by (apply Q; discriminate).
    apply (Forall_app col_char (a :: q) ("." :: c_col id)). split; auto. constructor; auto. now right.
Qed.
Lemma cut_first_none : forall a, ~ In ":" a -> cut_first ":" a = None.
Proof.
  induction a as [|c a IH]; intros N; cbn [cut_first]; auto. destruct (beq c ":") eqn:E.
  - apply beq_eq in E. subst. destruct N. now left.
  - rewrite IH; auto. intros I. apply N. now right.
Qed.
Lemma cut_first_app : forall a b, ~ In ":" a -> cut_first ":" (a ++ ":" :: b) = Some (a, b).
Proof.
  induction a as [|c a IH]; intros b N; cbn [cut_first app]; auto. destruct (beq c ":") eqn:E.
  - apply beq_eq in E. subst. destruct N. now left.
  - rewrite IH; auto. intros I. apply N. now right.
Qed.
Lemma cut_first_some : forall s a b, cut_first ":" s = Some (a, b) -> s = a ++ ":" :: b.
Proof.
  induction s as [|c s IH]; intros a b H; cbn [cut_first] in H; [discriminate|]. destruct (beq c ":") eqn:E.
  - apply beq_eq in E. injection H as <- <-. now rewrite E.
  - destruct (cut_first ":" s) as [[x y]|]; [|discriminate]. injection H as <- <-. cbn. f_equal. now apply IH.
Qed.
Lemma cut_first_none_inv : forall s, cut_first ":" s = None -> ~ In ":" s.
Proof.
  induction s as [|c s IH]; intros H; cbn [cut_first] in H; [tauto|]. destruct (beq c ":") eqn:E; [discriminate|].
  destruct (cut_first ":" s) as [[x y]|]; [discriminate|]. intros [I|I]; [|now apply IH]. subst. now rewrite (proj2 (beq_eq _ _)) in E.
Qed.
Lemma spaceless_trimmed : forall s, Forall (fun c => ~ space c) s -> trimmed s.
Proof.
  intros s F. split.
  - intros c r E. rewrite E in F. now inversion F.
  - intros r c E. rewrite E in F. apply Forall_app in F. destruct F as [_ F]. now inversion F.
Qed.

(** One value, without its white space. *)
Lemma order_core : forall sp c suf nl id, column_id (map fst sp) c id -> nulls_suffix suf nl ->
  (do (n, val) <- match cut_first ":" (c ++ suf) with
        | Some (a, b) =>
            if bytes_eqb b (B "nullsfirst") then AOk (NullsFirst, a)
            else if bytes_eqb b (B "nullslast") then AOk (NullsLast, a)
            else AErr EBadNullsOrderTagValue
        | None => AOk (NullsDefault, c ++ suf)
        end;
   do i <- lift (parseColIdent sp val); AOk (n, i)) = AOk (nl, id).
Proof.
  intros sp c suf nl id C N. destruct (column_id_chars _ _ _ C) as [_ F]. apply column_id_parse in C.
  assert (~ In ":" c) as X. { intros I. rewrite Forall_forall in F. apply F, col_char_code in I. tauto. }
  inversion N; subst; change (lit ":nullsfirst") with (":" :: B "nullsfirst"); change (lit ":nullslast") with (":" :: B "nullslast").
  - rewrite app_nil_r, cut_first_none; auto. cbn [abind]. now rewrite C.
  - rewrite cut_first_app; auto. cbn [abind]. change (bytes_eqb (B "nullsfirst") (B "nullsfirst")) with true. cbn [abind]. now rewrite C.
  - rewrite cut_first_app; auto. change (bytes_eqb (B "nullslast") (B "nullsfirst")) with false. change (bytes_eqb (B "nullslast") (B "nullslast")) with true. cbn [abind]. now rewrite C.
Qed.
Lemma order_tag_ok : forall sp v o, order_tag sp v = AOk o <-> (spaces v /\ o = None) \/ (exists i, order_item (map fst sp) v i /\ o = Some i).
Proof.
  intros sp v o. split.
  - intros H. unfold order_tag in H. destruct (trim_space_split v) as (w & w' & W & W' & E & T). destruct (trim_space v) as [|c r].
    + injection H as <-. left. split; auto. rewrite E. now apply Forall_app.
    + right. set (dr := if beq c "-" then (true, r) else (false, c :: r)) in H.
      assert (D : c :: r = (if fst dr : bool then ["-"] else []) ++ snd dr).
      { subst dr. destruct (beq c "-") eqn:B1; cbn; auto. apply beq_eq in B1. now subst. }
      destruct dr as [desc val]. cbn [fst snd] in D.
      destruct (cut_first ":" val) as [[a b]|] eqn:C.
      * apply cut_first_some in C. destruct (bytes_eqb b (B "nullsfirst")) eqn:B1.
        { apply bytes_eqb_eq in B1. aok; match goal with X : parseColIdent _ _ = inl _ |- _ => apply column_id_parse in X; rename X into CI end; subst. eexists. split; [|reflexivity].
          eapply oi with (c := y); [exact W|exact W'| |exact CI|apply ns_first]. rewrite D, <- !app_assoc. reflexivity. }
        destruct (bytes_eqb b (B "nullslast")) eqn:B2; [|discriminate].
        { apply bytes_eqb_eq in B2. aok; match goal with X : parseColIdent _ _ = inl _ |- _ => apply column_id_parse in X; rename X into CI end; subst. eexists. split; [|reflexivity].
          eapply oi with (c := y); [exact W|exact W'| |exact CI|apply ns_last]. rewrite D, <- !app_assoc. reflexivity. }
      * aok; match goal with X : parseColIdent _ _ = inl _ |- _ => apply column_id_parse in X; rename X into CI end; subst. eexists. split; [|reflexivity].
        eapply oi with (c := y); [exact W|exact W'| |exact CI|apply ns_default]. rewrite D, <- !app_assoc. reflexivity.
  - intros [[Sp ->]|(i & I & ->)].
    + unfold order_tag. assert (trim_space v = []) as ->; auto.
      pose proof (trim_space_eq v [] [] Sp (Forall_nil _)) as X. cbn [app] in X. rewrite app_nil_r in X. apply X. split; [discriminate|].
      intros r c E. destruct r; discriminate.
    + destruct I as [w w' desc c suf id nl W W' E C N]. unfold order_tag.
      destruct (column_id_chars _ _ _ C) as [NE F]. pose proof (order_core sp c suf nl id C N) as K.
      assert (T : trimmed ((if desc : bool then ["-"] else []) ++ c ++ suf)).
      { apply spaceless_trimmed. apply Forall_app. split; [|apply Forall_app; split].
        - destruct desc; repeat constructor. unfold space. cbn. lia.
        - eapply Forall_impl; [|exact F]. intros x X. now apply col_char_code.
        - inversion N; subst; repeat constructor; unfold space; cbn; lia. }
      assert (E' : trim_space v = (if desc : bool then ["-"] else []) ++ c ++ suf).
      { rewrite E. transitivity (trim_space (w ++ ((if desc : bool then ["-"] else []) ++ c ++ suf) ++ w')); [now rewrite <- !app_assoc|]. now apply trim_space_eq. }
      rewrite E'. destruct c as [|a c]; [now destruct NE|]. destruct desc; cbn [app].
      * change (beq "-" "-") with true. cbn iota. cbn [app] in K.
        destruct (match cut_first ":" (a :: c ++ suf) with Some (_, _) => _ | None => _ end) as [[n val]| |]; cbn [abind] in K |- *; try discriminate.
        destruct (lift (parseColIdent sp val)); cbn [abind] in K |- *; try discriminate. now injection K as -> ->.
      * assert (beq a "-" = false) as ->. { destruct (beq a "-") eqn:X; auto. apply beq_eq in X. apply Forall_inv in F. apply col_char_code in F. tauto. }
        cbn [app] in K.
        destruct (match cut_first ":" (a :: c ++ suf) with Some (_, _) => _ | None => _ end) as [[n val]| |]; cbn [abind] in K |- *; try discriminate.
        destruct (lift (parseColIdent sp val)); cbn [abind] in K |- *; try discriminate. now injection K as -> ->.
Qed.
Lemma order_tags_ok : forall sp tags l, order_tags sp tags = AOk l <-> order_items (map fst sp) tags l.
Proof.
  intros sp tags. induction tags as [|v r IH]; intros l; cbn [order_tags].
  - split; intros H; [injection H as <-; constructor|]. inversion H. reflexivity.
  - split; intros H.
    + aok. apply order_tag_ok in E. apply IH in E0. destruct E as [[Sp ->]|(i & I & ->)]; [apply os_blank|apply os_item]; auto.
    + inversion H; subst.
      * rewrite (proj2 (order_tag_ok sp v None)) by auto. cbn [abind]. match goal with X : order_items _ _ _ |- _ => apply IH in X; rewrite X end. reflexivity.
      * rewrite (proj2 (order_tag_ok sp v (Some i))) by eauto. cbn [abind]. match goal with X : order_items _ _ _ |- _ => apply IH in X; rewrite X end. reflexivity.
Qed.

(** ** Limit *)
Lemma digit_val_digit : forall c d, (digit_val c = Some d /\ (d < 10)%N) <-> digit c /\ d = (N_of_ascii c - 48)%N.
Proof.
  intros c d. unfold digit_val, digit. destruct ((48 <=? N_of_ascii c) && (N_of_ascii c <=? 57))%N eqn:E.
  - apply andb_true_iff in E. rewrite !N.leb_le in E. split; [intros [X _]; injection X as <-; lia|]. intros [_ ->]. split; [reflexivity|lia].
  - apply andb_false_iff in E. rewrite !N.leb_gt in E. split; [|lia]. intros [X Y]. exfalso.
    destruct ((97 <=? N_of_ascii c) && (N_of_ascii c <=? 122))%N eqn:E2.
    + apply andb_true_iff in E2. rewrite !N.leb_le in E2. injection X as <-. lia.
    + destruct ((65 <=? N_of_ascii c) && (N_of_ascii c <=? 90))%N eqn:E3; [|discriminate].
      apply andb_true_iff in E3. rewrite !N.leb_le in E3. injection X as <-. lia.
Qed.
Lemma parse_digits_decimal : forall s acc n, parse_digits 10 acc s = Some n <->
  Forall digit s /\ n = fold_left (fun a c => a * 10 + (N_of_ascii c - 48))%N s acc.
Proof.
  induction s as [|c s IH]; intros acc n; cbn [parse_digits fold_left].
  - split; [intros H; injection H as <-; auto|intros [_ ->]; auto].
  - split.
    + destruct (digit_val c) as [d|] eqn:D; [|discriminate]. destruct (d <? 10)%N eqn:L; [|discriminate]. apply N.ltb_lt in L.
      destruct (proj1 (digit_val_digit c d) (conj D L)) as [X ->]. intros H. apply IH in H. destruct H. split; auto.
    + intros [F ->]. inversion F; subst. destruct (proj2 (digit_val_digit c (N_of_ascii c - 48)%N)) as [D L]; auto.
      rewrite D. apply N.ltb_lt in L. rewrite L. apply IH. auto.
Qed.
Lemma parse_uint_decimal : forall s n, parse_uint 10 64 s = Ok n <-> decimal s n /\ (n < 2 ^ 64)%N.
Proof.
  intros s n. unfold parse_uint, decimal. destruct s as [|c s].
  - split; [discriminate|]. intros [[X _] _]. now destruct X.
  - destruct (parse_digits 10 0 (c :: s)) as [m|] eqn:P.
    + apply parse_digits_decimal in P. destruct P as [F P]. destruct (m <? 2 ^ 64)%N eqn:L.
      * apply N.ltb_lt in L. split; [intros H; injection H as <-; conjs; auto; discriminate|]. intros [[_ [_ ->]] _]. now rewrite P.
      * apply N.ltb_ge in L. split; [discriminate|]. intros [[_ [_ ->]] X]. rewrite <- P in X. lia.
    + split; [discriminate|]. intros [[_ [F E]] _]. rewrite (proj2 (parse_digits_decimal _ _ _) (conj F E)) in P. discriminate.
Qed.
