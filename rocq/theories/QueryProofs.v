(** Lemmas on relations in scope and on conditions. *)
From Coq Require Import Ascii String ZArith NArith Bool List Lia.
From Verif Require Import GoBase Strconv ConvertUtil ConvertProofs Filter AParse PgSpec TagSpec AParseProofs Analysis AnalysisSpec AnalysisProofs AnalysisRoles QuerySpec.
Import ListNotations.
Local Open Scope char_scope.

Lemma GetStruct_spec : forall t n fs, GetStruct t = Some (n, fs) ->
  struct_of t fs /\ (t = TStruct fs /\ n = None \/ exists m, t = TNamed m (TStruct fs) /\ n = Some m).
Proof.
  intros t n fs H. unfold struct_of. destruct t; try discriminate.
  - cbn in H. inversion H; subst. auto.
  - cbn in H. destruct t; try discriminate. inversion H; subst. split; right; eauto.
Qed.
Lemma struct_of_get : forall t fs, struct_of t fs -> exists n, GetStruct t = Some (n, fs).
Proof. intros t fs [->|(n & ->)]; cbn; eauto. Qed.

(** ** Scope *)
Lemma rel_scope_name : forall s rid sp sp', parseRelIdent s = inl rid -> addToRelSpace sp rid = inl sp' ->
  exists k, scope_name s k /\ sp' = (k, rid) :: sp /\ ~ In k (map fst sp).
Proof.
  intros s [n a q] sp sp' H A. apply parseRelIdent_spec in H. destruct H as (E & N & Q & AA).
  unfold addToRelSpace in A. cbn [r_alias r_name] in A.
  assert (L : forall k, lookup k sp = None -> ~ In k (map fst sp)).
  { intros k L I. apply lookup_in in I. destruct I as (x & I). congruence. }
  destruct a as [|c a].
  - destruct (lookup n sp) eqn:K; [discriminate|]. inversion A; subst sp'. exists n. conjs; auto. exists q, n, []. conjs; auto.
  - destruct (lookup (c :: a) sp) eqn:K; [discriminate|]. inversion A; subst sp'. exists (c :: a). conjs; auto. exists q, n, (c :: a).
    conjs; auto. right. split; auto. destruct AA; [discriminate|auto].
Qed.

Lemma silent_spec : forall v, silent v <->
  bytes_eqb (tag_first (v_tag v) (B "sql")) (B "-") || bytes_eqb (tag_first (v_tag v) (B "sql")) [] || negb (bytes_eqb (v_name v) (B "_")) = true.
Proof.
  intros v. unfold silent. rewrite !orb_true_iff, negb_true_iff, bytes_eqb_neq, !bytes_eqb_eq. split.
  - intros [(l & H)|[(l & H)|H]]; [| |now right]; apply sql_tag_spec in H; destruct H as [H _]; rewrite H; auto.
  - intros [[H|H]|H]; [right; left|left|now right; right];
      (exists (tl (tag_get (v_tag v) (B "sql"))); apply sql_tag_spec; split; auto).
Qed.
Lemma sql_tag_first : forall v, sql_tag v (tag_first (v_tag v) (B "sql")) (tl (tag_get (v_tag v) (B "sql"))).
Proof. intros v. now apply sql_tag_spec. Qed.

Lemma join_fields_names : forall fs sp j sp' j', join_fields sp j fs = AOk (sp', j') ->
  exists ks, join_names fs ks /\ map fst sp' = rev ks ++ map fst sp /\ (NoDup (map fst sp) -> NoDup (map fst sp')).
Proof.
  induction fs as [|[v t] fs IH]; intros sp j sp' j' H; cbn [join_fields] in H.
  - inversion H; subst. exists []. conjs; auto. constructor.
  - destruct (_ || _) eqn:SI.
    + apply silent_spec in SI. apply IH in H. destruct H as (ks & A & C & D). exists ks. conjs; auto. now constructor.
    + assert (NS : ~ silent v) by (intros X; apply silent_spec in X; congruence). aok. apply IH in K0. destruct K0 as (ks & A & C & D).
      assert (J : exists rid, parseRelIdent (tag_first (v_tag v) (B "sql")) = inl rid /\ addToRelSpace sp rid = inl x).
      { destruct (bytes_eqb _ (B "relation")).
        - unfold join_relation in E0. cbv zeta in E0. aok. subst. eauto.
        - destruct (existsb _ _); [|discriminate]. unfold join_directive in E0. aok. subst. eauto. }
      destruct J as (rid & J1 & J2). destruct (rel_scope_name _ _ _ _ J1 J2) as (k & K1 & -> & K3). cbn [map fst] in C, D.
      exists (k :: ks). conjs.
      * eapply jn_name; eauto using sql_tag_first.
      * rewrite C. cbn [rev]. now rewrite <- app_assoc.
      * intros N. apply D. now constructor.
Qed.

(** What a field pass step does to the scope. *)
Definition extends (q q' : qstate) : Prop := exists l, map fst (q_sp q') = l ++ map fst (q_sp q).
Lemma joins_dec : forall r, joins r \/ ~ joins r.
Proof. intros []; unfold joins; auto; right; intros [H|[H|H]]; discriminate. Qed.

Lemma sp_where : forall e q v t q', analyzeWhereStruct e q v t = AOk q' -> q_sp q' = q_sp q.
Proof.
  intros e q v t q' H. unfold analyzeWhereStruct in H. aok. destruct (GetStruct t) as [[? ?]|]; [|discriminate].
  destruct (where_struct _ _ _ _); [|discriminate]. aok. now subst.
Qed.
Lemma sp_onconflict : forall e q v t q', analyzeOnConflictStruct e q v t = AOk q' -> q_sp q' = q_sp q.
Proof.
  intros e q v t q' H. unfold analyzeOnConflictStruct in H. aok. destruct (GetStruct t) as [[? ?]|]; [|discriminate]. aok. now subst.
Qed.
Lemma sp_join : forall e q v t q', analyzeJoinStruct e q v t = AOk q' ->
  exists fs ks, struct_of t fs /\ join_names fs ks /\ map fst (q_sp q') = rev ks ++ map fst (q_sp q)
    /\ (NoDup (map fst (q_sp q)) -> NoDup (map fst (q_sp q'))).
Proof.
  intros e q v t q' H. unfold analyzeJoinStruct in H. cbv zeta in H. aok. destruct (GetStruct t) as [[n fs]|] eqn:G; [|discriminate]. aok. subst.
  apply join_fields_names in E2. destruct E2 as (ks & A & C & D). apply GetStruct_spec in G. exists fs, ks. conjs; auto. apply G.
Qed.
Ltac sp_auto H := unfold analyzeLimit, analyzeOffset, analyzeResultField, analyzeRowsAffectedField, analyzeOrderByDirective, analyzeAllDirective,
  analyzeDefaultDirective, analyzeForceDirective, analyzeOptionalDirective, analyzeReturnDirective, analyzeOverrideDirective,
  analyzeFilterField, analyzeErrorHandlerField, analyzeContextField in H; cbv zeta in H; aok; subst; try reflexivity.

Lemma sp_override : forall e q v t q', analyzeOverrideDirective e q v t = AOk q' -> q_sp q' = q_sp q.
Proof.
  intros e q v t q' H. unfold analyzeOverrideDirective in H. cbv zeta in H. aok.
  destruct (bytes_eqb _ _); [|destruct (bytes_eqb _ _)]; aok; subst; reflexivity.
Qed.

Lemma step_scope : forall e q v t q', field_pass1 e q v t = AOk q' -> tag_has (v_tag v) (B "rel") = false ->
  (~ joins (rolef v t) /\ q_sp q' = q_sp q) \/
  (joins (rolef v t) /\ exists fs ks, struct_of t fs /\ join_names fs ks /\ map fst (q_sp q') = rev ks ++ map fst (q_sp q)
    /\ (NoDup (map fst (q_sp q)) -> NoDup (map fst (q_sp q')))).
Proof.
  intros e q v t q' H R. unfold field_pass1 in H. unfold rolef. rewrite R in *. aok. rewrite E.
  assert (NJ : forall r, ~ joins r -> q_sp q' = q_sp q -> (~ joins r /\ q_sp q' = q_sp q) \/
     (joins r /\ exists fs ks, struct_of t fs /\ join_names fs ks /\ map fst (q_sp q') = rev ks ++ map fst (q_sp q)
    /\ (NoDup (map fst (q_sp q)) -> NoDup (map fst (q_sp q'))))) by auto.
  assert (J0 : ~ joins RNone) by (intros [|[|]]; discriminate).
  destruct (bytes_eqb (v_name v) (B "_")) eqn:U; cbn [andb] in K.
  - destruct (bytes_eqb a []) eqn:EA; cbn [negb] in K.
    + apply bytes_eqb_eq in EA. subst a. apply bytes_eqb_eq in U. unfold analyzeQueryStructField in K.
      rewrite U in K. cbn in K. aok. subst. cbn. auto.
    + unfold analyzeQueryStructDirective, directive_analyzers in K. unfold directive_roles.
      repeat (rewrite lookup_cons in K; rewrite lookup_cons; change lit with B;
        match type of K with context [bytes_eqb ?x ?y] => destruct (bytes_eqb x y) eqn:?; cbv iota in K |- * end;
        [solve [apply NJ; [intros [|[|]]; discriminate|]; first [now eapply sp_override; eauto | sp_auto K]]|]).
      discriminate K.
  - unfold analyzeQueryStructField, field_analyzers in K. unfold field_roles. rewrite U in K. cbv iota in K |- *.
    repeat (rewrite lookup_cons in K; rewrite lookup_cons; change lit with B;
        match type of K with context [bytes_eqb ?x ?y] => destruct (bytes_eqb x y) eqn:?; cbv iota in K |- * end;
        [solve [right; split; [unfold joins; auto|eapply sp_join; eauto]
               |apply NJ; [intros [|[|]]; discriminate|]; eauto using sp_where, sp_onconflict; sp_auto K]|]).
    cbn [lookup] in K |- *. aok. apply NJ.
    + destruct a0; rewrite E0. intros [|[|]]; discriminate. destruct (_ || _). intros [|[|]]; discriminate. destruct (IsContext t); auto. intros [|[|]]; discriminate.
    + destruct a0. sp_auto K0. destruct (isErrorHandler t). sp_auto K0. destruct (isErrorInfoHandler t). sp_auto K0.
      destruct (IsContext t); sp_auto K0.
Qed.

Lemma rolel_joined_cons : forall v t fs ks, ~ joins (rolef v t) -> joined_names (rolel fs) ks -> joined_names (rolel ((v, t) :: fs)) ks.
Proof. intros v t fs ks N J. rewrite rolel_cons. destruct (rolef v t) eqn:E; cbn [app]; try (apply jd_other; auto); auto. Qed.
Lemma pass_scope : forall e fs q q', field_pass e q fs = AOk q' ->
  exists ks, joined_names (rolel fs) ks /\ map fst (q_sp q') = rev ks ++ map fst (q_sp q)
    /\ (NoDup (map fst (q_sp q)) -> NoDup (map fst (q_sp q'))).
Proof.
  induction fs as [|[v t] fs IH]; intros q q' H; cbn [field_pass] in H.
  - aok. subst. exists []. conjs; auto. constructor.
  - aok. apply IH in K. destruct K as (ks & J & M & N). destruct (tag_has (v_tag v) (B "rel")) eqn:R.
    + unfold field_pass1 in E. rewrite R in E. aok. subst. exists ks. conjs; auto. apply rolel_joined_cons; auto.
      rewrite (rolef_rel v t R). intros [|[|]]; discriminate.
    + apply step_scope in E; auto. destruct E as [[A E]|(A & fs' & js & B1 & C & D & F)].
      * rewrite E in M, N. exists ks. conjs; auto. now apply rolel_joined_cons.
      * exists (js ++ ks). conjs; auto.
        -- rewrite rolel_cons. destruct (rolef v t) eqn:RE; try (now destruct A as [|[|]]); cbn [app]; eapply jd_join; eauto.
        -- rewrite M, D. rewrite rev_app_distr. now rewrite app_assoc.
Qed.

Lemma rel_pass_none : forall e fs q q', rel_pass e q fs = AOk q' -> is_some (q_rel q) = true -> q' = q.
Proof.
  induction fs as [|[v t] fs IH]; intros q q' H R; cbn [rel_pass] in H; [now inversion H|].
  destruct (tag_has _ _); [|eauto]. aok. apply rel_field_inv in E. destruct E as (? & ? & ? & ? & ? & N & _). rewrite N in R. discriminate.
Qed.
Lemma rel_pass_inv : forall e fs q q', rel_pass e q fs = AOk q' -> q_rel q = None -> is_some (q_rel q') = true ->
  exists fs1 v t fs2, fs = fs1 ++ (v, t) :: fs2 /\ tag_has (v_tag v) (B "rel") = true
    /\ Forall (fun f => tag_has (v_tag (fst f)) (B "rel") = false) (fs1 ++ fs2)
    /\ analyzeQueryStructRelField e q v t = AOk q'.
Proof.
  induction fs as [|[v t] fs IH]; intros q q' H N S1; cbn [rel_pass] in H.
  - inversion H; subst. rewrite N in S1. discriminate.
  - destruct (tag_has (v_tag v) (B "rel")) eqn:T.
    + aok. assert (R : is_some (q_rel a) = true). { pose proof E as E'. apply rel_field_inv in E'. destruct E' as (? & ? & ? & ? & ? & _ & _ & _ & -> & _). reflexivity. }
      pose proof (rel_pass_effect _ _ _ _ K) as (_ & _ & _ & F). apply rel_pass_none in K; auto. subst.
      exists [], v, t, fs. conjs; auto. cbn [app]. apply Forall_forall. intros [v' t'] I. cbn [fst].
      destruct (tag_has (v_tag v') (B "rel")) eqn:T'; auto. exfalso. apply (F R (v', t', RRel)); auto.
      apply in_flat_map. exists (v', t'). split; auto. cbn [fst snd]. rewrite (rolef_rel v' t' T'). now left.
    + destruct (IH _ _ H N S1) as (fs1 & v' & t' & fs2 & -> & T' & F & E). exists ((v, t) :: fs1), v', t', fs2. conjs; auto. now constructor.
Qed.

(** ** Columns in scope *)
Definition known (sc : list bytes) (id : ColIdent) : Prop := c_qual id = [] \/ In (c_qual id) sc.
Lemma column_id_parse : forall sp s id, parseColIdent sp s = inl id <-> column_id (map fst sp) s id.
Proof. intros sp s [q n]. apply parseColIdent_in. Qed.
Lemma column_id_known : forall sc s id, column_id sc s id -> known sc id.
Proof.
  intros sc s id (_ & _ & Q & _). unfold known. destruct (c_qual id); [now left|]. right. now apply Q.
Qed.
Lemma bad_col : forall sp s, parseColIdent sp s = inr EBadColId -> ~ column_like s.
Proof.
  intros sp s H (q & n & E & N & D).
  destruct (bytes_dec q []) as [->|Q].
  - assert (K : parseColIdent sp s = inl (MkCol [] n)) by (apply parseColIdent_spec; destruct D as [[_ D]|D]; [auto|now apply name_nonempty in D]). congruence.
  - assert (Q' : is_name q) by (destruct D as [[D _]|D]; [contradiction|auto]).
    destruct (in_dec (list_eq_dec ascii_dec) q (map fst sp)) as [I|I].
    + assert (K : parseColIdent sp s = inl (MkCol q n)) by (apply parseColIdent_spec; auto). congruence.
    + assert (K : parseColIdent sp s = inr EUnknownQualifier).
      { apply parseColIdent_error. exists q, n. conjs; auto. rewrite E. destruct q; [contradiction|reflexivity]. }
      congruence.
Qed.

(** ** Conditions *)
Lemma unary_spec : forall p, unary p <-> p_unary p = true.
Proof. intros p. unfold unary. split; [cbn; intros H; repeat (destruct H as [<-|H]; [reflexivity|]); contradiction|destruct p; try discriminate; intros _; cbn; repeat (first [left; reflexivity | right])]. Qed.
Lemma quantifiable_spec : forall p, quantifiable p <-> CanQuantify p = true.
Proof. intros p. unfold quantifiable. split; [cbn; intros H; repeat (destruct H as [<-|H]; [reflexivity|]); contradiction|destruct p; try discriminate; intros _; cbn; repeat (first [left; reflexivity | right])]. Qed.
Lemma quantifier_of_spec : forall s, quantifier_of s (stringToQuantifier s).
Proof.
  intros s. unfold quantifier_of, stringToQuantifier. destruct (bytes_eqb s (B "any")) eqn:E1; [apply bytes_eqb_eq in E1; auto|].
  destruct (bytes_eqb s (B "some")) eqn:E2; [apply bytes_eqb_eq in E2; auto|].
  destruct (bytes_eqb s (B "all")) eqn:E3; [apply bytes_eqb_eq in E3; auto|].
  apply bytes_eqb_neq in E1, E2, E3. right; right; right. conjs; auto.
Qed.
Lemma not_unary : forall p, negb (p_unary p) = true -> ~ unary p.
Proof. intros p H U. apply unary_spec in U. rewrite U in H. discriminate. Qed.
Lemma quant_ok : forall q p, negb (quant_set q) || CanQuantify p = true -> q <> QNone -> quantifiable p.
Proof. intros q p H N. apply quantifiable_spec. destruct q; cbn in H; auto; congruence. Qed.

Lemma binary_cond_ok : forall sp id lhs s op q r c, parsePredicateExpr s = Ok (lhs, op, q, r) -> r <> [] ->
  column_id (map fst sp) lhs id -> binary_cond sp id op q r = AOk c -> column_condition (map fst sp) s c.
Proof.
  intros sp id lhs s op q r c P R C H. unfold binary_cond in H. cbv zeta in H. aok. subst.
  destruct (parseColIdent sp r) as [rid|er] eqn:PR.
  - inversion E; subst. eapply cc_column; eauto using not_unary, quantifier_of_spec, quant_ok. now apply column_id_parse.
  - destruct er; try discriminate. inversion E; subst. eapply cc_literal; eauto using not_unary, quantifier_of_spec, quant_ok, bad_col.
Qed.
Lemma where_column_ok : forall sp s lhs op q r c, parsePredicateExpr s = Ok (lhs, op, q, r) ->
  where_column sp lhs op q r = AOk c -> column_condition (map fst sp) s c.
Proof.
  intros sp s lhs op q r c P H. unfold where_column in H. aok. apply column_id_parse in E. destruct r as [|x r].
  - cbv zeta in K. aok. apply bytes_eqb_eq in E1. subst q c. apply unary_spec in E0. eapply cc_unary; eauto.
    unfold predicate_of. destruct op; [left; split; reflexivity|right; split; [discriminate|reflexivity]].
  - eapply binary_cond_ok; eauto. discriminate.
Qed.
Lemma join_cond_ok : forall sp rid s c, join_cond sp rid s = AOk c -> column_condition (map fst sp) s c /\ join_lhs_ok rid (c_lhs c) = true.
Proof.
  intros sp rid s c H. unfold join_cond in H. aok. apply column_id_parse in E0. destruct y as [|x0 r].
  - cbv zeta in *. aok. subst. apply bytes_eqb_eq in E3. subst. apply unary_spec in E2. split; [|exact E1]. eapply cc_unary; eauto.
    unfold predicate_of. destruct y1; [left; split; reflexivity|right; split; [discriminate|reflexivity]].
  - split. eapply binary_cond_ok; eauto. discriminate. unfold binary_cond in *. cbv zeta in *. aok. subst. exact E1.
Qed.

(** ** Where structs *)
Definition where_loop (e : env) (sp : relspace) (n : option tname) : fields -> list witem -> ares (list witem) :=
  fix loop (fs : fields) (items : list witem) : ares (list witem) :=
       match fs with
       | [] => AOk items
       | (v, t) :: fs =>
           let sqltag := tag_first (v_tag v) (B "sql") in
           if bytes_eqb sqltag (B "-") || bytes_eqb sqltag [] then loop fs items
           else
             do acc <- (if bytes_eqb (v_name v) (B "_") then AOk true
                        else isAccessible e (v_name v) (v_exported v) n);
             if negb acc then loop fs items
             else
               do items <- where_bool (v_tag v) items;
               if bytes_eqb sqltag (B ">") then
                 match where_struct e sp n t with
                 | None => AErr EBadFieldTypeStruct
                 | Some r => do sub <- r; loop fs (items ++ [WNested (v_name v) sub])
                 end
               else
                 do l <- where_leaf e sp v t sqltag;
                 loop fs (items ++ l)
       end.
Lemma where_struct_eq : forall e sp n t, where_struct e sp n t =
  match GetStruct t with Some (_, fs) => Some (where_loop e sp n fs []) | None => None end.
Proof. intros e sp n t. destruct t; try reflexivity. destruct t; reflexivity. Qed.

Lemma where_bool_ok : forall v items items', where_bool (v_tag v) items = AOk items' ->
  exists b, items' = items ++ (match items with [] => [] | _ => [WBool b] end)
    /\ (items <> [] -> connective v b).
Proof.
  intros v items items' H. unfold where_bool in H. destruct items as [|i items]; [inversion H; exists BoolAnd; split; [reflexivity|congruence]|].
  cbv zeta in H. set (x := tag_first (v_tag v) (B "bool")) in *.
  assert (X : (exists l, tag_value (v_tag v) (lit "bool") (x :: l))
             \/ (x = [] /\ (tag_value (v_tag v) (lit "bool") [] \/ ~ tagged v (lit "bool")))).
  { unfold x, tag_first, tag_get. change (B "bool") with (lit "bool"). destruct (lookup (lit "bool") (v_tag v)) as [[|y l]|] eqn:L.
    - right. split; auto. left. now apply tag_value_lookup.
    - left. exists l. now apply tag_value_lookup.
    - right. split; auto. right. intros (l & T). apply tag_value_lookup in T. congruence. }
  assert (C : forall b, (b = BoolAnd /\ (tolower x = [] \/ tolower x = lit "and")) \/ (b = BoolOr /\ tolower x = lit "or") -> connective v b).
  { intros b D. exists x. split; auto. }
  destruct (bytes_eqb (tolower x) []) eqn:E0; [|destruct (bytes_eqb (tolower x) (B "or")) eqn:E1; [|destruct (bytes_eqb (tolower x) (B "and")) eqn:E2; [|discriminate]]];
    inversion H; subst.
  - apply bytes_eqb_eq in E0. exists BoolAnd. split; auto.
  - apply bytes_eqb_eq in E1. exists BoolOr. split; auto.
  - apply bytes_eqb_eq in E2. exists BoolAnd. split; auto.
Qed.

Lemma contains_spec : forall sub s, contains sub s = true <-> exists a b, s = a ++ sub ++ b.
Proof.
  intros sub. induction s as [|c s IH]; cbn [contains]; rewrite orb_true_iff, has_prefix_spec; unfold prefix_of.
  - split.
    + intros [(t & E)|H]; [|discriminate]. exists [], t. exact E.
    + intros (a & b & E). left. symmetry in E. apply app_eq_nil in E. destruct E as [-> E]. apply app_eq_nil in E. destruct E as [-> ->]. exists []. reflexivity.
  - rewrite IH. split.
    + intros [(t & E)|(a & b & ->)]. exists [], t. exact E. exists (c :: a), b. reflexivity.
    + intros (a & b & E). destruct a as [|d a]. left. exists b. exact E. right. inversion E; subst. eauto.
Qed.
Lemma sequence_spec : forall e t i b, analyzeTypeInfo e t = AOk (i, b) -> IsSequence i = true -> sequence t.
Proof.
  intros e t i b H S1. unfold IsSequence in S1. rewrite (ati_kind _ _ _ _ H) in S1. clear H i b. unfold sequence.
  induction t as [k b r|n t IH|t IH|t IH|k IHk t IH|t IH|ps rs|ms a b c|fs|n t IHt]; cbn in S1; try discriminate.
  - exists t. right. exists n. constructor. discriminate.
  - exists t. left. constructor. discriminate.
  - destruct (IHt S1) as (u & [U|(k & U)]); exists u; [left|right; exists k]; now constructor.
Qed.
Lemma sequence_conv : forall t, sequence t -> analyzeTypeKind t = KSlice \/ analyzeTypeKind t = KArray.
Proof. intros t (u & [U|(n & U)]); rewrite (under_kind _ _ U); auto. Qed.

Lemma IsDirective_spec : forall d t b, IsDirective d t = AOk b -> (b = true <-> directive t d).
Proof.
  intros d t b H. unfold IsDirective in H. unfold directive. split.
  - intros ->. destruct t; try discriminate. destruct (bytes_eqb (n_name n) d) eqn:E; [|discriminate]. apply bytes_eqb_eq in E.
    destruct (abind_ok _ _ _ H) as (a & E0 & H'). injection H' as H0. apply andb_prop in H0. destruct H0 as [A C]. apply has_suffix_spec in A. apply is_isdir_spec in C.
    destruct C as (v & w & -> & C). unfold pkg_path in E0. destruct (n_pkg n) as [[p pn]|] eqn:P; [|discriminate]. injection E0 as <-.
    exists n, (TStruct [(v, w)]), p, pn, v, w. conjs; auto.
  - intros (n & u & p & pn & v & w & -> & N & P & Q & -> & E). rewrite N, bytes_eqb_refl in H. unfold pkg_path in H. rewrite P in H.
    cbn [abind fst] in H. rewrite (proj2 (has_suffix_spec gosql_path p) Q) in H. unfold is_isdir in H. rewrite E in H.
    change (bytes_eqb (lit "_isdir") (B "_isdir")) with true in H. inversion H; auto.
Qed.

Lemma where_field_ok : forall e sp v t lhs op q r w, v_name v <> lit "_" ->
  parsePredicateExpr (tag_first (v_tag v) (B "sql")) = Ok (lhs, op, q, r) -> contains (B "between") op = false ->
  where_field e sp v t lhs op q = AOk w -> item_of (map fst sp) v t w.
Proof.
  intros e sp v t lhs op q r w N P C H. unfold where_field in H. cbv zeta in H. aok. subst. apply column_id_parse in E.
  set (p := stringToPredicate _) in *.
  eapply io_field; eauto using sql_tag_first, not_unary, quantifier_of_spec.
  - intros a9 b9 X. assert (contains (B "between") op = true) by (apply contains_spec; eauto). congruence.
  - unfold predicate_of, p. destruct op; [left; split; reflexivity|right; split; [discriminate|reflexivity]].
  - intros Q. split. eapply quant_ok; eauto. eapply sequence_spec; eauto. destruct (stringToQuantifier q); cbn in E3; auto; congruence.
  - intros Q. eapply sequence_spec; eauto. destruct Q as [Q|Q]; rewrite Q in E4; exact E4.
  - eapply ati_kind; eauto.
Qed.

Lemma bound_pos_spec : forall w l, bound_pos (tolower w) = Some l -> bound_word l w.
Proof.
  intros w l H. unfold bound_pos in H. unfold bound_word.
  destruct (bytes_eqb (tolower w) (B "x")) eqn:E1; [apply bytes_eqb_eq in E1; inversion H; auto|]. cbn [orb] in H.
  destruct (bytes_eqb (tolower w) (B "lower")) eqn:E2; [apply bytes_eqb_eq in E2; inversion H; auto|].
  destruct (bytes_eqb (tolower w) (B "y")) eqn:E3; [apply bytes_eqb_eq in E3; inversion H; auto|]. cbn [orb] in H.
  destruct (bytes_eqb (tolower w) (B "upper")) eqn:E4; [apply bytes_eqb_eq in E4; inversion H; auto|discriminate].
Qed.
Lemma between_field_ok : forall e sp n v t st st', between_field e sp n v t st = AOk st' ->
  st' = st \/ (exists b, gives (map fst sp) true v t b /\ st' = (Some b, snd st)) \/ (exists b, gives (map fst sp) false v t b /\ st' = (fst st, Some b)).
Proof.
  intros e sp n v t st st' H. unfold between_field in H. cbv zeta in H. aok. destruct a.
  - assert (D : column_directive v t).
    { destruct (bytes_eqb (v_name v) (B "_")) eqn:U; [|discriminate]. split. now apply bytes_eqb_eq.
      apply (IsDirective_spec _ _ _ E). reflexivity. }
    aok. apply column_id_parse in E0. set (w := tag_second (v_tag v) (B "sql")) in *.
    assert (G : forall l, bound_pos (tolower w) = Some l -> gives (map fst sp) l v t (BoundColumn a)).
    { intros l L. assert (W : exists o, tl (tag_get (v_tag v) (B "sql")) = w :: o).
      { unfold w in *. unfold tag_second in *. destruct (tag_get (v_tag v) (B "sql")) as [|s [|w' o]]; try discriminate L. exists o. reflexivity. }
      destruct W as (o & W). pose proof (sql_tag_first v) as ST. rewrite W in ST. eapply gv_column; eauto. now apply bound_pos_spec. }
    subst. change (tag_second (v_tag v) ["s"; "q"; "l"]) with w. destruct (bound_pos (tolower w)) as [[]|] eqn:BP; cbn [set_bound]; [right; left|right; right|left; reflexivity];
      (eexists; split; [apply G; auto|reflexivity]).
  - aok. destruct a; [|inversion K0; auto]. aok. subst.
    assert (U : v_name v <> lit "_"). { apply bytes_eqb_neq. unfold isAccessible in E0. change (lit "_") with (B "_"). destruct (bytes_eqb (v_name v) (B "_")); [discriminate|auto]. }
    assert (G : forall l, bound_pos (tolower (tag_first (v_tag v) (B "sql"))) = Some l -> gives (map fst sp) l v t (BoundField (v_name v) x)).
    { intros l L. eapply gv_field; eauto using sql_tag_first. now apply bound_pos_spec. }
    change (tag_first (v_tag v) ["s"; "q"; "l"]) with (tag_first (v_tag v) (B "sql")).
    destruct (bound_pos _) as [[]|] eqn:BP; cbn [set_bound]; [right; left|right; right|left; reflexivity];
      (eexists; split; [apply G; auto|reflexivity]).
Qed.
Lemma where_between_ok : forall e sp v t lhs op q r w, v_name v <> lit "_" ->
  parsePredicateExpr (tag_first (v_tag v) (B "sql")) = Ok (lhs, op, q, r) -> contains (B "between") op = true ->
  where_between e sp v t lhs op q = AOk w -> item_of (map fst sp) v t w.
Proof.
  intros e sp v t lhs op q r w N P C H. unfold where_between in H. aok. apply bytes_eqb_eq in E. subst q.
  destruct (GetStruct t) as [[n fs]|] eqn:G; [|discriminate]. destruct fs as [|[v1 t1] [|[v2 t2] [|]]]; try discriminate. aok.
  destruct x0 as [lo|]; [|discriminate]. destruct y0 as [hi|]; [|discriminate]. aok. subst. apply column_id_parse in E1.
  apply GetStruct_spec in G. destruct G as [G _]. apply contains_spec in C.
  eapply io_between; eauto using sql_tag_first.
  apply between_field_ok in E, E0. 
  destruct E as [E|[(b & B1 & E)|(b & B1 & E)]]; inversion E; subst; 
  destruct E0 as [E0|[(b' & B2 & E0)|(b' & B2 & E0)]]; inversion E0; subst; auto.
Qed.

Definition fo (e : env) (n : option tname) : bool := match isImportedType e n with AOk b => b | _ => false end.
Lemma unsaid_tag : forall f v, bytes_eqb (tag_first (v_tag v) (B "sql")) (B "-") || bytes_eqb (tag_first (v_tag v) (B "sql")) [] = true -> unsaid f v.
Proof.
  intros f v H. unfold unsaid. apply orb_prop in H. destruct H as [H|H]; apply bytes_eqb_eq in H; [right; left|left]; eexists; apply sql_tag_spec; split; eauto.
Qed.
Lemma not_unsaid : forall f v, bytes_eqb (tag_first (v_tag v) (B "sql")) (B "-") || bytes_eqb (tag_first (v_tag v) (B "sql")) [] = false ->
  ~ (v_name v <> lit "_" /\ v_exported v = false /\ f = true) -> ~ unsaid f v.
Proof.
  intros f v H N [(l & X)|[(l & X)|X]]; auto; apply sql_tag_spec in X; destruct X as [X _]; rewrite X in H; cbn in H; discriminate.
Qed.
Lemma nested_tag : forall v, (exists o, sql_tag v (lit ">") o) <-> bytes_eqb (tag_first (v_tag v) (B "sql")) (B ">") = true.
Proof.
  intros v. rewrite bytes_eqb_eq. split.
  - intros (o & H). apply sql_tag_spec in H. apply H.
  - intros H. eexists. apply sql_tag_spec. split; eauto.
Qed.

Lemma where_leaf_ok : forall e sp v t l, where_leaf e sp v t (tag_first (v_tag v) (B "sql")) = AOk l ->
  (exists w, l = [w] /\ item_of (map fst sp) v t w) \/ (l = [] /\ v_name v = lit "_" /\ ~ column_directive v t).
Proof.
  intros e sp v t l H. unfold where_leaf in H. aok. destruct (bytes_eqb (v_name v) (B "_")) eqn:U.
  - apply bytes_eqb_eq in U. aok. pose proof (IsDirective_spec _ _ _ E0) as D. destruct a.
    + aok. subst. left. eexists. split; eauto. eapply io_column; eauto using sql_tag_first, where_column_ok. split; auto. now apply D.
    + aok. subst. right. conjs; auto. intros [_ X]. apply D in X. discriminate.
  - apply bytes_eqb_neq in U. left. destruct (contains _ _) eqn:C; aok; subst; eexists; split; eauto using where_between_ok, where_field_ok.
Qed.

Lemma where_sound : forall e sp n m t items, (tsize t <= m)%nat -> where_struct e sp n t = Some (AOk items) ->
  exists fs, struct_of t fs /\ where_items (map fst sp) (fo e n) false fs items.
Proof.
  intros e sp n. induction m as [m IHm] using lt_wf_ind. intros t items L H. rewrite where_struct_eq in H.
  destruct (GetStruct t) as [[nn fs]|] eqn:G; [|discriminate]. injection H as H. apply GetStruct_spec in G. destruct G as [G _].
  exists fs. split; auto.
  assert (LF : (list_sum (map (fun '(_, u) => S (tsize u)) fs) < m)%nat).
  { assert (tsize t = fsize fs) as T by (destruct G as [->|(x & ->)]; [|cbn [tsize]]; apply tsize_struct). rewrite T in L. unfold fsize in L. lia. }
  clear G L t nn.
  assert (X : forall acc out, where_loop e sp n fs acc = AOk out ->
     exists l, out = acc ++ l /\ where_items (map fst sp) (fo e n) (match acc with [] => false | _ => true end) fs l).
  { clear H items. induction fs as [|[v t] fs IH]; intros acc out H; cbn [where_loop] in H.
    - inversion H; subst. exists []. split. now rewrite app_nil_r. constructor.
    - fold (where_loop e sp n) in H. cbv zeta in H. unfold list_sum in LF. cbn [map fold_right] in LF.
      assert (LF' : (list_sum (map (fun '(_, u) => S (tsize u)) fs) < m)%nat) by (unfold list_sum; lia). specialize (IH LF').
      destruct (_ || _) eqn:US.
      + apply IH in H. destruct H as (l & -> & W). exists l. split; auto. apply wi_skip; auto. now apply unsaid_tag.
      + aok. destruct a; cbn [negb] in K.
        * assert (NU : ~ unsaid (fo e n) v).
          { apply not_unsaid; auto. intros (A & C & D). change (lit "_") with (B "_") in A. apply bytes_eqb_neq in A. rewrite A in E. unfold isAccessible in E. rewrite A, C in E.
            unfold fo in D. destruct (isImportedType e n) as [b| |]; try discriminate. subst b. discriminate. }
          aok. apply where_bool_ok in E0. destruct E0 as (b & -> & CB).
          assert (CB' : match acc with [] => false | _ => true end = true -> connective v b) by (intros Z; apply CB; destruct acc; congruence).
          destruct (bytes_eqb (tag_first (v_tag v) (B "sql")) (B ">")) eqn:NE.
          -- destruct (where_struct e sp n t) as [r|] eqn:WS; [|discriminate]. aok. subst.
             destruct (IHm (tsize t)) with (t := t) (items := a) as (fs' & S1 & W1); auto; [lia|].
             apply IH in K. destruct K as (l & -> & W).
             exists ((match acc with [] => [] | _ => [WBool b] end) ++ WNested (v_name v) a :: l). split; [now rewrite <- !app_assoc|].
             apply nested_tag in NE.
             assert (Y : match (acc ++ match acc with [] => [] | _ => [WBool b] end) ++ [WNested (v_name v) a] with [] => false | _ => true end = true) by (destruct acc; reflexivity).
             rewrite Y in W. destruct acc; eapply (wi_nested (map fst sp) (fo e n)) with (b := b) in W; eauto; exact W.
          -- aok. apply where_leaf_ok in E0. assert (NN : ~ (exists o, sql_tag v (lit ">") o)) by (rewrite nested_tag; congruence).
             apply IH in K. destruct K as (l & -> & W). destruct E0 as [(w & -> & I)|(-> & V & D)].
             ++ exists ((match acc with [] => [] | _ => [WBool b] end) ++ w :: l). split; [now rewrite <- !app_assoc|].
                assert (Y : match (acc ++ match acc with [] => [] | _ => [WBool b] end) ++ [w] with [] => false | _ => true end = true) by (destruct acc; reflexivity).
                rewrite Y in W. destruct acc; eapply (wi_item (map fst sp) (fo e n)) with (b := b) in W; eauto; exact W.
             ++ exists ((match acc with [] => [] | _ => [WBool b] end) ++ l). split; [rewrite app_nil_r; now rewrite <- !app_assoc|].
                rewrite app_nil_r in W. destruct acc; cbn [app] in W; eapply (wi_dangling (map fst sp) (fo e n)) with (b := b) in W; eauto; exact W.
        * apply IH in K. destruct K as (l & -> & W). exists l. split; auto. apply wi_skip; auto. right; right.
          destruct (bytes_eqb (v_name v) (B "_")) eqn:U; [discriminate|]. unfold isAccessible in E. rewrite U in E.
          destruct (v_exported v); [discriminate|]. unfold fo. destruct (isImportedType e n) as [[]| |]; try discriminate. conjs; auto. now apply bytes_eqb_neq. }
  apply X in H. destruct H as (l & -> & W). exact W.
Qed.
