(** Lemmas on where the parts of an accepted query struct come from. *)
From Coq Require Import Ascii String ZArith NArith Bool List Lia.
From Verif Require Import GoBase Strconv ConvertUtil ConvertProofs Filter Filters2Final AParse PgSpec TagSpec SqlSpec AParseProofs TagsFinal Analysis AnalysisSpec AnalysisProofs AnalysisRoles QuerySpec QueryProofs QueryShape.
Import ListNotations.
Local Open Scope char_scope.

(** ** Which analyzer ran *)
Inductive ran (e : env) (q : qstate) (v : fvar) (t : gtype) (q' : qstate) : role -> Prop :=
| ra_where : analyzeWhereStruct e q v t = AOk q' -> ran e q v t q' RWhere
| ra_join : forall r, joins r -> analyzeJoinStruct e q v t = AOk q' -> ran e q v t q' r
| ra_onconflict : analyzeOnConflictStruct e q v t = AOk q' -> ran e q v t q' ROnConflict
| ra_limit : analyzeLimit e q v t = AOk q' -> ran e q v t q' RLimit
| ra_offset : analyzeOffset e q v t = AOk q' -> ran e q v t q' ROffset
| ra_errh : forall b, analyzeErrorHandlerField q v b = AOk q' -> ran e q v t q' RErrorHandler
| ra_ctx : analyzeContextField q v = AOk q' -> ran e q v t q' RContext
| ra_filter : analyzeFilterField q v = AOk q' -> ran e q v t q' RFilter
| ra_result : analyzeResultField e q v t = AOk q' -> ran e q v t q' RResult
| ra_rows : analyzeRowsAffectedField e q v t = AOk q' -> ran e q v t q' RRows
| ra_return : analyzeReturnDirective e q v t = AOk q' -> ran e q v t q' RReturn
| ra_orderby : analyzeOrderByDirective e q v t = AOk q' -> ran e q v t q' ROrderBy
| ra_optional : analyzeOptionalDirective e q v t = AOk q' -> ran e q v t q' ROptional
| ra_force : analyzeForceDirective e q v t = AOk q' -> ran e q v t q' RForce
| ra_default : analyzeDefaultDirective e q v t = AOk q' -> ran e q v t q' RDefault
| ra_override : analyzeOverrideDirective e q v t = AOk q' -> ran e q v t q' ROverride
| ra_all : analyzeAllDirective e q v t = AOk q' -> ran e q v t q' RAll
| ra_none : q' = q -> ran e q v t q' RNone
| ra_rel : q' = q -> ran e q v t q' RRel.

Lemma step_ran : forall e q v t q', field_pass1 e q v t = AOk q' -> ran e q v t q' (rolef v t).
Proof.
  intros e q v t q' H. unfold field_pass1 in H. unfold rolef. destruct (tag_has _ _); [aok; now apply ra_rel|].
  aok. rewrite E. destruct (bytes_eqb (v_name v) (B "_")) eqn:U; cbn [andb] in K.
  - destruct (bytes_eqb a []) eqn:EA; cbn [negb] in K.
    + apply bytes_eqb_eq in EA. subst a. apply bytes_eqb_eq in U. unfold analyzeQueryStructField in K.
      rewrite U in K. cbn in K. aok. subst. cbn. now apply ra_none.
    + unfold analyzeQueryStructDirective, directive_analyzers in K. unfold directive_roles.
      repeat (rewrite lookup_cons in K; rewrite lookup_cons; change lit with B;
        match type of K with context [bytes_eqb ?x ?y] => destruct (bytes_eqb x y) eqn:?; cbv iota in K |- * end;
        [solve [eauto using ra_all, ra_default, ra_force, ra_optional, ra_return, ra_limit, ra_offset, ra_orderby, ra_override]|]).
      discriminate K.
  - unfold analyzeQueryStructField, field_analyzers in K. unfold field_roles. rewrite U in K. cbv iota in K |- *.
    repeat (rewrite lookup_cons in K; rewrite lookup_cons; change lit with B;
        match type of K with context [bytes_eqb ?x ?y] => destruct (bytes_eqb x y) eqn:?; cbv iota in K |- * end;
        [solve [eauto using ra_where, ra_onconflict, ra_result, ra_limit, ra_offset, ra_rows
               | apply ra_join; [unfold joins; auto|exact K]]|]).
    cbn [lookup] in K |- *. aok. destruct a0.
    + rewrite E0. eauto using ra_filter.
    + rewrite E0. destruct (isErrorHandler t); [eauto using ra_errh|]. destruct (isErrorInfoHandler t); [cbn; eauto using ra_errh|].
      destruct (IsContext t); [cbn; eauto using ra_ctx|]. aok. subst. cbn. now apply ra_none.
Qed.

(** What each analyzer sets. *)
Lemma set_where_ok : forall e q v t q', analyzeWhereStruct e q v t = AOk q' -> exists x, q' = set_where_ (Some x) q.
Proof. intros e q v t q' H. apply analyze_where_ok in H. destruct H as (f & fs & items & _ & _ & _ & ->). eauto. Qed.
Lemma set_join_ok : forall e q v t q', analyzeJoinStruct e q v t = AOk q' -> exists sp x, q' = set_join_ (Some x) (set_sp_ sp q).
Proof. intros e q v t q' H. unfold analyzeJoinStruct in H. cbv zeta in H. aok. destruct (GetStruct t) as [[n fs]|]; [|discriminate]. aok. subst. eauto. Qed.
Lemma set_onconflict_ok : forall e q v t q', analyzeOnConflictStruct e q v t = AOk q' -> exists x, q' = set_onconflict_ (Some x) q.
Proof. intros e q v t q' H. unfold analyzeOnConflictStruct in H. aok. destruct (GetStruct t) as [[n fs]|]; [|discriminate]. aok. subst. eauto. Qed.
Ltac setter f := intros; unfold f in *; cbv zeta in *; aok; subst; eauto.
Lemma set_limit_ok : forall e q v t q', analyzeLimit e q v t = AOk q' -> exists x, q' = set_limit_ (Some x) q.
Proof. setter analyzeLimit. Qed.
Lemma set_offset_ok : forall e q v t q', analyzeOffset e q v t = AOk q' -> exists x, q' = set_offset_ (Some x) q.
Proof. setter analyzeOffset. Qed.
Lemma set_errh_ok : forall q v b q', analyzeErrorHandlerField q v b = AOk q' -> q' = set_errh_ (Some (MkErrH (v_name v) b)) q.
Proof. setter analyzeErrorHandlerField. Qed.
Lemma set_ctx_ok : forall q v q', analyzeContextField q v = AOk q' -> q' = set_ctx_ (Some (v_name v)) q.
Proof. setter analyzeContextField. Qed.
Lemma set_filter_ok : forall q v q', analyzeFilterField q v = AOk q' -> q' = set_filter_ (Some (v_name v)) q.
Proof. setter analyzeFilterField. Qed.
Lemma set_result_ok : forall e q v t q', analyzeResultField e q v t = AOk q' -> exists x, q' = set_result_ (Some x) q.
Proof. setter analyzeResultField. Qed.
Lemma set_rows_ok : forall e q v t q', analyzeRowsAffectedField e q v t = AOk q' -> exists x, q' = set_rows_ (Some x) q.
Proof. setter analyzeRowsAffectedField. Qed.
Lemma set_return_ok : forall e q v t q', analyzeReturnDirective e q v t = AOk q' -> exists x, q' = set_return_ (Some x) q.
Proof. setter analyzeReturnDirective. Qed.
Lemma set_orderby_ok : forall e q v t q', analyzeOrderByDirective e q v t = AOk q' -> exists x, q' = set_orderby_ (Some x) q.
Proof. setter analyzeOrderByDirective. Qed.
Lemma set_optional_ok : forall e q v t q', analyzeOptionalDirective e q v t = AOk q' -> exists x, q' = set_optional_ (Some x) q.
Proof. setter analyzeOptionalDirective. Qed.
Lemma set_force_ok : forall e q v t q', analyzeForceDirective e q v t = AOk q' -> exists x, q' = set_force_ (Some x) q.
Proof. setter analyzeForceDirective. Qed.
Lemma set_default_ok : forall e q v t q', analyzeDefaultDirective e q v t = AOk q' -> exists x, q' = set_default_ (Some x) q.
Proof. setter analyzeDefaultDirective. Qed.
Lemma set_override_ok : forall e q v t q', analyzeOverrideDirective e q v t = AOk q' -> exists x, q' = set_override_ (Some x) q.
Proof.
  intros e q v t q' H. unfold analyzeOverrideDirective in H. cbv zeta in H. aok.
  repeat match goal with K : (if ?c then _ else _) = _ |- _ => destruct c end; try discriminate; aok; subst; eauto.
Qed.
Lemma set_all_ok : forall e q v t q', analyzeAllDirective e q v t = AOk q' -> q' = set_all_ true q.
Proof. setter analyzeAllDirective. Qed.

(** A slot is touched by its own roles only. *)
Ltac untouched :=
  let H := fresh in intros e q v t q' H; apply step_ran in H;
  let R := fresh "R" in let N := fresh "N" in
  remember (rolef v t) as R eqn:HeqR; clear HeqR; intros N; destruct H as
   [H|r J H|H|H|H|b H|H|H|H|H|H|H|H|H|H|H|H|H|H];
  [apply set_where_ok in H; destruct H as (x & ->)
  |apply set_join_ok in H; destruct H as (sp & x & ->); destruct J as [ -> | [ -> | -> ]]
  |apply set_onconflict_ok in H; destruct H as (x & ->)
  |apply set_limit_ok in H; destruct H as (x & ->)
  |apply set_offset_ok in H; destruct H as (x & ->)
  |apply set_errh_ok in H; subst q'
  |apply set_ctx_ok in H; subst q'
  |apply set_filter_ok in H; subst q'
  |apply set_result_ok in H; destruct H as (x & ->)
  |apply set_rows_ok in H; destruct H as (x & ->)
  |apply set_return_ok in H; destruct H as (x & ->)
  |apply set_orderby_ok in H; destruct H as (x & ->)
  |apply set_optional_ok in H; destruct H as (x & ->)
  |apply set_force_ok in H; destruct H as (x & ->)
  |apply set_default_ok in H; destruct H as (x & ->)
  |apply set_override_ok in H; destruct H as (x & ->)
  |apply set_all_ok in H; subst q'
  |subst q'|subst q']; try reflexivity; exfalso; apply N; cbn; tauto.
Lemma un_where : forall e q v t q', field_pass1 e q v t = AOk q' -> ~ In (rolef v t) [RWhere] -> q_where q' = q_where q.
Proof. untouched. Qed.
Lemma un_join : forall e q v t q', field_pass1 e q v t = AOk q' -> ~ In (rolef v t) [RJoin; RFrom; RUsing] -> q_join q' = q_join q.
Proof. untouched. Qed.
Lemma un_onconflict : forall e q v t q', field_pass1 e q v t = AOk q' -> ~ In (rolef v t) [ROnConflict] -> q_onconflict q' = q_onconflict q.
Proof. untouched. Qed.
Lemma un_limit : forall e q v t q', field_pass1 e q v t = AOk q' -> ~ In (rolef v t) [RLimit] -> q_limit q' = q_limit q.
Proof. untouched. Qed.
Lemma un_offset : forall e q v t q', field_pass1 e q v t = AOk q' -> ~ In (rolef v t) [ROffset] -> q_offset q' = q_offset q.
Proof. untouched. Qed.
Lemma un_errh : forall e q v t q', field_pass1 e q v t = AOk q' -> ~ In (rolef v t) [RErrorHandler] -> q_errh q' = q_errh q.
Proof. untouched. Qed.
Lemma un_ctx : forall e q v t q', field_pass1 e q v t = AOk q' -> ~ In (rolef v t) [RContext] -> q_ctx q' = q_ctx q.
Proof. untouched. Qed.
Lemma un_filter : forall e q v t q', field_pass1 e q v t = AOk q' -> ~ In (rolef v t) [RFilter] -> q_filter q' = q_filter q.
Proof. untouched. Qed.
Lemma un_result : forall e q v t q', field_pass1 e q v t = AOk q' -> ~ In (rolef v t) [RResult] -> q_result q' = q_result q.
Proof. untouched. Qed.
Lemma un_rows : forall e q v t q', field_pass1 e q v t = AOk q' -> ~ In (rolef v t) [RRows] -> q_rows q' = q_rows q.
Proof. untouched. Qed.
Lemma un_return : forall e q v t q', field_pass1 e q v t = AOk q' -> ~ In (rolef v t) [RReturn] -> q_return q' = q_return q.
Proof. untouched. Qed.
Lemma un_orderby : forall e q v t q', field_pass1 e q v t = AOk q' -> ~ In (rolef v t) [ROrderBy] -> q_orderby q' = q_orderby q.
Proof. untouched. Qed.
Lemma un_optional : forall e q v t q', field_pass1 e q v t = AOk q' -> ~ In (rolef v t) [ROptional] -> q_optional q' = q_optional q.
Proof. untouched. Qed.
Lemma un_force : forall e q v t q', field_pass1 e q v t = AOk q' -> ~ In (rolef v t) [RForce] -> q_force q' = q_force q.
Proof. untouched. Qed.
Lemma un_default : forall e q v t q', field_pass1 e q v t = AOk q' -> ~ In (rolef v t) [RDefault] -> q_default q' = q_default q.
Proof. untouched. Qed.
Lemma un_override : forall e q v t q', field_pass1 e q v t = AOk q' -> ~ In (rolef v t) [ROverride] -> q_override q' = q_override q.
Proof. untouched. Qed.

(** ** The step that filled a slot *)
Lemma role_dec : forall (r : role) rs, {In r rs} + {~ In r rs}.
Proof. intros. apply in_dec. decide equality. Qed.
Lemma slot_prov : forall {A} (slot : qstate -> option A) rs,
  (forall e q v t q', field_pass1 e q v t = AOk q' -> ~ In (rolef v t) rs -> slot q' = slot q) ->
  forall e fs q q', field_pass e q fs = AOk q' ->
  (slot q' = slot q \/
   exists fs1 v t fs2 q1 q2, fs = fs1 ++ (v, t) :: fs2 /\ field_pass e q fs1 = AOk q1 /\ field_pass1 e q1 v t = AOk q2
     /\ field_pass e q2 fs2 = AOk q' /\ In (rolef v t) rs /\ slot q' = slot q2
     /\ forall v' t', In (v', t') fs2 -> ~ In (rolef v' t') rs).
Proof.
  intros A slot rs U e. 
  assert (G : forall fs q q', field_pass e q fs = AOk q' ->
    (slot q' = slot q /\ forall v t, In (v, t) fs -> ~ In (rolef v t) rs) \/
    exists fs1 v t fs2 q1 q2, fs = fs1 ++ (v, t) :: fs2 /\ field_pass e q fs1 = AOk q1 /\ field_pass1 e q1 v t = AOk q2
     /\ field_pass e q2 fs2 = AOk q' /\ In (rolef v t) rs /\ slot q' = slot q2
     /\ forall v' t', In (v', t') fs2 -> ~ In (rolef v' t') rs).
  { induction fs as [|[v t] fs IH]; intros q q' H; cbn [field_pass] in H.
    - aok. subst. left. split; auto.
    - aok. rename a into q1. destruct (IH _ _ K) as [[A1 A2]|(fs1 & v' & t' & fs2 & q2 & q3 & -> & B1 & B2 & B3 & B4 & B5 & B6)].
      + destruct (role_dec (rolef v t) rs) as [I|I].
        * right. exists [], v, t, fs, q, q1. conjs; auto.
        * left. split; [rewrite A1; eauto|]. intros v' t' [J|J]; [congruence|eauto].
      + right. exists ((v, t) :: fs1), v', t', fs2, q2, q3. conjs; auto. cbn [field_pass]. rewrite E. exact B1. }
  intros fs q q' H. destruct (G fs q q' H) as [[A1 _]|A1]; auto.
Qed.

(** The accepted query: the two passes. *)
Lemma query_inv : forall e name fs q, analyzeQueryStruct e name fs = AOk q ->
  exists k fs1 v t fs2 q0, query_kind name = AOk k /\ fs = fs1 ++ (v, t) :: fs2 /\ tag_has (v_tag v) (B "rel") = true
    /\ Forall (fun f => tag_has (v_tag (fst f)) (B "rel") = false) (fs1 ++ fs2)
    /\ analyzeQueryStructRelField e (new_query k) v t = AOk q0 /\ field_pass e q0 fs = AOk q.
Proof.
  intros e name fs q H. unfold analyzeQueryStruct in H. aok. rename a0 into q0.
  match goal with X : rel_pass _ _ _ = _ |- _ => destruct (rel_pass_inv _ _ _ _ X eq_refl) as (fs1 & v & t & fs2 & A1 & A2 & A3 & A4) end; auto.
  exists a, fs1, v, t, fs2, q0. conjs; auto.
Qed.
Lemma new_rel_field : forall e k v t q, analyzeQueryStructRelField e (new_query k) v t = AOk q ->
  exists s o rid n, tag_value (v_tag v) (lit "rel") (s :: o) /\ relation_id s rid /\ scope_name s n /\ map fst (q_sp q) = [n] /\ n = ref_name rid
   /\ (exists rt dir, q_rel q = Some (MkRelF (v_name v) rid rt dir) /\ (rt = zero_rt \/ analyzeRelType e (q_sp q) t = AOk rt))
   /\ q_where q = None /\ q_join q = None /\ q_onconflict q = None /\ q_orderby q = None /\ q_limit q = None /\ q_offset q = None
   /\ q_rows q = None /\ q_force q = None /\ q_optional q = None /\ q_default q = None /\ q_return q = None /\ q_override q = None
   /\ q_errh q = None /\ q_filter q = None /\ q_ctx q = None /\ q_all q = false /\ q_result q = None.
Proof.
  intros e k v t q H. apply rel_field_inv in H. destruct H as (rid & sp & rt & dir & k' & _ & P & A & -> & _ & T).
  destruct (rel_scope_name _ _ _ _ P A) as (n & S1 & S2 & _). pose proof (proj1 (rel_id_spec _ _) P) as R.
  assert (NE : tag_first (v_tag v) (B "rel") <> []). { destruct R as (R & N & _). apply name_nonempty in N. rewrite R.
    destruct (r_qual rid); [|discriminate]. cbn [qualified]. destruct (r_name rid); [congruence|]. destruct (r_alias rid); discriminate. }
  unfold tag_first in *. destruct (tag_get (v_tag v) (B "rel")) as [|s o] eqn:G; [congruence|].
  exists s, o, rid, n. conjs; auto.
  - apply tag_value_lookup. unfold tag_get in G. destruct (lookup _ _); [now subst|discriminate].
  - cbn. rewrite S2. reflexivity.
  - apply addToRelSpace_spec in A. destruct A as [-> _]. cbn in S2. now injection S2.
  - cbn. eauto.
Qed.
Lemma has_rel_unique : forall (fs1 : fields) v t fs2 v' t', tag_has (v_tag v) (B "rel") = true ->
  Forall (fun f => tag_has (v_tag (fst f)) (B "rel") = false) (fs1 ++ fs2) -> In (v', t') (fs1 ++ (v, t) :: fs2) ->
  tag_has (v_tag v') (B "rel") = true -> v' = v /\ t' = t.
Proof.
  intros fs1 v t fs2 v' t' H F I H'. rewrite Forall_forall in F. apply in_app_or in I. destruct I as [I|[I|I]].
  - specialize (F (v', t')). rewrite in_app_iff in F. cbn [fst] in F. rewrite F in H'; auto. discriminate.
  - now injection I as <- <-.
  - specialize (F (v', t')). rewrite in_app_iff in F. cbn [fst] in F. rewrite F in H'; auto. discriminate.
Qed.
Lemma plain_names_app : forall a b, plain_names (a ++ b) <-> plain_names a /\ plain_names b.
Proof. intros. apply Forall_app. Qed.

Lemma query_slot : forall e name fs q, analyzeQueryStruct e name fs = AOk q -> plain_names fs -> forall {A} (slot : qstate -> option A) rs x,
  (forall e q v t q', field_pass1 e q v t = AOk q' -> ~ In (rolef v t) rs -> slot q' = slot q) ->
  (forall k v t q0, analyzeQueryStructRelField e (new_query k) v t = AOk q0 -> slot q0 = None) ->
  ~ In RRel rs -> ~ In RNone rs ->
  slot q = Some x ->
  exists v t q1 q2, place fs rs v t (map fst (q_sp q1)) /\ field_pass1 e q1 v t = AOk q2 /\ slot q2 = Some x /\ In (rolef v t) rs
    /\ q_kind q1 = q_kind q /\ q_rel q1 = q_rel q /\ incl (map fst (q_sp q2)) (map fst (q_sp q)).
Proof.
  intros e name fs q acc pl A slot rs x U N0 NR NN SX. destruct (query_inv _ _ _ _ acc) as (k & f1 & v0 & t0 & f2 & q0 & Q1 & Q2 & Q3 & Q4 & Q5 & Q6).
  destruct (slot_prov slot rs U e fs q0 q Q6) as [X|(fs1 & v & t & fs2 & q1 & q2 & E & P1 & P2 & P3 & P4 & P5 & P6)].
  { rewrite (N0 _ _ _ _ Q5) in X. congruence. }
  exists v, t, q1, q2. destruct (new_rel_field _ _ _ _ _ Q5) as (s & o & rid & n & T1 & _ & T2 & T3 & _).
  destruct (pass_scope _ _ _ _ P1) as (ks & J & M & _).
  assert (PL : plain_names fs1 /\ plain_field v t /\ plain_names fs2).
  { pose proof pl as p. rewrite E in p. apply plain_names_app in p. destruct p as [p1 p2]. inversion p2; subst. auto. }
  destruct PL as (PL1 & PL2 & PL3).
  conjs; auto; try congruence.
  - exists fs1, fs2, (rolef v t). conjs; auto.
    + apply rolef_has_role; auto. intros R. apply NN. now rewrite <- R.
    + exists v0, t0, s, o, n, (rolel fs1), ks. conjs; auto.
      * rewrite Q2. apply in_or_app. right. now left.
      * now apply rolel_roles.
      * now rewrite M, T3.
    + intros v' t' r' I R HR. apply (P6 v' t' I). destruct (has_role_rolef v' t' r') as [-> _]; auto.
      unfold plain_names in PL3. rewrite Forall_forall in PL3. apply (PL3 (v', t') I).
  - pose proof (pass_effect _ _ _ _ P3) as (K1 & _). pose proof (step_effect _ _ _ _ _ P2) as [[_ ->]|[_ [K2 _ _ _ _]]]; congruence.
  - pose proof (pass_effect _ _ _ _ P3) as (_ & K1 & _). pose proof (step_effect _ _ _ _ _ P2) as [[_ ->]|[_ [_ K2 _ _ _]]]; congruence.
  - destruct (pass_scope _ _ _ _ P3) as (ks' & _ & M' & _). rewrite M'. intros y Y. apply in_or_app. now right.
Qed.

(** ** Record types *)
Lemma error_spec : forall r, IsError r = true <-> error_type r.
Proof.
  intros r. unfold IsError, error_type. split.
  - destruct r; try discriminate. destruct (n_pkg n) eqn:P; [discriminate|]. intros H. apply bytes_eqb_eq in H. eauto 6.
  - intros (n & u & -> & -> & ->). now apply bytes_eqb_eq.
Qed.
Lemma iter_fun_ok : forall ps rs n u p, analyzeIteratorFunction ps rs = Some (n, u, p) <->
  exists a r fs, ps = [a] /\ rs = [r] /\ u = TStruct fs /\ element a p n fs /\ error_type r.
Proof.
  intros ps rs n u p. split.
  - intros H. unfold analyzeIteratorFunction in H. destruct ps as [|a [|]]; try discriminate. destruct rs as [|r [|]]; try discriminate.
    destruct (IsError r) eqn:E; [|discriminate]. apply error_spec in E.
    destruct a as [| | | | | |a| | |m b]; try discriminate.
    + destruct a as [| | | | | | | | |m b]; try discriminate. destruct b; try discriminate. injection H as <- <- <-. do 3 eexists. conjs; eauto. constructor.
    + destruct b; try discriminate. injection H as <- <- <-. do 3 eexists. conjs; eauto. constructor.
  - intros (a & r & fs & -> & -> & -> & E & R). apply error_spec in R. unfold analyzeIteratorFunction. rewrite R. inversion E; subst; reflexivity.
Qed.

Definition imports (pkg : text) (n : option tname) : bool :=
  match n with Some n => match n_pkg n with Some (p, _) => negb (bytes_eqb p pkg) | None => false end | None => false end.
Lemma imports_spec : forall pkg n, imports pkg n = true <-> exists m u, n = Some m /\ foreign pkg (TNamed m u).
Proof.
  intros pkg n. unfold imports. split.
  - destruct n as [m|]; [|discriminate]. destruct (n_pkg m) as [[p pn]|] eqn:P; [|discriminate]. intros H. apply negb_true_iff, bytes_eqb_neq in H.
    exists m, (TStruct []). split; auto. exists m, (TStruct []), p, pn. auto.
  - intros (m & u & -> & n' & u' & p & pn & E & P & N). injection E as <- <-. rewrite P. now apply negb_true_iff, bytes_eqb_neq.
Qed.
Lemma finish_ok : forall e sp n u p s a len it m rt, finish_rt e sp n u p s a len it m = AOk rt <->
  exists fs l, u = TStruct fs /\ (forall k, n = Some k -> n_pkg k <> None) /\ analyzeFieldInfoList e sp (imports (e_pkg e) n) fs = AOk l
    /\ rt = MkRT match n with
                 | Some k => match n_pkg k with
                             | Some (pp, pn) => MkTI (n_name k) (analyzeTypeKind u) pp pn (negb (bytes_eqb pp (e_pkg e))) no_flags false false false 0 None None
                             | None => plain_ti (analyzeTypeKind u) end
                 | None => plain_ti (analyzeTypeKind u) end
               p s a len it m (match n with Some k => n_afterscan k | None => false end) l.
Proof.
  intros. unfold finish_rt. split.
  - intros H. destruct n as [k|].
    + destruct (n_pkg k) as [[pp pn]|] eqn:P; [|discriminate]. cbn [abind] in H. destruct u; try discriminate. aok. subst.
      exists fs, a0. conjs; auto. intros k' X. injection X as <-. congruence. cbn [imports]. rewrite P. exact E.
    + cbn [abind] in H. destruct u; try discriminate. aok. subst. exists fs, a0. conjs; auto. discriminate.
  - intros (fs & l & -> & N & A & ->). destruct n as [k|].
    + destruct (n_pkg k) as [[pp pn]|] eqn:P; [|now destruct (N k eq_refl)]. cbn [imports] in A. rewrite P in A. cbn [abind t_imported].
      rewrite A. reflexivity.
    + cbn [abind]. cbn [imports] in A. cbn [t_imported plain_ti]. rewrite A. reflexivity.
Qed.

(** The relation type describes the record type. *)
Definition rel_type_of (e : env) (sp : relspace) (n : option tname) (fs : fields) (h : holding) (rt : RelType) : Prop :=
  (forall k, n = Some k -> n_pkg k <> None) /\
  finish_rt e sp n (TStruct fs) (h_ptr h) (h_slice h) (is_some (h_array h)) (match h_array h with Some k => k | None => 0%Z end)
    (is_some (h_iter h)) (match h_iter h with Some m => m | None => [] end) = AOk rt.
Lemma finish_of : forall e sp n u p s a it rt, finish_rt e sp n u p s (is_some a) (match a with Some k => k | None => 0%Z end)
    (is_some it) (match it with Some m => m | None => [] end) = AOk rt ->
  exists fs, u = TStruct fs /\ rel_type_of e sp n fs (MkHold p s a it) rt.
Proof.
  intros e sp n u p s a it rt H. pose proof H as H'. apply finish_ok in H. destruct H as (fs & l & -> & N & _). exists fs. split; auto. split; auto.
Qed.
Lemma element_inv : forall u p v, (match u with TPtr v => (v, true) | _ => (u, false) end) = (v, p) -> forall n fs, v = TNamed n (TStruct fs) -> element u p n fs.
Proof. intros u p v H n fs E. subst v. destruct u; injection H; intros; subst; try discriminate; constructor. Qed.

Lemma rel_type_sound : forall e sp t rt, analyzeRelType e sp t = AOk rt ->
  exists n fs h, record_of (e_pkg e) t n fs h /\ rel_type_of e sp n fs h rt.
Proof.
  intros e sp t rt H. unfold analyzeRelType in H.
  set (nu := match t with TNamed n u => (Some n, u) | _ => (None, t) end) in H.
  assert (MN : maybe_named (snd nu) t). { subst nu. destruct t; cbn; try (now left). right. eauto. }
  assert (NM : t = snd nu /\ fst nu = None \/ exists n, t = TNamed n (snd nu) /\ fst nu = Some n). { subst nu. destruct t; cbn; auto. right. eauto. }
  assert (NN : forall n u, fst nu = None -> t <> TNamed n u). { intros n u F. subst nu. destruct t; cbn in F; try discriminate; congruence. }
  destruct nu as [n u]. cbn [fst snd] in *. 
  assert (REST : forall u2 slice arr, (match u with TSlice v => (v, true, None) | TArray k v => (v, false, Some k) | _ => (u, false, None) end) = (u2, slice, arr) ->
     (let '(u3, isptr) := match u2 with TPtr v => (v, true) | _ => (u2, false) end in
      if slice || is_some arr || isptr then
        match u3 with
        | TNamed n v => finish_rt e sp (Some n) v isptr slice (is_some arr) (match arr with Some k => k | None => 0%Z end) false []
        | _ => AErr EBadRelType
        end
      else finish_rt e sp n u3 isptr slice (is_some arr) (match arr with Some k => k | None => 0%Z end) false []) = AOk rt ->
     exists n fs h, record_of (e_pkg e) t n fs h /\ rel_type_of e sp n fs h rt).
  { intros u2 slice arr U K. destruct (match u2 with TPtr v => (v, true) | _ => (u2, false) end) as [u3 p] eqn:P.
    destruct (slice || is_some arr || p) eqn:C.
    - destruct u3 as [| | | | | | | | |m v]; try discriminate. apply (finish_of e sp (Some m) v p slice arr None) in K. destruct K as (fs & -> & K).
      exists (Some m), fs, (MkHold p slice arr None). split; auto. pose proof (element_inv _ _ _ P m fs eq_refl) as EL.
      destruct u; injection U as <- <- <-; cbn in C; try (subst p; inversion EL; subst; eapply ro_pointer; eauto; fail).
      + eapply ro_array; eauto.
      + eapply ro_slice; eauto.
    - apply orb_false_elim in C. destruct C as [C ->]. apply orb_false_elim in C. destruct C as [-> C]. destruct arr; [discriminate|].
      apply (finish_of e sp n u3 false false None None) in K. destruct K as (fs & -> & K). exists n, fs, (MkHold false false None None). split; auto.
      assert (u2 = TStruct fs) as -> by (destruct u2; injection P; congruence).
      assert (u = TStruct fs) as -> by (destruct u; injection U; congruence).
      destruct NM as [[-> ->]|(k & -> & ->)]; [now apply ro_struct|now apply ro_named]. }
  destruct u as [b x y|k u|u|u|k u|u|ps rs|ms x y z|fs|m u];
    try (apply (REST _ _ _ eq_refl H); fail).
  - destruct (analyzeIteratorFunction ps rs) as [[[m u] p]|] eqn:I; [|discriminate]. apply iter_fun_ok in I. destruct I as (a & r & fs & -> & -> & -> & EL & ER).
    exists (Some m), fs, (MkHold p false None (Some [])). split; [eapply ro_func; eauto|]. split; auto. intros k K. apply finish_ok in H. destruct H as (_ & _ & _ & N & _). eauto.
  - destruct ms as [|[[mn ex] [ps rs]] [|]]; try discriminate. aok. destruct a; [|discriminate].
    destruct (analyzeIteratorFunction ps rs) as [[[m u] p]|] eqn:I; [|discriminate]. apply iter_fun_ok in I. destruct I as (a & r & fs & -> & -> & -> & EL & ER).
    exists (Some m), fs, (MkHold p false None (Some mn)). split; [|split; auto; intros k Kk; apply finish_ok in K; destruct K as (_ & _ & _ & N & _); eauto].
    unfold isAccessible in E. destruct (bytes_eqb mn (B "_")) eqn:U; [discriminate|]. apply bytes_eqb_neq in U. eapply ro_iface; eauto.
    destruct ex; [now left|]. right. destruct (abind_ok _ _ _ E) as (im & I & J). injection J as J. apply negb_true_iff in J. subst im.
    intros (n' & u' & pp & pn & T & P & X). destruct NM as [[-> ->]|(k & -> & ->)]; [discriminate|]. injection T as <- _.
    cbn [isImportedType] in I. unfold pkg_path in I. rewrite P in I. cbn [abind] in I. injection I as I. apply negb_false_iff, bytes_eqb_eq in I. contradiction.
Qed.
Lemma rel_type_complete : forall e sp t n fs h rt, record_of (e_pkg e) t n fs h -> (forall m u, t = TNamed m u -> n_pkg m <> None) ->
  rel_type_of e sp n fs h rt -> analyzeRelType e sp t = AOk rt.
Proof.
  intros e sp t n fs h rt R TP [N F]. destruct R; cbn [h_ptr h_slice h_array h_iter is_some] in F; unfold maybe_named in *; unfold analyzeRelType.
  - subst t. exact F.
  - subst t. exact F.
  - destruct H as [->|(m & ->)]; exact F.
  - destruct H as [->|(m & ->)]; inversion H0; subst; exact F.
  - destruct H as [->|(m & ->)]; inversion H0; subst; exact F.
  - assert (I : analyzeIteratorFunction [a] [r] = Some (n, TStruct fs, p)) by (apply iter_fun_ok; eauto 8).
    destruct H as [->|(m & ->)]; rewrite I; exact F.
  - assert (I : analyzeIteratorFunction [a] [r] = Some (n, TStruct fs, p)) by (apply iter_fun_ok; eauto 8).
    apply bytes_eqb_neq in H2. unfold isAccessible. change (B "_") with (lit "_"). destruct H as [->|(m' & ->)]; rewrite I, H2.
    + destruct ex; exact F.
    + destruct ex; [exact F|]. cbn [isImportedType]. unfold pkg_path. specialize (TP m' _ eq_refl). destruct (n_pkg m') as [[pp pn]|] eqn:P; [|congruence].
      cbn [abind]. destruct H3 as [H3|H3]; [discriminate|]. destruct (bytes_eqb pp (e_pkg e)) eqn:X; [exact F|]. exfalso. apply H3.
      apply bytes_eqb_neq in X. do 4 eexists. conjs; eauto.
Qed.
