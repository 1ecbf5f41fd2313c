(** Lemmas on the two passes over the fields of a query struct. *)
From Coq Require Import Ascii String ZArith NArith Bool List Lia.
From Verif Require Import GoBase Strconv ConvertUtil ConvertProofs Filter AParse PgSpec TagSpec AParseProofs Analysis AnalysisSpec AnalysisProofs.
Import ListNotations.
Local Open Scope char_scope.

(** ** Roles as a function *)
Definition rolef (v : fvar) (t : gtype) : role :=
  if tag_has (v_tag v) (B "rel") then RRel
  else if bytes_eqb (v_name v) (B "_") then
    match GetDirectiveName t with
    | AOk d => match lookup (lower d) directive_roles with Some r => r | None => RNone end
    | _ => RNone
    end
  else match lookup (tolower (v_name v)) field_roles with
       | Some r => r
       | None =>
           match isFilterType t with
           | AOk true => RFilter
           | _ => if isErrorHandler t || isErrorInfoHandler t then RErrorHandler
                  else if IsContext t then RContext else RNone
           end
       end.

(** Two roles share a slot of the result. *)
Definition same (a b : role) : bool :=
  match a, b with
  | RRel, RRel | RWhere, RWhere | ROnConflict, ROnConflict | RResult, RResult | RLimit, RLimit
  | ROffset, ROffset | RRows, RRows | RAll, RAll | RDefault, RDefault | RForce, RForce
  | ROptional, ROptional | RReturn, RReturn | ROrderBy, ROrderBy | ROverride, ROverride
  | RFilter, RFilter | RErrorHandler, RErrorHandler | RContext, RContext => true
  | (RJoin | RFrom | RUsing), (RJoin | RFrom | RUsing) => true
  | _, _ => false
  end.
(** The slot of a role is filled. *)
Definition has (q : qstate) (r : role) : bool :=
  match r with
  | RRel => is_some (q_rel q)
  | RWhere => is_some (q_where q)
  | RJoin | RFrom | RUsing => is_some (q_join q)
  | ROnConflict => is_some (q_onconflict q)
  | RResult => is_some (q_result q)
  | RLimit => is_some (q_limit q)
  | ROffset => is_some (q_offset q)
  | RRows => is_some (q_rows q)
  | RAll => q_all q
  | RDefault => is_some (q_default q)
  | RForce => is_some (q_force q)
  | ROptional => is_some (q_optional q)
  | RReturn => is_some (q_return q)
  | ROrderBy => is_some (q_orderby q)
  | ROverride => is_some (q_override q)
  | RFilter => is_some (q_filter q)
  | RErrorHandler => is_some (q_errh q)
  | RContext => is_some (q_ctx q)
  | RNone => false
  end.
Definition groups : list (list role) :=
  [[RWhere; RFilter; RAll]; [RReturn; RResult; RRows]; [RLimit]; [ROffset]; [RErrorHandler]; [RContext]].

(** What a successful step does to the slots. *)
Record effect (q q' : qstate) (r : role) : Prop := MkEffect {
  ef_kind : q_kind q' = q_kind q;
  ef_rel : q_rel q' = q_rel q;
  ef_has : forall r', has q' r' = has q r' || same r r';
  ef_legal : legal (q_kind q) r;
  ef_free : forall g r', In g groups -> In r g -> In r' g -> has q r' = false }.

Ltac split_bools :=
  repeat match goal with
  | H : negb _ = true |- _ => apply negb_true_iff in H
  | H : _ || _ = false |- _ => apply orb_false_elim in H; destruct H
  | H : _ && _ = true |- _ => apply andb_prop in H; destruct H
  end.
Ltac in_groups :=
  let g := fresh "g" in let r' := fresh "r" in let G := fresh "G" in let R := fresh "R" in let R' := fresh "R'" in
  intros g r' G R R'; cbn [groups In] in G;
  repeat (destruct G as [<-|G]; [cbn [In] in R, R';
    try (exfalso; repeat (destruct R as [R|R]; [discriminate R|]); exact R);
    repeat (destruct R' as [<-|R']; [cbn [has] in *; auto|]); try contradiction|]); try contradiction.
Ltac effect_now :=
  constructor; [reflexivity|reflexivity|
    let r := fresh "r" in intros r; destruct r; cbn; rewrite ?orb_false_r, ?orb_true_r; reflexivity | | in_groups].

Lemma where_allowed_ok : forall q u, where_allowed q = AOk u ->
  q_kind q <> KInsert /\ (q_kind q = KUpdate -> rt_slice (q_reltype q) = false) /\
  q_all q = false /\ q_where q = None /\ q_filter q = None.
Proof.
  intros q u H. unfold where_allowed in H. aok. unfold has_where in *. split_bools.
  destruct (q_where q), (q_filter q); try discriminate. conjs; auto.
  - intros K. rewrite K in E. discriminate.
  - intros K. rewrite K in E0. exact E0.
Qed.
Lemma output_allowed_ok : forall q u, output_allowed q = AOk u ->
  (q_kind q = KInsert \/ q_kind q = KUpdate \/ q_kind q = KDelete) /\ q_return q = None /\ q_result q = None /\ q_rows q = None.
Proof.
  intros q u H. unfold output_allowed in H. aok. unfold has_output in *. split_bools.
  destruct (q_return q), (q_result q), (q_rows q); try discriminate. conjs; auto.
  unfold is_write in E. destruct (q_kind q); cbn in E; auto; discriminate.
Qed.
Lemma select_kind : forall k, isSelect k = true -> k = KSelect \/ k = KSelectCount \/ k = KSelectExists \/ k = KSelectNotExists.
Proof. intros [] H; auto; discriminate. Qed.

Lemma eff_where : forall e q v t q', analyzeWhereStruct e q v t = AOk q' -> effect q q' RWhere.
Proof.
  intros e q v t q' H. unfold analyzeWhereStruct in H. aok. apply where_allowed_ok in E. destruct E as (A & _ & B0 & C & D).
  destruct (GetStruct t) as [[n fs]|]; [|discriminate]. destruct (where_struct _ _ _ _); [|discriminate]. aok. subst.
  effect_now; auto; rewrite ?B0, ?C, ?D; auto.
Qed.
Lemma eff_join : forall e q v t q' w r, analyzeJoinStruct e q v t = AOk q' -> tolower (v_name v) = w ->
  In (w, r) [(B "join", RJoin); (B "from", RFrom); (B "using", RUsing)] -> effect q q' r.
Proof.
  intros e q v t q' w r H W I. unfold analyzeJoinStruct in H. cbv zeta in H. rewrite W in H. aok.
  destruct (GetStruct t) as [[n fs]|]; [|discriminate]. aok. subst.
  cbn [In] in I. repeat (destruct I as [I|I]; [injection I as Ew Er; subst r; rewrite <- Ew in E, E0, E1|]); [| | |contradiction];
    cbn in E, E0, E1; split_bools.
  - effect_now. destruct (q_kind q); cbn in *; try discriminate; auto.
  - effect_now. destruct (q_kind q); cbn in *; try discriminate; auto.
  - effect_now. destruct (q_kind q); cbn in *; try discriminate; auto.
Qed.
Lemma eff_onconflict : forall e q v t q', analyzeOnConflictStruct e q v t = AOk q' -> effect q q' ROnConflict.
Proof.
  intros e q v t q' H. unfold analyzeOnConflictStruct in H. aok.
  destruct (GetStruct t) as [[n fs]|]; [|discriminate]. aok. subst. effect_now.
  destruct (q_kind q); cbn in *; try discriminate; auto.
Qed.
Ltac slots := repeat match goal with
  | H : is_some ?x = false |- _ => destruct x eqn:?; [discriminate H|clear H]
  | H : isSelect _ = true |- _ => apply select_kind in H
  end.
Lemma eff_limit : forall e q v t q', analyzeLimit e q v t = AOk q' -> effect q q' RLimit.
Proof. intros e q v t q' H. unfold analyzeLimit in H. aok. split_bools. apply select_kind in E. subst. effect_now; auto. Qed.
Lemma eff_offset : forall e q v t q', analyzeOffset e q v t = AOk q' -> effect q q' ROffset.
Proof. intros e q v t q' H. unfold analyzeOffset in H. aok. split_bools. apply select_kind in E. subst. effect_now; auto. Qed.
Lemma eff_errh : forall q v b q', analyzeErrorHandlerField q v b = AOk q' -> effect q q' RErrorHandler.
Proof. intros q v b q' H. unfold analyzeErrorHandlerField in H. aok. split_bools. subst. effect_now; auto. exact I. Qed.
Lemma eff_ctx : forall q v q', analyzeContextField q v = AOk q' -> effect q q' RContext.
Proof. intros q v q' H. unfold analyzeContextField in H. aok. split_bools. subst. effect_now; auto. exact I. Qed.
Lemma eff_filter : forall q v q', analyzeFilterField q v = AOk q' -> effect q q' RFilter.
Proof.
  intros q v q' H. unfold analyzeFilterField in H. aok. apply where_allowed_ok in E. destruct E as (A & _ & B0 & C & D). subst.
  effect_now; auto; rewrite ?B0, ?C, ?D; auto.
Qed.
Lemma eff_result : forall e q v t q', analyzeResultField e q v t = AOk q' -> effect q q' RResult.
Proof.
  intros e q v t q' H. unfold analyzeResultField in H. aok. apply output_allowed_ok in E. destruct E as (A & B0 & C & D). subst.
  effect_now; auto; rewrite ?B0, ?C, ?D; auto.
Qed.
Lemma eff_rows : forall e q v t q', analyzeRowsAffectedField e q v t = AOk q' -> effect q q' RRows.
Proof.
  intros e q v t q' H. unfold analyzeRowsAffectedField in H. aok. apply output_allowed_ok in E. destruct E as (A & B0 & C & D). subst.
  effect_now; auto; rewrite ?B0, ?C, ?D; auto.
Qed.
Lemma eff_return : forall e q v t q', analyzeReturnDirective e q v t = AOk q' -> effect q q' RReturn.
Proof.
  intros e q v t q' H. unfold analyzeReturnDirective in H. aok. apply output_allowed_ok in E0. destruct E0 as (A & B0 & C & D). subst.
  effect_now; auto; rewrite ?B0, ?C, ?D; auto.
Qed.
Lemma eff_orderby : forall e q v t q', analyzeOrderByDirective e q v t = AOk q' -> effect q q' ROrderBy.
Proof. intros e q v t q' H. unfold analyzeOrderByDirective in H. cbv zeta in H. aok. apply select_kind in E. subst. effect_now; auto. Qed.
Lemma eff_optional : forall e q v t q', analyzeOptionalDirective e q v t = AOk q' -> effect q q' ROptional.
Proof. intros e q v t q' H. unfold analyzeOptionalDirective in H. aok. apply select_kind in E. subst. effect_now; auto. Qed.
Lemma eff_force : forall e q v t q', analyzeForceDirective e q v t = AOk q' -> effect q q' RForce.
Proof. intros e q v t q' H. unfold analyzeForceDirective in H. aok. subst. effect_now. destruct (q_kind q); cbn in *; auto; discriminate. Qed.
Lemma eff_default : forall e q v t q', analyzeDefaultDirective e q v t = AOk q' -> effect q q' RDefault.
Proof. intros e q v t q' H. unfold analyzeDefaultDirective in H. aok. subst. effect_now. destruct (q_kind q); cbn in *; auto; discriminate. Qed.
Lemma eff_override : forall e q v t q', analyzeOverrideDirective e q v t = AOk q' -> effect q q' ROverride.
Proof.
  intros e q v t q' H. unfold analyzeOverrideDirective in H. cbv zeta in H. aok.
  assert (L : legal (q_kind q) ROverride) by (destruct (q_kind q); cbn in *; auto; discriminate).
  destruct (bytes_eqb _ _); [|destruct (bytes_eqb _ _)]; aok; subst; effect_now; exact L.
Qed.
Lemma eff_all : forall e q v t q', analyzeAllDirective e q v t = AOk q' -> effect q q' RAll.
Proof.
  intros e q v t q' H. unfold analyzeAllDirective in H. aok. unfold has_where in *. split_bools. subst.
  assert (L : legal (q_kind q) RAll) by (destruct (q_kind q); cbn in *; auto; discriminate).
  effect_now; auto.
Qed.
Lemma eff_none : forall q, effect q q RNone.
Proof. intros q. effect_now. exact I. Qed.

(** Table lookup by cases. *)
Lemma lookup_cons : forall {A} k k' (v : A) m, lookup k ((k', v) :: m) = if bytes_eqb k k' then Some v else lookup k m.
Proof. reflexivity. Qed.

Lemma step_effect : forall e q v t q', field_pass1 e q v t = AOk q' ->
  tag_has (v_tag v) (B "rel") = true /\ q' = q \/ tag_has (v_tag v) (B "rel") = false /\ effect q q' (rolef v t).
Proof.
  intros e q v t q' H. unfold field_pass1 in H. unfold rolef. destruct (tag_has _ _); [aok; auto|]. right. split; auto.
  aok. rewrite E. destruct (bytes_eqb (v_name v) (B "_")) eqn:U; cbn [andb] in K.
  - destruct (bytes_eqb a []) eqn:EA; cbn [negb] in K.
    + apply bytes_eqb_eq in EA. subst a. apply bytes_eqb_eq in U. unfold analyzeQueryStructField in K.
      rewrite U in K. cbn in K. aok. subst. cbn. apply eff_none.
    + unfold analyzeQueryStructDirective, directive_analyzers in K. unfold directive_roles.
      repeat (rewrite lookup_cons in K; rewrite lookup_cons; change lit with B;
        match type of K with context [bytes_eqb ?x ?y] => destruct (bytes_eqb x y) eqn:?; cbv iota in K |- * end;
        [solve [eauto using eff_all, eff_default, eff_force, eff_optional, eff_return, eff_limit, eff_offset, eff_orderby, eff_override]|]).
      discriminate K.
  - unfold analyzeQueryStructField, field_analyzers in K. unfold field_roles. rewrite U in K. cbv iota in K |- *.
    repeat (rewrite lookup_cons in K; rewrite lookup_cons; change lit with B;
        match type of K with context [bytes_eqb ?x ?y] => destruct (bytes_eqb x y) eqn:?; cbv iota in K |- * end;
        [solve [eauto using eff_where, eff_onconflict, eff_result, eff_limit, eff_offset, eff_rows
               | eapply eff_join; [exact K | apply bytes_eqb_eq; eassumption | repeat (first [left; reflexivity | right])]]|]).
    cbn [lookup] in K |- *. aok. destruct a0.
    + rewrite E0. eauto using eff_filter.
    + rewrite E0. destruct (isErrorHandler t); [eauto using eff_errh|]. destruct (isErrorInfoHandler t); [cbn; eauto using eff_errh|].
      destruct (IsContext t); [cbn; eauto using eff_ctx|]. aok. subst. cbn. apply eff_none.
Qed.

(** ** Roles, as described *)
Lemma has_suffix_spec : forall p a, has_suffix p a = true <-> exists q, a = q ++ p.
Proof.
  intros p a. unfold has_suffix. rewrite has_prefix_spec. unfold prefix_of. split.
  - intros (r & E). exists (rev r). rewrite <- (rev_involutive a), E, rev_app_distr, rev_involutive. reflexivity.
  - intros (q & ->). exists (rev q). now rewrite rev_app_distr.
Qed.
Lemma is_isdir_spec : forall u, is_isdir u = true <-> exists v w, u = TStruct [(v, w)] /\ v_name v = lit "_isdir".
Proof.
  intros u. split.
  - destruct u; try discriminate. destruct fs as [|[v w] [|]]; try discriminate. cbn. intros H. exists v, w. split; auto. now apply bytes_eqb_eq.
  - intros (v & w & -> & E). cbn. rewrite E. reflexivity.
Qed.
Lemma directive_name : forall t d, d <> [] -> (GetDirectiveName t = AOk d <-> directive t d).
Proof.
  intros t d D. unfold directive. split.
  - unfold GetDirectiveName. destruct t; try (intros H; exfalso; apply D; injection H as <-; reflexivity). unfold pkg_path. destruct (n_pkg n) as [[p pn]|] eqn:P; [|discriminate].
    cbn [abind fst]. destruct (has_suffix gosql_path p) eqn:S1; cbn [andb]; [|intros H; exfalso; apply D; injection H as <-; reflexivity].
    destruct (is_isdir t) eqn:S2; [|intros H; exfalso; apply D; injection H as <-; reflexivity]. intros H; inversion H; subst.
    apply is_isdir_spec in S2. destruct S2 as (v & w & -> & E). apply has_suffix_spec in S1.
    exists n, (TStruct [(v, w)]), p, pn, v, w. conjs; auto.
  - intros (n & u & p & pn & v & w & -> & N & P & Q & -> & E). unfold GetDirectiveName, pkg_path. rewrite P. cbn [abind fst].
    rewrite (proj2 (has_suffix_spec gosql_path p) Q). cbn [andb]. unfold is_isdir. rewrite E. change (bytes_eqb (lit "_isdir") (B "_isdir")) with true. cbv iota. now rewrite N.
Qed.
Lemma plain_tolower : forall s, plain s -> tolower s = map lower_char s.
Proof.
  intros s [A P]. unfold tolower. rewrite trim_space_trimmed.
  - now apply lower_ascii.
  - split; intros; subst.
    + now inversion P.
    + apply Forall_app in P. destruct P as [_ P]. now inversion P.
Qed.
Lemma plain_lower : forall s, plain s -> lower s = map lower_char s.
Proof. intros s [A P]. now apply lower_ascii. Qed.

Lemma lookup_in_pair : forall {A} k (m : list (bytes * A)) v, lookup k m = Some v -> In (k, v) m.
Proof.
  induction m as [|[k' v'] m IH]; cbn; intros v H; [discriminate|]. destruct (bytes_eqb k k') eqn:E.
  - apply bytes_eqb_eq in E. inversion H; subst. now left.
  - right. auto.
Qed.
Lemma in_lookup : forall {A} k (m : list (bytes * A)) v, NoDup (map fst m) -> In (k, v) m -> lookup k m = Some v.
Proof.
  induction m as [|[k' v'] m IH]; cbn; intros v N I; [contradiction|]. inversion N; subst. destruct I as [I|I].
  - inversion I; subst. now rewrite bytes_eqb_refl.
  - destruct (bytes_eqb k k') eqn:E; auto. apply bytes_eqb_eq in E. subst. exfalso. apply H1. change k' with (fst (k', v)). now apply in_map.
Qed.
Lemma lookup_none : forall {A} k (m : list (bytes * A)) v, lookup k m = None -> ~ In (k, v) m.
Proof.
  intros A k m v H I. destruct (proj2 (lookup_in k m)) as (v' & E).
  - change k with (fst (k, v)). now apply in_map.
  - congruence.
Qed.
Lemma directive_roles_nodup : NoDup (map fst directive_roles).
Proof. cbn. repeat (constructor; [cbn; intros I; repeat (destruct I as [I|I]; [discriminate I|]); exact I|]). constructor. Qed.
Lemma field_roles_nodup : NoDup (map fst field_roles).
Proof. cbn. repeat (constructor; [cbn; intros I; repeat (destruct I as [I|I]; [discriminate I|]); exact I|]). constructor. Qed.
Lemma field_role_not_underscore : forall r, ~ In (lit "_", r) field_roles.
Proof. intros r I. cbn in I. repeat (destruct I as [I|I]; [discriminate I|]). exact I. Qed.

Lemma filter_type_spec : forall t, (isFilterType t = AOk true <-> is_filter_type t).
Proof.
  intros t. unfold is_filter_type. split.
  - unfold isFilterType. destruct t; try discriminate. destruct (bytes_eqb (n_name n) _) eqn:E; [|discriminate]. apply bytes_eqb_eq in E.
    unfold pkg_path. destruct (n_pkg n) as [[p pn]|] eqn:P; [|discriminate]. cbn [abind fst]. intros H. injection H as H.
    apply has_suffix_spec in H. destruct H as (q & Q). exists n, t, p, pn, q. conjs; auto.
  - intros (n & u & p & pn & q & -> & N & P & Q). unfold isFilterType. rewrite N. change (bytes_eqb (lit "Filter") (B "Filter")) with true. cbv iota.
    unfold pkg_path. rewrite P. cbn [abind fst]. f_equal. apply has_suffix_spec. exists q. exact Q.
Qed.
Lemma error_handler_spec : forall t, isErrorHandler t || isErrorInfoHandler t = true <-> is_error_handler t.
Proof.
  intros t. unfold is_error_handler. split.
  - destruct t; try discriminate. cbn. intros H. apply orb_prop in H. eauto.
  - intros (n & u & -> & H). cbn. now apply orb_true_iff.
Qed.
Lemma context_spec : forall t, IsContext t = true <-> is_context_type t.
Proof.
  intros t. unfold is_context_type. split.
  - unfold IsContext. destruct t; try discriminate. destruct (n_pkg n) as [[p pn]|] eqn:P; [|discriminate]. intros H. apply andb_prop in H.
    destruct H as [H1 H2]. apply bytes_eqb_eq in H1, H2. exists n, t, pn. conjs; auto. rewrite P, H1. reflexivity.
  - intros (n & u & pn & -> & N & P). unfold IsContext. rewrite P, N. reflexivity.
Qed.

Definition plain_field (v : fvar) (t : gtype) : Prop := plain (v_name v) /\ forall n u, t = TNamed n u -> plain (n_name n).
Lemma plain_directive : forall v t d, plain_field v t -> directive t d -> plain d.
Proof. intros v t d [_ P] (n & u & p & pn & v' & w & -> & <- & _). eauto. Qed.

Lemma has_role_rolef : forall v t r, plain_field v t -> has_role v t r -> rolef v t = r /\ r <> RNone.
Proof.
  intros v t r P H. unfold rolef. 
  assert (NR : forall v, ~ tagged v (lit "rel") -> tag_has (v_tag v) (B "rel") = false).
  { intros v0 N. destruct (tag_has (v_tag v0) (B "rel")) eqn:E; auto. exfalso. apply N. now apply tagged_has. }
  assert (NU : forall v : fvar, v_name v <> lit "_" -> bytes_eqb (v_name v) (B "_") = false) by (intros; now apply bytes_eqb_neq).
  assert (NL : forall v t, plain_field v t -> (forall w r, In (w, r) field_roles -> ~ spelled (v_name v) w) -> lookup (tolower (v_name v)) field_roles = None).
  { intros v0 t0 [P0 _] N. destruct (lookup _ _) eqn:E; auto. apply lookup_in_pair in E. exfalso. eapply N. exact E.
    unfold spelled. symmetry. now apply plain_tolower. }
  assert (NF : forall t, ~ is_filter_type t -> forall A (x y : A), match isFilterType t with AOk true => x | _ => y end = y).
  { intros t0 N A x y. destruct (isFilterType t0) as [[]| |] eqn:E; auto. exfalso. apply N. now apply filter_type_spec. }
  destruct H.
  - apply tagged_has in H. change (lit "rel") with (B "rel") in H. rewrite H. split; congruence.
  - rewrite NR, H0 by auto. change (bytes_eqb (lit "_") (B "_")) with true. cbv iota.
    assert (D : d <> []). { intros ->. unfold spelled in H3. cbn in H3. subst w. cbn in H2. repeat (destruct H2 as [H2|H2]; [discriminate H2|]). exact H2. }
    rewrite (proj2 (directive_name t d D) H1). rewrite plain_lower by eauto using plain_directive. rewrite H3.
    rewrite (in_lookup w directive_roles r directive_roles_nodup H2). split; auto.
    intros ->. cbn in H2. repeat (destruct H2 as [H2|H2]; [discriminate H2|]). exact H2.
  - rewrite NR, NU by auto. rewrite plain_tolower by apply P. rewrite H2. rewrite (in_lookup w field_roles r field_roles_nodup H1). split; auto.
    intros ->. cbn in H1. repeat (destruct H1 as [H1|H1]; [discriminate H1|]). exact H1.
  - rewrite NR, NU by auto. erewrite NL by eauto. rewrite (proj2 (filter_type_spec t)) by auto. split; congruence.
  - rewrite NR, NU by auto. erewrite NL by eauto. rewrite NF by auto. rewrite (proj2 (error_handler_spec t)) by auto. split; congruence.
  - rewrite NR, NU by auto. erewrite NL by eauto. rewrite NF by auto. destruct (isErrorHandler t || isErrorInfoHandler t) eqn:E.
    + exfalso. apply H3. now apply error_handler_spec.
    + rewrite (proj2 (context_spec t)) by auto. split; congruence.
Qed.
Lemma rolef_has_role : forall v t, plain_field v t -> rolef v t <> RNone -> has_role v t (rolef v t).
Proof.
  intros v t P. unfold rolef. destruct (tag_has _ _) eqn:ER; [intros _; apply hr_rel; now apply tagged_has|].
  assert (NR : ~ tagged v (lit "rel")). { intros N. apply tagged_has in N. change (lit "rel") with (B "rel") in N. congruence. }
  destruct (bytes_eqb (v_name v) (B "_")) eqn:U.
  - destruct (GetDirectiveName t) eqn:G; try congruence. destruct (lookup (lower a) directive_roles) eqn:L; [|congruence]. intros N.
    apply lookup_in_pair in L. assert (D : a <> []).
    { intros ->. cbn in L. repeat (destruct L as [L|L]; [discriminate L|]). exact L. }
    apply (directive_name t a D) in G. rewrite plain_lower in L by eauto using plain_directive.
    eapply hr_dir; eauto; [now apply bytes_eqb_eq|reflexivity].
  - apply bytes_eqb_neq in U. destruct (lookup _ field_roles) eqn:L.
    + intros N. apply lookup_in_pair in L. rewrite plain_tolower in L by apply P. eapply hr_name; eauto. reflexivity.
    + assert (NL : forall w r, In (w, r) field_roles -> ~ spelled (v_name v) w).
      { intros w r I S1. rewrite plain_tolower in L by apply P. unfold spelled in S1. rewrite S1 in L. eapply lookup_none; eauto. }
      destruct (isFilterType t) as [[]| |] eqn:F.
      * intros _. apply hr_filter; auto. now apply filter_type_spec.
      * assert (NF : ~ is_filter_type t) by (intros I; apply filter_type_spec in I; congruence).
        destruct (_ || _) eqn:EH. intros _; apply hr_handler; auto; now apply error_handler_spec.
        assert (NH : ~ is_error_handler t) by (intros I; apply error_handler_spec in I; congruence).
        destruct (IsContext t) eqn:C; [|congruence]. intros _; apply hr_context; auto. now apply context_spec.
      * assert (NF : ~ is_filter_type t) by (intros I; apply filter_type_spec in I; congruence).
        destruct (_ || _) eqn:EH. intros _; apply hr_handler; auto; now apply error_handler_spec.
        assert (NH : ~ is_error_handler t) by (intros I; apply error_handler_spec in I; congruence).
        destruct (IsContext t) eqn:C; [|congruence]. intros _; apply hr_context; auto. now apply context_spec.
      * assert (NF : ~ is_filter_type t) by (intros I; apply filter_type_spec in I; congruence).
        destruct (_ || _) eqn:EH. intros _; apply hr_handler; auto; now apply error_handler_spec.
        assert (NH : ~ is_error_handler t) by (intros I; apply error_handler_spec in I; congruence).
        destruct (IsContext t) eqn:C; [|congruence]. intros _; apply hr_context; auto. now apply context_spec.
Qed.

(** The roles of the fields, as a list. *)
Definition rolel (fs : fields) : list (fvar * gtype * role) :=
  flat_map (fun f => match rolef (fst f) (snd f) with RNone => [] | r => [(fst f, snd f, r)] end) fs.
Lemma rolel_cons : forall v t fs, rolel ((v, t) :: fs) = match rolef v t with RNone => [] | r => [(v, t, r)] end ++ rolel fs.
Proof. reflexivity. Qed.
Lemma roles_rolel : forall fs l, plain_names fs -> roles fs l -> l = rolel fs.
Proof.
  intros fs l P H. induction H; auto; inversion P; subst; rewrite rolel_cons.
  - destruct (has_role_rolef v t r) as [E N]; auto. rewrite E. rewrite <- IHroles by auto. destruct r; cbn; try congruence; auto.
  - rewrite <- IHroles by auto. destruct (rolef v t) eqn:E; auto; exfalso; eapply (H (rolef v t)); apply rolef_has_role; auto; congruence.
Qed.
Lemma rolel_roles : forall fs, plain_names fs -> roles fs (rolel fs).
Proof.
  induction fs as [|[v t] fs IH]; intros P; [constructor|]. inversion P; subst. rewrite rolel_cons.
  destruct (rolef v t) eqn:E;
    try (cbn [app]; apply rl_role; [rewrite <- E; apply rolef_has_role; auto; congruence | auto]).
  cbn [app]. apply rl_none; auto. intros r H. apply has_role_rolef in H; auto. destruct H as [H N]. congruence.
Qed.

(** ** The passes *)
Lemma amo_nil : forall rs, at_most_one rs [].
Proof. intros rs l1 x l2 y l3 E. destruct l1; discriminate. Qed.
Lemma amo_cons : forall rs a l, at_most_one rs l -> (In (snd a) rs -> forall y, In y l -> ~ In (snd y) rs) -> at_most_one rs (a :: l).
Proof.
  intros rs a l A H l1 x l2 y l3 E. destruct l1 as [|b l1]; cbn in E; injection E as -> E.
  - intros [X Y]. apply (H X y); auto. rewrite E. apply in_or_app. right. now left.
  - eapply A. exact E.
Qed.

Lemma rolef_rel : forall v t, tag_has (v_tag v) (B "rel") = true -> rolef v t = RRel.
Proof. intros v t H. unfold rolef. now rewrite H. Qed.
Lemma rolef_not_rel : forall v t, tag_has (v_tag v) (B "rel") = false -> rolef v t <> RRel.
Proof.
  intros v t H. unfold rolef. rewrite H. destruct (bytes_eqb _ _).
  - destruct (GetDirectiveName t); try congruence. destruct (lookup _ _) eqn:L; [|congruence]. apply lookup_in_pair in L. intros ->.
    cbn in L. repeat (destruct L as [L|L]; [discriminate L|]). exact L.
  - destruct (lookup _ _) eqn:L.
    + apply lookup_in_pair in L. intros ->. cbn in L. repeat (destruct L as [L|L]; [discriminate L|]). exact L.
    + destruct (isFilterType t) as [[]| |]; try congruence; destruct (_ || _); try congruence; destruct (IsContext t); congruence.
Qed.

Lemma rolel_app_in : forall x v t fs, In x (rolel ((v, t) :: fs)) <-> (x = (v, t, rolef v t) /\ rolef v t <> RNone) \/ In x (rolel fs).
Proof.
  intros. rewrite rolel_cons, in_app_iff. destruct (rolef v t); cbn [In]; split; intros H; repeat destruct H as [H|H]; subst; auto; try tauto;
    try (left; split; congruence); try (destruct H; left; left; congruence); destruct H; congruence.
Qed.

Lemma pass_effect : forall e fs q q', field_pass e q fs = AOk q' ->
  q_kind q' = q_kind q /\ q_rel q' = q_rel q
  /\ (forall r, r <> RRel -> has q' r = has q r || existsb (fun x => same (snd x) r) (rolel fs))
  /\ (forall x, In x (rolel fs) -> legal (q_kind q) (snd x))
  /\ (forall g, In g groups -> at_most_one g (rolel fs))
  /\ (forall g r x, In g groups -> In r g -> has q r = true -> In x (rolel fs) -> ~ In (snd x) g).
Proof.
  induction fs as [|[v t] fs IH]; intros q q' H; cbn [field_pass] in H.
  - aok. subst. conjs; auto.
    + intros. cbn. now rewrite orb_false_r.
    + intros x [].
    + intros. apply amo_nil.
  - aok. apply IH in K. destruct K as (K1 & K2 & K3 & K4 & K5 & K6). apply step_effect in E.
    destruct E as [[T ->]|[T [F1 F2 F3 F4 F5]]].
    + pose proof (rolef_rel v t T) as R. conjs; auto.
      * intros r N. rewrite K3 by auto. rewrite rolel_cons, R. cbn. destruct r; auto; congruence.
      * intros x I. apply rolel_app_in in I. destruct I as [[-> _]|I]; auto. rewrite R. exact I.
      * intros g G. rewrite rolel_cons, R. cbn [app]. apply amo_cons; auto. cbn [snd]. intros I. exfalso. cbn in G.
        repeat (destruct G as [<-|G]; [cbn in I; repeat (destruct I as [I|I]; [discriminate I|]); exact I|]). exact G.
      * intros g r x G I Q J. apply rolel_app_in in J. destruct J as [[-> _]|J]; [|eauto]. rewrite R. cbn [snd]. intros L. cbn in G.
        repeat (destruct G as [<-|G]; [cbn in L; repeat (destruct L as [L|L]; [discriminate L|]); exact L|]). exact G.
    + conjs; try congruence.
      * intros r N. rewrite K3, F3 by auto. rewrite rolel_cons. rewrite <- orb_assoc. f_equal.
        destruct (rolef v t); cbn [app existsb snd]; auto. 
      * intros x I. apply rolel_app_in in I. destruct I as [[-> _]|I]; auto. rewrite <- F1. auto.
      * intros g G. rewrite rolel_cons.
        assert (A : at_most_one g ((v, t, rolef v t) :: rolel fs)).
        { apply amo_cons; auto. cbn [snd]. intros I y Y. eapply K6; eauto. rewrite F3.
          destruct (rolef v t); try (apply orb_true_r); exfalso; cbn in G;
          repeat (destruct G as [<-|G]; [cbn in I; repeat (destruct I as [I|I]; [discriminate I|]); exact I|]); exact G. }
        destruct (rolef v t); auto.
      * intros g r x G I Q J. apply rolel_app_in in J. destruct J as [[-> _]|J].
        -- cbn [snd]. intros L. rewrite (F5 g r G L I) in Q. discriminate.
        -- eapply K6; eauto. rewrite F3, Q. reflexivity.
Qed.

Lemma has_sp : forall q sp r, has (set_sp_ sp q) r = has q r.
Proof. intros q sp []; reflexivity. Qed.
Lemma set_kind_same : forall q, set_kind_ (q_kind q) q = q.
Proof. intros []. reflexivity. Qed.
Lemma rel_field_inv : forall e q v t q', analyzeQueryStructRelField e q v t = AOk q' ->
  exists rid sp rt dir k, q_rel q = None /\ parseRelIdent (tag_first (v_tag v) (B "rel")) = inl rid
    /\ addToRelSpace (q_sp q) rid = inl sp
    /\ q' = set_kind_ k (set_rel_ (Some (MkRelF (v_name v) rid rt dir)) (set_sp_ sp q))
    /\ (k = q_kind q \/ q_kind q = KSelect /\ (k = KSelectCount \/ k = KSelectExists \/ k = KSelectNotExists))
    /\ (rt = zero_rt \/ analyzeRelType e sp t = AOk rt).
Proof.
  intros e q v t q' H. unfold analyzeQueryStructRelField in H. aok. cbv zeta in *. split_bools.
  assert (N : q_rel q = None) by (destruct (q_rel q); [discriminate|auto]).
  repeat match goal with
  | K : (if ?c then _ else _) = _ |- _ => destruct c
  | _ => progress aok
  end; subst;
  repeat match goal with H : is_plain_select _ = true |- _ => cbn in H; destruct (q_kind q) eqn:?; try discriminate H end;
  try (do 5 eexists; conjs; eauto; first [reflexivity | symmetry; apply set_kind_same | auto]).
  all: try (exists a0, a1, zero_rt, true, (q_kind q); conjs; auto).
  all: match goal with E : analyzeRelType _ _ _ = AOk ?rt |- _ => exists a0, a1, rt, false, (q_kind q); conjs; auto end.
Qed.
Lemma rel_field_effect : forall e q v t q', analyzeQueryStructRelField e q v t = AOk q' ->
  has q RRel = false /\ has q' RRel = true /\ forall r, r <> RRel -> has q' r = has q r.
Proof.
  intros e q v t q' H. apply rel_field_inv in H. destruct H as (rid & sp & rt & dir & k & N & _ & _ & -> & _).
  conjs; [cbn; now rewrite N|reflexivity|]. intros [] R; try congruence; reflexivity.
Qed.
Lemma rel_pass_effect : forall e fs q q', rel_pass e q fs = AOk q' ->
  (forall r, r <> RRel -> has q' r = has q r) /\ has q' RRel = has q RRel || existsb (fun x => same (snd x) RRel) (rolel fs)
  /\ at_most_one [RRel] (rolel fs) /\ (has q RRel = true -> forall x, In x (rolel fs) -> snd x <> RRel).
Proof.
  induction fs as [|[v t] fs IH]; intros q q' H; cbn [rel_pass] in H.
  - aok. subst. conjs; auto. cbn. now rewrite orb_false_r. apply amo_nil.
  - destruct (tag_has (v_tag v) (B "rel")) eqn:T.
    + aok. apply rel_field_effect in E. destruct E as (E1 & E2 & E3). apply IH in K. destruct K as (K1 & K2 & K3 & K4).
      rewrite rolel_cons, (rolef_rel v t T). cbn [app]. conjs.
      * intros. rewrite K1, E3; auto.
      * rewrite K2, E2. cbn. now rewrite orb_true_r.
      * apply amo_cons; auto. intros _ y Y [J|[]]. apply (K4 E2 y Y). auto.
      * rewrite E1. discriminate.
    + apply IH in H. destruct H as (K1 & K2 & K3 & K4). pose proof (rolef_not_rel v t T) as N. conjs; auto.
      * rewrite K2. f_equal. rewrite rolel_cons. destruct (rolef v t); cbn; congruence.
      * rewrite rolel_cons. destruct (rolef v t); cbn [app]; auto; apply amo_cons; auto; cbn; intros [I|[]]; try discriminate I; congruence.
      * intros Q x X. apply rolel_app_in in X. destruct X as [[-> _]|X]; auto.
Qed.
