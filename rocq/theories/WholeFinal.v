(** Definitions and proofs used by PropsWhole.v. *)
From Coq Require Import Ascii String ZArith NArith Bool List Lia.
From Verif Require Import GoBase AParse PgSpec SqlSpec Analysis AnalysisSpec QuerySpec AnalysisProofs AnalysisRoles QueryFinal Oids Compat Gen GenRun GenSpec GenRowsSpec GenFilterSpec GenQFinal Check ConvertProofs Accepted CheckEx.
Import ListNotations.
Local Open Scope string_scope.
Local Open Scope list_scope.

(** Conditions that mean something to the server in the form they are written:
    the operator of a field is known, BETWEEN is the plain one, and columns
    are not compared by IN or BETWEEN. *)
Inductive sayable : witem -> Prop :=
| sy_bool : forall b, sayable (WBool b)
| sy_field : forall name t id p q fn, In p [IsEQ; NotEQ; NotEQ2; IsLT; IsGT; IsLTE; IsGTE; IsDistinct; NotDistinct; IsMatch; IsMatchi; NotMatch; NotMatchi;
    IsLike; NotLike; IsILike; NotILike; IsSimilar; NotSimilar; IsIn; NotIn] -> sayable (WField name t id p q fn)
| sy_column : forall c, ~ In (c_pred c) [IsIn; NotIn; IsBetween; NotBetween; IsBetweenSym; NotBetweenSym; IsBetweenAsym; NotBetweenAsym] -> sayable (WColumn c)
| sy_between : forall name id lo hi, sayable (WBetween name id IsBetween lo hi)
| sy_nested : forall name l, (forall x, In x l -> sayable x) -> sayable (WNested name l).

(** What is asked of an accepted query: connectives stand between conditions,
    conditions are sayable, FROM and USING name a relation, and a primary key
    used to find the record is not set to its default. *)
Definition expressible (q : qstate) (t : tinfo) : Prop :=
  (forall w, q_where q = Some w -> alternating (w_items w) /\ forall x, In x (w_items w) -> sayable x)
  /\ (forall j d c, q_join q = Some j -> In d (j_dirs j) -> In (JCond c) (j_items d) -> sayable (WColumn c))
  /\ (forall j, q_join q = Some j -> isSelect (q_kind q) = false -> j_relation j <> None)
  /\ (q_kind q = KUpdate -> q_where q = None -> q_all q = false ->
        forall k w, In k (ti_pkeys t) -> In w (ti_writes t) -> fw_id w = fw_id k -> defaulted q w = false).

Ltac ask t s := exists t, s; split; [cbn; tauto|]; split; [vm_compute; reflexivity|reflexivity].

Lemma asked : forall p, In p [IsEQ; NotEQ; NotEQ2; IsLT; IsGT; IsLTE; IsGTE; IsDistinct; NotDistinct; IsMatch; IsMatchi; NotMatch; NotMatchi;
    IsLike; NotLike; IsILike; NotILike; IsSimilar; NotSimilar] -> exists op, asks p op.
Proof.
  intros p H. repeat (destruct H as [<-|H]); [..|destruct H].
  - exists OpEq. ask "=" "=".
  - exists OpNe. ask "<>" "<>".
  - exists OpNe2. ask "!=" "!=".
  - exists OpLt. ask "<" "<".
  - exists OpGt. ask ">" ">".
  - exists OpLe. ask "<=" "<=".
  - exists OpGe. ask ">=" ">=".
  - exists (OpDistinct false). ask "isdistinct" "IS DISTINCT FROM".
  - exists (OpDistinct true). ask "notdistinct" "IS NOT DISTINCT FROM".
  - exists OpMatch. ask "~" "~".
  - exists OpMatchCi. ask "~*" "~*".
  - exists OpNotMatch. ask "!~" "!~".
  - exists OpNotMatchCi. ask "!~*" "!~*".
  - exists (OpLike false). ask "islike" "LIKE".
  - exists (OpLike true). ask "notlike" "NOT LIKE".
  - exists (OpILike false). ask "isilike" "ILIKE".
  - exists (OpILike true). ask "notilike" "NOT ILIKE".
  - exists (OpSimilar false). ask "issimilar" "SIMILAR TO".
  - exists (OpSimilar true). ask "notsimilar" "NOT SIMILAR TO".
Qed.

Lemma column_said : forall p c, sayable (WColumn c) -> exists e, says p (WCColumn c) e.
Proof.
  intros p c H. inversion_clear H as [| |? H0| |].
  assert (K : In (c_pred c) [IsEQ; NotEQ; NotEQ2; IsLT; IsGT; IsLTE; IsGTE; IsDistinct; NotDistinct; IsMatch; IsMatchi; NotMatch; NotMatchi;
    IsLike; NotLike; IsILike; NotILike; IsSimilar; NotSimilar] -> exists e, says p (WCColumn c) e).
  { intros I. destruct (asked _ I) as [op A]. destruct (col_empty (c_rhs c)) eqn:E; eexists; [eapply says_literal|eapply says_columns]; eauto. }
  destruct (c_pred c) eqn:P; try (exfalso; apply H0; cbn; tauto); try (apply K; cbn; tauto).
  - eexists. apply says_boolean. exact P.
  - eexists. apply says_null. exact P.
  - eexists. apply says_not_null. exact P.
  - eexists. eapply (says_truth p c "istrue"); [cbn; auto|exact P].
  - eexists. eapply (says_truth p c "nottrue"); [cbn; auto|exact P].
  - eexists. eapply (says_truth p c "isfalse"); [cbn; auto|exact P].
  - eexists. eapply (says_truth p c "notfalse"); [cbn; auto 6|exact P].
  - eexists. eapply (says_truth p c "isunknown"); [cbn; auto 7|exact P].
  - eexists. eapply (says_truth p c "notunknown"); [cbn; auto 8|exact P].
Qed.

Lemma check_all_nested : forall c l, (fix all (l : list witem) : cres (list wcond) :=
  match l with [] => COk [] | i :: r => chk x <- typeCheckWhereItem c i; chk xs <- all r; COk (x :: xs) end) l = check_all (typeCheckWhereItem c) l.
Proof. intros c. induction l as [|i l IH]; [reflexivity|]. cbn [check_all]. rewrite IH. reflexivity. Qed.

Lemma bound_said : forall c id lhs p b x path, (p = IsGTE \/ p = IsLTE) -> check_bound c id lhs p b = COk x -> exists e, bound_is path x e.
Proof.
  intros c id lhs p b x path P H. destruct b as [n i|r]; cbn [check_bound] in H; cbv zeta in H; apply cbind_ok in H; destruct H as (? & _ & H); injection H as <-.
  - eexists. apply bound_field. destruct P as [->| ->]; reflexivity.
  - eexists. apply bound_column.
Qed.

Definition list_said (c : checker) (l : list witem) : Prop :=
  (forall x, In x l -> sayable x) -> forall wl, check_all (typeCheckWhereItem c) l = COk wl ->
  forall p, exists items es, chain wl items /\ says_items p items es.

Lemma item_said : forall c x, ~ is_bool x -> (forall n l, x = WNested n l -> list_said c l) -> sayable x ->
  forall y, typeCheckWhereItem c x = COk y -> no_bool y /\ forall p, exists e, says p y e.
Proof.
  intros c x N NL SX y H. destruct x as [b|name t id p q fn|cd|name id p lo hi|name l]; cbn [typeCheckWhereItem] in H.
  - exfalso. apply N. exists b. reflexivity.
  - apply cbind_ok in H. destruct H as ([rid col] & _ & H). apply cbind_ok in H. destruct H as (v & _ & H). injection H as <-. split; [exact Logic.I|].
    intros path. inversion_clear SX as [|? ? ? ? ? ? I| | |].
    assert (I' : (exists op, asks p op) \/ p = IsIn \/ p = NotIn).
    { cbn [In] in I. destruct (in_app_or [IsEQ; NotEQ; NotEQ2; IsLT; IsGT; IsLTE; IsGTE; IsDistinct; NotDistinct; IsMatch; IsMatchi; NotMatch; NotMatchi;
        IsLike; NotLike; IsILike; NotILike; IsSimilar; NotSimilar] [IsIn; NotIn] p) as [K|K]; [exact I|left; exact (asked _ K)|]. cbn in K. destruct K as [<-|[<-|[]]]; auto. }
    destruct I' as [[op A]|[->| ->]]; eexists; [eapply says_field; exact A|apply says_in; reflexivity|apply says_not_in; reflexivity].
  - apply cbind_ok in H. destruct H as (? & _ & H). injection H as <-. split; [exact Logic.I|]. intros path. apply column_said. exact SX.
  - inversion SX; subst. cbn [negated] in H. apply cbind_ok in H. destruct H as (lhs & _ & H). apply cbind_ok in H. destruct H as (l & L & H).
    apply cbind_ok in H. destruct H as (h & HH & H). injection H as <-. split; [exact Logic.I|]. intros path.
    destruct (bound_said _ _ _ _ _ _ (path ++ [name]) (or_introl eq_refl) L) as [el EL]. destruct (bound_said _ _ _ _ _ _ (path ++ [name]) (or_intror eq_refl) HH) as [eh EH].
    eexists. eapply says_between; eauto.
  - apply cbind_ok in H. destruct H as (wl & L & H). injection H as <-. split; [exact Logic.I|]. intros path. rewrite check_all_nested in L.
    inversion_clear SX as [| | | |? ? SL]. destruct (NL name l eq_refl SL wl L (path ++ [name])) as (items & es & C & S').
    eexists. apply says_nested. eapply says_list; eauto.
Qed.

Lemma alternating_said : forall c l, alternating l -> list_said c l.
Proof.
  intros c l A. induction A as [|x N NA NI|x b y l N NA NI A IH]; intros SX wl H p.
  - injection H as <-. exists [], []. split; constructor.
  - cbn [check_all] in H. apply cbind_ok in H. destruct H as (x' & X & H). injection H as <-.
    destruct (item_said c x N NI (SX x (or_introl eq_refl)) x' X) as [NB E]. destruct (E p) as [e E']. exists [(None, x')], [(None, e)]. split; [constructor; [exact NB|constructor]|constructor; [exact E'|constructor]].
  - cbn [check_all] in H. apply cbind_ok in H. destruct H as (x' & X & H). apply cbind_ok in H. destruct H as (r & R & H). injection H as <-.
    apply cbind_ok in R. destruct R as (b' & BB & R). cbn [typeCheckWhereItem] in BB. injection BB as <-. apply cbind_ok in R. destruct R as (r' & R & RR). injection RR as <-.
    destruct (item_said c x N NI (SX x (or_introl eq_refl)) x' X) as [NB E]. destruct (E p) as [e E'].
    destruct (IH (fun z Z => SX z (or_intror (or_intror Z))) r') with (p := p) as (items & es & C & S'); [exact R|].
    apply cbind_ok in R. destruct R as (y' & Y & R). apply cbind_ok in R. destruct R as (l' & L' & R). injection R as <-.
    inversion C; subst. inversion S'; subst. exists ((None, x') :: (Some b, y') :: r), ((None, e) :: (Some b, e0) :: es0). split.
    + constructor; [exact NB|]. constructor; assumption.
    + constructor; [exact E'|]. constructor; assumption.
Qed.

Inductive turns : list jitem -> Prop :=
| turns_nil : turns []
| turns_cons : forall b c l, turns l -> turns (JBool b :: JCond c :: l).

Lemma turns_app : forall l r, turns l -> turns r -> turns (l ++ r).
Proof. induction 1; intros R; [exact R|]. cbn. constructor. auto. Qed.

Lemma alternatives_turn : forall sc rid ne b ps l, alternatives sc rid ne b ps l ->
  if ne then turns l else ps <> [] -> exists c r, l = JCond c :: r /\ turns r.
Proof.
  induction 1 as [ne b|ne b s r c l A B C IH]; [destruct ne; [constructor|congruence]|]. destruct ne; cbn.
  - constructor. exact IH.
  - intros _. eauto.
Qed.

Lemma conjuncts_turn : forall sc rid ne vs l, conjuncts sc rid ne vs l ->
  if ne then turns l else l = [] \/ exists c r, l = JCond c :: r /\ turns r.
Proof.
  induction 1 as [ne|ne v r ps l l' P A C IH]; [destruct ne; [constructor|auto]|]. pose proof (alternatives_turn _ _ _ _ _ _ A) as T. destruct ne.
  - apply turns_app; assumption.
  - right. destruct T as (c & r' & -> & T); [exact (proj1 P)|]. exists c, (r' ++ l'). split; [reflexivity|]. apply turns_app; assumption.
Qed.

Lemma turns_links : forall c rid rel l, turns l -> (forall x, In (JCond x) l -> sayable (WColumn x)) ->
  forall wl, check_all (check_join_item c rid rel) l = COk wl -> exists items es, links wl items /\ says_items [] items es.
Proof.
  intros c rid rel l T. induction T as [|b d l T IH]; intros SX wl H.
  - injection H as <-. exists [], []. split; constructor.
  - cbn [check_all] in H. apply cbind_ok in H. destruct H as (x & X & H). injection X as <-. apply cbind_ok in H. destruct H as (r & R & H). injection H as <-.
    apply cbind_ok in R. destruct R as (y & Y & R). cbn [check_join_item] in Y. apply cbind_ok in Y. destruct Y as (? & _ & Y). injection Y as <-.
    apply cbind_ok in R. destruct R as (l' & L & R). injection R as <-. destruct (IH (fun z Z => SX z (or_intror (or_intror Z))) l' L) as (items & es & K & E).
    destruct (column_said [] d) as [e' E']; [apply SX; cbn; auto|]. exists ((Some b, WCColumn d) :: items), ((Some b, e') :: es). split; constructor; auto; exact Logic.I.
Qed.

Lemma joins_said : forall dirs c c' ls, check_joins c dirs = COk (c', ls) ->
  (forall d, In d dirs -> j_items d = [] \/ exists x r, j_items d = JCond x :: r /\ turns r) ->
  (forall d x, In d dirs -> In (JCond x) (j_items d) -> sayable (WColumn x)) ->
  List.length ls = List.length dirs /\ exists js, Forall2 (fun dc x => join_is (fst dc) (snd dc) x) (combine dirs ls) js.
Proof.
  induction dirs as [|d dirs IH]; intros c c' ls H T SX; cbn [check_joins] in H; [injection H as _ <-; split; [reflexivity|exists []; constructor]|].
  apply cbind_ok in H. destruct H as ([c1 rel] & _ & H). apply cbind_ok in H. destruct H as (l & L & H). apply cbind_ok in H. destruct H as ([c2 ls'] & R & H). injection H as _ <-.
  destruct (IH _ _ _ R (fun d' D => T d' (or_intror D)) (fun d' x D => SX d' x (or_intror D))) as (LEN & js & J). split; [cbn; congruence|].
  assert (E : exists e, says_all [] false l e).
  { specialize (SX d). specialize (T d (or_introl eq_refl)). destruct T as [T|(x & r & T & TR)]; rewrite T in *.
    - injection L as <-. eexists. apply says_list with (items := []); constructor.
    - cbn [check_all] in L. apply cbind_ok in L. destruct L as (x' & X & L). cbn [check_join_item] in X. apply cbind_ok in X. destruct X as (? & _ & X). injection X as <-.
      apply cbind_ok in L. destruct L as (r' & L & LL). injection LL as <-.
      destruct (turns_links _ _ _ _ TR (fun z Z => SX z (or_introl eq_refl) (or_intror Z)) _ L) as (items & es & K & EE).
      destruct (column_said [] x) as [e E]; [apply SX; cbn; auto|]. eexists. apply says_list with (items := (None, WCColumn x) :: items); constructor; eauto. exact Logic.I. }
  destruct E as [e E]. exists (MkTJ (j_type d) (j_rel d) e :: js). cbn [combine]. constructor; [apply join_on; exact E|exact J].
Qed.

Lemma stored_some : forall q pre cast l, exists vals, Forall2 (stored q pre cast) l vals.
Proof.
  intros q pre cast. induction l as [|w l [vals IH]]; [exists []; constructor|].
  assert (E : exists e, stored q pre cast w e).
  { destruct (defaulted q w) eqn:D; [eexists; apply stored_default; exact D|].
    assert (N : null_as_zero w \/ ~ null_as_zero w).
    { unfold null_as_zero. destruct (co_table (fw_col w)), (co_notnull (fw_col w)), (kind_ptr (t_kind (fi_type (fw_field w)))), (ImplementsValuer (fi_type (fw_field w))), (fw_valuer w); 
      try (left; repeat split; reflexivity); right; intros (A1 & A2 & A3 & A4 & A5); discriminate. }
    destruct N as [N|N]; [|eexists; apply stored_plain; assumption].
    destruct (N.eq_dec (ty_oid (co_type (fw_col w))) oid_UUID) as [U|U]; [eexists; apply stored_uuid; assumption|].
    destruct (find_oid (ty_oid (co_type (fw_col w))) TypeToZeroValue) eqn:Z; eexists; [eapply stored_nullif; eauto|apply stored_no_zero; assumption]. }
  destruct E as [e E]. exists (e :: vals). constructor; assumption.
Qed.

Lemma fetched_some : forall l, exists vals, Forall2 fetched l vals.
Proof.
  induction l as [|r l [vals IH]]; [exists []; constructor|].
  assert (E : exists e, fetched r e).
  { assert (N : zero_for_null r \/ ~ zero_for_null r).
    { unfold zero_for_null. destruct (fi_coalesce (fr_field r)); [auto|]. destruct (co_table (fr_col r)), (co_notnull (fr_col r)), (kind_ptr (t_kind (fi_type (fr_field r)))), (ImplementsScanner (fi_type (fr_field r))), (fr_scanner r);
      try (left; right; repeat split; reflexivity); right; intros [A|(A1 & A2 & A3 & A4 & A5)]; discriminate. }
    destruct N as [N|N]; [|eexists; apply fetched_plain; assumption].
    destruct (fi_coalval (fr_field r)) eqn:V; [|eexists; eapply fetched_value; [exact N|exact V|discriminate]].
    destruct (N.eq_dec (ty_oid (co_type (fr_col r))) oid_UUID) as [U|U]; [eexists; apply fetched_uuid; assumption|].
    destruct (find_oid (ty_oid (co_type (fr_col r))) TypeToZeroValue) eqn:Z; eexists; [eapply fetched_zero; eauto|apply fetched_no_zero; assumption]. }
  destruct E as [e E]. exists (e :: vals). constructor; assumption.
Qed.

Lemma number_some : forall l, exists x, number_is l x.
Proof.
  intros [l|]; [|eexists; apply number_none]. destruct (lf_name l) eqn:E; [|eexists; apply number_field; congruence].
  destruct (N.eq_dec (lf_value l) 0); eexists; [apply number_zero; assumption|apply number_const; assumption].
Qed.

Lemma limit_some : forall q, exists x, limit_is q x.
Proof.
  intros q. destruct (q_limit q) as [l|] eqn:E; [destruct (number_some (Some l)) as [x X]; exists x; eapply limit_given; eauto|].
  assert (N : single (q_rtype q) \/ ~ single (q_rtype q)). { unfold single. destruct (rt_slice (q_rtype q)), (rt_iter (q_rtype q)), (rt_array (q_rtype q)); try (left; repeat split; reflexivity); right; intros (A & B & C); discriminate. }
  destruct N; eexists; [apply limit_one|apply limit_none]; assumption.
Qed.

Lemma keys_some : forall q t, (forall k w, In k (ti_pkeys t) -> In w (ti_writes t) -> fw_id w = fw_id k -> defaulted q w = false) ->
  forall l b, incl l (ti_pkeys t) -> exists keys, keys_are q t b l keys.
Proof.
  intros q t D. induction l as [|k l IH]; intros b I; [exists []; constructor|].
  assert (E : exists e, key_is q t k e).
  { assert (X : (exists x, In x (ti_writes t) /\ fw_id x = fw_id k) \/ forall x, In x (ti_writes t) -> fw_id x <> fw_id k).
    { generalize (ti_writes t) as ws. induction ws as [|w ws [(x & X1 & X2)|X]]; [right; intros x []|left; exists x; cbn; auto|].
      destruct (Nat.eq_dec (fw_id w) (fw_id k)); [left; exists w; cbn; auto|]. right. intros x [<-|Y]; auto. }
    destruct X as [(x & X1 & X2)|X]; eexists; [eapply key_written; eauto; apply (D k); auto; apply I; cbn; auto|apply key_alone; exact X]. }
  destruct E as [e E]. destruct (IH (Some BoolAnd)) as [keys K]; [intros x X; apply I; cbn; auto|]. eexists. constructor; eassumption.
Qed.

Record parts (db : database) (q : qstate) (t : tinfo) : Prop := MkParts {
  pt_join : exists c0 c1, typeCheckQueryJoinStruct c0 q = COk (c1, ti_joins t);
  pt_where : exists c, typeCheckQueryWhereStruct c q = COk (ti_where t) }.

Lemma query_parts : forall db q t, check_query db q = COk t -> parts db q t.
Proof.
  intros db q t H. unfold check_query in H. destruct (q_rel q) as [rf|] eqn:RF; [|discriminate H].
  apply cbind_ok in H. destruct H as (c & _ & H). apply cbind_ok in H. destruct H as ([c1 joins] & J & H). cbv zeta in H.
  do 3 (apply cbind_ok in H; destruct H as (? & _ & H)). apply cbind_ok in H. destruct H as (r1 & _ & H). apply cbind_ok in H. destruct H as (r2 & _ & H).
  apply cbind_ok in H. destruct H as ([[r3 w] pk] & R & H). apply cbind_ok in H. destruct H as (wh & WH & H). apply cbind_ok in H. destruct H as (oc & _ & H). injection H as <-.
  constructor; cbn; eauto.
Qed.

Lemma dirs_turn : forall sc fs sc' rel ds, join_decl sc fs sc' rel ds -> forall d, In d ds -> j_items d = [] \/ exists x r, j_items d = JCond x :: r /\ turns r.
Proof.
  induction 1; intros dd D; try (destruct D; fail); auto. destruct D as [<-|D]; [|auto]. cbn [j_items]. exact (conjuncts_turn _ _ _ _ _ H5).
Qed.

Lemma joins_some_are : forall e name fs db q t, analyzeQueryStruct e name fs = AOk q -> plain_names fs -> check_query db q = COk t -> expressible q t ->
  exists js, joins_are q t js.
Proof.
  intros e name fs db q t A PN H (_ & EJ & _). destruct (query_parts _ _ _ H) as [(c0 & c1 & J) _]. unfold typeCheckQueryJoinStruct in J.
  destruct (q_join q) as [j|] eqn:QJ; [|exists []; apply joins_none; exact QJ]. apply cbind_ok in J. destruct J as (c2 & _ & J).
  destruct (C50_joins_proof _ _ _ _ _ A PN QJ) as (v & ty & sc & jfs & sc' & _ & _ & _ & JD & _).
  destruct (joins_said _ _ _ _ J (dirs_turn _ _ _ _ _ JD) (fun d x D X => EJ j d x eq_refl D X)) as (LEN & js & JS). exists js. eapply joins_some; eauto.
Qed.

Lemma where_some_is : forall e name fs db q t, analyzeQueryStruct e name fs = AOk q -> check_query db q = COk t -> expressible q t -> exists wh, where_is q t wh.
Proof.
  intros e name fs db q t A H (EW & _). destruct (query_parts _ _ _ H) as [_ (c & W)]. unfold typeCheckQueryWhereStruct in W.
  destruct (q_where q) as [w|] eqn:QW; [|injection W as W; exists None; apply where_none; auto].
  destruct (ti_where t) eqn:TW; [exists None; apply where_none; exact TW|]. rewrite <- TW in W. destruct (EW w eq_refl) as [AL SX].
  destruct (alternating_said c _ AL SX _ W [w_name w]) as (items & es & C & S'). eexists. eapply where_some; [exact QW|congruence|]. eapply says_list; eauto.
Qed.

Lemma from_some_is : forall e name fs db q t, analyzeQueryStruct e name fs = AOk q -> plain_names fs -> check_query db q = COk t -> expressible q t ->
  isSelect (q_kind q) = false -> exists from, from_is q t from.
Proof.
  intros e name fs db q t A PN H E K. destruct (joins_some_are _ _ _ _ _ _ A PN H E) as [js J]. destruct E as (_ & _ & ER & _).
  destruct (q_join q) as [j|] eqn:QJ; [|exists []; apply from_none; exact QJ]. specialize (ER j eq_refl K). destruct (j_relation j) as [r|] eqn:R; [|congruence].
  eexists. eapply from_some; eauto.
Qed.

Lemma C94_described_proof : forall e name fs db q t, analyzeQueryStruct e name fs = AOk q -> plain_names fs -> check_query db q = COk t ->
  expressible q t -> q_filter q = None -> IsInsertOrUpdateSlice q = false -> exists S, intended q t S.
Proof.
  intros e name fs db q t A PN H E F NS. pose proof (accepted_checked _ _ _ _ _ _ A H) as CK.
  destruct (stored_some q [q_relname q] false (ti_writes t)) as [vals V]. destruct (fetched_some (ti_reads t)) as [ret R].
  destruct (where_some_is _ _ _ _ _ _ A H E) as [wh W]. destruct (joins_some_are _ _ _ _ _ _ A PN H E) as [js J].
  destruct (limit_some q) as [l L]. destruct (number_some (q_offset q)) as [o O].
  pose proof (from_some_is _ _ _ _ _ _ A PN H E) as FR. destruct E as (_ & _ & _ & EK). unfold IsInsertOrUpdateSlice, IsInsertOrUpdate in NS.
  destruct (q_kind q) eqn:K; cbn in NS, FR.
  - eexists. apply in_insert; eauto.
  - destruct (FR eq_refl) as [from FF]. destruct (q_where q) eqn:QW; [eexists; eapply in_update; eauto; left; congruence|].
    destruct (q_all q) eqn:QA; [eexists; eapply in_update; eauto|].
    destruct (keys_some q t (EK eq_refl eq_refl eq_refl) (ti_pkeys t) None (incl_refl _)) as [keys KS]. eexists. eapply in_update_key; eauto.
  - destruct (FR eq_refl) as [from FF]. eexists. eapply in_delete; eauto.
  - eexists. eapply in_select; eauto.
  - eexists. eapply in_count; eauto.
  - eexists. apply (in_exists q t false); eauto.
  - eexists. apply (in_exists q t true); eauto.
Qed.

Lemma C94_executed_proof : forall e name fs db q t wc D c, analyzeQueryStruct e name fs = AOk q -> plain_names fs -> check_query db q = COk t ->
  expressible q t -> q_filter q = None -> IsInsertOrUpdateSlice q = false ->
  (forall l, q_kind q = KSelectCount -> q_limit q = Some l -> lf_name l = []) -> run (buildQueryCode wc q t) D = Ok c ->
  exists S n, intended q t S /\ cl_text c = [TNode n]
    /\ (stmt_lists S = [] -> executed (cl_args c) n = filled (with_defaults q D) S)
    /\ (stmt_lists S <> [] -> executed (cl_args c) n = filled D S)
    /\ (forall i, In i (placeholders n) <-> (1 <= i <= Z.of_nat (List.length (cl_args c)))%Z)
    /\ called q (cl_method c) /\ context_is wc q (with_defaults q D) (cl_ctx c).
Proof.
  intros e name fs db q t wc D c A PN H E F NS CL R. destruct (C94_described_proof _ _ _ _ _ _ A PN H E F NS) as [S I]. pose proof (accepted_checked _ _ _ _ _ _ A H) as CK.
  assert (L : stmt_lists S = [] \/ stmt_lists S <> []) by (destruct (stmt_lists S); [auto|right; discriminate]). destruct L as [L|L].
  - destruct (C39_arguments_match_placeholders_proof wc q t S D c I CK F CL L R) as (n & T & X & P & M & K). exists S, n. repeat (split; [assumption|]). split; [intros _; exact X|]. split; [congruence|]. auto.
  - destruct (C40_in_lists_proof wc q t S D c I CK F CL L R) as (n & fixed & lists & T & X & _ & _ & _ & _ & _ & P & M & K). exists S, n.
    repeat (split; [assumption|]). split; [congruence|]. split; [intros _; exact X|]. auto.
Qed.

Lemma other_some : forall t l, exists r, other_keys t l r.
Proof.
  intros t. induction l as [|k l [r IH]]; [exists []; constructor|].
  assert (X : (exists x, In x (ti_writes t) /\ fw_id x = fw_id k) \/ forall x, In x (ti_writes t) -> fw_id x <> fw_id k).
  { generalize (ti_writes t) as ws. induction ws as [|w ws [(x & X1 & X2)|X]]; [right; intros x []|left; exists x; cbn; auto|].
    destruct (Nat.eq_dec (fw_id w) (fw_id k)); [left; exists w; cbn; auto|]. right. intros x [<-|Y]; auto. }
  destruct X as [(x & X1 & X2)|X]; [exists r; eapply ok_written; eauto|exists (k :: r); apply ok_other; assumption].
Qed.

Lemma C94_rows_proof : forall e name fs db q t wc D c recs, analyzeQueryStruct e name fs = AOk q -> plain_names fs -> check_query db q = COk t ->
  expressible q t -> IsInsertOrUpdateSlice q = true -> ti_writes t <> [] ->
  (q_kind q = KUpdate -> ti_reads t = [] /\ forall w, In w (ti_writes t) -> defaulted q w = false) ->
  gfield D (q_relname q) = Some (VSlice recs) -> recs <> [] -> run (buildQueryCode wc q t) D = Ok c ->
  exists vals M T main tail rows, rows_intended q t vals M T
    /\ cl_text c = TNode main :: rows_sql rows ++ match tail with Some n => [TChr " "%char; TNode n] | None => [] end
    /\ executed (cl_args c) main = filled D M /\ option_map (executed (cl_args c)) tail = option_map (filled D) T
    /\ rows_hold vals recs (cl_args c) rows
    /\ (Z.of_nat (List.length (cl_args c)) <= 65535)%Z
    /\ called q (cl_method c) /\ context_is wc q D (cl_ctx c).
Proof.
  intros e name fs db q t wc D c recs A PN H E S W U G NR R. pose proof (accepted_checked _ _ _ _ _ _ A H) as CK. destruct (decent_query _ _ _ _ A) as [_ _ DW _ _].
  destruct (DW S) as (QW & QF & QA).
  assert (I : exists vals M T, rows_intended q t vals M T).
  { unfold IsInsertOrUpdateSlice, IsInsertOrUpdate in S. apply andb_true_iff in S. destruct S as [KK SL]. destruct (fetched_some (ti_reads t)) as [ret RT].
    destruct (q_kind q) eqn:K; try discriminate KK.
    - destruct (stored_some q [] false (ti_writes t)) as [vals V]. destruct (conflict_is t) eqn:CI; [do 3 eexists; eapply rows_insert_tail; eauto; left; congruence|].
      destruct (ti_reads t) eqn:TR; [do 3 eexists; eapply rows_insert_plain; eauto|do 3 eexists; eapply rows_insert_tail; eauto; [rewrite TR; exact RT|right; congruence]].
    - destruct (stored_some q [] true (ti_writes t)) as [vals V]. destruct (from_some_is _ _ _ _ _ _ A PN H E) as [from FF]; [rewrite K; reflexivity|].
      destruct (other_some t (ti_pkeys t)) as [others O]. destruct (U eq_refl) as [U1 U2]. do 3 eexists. eapply rows_update; eauto. }
  destruct I as (vals & M & T & I). destruct (C41_rows_proof wc q t vals M T D c recs I CK QF G NR R) as (main & tail & rows & X). exists vals, M, T, main, tail, rows. split; assumption.
Qed.

Lemma only_filter : forall e name fs q, analyzeQueryStruct e name fs = AOk q -> plain_names fs -> q_filter q <> None -> q_where q = None.
Proof.
  intros e name fs q A PN F. destruct (q_where q) eqn:W; [exfalso|reflexivity]. pose proof (rolel_roles fs PN) as R.
  destruct (C32_exclusive_proof _ _ _ _ _ A PN R) as [X _]. destruct (C32_present_proof _ _ _ _ _ A PN R) as [_ P].
  assert (P1 : present q RWhere) by (cbn; congruence). assert (P2 : present q RFilter) by exact F.
  apply P in P1. apply P in P2. destruct P1 as (v1 & t1 & r1 & I1 & L1). destruct P2 as (v2 & t2 & r2 & I2 & L2).
  assert (r1 = RWhere) by (destruct L1 as [L1|[_ L1]]; [exact L1|destruct L1 as [L1|[L1|L1]]; discriminate L1]). 
  assert (r2 = RFilter) by (destruct L2 as [L2|[_ L2]]; [exact L2|destruct L2 as [L2|[L2|L2]]; discriminate L2]). subst.
  specialize (X [RWhere; RFilter; RAll] (or_intror (or_introl eq_refl))). apply in_split in I1. destruct I1 as (a & b & E). rewrite E in *.
  apply in_app_or in I2. destruct I2 as [I2|[I2|I2]]; [|discriminate I2|].
  - apply in_split in I2. destruct I2 as (a1 & a2 & ->). apply (X a1 (v2, t2, RFilter) a2 (v1, t1, RWhere) b); [rewrite <- app_assoc; reflexivity|cbn; auto].
  - apply in_split in I2. destruct I2 as (b1 & b2 & ->). apply (X a (v1, t1, RWhere) b1 (v2, t2, RFilter) b2); [reflexivity|cbn; auto].
Qed.

(** Queries with a filter field: selects of several records without order,
    limit and offset, counts and existence without limit and offset, updates,
    and deletes that return nothing. *)
Definition filterable (q : qstate) (t : tinfo) : Prop :=
  match q_kind q with
  | KSelect => ~ single (q_rtype q) /\ q_orderby q = None /\ q_limit q = None /\ q_offset q = None
  | KSelectCount | KSelectExists | KSelectNotExists => q_limit q = None /\ q_offset q = None
  | KDelete => ti_reads t = []
  | KUpdate => True
  | KInsert => False
  end.

Lemma C94_filter_proof : forall e name fs db q t wc fld D c text vals, analyzeQueryStruct e name fs = AOk q -> plain_names fs -> check_query db q = COk t ->
  expressible q t -> filterable q t -> q_filter q = Some fld -> gfield D fld = Some (VFilter text vals) -> run (buildQueryCode wc q t) D = Ok c ->
  exists M T main ftext tail fixed, filtered q t M T
    /\ cl_text c = TNode main :: ftext ++ closing M ++ match tail with Some n => [TChr " "%char; TNode n] | None => [] end
    /\ cl_args c = fixed ++ vals
    /\ executed (cl_args c) main = filled D M /\ option_map (executed (cl_args c)) tail = option_map (filled D) T
    /\ (forall i, In i (placeholders main) <-> (1 <= i <= Z.of_nat (List.length fixed))%Z)
    /\ filter_text_is (cl_args c) text vals ftext
    /\ called q (cl_method c) /\ context_is wc q D (cl_ctx c).
Proof.
  intros e name fs db q t wc fld D c text vals A PN H E FA F G R. pose proof (accepted_checked _ _ _ _ _ _ A H) as CK. destruct (decent_query _ _ _ _ A) as [_ _ DW _ _].
  assert (QW : q_where q = None) by (eapply only_filter; eauto; congruence).
  assert (NS : IsInsertOrUpdateSlice q = false) by (destruct (IsInsertOrUpdateSlice q) eqn:S; [destruct (DW eq_refl) as (_ & X & _); congruence|reflexivity]).
  assert (I : exists M T, filtered q t M T).
  { unfold filterable in FA. unfold IsInsertOrUpdateSlice, IsInsertOrUpdate in NS. destruct (fetched_some (ti_reads t)) as [ret RT]. destruct (joins_some_are _ _ _ _ _ _ A PN H E) as [js J].
    destruct (stored_some q [q_relname q] false (ti_writes t)) as [vs V]. pose proof (from_some_is _ _ _ _ _ _ A PN H E) as FR. destruct (q_kind q) eqn:K; cbn in NS, FR.
    - destruct FA.
    - destruct (FR eq_refl) as [from FF]. destruct (ti_reads t) eqn:TR; do 2 eexists; [eapply fil_update; eauto|eapply fil_update_returning; eauto; [congruence|rewrite TR; exact RT]].
    - destruct (FR eq_refl) as [from FF]. do 2 eexists. eapply fil_delete; eauto.
    - destruct FA as (F1 & F2 & F3 & F4). do 2 eexists. eapply fil_select; eauto.
    - destruct FA as (F1 & F2). do 2 eexists. eapply fil_count; eauto.
    - destruct FA as (F1 & F2). do 2 eexists. apply (fil_exists q t false); eauto.
    - destruct FA as (F1 & F2). do 2 eexists. apply (fil_exists q t true); eauto. }
  destruct I as (M & T & I). destruct (C55_filter_proof wc q t fld M T D c text vals I CK F QW G R) as (main & ftext & tail & fixed & X). exists M, T, main, ftext, tail, fixed. split; assumption.
Qed.

Ltac alternates := repeat first
  [ apply al_nil
  | apply al_cons; [intros [? ?]; discriminate|let E := fresh in intros ? ? E; first [discriminate E|injection E as <- <-]|]
  | apply al_one; [intros [? ?]; discriminate|let E := fresh in intros ? ? E; first [discriminate E|injection E as <- <-]] ].

Ltac says_so := repeat match goal with
  | |- forall x, In x _ -> sayable x => let X := fresh in intros ? X; cbn [In] in X; repeat (destruct X as [<-|X]); [..|destruct X]
  | |- sayable (WBool _) => apply sy_bool
  | |- sayable (WField _ _ _ _ _ _) => apply sy_field; cbn; tauto
  | |- sayable (WColumn _) => apply sy_column; cbn; intuition discriminate
  | |- sayable (WBetween _ _ _ _ _) => apply sy_between
  | |- sayable (WNested _ _) => apply sy_nested
  end.

Definition rec94 : gtype := TNamed (ex_name "User") (TStruct [(ex_var "Id" (ex_tag "sql" ["id"; "pk"]), ex_int); (ex_var "Email" (ex_tag "sql" ["email"]), ex_str)]).

Definition rel94 (t : gtype) : fvar * gtype := (ex_var "Rel" (ex_tag "rel" ["user:u"]), t).

Lemma C63_accepted_proof : forall e name fs db q t, analyzeQueryStruct e name fs = AOk q -> check_query db q = COk t -> checked q t.
Proof. exact accepted_checked. Qed.
