(** Definitions and proofs used by PropsQuery.v. *)
From Coq Require Import Ascii String ZArith NArith Bool List Lia.
From Verif Require Import GoBase Strconv ConvertUtil ConvertProofs Filter Filters2Final AParse PgSpec TagSpec SqlSpec AParseProofs TagsFinal Analysis AnalysisSpec AnalysisProofs AnalysisRoles QuerySpec QueryProofs QueryShape QuerySlots.
Import ListNotations.
Local Open Scope string_scope.
Local Open Scope list_scope.

(** *** material for examples *)
Definition ex_env : env := MkEnv (lit "app") [] [] false.

Definition ex_name (s : string) : tname := MkName (lit s) (Some (lit "app", lit "app")) no_flags false false false false.

Definition ex_dir (s : string) : gtype :=
  TNamed (MkName (lit s) (Some (lit "github.com/frk/gosql", lit "gosql")) no_flags false false false false)
    (TStruct [(MkVar (lit "_isdir") false false [], TStruct [])]).

Definition ex_tag (k : string) (l : list string) : tag := [(lit k, map lit l)].

Definition ex_var (n : string) (t : tag) : fvar := MkVar (lit n) true false t.

Definition ex_int := TBasic BInt false false.

Definition ex_str := TBasic BString false false.

Definition ex_user : gtype := TNamed (ex_name "User") (TStruct
  [(ex_var "Id" (ex_tag "sql" ["id"; "pk"]), ex_int); (ex_var "Email" (ex_tag "sql" ["email"]), ex_str)]).

Definition ex_rel (r : string) : fvar * gtype := (ex_var "Rel" (ex_tag "rel" [r]), TSlice (TPtr ex_user)).

Definition ex_join : fvar * gtype := (ex_var "Join" [], TStruct
  [(ex_var "_" (ex_tag "sql" ["post:p"; "p.user_id=u.id"; "p.hidden isfalse"]), ex_dir "LeftJoin")]).

Definition ex_where : fvar * gtype := (ex_var "Where" [], TStruct
  [(ex_var "Email" (ex_tag "sql" ["u.email"]), ex_str);
   (ex_var "_" (ex_tag "sql" ["p.id notnull"] ++ ex_tag "bool" ["or"]), ex_dir "Column")]).

Definition ex_full : fields :=
  [ex_rel "user:u"; ex_join; ex_where; (ex_var "_" (ex_tag "sql" ["-u.id:nullsfirst"; "p.date"]), ex_dir "OrderBy");
   (ex_var "_" (ex_tag "sql" ["25"]), ex_dir "Limit")].

Definition ex_query : qstate := Eval vm_compute in match analyzeQueryStruct ex_env (lit "SelectUsers") ex_full with AOk q => q | _ => new_query KSelect end.

Lemma plain_fields : forall fs, forallb (fun f => forallb (fun c => (N_of_ascii c <? 128)%N && negb (is_space c)) (v_name (fst f))
   && match snd f with TNamed n _ => forallb (fun c => (N_of_ascii c <? 128)%N && negb (is_space c)) (n_name n) | _ => true end) fs = true -> plain_names fs.
Proof.
  assert (P : forall s, forallb (fun c => (N_of_ascii c <? 128)%N && negb (is_space c)) s = true -> plain s).
  { intros s H. rewrite forallb_forall in H. split; apply Forall_forall; intros c I; apply H in I; apply andb_prop in I; destruct I as [A C].
    - now apply N.ltb_lt.
    - intros X. apply is_space_spec in X. rewrite X in C. discriminate. }
  intros fs H. rewrite forallb_forall in H. apply Forall_forall. intros [v t] I. apply H in I. cbn [fst snd] in *. apply andb_prop in I. destruct I as [A C].
  split; auto. intros n u E. rewrite E in C. auto.
Qed.

(** *** present *)
Lemma has_present : forall q r, has q r = true <-> present q r.
Proof.
  intros q r. assert (S1 : forall {A} (o : option A), is_some o = true <-> o <> None).
  { intros A o. destruct o; cbn; split; congruence. }
  destruct r; cbn [has present]; try apply S1; try tauto. split; [discriminate|tauto].
Qed.

Lemma alike_same : forall r r', r <> RNone -> (same r r' = true <-> alike r r').
Proof.
  intros r r' N. split.
  - intros H. destruct r, r'; cbn in H; try discriminate; try (left; reflexivity); right; unfold joins; auto.
  - intros [->|[J J']]; [destruct r'; cbn; congruence|]. destruct J as [-> |[-> | ->]]; destruct J' as [-> |[-> | ->]]; reflexivity.
Qed.

Lemma C32_exclusive_proof : forall e name fs q l, analyzeQueryStruct e name fs = AOk q -> plain_names fs -> roles fs l ->
  (forall rs, In rs exclusive -> at_most_one rs l) /\ (forall v t r, In (v, t, r) l -> legal (q_kind q) r).
Proof.
  intros e name fs q l H P R. apply roles_rolel in R; auto. subst l. unfold analyzeQueryStruct in H. aok.
  match goal with X : rel_pass _ _ _ = _ |- _ => pose proof (rel_pass_effect _ _ _ _ X) as (_ & _ & RR & _) end.
  match goal with X : field_pass _ _ _ = _ |- _ => pose proof (pass_effect _ _ _ _ X) as (K1 & _ & _ & K4 & K5 & _) end.
  split.
  - intros rs I. cbn [exclusive In] in I. destruct I as [<-|I]; auto.
  - intros v t r I. rewrite K1. apply (K4 (v, t, r) I).
Qed.

Lemma C32_present_proof : forall e name fs q l, analyzeQueryStruct e name fs = AOk q -> plain_names fs -> roles fs l ->
  (exists v t, In (v, t, RRel) l) /\ forall r, present q r <-> exists v t r', In (v, t, r') l /\ alike r' r.
Proof.
  intros e name fs q l H P R. apply roles_rolel in R; auto. subst l. unfold analyzeQueryStruct in H. aok.
  match goal with X : rel_pass _ _ _ = _ |- _ => pose proof (rel_pass_effect _ _ _ _ X) as (R1 & R2 & _ & _) end.
  match goal with X : field_pass _ _ _ = _ |- _ => pose proof (pass_effect _ _ _ _ X) as (_ & K2 & K3 & _) end.
  assert (NN : forall x, In x (rolel fs) -> snd x <> RNone).
  { intros x I. apply in_flat_map in I. destruct I as ([v t] & _ & I). cbn [fst snd] in I. destruct (rolef v t); cbn in I; try contradiction; destruct I as [<-|[]]; discriminate. }
  assert (G : forall r, existsb (fun x => same (snd x) r) (rolel fs) = true <-> exists v t r', In (v, t, r') (rolel fs) /\ alike r' r).
  { intros r. rewrite existsb_exists. split.
    - intros ([[v t] r'] & I & S1). cbn [snd] in S1. apply alike_same in S1; [|apply (NN _ I)]. eauto.
    - intros (v & t & r' & I & A). exists (v, t, r'). split; [exact I|]. apply alike_same; [apply (NN _ I)|exact A]. }
  assert (RP : has q RRel = true). { cbn [has]. rewrite K2. assumption. }
  assert (RE : exists v t r', In (v, t, r') (rolel fs) /\ alike r' RRel).
  { apply G. cbn [has] in R2. change (is_some (q_rel (new_query a))) with false in R2. cbn [orb] in R2. rewrite <- R2. assumption. }
  split.
  - destruct RE as (v & t & r' & I & [->|[_ [J|[J|J]]]]); try discriminate. eauto.
  - intros r. rewrite <- has_present. destruct (role_dec r [RRel]) as [[<-|[]]|NR].
    + split; auto.
    + assert (r <> RRel) as N by (intros ->; apply NR; now left). rewrite K3, R1 by auto.
      assert (has (new_query a) r = false) as -> by (destruct r; reflexivity). cbn [orb]. apply G.
Qed.

Lemma C32_repetition_refuted_proof : exists e name fs q l1 l2 l3 v v' t t', analyzeQueryStruct e name fs = AOk q /\ plain_names fs
  /\ roles fs (l1 ++ (v, t, ROrderBy) :: l2 ++ (v', t', ROrderBy) :: l3) /\ order_items [lit "u"] [lit "u.email"] (match q_orderby q with Some l => l | None => [] end).
Proof.
  set (fs := [ex_rel "user:u"; (ex_var "_" (ex_tag "sql" ["u.id"]), ex_dir "OrderBy"); (ex_var "_" (ex_tag "sql" ["u.email"]), ex_dir "OrderBy")]).
  destruct (analyzeQueryStruct ex_env (lit "SelectUsers") fs) as [q| |] eqn:A; [|vm_compute in A; discriminate..].
  assert (P : plain_names fs) by (apply plain_fields; vm_compute; reflexivity).
  exists ex_env, (lit "SelectUsers"), fs, q, [(fst (ex_rel "user:u"), snd (ex_rel "user:u"), RRel)], [], [], (ex_var "_" (ex_tag "sql" ["u.id"])),
     (ex_var "_" (ex_tag "sql" ["u.email"])), (ex_dir "OrderBy"), (ex_dir "OrderBy"). conjs; auto.
  - replace (_ ++ _) with (rolel fs) by (vm_compute; reflexivity). exact (rolel_roles fs P).
  - assert (E : exists sp l, map fst sp = [lit "u"] /\ q_orderby q = Some l /\ order_tags sp [lit "u.email"] = AOk l).
    { vm_compute in A. injection A as <-. exists [(lit "u", MkRel (lit "user") (lit "u") [])]. eexists. conjs; [reflexivity|cbn [q_orderby]; reflexivity|]. vm_compute. reflexivity. }
    destruct E as (sp & l & <- & -> & E). now apply order_tags_ok.
Qed.

(** Relation names are distinct, and columns are qualified by them only. *)
Lemma scope_of : forall e name fs q l, analyzeQueryStruct e name fs = AOk q -> plain_names fs -> roles fs l ->
  exists v t s o k ks, In (v, t, RRel) l /\ tag_value (v_tag v) (lit "rel") (s :: o) /\ scope_name s k /\ joined_names l ks
    /\ NoDup (k :: ks) /\ map fst (q_sp q) = rev ks ++ [k].
Proof.
  intros e name fs q l H P R. apply roles_rolel in R; auto. subst l.
  destruct (query_inv _ _ _ _ H) as (k & f1 & v0 & t0 & f2 & q0 & Q1 & Q2 & Q3 & Q4 & Q5 & Q6).
  destruct (new_rel_field _ _ _ _ _ Q5) as (s & o & rid & n & T1 & _ & T2 & T3 & _).
  destruct (pass_scope _ _ _ _ Q6) as (ks & J & M & N). rewrite T3 in M, N.
  exists v0, t0, s, o, n, ks. conjs; auto.
  - rewrite Q2. apply in_flat_map. exists (v0, t0). split; [apply in_or_app; right; now left|]. cbn [fst snd]. rewrite rolef_rel; auto. now left.
  - assert (ND : NoDup (rev ks ++ [n])). { rewrite <- M. apply N. constructor; auto. constructor. }
    apply NoDup_rev in ND. rewrite rev_app_distr, rev_involutive in ND. exact ND.
Qed.

(** *** the steps that fill the slots *)
Ltac start_none := let H := fresh in intros ? ? ? ? H; apply new_rel_field in H; destruct H as (? & ? & ? & ? & H); decompose [and] H; assumption.

Ltac no_role := cbn; intros ?H; repeat (match goal with X : _ \/ _ |- _ => destruct X as [X|X]; [discriminate X|] end); contradiction.

Ltac one_role := match goal with X : In (rolef _ _) [_] |- _ => destruct X as [X|[]] end.

Lemma where_slot : forall e name fs q w, analyzeQueryStruct e name fs = AOk q -> plain_names fs -> q_where q = Some w ->
  exists v t sc wfs f, place fs [RWhere] v t sc /\ incl sc (map fst (q_sp q)) /\ struct_of t wfs /\ (f = true <-> foreign (e_pkg e) t)
    /\ w_name w = v_name v /\ where_items sc f false wfs (w_items w).
Proof.
  intros e name fs q w H P W.
  destruct (query_slot e name fs q H P q_where [RWhere] w un_where ltac:(start_none) ltac:(no_role) ltac:(no_role) W) as (v & t & q1 & q2 & A1 & A2 & A3 & A4 & _ & _ & A5).
  apply step_ran in A2. one_role. rewrite <- A4 in A2. inversion A2 as [X|r J X| | | | | | | | | | | | | | | | | ]; subst; [|destruct J as [|[|]]; discriminate].
  apply analyze_where_ok in X. destruct X as (f & wfs & items & B1 & B2 & B3 & ->). cbn in A3. injection A3 as <-.
  exists v, t, (map fst (q_sp q1)), wfs, f. conjs; auto.
Qed.

Lemma join_slot : forall e name fs q j, analyzeQueryStruct e name fs = AOk q -> plain_names fs -> q_join q = Some j ->
  exists v t sc jfs sc', place fs [RJoin; RFrom; RUsing] v t sc /\ incl sc' (map fst (q_sp q)) /\ struct_of t jfs
    /\ j_name j = v_name v /\ join_decl sc jfs sc' (j_relation j) (j_dirs j)
    /\ (j_relation j <> None -> tolower (v_name v) = lit "from" \/ tolower (v_name v) = lit "using").
Proof.
  intros e name fs q j H P W.
  destruct (query_slot e name fs q H P q_join [RJoin; RFrom; RUsing] j un_join ltac:(start_none) ltac:(no_role) ltac:(no_role) W) as (v & t & q1 & q2 & A1 & A2 & A3 & A4 & _ & _ & A5).
  apply step_ran in A2.
  assert (X : analyzeJoinStruct e q1 v t = AOk q2).
  { destruct A4 as [A4|[A4|[A4|[]]]]; rewrite <- A4 in A2; inversion A2; auto. }
  unfold analyzeJoinStruct in X. cbv zeta in X. aok. destruct (GetStruct t) as [[n jfs]|] eqn:G; [|discriminate]. aok. subst. cbn in A3. injection A3 as <-.
  match goal with Y : join_fields _ _ _ = _ |- _ => apply join_fields_ok in Y; destruct Y as (rel & ds & B1 & B2 & B3 & B4 & B5) end. cbn [j_name j_dirs j_relation app] in *.
  apply GetStruct_spec in G. destruct G as [G _]. exists v, t, (map fst (q_sp q1)), jfs, (map fst x). 
  assert (RE : j_relation y = rel) by (rewrite B5; destruct rel; reflexivity). conjs; auto.
  - now rewrite RE, B3.
  - intros N. rewrite RE in N. apply B4 in N. tauto.
Qed.

Lemma onconflict_slot : forall e name fs q oc, analyzeQueryStruct e name fs = AOk q -> plain_names fs -> q_onconflict q = Some oc ->
  exists v t sc ofs sp, place fs [ROnConflict] v t sc /\ incl sc (map fst (q_sp q)) /\ struct_of t ofs /\ sc = map fst sp
    /\ oc_fields sp ofs (oc_start (v_name v)) = AOk oc /\ (oc_update oc <> None -> oc_has_target oc = true).
Proof.
  intros e name fs q oc H P W.
  destruct (query_slot e name fs q H P q_onconflict [ROnConflict] oc un_onconflict ltac:(start_none) ltac:(no_role) ltac:(no_role) W) as (v & t & q1 & q2 & A1 & A2 & A3 & A4 & _ & _ & A5).
  apply step_ran in A2. one_role. rewrite <- A4 in A2. inversion A2 as [ |r J X|X| | | | | | | | | | | | | | | | ]; subst; [destruct J as [|[|]]; discriminate|].
  unfold analyzeOnConflictStruct in X. aok. destruct (GetStruct t) as [[n ofs]|] eqn:G; [|discriminate]. aok. subst. cbn in A3. injection A3 as <-.
  apply GetStruct_spec in G. destruct G as [G _]. exists v, t, (map fst (q_sp q1)), ofs, (q_sp q1). conjs; auto.
  intros N. match goal with Y : negb _ = true |- _ => apply negb_true_iff in Y; destruct (oc_update a0); [|congruence]; cbn in Y; now apply negb_false_iff in Y end.
Qed.

Lemma orderby_slot : forall e name fs q l, analyzeQueryStruct e name fs = AOk q -> plain_names fs -> q_orderby q = Some l ->
  exists v t sc x o, place fs [ROrderBy] v t sc /\ incl sc (map fst (q_sp q)) /\ tag_value (v_tag v) (lit "sql") (x :: o)
    /\ order_items sc (x :: o) l.
Proof.
  intros e name fs q l H P W.
  destruct (query_slot e name fs q H P q_orderby [ROrderBy] l un_orderby ltac:(start_none) ltac:(no_role) ltac:(no_role) W) as (v & t & q1 & q2 & A1 & A2 & A3 & A4 & _ & _ & A5).
  apply step_ran in A2. one_role. rewrite <- A4 in A2. inversion A2; subst; try (match goal with J : joins _ |- _ => destruct J as [|[|]]; discriminate end).
  match goal with X : analyzeOrderByDirective _ _ _ _ = _ |- _ => unfold analyzeOrderByDirective in X; cbv zeta in X end. aok. subst. cbn in A3. injection A3 as <-.
  destruct (tag_get (v_tag v) (B "sql")) as [|x o] eqn:T; [discriminate|].
  match goal with Y : order_tags _ _ = _ |- _ => apply order_tags_ok in Y end.
  exists v, t, (map fst (q_sp q1)), x, o. conjs; auto. apply tag_value_lookup. unfold tag_get in T. change (B "sql") with (lit "sql") in T. destruct (lookup (lit "sql") (v_tag v)); [now subst|discriminate].
Qed.

Lemma integer_spec : forall t, isIntegerType t = true <-> integer_type t.
Proof.
  intros t. split.
  - destruct t as [k a b| | | | | | | | | ]; try discriminate. intros H. exists k, a, b. split; auto. destruct k; cbn in *; try discriminate; tauto.
  - intros (k & a & b & -> & I). cbn in I. repeat (destruct I as [<-|I]; [reflexivity|]). destruct I.
Qed.

Lemma limit_value_ok : forall v t l, limit_value v t = AOk l <-> bounds v t (lf_name l) (lf_value l).
Proof.
  intros v t [nm n]. cbn [lf_name lf_value]. unfold limit_value, bounds. cbv zeta.
  assert (T : forall s, (exists o, sql_tag v s o) <-> tag_first (v_tag v) (B "sql") = s).
  { intros s. split; [intros (o & T); now apply sql_tag_spec in T|]. intros <-. eexists. apply sql_tag_first. }
  set (s := tag_first (v_tag v) (B "sql")) in *.
  assert (V : (s = [] /\ n = 0%N \/ decimal s n /\ (n < 2 ^ 64)%N) <-> ((exists o, sql_tag v [] o) /\ n = 0%N \/ exists s o, sql_tag v s o /\ decimal s n /\ (n < 2 ^ 64)%N)).
  { rewrite T. split; intros [X|X]; auto.
    - right. destruct (proj2 (T s) eq_refl) as (o & O). eauto.
    - destruct X as (s' & o & O & X). right. rewrite <- (proj1 (T s') (ex_intro _ o O)) in X. exact X. }
  rewrite <- V. clear V.
  assert (D : ~ decimal [] n) by (intros [X _]; congruence).
  destruct (bytes_eqb (v_name v) (B "_")) eqn:U.
  - apply bytes_eqb_eq in U. split.
    + intros H. aok. match goal with Y : negb (bytes_eqb s []) = true |- _ => apply negb_true_iff, bytes_eqb_neq in Y; rename Y into NE end. subst.
      match goal with Y : match s with _ => _ end = _ |- _ => rename Y into K end.
      destruct s as [|c r] eqn:S1; [congruence|]. rewrite <- S1 in *. destruct (parse_uint 10 64 s) eqn:PU; try discriminate. injection K as <- <-. apply parse_uint_decimal in PU.
      split; [|now right]. left. conjs; auto. destruct (proj2 (T s) eq_refl) as (o & O). exists s, o. split; auto.
    + intros [[(_ & -> & s' & o & O & NE)|(N & _)] V]; [|now destruct (N U)]. rewrite <- (proj1 (T s') (ex_intro _ o O)) in NE.
      destruct V as [[V _]|V]; [congruence|]. assert (bytes_eqb s [] = false) as -> by now apply bytes_eqb_neq. cbn [negb ensure abind].
      destruct s as [|c r] eqn:S1; [congruence|]. rewrite <- S1 in *. apply parse_uint_decimal in V. now rewrite V.
  - apply bytes_eqb_neq in U. split.
    + intros H. aok. match goal with Y : isIntegerType t = true |- _ => apply integer_spec in Y end. subst.
      match goal with Y : match s with _ => _ end = _ |- _ => rename Y into K end.
      split.
      * right. conjs; auto. destruct s; [congruence|]. destruct (parse_uint _ _ _); congruence.
      * destruct s as [|c r] eqn:S1; [left; split; congruence|]. rewrite <- S1 in *. destruct (parse_uint 10 64 s) eqn:PU; try discriminate. injection K as <- <-.
        apply parse_uint_decimal in PU. now right.
    + intros [[(N & _)|(_ & -> & I)] V]; [now destruct (U N)|]. apply integer_spec in I. rewrite I. cbn [ensure abind].
      destruct V as [[-> ->]|V]; [reflexivity|]. destruct s as [|c r] eqn:S1; [now destruct D; apply V|]. rewrite <- S1 in *. apply parse_uint_decimal in V. now rewrite V.
Qed.

Ltac this_one := one_role; match goal with A2 : ran _ _ _ _ _ _, A4 : _ = rolef _ _ |- _ => rewrite <- A4 in A2; inversion A2; subst end;
  try (match goal with J : joins _ |- _ => destruct J as [|[|]]; discriminate end).

Lemma limit_slot : forall e name fs q l, analyzeQueryStruct e name fs = AOk q -> plain_names fs -> q_limit q = Some l ->
  exists v t sc, place fs [RLimit] v t sc /\ bounds v t (lf_name l) (lf_value l).
Proof.
  intros e name fs q l H P W.
  destruct (query_slot e name fs q H P q_limit [RLimit] l un_limit ltac:(start_none) ltac:(no_role) ltac:(no_role) W) as (v & t & q1 & q2 & A1 & A2 & A3 & A4 & _ & _ & A5).
  apply step_ran in A2. this_one. match goal with X : analyzeLimit _ _ _ _ = _ |- _ => unfold analyzeLimit in X end. aok. subst. cbn in A3. injection A3 as <-.
  exists v, t, (map fst (q_sp q1)). split; auto. now apply limit_value_ok.
Qed.

Lemma offset_slot : forall e name fs q l, analyzeQueryStruct e name fs = AOk q -> plain_names fs -> q_offset q = Some l ->
  exists v t sc, place fs [ROffset] v t sc /\ bounds v t (lf_name l) (lf_value l).
Proof.
  intros e name fs q l H P W.
  destruct (query_slot e name fs q H P q_offset [ROffset] l un_offset ltac:(start_none) ltac:(no_role) ltac:(no_role) W) as (v & t & q1 & q2 & A1 & A2 & A3 & A4 & _ & _ & A5).
  apply step_ran in A2. this_one. match goal with X : analyzeOffset _ _ _ _ = _ |- _ => unfold analyzeOffset in X end. aok. subst. cbn in A3. injection A3 as <-.
  exists v, t, (map fst (q_sp q1)). split; auto. now apply limit_value_ok.
Qed.

Lemma sql_values : forall v o, tag_get (v_tag v) (B "sql") = o -> o <> [] -> tag_value (v_tag v) (lit "sql") o.
Proof.
  intros v o T N. apply tag_value_lookup. unfold tag_get in T. change (B "sql") with (lit "sql") in T. destruct (lookup (lit "sql") (v_tag v)); [now subst|congruence].
Qed.

Lemma list_tag : forall sp v l, parseColIdentList sp (tag_get (v_tag v) (B "sql")) = inl l ->
  exists o, tag_value (v_tag v) (lit "sql") o /\ column_list (map fst sp) o l.
Proof.
  intros sp v l H. apply C30_column_lists_proof in H. exists (tag_get (v_tag v) (B "sql")).
  destruct H as [[T L]|(ids & L & N & F)].
  - split; [apply sql_values; auto; rewrite T; discriminate|]. left. auto.
  - split; [apply sql_values; auto|]. right. exists ids. conjs; auto using forall2_ids.
Qed.

Lemma known_ok : forall q l u, known_columns q l = AOk u -> forall id, In id (l_items l) -> exists f, In f (rt_fields (q_reltype q)) /\ c_col (fi_col f) = c_col id.
Proof.
  intros q l u H id I. unfold known_columns in H. aok. match goal with X : forallb _ _ = true |- _ => rewrite forallb_forall in X; apply X in I end.
  unfold HasFieldWithColumn in I. apply existsb_exists in I. destruct I as (f & F & E1). apply bytes_eqb_eq in E1. eauto.
Qed.

Ltac lists an := match goal with X : an _ _ _ _ = _ |- _ => unfold an in X end; aok; subst;
  match goal with A3 : _ _ = Some _ |- _ => cbn in A3; injection A3 as <- end.

Lemma default_slot : forall e name fs q l, analyzeQueryStruct e name fs = AOk q -> plain_names fs -> q_default q = Some l ->
  exists v t sc o, place fs [RDefault] v t sc /\ incl sc (map fst (q_sp q)) /\ tag_value (v_tag v) (lit "sql") o /\ column_list sc o l.
Proof.
  intros e name fs q l H P W.
  destruct (query_slot e name fs q H P q_default [RDefault] l un_default ltac:(start_none) ltac:(no_role) ltac:(no_role) W) as (v & t & q1 & q2 & A1 & A2 & A3 & A4 & _ & AR & A5).
  apply step_ran in A2. this_one. lists analyzeDefaultDirective.
  match goal with X : parseColIdentList _ _ = _ |- _ => apply list_tag in X; destruct X as (o & O1 & O2) end. exists v, t, (map fst (q_sp q1)), o. conjs; auto.
Qed.

Lemma return_slot : forall e name fs q l, analyzeQueryStruct e name fs = AOk q -> plain_names fs -> q_return q = Some l ->
  exists v t sc o, place fs [RReturn] v t sc /\ incl sc (map fst (q_sp q)) /\ tag_value (v_tag v) (lit "sql") o /\ column_list sc o l
    /\ (forall id, In id (l_items l) -> exists f, In f (rt_fields (q_reltype q)) /\ c_col (fi_col f) = c_col id) /\ rt_fields (q_reltype q) <> [].
Proof.
  intros e name fs q l H P W.
  destruct (query_slot e name fs q H P q_return [RReturn] l un_return ltac:(start_none) ltac:(no_role) ltac:(no_role) W) as (v & t & q1 & q2 & A1 & A2 & A3 & A4 & _ & AR & A5).
  apply step_ran in A2. this_one. lists analyzeReturnDirective.
  match goal with X : parseColIdentList _ _ = _ |- _ => apply list_tag in X; destruct X as (o & O1 & O2) end. exists v, t, (map fst (q_sp q1)), o.
  assert (RT : q_reltype q = q_reltype q1) by (unfold q_reltype; now rewrite AR). rewrite RT. conjs; auto.
  - eapply known_ok; eauto.
  - intros X. rewrite X in *. discriminate.
Qed.

Lemma force_slot : forall e name fs q l, analyzeQueryStruct e name fs = AOk q -> plain_names fs -> q_force q = Some l ->
  exists v t sc o, place fs [RForce] v t sc /\ incl sc (map fst (q_sp q)) /\ tag_value (v_tag v) (lit "sql") o /\ column_list sc o l
    /\ (forall id, In id (l_items l) -> exists f, In f (rt_fields (q_reltype q)) /\ c_col (fi_col f) = c_col id).
Proof.
  intros e name fs q l H P W.
  destruct (query_slot e name fs q H P q_force [RForce] l un_force ltac:(start_none) ltac:(no_role) ltac:(no_role) W) as (v & t & q1 & q2 & A1 & A2 & A3 & A4 & _ & AR & A5).
  apply step_ran in A2. this_one. lists analyzeForceDirective.
  match goal with X : parseColIdentList _ _ = _ |- _ => apply list_tag in X; destruct X as (o & O1 & O2) end. exists v, t, (map fst (q_sp q1)), o.
  assert (RT : q_reltype q = q_reltype q1) by (unfold q_reltype; now rewrite AR). rewrite RT. conjs; auto. eapply known_ok; eauto.
Qed.

Lemma optional_slot : forall e name fs q l, analyzeQueryStruct e name fs = AOk q -> plain_names fs -> q_optional q = Some l ->
  exists v t sc o, place fs [ROptional] v t sc /\ incl sc (map fst (q_sp q)) /\ tag_value (v_tag v) (lit "sql") o /\ column_list sc o l
    /\ (forall id, In id (l_items l) -> exists f, In f (rt_fields (q_reltype q)) /\ c_col (fi_col f) = c_col id).
Proof.
  intros e name fs q l H P W.
  destruct (query_slot e name fs q H P q_optional [ROptional] l un_optional ltac:(start_none) ltac:(no_role) ltac:(no_role) W) as (v & t & q1 & q2 & A1 & A2 & A3 & A4 & _ & AR & A5).
  apply step_ran in A2. this_one. lists analyzeOptionalDirective.
  match goal with X : parseColIdentList _ _ = _ |- _ => apply list_tag in X; destruct X as (o & O1 & O2) end. exists v, t, (map fst (q_sp q1)), o.
  assert (RT : q_reltype q = q_reltype q1) by (unfold q_reltype; now rewrite AR). rewrite RT. conjs; auto. eapply known_ok; eauto.
Qed.

(** *** relation types *)
Lemma rel_type_spec : forall e sp t rt, analyzeRelType e sp t = AOk rt -> relation_type (e_pkg e) (map fst sp) t rt.
Proof.
  intros e sp t rt H. apply rel_type_sound in H. destruct H as (n & fs & h & R & N & F). apply finish_ok in F.
  destruct F as (fs' & l' & E & _ & L & ->). injection E as <-. apply fields_sound in L. destruct L as (l & C & D).
  eapply rlt with (n := n) (fs := fs) (h := h) (f := imports (e_pkg e) n) (l := l); cbn [rt_fields rt_ptr rt_slice rt_array rt_len rt_iter rt_method rt_after rt_base]; auto.
  - apply imports_spec.
  - destruct (h_array h); cbn; split; congruence.
  - intros k ->. reflexivity.
  - destruct (h_iter h); cbn; split; congruence.
  - intros k ->. reflexivity.
  - intros m ->. specialize (N m eq_refl). destruct (n_pkg m) as [[p pn]|]; [|congruence]. cbn. auto.
Qed.

Lemma result_slot : forall e name fs q r, analyzeQueryStruct e name fs = AOk q -> plain_names fs -> q_result q = Some r ->
  exists v t sc, place fs [RResult] v t sc /\ incl sc (map fst (q_sp q)) /\ rs_name r = v_name v /\ relation_type (e_pkg e) sc t (rs_type r).
Proof.
  intros e name fs q l H P W.
  destruct (query_slot e name fs q H P q_result [RResult] l un_result ltac:(start_none) ltac:(no_role) ltac:(no_role) W) as (v & t & q1 & q2 & A1 & A2 & A3 & A4 & _ & AR & A5).
  apply step_ran in A2. this_one. match goal with X : analyzeResultField _ _ _ _ = _ |- _ => unfold analyzeResultField in X end. aok. subst. cbn in A3. injection A3 as <-.
  exists v, t, (map fst (q_sp q1)). conjs; auto. now apply rel_type_spec.
Qed.

Lemma list_known : forall sc o l id, column_list sc o l -> In id (l_items l) -> known sc id.
Proof.
  intros sc o l id [[_ ->]|(ids & -> & _ & F)] I; [destruct I|]. cbn [l_items] in I.
  induction F; [destruct I|]. destruct I as [<-|I]; auto. eapply column_id_known; eauto.
Qed.

Lemma columns_known : forall pkg sc f pfx path fs l, columns pkg sc f pfx path fs l -> forall p v q n, In (p, v, (q, n)) l -> known sc (MkCol q n).
Proof.
  induction 1; intros p' v' q' n' I; auto.
  - destruct I.
  - eauto.
  - destruct I as [I|I]; [|eauto]. injection I as <- <- <- <-.
    match goal with X : column_in _ _ _ _ |- _ => destruct X as (_ & _ & Q & _) end. unfold known. cbn. destruct q; [now left|right; apply Q; discriminate].
  - apply in_app_or in I. destruct I; eauto.
Qed.

Lemma forall2_in_r : forall {A C} (R : A -> C -> Prop) l l', Forall2 R l l' -> forall y, In y l' -> exists x, In x l /\ R x y.
Proof. induction 1; intros z I; [destruct I|]. destruct I as [<-|I]; [exists x; split; auto; now left|]. apply IHForall2 in I. destruct I as (w & W & RW). exists w. split; auto. now right. Qed.

Lemma relation_type_known : forall pkg sc t rt f, relation_type pkg sc t rt -> In f (rt_fields rt) -> known sc (fi_col f).
Proof.
  intros pkg sc t rt f [n fs h b l _ _ C D _] I. destruct (forall2_in_r _ _ _ D _ I) as ([[p v] [q' n']] & J & K).
  destruct K as (_ & _ & _ & _ & -> & _). eauto using columns_known.
Qed.

Lemma order_known : forall sc o l i, order_items sc o l -> In i l -> known sc (o_col i).
Proof.
  induction 1; intros I; auto; [destruct I|]. destruct I as [<-|I]; auto. destruct H. cbn. eauto using column_id_known.
Qed.

(** A query field that is given by a relation field. *)
Lemma rel_slot : forall e name fs q r, analyzeQueryStruct e name fs = AOk q -> q_rel q = Some r ->
  exists v t s o, In (v, t) fs /\ tag_value (v_tag v) (lit "rel") (s :: o) /\ relation_id s (rf_id r) /\ rf_name r = v_name v
    /\ incl [ref_name (rf_id r)] (map fst (q_sp q))
    /\ (rt_fields (rf_type r) = [] \/ relation_type (e_pkg e) [ref_name (rf_id r)] t (rf_type r)).
Proof.
  intros e name fs q r H R. destruct (query_inv _ _ _ _ H) as (k & f1 & v0 & t0 & f2 & q0 & Q1 & Q2 & Q3 & Q4 & Q5 & Q6).
  destruct (new_rel_field _ _ _ _ _ Q5) as (s & o & rid & n & T1 & T0 & T2 & T3 & T4 & (rt & dir & T5 & T6) & _).
  pose proof (pass_effect _ _ _ _ Q6) as (_ & K2 & _). rewrite K2, T5 in R. injection R as <-. cbn [rf_id rf_name rf_type].
  exists v0, t0, s, o. subst n. conjs; auto.
  - rewrite Q2. apply in_or_app. right. now left.
  - destruct (pass_scope _ _ _ _ Q6) as (ks & _ & M & _). rewrite M, T3. intros x I. apply in_or_app. now right.
  - destruct T6 as [->|T6]; [now left|right]. apply rel_type_spec in T6. now rewrite T3 in T6.
Qed.

Lemma oc_columns_known : forall e name fs q oc l id, analyzeQueryStruct e name fs = AOk q -> plain_names fs -> q_onconflict q = Some oc ->
  (oc_column oc = Some l /\ In id l) \/ (exists cl, oc_update oc = Some cl /\ In id (l_items cl)) -> known (map fst (q_sp q)) id.
Proof.
  intros e name fs q oc l id H P W I. destruct (onconflict_slot _ _ _ _ _ H P W) as (v & t & sc & ofs & sp & A1 & A2 & A3 & A4 & A5 & _).
  apply oc_fields_ok in A5. destruct A5 as (dl & _ & _ & _ & _ & _ & _ & _ & C & _ & _ & _ & U). apply known_incl with (sc := sc); auto. rewrite A4.
  destruct I as [[I1 I2]|(cl & I1 & I2)].
  - destruct C as [[C _]|(o & ids & _ & C & _ & F)]; [rewrite I1 in C; discriminate|]. rewrite I1 in C. injection C as <-.
    clear -F I2. induction F; [destruct I2|]. destruct I2 as [<-|I2]; auto. eapply column_id_known; eauto.
  - destruct U as [[U _]|(o & cl' & _ & U & F)]; [rewrite I1 in U; discriminate|]. rewrite I1 in U. injection U as <-. eapply list_known; eauto.
Qed.

Lemma mention_known : forall e name fs q id, analyzeQueryStruct e name fs = AOk q -> plain_names fs -> mentions q id -> known (map fst (q_sp q)) id.
Proof.
  intros e name fs q id H P M. destruct M as [w x W I J|j d c W I J D|oc l W C I|oc l W C I|l o W I D|l W I|l W I|l W I|l W I|r f W I D|r f W I D].
  - destruct (where_slot _ _ _ _ _ H P W) as (v & t & sc & wfs & f & _ & A & _ & _ & _ & B1). eapply known_incl; eauto. eapply where_known; eauto.
  - destruct (join_slot _ _ _ _ _ H P W) as (v & t & sc & jfs & sc' & _ & A & _ & _ & B1 & _). eapply known_incl; eauto.
    destruct (join_decl_known _ _ _ _ _ B1 d c I J). destruct D; subst; auto.
  - eapply oc_columns_known; eauto.
  - eapply oc_columns_known with (l := []); eauto.
  - destruct (orderby_slot _ _ _ _ _ H P W) as (v & t & sc & x & o' & _ & A & _ & B1). eapply known_incl; eauto. subst. eapply order_known; eauto.
  - destruct (force_slot _ _ _ _ _ H P W) as (v & t & sc & o & _ & A & _ & B1 & _). eapply known_incl; eauto. eapply list_known; eauto.
  - destruct (optional_slot _ _ _ _ _ H P W) as (v & t & sc & o & _ & A & _ & B1 & _). eapply known_incl; eauto. eapply list_known; eauto.
  - destruct (default_slot _ _ _ _ _ H P W) as (v & t & sc & o & _ & A & _ & B1). eapply known_incl; eauto. eapply list_known; eauto.
  - destruct (return_slot _ _ _ _ _ H P W) as (v & t & sc & o & _ & A & _ & B1 & _). eapply known_incl; eauto. eapply list_known; eauto.
  - destruct (rel_slot _ _ _ _ _ H W) as (v & t & s & o & _ & _ & _ & _ & A & [E|B1]); [rewrite E in I; destruct I|]. eapply known_incl; eauto. subst. eapply relation_type_known; eauto.
  - destruct (result_slot _ _ _ _ _ H P W) as (v & t & sc & _ & A & _ & B1). eapply known_incl; eauto. subst. eapply relation_type_known; eauto.
Qed.

Lemma C31_namespace_proof : forall e name fs q l, analyzeQueryStruct e name fs = AOk q -> plain_names fs -> roles fs l ->
  exists v t s o k ks, In (v, t, RRel) l /\ tag_value (v_tag v) (lit "rel") (s :: o) /\ scope_name s k /\ joined_names l ks
    /\ NoDup (k :: ks) /\ forall id, mentions q id -> c_qual id = [] \/ In (c_qual id) (k :: ks).
Proof.
  intros e name fs q l H P R. destruct (scope_of _ _ _ _ _ H P R) as (v & t & s & o & k & ks & A1 & A2 & A3 & A4 & A5 & A6).
  exists v, t, s, o, k, ks. conjs; auto. intros id M. apply (mention_known _ _ _ _ _ H P) in M. destruct M as [M|M]; [now left|right].
  rewrite A6 in M. apply in_app_or in M. destruct M as [M|[M|[]]]; [right; now apply in_rev|now left].
Qed.

Lemma C33_on_conflict_proof : forall e name fs q oc, analyzeQueryStruct e name fs = AOk q -> plain_names fs -> q_onconflict q = Some oc ->
  q_kind q = KInsert /\
  exists v t sc ofs l, place fs [ROnConflict] v t sc /\ struct_of t ofs /\ oc_name oc = v_name v /\ oc_names ofs l
    /\ (forall d o, In (d, o) l -> In d (targets ++ actions)) /\ once targets l /\ once actions l
    /\ (In (lit "update") (map fst l) -> exists d, In d targets /\ In d (map fst l))
    /\ match oc_column oc with Some ids => exists o, In (lit "column", o) l /\ o <> [] /\ Forall2 (column_id sc) o ids | None => ~ In (lit "column") (map fst l) end
    /\ match oc_index oc with Some x => exists r, In (lit "index", x :: r) l /\ is_name x | None => ~ In (lit "index") (map fst l) end
    /\ match oc_constraint oc with Some x => exists r, In (lit "constraint", x :: r) l /\ is_name x | None => ~ In (lit "constraint") (map fst l) end
    /\ (oc_ignore oc = true <-> In (lit "ignore") (map fst l))
    /\ match oc_update oc with Some c => exists o, In (lit "update", o) l /\ column_list sc o c | None => ~ In (lit "update") (map fst l) end.
Proof.
  intros e name fs q oc H P W. destruct (onconflict_slot _ _ _ _ _ H P W) as (v & t & sc & ofs & sp & A1 & A2 & A3 & A4 & A5 & A6).
  apply oc_fields_ok in A5. destruct A5 as (l & B1 & B2 & B3 & B4 & B5 & _ & _ & B6 & B7 & B8 & B9 & B10).
  cbn [oc_start oc_name oc_column oc_index oc_constraint oc_ignore oc_update] in *.
  assert (IN : forall (d : text) (o : list text), In (d, o) l -> In d (map fst l)). { intros d o I. apply in_map_iff. exists (d, o). auto. }
  split.
  - pose proof (rolel_roles _ P) as R. destruct (C32_exclusive_proof _ _ _ _ _ H P R) as [_ L].
    destruct A1 as (f1 & f2 & r & -> & HR & [<-|[]] & _). pose proof P as P'. apply plain_names_app in P'. destruct P' as [_ P']. inversion P'; subst.
    destruct (has_role_rolef _ _ _ H2 HR) as [RF _]. apply (L v t ROnConflict). unfold rolel. apply in_flat_map. exists (v, t).
    split; [apply in_or_app; right; now left|]. cbv beta iota. rewrite RF. now left.
  - exists v, t, sc, ofs, l. rewrite A4. conjs; auto.
    + now rewrite <- A4.
    + intros d o I. rewrite Forall_forall in B3. apply (B3 (d, o) I).
    + intros U. assert (oc_update oc <> None) as N.
      { destruct B10 as [[_ N]|(o & cl & _ & -> & _)]; [contradiction|discriminate]. }
      apply A6 in N. unfold oc_has_target in N. destruct (oc_column oc) eqn:X1.
      { destruct B6 as [[B6 _]|(o & ids & I & _)]; [discriminate|]. exists (lit "column"). split; [now left|eauto]. }
      destruct (oc_index oc) eqn:X2.
      { destruct B7 as [[B7 _]|(o & ids & I & _)]; [discriminate|]. exists (lit "index"). split; [right; now left|eauto]. }
      destruct (oc_constraint oc) eqn:X3; [|discriminate].
      { destruct B8 as [[B8 _]|(o & ids & I & _)]; [discriminate|]. exists (lit "constraint"). split; [right; right; now left|eauto]. }
    + destruct B6 as [[-> B6]|(o & ids & I & -> & B6)]; auto. eauto.
    + destruct B7 as [[-> B7]|(x & r & I & B7 & ->)]; auto. eauto.
    + destruct B8 as [[-> B8]|(x & r & I & B8 & ->)]; auto. eauto.
    + destruct B9 as [[-> B9]|[B9 ->]]; split; auto; try discriminate; try contradiction.
    + destruct B10 as [[-> B10]|(o & cl & I & -> & B10)]; auto. exists o. split; auto. 
Qed.

Definition ex_conflict (l : list (string * list string)) : fvar * gtype :=
  (ex_var "OnConflict" [], TStruct (map (fun x => (ex_var "_" (ex_tag "sql" (snd x)), ex_dir (fst x))) l)).

Lemma C33_some_action_refuted_proof : exists e name fs q oc, analyzeQueryStruct e name fs = AOk q /\ plain_names fs /\ q_onconflict q = Some oc
  /\ oc_ignore oc = false /\ oc_update oc = None.
Proof.
  exists ex_env, (lit "InsertUsers"), [ex_rel "user:u"; ex_conflict [("Column", ["id"])]]. eexists. eexists.
  split; [vm_compute; reflexivity|]. split; [apply plain_fields; vm_compute; reflexivity|]. split; [reflexivity|]. split; reflexivity.
Qed.

Lemma C35_relation_proof : forall e name fs q r, analyzeQueryStruct e name fs = AOk q -> q_rel q = Some r ->
  exists v t s o, In (v, t) fs /\ tag_value (v_tag v) (lit "rel") (s :: o) /\ relation_id s (rf_id r) /\ rf_name r = v_name v
    /\ (rt_fields (rf_type r) = [] \/ relation_type (e_pkg e) [ref_name (rf_id r)] t (rf_type r)).
Proof.
  intros e name fs q r H R. destruct (rel_slot _ _ _ _ _ H R) as (v & t & s & o & A1 & A2 & A3 & A4 & _ & A5). exists v, t, s, o. conjs; auto.
Qed.

Lemma C35_result_proof : forall e name fs q r, analyzeQueryStruct e name fs = AOk q -> plain_names fs -> q_result q = Some r ->
  exists v t sc, place fs [RResult] v t sc /\ rs_name r = v_name v /\ relation_type (e_pkg e) sc t (rs_type r).
Proof.
  intros e name fs q r H P R. destruct (result_slot _ _ _ _ _ H P R) as (v & t & sc & A1 & _ & A2 & A3). exists v, t, sc. auto.
Qed.

Lemma C35_complete_proof : forall e sp t n fs h f l, record_of (e_pkg e) t n fs h ->
  (forall m u, t = TNamed m u -> n_pkg m <> None) -> (forall m, n = Some m -> n_pkg m <> None) ->
  (f = true <-> exists m u, n = Some m /\ foreign (e_pkg e) (TNamed m u)) ->
  columns (e_pkg e) (map fst sp) f [] [] fs l ->
  exists rt, analyzeRelType e sp t = AOk rt /\ Forall2 column_field l (rt_fields rt) /\ rt_slice rt = h_slice h /\ rt_ptr rt = h_ptr h
    /\ (rt_iter rt = true <-> h_iter h <> None).
Proof.
  intros e sp t n fs h f l R TN NN F C. assert (imports (e_pkg e) n = f) as IM.
  { destruct f; [apply imports_spec; now apply F|]. destruct (imports (e_pkg e) n) eqn:I; auto. apply imports_spec in I. apply F in I. discriminate. }
  destruct (fields_complete e sp f fs l C) as (l' & A & D). eexists. split.
  - eapply rel_type_complete; eauto. split; auto. apply finish_ok. exists fs, l'. conjs; auto. now rewrite IM.
  - cbn. conjs; auto. destruct (h_iter h); cbn; split; congruence.
Qed.

(** Nested struct fields: the prefixes of the tags add up. *)
Definition ex_nested : gtype := TNamed (ex_name "Account") (TStruct
  [(ex_var "Id" (ex_tag "sql" ["id"]), ex_int);
   (ex_var "Owner" (ex_tag "sql" [">owner_"]), TPtr (TNamed (ex_name "Owner") (TStruct
      [(ex_var "Id" (ex_tag "sql" ["id"]), ex_int);
       (ex_var "Address" (ex_tag "sql" [">address_"]), TStruct [(ex_var "City" (ex_tag "sql" ["city"]), ex_str)])])));
   (ex_var "Skip" (ex_tag "sql" ["-"]), ex_int); (ex_var "Name" (ex_tag "sql" ["name"]), ex_str)]).

Lemma C35_accessible_refuted_proof : exists e t n fs v u l rt f, t = TStruct l /\ In (v, TPtr (TNamed n (TStruct fs))) l
  /\ foreign (e_pkg e) (TNamed n (TStruct fs)) /\ analyzeRelType e [] t = AOk rt
  /\ In (u, ex_int) fs /\ v_exported u = false /\ In f (rt_fields rt) /\ fi_name f = v_name u /\ map sn_name (fi_sel f) = [v_name v].
Proof.
  set (n := MkName (lit "Base") (Some (lit "other", lit "other")) no_flags false false false false).
  set (u := MkVar (lit "secret") false false (ex_tag "sql" ["secret"])).
  set (v := ex_var "Base" (ex_tag "sql" [">b_"])).
  exists ex_env, (TStruct [(v, TPtr (TNamed n (TStruct [(u, ex_int)])))]), n, [(u, ex_int)], v, u, [(v, TPtr (TNamed n (TStruct [(u, ex_int)])))].
  eexists. eexists. split; [reflexivity|]. split; [now left|]. split.
  { exists n, (TStruct [(u, ex_int)]), (lit "other"), (lit "other"). conjs; auto. cbn. discriminate. }
  split; [vm_compute; reflexivity|]. split; [now left|]. split; [reflexivity|]. split; [left; reflexivity|]. split; reflexivity.
Qed.

Lemma C49_where_proof : forall e name fs q w, analyzeQueryStruct e name fs = AOk q -> plain_names fs -> q_where q = Some w ->
  exists v t sc wfs f, place fs [RWhere] v t sc /\ struct_of t wfs /\ (f = true <-> foreign (e_pkg e) t)
    /\ w_name w = v_name v /\ where_items sc f false wfs (w_items w) /\ separated (w_items w) /\ (only_columns f wfs -> alternating (w_items w)).
Proof.
  intros e name fs q w H P W. destruct (where_slot _ _ _ _ _ H P W) as (v & t & sc & wfs & f & A1 & _ & A2 & A3 & A4 & A5).
  exists v, t, sc, wfs, f. conjs; auto.
  - apply (where_separated _ _ _ _ _ A5).
  - apply (where_alternating _ _ _ _ _ A5).
Qed.

Lemma C49_alternating_refuted_proof : exists e name fs q w l b, analyzeQueryStruct e name fs = AOk q /\ plain_names fs /\ q_where q = Some w
  /\ w_items w = l ++ [WBool b].
Proof.
  exists ex_env, (lit "SelectUsers"), [ex_rel "user:u"; (ex_var "Where" [], TStruct [(ex_var "Email" (ex_tag "sql" ["u.email"]), ex_str); (ex_var "_" (ex_tag "sql" ["u.id"]), ex_int)])].
  eexists. eexists. eexists. eexists. split; [vm_compute; reflexivity|]. split; [apply plain_fields; vm_compute; reflexivity|]. split; [reflexivity|].
  cbn [w_items]. match goal with |- [?x; ?y] = _ => instantiate (2 := [x]) end. reflexivity.
Qed.

Lemma C50_joins_proof : forall e name fs q j, analyzeQueryStruct e name fs = AOk q -> plain_names fs -> q_join q = Some j ->
  exists v t sc jfs sc', place fs [RJoin; RFrom; RUsing] v t sc /\ struct_of t jfs
    /\ j_name j = v_name v /\ join_decl sc jfs sc' (j_relation j) (j_dirs j)
    /\ (j_relation j <> None -> tolower (v_name v) = lit "from" \/ tolower (v_name v) = lit "using").
Proof.
  intros e name fs q j H P W. destruct (join_slot _ _ _ _ _ H P W) as (v & t & sc & jfs & sc' & A1 & _ & A2 & A3 & A4 & A5).
  exists v, t, sc, jfs, sc'. conjs; auto.
Qed.

Lemma C50_unqualified_refuted_proof : exists e name fs fs' q,
  analyzeQueryStruct e name fs = AOk q /\ analyzeQueryStruct e name fs' = AErr EBadJoinConditionLHS
  /\ (exists r x y, fs = r ++ [(x, TStruct [(ex_var "_" (ex_tag "sql" ["post:p"; "user_id=u.id"]), y)])]
                 /\ fs' = r ++ [(x, TStruct [(ex_var "_" (ex_tag "sql" ["post"; "user_id=u.id"]), y)])]).
Proof.
  exists ex_env, (lit "SelectUsers"), [ex_rel "user:u"; (ex_var "Join" [], TStruct [(ex_var "_" (ex_tag "sql" ["post:p"; "user_id=u.id"]), ex_dir "LeftJoin")])],
    [ex_rel "user:u"; (ex_var "Join" [], TStruct [(ex_var "_" (ex_tag "sql" ["post"; "user_id=u.id"]), ex_dir "LeftJoin")])].
  eexists. split; [vm_compute; reflexivity|]. split; [vm_compute; reflexivity|]. exists [ex_rel "user:u"], (ex_var "Join" []), (ex_dir "LeftJoin"). split; reflexivity.
Qed.

Lemma C51_order_by_proof : forall e name fs q l, analyzeQueryStruct e name fs = AOk q -> plain_names fs -> q_orderby q = Some l ->
  exists v t sc x o, place fs [ROrderBy] v t sc /\ tag_value (v_tag v) (lit "sql") (x :: o) /\ order_items sc (x :: o) l.
Proof.
  intros e name fs q l H P W. destruct (orderby_slot _ _ _ _ _ H P W) as (v & t & sc & x & o & A1 & _ & A2 & A3). exists v, t, sc, x, o. auto.
Qed.

Lemma C51_order_by_tag_proof : forall sp o l, order_tags sp o = AOk l <-> order_items (map fst sp) o l.
Proof. exact order_tags_ok. Qed.

Lemma C52_limit_proof : forall e name fs q l, analyzeQueryStruct e name fs = AOk q -> plain_names fs -> q_limit q = Some l ->
  exists v t sc, place fs [RLimit] v t sc /\ bounds v t (lf_name l) (lf_value l).
Proof. exact limit_slot. Qed.

Lemma C52_offset_proof : forall e name fs q l, analyzeQueryStruct e name fs = AOk q -> plain_names fs -> q_offset q = Some l ->
  exists v t sc, place fs [ROffset] v t sc /\ bounds v t (lf_name l) (lf_value l).
Proof. exact offset_slot. Qed.

Lemma C52_value_proof : forall v t l, limit_value v t = AOk l <-> bounds v t (lf_name l) (lf_value l).
Proof. exact limit_value_ok. Qed.

Definition in_record (q : qstate) (id : ColIdent) : Prop :=
  exists r f, q_rel q = Some r /\ In f (rt_fields (rf_type r)) /\ c_col (fi_col f) = c_col id.

Lemma reltype_in : forall q id f, In f (rt_fields (q_reltype q)) -> c_col (fi_col f) = c_col id -> in_record q id.
Proof. intros q id f I E. unfold q_reltype in I. destruct (q_rel q) as [r|] eqn:R; [|destruct I]. exists r, f. auto. Qed.

Lemma C53_column_lists_proof : forall e name fs q, analyzeQueryStruct e name fs = AOk q -> plain_names fs ->
  (forall l, q_return q = Some l -> exists v t sc o, place fs [RReturn] v t sc /\ tag_value (v_tag v) (lit "sql") o /\ column_list sc o l
     /\ forall id, In id (l_items l) -> in_record q id) /\
  (forall l, q_force q = Some l -> exists v t sc o, place fs [RForce] v t sc /\ tag_value (v_tag v) (lit "sql") o /\ column_list sc o l
     /\ forall id, In id (l_items l) -> in_record q id) /\
  (forall l, q_optional q = Some l -> exists v t sc o, place fs [ROptional] v t sc /\ tag_value (v_tag v) (lit "sql") o /\ column_list sc o l
     /\ forall id, In id (l_items l) -> in_record q id) /\
  (forall l, q_default q = Some l -> exists v t sc o, place fs [RDefault] v t sc /\ tag_value (v_tag v) (lit "sql") o /\ column_list sc o l).
Proof.
  intros e name fs q H P. conjs; intros l L.
  - destruct (return_slot _ _ _ _ _ H P L) as (v & t & sc & o & A1 & _ & A2 & A3 & A4 & _). exists v, t, sc, o. conjs; auto. intros id I. destruct (A4 id I) as (f & F & E). eapply reltype_in; eauto.
  - destruct (force_slot _ _ _ _ _ H P L) as (v & t & sc & o & A1 & _ & A2 & A3 & A4). exists v, t, sc, o. conjs; auto. intros id I. destruct (A4 id I) as (f & F & E). eapply reltype_in; eauto.
  - destruct (optional_slot _ _ _ _ _ H P L) as (v & t & sc & o & A1 & _ & A2 & A3 & A4). exists v, t, sc, o. conjs; auto. intros id I. destruct (A4 id I) as (f & F & E). eapply reltype_in; eauto.
  - destruct (default_slot _ _ _ _ _ H P L) as (v & t & sc & o & A1 & _ & A2 & A3). exists v, t, sc, o. conjs; auto.
Qed.

Definition ex_return (c : string) : fields := [ex_rel "user:u"; (ex_var "_" (ex_tag "sql" [c]), ex_dir "Return")].

Lemma filter_rel_dec : forall v t, tag_has (v_tag v) (B "rel") = true <-> has_filter_role v t FRel.
Proof. intros v t. split; intros H; [apply fr_rel; now apply tagged_has|]. inversion H. now apply tagged_has. Qed.

Lemma not_rel : forall v t r, tag_has (v_tag v) (B "rel") = true -> has_filter_role v t r -> r = FRel.
Proof. intros v t r H R. apply tagged_has in H. inversion R; auto; contradiction. Qed.

Lemma not_tagged : forall v, tag_has (v_tag v) (B "rel") = false -> ~ tagged v (lit "rel").
Proof. intros v H T. apply (tagged_has v (B "rel")) in T. congruence. Qed.

Lemma blank_dec : forall v t d, GetDirectiveName t = AOk d ->
  (bytes_eqb (v_name v) (B "_") && negb (bytes_eqb d []) = true <-> blank_directive v t).
Proof.
  intros v t d G. unfold blank_directive. rewrite andb_true_iff, negb_true_iff, bytes_eqb_eq. split.
  - intros [N D]. split; auto. exists d. assert (d <> []) as ND by (intros ->; discriminate). split; auto. now apply directive_name.
  - intros [N (d' & ND & D)]. split; auto. apply directive_name in D; auto. rewrite D in G. injection G as ->. now apply bytes_eqb_neq.
Qed.

Lemma the_only_snoc : forall fs r v t v0 t0, the_only fs r v t -> ~ has_filter_role v0 t0 r -> the_only (fs ++ [(v0, t0)]) r v t.
Proof.
  intros fs r v t v0 t0 (f1 & f2 & -> & R & N) N0. exists f1, (f2 ++ [(v0, t0)]). split; [now rewrite <- app_assoc|]. split; auto.
  intros v' t' I. rewrite app_assoc in I. apply in_app_or in I. destruct I as [I|[I|[]]]; [now apply N|]. now injection I as <- <-.
Qed.

Lemma the_only_new : forall fs r v t, (forall v' t', In (v', t') fs -> ~ has_filter_role v' t' r) -> has_filter_role v t r -> the_only (fs ++ [(v, t)]) r v t.
Proof. intros fs r v t N R. exists fs, []. split; auto. split; auto. intros v' t' I. rewrite app_nil_r in I. now apply N. Qed.

Lemma the_last_snoc : forall fs f1 r v t v0 t0, the_last fs f1 r v t -> ~ has_filter_role v0 t0 r -> the_last (fs ++ [(v0, t0)]) f1 r v t.
Proof.
  intros fs f1 r v t v0 t0 (f2 & -> & R & N) N0. exists (f2 ++ [(v0, t0)]). split; [now rewrite <- app_assoc|]. split; auto.
  intros v' t' I. apply in_app_or in I. destruct I as [I|[I|[]]]; [now apply N|]. now injection I as <- <-.
Qed.

Lemma none_snoc : forall (fs : fields) r v0 t0, (forall v t, In (v, t) fs -> ~ has_filter_role v t r) -> ~ has_filter_role v0 t0 r ->
  forall v t, In (v, t) (fs ++ [(v0, t0)]) -> ~ has_filter_role v t r.
Proof. intros fs r v0 t0 N N0 v t I. apply in_app_or in I. destruct I as [I|[I|[]]]; [now apply N|]. now injection I as <- <-. Qed.

(** What the fields seen so far have led to. *)
Definition filter_rel_state (e : env) (fs : fields) (q : fstate) : Prop :=
  match fs_rel q with
  | None => (forall v t, In (v, t) fs -> ~ has_filter_role v t FRel) /\ fs_sp q = []
  | Some r => exists v t s o, the_only fs FRel v t /\ tag_value (v_tag v) (lit "rel") (s :: o) /\ relation_id s (rf_id r) /\ rf_name r = v_name v
      /\ relation_type (e_pkg e) [ref_name (rf_id r)] t (rf_type r) /\ rt_iter (rf_type r) = false /\ map fst (fs_sp q) = [ref_name (rf_id r)]
  end.

Definition filter_ctor_state (fs : fields) (q : fstate) : Prop :=
  match fs_ctor q with
  | None => forall v t, In (v, t) fs -> ~ has_filter_role v t FCtor
  | Some (n, b) => exists v t, the_only fs FCtor v t /\ n = v_name v /\ (b = true <-> exists o, tag_value (v_tag v) (lit "filter") o /\ In (lit "v2") o)
  end.

Definition filter_search_state (e : env) (fs : fields) (q : fstate) : Prop :=
  (match fs_ts q with
  | None => forall v t, In (v, t) fs -> ~ has_filter_role v t FSearch
  | Some id => exists fs1 v t sc, the_last fs fs1 FSearch v t /\ search_column sc v id
      /\ match fs_rel q with
         | Some r => (sc = [ref_name (rf_id r)] /\ exists v' t', In (v', t') fs1 /\ has_filter_role v' t' FRel)
                     \/ (sc = [] /\ forall v' t', In (v', t') fs1 -> ~ has_filter_role v' t' FRel)
         | None => sc = [] /\ forall v' t', In (v', t') fs1 -> ~ has_filter_role v' t' FRel
         end
  end) /\ forall v t d, In (v, t) fs -> has_filter_role v t FSearch -> directive t d -> lower d = lit "textsearch".

Lemma v2_spec : forall v, existsb (bytes_eqb (B "v2")) (tag_get (v_tag v) (B "filter")) = true <-> exists o, tag_value (v_tag v) (lit "filter") o /\ In (lit "v2") o.
Proof.
  intros v. rewrite existsb_exists. unfold tag_get. split.
  - intros (x & I & E). apply bytes_eqb_eq in E. subst x. destruct (lookup (B "filter") (v_tag v)) as [o|] eqn:L; [|destruct I].
    exists o. split; auto. now apply tag_value_lookup.
  - intros (o & T & I). apply tag_value_lookup in T. change (lit "filter") with (B "filter") in T. rewrite T. exists (lit "v2"). split; auto.
Qed.

Lemma lower_ascii7 : forall s, ascii7 s -> lower s = map lower_char s.
Proof. intros s A. rewrite lower_ascii by auto. apply map_ext. intros c. symmetry. apply lower_char_low. Qed.

Lemma search_column_ok : forall sp v id, parseColIdent sp (lower (trim_space (tag_first (v_tag v) (B "sql")))) = inl id -> search_column (map fst sp) v id.
Proof.
  intros sp v id H. pose proof (sql_tag_first v) as T. set (x := tag_first (v_tag v) (B "sql")) in *.
  destruct (trim_space_split x) as (a & b & A & C & E & Tr). unfold search_column. exists (tl (tag_get (v_tag v) (B "sql"))), a, (trim_space x), b.
  rewrite <- E. conjs; auto. intros P. apply column_id_parse in H. now rewrite lower_ascii7 in H.
Qed.

Lemma filter_step : forall e fs q v t q', filter_field e q v t = AOk q' ->
  filter_rel_state e fs q -> filter_ctor_state fs q -> filter_search_state e fs q ->
  filter_rel_state e (fs ++ [(v, t)]) q' /\ filter_ctor_state (fs ++ [(v, t)]) q' /\ filter_search_state e (fs ++ [(v, t)]) q'.
Proof.
  intros e fs q v t q' H SR SC [SS SD]. unfold filter_field in H. cbv zeta in H.
  assert (SD' : (forall d, has_filter_role v t FSearch -> directive t d -> lower d = lit "textsearch") ->
     forall v0 t0 d, In (v0, t0) (fs ++ [(v, t)]) -> has_filter_role v0 t0 FSearch -> directive t0 d -> lower d = lit "textsearch").
  { intros N v0 t0 d I. apply in_app_or in I. destruct I as [I|[I|[]]]; [now apply SD|]. injection I as <- <-. auto. }
  destruct (tag_has (v_tag v) (B "rel")) eqn:TR.
  - assert (N1 : ~ has_filter_role v t FCtor) by (intros R; now pose proof (not_rel _ _ _ TR R)).
    assert (N2 : ~ has_filter_role v t FSearch) by (intros R; now pose proof (not_rel _ _ _ TR R)).
    apply abind_ok in H. destruct H as (u & H1 & H). apply abind_ok in H. destruct H as (rid & H2 & H). apply abind_ok in H. destruct H as (sp & H3 & H).
    apply abind_ok in H. destruct H as (rt & H4 & H). apply abind_ok in H. destruct H as (u' & H5 & H). injection H as <-.
    apply ensure_ok in H1, H5. apply lift_ok in H2, H3. unfold filter_rel_state, filter_ctor_state, filter_search_state in *. cbn [fs_rel fs_sp fs_ctor fs_ts].
    destruct (fs_rel q) as [?|] eqn:Q; [discriminate|]. destruct SR as [SR SP]. rewrite SP in H3. apply addToRelSpace_spec in H3. destruct H3 as [-> _].
    conjs.
    + pose proof (proj1 (rel_id_spec _ _) H2) as R.
      assert (NE : tag_first (v_tag v) (B "rel") <> []). { destruct R as (R & N & _). apply name_nonempty in N. rewrite R.
        destruct (r_qual rid); [|discriminate]. cbn [qualified]. destruct (r_name rid); [congruence|]. destruct (r_alias rid); discriminate. }
      unfold tag_first in *. destruct (tag_get (v_tag v) (B "rel")) as [|s o] eqn:G; [congruence|].
      exists v, t, s, o. cbn [rf_id rf_name rf_type]. conjs; auto.
      * apply the_only_new; auto. now apply filter_rel_dec.
      * apply tag_value_lookup. unfold tag_get in G. change (B "rel") with (lit "rel") in G. destruct (lookup (lit "rel") (v_tag v)); now subst.
      * exact (rel_type_spec _ _ _ _ H4).
      * now apply negb_true_iff in H5.
    + destruct (fs_ctor q) as [[n b]|]; [|now apply none_snoc]. destruct SC as (v' & t' & S1 & S2). exists v', t'. split; auto. now apply the_only_snoc.
    + destruct (fs_ts q) as [id|]; [|now apply none_snoc]. destruct SS as (f1 & v' & t' & sc & S1 & S2 & S3). exists f1, v', t', sc. split; [now apply the_last_snoc|]. auto.
    + apply SD'. intros d R. contradiction.
  - assert (NR : ~ has_filter_role v t FRel) by (rewrite <- filter_rel_dec; congruence). pose proof (not_tagged _ TR) as NT.
    apply abind_ok in H. destruct H as (dir & HD & H). pose proof (blank_dec v t dir HD) as BD.
    assert (KR : forall q', fs_rel q' = fs_rel q -> fs_sp q' = fs_sp q -> filter_rel_state e (fs ++ [(v, t)]) q').
    { intros q1 E1 E2. unfold filter_rel_state in *. rewrite E1, E2. destruct (fs_rel q) as [r|].
      - destruct SR as (v' & t' & s & o & S1 & S2). exists v', t', s, o. split; auto. now apply the_only_snoc.
      - destruct SR as [S1 S2]. split; auto. now apply none_snoc. }
    destruct (bytes_eqb (v_name v) (B "_") && negb (bytes_eqb dir [])) eqn:BL.
    + pose proof (proj1 BD eq_refl) as BD'. apply abind_ok in H. destruct H as (u & H1 & H). apply abind_ok in H. destruct H as (id & H2 & H). injection H as <-.
      apply ensure_ok in H1. apply bytes_eqb_eq in H1. apply lift_ok in H2. assert (NC : ~ has_filter_role v t FCtor) by (intros R; inversion R; contradiction).
      split; [now apply KR|]. split; [|split].
      * unfold filter_ctor_state in *. cbn [fs_ctor]. destruct (fs_ctor q) as [[n b]|]; [|now apply none_snoc]. destruct SC as (v' & t' & S1 & S2). exists v', t'. split; auto. now apply the_only_snoc.
      * cbn [fs_ts fs_rel]. exists fs, v, t, (map fst (fs_sp q)). split; [|split].
        -- exists []. split; auto. split; [now apply fr_search|intros v' t' []].
        -- now apply search_column_ok.
        -- unfold filter_rel_state in SR. destruct (fs_rel q) as [r|].
           ++ left. destruct SR as (v' & t' & s & o & (f1 & f2 & -> & R & _) & _ & _ & _ & _ & _ & S6). split; auto. exists v', t'. split; auto. apply in_or_app. right. now left.
           ++ destruct SR as [S1 S2]. now rewrite S2.
      * apply SD'. intros d _ D. destruct d as [|c d]; [|apply directive_name in D; [|discriminate]; rewrite D in HD; injection HD as <-; exact H1].
        apply andb_true_iff in BL. destruct BL as [_ BL]. destruct D as (n & u0 & p & pn & v1 & w & -> & E1 & _). exfalso.
        destruct BD' as [_ (d' & ND & D')]. destruct D' as (n' & u1 & p' & pn' & v1' & w' & E3 & E4 & _). injection E3 as <- <-. congruence.
    + assert (NB : ~ blank_directive v t) by (intros B'; apply BD in B'; discriminate).
      assert (NS : ~ has_filter_role v t FSearch) by (intros R; inversion R; contradiction).
      assert (KS : forall q', fs_ts q' = fs_ts q -> fs_rel q' = fs_rel q -> filter_search_state e (fs ++ [(v, t)]) q').
      { intros q1 E1 E2. unfold filter_search_state. rewrite E1, E2. split; [|apply SD'; intros d R; contradiction].
        destruct (fs_ts q) as [id|]; [|now apply none_snoc]. destruct SS as (f1 & v' & t' & sc & S1 & S2 & S3). exists f1, v', t', sc. split; [now apply the_last_snoc|]. auto. }
      destruct (ImplementsGosqlFilterConstructor t) eqn:FC.
      * apply abind_ok in H. destruct H as (u & H1 & H). injection H as <-. apply ensure_ok in H1. apply negb_true_iff in H1.
        split; [now apply KR|]. split; [|now apply KS]. unfold filter_ctor_state in *. cbn [fs_ctor]. destruct (fs_ctor q); [discriminate|].
        exists v, t. split; [|split; auto; apply v2_spec]. apply the_only_new; auto. apply fr_ctor; auto. destruct t; try discriminate. eexists; eexists; split; [reflexivity|exact FC].
      * injection H as <-. split; [now apply KR|]. split; [|now apply KS]. assert (NC : ~ has_filter_role v t FCtor).
        { intros R. inversion R as [ | | ? ? (n & u & -> & F)]. cbn in FC. congruence. }
        unfold filter_ctor_state in *. destruct (fs_ctor q) as [[n b]|]; [|now apply none_snoc]. destruct SC as (v' & t' & S1 & S2). exists v', t'. split; auto. now apply the_only_snoc.
Qed.

Lemma filter_fields_state : forall e fs2 fs q q', filter_fields e q fs2 = AOk q' ->
  filter_rel_state e fs q -> filter_ctor_state fs q -> filter_search_state e fs q ->
  filter_rel_state e (fs ++ fs2) q' /\ filter_ctor_state (fs ++ fs2) q' /\ filter_search_state e (fs ++ fs2) q'.
Proof.
  induction fs2 as [|[v t] fs2 IH]; intros fs q q' H S1 S2 S3.
  - injection H as <-. now rewrite app_nil_r.
  - cbn [filter_fields] in H. apply abind_ok in H. destruct H as (q1 & H1 & H). destruct (filter_step _ _ _ _ _ _ H1 S1 S2 S3) as (T1 & T2 & T3).
    pose proof (IH _ _ _ H T1 T2 T3) as R. now rewrite <- app_assoc in R.
Qed.

Lemma C54_filter_proof : forall e fs q, analyzeFilterStruct e fs = AOk q ->
  (exists r v t s o, fs_rel q = Some r /\ the_only fs FRel v t /\ tag_value (v_tag v) (lit "rel") (s :: o) /\ relation_id s (rf_id r) /\ rf_name r = v_name v
      /\ relation_type (e_pkg e) [ref_name (rf_id r)] t (rf_type r) /\ rt_iter (rf_type r) = false) /\
  (exists n b v t, fs_ctor q = Some (n, b) /\ the_only fs FCtor v t /\ n = v_name v
      /\ (b = true <-> exists o, tag_value (v_tag v) (lit "filter") o /\ In (lit "v2") o)).
Proof.
  intros e fs q H. unfold analyzeFilterStruct in H. apply abind_ok in H. destruct H as (q1 & H & H0). apply abind_ok in H0. destruct H0 as (u & H1 & H0).
  apply abind_ok in H0. destruct H0 as (u' & H2 & H0). injection H0 as <-. apply ensure_ok in H1, H2.
  destruct (filter_fields_state e fs [] (MkF None None None []) q1 H) as (S1 & S2 & S3).
  - split; [intros v t []|reflexivity].
  - intros v t [].
  - split; [intros v t []|intros v t d []].
  - cbn [app] in *. unfold filter_rel_state, filter_ctor_state in *. destruct (fs_rel q1) as [r|]; [|discriminate]. destruct (fs_ctor q1) as [[n b]|]; [|discriminate]. split.
    + destruct S1 as (v & t & s & o & S1). exists r, v, t, s, o. intuition.
    + destruct S2 as (v & t & S2). exists n, b, v, t. intuition.
Qed.

Lemma C54_text_search_proof : forall e fs q, analyzeFilterStruct e fs = AOk q ->
  (forall v t d, In (v, t) fs -> has_filter_role v t FSearch -> directive t d -> ascii7 d -> spelled d (lit "textsearch")) /\
  match fs_ts q with
  | None => forall v t, In (v, t) fs -> ~ has_filter_role v t FSearch
  | Some id => exists fs1 v t sc r, the_last fs fs1 FSearch v t /\ search_column sc v id /\ fs_rel q = Some r
      /\ ((sc = [ref_name (rf_id r)] /\ exists v' t', In (v', t') fs1 /\ has_filter_role v' t' FRel)
         \/ (sc = [] /\ forall v' t', In (v', t') fs1 -> ~ has_filter_role v' t' FRel))
  end.
Proof.
  intros e fs q H. unfold analyzeFilterStruct in H. apply abind_ok in H. destruct H as (q1 & H & H0). apply abind_ok in H0. destruct H0 as (u & H1 & H0).
  apply abind_ok in H0. destruct H0 as (u' & H2 & H0). injection H0 as <-. apply ensure_ok in H1, H2.
  destruct (filter_fields_state e fs [] (MkF None None None []) q1 H) as (S1 & S2 & S3 & S4).
  - split; [intros v t []|reflexivity].
  - intros v t [].
  - split; [intros v t []|intros v t d []].
  - cbn [app] in *. split.
    + intros v t d I R D A. unfold spelled. rewrite <- lower_ascii7 by auto. eapply S4; eauto.
    + destruct (fs_ts q1) as [id|]; auto. destruct (fs_rel q1) as [r|]; [|discriminate]. destruct S3 as (f1 & v & t & sc & T1 & T2 & T3). exists f1, v, t, sc, r. auto.
Qed.

Definition ex_ctor (s : string) (tg : tag) : fvar * gtype :=
  (ex_var s tg, TNamed (MkName (lit "Filter") (Some (lit "app", lit "app")) no_flags false false false true) (TStruct [])).

Definition ex_filter : fields := [ex_rel "user:u"; (ex_var "_" (ex_tag "sql" [" u.Ts "]), ex_dir "TextSearch"); ex_ctor "F" (ex_tag "filter" ["v2"])].
