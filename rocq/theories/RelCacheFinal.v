(** Definitions and proofs used by PropsRelCache.v. *)
From Coq Require Import Decimal DecimalString DecimalZ DecimalPos Ascii String ZArith NArith Bool List Lia.
From Verif Require Import GoBase Strconv ConvertUtil ConvertProofs Filter Filters2Final AParse PgSpec TagSpec SqlSpec AParseProofs TagsFinal Analysis AnalysisSpec AnalysisProofs AnalysisRoles QuerySpec QueryProofs QueryShape RelCache RelCacheSpec.
Import ListNotations.
Local Open Scope list_scope.

Lemma shape_eq : forall e sp t, analyzeRelType e sp t =
  abind (shapeOf e t) (fun s => finish_rt e sp (sh_name s) (sh_base s) (sh_ptr s) (sh_slice s) (sh_array s) (sh_len s) (sh_iter s) (sh_method s)).
Proof.
  intros e sp t. unfold analyzeRelType, shapeOf.
  destruct (match t with TNamed n u => (Some n, u) | _ => (None, t) end) as [n u].
  destruct u as [k b r|k u|u|u|k u|u|ps rs|ms em sc va|fs|m u]; cbn [abind orb sh_name sh_base sh_ptr sh_slice sh_array sh_len sh_iter sh_method]; try reflexivity.
  - destruct u; cbn [abind orb]; try reflexivity. destruct u; cbn [abind orb]; reflexivity.
  - destruct u; cbn [abind orb]; try reflexivity. destruct u; cbn [abind orb]; reflexivity.
  - destruct u; cbn [abind orb]; reflexivity.
  - destruct (analyzeIteratorFunction ps rs) as [[[n' u'] p']|]; reflexivity.
  - destruct ms as [|[[mn mx] [ps rs]] [|m2 ms]]; try reflexivity.
    destruct (isAccessible e mn mx n) as [ok| |]; cbn [abind]; try reflexivity. destruct ok; [|reflexivity].
    destruct (analyzeIteratorFunction ps rs) as [[[n' u'] p']|]; reflexivity.
Qed.

Lemma upto_ok : forall fuel e sp st out l, fields_loop fuel e sp st out = AOk l -> fields_upto fuel e sp st out = l.
Proof.
  induction fuel as [|fuel IH]; intros e sp st out l H; cbn in H; [discriminate|]. cbn [fields_upto].
  destruct st as [|fr rest]; [congruence|].
  destruct (fr_fields fr) as [|[v t] fs]; [auto|].
  destruct (field_step e sp fr v t) as [[|f|f]| |]; cbn [abind] in H; try discriminate; auto.
Qed.

Lemma kept_ok : forall e sp t rt rt', analyzeRelType e sp t = AOk rt -> kept e sp t = Some rt' -> rt' = rt.
Proof.
  intros e sp t rt rt' A K. rewrite shape_eq in A. unfold kept in K.
  destruct (shapeOf e t) as [s| |]; cbn [abind] in A; try discriminate.
  destruct (sh_name s) as [n|]; [|discriminate]. unfold finish_rt in A.
  destruct (n_pkg n) as [[p pn]|]; [|discriminate]. cbn [abind] in A.
  destruct (sh_base s) as [k b r|k u|u|u|k u|u|ps rs|ms em sc va|fs|m u]; try discriminate.
  cbn [t_imported] in A. unfold analyzeFieldInfoList in A.
  destruct (fields_loop (S (S (tsize (TStruct fs)))) e sp [MkFrame fs (negb (bytes_eqb p (e_pkg e))) [] []] []) as [l| |] eqn:L; cbn [abind] in A; try discriminate.
  apply upto_ok in L. rewrite L in K. congruence.
Qed.

Lemma kept_not_literal : forall e sp t rt, kept e sp t = Some rt -> literal_struct t = false.
Proof. intros e sp t rt K. destruct t; auto. discriminate K. Qed.

Lemma no_dot_cut : forall s, no_dot s = true -> cut_last "."%char s = None.
Proof.
  induction s as [|c s IH]; intro H; [auto|]. cbn in H. apply andb_prop in H. destruct H as [H1 H2].
  cbn. rewrite (IH H2). destruct (beq c "."%char); [discriminate|auto].
Qed.

Lemma no_dot_app : forall a b, no_dot a = true -> no_dot b = true -> no_dot (a ++ b) = true.
Proof. intros a b H1 H2. unfold no_dot in *. rewrite forallb_app, H1, H2. reflexivity. Qed.

Lemma no_dot_skip : forall n s, no_dot s = true -> no_dot (skipn n s) = true.
Proof.
  induction n as [|n IH]; intros s H; [auto|]. destruct s as [|c s]; [auto|]. cbn in H. apply andb_prop in H. cbn. apply IH, H.
Qed.

Lemma col_sp : forall sp sp' s, no_dot s = true -> parseColIdent sp s = parseColIdent sp' s.
Proof. intros sp sp' s H. unfold parseColIdent. rewrite (no_dot_cut _ H). reflexivity. Qed.

Lemma info_dots : forall e t i b, analyzeTypeInfo e t = AOk (i, b) -> no_dots t = true -> no_dots b = true.
Proof.
  intros e. fix IH 1. intros t i b A D.
  destruct t as [k x r|k u|u|u|k u|u|ps rs|ms em sc va|fs|m u]; cbn in A; try (inversion A; subst; exact D).
  - destruct (analyzeTypeInfo e u) as [[i' b']| |] eqn:E; cbn in A; try discriminate. inversion A; subst. eapply IH; [exact E|exact D].
  - destruct (analyzeTypeInfo e u) as [[i' b']| |] eqn:E; cbn in A; try discriminate. inversion A; subst. eapply IH; [exact E|exact D].
  - destruct (analyzeTypeInfo e u) as [[i' b']| |] eqn:E; cbn in A; try discriminate. inversion A; subst. eapply IH; [exact E|exact D].
  - destruct (analyzeTypeInfo e k) as [[i2 b2]| |] eqn:E2; cbn in A; try discriminate.
    destruct (analyzeTypeInfo e u) as [[i' b']| |] eqn:E; cbn in A; try discriminate.
    inversion A; subst. cbn in D. apply andb_prop in D. eapply IH; [exact E|apply D].
  - destruct (n_pkg m) as [[p pn]|]; [|discriminate].
    destruct (analyzeTypeInfo e u) as [[i' b']| |] eqn:E; cbn in A; try discriminate. inversion A; subst. eapply IH; [exact E|exact D].
Qed.

Definition plain_frame (fr : frame) : Prop := no_dots (TStruct (fr_fields fr)) = true /\ no_dot (fr_pfx fr) = true.

Lemma step_sp : forall e sp sp' fr v t fs, plain_frame fr -> fr_fields fr = (v, t) :: fs ->
  field_step e sp fr v t = field_step e sp' fr v t /\ (forall f, field_step e sp fr v t = AOk (FDescend f) -> plain_frame f).
Proof.
  intros e sp sp' fr v t fs [D P] F. rewrite F in D. cbn in D. apply andb_prop in D. destruct D as [D _]. apply andb_prop in D. destruct D as [D1 D2].
  unfold field_step.
  rewrite (col_sp sp sp') by (apply no_dot_app; assumption).
  split; [reflexivity|]. intros f H.
  destruct (_ || _) in H; [discriminate|].
  destruct (analyzeTypeInfo e t) as [[i b]| |] eqn:A; cbn [abind] in H; try discriminate.
  destruct (_ && _) in H.
  - destruct b as [k x r|k u|u|u|k u|u|ps rs|ms em sc va|gs|m u]; try discriminate.
    destruct (lift_res _) in H; cbn [abind] in H; try discriminate. inversion H; subst. split; cbn [fr_fields fr_pfx].
    + eapply info_dots; [exact A|exact D2].
    + apply no_dot_app; [exact P|]. apply (no_dot_skip 1), D1.
  - destruct (lift _) in H; cbn [abind] in H; try discriminate. destruct (lift_res _) in H; cbn [abind] in H; try discriminate.
    destruct (parseCoalesceInfo (v_tag v)) in H. discriminate.
Qed.

Lemma loop_sp : forall fuel e sp sp' st out, Forall plain_frame st -> fields_loop fuel e sp st out = fields_loop fuel e sp' st out.
Proof.
  induction fuel as [|fuel IH]; intros e sp sp' st out P; [reflexivity|]. cbn [fields_loop].
  destruct st as [|fr rest]; [reflexivity|]. inversion P as [|? ? P1 P2]; subst.
  destruct (fr_fields fr) as [|[v t] fs] eqn:F; [apply IH, P2|].
  destruct (step_sp e sp sp' fr v t fs P1 F) as [E D]. rewrite <- E.
  assert (P' : plain_frame (MkFrame fs (fr_imported fr) (fr_pfx fr) (fr_sel fr))).
  { destruct P1 as [Q1 Q2]. rewrite F in Q1. cbn in Q1. apply andb_prop in Q1. split; [exact (proj2 Q1)|exact Q2]. }
  destruct (field_step e sp fr v t) as [[|f|f]| |]; cbn [abind]; try reflexivity; apply IH; auto.
Qed.

Lemma forallb_dots : forall l t, forallb no_dots l = true -> In t l -> no_dots t = true.
Proof. intros l t H I. rewrite forallb_forall in H. auto. Qed.

Lemma iter_dots : forall ps rs n u p, analyzeIteratorFunction ps rs = Some (n, u, p) -> forallb no_dots ps = true -> no_dots u = true.
Proof.
  intros ps rs n u p H D. unfold analyzeIteratorFunction in H.
  destruct ps as [|a [|b ps]]; try discriminate. destruct rs as [|r [|r2 rs]]; try discriminate.
  destruct (IsError r); [|discriminate]. cbn in D. rewrite andb_true_r in D.
  destruct a as [k x y|k v|v|v|k v|v|ps' rs'|ms em sc va|fs|m v]; try discriminate.
  - destruct v as [k x y|k v|v|v|k v|v|ps' rs'|ms em sc va|fs|m v]; try discriminate.
    destruct v; try discriminate. inversion H; subst. exact D.
  - destruct v; try discriminate. inversion H; subst. exact D.
Qed.

Lemma shape_dots : forall e t s, shapeOf e t = AOk s -> no_dots t = true -> no_dots (sh_base s) = true.
Proof.
  intros e t s H D. unfold shapeOf in H.
  assert (D' : no_dots (snd (match t with TNamed n u => (Some n, u) | _ => (None, t) end)) = true) by (destruct t; exact D).
  destruct (match t with TNamed n u => (Some n, u) | _ => (None, t) end) as [n u]. cbn [snd] in D'. clear D. rename D' into D.
  destruct u as [k b r|k u|u|u|k u|u|ps rs|ms em sc va|fs|m u]; cbn [orb] in H; try (inversion H; subst; exact D).
  - destruct u as [kk b r|kk u|u|u|kk u|u|ps rs|ms em sc va|fs|m u]; cbn [orb] in H; try discriminate; try (inversion H; subst; exact D).
    destruct u; try discriminate; inversion H; subst; exact D.
  - destruct u as [kk b r|kk u|u|u|kk u|u|ps rs|ms em sc va|fs|m u]; cbn [orb] in H; try discriminate; try (inversion H; subst; exact D).
    destruct u; try discriminate; inversion H; subst; exact D.
  - destruct u; cbn [orb] in H; try discriminate; inversion H; subst; exact D.
  - destruct (analyzeIteratorFunction ps rs) as [[[n' u'] p']|] eqn:I; [|discriminate]. inversion H; subst. cbn in D.
    apply andb_prop in D. eapply iter_dots; [exact I|apply D].
  - destruct ms as [|[[mn mx] [ps rs]] [|m2 ms]]; try discriminate.
    destruct (isAccessible e mn mx n) as [ok| |]; cbn [abind] in H; try discriminate. destruct ok; [|discriminate].
    destruct (analyzeIteratorFunction ps rs) as [[[n' u'] p']|] eqn:I; [|discriminate]. inversion H; subst. cbn in D.
    rewrite andb_true_r in D. apply andb_prop in D. eapply iter_dots; [exact I|apply D].
Qed.

Lemma reltype_sp : forall e sp sp' t, no_dots t = true -> analyzeRelType e sp t = analyzeRelType e sp' t.
Proof.
  intros e sp sp' t D. rewrite !shape_eq. destruct (shapeOf e t) as [s| |] eqn:S0; cbn [abind]; try reflexivity.
  pose proof (shape_dots _ _ _ S0 D) as D2. unfold finish_rt.
  destruct (match sh_name s with Some n => _ | None => _ end) as [b| |]; cbn [abind]; try reflexivity.
  destruct (sh_base s); try reflexivity. unfold analyzeFieldInfoList.
  rewrite (loop_sp _ e sp sp'); [reflexivity|]. constructor; [|constructor]. split; [exact D2|reflexivity].
Qed.

Definition wider (sp sp' : relspace) : Prop := incl (map fst sp) (map fst sp').

Lemma col_wider : forall sp sp' s id, wider sp sp' -> parseColIdent sp s = inl id -> parseColIdent sp' s = inl id.
Proof.
  intros sp sp' s id W H. unfold parseColIdent in *. destruct (negb (isColIdent s)); [discriminate|].
  destruct (cut_last "." s) as [[q n]|]; [|exact H].
  destruct (lookup q sp) as [r|] eqn:L; [|discriminate].
  assert (I : In q (map fst sp')). { apply W, lookup_in. exists r. exact L. }
  apply lookup_in in I. destruct I as [r' I]. rewrite I. exact H.
Qed.

Lemma step_wider : forall e sp sp' fr v t x, wider sp sp' -> field_step e sp fr v t = AOk x -> field_step e sp' fr v t = AOk x.
Proof.
  intros e sp sp' fr v t x W H. unfold field_step in *. destruct (_ || _); [exact H|].
  destruct (analyzeTypeInfo e t) as [[i b]| |]; cbn [abind] in *; try discriminate.
  destruct (_ && _); [exact H|].
  destruct (parseColIdent sp (fr_pfx fr ++ tag_first (v_tag v) (B "sql"))) as [id|] eqn:P; cbn [lift abind] in H; [|discriminate].
  rewrite (col_wider _ _ _ _ W P). exact H.
Qed.

Lemma loop_wider : forall fuel e sp sp' st out x, wider sp sp' -> fields_loop fuel e sp st out = AOk x -> fields_loop fuel e sp' st out = AOk x.
Proof.
  induction fuel as [|fuel IH]; intros e sp sp' st out x W H; [exact H|]. cbn [fields_loop] in *.
  destruct st as [|fr rest]; [exact H|]. destruct (fr_fields fr) as [|[v t] fs]; [eapply IH; eauto|].
  destruct (field_step e sp fr v t) as [y| |] eqn:F; cbn [abind] in H; try discriminate.
  rewrite (step_wider _ _ _ _ _ _ _ W F). cbn [abind]. destruct y; eapply IH; eauto.
Qed.

Lemma reltype_wider : forall e sp sp' t rt, wider sp sp' -> analyzeRelType e sp t = AOk rt -> analyzeRelType e sp' t = AOk rt.
Proof.
  intros e sp sp' t rt W H. rewrite shape_eq in *. destruct (shapeOf e t) as [s| |]; cbn [abind] in *; try discriminate. unfold finish_rt in *.
  destruct (match sh_name s with Some n => _ | None => _ end) as [b| |]; cbn [abind] in *; try discriminate.
  destruct (sh_base s); try exact H. unfold analyzeFieldInfoList in *.
  destruct (fields_loop _ e sp _ _) as [l| |] eqn:L in H; cbn [abind] in H; try discriminate.
  rewrite (loop_wider _ _ _ _ _ _ _ W L). exact H.
Qed.

Lemma wider_refl : forall sp, wider sp sp.
Proof. intros sp. apply incl_refl. Qed.

Lemma wider_trans : forall a b c, wider a b -> wider b c -> wider a c.
Proof. intros a b c. apply incl_tran. Qed.

Lemma wider_add : forall sp id sp', addToRelSpace sp id = inl sp' -> wider sp sp'.
Proof. intros sp id sp' H. apply addToRelSpace_spec in H. destruct H as [-> _]. apply incl_tl, incl_refl. Qed.

Lemma wider_step : forall e q v t q', field_pass1 e q v t = AOk q' -> wider (q_sp q) (q_sp q').
Proof.
  intros e q v t q' H. destruct (tag_has (v_tag v) (B "rel")) eqn:R.
  - unfold field_pass1 in H. rewrite R in H. inversion H. apply wider_refl.
  - apply step_scope in H; [|exact R]. destruct H as [[_ ->]|(_ & fs & ks & _ & _ & M & _)]; [apply wider_refl|].
    unfold wider. rewrite M. apply incl_appr, incl_refl.
Qed.

(** Every entry is the result of a struct of [d], or of [g], and then the
    relations which were in scope still are. *)
Definition entry (cfg : env) (k : bytes) (rt : RelType) (g : target) (t : gtype) (sp : relspace) : Prop :=
  uses g t /\ literal_struct t = false /\ typeString t = k /\ analyzeRelType (in_package cfg g) sp t = AOk rt.

Definition stored (cfg : env) (d : list target) (c : cache) : Prop :=
  forall k rt, lookup k c = Some rt -> exists g t sp, In g d /\ entry cfg k rt g t sp.

Definition agrees (cfg : env) (d : list target) (g : target) (sp : relspace) (c : cache) : Prop :=
  forall k rt, lookup k c = Some rt ->
    exists g' t sp', (In g' d \/ (g' = g /\ wider sp' sp)) /\ entry cfg k rt g' t sp'.

Lemma bytes_eqb_true : forall a b, bytes_eqb a b = true -> a = b.
Proof.
  induction a as [|x a IH]; intros [|y b] H; cbn in H; try discriminate; auto.
  apply andb_prop in H. destruct H as [H1 H2]. f_equal; [|auto]. apply Ascii.eqb_eq. exact H1.
Qed.

Section One.

Variable cfg : env.

Variable l : list target.

Hypothesis T : one_type_per_name l.

Hypothesis P : one_package_per_type l.

Hypothesis U : own_qualifiers l.

Variable d : list target.

Hypothesis D : incl d l.

Variable g : target.

Hypothesis G : In g l.

Hypothesis N : ~ In g d.

Let e := in_package cfg g.

Lemma agrees_wider : forall sp sp' c, wider sp sp' -> agrees cfg d g sp c -> agrees cfg d g sp' c.
Proof.
  intros sp sp' c W A k rt L. destruct (A k rt L) as (g' & t & sp0 & H & E). exists g', t, sp0. split; [|exact E].
  destruct H as [H|[H W']]; [left; exact H|right]. split; [exact H|]. eapply wider_trans; eauto.
Qed.

(** A step with the cache does what it does without, and keeps the invariant
    unless it fails; [f] is the space after the step. *)
Definition same {A} (f : A -> relspace) (x : ares A * cache) (y : ares A) : Prop :=
  fst x = y /\ (forall a, y = AOk a -> agrees cfg d g (f a) (snd x)).

Lemma call_same : forall c sp t, agrees cfg d g sp c -> uses g t -> same (fun _ => sp) (relTypeC e sp c t) (analyzeRelType e sp t).
Proof.
  intros c sp t A Us. unfold relTypeC, same.
  destruct (lookup (typeString t) c) as [rt|] eqn:L; cbn [fst snd].
  - destruct (A _ _ L) as (g' & t' & sp' & H & U' & N' & K' & R').
    assert (G' : In g' l) by (destruct H as [H|[-> _]]; [apply D, H|exact G]).
    pose proof (T g' g t' t G' G U' Us N' K') as Et. subst t'.
    pose proof (P g' g t G' G U' Us N') as Ep.
    split; [|intros; exact A].
    unfold e. replace (in_package cfg g) with (in_package cfg g') by (unfold in_package; rewrite Ep; reflexivity).
    symmetry. destruct H as [H|[-> W]]; [|eapply reltype_wider; eauto].
    destruct (no_dots t) eqn:Q; [rewrite (reltype_sp _ sp sp' t Q); exact R'|].
    exfalso. apply N. rewrite <- (U g' g t G' G U' Us N' Q). exact H.
  - split; [reflexivity|]. intros rt H. destruct (kept e sp t) as [rt'|] eqn:K; [|exact A].
    assert (rt' = rt) by (eapply kept_ok; eauto). subst rt'.
    intros k r L'. cbn in L'. destruct (bytes_eqb k (typeString t)) eqn:E.
    + inversion L'; subst r. apply bytes_eqb_true in E. exists g, t, sp. split; [right; split; [reflexivity|apply wider_refl]|].
      split; [exact Us|]. split; [eapply kept_not_literal; exact K|]. split; [auto|exact H].
    + apply A; exact L'.
Qed.

Lemma pure_same : forall A (f : A -> relspace) (x : ares A) c sp, agrees cfg d g sp c -> (forall a, x = AOk a -> wider sp (f a)) -> same f (x, c) x.
Proof. intros A f x c sp Ag W. split; [reflexivity|]. intros a E. cbn [snd]. eapply agrees_wider; eauto. Qed.

Ltac stops := split; [reflexivity|intros; discriminate].

Lemma result_same : forall c q v t, agrees cfg d g (q_sp q) c -> uses g t -> same q_sp (resultFieldC e c q v t) (analyzeResultField e q v t).
Proof.
  intros c q v t A Us. unfold resultFieldC, analyzeResultField. destruct (output_allowed q) as [u| |]; cbn [after abind]; try stops.
  destruct (call_same c (q_sp q) t A Us) as [H1 H2]. destruct (relTypeC e (q_sp q) c t) as [x c']; cbn [fst snd] in *. subst x.
  split; cbn [fst snd]; [reflexivity|]. intros a H.
  destruct (analyzeRelType e (q_sp q) t) as [rt| |]; cbn [abind] in H; try discriminate. inversion H; subst a. cbn [q_sp set_result_]. eapply H2; reflexivity.
Qed.

Lemma rel_same : forall c q v t, agrees cfg d g (q_sp q) c -> uses g t -> same q_sp (relFieldC e c q v t) (analyzeQueryStructRelField e q v t).
Proof.
  intros c q v t A Us. unfold relFieldC, analyzeQueryStructRelField.
  destruct (ensure (negb (is_some (q_rel q))) EConflictingRelTag) as [[]| |]; cbn [abind after]; try stops.
  destruct (lift (parseRelIdent (tag_first (v_tag v) (B "rel")))) as [rid| |]; cbn [abind after]; try stops.
  destruct (addToRelSpace (q_sp q) rid) as [sp|] eqn:AS; cbn [lift abind after]; try stops.
  apply (agrees_wider _ sp) in A; [|eapply wider_add; exact AS].
  cbv zeta.
  assert (PS : forall (b : bool) k rt dr, same q_sp (abind (ensure b EIllegalQueryField) (fun _ => AOk (set_kind_ k (set_rel_ (Some (MkRelF (v_name v) rid rt dr)) (set_sp_ sp q)))), c)
     (abind (ensure b EIllegalQueryField) (fun _ => AOk (set_kind_ k (set_rel_ (Some (MkRelF (v_name v) rid rt dr)) (set_sp_ sp q)))))).
  { intros b k rt dr. destruct b; cbn [ensure abind]; [|stops]. eapply pure_same; [exact A|]. intros a H. inversion H. apply wider_refl. }
  destruct (bytes_eqb (lower (v_name v)) (B "count") && isIntegerType t); [apply PS|].
  destruct (bytes_eqb (lower (v_name v)) (B "exists") && isBoolType t); [apply PS|].
  destruct (bytes_eqb (lower (v_name v)) (B "notexists") && isBoolType t); [apply PS|].
  destruct (if bytes_eqb (lower (v_name v)) (B "_") then _ else _) as [isdir| |]; cbn [after abind]; try stops. destruct isdir.
  { destruct (is_delete (q_kind (set_sp_ sp q))); cbn [ensure abind]; [|stops]. eapply pure_same; [exact A|]. intros a H. inversion H. apply wider_refl. }
  destruct (call_same c sp t A Us) as [H1 H2]. destruct (relTypeC e sp c t) as [x c']; cbn [fst snd] in *. subst x.
  split; cbn [fst snd]; [reflexivity|]. intros a H.
  destruct (analyzeRelType e sp t) as [rt| |]; cbn [abind] in H; try discriminate.
  destruct (ensure _ _) in H; cbn [abind] in H; try discriminate. inversion H; subst a. cbn [q_sp set_rel_ set_sp_]. eapply H2; reflexivity.
Qed.

Lemma same_after : forall A C (h : A -> relspace) (h' : C -> relspace) (x : ares A * cache) (y : ares A) (f : cache -> A -> ares C * cache) (z : A -> ares C),
  same h x y -> (forall c' a, agrees cfg d g (h a) c' -> y = AOk a -> same h' (f c' a) (z a)) ->
  same h' (let '(x, c) := x in after x c (f c)) (abind y z).
Proof.
  intros A C h h' [x c'] y f z [H1 H2] H. cbn [fst snd] in *. subst x.
  destruct y as [a| |]; cbn [after abind]; try stops.
  destruct (H c' a (H2 a eq_refl) eq_refl) as [K1 K2]. split; auto.
Qed.

Lemma rel_pass_same : forall fs c q, (forall v t, In (v, t) fs -> tag_has (v_tag v) (B "rel") = true -> uses g t) -> agrees cfg d g (q_sp q) c ->
  same q_sp (rel_passC e c q fs) (rel_pass e q fs).
Proof.
  induction fs as [|[v t] fs IH]; intros c q Us A; cbn [rel_passC rel_pass].
  { eapply pure_same; [exact A|]. intros a H. inversion H. apply wider_refl. }
  destruct (tag_has (v_tag v) (B "rel")) eqn:R.
  - apply (same_after _ _ q_sp q_sp (relFieldC e c q v t) _ (fun c q => rel_passC e c q fs)).
    + apply rel_same; [exact A|]. eapply Us; [left; reflexivity|exact R].
    + intros c' q' A' _. apply IH; [|exact A']. intros v' t' I. apply (Us v' t'). right. exact I.
  - apply IH; [|exact A]. intros v' t' I. apply (Us v' t'). right. exact I.
Qed.

Lemma result_analyzer : forall q v t, tolower (v_name v) = B "result" -> analyzeQueryStructField e q v t = analyzeResultField e q v t.
Proof. intros q v t H. unfold analyzeQueryStructField. rewrite H. reflexivity. Qed.

Lemma field1_same : forall c q v t, (tolower (v_name v) = B "result" -> uses g t) -> agrees cfg d g (q_sp q) c ->
  same q_sp (field_pass1C e c q v t) (field_pass1 e q v t).
Proof.
  intros c q v t Us A.
  assert (PS : same q_sp (field_pass1 e q v t, c) (field_pass1 e q v t)).
  { eapply pure_same; [exact A|]. intros a H. eapply wider_step; exact H. }
  unfold field_pass1C, field_pass1 in *.
  destruct (tag_has (v_tag v) (B "rel")); [exact PS|].
  destruct (GetDirectiveName t) as [dir| |]; cbn [after abind] in *; try stops.
  destruct (bytes_eqb (v_name v) (B "_") && negb (bytes_eqb dir [])); [exact PS|].
  destruct (bytes_eqb (tolower (v_name v)) (B "result")) eqn:R; [|exact PS].
  apply bytes_eqb_true in R. rewrite (result_analyzer q v t R). apply result_same; auto.
Qed.

Lemma field_pass_same : forall fs c q, (forall v t, In (v, t) fs -> tolower (v_name v) = B "result" -> uses g t) -> agrees cfg d g (q_sp q) c ->
  same q_sp (field_passC e c q fs) (field_pass e q fs).
Proof.
  induction fs as [|[v t] fs IH]; intros c q Us A; cbn [field_passC field_pass].
  { eapply pure_same; [exact A|]. intros a H. inversion H. apply wider_refl. }
  apply (same_after _ _ q_sp q_sp (field_pass1C e c q v t) _ (fun c q => field_passC e c q fs)).
  - apply field1_same; [|exact A]. eapply Us; left; reflexivity.
  - intros c' q' A' _. apply IH; [|exact A']. intros v' t' I. apply (Us v' t'). right. exact I.
Qed.

Lemma query_same : forall fs c name, g_type g = TStruct fs -> agrees cfg d g [] c ->
  same q_sp (queryStructC e c name fs) (analyzeQueryStruct e name fs).
Proof.
  intros fs c name Gt A. unfold queryStructC, analyzeQueryStruct. destruct (query_kind name) as [k| |]; cbn [after abind]; try stops.
  assert (R : same q_sp (rel_passC e c (new_query k) fs) (rel_pass e (new_query k) fs)).
  { apply rel_pass_same; [|exact A]. intros v t I H. exists fs, v. auto. }
  destruct (rel_passC e c (new_query k) fs) as [x c']. destruct R as [R1 R2]. cbn [fst snd] in *. subst x.
  destruct (rel_pass e (new_query k) fs) as [q| |]; cbn [abind after]; try stops.
  specialize (R2 q eq_refl). destruct (is_some (q_rel q)); cbn [ensure abind after]; [|stops].
  apply (field_pass_same fs c' q); [|exact R2]. intros v t I H. exists fs, v. auto.
Qed.

Lemma filter_sp : forall q v t q', tag_has (v_tag v) (B "rel") = false -> filter_field e q v t = AOk q' -> fs_sp q' = fs_sp q.
Proof.
  intros q v t q' R H. unfold filter_field in H. cbv zeta in H. rewrite R in H.
  destruct (GetDirectiveName t) as [dir| |]; cbn [abind] in H; try discriminate.
  destruct (_ && _) in H.
  - destruct (ensure _ _) in H; cbn [abind] in H; try discriminate. destruct (lift _) in H; cbn [abind] in H; try discriminate. inversion H. reflexivity.
  - destruct (ImplementsGosqlFilterConstructor t); [|inversion H; reflexivity].
    destruct (ensure _ _) in H; cbn [abind] in H; try discriminate. inversion H. reflexivity.
Qed.

Lemma filter1_same : forall c q v t, (tag_has (v_tag v) (B "rel") = true -> uses g t) -> agrees cfg d g (fs_sp q) c ->
  same fs_sp (filter_fieldC e c q v t) (filter_field e q v t).
Proof.
  intros c q v t Us A. unfold filter_fieldC. cbv zeta.
  destruct (tag_has (v_tag v) (B "rel")) eqn:R.
  2: { eapply pure_same; [exact A|]. intros a H. rewrite (filter_sp _ _ _ _ R H). apply wider_refl. }
  unfold filter_field. cbv zeta. rewrite R.
  destruct (ensure (negb (is_some (fs_rel q))) EConflictingRelTag) as [[]| |]; cbn [abind after]; try stops.
  destruct (lift (parseRelIdent (tag_first (v_tag v) (B "rel")))) as [rid| |]; cbn [abind after]; try stops.
  destruct (addToRelSpace (fs_sp q) rid) as [sp|] eqn:AS; cbn [lift abind after]; try stops.
  apply (agrees_wider _ sp) in A; [|eapply wider_add; exact AS].
  destruct (call_same c sp t A (Us eq_refl)) as [H1 H2]. destruct (relTypeC e sp c t) as [x c']; cbn [fst snd] in *. subst x.
  split; cbn [fst snd]; [reflexivity|]. intros a H.
  destruct (analyzeRelType e sp t) as [rt| |]; cbn [abind] in H; try discriminate.
  destruct (ensure _ _) in H; cbn [abind] in H; try discriminate. inversion H; subst a. eapply H2; reflexivity.
Qed.

Lemma filters_same : forall fs c q, (forall v t, In (v, t) fs -> tag_has (v_tag v) (B "rel") = true -> uses g t) -> agrees cfg d g (fs_sp q) c ->
  same fs_sp (filter_fieldsC e c q fs) (filter_fields e q fs).
Proof.
  induction fs as [|[v t] fs IH]; intros c q Us A; cbn [filter_fieldsC filter_fields].
  { eapply pure_same; [exact A|]. intros a H. inversion H. apply wider_refl. }
  apply (same_after _ _ fs_sp fs_sp (filter_fieldC e c q v t) _ (fun c q => filter_fieldsC e c q fs)).
  - apply filter1_same; [|exact A]. eapply Us; left; reflexivity.
  - intros c' q' A' _. apply IH; [|exact A']. intros v' t' I. apply (Us v' t'). right. exact I.
Qed.

Lemma run_same : forall c, agrees cfg d g [] c ->
  fst (RunC e c (g_name g) (g_type g)) = Run e (g_name g) (g_type g)
  /\ (forall a, Run e (g_name g) (g_type g) = AOk a -> exists sp, agrees cfg d g sp (snd (RunC e c (g_name g) (g_type g)))).
Proof.
  intros c A. unfold RunC, Run. destruct (g_type g) as [k b r|k u|u|u|k u|u|ps rs|ms em sc va|fs|m u] eqn:Gt; try stops.
  destruct (has_prefix (B "filter") (lower (g_name g))).
  - unfold filterStructC, analyzeFilterStruct.
    assert (F : same fs_sp (filter_fieldsC e c (MkF None None None []) fs) (filter_fields e (MkF None None None []) fs)).
    { apply filters_same; [|exact A]. intros v t I H. exists fs, v. auto. }
    destruct (filter_fieldsC e c (MkF None None None []) fs) as [x c']. destruct F as [F1 F2]. cbn [fst snd] in *. subst x.
    destruct (filter_fields e (MkF None None None []) fs) as [q| |]; cbn [abind]; try stops.
    split; [reflexivity|]. intros. eexists. eapply F2; reflexivity.
  - pose proof (query_same fs c (g_name g) Gt A) as Q. destruct (queryStructC e c (g_name g) fs) as [x c']. destruct Q as [Q1 Q2]. cbn [fst snd] in *. subst x.
    destruct (analyzeQueryStruct e (g_name g) fs) as [q| |]; cbn [abind]; split; cbn [fst snd]; try reflexivity; intros; try discriminate. eexists. eapply Q2; reflexivity.
Qed.

End One.

Lemma session_same : forall cfg l, one_type_per_name l -> one_package_per_type l -> own_qualifiers l ->
  forall l' d c, incl d l -> incl l' l -> NoDup l' -> (forall g, In g l' -> ~ In g d) -> stored cfg d c -> session cfg c l' = alone cfg l'.
Proof.
  intros cfg l T P U. induction l' as [|g r IH]; intros d c Id I Nd Fr A; [reflexivity|]. cbn [session alone].
  assert (G : In g l) by (apply I; left; reflexivity).
  assert (N : ~ In g d) by (apply Fr; left; reflexivity).
  assert (A0 : agrees cfg d g [] c).
  { intros k rt L. destruct (A k rt L) as (g' & t & sp & H & E). exists g', t, sp. auto. }
  destruct (run_same cfg l T P U d Id g G N c A0) as [R1 R2].
  destruct (RunC (in_package cfg g) c (g_name g) (g_type g)) as [x c']; cbn [fst snd] in *. subst x. f_equal.
  destruct (Run (in_package cfg g) (g_name g) (g_type g)) as [a| |]; try reflexivity.
  inversion Nd as [|? ? N1 N2]; subst.
  apply (IH (g :: d)).
  - intros x [<-|H]; auto.
  - intros x H. apply I. right. exact H.
  - exact N2.
  - intros x H [<-|K]; [exact (N1 H)|]. apply (Fr x); [right; exact H|exact K].
  - destruct (R2 a eq_refl) as [sp A']. intros k rt L. destruct (A' k rt L) as (g' & t & sp' & H & E). exists g', t, sp'. split; [|exact E].
    destruct H as [H|[-> _]]; [right; exact H|left; reflexivity].
Qed.

Lemma C104_transparent_lemma : forall cfg l, NoDup l -> one_type_per_name l -> one_package_per_type l -> own_qualifiers l ->
  session cfg [] l = alone cfg l.
Proof.
  intros cfg l Nd T P U. apply (session_same cfg l T P U l []); auto.
  - intros x [].
  - apply incl_refl.
  - intros k rt H. discriminate H.
Qed.

Lemma C104_single_lemma : forall cfg g, one_type_per_name [g] -> session cfg [] [g] = alone cfg [g].
Proof.
  intros cfg g T. apply C104_transparent_lemma.
  - constructor; [intros []|constructor].
  - exact T.
  - intros g1 g2 t [<-|[]] [<-|[]] _ _ _. reflexivity.
  - intros g1 g2 t [<-|[]] [<-|[]] _ _ _ _. reflexivity.
Qed.

Lemma C104_once_lemma : forall e sp c t rt c', relTypeC e sp c t = (AOk rt, c') -> lookup (typeString t) c' <> None ->
  forall e' sp' t', typeString t' = typeString t -> relTypeC e' sp' c' t' = (AOk rt, c').
Proof.
  intros e sp c t rt c' H N e' sp' t' E. unfold relTypeC in *. rewrite E.
  destruct (lookup (typeString t) c) as [r|] eqn:L.
  - inversion H; subst. rewrite L. reflexivity.
  - destruct (kept e sp t) as [r|] eqn:K; injection H as H1 H2; subst c'; [|congruence].
    assert (r = rt) by (eapply kept_ok; [exact H1|exact K]). subst r. cbn. rewrite bytes_eqb_refl. reflexivity.
Qed.

Definition stays (c c' : cache) : Prop := forall k rt, lookup k c = Some rt -> lookup k c' = Some rt.

Lemma stays_refl : forall c, stays c c.
Proof. intros c k rt H. exact H. Qed.

Lemma stays_trans : forall a b c, stays a b -> stays b c -> stays a c.
Proof. intros a b c H K k rt L. auto. Qed.

Lemma call_stays : forall e sp c t, stays c (snd (relTypeC e sp c t)).
Proof.
  intros e sp c t k rt H. unfold relTypeC. destruct (lookup (typeString t) c) eqn:L; [exact H|]. cbn [snd].
  destruct (kept e sp t) as [r|]; [|exact H]. cbn. destruct (bytes_eqb k (typeString t)) eqn:E; [|exact H].
  apply bytes_eqb_true in E. congruence.
Qed.

Lemma after_stays : forall A C (x : ares A) c (f : A -> ares C * cache), (forall a, stays c (snd (f a))) -> stays c (snd (after x c f)).
Proof. intros A C x c f H. destruct x; cbn; auto using stays_refl. Qed.

Lemma let_stays : forall A C c (x : ares A * cache) (f : ares A -> cache -> ares C * cache),
  stays c (snd x) -> (forall a c', stays c' (snd (f a c'))) -> stays c (snd (let '(a, c') := x in f a c')).
Proof. intros A C c [x c'] f H K. cbn in *. eapply stays_trans; [exact H|]. apply K. Qed.

Lemma rel_stays : forall e c q v t, stays c (snd (relFieldC e c q v t)).
Proof.
  intros e c q v t. unfold relFieldC. apply after_stays. intros [rid sp]. cbv zeta.
  destruct (_ && _); [apply stays_refl|]. destruct (_ && _); [apply stays_refl|]. destruct (_ && _); [apply stays_refl|].
  apply after_stays. intros [|]; [apply stays_refl|].
  apply let_stays; [apply call_stays|]. intros a c'. apply stays_refl.
Qed.

Lemma rel_pass_stays : forall e fs c q, stays c (snd (rel_passC e c q fs)).
Proof.
  intros e. induction fs as [|[v t] fs IH]; intros c q; cbn [rel_passC]; [apply stays_refl|]. destruct (tag_has _ _); [|apply IH].
  apply let_stays; [apply rel_stays|]. intros a c'. apply after_stays. intros q'. apply IH.
Qed.

Lemma field1_stays : forall e c q v t, stays c (snd (field_pass1C e c q v t)).
Proof.
  intros e c q v t. unfold field_pass1C. destruct (tag_has _ _); [apply stays_refl|]. apply after_stays. intros dir.
  destruct (_ && _); [apply stays_refl|]. destruct (bytes_eqb _ _); [|apply stays_refl].
  unfold resultFieldC. apply after_stays. intros _. apply let_stays; [apply call_stays|]. intros a c'. apply stays_refl.
Qed.

Lemma field_pass_stays : forall e fs c q, stays c (snd (field_passC e c q fs)).
Proof.
  intros e. induction fs as [|[v t] fs IH]; intros c q; cbn [field_passC]; [apply stays_refl|].
  apply let_stays; [apply field1_stays|]. intros a c'. apply after_stays. intros q'. apply IH.
Qed.

Lemma filters_stay : forall e fs c q, stays c (snd (filter_fieldsC e c q fs)).
Proof.
  intros e. induction fs as [|[v t] fs IH]; intros c q; cbn [filter_fieldsC]; [apply stays_refl|].
  apply let_stays; [|intros a c'; apply after_stays; intros q'; apply IH].
  unfold filter_fieldC. cbv zeta. destruct (tag_has _ _); [|apply stays_refl]. apply after_stays. intros [rid sp].
  apply let_stays; [apply call_stays|]. intros a c'. apply stays_refl.
Qed.

Lemma C104_stays_lemma : forall e c name t k rt, lookup k c = Some rt -> lookup k (snd (RunC e c name t)) = Some rt.
Proof.
  intros e c name t. change (stays c (snd (RunC e c name t))). unfold RunC. destruct t; try apply stays_refl. destruct (has_prefix _ _).
  - unfold filterStructC. apply let_stays; [|intros; apply stays_refl]. apply let_stays; [apply filters_stay|]. intros; apply stays_refl.
  - apply let_stays; [|intros; apply stays_refl]. unfold queryStructC. apply after_stays. intros k.
    apply let_stays; [apply rel_pass_stays|]. intros a c'. apply after_stays. intros q. apply field_pass_stays.
Qed.

Lemma sep_last : forall (n n' p p' : bytes), no_dot n = true -> no_dot n' = true -> p ++ B "." ++ n = p' ++ B "." ++ n' -> p = p' /\ n = n'.
Proof.
  intros n n' p p' N N' E. 
  assert (R : rev n ++ "."%char :: rev p = rev n' ++ "."%char :: rev p').
  { apply (f_equal (@rev _)) in E. rewrite !rev_app_distr in E. cbn in E. rewrite <- !app_assoc in E. exact E. }
  assert (X : forall a b : bytes, no_dot (rev a) = true -> no_dot (rev b) = true -> forall x y, a ++ "."%char :: x = b ++ "."%char :: y -> a = b /\ x = y).
  { assert (F : forall a, no_dot (rev a) = true -> ~ In "."%char a).
    { intros a H I. unfold no_dot in H. rewrite forallb_forall in H. specialize (H "."%char). rewrite <- in_rev in H. specialize (H I). discriminate H. }
    intros a. induction a as [|c a IH]; intros [|c' b] Ha Hb x y H; cbn in H.
    - inversion H. auto.
    - inversion H; subst. exfalso. apply (F ("."%char :: b) Hb). left. reflexivity.
    - inversion H; subst. exfalso. apply (F ("."%char :: a) Ha). left. reflexivity.
    - inversion H; subst. destruct (IH b) with (x := x) (y := y) as [-> ->]; auto.
      + unfold no_dot in *. cbn in Ha. rewrite forallb_app in Ha. apply andb_prop in Ha. apply Ha.
      + unfold no_dot in *. cbn in Hb. rewrite forallb_app in Hb. apply andb_prop in Hb. apply Hb. }
  destruct (X (rev n) (rev n')) with (x := rev p) (y := rev p') as [A C]; [rewrite rev_involutive; exact N|rewrite rev_involutive; exact N'|exact R|].
  split; [rewrite <- (rev_involutive p), C; apply rev_involutive|rewrite <- (rev_involutive n), A; apply rev_involutive].
Qed.

Definition len_text (k : Z) : bytes := list_ascii_of_string (NilEmpty.string_of_int (Z.to_int k)).

Lemma len_inj : forall k k', len_text k = len_text k' -> k = k'.
Proof.
  intros k k' H. unfold len_text in H. apply (f_equal string_of_list_ascii) in H. rewrite !string_of_list_ascii_of_string in H.
  apply (f_equal NilEmpty.int_of_string) in H. rewrite !NilEmpty.isi in H. injection H as H.
  rewrite <- (DecimalZ.of_to k), <- (DecimalZ.of_to k'), H. reflexivity.
Qed.

Lemma uint_bracket : forall d, ~ In "]"%char (list_ascii_of_string (NilEmpty.string_of_uint d)).
Proof. induction d; cbn; intros [H|H] || intros H; try discriminate H; try contradiction; auto. Qed.

Lemma len_bracket : forall k, ~ In "]"%char (len_text k).
Proof.
  intros k. unfold len_text. destruct (Z.to_int k) as [d|d]; cbn; [apply uint_bracket|].
  intros [H|H]; [discriminate H|]. exact (uint_bracket d H).
Qed.

Lemma uint_nil : forall d, list_ascii_of_string (NilEmpty.string_of_uint d) = [] -> d = Nil.
Proof. destruct d; cbn; intros H; try discriminate H; reflexivity. Qed.

Lemma len_nil : forall k, len_text k <> [].
Proof.
  intros k H. unfold len_text in H. destruct (Z.to_int k) as [d|d] eqn:E; cbn in H; [|discriminate H].
  apply uint_nil in H. subst d. destruct k; cbn in E; try discriminate E; inversion E as [E1]. 
  pose proof (DecimalPos.Unsigned.to_uint_nonnil p) as X. congruence.
Qed.

Lemma bracket_split : forall a b x y : bytes, ~ In "]"%char a -> ~ In "]"%char b -> a ++ "]"%char :: x = b ++ "]"%char :: y -> a = b /\ x = y.
Proof.
  induction a as [|c a IH]; intros [|c' b] x y A C H; cbn in H; inversion H; subst; auto.
  - exfalso. apply C. left. reflexivity.
  - exfalso. apply A. left. reflexivity.
  - destruct (IH b x y) as [-> ->]; auto; intros I; [apply A|apply C]; right; exact I.
Qed.

Lemma C104_key_lemma : forall t t', declared t -> declared t' -> (typeString t = typeString t' <-> same_name t t').
Proof.
  intros t t' D. revert t'. induction D as [n u c p a N C1 C2 Dn|u D IH|u D IH|k u D IH]; intros t' D'.
  - split.
    + intros H. destruct D' as [n' u' c' p' a' N' C1' C2' Dn'|u' D'|u' D'|k' u' D']; cbn in H; unfold nameString in H; rewrite ?N, ?N' in H; cbn [app] in H.
      * destruct (sep_last (n_name n) (n_name n') (c :: p) (c' :: p') Dn Dn' H) as [Ep En]. eapply sn_named; [exact N| |exact En]. rewrite N'. rewrite Ep. reflexivity.
      * cbn in H. injection H as H _. contradiction.
      * cbn in H. injection H as H _. contradiction.
      * cbn in H. injection H as H _. contradiction.
    + intros H. inversion H as [? ? ? ? q b b' E1 E2 E3| | |]; subst. cbn. unfold nameString. rewrite E1, E2, E3. reflexivity.
  - split.
    + intros H. destruct D' as [n' u' c' p' a' N' C1' C2' Dn'|u' D'|u' D'|k' u' D']; cbn in H; unfold nameString in H; rewrite ?N' in H; cbn [app] in H; try discriminate H.
      * cbn in H. injection H as H _. congruence.
      * apply sn_ptr. apply IH; [exact D'|]. injection H as H. exact H.
    + intros H. inversion H as [|? ? S1| |]; subst. inversion D'; subst. cbn. f_equal. apply IH; assumption.
  - split.
    + intros H. destruct D' as [n' u' c' p' a' N' C1' C2' Dn'|u' D'|u' D'|k' u' D']; cbn in H; unfold nameString in H; rewrite ?N' in H; cbn [app] in H; try discriminate H.
      * cbn in H. injection H as H _. congruence.
      * apply sn_slice. apply IH; [exact D'|]. injection H as H. exact H.
      * exfalso. fold (len_text k') in H. injection H as H. apply (len_nil k').
        destruct (bracket_split [] (len_text k') (typeString u) (typeString u')) as [X _]; [intros []|apply len_bracket|exact H|auto].
    + intros H. inversion H as [| |? ? S1|]; subst. inversion D'; subst. cbn. do 2 f_equal. apply IH; assumption.
  - split.
    + intros H. destruct D' as [n' u' c' p' a' N' C1' C2' Dn'|u' D'|u' D'|k' u' D']; cbn in H; unfold nameString in H; rewrite ?N' in H; cbn [app] in H; try discriminate H.
      * cbn in H. injection H as H _. congruence.
      * exfalso. fold (len_text k) in H. injection H as H. apply (len_nil k).
        destruct (bracket_split (len_text k) [] (typeString u) (typeString u')) as [X _]; [apply len_bracket|intros []|exact H|auto].
      * fold (len_text k) (len_text k') in H. injection H as H.
        destruct (bracket_split (len_text k) (len_text k') (typeString u) (typeString u')) as [X Y]; [apply len_bracket|apply len_bracket|exact H|].
        apply len_inj in X. subst k'. apply sn_array. apply IH; assumption.
    + intros H. inversion H as [| | |? ? ? S1]; subst. inversion D'; subst. cbn. do 3 f_equal. apply IH; assumption.
Qed.

Definition w_cfg : env := Analysis.MkEnv [] (B "") (B "") false.

Definition w_in (p n : bytes) (u : gtype) : gtype := TNamed (MkName n (Some (p, p)) no_flags false false false false) u.

Definition w_fld (n : bytes) (ex : bool) (col : bytes) (k : basic) : fvar * gtype := (MkVar n ex false [(B "sql", [col])], TBasic k false false).

Definition w_query (p n : bytes) (rel : bytes) (t : gtype) : target :=
  MkTarget p n (TStruct [(MkVar (B "Rel") true false [(B "rel", [rel])], t)]).

Definition w_user : gtype := w_in (B "store") (B "User")
  (TStruct [w_fld (B "Id") true (B "id") BInt; w_fld (B "hash") false (B "hash") BString]).

Definition w_qual : gtype := w_in (B "store") (B "User") (TStruct [w_fld (B "Id") true (B "u.id") BInt]).

Definition w_bad : gtype := w_in (B "store") (B "User")
  (TStruct [w_fld (B "Id") true (B "id") BInt; w_fld (B "Mail") true (B "e mail") BString; w_fld (B "Age") true (B "age") BInt]).

Definition ex_post : gtype := w_in (B "store") (B "Post") (TStruct [w_fld (B "Id") true (B "p.id") BInt]).

(** The record type of the field with the tag rel *)
Definition rec_of (x : ares (qstate + fstate)) : option RelType :=
  match x with AOk (inl q) => option_map rf_type (q_rel q) | AOk (inr f) => option_map rf_type (fs_rel f) | _ => None end.

Definition imported_of (x : ares (qstate + fstate)) : option bool := option_map (fun r => t_imported (rt_base r)) (rec_of x).

Definition fields_of (x : ares (qstate + fstate)) : option (list bytes) := option_map (fun r => map fi_name (rt_fields r)) (rec_of x).

Lemma w_uses : forall p n rel t t', uses (w_query p n rel t) t' -> t' = t.
Proof. intros p n rel t t' (fs & v & E & I & _). injection E as E. subst fs. destruct I as [I|[]]. congruence. Qed.

Lemma w_one_type : forall p1 n1 r1 p2 n2 r2 t, one_type_per_name [w_query p1 n1 r1 t; w_query p2 n2 r2 t].
Proof.
  intros p1 n1 r1 p2 n2 r2 t g1 g2 t1 t2 I1 I2 U1 U2 _ _.
  destruct I1 as [<-|[<-|[]]]; destruct I2 as [<-|[<-|[]]]; apply w_uses in U1; apply w_uses in U2; congruence.
Qed.

Lemma w_one_pkg : forall p n1 r1 n2 r2 t, one_package_per_type [w_query p n1 r1 t; w_query p n2 r2 t].
Proof. intros p n1 r1 n2 r2 t g1 g2 t1 I1 I2 _ _ _. destruct I1 as [<-|[<-|[]]]; destruct I2 as [<-|[<-|[]]]; reflexivity. Qed.

Lemma w_unq : forall p1 n1 r1 p2 n2 r2 t, no_dots t = true -> unqualified [w_query p1 n1 r1 t; w_query p2 n2 r2 t].
Proof. intros p1 n1 r1 p2 n2 r2 t N g t1 I U. destruct I as [<-|[<-|[]]]; apply w_uses in U; subst; exact N. Qed.

Lemma C104_packages_refuted_lemma : exists cfg g1 g2,
  one_type_per_name [g1; g2] /\ unqualified [g1; g2]
  /\ map imported_of (alone cfg [g1; g2]) = [Some false; Some true]
  /\ map fields_of (alone cfg [g1; g2]) = [Some [B "Id"; B "hash"]; Some [B "Id"]]
  /\ map imported_of (session cfg [] [g1; g2]) = [Some false; Some false]
  /\ map fields_of (session cfg [] [g1; g2]) = [Some [B "Id"; B "hash"]; Some [B "Id"; B "hash"]]
  /\ map imported_of (session cfg [] [g2; g1]) = [Some true; Some true]
  /\ map fields_of (session cfg [] [g2; g1]) = [Some [B "Id"]; Some [B "Id"]].
Proof.
  exists w_cfg, (w_query (B "store") (B "SelectUser") (B "users") w_user), (w_query (B "web") (B "SelectUser") (B "users") w_user).
  split; [apply w_one_type|]. split; [apply w_unq; vm_compute; reflexivity|].
  repeat (split; [vm_compute; reflexivity|]). vm_compute; reflexivity.
Qed.

Lemma C104_qualifier_refuted_lemma : exists cfg g1 g2,
  one_type_per_name [g1; g2] /\ one_package_per_type [g1; g2]
  /\ alone cfg [g2] = [AErr (EC EUnknownQualifier)]
  /\ map fields_of (session cfg [] [g1; g2]) = [Some [B "Id"]; Some [B "Id"]]
  /\ session cfg [] [g2; g1] = [AErr (EC EUnknownQualifier)].
Proof.
  exists w_cfg, (w_query (B "store") (B "SelectUser") (B "users:u") w_qual), (w_query (B "store") (B "SelectOther") (B "users:x") w_qual).
  split; [apply w_one_type|]. split; [apply w_one_pkg|].
  repeat (split; [vm_compute; reflexivity|]). vm_compute; reflexivity.
Qed.

Lemma C104_failure_refuted_lemma : exists cfg g1 g2 e,
  one_type_per_name [g1; g2] /\ one_package_per_type [g1; g2] /\ unqualified [g1; g2]
  /\ alone cfg [g1] = [AErr e] /\ alone cfg [g2] = [AErr e]
  /\ exists x, analyses cfg [] [g1; g2] = [AErr e; x] /\ fields_of x = Some [B "Id"].
Proof.
  exists w_cfg, (w_query (B "store") (B "SelectUser") (B "users:u") w_bad), (w_query (B "store") (B "SelectOther") (B "users:u") w_bad), (EC EBadColId).
  split; [apply w_one_type|]. split; [apply w_one_pkg|]. split; [apply w_unq; vm_compute; reflexivity|].
  split; [vm_compute; reflexivity|]. split; [vm_compute; reflexivity|].
  eexists. split; [vm_compute; reflexivity|vm_compute; reflexivity].
Qed.

Lemma C104_transparent_proof : forall cfg l, NoDup l -> one_type_per_name l -> one_package_per_type l -> own_qualifiers l ->
  session cfg [] l = alone cfg l.
Proof. exact C104_transparent_lemma. Qed.

Lemma C104_single_proof : forall cfg g, one_type_per_name [g] -> session cfg [] [g] = alone cfg [g].
Proof. exact C104_single_lemma. Qed.

Lemma C104_once_proof : forall e sp c t rt c', relTypeC e sp c t = (AOk rt, c') -> lookup (typeString t) c' <> None ->
  forall e' sp' t', typeString t' = typeString t -> relTypeC e' sp' c' t' = (AOk rt, c').
Proof. exact C104_once_lemma. Qed.

Lemma C104_stays_proof : forall e c name t k rt, lookup k c = Some rt -> lookup k (snd (RunC e c name t)) = Some rt.
Proof. exact C104_stays_lemma. Qed.

Lemma C104_key_proof : forall t t', declared t -> declared t' -> (typeString t = typeString t' <-> same_name t t').
Proof. exact C104_key_lemma. Qed.

Lemma C104_packages_refuted_proof : exists cfg g1 g2,
  one_type_per_name [g1; g2] /\ unqualified [g1; g2]
  /\ map imported_of (alone cfg [g1; g2]) = [Some false; Some true]
  /\ map fields_of (alone cfg [g1; g2]) = [Some [B "Id"; B "hash"]; Some [B "Id"]]
  /\ map imported_of (session cfg [] [g1; g2]) = [Some false; Some false]
  /\ map fields_of (session cfg [] [g1; g2]) = [Some [B "Id"; B "hash"]; Some [B "Id"; B "hash"]]
  /\ map imported_of (session cfg [] [g2; g1]) = [Some true; Some true]
  /\ map fields_of (session cfg [] [g2; g1]) = [Some [B "Id"]; Some [B "Id"]].
Proof. exact C104_packages_refuted_lemma. Qed.

Lemma C104_qualifier_refuted_proof : exists cfg g1 g2,
  one_type_per_name [g1; g2] /\ one_package_per_type [g1; g2]
  /\ alone cfg [g2] = [AErr (EC EUnknownQualifier)]
  /\ map fields_of (session cfg [] [g1; g2]) = [Some [B "Id"]; Some [B "Id"]]
  /\ session cfg [] [g2; g1] = [AErr (EC EUnknownQualifier)].
Proof. exact C104_qualifier_refuted_lemma. Qed.

Lemma C104_failure_refuted_proof : exists cfg g1 g2 e,
  one_type_per_name [g1; g2] /\ one_package_per_type [g1; g2] /\ unqualified [g1; g2]
  /\ alone cfg [g1] = [AErr e] /\ alone cfg [g2] = [AErr e]
  /\ exists x, analyses cfg [] [g1; g2] = [AErr e; x] /\ fields_of x = Some [B "Id"].
Proof. exact C104_failure_refuted_lemma. Qed.

(** Two structs with one record type, and one with a type of its own whose column
    has a qualifier; the second one finds the type of the first. *)
Definition ex_targets : list target :=
  [w_query (B "store") (B "SelectUser") (B "users:u") w_user; w_query (B "store") (B "InsertUser") (B "users:x") w_user;
   w_query (B "store") (B "SelectPost") (B "posts:p") ex_post].
