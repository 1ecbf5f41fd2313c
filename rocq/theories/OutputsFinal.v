(** Definitions and proofs used by PropsOutputs.v. *)
From Coq Require Import Ascii String ZArith NArith Bool List Lia.
From Verif Require Import GoBase AParse PgSpec AParseProofs Analysis AnalysisSpec QuerySpec AnalysisProofs AnalysisRoles QuerySlots QueryFinal PropsQuery Oids Compat Gen GenOut GenOutSpec GenOutTree GenOutRun GenRFinal GenSpec Check ConvertProofs CheckSpec CheckProofs ColsFinal Accepted CheckEx.
Import ListNotations.
Local Open Scope string_scope.
Local Open Scope list_scope.

(** The shape of a record type: a struct, or a pointer to one, whose tag starts
    with [>] is part of the record; other fields hold single values. *)
Definition part (v : fvar) (t : gtype) (fs : fields) : Prop := record_type t fs /\ exists p o, sql_tag v (">"%char :: p) o.

Inductive shape : fields -> list (bytes * rty) -> Prop :=
| sh_nil : shape [] []
| sh_part : forall v t fs ts fs' us b, part v t fs' -> (b = true <-> exists u, under t (TPtr u)) ->
    shape fs' us -> shape fs ts -> shape ((v, t) :: fs) ((v_name v, RStruct b us) :: ts)
| sh_value : forall v t fs ts, (forall fs', ~ part v t fs') -> shape fs ts -> shape ((v, t) :: fs) ((v_name v, RScal) :: ts).

(** The structs inside of a struct. *)
Inductive inside (root : fields) : fields -> Prop :=
| in_root : inside root root
| in_part : forall fs v t fs', inside root fs -> In (v, t) fs -> record_type t fs' -> inside root fs'.

(** Go: the fields of a struct have different names, unless they are blank. *)
Definition named (f : fvar * gtype) : bool := negb (bytes_eqb (v_name (fst f)) (lit "_")).

Definition go_struct (root : fields) : Prop :=
  forall fs, inside root fs -> NoDup (map (fun f => v_name (fst f)) (filter named fs)).

Lemma record_det : forall t fs fs', record_type t fs -> record_type t fs' -> fs = fs'.
Proof.
  intros t fs fs' [U|(u & U & V)] [U'|(u' & U' & V')].
  - pose proof (under_det _ _ _ U U') as E. now injection E.
  - pose proof (under_det _ _ _ U U') as E. discriminate E.
  - pose proof (under_det _ _ _ U U') as E. discriminate E.
  - pose proof (under_det _ _ _ U U') as E. injection E as <-. pose proof (under_det _ _ _ V V') as E. now injection E.
Qed.

Lemma pointer_kind : forall t, kind_ptr (analyzeTypeKind t) = true <-> exists x, under t (TPtr x).
Proof.
  intros t. split.
  - induction t as [k a r|n t IH|t IH|t IH|k IHk t IH|t IH|ps rs|ms a r c|fs|n u IH]; cbn; try discriminate.
    + intros _. exists t. apply un_plain. discriminate.
    + intros H. destruct (IH H) as (x & U). exists x. now apply un_named.
  - intros (x & U). remember (TPtr x) as r eqn:R. revert R. induction U; intros ->; auto.
Qed.

Lemma part_dec : forall v t, {fs | part v t fs} + {forall fs, ~ part v t fs}.
Proof.
  intros v t. destruct (has_prefix (B ">") (tag_first (v_tag v) (B "sql"))) eqn:P.
  - assert (D : {fs | record_type t fs} + {forall fs, ~ record_type t fs}).
    { assert (U : forall t, {r | under t r}).
      { clear. induction t as [k a r|n t IH|t IH|t IH|k IHk t IH|t IH|ps rs|ms a r c|fs|n u IH]; try (eexists; apply un_plain; discriminate).
        destruct IH as (r & U). exists r. now apply un_named. }
      destruct (U t) as (r & R). destruct r as [| | |u| | | | |fs|]; try (right; intros fs [F|(x & F & _)]; pose proof (under_det _ _ _ R F) as E; discriminate E).
      - destruct (U u) as (r & V). destruct r as [| | | | | | | |fs|];
          try (right; intros fs [F|(x & F & G)]; pose proof (under_det _ _ _ R F) as E; [discriminate E|injection E as <-; pose proof (under_det _ _ _ V G) as E; discriminate E]).
        left. exists fs. right. exists u. auto.
      - left. exists fs. now left. }
    destruct D as [(fs & R)|N]; [left; exists fs|right; intros fs [R _]; now apply (N fs)].
    split; auto. unfold tag_first in P. destruct (tag_get (v_tag v) (B "sql")) as [|s o] eqn:G; [discriminate|].
    assert (T : sql_tag v s o). { apply sql_tag_spec. unfold tag_first. now rewrite G. }
    destruct s as [|c p]; [discriminate|]. apply has_prefix_spec in P. destruct P as (p' & E). injection E as <-  <-. eauto.
  - right. intros fs [_ (p & o & T)]. apply sql_tag_spec in T. destruct T as [T _]. rewrite T in P. discriminate.
Qed.

Lemma shape_ex : forall fs, exists ts, shape fs ts.
Proof.
  assert (K : forall n fs, (fsize fs <= n)%nat -> exists ts, shape fs ts).
  { induction n as [n IH] using lt_wf_ind. intros fs L. induction fs as [|[v t] fs IHfs]; [exists []; constructor|].
    assert (L' : (S (tsize t) + fsize fs <= n)%nat) by (revert L; unfold fsize, list_sum; cbn [map fold_right]; lia).
    destruct IHfs as (ts & S1); [lia|]. destruct (part_dec v t) as [(fs' & P)|N].
    - pose proof (record_size _ _ (proj1 P)). destruct (IH (tsize t)) with (fs := fs') as (us & S2); [lia|auto|].
      exists ((v_name v, RStruct (kind_ptr (analyzeTypeKind t)) us) :: ts). eapply sh_part; eauto. apply pointer_kind.
    - exists ((v_name v, RScal) :: ts). now apply sh_value. }
  intros fs. eapply K. apply le_n.
Qed.

Lemma shape_names : forall fs ts, shape fs ts -> map fst ts = map (fun f => v_name (fst f)) fs.
Proof. induction 1; cbn; congruence. Qed.

Lemma look_shape : forall fs ts, shape fs ts -> NoDup (map (fun f => v_name (fst f)) (filter named fs)) ->
  forall v t, In (v, t) fs -> v_name v <> lit "_" ->
  ((forall fs', ~ part v t fs') -> look (v_name v) ts = Some RScal)
  /\ (forall fs', part v t fs' -> exists b us, look (v_name v) ts = Some (RStruct b us) /\ shape fs' us /\ (b = true <-> exists u, under t (TPtr u))).
Proof.
  induction 1 as [|v0 t0 fs ts fs0 us b P Pb H1 IH1 H2 IH2|v0 t0 fs ts N0 H IH]; intros ND v t I NB; [destruct I| |].
  - cbn [look]. destruct I as [E|I].
    + injection E as -> ->. rewrite bytes_eqb_refl. split; [intros N; now apply N in P|]. intros fs' P'. rewrite (record_det _ _ _ (proj1 P') (proj1 P)). eauto.
    + assert (NN : bytes_eqb (v_name v0) (v_name v) = false).
      { apply bytes_eqb_neq. intros E. cbn [filter] in ND. unfold named at 1 in ND. cbn [fst] in ND. rewrite E in ND.
        destruct (bytes_eqb (v_name v) (lit "_")) eqn:X; [now apply bytes_eqb_eq in X|]. cbn [negb map] in ND. inversion ND as [|? ? NI _]. apply NI. cbn [fst].
        rewrite E. apply in_map_iff. exists (v, t). split; auto. apply filter_In. split; auto. unfold named. cbn [fst]. now rewrite X. }
      rewrite NN. apply IH2; auto. cbn [filter] in ND. destruct (named (v0, t0)); auto. now inversion ND.
  - cbn [look]. destruct I as [E|I].
    + injection E as -> ->. rewrite bytes_eqb_refl. split; auto. intros fs' P'. now apply N0 in P'.
    + assert (NN : bytes_eqb (v_name v0) (v_name v) = false).
      { apply bytes_eqb_neq. intros E. cbn [filter] in ND. unfold named at 1 in ND. cbn [fst] in ND. rewrite E in ND.
        destruct (bytes_eqb (v_name v) (lit "_")) eqn:X; [now apply bytes_eqb_eq in X|]. cbn [negb map] in ND. inversion ND as [|? ? NI _]. apply NI. cbn [fst].
        rewrite E. apply in_map_iff. exists (v, t). split; auto. apply filter_In. split; auto. unfold named. cbn [fst]. now rewrite X. }
      rewrite NN. apply IH; auto. cbn [filter] in ND. destruct (named (v0, t0)); auto. now inversion ND.
Qed.

Fixpoint at_sel (t : rty) (sel : list selnode) (us : list (bytes * rty)) : Prop :=
  match t with
  | RScal => False
  | RStruct _ ts =>
      match sel with
      | [] => ts = us
      | n :: r => exists xs, look (sn_name n) ts = Some (RStruct (sn_ptr n) xs) /\ at_sel (RStruct (sn_ptr n) xs) r us
      end
  end.

Lemma at_sel_leaf : forall sel b ts us n, at_sel (RStruct b ts) sel us -> look n us = Some RScal -> in_type (RStruct b ts) sel n.
Proof.
  induction sel as [|x sel IH]; intros b ts us n A L; cbn in *; [now subst|]. destruct A as (xs & E & A). exists xs. split; auto. eapply IH; eauto.
Qed.

Lemma at_sel_snoc : forall sel b ts us n xs, at_sel (RStruct b ts) sel us -> look (sn_name n) us = Some (RStruct (sn_ptr n) xs) -> at_sel (RStruct b ts) (sel ++ [n]) xs.
Proof.
  induction sel as [|x sel IH]; intros b ts us n xs A L; cbn in *; [subst; eauto|]. destruct A as (ys & E & A). exists ys. split; auto. eapply IH; eauto.
Qed.

Definition in_shape (ts : list (bytes * rty)) (f : FieldInfo) : Prop := in_type (RStruct false ts) (fi_sel f) (fi_name f).

Definition frame_in (root : fields) (ts : list (bytes * rty)) (fr : frame) : Prop :=
  exists all us, inside root all /\ incl (fr_fields fr) all /\ shape all us /\ at_sel (RStruct false ts) (fr_sel fr) us.

Lemma step_in : forall e sp root ts fr v t fs s, go_struct root -> fr_fields fr = (v, t) :: fs -> frame_in root ts fr -> field_step e sp fr v t = AOk s ->
  match s with FSkip => True | FDescend f => frame_in root ts f | FLeaf f => in_shape ts f end.
Proof.
  intros e sp root ts fr v t fs s LE FF (all & us & IA & I & SH & AS) H. assert (IN : In (v, t) all) by (apply I; rewrite FF; now left). unfold field_step in H.
  match type of H with (if ?c then _ else _) = _ => destruct c eqn:PO end. { aok. now subst. }
  assert (NB : v_name v <> lit "_"). { intros E. rewrite E in PO. rewrite bytes_eqb_refl in PO. rewrite orb_true_r in PO. discriminate. }
  destruct (look_shape _ _ SH (LE _ IA) _ _ IN NB) as [LV LP].
  cbv zeta in H. aok. rename x into i, y into base. destruct (ati_is_struct _ _ _ _ E) as [IS BS]. pose proof (ati_kind _ _ _ _ E) as KI.
  destruct (is_struct i && has_prefix (B ">") (tag_first (v_tag v) (B "sql")))%bool eqn:D.
  - apply andb_prop in D. destruct D as [D1 D2]. apply IS in D1. destruct D1 as (fs' & R). rewrite (BS _ R) in K. aok. subst.
    assert (P : part v t fs').
    { split; auto. destruct (tag_first (v_tag v) (B "sql")) as [|c p] eqn:TF; [discriminate|]. apply has_prefix_spec in D2. destruct D2 as (p' & E2). injection E2 as -> ->.
      unfold tag_first in TF. destruct (tag_get (v_tag v) (B "sql")) as [|s o] eqn:G; [discriminate|]. subst s. exists p', o. apply sql_tag_spec. unfold tag_first. now rewrite G. }
    destruct (LP _ P) as (b & xs & L & S' & PB). exists fs', xs. cbn [fr_fields fr_sel]. split; [eapply in_part; eauto|]. split; [apply incl_refl|]. split; auto.
    eapply at_sel_snoc; eauto. unfold make_node. cbn [sn_name sn_ptr]. rewrite L. f_equal. f_equal. rewrite KI. apply Bool.eq_iff_eq_true. rewrite PB. symmetry. apply pointer_kind.
  - aok. destruct (parseCoalesceInfo (v_tag v)) as [co cv] eqn:CO. aok. subst s. unfold in_shape. cbn [fi_sel fi_name]. eapply at_sel_leaf; eauto. apply LV.
    intros fs' [R (p & o & T)]. apply sql_tag_spec in T. destruct T as [T _]. rewrite T in D. rewrite (proj2 IS) in D by eauto. discriminate.
Qed.

Lemma loop_in : forall n e sp root ts st out r, go_struct root -> fields_loop n e sp st out = AOk r -> Forall (frame_in root ts) st -> Forall (in_shape ts) out -> Forall (in_shape ts) r.
Proof.
  induction n as [|n IH]; intros e sp root ts st out r LE H FS FO; [discriminate|]. cbn [fields_loop] in H. destruct st as [|fr st]; [aok; now subst|].
  inversion FS as [|? ? G FS']; subst. destruct (fr_fields fr) as [|[v t] fs] eqn:F; [eapply IH; eauto|].
  cbv zeta in H. aok. pose proof (step_in _ _ _ _ _ _ _ _ _ LE F G E) as SG.
  assert (G' : frame_in root ts (MkFrame fs (fr_imported fr) (fr_pfx fr) (fr_sel fr))).
  { destruct G as (all & us & A1 & A2 & A3 & A4). exists all, us. split; auto. split; auto. rewrite F in A2. intros x I. apply A2. now right. }
  destruct a as [|f|f]; eapply IH; eauto. apply Forall_app. split; auto.
Qed.

Definition path_of (x : list fvar * fvar * (text * text)) : list bytes := let '(p, v, _) := x in map v_name p ++ [v_name v].

Lemma NoDup_app_intro : forall A (l m : list A), NoDup l -> NoDup m -> (forall x, In x l -> ~ In x m) -> NoDup (l ++ m).
Proof.
  induction l as [|a l IH]; intros m L M D; auto. inversion L; subst. cbn. constructor.
  - intros I. apply in_app_or in I. destruct I as [I|I]; auto. apply (D a); cbn; auto.
  - apply IH; auto. intros x I. apply D. now right.
Qed.

Lemma inside_trans : forall a b, inside a b -> forall c, inside b c -> inside a c.
Proof. intros a b H c I. induction I as [|x v t y I IH J R]; auto. eapply in_part; eauto. Qed.

Lemma blank_passed : forall f v, ~ passed_over f v -> v_name v <> lit "_".
Proof. intros f v N E. apply N. unfold passed_over. auto. Qed.

Lemma columns_paths : forall pkg sc f pfx path fs l, columns pkg sc f pfx path fs l ->
  NoDup (map (fun f => v_name (fst f)) (filter named fs)) -> (forall v t fs', In (v, t) fs -> record_type t fs' -> go_struct fs') ->
  NoDup (map path_of l) /\ forall x, In x l -> exists v t rest, In (v, t) fs /\ v_name v <> lit "_" /\ path_of x = map v_name path ++ v_name v :: rest.
Proof.
  assert (LI : forall fs' v t g, go_struct fs' -> In (v, t) fs' -> record_type t g -> go_struct g).
  { intros fs' v t g L I R x IX. apply L. eapply inside_trans; [|exact IX]. eapply in_part; eauto. constructor. }
  assert (TL : forall v t fs, NoDup (map (fun f => v_name (fst f)) (filter named ((v, t) :: fs))) -> v_name v <> lit "_" ->
     NoDup (map (fun f => v_name (fst f)) (filter named fs)) /\ forall w u, In (w, u) fs -> v_name w <> v_name v).
  { intros v t fs ND NB. cbn [filter] in ND. assert (X : named (v, t) = true) by (unfold named; cbn; now apply negb_true_iff, bytes_eqb_neq). rewrite X in ND.
    inversion ND as [|? ? NI ND']; subst. split; auto. intros w u I E. apply NI. cbn [fst]. rewrite <- E. apply in_map_iff. exists (w, u). split; auto. apply filter_In. split; auto.
    unfold named. cbn [fst]. rewrite E. exact X. }
  intros pkg sc f pfx path fs l H.
  induction H as [f pfx path|f pfx path v t fs l PO H IH|f pfx path v t fs l s o q n NP PK T NR C O H IH|f pfx path v t fs l p o fs' f' l' NP PK T R F O H1 IH1 H2 IH2]; intros ND LE.
  - split; [constructor|intros x []].
  - destruct IH as [A C]. { cbn [filter] in ND. destruct (named (v, t)); auto. now inversion ND. } { intros a b g I; apply (LE a b g); now right. }
    split; auto. intros x I. destruct (C x I) as (w & u & r & I' & E). exists w, u, r. split; auto. now right.
  - apply blank_passed in NP. destruct (TL _ _ _ ND NP) as [ND' NE]. destruct IH as [A D]; auto. { intros a b g I; apply (LE a b g); now right. }
    split.
    + cbn [map]. constructor; auto. intros I. apply in_map_iff in I. destruct I as (x & E & I). destruct (D x I) as (w & u & r & I' & _ & E'). rewrite E in E'. cbn [path_of] in E'.
      apply app_inv_head in E'. injection E' as E' _. now apply (NE w u).
    + intros x [<-|I]. { exists v, t, []. cbn. auto. } destruct (D x I) as (w & u & r & I' & E). exists w, u, r. split; auto. now right.
  - apply blank_passed in NP. destruct (TL _ _ _ ND NP) as [ND' NE]. assert (L' : go_struct fs') by (apply (LE v t fs'); auto; now left).
    destruct IH1 as [A1 D1]; [apply L'; constructor|intros; eapply LI; eauto|]. destruct IH2 as [A2 D2]; auto. { intros a b g I; apply (LE a b g); now right. }
    assert (D1' : forall x, In x l' -> exists rest, path_of x = map v_name path ++ v_name v :: rest).
    { intros x I. destruct (D1 x I) as (w & u & r & _ & _ & E). rewrite map_app, <- app_assoc in E. exists (v_name w :: r). exact E. }
    split.
    + rewrite map_app. apply NoDup_app_intro; auto. intros x I1 I2. apply in_map_iff in I1. destruct I1 as (y & <- & I1). apply in_map_iff in I2. destruct I2 as (z & E & I2).
      destruct (D1' y I1) as (r1 & E1). destruct (D2 z I2) as (w & u & r2 & I' & _ & E2). rewrite E, E1 in E2. apply app_inv_head in E2. injection E2 as E2 _. symmetry in E2. now apply (NE w u) in E2.
    + intros x I. apply in_app_or in I. destruct I as [I|I].
      * destruct (D1' x I) as (r & E). exists v, t, r. split; [now left|auto].
      * destruct (D2 x I) as (w & u & r & I' & E). exists w, u, r. split; auto. now right.
Qed.

Lemma described_paths : forall l l', Forall2 AnalysisProofs.describes l l' -> map path_of l = map sel_path l'.
Proof.
  induction 1 as [|[[p v] [q n]] f l l' D F IH]; auto. cbn [map]. rewrite IH. f_equal. destruct D as (D1 & _ & D2 & _). unfold sel_path. cbn [path_of]. now rewrite D1, D2.
Qed.

(** How the records are held. *)
Definition held (h : holding) (rt : RelType) : Prop :=
  rt_ptr rt = h_ptr h /\ rt_slice rt = h_slice h /\ rt_iter rt = is_some (h_iter h) /\ rt_array rt = is_some (h_array h).

Lemma C95_record_proof : forall e sp t rt, analyzeRelType e sp t = AOk rt ->
  exists n fs h, record_of (e_pkg e) t n fs h /\ held h rt /\ (go_struct fs ->
    NoDup (map sel_path (rt_fields rt))
    /\ forall ts f, shape fs ts -> In f (rt_fields rt) -> in_type (RStruct false ts) (fi_sel f) (fi_name f)).
Proof.
  intros e sp t rt H. apply rel_type_sound in H. destruct H as (n & fs & h & R & N & F). exists n, fs, h. split; auto. apply finish_ok in F.
  destruct F as (fs' & l' & E & _ & L & ->). injection E as <-. split; [repeat split|]. intros LE. cbn [rt_fields]. split.
  - apply fields_sound in L. destruct L as (l & C & D). rewrite <- (described_paths _ _ D). eapply columns_paths; eauto. { apply LE. constructor. }
    intros v u g I RT x IX. apply LE. eapply inside_trans; [|exact IX]. eapply in_part; eauto. constructor.
  - intros ts f SH I. unfold analyzeFieldInfoList in L. eapply loop_in with (root := fs) (ts := ts) in L; auto.
    + rewrite Forall_forall in L. now apply L.
    + constructor; auto. exists fs, ts. cbn [fr_fields fr_sel]. split; [constructor|]. split; [apply incl_refl|]. split; auto. reflexivity.
Qed.

Lemma C95_shape_proof : forall fs, exists ts, shape fs ts.
Proof. exact shape_ex. Qed.

(** The field the query stores its rows in, and the struct its records are. *)
Definition output (e : env) (fs : fields) (q : qstate) (rfs : fields) (h : holding) : Prop :=
  exists v u n, In (v, u) fs /\ v_name v = out_field q /\ record_of (e_pkg e) u n rfs h /\ held h (out_type q).

(** No column is to be returned twice. *)
Definition returned_once (q : qstate) : Prop :=
  forall l, q_return q = Some l -> l_all l = false -> NoDup (map c_col (l_items l)).

Lemma query_result_type : forall e name fs q r, analyzeQueryStruct e name fs = AOk q -> plain_names fs -> q_result q = Some r ->
  exists v t sp, In (v, t) fs /\ v_name v = rs_name r /\ analyzeRelType e sp t = AOk (rs_type r).
Proof.
  intros e name fs q l H P W.
  destruct (query_slot e name fs q H P q_result [RResult] l un_result ltac:(start_none) ltac:(no_role) ltac:(no_role) W) as (v & t & q1 & q2 & A1 & A2 & A3 & A4 & _ & AR & A5).
  apply step_ran in A2. this_one. match goal with X : analyzeResultField _ _ _ _ = _ |- _ => unfold analyzeResultField in X end. aok. subst. cbn in A3. injection A3 as <-.
  exists v, t, (q_sp q1). destruct A1 as (f1 & f2 & r & -> & _). conjs; auto. apply in_or_app. right. now left.
Qed.

Lemma query_rel_type : forall e name fs q rf, analyzeQueryStruct e name fs = AOk q -> q_rel q = Some rf -> rf_type rf <> zero_rt ->
  exists v t sp, In (v, t) fs /\ v_name v = rf_name rf /\ analyzeRelType e sp t = AOk (rf_type rf).
Proof.
  intros e name fs q r H R Z. destruct (query_inv _ _ _ _ H) as (k & f1 & v0 & t0 & f2 & q0 & Q1 & Q2 & Q3 & Q4 & Q5 & Q6).
  destruct (new_rel_field _ _ _ _ _ Q5) as (s & o & rid & n & T1 & T0 & T2 & T3 & T4 & (rt & dir & T5 & T6) & _).
  pose proof (pass_effect _ _ _ _ Q6) as (_ & K2 & _). rewrite K2, T5 in R. injection R as <-. cbn [rf_id rf_name rf_type] in *.
  destruct T6 as [->|T6]; [congruence|]. exists v0, t0, (q_sp q0). conjs; auto. rewrite Q2. apply in_or_app. right. now left.
Qed.

Lemma picked_sub : forall A (P : A -> Prop) l r, picked P l r -> incl r l /\ forall B (g : A -> B), NoDup (map g l) -> NoDup (map g r).
Proof.
  induction 1 as [|a l r Pa H [I N]|a l r Pa H [I N]].
  - split; [apply incl_refl|auto].
  - split. { intros x [<-|J]; [now left|right; auto]. } intros B g ND. cbn in *. inversion ND; subst. constructor; auto. intros J. apply in_map_iff in J. destruct J as (y & E & J). apply H2. rewrite <- E. apply in_map. auto.
  - split. { intros x J. right. auto. } intros B g ND. cbn in ND. inversion ND; subst. auto.
Qed.

Lemma listed_once : forall (fields : list FieldInfo) ids fs tr, NoDup (map sel_path fields) -> NoDup (map c_col ids) ->
  Forall2 (fun id f => In f fields /\ field_name f = c_col id /\ has_row tr (field_name f)) ids fs -> NoDup (map sel_path fs).
Proof.
  intros fields ids fs tr NF NI F.
  assert (INJ : forall f g, In f fields -> In g fields -> sel_path f = sel_path g -> f = g).
  { clear - NF. induction fields as [|x l IH]; intros f g I J E; [destruct I|]. cbn in NF. inversion NF as [|? ? NX ND]; subst. destruct I as [<-|I], J as [<-|J]; auto.
    - exfalso. apply NX. rewrite E. now apply in_map.
    - exfalso. apply NX. rewrite <- E. now apply in_map. }
  induction F as [|id f ids fs (A1 & A2 & _) F IH]; [constructor|]. cbn [map] in *. inversion NI as [|? ? NX ND]; subst. constructor; auto.
  intros I. apply in_map_iff in I. destruct I as (g & E & I). apply NX. rewrite <- A2. clear IH ND NI NX.
  assert (K : In g fields /\ exists id', In id' ids /\ field_name g = c_col id').
  { clear - F I. induction F as [|i f ids fs (B1 & B2 & _) F IH]; [destruct I|]. destruct I as [<-|I]. { split; auto. exists i. split; auto. now left. }
    destruct (IH I) as (C1 & i' & C2 & C3). split; auto. exists i'. split; auto. now right. }
  destruct K as (K1 & id' & K2 & K3). assert (f = g) by (apply INJ; auto). subst g. rewrite K3. now apply in_map.
Qed.

Lemma C95_output_proof : forall e name fs db q t, analyzeQueryStruct e name fs = AOk q -> plain_names fs -> check_query db q = COk t -> ti_reads t <> [] ->
  exists rfs h, output e fs q rfs h /\ (go_struct rfs -> returned_once q -> forall env, shape rfs (e_fields env) -> shaped env t).
Proof.
  intros e name fs db q t A PN C NE. pose proof (decent_query _ _ _ _ A) as DC.
  destruct (check_query_ok _ _ _ C) as (rf & tr & c & PA). pose proof (pa_rel _ _ _ _ _ _ PA) as QR.
  assert (T : target db q rf tr). { split; auto. apply (so_target _ _ _ _ _ (pa_state _ _ _ _ _ _ PA)). }
  destruct (C62_read_proof _ _ _ _ _ _ _ _ A PN C T) as [RD _].
  assert (NE' : map fr_field (ti_reads t) <> []) by (destruct (ti_reads t); [congruence|discriminate]).
  assert (RP : map read_path (ti_reads t) = map sel_path (map fr_field (ti_reads t))) by (now rewrite map_map).
  assert (RI : forall ts, (forall f, In f (map fr_field (ti_reads t)) -> in_type (RStruct false ts) (fi_sel f) (fi_name f)) -> reads_in ts (ti_reads t)).
  { intros ts K. apply Forall_forall. intros r I. apply K. now apply in_map. }
  unfold shaped. setoid_rewrite RP. 
  remember (map fr_field (ti_reads t)) as got eqn:EG.
  assert (RT : q_rtype q = rf_type rf) by (unfold q_rtype; now rewrite QR).
  assert (RN : q_relname q = rf_name rf) by (unfold q_relname; now rewrite QR).
  assert (NZ : forall P, picked P (rt_fields (rf_type rf)) got -> rf_type rf <> zero_rt).
  { intros P K Z. rewrite Z in K. cbn in K. inversion K; congruence. }
  assert (REL : forall l, q_result q = None -> rf_type rf <> zero_rt -> incl got l -> incl l (rt_fields (rf_type rf)) ->
     (NoDup (map sel_path (rt_fields (rf_type rf))) -> returned_once q -> NoDup (map sel_path got)) ->
     exists rfs h, output e fs q rfs h /\ (go_struct rfs -> returned_once q -> forall env, shape rfs (e_fields env) ->
        ti_reads t <> [] /\ reads_in (e_fields env) (ti_reads t) /\ NoDup (map sel_path got))).
  { intros l QN Z I1 I2 K. destruct (query_rel_type _ _ _ _ _ A QR Z) as (v & u & sp & IN & VN & AR). destruct (C95_record_proof _ _ _ _ AR) as (n & rfs & h & R1 & R2 & R3).
    exists rfs, h. split. { exists v, u, n. unfold out_field, out_type. rewrite QN, RT, RN. auto. }
    intros G RO env SH. destruct (R3 G) as [N1 N2]. auto 10. }
  destruct RD as [l rs QL LA PK|l rs' rs QL LA F2 PK|r rs QL HR PK|rs KS RD OP PK|Q1 Q2 Q3]; [| | | |congruence].
  - destruct (picked_sub _ _ _ _ PK) as [I N]. eapply REL; eauto. { eapply d_ret; eauto. congruence. } apply incl_refl.
  - destruct (picked_sub _ _ _ _ PK) as [I N]. assert (I2 : incl rs' (rt_fields (rf_type rf))).
    { clear - F2. induction F2 as [|i f l1 l2 (B1 & _) F IH]; [intros x []|]. intros x [<-|J]; auto. }
    eapply REL; eauto. { eapply d_ret; eauto. congruence. }
    + intros Z. rewrite Z in I2. destruct rs as [|f rs]; [congruence|]. destruct (I2 f). apply I. now left.
    + intros ND RO. apply N. eapply listed_once; eauto.
  - destruct (query_result_type _ _ _ _ _ A PN QL) as (v & u & sp & IN & VN & AR). destruct (C95_record_proof _ _ _ _ AR) as (n & rfs & h & R1 & R2 & R3).
    exists rfs, h. split. { exists v, u, n. unfold out_field, out_type. rewrite QL. auto. }
    destruct (picked_sub _ _ _ _ PK) as [I N]. intros G RO env SH. destruct (R3 G) as [N1 N2]. auto 10.
  - destruct (picked_sub _ _ _ _ PK) as [I N]. eapply REL; eauto; [|apply incl_refl]. destruct (q_result q) eqn:Q; auto. destruct (d_res _ DC _ Q) as [X _]. rewrite KS in X. discriminate.
Qed.

Lemma has_one_source : forall e name fs q, analyzeQueryStruct e name fs = AOk q -> IsWithoutOutput q = false -> one_source q.
Proof.
  intros e name fs q A W. pose proof (decent_query _ _ _ _ A) as DC. unfold IsWithoutOutput in W. unfold one_source.
  destruct (q_result q) as [r|] eqn:QR.
  - destruct (d_res _ DC _ QR) as (K1 & K2 & _). right. left. conjs; auto. congruence.
  - destruct (q_return q) as [l|] eqn:QL.
    + right. right. destruct (d_ret _ DC) as [K _]; [congruence|]. conjs; auto. congruence.
    + left. destruct (isSelect (q_kind q)); [auto|discriminate].
Qed.

Lemma C95_one_source_proof : forall e name fs q, analyzeQueryStruct e name fs = AOk q -> IsWithoutOutput q = false -> one_source q.
Proof. exact has_one_source. Qed.

Lemma held_slice : forall pkg u n rfs h rt, record_of pkg u n rfs h -> held h rt -> h_slice h = true -> rt_slice rt = true /\ rt_iter rt = false.
Proof. intros pkg u n rfs h rt R (H1 & H2 & H3 & H4) S0. rewrite H2, H3. split; auto. destruct R; cbn in *; congruence. Qed.

Lemma held_iter : forall pkg u n rfs h rt, record_of pkg u n rfs h -> held h rt -> h_iter h <> None -> rt_iter rt = true.
Proof. intros pkg u n rfs h rt R (H1 & H2 & H3 & H4) S0. rewrite H3. destruct (h_iter h); [auto|congruence]. Qed.

Lemma held_single : forall pkg u n rfs h rt, record_of pkg u n rfs h -> held h rt -> h_slice h = false -> h_iter h = None -> h_array h = None -> rt_single rt = true.
Proof. intros pkg u n rfs h rt R (H1 & H2 & H3 & H4) S0 S1 S2. unfold rt_single. rewrite H2, H3, H4, S0, S1, S2. auto. Qed.

Lemma reads_not_count : forall e name fs db q t, analyzeQueryStruct e name fs = AOk q -> plain_names fs -> check_query db q = COk t -> ti_reads t <> [] -> IsSelectCountOrExists q = false.
Proof.
  intros e name fs db q t A PN C NE. destruct (IsSelectCountOrExists q) eqn:X; auto. exfalso. pose proof (decent_query _ _ _ _ A) as DC. pose proof (d_cnt _ DC X) as Z.
  destruct (check_query_ok _ _ _ C) as (rf & tr & c & PA). pose proof (pa_rel _ _ _ _ _ _ PA) as QR.
  assert (T : target db q rf tr). { split; auto. apply (so_target _ _ _ _ _ (pa_state _ _ _ _ _ _ PA)). }
  destruct (C62_read_proof _ _ _ _ _ _ _ _ A PN C T) as [RD _]. unfold q_rtype in Z. rewrite QR in Z.
  assert (KS : isSelect (q_kind q) = true) by (unfold IsSelectCountOrExists in X; destruct (q_kind q); try discriminate; auto).
  remember (map fr_field (ti_reads t)) as got eqn:EG. assert (NE' : got <> []) by (subst; destruct (ti_reads t); [congruence|discriminate]).
  destruct RD as [l rs QL LA PK|l rs' rs QL LA F2 PK|r rs QL HR PK|rs K RD OP PK|Q1 Q2 Q3]; [| | | |congruence].
  - destruct (d_ret _ DC) as [Y _]; congruence.
  - destruct (d_ret _ DC) as [Y _]; congruence.
  - destruct (d_res _ DC _ QL) as [Y _]; congruence.
  - unfold IsSelectCountOrExists in X. rewrite K in X. discriminate.
Qed.

Lemma output_reads : forall e name fs db q t, analyzeQueryStruct e name fs = AOk q -> plain_names fs -> check_query db q = COk t -> ti_reads t <> [] -> IsWithoutOutput q = false.
Proof.
  intros e name fs db q t A PN C NE.
  destruct (check_query_ok _ _ _ C) as (rf & tr & c & PA). pose proof (pa_rel _ _ _ _ _ _ PA) as QR.
  assert (T : target db q rf tr). { split; auto. apply (so_target _ _ _ _ _ (pa_state _ _ _ _ _ _ PA)). }
  destruct (C62_read_proof _ _ _ _ _ _ _ _ A PN C T) as [RD _].
  remember (map fr_field (ti_reads t)) as got eqn:EG. assert (NE' : got <> []) by (subst; destruct (ti_reads t); [congruence|discriminate]). unfold IsWithoutOutput.
  destruct RD as [l rs QL LA PK|l rs' rs QL LA F2 PK|r rs QL HR PK|rs K RD OP PK|Q1 Q2 Q3]; [| | | |congruence].
  - rewrite QL. cbn. now rewrite andb_false_r.
  - rewrite QL. cbn. now rewrite andb_false_r.
  - rewrite QL. reflexivity.
  - rewrite K. cbn. now rewrite andb_false_r.
Qed.

Lemma C95_collected_proof : forall e name fs db q t, analyzeQueryStruct e name fs = AOk q -> plain_names fs -> check_query db q = COk t ->
  ti_reads t <> [] -> returned_once q -> no_collision (ti_reads t) -> ~ in_place q ->
  exists rfs h, output e fs q rfs h /\ forall env vals old good end_,
    h_slice h = true -> go_struct rfs -> shape rfs (e_fields env) ->
    e_call env = None -> rows_are (e_rows env) (e_err env) good end_ -> Forall (fun ds => List.length ds = List.length (ti_reads t)) good ->
    vals (out_field q) = OSlice old ->
    exists recs s, run_result env q t vals = Done s (answer q end_) /\ Forall2 (decoded (ti_reads t)) good recs
      /\ o_q s (out_field q) = OSlice (old ++ map (finish env q) recs) /\ (forall g, g <> out_field q -> o_q s g = vals g) /\ o_closed s = true.
Proof.
  intros e name fs db q t A PN C NE RO NC IP. pose proof (reads_not_count _ _ _ _ _ _ A PN C NE) as NS.
  destruct (C95_output_proof _ _ _ _ _ _ A PN C NE) as (rfs & h & O & SH). exists rfs, h. split; auto. intros env vals old good end_ HS G SP EC RA LN V.
  destruct O as (v & u & n & IN & VN & R & HD). destruct (held_slice _ _ _ _ _ _ R HD HS) as [S1 S2].
  apply C56_rows_collected_proof; auto. eapply has_one_source; eauto. eapply output_reads; eauto.
Qed.

Lemma C95_iterated_proof : forall e name fs db q t, analyzeQueryStruct e name fs = AOk q -> plain_names fs -> check_query db q = COk t ->
  ti_reads t <> [] -> returned_once q -> no_collision (ti_reads t) ->
  exists rfs h, output e fs q rfs h /\ forall env vals old good end_,
    h_iter h <> None -> go_struct rfs -> shape rfs (e_fields env) ->
    e_call env = None -> rows_are (e_rows env) (e_err env) good end_ -> Forall (fun ds => List.length ds = List.length (ti_reads t)) good ->
    vals (out_field q) = OIter old ->
    exists recs seen stop s, Forall2 (decoded (ti_reads t)) good recs /\ iterate (e_iter env) old (map (finish env q) recs) = (seen, stop)
      /\ run_result env q t vals = Done s (answer q (match stop with Some _ => stop | None => end_ end))
      /\ o_q s (out_field q) = OIter seen /\ (forall g, g <> out_field q -> o_q s g = vals g) /\ o_closed s = true.
Proof.
  intros e name fs db q t A PN C NE RO NC. pose proof (reads_not_count _ _ _ _ _ _ A PN C NE) as NS.
  destruct (C95_output_proof _ _ _ _ _ _ A PN C NE) as (rfs & h & O & SH). exists rfs, h. split; auto. intros env vals old good end_ HS G SP EC RA LN V.
  destruct O as (v & u & n & IN & VN & R & HD). pose proof (held_iter _ _ _ _ _ _ R HD HS) as S1.
  apply C57_rows_iterated_proof; auto. { eapply has_one_source; eauto. eapply output_reads; eauto. }
  intros [I1 I2]. unfold out_type in S1. rewrite I2 in S1. destruct (d_rel _ (decent_query _ _ _ _ A) S1). congruence.
Qed.

Lemma C95_returned_proof : forall e name fs db q t, analyzeQueryStruct e name fs = AOk q -> plain_names fs -> check_query db q = COk t ->
  ti_reads t <> [] -> returned_once q -> in_place q ->
  exists rfs h, output e fs q rfs h /\ forall env vals l good end_,
    h_slice h = true -> go_struct rfs -> shape rfs (e_fields env) ->
    e_call env = None -> rows_are (e_rows env) (e_err env) good end_ -> Forall (fun ds => List.length ds = List.length (ti_reads t)) good ->
    vals (out_field q) = OSlice l -> Forall (ready (e_fields env) (ti_reads t)) l -> List.length (e_rows env) <= List.length l ->
    exists recs s, run_result env q t vals = Done s (answer q end_) /\ rows_stored env t good l recs
      /\ o_q s (out_field q) = OSlice (map (finish env q) recs ++ skipn (List.length good) l)
      /\ (forall g, g <> out_field q -> o_q s g = vals g) /\ o_closed s = true.
Proof.
  intros e name fs db q t A PN C NE RO IP.
  destruct (C95_output_proof _ _ _ _ _ _ A PN C NE) as (rfs & h & O & SH). exists rfs, h. split; auto. intros env vals l good end_ HS G SP EC RA LN V RL LL.
  destruct O as (v & u & n & IN & VN & R & HD). destruct (held_slice _ _ _ _ _ _ R HD HS) as [S1 S2].
  apply C58_rows_returned_proof; auto. eapply has_one_source; eauto. eapply output_reads; eauto.
Qed.

Lemma C95_single_proof : forall e name fs db q t, analyzeQueryStruct e name fs = AOk q -> plain_names fs -> check_query db q = COk t ->
  ti_reads t <> [] -> returned_once q ->
  exists rfs h, output e fs q rfs h /\ forall env vals old ds,
    h_slice h = false -> h_iter h = None -> h_array h = None -> go_struct rfs -> shape rfs (e_fields env) ->
    e_row env = inr ds -> List.length ds = List.length (ti_reads t) -> vals (out_field q) = ORec old ->
    (in_place q /\ ready (e_fields env) (ti_reads t) old
     \/ ~ in_place q /\ no_collision (ti_reads t) /\ (h_ptr h = true \/ GenOutSpec.fits (RStruct false (e_fields env)) old)) ->
    exists x s, run_result env q t vals = Done s (if rt_after (out_type q) then RetErr None else answer q None)
      /\ (in_place q -> updated (e_fields env) (ti_reads t) ds old x)
      /\ (~ in_place q -> scanned (ti_reads t) ds (if h_ptr h then VNil else old) x)
      /\ o_q s (out_field q) = ORec (finish env q x) /\ (forall g, g <> out_field q -> o_q s g = vals g).
Proof.
  intros e name fs db q t A PN C NE RO. pose proof (reads_not_count _ _ _ _ _ _ A PN C NE) as NS.
  destruct (C95_output_proof _ _ _ _ _ _ A PN C NE) as (rfs & h & O & SH). exists rfs, h. split; auto. intros env vals old ds H1 H2 H3 G SP ER LN V OK.
  destruct O as (v & u & n & IN & VN & R & HD). pose proof (held_single _ _ _ _ _ _ R HD H1 H2 H3) as S1.
  assert (OS : one_source q). { eapply has_one_source; eauto. eapply output_reads; eauto. }
  assert (HP : rt_ptr (out_type q) = h_ptr h) by (apply HD).
  destruct OK as [[IP RD]|(IP & NC & FT)].
  - destruct (C59_row_returned_proof env q t vals old ds) as (x & s & K1 & K2 & K3 & K4); auto. exists x, s. conjs; auto. tauto.
  - destruct (C59_row_scanned_proof env q t vals old ds) as (x & s & K1 & K2 & K3 & K4); auto. { now rewrite HP. } rewrite HP in K2. exists x, s. conjs; auto. tauto.
Qed.

(** A select of records with nested structs, one held by pointer. *)
Definition home95 : fields := [(ex_var "City" (ex_tag "sql" ["city"]), ex_str)].

Definition mail95 : fields := [(ex_var "Email" (ex_tag "sql" ["email"]), ex_str); (ex_var "Home" (ex_tag "sql" [">"]), TStruct home95)].

Definition user95 : fields := [(ex_var "Id" (ex_tag "sql" ["id"]), ex_int); (ex_var "_" [], ex_int); (ex_var "_" [], ex_str);
  (ex_var "Mail" (ex_tag "sql" [">"]), TPtr (TNamed (ex_name "Mail") (TStruct mail95)))].

Definition rel95 (t : gtype) : fvar * gtype := (ex_var "Rel" (ex_tag "rel" ["user:u"]), t).

Lemma inside_cases : forall root fs, inside root fs -> fs = root \/ exists v t fs', In (v, t) root /\ record_type t fs' /\ inside fs' fs.
Proof.
  induction 1 as [|x v t y I IH J R]; [now left|]. right. destruct IH as [->|(v' & t' & z & A1 & A2 & A3)].
  - exists v, t, y. conjs; auto. constructor.
  - exists v', t', z. conjs; auto. eapply in_part; eauto.
Qed.

Lemma go_struct_intro : forall root, NoDup (map (fun f => v_name (fst f)) (filter named root)) ->
  (forall v t fs', In (v, t) root -> record_type t fs' -> go_struct fs') -> go_struct root.
Proof. intros root N K fs I. apply inside_cases in I. destruct I as [->|(v & t & fs' & A & R & I)]; auto. eapply K; eauto. Qed.

Ltac differ := repeat constructor; cbn; intuition discriminate.

Ltac no_struct R := exfalso; destruct R as [R|(? & R & _)]; inversion R.

Lemma go_home95 : go_struct home95.
Proof. apply go_struct_intro; [differ|]. intros v t fs' [E|[]] R. injection E as <- <-. no_struct R. Qed.

Lemma go_mail95 : go_struct mail95.
Proof.
  apply go_struct_intro; [differ|]. intros v t fs' [E|[E|[]]] R; injection E as <- <-; [no_struct R|].
  rewrite (record_det _ fs' home95 R); [apply go_home95|]. left. apply un_plain. discriminate.
Qed.

Lemma go_user95 : go_struct user95.
Proof.
  apply go_struct_intro; [differ|]. intros v t fs' [E|[E|[E|[E|[]]]]] R; injection E as <- <-; try solve [no_struct R].
  rewrite (record_det _ fs' mail95 R); [apply go_mail95|]. right. eexists. split; [apply un_plain; discriminate|]. apply un_named, un_plain. discriminate.
Qed.

Definition ts95 : list (bytes * rty) := [(lit "Id", RScal); (lit "_", RScal); (lit "_", RScal);
  (lit "Mail", RStruct true [(lit "Email", RScal); (lit "Home", RStruct false [(lit "City", RScal)])])].

Lemma shape95 : shape user95 ts95.
Proof.
  assert (NP : forall v t fs', part v t fs' -> t = ex_int \/ t = ex_str -> False). { intros v t fs' [R _] [->| ->]; no_struct R. }
  assert (BT : false = true <-> exists u, under (TStruct home95) (TPtr u)). { split; [discriminate|]. intros (u & U). inversion U. }
  unfold user95, ts95. apply (sh_value (ex_var "Id" (ex_tag "sql" ["id"]))); [intros fs' P; eapply NP; eauto|].
  apply (sh_value (ex_var "_" [])); [intros fs' P; eapply NP; eauto|]. apply (sh_value (ex_var "_" [])); [intros fs' P; eapply NP; eauto|].
  apply (sh_part (ex_var "Mail" (ex_tag "sql" [">"])) _ [] [] mail95).
  - split; [|exists [], []; apply sql_tag_spec; split; reflexivity]. right. eexists. split; [apply un_plain; discriminate|]. apply un_named, un_plain. discriminate.
  - split; auto. intros _. eexists. apply un_plain. discriminate.
  - unfold mail95. apply (sh_value (ex_var "Email" (ex_tag "sql" ["email"]))); [intros fs' P; eapply NP; eauto|].
    apply (sh_part (ex_var "Home" (ex_tag "sql" [">"])) _ [] [] home95); auto.
    + split; [|exists [], []; apply sql_tag_spec; split; reflexivity]. left. apply un_plain. discriminate.
    + apply (sh_value (ex_var "City" (ex_tag "sql" ["city"]))); [intros fs' P; eapply NP; eauto|constructor].
    + constructor.
  - constructor.
Qed.

Lemma one_pointer : forall reads p, Forall (fun r => forall a n b, fi_sel (fr_field r) = a ++ n :: b -> sn_ptr n = true -> map sn_name a ++ [sn_name n] = p) reads -> no_collision reads.
Proof.
  intros reads p F r1 r2 p1 p2 I1 I2 (a & n & b & E1 & N1 & ->) (a' & n' & b' & E2 & N2 & ->) _. rewrite Forall_forall in F. rewrite (F _ I1 _ _ _ E1 N1). symmetry. apply (F _ I2 _ _ _ E2 N2).
Qed.

Lemma C95_returned_twice_refuted_proof : exists e name fs db q t, analyzeQueryStruct e name fs = AOk q /\ plain_names fs /\ check_query db q = COk t
  /\ ~ NoDup (map read_path (ti_reads t)).
Proof.
  exists ex_env, (B "InsertUsers"), [rel95 (TSlice (TPtr (TNamed (ex_name "User") (TStruct user95)))); (ex_var "_" (ex_tag "sql" ["id"; "id"]), ex_dir "Return")], db_ex.
  do 2 eexists. split; [vm_compute; reflexivity|]. split; [apply plain_fields; vm_compute; reflexivity|]. split; [vm_compute; reflexivity|].
  cbn. intros N. inversion N as [|? ? X _]. apply X. now left.
Qed.
