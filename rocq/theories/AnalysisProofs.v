(** Lemmas on the model of the analysis (Analysis.v). *)
From Coq Require Import Ascii String ZArith NArith Bool List Lia.
From Verif Require Import GoBase Strconv ConvertUtil ConvertProofs Filter AParse PgSpec TagSpec AParseProofs Analysis AnalysisSpec.
Import ListNotations.
Local Open Scope char_scope.

(** ** Basics *)
Lemma bytes_eqb_neq : forall a b, bytes_eqb a b = false <-> a <> b.
Proof.
  intros a b. destruct (bytes_eqb a b) eqn:E.
  - apply bytes_eqb_eq in E. split; congruence.
  - split; auto. intros _ H. subst. rewrite (proj2 (bytes_eqb_eq b b) eq_refl) in E. discriminate.
Qed.
Lemma bytes_eqb_refl : forall a, bytes_eqb a a = true.
Proof. intros. now apply bytes_eqb_eq. Qed.
Lemma bytes_dec : forall a b : bytes, a = b \/ a <> b.
Proof. intros a b. destruct (bytes_eqb a b) eqn:E; [left; now apply bytes_eqb_eq | right; now apply bytes_eqb_neq]. Qed.

Lemma abind_ok : forall {A C} (r : ares A) (f : A -> ares C) c, abind r f = AOk c -> exists a, r = AOk a /\ f a = AOk c.
Proof. intros A C [a|e|] f c H; cbn in H; [eauto|discriminate|discriminate]. Qed.
Lemma ensure_ok : forall b e u, ensure b e = AOk u -> b = true.
Proof. intros [|] e u H; [auto|discriminate]. Qed.
Lemma lift_ok : forall {A} (r : A + ecode) a, lift r = AOk a -> r = inl a.
Proof. intros A [x|x] a H; inversion H; auto. Qed.
Lemma lift_res_ok : forall {A} (r : res A) a, lift_res r = AOk a -> r = Ok a.
Proof. intros A [x| |] a H; inversion H; auto. Qed.

Ltac pairs a := match type of a with prod _ _ => let x := fresh "x" in let y := fresh "y" in destruct a as [x y]; pairs x; pairs y | _ => idtac end.
(** Takes apart an equation [… = AOk …] between monadic terms. *)
Ltac aok :=
  repeat match goal with
  | H : abind ?r ?f = AOk ?c |- _ =>
      let a := fresh "a" in let H1 := fresh "E" in let H2 := fresh "K" in
      destruct (abind_ok _ _ _ H) as (a & H1 & H2); clear H; cbv beta in H2; pairs a; cbv iota in H2
  | H : ensure _ _ = AOk _ |- _ => apply ensure_ok in H
  | H : lift _ = AOk _ |- _ => apply lift_ok in H
  | H : lift_res _ = AOk _ |- _ => apply lift_res_ok in H
  | H : AOk _ = AOk _ |- _ => inversion H; clear H
  | H : AErr _ = AOk _ |- _ => discriminate H
  | H : APanic = AOk _ |- _ => discriminate H
  end.

(** ** Tags *)
Lemma tag_value_lookup : forall t k l, tag_value t k l <-> lookup k t = Some l.
Proof.
  intros t k l. split.
  - induction 1; cbn [lookup]. now rewrite bytes_eqb_refl. rewrite (proj2 (bytes_eqb_neq k k')) by auto. auto.
  - induction t as [|[k' l'] t IH]; cbn [lookup]; [discriminate|]. destruct (bytes_eqb k k') eqn:E.
    + intros H; inversion H; subst. apply bytes_eqb_eq in E. subst. constructor.
    + intros H. constructor; auto. now apply bytes_eqb_neq in E.
Qed.
Lemma tagged_has : forall v k, tagged v k <-> tag_has (v_tag v) k = true.
Proof.
  intros v k. unfold tagged, tag_has. split.
  - intros (l & H). apply tag_value_lookup in H. now rewrite H.
  - destruct (lookup k (v_tag v)) eqn:E; [|discriminate]. intros _. exists l. now apply tag_value_lookup.
Qed.
Lemma sql_tag_spec : forall v x l,
  sql_tag v x l <-> tag_first (v_tag v) (B "sql") = x /\ tl (tag_get (v_tag v) (B "sql")) = l.
Proof.
  intros v x l. unfold tag_first, tag_get. split.
  - intros H. inversion H as [x0 l0 V|V|V]; subst.
    + apply tag_value_lookup in V. change (lit "sql") with (B "sql") in V. rewrite V. auto.
    + apply tag_value_lookup in V. change (lit "sql") with (B "sql") in V. rewrite V. auto.
    + destruct (lookup (B "sql") (v_tag v)) eqn:E; auto. exfalso. apply V. exists l. now apply tag_value_lookup.
  - destruct (lookup (B "sql") (v_tag v)) as [[|y r]|] eqn:E; cbn [tl]; intros [<- <-].
    + apply st_empty. now apply tag_value_lookup.
    + apply st_some. now apply tag_value_lookup.
    + apply st_none. intros (l & V). apply tag_value_lookup in V. change (lit "sql") with (B "sql") in V. congruence.
Qed.

(** ** Types *)
Lemma under_plain_inv : forall t r, (forall n u, t <> TNamed n u) -> under t r -> r = t.
Proof. intros t r H U. inversion U; subst; auto. exfalso. eapply H. reflexivity. Qed.
Lemma under_not_named : forall t r, under t r -> forall n u, r <> TNamed n u.
Proof. induction 1; auto. Qed.
Lemma under_det : forall t r r', under t r -> under t r' -> r = r'.
Proof.
  induction 1; intros U. now apply under_plain_inv in U. inversion U; subst; auto. exfalso. eapply H0. reflexivity.
Qed.
Lemma under_ex : forall t, exists r, under t r.
Proof.
  fix IH 1. intros t. destruct t as [k b r|n t|t|t|k t|t|ps rs|ms a b c|fs|n u]; try (eexists; apply un_plain; intros ? ? ?; discriminate).
  destruct (IH u) as (r & H). exists r. now apply un_named.
Qed.

Lemma ati_packaged : forall e t, (exists r, analyzeTypeInfo e t = AOk r) <-> packaged t.
Proof.
  intros e t. split.
  - induction t as [k b r|n t IH|t IH|t IH|k IHk t IH|t IH|ps rs|ms a b c|fs|n u IH];
      cbn [analyzeTypeInfo]; intros (r0 & H); try (constructor; fail).
    1-3: destruct (abind_ok _ _ _ H) as ([i b] & E & _); constructor; apply IH; eauto.
    + destruct (abind_ok _ _ _ H) as ([i b] & E & H'). destruct (abind_ok _ _ _ H') as ([i' b'] & E' & _).
      constructor; eauto.
    + destruct (n_pkg n) as [[p pn]|] eqn:N; [|discriminate]. destruct (abind_ok _ _ _ H) as ([i b] & E & _).
      econstructor; eauto.
  - induction 1; cbn [analyzeTypeInfo]; try (eexists; reflexivity).
    + destruct IHpackaged as ([i b] & ->). eexists; reflexivity.
    + destruct IHpackaged as ([i b] & ->). eexists; reflexivity.
    + destruct IHpackaged as ([i b] & ->). eexists; reflexivity.
    + destruct IHpackaged1 as ([i b] & ->). destruct IHpackaged2 as ([i' b'] & ->). eexists; reflexivity.
    + rewrite H. destruct p as [p pn]. destruct IHpackaged as ([i b] & ->). eexists; reflexivity.
Qed.

Lemma ati_named : forall e n u i b, analyzeTypeInfo e (TNamed n u) = AOk (i, b) ->
  exists j, analyzeTypeInfo e u = AOk (j, b) /\ t_kind i = t_kind j /\ t_elem i = t_elem j.
Proof.
  intros e n u i b H. cbn [analyzeTypeInfo] in H. destruct (n_pkg n) as [[p pn]|]; [|discriminate].
  destruct (abind_ok _ _ _ H) as ([j b'] & E & H'). inversion H'; subst. exists j. auto.
Qed.
Lemma ati_kind : forall e t i b, analyzeTypeInfo e t = AOk (i, b) -> t_kind i = analyzeTypeKind t.
Proof.
  intros e. induction t as [k b r|n t IH|t IH|t IH|k IHk t IH|t IH|ps rs|ms a b c|fs|n u IH]; intros i b0 H;
    try (cbn [analyzeTypeInfo] in H; aok; subst; auto; fail).
  - apply ati_named in H. destruct H as (j & H & K & _). rewrite K. cbn. eauto.
Qed.
Lemma under_kind : forall t r, under t r -> analyzeTypeKind t = analyzeTypeKind r.
Proof. induction 1; auto. Qed.
Lemma kind_struct_under : forall t, analyzeTypeKind t = KStruct -> exists fs, under t (TStruct fs).
Proof.
  intros t H. destruct (under_ex t) as (r & U). rewrite (under_kind _ _ U) in H.
  pose proof (under_not_named _ _ U) as N. destruct r; cbn in H; try discriminate; eauto. exfalso. eapply N. reflexivity.
Qed.
Lemma kind_ptr_under : forall t, analyzeTypeKind t = KPtr -> exists u, under t (TPtr u).
Proof.
  intros t H. destruct (under_ex t) as (r & U). rewrite (under_kind _ _ U) in H.
  pose proof (under_not_named _ _ U) as N. destruct r; cbn in H; try discriminate; eauto. exfalso. eapply N. reflexivity.
Qed.
Lemma ati_under_struct : forall e t fs i b, under t (TStruct fs) -> analyzeTypeInfo e t = AOk (i, b) -> b = TStruct fs.
Proof.
  intros e t fs i b U. remember (TStruct fs) as r eqn:R. revert i b R. induction U; intros i b R H0.
  - subst. cbn in H0. inversion H0; auto.
  - apply ati_named in H0. destruct H0 as (j & H0 & _). eauto.
Qed.
Lemma ati_under_ptr : forall e t u i b, under t (TPtr u) -> analyzeTypeInfo e t = AOk (i, b) ->
  exists j, t_elem i = Some j /\ analyzeTypeInfo e u = AOk (j, b).
Proof.
  intros e t u i b U. remember (TPtr u) as r eqn:R. revert i b R. induction U; intros i b R H0.
  - subst. cbn in H0. destruct (abind_ok _ _ _ H0) as ([j b'] & E & H'). inversion H'; subst. eexists. split; [reflexivity|auto].
  - apply ati_named in H0. destruct H0 as (j & H0 & _ & El). destruct (IHU _ _ R H0) as (j' & A & Bq). exists j'. split; auto. congruence.
Qed.
Lemma ati_is_struct : forall e t i b, analyzeTypeInfo e t = AOk (i, b) ->
  (is_struct i = true <-> exists fs, record_type t fs) /\ (forall fs, record_type t fs -> b = TStruct fs).
Proof.
  intros e t i b H. pose proof (ati_kind _ _ _ _ H) as K. unfold is_struct, record_type. split; [split|].
  - intros S0. apply orb_prop in S0. destruct S0 as [S0|S0].
    + destruct (kind_struct_under t) as (fs & U). { rewrite <- K. now destruct (t_kind i). } exists fs. auto.
    + apply andb_prop in S0. destruct S0 as [P S0].
      destruct (kind_ptr_under t) as (u & U). { rewrite <- K. now destruct (t_kind i). }
      destruct (ati_under_ptr _ _ _ _ _ U H) as (j & Ej & Hj). rewrite Ej in S0.
      destruct (kind_struct_under u) as (fs & U').
      { rewrite <- (ati_kind _ _ _ _ Hj). now destruct (t_kind j). }
      exists fs. right. exists u. auto.
  - intros (fs & [U|(u & U & U')]).
    + rewrite (under_kind _ _ U) in K. cbn in K. now rewrite K.
    + rewrite (under_kind _ _ U) in K. cbn in K. rewrite K. cbn [kind_struct kind_ptr orb andb].
      destruct (ati_under_ptr _ _ _ _ _ U H) as (j & -> & Hj).
      rewrite (ati_kind _ _ _ _ Hj), (under_kind _ _ U'). reflexivity.
  - intros fs [U|(u & U & U')].
    + eapply ati_under_struct; eauto.
    + destruct (ati_under_ptr _ _ _ _ _ U H) as (j & _ & Hj). eapply ati_under_struct; eauto.
Qed.
Lemma ati_imported : forall e t i b, analyzeTypeInfo e t = AOk (i, b) -> (t_imported i = true <-> foreign (e_pkg e) t).
Proof.
  intros e t i b H. destruct t as [k b0 r|n t|t|t|k t|t|ps rs|ms a b0 c|fs|n u]; cbn [analyzeTypeInfo] in H;
    try (split; [|intros (n' & u & p & pn & E & _); discriminate];
         repeat (try (destruct (abind_ok _ _ _ H) as ([? ?] & ? & H'); clear H; rename H' into H)); inversion H; subst; discriminate).
  destruct (n_pkg n) as [[p pn]|] eqn:N; [|discriminate]. destruct (abind_ok _ _ _ H) as ([j b'] & E & H'). inversion H'; subst. cbn.
  rewrite negb_true_iff, bytes_eqb_neq. split.
  - intros D. exists n, u, p, pn. auto.
  - intros (n' & u' & p' & pn' & E1 & E2 & D). inversion E1; subst. rewrite N in E2. inversion E2; subst. auto.
Qed.

(** ** The columns of a record type *)
Lemma passed_over_spec : forall im v,
  (bytes_eqb (tag_first (v_tag v) (B "sql")) [] || bytes_eqb (tag_first (v_tag v) (B "sql")) (B "-") || bytes_eqb (v_name v) (B "_")
     || (negb (v_exported v) && im)) = true <-> passed_over im v.
Proof.
  intros im v. rewrite !orb_true_iff, andb_true_iff, negb_true_iff, !bytes_eqb_eq. unfold passed_over.
  assert (forall x, tag_first (v_tag v) (B "sql") = x <-> exists l, sql_tag v x l) as T.
  { intros x. split. intros H. eexists. apply sql_tag_spec. split; [exact H|reflexivity]. intros (l & H). now apply sql_tag_spec in H. }
  rewrite !T. unfold lit, B. tauto.
Qed.

Lemma mode_options_ok : forall opts m, (exists m', mode_options opts m = Ok m') <-> ~ In [] opts.
Proof.
  induction opts as [|o opts IH]; intros m; cbn [mode_options].
  - split; eauto.
  - unfold mode_option. destruct o as [|c o].
    + cbn. split; [intros (? & H); discriminate|intros H; exfalso; apply H; auto].
    + cbn [In]. destruct (beq c "-"); [|destruct (beq c "+")]; cbn [bind]; rewrite IH; split; intros H; try tauto; intros [E|E]; try discriminate; tauto.
Qed.
Lemma mode_ok : forall v, (exists m, parseFieldMode (v_tag v) = Ok m) <-> options_ok v.
Proof.
  intros v. unfold parseFieldMode, options_ok. 
  assert (forall x l, sql_tag v x l <-> tag_first (v_tag v) (B "sql") = x /\ tl (tag_get (v_tag v) (B "sql")) = l) as T by (intros; apply sql_tag_spec).
  split.
  - intros H. exists (tag_first (v_tag v) (B "sql")), (tl (tag_get (v_tag v) (B "sql"))). split. apply T; auto.
    destruct (tag_get (v_tag v) (B "sql")) as [|x l]; cbn [tl]; auto. now apply mode_options_ok in H.
  - intros (x & l & H & N). apply T in H. destruct H as [_ <-].
    destruct (tag_get (v_tag v) (B "sql")) as [|y l]; cbn [tl] in N. eauto. now apply mode_options_ok.
Qed.

Lemma parseColIdent_in : forall sp s q n, parseColIdent sp s = inl (MkCol q n) <-> column_in (map fst sp) s q n.
Proof.
  intros sp s q n. rewrite parseColIdent_spec. unfold column_in. split.
  - intros (-> & N & [(-> & V)|(Q & I)]).
    + split; auto. split; auto. split; auto. intros H; now destruct H.
    + split; auto. split; auto. split; auto. intros W. apply value_word_no_dot in W. apply W.
      destruct q as [|c q]. now apply name_nonempty in Q. cbn [qualified]. apply in_or_app. right. now left.
  - intros (-> & N & Q & V). split; auto. split; auto. destruct q as [|c q]; [left|right]; auto. apply Q. discriminate.
Qed.

(** What a step does, by the kind of field. *)
Lemma step_skip : forall e sp fr v t, passed_over (fr_imported fr) v -> field_step e sp fr v t = AOk FSkip.
Proof. intros e sp fr v t H. unfold field_step. now rewrite (proj2 (passed_over_spec _ _) H). Qed.

Definition entry (f : FieldInfo) : list text * text * (text * text) :=
  (map sn_name (fi_sel f), fi_name f, (c_qual (fi_col f), c_col (fi_col f))).
Definition entry_of (x : list fvar * fvar * (text * text)) : list text * text * (text * text) :=
  let '(path, v, c) := x in (map v_name path, v_name v, c).

Inductive step_result (e : env) (sp : relspace) (fr : frame) (v : fvar) (t : gtype) : fstep -> Prop :=
| sr_skip : passed_over (fr_imported fr) v -> step_result e sp fr v t FSkip
| sr_leaf : forall s o f, ~ passed_over (fr_imported fr) v -> packaged t -> sql_tag v s o ->
    ~ (exists p fs', s = ">" :: p /\ record_type t fs') ->
    column_in (map fst sp) (fr_pfx fr ++ s) (c_qual (fi_col f)) (c_col (fi_col f)) -> options_ok v ->
    fi_name f = v_name v -> fi_sel f = fr_sel fr -> parseFieldMode (v_tag v) = Ok (fi_mode f) -> fi_tag f = v_tag v ->
    fi_fck f = parseFilterColumnKey e (v_name v) (v_tag v) (fr_sel fr) ->
    step_result e sp fr v t (FLeaf f)
| sr_nested : forall p o fs' m nd, ~ passed_over (fr_imported fr) v -> packaged t -> sql_tag v (">" :: p) o ->
    record_type t fs' -> (m = true <-> foreign (e_pkg e) t) -> options_ok v ->
    sn_name nd = v_name v -> sn_tag nd = v_tag v ->
    step_result e sp fr v t (FDescend (MkFrame fs' m (fr_pfx fr ++ p) (fr_sel fr ++ [nd]))).

Lemma step_sound : forall e sp fr v t s, field_step e sp fr v t = AOk s -> step_result e sp fr v t s.
Proof.
  intros e sp fr v t s H. unfold field_step in H.
  destruct (bytes_eqb (tag_first (v_tag v) (B "sql")) [] || bytes_eqb (tag_first (v_tag v) (B "sql")) (B "-") || bytes_eqb (v_name v) (B "_")
     || (negb (v_exported v) && fr_imported fr)) eqn:P.
  { inversion H; subst. apply sr_skip. now apply passed_over_spec. }
  assert (~ passed_over (fr_imported fr) v) as NP. { intros C. apply passed_over_spec in C. congruence. }
  destruct (abind_ok _ _ _ H) as ([i base] & E & H'). clear H.
  assert (packaged t) as PK. { apply (ati_packaged e). eauto. }
  destruct (ati_is_struct _ _ _ _ E) as [IS BS].
  destruct (is_struct i && has_prefix (B ">") (tag_first (v_tag v) (B "sql"))) eqn:D.
  - apply andb_prop in D. destruct D as [D1 D2]. apply IS in D1. destruct D1 as (fs & R). rewrite (BS _ R) in H'.
    destruct (abind_ok _ _ _ H') as (m & M & H). apply lift_res_ok in M.
    apply has_prefix_spec in D2. destruct D2 as (p & D2). change (B ">" ++ p) with (">" :: p) in D2. rewrite D2 in H.
    cbv beta in H. change (skipn 1 (">" :: p)) with p in H. injection H as <-.
    eapply sr_nested; eauto.
    + apply sql_tag_spec. split. exact D2. reflexivity.
    + eapply ati_imported; eauto.
    + apply mode_ok. eauto.
  - destruct (abind_ok _ _ _ H') as (cid & C & H). clear H'. destruct (abind_ok _ _ _ H) as (m & M & H'). clear H.
    apply lift_ok in C. apply lift_res_ok in M. destruct (parseCoalesceInfo (v_tag v)) as [co cv]. inversion H'; subst.
    eapply sr_leaf; cbn; eauto.
    + apply sql_tag_spec. split; reflexivity.
    + intros (p & fs' & S0 & R). rewrite S0 in D. rewrite (proj2 IS) in D by eauto. discriminate.
    + apply parseColIdent_in. destruct cid; auto.
    + apply mode_ok. eauto.
Qed.

(** *** the loop over the stack *)
Lemma fold_plus : forall (fs : fields), fold_right (fun '(_, u) n => S (tsize u) + n)%nat O fs = list_sum (map (fun '(_, u) => S (tsize u)) fs).
Proof. induction fs as [|[v u] fs IH]; cbn [fold_right map list_sum]; auto. Qed.
Definition fsize (fs : fields) : nat := S (list_sum (map (fun '(_, u) => S (tsize u)) fs)).
Lemma tsize_struct : forall fs, tsize (TStruct fs) = fsize fs.
Proof. intros. cbn [tsize]. unfold fsize. now rewrite fold_plus. Qed.
Lemma record_size : forall t fs, record_type t fs -> (fsize fs <= tsize t)%nat.
Proof.
  assert (forall t r, under t r -> tsize t = tsize r) as U. { induction 1; auto. }
  intros t fs [H|(u & H & H')].
  - rewrite (U _ _ H), tsize_struct. auto.
  - rewrite (U _ _ H). change (tsize (TPtr u)) with (tsize u). rewrite (U _ _ H'), tsize_struct. auto.
Qed.
Definition ssize (st : list frame) : nat := list_sum (map (fun fr => fsize (fr_fields fr)) st).

Lemma loop_fuel : forall n m e sp st out, (ssize st < n)%nat -> (ssize st < m)%nat ->
  fields_loop n e sp st out = fields_loop m e sp st out.
Proof.
  induction n as [|n IH]; intros m e sp st out N M. lia. destruct m as [|m]. lia. cbn [fields_loop].
  destruct st as [|fr st]; auto. unfold ssize in N, M. cbn [map list_sum fold_right] in N, M. unfold fsize in N at 1. unfold fsize in M at 1.
  destruct (fr_fields fr) as [|[v t] fs] eqn:F; cbn [map list_sum fold_right] in N, M.
  - apply IH; unfold ssize, list_sum in *; lia.
  - destruct (field_step e sp fr v t) as [s| |] eqn:E; cbn [abind]; auto. apply step_sound in E. destruct E; apply IH;
      unfold ssize; cbn [map list_sum fold_right fr_fields]; try (unfold fsize at 1; unfold ssize, list_sum in *; lia).
    all: apply record_size in H2; unfold ssize, list_sum in *; unfold fsize in *; unfold list_sum in *; cbn [fr_fields] in *; lia.
Qed.

(** A listed column and the field information for it. *)
Definition describes (x : list fvar * fvar * (text * text)) (f : FieldInfo) : Prop :=
  let '(path, v, (q, n)) := x in
  map sn_name (fi_sel f) = map v_name path /\ map sn_tag (fi_sel f) = map v_tag path
  /\ fi_name f = v_name v /\ fi_tag f = v_tag v /\ fi_col f = MkCol q n
  /\ parseFieldMode (v_tag v) = Ok (fi_mode f).
Definition sel_path (sel : list selnode) (path : list fvar) : Prop :=
  map sn_name sel = map v_name path /\ map sn_tag sel = map v_tag path.
Lemma sel_path_app : forall sel path nd v, sel_path sel path -> sn_name nd = v_name v -> sn_tag nd = v_tag v -> sel_path (sel ++ [nd]) (path ++ [v]).
Proof. intros sel path nd v [A C] N T. unfold sel_path. rewrite !map_app. cbn [map]. now rewrite A, C, N, T. Qed.

Lemma frame_eta : forall fr, fr = MkFrame (fr_fields fr) (fr_imported fr) (fr_pfx fr) (fr_sel fr).
Proof. now destruct fr. Qed.

Lemma loop_sound : forall n e sp fr path st out r, sel_path (fr_sel fr) path ->
  fields_loop n e sp (fr :: st) out = AOk r ->
  exists l l' n', (n' < n)%nat /\ columns (e_pkg e) (map fst sp) (fr_imported fr) (fr_pfx fr) path (fr_fields fr) l
    /\ Forall2 describes l l' /\ fields_loop n' e sp st (out ++ l') = AOk r.
Proof.
  induction n as [n IH] using lt_wf_ind. intros e sp fr path st out r P H. destruct n as [|n]; [discriminate|]. cbn [fields_loop] in H.
  destruct (fr_fields fr) as [|[v t] fs] eqn:F.
  - exists [], [], n. split; [lia|]. split; [constructor|]. split; [constructor|]. now rewrite app_nil_r.
  - destruct (abind_ok _ _ _ H) as (s & E & H'). clear H. apply step_sound in E. destruct E as [PO|s o f NP PK T NR C O N Se M Tg Fk|p o fs' m nd NP PK T R Im O N Tg].
    + apply (IH n) with (path := path) in H'; [|lia|exact P]. destruct H' as (l & l' & n' & L & Cl & D & H').
      exists l, l', n'. split; [lia|]. split; auto. now apply cl_skip.
    + apply (IH n) with (path := path) in H'; [|lia|exact P]. destruct H' as (l & l' & n' & L & Cl & D & H').
      exists ((path, v, (c_qual (fi_col f), c_col (fi_col f))) :: l), (f :: l'), n'. split; [lia|]. split.
      * eapply cl_column; eauto.
      * split. constructor; auto. destruct P. unfold describes. rewrite Se. conjs; auto. now destruct (fi_col f).
        rewrite <- app_assoc in H'. exact H'.
    + apply (IH n) with (path := path ++ [v]) in H'; [|lia|now apply sel_path_app].
      destruct H' as (l & l' & n' & L & Cl & D & H').
      apply (IH n') with (path := path) in H'; [|lia|exact P]. destruct H' as (l2 & l2' & n2 & L2 & Cl2 & D2 & H').
      exists (l ++ l2), (l' ++ l2'), n2. split; [lia|]. cbn [fr_imported fr_pfx fr_fields] in *. split.
      * eapply cl_nested; eauto.
      * split. now apply Forall2_app. now rewrite app_assoc.
Qed.

Lemma step_leaf_ex : forall e sp fr v t s o q n, ~ passed_over (fr_imported fr) v -> packaged t -> sql_tag v s o ->
  ~ (exists p fs', s = ">" :: p /\ record_type t fs') -> column_in (map fst sp) (fr_pfx fr ++ s) q n -> options_ok v ->
  exists f, field_step e sp fr v t = AOk (FLeaf f) /\ fi_sel f = fr_sel fr /\ fi_name f = v_name v /\ fi_tag f = v_tag v
    /\ fi_col f = MkCol q n /\ parseFieldMode (v_tag v) = Ok (fi_mode f).
Proof.
  intros e sp fr v t s o q n NP PK T NR C O. unfold field_step.
  destruct (bytes_eqb (tag_first (v_tag v) (B "sql")) [] || bytes_eqb (tag_first (v_tag v) (B "sql")) (B "-") || bytes_eqb (v_name v) (B "_")
     || (negb (v_exported v) && fr_imported fr)) eqn:PO.
  { apply passed_over_spec in PO. tauto. }
  destruct (proj2 (ati_packaged e t) PK) as ([i b] & E). rewrite E. cbn [abind].
  apply sql_tag_spec in T. destruct T as [-> _].
  destruct (ati_is_struct _ _ _ _ E) as [IS BS].
  destruct (is_struct i && has_prefix (B ">") s) eqn:D.
  { apply andb_prop in D. destruct D as [D1 D2]. apply IS in D1. destruct D1 as (fs & R). apply has_prefix_spec in D2. destruct D2 as (p & ->).
    exfalso. apply NR. exists p, fs. auto. }
  apply parseColIdent_in in C. rewrite C. cbn [lift abind].
  apply mode_ok in O. destruct O as (m & O). rewrite O. cbn [lift_res abind]. destruct (parseCoalesceInfo (v_tag v)) as [co cv].
  eexists. split; [reflexivity|]. cbn. auto.
Qed.
Lemma step_nested_ex : forall e sp fr v t p o fs' m, ~ passed_over (fr_imported fr) v -> packaged t -> sql_tag v (">" :: p) o ->
  record_type t fs' -> (m = true <-> foreign (e_pkg e) t) -> options_ok v ->
  exists nd, field_step e sp fr v t = AOk (FDescend (MkFrame fs' m (fr_pfx fr ++ p) (fr_sel fr ++ [nd]))) /\ sn_name nd = v_name v /\ sn_tag nd = v_tag v.
Proof.
  intros e sp fr v t p o fs' m NP PK T R F O. unfold field_step.
  destruct (bytes_eqb (tag_first (v_tag v) (B "sql")) [] || bytes_eqb (tag_first (v_tag v) (B "sql")) (B "-") || bytes_eqb (v_name v) (B "_")
     || (negb (v_exported v) && fr_imported fr)) eqn:PO.
  { apply passed_over_spec in PO. tauto. }
  destruct (proj2 (ati_packaged e t) PK) as ([i b] & E). rewrite E. cbn [abind].
  apply sql_tag_spec in T. destruct T as [-> _].
  destruct (ati_is_struct _ _ _ _ E) as [IS BS]. rewrite (proj2 IS) by eauto. cbn [andb].
  change (has_prefix (B ">") (">" :: p)) with true. cbv iota. rewrite (BS _ R).
  apply mode_ok in O. destruct O as (md & O). rewrite O. cbn [lift_res abind skipn].
  pose proof (ati_imported _ _ _ _ E) as Im.
  exists (make_node v i md). split; auto. replace (t_imported i) with m; auto.
  destruct m, (t_imported i); auto; exfalso. assert (false = true) by (apply Im, F; auto); discriminate. assert (false = true) by (apply F, Im; auto); discriminate.
Qed.

Lemma loop_complete : forall e sp f pfx path fs l, columns (e_pkg e) (map fst sp) f pfx path fs l ->
  forall sel, sel_path sel path -> exists l', Forall2 describes l l' /\
    forall st out r n, fields_loop n e sp st (out ++ l') = AOk r ->
      exists m, fields_loop m e sp (MkFrame fs f pfx sel :: st) out = AOk r.
Proof.
  intros e sp f pfx path fs l H. induction H as [f pfx path|f pfx path v t fs l PO H IH|f pfx path v t fs l s o q n NP PK T NR C O H IH|f pfx path v t fs l p o fs' f' l' NP PK T R F O H1 IH1 H2 IH2]; intros sel P.
  - exists []. split; [constructor|]. intros st out r n H. rewrite app_nil_r in H. exists (S n). exact H.
  - destruct (IH _ P) as (l' & D & K). exists l'. split; auto. intros st out r n Hn. destruct (K _ _ _ _ Hn) as (m & Hm).
    exists (S m). cbn [fields_loop fr_fields]. rewrite step_skip by exact PO. exact Hm.
  - destruct (IH _ P) as (l' & D & K).
    destruct (step_leaf_ex e sp (MkFrame ((v, t) :: fs) f pfx sel) v t s o q n NP PK T NR C O) as (fi & E & Se & N & Tg & Co & M).
    exists (fi :: l'). split.
    + constructor; auto. destruct P. unfold describes. cbn [fr_sel] in Se. rewrite Se. conjs; auto.
    + intros st out r k Hk. change (fi :: l') with ([fi] ++ l') in Hk. rewrite app_assoc in Hk. destruct (K _ _ _ _ Hk) as (m & Hm).
      exists (S m). cbn [fields_loop fr_fields]. rewrite E. exact Hm.
  - destruct (step_nested_ex e sp (MkFrame ((v, t) :: fs) f pfx sel) v t p o fs' f' NP PK T R F O) as (nd & E & N & Tg).
    destruct (IH1 _ (sel_path_app _ _ nd v P N Tg)) as (l1 & D1 & K1). destruct (IH2 _ P) as (l2 & D2 & K2).
    exists (l1 ++ l2). split. now apply Forall2_app. intros st out r k Hk. rewrite app_assoc in Hk.
    destruct (K2 _ _ _ _ Hk) as (m & Hm). destruct (K1 _ _ _ _ Hm) as (m' & Hm').
    exists (S m'). cbn [fields_loop fr_fields]. rewrite E. exact Hm'.
Qed.

Lemma fields_sound : forall e sp im fs l', analyzeFieldInfoList e sp im fs = AOk l' ->
  exists l, columns (e_pkg e) (map fst sp) im [] [] fs l /\ Forall2 describes l l'.
Proof.
  intros e sp im fs l' H. unfold analyzeFieldInfoList in H. apply loop_sound with (path := []) in H; [|now split].
  destruct H as (l & l2 & n & _ & C & D & H). exists l. split; auto. destruct n; [discriminate|]. cbn in H. inversion H; subst. auto.
Qed.
Lemma loop_mono : forall n e sp st out r, fields_loop n e sp st out = AOk r -> forall m, (n <= m)%nat -> fields_loop m e sp st out = AOk r.
Proof.
  induction n as [|n IH]; intros e sp st out r H m L; [discriminate|]. destruct m as [|m]; [lia|]. cbn [fields_loop] in *.
  destruct st as [|fr st]; auto. destruct (fr_fields fr) as [|[v t] fs].
  - apply IH; auto; lia.
  - destruct (field_step e sp fr v t) as [s| |]; cbn [abind] in *; try discriminate. destruct s; apply IH; auto; lia.
Qed.
Lemma fields_complete : forall e sp im fs l, columns (e_pkg e) (map fst sp) im [] [] fs l ->
  exists l', analyzeFieldInfoList e sp im fs = AOk l' /\ Forall2 describes l l'.
Proof.
  intros e sp im fs l H. destruct (loop_complete _ _ _ _ _ _ _ H []) as (l' & D & K); [now split|].
  exists l'. split; auto. destruct (K [] [] l' 1%nat eq_refl) as (m & Hm). unfold analyzeFieldInfoList.
  rewrite (loop_fuel _ (S (S (tsize (TStruct fs))) + m)).
  - eapply loop_mono; eauto. lia.
  - rewrite tsize_struct. unfold ssize, list_sum at 1. cbn [map fold_right fr_fields]. lia.
  - rewrite tsize_struct. unfold ssize, list_sum at 1. cbn [map fold_right fr_fields]. lia.
Qed.
