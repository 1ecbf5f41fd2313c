(** Definitions and proofs used by PropsFieldFacts.v. *)
From Coq Require Import Ascii String ZArith NArith Bool List Lia.
From Verif Require Import GoBase Strconv ConvertUtil ConvertProofs Filter Filters2Final AParse PgSpec TagSpec SqlSpec AParseProofs TagsFinal Analysis AnalysisSpec AnalysisProofs AnalysisRoles QuerySpec QueryProofs QueryShape QuerySlots QueryFinal FieldSpec.
Import ListNotations.
Local Open Scope string_scope.
Local Open Scope list_scope.

(** *** tags *)
Lemma tag_get_nil : forall t k, tag_get t k = [] -> forall x l, ~ tag_value t k (x :: l).
Proof. intros t k H x l V. apply tag_value_lookup in V. unfold tag_get in H. unfold text, bytes in *. rewrite V in H. discriminate. Qed.

Lemma tag_get_cons : forall t k x l, tag_get t k = x :: l -> tag_value t k (x :: l).
Proof. intros t k x l H. unfold tag_get in H. apply tag_value_lookup. destruct (lookup k t); [|discriminate]. f_equal. exact H. Qed.

Lemma tag_value_get : forall t k x l, tag_value t k (x :: l) -> tag_get t k = x :: l.
Proof. intros t k x l H. apply tag_value_lookup in H. unfold tag_get. unfold text, bytes in *. now rewrite H. Qed.

Lemma tag_first_spec : forall v k x, tag_first (v_tag v) k = x <-> first_value v k x.
Proof.
  intros v k x. unfold tag_first. split.
  - intros <-. destruct (tag_get (v_tag v) k) as [|y l] eqn:G.
    + apply fv_none. now apply tag_get_nil.
    + eapply fv_some. eapply tag_get_cons; eauto.
  - intros [y l V|N].
    + now rewrite (tag_value_get _ _ _ _ V).
    + destruct (tag_get (v_tag v) k) as [|y l] eqn:G; auto. apply tag_get_cons in G. now apply N in G.
Qed.

Lemma sql_tag_here : forall v, sql_tag v (tag_first (v_tag v) (B "sql")) (tl (tag_get (v_tag v) (B "sql"))).
Proof. intros. now apply sql_tag_spec. Qed.

Lemma tag_opt_spec : forall v o, tag_opt (v_tag v) (B "sql") o = true <-> has_option v o.
Proof.
  intros v o. unfold tag_opt, has_option. split.
  - intros H. exists (tag_first (v_tag v) (B "sql")), (tl (tag_get (v_tag v) (B "sql"))). split; [apply sql_tag_here|].
    destruct (tag_get (v_tag v) (B "sql")) as [|x l]; [discriminate|]. cbn [tl]. apply existsb_exists in H. destruct H as (y & I & E).
    apply bytes_eqb_eq in E. now subst.
  - intros (x & l & T & I). apply sql_tag_spec in T. destruct T as [_ <-]. destruct (tag_get (v_tag v) (B "sql")) as [|y l]; [destruct I|].
    apply existsb_exists. exists o. split; auto. apply bytes_eqb_refl.
Qed.

Lemma granted_mode : forall v m, parseFieldMode (v_tag v) = Ok m -> granted v m.
Proof.
  intros v m H. exists (tag_first (v_tag v) (B "sql")), (tl (tag_get (v_tag v) (B "sql"))). split; [apply sql_tag_here|].
  assert (G : forall p, last_word p (flat_map option_says (tl (tag_get (v_tag v) (B "sql")))) (allowed p m)).
  { intros p. destruct (tag_get (v_tag v) (B "sql")) as [|x l] eqn:T.
    - destruct (C34_no_options_proof (v_tag v)) as (m' & A & A'). { rewrite T. cbn. lia. } rewrite A in H. injection H as <-.
      rewrite A'. right. split; auto.
    - destruct (C34_last_option_wins_proof (v_tag v) x l T) as (m' & A & A').
      { assert (O : options_ok v) by (apply mode_ok; eauto). destruct O as (y & l' & Y & N). apply sql_tag_spec in Y. rewrite T in Y. destruct Y as [_ <-].
        cbn [tl] in N. apply Forall_forall. intros z I ->. auto. }
      rewrite A in H. injection H as <-. cbn [tl]. now apply A'. }
  repeat split; [apply (G PSelect)|apply (G PFilter)|apply (G PInsert)|apply (G PUpdate)|apply (G PNull)].
Qed.

Lemma co_prefix : forall s, has_prefix (B "coalesce") s = true <-> exists o, s = lit "coalesce" ++ o.
Proof. intros s. rewrite has_prefix_spec. reflexivity. Qed.

Lemma find_split : forall {A} (p : A -> bool) l, match find p l with
  | Some x => exists l1 l2, l = l1 ++ x :: l2 /\ p x = true /\ Forall (fun y => p y = false) l1
  | None => Forall (fun y => p y = false) l end.
Proof.
  induction l as [|x l IH]; cbn; auto. destruct (p x) eqn:P.
  - exists [], l. auto.
  - destruct (find p l) as [y|].
    + destruct IH as (l1 & l2 & -> & Y & F). exists (x :: l1), l2. auto.
    + auto.
Qed.

Lemma co_none : forall l, Forall (fun y => has_prefix (B "coalesce") y = false) l -> forall o, In (lit "coalesce" ++ o) l -> False.
Proof.
  intros l F o I. rewrite Forall_forall in F. specialize (F _ I). assert (C : has_prefix (B "coalesce") (lit "coalesce" ++ o) = true) by (apply co_prefix; eauto).
  unfold text, bytes in *. congruence.
Qed.

Lemma coalesce_arg_spec : forall o, (exists s, o = lit "(" ++ s ++ lit ")" /\ no_newline s /\ coalesce_arg (lit "coalesce" ++ o) = s)
  \/ ((forall y, o = lit "(" ++ y ++ lit ")" -> ~ no_newline y) /\ coalesce_arg (lit "coalesce" ++ o) = []).
Proof.
  intros o. unfold coalesce_arg. change (skipn 8 (lit "coalesce" ++ o)) with o. destruct o as [|c r].
  - right. split; auto. intros y E. discriminate.
  - destruct (rev r) as [|d ir] eqn:R.
    + right. split; auto. intros y E. injection E as -> E. subst r. rewrite rev_app_distr in R. discriminate.
    + assert (r = rev ir ++ [d]) as ->. { rewrite <- (rev_involutive r), R. reflexivity. }
      assert (NL : existsb (fun x => (code x =? 10)%N) ir = true <-> ~ no_newline (rev ir)).
      { unfold no_newline. rewrite <- in_rev. split.
        - intros E H. apply H. apply existsb_exists in E. destruct E as (x & I & E). apply N.eqb_eq in E. unfold code in E.
          rewrite <- (ascii_N_embedding x), E in I. exact I.
        - intros H. destruct (existsb (fun x => (code x =? 10)%N) ir) eqn:E; auto. exfalso. apply H. intros I.
          assert (C : existsb (fun x => (code x =? 10)%N) ir = true) by (apply existsb_exists; exists (ascii_of_N 10); split; auto). congruence. }
      destruct (beq c "(" && beq d ")" && negb (existsb (fun x => (code x =? 10)%N) ir))%bool eqn:E.
      * apply andb_prop in E. destruct E as [E E3]. apply andb_prop in E. destruct E as [E1 E2]. apply Ascii.eqb_eq in E1, E2. subst. left.
        exists (rev ir). split; auto. split; auto. intros I. apply negb_true_iff in E3. rewrite <- not_true_iff_false, NL in E3. auto.
      * right. split; auto. intros y Y N. change (lit "(" ++ y ++ lit ")") with ("("%char :: y ++ [")"%char]) in Y. injection Y as -> Y.
        apply app_inj_tail in Y. destruct Y as [<- ->]. cbn in E. apply negb_false_iff in E. apply NL in E. auto.
Qed.

Lemma coalesce_spec : forall v co cv, parseCoalesceInfo (v_tag v) = (co, cv) -> coalesces v co cv.
Proof.
  intros v co cv H. pose proof (sql_tag_here v) as T. unfold parseCoalesceInfo in H. destruct (tag_get (v_tag v) (B "sql")) as [|x l]; cbn [tl] in T.
  - injection H as <- <-. eapply co_no; eauto.
  - pose proof (find_split (has_prefix (B "coalesce")) l) as F. destruct (find (has_prefix (B "coalesce")) l) as [o|].
    + destruct F as (l1 & l2 & -> & P & F). apply co_prefix in P. destruct P as (s & ->). injection H as <- H2.
      destruct (coalesce_arg_spec s) as [(y & -> & N & E)|[N E]]; [assert (cv = y) as -> by (etransitivity; [symmetry; exact H2|exact E])|assert (cv = []) as -> by (etransitivity; [symmetry; exact H2|exact E])].
      * eapply co_value; eauto. now apply co_none.
      * eapply co_other; eauto. now apply co_none.
    + injection H as <- <-. eapply co_no; eauto. now apply co_none.
Qed.

(** *** keys *)
Lemma cut_spec : forall sep s, match cut_first sep s with
  | Some (a, b) => s = a ++ sep :: b /\ ~ In sep a
  | None => ~ In sep s end.
Proof.
  induction s as [|c s IH]; cbn [cut_first]; auto. destruct (beq c sep) eqn:E.
  - apply Ascii.eqb_eq in E. subst. auto.
  - apply Ascii.eqb_neq in E. destruct (cut_first sep s) as [[a b]|].
    + destruct IH as [-> N]. split; auto. intros [|]; auto.
    + intros [|]; auto.
Qed.

Lemma cut_key : forall k y, ~ In ":"%char k -> cut_first ":" (k ++ ":"%char :: y) = Some (k, y).
Proof.
  induction k as [|c k IH]; intros y N; cbn [app cut_first].
  - reflexivity.
  - destruct (beq c ":") eqn:E. { apply Ascii.eqb_eq in E. subst. exfalso. apply N. now left. } rewrite IH; auto. intros I. apply N. now right.
Qed.

Definition o_tag (st : bytes * bytes * bool) := fst (fst st).

Definition o_sep (st : bytes * bytes * bool) := snd (fst st).

Definition o_base (st : bytes * bytes * bool) := snd st.

Ltac nocolon := let I := fresh in intros I; cbn in I; repeat (destruct I as [I|I]; [discriminate|]); destruct I.

Lemma fck_opt_other : forall st o, (forall y, o <> lit "tag" ++ ":"%char :: y) -> (forall y, o <> lit "sep" ++ ":"%char :: y) ->
  (forall y, o <> lit "base" ++ ":"%char :: y) -> fck_opt st o = st.
Proof.
  intros [[a b] c] o T S0 B0. unfold fck_opt. pose proof (cut_spec ":" o) as C. destruct (cut_first ":" o) as [[k x]|]; auto. destruct C as [-> _].
  destruct (bytes_eqb k (B "tag")) eqn:E1. { apply bytes_eqb_eq in E1. subst. exfalso. now apply (T x). }
  destruct (bytes_eqb k (B "sep")) eqn:E2. { apply bytes_eqb_eq in E2. subst. exfalso. now apply (S0 x). }
  destruct (bytes_eqb k (B "base")) eqn:E3. { apply bytes_eqb_eq in E3. subst. exfalso. now apply (B0 x). }
  reflexivity.
Qed.

Lemma fck_tag : forall st y, fck_opt st (lit "tag" ++ ":"%char :: y) = (y, o_sep st, o_base st).
Proof. intros [[a b] c] y. unfold fck_opt. rewrite cut_key; [reflexivity|nocolon]. Qed.

Lemma fck_sep : forall st y, fck_opt st (lit "sep" ++ ":"%char :: y) = (o_tag st, y, o_base st).
Proof. intros [[a b] c] y. unfold fck_opt. rewrite cut_key; [reflexivity|nocolon]. Qed.

Lemma fck_base : forall st y, fck_opt st (lit "base" ++ ":"%char :: y) = (o_tag st, o_sep st, parse_bool y).
Proof. intros [[a b] c] y. unfold fck_opt. rewrite cut_key; [reflexivity|nocolon]. Qed.

Inductive opt_kind (o : text) : Prop :=
| ok_tag : forall y, o = lit "tag" ++ ":"%char :: y -> opt_kind o
| ok_sep : forall y, o = lit "sep" ++ ":"%char :: y -> opt_kind o
| ok_base : forall y, o = lit "base" ++ ":"%char :: y -> opt_kind o
| ok_other : (forall y, o <> lit "tag" ++ ":"%char :: y) -> (forall y, o <> lit "sep" ++ ":"%char :: y) ->
  (forall y, o <> lit "base" ++ ":"%char :: y) -> opt_kind o.

Lemma opt_cases : forall o, opt_kind o.
Proof.
  intros o. pose proof (cut_spec ":" o) as C. destruct (cut_first ":" o) as [[k x]|].
  - destruct C as [-> N]. destruct (bytes_dec k (lit "tag")) as [->|E1]; [eapply ok_tag; eauto|]. destruct (bytes_dec k (lit "sep")) as [->|E2]; [eapply ok_sep; eauto|].
    destruct (bytes_dec k (lit "base")) as [->|E3]; [eapply ok_base; eauto|].
    assert (G : forall w y, ~ In ":"%char w -> k <> w -> k ++ ":"%char :: x <> w ++ ":"%char :: y).
    { intros w y W E H. assert (X := cut_key k x N). unfold text, bytes in *. rewrite H in X. rewrite (cut_key w y W) in X. injection X as X _. auto. }
    apply ok_other; intros y; apply G; auto; nocolon.
  - apply ok_other; intros y ->; apply C; apply in_or_app; right; now left.
Qed.

Lemma tag_not_sep : forall y z, lit "tag" ++ ":"%char :: y <> lit "sep" ++ ":"%char :: z.
Proof. intros y z H. discriminate H. Qed.

Lemma tag_not_base : forall y z, lit "tag" ++ ":"%char :: y <> lit "base" ++ ":"%char :: z.
Proof. intros y z H. discriminate H. Qed.

Lemma sep_not_base : forall y z, lit "sep" ++ ":"%char :: y <> lit "base" ++ ":"%char :: z.
Proof. intros y z H. discriminate H. Qed.

(** One more option at the end. *)
Lemma set_last : forall k l d x, setting k (l ++ [k ++ ":"%char :: x]) d x.
Proof. intros. left. exists l, []. split; auto. Qed.

Lemma set_keep : forall k l d x o, setting k l d x -> (forall y, o <> k ++ ":"%char :: y) -> setting k (l ++ [o]) d x.
Proof.
  intros k l d x o [(l1 & l2 & -> & N)|[-> N]] O.
  - left. exists l1, (l2 ++ [o]). rewrite <- app_assoc. split; auto. intros y I. apply in_app_or in I. destruct I as [I|[I|[]]]; [eapply N; eauto|eapply O; eauto].
  - right. split; auto. intros y I. apply in_app_or in I. destruct I as [I|[I|[]]]; [eapply N; eauto|eapply O; eauto].
Qed.

Lemma truth_spec : forall x, parse_bool x = true <-> In x truths.
Proof.
  intros x. unfold parse_bool. rewrite existsb_exists. split.
  - intros (y & I & E). apply bytes_eqb_eq in E. now subst.
  - intros I. exists x. split; auto. apply bytes_eqb_refl.
Qed.

Lemma flag_last : forall k l d x, flag_setting k (l ++ [k ++ ":"%char :: x]) d (parse_bool x).
Proof. intros. left. exists l, x, []. split; auto. split; auto. apply truth_spec. Qed.

Lemma flag_keep : forall k l d b o, flag_setting k l d b -> (forall y, o <> k ++ ":"%char :: y) -> flag_setting k (l ++ [o]) d b.
Proof.
  intros k l d b o [(l1 & x & l2 & -> & N & T)|[-> N]] O.
  - left. exists l1, x, (l2 ++ [o]). rewrite <- app_assoc. split; auto. split; auto. intros y I. apply in_app_or in I. destruct I as [I|[I|[]]]; [eapply N; eauto|eapply O; eauto].
  - right. split; auto. intros y I. apply in_app_or in I. destruct I as [I|[I|[]]]; [eapply N; eauto|eapply O; eauto].
Qed.

Lemma fck_opts_spec : forall l st, let r := fold_left fck_opt l st in
  setting (lit "tag") l (o_tag st) (o_tag r) /\ setting (lit "sep") l (o_sep st) (o_sep r) /\ flag_setting (lit "base") l (o_base st) (o_base r).
Proof.
  intros l st. induction l as [|o l IH] using rev_ind; cbv zeta in *.
  - cbn. split; [|split]; right; auto.
  - rewrite fold_left_app. cbn [fold_left]. set (r := fold_left fck_opt l st) in *. clearbody r. destruct IH as (A & A' & A''). destruct (opt_cases o) as [y ->|y ->|y ->|O1 O2 O3].
    + rewrite fck_tag. split; [apply set_last|]. split; [apply set_keep; auto; intros; apply tag_not_sep|apply flag_keep; auto; intros; apply tag_not_base].
    + rewrite fck_sep. split; [apply set_keep; auto; intros z E; symmetry in E; now apply tag_not_sep in E|]. split; [apply set_last|apply flag_keep; auto; intros; apply sep_not_base].
    + rewrite fck_base. split; [apply set_keep; auto; intros z E; symmetry in E; now apply tag_not_base in E|].
      split; [apply set_keep; auto; intros z E; symmetry in E; now apply sep_not_base in E|apply flag_last].
    + rewrite fck_opt_other by auto. split; [|split]; [apply set_keep|apply set_keep|apply flag_keep]; auto.
Qed.

Definition node_tag (w : fvar) (n : selnode) : Prop := sn_name n = v_name w /\ sn_tag n = v_tag w.

Lemma sel_fck_spec : forall path sel, Forall2 node_tag path sel ->
  match sel_fck sel with
  | Some (l, s) => exists p1 w p2 x l', path = p1 ++ w :: p2 /\ Forall no_fck p1 /\ l = x :: l' /\ tag_value (v_tag w) (lit "fck") l /\ Forall2 node_tag (w :: p2) s
  | None => Forall no_fck path
  end.
Proof.
  induction 1 as [|w n path sel N F IH]; cbn [sel_fck]; auto. destruct N as [N1 N2]. destruct (tag_get (sn_tag n) (B "fck")) as [|x l] eqn:T; rewrite N2 in T.
  - assert (no_fck w) by (intros y l; now apply tag_get_nil). destruct (sel_fck sel) as [[l s]|]; auto.
    destruct IH as (p1 & w' & p2 & x & l' & -> & A & B1 & C & D). exists (w :: p1), w', p2, x, l'. auto.
  - exists [], w, path, x, l. split; auto. split; auto. split; auto. split; [now apply tag_get_cons|]. constructor; auto. now split.
Qed.

Lemma join_strung : forall sep l, join sep l = strung sep l.
Proof. induction l as [|x [|y l] IH]; auto. Qed.

Lemma names_strung : forall sep path sel v, Forall2 node_tag path sel -> joinFieldName (v_name v) sel sep = strung sep (map v_name (path ++ [v])).
Proof.
  intros sep path sel v F. induction F as [|w n path sel [N _] F IH]; auto. cbn [joinFieldName]. rewrite IH, N. cbn [map app].
  destruct (map v_name (path ++ [v])) as [|y l] eqn:E. { destruct path; discriminate. } reflexivity.
Qed.

Lemma fieldTags_spec : forall tg vs, match fieldTags (map v_tag vs) tg with
  | Some l => (forall w, In w vs -> ~ first_value w tg (lit "-")) /\ contributed tg vs l
  | None => exists w, In w vs /\ first_value w tg (lit "-") end.
Proof.
  induction vs as [|v vs IH]; cbn [map fieldTags].
  - split; [intros w []|constructor].
  - cbv zeta. pose proof (proj1 (tag_first_spec v tg _) eq_refl) as K. destruct (bytes_eqb (tag_first (v_tag v) tg) (B "-")) eqn:E.
    + apply bytes_eqb_eq in E. exists v. split; [now left|]. now apply tag_first_spec.
    + apply bytes_eqb_neq in E. destruct (fieldTags (map v_tag vs) tg) as [l|].
      * destruct IH as [A C]. split.
        -- intros w [<-|I]; auto. intros F. apply tag_first_spec in F. auto.
        -- destruct (tag_first (v_tag v) tg) as [|c k]; [now apply cb_none|apply cb_some; auto; discriminate].
      * destruct IH as (w & I & F). exists w. split; auto. now right.
Qed.

Lemma node_tags : forall path sel, Forall2 node_tag path sel -> map sn_tag sel = map v_tag path.
Proof. induction 1 as [|w n p s [_ N] F IH]; auto. cbn. now rewrite N, IH. Qed.

Lemma filter_key_spec : forall e path sel v, Forall2 node_tag path sel ->
  filter_key (e_fcktag e) (e_fcksep e) (e_fckbase e) path v (parseFilterColumnKey e (v_name v) (v_tag v) sel).
Proof.
  intros e path sel v F. unfold parseFilterColumnKey.
  set (os := match tag_get (v_tag v) (B "fck") with [] => match sel_fck sel with Some (l, s) => (l, s) | None => ([], sel) end | l => (l, sel) end).
  assert (K : exists vs, key_from path v (fst os) (vs ++ [v]) /\ Forall2 node_tag vs (snd os)).
  { subst os. destruct (tag_get (v_tag v) (B "fck")) as [|x l] eqn:T.
    - assert (no_fck v) by (intros y l; now apply tag_get_nil). pose proof (sel_fck_spec path sel F) as S0. destruct (sel_fck sel) as [[l s]|].
      + destruct S0 as (p1 & w & p2 & x & l' & -> & A & -> & C & D). exists (w :: p2). split; auto. cbn [fst app]. eapply kf_outer; eauto.
      + exists path. split; auto. now apply kf_none.
    - exists path. split; auto. apply kf_own. now apply tag_get_cons. }
  destruct K as (vs & K & N). destruct os as [opts s]. cbn [fst snd] in K, N.
  pose proof (fck_opts_spec opts (e_fcktag e, e_fcksep e, e_fckbase e)) as O. cbv zeta in O. destruct (fold_left fck_opt opts (e_fcktag e, e_fcksep e, e_fckbase e)) as [[tg sep] base].
  cbn [o_tag o_sep o_base fst snd] in O. destruct O as (O1 & O2 & O3). exists opts, (vs ++ [v]), tg, sep, base. conjs; auto.
  destruct tg as [|c tg].
  - destruct base; [now apply ky_name|]. rewrite (names_strung sep vs s v N). now apply ky_names.
  - set (k := c :: tg) in *. assert (NE : k <> []) by discriminate. clearbody k. destruct base.
    + cbv zeta. pose proof (proj1 (tag_first_spec v k _) eq_refl) as FV. destruct (bytes_eqb (tag_first (v_tag v) k) (B "-")) eqn:E.
      * apply bytes_eqb_eq in E. rewrite E in FV. now apply ky_dash.
      * apply bytes_eqb_neq in E. now apply ky_tag.
    + unfold joinFieldTag. rewrite (node_tags _ _ N). replace (map v_tag vs ++ [v_tag v]) with (map v_tag (vs ++ [v])) by (now rewrite map_app).
      pose proof (fieldTags_spec k (vs ++ [v])) as FT. destruct (fieldTags (map v_tag (vs ++ [v])) k) as [l|].
      * destruct FT as [A C]. rewrite join_strung. now apply ky_tags.
      * destruct FT as (w & I & W). eapply ky_dashes; eauto.
Qed.

(** *** the loop *)
Lemma ati_name : forall e t i b, analyzeTypeInfo e t = AOk (i, b) -> t_name i = tname_of t /\ (t_path i, t_pkg i) = tpkg_of t.
Proof.
  intros e t i b H. destruct t as [k a r|n t|t|t|k t|t|ps rs|ms a r c|fs|n u]; cbn [analyzeTypeInfo] in H; try (aok; subst; split; reflexivity).
  cbn [tname_of tpkg_of]. destruct (n_pkg n) as [[p pn]|]; [|discriminate]. aok. subst. split; reflexivity.
Qed.

Lemma kind_ptr_under : forall t, kind_ptr (analyzeTypeKind t) = true <-> exists x, under t (TPtr x).
Proof.
  intros t. split.
  - induction t as [k a r|n t IH|t IH|t IH|k IHk t IH|t IH|ps rs|ms a r c|fs|n u IH]; cbn; try discriminate.
    + intros _. exists t. apply un_plain. discriminate.
    + intros H. destruct (IH H) as (x & U). exists x. now apply un_named.
  - intros (x & U). remember (TPtr x) as r eqn:R. revert R. induction U; intros ->; auto.
Qed.

Lemma node_ok : forall e v t i b m, analyzeTypeInfo e t = AOk (i, b) -> parseFieldMode (v_tag v) = Ok m -> node_for (e_pkg e) (v, t) (make_node v i m).
Proof.
  intros e v t i b m H M. pose proof (ati_kind _ _ _ _ H) as K. pose proof (granted_mode _ _ M) as G.
  destruct (kind_ptr (t_kind i)) eqn:P.
  - pose proof P as P'. rewrite K in P'. apply kind_ptr_under in P'. destruct P' as (x & U). destruct (ati_under_ptr _ _ _ _ _ U H) as (j & E & J).
    destruct (ati_name _ _ _ _ J) as [N1 N2]. eapply (nd _ v t x). { now left. } all: unfold make_node; try reflexivity; cbn.
    + rewrite P. split; eauto.
    + exact G.
    + destruct (t_kind i); try discriminate. now rewrite E.
    + destruct (t_kind i); try discriminate. now rewrite E.
    + destruct (t_kind i); try discriminate. rewrite E. eapply ati_imported; eauto.
  - assert (NU : forall x, ~ under t (TPtr x)). { intros x U. assert (C : kind_ptr (analyzeTypeKind t) = true) by (apply kind_ptr_under; eauto). congruence. }
    assert (TY : match t_kind i, t_elem i with KPtr, Some el => el | _, _ => i end = i) by (destruct (t_kind i); try reflexivity; discriminate).
    destruct (ati_name _ _ _ _ H) as [N1 N2]. eapply (nd _ v t t). { right. auto. } all: unfold make_node; rewrite ?TY; try reflexivity; cbn; auto.
    + rewrite P. split; [discriminate|]. intros (x & U). now apply NU in U.
    + eapply ati_imported; eauto.
Qed.

Definition field_good (e : env) (fs : fields) (f : FieldInfo) : Prop :=
  exists path v t, leads fs path v t /\ field_for (e_pkg e) (e_fcktag e) (e_fcksep e) (e_fckbase e) path v t f.

(** [at_path root path fs]: the fields [fs] belong to the struct at [path]. *)
Inductive at_path (root : fields) : list (fvar * gtype) -> fields -> Prop :=
| ap_root : at_path root [] root
| ap_below : forall path fs w u fs', at_path root path fs -> In (w, u) fs -> record_type u fs' -> at_path root (path ++ [(w, u)]) fs'.

Lemma at_path_leads : forall root path fs v t, at_path root path fs -> forall path', leads fs path' v t -> leads root (path ++ path') v t.
Proof.
  induction 1 as [|path fs w u fs' A IH I R]; intros path' L; auto. rewrite <- app_assoc. cbn [app]. apply IH. eapply ld_below; eauto.
Qed.

Definition frame_good (e : env) (root : fields) (fr : frame) : Prop :=
  exists path all, at_path root path all /\ incl (fr_fields fr) all /\ Forall2 (node_for (e_pkg e)) path (fr_sel fr).

Lemma node_tag_path : forall pkg path sel, Forall2 (node_for pkg) path sel -> Forall2 node_tag (map fst path) sel.
Proof. induction 1 as [|x n p s N F IH]; constructor; auto. destruct N. now split. Qed.

Lemma step_good : forall e sp root fr v t fs s, fr_fields fr = (v, t) :: fs -> frame_good e root fr -> field_step e sp fr v t = AOk s ->
  match s with FSkip => True | FDescend f => frame_good e root f | FLeaf f => field_good e root f end.
Proof.
  intros e sp root fr v t fs s FF (path & all & AP & I & N) H. assert (IN : In (v, t) all) by (apply I; rewrite FF; now left). unfold field_step in H.
  match type of H with (if ?c then _ else _) = _ => destruct c end. { aok. now subst. }
  cbv zeta in H. aok. rename x into i, y into base, E into E. destruct (ati_is_struct _ _ _ _ E) as [IS BS].
  destruct (is_struct i && has_prefix (B ">") (tag_first (v_tag v) (B "sql")))%bool eqn:D.
  - apply andb_prop in D. destruct D as [D1 _]. apply IS in D1. destruct D1 as (fs' & R). rewrite (BS _ R) in K. aok. subst.
    exists (path ++ [(v, t)]), fs'. cbn [fr_fields fr_sel]. split; [eapply ap_below; eauto|]. split; [apply incl_refl|]. apply Forall2_app; auto. constructor; auto. eapply node_ok; eauto.
  - aok. destruct (parseCoalesceInfo (v_tag v)) as [co cv] eqn:CO. aok. subst s. exists path, v, t. split.
    + rewrite <- (app_nil_r path). eapply at_path_leads; eauto. now apply ld_here.
    + constructor; cbn; auto; try apply tag_opt_spec.
      * now apply granted_mode.
      * now apply coalesce_spec.
      * apply filter_key_spec. eapply node_tag_path; eauto.
      * eapply ati_name; eauto.
      * eapply ati_imported; eauto.
Qed.

Lemma loop_good : forall n e sp root st out r, fields_loop n e sp st out = AOk r -> Forall (frame_good e root) st -> Forall (field_good e root) out -> Forall (field_good e root) r.
Proof.
  induction n as [|n IH]; intros e sp root st out r H FS FO; [discriminate|]. cbn [fields_loop] in H. destruct st as [|fr st]; [aok; now subst|].
  inversion FS as [|? ? G FS']; subst. destruct (fr_fields fr) as [|[v t] fs] eqn:F; [eapply IH; eauto|].
  cbv zeta in H. aok. pose proof (step_good _ _ _ _ _ _ _ _ F G E) as SG.
  assert (G' : frame_good e root (MkFrame fs (fr_imported fr) (fr_pfx fr) (fr_sel fr))).
  { destruct G as (path & all & A1 & A2 & A3). exists path, all. split; auto. split; auto. rewrite F in A2. intros x I. apply A2. now right. }
  destruct a as [|f|f]; eapply IH; eauto. apply Forall_app. split; auto.
Qed.

Lemma C91_field_proof : forall e sp t rt f, analyzeRelType e sp t = AOk rt -> In f (rt_fields rt) ->
  exists n fs h path v u, record_of (e_pkg e) t n fs h /\ leads fs path v u
    /\ field_for (e_pkg e) (e_fcktag e) (e_fcksep e) (e_fckbase e) path v u f.
Proof.
  intros e sp t rt f H I. apply rel_type_sound in H. destruct H as (n & fs & h & R & N & F). apply finish_ok in F.
  destruct F as (fs' & l' & E & _ & L & ->). injection E as <-. cbn [rt_fields] in I. unfold analyzeFieldInfoList in L.
  apply loop_good with (root := fs) in L.
  - rewrite Forall_forall in L. destruct (L f I) as (path & v & u & A & C). exists n, fs, h, path, v, u. auto.
  - constructor; auto. exists [], fs. split; [constructor|]. split; [apply incl_refl|constructor].
  - constructor.
Qed.

Definition ex_key_env : env := MkEnv (lit "app") (lit "json") (lit ".") false.

Definition ex_keys : gtype := TStruct
  [(ex_var "Id" [(lit "sql", [lit "id"; lit "nullempty"; lit "coalesce(0)"]); (lit "json", [lit "id"; lit "omitempty"])], ex_int);
   (ex_var "Owner" [(lit "sql", [lit ">owner_"]); (lit "json", [lit "owner"])], TPtr (TNamed (ex_name "Owner") (TStruct
      [(ex_var "Mail" [(lit "sql", [lit "mail"; lit "-w"; lit "add"]); (lit "json", [lit "mail"])], ex_str);
       (ex_var "Home" [(lit "sql", [lit ">home_"]); (lit "fck", [lit "tag:"; lit "sep:_"])], TStruct
          [(ex_var "City" [(lit "sql", [lit "city"])], ex_str);
           (ex_var "Zip" [(lit "sql", [lit "zip"]); (lit "fck", [lit "base:true"]); (lit "json", [lit "z"])], ex_str)])])));
   (ex_var "Hidden" [(lit "sql", [lit "hidden"; lit "default"]); (lit "json", [lit "-"])], ex_str)].

(** The description leaves no choice of the key. *)
Lemma first_value_fun : forall v k x y, first_value v k x -> first_value v k y -> x = y.
Proof. intros v k x y A C. apply tag_first_spec in A, C. congruence. Qed.

Lemma tag_value_fun : forall t k l l', tag_value t k l -> tag_value t k l' -> l = l'.
Proof. intros t k l l' A C. apply tag_value_lookup in A, C. congruence. Qed.

Lemma setting_fun : forall k l d x y, setting k l d x -> setting k l d y -> x = y.
Proof.
  intros k l d x y A C. revert A C. induction l as [|o l IH] using rev_ind; intros A C.
  - destruct A as [(l1 & l2 & E & _)|[-> _]]; [destruct l1; discriminate|]. destruct C as [(l1 & l2 & E & _)|[-> _]]; [destruct l1; discriminate|]. reflexivity.
  - assert (G : forall x, setting k (l ++ [o]) d x -> o = k ++ ":"%char :: x \/ ((forall y, o <> k ++ ":"%char :: y) /\ setting k l d x)).
    { clear. intros x [(l1 & l2 & E & N)|[-> N]].
      - destruct l2 as [|z l2] using rev_ind.
        + apply app_inj_tail in E. destruct E as [_ ->]. now left.
        + clear IHl2. change (l1 ++ (k ++ ":"%char :: x) :: l2 ++ [z]) with (l1 ++ ((k ++ ":"%char :: x) :: l2) ++ [z]) in E. rewrite app_assoc in E.
          apply app_inj_tail in E. destruct E as [-> ->]. right. split.
          * intros y ->. apply (N y). apply in_or_app. right. now left.
          * left. exists l1, l2. split; auto. intros y I. apply (N y). apply in_or_app. now left.
      - right. split.
        + intros y ->. apply (N y). apply in_or_app. right. now left.
        + right. split; auto. intros y I. apply (N y). apply in_or_app. now left. }
    destruct (G _ A) as [E|[N A']]; destruct (G _ C) as [E'|[N' C']]; auto.
    + rewrite E in E'. apply app_inv_head in E'. now injection E'.
    + exfalso. eapply N'; eauto.
    + exfalso. eapply N; eauto.
Qed.

Lemma flag_setting_text : forall k l d b, flag_setting k l d b -> exists x, setting k l (if d then lit "1" else lit "0") x /\ (b = true <-> In x truths).
Proof.
  intros k l d b [(l1 & x & l2 & E & N & T)|[-> N]].
  - exists x. split; auto. left. exists l1, l2. auto.
  - exists (if d then lit "1" else lit "0"). split; [right; auto|]. destruct d; split; intros H; auto; try discriminate; try (now left).
    cbn in H. repeat (destruct H as [H|H]; [discriminate|]). destruct H.
Qed.

Lemma flag_fun : forall k l d b c, flag_setting k l d b -> flag_setting k l d c -> b = c.
Proof.
  intros k l d b c A C. apply flag_setting_text in A, C. destruct A as (x & A & A'), C as (y & C & C'). rewrite (setting_fun _ _ _ _ _ A C) in A'.
  destruct b, c; auto; [symmetry; now apply C', A'|now apply A', C'].
Qed.

Lemma first_fck : forall p1 w p2 q1 z q2 x l y m, p1 ++ w :: p2 = q1 ++ z :: q2 -> Forall no_fck p1 -> Forall no_fck q1 ->
  tag_value (v_tag w) (lit "fck") (x :: l) -> tag_value (v_tag z) (lit "fck") (y :: m) -> w = z /\ p2 = q2.
Proof.
  induction p1 as [|a p1 IH]; intros w p2 [|c q1] z q2 x l y m E F G W Z; cbn in E.
  - injection E as -> ->. auto.
  - injection E as -> E. inversion G; subst. exfalso. now apply (H1 x l).
  - injection E as -> E. inversion F; subst. exfalso. now apply (H1 y m).
  - injection E as -> E. inversion F; inversion G; subst. eapply IH; eauto.
Qed.

Lemma key_from_fun : forall path v o vs o' vs', key_from path v o vs -> key_from path v o' vs' -> o = o' /\ vs = vs'.
Proof.
  intros path v o vs o' vs' A C. destruct A as [x l T|p1 w p2 x l N E F T|N F]; destruct C as [x' l' T'|p1' w' p2' x' l' N' E' F' T'|N' F'].
  - rewrite (tag_value_fun _ _ _ _ T T'). auto.
  - exfalso. now apply (N' x l).
  - exfalso. now apply (N' x l).
  - exfalso. now apply (N x' l').
  - rewrite E in E'. destruct (first_fck _ _ _ _ _ _ _ _ _ _ E' F F' T T') as [-> ->]. rewrite (tag_value_fun _ _ _ _ T T'). auto.
  - exfalso. subst. rewrite Forall_forall in F'. apply (F' w) in T; auto. apply in_or_app. right. now left.
  - exfalso. now apply (N x' l').
  - exfalso. subst. rewrite Forall_forall in F. apply (F w') in T'; auto. apply in_or_app. right. now left.
  - auto.
Qed.

Lemma contributed_fun : forall k vs l l', contributed k vs l -> contributed k vs l' -> l = l'.
Proof.
  intros k vs l l' A. revert l'. induction A as [|v vs l F A IH|v vs l x F N A IH]; intros l' C; inversion C as [|? ? ? F' C'|? ? ? ? F' N' C']; subst; auto.
  - pose proof (first_value_fun _ _ _ _ F F'). congruence.
  - pose proof (first_value_fun _ _ _ _ F F'). congruence.
  - rewrite (first_value_fun _ _ _ _ F F'), (IH _ C'). reflexivity.
Qed.

Lemma key_of_fun : forall vs v tg sep base x y, key_of vs v tg sep base x -> key_of vs v tg sep base y -> x = y.
Proof.
  intros vs v tg sep base x y A C. destruct A as [E|E|x E F N|E F|l E N D|w E I F]; inversion C as [E'|E'|x' E' F' N'|E' F'|l' E' N' D'|w' E' I' F']; subst; try congruence; auto.
  - eapply first_value_fun; eauto.
  - pose proof (first_value_fun _ _ _ _ F F'). congruence.
  - pose proof (first_value_fun _ _ _ _ F F'). congruence.
  - now rewrite (contributed_fun _ _ _ _ D D').
  - exfalso. eapply N; eauto.
  - exfalso. eapply N'; eauto.
Qed.

Lemma C91_key_unique_proof : forall dtag dsep dbase path v k k', filter_key dtag dsep dbase path v k -> filter_key dtag dsep dbase path v k' -> k = k'.
Proof.
  intros dtag dsep dbase path v k k' (o & vs & tg & sep & b & A1 & A2 & A3 & A4 & A5) (o' & vs' & tg' & sep' & b' & C1 & C2 & C3 & C4 & C5).
  destruct (key_from_fun _ _ _ _ _ _ A1 C1) as [<- <-]. rewrite <- (setting_fun _ _ _ _ _ A2 C2), <- (setting_fun _ _ _ _ _ A3 C3), <- (flag_fun _ _ _ _ _ A4 C4) in C5.
  eapply key_of_fun; eauto.
Qed.

(** The relation field decides the kind of query: counting and existence
    queries come from select queries only, the relation directive is for delete
    queries, iterators are for queries with rows to read. *)
Lemma bool_spec : forall t, isBoolType t = true <-> bool_type t.
Proof. intros t. split; [destruct t as [k a b| | | | | | | | | ]; try discriminate; destruct k; try discriminate; intros _; exists a, b; auto|intros (a & b & ->); reflexivity]. Qed.

Lemma and_spec : forall n w b (p : Prop), plain n -> (b = true <-> p) -> ((bytes_eqb (lower n) w && b)%bool = true <-> spelled n w /\ p).
Proof. intros n w b p P H. rewrite andb_true_iff, H, bytes_eqb_eq, plain_lower by auto. reflexivity. Qed.

Lemma C92_kind_proof : forall e name fs q k, analyzeQueryStruct e name fs = AOk q -> query_kind name = AOk k -> plain_names fs ->
  exists fs1 v t fs2 r, fs = fs1 ++ (v, t) :: fs2 /\ tagged v (lit "rel") /\ (forall v' t', In (v', t') (fs1 ++ fs2) -> ~ tagged v' (lit "rel"))
    /\ q_rel q = Some r /\ rf_name r = v_name v /\ relation_kind (e_pkg e) k v t (q_kind q) r.
Proof.
  intros e name fs q k H QK P. destruct (query_inv _ _ _ _ H) as (k' & f1 & v & t & f2 & q0 & Q1 & Q2 & Q3 & Q4 & Q5 & Q6).
  rewrite Q1 in QK. injection QK as ->. pose proof (pass_effect _ _ _ _ Q6) as (K1 & K2 & _).
  assert (PV : plain (v_name v)). { unfold plain_names in P. rewrite Forall_forall in P. apply (P (v, t)). rewrite Q2. apply in_or_app. right. now left. }
  destruct (new_rel_field _ _ _ _ _ Q5) as (s & o & rid & n & T1 & T0 & T2 & T3 & T4 & (rt & dir & T5 & T6) & _).
  exists f1, v, t, f2, (MkRelF (v_name v) rid rt dir). split; auto. split; [eexists; exact T1|]. split.
  { intros v' t' I. rewrite Forall_forall in Q4. specialize (Q4 _ I). cbn [fst] in Q4. intros (l & L). apply tag_value_lookup in L. unfold tag_has in Q4.
    change (B "rel") with (lit "rel") in Q4. unfold text, bytes in *. rewrite L in Q4. discriminate. }
  split; [congruence|]. split; [reflexivity|]. rewrite K1. clear K1 K2 T6 T2. 
  unfold analyzeQueryStructRelField in Q5. cbv zeta in Q5. cbn [q_rel new_query is_some negb] in Q5. aok. cbn [q_sp set_sp_ set_rel_ set_kind_ q_kind new_query] in *.
  pose proof (and_spec (v_name v) (B "count") _ _ PV (integer_spec t)) as C1. pose proof (and_spec (v_name v) (B "exists") _ _ PV (bool_spec t)) as C2.
  pose proof (and_spec (v_name v) (B "notexists") _ _ PV (bool_spec t)) as C3.
  destruct (bytes_eqb (lower (v_name v)) (B "count") && isIntegerType t)%bool.
  { aok. subst q0. cbn in T5. injection T5 as <- <-. apply rk_counts; auto; try reflexivity. destruct k; try discriminate; auto. left. destruct C1 as [C1 _]. destruct (C1 eq_refl). auto. }
  destruct (bytes_eqb (lower (v_name v)) (B "exists") && isBoolType t)%bool.
  { aok. subst q0. cbn in T5. injection T5 as <- <-. apply rk_counts; auto; try reflexivity. destruct k; try discriminate; auto. right. left. destruct C2 as [C2 _]. destruct (C2 eq_refl). auto. }
  destruct (bytes_eqb (lower (v_name v)) (B "notexists") && isBoolType t)%bool.
  { aok. subst q0. cbn in T5. injection T5 as <- <-. apply rk_counts; auto; try reflexivity. destruct k; try discriminate; auto. right. right. destruct C3 as [C3 _]. destruct (C3 eq_refl). auto. }
  assert (NC : forall k', ~ counts (v_name v) t k').
  { intros k' [(A & A' & _)|[(A & A' & _)|(A & A' & _)]]; [assert (X := proj2 C1 (conj A A'))|assert (X := proj2 C2 (conj A A'))|assert (X := proj2 C3 (conj A A'))]; discriminate X. }
  clear C1 C2 C3. destruct (abind_ok _ _ _ K) as (isd & ED & K'). clear K. cbv beta in K'.
  assert (D : isd = true <-> v_name v = lit "_" /\ directive t (lit "Relation")).
  { destruct (bytes_eqb (lower (v_name v)) (B "_")) eqn:U.
    - apply bytes_eqb_eq in U. rewrite plain_lower in U by auto. assert (V : v_name v = lit "_").
      { destruct (v_name v) as [|c [|]]; try discriminate U. injection U as U. unfold lower_char in U. revert U.
        destruct ((N_of_ascii "A" <=? N_of_ascii c) && (N_of_ascii c <=? N_of_ascii "Z"))%N eqn:R; [|now intros ->]. intros X. exfalso.
        apply andb_prop in R. destruct R as [R1 R2]. apply N.leb_le in R1, R2. cbn in R1, R2. apply (f_equal N_of_ascii) in X. rewrite N_ascii_embedding in X by lia. cbn in X. lia. }
      pose proof (IsDirective_spec _ _ _ ED) as DS. change (lit "Relation") with (B "Relation"). tauto.
    - aok. subst. split; [discriminate|]. intros [V _]. rewrite V in U. discriminate U. }
  destruct isd.
  - aok. subst q0. cbn in T5. injection T5 as <- <-. destruct D as [D _]. destruct (D eq_refl). apply rk_directive; auto. destruct k; try discriminate; auto.
  - aok. subst q0. cbn in T5. injection T5 as -> <- <-. apply rk_record; auto.
    + intros C. apply D in C. discriminate.
    + cbn [rf_type rf_id]. cbn [set_rel_ set_sp_ q_sp] in T3. rewrite <- T4, <- T3. eapply rel_type_spec; eauto.
    + cbn [rf_type]. intros IT. match goal with X : negb _ = true |- _ => rewrite IT in X end.
      unfold query_kind in Q1. cbv zeta in Q1. repeat match type of Q1 with (if ?c then _ else _) = _ => destruct c end; try discriminate; injection Q1 as <-; try discriminate; cbn; auto.
Qed.

Lemma C92_override_proof : forall e name fs q o, analyzeQueryStruct e name fs = AOk q -> plain_names fs -> q_override q = Some o ->
  exists v t sc s l, place fs [ROverride] v t sc /\ sql_tag v s l
    /\ (plain s -> (spelled s (lit "system") /\ o = OverridingSystem) \/ (spelled s (lit "user") /\ o = OverridingUser)).
Proof.
  intros e name fs q o H P W.
  destruct (query_slot e name fs q H P q_override [ROverride] o un_override ltac:(start_none) ltac:(no_role) ltac:(no_role) W) as (v & t & q1 & q2 & A1 & A2 & A3 & A4 & _ & _ & A5).
  apply step_ran in A2. one_role. rewrite <- A4 in A2. inversion A2; subst; try (match goal with J : joins _ |- _ => destruct J as [|[|]]; discriminate end).
  match goal with X : analyzeOverrideDirective _ _ _ _ = _ |- _ => unfold analyzeOverrideDirective in X; cbv zeta in X end. aok.
  exists v, t, (map fst (q_sp q1)), (tag_first (v_tag v) (B "sql")), (tl (tag_get (v_tag v) (B "sql"))). split; auto. split; [apply sql_tag_here|]. intros PS. rewrite plain_tolower in K by auto.
  destruct (bytes_eqb (map lower_char (tag_first (v_tag v) (B "sql"))) (B "system")) eqn:X1.
  - aok. subst q2. cbn in A3. injection A3 as <-. left. split; auto. now apply bytes_eqb_eq in X1.
  - destruct (bytes_eqb (map lower_char (tag_first (v_tag v) (B "sql"))) (B "user")) eqn:X2; [|discriminate]. aok. subst q2. cbn in A3. injection A3 as <-. right. split; auto. now apply bytes_eqb_eq in X2.
Qed.

Definition ex_override (s : string) := [ex_rel "user:u"; (ex_var "_" (ex_tag "sql" [s]), ex_dir "Override")].

Lemma C92_rows_proof : forall e name fs q r, analyzeQueryStruct e name fs = AOk q -> plain_names fs -> q_rows q = Some r ->
  exists v t sc, place fs [RRows] v t sc /\ ra_name r = v_name v /\ exists k a b, t = TBasic k a b /\ ra_kind r = KBasic k /\ integer_type t.
Proof.
  intros e name fs q o H P W.
  destruct (query_slot e name fs q H P q_rows [RRows] o un_rows ltac:(start_none) ltac:(no_role) ltac:(no_role) W) as (v & t & q1 & q2 & A1 & A2 & A3 & A4 & _ & _ & A5).
  apply step_ran in A2. one_role. rewrite <- A4 in A2. inversion A2; subst; try (match goal with J : joins _ |- _ => destruct J as [|[|]]; discriminate end).
  match goal with X : analyzeRowsAffectedField _ _ _ _ = _ |- _ => unfold analyzeRowsAffectedField in X end. aok. subst q2. cbn in A3. injection A3 as <-.
  match goal with X : isIntegerType _ = true |- _ => apply integer_spec in X; rename X into IT end.
  exists v, t, (map fst (q_sp q1)). split; auto. split; auto. pose proof IT as IT'. destruct IT as (k & a' & b & -> & I). exists k, a', b. split; auto.
Qed.

Lemma C92_filter_proof : forall e name fs q n, analyzeQueryStruct e name fs = AOk q -> plain_names fs -> q_filter q = Some n ->
  exists v t sc, place fs [RFilter] v t sc /\ n = v_name v.
Proof.
  intros e name fs q o H P W.
  destruct (query_slot e name fs q H P q_filter [RFilter] o un_filter ltac:(start_none) ltac:(no_role) ltac:(no_role) W) as (v & t & q1 & q2 & A1 & A2 & A3 & A4 & _ & _ & A5).
  apply step_ran in A2. one_role. rewrite <- A4 in A2. inversion A2; subst; try (match goal with J : joins _ |- _ => destruct J as [|[|]]; discriminate end).
  match goal with X : analyzeFilterField _ _ = _ |- _ => unfold analyzeFilterField in X end. aok. subst q2. cbn in A3. injection A3 as <-.
  exists v, t, (map fst (q_sp q1)). auto.
Qed.

Lemma C92_context_proof : forall e name fs q n, analyzeQueryStruct e name fs = AOk q -> plain_names fs -> q_ctx q = Some n ->
  exists v t sc, place fs [RContext] v t sc /\ n = v_name v.
Proof.
  intros e name fs q o H P W.
  destruct (query_slot e name fs q H P q_ctx [RContext] o un_ctx ltac:(start_none) ltac:(no_role) ltac:(no_role) W) as (v & t & q1 & q2 & A1 & A2 & A3 & A4 & _ & _ & A5).
  apply step_ran in A2. one_role. rewrite <- A4 in A2. inversion A2; subst; try (match goal with J : joins _ |- _ => destruct J as [|[|]]; discriminate end).
  match goal with X : analyzeContextField _ _ = _ |- _ => unfold analyzeContextField in X end. aok. subst q2. cbn in A3. injection A3 as <-.
  exists v, t, (map fst (q_sp q1)). auto.
Qed.

Lemma handler_step : forall e q v t q', field_pass1 e q v t = AOk q' -> rolef v t = RErrorHandler ->
  exists b, analyzeErrorHandlerField q v b = AOk q' /\ ((b = false /\ isErrorHandler t = true) \/ (b = true /\ isErrorHandler t = false /\ isErrorInfoHandler t = true)).
Proof.
  intros e q v t q' H R. unfold field_pass1 in H. unfold rolef in R. destruct (tag_has _ _); [discriminate|].
  aok. rewrite E in R. destruct (bytes_eqb (v_name v) (B "_")) eqn:U; cbn [andb] in K, R.
  - exfalso. revert R. unfold directive_roles. repeat (rewrite lookup_cons; match goal with |- context [bytes_eqb ?x ?y] => destruct (bytes_eqb x y); cbv iota end; [discriminate|]). discriminate.
  - unfold analyzeQueryStructField, field_analyzers in K. unfold field_roles in R. rewrite U in K. cbv iota in K, R.
    repeat (rewrite lookup_cons in K; rewrite lookup_cons in R; change lit with B in R;
        match type of K with context [bytes_eqb ?x ?y] => destruct (bytes_eqb x y) eqn:?; cbv iota in K, R end; [discriminate R|]).
    cbn [lookup] in K, R. aok. rewrite E0 in R. destruct a0; [discriminate R|].
    destruct (isErrorHandler t) eqn:X1; [exists false; auto|]. destruct (isErrorInfoHandler t) eqn:X2; [exists true; auto|]. exfalso. cbn in R. destruct (IsContext t); discriminate R.
Qed.

Lemma C92_handler_proof : forall e name fs q h, analyzeQueryStruct e name fs = AOk q -> plain_names fs -> q_errh q = Some h ->
  exists v t sc n u, place fs [RErrorHandler] v t sc /\ eh_name h = v_name v /\ t = TNamed n u
    /\ (eh_info h = false -> n_errh n = true) /\ (eh_info h = true -> n_errh n = false /\ n_errih n = true).
Proof.
  intros e name fs q o H P W.
  destruct (query_slot e name fs q H P q_errh [RErrorHandler] o un_errh ltac:(start_none) ltac:(no_role) ltac:(no_role) W) as (v & t & q1 & q2 & A1 & A2 & A3 & A4 & _ & _ & A5).
  apply handler_step in A2; [|destruct A4 as [<-|[]]; reflexivity]. destruct A2 as (b & A2 & X). unfold analyzeErrorHandlerField in A2. aok. subst q2. cbn in A3. injection A3 as <-.
  destruct t as [| | | | | | | | |n u]; try (destruct X as [[_ X]|[_ [_ X]]]; discriminate X). exists v, (TNamed n u), (map fst (q_sp q1)), n, u. cbn in *.
  conjs; auto; destruct X as [[-> X]|[-> [X Y]]]; auto; discriminate.
Qed.

Definition ex_parts : fields :=
  [ex_rel "user:u"; (ex_var "RowsAffected" [], ex_int); (ex_var "Ctx" [], TNamed (MkName (lit "Context") (Some (lit "context", lit "context")) no_flags false false false false) (TStruct []));
   (ex_var "F" [], TNamed (MkName (lit "Filter") (Some (lit "github.com/frk/gosql", lit "gosql")) no_flags false false false false) (TStruct []));
   (ex_var "EH" [], TNamed (MkName (lit "Handler") (Some (lit "app", lit "app")) no_flags false false true false) (TStruct []))].
