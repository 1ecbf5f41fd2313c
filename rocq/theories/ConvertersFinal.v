(** Definitions and proofs used by PropsConverters.v. *)
From Coq Require Import Ascii String ZArith NArith Bool List Lia.
From Verif Require Import GoBase FilterCode Imports TagSpec AParse AParseProofs Analysis Converters ConvertersSpec.
From Verif Require Filter.
Import ListNotations.
Local Open Scope char_scope.
Local Open Scope list_scope.

Lemma word_lang : forall s, lang rx_word s <-> exists c, s = [c] /\ name_char c.
Proof.
  intros s. unfold rx_word. rewrite lang_cls. split; intros (c & -> & H); exists c; split; auto; apply word_spec; exact H.
Qed.

Lemma path_spec : forall c, (in_range 48 57 c || in_range 65 90 c || beq c "_" || in_range 97 122 c || in_range 46 47 c) = true
  <-> name_char c \/ c = "." \/ c = "/".
Proof.
  intros c. rewrite orb_true_iff, word_spec. apply or_iff_compat_l. unfold in_range. rewrite andb_true_iff, !N.leb_le.
  split.
  - intros [H1 H2]. assert (N_of_ascii c = 46 \/ N_of_ascii c = 47)%N as [H|H] by (unfold code in *; lia);
      [left|right]; rewrite <- (ascii_N_embedding c), H; reflexivity.
  - intros [->| ->]; cbn; lia.
Qed.

Lemma obj_lang : forall v, rx_match rxObjId v = true <-> exists p n, names v p n.
Proof.
  intros v. rewrite rx_match_lang. unfold rxObjId, names, path_text. rewrite lang_seq. split.
  - intros (x & y & -> & H1 & H2). apply word_lang in H1. destruct H1 as (a & -> & A). apply lang_seq in H2. destruct H2 as (m & y2 & -> & H2 & H3).
    apply lang_star_cls in H2. apply lang_seq in H3. destruct H3 as (x3 & y3 & -> & H3 & H4). apply word_lang in H3. destruct H3 as (z & -> & Z).
    apply lang_seq in H4. destruct H4 as (x4 & n & -> & H4 & H5). apply lang_cls in H4. destruct H4 as (d & -> & D). apply beq_true in D. subst d. apply name_lang in H5.
    exists (a :: m ++ [z]), n. split; [cbn; rewrite <- !app_assoc; reflexivity|]. split; [|exact H5].
    exists a, m, z. repeat split; auto. apply (Forall_iff _ _ path_spec). exact H2.
  - intros (p & n & -> & (a & m & z & -> & A & Z & F) & N).
    exists [a], (m ++ z :: "." :: n). split; [cbn; rewrite <- app_assoc; reflexivity|]. split; [apply word_lang; eauto|].
    apply lang_seq. exists m, (z :: "." :: n). split; [reflexivity|]. split; [apply lang_star_cls; apply (Forall_iff _ _ path_spec); exact F|].
    apply lang_seq. exists [z], ("." :: n). split; [reflexivity|]. split; [apply word_lang; eauto|].
    apply lang_seq. exists ["."], n. split; [reflexivity|]. split; [apply lang_cls; exists "."; split; reflexivity|apply name_lang; exact N].
Qed.

Lemma name_nodot : forall n, is_name n -> ~ In "." n.
Proof. intros n N I. apply name_chars in N. rewrite Forall_forall in N. destruct (name_char_ne _ (N _ I)) as [H _]. congruence. Qed.

Lemma names_cut : forall v p n, names v p n -> cut_last "." v = Some (p, n) /\ v <> [].
Proof.
  intros v p n (-> & P & N). split; [apply cut_last_app; apply name_nodot; exact N|]. destruct p; discriminate.
Qed.

Lemma set_names : forall i v p n, names v p n -> obj_Set i v = Some (MkObj p n true).
Proof.
  intros i v p n H. destruct (names_cut _ _ _ H) as [C N]. unfold obj_Set. destruct v as [|c v]; [congruence|].
  rewrite (proj2 (obj_lang (c :: v)) (ex_intro _ p (ex_intro _ n H))), C. reflexivity.
Qed.

Lemma set_inv : forall i v, v <> [] -> match obj_Set i v with Some o => exists p n, names v p n /\ o = MkObj p n true | None => forall p n, ~ names v p n end.
Proof.
  intros i v N. destruct (rx_match rxObjId v) eqn:E.
  - apply obj_lang in E. destruct E as (p & n & H). rewrite (set_names i v p n H). eauto.
  - assert (X : obj_Set i v = None) by (unfold obj_Set; destruct v; [congruence|rewrite E; reflexivity]). rewrite X.
    intros p n H. rewrite (proj2 (obj_lang v)) in E; [discriminate|]. eauto.
Qed.

Lemma C107_accepts_lemma : forall v o, obj_Set no_obj v = Some o <-> (v = [] /\ o = no_obj) \/ (exists p n, names v p n /\ o = MkObj p n true).
Proof.
  intros v o. destruct v as [|c v].
  - split.
    + intros H. injection H as <-. left. auto.
    + intros [[_ ->]|(p & n & H & _)]; [reflexivity|]. destruct (names_cut _ _ _ H). congruence.
  - pose proof (set_inv no_obj (c :: v) ltac:(discriminate)) as X. split.
    + intros H. rewrite H in X. right. exact X.
    + intros [[H _]|(p & n & H & ->)]; [discriminate H|]. apply set_names. exact H.
Qed.

Lemma C107_text_lemma : forall v o, obj_Set no_obj v = Some o -> obj_string o = v /\ obj_Set no_obj (obj_string o) = Some o.
Proof.
  intros v o H. assert (E : obj_string o = v).
  { apply C107_accepts_lemma in H. destruct H as [[-> ->]|(p & n & (-> & _ & N) & ->)]; [reflexivity|].
    unfold obj_string. cbn [o_name o_path]. destruct n; [destruct (name_nonempty _ N); reflexivity|reflexivity]. }
  split; [exact E|]. rewrite E. exact H.
Qed.

Definition keyb (a b : ckey) : bool := match a, b with KType, KType | KFunc, KFunc => true | _, _ => false end.

Fixpoint read_key (k : ckey) (o : objid) (e : centry) : option objid :=
  match e with
  | [] => Some o
  | (k', j) :: r => if keyb k k' then match obj_json o j with Some o' => read_key k o' r | None => None end else read_key k o r
  end.

Lemma read_split : forall e c, match read_entry c e with
  | Some c' => read_key KType (cv_type c) e = Some (cv_type c') /\ read_key KFunc (cv_func c) e = Some (cv_func c')
  | None => read_key KType (cv_type c) e = None \/ read_key KFunc (cv_func c) e = None end.
Proof.
  induction e as [|[[] j] e IH]; intros c; cbn [read_entry read_key keyb].
  - auto.
  - destruct (obj_json (cv_type c) j) as [t|]; [|left; reflexivity]. exact (IH (MkConv t (cv_func c))).
  - destruct (obj_json (cv_func c) j) as [f|]; [|right; reflexivity]. exact (IH (MkConv (cv_type c) f)).
Qed.

Lemma key_eq : forall a b, keyb a b = true <-> a = b.
Proof. intros [] []; cbn; split; congruence. Qed.

Lemma read_set : forall e k o, o_set o = true -> read_key k o e = Some o.
Proof.
  induction e as [|[k' j] e IH]; intros k o H; [reflexivity|]. cbn [read_key]. destruct (keyb k k'); [|auto].
  unfold obj_json. rewrite H. auto.
Qed.

Lemma object_skip : forall k e o x, (forall s, x = (k, JStr s) -> s = []) -> object k e o -> object k (x :: e) o.
Proof.
  intros k e o x N [[H ->]|(v & p & n & (V & pre & post & -> & Q) & M & ->)].
  - left. split; [|reflexivity]. intros s [->|I]; [apply N; reflexivity|apply H; exact I].
  - right. exists v, p, n. split; [|split; [exact M|reflexivity]]. split; [exact V|]. exists (x :: pre), post. split; [reflexivity|].
    intros s [->|I]; [apply N; reflexivity|apply Q; exact I].
Qed.

Lemma read_object : forall e k, match read_key k no_obj e with
  | Some o => object k e o
  | None => exists j, In (k, j) e /\ (j = JOther \/ exists s, j = JStr s /\ s <> [] /\ forall p n, ~ names s p n) end.
Proof.
  induction e as [|[k' j] e IH]; intros k.
  - cbn. left. split; [intros s []|reflexivity].
  - cbn [read_key]. specialize (IH k). destruct (keyb k k') eqn:K.
    + apply key_eq in K. subst k'. destruct j as [|s|].
      * change (obj_json no_obj JNull) with (Some no_obj). cbn beta iota. destruct (read_key k no_obj e) as [o|].
        -- apply object_skip; [discriminate|exact IH].
        -- destruct IH as (j & I & H). exists j. split; [right; exact I|exact H].
      * change (obj_json no_obj (JStr s)) with (obj_Set no_obj s). destruct s as [|c s].
        -- cbn [obj_Set]. destruct (read_key k no_obj e) as [o|].
           ++ apply object_skip; [|exact IH]. intros s H. injection H as <-. reflexivity.
           ++ destruct IH as (j & I & H). exists j. split; [right; exact I|exact H].
        -- pose proof (set_inv no_obj (c :: s) ltac:(discriminate)) as X. destruct (obj_Set no_obj (c :: s)) as [o|].
           ++ destruct X as (p & n & M & ->). rewrite read_set by reflexivity. right. exists (c :: s), p, n. split; [|split; [exact M|reflexivity]].
              split; [discriminate|]. exists [], e. split; [reflexivity|intros s' []].
           ++ exists (JStr (c :: s)). split; [left; reflexivity|]. right. exists (c :: s). split; [reflexivity|]. split; [discriminate|exact X].
      * change (obj_json no_obj JOther) with (@None objid). cbn beta iota. exists JOther. split; [left; reflexivity|left; reflexivity].
    + assert (N : k <> k') by (intros E; apply key_eq in E; congruence). destruct (read_key k no_obj e) as [o|].
      * apply object_skip; [|exact IH]. intros s H. injection H as H _. congruence.
      * destruct IH as (j' & I & H). exists j'. split; [right; exact I|exact H].
Qed.

Lemma C107_entry_lemma : forall e, match read_entry (MkConv no_obj no_obj) e with
  | Some c => object KType e (cv_type c) /\ object KFunc e (cv_func c)
  | None => exists k j, In (k, j) e /\ (j = JOther \/ exists s, j = JStr s /\ s <> [] /\ forall p n, ~ names s p n)
  end.
Proof.
  intros e. pose proof (read_split e (MkConv no_obj no_obj)) as X. pose proof (read_object e KType) as A. pose proof (read_object e KFunc) as C.
  destruct (read_entry (MkConv no_obj no_obj) e) as [c|]; cbn [cv_type cv_func] in X.
  - destruct X as [X1 X2]. rewrite X1 in A. rewrite X2 in C. auto.
  - destruct X as [X|X].
    + rewrite X in A. destruct A as (j & H). exists KType, j. exact H.
    + rewrite X in C. destruct C as (j & H). exists KFunc, j. exact H.
Qed.

Lemma read_all : forall l cs, read_entries l = Some cs -> Forall2 (fun e c => read_entry (MkConv no_obj no_obj) e = Some c) l cs.
Proof.
  induction l as [|e l IH]; intros cs H; cbn in H; [injection H as <-; constructor|].
  destruct (read_entry _ e) as [c|] eqn:E; [|discriminate H]. destruct (read_entries l) as [cs'|]; [|discriminate H]. injection H as <-. constructor; auto.
Qed.

Lemma C107_read_lemma : forall l cs, read_entries l = Some cs <-> Forall2 (fun e c => read_entry (MkConv no_obj no_obj) e = Some c) l cs.
Proof.
  intros l cs. split; [apply read_all|]. intros H. induction H as [|e c l cs R H IH]; [reflexivity|]. cbn. rewrite R, IH. reflexivity.
Qed.

Lemma key_wrong : forall pre k post o, read_key k no_obj (pre ++ (k, JOther) :: post) = Some o -> ~ no_text k pre.
Proof.
  induction pre as [|[k' j] pre IH]; intros k post o H N.
  - cbn in H. rewrite (proj2 (key_eq k k) eq_refl) in H. discriminate H.
  - cbn [app read_key] in H. assert (N' : no_text k pre) by (intros s I; apply N; right; exact I).
    destruct (keyb k k') eqn:K; [|exact (IH _ _ _ H N')]. apply key_eq in K. subst k'. destruct j as [|s|].
    + exact (IH _ _ _ H N').
    + rewrite (N s) in H by (left; reflexivity). exact (IH _ _ _ H N').
    + discriminate H.
Qed.

Lemma C107_wrong_lemma : forall e c pre k post, read_entry (MkConv no_obj no_obj) e = Some c -> e = pre ++ (k, JOther) :: post -> ~ no_text k pre.
Proof.
  intros e c pre k post H E. pose proof (read_split e (MkConv no_obj no_obj)) as X. rewrite H in X. cbn [cv_type cv_func] in X. destruct X as [X1 X2].
  rewrite E in X1, X2. destruct k; [exact (key_wrong _ _ _ _ X1)|exact (key_wrong _ _ _ _ X2)].
Qed.

Lemma object_nodot : forall k e o, object k e o -> ~ In "." (o_name o).
Proof. intros k e o [[_ ->]|(v & p & n & _ & (_ & _ & N) & ->)]; [intros []|apply name_nodot; exact N]. Qed.

Lemma cut_inj : forall p n p' n', ~ In "." n -> ~ In "." n' -> p ++ "." :: n = p' ++ "." :: n' -> p = p' /\ n = n'.
Proof. intros p n p' n' N N' E. apply (f_equal (cut_last ".")) in E. rewrite !cut_last_app in E by assumption. injection E as -> ->. auto. Qed.

Lemma bytes_eqb_eq : forall a b, bytes_eqb a b = true <-> a = b.
Proof.
  induction a as [|x a IH]; intros [|y b]; cbn; split; intros H; try discriminate; auto.
  - apply andb_prop in H. destruct H as [H1 H2]. apply Ascii.eqb_eq in H1. apply IH in H2. congruence.
  - inversion H; subst. rewrite (proj2 (Ascii.eqb_eq y y) eq_refl). apply IH. reflexivity.
Qed.

Lemma key_of : forall c i, ~ In "." (o_name (cv_type c)) -> ~ In "." (t_name i) ->
  (bytes_eqb (t_path i ++ B "." ++ t_name i) (o_path (cv_type c) ++ B "." ++ o_name (cv_type c)) = true <-> same_type c i).
Proof.
  intros c i N N'. unfold same_type. rewrite bytes_eqb_eq. split.
  - intros E. cbn in E. apply cut_inj in E; auto. destruct E as [-> ->]. auto.
  - intros [-> ->]. reflexivity.
Qed.

Lemma lookup_last : forall cs f, Forall (fun c => ~ In "." (o_name (cv_type c))) cs -> ~ In "." (t_name (fi_type f)) ->
  forall x, FilterValueConverter (AnalyzeFilterValueConverters cs) f = Some x <->
    exists pre c post, cs = pre ++ c :: post /\ same_type c (fi_type f) /\ x = (o_path (cv_func c), o_name (cv_func c))
      /\ Forall (fun d => ~ same_type d (fi_type f)) post.
Proof.
  intros cs f F N x. unfold FilterValueConverter, AnalyzeFilterValueConverters. rewrite <- map_rev.
  rewrite <- (rev_involutive cs) in F |- *. rewrite rev_involutive. set (l := rev cs) in *. clearbody l.
  assert (G : Forall (fun c => ~ In "." (o_name (cv_type c))) l) by (rewrite <- (rev_involutive l); apply Forall_rev; exact F). clear F.
  induction l as [|c l IH]; cbn [map Filter.lookup].
  - split; [discriminate|]. intros (pre & c & post & E & _). cbn in E. destruct pre; discriminate E.
  - inversion G as [|? ? G1 G2]; subst. specialize (IH G2).
    destruct (bytes_eqb _ _) eqn:E.
    + apply key_of in E; auto. split.
      * intros H. injection H as <-. exists (rev l), c, []. cbn [rev]. repeat split; auto; apply E.
      * intros (pre & d & post & Eq & S1 & -> & Q). cbn [rev] in Eq. destruct post as [|d' post] using rev_ind.
        -- apply app_inj_tail in Eq. destruct Eq as [_ <-]. reflexivity.
        -- exfalso. rewrite app_comm_cons, app_assoc in Eq. apply app_inj_tail in Eq. destruct Eq as [_ <-].
           rewrite Forall_app in Q. destruct Q as [_ Q]. inversion Q. contradiction.
    + assert (NE : ~ same_type c (fi_type f)) by (intros H; apply (key_of c (fi_type f) G1 N) in H; congruence).
      rewrite IH. clear IH. cbn [rev]. split.
      * intros (pre & d & post & Eq & S1 & -> & Q). exists pre, d, (post ++ [c]). rewrite Eq. split; [rewrite <- app_assoc; reflexivity|].
        split; [exact S1|]. split; [reflexivity|]. apply Forall_app. split; [exact Q|repeat constructor; exact NE].
      * intros (pre & d & post & Eq & S1 & -> & Q). destruct post as [|d' post] using rev_ind.
        -- apply app_inj_tail in Eq. destruct Eq as [_ <-]. contradiction.
        -- clear IHpost. rewrite app_comm_cons, app_assoc in Eq. apply app_inj_tail in Eq. destruct Eq as [Eq <-].
           rewrite Forall_app in Q. destruct Q as [Q _]. exists pre, d, post. auto.
Qed.

Lemma conv_nodot : forall l cs, read_entries l = Some cs -> Forall (fun c => ~ In "." (o_name (cv_type c))) cs.
Proof.
  intros l cs H. apply read_all in H. induction H as [|e c l cs R H IH]; constructor; auto.
  pose proof (C107_entry_lemma e) as X. rewrite R in X. destruct X as [X _]. eapply object_nodot. exact X.
Qed.

Lemma C107_field_lemma : forall l cs f x, read_entries l = Some cs -> ~ In "." (t_name (fi_type f)) ->
  (FilterValueConverter (AnalyzeFilterValueConverters cs) f = Some x <->
   exists pre c post, cs = pre ++ c :: post /\ same_type c (fi_type f) /\ x = (o_path (cv_func c), o_name (cv_func c))
     /\ Forall (fun d => ~ same_type d (fi_type f)) post).
Proof. intros l cs f x H N. apply lookup_last; [eapply conv_nodot; exact H|exact N]. Qed.

Lemma unnamed_none : forall l cs f, read_entries l = Some cs -> Forall (fun e => ~ no_text KType e) l ->
  t_path (fi_type f) = [] -> t_name (fi_type f) = [] -> FilterValueConverter (AnalyzeFilterValueConverters cs) f = None.
Proof.
  intros l cs f H T P N. destruct (FilterValueConverter (AnalyzeFilterValueConverters cs) f) as [x|] eqn:E; [|reflexivity].
  apply (C107_field_lemma l) in E; [|exact H|rewrite N; intros []]. destruct E as (pre & c & post & -> & [S1 _] & _).
  exfalso. apply read_all in H. apply Forall2_app_inv_r in H. destruct H as (l1 & l2 & _ & H & ->). inversion H as [|e c' l3 post' R _]; subst.
  rewrite Forall_app in T. destruct T as [_ T]. inversion T as [|? ? T1 _]; subst.
  pose proof (C107_entry_lemma e) as X. rewrite R in X. destruct X as [[[X _]|(v & p & n & _ & (_ & (a & m & z & -> & _) & _) & X)] _]; [contradiction|].
  rewrite X in S1. cbn in S1. rewrite P in S1. discriminate S1.
Qed.

Lemma C107_unnamed_lemma : forall l cs e u i b f, read_entries l = Some cs -> Forall (fun x => ~ no_text KType x) l ->
  (forall n v, u <> TNamed n v) -> analyzeTypeInfo e u = AOk (i, b) -> fi_type f = i ->
  FilterValueConverter (AnalyzeFilterValueConverters cs) f = None.
Proof.
  intros l cs e u i b f H T N A Ef. apply (unnamed_none l); auto; rewrite Ef; clear -N A.
  - destruct u as [k x y|n u|u|u|k u|u|ps rs|ms x y z|fs|n u]; cbn [analyzeTypeInfo] in A; try (injection A as <- _; reflexivity).
    + destruct (analyzeTypeInfo e u) as [[i' b']| |]; cbn in A; try discriminate A. injection A as <- _. reflexivity.
    + destruct (analyzeTypeInfo e u) as [[i' b']| |]; cbn in A; try discriminate A. injection A as <- _. reflexivity.
    + destruct (analyzeTypeInfo e u) as [[i' b']| |]; cbn in A; try discriminate A. injection A as <- _. reflexivity.
    + destruct (analyzeTypeInfo e k) as [[ik bk]| |]; cbn in A; try discriminate A. destruct (analyzeTypeInfo e u) as [[i' b']| |]; cbn in A; try discriminate A. injection A as <- _. reflexivity.
    + destruct (N n u eq_refl).
  - destruct u as [k x y|n u|u|u|k u|u|ps rs|ms x y z|fs|n u]; cbn [analyzeTypeInfo] in A; try (injection A as <- _; reflexivity).
    + destruct (analyzeTypeInfo e u) as [[i' b']| |]; cbn in A; try discriminate A. injection A as <- _. reflexivity.
    + destruct (analyzeTypeInfo e u) as [[i' b']| |]; cbn in A; try discriminate A. injection A as <- _. reflexivity.
    + destruct (analyzeTypeInfo e u) as [[i' b']| |]; cbn in A; try discriminate A. injection A as <- _. reflexivity.
    + destruct (analyzeTypeInfo e k) as [[ik bk]| |]; cbn in A; try discriminate A. destruct (analyzeTypeInfo e u) as [[i' b']| |]; cbn in A; try discriminate A. injection A as <- _. reflexivity.
    + destruct (N n u eq_refl).
Qed.

Lemma C107_path_refuted_lemma : obj_Set no_obj (B "github.com/my-org/types.ID") = None /\ obj_Set no_obj (B "m.ID") = None
  /\ exists o, obj_Set no_obj (B "github.com/my_org/types.ID") = Some o.
Proof. split; [reflexivity|]. split; [reflexivity|]. eexists. reflexivity. Qed.

Definition only_func : centry := [(KFunc, JStr (B "example.com/m/conv.F"))].

Lemma C107_type_refuted_lemma : exists l cs, read_entries l = Some cs /\ forall f, t_path (fi_type f) = [] -> t_name (fi_type f) = [] ->
  FilterValueConverter (AnalyzeFilterValueConverters cs) f = Some (B "example.com/m/conv", B "F").
Proof.
  exists [only_func]. eexists. split; [reflexivity|]. intros f P N. unfold FilterValueConverter. rewrite P, N. reflexivity.
Qed.

Lemma C107_func_refuted_lemma : exists l cs, read_entries l = Some cs /\ forall f, t_path (fi_type f) = B "example.com/m" -> t_name (fi_type f) = B "ID" ->
  FilterValueConverter (AnalyzeFilterValueConverters cs) f = Some ([], []).
Proof.
  exists [[(KType, JStr (B "example.com/m.ID"))]]. eexists. split; [reflexivity|]. intros f P N. unfold FilterValueConverter. rewrite P, N. reflexivity.
Qed.

Lemma search_found : forall path name set ns i, search path name set ns = inl i -> In i set /\ i_path i = path.
Proof.
  induction set as [|j set IH]; intros ns i H; cbn in H; [discriminate H|]. destruct (bytes_eqb (i_path j) path) eqn:E.
  - injection H as <-. split; [left; reflexivity|apply bytes_eqb_eq; exact E].
  - destruct (IH _ _ H) as [A C]. split; [right; exact A|exact C].
Qed.

Lemma bump_path : forall path set, map i_path (map (bump path) set) = map i_path set.
Proof.
  intros path set. rewrite map_map. apply map_ext. intros i. unfold bump. destruct (bytes_eqb _ _); reflexivity.
Qed.

Lemma C107_reference_lemma : forall pkg set id set' x, converter_ref pkg set id = (set', x) ->
  (fst id = pkg /\ set' = set /\ x = XId (snd id))
  \/ (fst id <> pkg /\ incl (map i_path set) (map i_path set') /\ exists i, In i set' /\ i_path i = fst id /\ x = XSel (XId (i_name i)) (snd id)).
Proof.
  intros pkg set id set' x H. unfold converter_ref in H. destruct (bytes_eqb (fst id) pkg) eqn:E.
  - apply bytes_eqb_eq in E. injection H as <- <-. left. auto.
  - right. split; [intros X; apply bytes_eqb_eq in X; congruence|]. unfold addimport in H.
    destruct (search (fst id) (import_name (fst id) []) set None) as [i|[ns|]] eqn:S1; injection H as <- <-.
    + split; [apply incl_refl|]. apply search_found in S1. exists i. tauto.
    + rewrite map_app, bump_path. split; [apply incl_appl, incl_refl|]. eexists. split; [apply in_or_app; right; left; reflexivity|]. auto.
    + rewrite map_app. split; [apply incl_appl, incl_refl|]. eexists. split; [apply in_or_app; right; left; reflexivity|]. auto.
Qed.

Lemma C107_import_refuted_lemma : exists v o set n, obj_Set no_obj v = Some o
  /\ converter_ref (B "example.com/m") [] (o_path o, o_name o) = (set, XSel (XId n) (o_name o)) /\ ~ is_name n.
Proof.
  exists (B "gopkg.in/guregu/null.v4.F"). do 3 eexists. split; [reflexivity|]. split; [reflexivity|].
  intros H. apply (name_nodot _ H). cbn. tauto.
Qed.

Lemma C107_accepts_proof : forall v o, obj_Set no_obj v = Some o <-> (v = [] /\ o = no_obj) \/ (exists p n, names v p n /\ o = MkObj p n true).
Proof. exact C107_accepts_lemma. Qed.

Lemma C107_text_proof : forall v o, obj_Set no_obj v = Some o -> obj_string o = v /\ obj_Set no_obj (obj_string o) = Some o.
Proof. exact C107_text_lemma. Qed.

Lemma C107_entry_proof : forall e, match read_entry (MkConv no_obj no_obj) e with
  | Some c => object KType e (cv_type c) /\ object KFunc e (cv_func c)
  | None => exists k j, In (k, j) e /\ (j = JOther \/ exists s, j = JStr s /\ s <> [] /\ forall p n, ~ names s p n)
  end.
Proof. exact C107_entry_lemma. Qed.

Lemma C107_wrong_proof : forall e c pre k post, read_entry (MkConv no_obj no_obj) e = Some c -> e = pre ++ (k, JOther) :: post -> ~ no_text k pre.
Proof. exact C107_wrong_lemma. Qed.

Lemma C107_read_proof : forall l cs, read_entries l = Some cs <-> Forall2 (fun e c => read_entry (MkConv no_obj no_obj) e = Some c) l cs.
Proof. exact C107_read_lemma. Qed.

Lemma C107_field_proof : forall l cs f x, read_entries l = Some cs -> ~ In "." (t_name (fi_type f)) ->
  (FilterValueConverter (AnalyzeFilterValueConverters cs) f = Some x <->
   exists pre c post, cs = pre ++ c :: post /\ same_type c (fi_type f) /\ x = (o_path (cv_func c), o_name (cv_func c))
     /\ Forall (fun d => ~ same_type d (fi_type f)) post).
Proof. exact C107_field_lemma. Qed.

Lemma C107_unnamed_proof : forall l cs e u i b f, read_entries l = Some cs -> Forall (fun x => ~ no_text KType x) l ->
  (forall n v, u <> TNamed n v) -> analyzeTypeInfo e u = AOk (i, b) -> fi_type f = i ->
  FilterValueConverter (AnalyzeFilterValueConverters cs) f = None.
Proof. exact C107_unnamed_lemma. Qed.

Lemma C107_path_refuted_proof : obj_Set no_obj (B "github.com/my-org/types.ID") = None /\ obj_Set no_obj (B "m.ID") = None
  /\ exists o, obj_Set no_obj (B "github.com/my_org/types.ID") = Some o.
Proof. exact C107_path_refuted_lemma. Qed.

Lemma C107_type_refuted_proof : exists l cs, read_entries l = Some cs /\ forall f, t_path (fi_type f) = [] -> t_name (fi_type f) = [] ->
  FilterValueConverter (AnalyzeFilterValueConverters cs) f = Some (B "example.com/m/conv", B "F").
Proof. exact C107_type_refuted_lemma. Qed.

Lemma C107_func_refuted_proof : exists l cs, read_entries l = Some cs /\ forall f, t_path (fi_type f) = B "example.com/m" -> t_name (fi_type f) = B "ID" ->
  FilterValueConverter (AnalyzeFilterValueConverters cs) f = Some ([], []).
Proof. exact C107_func_refuted_lemma. Qed.

Lemma C107_reference_proof : forall pkg set id set' x, converter_ref pkg set id = (set', x) ->
  (fst id = pkg /\ set' = set /\ x = XId (snd id))
  \/ (fst id <> pkg /\ incl (map i_path set) (map i_path set') /\ exists i, In i set' /\ i_path i = fst id /\ x = XSel (XId (i_name i)) (snd id)).
Proof. exact C107_reference_lemma. Qed.

Lemma C107_import_refuted_proof : exists v o set n, obj_Set no_obj v = Some o
  /\ converter_ref (B "example.com/m") [] (o_path o, o_name o) = (set, XSel (XId n) (o_name o)) /\ ~ is_name n.
Proof. exact C107_import_refuted_lemma. Qed.
