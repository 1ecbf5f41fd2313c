(** Definitions and proofs used by PropsTables.v. *)
From Coq Require Import Ascii String ZArith NArith Bool List Lia.
From Verif Require Import GoBase AParse PgSpec TagSpec Analysis AnalysisSpec QuerySpec AnalysisProofs AnalysisRoles QueryFinal Oids Compat Gen GenSpec Check ConvertProofs CheckSpec CheckProofs CheckEx PropsConds OidSpec.
Import ListNotations.
Local Open Scope string_scope.
Local Open Scope list_scope.

Lemma str_bytes : forall a b, B a = B b -> a = b.
Proof. intros a b H. rewrite <- (string_of_list_ascii_of_string a), <- (string_of_list_ascii_of_string b). unfold B in H. now rewrite H. Qed.

Definition NN_eqb (a b : N * N) : bool := (N.eqb (fst a) (fst b) && N.eqb (snd a) (snd b))%bool.

Lemma NN_in : forall x l, existsb (NN_eqb x) l = true <-> In x l.
Proof.
  intros x l. rewrite existsb_exists. split.
  - intros (y & I & E). unfold NN_eqb in E. apply andb_prop in E. destruct E as [E1 E2]. apply N.eqb_eq in E1, E2. destruct x, y; cbn in *; subst; auto.
  - intros I. exists x. split; auto. unfold NN_eqb. now rewrite !N.eqb_refl.
Qed.

Definition missing : list string := ["name"; "oid"; "oidvector"].

Definition known_types : list (N * N) := map (fun '(n, o, a) => (o, a)) (filter (fun '(n, o, a) => negb (existsb (String.eqb n) missing)) pg_types).

Lemma known_spec : forall o a, In (o, a) known_types <-> exists name, In (name, o, a) pg_types /\ ~ In name missing.
Proof.
  intros o a. unfold known_types. rewrite in_map_iff. split.
  - intros ([[n o'] a'] & E & I). apply filter_In in I. destruct I as [I X]. injection E as -> ->. exists n. split; auto. intros J. apply negb_true_iff in X. apply Bool.not_true_iff_false in X. apply X. apply existsb_exists. exists n. split; auto. apply String.eqb_refl.
  - intros (n & I & X). exists (n, o, a). split; auto. apply filter_In. split; auto. apply negb_true_iff, Bool.not_true_iff_false. intros J. apply X. apply existsb_exists in J. destruct J as (m & J & E). apply String.eqb_eq in E. now subst.
Qed.

Lemma sets_equal : forall l l', forallb (fun x => existsb (NN_eqb x) l') l = true -> forallb (fun x => existsb (NN_eqb x) l) l' = true -> forall x, In x l <-> In x l'.
Proof. intros l l' H K x. rewrite forallb_forall in H, K. split; intros I; apply NN_in; auto. Qed.

Lemma C99_arrays_proof : forall o a, In (o, a) TypeToArray <-> exists name, In (name, o, a) pg_types /\ ~ In name ["name"; "oid"; "oidvector"].
Proof. intros o a. rewrite <- (known_spec o a). apply sets_equal; vm_compute; reflexivity. Qed.

Lemma C99_elements_proof : forall o a, In (a, o) ArrayToElem <-> In (o, a) TypeToArray.
Proof.
  intros o a. rewrite (sets_equal ArrayToElem (map (fun p => (snd p, fst p)) TypeToArray)); [|vm_compute; reflexivity..]. rewrite in_map_iff. split.
  - intros ([x y] & E & I). injection E as -> ->. exact I.
  - intros I. exists (o, a). auto.
Qed.

Definition prefixed (p s : bytes) : bool := bytes_eqb p (firstn (List.length p) s).

Lemma prefixed_ok : forall p s, prefixed p s = true -> exists r, s = p ++ r.
Proof. intros p s H. apply bytes_eqb_eq in H. exists (skipn (List.length p) s). rewrite H at 1. now rewrite firstn_skipn. Qed.

Definition ending (p g : bytes) : bool := (bytes_eqb p g || prefixed (p ++ B "from") g || prefixed (p ++ B "to") g)%bool.

Lemma ending_ok : forall p g, ending p g = true -> exists rest, g = p ++ rest /\ (rest = [] \/ (exists g, rest = lit "from" ++ g) \/ exists g, rest = lit "to" ++ g).
Proof.
  intros p g H. unfold ending in H. apply orb_prop in H. destruct H as [H|H]; [apply orb_prop in H; destruct H as [H|H]|].
  - apply bytes_eqb_eq in H. subst. exists []. rewrite app_nil_r. auto.
  - apply prefixed_ok in H. destruct H as (r & ->). exists (lit "from" ++ r). rewrite <- app_assoc. split; eauto.
  - apply prefixed_ok in H. destruct H as (r & ->). exists (lit "to" ++ r). rewrite <- app_assoc. split; eauto.
Qed.

Definition named_forb (o : N) (f : bytes) : bool :=
  let g := map lower_char f in
  existsb (fun '(n, t, a) => ((N.eqb o t && ending (B (family n)) g) || (N.eqb o a && ending (B (family n) ++ B "array") g))%bool) pg_types.

Lemma named_forb_ok : forall o f, named_forb o f = true -> named_for o f.
Proof.
  intros o f H. unfold named_forb in H. cbv zeta in H. apply existsb_exists in H. destruct H as ([[n t] a] & I & H). apply orb_prop in H.
  destruct H as [H|H]; apply andb_prop in H; destruct H as [E H]; apply N.eqb_eq in E; subst o; apply ending_ok in H; destruct H as (r & H & K).
  - exists n, t, a, "", r. split; [exact I|]. split; [now left|]. split; [exact H|exact K].
  - exists n, t, a, "array", r. split; [exact I|]. split; [now right|]. split; [|exact K]. rewrite H, <- app_assoc. reflexivity.
Qed.

Definition empty_or (f : bytes -> bool) (s : bytes) : bool := match s with [] => true | _ => f s end.

Lemma all_named : forallb (fun '(o, m, rows) => forallb (fun '(l, e) => (empty_or (named_forb o) (ce_valuer e) && empty_or (named_forb o) (ce_scanner e))%bool) rows) oid2literal = true.
Proof. vm_compute. reflexivity. Qed.

Lemma C99_converters_proof : forall o m l e f, entry o m l e -> f = ce_valuer e \/ f = ce_scanner e -> f <> [] -> named_for o f.
Proof.
  intros o m l e f (rows & I & J) F N. pose proof all_named as A. rewrite forallb_forall in A. specialize (A _ I). cbv beta iota in A. rewrite forallb_forall in A. specialize (A _ J). cbv beta iota in A.
  apply andb_prop in A. destruct A as [A1 A2]. apply named_forb_ok. unfold empty_or in *. destruct F as [E|E]; rewrite <- E in *; destruct f; congruence.
Qed.

Lemma operators_named : forall p op sql name, asks p op -> op_sql op = lit sql -> In (sql, name) pg_operators -> ~ In p [IsSimilar; NotSimilar; IsDistinct] -> oprname p = lit name.
Proof.
  intros p op sql name (tag & sql' & I & P & O) E J N. change lit with B in *. rewrite O in E. apply str_bytes in E. subst sql'. clear O.
  cbn in I. repeat destruct I as [I|I]; try contradiction; injection I as <- <-; subst p; vm_compute in N; cbn in J; repeat destruct J as [J|J]; try discriminate; try contradiction; injection J as <-; try reflexivity; exfalso; tauto.
Qed.

Lemma C99_operators_proof : forall p op sql name, asks p op -> op_sql op = lit sql -> In (sql, name) pg_operators ->
  ~ In p [IsSimilar; NotSimilar; IsDistinct] -> oprname p = lit name.
Proof. exact operators_named. Qed.

Lemma C99_lists_proof : forall name, (In ("IN", name) pg_operators -> oprname IsIn = lit name) /\ (In ("NOT IN", name) pg_operators -> oprname NotIn = lit name).
Proof. intros name. split; intros J; cbn in J; repeat destruct J as [J|J]; try discriminate; try contradiction; injection J as <-; reflexivity. Qed.

Lemma C99_similar_refuted_proof : exists p op sql name, In p [IsSimilar; NotSimilar; IsDistinct] /\ asks p op /\ op_sql op = lit sql /\ In (sql, name) pg_operators /\ oprname p <> lit name.
Proof.
  exists IsSimilar, (OpSimilar false), "SIMILAR TO", "~". split; [now left|]. split; [exists "issimilar", "SIMILAR TO"; split; [cbn; tauto|split; reflexivity]|]. split; [reflexivity|]. split; [cbn; tauto|]. discriminate.
Qed.

Lemma C99_distinct_refuted_proof : exists op sql name, asks IsDistinct op /\ op_sql op = lit sql /\ In (sql, name) pg_operators /\ oprname IsDistinct <> lit name.
Proof.
  exists (OpDistinct false), "IS DISTINCT FROM", "=". split; [exists "isdistinct", "IS DISTINCT FROM"; split; [cbn; tauto|split; reflexivity]|]. split; [reflexivity|]. split; [cbn; tauto|]. discriminate.
Qed.

Lemma C99_where_proof : forall db q t rf tr d op sql name, check_query db q = COk t -> target db q rf tr -> within (WColumn d) (where_of q) ->
  asks (c_pred d) op -> op_sql op = lit sql -> In (sql, name) pg_operators -> ~ In (c_pred d) [IsSimilar; NotSimilar; IsDistinct] ->
  exists rid tr' r lt rt e, denotes db (bindings rf (CheckSpec.joined (q_join q))) (c_lhs d) rid tr' r
    /\ type_of (db_cat db) (cr_type r) lt /\ operand db (bindings rf (CheckSpec.joined (q_join q))) d rt /\ compared (db_cat db) (c_pred d) (c_quant d) rt e
    /\ (ty_oid lt = ty_oid e \/ ((ty_cat lt = CatString \/ ty_enum lt = true) /\ ty_oid e = 705%N)
        \/ operator (db_cat db) (lit name) (ty_oid lt) (ty_oid e)).
Proof.
  intros db q t rf tr d op sql name H T W A E J N. destruct (C65_where _ _ _ _ _ _ H T W) as (rid & tr' & r & D & SC). pose proof (operators_named _ _ _ _ A E J N) as O.
  assert (X : exists lt rt e, type_of (db_cat db) (cr_type r) lt /\ operand db (bindings rf (CheckSpec.joined (q_join q))) d rt /\ compared (db_cat db) (c_pred d) (c_quant d) rt e /\ comparable (db_cat db) (c_pred d) lt e).
  { destruct A as (tag & sql' & I & P & _). unfold sound_cond in SC. cbn in I. repeat destruct I as [I|I]; try contradiction; injection I as <- <-; match type of P with ?a = _ => let x := eval vm_compute in a in change a with x in P end; rewrite <- P in SC |- *; exact SC. }
  destruct X as (lt & rt & e & X1 & X2 & X3 & X4). exists rid, tr', r, lt, rt, e. split; [exact D|]. split; [exact X1|]. split; [exact X2|]. split; [exact X3|]. unfold comparable in X4. rewrite O in X4. exact X4.
Qed.

Definition ex_gt : fields := [(ex_var "_" (ex_tag "rel" ["user:u"]), ex_dir "Relation");
  (ex_var "Where" [], TStruct [(ex_var "_" (ex_tag "sql" ["u.id > u.id"]), ex_dir "Column")])].

Definition quoted_ok (z : bytes) : bool := match z with c :: r => (Ascii.eqb c "'" && match rev r with d :: s => (Ascii.eqb d "'" && negb (existsb (Ascii.eqb "'"%char) s))%bool | [] => false end)%bool | [] => false end.

Lemma quoted_constant : forall z, quoted_ok z = true -> exists s, z = "'"%char :: s ++ ["'"%char] /\ sql_constant z s.
Proof.
  intros z H. destruct z as [|c r]; [discriminate|]. cbn [quoted_ok] in H. apply andb_prop in H. destruct H as [H1 H]. apply Ascii.eqb_eq in H1. subst c. destruct (rev r) as [|d s] eqn:R; [discriminate|].
  apply andb_prop in H. destruct H as [H1 H]. apply Ascii.eqb_eq in H1. subst d. apply (f_equal (@rev _)) in R. rewrite rev_involutive in R. cbn [rev] in R. exists (rev s). rewrite R. split; [reflexivity|]. constructor.
  intros I. apply in_rev in I. apply negb_true_iff, Bool.not_true_iff_false in H. apply H. apply existsb_exists. exists "'"%char. split; auto.
Qed.

Lemma constants_ok : forallb (fun p => (N.eqb (fst p) 601 || quoted_ok (snd p) || existsb (bytes_eqb (snd p)) [B "true"; B "false"; B "0"])%bool) TypeToZeroValue = true.
Proof. vm_compute. reflexivity. Qed.

Lemma C100_constants_proof : forall o z, In (o, z) TypeToZeroValue -> o <> 601%N -> exists s, sql_constant z s.
Proof.
  intros o z I N. pose proof constants_ok as H. rewrite forallb_forall in H. specialize (H _ I). cbn [fst snd] in H. apply N.eqb_neq in N. rewrite N in H. cbn [orb] in H. apply orb_prop in H. destruct H as [H|H].
  - apply quoted_constant in H. destruct H as (s & _ & H). eauto.
  - apply existsb_exists in H. destruct H as (x & J & E). apply bytes_eqb_eq in E. subst x. exists z. now constructor.
Qed.

Lemma C100_lseg_refuted_proof : exists o z, In (o, z) TypeToZeroValue /\ In ("lseg", o, 1018%N) pg_types /\ forall s, ~ sql_constant z s.
Proof.
  exists oid_LSeg, (B "[(0,0),(0,0)]"). split; [vm_compute; repeat (first [left; reflexivity|right])|]. split; [cbn; tauto|]. intros s H. inversion H as [? ? E|? I E]; subst.
  cbn in I. repeat destruct I as [I|I]; try discriminate; contradiction.
Qed.

Lemma constant_det : forall z s s', sql_constant z s -> sql_constant z s' -> s = s'.
Proof.
  intros z s s' H K. inversion H as [a N E|a I E]; subst; inversion K as [b N' E'|b I' E']; subst; auto.
  - apply app_inj_tail in E'. now destruct E'.
  - cbn in I'. repeat destruct I' as [I'|I']; try discriminate; contradiction.
  - cbn in I. repeat destruct I as [I|I]; try discriminate; contradiction.
Qed.

Definition zero_ok (g : string) (z : bytes) : bool :=
  existsb (fun p => (String.eqb (fst p) g && (bytes_eqb z ("'"%char :: B (snd p) ++ ["'"%char]) || (existsb (bytes_eqb z) [B "true"; B "false"; B "0"] && bytes_eqb z (B (snd p)))))%bool) zeros.

Lemma plain_zeros : forallb (fun p => negb (existsb (Ascii.eqb "'"%char) (B (snd p)))) zeros = true.
Proof. vm_compute. reflexivity. Qed.

Lemma zero_ok_spec : forall g z, zero_ok g z = true -> exists s, sql_constant z (lit s) /\ In (g, s) zeros.
Proof.
  intros g z H. apply existsb_exists in H. destruct H as ([g' s] & I & H). cbn [fst snd] in H. apply andb_prop in H. destruct H as [E H]. apply String.eqb_eq in E. subst g'. exists s. split; auto. apply orb_prop in H. destruct H as [H|H].
  - apply bytes_eqb_eq in H. subst z. constructor. intros J. pose proof plain_zeros as P. rewrite forallb_forall in P. specialize (P _ I). cbn [snd] in P. apply negb_true_iff, Bool.not_true_iff_false in P. apply P. apply existsb_exists. exists "'"%char. split; auto.
  - apply andb_prop in H. destruct H as [H E]. apply bytes_eqb_eq in E. subst z. constructor. apply existsb_exists in H. destruct H as (x & J & E). apply bytes_eqb_eq in E. subst x. exact J.
Qed.

Lemma all_zeros : forallb (fun '(n, gs) => forallb (fun '(n', o, a) => negb (String.eqb n n') || forallb (fun g => match find_oid o TypeToZeroValue with Some z => zero_ok g z | None => false end) gs)%bool pg_types) native = true.
Proof. vm_compute. reflexivity. Qed.

Lemma native_zero : forall name o a gs g, In (name, o, a) pg_types -> In (name, gs) native -> In g gs -> exists z s, find_oid o TypeToZeroValue = Some z /\ sql_constant z (lit s) /\ In (g, s) zeros.
Proof.
  intros name o a gs g I J G. pose proof all_zeros as H. rewrite forallb_forall in H. specialize (H _ J). cbv beta iota in H. rewrite forallb_forall in H. specialize (H _ I). cbv beta iota in H.
  rewrite String.eqb_refl in H. cbn [negb orb] in H. rewrite forallb_forall in H. specialize (H _ G). destruct (find_oid o TypeToZeroValue) as [z|]; [|discriminate]. apply zero_ok_spec in H. destruct H as (s & H & K). eauto.
Qed.

Lemma natives_not_uuid : forallb (fun '(n, gs) => forallb (fun '(n', o, a) => negb (String.eqb n n' && N.eqb o oid_UUID))%bool pg_types) native = true.
Proof. vm_compute. reflexivity. Qed.

Lemma native_not_uuid : forall name o a gs, In (name, o, a) pg_types -> In (name, gs) native -> o <> oid_UUID.
Proof.
  intros name o a gs I J E. pose proof natives_not_uuid as H. rewrite forallb_forall in H. specialize (H _ J). cbv beta iota in H. rewrite forallb_forall in H. specialize (H _ I). cbv beta iota in H.
  rewrite String.eqb_refl in H. apply N.eqb_eq in E. rewrite E in H. discriminate.
Qed.

Lemma C100_read_proof : forall r x name a gs g, fetched r x -> zero_for_null r -> fi_coalval (fr_field r) = [] ->
  In (name, ty_oid (co_type (fr_col r)), a) pg_types -> In (name, gs) native -> In g gs ->
  exists z s, x = XCoalesce (XCol (fr_ident r)) (XCast (XLit z) (ty_fmt (co_type (fr_col r)))) /\ sql_constant z (lit s) /\ In (g, s) zeros.
Proof.
  intros r x name a gs g F Z V I J G. destruct (native_zero _ _ _ _ _ I J G) as (z & s & F1 & C & K). exists z, s. split; [|split; auto].
  assert (U : ty_oid (co_type (fr_col r)) <> oid_UUID). { intros E. rewrite E in I. exact (native_not_uuid _ _ _ _ I J eq_refl). }
  inversion F; subst; try contradiction; congruence.
Qed.

Lemma C100_written_proof : forall q pre cast w x name a gs g, GenSpec.stored q pre cast w x -> defaulted q w = false -> null_as_zero w ->
  In (name, ty_oid (co_type (fw_col w)), a) pg_types -> In (name, gs) native -> In g gs ->
  exists z s, x = XCast (XNullif (XParam (Acc (pre ++ field_path (fw_field w)) (fw_valuer w))) z) (ty_fmt (co_type (fw_col w))) /\ sql_constant z (lit s) /\ In (g, s) zeros.
Proof.
  intros q pre cast w x name a gs g F D Z I J G. destruct (native_zero _ _ _ _ _ I J G) as (z & s & F1 & C & K). exists z, s. split; [|split; auto].
  assert (U : ty_oid (co_type (fw_col w)) <> oid_UUID). { intros E. rewrite E in I. exact (native_not_uuid _ _ _ _ I J eq_refl). }
  inversion F; subst; try contradiction; congruence.
Qed.

Definition ex_login : gtype := TNamed (ex_name "User") (TStruct [(ex_var "Login" (ex_tag "sql" ["login"]), ex_str)]).

Definition ex_logins : fields := [(ex_var "Rel" (ex_tag "rel" ["user:u"]), TPtr ex_login); (ex_var "_" [], ex_dir "All")].

Lemma C100_text_refuted_proof : exists name o a e z s, In (name, o, a) pg_types /\ entry o false (lit "string") e /\ ce_scanner e = [] /\ find_oid o TypeToZeroValue = Some z
  /\ sql_constant z s /\ ~ exists s', s = lit s' /\ In ("string", s') zeros.
Proof.
  exists "box", oid_Box, 1020%N, (MkCE [] []), (B "'(0,0),(0,0)'"), (B "(0,0),(0,0)"). split; [cbn; tauto|]. split; [apply compat_entry; vm_compute; reflexivity|]. split; [reflexivity|]. split; [vm_compute; reflexivity|]. split.
  - apply (sc_quoted (B "(0,0),(0,0)")). vm_compute. intros H. repeat destruct H as [H|H]; try discriminate; contradiction.
  - intros (s' & E & I). cbn in I. repeat destruct I as [I|I]; try contradiction; try discriminate. injection I as <-. discriminate.
Qed.
