(** Definitions and proofs used by PropsCmd.v. *)
From Coq Require Import Ascii String ZArith NArith Bool List Permutation Lia.
From Verif Require Import GoBase Strconv Utf8 Filter TagSpec AParse AParseProofs Analysis ConvertProofs AnalysisProofs Config Command CommandSpec.
Import ListNotations.
Local Open Scope string_scope.
Local Open Scope list_scope.

Lemma has_prefix_spec : forall p s, has_prefix p s = true <-> exists r, s = p ++ r.
Proof.
  induction p as [|x p IH]; intros s; cbn.
  - split; eauto.
  - destruct s as [|y s].
    + split; [discriminate|]. intros (r & E). discriminate.
    + rewrite andb_true_iff, IH, Ascii.eqb_eq. split.
      * intros [-> (r & ->)]. exists r. reflexivity.
      * intros (r & E). injection E as -> ->. split; [reflexivity|]. exists r. reflexivity.
Qed.

Lemma has_suffix_spec : forall p s, has_suffix p s = true <-> exists r, s = r ++ p.
Proof.
  intros p s. unfold has_suffix. rewrite has_prefix_spec. split.
  - intros (r & E). exists (rev r). rewrite <- (rev_involutive s), E, rev_app_distr, rev_involutive. reflexivity.
  - intros (r & ->). exists (rev r). apply rev_app_distr.
Qed.

Lemma contains_spec : forall p s, contains p s = true <-> exists a b, s = a ++ p ++ b.
Proof.
  induction s as [|c s IH]; cbn [contains]; rewrite orb_true_iff, has_prefix_spec.
  - split.
    + intros [(r & E)|H]; [|discriminate]. exists [], r. exact E.
    + intros (a & b & E). left. destruct a; [|discriminate]. exists b. exact E.
  - rewrite IH. split.
    + intros [(r & E)|(a & b & ->)]; [exists [], r; exact E|]. exists (c :: a), b. reflexivity.
    + intros (a & b & E). destruct a as [|x a].
      * left. exists b. exact E.
      * right. injection E as <- ->. exists a, b. reflexivity.
Qed.

Lemma go_file_spec : forall n, has_suffix (B ".go") n = true <-> go_file n.
Proof. intros. apply has_suffix_spec. Qed.

Lemma go_file_false : forall n, has_suffix (B ".go") n = false <-> ~ go_file n.
Proof. intros. rewrite <- go_file_spec. destruct (has_suffix (B ".go") n); intuition congruence. Qed.

Lemma trim_stem : forall base, stem_of base (trim_suffix (B ".go") base).
Proof.
  intros base. unfold trim_suffix. destruct (has_suffix (B ".go") base) eqn:E.
  - apply has_suffix_spec in E. destruct E as (r & ->). left. f_equal.
    rewrite app_length, Nat.add_sub. rewrite firstn_app, Nat.sub_diag, firstn_all, firstn_O, app_nil_r. reflexivity.
  - right. split; [apply go_file_false; exact E|reflexivity].
Qed.

Lemma sprintf_fmt : forall pre post name, ~ In "%"%char pre -> sprintf_s (pre ++ B "%s" ++ post) name = pre ++ name ++ post.
Proof.
  induction pre as [|c pre IH]; intros post name H.
  - reflexivity.
  - cbn [In] in H. cbn [app]. change (sprintf_s (c :: pre ++ B "%s" ++ post) name) with
      (match pre ++ B "%s" ++ post with
       | c2 :: r2 => if beq c "%" && beq c2 "s" then name ++ r2 else c :: sprintf_s (pre ++ B "%s" ++ post) name
       | [] => c :: pre ++ B "%s" ++ post
       end).
    assert (E : beq c "%" = false).
    { unfold beq. apply Ascii.eqb_neq. intros ->. tauto. }
    rewrite E. cbn [andb]. rewrite IH by tauto.
    destruct (pre ++ B "%s" ++ post) eqn:X; [destruct pre; discriminate|reflexivity].
Qed.

Lemma cut_last_none : forall sep s, ~ In sep s -> cut_last sep s = None.
Proof.
  induction s as [|c s IH]; intros H; [reflexivity|]. cbn [In] in H. cbn. rewrite IH by tauto.
  destruct (beq c sep) eqn:E; [|reflexivity]. apply Ascii.eqb_eq in E. subst. tauto.
Qed.

Lemma cut_last_app : forall sep a b, ~ In sep b -> cut_last sep (a ++ sep :: b) = Some (a, b).
Proof.
  induction a as [|c a IH]; intros b H; cbn.
  - rewrite cut_last_none by exact H. unfold beq. rewrite Ascii.eqb_refl. reflexivity.
  - rewrite IH by exact H. reflexivity.
Qed.

Lemma out_eq : forall f pre post p dir base, fmt_of f pre post -> file_in p dir base ->
  outFilePath f p = dir ++ "/"%char ::
    (let n := pre ++ trim_suffix (B ".go") base ++ post in if has_suffix (B ".go") n then n else n ++ B ".go").
Proof.
  intros f pre post p dir base (-> & H1 & _) [-> Hb]. unfold outFilePath.
  rewrite cut_last_app by exact Hb. rewrite sprintf_fmt by exact H1. reflexivity.
Qed.

Lemma count_zero : forall s, count_byte "%" s = 0 <-> ~ In "%"%char s.
Proof.
  intros s. unfold count_byte. induction s as [|c s IH]; cbn [filter In]; [cbn; tauto|].
  destruct (beq "%" c) eqn:E.
  - apply Ascii.eqb_eq in E. subst. cbn. split; [discriminate|tauto].
  - rewrite IH. split; [intros H [->|Hi]; [discriminate|tauto]|tauto].
Qed.

Lemma count_app : forall a b, count_byte "%" (a ++ b) = count_byte "%" a + count_byte "%" b.
Proof. intros. unfold count_byte. rewrite filter_app, app_length. reflexivity. Qed.

Lemma C46_format_proof : forall f f', norm_format f = Some f' <->
  (~ In "%"%char f /\ f' = B "%s" ++ f) \/ (exists pre post, fmt_of f pre post /\ f' = f).
Proof.
  intros f f'. unfold norm_format. split.
  - destruct (count_byte "%" f) as [|[|n]] eqn:C; [| |discriminate].
    + intros [= <-]. left. split; [apply count_zero; exact C|reflexivity].
    + destruct (contains (B "%s") f) eqn:E; [|discriminate]. intros [= <-]. right.
      apply contains_spec in E. destruct E as (a & b & ->). exists a, b.
      rewrite !count_app in C. change (count_byte "%" (B "%s")) with 1 in C.
      split; [|reflexivity]. split; [reflexivity|]. split; apply count_zero; lia.
  - intros [[H ->]|(pre & post & (-> & H1 & H2) & ->)].
    + apply count_zero in H. rewrite H. reflexivity.
    + apply count_zero in H1, H2. rewrite !count_app, H1, H2. change (count_byte "%" (B "%s")) with 1. cbn [Nat.add].
      replace (contains (B "%s") (pre ++ B "%s" ++ post)) with true; [reflexivity|].
      symmetry. apply contains_spec. eauto.
Qed.

Lemma norm_fmt : forall f f', norm_format f = Some f' -> exists pre post, fmt_of f' pre post.
Proof.
  intros f f' H. apply C46_format_proof in H. destruct H as [[H ->]|(pre & post & H & ->)]; [|eauto].
  exists [], f. split; [reflexivity|]. split; [tauto|exact H].
Qed.

Lemma C46_name_proof : forall f pre post p dir base,
  fmt_of f pre post -> file_in p dir base ->
  exists stem n, stem_of base stem /\ go_name (pre ++ stem ++ post) n /\ outFilePath f p = dir ++ "/"%char :: n.
Proof.
  intros f pre post p dir base Hf Hp. rewrite (out_eq _ _ _ _ _ _ Hf Hp).
  exists (trim_suffix (B ".go") base). eexists. split; [apply trim_stem|]. split; [|reflexivity].
  cbv zeta. destruct (has_suffix (B ".go") (pre ++ trim_suffix (B ".go") base ++ post)) eqn:E.
  - left. split; [apply go_file_spec; exact E|reflexivity].
  - right. split; [apply go_file_false; exact E|reflexivity].
Qed.

Lemma rev_inj : forall (a b : bytes), rev a = rev b -> a = b.
Proof. intros a b H. rewrite <- (rev_involutive a), H. apply rev_involutive. Qed.

(** Whether a name gets the extension depends on the end of the format alone,
    unless that end is itself an end of the extension. *)
Lemma go_suffix_post : forall post, post <> [] -> post <> B "o" -> post <> B "go" ->
  (forall x, has_suffix (B ".go") (x ++ post) = true) \/ (forall x, has_suffix (B ".go") (x ++ post) = false).
Proof.
  intros post H0 H1 H2. unfold has_suffix.
  change (rev (B ".go")) with ["o"; "g"; "."]%char.
  assert (E : forall x : bytes, rev (x ++ post) = rev post ++ rev x) by (intros; apply rev_app_distr).
  destruct (rev post) as [|a [|b [|c r]]] eqn:R.
  - apply (f_equal (@rev ascii)) in R. rewrite rev_involutive in R. contradiction.
  - right. intros x. rewrite E. cbn [app has_prefix]. destruct (Ascii.eqb "o" a) eqn:Ea; [|reflexivity].
    apply Ascii.eqb_eq in Ea. subst. exfalso. apply H1. apply rev_inj. exact R.
  - right. intros x. rewrite E. cbn [app has_prefix]. destruct (Ascii.eqb "o" a) eqn:Ea; [|reflexivity].
    destruct (Ascii.eqb "g" b) eqn:Eb; [|reflexivity].
    apply Ascii.eqb_eq in Ea, Eb. subst. exfalso. apply H2. apply rev_inj. exact R.
  - destruct (has_prefix ["o"; "g"; "."]%char (a :: b :: c :: r)) eqn:P.
    + left. intros x. rewrite E. cbn [app has_prefix] in *. exact P.
    + right. intros x. rewrite E. cbn [app has_prefix] in *. exact P.
Qed.

Lemma app_slash : forall a b n m, a ++ "/"%char :: n = b ++ "/"%char :: m -> ~ In "/"%char n -> ~ In "/"%char m -> a = b /\ n = m.
Proof.
  intros a b n m H Hn Hm. pose proof (cut_last_app "/" a n Hn) as X. rewrite H, (cut_last_app "/" b m Hm) in X.
  injection X as -> ->. auto.
Qed.

Lemma in_trim : forall c base, In c (trim_suffix (B ".go") base) -> In c base.
Proof.
  intros c base. unfold trim_suffix. destruct (has_suffix (B ".go") base); [|auto].
  intros H. rewrite <- (firstn_skipn (List.length base - List.length (B ".go")) base). apply in_or_app. auto.
Qed.

Lemma no_slash_name : forall pre post base, ~ In "/"%char (pre ++ post) -> ~ In "/"%char base ->
  ~ In "/"%char (let n := pre ++ trim_suffix (B ".go") base ++ post in if has_suffix (B ".go") n then n else n ++ B ".go").
Proof.
  intros pre post base Hf Hb. cbv zeta.
  assert (N : ~ In "/"%char (pre ++ trim_suffix (B ".go") base ++ post)).
  { intros H. apply in_app_or in H. destruct H as [H|H]; [apply Hf, in_or_app; auto|].
    apply in_app_or in H. destruct H as [H|H]; [apply Hb, in_trim; exact H|apply Hf, in_or_app; auto]. }
  destruct (has_suffix (B ".go") (pre ++ trim_suffix (B ".go") base ++ post)); [exact N|].
  intros H. apply in_app_or in H. destruct H as [H|H]; [exact (N H)|]. cbn in H. intuition discriminate.
Qed.

Lemma C46_injective_proof : forall f pre post p1 p2 d1 d2 b1 b2,
  fmt_of f pre post -> ~ In "/"%char (pre ++ post) ->
  post <> [] -> post <> B "o" -> post <> B "go" ->
  file_in p1 d1 b1 -> file_in p2 d2 b2 -> go_file b1 -> go_file b2 ->
  outFilePath f p1 = outFilePath f p2 -> p1 = p2.
Proof.
  intros f pre post p1 p2 d1 d2 b1 b2 Hf Hs N0 N1 N2 F1 F2 G1 G2 H.
  rewrite (out_eq _ _ _ _ _ _ Hf F1), (out_eq _ _ _ _ _ _ Hf F2) in H.
  destruct F1 as [-> S1], F2 as [-> S2].
  apply app_slash in H; try (apply no_slash_name; assumption).
  destruct H as [-> H]. do 2 f_equal. cbv zeta in H.
  assert (T : forall b, go_file b -> b = trim_suffix (B ".go") b ++ B ".go").
  { intros b Hb. destruct (trim_stem b) as [E|[E _]]; [exact E|contradiction]. }
  rewrite (T b1 G1), (T b2 G2). f_equal.
  rewrite !app_assoc in H.
  destruct (go_suffix_post post N0 N1 N2) as [K|K]; rewrite !K in H.
  - apply app_inv_tail, app_inv_head in H. exact H.
  - apply app_inv_tail, app_inv_tail, app_inv_head in H. exact H.
Qed.

Lemma C46_injective_refuted_proof : exists f pre post p1 p2 d b1 b2,
  fmt_of f pre post /\ post = [] /\ file_in p1 d b1 /\ file_in p2 d b2 /\ go_file b1 /\ go_file b2
  /\ p1 <> p2 /\ outFilePath f p1 = outFilePath f p2.
Proof.
  exists (B "sql_%s"), (B "sql_"), [], (B "/p/a.go"), (B "/p/a.go.go"), (B "/p"), (B "a.go"), (B "a.go.go").
  split; [split; [reflexivity|]; split; cbn; intuition discriminate|].
  split; [reflexivity|].
  split; [split; [reflexivity|]; cbn; intuition discriminate|].
  split; [split; [reflexivity|]; cbn; intuition discriminate|].
  split; [exists (B "a"); reflexivity|]. split; [exists (B "a.go"); reflexivity|].
  split; [discriminate|]. vm_compute. reflexivity.
Qed.

Lemma C46_not_self_proof : forall f pre post p dir base,
  fmt_of f pre post -> ~ In "/"%char (pre ++ post) -> List.length (pre ++ post) <> 0 -> List.length (pre ++ post) <> 3 ->
  file_in p dir base -> go_file base -> outFilePath f p <> p.
Proof.
  intros f pre post p dir base Hf Hs L0 L3 Hp Hg H. rewrite (out_eq _ _ _ _ _ _ Hf Hp) in H.
  destruct Hp as [-> Sb]. apply app_slash in H; [|apply no_slash_name; assumption|exact Sb]. destruct H as [_ H].
  destruct (trim_stem base) as [E|[E _]]; [|contradiction].
  apply (f_equal (@List.length ascii)) in H. apply (f_equal (@List.length ascii)) in E. cbv zeta in H.
  rewrite app_length in L0, L3. rewrite app_length in E. change (List.length (B ".go")) with 3 in E.
  destruct (has_suffix (B ".go") (pre ++ trim_suffix (B ".go") base ++ post)); rewrite ?app_length in H;
    change (List.length (B ".go")) with 3 in H; lia.
Qed.

Lemma C46_self_refuted_proof : forall f, In f [[]; B ".go"; B "%s"; B "%s.go"] ->
  exists f', norm_format f = Some f' /\ outFilePath f' (B "/p/user.go") = B "/p/user.go".
Proof.
  intros f H. cbn [In] in H. repeat (destruct H as [<-|H]; [eexists; split; [vm_compute; reflexivity|vm_compute; reflexivity]|]).
  destruct H.
Qed.

Lemma C46_other_refuted_proof : exists p1 p2, p1 <> p2
  /\ outFilePath (B "%s_gosql.go") p1 = p2 /\ outFilePath (B "%s_gosql.go") p2 <> p2.
Proof.
  exists (B "/p/user.go"), (B "/p/user_gosql.go"). split; [discriminate|]. split; [vm_compute; reflexivity|].
  vm_compute. discriminate.
Qed.

Lemma ignore_spec : forall doc, hasIgnoreDirective doc = true <-> ignored doc.
Proof.
  intros doc. unfold hasIgnoreDirective. rewrite existsb_exists. split.
  - intros (c & Hc & H). apply contains_spec in H. destruct H as (a & b & ->). exists a, b. exact Hc.
  - intros (a & b & H). eexists. split; [exact H|]. apply contains_spec. eauto.
Qed.

Lemma fold_letter_spec : forall p s r, fold_letter p s = Some r <-> exists l, letter_of l p /\ s = l ++ r.
Proof.
  intros p s r. destruct s as [|c s]; cbn [fold_letter].
  - split; [discriminate|]. intros (l & [->|[->|[_ ->]]] & E); discriminate.
  - destruct (beq c p || beq c (ascii_of_N (code p - 32))) eqn:E1.
    + split.
      * intros [= ->]. exists [c]. split; [|reflexivity]. apply orb_true_iff in E1.
        destruct E1 as [E|E]; apply Ascii.eqb_eq in E; subst; [left|right; left]; reflexivity.
      * intros (l & [->|[->|[-> ->]]] & E); injection E as -> E; try (subst; reflexivity).
        subst. vm_compute in E1. discriminate.
    + apply orb_false_iff in E1. destruct E1 as [E1 E2].
      assert (N1 : c <> p) by (intros ->; unfold beq in E1; rewrite Ascii.eqb_refl in E1; discriminate).
      assert (N2 : c <> ascii_of_N (N_of_ascii p - 32)).
      { intros X. unfold beq, code in E2. rewrite <- X, Ascii.eqb_refl in E2. discriminate. }
      destruct (beq p "s" && (code c =? 197)%N) eqn:E3.
      * apply andb_true_iff in E3. destruct E3 as [E3 E4]. apply Ascii.eqb_eq in E3. apply N.eqb_eq in E4.
        assert (c = ascii_of_N 197) as -> by (rewrite <- E4; unfold code; rewrite ascii_N_embedding; reflexivity).
        subst p. destruct s as [|c2 s].
        { split; [discriminate|]. intros (l & [->|[->|[_ ->]]] & E); try discriminate; injection E as E; congruence. }
        destruct (code c2 =? 191)%N eqn:E5.
        -- apply N.eqb_eq in E5.
           assert (c2 = ascii_of_N 191) as -> by (rewrite <- E5; unfold code; rewrite ascii_N_embedding; reflexivity).
           split.
           ++ intros [= ->]. exists [ascii_of_N 197; ascii_of_N 191]. split; [right; right; auto|reflexivity].
           ++ intros (l & [->|[->|[_ ->]]] & E); try discriminate. injection E as ->. reflexivity.
        -- split; [discriminate|]. intros (l & [->|[->|[_ ->]]] & E); try discriminate.
           injection E as -> _. vm_compute in E5. discriminate.
      * split; [discriminate|]. intros (l & [->|[->|[-> ->]]] & E); injection E as E; try congruence.
        subst. vm_compute in E3. discriminate.
Qed.

Lemma fold_prefix_spec : forall w n, fold_prefix w n = true <-> begins w n.
Proof.
  induction w as [|c w IH]; intros n; cbn [fold_prefix].
  - split; [|reflexivity]. intros _. exists [], n. split; [constructor|reflexivity].
  - split.
    + destruct (fold_letter c n) as [r|] eqn:E; [|discriminate]. intros H. apply IH in H.
      destruct H as (ls & rest & F & ->). apply fold_letter_spec in E. destruct E as (l & L & ->).
      exists (l :: ls), rest. split; [constructor; assumption|]. cbn. apply app_assoc.
    + intros (ls & rest & F & ->). inversion F as [|l c' ls' w' L F' X1 X2]; subst.
      cbn [List.concat]. rewrite <- app_assoc.
      assert (E : fold_letter c (l ++ List.concat ls' ++ rest) = Some (List.concat ls' ++ rest)).
      { apply fold_letter_spec. exists l. split; [exact L|reflexivity]. }
      rewrite E. apply IH. exists ls', rest. split; [exact F'|reflexivity].
Qed.

Lemma target_spec : forall n, rxTargetName n = true <-> target_name n.
Proof.
  intros n. unfold rxTargetName, target_name. rewrite existsb_exists. split.
  - intros (w & Hw & H). exists w. split; [exact Hw|]. apply fold_prefix_spec. exact H.
  - intros (w & Hw & H). exists w. split; [exact Hw|]. apply fold_prefix_spec. exact H.
Qed.

Lemma bool_neg : forall (b : bool) P, (b = true <-> P) -> b = false <-> ~ P.
Proof. intros [] P H; intuition discriminate. Qed.

Lemma declares_spec : forall f h, In h (flat_map decl_hits (gf_decls f)) <-> declares f h.
Proof.
  intros f h. rewrite in_flat_map. unfold declares. split.
  - intros (d & Hd & H). destruct d as [doc specs|]; [|destruct H]. cbn in H.
    destruct (hasIgnoreDirective doc) eqn:Ei; [destruct H|]. apply in_flat_map in H. destruct H as (sp & Hs & H).
    unfold spec_hits in H. destruct (negb (rxTargetName (ts_name sp)) || hasIgnoreDirective (ts_doc sp)) eqn:E; [destruct H|].
    apply orb_false_iff in E. destruct E as [E1 E2]. apply negb_false_iff in E1.
    destruct (ts_named sp) as [n|] eqn:En; [|destruct H]. destruct H as [->|[]].
    exists doc, specs, sp. split; [exact Hd|]. split; [exact Hs|].
    split; [apply (bool_neg _ _ (ignore_spec doc)); exact Ei|].
    split; [apply (bool_neg _ _ (ignore_spec (ts_doc sp))); exact E2|].
    split; [apply target_spec; exact E1|exact En].
  - intros (doc & specs & sp & Hd & Hs & I1 & I2 & T & En). exists (DType doc specs). split; [exact Hd|].
    cbn. apply (bool_neg _ _ (ignore_spec doc)) in I1. rewrite I1. apply in_flat_map. exists sp. split; [exact Hs|].
    unfold spec_hits. apply target_spec in T. apply (bool_neg _ _ (ignore_spec (ts_doc sp))) in I2.
    rewrite T, I2, En. left. reflexivity.
Qed.

Lemma C74_search_proof : forall flt pkgs pk path h,
  (exists fs hs, In (pk, fs) (Search flt pkgs) /\ In (path, hs) fs /\ In h hs) <->
  (exists p f, In p pkgs /\ gp_name p = pk /\ In f (gp_files p) /\ gf_path f = path
     /\ (forall g, flt = Some g -> g path = true) /\ declares f h).
Proof.
  intros flt pkgs pk path h. unfold Search. set (g := match flt with Some f => f | None => fun _ => true end).
  assert (Hg : forall q, g q = true <-> (forall g', flt = Some g' -> g' q = true)).
  { intros q. unfold g. destruct flt as [g'|].
    - split; [intros H g'' [= <-]; exact H|intros H; apply H; reflexivity].
    - split; [intros _ g'; discriminate|reflexivity]. }
  split.
  - intros (fs & hs & H1 & H2 & H3). apply in_flat_map in H1. destruct H1 as (p & Hp & H1).
    unfold pkg_hits in H1. destruct (flat_map (file_hits g) (gp_files p)) as [|x l] eqn:E; [destruct H1|].
    destruct H1 as [[= <- <-]|[]]. rewrite <- E in H2. apply in_flat_map in H2. destruct H2 as (f & Hf & H2).
    unfold file_hits in H2. destruct (negb (g (gf_path f))) eqn:Eg; [destruct H2|]. apply negb_false_iff in Eg.
    destruct (flat_map decl_hits (gf_decls f)) as [|y m] eqn:Ed; [destruct H2|].
    destruct H2 as [[= <- <-]|[]]. rewrite <- Ed in H3. apply declares_spec in H3.
    exists p, f. split; [exact Hp|]. split; [reflexivity|]. split; [exact Hf|]. split; [reflexivity|].
    split; [apply Hg; exact Eg|exact H3].
  - intros (p & f & Hp & <- & Hf & <- & Hfl & D). apply Hg in Hfl. apply declares_spec in D.
    assert (F : In (gf_path f, flat_map decl_hits (gf_decls f)) (flat_map (file_hits g) (gp_files p))).
    { apply in_flat_map. exists f. split; [exact Hf|]. unfold file_hits. rewrite Hfl. cbn [negb].
      destruct (flat_map decl_hits (gf_decls f)); [destruct D|left; reflexivity]. }
    exists (flat_map (file_hits g) (gp_files p)), (flat_map decl_hits (gf_decls f)).
    split; [|split; [exact F|exact D]]. apply in_flat_map. exists p. split; [exact Hp|]. unfold pkg_hits.
    destruct (flat_map (file_hits g) (gp_files p)); [destruct F|left; reflexivity].
Qed.

Definition ex_file74 : gofile := MkFile (B "/p/a.go")
  [DType [B "// All users."] [MkSpec (B "SELECTusers") [] (Some (B "SELECTusers", TStruct []));
                              MkSpec (B "InsertUser") [B "//gosql:ignore"] (Some (B "InsertUser", TStruct []));
                              MkSpec (B "User") [] (Some (B "User", TStruct []))];
   DType [B "/* gosql:ignore */"] [MkSpec (B "DeleteUser") [] (Some (B "DeleteUser", TStruct []))]; DOther].

Lemma C74_files_proof : forall flt pkgs,
  (forall pk fs, In (pk, fs) (Search flt pkgs) -> fs <> [] /\ forall path hs, In (path, hs) fs -> hs <> [])
  /\ (NoDup (flat_map (fun p => map gf_path (gp_files p)) pkgs) ->
      NoDup (flat_map (fun pf : bytes * list (bytes * list hit) => map fst (snd pf)) (Search flt pkgs))).
Proof.
  intros flt pkgs. split.
  - intros pk fs H. unfold Search in H. apply in_flat_map in H. destruct H as (p & Hp & H). unfold pkg_hits in H.
    destruct (flat_map _ (gp_files p)) as [|x l] eqn:E; [destruct H|]. destruct H as [[= <- <-]|[]].
    split; [discriminate|]. intros path hs H. rewrite <- E in H. apply in_flat_map in H. destruct H as (f & _ & H).
    unfold file_hits in H. destruct (negb _); [destruct H|]. destruct (flat_map decl_hits (gf_decls f)); [destruct H|].
    destruct H as [[= <- <-]|[]]. discriminate.
  - unfold Search. set (g := match flt with Some f => f | None => fun _ => true end).
    assert (F : forall fs, exists rest, Permutation (map gf_path fs) (map fst (flat_map (file_hits g) fs) ++ rest)).
    { induction fs as [|f fs (rest & IH)]; [exists []; constructor|]. cbn [map flat_map]. unfold file_hits at 1.
      destruct (negb (g (gf_path f))); [|destruct (flat_map decl_hits (gf_decls f))]; cbn [map app fst];
        [exists (gf_path f :: rest)|exists (gf_path f :: rest)|exists rest].
      - rewrite <- Permutation_middle. constructor. exact IH.
      - rewrite <- Permutation_middle. constructor. exact IH.
      - constructor. exact IH. }
    assert (P : forall l, exists rest, Permutation (flat_map (fun p => map gf_path (gp_files p)) l)
      (flat_map (fun pf : bytes * list (bytes * list hit) => map fst (snd pf)) (flat_map (pkg_hits g) l) ++ rest)).
    { induction l as [|p l (rest & IH)]; [exists []; constructor|]. destruct (F (gp_files p)) as (r2 & Q).
      cbn [flat_map]. rewrite flat_map_app.
      assert (E : flat_map (fun pf : bytes * list (bytes * list hit) => map fst (snd pf)) (pkg_hits g p)
                  = map fst (flat_map (file_hits g) (gp_files p))).
      { unfold pkg_hits. destruct (flat_map (file_hits g) (gp_files p)); cbn [flat_map map snd fst]; [reflexivity|].
        rewrite app_nil_r. reflexivity. }
      rewrite E. exists (r2 ++ rest). rewrite Q, IH. rewrite <- !app_assoc. apply Permutation_app_head.
      rewrite !app_assoc. apply Permutation_app_tail. apply Permutation_app_comm. }
    destruct (P pkgs) as (rest & Q). intros N. apply (Permutation_NoDup Q) in N.
    clear -N. induction (flat_map (fun pf : bytes * list (bytes * list hit) => map fst (snd pf)) (flat_map (pkg_hits g) pkgs)) as [|x l IH];
      [constructor|]. cbn in N. inversion N; subst. constructor; [|apply IH; assumption].
    intros Hi. apply H1. apply in_or_app. auto.
Qed.

Lemma C74_filter_proof : forall rx files regexps p,
  (forall g, FileFilterFunc rx files regexps = Some g -> g p = true) <->
  (files = [] /\ regexps = []) \/ In p files \/ (exists r, In r regexps /\ rx r p = true).
Proof.
  intros rx files regexps p.
  assert (G : (existsb (bytes_eqb p) files || existsb (fun r => rx r p) regexps) = true <->
              In p files \/ exists r, In r regexps /\ rx r p = true).
  { rewrite orb_true_iff, !existsb_exists. split.
    - intros [(x & Hx & E)|H]; [|auto]. apply bytes_eqb_eq in E. subst. auto.
    - intros [H|H]; [|auto]. left. exists p. split; [exact H|apply bytes_eqb_refl]. }
  unfold FileFilterFunc. destruct files as [|x files]; [destruct regexps as [|r regexps]|].
  - split; [intros _; auto|intros _ g; discriminate].
  - split.
    + intros H. right. apply G. exact (H _ eq_refl).
    + intros [[_ H]|H] g [= <-]; [discriminate|]. apply G. exact H.
  - split.
    + intros H. right. apply G. exact (H _ eq_refl).
    + intros [[H _]|H] g [= <-]; [discriminate|]. apply G. exact H.
Qed.

Lemma spelled_ascii : forall p w, spelled p w -> ascii7 w -> ascii7 p.
Proof.
  unfold spelled, ascii7. induction p as [|c p IH]; intros w E H; [constructor|].
  destruct w as [|d w]; [discriminate|]. injection E as <- E. inversion H as [|x y H1 H2]; subst.
  constructor; [|eapply IH; [reflexivity|exact H2]].
  revert H1. unfold lower_char. destruct ((N_of_ascii "A" <=? N_of_ascii c) && (N_of_ascii c <=? N_of_ascii "Z"))%N eqn:X; [|auto].
  intros _. apply andb_true_iff in X. destruct X as [_ X]. apply N.leb_le in X. cbn in X. lia.
Qed.

Lemma lower_prefix : forall p rest, ascii7 p -> lower (p ++ rest) = map lower_char p ++ lower rest.
Proof.
  induction p as [|c p IH]; intros rest H; [reflexivity|]. inversion H; subst. cbn [app map].
  rewrite lower_cons by assumption. rewrite IH by assumption. reflexivity.
Qed.

Lemma words_ascii : forall w, In w target_words -> ascii7 w /\ List.length w = 6.
Proof.
  intros w H. cbn in H. repeat (destruct H as [<-|H]; [split; [repeat constructor; vm_compute; reflexivity|reflexivity]|]).
  destruct H.
Qed.

Lemma C75_kind_proof : forall e n p rest fs w, In w [B "select"; B "insert"; B "update"; B "delete"; B "filter"] ->
  n = p ++ rest -> spelled p w -> trimmed n ->
  (w = B "filter" /\ Run e n (TStruct fs) = (do f <- analyzeFilterStruct e fs; AOk (inr f)))
  \/ (exists k, kind_of w k /\ query_kind n = AOk k
      /\ Run e n (TStruct fs) = (do q <- analyzeQueryStruct e n fs; AOk (inl q))).
Proof.
  intros e n p rest fs w Hw -> Sp Tr. pose proof (words_ascii w Hw) as [Aw Lw].
  pose proof (spelled_ascii _ _ Sp Aw) as Ap. pose proof (lower_prefix p rest Ap) as L. unfold spelled in Sp. rewrite Sp in L.
  unfold Run, query_kind, tolower. rewrite trim_space_trimmed by exact Tr. rewrite L.
  rewrite firstn_app, <- Lw, Nat.sub_diag, firstn_all, firstn_O, app_nil_r.
  cbn [In] in Hw. repeat destruct Hw as [<-|Hw].
  - right. exists KSelect. split; [left; auto|]. split; [reflexivity|]. reflexivity.
  - right. exists KInsert. split; [right; left; auto|]. split; [reflexivity|]. reflexivity.
  - right. exists KUpdate. split; [right; right; left; auto|]. split; [reflexivity|]. reflexivity.
  - right. exists KDelete. split; [right; right; right; auto|]. split; [reflexivity|]. reflexivity.
  - left. split; [reflexivity|]. reflexivity.
  - destruct Hw.
Qed.

Lemma C75_nonstruct_refuted_proof : exists f h, declares f h /\ target_name (fst h)
  /\ forall e, Run e (fst h) (snd h) = APanic.
Proof.
  exists (MkFile (B "/p/a.go") [DType [] [MkSpec (B "SelectMode") [] (Some (B "SelectMode", TBasic BInt false false))]]),
         (B "SelectMode", TBasic BInt false false).
  assert (T : target_name (B "SelectMode")) by (apply target_spec; vm_compute; reflexivity).
  split; [|split; [exact T|reflexivity]].
  exists [], [MkSpec (B "SelectMode") [] (Some (B "SelectMode", TBasic BInt false false))]. eexists.
  split; [left; reflexivity|]. split; [left; reflexivity|].
  split; [intros (a & b & [])|]. split; [intros (a & b & [])|]. split; [exact T|reflexivity].
Qed.

Lemma C75_alias_refuted_proof : exists f h fs, declares f h /\ snd h = TStruct fs /\ ~ target_name (fst h)
  /\ forall e, Run e (fst h) (snd h) = APanic.
Proof.
  exists (MkFile (B "/p/a.go") [DType [] [MkSpec (B "SelectUsers") [] (Some (B "Users", TStruct []))]]),
         (B "Users", TStruct []), [].
  split; [|split; [reflexivity|split; [|reflexivity]]].
  - exists [], [MkSpec (B "SelectUsers") [] (Some (B "Users", TStruct []))]. eexists.
    split; [left; reflexivity|]. split; [left; reflexivity|].
    split; [intros (a & b & [])|]. split; [intros (a & b & [])|].
    split; [apply target_spec; vm_compute; reflexivity|reflexivity].
  - intros H. apply target_spec in H. vm_compute in H. discriminate.
Qed.

Lemma C75_long_s_refuted_proof : exists n fs, target_name n /\ forall e, Run e n (TStruct fs) = APanic.
Proof.
  exists (ascii_of_N 197 :: ascii_of_N 191 :: B "electUser"), []. split; [|reflexivity].
  apply target_spec. vm_compute. reflexivity.
Qed.

Lemma beqb_true : forall a b, bytes_eqb a b = true -> a = b.
Proof. intros. apply bytes_eqb_eq. assumption. Qed.

Lemma final_app : forall a b p, final (a ++ b) p = match final b p with Some s => Some s | None => final a p end.
Proof.
  induction a as [|[q s] a IH]; intros b p; cbn [app final].
  - destruct (final b p); reflexivity.
  - rewrite IH. destruct (final b p); reflexivity.
Qed.

Lemma write_all_done : forall w outs d d', write_all w d outs = (d', true) ->
  exists srcs, formatted w outs srcs /\ written d srcs d'.
Proof.
  induction outs as [|[p buf] outs IH]; intros d d' H; cbn in H.
  - injection H as <-. exists []. split; [constructor|]. intros p. reflexivity.
  - unfold writeOutFile in H. destruct (w_create w p) eqn:Ec; cbn [negb] in H; [|discriminate].
    destruct (w_format w buf) as [src|] eqn:Ef; [|discriminate].
    destruct (w_write w p) eqn:Ew; [|discriminate].
    apply IH in H. destruct H as (srcs & F & W). exists ((p, src) :: srcs). split; [constructor; [cbn; auto|exact F]|].
    intros q. rewrite W. cbn [final]. unfold put. destruct (final srcs q); [reflexivity|]. destruct (bytes_eqb p q); reflexivity.
Qed.

Lemma write_all_failed : forall w outs d d', write_all w d outs = (d', false) ->
  exists done srcs p buf rest d0, outs = done ++ (p, buf) :: rest /\ formatted w done srcs /\ written d srcs d0
    /\ ((w_create w p = false /\ d' = d0) \/
        (w_create w p = true /\ (w_format w buf = None \/ w_write w p = false) /\ d' = put d0 p None)).
Proof.
  induction outs as [|[p buf] outs IH]; intros d d' H; cbn in H; [discriminate|].
  unfold writeOutFile in H. destruct (w_create w p) eqn:Ec; cbn [negb] in H.
  2:{ injection H as <-. exists [], [], p, buf, outs, d. split; [reflexivity|]. split; [constructor|].
      split; [intros q; reflexivity|]. left. auto. }
  destruct (w_format w buf) as [src|] eqn:Ef.
  2:{ injection H as <-. exists [], [], p, buf, outs, d. split; [reflexivity|]. split; [constructor|].
      split; [intros q; reflexivity|]. right. auto. }
  destruct (w_write w p) eqn:Ew.
  2:{ injection H as <-. exists [], [], p, buf, outs, d. split; [reflexivity|]. split; [constructor|].
      split; [intros q; reflexivity|]. right. auto. }
  apply IH in H. destruct H as (dn & srcs & p1 & b1 & rest & d0 & -> & F & W & H).
  exists ((p, buf) :: dn), ((p, src) :: srcs), p1, b1, rest, d0. split; [reflexivity|].
  split; [constructor; [cbn; auto|exact F]|]. split; [|exact H].
  intros q. rewrite W. cbn [final]. unfold put. destruct (final srcs q); [reflexivity|]. destruct (bytes_eqb p q); reflexivity.
Qed.

Lemma mapM_ok_in : forall A C (f : A -> res C) l ys, mapM f l = Ok ys -> Forall2 (fun x y => f x = Ok y) l ys.
Proof.
  induction l as [|x l IH]; intros ys H; cbn in H; [injection H as <-; constructor|].
  destruct (f x) as [y| |] eqn:E; cbn in H; try discriminate.
  destruct (mapM f l) as [zs| |] eqn:E2; cbn in H; try discriminate. injection H as <-. constructor; auto.
Qed.

Lemma gen_file_ok : forall T (target : hit -> res T) gen format pkg f out, gen_file target gen format pkg f = Ok out ->
  exists ts, Forall2 (fun h t => target h = Ok t) (snd f) ts /\ gen pkg ts = Ok (snd out) /\ fst out = outFilePath format (fst f).
Proof.
  unfold gen_file. intros T target gen format pkg f out H.
  destruct (mapM target (snd f)) as [ts| |] eqn:E; cbn in H; try discriminate.
  destruct (gen pkg ts) as [buf| |] eqn:G; cbn in H; try discriminate. injection H as <-.
  exists ts. split; [apply mapM_ok_in; exact E|]. split; [exact G|reflexivity].
Qed.

Lemma forall2_app2 : forall A C (P : A -> C -> Prop) a1 a2 b1 b2, Forall2 P a1 b1 -> Forall2 P a2 b2 -> Forall2 P (a1 ++ a2) (b1 ++ b2).
Proof. intros. apply Forall2_app; assumption. Qed.

Lemma gen_all_ok : forall T (target : hit -> res T) gen format found outs, mapM (gen_pkg target gen format) found = Ok outs ->
  outputs target gen format found (List.concat outs).
Proof.
  intros T target gen format found outs H. apply mapM_ok_in in H. unfold outputs.
  induction H as [|[pk fs] os found outs H _ IH]; [constructor|]. cbn [flat_map List.concat fst snd].
  apply forall2_app2; [|exact IH]. unfold gen_pkg in H. cbn [fst snd] in H. apply mapM_ok_in in H. clear IH.
  induction H as [|f out fs os H _ IH]; [constructor|]. cbn [map]. constructor; [|exact IH]. cbn [fst snd].
  apply gen_file_ok. exact H.
Qed.

Lemma C76_done_proof : forall T (target : hit -> res T) gen w format flt pkgs d d',
  RunCommand target gen w format flt pkgs d = (d', Done) ->
  exists outs srcs, outputs target gen format (Search flt pkgs) outs /\ formatted w outs srcs /\ written d srcs d'.
Proof.
  intros T target gen w format flt pkgs d d' H. unfold RunCommand in H.
  destruct (mapM (gen_pkg target gen format) (Search flt pkgs)) as [outs| |] eqn:E; try discriminate.
  destruct (write_all w d (List.concat outs)) as [d1 ok] eqn:W. injection H as <- H. destruct ok; [|discriminate].
  apply write_all_done in W. destruct W as (srcs & F & W). exists (List.concat outs), srcs.
  split; [apply gen_all_ok; exact E|]. split; assumption.
Qed.

Lemma C76_untouched_proof : forall T (target : hit -> res T) gen w format flt pkgs d d' r,
  RunCommand target gen w format flt pkgs d = (d', r) ->
  r = Crashed \/ ~ (exists outs, outputs target gen format (Search flt pkgs) outs) -> d' = d.
Proof.
  intros T target gen w format flt pkgs d d' r H N. unfold RunCommand in H.
  destruct (mapM (gen_pkg target gen format) (Search flt pkgs)) as [outs| |] eqn:E; try congruence.
  exfalso. destruct (write_all w d (List.concat outs)) as [d1 ok]. injection H as <- <-.
  destruct N as [N|N]; [destruct ok; discriminate|]. apply N. exists (List.concat outs). apply gen_all_ok. exact E.
Qed.

Lemma C76_failed_proof : forall T (target : hit -> res T) gen w format flt pkgs d d' outs,
  RunCommand target gen w format flt pkgs d = (d', Failed) -> outputs target gen format (Search flt pkgs) outs ->
  exists done srcs p buf rest d0, outs = done ++ (p, buf) :: rest /\ formatted w done srcs /\ written d srcs d0
    /\ ((w_create w p = false /\ d' = d0) \/
        (w_create w p = true /\ (w_format w buf = None \/ w_write w p = false) /\ d' = put d0 p None)).
Proof.
  intros T target gen w format flt pkgs d d' outs H O. unfold RunCommand in H.
  assert (E : exists os, mapM (gen_pkg target gen format) (Search flt pkgs) = Ok os /\ List.concat os = outs).
  { clear H. unfold outputs in O. revert outs O. induction (Search flt pkgs) as [|[pk fs] found IH]; intros outs O.
    - inversion O; subst. exists []. split; reflexivity.
    - cbn [flat_map fst snd] in O. apply Forall2_app_inv_l in O. destruct O as (o1 & o2 & O1 & O2 & ->).
      apply IH in O2. destruct O2 as (os & E & <-). exists (o1 :: os). split; [|reflexivity].
      cbn [mapM]. rewrite E. unfold gen_pkg at 1. cbn [fst snd].
      assert (G : mapM (gen_file target gen format pk) fs = Ok o1).
      { clear -O1. revert o1 O1. induction fs as [|f fs IH]; intros o1 O1; inversion O1 as [|x y l l' H1 H2]; subst; [reflexivity|].
        cbn [mapM]. rewrite (IH _ H2). destruct H1 as (ts & F & G & P). cbn [fst snd] in *. unfold gen_file.
        assert (M : mapM target (snd f) = Ok ts).
        { clear -F. destruct f as [q hs]. cbn [snd] in *. induction F as [|h t hs ts H F IH]; [reflexivity|]. cbn [mapM]. rewrite H. cbn [bind]. rewrite IH. reflexivity. }
        rewrite M. cbn [bind]. rewrite G. cbn [bind]. rewrite <- P. destruct y; reflexivity. }
      rewrite G. reflexivity. }
  destruct E as (os & E & <-). rewrite E in H.
  destruct (write_all w d (List.concat os)) as [d1 ok] eqn:W. injection H as <- H. destruct ok; [discriminate|].
  apply write_all_failed in W. exact W.
Qed.

Definition ex_target (h : hit) : res bytes := if bytes_eqb (fst h) (B "SelectBad") then Err else Ok (fst h).

Definition ex_gen (pkg : bytes) (ts : list bytes) : res bytes := Ok (pkg ++ List.concat ts).

Definition ex_world : world := MkWorld (fun _ => true) (fun _ => true)
  (fun s => if contains (B "Odd") s then None else Some (s ++ B ";")).

Definition ex_type (n : bytes) : decl := DType [] [MkSpec n [] (Some (n, TStruct []))].

Definition ex_disk : disk := put (put (fun _ => None) (B "/p/b_gosql.go") (Some (B "old"))) (B "/p/a.go") (Some (B "src")).

Definition ex_run (b : bytes) : disk * ending :=
  RunCommand ex_target ex_gen ex_world (B "%s_gosql.go") None
    [MkPkg (B "p") [MkFile (B "/p/a.go") [ex_type (B "SelectA"); ex_type (B "User")]; MkFile (B "/p/b.go") [ex_type b]]] ex_disk.

Definition ex_view (r : disk * ending) : list (option bytes) * ending :=
  (map (fst r) [B "/p/a.go"; B "/p/a_gosql.go"; B "/p/b_gosql.go"], snd r).

Lemma C76_lost_refuted_proof : exists T (target : hit -> res T) gen w format flt pkgs d d' p s,
  RunCommand target gen w format flt pkgs d = (d', Failed) /\ d p = Some s /\ d' p = None.
Proof.
  exists bytes, ex_target, ex_gen, ex_world, (B "%s_gosql.go"), None,
    [MkPkg (B "p") [MkFile (B "/p/b.go") [ex_type (B "InsertOdd")]]], ex_disk.
  eexists. exists (B "/p/b_gosql.go"), (B "old"). split; [|split]; [|vm_compute; reflexivity|].
  - unfold RunCommand.
    assert (E : mapM (gen_pkg ex_target ex_gen (B "%s_gosql.go")) (Search None [MkPkg (B "p") [MkFile (B "/p/b.go") [ex_type (B "InsertOdd")]]])
                = Ok [[(B "/p/b_gosql.go", B "pInsertOdd")]]) by (vm_compute; reflexivity).
    rewrite E. cbn [List.concat app write_all]. unfold writeOutFile.
    assert (F : w_format ex_world (B "pInsertOdd") = None) by (vm_compute; reflexivity).
    rewrite F. cbn [ex_world w_create negb]. reflexivity.
  - vm_compute. reflexivity.
Qed.

(** Together with C46: on success the output of each Go file found holds what was
    generated for that file. *)
Lemma final_in : forall outs p s, NoDup (map fst outs) -> In (p, s) outs -> final outs p = Some s.
Proof.
  induction outs as [|[q t] outs IH]; intros p s N Hi; [destruct Hi|]. cbn [map fst] in N. inversion N as [|x y N1 N2]; subst.
  cbn [final]. destruct Hi as [[= -> ->]|Hi].
  - assert (F : final outs p = None).
    { clear -N1. induction outs as [|[q t] outs IH]; [reflexivity|]. cbn [map fst In] in N1. cbn [final].
      rewrite IH by tauto. destruct (bytes_eqb q p) eqn:E; [|reflexivity]. apply beqb_true in E. subst. tauto. }
    rewrite F, bytes_eqb_refl. reflexivity.
  - rewrite (IH _ _ N2 Hi). reflexivity.
Qed.

Lemma C76_each_file_proof : forall T (target : hit -> res T) gen w format flt pkgs d d' pre post,
  RunCommand target gen w format flt pkgs d = (d', Done) ->
  fmt_of format pre post -> ~ In "/"%char (pre ++ post) -> post <> [] -> post <> B "o" -> post <> B "go" ->
  NoDup (flat_map (fun p => map gf_path (gp_files p)) pkgs) ->
  (forall p f, In p pkgs -> In f (gp_files p) -> exists dir base, file_in (gf_path f) dir base /\ go_file base) ->
  forall pk fs path hs, In (pk, fs) (Search flt pkgs) -> In (path, hs) fs ->
  exists ts buf src, Forall2 (fun h t => target h = Ok t) hs ts /\ gen pk ts = Ok buf
    /\ w_format w buf = Some src /\ d' (outFilePath format path) = Some src.
Proof.
  intros T target gen w format flt pkgs d d' pre post H Hf Hs N0 N1 N2 ND Hfiles pk fs path hs H1 H2.
  apply C76_done_proof in H. destruct H as (outs & srcs & O & F & W).
  set (found := flat_map (fun pf : bytes * list (bytes * list hit) => map (fun f => (fst pf, f)) (snd pf)) (Search flt pkgs)) in *.
  assert (Fin : In (pk, (path, hs)) found).
  { apply in_flat_map. exists (pk, fs). split; [exact H1|]. apply in_map_iff. exists (path, hs). auto. }
  pose proof (proj2 (C74_files_proof flt pkgs) ND) as ND2.
  assert (ND3 : NoDup (map (fun x : bytes * (bytes * list hit) => fst (snd x)) found)).
  { replace (map (fun x : bytes * (bytes * list hit) => fst (snd x)) found) with
      (flat_map (fun pf : bytes * list (bytes * list hit) => map fst (snd pf)) (Search flt pkgs)); [exact ND2|].
    unfold found. clear. induction (Search flt pkgs) as [|[a l] r IH]; [reflexivity|]. cbn [flat_map fst snd].
    rewrite map_app, map_map, IH. reflexivity. }
  assert (Good : forall x, In x found -> exists dir base, file_in (fst (snd x)) dir base /\ go_file base).
  { intros x Hx. unfold found in Hx. apply in_flat_map in Hx. destruct Hx as ([a l] & Ha & Hx).
    apply in_map_iff in Hx. destruct Hx as ([q hq] & <- & Hq). cbn [fst snd] in *.
    assert (HQ : hq <> []) by (eapply (proj2 (proj1 (C74_files_proof flt pkgs) _ _ Ha)); exact Hq).
    destruct hq as [|h hq]; [congruence|].
    destruct (proj1 (C74_search_proof flt pkgs a q h)) as (p & f & Hp & _ & Hff & <- & _).
    { exists l, (h :: hq). split; [exact Ha|]. split; [exact Hq|left; reflexivity]. }
    apply (Hfiles p f Hp Hff). }
  assert (ND4 : NoDup (map fst outs)).
  { assert (EO : map fst outs = map (fun x : bytes * (bytes * list hit) => outFilePath format (fst (snd x))) found).
    { clear -O. unfold outputs in O. fold found in O. induction O as [|x y l l' H _ IH]; [reflexivity|].
      cbn [map]. destruct H as (ts & _ & _ & ->). rewrite IH. reflexivity. }
    rewrite EO. clear -ND3 Good Hf Hs N0 N1 N2. induction found as [|x l IH]; [constructor|].
    cbn [map] in *. inversion ND3 as [|a b A1 A2]; subst. constructor.
    - intros Hi. apply A1. apply in_map_iff in Hi. destruct Hi as (y & E & Hy). apply in_map_iff. exists y. split; [|exact Hy].
      destruct (Good x (or_introl eq_refl)) as (dx & bx & Fx & Gx).
      destruct (Good y (or_intror Hy)) as (dy & by_ & Fy & Gy).
      eapply (C46_injective_proof format pre post); eauto.
    - apply IH; [exact A2|]. intros y Hy. apply Good. right. exact Hy. }
  assert (P : exists out src, In (fst out, src) srcs /\ fst out = outFilePath format path /\ w_format w (snd out) = Some src
     /\ exists ts, Forall2 (fun h t => target h = Ok t) hs ts /\ gen pk ts = Ok (snd out)).
  { clear -O F Fin. unfold outputs in O. fold found in O. revert srcs F. induction O as [|x y l l' H O IH]; intros srcs F; [destruct Fin|].
    inversion F as [|o s ol sl Hos F']; subst. destruct Hos as (E1 & E2 & _). destruct Fin as [->|Fin].
    - destruct H as (ts & A & G & Q). cbn [fst snd] in *. exists y, (snd s). split; [left; rewrite E1; destruct s; reflexivity|].
      split; [exact Q|]. split; [exact E2|]. exists ts. auto.
    - destruct (IH Fin _ F') as (out & src & A & G). exists out, src. split; [right; exact A|exact G]. }
  destruct P as (out & src & A & Q & E & ts & B1 & B2).
  exists ts, (snd out), src. split; [exact B1|]. split; [exact B2|]. split; [exact E|].
  rewrite W, <- Q. rewrite (final_in srcs (fst out) src); [reflexivity| |exact A].
  replace (map fst srcs) with (map fst outs); [exact ND4|].
  clear -F. induction F as [|o s ol sl H _ IH]; [reflexivity|]. cbn [map]. destruct H as (-> & _). rewrite IH. reflexivity.
Qed.
