(** Definitions and proofs used by PropsIx.v. *)
From Coq Require Import Ascii String ZArith NArith Bool List Lia Permutation.
From Verif Require Import GoBase Utf8 AParse Analysis Oids Compat Gen Check CheckSpec ConvertProofs.
Import ListNotations.
Local Open Scope string_scope.
Local Open Scope list_scope.

Definition highs (k : nat) (s : bytes) : Prop :=
  (k <= List.length s)%nat /\ Forall (fun c => (128 <= code c)%N) (firstn k s).

Lemma highs_O : forall s, highs 0 s.
Proof. intros s. split; [lia|constructor]. Qed.

Lemma highs_S : forall k c r, highs (S k) (c :: r) -> (128 <= code c)%N /\ highs k r.
Proof. intros k c r [L F]. cbn in *. inversion F; subst. split; [assumption|]. split; [lia|assumption]. Qed.

Lemma highs_nil : forall k, highs (S k) [] -> False.
Proof. intros k [L _]. cbn in L. lia. Qed.

Lemma cont_high : forall c, cont c = true -> (128 <= code c)%N.
Proof. intros c H. unfold cont in H. apply andb_true_iff in H. destruct H as [H _]. now apply N.leb_le. Qed.

Lemma between_high : forall lo hi c, (128 <= lo)%N -> between lo hi c = true -> (128 <= code c)%N.
Proof. intros lo hi c L H. unfold between in H. apply andb_true_iff in H. destruct H as [H _]. apply N.leb_le in H. lia. Qed.

Lemma decode_highs : forall c r, highs (snd (decode_rune (c :: r)) - 1) r.
Proof.
  intros c r. unfold decode_rune.
  repeat match goal with
  | |- context [if ?b then _ else _] => let E := fresh "E" in destruct b eqn:E; try (cbn; apply highs_O)
  | |- context [match ?l with [] => _ | _ :: _ => _ end] => destruct l; try (cbn; apply highs_O)
  end; cbn;
  repeat match goal with H : _ && _ = true |- _ => apply andb_true_iff in H; destruct H end;
  (split; [cbn; lia|]); cbn; repeat constructor; try (now apply cont_high);
  match goal with H : between ?lo _ ?a = true |- (128 <= code ?a)%N => eapply between_high; [|exact H]; lia end.
Qed.

Lemma code_low : forall c d, (128 <= code c)%N -> (code d < 128)%N -> c <> d.
Proof. intros c d H K E. subst. lia. Qed.

Lemma beq_false : forall c d, c <> d -> beq c d = false.
Proof. intros c d H. unfold beq. now apply Ascii.eqb_neq. Qed.

Lemma beq_refl : forall c, beq c c = true.
Proof. intros c. unfold beq. apply Ascii.eqb_refl. Qed.

(** after reading [s] and before [rest], wherever the loop stands in a rune *)
Definition steps (s : bytes) (q1 q2 : bool) (rest : bytes) : Prop :=
  forall k pos last n, highs k (s ++ rest) ->
  exists k' last', highs k' rest /\
    ix_loop (s ++ rest) k pos last n q1 false = ix_loop rest k' (pos + List.length s) last' n q2 false.

Lemma steps_nil : forall q rest, steps [] q q rest.
Proof. intros q rest k pos last n H. exists k, last. split; [exact H|]. cbn. now rewrite Nat.add_0_r. Qed.

Lemma steps_app : forall a b q1 q2 q3 rest, steps a q1 q2 (b ++ rest) -> steps b q2 q3 rest -> steps (a ++ b) q1 q3 rest.
Proof.
  intros a b q1 q2 q3 rest H K k pos last n Hi. rewrite <- app_assoc in Hi.
  destruct (H k pos last n Hi) as (k1 & l1 & H1 & E1). destruct (K k1 (pos + List.length a)%nat l1 n H1) as (k2 & l2 & H2 & E2).
  exists k2, l2. split; [exact H2|]. rewrite <- app_assoc, E1, E2, app_length, Nat.add_assoc. reflexivity.
Qed.

Lemma steps_char : forall c rest, c <> "("%char -> c <> ")"%char -> c <> "'"%char -> steps [c] false false rest.
Proof.
  intros c rest A1 A2 A3 k pos last n H. change ([c] ++ rest) with (c :: rest) in *.
  destruct k as [|k].
  - eexists _, pos. split; [apply decode_highs|]. cbn [ix_loop negb]. rewrite !beq_false by assumption.
    cbn [List.length]. rewrite Nat.add_1_r. reflexivity.
  - apply highs_S in H. exists k, last. split; [apply H|]. cbn. now rewrite Nat.add_1_r.
Qed.

Lemma steps_qchar : forall c rest, c <> "'"%char -> steps [c] true true rest.
Proof.
  intros c rest A3 k pos last n H. change ([c] ++ rest) with (c :: rest) in *.
  destruct k as [|k].
  - eexists _, pos. split; [apply decode_highs|]. cbn [ix_loop negb]. rewrite !beq_false by assumption.
    cbn [List.length]. rewrite Nat.add_1_r. reflexivity.
  - apply highs_S in H. exists k, last. split; [apply H|]. cbn. now rewrite Nat.add_1_r.
Qed.

Lemma low_skip : forall k c r, (code c < 128)%N -> highs k (c :: r) -> k = O.
Proof. intros k c r L H. destruct k; [reflexivity|]. apply highs_S in H. lia. Qed.

Lemma decode_low : forall c r, (code c < 128)%N -> decode_rune (c :: r) = (code c, 1%nat).
Proof. intros c r L. unfold decode_rune. apply N.ltb_lt in L. now rewrite L. Qed.

Lemma quote_low : (code "'"%char < 128)%N.
Proof. reflexivity. Qed.

Lemma steps_open : forall rest, steps ["'"%char] false true rest.
Proof.
  intros rest k pos last n H. change (["'"%char] ++ rest) with ("'"%char :: rest) in *.
  rewrite (low_skip _ _ _ quote_low H). exists O, pos. split; [apply highs_O|].
  cbn [ix_loop negb]. rewrite decode_low by reflexivity. cbn. now rewrite Nat.add_1_r.
Qed.

Lemma steps_close : forall d rest, d <> "'"%char -> steps ["'"%char] true false (d :: rest).
Proof.
  intros d rest D k pos last n H. change (["'"%char] ++ d :: rest) with ("'"%char :: d :: rest) in *.
  rewrite (low_skip _ _ _ quote_low H). exists O, pos. split; [apply highs_O|].
  cbn [ix_loop negb]. rewrite decode_low by reflexivity. cbn [snd Nat.sub]. rewrite (beq_false d) by exact D.
  cbn. now rewrite Nat.add_1_r.
Qed.

Lemma quote_step : forall d r pos last n esc, ix_loop ("'"%char :: d :: r) 0 pos last n true esc =
  (if beq d "'" then ix_loop (d :: r) 0 (S pos) pos n true true
   else if esc then ix_loop (d :: r) 0 (S pos) pos n true false else ix_loop (d :: r) 0 (S pos) pos n false esc).
Proof. intros. cbn [ix_loop negb]. rewrite decode_low by reflexivity. reflexivity. Qed.

(** a run of doubled quotes and the character after it *)
Lemma run_loop : forall m pos last n esc c rest, c <> "'"%char ->
  exists k' last', highs k' rest /\
    ix_loop (times m ["'"%char; "'"%char] ++ c :: rest) 0 pos last n true (match m with O => false | _ => esc end)
      = ix_loop rest k' (pos + 2 * m + 1) last' n true false.
Proof.
  induction m as [|m IH]; intros pos last n esc c rest C.
  - destruct (steps_qchar c rest C O pos last n (highs_O _)) as (k' & l' & H & E). exists k', l'.
    split; [exact H|]. cbn [times app] in *. rewrite E. cbn. f_equal. lia.
  - destruct (IH (pos + 2)%nat (pos + 1)%nat n true c rest C) as (k' & l' & H & E). exists k', l'. split; [exact H|].
    cbn [times app]. rewrite quote_step, beq_refl. destruct m as [|m].
    + cbn [times app] in *. rewrite quote_step, beq_false by exact C.
      replace (S (S pos)) with (pos + 2)%nat by lia. replace (S pos) with (pos + 1)%nat by lia. rewrite E. f_equal. lia.
    + cbn [times app] in *. rewrite quote_step, beq_refl.
      replace (S (S pos)) with (pos + 2)%nat by lia. replace (S pos) with (pos + 1)%nat by lia. rewrite E. f_equal. lia.
Qed.

Lemma steps_body : forall s, string_body s -> forall rest, steps s true true rest.
Proof.
  induction 1 as [|m c r C B IH]; intros rest; [apply steps_nil|].
  destruct m as [|m].
  - cbn [times app]. change (c :: r) with ([c] ++ r). eapply steps_app; [apply steps_qchar, C|apply IH].
  - replace (times (S m) ["'"%char; "'"%char] ++ c :: r) with ((times (S m) ["'"%char; "'"%char] ++ [c]) ++ r) by (now rewrite <- app_assoc).
    eapply steps_app; [|apply IH].
    intros k pos last n H.
    assert (K : k = O). { cbn [times app] in H. revert H. apply low_skip. reflexivity. } subst k.
    destruct m as [|m].
    + destruct (run_loop 1 pos last n false c (r ++ rest) C) as (k' & l' & H' & E). exists k', l'. split; [exact H'|].
      rewrite <- app_assoc. cbn [app] in *. cbn [times app] in *. rewrite E. f_equal. cbn [List.length]. lia.
    + destruct (run_loop (S (S m)) pos last n false c (r ++ rest) C) as (k' & l' & H' & E). exists k', l'. split; [exact H'|].
      rewrite <- app_assoc. cbn [app] in *. rewrite E. f_equal. rewrite app_length.
      assert (T : forall z, List.length (times z ["'"%char; "'"%char]) = (2 * z)%nat). { induction z as [|z IZ]; [reflexivity|]. cbn [times]. rewrite app_length, IZ. cbn [List.length]. lia. }
      rewrite T. cbn [List.length]. lia.
Qed.

Lemma paren_low : (code "("%char < 128)%N /\ (code ")"%char < 128)%N.
Proof. split; reflexivity. Qed.

Lemma open_step : forall r pos last n, ix_loop ("("%char :: r) 0 pos last n false false = ix_loop r 0 (S pos) pos (S n) false false.
Proof. intros. cbn [ix_loop negb]. rewrite decode_low by reflexivity. reflexivity. Qed.

Lemma close_step : forall r pos last n, ix_loop (")"%char :: r) 0 pos last (S n) false false = ix_loop r 0 (S pos) pos n false false.
Proof. intros. cbn [ix_loop negb]. rewrite decode_low by reflexivity. reflexivity. Qed.

Lemma steps_balanced : forall e, balanced e -> forall d rest, d <> "'"%char -> steps e false false (d :: rest).
Proof.
  induction 1 as [|c r A1 A2 A3 _ IH|a r _ IHa _ IHr|s r S1 _ IH NQ]; intros d rest D.
  - apply steps_nil.
  - change (c :: r) with ([c] ++ r). eapply steps_app; [now apply steps_char|now apply IH].
  - intros k pos last n H. cbn [app] in *. rewrite <- app_assoc in *. cbn [app] in *.
    rewrite (low_skip _ _ _ (proj1 paren_low) H). rewrite open_step.
    destruct (IHa ")"%char (r ++ d :: rest) ltac:(discriminate) O (S pos) pos (S n) (highs_O _)) as (k1 & l1 & H1 & E1).
    rewrite E1. rewrite (low_skip _ _ _ (proj2 paren_low) H1), close_step.
    destruct (IHr d rest D O (S (S pos + List.length a)) (S pos + List.length a)%nat n (highs_O _)) as (k2 & l2 & H2 & E2).
    exists k2, l2. split; [exact H2|]. rewrite E2. f_equal. cbn [List.length]. rewrite app_length. cbn [List.length]. lia.
  - change ("'"%char :: s ++ "'"%char :: r) with (["'"%char] ++ s ++ ["'"%char] ++ r).
    eapply steps_app; [apply steps_open|]. eapply steps_app; [apply steps_body, S1|].
    eapply steps_app; [|now apply IH].
    destruct r as [|c r]; [now apply steps_close|]. apply steps_close. intros ->. exact (NQ r eq_refl).
Qed.

Lemma ix_balanced : forall e post, balanced e -> ix_loop (e ++ ")"%char :: post) 0 0 0 0 false false = Ok (List.length e).
Proof.
  intros e post H. destruct (steps_balanced e H ")"%char post ltac:(discriminate) O O O O (highs_O _)) as (k & l & K & E).
  rewrite E. rewrite (low_skip _ _ _ (proj2 paren_low) K). reflexivity.
Qed.

Lemma after_paren_first : forall m r, ~ In "("%char m -> after_paren (m ++ "("%char :: r) = Some r.
Proof.
  induction m as [|c m IH]; intros r H; cbn; [reflexivity|]. rewrite beq_false.
  - apply IH. intros K. apply H. now right.
  - intros ->. apply H. now left.
Qed.

Lemma is_ws_blank : forall c, is_ws c = true <-> blank c.
Proof.
  intros c. unfold is_ws, blank. rewrite existsb_exists. split.
  - intros (x & I & E). apply N.eqb_eq in E. cbn in I.
    assert (C : c = ascii_of_N (code c)) by (symmetry; apply ascii_N_embedding).
    rewrite E in C. cbn. repeat match goal with H : _ \/ _ |- _ => destruct H end; try contradiction; subst x; rewrite C; vm_compute; tauto.
  - cbn. intros I. exists (code c). rewrite N.eqb_refl. split; [|reflexivity]. repeat match goal with H : _ \/ _ |- _ => destruct H end; try contradiction; subst c; vm_compute; tauto.
Qed.

Lemma either_two : forall l u c, (forall d, beq (low d) l = true <-> d = l \/ d = u) -> (either l c = true <-> In c [l; u]).
Proof. intros l u c H. unfold either. rewrite H. cbn. intuition congruence. Qed.

Ltac two := intros d; split; [destruct d as [x0 x1 x2 x3 x4 x5 x6 x7]; destruct x0, x1, x2, x3, x4, x5, x6, x7; vm_compute; intuition congruence|intros [-> | ->]; reflexivity].

Lemma either_u : forall c, either "u" c = true <-> In c ["u"%char; "U"%char].
Proof. intros c. apply either_two. two. Qed.

Lemma either_s : forall c, either "s" c = true <-> In c ["s"%char; "S"%char].
Proof. intros c. apply either_two. two. Qed.

Lemma either_i : forall c, either "i" c = true <-> In c ["i"%char; "I"%char].
Proof. intros c. apply either_two. two. Qed.

Lemma either_n : forall c, either "n" c = true <-> In c ["n"%char; "N"%char].
Proof. intros c. apply either_two. two. Qed.

Lemma either_g : forall c, either "g" c = true <-> In c ["g"%char; "G"%char].
Proof. intros c. apply either_two. two. Qed.

Lemma using_end_iff : forall s r, using_end s = Some r <-> exists i n g b, s = i :: n :: g :: b :: r /\ blank b
  /\ In i ["i"%char; "I"%char] /\ In n ["n"%char; "N"%char] /\ In g ["g"%char; "G"%char].
Proof.
  intros s r. split.
  - destruct s as [|i [|n [|g [|b s]]]]; try discriminate. unfold using_end.
    destruct (either "i" i && either "n" n && either "g" g && is_ws b) eqn:E; [|discriminate]. intros K. injection K as <-.
    apply andb_true_iff in E. destruct E as [E E4]. apply andb_true_iff in E. destruct E as [E E3]. apply andb_true_iff in E. destruct E as [E1 E2].
    exists i, n, g, b. rewrite <- is_ws_blank, <- either_i, <- either_n, <- either_g. tauto.
  - intros (i & n & g & b & -> & H). rewrite <- is_ws_blank, <- either_i, <- either_n, <- either_g in H. destruct H as (H1 & H2 & H3 & H4).
    unfold using_end. rewrite H1, H2, H3, H4. reflexivity.
Qed.

Lemma using_at_iff : forall s r, using_at s = Some r <-> exists x, using_word x /\ s = x ++ r.
Proof.
  intros s r. split.
  - destruct s as [|b1 [|u s]]; try discriminate. unfold using_at.
    destruct (is_ws b1 && either "u" u) eqn:E; [|discriminate]. apply andb_true_iff in E. destruct E as [E1 E2].
    destruct s as [|c s]; [discriminate|]. destruct (either "s" c) eqn:E3.
    + intros K. apply using_end_iff in K. destruct K as (i & n & g & b & -> & K).
      exists (b1 :: u :: [c] ++ [i; n; g; b]). split; [|reflexivity].
      exists b1, u, [c], i, n, g, b. rewrite <- either_u, <- is_ws_blank. split; [reflexivity|]. split; [exact E1|]. split; [apply K|].
      split; [exact E2|]. split; [|apply K]. left. apply either_s in E3. cbn in *. intuition congruence.
    + destruct s as [|d s]; [discriminate|]. destruct (N.eqb (code c) 197 && N.eqb (code d) 191) eqn:E4; [|discriminate].
      apply andb_true_iff in E4. destruct E4 as [E4 E5]. apply N.eqb_eq in E4, E5.
      assert (C1 : c = ascii_of_N (code c)) by (symmetry; apply ascii_N_embedding).
      assert (C2 : d = ascii_of_N (code d)) by (symmetry; apply ascii_N_embedding).
      rewrite E4 in C1. rewrite E5 in C2. vm_compute in C1, C2.
      intros K. apply using_end_iff in K. destruct K as (i & n & g & b & -> & K).
      exists (b1 :: u :: [c; d] ++ [i; n; g; b]). split; [|reflexivity].
      exists b1, u, [c; d], i, n, g, b. rewrite <- either_u, <- is_ws_blank. split; [reflexivity|]. split; [exact E1|]. split; [apply K|].
      split; [exact E2|]. split; [|apply K]. right. rewrite C1, C2. reflexivity.
  - intros (x & (b1 & u & s' & i & n & g & b2 & -> & H1 & H2 & H3 & H4 & H5 & H6 & H7) & ->).
    assert (T : using_end ([i; n; g; b2] ++ r) = Some r) by (apply using_end_iff; exists i, n, g, b2; tauto).
    rewrite <- is_ws_blank in H1. rewrite <- either_u in H3. cbn [app]. unfold using_at. rewrite H1, H3. cbn [andb].
    rewrite <- app_assoc. destruct H4 as [[<- | [<- | []]] | ->]; cbn [app]; exact T.
Qed.

Lemma find_using_first : forall pre u post, first_using pre u post -> find_using (pre ++ u ++ post) = Some post.
Proof.
  intros pre u post [U F]. induction pre as [|c pre IH].
  - assert (A : using_at (u ++ post) = Some post) by (apply using_at_iff; exists u; split; [exact U|reflexivity]).
    cbn [app]. destruct (u ++ post); unfold find_using; fold find_using; rewrite A; reflexivity.
  - cbn [app find_using]. destruct (using_at (c :: pre ++ u ++ post)) as [r|] eqn:E.
    + apply using_at_iff in E. destruct E as (x & W & E). specialize (F [] x r (eq_sym E) W). cbn in F. lia.
    + apply IH. intros a x b E' W. specialize (F (c :: a) x b ltac:(cbn; now rewrite E') W). cbn in F. lia.
Qed.

Lemma find_using_none : forall s, (forall a x b, s = a ++ x ++ b -> ~ using_word x) -> find_using s = None.
Proof.
  induction s as [|c s IH]; intros H.
  - reflexivity.
  - cbn [find_using]. destruct (using_at (c :: s)) as [r|] eqn:E.
    + apply using_at_iff in E. destruct E as (x & W & E). exfalso. exact (H [] x r E W).
    + apply IH. intros a x b E' W. apply (H (c :: a) x b); [|exact W]. cbn. now rewrite E'.
Qed.

Lemma C37_expression_proof : forall pre u method e post,
  first_using pre u (method ++ "("%char :: e ++ ")"%char :: post) -> ~ In "("%char method -> balanced e ->
  parseIndexExpr (pre ++ u ++ method ++ "("%char :: e ++ ")"%char :: post) = Ok e.
Proof.
  intros pre u m e post F M BE. unfold parseIndexExpr. rewrite (find_using_first _ _ _ F), after_paren_first by exact M.
  rewrite ix_balanced by exact BE. cbn. f_equal. rewrite firstn_app, Nat.sub_diag, firstn_all. cbn. apply app_nil_r.
Qed.

Lemma C37_no_using_proof : forall pre e post, (forall a x b, pre ++ "("%char :: e ++ ")"%char :: post = a ++ x ++ b -> ~ using_word x) ->
  ~ In "("%char pre -> balanced e -> parseIndexExpr (pre ++ "("%char :: e ++ ")"%char :: post) = Ok e.
Proof.
  intros m e post F M BE. unfold parseIndexExpr. rewrite (find_using_none _ F), after_paren_first by exact M.
  rewrite ix_balanced by exact BE. cbn. f_equal. rewrite firstn_app, Nat.sub_diag, firstn_all. cbn. apply app_nil_r.
Qed.

Lemma C37_string_end_refuted_proof : exists e, e = B "(a || 'x''')"
  /\ parseIndexExpr (B "CREATE INDEX i ON t USING btree (" ++ e ++ B ") WHERE a") = Ok (e ++ B ") WHERE ").
Proof. eexists. split; [reflexivity|]. vm_compute. reflexivity. Qed.

Lemma C37_quoted_name_refuted_proof : parseIndexExpr (B "CREATE INDEX i ON t USING btree (""a)b"")") = Ok (B """a")
  /\ parseIndexExpr (B "CREATE INDEX i ON t USING btree (""d'a"") WHERE x") = Ok (B """d'a"") WHERE ")
  /\ parseIndexExpr (B "CREATE INDEX ""by using x"" ON ""t(1)"" USING btree (a)") = Ok (B "1").
Proof. repeat split; vm_compute; reflexivity. Qed.

Lemma C37_panic_refuted_proof : exists s, parseIndexExpr s = Panic.
Proof. exists (B "(''"). vm_compute. reflexivity. Qed.

Lemma matchNumbers_incl : forall a b, matchNumbers a b = true <-> List.length a = List.length b /\ incl a b.
Proof.
  intros a b. unfold matchNumbers. rewrite andb_true_iff, Nat.eqb_eq, forallb_forall. split; intros [L H]; (split; [exact L|]).
  - intros x I. apply H, existsb_exists in I. destruct I as (y & I & E). apply Z.eqb_eq in E. now subst.
  - intros x I. apply existsb_exists. exists x. split; [now apply H|apply Z.eqb_refl].
Qed.

Lemma C38_columns_proof : forall key listed, NoDup key -> (matchNumbers key listed = true <-> Permutation key listed).
Proof.
  intros a b N. rewrite matchNumbers_incl. split.
  - intros [L H]. apply NoDup_Permutation_bis; [exact N|lia|exact H].
  - intros P. split; [now apply Permutation_length|]. intros x I. now apply (Permutation_in x P).
Qed.

Lemma C38_repeated_refuted_proof : exists key listed, NoDup listed /\ matchNumbers key listed = true /\ ~ Permutation key listed.
Proof.
  exists [1; 1]%Z, [1; 2]%Z. split; [repeat constructor; cbn; intuition discriminate|]. split; [reflexivity|].
  intros P. assert (I : In 2%Z [1; 1]%Z) by (apply (Permutation_in 2%Z (Permutation_sym P)); cbn; tauto). cbn in I. intuition discriminate.
Qed.
