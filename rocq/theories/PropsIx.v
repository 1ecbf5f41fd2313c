(** Properties of the matching of index definitions and index columns (internal/postgres). *)
From Coq Require Import Ascii String ZArith NArith Bool List Lia Permutation.
From Verif Require Import GoBase Utf8 AParse Analysis Oids Compat Gen Check CheckSpec ConvertProofs.
From Verif Require Import IxFinal.
Import ListNotations.
Local Open Scope string_scope.
Local Open Scope list_scope.

(** ** C37 *)
Theorem C37_expression : forall pre u method e post,
  first_using pre u (method ++ "("%char :: e ++ ")"%char :: post) -> ~ In "("%char method -> balanced e ->
  parseIndexExpr (pre ++ u ++ method ++ "("%char :: e ++ ")"%char :: post) = Ok e.
Proof. exact C37_expression_proof. Qed.
Print Assumptions C37_expression.

Example C37_ex : first_using (B "CREATE UNIQUE INDEX i ON t") (B " USING ") (B "btree " ++ "("%char :: B "lower(a), (b || ' it''s :)')" ++ ")"%char :: B " WHERE (c)")
  /\ ~ In "("%char (B "btree ") /\ balanced (B "lower(a), (b || ' it''s :)')")
  /\ parseIndexExpr (B "CREATE UNIQUE INDEX i ON t USING btree (lower(a), (b || ' it''s :)')) WHERE (c)") = Ok (B "lower(a), (b || ' it''s :)')").
Proof.
  split; [|split; [cbn; intuition discriminate|split; [|vm_compute; reflexivity]]].
  - split.
    + exists " "%char, "U"%char, ["S"%char], "I"%char, "N"%char, "G"%char, " "%char. cbn. intuition.
    + intros a x b E W. destruct (Nat.le_gt_cases (List.length (B "CREATE UNIQUE INDEX i ON t")) (List.length a)) as [L|L]; [exact L|exfalso].
      set (rest := B " USING " ++ B "btree " ++ "("%char :: B "lower(a), (b || ' it''s :)')" ++ ")"%char :: B " WHERE (c)") in *.
      assert (U : using_at (x ++ b) <> None).
      { assert (U : using_at (x ++ b) = Some b) by (apply using_at_iff; exists x; split; [exact W|reflexivity]). rewrite U. discriminate. }
      assert (D : x ++ b = skipn (List.length a) (B "CREATE UNIQUE INDEX i ON t" ++ rest)).
      { rewrite <- E, skipn_app, skipn_all, Nat.sub_diag. reflexivity. }
      rewrite D in U. clear - L U. apply U. clear U. cbn in L.
      do 26 (destruct a as [|? a]; [vm_compute; reflexivity|cbn in L]). lia.
  - vm_compute.
    repeat (apply ba_char; [discriminate|discriminate|discriminate|]).
    apply (ba_paren (B "a") (B ", (b || ' it''s :)')")); [repeat (apply ba_char; [discriminate|discriminate|discriminate|]); constructor|]. vm_compute.
    repeat (apply ba_char; [discriminate|discriminate|discriminate|]).
    apply (ba_paren (B "b || ' it''s :)'") []); [|constructor]. vm_compute.
    repeat (apply ba_char; [discriminate|discriminate|discriminate|]).
    apply (ba_string (B " it''s :)") []); [|constructor|discriminate].
    apply (sb_char 0); [discriminate|]. apply (sb_char 0); [discriminate|]. apply (sb_char 0); [discriminate|].
    apply (sb_char 1); [discriminate|]. apply (sb_char 0); [discriminate|]. apply (sb_char 0); [discriminate|]. apply (sb_char 0); [discriminate|].
    constructor.
Qed.

(** Without the word USING. *)
Theorem C37_no_using : forall pre e post, (forall a x b, pre ++ "("%char :: e ++ ")"%char :: post = a ++ x ++ b -> ~ using_word x) ->
  ~ In "("%char pre -> balanced e -> parseIndexExpr (pre ++ "("%char :: e ++ ")"%char :: post) = Ok e.
Proof. exact C37_no_using_proof. Qed.
Print Assumptions C37_no_using.

Example C37_no_using_ex : parseIndexExpr (B "ON t (a, (b))") = Ok (B "a, (b)").
Proof. vm_compute. reflexivity. Qed.

(** A string that ends with a quote is taken to go on, up to the end of the
    definition but for its last character. *)
Theorem C37_string_end_refuted : exists e, e = B "(a || 'x''')"
  /\ parseIndexExpr (B "CREATE INDEX i ON t USING btree (" ++ e ++ B ") WHERE a") = Ok (e ++ B ") WHERE ").
Proof. exact C37_string_end_refuted_proof. Qed.
Print Assumptions C37_string_end_refuted.

(** A quoted name is read as text: a parenthesis in it ends the expression, an
    apostrophe in it begins a string, and the word USING in the name of the
    index or of the table is the first of the definition. *)
Theorem C37_quoted_name_refuted : parseIndexExpr (B "CREATE INDEX i ON t USING btree (""a)b"")") = Ok (B """a")
  /\ parseIndexExpr (B "CREATE INDEX i ON t USING btree (""d'a"") WHERE x") = Ok (B """d'a"") WHERE ")
  /\ parseIndexExpr (B "CREATE INDEX ""by using x"" ON ""t(1)"" USING btree (a)") = Ok (B "1").
Proof. exact C37_quoted_name_refuted_proof. Qed.
Print Assumptions C37_quoted_name_refuted.

(** An apostrophe at the very end panics. *)
Theorem C37_panic_refuted : exists s, parseIndexExpr s = Panic.
Proof. exact C37_panic_refuted_proof. Qed.
Print Assumptions C37_panic_refuted.

(** ** C38 *)

Theorem C38_columns : forall key listed, NoDup key -> (matchNumbers key listed = true <-> Permutation key listed).
Proof. exact C38_columns_proof. Qed.
Print Assumptions C38_columns.

Example C38_ex : NoDup [2; 1; 3]%Z /\ matchNumbers [2; 1; 3]%Z [1; 2; 3]%Z = true /\ matchNumbers [2; 1; 3]%Z [1; 1; 2]%Z = false.
Proof. split; [repeat constructor; cbn; intuition discriminate|]. split; reflexivity. Qed.

(** An index on the same column twice is found for that column and any other. *)
Theorem C38_repeated_refuted : exists key listed, NoDup listed /\ matchNumbers key listed = true /\ ~ Permutation key listed.
Proof. exact C38_repeated_refuted_proof. Qed.
Print Assumptions C38_repeated_refuted.
