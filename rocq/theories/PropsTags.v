(** Properties of the tag parsers of internal/analysis. *)
From Coq Require Import Ascii String ZArith NArith Bool List Lia.
From Verif Require Import GoBase Strconv ConvertUtil ConvertProofs Filter AParse PgSpec TagSpec AParseProofs.
From Verif Require Import TagsFinal.
Import ListNotations.
Local Open Scope char_scope.

(** *** C29: conditions in tags *)
(** A condition written as column, operator, optional quantifier and operand is
    read back exactly, for every operator, spelling and spacing. *)
Theorem C29_condition_read_back : forall w0 col w o t op q r,
  spaces w0 -> col <> [] -> Forall (fun c => ~ space c /\ ~ symbol_char c) col ->
  op_at w o t op -> operand t q r -> ascii7 (w0 ++ col ++ w ++ o ++ t) ->
  parsePredicateExpr (w0 ++ col ++ w ++ o ++ t) = Ok (col, op, q, r).
Proof. exact C29_condition_read_back_proof. Qed.
Print Assumptions C29_condition_read_back.

(** t.id  IsNotIn is no operator; NotIn is one *)
Example C29_condition_read_back_word :
  parsePredicateExpr (B "  t.id  NotIn ") = Ok (B "t.id", B "notin", [], []).
Proof.
  apply (C29_condition_read_back (lit "  ") (lit "t.id") (lit " " ++ [" "]) (lit "NotIn") (lit " ") (lit "notin") [] []).
  - repeat (apply Forall_cons; [unfold space; cbn; tauto|]); apply Forall_nil.
  - discriminate.
  - no_spaces.
  - apply op_word; [repeat (apply Forall_cons; [unfold space; cbn; tauto|]); apply Forall_nil|in_list|reflexivity|right; exists []; reflexivity].
  - apply (opd_plain (lit " ") [] []); [repeat (apply Forall_cons; [unfold space; cbn; tauto|]); apply Forall_nil|apply Forall_nil| |].
    split; [discriminate|]. intros [|? ?] ?; discriminate.
    intros (q & o & t & I & S & E & _). symmetry in E. apply app_eq_nil in E. destruct E as [-> _]. unfold spelled in S. cbn in S. subst.
    unfold quant_words in I. cbn in I. intuition discriminate.
  - repeat (apply Forall_cons; [reflexivity|]). apply Forall_nil.
Qed.

Example C29_condition_read_back_quant :
  parsePredicateExpr (B "c>=ANY  d.e") = Ok (B "c", B ">=", B "any", B "d.e").
Proof.
  apply (C29_condition_read_back [] (lit "c") [] (lit ">=") (lit "ANY  d.e") (lit ">=") (lit "any") (lit "d.e")).
  - apply Forall_nil.
  - discriminate.
  - no_spaces.
  - apply op_symbol; [apply Forall_nil|in_list|]. intros op' I' (z & Z). sym_cases I'; cbn in *; try lia; discriminate.
  - apply (opd_quant [] (lit "ANY") (lit "any") (lit "  d.e") (lit "  ") (lit "d.e") []); try reflexivity; try apply Forall_nil.
    + in_list.
    + right. eexists. reflexivity.
    + repeat (apply Forall_cons; [unfold space; cbn; tauto|]); apply Forall_nil.
    + apply lead_trimmed; cbn; unfold space; cbn; intuition discriminate.
  - repeat (apply Forall_cons; [reflexivity|]). apply Forall_nil.
Qed.

(** A column alone is read as a column. *)
Theorem C29_column_alone : forall w0 col w1,
  spaces w0 -> spaces w1 -> Forall (fun c => ~ space c /\ ~ symbol_char c) col -> ascii7 col ->
  parsePredicateExpr (w0 ++ col ++ w1) = Ok (col, [], [], []).
Proof. exact C29_column_alone_proof. Qed.
Print Assumptions C29_column_alone.

Example C29_column_alone_ex : parsePredicateExpr (B " t.is_ok ") = Ok (B "t.is_ok", [], [], []).
Proof. reflexivity. Qed.

(** Whatever is read is there: for every ASCII text the parser returns the
    trimmed text as a column, or splits it at an operator. *)
Theorem C29_result_is_in_the_text : forall expr, ascii7 expr ->
  exists w0 e w1, spaces w0 /\ spaces w1 /\ trimmed e /\ expr = w0 ++ e ++ w1 /\
  (parsePredicateExpr expr = Ok (e, [], [], []) \/
   exists lhs w o t op q r, e = lhs ++ w ++ o ++ t /\ lhs <> [] /\ trimmed lhs
     /\ Forall (fun c => ~ symbol_char c) lhs /\ op_at w o t op /\ operand t q r
     /\ parsePredicateExpr expr = Ok (lhs, op, q, r)).
Proof. exact C29_result_is_in_the_text_proof. Qed.
Print Assumptions C29_result_is_in_the_text.

Example C29_result_is_in_the_text_ex :
  parsePredicateExpr (B "a is b isin c") = Ok (B "a is b", B "isin", [], B "c")
  /\ parsePredicateExpr (B "a ! = b") = Ok (B "a ! = b", [], [], []).
Proof. split; reflexivity. Qed.

(** The operators that come out of the parser are exactly the documented ones
    without the two asymmetric BETWEENs, each with its own predicate. *)
Theorem C29_asymmetric_between_is_never_read : forall expr lhs op q r, ascii7 expr ->
  parsePredicateExpr expr = Ok (lhs, op, q, r) ->
  stringToPredicate op <> IsBetweenAsym /\ stringToPredicate op <> NotBetweenAsym
  /\ (op <> [] -> stringToPredicate op <> PNone).
Proof. exact C29_asymmetric_between_is_never_read_proof. Qed.
Print Assumptions C29_asymmetric_between_is_never_read.

Example C29_asymmetric_between_is_never_read_ex :
  parsePredicateExpr (B "a isbetweenasym") = Ok (B "a isbetweenasym", [], [], [])
  /\ parsePredicateExpr (B "a isbetweensym") = Ok (B "a", B "isbetweensym", [], []).
Proof. split; reflexivity. Qed.

(** Two operators have the same predicate only when they are the same. *)
Theorem C29_operators_are_told_apart : forall a b,
  In a (symbols ++ op_words) -> In b (symbols ++ op_words) -> stringToPredicate a = stringToPredicate b -> a = b.
Proof. exact C29_operators_are_told_apart_proof. Qed.
Print Assumptions C29_operators_are_told_apart.

(** Outside ASCII the parser can panic: the lower-case text is shorter. *)
Theorem C29_non_ascii_panics_refuted : exists expr, parsePredicateExpr expr = Panic.
Proof. exact C29_non_ascii_panics_refuted_proof. Qed.
Print Assumptions C29_non_ascii_panics_refuted.

(** *** C30: identifiers *)
(** A column identifier is accepted exactly when it is a name that is no value
    word, or a name qualified by a relation in scope; it is kept as written. *)
Theorem C30_column_identifiers : forall sp v q n,
  parseColIdent sp v = inl (MkCol q n) <->
  v = qualified q n /\ is_name n /\ ((q = [] /\ ~ is_value_word n) \/ (is_name q /\ In q (map fst sp))).
Proof. exact C30_column_identifiers_proof. Qed.
Print Assumptions C30_column_identifiers.

Example C30_column_identifiers_ex :
  parseColIdent [(B "t", MkRel (B "test") (B "t") [])] (B "t.True") = inl (MkCol (B "t") (B "True"))
  /\ parseColIdent [] (B "True") = inr EBadColId /\ parseColIdent [] (B "x.id") = inr EUnknownQualifier.
Proof. conjs; reflexivity. Qed.

(** A rejected column identifier is reported as an unknown qualifier exactly
    when it is well-formed and its qualifier is not in scope. *)
Theorem C30_unknown_qualifier : forall sp v,
  parseColIdent sp v = inr EUnknownQualifier <->
  exists q n, v = q ++ "." :: n /\ is_name q /\ is_name n /\ ~ In q (map fst sp).
Proof. exact C30_unknown_qualifier_proof. Qed.
Print Assumptions C30_unknown_qualifier.

(** Only letters, digits, underscores and dots reach the SQL text through
    column identifiers. *)
Theorem C30_identifier_alphabet : forall sp v id, parseColIdent sp v = inl id ->
  Forall (fun c => name_char c \/ c = ".") v /\ Forall name_char (c_qual id) /\ Forall name_char (c_col id).
Proof. exact C30_identifier_alphabet_proof. Qed.
Print Assumptions C30_identifier_alphabet.

(** A relation identifier is accepted exactly when it is [qual.]name[:alias]. *)
Theorem C30_relation_identifiers : forall v q n a,
  parseRelIdent v = inl (MkRel n a q) <->
  v = qualified q (aliased n a) /\ is_name n /\ (q = [] \/ is_name q) /\ (a = [] \/ is_name a).
Proof. exact C30_relation_identifiers_proof. Qed.
Print Assumptions C30_relation_identifiers.

Example C30_relation_identifiers_ex :
  parseRelIdent (B "public.users:u") = inl (MkRel (B "users") (B "u") (B "public"))
  /\ parseRelIdent (B "a.b.c") = inr EBadRelId /\ parseRelIdent (B "users;") = inr EBadRelId.
Proof. conjs; reflexivity. Qed.

(** A column list is accepted exactly when it is a single star or a non-empty
    list of accepted identifiers, which are kept in order. *)
Theorem C30_column_lists : forall sp tag l,
  parseColIdentList sp tag = inl l <->
  (tag = [[ "*" ]] /\ l = MkColList true []) \/
  (exists ids, l = MkColList false ids /\ tag <> [] /\ Forall2 (fun v id => parseColIdent sp v = inl id) tag ids).
Proof. exact C30_column_lists_proof. Qed.
Print Assumptions C30_column_lists.

Example C30_column_lists_ex :
  parseColIdentList [] [B "a"; B "b"] = inl (MkColList false [MkCol [] (B "a"); MkCol [] (B "b")])
  /\ parseColIdentList [] [B "a"; B "*"] = inr EBadColId /\ parseColIdentList [] [] = inr EMissingColumnList.
Proof. conjs; reflexivity. Qed.

(** Every permission is what the last option mentioning it says; without any
    mention it is granted (and NULL is possible). *)
Theorem C34_last_option_wins : forall t col opts,
  tag_get t (B "sql") = col :: opts -> Forall (fun o => o <> []) opts ->
  exists m, parseFieldMode t = Ok m /\
    forall p b, allowed p m = b <-> last_word p (flat_map option_says opts) b.
Proof. exact C34_last_option_wins_proof. Qed.
Print Assumptions C34_last_option_wins.

Example C34_last_option_wins_ex :
  parseFieldMode [(B "sql", [B "col"; B "ro"; B "+i"; B "-sN"; B "xf"])] = Ok (MkMode false false true false true).
Proof. reflexivity. Qed.

(** Without options everything is granted. *)
Theorem C34_no_options : forall t, (List.length (tag_get t (B "sql")) <= 1)%nat ->
  exists m, parseFieldMode t = Ok m /\ forall p, allowed p m = true.
Proof. exact C34_no_options_proof. Qed.
Print Assumptions C34_no_options.

(** An empty option makes the generator panic. *)
Theorem C34_empty_option_panics : forall t col opts,
  tag_get t (B "sql") = col :: opts -> In [] opts -> parseFieldMode t = Panic.
Proof. exact C34_empty_option_panics_proof. Qed.
Print Assumptions C34_empty_option_panics.

Example C34_empty_option_panics_ex : parseFieldMode [(B "sql", [B "col"; B "ro"; []])] = Panic.
Proof. reflexivity. Qed.

(** A field is read-only or write-only as its permissions say. *)
Theorem C34_read_only_write_only : forall m,
  (mode_IsReadOnly m = true <-> allowed PSelect m = true /\ allowed PInsert m = false /\ allowed PUpdate m = false)
  /\ (mode_IsWriteOnly m = true <-> allowed PSelect m = false /\ (allowed PInsert m = true \/ allowed PUpdate m = true)).
Proof. exact C34_read_only_write_only_proof. Qed.
Print Assumptions C34_read_only_write_only.
