(** What the errors of the checker are to say. *)
From Coq Require Import Ascii String ZArith NArith Bool List.
From Verif Require Import GoBase Strconv Filter AParse ErrText.
Import ListNotations.

(** A text in a colour of the terminal. *)
Definition paint (c : string) (s : bytes) : bytes := (ascii_of_nat 27 :: B c) ++ s ++ (ascii_of_nat 27 :: B "[0m").
Definition red (s : bytes) : bytes := paint "[0;91m" s.
Definition yellow (s : bytes) : bytes := paint "[0;93m" s.
Definition bold (s : bytes) : bytes := paint "[1;97m" s.
Definition italic (s : bytes) : bytes := paint "[3;97m" s.

(** The first line: the place of the field and what is wrong. *)
Definition headline (f : fieldInfo) (title : string) : bytes :=
  bold (fl_name (f_file f) ++ B ":" ++ format_int 10 (fl_line (f_file f))) ++ B ": " ++ yellow (B title).

Definition type_text (t : option bytes) : bytes := match t with Some n => n | None => B "<nil>" end.

(** The relation in which a check looks for a column. *)
Inductive searched (c : ck) : site -> ColIdent -> relation -> Prop :=
| se_find : forall id r, lookup (c_qual id) (k_map c) = Some r -> searched c (SFind id) id r
| se_target : forall id, searched c (STarget id) id (k_rel c)
| se_join : forall rid r id, searched c (SJoin rid r id) id r.

(** The errors about the database itself, which are to report the cause. *)
Definition about_database (k : code) : Prop :=
  In k [errDatabaseOpen; errDatabaseInit; errCatalogTypeGet; errCatalogTypeScan; errCatalogOperatorGet; errCatalogOperatorScan;
        errCatalogCastGet; errCatalogCastScan; errCatalogProcedureGet; errCatalogProcedureScan; errRelationScan;
        errRelationColumnGet; errRelationColumnScan; errRelationColumnUnknownType; errRelationConstraintGet;
        errRelationConstraintScan; errRelationIndexGet; errRelationIndexScan].

Definition without (a : ascii) (s : bytes) : Prop := ~ In a s.

(** A column that is looked for has a name: [parseColIdent] accepts no other. *)
Definition named (s : site) : Prop := match s with SFind id => c_col id <> [] | _ => True end.

(** The checks as the checker reaches them: operands have names, truth and NULL
    tests are unary, and comparisons are not. *)
Definition sensible (s : site) : Prop :=
  match s with
  | SFind id => c_col id <> []
  | SBool _ _ p | SNull _ _ p => p_unary p = true
  | SCompareCol _ _ _ rid _ p _ => c_col rid <> [] /\ p_unary p = false
  | SCompareLit _ _ _ x _ p _ => x <> [] /\ p_unary p = false
  | SField _ _ _ p _ _ => p_unary p = false
  | SRelation rid => r_name rid <> []
  | _ => True
  end.

Definition title (c : ck) (s : site) : string :=
  match s with
  | SFind id => match lookup (c_qual id) (k_map c) with Some _ => "Column not found." | None => "Column qualifier relation not found." end
  | STarget _ | SJoin _ _ _ => "Column not found."
  | SColumn BadSearch _ _ => "Bad column type for text search."
  | SColumn BadDefault _ _ => "Column DEFAULT not set."
  | SColumn _ _ _ | SFilter _ => "Column not compatible with field."
  | SBool _ _ _ => "Bad operand type in boolean predicate."
  | SNull _ _ _ => "Bad column operand in NULL predicate."
  | SLiteral _ _ _ _ _ => "Bad literal expression."
  | SCompareCol BadCompare _ _ _ _ _ _ | SCompareLit BadCompare _ _ _ _ _ _ => "Bad column comparison."
  | SCompareCol BadArray _ _ _ _ _ _ | SCompareLit BadArray _ _ _ _ _ _ | SField FieldArray _ _ _ _ _ => "Bad operand type in array predicate."
  | SCompareCol BadQuantifier _ _ _ _ _ _ | SCompareLit BadQuantifier _ _ _ _ _ _ | SField FieldQuantifier _ _ _ _ _ =>
      "Bad operand type in quantified predicate."
  | SField FieldCompare _ _ _ _ _ => "Bad column field comparison."
  | SField FieldProcedure _ _ _ _ _ => "Procedure not found."
  | SBetweenCol _ _ _ _ _ => "Bad column between comparison."
  | SBetweenField _ _ _ => "Bad column field between comparison."
  | SConflict NoIndex => "Index not found."
  | SConflict IndexNotUnique => "Index not unique."
  | SConflict NoColumns => "Column index not found."
  | SConflict ColumnsNotUnique => "Column index not unique."
  | SConflict NoConstraint => "Constraint not found."
  | SConflict ConstraintNotUnique => "Constraint not unique."
  | SRelation _ => "Unknown relation."
  end.

(** A reference with its qualifier. *)
Definition qualified (q n : bytes) : bytes := match q with [] => n | _ => q ++ B "." ++ n end.
Definition column_ref (i : ColIdent) : bytes := qualified (c_qual i) (c_col i).
(** The name under which a predicate is written in tags. *)
Definition pred_text (p : predicate) : bytes := match find (fun sp => if pred_eq_dec p (snd sp) then true else false) predicates with Some (s, _) => s | None => [] end.
Definition quant_text (q : quantifier) : bytes := match q with QNone => [] | QuantAny => B "any" | QuantSome => B "some" | QuantAll => B "all" end.
(** The definition of a field as in the source, with its type shortened. *)
Definition definition (tpkg : bytes) (f : fieldInfo) : bytes :=
  f_name f ++ B " " ++ TypeShort tpkg (f_type f) ++ (match f_tag f with [] => [] | t => B " `" ++ t ++ B "`" end).
(** The field of the BETWEEN and in it that of the bound. *)
Definition between_field (c : ck) : fieldInfo :=
  match k_wb c with Some w => match k_fields c w with Some f => f | None => no_field end | None => no_field end.
Definition between_definition (c : ck) (f : fieldInfo) : bytes :=
  f_name (between_field c) ++ B " struct { ... " ++ definition (tg_pkg (k_target c)) f ++ B " ... }" ++
  (match f_tag (between_field c) with [] => [] | t => B " `" ++ t ++ B "`" end).

Definition comparison (l : bytes) (p : predicate) (r : bytes) : bytes := l ++ B " " ++ pred_text p ++ B " " ++ r.
(** The first sentence, up to the last name in it. *)
Definition sentence (c : ck) (f : fieldInfo) (s : site) : bytes :=
  let def := red (definition (tg_pkg (k_target c)) f) in
  let missing id r := B "The column """ ++ red (column_ref id) ++ B """ referenced in """ ++ def ++ B """ does not exist in the relation """ ++ red (rl_name r) in
  let unfit col w := B "The """ ++ red (cl_name col) ++ B """ column's type """ ++ red (type_text (cl_type col)) ++ B """ is not compatible for "
    ++ paint "[4;37m" (B w) ++ B " with the """ ++ red (f_name f) ++ B """ field's type """ ++ red (f_type f) in
  let invalid t := B "The predicate """ ++ red t ++ B """ used in """ ++ def in
  let operator l p r := B "The operator """ ++ red (comparison l p r) ++ B """ referenced in """ ++ def in
  match s with
  | SFind id =>
      match lookup (c_qual id) (k_map c) with
      | Some r => missing id r
      | None => B "The qualifier """ ++ red (c_qual id)
      end
  | STarget id => missing id (k_rel c)
  | SJoin _ r id => missing id r
  | SColumn BadSearch id col => B "The column """ ++ red (column_ref id) ++ B """ referenced in """ ++ def ++ B """ is of type """ ++ red (type_text (cl_type col))
  | SColumn BadDefault id _ => B "The column """ ++ red (column_ref id) ++ B """ referenced in """ ++ def ++ B """ has no " ++ bold (B "DEFAULT")
  | SColumn BadRead _ col => unfit col "reading"%string
  | SColumn BadWrite _ col => unfit col "writing"%string
  | SFilter col => unfit col "writing"%string
  | SBool id col p => invalid (column_ref id ++ B " " ++ pred_text p) ++ B """ is not valid.
    - the column """ ++ red (column_ref id) ++ B """ is of type " ++ italic (type_text (cl_type col))
  | SNull id _ p => invalid (column_ref id ++ B " " ++ pred_text p) ++ B """ is not valid.
    - the column """ ++ red (column_ref id) ++ B """ has the " ++ italic (B "NOT NULL")
  | SLiteral _ _ x _ _ => B "The literal expression """ ++ red x ++ B """ used in """ ++ def
  | SCompareCol BadCompare _ col _ rcol p _ => operator (type_text (cl_type col)) p (type_text (cl_type rcol))
  | SCompareCol _ id _ rid rcol p q =>
      invalid (column_ref id ++ B " " ++ pred_text p ++ quant_text q ++ B " " ++ column_ref rid) ++ B """ is not valid.
    - the column """ ++ red (column_ref rid) ++ B """ on the right side is of type " ++ italic (type_text (cl_type rcol))
  | SCompareLit BadCompare _ col _ t p _ => operator (type_text (cl_type col)) p (type_text t)
  | SCompareLit _ id _ x t p q =>
      invalid (column_ref id ++ B " " ++ pred_text p ++ quant_text q ++ B " " ++ x) ++ B """ is not valid.
    - the expression """ ++ red x ++ B """ on the right side is of type " ++ italic (type_text t)
  | SField FieldCompare _ col p _ _ => operator (TypeShort (tg_pkg (k_target c)) (f_type f)) p (type_text (cl_type col))
  | SField FieldProcedure _ col _ _ fn =>
      B "No function with the name """ ++ red fn ++ B """ and argument type """ ++ red (type_text (cl_type col)) ++ B """ as referenced in """ ++ def
  | SField _ _ _ _ _ _ => invalid []
  | SBetweenCol _ col _ rcol p =>
      B "The operator """ ++ red (comparison (type_text (cl_type col)) p (type_text (cl_type rcol))) ++ B """ represented by """ ++ red (between_definition c f)
  | SBetweenField _ col p =>
      B "The operator """ ++ red (comparison (TypeShort (tg_pkg (k_target c)) (f_type f)) p (type_text (cl_type col))) ++ B """ represented by """ ++ red (between_definition c f)
  | SConflict (NoIndex | IndexNotUnique) => B "The index """ ++ red (f_sql1 f) ++ B """ referenced by """ ++ def
  | SConflict (NoColumns | ColumnsNotUnique) => B "The columns """ ++ red (f_sql f) ++ B """ referenced by """ ++ def
  | SConflict (NoConstraint | ConstraintNotUnique) => B "The constraint """ ++ red (f_sql1 f) ++ B """ referenced by """ ++ def
  | SRelation rid => B "The relation """ ++ red (qualified (r_qual rid) (r_name rid)) ++ B """ referenced in """ ++ def
  end.
