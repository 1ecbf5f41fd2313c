
From Coq Require Import Ascii String ZArith NArith Bool List Lia.
From Verif Require Import GoBase Strconv ConvertProofs Filter AParse AParseProofs ErrText ErrTextSpec.
From Verif Require Import ErrTextFinal.
Import ListNotations.
Local Open Scope list_scope.

(** Every error of a check has a text. *)
Theorem C108_text : forall c s ptr e, raise c s ptr = Some e -> named s -> exists t, Error e = Ok t.
Proof. exact C108_text_proof. Qed.
Print Assumptions C108_text.

(** It begins with the place of the field that is at fault. *)
Theorem C108_place : forall c s ptr e f, raise c s ptr = Some e -> named s -> k_fields c ptr = Some f ->
  exists t, Error e = Ok (bold (fl_name (f_file f) ++ B ":" ++ format_int 10 (fl_line (f_file f))) ++ B ": " ++ t).
Proof. exact C108_place_proof. Qed.
Print Assumptions C108_place.

(** An unknown column: its name, the field, and the relation in which it was looked for. *)
Theorem C108_column : forall c s ptr e id r f, searched c s id r -> named s -> raise c s ptr = Some e -> k_fields c ptr = Some f ->
  ~ In (c_col id) (rl_cols r) /\ exists rest, Error e =
    Ok (headline f "Column not found." ++ B "
    The column """ ++ red (IdRef id) ++ B """ referenced in """ ++ red (Definition_ (tg_pkg (k_target c)) f)
      ++ B """ does not exist in the relation """ ++ red (rl_name r) ++ rest).
Proof. exact C108_column_proof. Qed.
Print Assumptions C108_column.

(** There is no such error if the relation has the column. *)
Theorem C108_found : forall c s ptr id r, searched c s id r -> In (c_col id) (rl_cols r) -> raise c s ptr = None.
Proof. exact C108_found_proof. Qed.
Print Assumptions C108_found.

(** A qualifier that no relation has. *)
Theorem C108_qualifier : forall c id ptr f, lookup (c_qual id) (k_map c) = None -> k_fields c ptr = Some f ->
  exists e rest, raise c (SFind id) ptr = Some e /\ Error e =
    Ok (headline f "Column qualifier relation not found." ++ B "
    The qualifier """ ++ red (c_qual id) ++ B """ matches no relation." ++ rest).
Proof. exact C108_qualifier_proof. Qed.
Print Assumptions C108_qualifier.

(** A relation that does not exist. *)
Theorem C108_relation : forall c rid ptr f, r_name rid <> [] -> k_fields c ptr = Some f ->
  exists e rest, raise c (SRelation rid) ptr = Some e /\ Error e =
    Ok (headline f "Unknown relation." ++ B "
    The relation """ ++ red (RelRef rid) ++ B """ referenced in """ ++ red (Definition_ (tg_pkg (k_target c)) f) ++ B """ does not exist." ++ rest).
Proof. exact C108_relation_proof. Qed.
Print Assumptions C108_relation.

(** Columns that cannot be compared: the operator, with the types of the columns in their order. *)
Theorem C108_compare : forall c id col rid rcol p q ptr f, c_col rid <> [] -> k_fields c ptr = Some f ->
  exists e rest, raise c (SCompareCol BadCompare id col rid rcol p q) ptr = Some e /\ Error e =
    Ok (headline f "Bad column comparison." ++ B "
    The operator """ ++ red (type_text (cl_type col) ++ B " " ++ PredicateString p ++ B " " ++ type_text (cl_type rcol))
      ++ B """ referenced in """ ++ red (Definition_ (tg_pkg (k_target c)) f) ++ B """ does not exist.
    - column """ ++ red (IdRef id) ++ B """ is of type """ ++ red (type_text (cl_type col)) ++ B """.
    - column """ ++ red (IdRef rid) ++ B """ is of type """ ++ red (type_text (cl_type rcol)) ++ rest).
Proof. exact C108_compare_proof. Qed.
Print Assumptions C108_compare.

(** A field that cannot be compared: the type of the field comes first, although the operator looked for has the column on the left. *)
Theorem C108_field : forall c id col p q fn ptr f, k_fields c ptr = Some f ->
  exists e rest, raise c (SField FieldCompare id col p q fn) ptr = Some e /\ Error e =
    Ok (headline f "Bad column field comparison." ++ B "
    The operator """ ++ red (TypeShort (tg_pkg (k_target c)) (f_type f) ++ B " " ++ PredicateString p ++ B " " ++ type_text (cl_type col))
      ++ B """ referenced in """ ++ red (Definition_ (tg_pkg (k_target c)) f) ++ B """ does not exist.
    - field """ ++ red (f_name f) ++ B """ is of type """ ++ red (TypeShort (tg_pkg (k_target c)) (f_type f)) ++ B """.
    - column """ ++ red (IdRef id) ++ B """ is of type """ ++ red (type_text (cl_type col)) ++ rest).
Proof. exact C108_field_proof. Qed.
Print Assumptions C108_field.

(** A field where an array is needed: neither the predicate nor the operand is shown. *)
Theorem C108_operand : forall c id col p q fn ptr f, k_fields c ptr = Some f -> p_unary p = false ->
  exists e rest, raise c (SField FieldArray id col p q fn) ptr = Some e /\ Error e =
    Ok (headline f "Bad operand type in array predicate." ++ B "
    The predicate """ ++ red [] ++ B """ used in """ ++ red (Definition_ (tg_pkg (k_target c)) f) ++ B """ is not valid.
    - the expression """ ++ red [] ++ B """ on the right side is of type " ++ italic (B "<nil>") ++ rest).
Proof. exact C108_operand_proof. Qed.
Print Assumptions C108_operand.

(** Every error says, after its headline, what is wrong with what. *)
Theorem C108_says : forall c s ptr e f, raise c s ptr = Some e -> sensible s -> k_fields c ptr = Some f ->
  exists rest, Error e = Ok (headline f (title c s) ++ B "
    " ++ sentence c f s ++ rest).
Proof. exact C108_says_proof. Qed.
Print Assumptions C108_says.

(** A type of the package of the query is shown by its name. *)
Theorem C108_own : forall p n, without "." n -> has_prefix (B "struct{") (p ++ B "." ++ n) = false -> TypeShort p (p ++ B "." ++ n) = n.
Proof. exact C108_own_proof. Qed.
Print Assumptions C108_own.

(** A type of another package is shown with the last part of the path. *)
Theorem C108_other : forall tp d q n, without "." n -> without "/" n -> without "/" q -> tp <> d ++ B "/" ++ q ->
  has_prefix (B "struct{") (d ++ B "/" ++ q ++ B "." ++ n) = false -> TypeShort tp (d ++ B "/" ++ q ++ B "." ++ n) = q ++ B "." ++ n.
Proof. exact C108_other_proof. Qed.
Print Assumptions C108_other.

(** Of a struct the fields are left out, if it has any. *)
Theorem C108_struct : forall tp b, (b <> B "}" -> b <> B " }" -> TypeShort tp (B "struct{" ++ b) = B "struct{ ... }")
  /\ TypeShort tp (B "struct{}") = B "struct{}" /\ TypeShort tp (B "struct{ }") = B "struct{ }".
Proof. exact C108_struct_proof. Qed.
Print Assumptions C108_struct.

(** No error about the database can be printed. *)
Theorem C108_panics : forall e, about_database (e_code e) -> Error e = Panic.
Proof. exact C108_panics_proof. Qed.
Print Assumptions C108_panics.

(** An error about a predicate need not show it. *)
Theorem C108_predicate_refuted : exists c s ptr e, raise c s ptr = Some e /\ e_pred e = IsIn /\ c_col (e_colid e) <> [] /\ PredString e = [].
Proof. exact C108_predicate_refuted_proof. Qed.
Print Assumptions C108_predicate_refuted.

(** Pointers and slices are not shown as such. *)
Theorem C108_pointer_refuted : exists tp p n, TypeShort tp (B "*" ++ p ++ B "." ++ n) = TypeShort tp (p ++ B "." ++ n)
  /\ TypeShort tp (B "[]" ++ p ++ B "." ++ n) = TypeShort tp (p ++ B "." ++ n).
Proof. exact C108_pointer_refuted_proof. Qed.
Print Assumptions C108_pointer_refuted.

Example C108_column_ex : searched ex_ck (SFind (MkCol (B "u") (B "nme"))) (MkCol (B "u") (B "nme")) ex_rel /\ named (SFind (MkCol (B "u") (B "nme")))
  /\ k_fields ex_ck 0 = Some ex_field /\ exists e rest, raise ex_ck (SFind (MkCol (B "u") (B "nme"))) 0 = Some e /\ Error e =
    Ok (bold (B "q.go:12") ++ B ": " ++ yellow (B "Column not found.") ++ B "
    The column """ ++ red (B "u.nme") ++ B """ referenced in """ ++ red (B "_ gosql.OrderBy `sql:""u.nme""`") ++ B """ does not exist in the relation """ ++ red (B "users") ++ rest).
Proof.
  split; [constructor; reflexivity|]. split; [discriminate|]. split; [reflexivity|]. eexists. eexists. split; [reflexivity|].
  vm_compute. reflexivity.
Qed.

Example C108_panics_ex : Error (mk errDatabaseOpen no_relid None no_colid None) = Panic.
Proof. reflexivity. Qed.

Example C108_own_ex : TypeShort (B "example.com/m") (B "example.com/m.User") = B "User" /\ TypeShort (B "example.com/m") (B "github.com/frk/gosql.OrderBy") = B "gosql.OrderBy"
  /\ TypeShort (B "example.com/m") (B "struct{ID int}") = B "struct{ ... }".
Proof. repeat split; reflexivity. Qed.

Example C108_compare_ex : let c := MkCk no_db no_target ex_rel [] (fun _ => Some ex_field) None in
  (exists e, raise c (SCompareCol BadCompare (MkCol [] (B "id")) (MkColumn (B "id") 23 (Some (B "integer")) (Some ex_rel)) (MkCol (B "u") (B "name")) (MkColumn (B "name") 25 (Some (B "text")) (Some ex_rel)) IsLT QNone) 0 = Some e)
  /\ c_col (MkCol (B "u") (B "name")) <> [] /\ p_unary IsIn = false /\ lookup (B "x") (k_map ex_ck) = None.
Proof. repeat split; try discriminate. eexists. reflexivity. Qed.

Example C108_says_ex : let s := SCompareLit BadArray (MkCol (B "u") (B "id")) (MkColumn (B "id") 23 (Some (B "integer")) (Some ex_rel)) (B "5") (Some (B "integer")) IsEQ QuantAny in
  sensible s /\ k_fields ex_ck 0 = Some ex_field /\ (exists e, raise ex_ck s 0 = Some e)
  /\ exists rest, sentence ex_ck ex_field s = B "The predicate """ ++ red (B "u.id =any 5") ++ rest.
Proof. repeat split; try discriminate; eexists; reflexivity. Qed.
