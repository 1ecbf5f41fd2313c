
From Coq Require Import Ascii String ZArith NArith Bool List Lia.
From Verif Require Import GoBase FilterCode Imports TagSpec AParse AParseProofs Analysis Converters ConvertersSpec.
From Verif Require Filter.
From Verif Require Import ConvertersFinal.
Import ListNotations.
Local Open Scope char_scope.
Local Open Scope list_scope.

(** The text of a type or function is a path and a name; the path has at least
    two characters, of letters, digits and underscores, and dots and slashes
    except at its ends.  An empty text says nothing. *)
Theorem C107_accepts : forall v o, obj_Set no_obj v = Some o <-> (v = [] /\ o = no_obj) \/ (exists p n, names v p n /\ o = MkObj p n true).
Proof. exact C107_accepts_proof. Qed.
Print Assumptions C107_accepts.

(** It is printed as it was given. *)
Theorem C107_text : forall v o, obj_Set no_obj v = Some o -> obj_string o = v /\ obj_Set no_obj (obj_string o) = Some o.
Proof. exact C107_text_proof. Qed.
Print Assumptions C107_text.

(** An entry gets the first text that is given for type and for func; it fails
    only because of a value that is neither a text of that form nor null. *)
Theorem C107_entry : forall e, match read_entry (MkConv no_obj no_obj) e with
  | Some c => object KType e (cv_type c) /\ object KFunc e (cv_func c)
  | None => exists k j, In (k, j) e /\ (j = JOther \/ exists s, j = JStr s /\ s <> [] /\ forall p n, ~ names s p n)
  end.
Proof. exact C107_entry_proof. Qed.
Print Assumptions C107_entry.

(** A value of another kind is an error, unless a text came before it. *)
Theorem C107_wrong : forall e c pre k post, read_entry (MkConv no_obj no_obj) e = Some c -> e = pre ++ (k, JOther) :: post -> ~ no_text k pre.
Proof. exact C107_wrong_proof. Qed.
Print Assumptions C107_wrong.

(** The entries are read one by one; an error in one is an error. *)
Theorem C107_read : forall l cs, read_entries l = Some cs <-> Forall2 (fun e c => read_entry (MkConv no_obj no_obj) e = Some c) l cs.
Proof. exact C107_read_proof. Qed.
Print Assumptions C107_read.

(** A field gets the function of the last entry for its type. *)
Theorem C107_field : forall l cs f x, read_entries l = Some cs -> ~ In "." (t_name (fi_type f)) ->
  (FilterValueConverter (AnalyzeFilterValueConverters cs) f = Some x <->
   exists pre c post, cs = pre ++ c :: post /\ same_type c (fi_type f) /\ x = (o_path (cv_func c), o_name (cv_func c))
     /\ Forall (fun d => ~ same_type d (fi_type f)) post).
Proof. exact C107_field_proof. Qed.
Print Assumptions C107_field.

(** Fields of types that are not declared, such as string or a pointer to a
    declared type, get none, if every entry has a type. *)
Theorem C107_unnamed : forall l cs e u i b f, read_entries l = Some cs -> Forall (fun x => ~ no_text KType x) l ->
  (forall n v, u <> TNamed n v) -> analyzeTypeInfo e u = AOk (i, b) -> fi_type f = i ->
  FilterValueConverter (AnalyzeFilterValueConverters cs) f = None.
Proof. exact C107_unnamed_proof. Qed.
Print Assumptions C107_unnamed.

(** The hyphen, which the expression seems to allow, is rejected, and so are
    paths of one letter. *)
Theorem C107_path_refuted : obj_Set no_obj (B "github.com/my-org/types.ID") = None /\ obj_Set no_obj (B "m.ID") = None
  /\ exists o, obj_Set no_obj (B "github.com/my_org/types.ID") = Some o.
Proof. exact C107_path_refuted_proof. Qed.
Print Assumptions C107_path_refuted.

(** An entry without a type is accepted, and is used for all fields of types
    that are not declared. *)
Theorem C107_type_refuted : exists l cs, read_entries l = Some cs /\ forall f, t_path (fi_type f) = [] -> t_name (fi_type f) = [] ->
  FilterValueConverter (AnalyzeFilterValueConverters cs) f = Some (B "example.com/m/conv", B "F").
Proof. exact C107_type_refuted_proof. Qed.
Print Assumptions C107_type_refuted.

(** An entry without a function is accepted; the fields of its type get a
    function without a name. *)
Theorem C107_func_refuted : exists l cs, read_entries l = Some cs /\ forall f, t_path (fi_type f) = B "example.com/m" -> t_name (fi_type f) = B "ID" ->
  FilterValueConverter (AnalyzeFilterValueConverters cs) f = Some ([], []).
Proof. exact C107_func_refuted_proof. Qed.
Print Assumptions C107_func_refuted.

(** The code refers to a function of its own package by name, and to others by
    the name under which their package is imported; the import is added. *)
Theorem C107_reference : forall pkg set id set' x, converter_ref pkg set id = (set', x) ->
  (fst id = pkg /\ set' = set /\ x = XId (snd id))
  \/ (fst id <> pkg /\ incl (map i_path set) (map i_path set') /\ exists i, In i set' /\ i_path i = fst id /\ x = XSel (XId (i_name i)) (snd id)).
Proof. exact C107_reference_proof. Qed.
Print Assumptions C107_reference.

(** That name is the last part of the path, which need not be a name. *)
Theorem C107_import_refuted : exists v o set n, obj_Set no_obj v = Some o
  /\ converter_ref (B "example.com/m") [] (o_path o, o_name o) = (set, XSel (XId n) (o_name o)) /\ ~ is_name n.
Proof. exact C107_import_refuted_proof. Qed.
Print Assumptions C107_import_refuted.

Example C107_ref_ex : converter_ref (B "example.com/m") [MkImp (B "a/conv") (B "conv") false 0] (B "example.com/m/conv", B "UUID")
    = ([MkImp (B "a/conv") (B "conv") false 1; MkImp (B "example.com/m/conv") (B "conv1") true 0], XSel (XId (B "conv1")) (B "UUID"))
  /\ converter_ref (B "example.com/m") [] (B "example.com/m", B "UUID") = ([], XId (B "UUID")).
Proof. split; reflexivity. Qed.

Example C107_ex : read_entries
    [[(KType, JStr (B "github.com/google/uuid.UUID")); (KFunc, JStr (B "example.com/m/conv.UUID"))];
     [(KFunc, JNull); (KFunc, JStr []); (KFunc, JStr (B "example.com/m/conv.UUID2")); (KFunc, JOther); (KType, JStr (B "github.com/google/uuid.UUID"))]]
  = Some [MkConv (MkObj (B "github.com/google/uuid") (B "UUID") true) (MkObj (B "example.com/m/conv") (B "UUID") true);
          MkConv (MkObj (B "github.com/google/uuid") (B "UUID") true) (MkObj (B "example.com/m/conv") (B "UUID2") true)].
Proof. reflexivity. Qed.

Example C107_field_ex : forall f, t_path (fi_type f) = B "github.com/google/uuid" -> t_name (fi_type f) = B "UUID" ->
  FilterValueConverter (AnalyzeFilterValueConverters
    [MkConv (MkObj (B "github.com/google/uuid") (B "UUID") true) (MkObj (B "example.com/m/conv") (B "UUID") true);
     MkConv (MkObj (B "github.com/google/uuid") (B "UUID") true) (MkObj (B "example.com/m/conv") (B "UUID2") true)]) f
  = Some (B "example.com/m/conv", B "UUID2").
Proof. intros f P N. unfold FilterValueConverter. rewrite P, N. reflexivity. Qed.

Example C107_names_ex : names (B "github.com/google/uuid.UUID") (B "github.com/google/uuid") (B "UUID").
Proof.
  pose proof (proj1 (C107_accepts_lemma (B "github.com/google/uuid.UUID") (MkObj (B "github.com/google/uuid") (B "UUID") true)) eq_refl) as H.
  destruct H as [[H _]|(p & n & H & E)]; [discriminate H|]. injection E as <- <-. exact H.
Qed.
