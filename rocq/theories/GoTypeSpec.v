(** Which methods a Go type has and which interfaces it implements, after the Go
    specification (Method sets, Struct types, Selectors, Type identity, Interface
    types); the interfaces are those of database/sql, encoding/json, encoding/xml
    and gosql.go.  Only the language of types is shared with the model. *)
From Coq Require Import Ascii String ZArith NArith Bool List.
From Verif Require Import GoBase TypePreds.
Import ListNotations.
Local Open Scope string_scope.
Local Open Scope list_scope.

(** Type identity: an alias denotes the type it is declared as.  (Two interface
    literals count as identical only with their methods in the same order; below
    no interface literal but the empty one is compared.) *)
Fixpoint expand (t : ty) : ty :=
  match t with
  | YBasic k => YBasic k
  | YPtr e => YPtr (expand e)
  | YSlice e => YSlice (expand e)
  | YArray n e => YArray n (expand e)
  | YMap k v => YMap (expand k) (expand v)
  | YChan e => YChan (expand e)
  | YFunc ps rs v => YFunc (map expand ps) (map expand rs) v
  | YIface ms => YIface (map (fun m => (fst m, (map expand (fst (fst (snd m))), map expand (snd (fst (snd m))), snd (snd m)))) ms)
  | YStruct fs => YStruct (map (fun f => (fst f, expand (snd f))) fs)
  | YName n => YName n
  | YAlias _ u => expand u
  end.
Definition identical (a b : ty) : Prop := expand a = expand b.
Definition same_sig (a b : sig) : Prop :=
  Forall2 identical (sparams a) (sparams b) /\ Forall2 identical (sresults a) (sresults b) /\ svariadic a = svariadic b.

(** What a name selects in a type: a field or a method. *)
Inductive entry := EField | EMethod (s : sig).

Definition world := tyname -> option decl.

(** The types behind a field or variable, through aliases and one pointer. *)
Fixpoint resolve (t : ty) : ty := match t with YAlias _ u => resolve u | t => t end.
Definition target (t : ty) : ty := match resolve t with YPtr e => resolve e | u => u end.

(** Fields and methods at depth zero. *)
Definition literal_members (u : ty) : list (bytes * entry) :=
  match u with
  | YStruct fs => map (fun f => (fst (fst f), EField)) fs
  | YIface ms => map (fun m => (fst m, EMethod (snd m))) ms
  | _ => []
  end.
Definition members (w : world) (t : ty) : list (bytes * entry) :=
  match target t with
  | YName n =>
      match w n with
      | Some d => map (fun m => (fst m, EMethod (snd m))) (d_methods d) ++ literal_members (d_under d)
      | None => []
      end
  | u => literal_members u
  end.

(** The embedded fields. *)
Definition literal_embedded (u : ty) : list ty :=
  match u with YStruct fs => map snd (filter (fun f => snd (fst f)) fs) | _ => [] end.
Definition embedded (w : world) (t : ty) : list ty :=
  match target t with
  | YName n => match w n with Some d => literal_embedded (d_under d) | None => [] end
  | u => literal_embedded u
  end.
Fixpoint level (w : world) (d : nat) (t : ty) : list ty :=
  match d with O => [t] | S d => flat_map (embedded w) (level w d t) end.

(** What the name denotes at a depth, and what it selects: a method is selected
    if it is the only entry of that name at the shallowest depth that has one.
    (A variable is addressable, so methods on pointers count.) *)
Definition entries (w : world) (t : ty) (d : nat) (m : bytes) : list entry :=
  map snd (filter (fun e => bytes_eqb (fst e) m) (flat_map (members w) (level w d t))).
Definition selects (w : world) (t : ty) (m : bytes) (s : sig) : Prop :=
  exists d, entries w t d m = [EMethod s] /\ forall d', (d' < d)%nat -> entries w t d' m = [].

Definition implements (w : world) (t : ty) (i : list (bytes * sig)) : Prop :=
  forall m s, In (m, s) i -> exists s', selects w t m s' /\ same_sig s s'.

(** No alias but the predeclared any. *)
Fixpoint tidy (t : ty) : bool :=
  match t with
  | YBasic _ | YName _ => true
  | YPtr e | YSlice e | YArray _ e | YChan e => tidy e
  | YMap k v => tidy k && tidy v
  | YFunc ps rs _ => forallb tidy ps && forallb tidy rs
  | YIface ms => forallb (fun m => forallb tidy (fst (fst (snd m))) && forallb tidy (snd (fst (snd m)))) ms
  | YStruct fs => forallb (fun f => tidy (snd f)) fs
  | YAlias (None, n) _ => bytes_eqb n (B "any")
  | YAlias (Some _, _) _ => false
  end.
Definition tidy_sig (s : sig) : bool := forallb tidy (sparams s) && forallb tidy (sresults s).

(** The interface's methods are all found at depth zero, that is, declared for
    the type or listed in the interface it is, and spelled without aliases. *)
Definition directly (w : world) (t : ty) (i : list (bytes * sig)) : Prop :=
  forall m s, In (m, s) i -> exists s', entries w t 0 m = [EMethod s'] /\ same_sig s s' /\ tidy_sig s' = true.

(** ** Rules that every compiled package obeys *)

Definition is_slice (t : ty) : bool := match t with YSlice _ => true | _ => false end.
Definition variadic_ok (ps : list ty) (v : bool) : bool := negb v || is_slice (last ps (YName (None, []))).

(** A variadic parameter is the last one and a slice; the only predeclared alias
    is any, for the empty interface. *)
Fixpoint legal (t : ty) : bool :=
  match t with
  | YBasic _ | YName _ => true
  | YPtr e | YSlice e | YArray _ e | YChan e => legal e
  | YMap k v => legal k && legal v
  | YFunc ps rs v => forallb legal ps && forallb legal rs && variadic_ok ps v
  | YIface ms => forallb (fun m => forallb legal (fst (fst (snd m))) && forallb legal (snd (fst (snd m))) && variadic_ok (fst (fst (snd m))) (snd (snd m))) ms
  | YStruct fs => forallb (fun f => legal (snd f)) fs
  | YAlias (None, n) u => bytes_eqb n (B "any") && match u with YIface [] => true | _ => false end
  | YAlias (Some _, _) u => legal u
  end.
Definition legal_sig (s : sig) : bool :=
  forallb legal (sparams s) && forallb legal (sresults s) && variadic_ok (sparams s) (svariadic s).

(** Names are declared once; the receiver of a method is no interface; an
    underlying type is a literal. *)
Definition legal_decl (d : decl) : Prop :=
  NoDup (map fst (d_methods d ++ map (fun e => (fst e, ([], [], false))) (literal_members (d_under d)))) /\
  Forall (fun m => legal_sig (snd m) = true) (d_methods d) /\
  legal (d_under d) = true /\
  (forall ms, d_under d = YIface ms -> d_methods d = []) /\
  match d_under d with YName _ | YAlias _ _ => False | _ => True end.

(** ** The interfaces *)

Definition any_t := YIface [].
Definition error_t := YName (None, B "error").
Definition string_t := YBasic KString.
Definition bytes_t := YSlice (YBasic KUint8).
Definition named_t (path name : string) := YName (Some (B path), B name).
Definition sql_result := named_t "database/sql" "Result".
Definition sql_rows := YPtr (named_t "database/sql" "Rows").
Definition sql_row := YPtr (named_t "database/sql" "Row").
Definition context_t := named_t "context" "Context".
Definition anys := YSlice any_t.

(** database/sql.Scanner, database/sql/driver.Valuer *)
Definition Scanner : list (bytes * sig) := [(B "Scan", ([any_t], [error_t], false))].
Definition Valuer : list (bytes * sig) := [(B "Value", ([], [named_t "database/sql/driver" "Value"; error_t], false))].
(** encoding/json.Marshaler, Unmarshaler; encoding/xml.Marshaler, Unmarshaler *)
Definition JSONMarshaler : list (bytes * sig) := [(B "MarshalJSON", ([], [bytes_t; error_t], false))].
Definition JSONUnmarshaler : list (bytes * sig) := [(B "UnmarshalJSON", ([bytes_t], [error_t], false))].
Definition XMLMarshaler : list (bytes * sig) := [(B "MarshalXML", ([YPtr (named_t "encoding/xml" "Encoder"); named_t "encoding/xml" "StartElement"], [error_t], false))].
Definition XMLUnmarshaler : list (bytes * sig) := [(B "UnmarshalXML", ([YPtr (named_t "encoding/xml" "Decoder"); named_t "encoding/xml" "StartElement"], [error_t], false))].
(** gosql.go:22-41 *)
Definition Conn : list (bytes * sig) :=
  [(B "Exec", ([string_t; anys], [sql_result; error_t], true));
   (B "ExecContext", ([context_t; string_t; anys], [sql_result; error_t], true));
   (B "Query", ([string_t; anys], [sql_rows; error_t], true));
   (B "QueryContext", ([context_t; string_t; anys], [sql_rows; error_t], true));
   (B "QueryRow", ([string_t; anys], [sql_row], true));
   (B "QueryRowContext", ([context_t; string_t; anys], [sql_row], true))].
(** gosql.go:49-52, 133-143, 152-159; the path is that of the gosql package *)
Definition AfterScanner : list (bytes * sig) := [(B "AfterScan", ([], [], false))].
Definition ErrorHandler : list (bytes * sig) := [(B "HandleError", ([error_t], [error_t], false))].
Definition ErrorInfoHandler (path : bytes) : list (bytes * sig) :=
  [(B "HandleErrorInfo", ([YPtr (YName (Some path, B "ErrorInfo"))], [error_t], false))].
(** gosql.go:78-127 *)
Definition FilterConstructor : list (bytes * sig) :=
  [(B "Init", ([YMap string_t string_t; string_t], [], false));
   (B "Col", ([string_t; string_t; any_t], [], false));
   (B "And", ([YFunc [] [] false], [], false));
   (B "Or", ([YFunc [] [] false], [], false))].
(** The method that the generated code calls if a column has a converter. *)
Definition InitV2 (path : bytes) : list (bytes * sig) :=
  [(B "InitV2", ([YMap string_t (YName (Some path, B "Column")); string_t], [], false))].

(** The package may be vendored: its import path then has a prefix. *)
Definition vendored (path : string) (p : bytes) : Prop := exists pre, p = pre ++ B path.
