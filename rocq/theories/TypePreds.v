(** Model of internal/typesutil/predicates.go: which of the interfaces that
    gosql knows a Go type is taken to implement.

    Simplifications.  Unlike the type trees of [Analysis], a named type is only
    mentioned here by its package and name, and its declaration is looked up, so
    that types may mention themselves.  A basic type is its kind: go/types has one
    name for the kind String, hence the tests of its name are dropped.
    Struct fields keep their name, whether they are embedded, and their type.
    An interface carries the methods it declares and those it embeds, as
    (types.Interface).Method enumerates them; (types.Named).Method enumerates the
    methods declared with the type as receiver, of which a named interface type
    has none.  Type parameters are left out. *)
From Coq Require Import Ascii String ZArith NArith Bool List.
From Verif Require Import GoBase.
Import ListNotations.
Local Open Scope string_scope.
Local Open Scope list_scope.

(** A type name: the path of its package, [None] for predeclared types, and the
    name. *)
Definition tyname := (option bytes * bytes)%type.

Inductive bkind := KString | KUint8 | KBasicOther (n : nat).

Inductive ty :=
| YBasic (k : bkind)
| YPtr (t : ty)
| YSlice (t : ty)
| YArray (n : Z) (t : ty)
| YMap (k v : ty)
| YChan (t : ty)
| YFunc (ps rs : list ty) (variadic : bool)
| YIface (ms : list (bytes * (list ty * list ty * bool)))
| YStruct (fs : list (bytes * bool * ty))
| YName (n : tyname)
| YAlias (n : tyname) (t : ty).

(** types.Signature: parameters, results, variadic.  The type of a variadic
    parameter is a slice. *)
Definition sig := (list ty * list ty * bool)%type.
Definition sparams (s : sig) := fst (fst s).
Definition sresults (s : sig) := snd (fst s).
Definition svariadic (s : sig) := snd s.

(** What is declared for a type name: the underlying type and the methods that
    have the type, or a pointer to it, as receiver. *)
Record decl := MkDecl { d_under : ty; d_methods : list (bytes * sig) }.

(** strings.HasSuffix *)
Definition ends_with (p a : bytes) : bool := has_prefix (rev p) (rev a).

Definition pathOf (n : tyname) : res bytes := match fst n with Some p => Ok p | None => Panic end.
Definition gosqlPath : bytes := B "github.com/frk/gosql".
Definition filterPath : bytes := B "github.com/frk/gosql/filter".

(** a && b, where b is not evaluated if a is false *)
Definition andr (a : res bool) (b : res bool) : res bool := bind a (fun x => if x then b else Ok false).

(** ** Types *)

(** predicates.go:9-15 *)
Definition IsString (t : ty) : bool := match t with YBasic KString => true | _ => false end.

(** predicates.go:18-30 *)
Definition IsStringMap (t : ty) : bool :=
  match t with YMap k v => IsString k && IsString v | _ => false end.

(** predicates.go:220-237 *)
Definition IsFilterColumn (t : ty) : res bool :=
  match t with
  | YName n => bind (pathOf n) (fun p => Ok (bytes_eqb (snd n) (B "Column") && ends_with filterPath p))
  | _ => Ok false
  end.

(** predicates.go:33-45 *)
Definition IsStringColumnMap (t : ty) : res bool :=
  match t with YMap k v => if IsString k then IsFilterColumn v else Ok false | _ => Ok false end.

(** predicates.go:48-54 *)
Definition IsNiladicFunc (t : ty) : bool :=
  match t with YFunc [] [] _ => true | _ => false end.

(** predicates.go:57-65 *)
Definition IsErrorType (t : ty) : bool :=
  match t with YName (None, n) => bytes_eqb n (B "error") | _ => false end.

(** (types.Alias).Underlying for an alias of a type that is not a type name; of
    a type name the result is never an interface literal in [IsEmptyInterface],
    which looks at the alias any only. *)
Fixpoint unalias (t : ty) : ty := match t with YAlias _ u => unalias u | t => t end.

Definition isEmptyIface (t : ty) : bool := match t with YIface [] => true | _ => false end.

(** predicates.go:68-84 *)
Definition IsEmptyInterface (t : ty) : bool :=
  match t with
  | YAlias (None, n) u => bytes_eqb n (B "any") && isEmptyIface (unalias u)
  | YAlias (Some _, _) _ => false
  | t => isEmptyIface t
  end.

(** predicates.go:87-92 *)
Definition IsEmptyInterfaceSlice (t : ty) : bool :=
  match t with YSlice e => IsEmptyInterface e | _ => false end.

(** The type with the given path and name; false for predeclared types. *)
Definition is_named (path name : bytes) (t : ty) : bool :=
  match t with YName (Some p, n) => bytes_eqb p path && bytes_eqb n name | _ => false end.
Definition is_ptr_to (path name : bytes) (t : ty) : bool :=
  match t with YPtr e => is_named path name e | _ => false end.

(** predicates.go:95-108, 148-161, 164-181, 184-201, 204-217 *)
Definition IsContextType := is_named (B "context") (B "Context").
Definition IsSqlResult := is_named (B "database/sql") (B "Result").
Definition IsSqlRowsPtr := is_ptr_to (B "database/sql") (B "Rows").
Definition IsSqlRowPtr := is_ptr_to (B "database/sql") (B "Row").
Definition IsSqlDriverValue := is_named (B "database/sql/driver") (B "Value").

(** predicates.go:692-699 *)
Definition isbyteslice (t : ty) : bool := match t with YSlice (YBasic KUint8) => true | _ => false end.

(** predicates.go:702-743; the path is read before the name is compared. *)
Definition is_named_p (path name : bytes) (t : ty) : res bool :=
  match t with YName n => bind (pathOf n) (fun p => Ok (bytes_eqb (snd n) name && bytes_eqb p path)) | _ => Ok false end.
Definition isxmlencoder (t : ty) : res bool :=
  match t with YPtr e => is_named_p (B "encoding/xml") (B "Encoder") e | _ => Ok false end.
Definition isxmldecoder (t : ty) : res bool :=
  match t with YPtr e => is_named_p (B "encoding/xml") (B "Decoder") e | _ => Ok false end.
Definition isxmlstartelem (t : ty) : res bool := is_named_p (B "encoding/xml") (B "StartElement") t.

(** ** Methods *)

(** The loop that looks for a method of the given name. *)
Fixpoint find_method (name : bytes) (ms : list (bytes * sig)) : option sig :=
  match ms with
  | [] => None
  | (n, s) :: r => if bytes_eqb n name then Some s else find_method name r
  end.

(** predicates.go:262-271 *)
Definition ImplementsAfterScanner (d : decl) : res bool :=
  match find_method (B "AfterScan") (d_methods d) with
  | Some ([], [], _) => Ok true
  | _ => Ok false
  end.

(** predicates.go:275-288 *)
Definition ImplementsErrorHandler (d : decl) : res bool :=
  match find_method (B "HandleError") (d_methods d) with
  | Some ([p], [r], _) => Ok (IsErrorType p && IsErrorType r)
  | _ => Ok false
  end.

(** predicates.go:292-320 *)
Definition ImplementsErrorInfoHandler (d : decl) : res bool :=
  match find_method (B "HandleErrorInfo") (d_methods d) with
  | Some ([p], [r], _) =>
      if IsErrorType r then
        match p with
        | YPtr (YName n) => bind (pathOf n) (fun q => Ok (ends_with gosqlPath q && bytes_eqb (snd n) (B "ErrorInfo")))
        | _ => Ok false
        end
      else Ok false
  | _ => Ok false
  end.

(** The methods that are looked at: those of the interface if the underlying
    type is one, those declared for the named type otherwise. *)
Definition methoder (d : decl) : list (bytes * sig) :=
  match d_under d with YIface ms => ms | _ => d_methods d end.

(** predicates.go:509-525 *)
Definition IsScanner (ms : list (bytes * sig)) : res bool :=
  match find_method (B "Scan") ms with
  | Some ([p], [r], _) => Ok (IsEmptyInterface p && IsErrorType r)
  | _ => Ok false
  end.

(** predicates.go:540-556 *)
Definition IsValuer (ms : list (bytes * sig)) : res bool :=
  match find_method (B "Value") ms with
  | Some ([], [v; r], _) => Ok (IsSqlDriverValue v && IsErrorType r)
  | _ => Ok false
  end.

(** predicates.go:571-587 *)
Definition IsJSONMarshaler (ms : list (bytes * sig)) : res bool :=
  match find_method (B "MarshalJSON") ms with
  | Some ([], [b; r], _) => Ok (isbyteslice b && IsErrorType r)
  | _ => Ok false
  end.

(** predicates.go:602-618 *)
Definition IsJSONUnmarshaler (ms : list (bytes * sig)) : res bool :=
  match find_method (B "UnmarshalJSON") ms with
  | Some ([b], [r], _) => Ok (isbyteslice b && IsErrorType r)
  | _ => Ok false
  end.

(** predicates.go:633-650 *)
Definition IsXMLMarshaler (ms : list (bytes * sig)) : res bool :=
  match find_method (B "MarshalXML") ms with
  | Some ([e; s], [r], _) => andr (isxmlencoder e) (andr (isxmlstartelem s) (Ok (IsErrorType r)))
  | _ => Ok false
  end.

(** predicates.go:665-682 *)
Definition IsXMLUnmarshaler (ms : list (bytes * sig)) : res bool :=
  match find_method (B "UnmarshalXML") ms with
  | Some ([e; s], [r], _) => andr (isxmldecoder e) (andr (isxmlstartelem s) (Ok (IsErrorType r)))
  | _ => Ok false
  end.

(** predicates.go:500-505, 531-536, 562-567, 593-598, 624-629, 656-661 *)
Definition ImplementsScanner (d : decl) := IsScanner (methoder d).
Definition ImplementsValuer (d : decl) := IsValuer (methoder d).
Definition ImplementsJSONMarshaler (d : decl) := IsJSONMarshaler (methoder d).
Definition ImplementsJSONUnmarshaler (d : decl) := IsJSONUnmarshaler (methoder d).
Definition ImplementsXMLMarshaler (d : decl) := IsXMLMarshaler (methoder d).
Definition ImplementsXMLUnmarshaler (d : decl) := IsXMLUnmarshaler (methoder d).

(** The loops of ImplementsGosqlConn and ImplementsGosqlFilterConstructor: each
    case of the switch is a name and the test of the signature; a method of that
    name that fails its test ends the loop with false, one that passes sets the
    flag of the case, [seen] is the list of names whose flag is set. *)
Fixpoint scan_methods (cases : list (bytes * (sig -> res bool))) (ms : list (bytes * sig)) (seen : list bytes) : res (option (list bytes)) :=
  match ms with
  | [] => Ok (Some seen)
  | (n, s) :: r =>
      match find (fun c => bytes_eqb n (fst c)) cases with
      | Some (_, test) => bind (test s) (fun ok => if ok then scan_methods cases r (n :: seen) else Ok None)
      | None => scan_methods cases r seen
      end
  end.
Definition has_all (cases : list (bytes * (sig -> res bool))) (ms : list (bytes * sig)) : res bool :=
  bind (scan_methods cases ms [])
    (fun o => Ok match o with
                 | Some seen => forallb (fun c => existsb (bytes_eqb (fst c)) seen) cases
                 | None => false
                 end).

(** predicates.go:336-415 *)
Definition conn_cases : list (bytes * (sig -> res bool)) :=
  [(B "Exec", fun s => match s with
      | ([q; a], [x; e], true) => Ok (IsString q && IsEmptyInterfaceSlice a && IsSqlResult x && IsErrorType e)
      | _ => Ok false end);
   (B "Query", fun s => match s with
      | ([q; a], [x; e], true) => Ok (IsString q && IsEmptyInterfaceSlice a && IsSqlRowsPtr x && IsErrorType e)
      | _ => Ok false end);
   (B "QueryRow", fun s => match s with
      | ([q; a], [x], true) => Ok (IsString q && IsEmptyInterfaceSlice a && IsSqlRowPtr x)
      | _ => Ok false end);
   (B "ExecContext", fun s => match s with
      | ([c; q; a], [x; e], true) => Ok (IsContextType c && IsString q && IsEmptyInterfaceSlice a && IsSqlResult x && IsErrorType e)
      | _ => Ok false end);
   (B "QueryContext", fun s => match s with
      | ([c; q; a], [x; e], true) => Ok (IsContextType c && IsString q && IsEmptyInterfaceSlice a && IsSqlRowsPtr x && IsErrorType e)
      | _ => Ok false end);
   (B "QueryRowContext", fun s => match s with
      | ([c; q; a], [x], true) => Ok (IsContextType c && IsString q && IsEmptyInterfaceSlice a && IsSqlRowPtr x)
      | _ => Ok false end)].

(** predicates.go:323-418 *)
Definition ImplementsGosqlConn (d : decl) : res bool := has_all conn_cases (methoder d).

(** predicates.go:436-490 *)
Definition ctor_cases : list (bytes * (sig -> res bool)) :=
  [(B "Init", fun s => match s with
      | ([m; c], [], _) => Ok (IsStringMap m && IsString c)
      | _ => Ok false end);
   (B "InitV2", fun s => match s with
      | ([m; c], [], _) => andr (IsStringColumnMap m) (Ok (IsString c))
      | _ => Ok false end);
   (B "Col", fun s => match s with
      | ([c; o; v], [], _) => Ok (IsString c && IsString o && IsEmptyInterface v)
      | _ => Ok false end);
   (B "And", fun s => match s with ([f], [], _) => Ok (IsNiladicFunc f) | _ => Ok false end);
   (B "Or", fun s => match s with ([f], [], _) => Ok (IsNiladicFunc f) | _ => Ok false end)].

(** predicates.go:422-494, for the declaration of the named type *)
Definition ImplementsGosqlFilterConstructor (d : decl) : res bool := has_all ctor_cases (methoder d).
