(** The errors of the checker and their texts: internal/postgres/errors.go and
    [checker.dbError] of internal/postgres/postgres.go. [text/template] is
    modelled on the actions that occur: text, calls of the colour functions on
    literals and field paths, conditionals, and the two included templates,
    which are written out where they are included. White space next to the trim
    markers is removed as the template parser does. *)
From Coq Require Import Ascii String ZArith NArith Bool List.
From Verif Require Import GoBase Strconv Filter AParse.
Import ListNotations.

Definition esc (s : bytes) : bytes := ascii_of_nat 27 :: s.

(** errors.go:18-71 *)
Inductive code :=
| errDatabaseOpen
| errDatabaseInit
| errCatalogTypeGet
| errCatalogTypeScan
| errCatalogOperatorGet
| errCatalogOperatorScan
| errCatalogCastGet
| errCatalogCastScan
| errCatalogProcedureGet
| errCatalogProcedureScan
| errRelationUnknown
| errRelationScan
| errRelationColumnGet
| errRelationColumnScan
| errRelationColumnUnknownType
| errRelationConstraintGet
| errRelationConstraintScan
| errRelationIndexGet
| errRelationIndexScan
| errColumnUnknown
| errColumnDefaultUnset
| errColumnTextSearchType
| errColumnFieldTypeWrite
| errColumnFieldTypeRead
| errColumnFieldComparison
| errColumnQualifierUnknown
| errColumnComparison
| errPredicateOperandQuantifier
| errPredicateOperandArray
| errPredicateOperandBool
| errPredicateOperandNull
| errPredicateLiteralExpr
| errBetweenColumnComparison
| errBetweenFieldComparison
| errProcedureUnknown
| errOnConflictIndexUnknown
| errOnConflictIndexNotUnique
| errOnConflictIndexColumnsUnknown
| errOnConflictIndexColumnsNotUnique
| errOnConflictConstraintUnknown
| errOnConflictConstraintNotUnique.

Inductive attr := ACol | ADB | ADSN | ADefinition | AError | AExpr | AField | AFile | AFuncName | AGetNameFmt | AId | AIdRef | AIsDefaultDirective | AName | ANameAndLine | APred | APredString | AQualifier | AQuant | ARHSCol | ARHSLit | ARef | ARel | ASchema | ASearchPath | ASqlTag | ASqlTagFirst | AString | ATarget | AType | ATypeOID | ATypeShort | AWBFieldDefinition.

Inductive color := CCi | CR | CW | CWb | CWi | CY | Cwu.
(** errors.go:596-655 *)
Definition color_code (c : color) : bytes :=
  match c with
  | CCi => esc (B "[3;96m")
  | CR => esc (B "[0;91m")
  | CW => esc (B "[0;97m")
  | CWb => esc (B "[1;97m")
  | CWi => esc (B "[3;97m")
  | CY => esc (B "[0;93m")
  | Cwu => esc (B "[4;37m")
  end.

(** errors.go:668-679 ([getcolor]): the arguments, separated by blanks, between
    the colour and the code that ends it. Every call in the templates has
    arguments. *)
Fixpoint join_args (l : list bytes) : bytes :=
  match l with
  | [] => []
  | [s] => s
  | s :: r => s ++ B " " ++ join_args r
  end.
Definition getcolor (c : color) (l : list bytes) : bytes := color_code c ++ join_args l ++ esc (B "[0m").

(** ** The contents of an error *)

(** internal/postgres/types.go: what the templates use of a relation, of a type
    (the formatted name) and of a column, whose type may be nil. *)
Record relation := MkRelation { rl_name : bytes; rl_schema : bytes; rl_cols : list bytes }.
Record column := MkColumn { cl_name : bytes; cl_oid : N; cl_type : option bytes; cl_rel : option relation }.

(** errors.go:130-135 *)
Record dbInfo := MkDB { d_dsn : bytes; d_name : bytes; d_user : bytes; d_path : bytes }.
(** errors.go:137-144 *)
Record fileInfo := MkFile { fl_name : bytes; fl_line : Z }.
Definition NameAndLine (f : fileInfo) : bytes := fl_name f ++ B ":" ++ format_int 10 (fl_line f).
(** errors.go:146-150 *)
Record targetInfo := MkTarget { tg_pkg : bytes; tg_name : bytes; tg_file : fileInfo }.
(** errors.go:152-170. The results of [SqlTag] and [SqlTagFirst], which belong to
    github.com/frk/tagutil, are components. *)
Record fieldInfo := MkField { f_name : bytes; f_type : bytes; f_tag : bytes; f_file : fileInfo; f_sql : bytes; f_sql1 : bytes }.
Definition no_field : fieldInfo := MkField [] [] [] (MkFile [] 0) [] [].

(** errors.go:196-208 *)
Definition TypeName (t : bytes) : bytes := match cut_last "." t with Some (_, n) => n | None => t end.
Definition TypePkgPath (t : bytes) : bytes := match cut_last "." t with Some (p, _) => p | None => [] end.
(** errors.go:180-194 *)
Definition TypeShort (tpkg t : bytes) : bytes :=
  if has_prefix (B "struct{") t && negb (bytes_eqb t (B "struct{}")) && negb (bytes_eqb t (B "struct{ }")) then B "struct{ ... }"
  else if bytes_eqb (TypePkgPath t) tpkg then TypeName t
  else match cut_last "/" t with Some (_, n) => n | None => t end.
(** errors.go:172-177 *)
Definition Definition_ (tpkg : bytes) (f : fieldInfo) : bytes :=
  match f_tag f with
  | [] => f_name f ++ B " " ++ TypeShort tpkg (f_type f)
  | t => f_name f ++ B " " ++ TypeShort tpkg (f_type f) ++ B " `" ++ t ++ B "`"
  end.
(** errors.go:210-212 *)
Definition IsDefaultDirective (f : fieldInfo) : bool :=
  bytes_eqb (f_name f) (B "_") && bytes_eqb (f_type f) (B "github.com/frk/gosql.Default").

(** errors.go:72-87. [Err] is not used by any template. *)
Record dbError := MkErr {
  e_code : code;
  e_db : dbInfo;
  e_target : targetInfo;
  e_field : fieldInfo;
  e_wb : fieldInfo;
  e_relid : RelIdent; e_rel : option relation;
  e_colid : ColIdent; e_col : option column;
  e_rhsid : ColIdent; e_rhs : option column;
  e_expr : bytes; e_exprtype : option bytes;
  e_pred : predicate;
  e_quant : quantifier;
  e_func : bytes }.

(** errors.go:223-228 and 235-240 *)
Definition IdRef (i : ColIdent) : bytes := match c_qual i with [] => c_col i | q => q ++ B "." ++ c_col i end.
Definition RelRef (i : RelIdent) : bytes := match r_qual i with [] => r_name i | q => q ++ B "." ++ r_name i end.

Definition pred_eq_dec (p q : predicate) : {p = q} + {p <> q}.
Proof. decide equality. Defined.
(** analysis/enums.go:312-352 and 370 *)
Fixpoint pred_name (l : list (bytes * predicate)) (p : predicate) : bytes :=
  match l with
  | [] => []
  | (s, q) :: r => if pred_eq_dec p q then s else pred_name r p
  end.
Definition PredicateString (p : predicate) : bytes := pred_name predicates p.
(** analysis/enums.go:238-244 *)
Definition QuantifierString (q : quantifier) : bytes :=
  match q with QNone => [] | QuantAny => B "any" | QuantSome => B "some" | QuantAll => B "all" end.

(** errors.go:114-119 *)
Definition PredQuant (e : dbError) : bytes := PredicateString (e_pred e) ++ QuantifierString (e_quant e).
(** errors.go:101-112 *)
Definition PredString (e : dbError) : bytes :=
  if p_unary (e_pred e) then IdRef (e_colid e) ++ B " " ++ PredQuant e
  else match c_col (e_rhsid e), e_expr e with
       | _ :: _, _ => IdRef (e_colid e) ++ B " " ++ PredQuant e ++ B " " ++ IdRef (e_rhsid e)
       | [], (_ :: _) as x => IdRef (e_colid e) ++ B " " ++ PredQuant e ++ B " " ++ x
       | [], [] => []
       end.
(** errors.go:121-126 *)
Definition WBFieldDefinition (e : dbError) : bytes :=
  let d := Definition_ (tg_pkg (e_target e)) (e_field e) in
  match f_tag (e_wb e) with
  | [] => f_name (e_wb e) ++ B " struct { ... " ++ d ++ B " ... }"
  | t => f_name (e_wb e) ++ B " struct { ... " ++ d ++ B " ... } `" ++ t ++ B "`"
  end.

(** ** Templates *)

Inductive arg := Lit (s : bytes) | Path (p : list attr).
Inductive tmpl :=
| TEnd
| TText (s : bytes) (k : tmpl)
| TCall (c : color) (l : list arg) (k : tmpl)
| TIf (neg : bool) (p : list attr) (t e : tmpl) (k : tmpl).

(** The values that a path can reach. *)
Inductive val :=
| VStr (s : bytes) | VBool (b : bool) | VNum (n : N)
| VErr (e : dbError) | VDB (d : dbInfo) | VTarget (t : targetInfo) | VFile (f : fileInfo)
| VField (tpkg : bytes) (f : fieldInfo)
| VRel (i : RelIdent) (r : option relation) | VRelId (i : RelIdent)
| VCol (i : ColIdent) (c : option column) | VColId (i : ColIdent)
| VType (t : option bytes) | VExpr (x : bytes) (t : option bytes)
| VPred (p : predicate) | VQuant (q : quantifier).

(** [evalField] of text/template: a method or field of a value; [None] is an
    error. The data is the value [*e], not the pointer, so that the method
    [Error] of the pointer is not found, and there is no field of that name.
    A field of an embedded pointer that is nil is an error too; [GetNameFmt]
    (types.go:385-390) accepts nil. *)
Definition get (v : val) (a : attr) : option val :=
  match v, a with
  | VErr e, ADB => Some (VDB (e_db e))
  | VErr e, ATarget => Some (VTarget (e_target e))
  | VErr e, AField => Some (VField (tg_pkg (e_target e)) (e_field e))
  | VErr e, ARel => Some (VRel (e_relid e) (e_rel e))
  | VErr e, ACol => Some (VCol (e_colid e) (e_col e))
  | VErr e, ARHSCol => Some (VCol (e_rhsid e) (e_rhs e))
  | VErr e, ARHSLit => Some (VExpr (e_expr e) (e_exprtype e))
  | VErr e, APred => Some (VPred (e_pred e))
  | VErr e, AQuant => Some (VQuant (e_quant e))
  | VErr e, AFuncName => Some (VStr (e_func e))
  | VErr e, APredString => Some (VStr (PredString e))
  | VErr e, AWBFieldDefinition => Some (VStr (WBFieldDefinition e))
  | VDB d, AName => Some (VStr (d_name d))
  | VDB d, ADSN => Some (VStr (d_dsn d))
  | VDB d, ASearchPath => Some (VStr (d_path d))
  | VTarget t, AName => Some (VStr (tg_name t))
  | VTarget t, AFile => Some (VFile (tg_file t))
  | VFile f, ANameAndLine => Some (VStr (NameAndLine f))
  | VField _ f, AName => Some (VStr (f_name f))
  | VField _ f, AType => Some (VStr (f_type f))
  | VField _ f, AFile => Some (VFile (f_file f))
  | VField _ f, ASqlTag => Some (VStr (f_sql f))
  | VField _ f, ASqlTagFirst => Some (VStr (f_sql1 f))
  | VField p f, ADefinition => Some (VStr (Definition_ p f))
  | VField p f, ATypeShort => Some (VStr (TypeShort p (f_type f)))
  | VField _ f, AIsDefaultDirective => Some (VBool (IsDefaultDirective f))
  | VRel i _, AId => Some (VRelId i)
  | VRel i _, ARef => Some (VStr (RelRef i))
  | VRel _ (Some r), AName => Some (VStr (rl_name r))
  | VRel _ (Some r), ASchema => Some (VStr (rl_schema r))
  | VRelId i, AName => Some (VStr (r_name i))
  | VRelId i, AQualifier => Some (VStr (r_qual i))
  | VCol i _, AId => Some (VColId i)
  | VCol i _, AIdRef => Some (VStr (IdRef i))
  | VCol _ (Some c), AName => Some (VStr (cl_name c))
  | VCol _ (Some c), AType => Some (VType (cl_type c))
  | VCol _ (Some c), ATypeOID => Some (VNum (cl_oid c))
  | VColId i, AName => Some (VStr (c_col i))
  | VColId i, AQualifier => Some (VStr (c_qual i))
  | VType t, AGetNameFmt => Some (VStr (match t with Some n => n | None => B "<nil>" end))
  | VExpr x _, AExpr => Some (VStr x)
  | VExpr _ t, AType => Some (VType t)
  | VPred p, AString => Some (VStr (PredicateString p))
  | VQuant q, AString => Some (VStr (QuantifierString q))
  | _, _ => None
  end.
Fixpoint path (v : val) (p : list attr) : option val :=
  match p with
  | [] => Some v
  | a :: r => match get v a with Some w => path w r | None => None end
  end.

(** An argument of a colour function has to be a string. *)
Definition arg_val (e : dbError) (a : arg) : option bytes :=
  match a with
  | Lit s => Some s
  | Path p => match path (VErr e) p with Some (VStr s) => Some s | _ => None end
  end.
Fixpoint arg_vals (e : dbError) (l : list arg) : option (list bytes) :=
  match l with
  | [] => Some []
  | a :: r => match arg_val e a, arg_vals e r with Some s, Some t => Some (s :: t) | _, _ => None end
  end.
(** The truth of a condition: strings that are not empty, and true. *)
Definition truth (v : val) : option bool :=
  match v with
  | VStr s => Some (match s with [] => false | _ => true end)
  | VBool b => Some b
  | _ => None
  end.
Fixpoint exec (e : dbError) (t : tmpl) : option bytes :=
  match t with
  | TEnd => Some []
  | TText s k => match exec e k with Some r => Some (s ++ r) | None => None end
  | TCall c l k =>
      match arg_vals e l, exec e k with
      | Some a, Some r => Some (getcolor c a ++ r)
      | _, _ => None
      end
  | TIf neg p t f k =>
      match path (VErr e) p with
      | Some v =>
          match truth v with
          | Some b =>
              match exec e (if xorb neg b then t else f), exec e k with
              | Some a, Some r => Some (a ++ r)
              | _, _ => None
              end
          | None => None
          end
      | None => None
      end
  end.

(** errors.go:269-272 *)
Definition external_error_issue (k : tmpl) : tmpl :=
  (TText (B "
    - original error message: """) 
  (TCall CWb [Path [AError; AError]] 
  (TText (B """
    - please consider opening an issue if the error persists.
") k))).

(** errors.go:274-278 *)
Definition connection_info (k : tmpl) : tmpl :=
  (TText (B "
    - database: ") 
  (TCall CW [Path [ADB; AName]] 
  (TText (B " (dsn """) 
  (TCall CW [Path [ADB; ADSN]] 
  (TText (B """)
    - relation: ") 
  (TCall CW [Path [ARel; AName]] 
  (TText (B " (schema """) 
  (TCall CW [Path [ARel; ASchema]] 
  (TText (B """)
    - target type: ") 
  (TCall CW [Path [ATarget; AName]] 
  (TText (B " (source """) 
  (TCall CW [Path [ATarget; AFile; ANameAndLine]] 
  (TText (B """)
") k))))))))))))).

(** errors.go:284-288 *)
Definition tmpl_DatabaseOpen : tmpl :=
  (TText (B "ERROR: ") 
  (TCall CY [Lit (B "Failed to initialize database connection.")] 
  (TText (B "
    An error occurred during the initialization of the database connection for the provided DSN """) 
  (TCall CR [Path [ADB; ADSN]] 
  (TText (B """.
    - original error message: """) 
  (TCall CWb [Path [AError; AError]] 
  (TText (B """
") TEnd))))))).

(** errors.go:290-294 *)
Definition tmpl_DatabaseInit : tmpl :=
  (TText (B "ERROR: ") 
  (TCall CY [Lit (B "Failed to initialize database connection.")] 
  (TText (B "
    An error occurred during the initialization of the database connection for the provided DSN """) 
  (TCall CR [Path [ADB; ADSN]] 
  (TText (B """.") 
  (external_error_issue TEnd)))))).

(** errors.go:300-304 *)
Definition tmpl_CatalogTypeGet : tmpl :=
  (TCall CY [Lit (B "Failed to retrieve pg_type information.")] 
  (TText (B "
    An error occurred during the retrieval of the ") 
  (TCall CWi [Lit (B "pg_type")] 
  (TText (B " information from the """) 
  (TCall CR [Path [ADB; AName]] 
  (TText (B """ database's catalog.") 
  (external_error_issue 
  (TText (B "
") TEnd)))))))).

(** errors.go:306-310 *)
Definition tmpl_CatalogTypeScan : tmpl :=
  (TCall CY [Lit (B "Failed to scan pg_type information.")] 
  (TText (B "
    An error occurred during the scanning of the ") 
  (TCall CWi [Lit (B "pg_type")] 
  (TText (B " information from the """) 
  (TCall CR [Path [ADB; AName]] 
  (TText (B """ database's catalog.") 
  (external_error_issue 
  (TText (B "
") TEnd)))))))).

(** errors.go:312-316 *)
Definition tmpl_CatalogOperatorGet : tmpl :=
  (TCall CY [Lit (B "Failed to retrieve pg_operator information.")] 
  (TText (B "
    An error occurred during the retrieval of the ") 
  (TCall CWi [Lit (B "pg_operator")] 
  (TText (B " information from the """) 
  (TCall CR [Path [ADB; AName]] 
  (TText (B """ database's catalog.") 
  (external_error_issue 
  (TText (B "
") TEnd)))))))).

(** errors.go:318-322 *)
Definition tmpl_CatalogOperatorScan : tmpl :=
  (TCall CY [Lit (B "Failed to scan pg_operator information.")] 
  (TText (B "
    An error occurred during the scanning of the ") 
  (TCall CWi [Lit (B "pg_operator")] 
  (TText (B " information from the """) 
  (TCall CR [Path [ADB; AName]] 
  (TText (B """ database's catalog.") 
  (external_error_issue 
  (TText (B "
") TEnd)))))))).

(** errors.go:324-328 *)
Definition tmpl_CatalogCastGet : tmpl :=
  (TCall CY [Lit (B "Failed to retrieve pg_cast information.")] 
  (TText (B "
    An error occurred during the retrieval of the ") 
  (TCall CWi [Lit (B "pg_cast")] 
  (TText (B " information from the """) 
  (TCall CR [Path [ADB; AName]] 
  (TText (B """ database's catalog.") 
  (external_error_issue 
  (TText (B "
") TEnd)))))))).

(** errors.go:330-334 *)
Definition tmpl_CatalogCastScan : tmpl :=
  (TCall CY [Lit (B "Failed to scan pg_cast information.")] 
  (TText (B "
    An error occurred during the scanning of the ") 
  (TCall CWi [Lit (B "pg_cast")] 
  (TText (B " information from the """) 
  (TCall CR [Path [ADB; AName]] 
  (TText (B """ database's catalog.") 
  (external_error_issue 
  (TText (B "
") TEnd)))))))).

(** errors.go:336-340 *)
Definition tmpl_CatalogProcedureGet : tmpl :=
  (TCall CY [Lit (B "Failed to retrieve pg_proc information.")] 
  (TText (B "
    An error occurred during the retrieval of the ") 
  (TCall CWi [Lit (B "pg_proc")] 
  (TText (B " information from the """) 
  (TCall CR [Path [ADB; AName]] 
  (TText (B """ database's catalog.") 
  (external_error_issue 
  (TText (B "
") TEnd)))))))).

(** errors.go:342-346 *)
Definition tmpl_CatalogProcedureScan : tmpl :=
  (TCall CY [Lit (B "Failed to scan pg_proc information.")] 
  (TText (B "
    An error occurred during the scanning of the ") 
  (TCall CWi [Lit (B "pg_proc")] 
  (TText (B " information from the """) 
  (TCall CR [Path [ADB; AName]] 
  (TText (B """ database's catalog.") 
  (external_error_issue 
  (TText (B "
") TEnd)))))))).

(** errors.go:352-360 *)
Definition tmpl_RelationUnknown : tmpl :=
  (TCall CWb [Path [AField; AFile; ANameAndLine]] 
  (TText (B ": ") 
  (TCall CY [Lit (B "Unknown relation.")] 
  (TText (B "
    The relation """) 
  (TCall CR [Path [ARel; ARef]] 
  (TText (B """ referenced in """) 
  (TCall CR [Path [AField; ADefinition]] 
  (TText (B """ does not exist.
    - database: ") 
  (TCall CW [Path [ADB; AName]] 
  (TText (B " (dsn """) 
  (TCall CW [Path [ADB; ADSN]] 
  (TText (B """)
    ") 
  (TIf true [ARel; AId; AQualifier]
    (
      (TText (B "- search path: ") 
      (TCall CWb [Path [ADB; ASearchPath]] 
      (TText (B "
    ") TEnd))))
    (TEnd) 
  (TText (B "- target type: ") 
  (TCall CW [Path [ATarget; AName]] 
  (TText (B " (source """) 
  (TCall CW [Path [ATarget; AFile; ANameAndLine]] 
  (TText (B """)
") TEnd)))))))))))))))))).

(** errors.go:362-366 *)
Definition tmpl_RelationScan : tmpl :=
  (TCall CWb [Path [AField; AFile; ANameAndLine]] 
  (TText (B ": ") 
  (TCall CY [Lit (B "Failed to scan relation.")] 
  (TText (B "
    An error occurred during the scanning of the """) 
  (TCall CR [Path [ARel; ARef]] 
  (TText (B """ relation's information.") 
  (external_error_issue 
  (TText (B "
") TEnd)))))))).

(** errors.go:368-372 *)
Definition tmpl_RelationColumnGet : tmpl :=
  (TCall CWb [Path [AField; AFile; ANameAndLine]] 
  (TText (B ": ") 
  (TCall CY [Lit (B "Failed to retrieve relation columns.")] 
  (TText (B "
    An error occurred during the retrieval of the """) 
  (TCall CR [Path [ARel; ARef]] 
  (TText (B """ relation's column information.") 
  (external_error_issue 
  (TText (B "
") TEnd)))))))).

(** errors.go:374-378 *)
Definition tmpl_RelationColumnScan : tmpl :=
  (TCall CWb [Path [AField; AFile; ANameAndLine]] 
  (TText (B ": ") 
  (TCall CY [Lit (B "Failed to scan relation columns.")] 
  (TText (B "
    An error occurred during the scanning of the """) 
  (TCall CR [Path [ARel; ARef]] 
  (TText (B """ relation's column information.") 
  (external_error_issue 
  (TText (B "
") TEnd)))))))).

(** errors.go:380-385 *)
Definition tmpl_RelationColumnUnknownType : tmpl :=
  (TCall CWb [Path [AField; AFile; ANameAndLine]] 
  (TText (B ": ") 
  (TCall CY [Lit (B "Unknown column type.")] 
  (TText (B "
    ") 
  (TCall CW [Lit (B "github.com/frk/gosql")] 
  (TText (B " is unable to retrieve the type information for column """) 
  (TCall CR [Path [ACol; AName]] 
  (TText (B """ in relation """) 
  (TCall CR [Path [ARel; ARef]] 
  (TText (B """.
    The column type's OID: ") 
  (TCall CR [Path [ACol; ATypeOID]] 
  (TText (B "
    Please consider opening an issue if the error persists.
") TEnd)))))))))))).

(** errors.go:387-391 *)
Definition tmpl_RelationConstraintGet : tmpl :=
  (TCall CWb [Path [AField; AFile; ANameAndLine]] 
  (TText (B ": ") 
  (TCall CY [Lit (B "Failed to retrieve relation constraints.")] 
  (TText (B "
    An error occurred during the retrieval of the """) 
  (TCall CR [Path [ARel; ARef]] 
  (TText (B """ relation's constraint information.") 
  (external_error_issue 
  (TText (B "
") TEnd)))))))).

(** errors.go:393-397 *)
Definition tmpl_RelationConstraintScan : tmpl :=
  (TCall CWb [Path [AField; AFile; ANameAndLine]] 
  (TText (B ": ") 
  (TCall CY [Lit (B "Failed to scan relation constraints.")] 
  (TText (B "
    An error occurred during the scanning of the """) 
  (TCall CR [Path [ARel; ARef]] 
  (TText (B """ relation's constraint information.") 
  (external_error_issue 
  (TText (B "
") TEnd)))))))).

(** errors.go:399-403 *)
Definition tmpl_RelationIndexGet : tmpl :=
  (TCall CWb [Path [AField; AFile; ANameAndLine]] 
  (TText (B ": ") 
  (TCall CY [Lit (B "Failed to retrieve relation indexes.")] 
  (TText (B "
    An error occurred during the retrieval of the """) 
  (TCall CR [Path [ARel; ARef]] 
  (TText (B """ relation's index information.") 
  (external_error_issue 
  (TText (B "
") TEnd)))))))).

(** errors.go:405-409 *)
Definition tmpl_RelationIndexScan : tmpl :=
  (TCall CWb [Path [AField; AFile; ANameAndLine]] 
  (TText (B ": ") 
  (TCall CY [Lit (B "Failed to scan relation indexes.")] 
  (TText (B "
    An error occurred during the scanning of the """) 
  (TCall CR [Path [ARel; ARef]] 
  (TText (B """ relation's index information.") 
  (external_error_issue 
  (TText (B "
") TEnd)))))))).

(** errors.go:415-419 *)
Definition tmpl_ColumnUnknown : tmpl :=
  (TCall CWb [Path [AField; AFile; ANameAndLine]] 
  (TText (B ": ") 
  (TCall CY [Lit (B "Column not found.")] 
  (TText (B "
    The column """) 
  (TCall CR [Path [ACol; AIdRef]] 
  (TText (B """ referenced in """) 
  (TCall CR [Path [AField; ADefinition]] 
  (TText (B """ does not exist in the relation """) 
  (TCall CR [Path [ARel; AName]] 
  (TText (B """.") 
  (connection_info TEnd))))))))))).

(** errors.go:421-425 *)
Definition tmpl_ColumnFieldTypeWrite : tmpl :=
  (TCall CWb [Path [AField; AFile; ANameAndLine]] 
  (TText (B ": ") 
  (TCall CY [Lit (B "Column not compatible with field.")] 
  (TText (B "
    The """) 
  (TCall CR [Path [ACol; AName]] 
  (TText (B """ column's type """) 
  (TCall CR [Path [ACol; AType; AGetNameFmt]] 
  (TText (B """ is not compatible for ") 
  (TCall Cwu [Lit (B "writing")] 
  (TText (B " with the """) 
  (TCall CR [Path [AField; AName]] 
  (TText (B """ field's type """) 
  (TCall CR [Path [AField; AType]] 
  (TText (B """.
") TEnd)))))))))))))).

(** errors.go:427-431 *)
Definition tmpl_ColumnFieldTypeRead : tmpl :=
  (TCall CWb [Path [AField; AFile; ANameAndLine]] 
  (TText (B ": ") 
  (TCall CY [Lit (B "Column not compatible with field.")] 
  (TText (B "
    The """) 
  (TCall CR [Path [ACol; AName]] 
  (TText (B """ column's type """) 
  (TCall CR [Path [ACol; AType; AGetNameFmt]] 
  (TText (B """ is not compatible for ") 
  (TCall Cwu [Lit (B "reading")] 
  (TText (B " with the """) 
  (TCall CR [Path [AField; AName]] 
  (TText (B """ field's type """) 
  (TCall CR [Path [AField; AType]] 
  (TText (B """.
") TEnd)))))))))))))).

(** errors.go:433-437 *)
Definition tmpl_ColumnTextSearchType : tmpl :=
  (TCall CWb [Path [AField; AFile; ANameAndLine]] 
  (TText (B ": ") 
  (TCall CY [Lit (B "Bad column type for text search.")] 
  (TText (B "
    The column """) 
  (TCall CR [Path [ACol; AIdRef]] 
  (TText (B """ referenced in """) 
  (TCall CR [Path [AField; ADefinition]] 
  (TText (B """ is of type """) 
  (TCall CR [Path [ACol; AType; AGetNameFmt]] 
  (TText (B """.
    - a column referenced by a ") 
  (TCall CW [Path [AField; ATypeShort]] 
  (TText (B " directive MUST be of type ") 
  (TCall CCi [Lit (B "tsvector")] 
  (TText (B " to support ") 
  (TCall Cwu [Lit (B "full text search")] 
  (TText (B ".
") TEnd)))))))))))))))).

(** errors.go:439-447 *)
Definition tmpl_ColumnDefaultUnset : tmpl :=
  (TCall CWb [Path [AField; AFile; ANameAndLine]] 
  (TText (B ": ") 
  (TCall CY [Lit (B "Column DEFAULT not set.")] 
  (TText (B "
    The column """) 
  (TCall CR [Path [ACol; AIdRef]] 
  (TText (B """ referenced in """) 
  (TCall CR [Path [AField; ADefinition]] 
  (TText (B """ has no ") 
  (TCall CWb [Lit (B "DEFAULT")] 
  (TText (B " constraint.
    ") 
  (TIf false [AField; AIsDefaultDirective]
    (
      (TText (B "- a column referenced by a ") 
      (TCall CW [Path [AField; ATypeShort]] 
      (TText (B " directive MUST have a ") 
      (TCall CWb [Lit (B "DEFAULT")] 
      (TText (B " constraint.
    ") TEnd))))))
    (
      (TText (B "- a column referenced together with the """) 
      (TCall CW [Lit (B "default")] 
      (TText (B """ option in the tag MUST have a ") 
      (TCall CWb [Lit (B "DEFAULT")] 
      (TText (B " constraint.
    ") TEnd)))))) TEnd))))))))))).

(** errors.go:449-453 *)
Definition tmpl_ColumnQualifierUnknown : tmpl :=
  (TCall CWb [Path [AField; AFile; ANameAndLine]] 
  (TText (B ": ") 
  (TCall CY [Lit (B "Column qualifier relation not found.")] 
  (TText (B "
    The qualifier """) 
  (TCall CR [Path [ACol; AId; AQualifier]] 
  (TText (B """ matches no relation.
    - please consider opening an issue if the error persists.
") TEnd)))))).

(** errors.go:459-470 *)
Definition tmpl_PredicateOperandQuantifier : tmpl :=
  (TCall CWb [Path [AField; AFile; ANameAndLine]] 
  (TText (B ": ") 
  (TCall CY [Lit (B "Bad operand type in quantified predicate.")] 
  (TText (B "
    ") 
  (TIf false [ARHSCol; AId; AName]
    (
      (TText (B "The predicate """) 
      (TCall CR [Path [APredString]] 
      (TText (B """ used in """) 
      (TCall CR [Path [AField; ADefinition]] 
      (TText (B """ is not valid.
    - the column """) 
      (TCall CR [Path [ARHSCol; AIdRef]] 
      (TText (B """ on the right side is of type ") 
      (TCall CWi [Path [ARHSCol; AType; AGetNameFmt]] 
      (TText (B ".
    - the quantifier ") 
      (TCall CR [Path [AQuant; AString]] 
      (TText (B " requires an ") 
      (TCall CWi [Lit (B "array")] 
      (TText (B " on the right side.
    ") TEnd))))))))))))))
    (
      (TText (B "The predicate """) 
      (TCall CR [Path [APredString]] 
      (TText (B """ used in """) 
      (TCall CR [Path [AField; ADefinition]] 
      (TText (B """ is not valid.
    - the expression """) 
      (TCall CR [Path [ARHSLit; AExpr]] 
      (TText (B """ on the right side is of type ") 
      (TCall CWi [Path [ARHSLit; AType; AGetNameFmt]] 
      (TText (B ".
    - the quantifier ") 
      (TCall CR [Path [AQuant; AString]] 
      (TText (B " requires an ") 
      (TCall CWi [Lit (B "array")] 
      (TText (B " on the right side.
    ") TEnd)))))))))))))) TEnd))))).

(** errors.go:472-483 *)
Definition tmpl_PredicateOperandArray : tmpl :=
  (TCall CWb [Path [AField; AFile; ANameAndLine]] 
  (TText (B ": ") 
  (TCall CY [Lit (B "Bad operand type in array predicate.")] 
  (TText (B "
    ") 
  (TIf false [ARHSCol; AId; AName]
    (
      (TText (B "The predicate """) 
      (TCall CR [Path [APredString]] 
      (TText (B """ used in """) 
      (TCall CR [Path [AField; ADefinition]] 
      (TText (B """ is not valid.
    - the column """) 
      (TCall CR [Path [ARHSCol; AIdRef]] 
      (TText (B """ on the right side is of type ") 
      (TCall CWi [Path [ARHSCol; AType; AGetNameFmt]] 
      (TText (B ".
    - the operator ") 
      (TCall CR [Path [APred; AString]] 
      (TText (B " requires an ") 
      (TCall CWi [Lit (B "array")] 
      (TText (B " on the right side.
    ") TEnd))))))))))))))
    (
      (TText (B "The predicate """) 
      (TCall CR [Path [APredString]] 
      (TText (B """ used in """) 
      (TCall CR [Path [AField; ADefinition]] 
      (TText (B """ is not valid.
    - the expression """) 
      (TCall CR [Path [ARHSLit; AExpr]] 
      (TText (B """ on the right side is of type ") 
      (TCall CWi [Path [ARHSLit; AType; AGetNameFmt]] 
      (TText (B ".
    - the operator ") 
      (TCall CR [Path [APred; AString]] 
      (TText (B " requires an ") 
      (TCall CWi [Lit (B "array")] 
      (TText (B " on the right side.
    ") TEnd)))))))))))))) TEnd))))).

(** errors.go:485-490 *)
Definition tmpl_PredicateOperandBool : tmpl :=
  (TCall CWb [Path [AField; AFile; ANameAndLine]] 
  (TText (B ": ") 
  (TCall CY [Lit (B "Bad operand type in boolean predicate.")] 
  (TText (B "
    The predicate """) 
  (TCall CR [Path [APredString]] 
  (TText (B """ used in """) 
  (TCall CR [Path [AField; ADefinition]] 
  (TText (B """ is not valid.
    - the column """) 
  (TCall CR [Path [ACol; AIdRef]] 
  (TText (B """ is of type ") 
  (TCall CWi [Path [ACol; AType; AGetNameFmt]] 
  (TText (B ".
    - the operator ") 
  (TCall CR [Path [APred; AString]] 
  (TText (B " requires a ") 
  (TCall CWi [Lit (B "boolean")] 
  (TText (B " operand.
") TEnd)))))))))))))))).

(** errors.go:492-497 *)
Definition tmpl_PredicateOperandNull : tmpl :=
  (TCall CWb [Path [AField; AFile; ANameAndLine]] 
  (TText (B ": ") 
  (TCall CY [Lit (B "Bad column operand in NULL predicate.")] 
  (TText (B "
    The predicate """) 
  (TCall CR [Path [APredString]] 
  (TText (B """ used in """) 
  (TCall CR [Path [AField; ADefinition]] 
  (TText (B """ is not valid.
    - the column """) 
  (TCall CR [Path [ACol; AIdRef]] 
  (TText (B """ has the ") 
  (TCall CWi [Lit (B "NOT NULL")] 
  (TText (B " constraint.
    - the operator ") 
  (TCall CR [Path [APred; AString]] 
  (TText (B " requires a column without the ") 
  (TCall CWi [Lit (B "NOT NULL")] 
  (TText (B " constraint.
") TEnd)))))))))))))))).

(** errors.go:499-510 *)
Definition tmpl_ColumnComparison : tmpl :=
  (TCall CWb [Path [AField; AFile; ANameAndLine]] 
  (TText (B ": ") 
  (TCall CY [Lit (B "Bad column comparison.")] 
  (TText (B "
    ") 
  (TIf false [ARHSCol; AId; AName]
    (
      (TText (B "The operator """) 
      (TCall CR [Path [ACol; AType; AGetNameFmt]; Path [APred; AString]; Path [ARHSCol; AType; AGetNameFmt]] 
      (TText (B """ referenced in """) 
      (TCall CR [Path [AField; ADefinition]] 
      (TText (B """ does not exist.
    - column """) 
      (TCall CR [Path [ACol; AIdRef]] 
      (TText (B """ is of type """) 
      (TCall CR [Path [ACol; AType; AGetNameFmt]] 
      (TText (B """.
    - column """) 
      (TCall CR [Path [ARHSCol; AIdRef]] 
      (TText (B """ is of type """) 
      (TCall CR [Path [ARHSCol; AType; AGetNameFmt]] 
      (TText (B """.
    ") TEnd))))))))))))))
    (
      (TIf false [ARHSLit; AExpr]
        (
          (TText (B "The operator """) 
          (TCall CR [Path [ACol; AType; AGetNameFmt]; Path [APred; AString]; Path [ARHSLit; AType; AGetNameFmt]] 
          (TText (B """ referenced in """) 
          (TCall CR [Path [AField; ADefinition]] 
          (TText (B """ does not exist.
    - column """) 
          (TCall CR [Path [ACol; AIdRef]] 
          (TText (B """ is of type """) 
          (TCall CR [Path [ACol; AType; AGetNameFmt]] 
          (TText (B """.
    - expression """) 
          (TCall CR [Path [ARHSLit; AExpr]] 
          (TText (B """ is of type """) 
          (TCall CR [Path [ARHSLit; AType; AGetNameFmt]] 
          (TText (B """.
    ") TEnd))))))))))))))
        (TEnd) TEnd)) TEnd))))).

(** errors.go:512-517 *)
Definition tmpl_ColumnFieldComparison : tmpl :=
  (TCall CWb [Path [AField; AFile; ANameAndLine]] 
  (TText (B ": ") 
  (TCall CY [Lit (B "Bad column field comparison.")] 
  (TText (B "
    The operator """) 
  (TCall CR [Path [AField; ATypeShort]; Path [APred; AString]; Path [ACol; AType; AGetNameFmt]] 
  (TText (B """ referenced in """) 
  (TCall CR [Path [AField; ADefinition]] 
  (TText (B """ does not exist.
    - field """) 
  (TCall CR [Path [AField; AName]] 
  (TText (B """ is of type """) 
  (TCall CR [Path [AField; ATypeShort]] 
  (TText (B """.
    - column """) 
  (TCall CR [Path [ACol; AIdRef]] 
  (TText (B """ is of type """) 
  (TCall CR [Path [ACol; AType; AGetNameFmt]] 
  (TText (B """.
") TEnd)))))))))))))))).

(** errors.go:519-522 *)
Definition tmpl_PredicateLiteralExpr : tmpl :=
  (TCall CWb [Path [AField; AFile; ANameAndLine]] 
  (TText (B ": ") 
  (TCall CY [Lit (B "Bad literal expression.")] 
  (TText (B "
    The literal expression """) 
  (TCall CR [Path [ARHSLit; AExpr]] 
  (TText (B """ used in """) 
  (TCall CR [Path [AField; ADefinition]] 
  (TText (B """ is not valid.
") TEnd)))))))).

(** errors.go:528-533 *)
Definition tmpl_BetweenColumnComparison : tmpl :=
  (TCall CWb [Path [AField; AFile; ANameAndLine]] 
  (TText (B ": ") 
  (TCall CY [Lit (B "Bad column between comparison.")] 
  (TText (B "
    The operator """) 
  (TCall CR [Path [ACol; AType; AGetNameFmt]; Path [APred; AString]; Path [ARHSCol; AType; AGetNameFmt]] 
  (TText (B """ represented by """) 
  (TCall CR [Path [AWBFieldDefinition]] 
  (TText (B """ does not exist.
    - column """) 
  (TCall CR [Path [ACol; AIdRef]] 
  (TText (B """ is of type """) 
  (TCall CR [Path [ACol; AType; AGetNameFmt]] 
  (TText (B """.
    - column """) 
  (TCall CR [Path [ARHSCol; AIdRef]] 
  (TText (B """ is of type """) 
  (TCall CR [Path [ARHSCol; AType; AGetNameFmt]] 
  (TText (B """.
") TEnd)))))))))))))))).

(** errors.go:535-540 *)
Definition tmpl_BetweenFieldComparison : tmpl :=
  (TCall CWb [Path [AField; AFile; ANameAndLine]] 
  (TText (B ": ") 
  (TCall CY [Lit (B "Bad column field between comparison.")] 
  (TText (B "
    The operator """) 
  (TCall CR [Path [AField; ATypeShort]; Path [APred; AString]; Path [ACol; AType; AGetNameFmt]] 
  (TText (B """ represented by """) 
  (TCall CR [Path [AWBFieldDefinition]] 
  (TText (B """ does not exist.
    - column """) 
  (TCall CR [Path [ACol; AIdRef]] 
  (TText (B """ is of type """) 
  (TCall CR [Path [ACol; AType; AGetNameFmt]] 
  (TText (B """.
    - field """) 
  (TCall CR [Path [AField; AName]] 
  (TText (B """ is of type """) 
  (TCall CR [Path [AField; ATypeShort]] 
  (TText (B """.
") TEnd)))))))))))))))).

(** errors.go:546-550 *)
Definition tmpl_ProcedureUnknown : tmpl :=
  (TCall CWb [Path [AField; AFile; ANameAndLine]] 
  (TText (B ": ") 
  (TCall CY [Lit (B "Procedure not found.")] 
  (TText (B "
    No function with the name """) 
  (TCall CR [Path [AFuncName]] 
  (TText (B """ and argument type """) 
  (TCall CR [Path [ACol; AType; AGetNameFmt]] 
  (TText (B """ as referenced in """) 
  (TCall CR [Path [AField; ADefinition]] 
  (TText (B """
    exists in the database """) 
  (TCall CW [Path [ADB; AName]] 
  (TText (B """ (search_path: ") 
  (TCall CWb [Path [ADB; ASearchPath]] 
  (TText (B ").
") TEnd)))))))))))))).

(** errors.go:556-560 *)
Definition tmpl_OnConflictIndexUnknown : tmpl :=
  (TCall CWb [Path [AField; AFile; ANameAndLine]] 
  (TText (B ": ") 
  (TCall CY [Lit (B "Index not found.")] 
  (TText (B "
    The index """) 
  (TCall CR [Path [AField; ASqlTagFirst]] 
  (TText (B """ referenced by """) 
  (TCall CR [Path [AField; ADefinition]] 
  (TText (B """ does not exist.
    - directive """) 
  (TCall CW [Path [AField; ATypeShort]] 
  (TText (B """ requires an index present on the target relation """) 
  (TCall CW [Path [ARel; AId; AName]] 
  (TText (B """.
") TEnd)))))))))))).

(** errors.go:562-566 *)
Definition tmpl_OnConflictIndexNotUnique : tmpl :=
  (TCall CWb [Path [AField; AFile; ANameAndLine]] 
  (TText (B ": ") 
  (TCall CY [Lit (B "Index not unique.")] 
  (TText (B "
    The index """) 
  (TCall CR [Path [AField; ASqlTagFirst]] 
  (TText (B """ referenced by """) 
  (TCall CR [Path [AField; ADefinition]] 
  (TText (B """ is not unique / primary key.
    - directive """) 
  (TCall CW [Path [AField; ATypeShort]] 
  (TText (B """ requires an index of type: """) 
  (TCall CW [Lit (B "unique")] 
  (TText (B """, or """) 
  (TCall CW [Lit (B "primary key")] 
  (TText (B """.
") TEnd)))))))))))))).

(** errors.go:568-572 *)
Definition tmpl_OnConflictIndexColumnsUnknown : tmpl :=
  (TCall CWb [Path [AField; AFile; ANameAndLine]] 
  (TText (B ": ") 
  (TCall CY [Lit (B "Column index not found.")] 
  (TText (B "
    The columns """) 
  (TCall CR [Path [AField; ASqlTag]] 
  (TText (B """ referenced by """) 
  (TCall CR [Path [AField; ADefinition]] 
  (TText (B """ do not match an existing index.
    - directive """) 
  (TCall CW [Path [AField; ATypeShort]] 
  (TText (B """ requires the column(s) that match those of an index present on the target relation """) 
  (TCall CW [Path [ARel; AId; AName]] 
  (TText (B """.
") TEnd)))))))))))).

(** errors.go:574-578 *)
Definition tmpl_OnConflictIndexColumnsNotUnique : tmpl :=
  (TCall CWb [Path [AField; AFile; ANameAndLine]] 
  (TText (B ": ") 
  (TCall CY [Lit (B "Column index not unique.")] 
  (TText (B "
    The columns """) 
  (TCall CR [Path [AField; ASqlTag]] 
  (TText (B """ referenced by """) 
  (TCall CR [Path [AField; ADefinition]] 
  (TText (B """ match no unique / primary key index.
    - directive """) 
  (TCall CW [Path [AField; ATypeShort]] 
  (TText (B """ requires the column(s) that match those of an index of type: """) 
  (TCall CW [Lit (B "unique")] 
  (TText (B """, or """) 
  (TCall CW [Lit (B "primary key")] 
  (TText (B """.
") TEnd)))))))))))))).

(** errors.go:580-584 *)
Definition tmpl_OnConflictConstraintUnknown : tmpl :=
  (TCall CWb [Path [AField; AFile; ANameAndLine]] 
  (TText (B ": ") 
  (TCall CY [Lit (B "Constraint not found.")] 
  (TText (B "
    The constraint """) 
  (TCall CR [Path [AField; ASqlTagFirst]] 
  (TText (B """ referenced by """) 
  (TCall CR [Path [AField; ADefinition]] 
  (TText (B """ does not exist.
    - directive """) 
  (TCall CW [Path [AField; ATypeShort]] 
  (TText (B """ requires a constraint present on the target relation """) 
  (TCall CW [Path [ARel; AId; AName]] 
  (TText (B """.
") TEnd)))))))))))).

(** errors.go:586-590 *)
Definition tmpl_OnConflictConstraintNotUnique : tmpl :=
  (TCall CWb [Path [AField; AFile; ANameAndLine]] 
  (TText (B ": ") 
  (TCall CY [Lit (B "Constraint not unique.")] 
  (TText (B "
    The constraint """) 
  (TCall CR [Path [AField; ASqlTagFirst]] 
  (TText (B """ referenced by """) 
  (TCall CR [Path [AField; ADefinition]] 
  (TText (B """ is not unique / primary key.
    - directive """) 
  (TCall CW [Path [AField; ATypeShort]] 
  (TText (B """ requires a constraint of type: """) 
  (TCall CW [Lit (B "unique")] 
  (TText (B """, or """) 
  (TCall CW [Lit (B "primary key")] 
  (TText (B """.
") TEnd)))))))))))))).

Definition tmpl_of (c : code) : tmpl :=
  match c with
  | errDatabaseOpen => tmpl_DatabaseOpen
  | errDatabaseInit => tmpl_DatabaseInit
  | errCatalogTypeGet => tmpl_CatalogTypeGet
  | errCatalogTypeScan => tmpl_CatalogTypeScan
  | errCatalogOperatorGet => tmpl_CatalogOperatorGet
  | errCatalogOperatorScan => tmpl_CatalogOperatorScan
  | errCatalogCastGet => tmpl_CatalogCastGet
  | errCatalogCastScan => tmpl_CatalogCastScan
  | errCatalogProcedureGet => tmpl_CatalogProcedureGet
  | errCatalogProcedureScan => tmpl_CatalogProcedureScan
  | errRelationUnknown => tmpl_RelationUnknown
  | errRelationScan => tmpl_RelationScan
  | errRelationColumnGet => tmpl_RelationColumnGet
  | errRelationColumnScan => tmpl_RelationColumnScan
  | errRelationColumnUnknownType => tmpl_RelationColumnUnknownType
  | errRelationConstraintGet => tmpl_RelationConstraintGet
  | errRelationConstraintScan => tmpl_RelationConstraintScan
  | errRelationIndexGet => tmpl_RelationIndexGet
  | errRelationIndexScan => tmpl_RelationIndexScan
  | errColumnUnknown => tmpl_ColumnUnknown
  | errColumnDefaultUnset => tmpl_ColumnDefaultUnset
  | errColumnTextSearchType => tmpl_ColumnTextSearchType
  | errColumnFieldTypeWrite => tmpl_ColumnFieldTypeWrite
  | errColumnFieldTypeRead => tmpl_ColumnFieldTypeRead
  | errColumnFieldComparison => tmpl_ColumnFieldComparison
  | errColumnQualifierUnknown => tmpl_ColumnQualifierUnknown
  | errColumnComparison => tmpl_ColumnComparison
  | errPredicateOperandQuantifier => tmpl_PredicateOperandQuantifier
  | errPredicateOperandArray => tmpl_PredicateOperandArray
  | errPredicateOperandBool => tmpl_PredicateOperandBool
  | errPredicateOperandNull => tmpl_PredicateOperandNull
  | errPredicateLiteralExpr => tmpl_PredicateLiteralExpr
  | errBetweenColumnComparison => tmpl_BetweenColumnComparison
  | errBetweenFieldComparison => tmpl_BetweenFieldComparison
  | errProcedureUnknown => tmpl_ProcedureUnknown
  | errOnConflictIndexUnknown => tmpl_OnConflictIndexUnknown
  | errOnConflictIndexNotUnique => tmpl_OnConflictIndexNotUnique
  | errOnConflictIndexColumnsUnknown => tmpl_OnConflictIndexColumnsUnknown
  | errOnConflictIndexColumnsNotUnique => tmpl_OnConflictIndexColumnsNotUnique
  | errOnConflictConstraintUnknown => tmpl_OnConflictConstraintUnknown
  | errOnConflictConstraintNotUnique => tmpl_OnConflictConstraintNotUnique
  end.

(** errors.go:89-96: an error of the template is a panic. *)
Definition Error (e : dbError) : res bytes :=
  match exec e (tmpl_of (e_code e)) with Some s => Ok s | None => Panic end.

(** ** Making an error *)

(** postgres.go:95-117, without the state that [checker.dbError] does not use: a
    pointer to what the analysis made of a field is a number, and [k_fields] is
    [info.FieldMap]. *)
Record ck := MkCk {
  k_db : dbInfo;
  k_target : targetInfo;
  k_rel : relation;
  k_map : list (bytes * relation);
  k_fields : nat -> option fieldInfo;
  k_wb : option nat }.

(** postgres.go:126-139 *)
Definition rel_of (c : ck) (e : dbError) : option relation :=
  let r := match e_rel e, e_col e, c_col (e_colid e) with
           | Some r, _, _ => Some r
           | None, Some col, _ => cl_rel col
           | None, None, _ :: _ => lookup (c_qual (e_colid e)) (k_map c)
           | None, None, [] => None
           end in
  match r, r_name (e_relid e) with
  | None, (_ :: _) as n => lookup n (k_map c)
  | _, _ => r
  end.
(** postgres.go:137-139: the identifier is taken from the relation found first. *)
Definition relid_of (c : ck) (e : dbError) : RelIdent :=
  match r_name (e_relid e), rel_of c e with
  | [], Some r => MkRel (rl_name r) [] (rl_schema r)
  | _, _ => e_relid e
  end.
(** postgres.go:115-166 *)
Definition fill (c : ck) (e : dbError) (ptr : nat) : dbError :=
  MkErr (e_code e) (k_db c) (k_target c)
    (match k_fields c ptr with Some f => f | None => e_field e end)
    (match k_wb c with
     | Some w => match k_fields c w with Some f => f | None => e_wb e end
     | None => e_wb e
     end)
    (relid_of c e) (rel_of c e) (e_colid e) (e_col e) (e_rhsid e) (e_rhs e) (e_expr e) (e_exprtype e)
    (e_pred e) (e_quant e) (e_func e).

(** postgres.go:1531-1553: whether a column is found, and the code if it is not. *)
Definition has_col (r : relation) (n : bytes) : bool := existsb (bytes_eqb n) (rl_cols r).
Definition find_code (c : ck) (id : ColIdent) : option code :=
  match lookup (c_qual id) (k_map c) with
  | Some r => if has_col r (c_col id) then None else Some errColumnUnknown
  | None => Some errColumnQualifierUnknown
  end.

(** The checks that end in an error, by the contents that they give it. The
    conditions under which they are reached, apart from a missing column, are
    those of [Check]. *)
Inductive bad_col := BadSearch | BadDefault | BadRead | BadWrite.
Inductive bad_cmp := BadCompare | BadArray | BadQuantifier.
Inductive bad_field := FieldCompare | FieldArray | FieldQuantifier | FieldProcedure.
Inductive bad_conflict := NoIndex | IndexNotUnique | NoColumns | ColumnsNotUnique | NoConstraint | ConstraintNotUnique.
Inductive site :=
| SFind (id : ColIdent)
| STarget (id : ColIdent)
| SJoin (rid : RelIdent) (r : relation) (id : ColIdent)
| SColumn (k : bad_col) (id : ColIdent) (col : column)
| SFilter (col : column)
| SBool (id : ColIdent) (col : column) (p : predicate)
| SNull (id : ColIdent) (col : column) (p : predicate)
| SLiteral (id : ColIdent) (col : column) (x : bytes) (p : predicate) (q : quantifier)
| SCompareCol (k : bad_cmp) (id : ColIdent) (col : column) (rid : ColIdent) (rcol : column) (p : predicate) (q : quantifier)
| SCompareLit (k : bad_cmp) (id : ColIdent) (col : column) (x : bytes) (t : option bytes) (p : predicate) (q : quantifier)
| SField (k : bad_field) (id : ColIdent) (col : column) (p : predicate) (q : quantifier) (fn : bytes)
| SBetweenCol (id : ColIdent) (col : column) (rid : ColIdent) (rcol : column) (p : predicate)
| SBetweenField (id : ColIdent) (col : column) (p : predicate)
| SConflict (k : bad_conflict)
| SRelation (rid : RelIdent).

Definition no_db : dbInfo := MkDB [] [] [] [].
Definition no_target : targetInfo := MkTarget [] [] (MkFile [] 0).
Definition no_relid : RelIdent := MkRel [] [] [].
Definition no_colid : ColIdent := MkCol [] [].
Definition mk (k : code) (rid : RelIdent) (r : option relation) (id : ColIdent) (col : option column) : dbError :=
  MkErr k no_db no_target no_field no_field rid r id col no_colid None [] None PNone QNone [].
Definition mkp (k : code) (id : ColIdent) (col : column) (rid : ColIdent) (rcol : option column) (x : bytes) (t : option bytes)
    (p : predicate) (q : quantifier) (fn : bytes) : dbError :=
  MkErr k no_db no_target no_field no_field no_relid None id (Some col) rid rcol x t p q fn.

Definition site_err (c : ck) (s : site) : option dbError :=
  match s with
  (* postgres.go:307, 350, 388, 584, 625, 887 and 921 *)
  | SFind id => match find_code c id with Some k => Some (mk k no_relid None id None) | None => None end
  (* postgres.go:241, 328, 456, 1037, 1117, 1158 and 1411 *)
  | STarget id => if has_col (k_rel c) (c_col id) then None else Some (mk errColumnUnknown no_relid (Some (k_rel c)) id None)
  (* postgres.go:879 *)
  | SJoin rid r id => if has_col r (c_col id) then None else Some (mk errColumnUnknown rid (Some r) id None)
  (* postgres.go:244, 331, 1243 and 1368 *)
  | SColumn k id col =>
      Some (mk (match k with BadSearch => errColumnTextSearchType | BadDefault => errColumnDefaultUnset
                | BadRead => errColumnFieldTypeRead | BadWrite => errColumnFieldTypeWrite end)
              no_relid (Some (k_rel c)) id (Some col))
  (* postgres.go:1485 *)
  | SFilter col => Some (mk errColumnFieldTypeWrite no_relid (Some (k_rel c)) no_colid (Some col))
  (* postgres.go:897 and 911 *)
  | SBool id col p => Some (mkp errPredicateOperandBool id col no_colid None [] None p QNone [])
  | SNull id col p => Some (mkp errPredicateOperandNull id col no_colid None [] None p QNone [])
  (* postgres.go:928 *)
  | SLiteral id col x p q => Some (mkp errPredicateLiteralExpr id col no_colid None x None p q [])
  (* postgres.go:936-946 *)
  | SCompareCol k id col rid rcol p q =>
      Some (mkp (match k with BadCompare => errColumnComparison | BadArray => errPredicateOperandArray
                 | BadQuantifier => errPredicateOperandQuantifier end) id col rid (Some rcol) [] None p q [])
  | SCompareLit k id col x t p q =>
      Some (mkp (match k with BadCompare => errColumnComparison | BadArray => errPredicateOperandArray
                 | BadQuantifier => errPredicateOperandQuantifier end) id col no_colid None x t p q [])
  (* postgres.go:590 *)
  | SField k id col p q fn =>
      Some (mkp (match k with FieldCompare => errColumnFieldComparison | FieldArray => errPredicateOperandArray
                 | FieldQuantifier => errPredicateOperandQuantifier | FieldProcedure => errProcedureUnknown end)
              id col no_colid None [] None p q fn)
  (* postgres.go:659 *)
  | SBetweenCol id col rid rcol p => Some (mkp errBetweenColumnComparison id col rid (Some rcol) [] None p QNone [])
  (* postgres.go:677; the other codes of postgres.go:681 need a function or a quantifier, which bounds do not have *)
  | SBetweenField id col p => Some (mkp errBetweenFieldComparison id col no_colid None [] None p QNone [])
  (* postgres.go:1064-1098 *)
  | SConflict k =>
      Some (mk (match k with NoIndex => errOnConflictIndexUnknown | IndexNotUnique => errOnConflictIndexNotUnique
                | NoColumns => errOnConflictIndexColumnsUnknown | ColumnsNotUnique => errOnConflictIndexColumnsNotUnique
                | NoConstraint => errOnConflictConstraintUnknown | ConstraintNotUnique => errOnConflictConstraintNotUnique end)
              no_relid (Some (k_rel c)) no_colid None)
  (* postgres.go:1825 *)
  | SRelation rid => Some (mk errRelationUnknown rid None no_colid None)
  end.

(** The error that a check gives for the field [ptr]; [None] if the column exists. *)
Definition raise (c : ck) (s : site) (ptr : nat) : option dbError :=
  match site_err c s with Some e => Some (fill c e ptr) | None => None end.
