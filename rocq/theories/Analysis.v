(** Model of internal/analysis/analysis.go: the analysis of a target struct
    (Run), given as a tree of Go types.

    Not modelled: positions and FieldMap (error reporting), the texts of
    errors (only their code), and relTypeCache (l.447-453, 505-507, 2350-2353):
    every record type is analysed anew.  Types are finite trees: a type that
    refers to itself is not expressible. *)
From Coq Require Import Ascii String ZArith NArith Bool List.
From Verif Require Import GoBase Strconv ConvertUtil Filter AParse.
Import ListNotations.
Local Open Scope char_scope.

(** ** Results *)

(** error.go:199-241; [EC] wraps the codes of the parsers in AParse.v
    (errBadColIdTagValue, errBadRelIdTagValue, errUnknownColumnQualifier,
    errMissingTagColumnList, errConflictingRelName, errConflictingRelAlias). *)
Inductive errc :=
| EC (e : ecode)
| EBadFieldTypeInt | EBadFieldTypeStruct | EBadIterTypeInterface | EBadIterTypeFunc | EBadRelType
| EIllegalQueryField | EIllegalStructDirective | EIllegalIteratorField
| EConflictingRelTag | EConflictingWhere | EConflictingOnConflictTarget | EConflictingOnConflictAction
| EConflictingResultTarget | EConflictingRelationDirective | EConflictingFieldOrDirective
| EConflictingFilterConstructor
| EMissingRelField | EMissingTagValue | EMissingOnConflictTarget | EMissingFilterConstructor
| EBadIdentTagValue | EBadBoolTagValue | EBadUIntegerTagValue | EBadNullsOrderTagValue
| EBadOverrideTagValue | EBadDirectiveBooleanExpr | EBadBetweenPredicate | EBadJoinConditionLHS
| EIllegalSliceUpdateModifier | EIllegalListPredicate | EIllegalUnaryPredicate
| EIllegalFieldQuantifier | EIllegalPredicateQuantifier | EColumnFieldUnknown.

Inductive ares (A : Type) := AOk (a : A) | AErr (e : errc) | APanic.
Arguments AOk {A} a.
Arguments AErr {A} e.
Arguments APanic {A}.
Definition abind {A C} (r : ares A) (f : A -> ares C) : ares C :=
  match r with AOk a => f a | AErr e => AErr e | APanic => APanic end.
Definition lift {A} (r : A + ecode) : ares A := match r with inl a => AOk a | inr e => AErr (EC e) end.
(** A result of the parsers that have no error, only panics. *)
Definition lift_res {A} (r : res A) : ares A := match r with Ok a => AOk a | _ => APanic end.
Definition ensure (b : bool) (e : errc) : ares unit := if b then AOk tt else AErr e.
Notation "'do' x <- a ; b" := (abind a (fun x => b)) (at level 200, x pattern, a at level 100, b at level 200).
Notation "'need' c 'or' e ; b" := (abind (ensure c e) (fun _ => b)) (at level 200, c at level 100, e at level 100, b at level 200).

(** ** Go types *)

(** The basic kinds (types.BasicKind). *)
Inductive basic :=
| BBool | BInt | BInt8 | BInt16 | BInt32 | BInt64 | BUint | BUint8 | BUint16 | BUint32 | BUint64
| BUintptr | BFloat32 | BFloat64 | BComplex64 | BComplex128 | BString | BUnsafePointer.

(** What the Implements… functions of internal/typesutil/predicates.go report:
    inputs of the model. *)
Record tflags := MkFlags {
  f_scanner : bool; f_valuer : bool; f_jsonm : bool; f_jsonu : bool; f_xmlm : bool; f_xmlu : bool }.
Definition no_flags := MkFlags false false false false false false.

(** A type name: [n_pkg] is the path and the name of its package, [None] for
    predeclared types such as error. *)
Record tname := MkName {
  n_name : bytes; n_pkg : option (bytes * bytes); n_flags : tflags;
  n_afterscan : bool; n_errh : bool; n_errih : bool; n_fctor : bool }.

(** A field declaration without its type. *)
Record fvar := MkVar { v_name : bytes; v_exported : bool; v_embedded : bool; v_tag : tag }.

Inductive gtype :=
| TBasic (k : basic) (isbyte isrune : bool)
| TArray (n : Z) (t : gtype)
| TSlice (t : gtype)
| TPtr (t : gtype)
| TMap (k v : gtype)
| TChan (t : gtype)
| TFunc (ps rs : list gtype)
| TIface (ms : list (bytes * bool * (list gtype * list gtype))) (empty scanner valuer : bool)
| TStruct (fs : list (fvar * gtype))
| TNamed (n : tname) (u : gtype).

Definition fields := list (fvar * gtype).

(** enums.go:8-49 *)
Inductive kind :=
| KInvalid | KBasic (k : basic) | KArray | KInterface | KMap | KPtr | KSlice | KStruct | KChan | KFunc.

(** analysis.go:1780-1804 *)
Fixpoint analyzeTypeKind (t : gtype) : kind :=
  match t with
  | TBasic k _ _ => KBasic k
  | TArray _ _ => KArray
  | TSlice _ => KSlice
  | TPtr _ => KPtr
  | TMap _ _ => KMap
  | TChan _ => KChan
  | TFunc _ _ => KFunc
  | TIface _ _ _ _ => KInterface
  | TStruct _ => KStruct
  | TNamed _ u => analyzeTypeKind u
  end.

(** The settings of the analysis: the package path of the target and the
    options of config.Config that the analysis reads. *)
Record env := MkEnv { e_pkg : bytes; e_fcktag : bytes; e_fcksep : bytes; e_fckbase : bool }.

(** Pkg().Path(), which panics for a predeclared type. *)
Definition pkg_path (n : tname) : ares bytes := match n_pkg n with Some (p, _) => AOk p | None => APanic end.

(** analysis.go:2126-2128; [None] is a nil *types.Named. *)
Definition isImportedType (e : env) (n : option tname) : ares bool :=
  match n with
  | None => AOk false
  | Some n => do p <- pkg_path n; AOk (negb (bytes_eqb p (e_pkg e)))
  end.

(** analysis.go:2132-2134 *)
Definition isAccessible (e : env) (name : bytes) (exported : bool) (n : option tname) : ares bool :=
  if bytes_eqb name (B "_") then AOk false
  else if exported then AOk true
  else do b <- isImportedType e n; AOk (negb b).

Definition has_suffix (p a : bytes) : bool := has_prefix (rev p) (rev a).
Definition gosql_path : bytes := B "github.com/frk/gosql".

(** The test on the underlying type in typesutil/utils.go:49-54 and
    typesutil/predicates.go:256-257. *)
Definition is_isdir (u : gtype) : bool :=
  match u with TStruct [(v, _)] => bytes_eqb (v_name v) (B "_isdir") | _ => false end.

(** typesutil/utils.go:38-56; the empty string for a type that is no directive *)
Definition GetDirectiveName (t : gtype) : ares bytes :=
  match t with
  | TNamed n u =>
      do p <- pkg_path n;
      AOk (if has_suffix gosql_path p && is_isdir u then n_name n else [])
  | _ => AOk []
  end.

(** typesutil/predicates.go:239-258 *)
Definition IsDirective (ident : bytes) (t : gtype) : ares bool :=
  match t with
  | TNamed n u =>
      if bytes_eqb (n_name n) ident
      then do p <- pkg_path n; AOk (has_suffix gosql_path p && is_isdir u)
      else AOk false
  | _ => AOk false
  end.

(** typesutil/utils.go:20-33 *)
Definition GetStruct (t : gtype) : option (option tname * fields) :=
  match t with
  | TStruct fs => Some (None, fs)
  | TNamed n (TStruct fs) => Some (Some n, fs)
  | _ => None
  end.

(** typesutil/predicates.go:57-65 *)
Definition IsError (t : gtype) : bool :=
  match t with
  | TNamed n _ => match n_pkg n with None => bytes_eqb (n_name n) (B "error") | Some _ => false end
  | _ => false
  end.

(** typesutil/predicates.go:95-108 *)
Definition IsContext (t : gtype) : bool :=
  match t with
  | TNamed n _ =>
      match n_pkg n with
      | Some (p, _) => bytes_eqb p (B "context") && bytes_eqb (n_name n) (B "Context")
      | None => false
      end
  | _ => false
  end.

(** analysis.go:2143-2150 *)
Definition isIntegerType (t : gtype) : bool :=
  match t with
  | TBasic k _ _ =>
      match k with
      | BInt | BInt8 | BInt16 | BInt32 | BInt64 | BUint | BUint8 | BUint16 | BUint32 | BUint64 => true
      | _ => false
      end
  | _ => false
  end.
(** analysis.go:2153-2159 *)
Definition isBoolType (t : gtype) : bool := match t with TBasic BBool _ _ => true | _ => false end.
(** analysis.go:2162-2177 *)
Definition isErrorHandler (t : gtype) : bool := match t with TNamed n _ => n_errh n | _ => false end.
Definition isErrorInfoHandler (t : gtype) : bool := match t with TNamed n _ => n_errih n | _ => false end.
(** typesutil/predicates.go:422-500 *)
Definition ImplementsGosqlFilterConstructor (t : gtype) : bool :=
  match t with TNamed n _ => n_fctor n | _ => false end.
(** analysis.go:2180-2192 *)
Definition isFilterType (t : gtype) : ares bool :=
  match t with
  | TNamed n _ =>
      if bytes_eqb (n_name n) (B "Filter") then do p <- pkg_path n; AOk (has_suffix gosql_path p) else AOk false
  | _ => AOk false
  end.

(** ** Record types *)

(** types.go:146-185 (PkgLocal is always PkgName) *)
Inductive TypeInfo := MkTI {
  t_name : bytes; t_kind : kind; t_path : bytes; t_pkg : bytes; t_imported : bool; t_flags : tflags;
  t_empty : bool; t_byte : bool; t_rune : bool; t_len : Z;
  t_key : option TypeInfo; t_elem : option TypeInfo }.

(** The information on an unnamed type. *)
Definition plain_ti (k : kind) : TypeInfo := MkTI [] k [] [] false no_flags false false false 0 None None.
Definition with_elem (el : TypeInfo) (t : TypeInfo) : TypeInfo :=
  MkTI (t_name t) (t_kind t) (t_path t) (t_pkg t) (t_imported t) (t_flags t) (t_empty t) (t_byte t)
       (t_rune t) (t_len t) (t_key t) (Some el).

(** analysis.go:647-698: the information and the innermost element type. *)
Fixpoint analyzeTypeInfo (e : env) (t : gtype) : ares (TypeInfo * gtype) :=
  match t with
  | TNamed n u =>
      match n_pkg n with
      | None => APanic
      | Some (p, pn) =>
          do (i, b) <- analyzeTypeInfo e u;
          AOk (MkTI (n_name n) (t_kind i) p pn (negb (bytes_eqb p (e_pkg e))) (n_flags n) (t_empty i)
                    (t_byte i) (t_rune i) (t_len i) (t_key i) (t_elem i), b)
      end
  | TBasic k isbyte isrune =>
      AOk (MkTI [] (KBasic k) [] [] false no_flags false isbyte isrune 0 None None, t)
  | TSlice u => do (i, b) <- analyzeTypeInfo e u; AOk (with_elem i (plain_ti KSlice), b)
  | TArray n u =>
      do (i, b) <- analyzeTypeInfo e u;
      AOk (MkTI [] KArray [] [] false no_flags false false false n None (Some i), b)
  | TMap k u =>
      do (ik, _) <- analyzeTypeInfo e k;
      do (i, b) <- analyzeTypeInfo e u;
      AOk (MkTI [] KMap [] [] false no_flags false false false 0 (Some ik) (Some i), b)
  | TPtr u => do (i, b) <- analyzeTypeInfo e u; AOk (with_elem i (plain_ti KPtr), b)
  | TIface _ em sc va =>
      AOk (MkTI [] KInterface [] [] false (MkFlags sc va false false false false) em false false 0 None None, t)
  | TStruct _ => AOk (plain_ti KStruct, t)
  | TChan _ => AOk (plain_ti KChan, t)
  | TFunc _ _ => AOk (plain_ti KFunc, t)
  end.

(** analysis.go:2275-2282 for TypeKindStruct *)
Definition kind_struct (k : kind) : bool := match k with KStruct => true | _ => false end.
Definition kind_ptr (k : kind) : bool := match k with KPtr => true | _ => false end.
Definition is_struct (t : TypeInfo) : bool :=
  kind_struct (t_kind t)
  || (kind_ptr (t_kind t) && match t_elem t with Some el => kind_struct (t_kind el) | None => false end).
(** analysis.go:2298-2310 *)
Definition IsSequence (t : TypeInfo) : bool :=
  match t_kind t with KSlice | KArray => true | _ => false end.

(** types.go:223-247 *)
Record selnode := MkSel {
  sn_name : bytes; sn_tag : tag; sn_tname : bytes; sn_path : bytes; sn_pkg : bytes; sn_imported : bool;
  sn_embedded : bool; sn_exported : bool; sn_ptr : bool; sn_mode : FieldMode }.

(** types.go:188-218 *)
Record FieldInfo := MkFI {
  fi_name : bytes; fi_type : TypeInfo; fi_sel : list selnode; fi_embedded : bool; fi_exported : bool;
  fi_tag : tag; fi_col : ColIdent; fi_fck : bytes; fi_mode : FieldMode; fi_nullempty : bool;
  fi_default : bool; fi_add : bool; fi_coalesce : bool; fi_coalval : bytes }.

(** types.go:114-143 *)
Record RelType := MkRT {
  rt_base : TypeInfo; rt_ptr : bool; rt_slice : bool; rt_array : bool; rt_len : Z; rt_iter : bool;
  rt_method : bytes; rt_after : bool; rt_fields : list FieldInfo }.
Definition zero_rt : RelType := MkRT (plain_ti KInvalid) false false false 0 false [] false [].

(** strings.IndexByte and the two slicings around it. *)
Fixpoint cut_first (sep : ascii) (s : bytes) : option (bytes * bytes) :=
  match s with
  | [] => None
  | c :: r =>
      if beq c sep then Some ([], r)
      else match cut_first sep r with Some (a, b) => Some (c :: a, b) | None => None end
  end.

(** strconv.ParseBool, with its error ignored *)
Definition parse_bool (s : bytes) : bool :=
  existsb (bytes_eqb s) [B "1"; B "t"; B "T"; B "true"; B "TRUE"; B "True"].

(** analysis.go:2033-2049: one option of the fck tag. *)
Definition fck_opt (st : bytes * bytes * bool) (opt : bytes) : bytes * bytes * bool :=
  let '(tg, sep, base) := st in
  match cut_first ":" opt with
  | Some (k, v) =>
      if bytes_eqb k (B "tag") then (v, sep, base)
      else if bytes_eqb k (B "sep") then (tg, v, base)
      else if bytes_eqb k (B "base") then (tg, sep, parse_bool v)
      else st
  | None => st
  end.

(** analysis.go:2023-2028: the first node with an fck tag, and the selector from it on. *)
Fixpoint sel_fck (sel : list selnode) : option (list bytes * list selnode) :=
  match sel with
  | [] => None
  | n :: r => match tag_get (sn_tag n) (B "fck") with
              | [] => sel_fck r
              | l => Some (l, sel)
              end
  end.

(** analysis.go:2073-2078 *)
Fixpoint joinFieldName (name : bytes) (sel : list selnode) (sep : bytes) : bytes :=
  match sel with
  | [] => name
  | n :: r => sn_name n ++ sep ++ joinFieldName name r sep
  end.

(** analysis.go:2081-2104; [None]: a node is tagged with - *)
Fixpoint fieldTags (tags : list tag) (tg : bytes) : option (list bytes) :=
  match tags with
  | [] => Some []
  | t :: r =>
      let k := tag_first t tg in
      if bytes_eqb k (B "-") then None
      else match fieldTags r tg with
           | Some l => Some (match k with [] => l | _ => k :: l end)
           | None => None
           end
  end.
Definition joinFieldTag (ftag : tag) (sel : list selnode) (tg sep : bytes) : bytes :=
  match fieldTags (map sn_tag sel ++ [ftag]) tg with Some l => join sep l | None => [] end.

(** analysis.go:2015-2070 *)
Definition parseFilterColumnKey (e : env) (name : bytes) (ftag : tag) (sel : list selnode) : bytes :=
  let '(opts, sel) :=
    match tag_get ftag (B "fck") with
    | [] => match sel_fck sel with Some (l, s) => (l, s) | None => ([], sel) end
    | l => (l, sel)
    end in
  let '(tg, sep, base) := fold_left fck_opt opts (e_fcktag e, e_fcksep e, e_fckbase e) in
  match tg with
  | _ :: _ =>
      if base then let k := tag_first ftag tg in if bytes_eqb k (B "-") then [] else k
      else joinFieldTag ftag sel tg sep
  | [] => if base then name else joinFieldName name sel sep
  end.

(** analysis.go:522-528 *)
Record frame := MkFrame { fr_fields : fields; fr_imported : bool; fr_pfx : bytes; fr_sel : list selnode }.

Inductive fstep := FSkip | FDescend (f : frame) | FLeaf (f : FieldInfo).

(** analysis.go:591-602 *)
Definition make_node (v : fvar) (i : TypeInfo) (m : FieldMode) : selnode :=
  let ty := match t_kind i, t_elem i with KPtr, Some el => el | _, _ => i end in
  MkSel (v_name v) (v_tag v) (t_name ty) (t_path ty) (t_pkg ty) (t_imported ty) (v_embedded v)
        (v_exported v) (kind_ptr (t_kind i)) m.

(** analysis.go:537-636: one field of the frame [fr]. *)
Definition field_step (e : env) (sp : relspace) (fr : frame) (v : fvar) (t : gtype) : ares fstep :=
  let tg := v_tag v in
  let sqltag := tag_first tg (B "sql") in
  if bytes_eqb sqltag [] || bytes_eqb sqltag (B "-") || bytes_eqb (v_name v) (B "_")
     || (negb (v_exported v) && fr_imported fr)
  then AOk FSkip
  else
    do (i, base) <- analyzeTypeInfo e t;
    if is_struct i && has_prefix (B ">") sqltag then
      match base with
      | TStruct fs =>
          do m <- lift_res (parseFieldMode tg);
          AOk (FDescend (MkFrame fs (t_imported i) (fr_pfx fr ++ skipn 1 sqltag)
                                 (fr_sel fr ++ [make_node v i m])))
      | _ => APanic
      end
    else
      do cid <- lift (parseColIdent sp (fr_pfx fr ++ sqltag));
      do m <- lift_res (parseFieldMode tg);
      let '(co, cv) := parseCoalesceInfo tg in
      AOk (FLeaf (MkFI (v_name v) i (fr_sel fr) (v_embedded v) (v_exported v) tg cid
                       (parseFilterColumnKey e (v_name v) tg (fr_sel fr)) m
                       (tag_opt tg (B "sql") (B "nullempty")) (tag_opt tg (B "sql") (B "default"))
                       (tag_opt tg (B "sql") (B "add")) co cv)).

(** analysis.go:533-640: the loop over the stack, its top first.  The fuel is
    shown to suffice in AnalysisProofs.v. *)
Fixpoint fields_loop (fuel : nat) (e : env) (sp : relspace) (stack : list frame) (out : list FieldInfo)
  : ares (list FieldInfo) :=
  match fuel with
  | O => APanic
  | S fuel =>
      match stack with
      | [] => AOk out
      | fr :: rest =>
          match fr_fields fr with
          | [] => fields_loop fuel e sp rest out
          | (v, t) :: fs =>
              let fr' := MkFrame fs (fr_imported fr) (fr_pfx fr) (fr_sel fr) in
              do s <- field_step e sp fr v t;
              match s with
              | FSkip => fields_loop fuel e sp (fr' :: rest) out
              | FDescend f => fields_loop fuel e sp (f :: fr' :: rest) out
              | FLeaf f => fields_loop fuel e sp (fr' :: rest) (out ++ [f])
              end
          end
      end
  end.

(** The number of fields below a type, which bounds the loop. *)
Fixpoint tsize (t : gtype) : nat :=
  match t with
  | TArray _ u | TSlice u | TPtr u | TChan u | TNamed _ u => tsize u
  | TMap k u => tsize k + tsize u
  | TStruct fs => S (fold_right (fun '(_, u) n => S (tsize u) + n) O fs)
  | TBasic _ _ _ | TFunc _ _ | TIface _ _ _ _ => O
  end%nat.

(** analysis.go:520-641 *)
Definition analyzeFieldInfoList (e : env) (sp : relspace) (imported : bool) (fs : fields) : ares (list FieldInfo) :=
  fields_loop (S (S (tsize (TStruct fs)))) e sp [MkFrame fs imported [] []] [].

(** analysis.go:722-744: the named struct type, and whether it is pointed to *)
Definition analyzeIteratorFunction (ps rs : list gtype) : option (tname * gtype * bool) :=
  match ps, rs with
  | [p], [r] =>
      if IsError r then
        let '(p, isptr) := match p with TPtr q => (q, true) | _ => (p, false) end in
        match p with
        | TNamed n (TStruct fs) => Some (n, TStruct fs, isptr)
        | _ => None
        end
      else None
  | _, _ => None
  end.

(** analysis.go:495-517: the base type [u] with the name [n], the other
    properties of the relation type given. *)
Definition finish_rt (e : env) (sp : relspace) (n : option tname) (u : gtype)
    (isptr slice array : bool) (len : Z) (iter : bool) (method : bytes) : ares RelType :=
  do base <- match n with
             | Some n =>
                 match n_pkg n with
                 | None => APanic
                 | Some (p, pn) =>
                     AOk (MkTI (n_name n) (analyzeTypeKind u) p pn (negb (bytes_eqb p (e_pkg e))) no_flags
                               false false false 0 None None)
                 end
             | None => AOk (plain_ti (analyzeTypeKind u))
             end;
  match u with
  | TStruct fs =>
      do l <- analyzeFieldInfoList e sp (t_imported base) fs;
      AOk (MkRT base isptr slice array len iter method
                (match n with Some n => n_afterscan n | None => false end) l)
  | _ => AErr EBadRelType
  end.

(** analysis.go:423-517 *)
Definition analyzeRelType (e : env) (sp : relspace) (t : gtype) : ares RelType :=
  let '(n, u) := match t with TNamed n u => (Some n, u) | _ => (None, t) end in
  match u with
  | TIface ms _ _ _ =>
      match ms with
      | [(mname, mexp, (ps, rs))] =>
          do ok <- isAccessible e mname mexp n;
          if ok then
            match analyzeIteratorFunction ps rs with
            | Some (n, u, isptr) => finish_rt e sp (Some n) u isptr false false 0 true mname
            | None => AErr EBadIterTypeInterface
            end
          else AErr EBadIterTypeInterface
      | _ => AErr EBadIterTypeInterface
      end
  | TFunc ps rs =>
      match analyzeIteratorFunction ps rs with
      | Some (n, u, isptr) => finish_rt e sp (Some n) u isptr false false 0 true []
      | None => AErr EBadIterTypeFunc
      end
  | _ =>
      let '(u, slice, array, len) :=
        match u with
        | TSlice v => (v, true, false, 0%Z)
        | TArray k v => (v, false, true, k)
        | _ => (u, false, false, 0%Z)
        end in
      let '(u, isptr) := match u with TPtr v => (v, true) | _ => (u, false) end in
      if slice || array || isptr then
        match u with
        | TNamed n v => finish_rt e sp (Some n) v isptr slice array len false []
        | _ => AErr EBadRelType
        end
      else finish_rt e sp n u isptr slice array len false []
  end.

(** ** Where *)

(** enums.go:219-227 *)
Inductive boolean := BoolAnd | BoolOr.

(** types.go:344: BetweenStructField, BetweenColumnDirective *)
Inductive bound := BoundField (name : bytes) (t : TypeInfo) | BoundColumn (id : ColIdent).

(** types.go:292-303 (and JoinConditionTagItem, l.378) *)
Record cond := MkCond {
  c_lhs : ColIdent; c_rhs : ColIdent; c_lit : bytes; c_pred : predicate; c_quant : quantifier }.
Definition no_col : ColIdent := MkCol [] [].

(** types.go:340: the items of a where struct *)
Inductive witem :=
| WBool (b : boolean)
| WField (name : bytes) (t : TypeInfo) (id : ColIdent) (p : predicate) (q : quantifier) (fn : bytes)
| WColumn (c : cond)
| WBetween (name : bytes) (id : ColIdent) (p : predicate) (lo hi : bound)
| WNested (name : bytes) (items : list witem).

Fixpoint contains (sub s : bytes) : bool :=
  has_prefix sub s || match s with [] => false | _ :: r => contains sub r end.

Definition quant_set (q : quantifier) : bool := match q with QNone => false | _ => true end.

(** analysis.go:863-877 and 1171-1186: the right-hand side of a column
    condition and the restrictions on it. *)
Definition binary_cond (sp : relspace) (lhs : ColIdent) (op op2 rhs : bytes) : ares cond :=
  let p := stringToPredicate op in
  let q := stringToQuantifier op2 in
  do (rid, rlit) <- match parseColIdent sp rhs with
                    | inl id => AOk (id, [])
                    | inr EBadColId => AOk (no_col, rhs)
                    | inr e => AErr (EC e)
                    end;
  need negb (p_unary p) or EIllegalUnaryPredicate;
  need negb (quant_set q) || CanQuantify p or EIllegalPredicateQuantifier;
  AOk (MkCond lhs rid rlit p q).

(** analysis.go:844-906: the tag of a gosql.Column directive *)
Definition where_column (sp : relspace) (lhs op op2 rhs : bytes) : ares cond :=
  do id <- lift (parseColIdent sp lhs);
  match rhs with
  | _ :: _ => binary_cond sp id op op2 rhs
  | [] =>
      let p := stringToPredicate (match op with [] => B "istrue" | _ => op end) in
      need p_unary p or EBadDirectiveBooleanExpr;
      need bytes_eqb op2 [] or EIllegalPredicateQuantifier;
      AOk (MkCond id no_col [] p QNone)
  end.

(** analysis.go:944-948 and 956-960: which bound a sub-field is: Some true
    the lower one. *)
Definition bound_pos (v : bytes) : option bool :=
  if bytes_eqb v (B "x") || bytes_eqb v (B "lower") then Some true
  else if bytes_eqb v (B "y") || bytes_eqb v (B "upper") then Some false
  else None.
Definition set_bound (pos : option bool) (b : bound) (st : option bound * option bound) :=
  match pos with
  | Some true => (Some b, snd st)
  | Some false => (fst st, Some b)
  | None => st
  end.

(** analysis.go:929-963: one of the two sub-fields. *)
Definition between_field (e : env) (sp : relspace) (n : option tname) (v : fvar) (t : gtype)
    (st : option bound * option bound) : ares (option bound * option bound) :=
  let tg := v_tag v in
  do isdir <- (if bytes_eqb (v_name v) (B "_") then IsDirective (B "Column") t else AOk false);
  if isdir : bool then
    do id <- lift (parseColIdent sp (tag_first tg (B "sql")));
    AOk (set_bound (bound_pos (tolower (tag_second tg (B "sql")))) (BoundColumn id) st)
  else
    do acc <- isAccessible e (v_name v) (v_exported v) n;
    if acc : bool then
      do (i, _) <- analyzeTypeInfo e t;
      AOk (set_bound (bound_pos (tolower (tag_first tg (B "sql")))) (BoundField (v_name v) i) st)
    else AOk st.

(** analysis.go:916-983 *)
Definition where_between (e : env) (sp : relspace) (v : fvar) (t : gtype) (lhs op op2 : bytes) : ares witem :=
  need bytes_eqb op2 [] or EIllegalPredicateQuantifier;
  match GetStruct t with
  | Some (n, [(v1, t1); (v2, t2)]) =>
      do st <- between_field e sp n v1 t1 (None, None);
      do st <- between_field e sp n v2 t2 st;
      match st with
      | (Some lo, Some hi) =>
          do id <- lift (parseColIdent sp lhs);
          AOk (WBetween (v_name v) id (stringToPredicate op) lo hi)
      | _ => AErr EBadBetweenPredicate
      end
  | _ => AErr EBadBetweenPredicate
  end.

(** analysis.go:987-1015 *)
Definition where_field (e : env) (sp : relspace) (v : fvar) (t : gtype) (lhs op op2 : bytes) : ares witem :=
  do id <- lift (parseColIdent sp lhs);
  let p := stringToPredicate (match op with [] => B "=" | _ => op end) in
  let q := stringToQuantifier op2 in
  do (i, _) <- analyzeTypeInfo e t;
  need negb (p_unary p) or EIllegalUnaryPredicate;
  need negb (quant_set q) || CanQuantify p or EIllegalPredicateQuantifier;
  need negb (quant_set q) || IsSequence i or EIllegalFieldQuantifier;
  need negb (p_array p) || IsSequence i or EIllegalListPredicate;
  AOk (WField (v_name v) i id p q (parseFuncName (tl (tag_get (v_tag v) (B "sql"))))).

(** analysis.go:808-819 *)
Definition where_bool (tg : tag) (items : list witem) : ares (list witem) :=
  match items with
  | [] => AOk []
  | _ =>
      let val := tolower (tag_first tg (B "bool")) in
      if bytes_eqb val [] then AOk (items ++ [WBool BoolAnd])
      else if bytes_eqb val (B "or") then AOk (items ++ [WBool BoolOr])
      else if bytes_eqb val (B "and") then AOk (items ++ [WBool BoolAnd])
      else AErr EBadBoolTagValue
  end.

(** analysis.go:840-1015: what a field that is not nested adds. *)
Definition where_leaf (e : env) (sp : relspace) (v : fvar) (t : gtype) (sqltag : bytes) : ares (list witem) :=
  do (lhs, op, op2, rhs) <- lift_res (parsePredicateExpr sqltag);
  if bytes_eqb (v_name v) (B "_") then
    do isdir <- IsDirective (B "Column") t;
    if isdir : bool then do c <- where_column sp lhs op op2 rhs; AOk [WColumn c] else AOk []
  else if contains (B "between") op then
    do w <- where_between e sp v t lhs op op2; AOk [w]
  else do w <- where_field e sp v t lhs op op2; AOk [w].

(** analysis.go:782-1023: the fields of a where struct.  [n] is the name of
    the outermost where struct (l.801 refers to the outer variable ns).  The
    explicit stack of loop states is written as recursion. *)
Fixpoint where_struct (e : env) (sp : relspace) (n : option tname) (t : gtype) : option (ares (list witem)) :=
  let loop :=
    (fix loop (fs : fields) (items : list witem) : ares (list witem) :=
       match fs with
       | [] => AOk items
       | (v, t) :: fs =>
           let sqltag := tag_first (v_tag v) (B "sql") in
           if bytes_eqb sqltag (B "-") || bytes_eqb sqltag [] then loop fs items
           else
             do acc <- (if bytes_eqb (v_name v) (B "_") then AOk true
                        else isAccessible e (v_name v) (v_exported v) n);
             if negb acc then loop fs items
             else
               do items <- where_bool (v_tag v) items;
               if bytes_eqb sqltag (B ">") then
                 match where_struct e sp n t with
                 | None => AErr EBadFieldTypeStruct
                 | Some r => do sub <- r; loop fs (items ++ [WNested (v_name v) sub])
                 end
               else
                 do l <- where_leaf e sp v t sqltag;
                 loop fs (items ++ l)
       end) in
  match t with
  | TStruct fs => Some (loop fs [])
  | TNamed _ (TStruct fs) => Some (loop fs [])
  | _ => None
  end.

Record WhereStruct := MkWhere { w_name : bytes; w_items : list witem }.

(** ** Join *)

(** enums.go:162-178; stringToJoinType of an unknown name is 0 *)
Inductive join_type := JNone | JCross | JInner | JLeft | JRight | JFull.
Definition stringToJoinType (s : bytes) : join_type :=
  if bytes_eqb s (B "CrossJoin") then JCross
  else if bytes_eqb s (B "InnerJoin") then JInner
  else if bytes_eqb s (B "LeftJoin") then JLeft
  else if bytes_eqb s (B "RightJoin") then JRight
  else if bytes_eqb s (B "FullJoin") then JFull
  else JNone.

Inductive jitem := JBool (b : boolean) | JCond (c : cond).
Record JoinDirective := MkJD { j_type : join_type; j_rel : RelIdent; j_items : list jitem }.
Record JoinStruct := MkJoin { j_name : bytes; j_relation : option RelIdent; j_dirs : list JoinDirective }.

(** analysis.go:1160-1163 *)
Definition join_lhs_ok (rid : RelIdent) (id : ColIdent) : bool :=
  negb ((negb (bytes_eqb (c_qual id) [])
         && (negb (bytes_eqb (r_alias rid) []) && negb (bytes_eqb (r_alias rid) (c_qual id))))
        || (bytes_eqb (r_alias rid) [] && negb (bytes_eqb (r_name rid) (c_qual id)))).

(** analysis.go:1146-1200: one condition *)
Definition join_cond (sp : relspace) (rid : RelIdent) (val : bytes) : ares cond :=
  do (lhs, op, op2, rhs) <- lift_res (parsePredicateExpr val);
  do id <- lift (parseColIdent sp lhs);
  need join_lhs_ok rid id or EBadJoinConditionLHS;
  match rhs with
  | _ :: _ => binary_cond sp id op op2 rhs
  | [] =>
      let p := match op with [] => IsTrue | _ => stringToPredicate op end in
      need p_unary p or EBadDirectiveBooleanExpr;
      need bytes_eqb op2 [] or EIllegalPredicateQuantifier;
      AOk (MkCond id no_col [] p (stringToQuantifier op2))
  end.

(** analysis.go:1133-1208: the conditions between semicolons; [first]: i == 0 *)
Fixpoint join_conds (sp : relspace) (rid : RelIdent) (first : bool) (vals : list bytes) (items : list jitem)
  : ares (list jitem) :=
  match vals with
  | [] => AOk items
  | v :: r =>
      do c <- join_cond sp rid v;
      let items := match items with [] => [] | _ => items ++ [JBool (if first then BoolAnd else BoolOr)] end in
      join_conds sp rid false r (items ++ [JCond c])
  end.
(** analysis.go:1131-1209 *)
Fixpoint join_vals (sp : relspace) (rid : RelIdent) (tags : list bytes) (items : list jitem) : ares (list jitem) :=
  match tags with
  | [] => AOk items
  | v :: r => do items <- join_conds sp rid true (split_at ";" v) items; join_vals sp rid r items
  end.

(** analysis.go:1096-1115 *)
Definition join_relation (sp : relspace) (j : JoinStruct) (tg : tag) : ares (relspace * JoinStruct) :=
  let k := tolower (j_name j) in
  need bytes_eqb k (B "from") || bytes_eqb k (B "using") or EIllegalStructDirective;
  need match j_relation j with None => true | Some _ => false end or EConflictingRelationDirective;
  do rid <- lift (parseRelIdent (tag_first tg (B "sql")));
  do sp <- lift (addToRelSpace sp rid);
  AOk (sp, MkJoin (j_name j) (Some rid) (j_dirs j)).

(** analysis.go:1118-1214 *)
Definition join_directive (sp : relspace) (j : JoinStruct) (dir : bytes) (tg : tag) : ares (relspace * JoinStruct) :=
  do rid <- lift (parseRelIdent (tag_first tg (B "sql")));
  do sp <- lift (addToRelSpace sp rid);
  do items <- join_vals sp rid (tl (tag_get tg (B "sql"))) [];
  AOk (sp, MkJoin (j_name j) (j_relation j) (j_dirs j ++ [MkJD (stringToJoinType dir) rid items])).

(** analysis.go:1059-1088 *)
Fixpoint join_fields (sp : relspace) (j : JoinStruct) (fs : fields) : ares (relspace * JoinStruct) :=
  match fs with
  | [] => AOk (sp, j)
  | (v, t) :: fs =>
      let tg := v_tag v in
      let sqltag := tag_first tg (B "sql") in
      if bytes_eqb sqltag (B "-") || bytes_eqb sqltag [] || negb (bytes_eqb (v_name v) (B "_"))
      then join_fields sp j fs
      else
        do dir <- GetDirectiveName t;
        let d := tolower dir in
        do (sp, j) <-
          (if bytes_eqb d (B "relation") then join_relation sp j tg
           else if existsb (bytes_eqb d)
                     [B "leftjoin"; B "rightjoin"; B "fulljoin"; B "crossjoin"; B "innerjoin"]
           then join_directive sp j dir tg
           else AErr EIllegalStructDirective);
        join_fields sp j fs
  end.

(** ** On conflict *)

(** types.go:392-405 *)
Record OnConflictStruct := MkOC {
  oc_name : bytes; oc_column : option (list ColIdent); oc_index : option bytes;
  oc_constraint : option bytes; oc_ignore : bool; oc_update : option ColIdentList }.

Definition oc_has_target (oc : OnConflictStruct) : bool :=
  match oc_column oc, oc_index oc, oc_constraint oc with None, None, None => false | _, _, _ => true end.
Definition oc_has_action (oc : OnConflictStruct) : bool :=
  oc_ignore oc || match oc_update oc with Some _ => true | None => false end.

(** analysis.go:1254-1277 with the functions of l.1294-1385 *)
Definition oc_directive (sp : relspace) (d : bytes) (tg : tag) (oc : OnConflictStruct) : ares OnConflictStruct :=
  if bytes_eqb d (B "column") then
    need negb (oc_has_target oc) or EConflictingOnConflictTarget;
    do ids <- lift (parseColIdents sp (tag_get tg (B "sql")));
    AOk (MkOC (oc_name oc) (Some ids) (oc_index oc) (oc_constraint oc) (oc_ignore oc) (oc_update oc))
  else if bytes_eqb d (B "index") then
    need negb (oc_has_target oc) or EConflictingOnConflictTarget;
    let name := tag_first tg (B "sql") in
    need rx_match rxIdent name or EBadIdentTagValue;
    AOk (MkOC (oc_name oc) (oc_column oc) (Some name) (oc_constraint oc) (oc_ignore oc) (oc_update oc))
  else if bytes_eqb d (B "constraint") then
    need negb (oc_has_target oc) or EConflictingOnConflictTarget;
    let name := tag_first tg (B "sql") in
    need rx_match rxIdent name or EBadIdentTagValue;
    AOk (MkOC (oc_name oc) (oc_column oc) (oc_index oc) (Some name) (oc_ignore oc) (oc_update oc))
  else if bytes_eqb d (B "ignore") then
    need negb (oc_has_action oc) or EConflictingOnConflictAction;
    AOk (MkOC (oc_name oc) (oc_column oc) (oc_index oc) (oc_constraint oc) true (oc_update oc))
  else if bytes_eqb d (B "update") then
    need negb (oc_has_action oc) or EConflictingOnConflictAction;
    do l <- lift (parseColIdentList sp (tag_get tg (B "sql")));
    AOk (MkOC (oc_name oc) (oc_column oc) (oc_index oc) (oc_constraint oc) (oc_ignore oc) (Some l))
  else AErr EIllegalStructDirective.

(** analysis.go:1244-1279 *)
Fixpoint oc_fields (sp : relspace) (fs : fields) (oc : OnConflictStruct) : ares OnConflictStruct :=
  match fs with
  | [] => AOk oc
  | (v, t) :: fs =>
      if negb (bytes_eqb (v_name v) (B "_")) then oc_fields sp fs oc
      else
        do dir <- GetDirectiveName t;
        do oc <- oc_directive sp (tolower dir) (v_tag v) oc;
        oc_fields sp fs oc
  end.

(** ** The query struct *)

(** enums.go:121-136 *)
Inductive qkind := KInsert | KUpdate | KDelete | KSelect | KSelectCount | KSelectExists | KSelectNotExists.
Definition isSelect (k : qkind) : bool :=
  match k with KSelect | KSelectCount | KSelectExists | KSelectNotExists => true | _ => false end.
Definition is_insert (k : qkind) : bool := match k with KInsert => true | _ => false end.
Definition is_update (k : qkind) : bool := match k with KUpdate => true | _ => false end.
Definition is_delete (k : qkind) : bool := match k with KDelete => true | _ => false end.
Definition is_plain_select (k : qkind) : bool := match k with KSelect => true | _ => false end.

Record RelField := MkRelF { rf_name : bytes; rf_id : RelIdent; rf_type : RelType; rf_dir : bool }.
Record ResultField := MkResult { rs_name : bytes; rs_type : RelType }.
(** LimitField and OffsetField *)
Record LimitField := MkLimit { lf_name : bytes; lf_value : N }.
Record RowsAffectedField := MkRows { ra_name : bytes; ra_kind : kind }.
Record ErrorHandlerField := MkErrH { eh_name : bytes; eh_info : bool }.
Inductive nulls := NullsDefault | NullsFirst | NullsLast.
Record OrderByTagItem := MkOrder { o_col : ColIdent; o_desc : bool; o_nulls : nulls }.
Inductive overriding := OverridingSystem | OverridingUser.

(** types.go:16-57 together with Info.RelSpace ([q_sp]) *)
Record qstate := MkQ {
  q_kind : qkind;
  q_rel : option RelField;
  q_result : option ResultField;
  q_where : option WhereStruct;
  q_join : option JoinStruct;
  q_onconflict : option OnConflictStruct;
  q_orderby : option (list OrderByTagItem);
  q_limit : option LimitField;
  q_offset : option LimitField;
  q_rows : option RowsAffectedField;
  q_force : option ColIdentList;
  q_optional : option ColIdentList;
  q_default : option ColIdentList;
  q_return : option ColIdentList;
  q_override : option overriding;
  q_errh : option ErrorHandlerField;
  q_filter : option bytes;
  q_ctx : option bytes;
  q_all : bool;
  q_sp : relspace }.
Definition set_kind_ (v : qkind) (q : qstate) : qstate :=
  MkQ v (q_rel q) (q_result q) (q_where q) (q_join q) (q_onconflict q) (q_orderby q) (q_limit q) (q_offset q) (q_rows q) (q_force q) (q_optional q) (q_default q) (q_return q) (q_override q) (q_errh q) (q_filter q) (q_ctx q) (q_all q) (q_sp q).
Definition set_rel_ (v : option RelField) (q : qstate) : qstate :=
  MkQ (q_kind q) v (q_result q) (q_where q) (q_join q) (q_onconflict q) (q_orderby q) (q_limit q) (q_offset q) (q_rows q) (q_force q) (q_optional q) (q_default q) (q_return q) (q_override q) (q_errh q) (q_filter q) (q_ctx q) (q_all q) (q_sp q).
Definition set_result_ (v : option ResultField) (q : qstate) : qstate :=
  MkQ (q_kind q) (q_rel q) v (q_where q) (q_join q) (q_onconflict q) (q_orderby q) (q_limit q) (q_offset q) (q_rows q) (q_force q) (q_optional q) (q_default q) (q_return q) (q_override q) (q_errh q) (q_filter q) (q_ctx q) (q_all q) (q_sp q).
Definition set_where_ (v : option WhereStruct) (q : qstate) : qstate :=
  MkQ (q_kind q) (q_rel q) (q_result q) v (q_join q) (q_onconflict q) (q_orderby q) (q_limit q) (q_offset q) (q_rows q) (q_force q) (q_optional q) (q_default q) (q_return q) (q_override q) (q_errh q) (q_filter q) (q_ctx q) (q_all q) (q_sp q).
Definition set_join_ (v : option JoinStruct) (q : qstate) : qstate :=
  MkQ (q_kind q) (q_rel q) (q_result q) (q_where q) v (q_onconflict q) (q_orderby q) (q_limit q) (q_offset q) (q_rows q) (q_force q) (q_optional q) (q_default q) (q_return q) (q_override q) (q_errh q) (q_filter q) (q_ctx q) (q_all q) (q_sp q).
Definition set_onconflict_ (v : option OnConflictStruct) (q : qstate) : qstate :=
  MkQ (q_kind q) (q_rel q) (q_result q) (q_where q) (q_join q) v (q_orderby q) (q_limit q) (q_offset q) (q_rows q) (q_force q) (q_optional q) (q_default q) (q_return q) (q_override q) (q_errh q) (q_filter q) (q_ctx q) (q_all q) (q_sp q).
Definition set_orderby_ (v : option (list OrderByTagItem)) (q : qstate) : qstate :=
  MkQ (q_kind q) (q_rel q) (q_result q) (q_where q) (q_join q) (q_onconflict q) v (q_limit q) (q_offset q) (q_rows q) (q_force q) (q_optional q) (q_default q) (q_return q) (q_override q) (q_errh q) (q_filter q) (q_ctx q) (q_all q) (q_sp q).
Definition set_limit_ (v : option LimitField) (q : qstate) : qstate :=
  MkQ (q_kind q) (q_rel q) (q_result q) (q_where q) (q_join q) (q_onconflict q) (q_orderby q) v (q_offset q) (q_rows q) (q_force q) (q_optional q) (q_default q) (q_return q) (q_override q) (q_errh q) (q_filter q) (q_ctx q) (q_all q) (q_sp q).
Definition set_offset_ (v : option LimitField) (q : qstate) : qstate :=
  MkQ (q_kind q) (q_rel q) (q_result q) (q_where q) (q_join q) (q_onconflict q) (q_orderby q) (q_limit q) v (q_rows q) (q_force q) (q_optional q) (q_default q) (q_return q) (q_override q) (q_errh q) (q_filter q) (q_ctx q) (q_all q) (q_sp q).
Definition set_rows_ (v : option RowsAffectedField) (q : qstate) : qstate :=
  MkQ (q_kind q) (q_rel q) (q_result q) (q_where q) (q_join q) (q_onconflict q) (q_orderby q) (q_limit q) (q_offset q) v (q_force q) (q_optional q) (q_default q) (q_return q) (q_override q) (q_errh q) (q_filter q) (q_ctx q) (q_all q) (q_sp q).
Definition set_force_ (v : option ColIdentList) (q : qstate) : qstate :=
  MkQ (q_kind q) (q_rel q) (q_result q) (q_where q) (q_join q) (q_onconflict q) (q_orderby q) (q_limit q) (q_offset q) (q_rows q) v (q_optional q) (q_default q) (q_return q) (q_override q) (q_errh q) (q_filter q) (q_ctx q) (q_all q) (q_sp q).
Definition set_optional_ (v : option ColIdentList) (q : qstate) : qstate :=
  MkQ (q_kind q) (q_rel q) (q_result q) (q_where q) (q_join q) (q_onconflict q) (q_orderby q) (q_limit q) (q_offset q) (q_rows q) (q_force q) v (q_default q) (q_return q) (q_override q) (q_errh q) (q_filter q) (q_ctx q) (q_all q) (q_sp q).
Definition set_default_ (v : option ColIdentList) (q : qstate) : qstate :=
  MkQ (q_kind q) (q_rel q) (q_result q) (q_where q) (q_join q) (q_onconflict q) (q_orderby q) (q_limit q) (q_offset q) (q_rows q) (q_force q) (q_optional q) v (q_return q) (q_override q) (q_errh q) (q_filter q) (q_ctx q) (q_all q) (q_sp q).
Definition set_return_ (v : option ColIdentList) (q : qstate) : qstate :=
  MkQ (q_kind q) (q_rel q) (q_result q) (q_where q) (q_join q) (q_onconflict q) (q_orderby q) (q_limit q) (q_offset q) (q_rows q) (q_force q) (q_optional q) (q_default q) v (q_override q) (q_errh q) (q_filter q) (q_ctx q) (q_all q) (q_sp q).
Definition set_override_ (v : option overriding) (q : qstate) : qstate :=
  MkQ (q_kind q) (q_rel q) (q_result q) (q_where q) (q_join q) (q_onconflict q) (q_orderby q) (q_limit q) (q_offset q) (q_rows q) (q_force q) (q_optional q) (q_default q) (q_return q) v (q_errh q) (q_filter q) (q_ctx q) (q_all q) (q_sp q).
Definition set_errh_ (v : option ErrorHandlerField) (q : qstate) : qstate :=
  MkQ (q_kind q) (q_rel q) (q_result q) (q_where q) (q_join q) (q_onconflict q) (q_orderby q) (q_limit q) (q_offset q) (q_rows q) (q_force q) (q_optional q) (q_default q) (q_return q) (q_override q) v (q_filter q) (q_ctx q) (q_all q) (q_sp q).
Definition set_filter_ (v : option bytes) (q : qstate) : qstate :=
  MkQ (q_kind q) (q_rel q) (q_result q) (q_where q) (q_join q) (q_onconflict q) (q_orderby q) (q_limit q) (q_offset q) (q_rows q) (q_force q) (q_optional q) (q_default q) (q_return q) (q_override q) (q_errh q) v (q_ctx q) (q_all q) (q_sp q).
Definition set_ctx_ (v : option bytes) (q : qstate) : qstate :=
  MkQ (q_kind q) (q_rel q) (q_result q) (q_where q) (q_join q) (q_onconflict q) (q_orderby q) (q_limit q) (q_offset q) (q_rows q) (q_force q) (q_optional q) (q_default q) (q_return q) (q_override q) (q_errh q) (q_filter q) v (q_all q) (q_sp q).
Definition set_all_ (v : bool) (q : qstate) : qstate :=
  MkQ (q_kind q) (q_rel q) (q_result q) (q_where q) (q_join q) (q_onconflict q) (q_orderby q) (q_limit q) (q_offset q) (q_rows q) (q_force q) (q_optional q) (q_default q) (q_return q) (q_override q) (q_errh q) (q_filter q) (q_ctx q) v (q_sp q).
Definition set_sp_ (v : relspace) (q : qstate) : qstate :=
  MkQ (q_kind q) (q_rel q) (q_result q) (q_where q) (q_join q) (q_onconflict q) (q_orderby q) (q_limit q) (q_offset q) (q_rows q) (q_force q) (q_optional q) (q_default q) (q_return q) (q_override q) (q_errh q) (q_filter q) (q_ctx q) (q_all q) v.

Definition is_some {A} (o : option A) : bool := match o with Some _ => true | None => false end.

(** The relation type of the rel field; it is set before any other field is analysed. *)
Definition q_reltype (q : qstate) : RelType := match q_rel q with Some r => rf_type r | None => zero_rt end.

(** analysis.go:758, 1491, 1663 *)
Definition has_where (q : qstate) : bool := q_all q || is_some (q_where q) || is_some (q_filter q).
(** analysis.go:1517, 1535, 1633 *)
Definition has_output (q : qstate) : bool := is_some (q_return q) || is_some (q_result q) || is_some (q_rows q).
(** analysis.go:1514, 1532, 1630 *)
Definition is_write (k : qkind) : bool := is_insert k || is_update k || is_delete k.

(** analysis.go:752-760, 1485-1493 *)
Definition where_allowed (q : qstate) : ares unit :=
  need isSelect (q_kind q) || is_update (q_kind q) || is_delete (q_kind q) or EIllegalQueryField;
  need negb (is_update (q_kind q) && rt_slice (q_reltype q)) or EIllegalSliceUpdateModifier;
  ensure (negb (has_where q)) EConflictingWhere.

(** analysis.go:751-1034 *)
Definition analyzeWhereStruct (e : env) (q : qstate) (v : fvar) (t : gtype) : ares qstate :=
  do _ <- where_allowed q;
  match GetStruct t with
  | None => AErr EBadFieldTypeStruct
  | Some (n, _) =>
      match where_struct e (q_sp q) n t with
      | None => AErr EBadFieldTypeStruct
      | Some r => do items <- r; AOk (set_where_ (Some (MkWhere (v_name v) items)) q)
      end
  end.

(** analysis.go:1041-1093 *)
Definition analyzeJoinStruct (e : env) (q : qstate) (v : fvar) (t : gtype) : ares qstate :=
  let f := tolower (v_name v) in
  need negb (bytes_eqb f (B "join") && negb (isSelect (q_kind q))) or EIllegalQueryField;
  need negb (bytes_eqb f (B "from") && negb (is_update (q_kind q))) or EIllegalQueryField;
  need negb (bytes_eqb f (B "using") && negb (is_delete (q_kind q))) or EIllegalQueryField;
  match GetStruct t with
  | None => AErr EBadFieldTypeStruct
  | Some (_, fs) =>
      do (sp, j) <- join_fields (q_sp q) (MkJoin (v_name v) None []) fs;
      AOk (set_join_ (Some j) (set_sp_ sp q))
  end.

(** analysis.go:1233-1287 *)
Definition analyzeOnConflictStruct (e : env) (q : qstate) (v : fvar) (t : gtype) : ares qstate :=
  need is_insert (q_kind q) or EIllegalQueryField;
  match GetStruct t with
  | None => AErr EBadFieldTypeStruct
  | Some (_, fs) =>
      do oc <- oc_fields (q_sp q) fs (MkOC (v_name v) None None None false None);
      need negb (is_some (oc_update oc) && negb (oc_has_target oc)) or EMissingOnConflictTarget;
      AOk (set_onconflict_ (Some oc) q)
  end.

(** analysis.go:1402-1419, 1437-1454 *)
Definition limit_value (v : fvar) (t : gtype) : ares LimitField :=
  let val := tag_first (v_tag v) (B "sql") in
  do name <- (if bytes_eqb (v_name v) (B "_")
              then need negb (bytes_eqb val []) or EMissingTagValue; AOk []
              else need isIntegerType t or EBadFieldTypeInt; AOk (v_name v));
  match val with
  | [] => AOk (MkLimit name 0)
  | _ => match parse_uint 10 64 val with
         | Ok u => AOk (MkLimit name u)
         | _ => AErr EBadUIntegerTagValue
         end
  end.

(** analysis.go:1394-1424 *)
Definition analyzeLimit (e : env) (q : qstate) (v : fvar) (t : gtype) : ares qstate :=
  need isSelect (q_kind q) or EIllegalQueryField;
  need negb (is_some (q_limit q)) or EConflictingFieldOrDirective;
  do l <- limit_value v t;
  AOk (set_limit_ (Some l) q).
(** analysis.go:1429-1459 *)
Definition analyzeOffset (e : env) (q : qstate) (v : fvar) (t : gtype) : ares qstate :=
  need isSelect (q_kind q) or EIllegalQueryField;
  need negb (is_some (q_offset q)) or EConflictingFieldOrDirective;
  do l <- limit_value v t;
  AOk (set_offset_ (Some l) q).

(** analysis.go:1461-1471 *)
Definition analyzeErrorHandlerField (q : qstate) (v : fvar) (info : bool) : ares qstate :=
  need negb (is_some (q_errh q)) or EConflictingFieldOrDirective;
  AOk (set_errh_ (Some (MkErrH (v_name v) info)) q).
(** analysis.go:1473-1482 *)
Definition analyzeContextField (q : qstate) (v : fvar) : ares qstate :=
  need negb (is_some (q_ctx q)) or EConflictingFieldOrDirective;
  AOk (set_ctx_ (Some (v_name v)) q).
(** analysis.go:1484-1499 *)
Definition analyzeFilterField (q : qstate) (v : fvar) : ares qstate :=
  do _ <- where_allowed q;
  AOk (set_filter_ (Some (v_name v)) q).

(** analysis.go:1514-1519, 1532-1537, 1630-1635 *)
Definition output_allowed (q : qstate) : ares unit :=
  need is_write (q_kind q) or EIllegalQueryField;
  ensure (negb (has_output q)) EConflictingResultTarget.

(** analysis.go:1513-1529 *)
Definition analyzeResultField (e : env) (q : qstate) (v : fvar) (t : gtype) : ares qstate :=
  do _ <- output_allowed q;
  do rt <- analyzeRelType e (q_sp q) t;
  AOk (set_result_ (Some (MkResult (v_name v) rt)) q).
(** analysis.go:1531-1549 *)
Definition analyzeRowsAffectedField (e : env) (q : qstate) (v : fvar) (t : gtype) : ares qstate :=
  do _ <- output_allowed q;
  need isIntegerType t or EBadFieldTypeInt;
  AOk (set_rows_ (Some (MkRows (v_name v) (analyzeTypeKind t))) q).

(** analysis.go:1568-1595: one item; [None] for an empty one *)
Definition order_tag (sp : relspace) (val : bytes) : ares (option OrderByTagItem) :=
  match trim_space val with
  | [] => AOk None
  | c :: r =>
      let '(desc, val) := if beq c "-" then (true, r) else (false, c :: r) in
      do (nl, val) <-
        match cut_first ":" val with
        | Some (a, b) =>
            if bytes_eqb b (B "nullsfirst") then AOk (NullsFirst, a)
            else if bytes_eqb b (B "nullslast") then AOk (NullsLast, a)
            else AErr EBadNullsOrderTagValue
        | None => AOk (NullsDefault, val)
        end;
      do id <- lift (parseColIdent sp val);
      AOk (Some (MkOrder id desc nl))
  end.
Fixpoint order_tags (sp : relspace) (tags : list bytes) : ares (list OrderByTagItem) :=
  match tags with
  | [] => AOk []
  | v :: r =>
      do o <- order_tag sp v;
      do l <- order_tags sp r;
      AOk (match o with Some i => i :: l | None => l end)
  end.
(** analysis.go:1556-1602 *)
Definition analyzeOrderByDirective (e : env) (q : qstate) (v : fvar) (t : gtype) : ares qstate :=
  need isSelect (q_kind q) or EIllegalQueryField;
  let tags := tag_get (v_tag v) (B "sql") in
  need negb (match tags with [] => true | _ => false end) or EC EMissingColumnList;
  do items <- order_tags (q_sp q) tags;
  AOk (set_orderby_ (Some items) q).

(** analysis.go:1605-1624 *)
Definition analyzeOverrideDirective (e : env) (q : qstate) (v : fvar) (t : gtype) : ares qstate :=
  need is_insert (q_kind q) or EIllegalQueryField;
  let val := tolower (tag_first (v_tag v) (B "sql")) in
  if bytes_eqb val (B "system") then AOk (set_override_ (Some OverridingSystem) q)
  else if bytes_eqb val (B "user") then AOk (set_override_ (Some OverridingUser) q)
  else AErr EBadOverrideTagValue.

(** types.go:806-813 *)
Definition HasFieldWithColumn (rt : RelType) (name : bytes) : bool :=
  existsb (fun f => bytes_eqb (c_col (fi_col f)) name) (rt_fields rt).
(** analysis.go:1644-1648, 1703-1708, 1728-1732 *)
Definition known_columns (q : qstate) (l : ColIdentList) : ares unit :=
  ensure (forallb (fun id => HasFieldWithColumn (q_reltype q) (c_col id)) (l_items l)) EColumnFieldUnknown.

(** analysis.go:1626-1654 *)
Definition analyzeReturnDirective (e : env) (q : qstate) (v : fvar) (t : gtype) : ares qstate :=
  need negb (match rt_fields (q_reltype q) with [] => true | _ => false end) or EMissingRelField;
  do _ <- output_allowed q;
  do l <- lift (parseColIdentList (q_sp q) (tag_get (v_tag v) (B "sql")));
  do _ <- known_columns q l;
  AOk (set_return_ (Some l) q).
(** analysis.go:1656-1670 *)
Definition analyzeAllDirective (e : env) (q : qstate) (v : fvar) (t : gtype) : ares qstate :=
  need is_update (q_kind q) || is_delete (q_kind q) or EIllegalQueryField;
  need negb (is_update (q_kind q) && rt_slice (q_reltype q)) or EIllegalSliceUpdateModifier;
  need negb (has_where q) or EConflictingWhere;
  AOk (set_all_ true q).
(** analysis.go:1672-1687 *)
Definition analyzeDefaultDirective (e : env) (q : qstate) (v : fvar) (t : gtype) : ares qstate :=
  need is_insert (q_kind q) || is_update (q_kind q) or EIllegalQueryField;
  do l <- lift (parseColIdentList (q_sp q) (tag_get (v_tag v) (B "sql")));
  AOk (set_default_ (Some l) q).
(** analysis.go:1689-1714 *)
Definition analyzeForceDirective (e : env) (q : qstate) (v : fvar) (t : gtype) : ares qstate :=
  need is_insert (q_kind q) || is_update (q_kind q) or EIllegalQueryField;
  do l <- lift (parseColIdentList (q_sp q) (tag_get (v_tag v) (B "sql")));
  do _ <- known_columns q l;
  AOk (set_force_ (Some l) q).
(** analysis.go:1716-1738 *)
Definition analyzeOptionalDirective (e : env) (q : qstate) (v : fvar) (t : gtype) : ares qstate :=
  need isSelect (q_kind q) or EIllegalQueryField;
  do l <- lift (parseColIdentList (q_sp q) (tag_get (v_tag v) (B "sql")));
  do _ <- known_columns q l;
  AOk (set_optional_ (Some l) q).

Definition analyzer := env -> qstate -> fvar -> gtype -> ares qstate.

(** analysis.go:362-372 *)
Definition directive_analyzers : list (bytes * analyzer) :=
  [(B "all", analyzeAllDirective); (B "default", analyzeDefaultDirective);
   (B "force", analyzeForceDirective); (B "optional", analyzeOptionalDirective);
   (B "return", analyzeReturnDirective); (B "limit", analyzeLimit); (B "offset", analyzeOffset);
   (B "orderby", analyzeOrderByDirective); (B "override", analyzeOverrideDirective)].
(** analysis.go:361-379 *)
Definition analyzeQueryStructDirective (e : env) (q : qstate) (v : fvar) (t : gtype) (dir : bytes) : ares qstate :=
  match lookup (lower dir) directive_analyzers with
  | Some f => f e q v t
  | None => AErr EIllegalQueryField
  end.

(** analysis.go:383-393 *)
Definition field_analyzers : list (bytes * analyzer) :=
  [(B "where", analyzeWhereStruct); (B "join", analyzeJoinStruct); (B "from", analyzeJoinStruct);
   (B "using", analyzeJoinStruct); (B "onconflict", analyzeOnConflictStruct);
   (B "result", analyzeResultField); (B "limit", analyzeLimit); (B "offset", analyzeOffset);
   (B "rowsaffected", analyzeRowsAffectedField)].
(** analysis.go:382-420; a.named is in the package under analysis, so every
    field but those named _ is accessible (l.399). *)
Definition analyzeQueryStructField (e : env) (q : qstate) (v : fvar) (t : gtype) : ares qstate :=
  match lookup (tolower (v_name v)) field_analyzers with
  | Some f => f e q v t
  | None =>
      if bytes_eqb (v_name v) (B "_") then AOk q
      else
        do isf <- isFilterType t;
        if isf : bool then analyzeFilterField q v
        else if isErrorHandler t then analyzeErrorHandlerField q v false
        else if isErrorInfoHandler t then analyzeErrorHandlerField q v true
        else if IsContext t then analyzeContextField q v
        else AOk q
  end.

(** analysis.go:306-358 *)
Definition analyzeQueryStructRelField (e : env) (q : qstate) (v : fvar) (t : gtype) : ares qstate :=
  need negb (is_some (q_rel q)) or EConflictingRelTag;
  do rid <- lift (parseRelIdent (tag_first (v_tag v) (B "rel")));
  do sp <- lift (addToRelSpace (q_sp q) rid);
  let q := set_sp_ sp q in
  let set_rel rt dir q := set_rel_ (Some (MkRelF (v_name v) rid rt dir)) q in
  let fname := lower (v_name v) in
  if bytes_eqb fname (B "count") && isIntegerType t then
    need is_plain_select (q_kind q) or EIllegalQueryField;
    AOk (set_kind_ KSelectCount (set_rel zero_rt false q))
  else if bytes_eqb fname (B "exists") && isBoolType t then
    need is_plain_select (q_kind q) or EIllegalQueryField;
    AOk (set_kind_ KSelectExists (set_rel zero_rt false q))
  else if bytes_eqb fname (B "notexists") && isBoolType t then
    need is_plain_select (q_kind q) or EIllegalQueryField;
    AOk (set_kind_ KSelectNotExists (set_rel zero_rt false q))
  else
    do isdir <- (if bytes_eqb fname (B "_") then IsDirective (B "Relation") t else AOk false);
    if isdir : bool then
      need is_delete (q_kind q) or EIllegalQueryField;
      AOk (set_rel zero_rt true q)
    else
      do rt <- analyzeRelType e sp t;
      need negb ((is_insert (q_kind q) || is_update (q_kind q)) && rt_iter rt) or EIllegalQueryField;
      AOk (set_rel rt false q).

(** analysis.go:251-261 *)
Fixpoint rel_pass (e : env) (q : qstate) (fs : fields) : ares qstate :=
  match fs with
  | [] => AOk q
  | (v, t) :: fs =>
      if tag_has (v_tag v) (B "rel")
      then do q <- analyzeQueryStructRelField e q v t; rel_pass e q fs
      else rel_pass e q fs
  end.

(** analysis.go:267-287 *)
Definition field_pass1 (e : env) (q : qstate) (v : fvar) (t : gtype) : ares qstate :=
  if tag_has (v_tag v) (B "rel") then AOk q
  else
    do dir <- GetDirectiveName t;
    if bytes_eqb (v_name v) (B "_") && negb (bytes_eqb dir [])
    then analyzeQueryStructDirective e q v t dir
    else analyzeQueryStructField e q v t.
Fixpoint field_pass (e : env) (q : qstate) (fs : fields) : ares qstate :=
  match fs with
  | [] => AOk q
  | (v, t) :: fs => do q <- field_pass1 e q v t; field_pass e q fs
  end.

(** analysis.go:233-248 *)
Definition query_kind (name : bytes) : ares qkind :=
  let key := firstn 6 (tolower name) in
  if bytes_eqb key (B "insert") then AOk KInsert
  else if bytes_eqb key (B "update") then AOk KUpdate
  else if bytes_eqb key (B "select") then AOk KSelect
  else if bytes_eqb key (B "delete") then AOk KDelete
  else APanic.

Definition new_query (k : qkind) : qstate :=
  MkQ k None None None None None None None None None None None None None None None None None false [].

(** analysis.go:229-303 *)
Definition analyzeQueryStruct (e : env) (name : bytes) (fs : fields) : ares qstate :=
  do k <- query_kind name;
  do q <- rel_pass e (new_query k) fs;
  need is_some (q_rel q) or EMissingRelField;
  field_pass e q fs.

(** ** The filter struct *)

(** types.go:60-69; FilterConstructorField is its name and IsV2. *)
Record fstate := MkF {
  fs_rel : option RelField; fs_ts : option ColIdent; fs_ctor : option (bytes * bool); fs_sp : relspace }.

(** analysis.go:161-217; tagutil's Contains is read as: one of the values of
    the key is the given text. *)
Definition filter_field (e : env) (q : fstate) (v : fvar) (t : gtype) : ares fstate :=
  let tg := v_tag v in
  if tag_has tg (B "rel") then
    need negb (is_some (fs_rel q)) or EConflictingRelTag;
    do rid <- lift (parseRelIdent (tag_first tg (B "rel")));
    do sp <- lift (addToRelSpace (fs_sp q) rid);
    do rt <- analyzeRelType e sp t;
    need negb (rt_iter rt) or EIllegalIteratorField;
    AOk (MkF (Some (MkRelF (v_name v) rid rt false)) (fs_ts q) (fs_ctor q) sp)
  else
    do dir <- GetDirectiveName t;
    if bytes_eqb (v_name v) (B "_") && negb (bytes_eqb dir []) then
      need bytes_eqb (lower dir) (B "textsearch") or EIllegalQueryField;
      do id <- lift (parseColIdent (fs_sp q) (lower (trim_space (tag_first tg (B "sql")))));
      AOk (MkF (fs_rel q) (Some id) (fs_ctor q) (fs_sp q))
    else if ImplementsGosqlFilterConstructor t then
      need negb (is_some (fs_ctor q)) or EConflictingFilterConstructor;
      AOk (MkF (fs_rel q) (fs_ts q)
               (Some (v_name v, existsb (bytes_eqb (B "v2")) (tag_get tg (B "filter")))) (fs_sp q))
    else AOk q.
Fixpoint filter_fields (e : env) (q : fstate) (fs : fields) : ares fstate :=
  match fs with
  | [] => AOk q
  | (v, t) :: fs => do q <- filter_field e q v t; filter_fields e q fs
  end.

(** analysis.go:157-226 *)
Definition analyzeFilterStruct (e : env) (fs : fields) : ares fstate :=
  do q <- filter_fields e (MkF None None None []) fs;
  need is_some (fs_rel q) or EMissingRelField;
  need is_some (fs_ctor q) or EMissingFilterConstructor;
  AOk q.

(** analysis.go:91-125 *)
Definition Run (e : env) (name : bytes) (t : gtype) : ares (qstate + fstate) :=
  match t with
  | TStruct fs =>
      if has_prefix (B "filter") (lower name)
      then do f <- analyzeFilterStruct e fs; AOk (inr f)
      else do q <- analyzeQueryStruct e name fs; AOk (inl q)
  | _ => APanic
  end.
