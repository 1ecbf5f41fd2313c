(** Model of the cache of relation types (internal/analysis/analysis.go:423-517,
    2350-2353) and of the analysis of the structs of a run of the command
    (internal/command/command.go:64-98), which share this cache.

    Simplifications.  FieldMap, which holds positions for error messages, is left
    out.  The names of the parameters of a func type and the tags of the fields of
    a struct literal are not in the text of the type ([typeString]); a struct
    literal is never stored. *)
From Coq Require Import Decimal DecimalString Ascii String ZArith NArith Bool List.
From Verif Require Import GoBase Strconv ConvertUtil Filter AParse Analysis.
Import ListNotations.
Local Open Scope string_scope.
Local Open Scope list_scope.

(** ** types.Type.String *)

Definition basic_name (k : basic) (isbyte isrune : bool) : bytes :=
  if isbyte then B "byte" else if isrune then B "rune"
  else match k with
       | BBool => B "bool" | BInt => B "int" | BInt8 => B "int8" | BInt16 => B "int16" | BInt32 => B "int32"
       | BInt64 => B "int64" | BUint => B "uint" | BUint8 => B "uint8" | BUint16 => B "uint16"
       | BUint32 => B "uint32" | BUint64 => B "uint64" | BUintptr => B "uintptr" | BFloat32 => B "float32"
       | BFloat64 => B "float64" | BComplex64 => B "complex64" | BComplex128 => B "complex128"
       | BString => B "string" | BUnsafePointer => B "unsafe.Pointer"
       end.
Definition nameString (n : tname) : bytes :=
  match n_pkg n with Some (p, _) => p ++ B "." ++ n_name n | None => n_name n end.
Definition commas (sep : bytes) (l : list bytes) : bytes := join sep l.
Fixpoint typeString (t : gtype) : bytes :=
  match t with
  | TBasic k b r => basic_name k b r
  | TNamed n _ => nameString n
  | TPtr u => B "*" ++ typeString u
  | TSlice u => B "[]" ++ typeString u
  | TArray n u => B "[" ++ list_ascii_of_string (NilEmpty.string_of_int (Z.to_int n)) ++ B "]" ++ typeString u
  | TMap k u => B "map[" ++ typeString k ++ B "]" ++ typeString u
  | TChan u => B "chan " ++ typeString u
  | TFunc ps rs =>
      B "func(" ++ commas (B ", ") (map typeString ps) ++ B ")" ++
      match rs with
      | [] => []
      | [r] => B " " ++ typeString r
      | _ => B " (" ++ commas (B ", ") (map typeString rs) ++ B ")"
      end
  | TIface ms _ _ _ =>
      B "interface{" ++
      commas (B "; ")
        (map (fun '(m, _, (ps, rs)) =>
                m ++ B "(" ++ commas (B ", ") (map typeString ps) ++ B ")" ++
                match rs with
                | [] => []
                | [r] => B " " ++ typeString r
                | _ => B " (" ++ commas (B ", ") (map typeString rs) ++ B ")"
                end) ms) ++ B "}"
  | TStruct fs => B "struct{" ++ commas (B "; ") (map (fun '(v, u) => v_name v ++ B " " ++ typeString u) fs) ++ B "}"
  end.

(** ** The cache *)

Definition cache := list (bytes * RelType).

(** analysis.go:439-493: the base type and its name, whether it is pointed to, a
    slice, an array and its length, an iterator and its method *)
Record shape := MkShape {
  sh_name : option tname; sh_base : gtype; sh_ptr : bool; sh_slice : bool; sh_array : bool; sh_len : Z;
  sh_iter : bool; sh_method : bytes }.
Definition shapeOf (e : env) (t : gtype) : ares shape :=
  let '(n, u) := match t with TNamed n u => (Some n, u) | _ => (None, t) end in
  match u with
  | TIface ms _ _ _ =>
      match ms with
      | [(mname, mexp, (ps, rs))] =>
          do ok <- isAccessible e mname mexp n;
          if ok then
            match analyzeIteratorFunction ps rs with
            | Some (n, u, isptr) => AOk (MkShape (Some n) u isptr false false 0 true mname)
            | None => AErr EBadIterTypeInterface
            end
          else AErr EBadIterTypeInterface
      | _ => AErr EBadIterTypeInterface
      end
  | TFunc ps rs =>
      match analyzeIteratorFunction ps rs with
      | Some (n, u, isptr) => AOk (MkShape (Some n) u isptr false false 0 true [])
      | None => AErr EBadIterTypeFunc
      end
  | _ =>
      let '(u, slice, array, len) :=
        match u with
        | TSlice v => (v, true, false, 0%Z)
        | TArray k v => (v, false, true, k)
        | _ => (u, false, false, 0%Z)
        end in
      let '(u, isptr) := match u with TPtr v => (v, true) | _ => (u, false) end in
      if slice || array || isptr then
        match u with
        | TNamed n v => AOk (MkShape (Some n) v isptr slice array len false [])
        | _ => AErr EBadRelType
        end
      else AOk (MkShape n u isptr slice array len false [])
  end.

(** The fields that are in rt.Fields when the loop of analyzeFieldInfoList ends,
    also if it ends with an error (analysis.go:533-640). *)
Fixpoint fields_upto (fuel : nat) (e : env) (sp : relspace) (stack : list frame) (out : list FieldInfo) : list FieldInfo :=
  match fuel with
  | O => out
  | S fuel =>
      match stack with
      | [] => out
      | fr :: rest =>
          match fr_fields fr with
          | [] => fields_upto fuel e sp rest out
          | (v, t) :: fs =>
              let fr' := MkFrame fs (fr_imported fr) (fr_pfx fr) (fr_sel fr) in
              match field_step e sp fr v t with
              | AOk FSkip => fields_upto fuel e sp (fr' :: rest) out
              | AOk (FDescend f) => fields_upto fuel e sp (f :: fr' :: rest) out
              | AOk (FLeaf f) => fields_upto fuel e sp (fr' :: rest) (out ++ [f])
              | _ => out
              end
          end
      end
  end.

(** What the pointer stored at l.505-507 refers to when the analysis is over.
    Types without a name are not stored. *)
Definition kept (e : env) (sp : relspace) (t : gtype) : option RelType :=
  match shapeOf e t with
  | AOk s =>
      match sh_name s with
      | Some n =>
          match n_pkg n with
          | Some (p, pn) =>
              let im := negb (bytes_eqb p (e_pkg e)) in
              Some (MkRT (MkTI (n_name n) (analyzeTypeKind (sh_base s)) p pn im no_flags false false false 0 None None)
                         (sh_ptr s) (sh_slice s) (sh_array s) (sh_len s) (sh_iter s) (sh_method s) (n_afterscan n)
                         (match sh_base s with
                          | TStruct fs => fields_upto (S (S (tsize (TStruct fs)))) e sp [MkFrame fs im [] []] []
                          | _ => []
                          end))
          | None => None
          end
      | None => None
      end
  | _ => None
  end.

(** analysis.go:423-517 *)
Definition relTypeC (e : env) (sp : relspace) (c : cache) (t : gtype) : ares RelType * cache :=
  match lookup (typeString t) c with
  | Some rt => (AOk rt, c)
  | None => (analyzeRelType e sp t,
             match kept e sp t with Some rt => (typeString t, rt) :: c | None => c end)
  end.

(** ** The analysis with the cache *)

Definition after {A C} (x : ares A) (c : cache) (f : A -> ares C * cache) : ares C * cache :=
  match x with AOk a => f a | AErr e => (AErr e, c) | APanic => (APanic, c) end.

(** analysis.go:1513-1529 *)
Definition resultFieldC (e : env) (c : cache) (q : qstate) (v : fvar) (t : gtype) : ares qstate * cache :=
  after (output_allowed q) c (fun _ =>
    let '(rt, c) := relTypeC e (q_sp q) c t in
    (do rt <- rt; AOk (set_result_ (Some (MkResult (v_name v) rt)) q), c)).

(** analysis.go:306-358 *)
Definition relFieldC (e : env) (c : cache) (q : qstate) (v : fvar) (t : gtype) : ares qstate * cache :=
  after (need negb (is_some (q_rel q)) or EConflictingRelTag;
         do rid <- lift (parseRelIdent (tag_first (v_tag v) (B "rel")));
         do sp <- lift (addToRelSpace (q_sp q) rid);
         AOk (rid, sp)) c (fun '(rid, sp) =>
    let q := set_sp_ sp q in
    let set_rel rt dir q := set_rel_ (Some (MkRelF (v_name v) rid rt dir)) q in
    let fname := lower (v_name v) in
    if bytes_eqb fname (B "count") && isIntegerType t then
      (need is_plain_select (q_kind q) or EIllegalQueryField;
       AOk (set_kind_ KSelectCount (set_rel zero_rt false q)), c)
    else if bytes_eqb fname (B "exists") && isBoolType t then
      (need is_plain_select (q_kind q) or EIllegalQueryField;
       AOk (set_kind_ KSelectExists (set_rel zero_rt false q)), c)
    else if bytes_eqb fname (B "notexists") && isBoolType t then
      (need is_plain_select (q_kind q) or EIllegalQueryField;
       AOk (set_kind_ KSelectNotExists (set_rel zero_rt false q)), c)
    else
      after (if bytes_eqb fname (B "_") then IsDirective (B "Relation") t else AOk false) c (fun isdir =>
        if isdir : bool then
          (need is_delete (q_kind q) or EIllegalQueryField;
           AOk (set_rel zero_rt true q), c)
        else
          let '(rt, c) := relTypeC e sp c t in
          (do rt <- rt;
           need negb ((is_insert (q_kind q) || is_update (q_kind q)) && rt_iter rt) or EIllegalQueryField;
           AOk (set_rel rt false q), c))).

(** analysis.go:251-261 *)
Fixpoint rel_passC (e : env) (c : cache) (q : qstate) (fs : fields) : ares qstate * cache :=
  match fs with
  | [] => (AOk q, c)
  | (v, t) :: fs =>
      if tag_has (v_tag v) (B "rel")
      then let '(x, c) := relFieldC e c q v t in after x c (fun q => rel_passC e c q fs)
      else rel_passC e c q fs
  end.

(** analysis.go:267-287, 382-420 *)
Definition field_pass1C (e : env) (c : cache) (q : qstate) (v : fvar) (t : gtype) : ares qstate * cache :=
  if tag_has (v_tag v) (B "rel") then (AOk q, c)
  else
    after (GetDirectiveName t) c (fun dir =>
      if bytes_eqb (v_name v) (B "_") && negb (bytes_eqb dir [])
      then (analyzeQueryStructDirective e q v t dir, c)
      else if bytes_eqb (tolower (v_name v)) (B "result") then resultFieldC e c q v t
      else (analyzeQueryStructField e q v t, c)).
Fixpoint field_passC (e : env) (c : cache) (q : qstate) (fs : fields) : ares qstate * cache :=
  match fs with
  | [] => (AOk q, c)
  | (v, t) :: fs => let '(x, c) := field_pass1C e c q v t in after x c (fun q => field_passC e c q fs)
  end.

(** analysis.go:229-303 *)
Definition queryStructC (e : env) (c : cache) (name : bytes) (fs : fields) : ares qstate * cache :=
  after (query_kind name) c (fun k =>
    let '(x, c) := rel_passC e c (new_query k) fs in
    after (do q <- x; need is_some (q_rel q) or EMissingRelField; AOk q) c (fun q => field_passC e c q fs)).

(** analysis.go:161-217 *)
Definition filter_fieldC (e : env) (c : cache) (q : fstate) (v : fvar) (t : gtype) : ares fstate * cache :=
  let tg := v_tag v in
  if tag_has tg (B "rel") then
    after (need negb (is_some (fs_rel q)) or EConflictingRelTag;
           do rid <- lift (parseRelIdent (tag_first tg (B "rel")));
           do sp <- lift (addToRelSpace (fs_sp q) rid);
           AOk (rid, sp)) c (fun '(rid, sp) =>
      let '(rt, c) := relTypeC e sp c t in
      (do rt <- rt;
       need negb (rt_iter rt) or EIllegalIteratorField;
       AOk (MkF (Some (MkRelF (v_name v) rid rt false)) (fs_ts q) (fs_ctor q) sp), c))
  else (filter_field e q v t, c).
Fixpoint filter_fieldsC (e : env) (c : cache) (q : fstate) (fs : fields) : ares fstate * cache :=
  match fs with
  | [] => (AOk q, c)
  | (v, t) :: fs => let '(x, c) := filter_fieldC e c q v t in after x c (fun q => filter_fieldsC e c q fs)
  end.
(** analysis.go:157-226 *)
Definition filterStructC (e : env) (c : cache) (fs : fields) : ares fstate * cache :=
  let '(x, c) := filter_fieldsC e c (MkF None None None []) fs in
  (do q <- x;
   need is_some (fs_rel q) or EMissingRelField;
   need is_some (fs_ctor q) or EMissingFilterConstructor;
   AOk q, c).

(** analysis.go:91-125 *)
Definition RunC (e : env) (c : cache) (name : bytes) (t : gtype) : ares (qstate + fstate) * cache :=
  match t with
  | TStruct fs =>
      if has_prefix (B "filter") (lower name)
      then let '(x, c) := filterStructC e c fs in (do f <- x; AOk (inr f), c)
      else let '(x, c) := queryStructC e c name fs in (do q <- x; AOk (inl q), c)
  | _ => (APanic, c)
  end.

(** ** Runs *)

(** A struct to analyse: the path of its package, its name, its type *)
Record target := MkTarget { g_pkg : bytes; g_name : bytes; g_type : gtype }.
(** The options are those of the command; the package is that of the struct. *)
Definition in_package (cfg : env) (g : target) : env := MkEnv (g_pkg g) (e_fcktag cfg) (e_fcksep cfg) (e_fckbase cfg).

(** Calls of analysis.Run, one after the other *)
Fixpoint analyses (cfg : env) (c : cache) (l : list target) : list (ares (qstate + fstate)) :=
  match l with
  | [] => []
  | g :: r => let '(x, c) := RunC (in_package cfg g) c (g_name g) (g_type g) in x :: analyses cfg c r
  end.

(** command.go:64-98: the command gives up at the first error *)
Fixpoint session (cfg : env) (c : cache) (l : list target) : list (ares (qstate + fstate)) :=
  match l with
  | [] => []
  | g :: r =>
      let '(x, c) := RunC (in_package cfg g) c (g_name g) (g_type g) in
      x :: match x with AOk _ => session cfg c r | _ => [] end
  end.
