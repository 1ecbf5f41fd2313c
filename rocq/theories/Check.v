(** Model of internal/postgres/postgres.go: the type checker that compares an
    analysed struct with the database and hands the result to the generator.

    The database is an input of the model: what the queries on the system
    catalogs return, and the type of each literal expression.  Left out:
    failures of the connection, the contents of error values beyond their code
    (so also the field [wb] of the checker), logging, locking, and the cache of
    relations, which is read as always holding what the database holds. *)
From Coq Require Import Ascii String ZArith NArith Bool List.
From Verif Require Import GoBase Strconv Utf8 AParse Analysis Oids Compat Gen.
Import ListNotations.
Local Open Scope string_scope.
Local Open Scope list_scope.

(** ** Results *)

(** errors.go:17-67, without the codes for failures of the connection *)
Inductive dbcode :=
| DRelationUnknown | DColumnUnknownType
| DColumnUnknown | DColumnDefaultUnset | DColumnTextSearchType | DColumnFieldTypeWrite | DColumnFieldTypeRead
| DColumnFieldComparison | DColumnQualifierUnknown | DColumnComparison
| DPredicateOperandQuantifier | DPredicateOperandArray | DPredicateOperandBool | DPredicateOperandNull
| DPredicateLiteralExpr | DBetweenColumnComparison | DBetweenFieldComparison | DProcedureUnknown
| DIndexUnknown | DIndexNotUnique | DIndexColumnsUnknown | DIndexColumnsNotUnique
| DConstraintUnknown | DConstraintNotUnique.

Inductive cres (A : Type) := COk (a : A) | CErr (e : dbcode) | CPanic.
Arguments COk {A} a. Arguments CErr {A} e. Arguments CPanic {A}.
Definition cbind {A C} (r : cres A) (f : A -> cres C) : cres C :=
  match r with COk a => f a | CErr e => CErr e | CPanic => CPanic end.
Notation "'chk' x <- a ; b" := (cbind a (fun x => b)) (at level 200, x pattern, a at level 100, b at level 200).
Definition orelse {A} (o : option A) (e : dbcode) : cres A := match o with Some a => COk a | None => CErr e end.
(** A nil pointer is dereferenced. *)
Definition deref {A} (o : option A) : cres A := match o with Some a => COk a | None => CPanic end.
Definition insist (b : bool) (e : dbcode) : cres unit := if b then COk tt else CErr e.

Fixpoint check_all {A C} (f : A -> cres C) (l : list A) : cres (list C) :=
  match l with [] => COk [] | a :: r => chk c <- f a; chk cs <- check_all f r; COk (c :: cs) end.
Fixpoint somes {A} (l : list (option A)) : list A :=
  match l with [] => [] | Some a :: r => a :: somes r | None :: r => somes r end.

(** ** The database *)

(** enums.go:56-66 (constraint types), 68-75 (cast contexts) *)
Inductive contype := ConCheck | ConFKey | ConPKey | ConUnique | ConTrigger | ConExclusion.
Inductive castctx := CastExplicit | CastImplicit | CastAssignment.

(** types.go:149-177: Types by OID, Operators by name, left and right type,
    Casts by target and source, Procs by name with the argument's and the
    result's type.  The order of [cat_ops] is the order in which the loop over
    the map Operators meets its keys. *)
Record catalog := MkCat {
  cat_types : list pgtype;
  cat_ops : list (bytes * N * N);
  cat_casts : list (N * N * castctx);
  cat_procs : list (bytes * list (N * N)) }.

(** The rows that loadRelation reads (postgres.go:1806-1985). *)
Record colrow := MkColRow {
  cr_num : Z; cr_name : bytes; cr_typmod : Z; cr_notnull : bool; cr_hasdef : bool; cr_primary : bool; cr_type : N }.
Record ixrow := MkIxRow {
  ir_name : bytes; ir_unique : bool; ir_primary : bool; ir_key : list Z; ir_def : bytes; ir_pred : bytes }.
Record relrow := MkRelRow {
  rr_oid : N; rr_table : bool; rr_cols : list colrow; rr_cons : list (bytes * contype); rr_ixs : list ixrow }.

(** [db_rels] by the name given to to_regclass, [db_lit] the type that
    pg_typeof reports for a literal expression. *)
Record database := MkDB { db_cat : catalog; db_rels : bytes -> option relrow; db_lit : bytes -> option N }.

(** types.go:181-310 *)
Record index := MkIx {
  ix_name : bytes; ix_unique : bool; ix_primary : bool; ix_key : list Z; ix_expr : bytes; ix_pred : bytes }.
Record relation := MkRelation {
  rel_oid : N; rel_cols : list column; rel_cons : list (bytes * contype); rel_ixs : list index }.

Definition find_type (k : catalog) (o : N) : option pgtype := find (fun t => N.eqb (ty_oid t) o) (cat_types k).
Definition op_eqb (a b : bytes * N * N) : bool :=
  bytes_eqb (fst (fst a)) (fst (fst b)) && N.eqb (snd (fst a)) (snd (fst b)) && N.eqb (snd a) (snd b).
Definition has_op (k : catalog) (name : bytes) (l r : N) : bool := existsb (op_eqb (name, l, r)) (cat_ops k).
Definition find_cast (k : catalog) (target source : N) : option castctx :=
  match find (fun c => N.eqb (fst (fst c)) target && N.eqb (snd (fst c)) source) (cat_casts k) with
  | Some c => Some (snd c)
  | None => None
  end.

(** ** Index definitions *)

(** postgres.go:2088: the regular expression (?i:\susing\s) at the start of
    the text; what follows it.  U+017F folds to s. *)
Definition is_ws (c : ascii) : bool := existsb (N.eqb (code c)) [9; 10; 12; 13; 32]%N.
Definition either (lower : ascii) (c : ascii) : bool := beq (low c) lower.
Definition using_end (s : bytes) : option bytes :=
  match s with
  | i :: n :: g :: w :: r =>
      if either "i" i && either "n" n && either "g" g && is_ws w then Some r else None
  | _ => None
  end.
Definition using_at (s : bytes) : option bytes :=
  match s with
  | w :: u :: r =>
      if is_ws w && either "u" u then
        match r with
        | c :: r' =>
            if either "s" c then using_end r'
            else match r' with
                 | d :: r'' => if N.eqb (code c) 197 && N.eqb (code d) 191 then using_end r'' else None
                 | [] => None
                 end
        | [] => None
        end
      else None
  | _ => None
  end.
(** FindStringIndex: what follows the leftmost match. *)
Fixpoint find_using (s : bytes) : option bytes :=
  match using_at s with
  | Some r => Some r
  | None => match s with [] => None | _ :: r => find_using r end
  end.

(** postgres.go:2103-2132: the loop over the runes; [pos] is the offset in the
    text, [skip] the number of bytes left of the current rune, [last] the
    offset of the last rune seen.  s[position+1] beyond the end panics. *)
Fixpoint ix_loop (s : bytes) (skip pos last nested : nat) (quoted escaped : bool) : res nat :=
  match s with
  | [] => Ok last
  | c :: r =>
      match skip with
      | S k => ix_loop r k (S pos) last nested quoted escaped
      | O =>
          let k := (snd (decode_rune s) - 1)%nat in
          if negb quoted then
            if beq c "(" then ix_loop r k (S pos) pos (S nested) quoted escaped
            else if beq c ")" then
              match nested with
              | O => Ok pos
              | S n => ix_loop r k (S pos) pos n quoted escaped
              end
            else if beq c "'" then ix_loop r k (S pos) pos nested true escaped
            else ix_loop r k (S pos) pos nested quoted escaped
          else if beq c "'" then
            match r with
            | [] => Panic
            | d :: _ =>
                if beq d "'" then ix_loop r k (S pos) pos nested quoted true
                else if escaped then ix_loop r k (S pos) pos nested quoted false
                else ix_loop r k (S pos) pos nested false escaped
            end
          else ix_loop r k (S pos) pos nested quoted escaped
      end
  end.

(** strings.Index(s, "("): what follows the first parenthesis *)
Fixpoint after_paren (s : bytes) : option bytes :=
  match s with [] => None | c :: r => if beq c "(" then Some r else after_paren r end.

(** postgres.go:2090-2135 *)
Definition parseIndexExpr (def : bytes) : res bytes :=
  let s := match find_using def with Some r => r | None => def end in
  match after_paren s with
  | None => Ok []
  | Some s => rmap (fun n => firstn n s) (ix_loop s 0 0 0 0 false false)
  end.

(** postgres.go:2069-2086 *)
Definition matchNumbers (a b : list Z) : bool :=
  Nat.eqb (List.length a) (List.length b) && forallb (fun x => existsb (Z.eqb x) b) a.

(** ** Relations *)

(** analysis/types.go:815-820 *)
Definition QualifiedName (id : RelIdent) : bytes :=
  match r_qual id with [] => r_name id | q => q ++ B "." ++ r_name id end.
(** postgres.go:2062-2067 *)
Definition relIdentKey (id : RelIdent) : bytes := match r_alias id with [] => r_name id | a => a end.

(** postgres.go:1832-1882 *)
Definition load_column (k : catalog) (table : bool) (oid : N) (r : colrow) : cres column :=
  chk t <- orelse (find_type k (cr_type r)) DColumnUnknownType;
  COk (MkCo (cr_num r) (cr_name r) (cr_typmod r) (cr_notnull r) (cr_hasdef r) (cr_primary r) t table oid).
(** postgres.go:1938-1981 *)
Definition load_index (r : ixrow) : cres index :=
  match parseIndexExpr (ir_def r) with
  | Ok e => COk (MkIx (ir_name r) (ir_unique r) (ir_primary r) (ir_key r) e (ir_pred r))
  | _ => CPanic
  end.
(** postgres.go:1806-1985 *)
Definition loadRelation (db : database) (id : RelIdent) : cres relation :=
  chk r <- orelse (db_rels db (QualifiedName id)) DRelationUnknown;
  chk cols <- check_all (load_column (db_cat db) (rr_table r) (rr_oid r)) (rr_cols r);
  chk ixs <- check_all load_index (rr_ixs r);
  COk (MkRelation (rr_oid r) cols (rr_cons r) ixs).

(** The state of the checker (postgres.go:95-116).  Two pointers to relations
    are equal if and only if the relations were loaded for the same identifier
    (postgres.go:1809-1811, 1983), so a relation comes with its identifier.
    [ck_map]: later entries come first. *)
Record checker := MkCk {
  ck_db : database; ck_rid : RelIdent; ck_rel : relation; ck_map : list (bytes * (RelIdent * relation));
  ck_force : option ColIdentList; ck_optional : option ColIdentList }.
Definition ck_cat (c : checker) : catalog := db_cat (ck_db c).

(** postgres.go:1780-1796 *)
Definition loadTargetRelation (db : database) (rf : RelField) : cres checker :=
  let id := rf_id rf in
  chk rel <- loadRelation db id;
  COk (MkCk db id rel [(relIdentKey id, (id, rel)); ([], (id, rel))] None None).
(** postgres.go:1798-1804 *)
Definition loadJoinRelation (c : checker) (id : RelIdent) : cres (checker * relation) :=
  chk rel <- loadRelation (ck_db c) id;
  COk (MkCk (ck_db c) (ck_rid c) (ck_rel c) ((relIdentKey id, (id, rel)) :: ck_map c) (ck_force c) (ck_optional c),
       rel).

(** postgres.go:1544-1575 *)
Definition findRelColumn (r : relation) (name : bytes) : option column :=
  find (fun c => bytes_eqb (co_name c) name) (rel_cols r).
Definition findRelIndex (r : relation) (name : bytes) : option index :=
  find (fun i => bytes_eqb (ix_name i) name) (rel_ixs r).
Definition findRelConstraint (r : relation) (name : bytes) : option (bytes * contype) :=
  find (fun k => bytes_eqb (fst k) name) (rel_cons r).
(** postgres.go:1527-1542; the column comes with its relation. *)
Definition findColumn (c : checker) (id : ColIdent) : cres (RelIdent * column) :=
  match Filter.lookup (c_qual id) (ck_map c) with
  | Some (rid, rel) => chk col <- orelse (findRelColumn rel (c_col id)) DColumnUnknown; COk (rid, col)
  | None => CErr DColumnQualifierUnknown
  end.

(** ** Types *)

(** analysis/enums.go:67-96 *)
Definition basic_text (b : basic) : bytes :=
  B match b with
    | BBool => "bool" | BInt => "int" | BInt8 => "int8" | BInt16 => "int16" | BInt32 => "int32" | BInt64 => "int64"
    | BUint => "uint" | BUint8 => "uint8" | BUint16 => "uint16" | BUint32 => "uint32" | BUint64 => "uint64"
    | BUintptr => "uintptr" | BFloat32 => "float32" | BFloat64 => "float64" | BComplex64 => "complex64"
    | BComplex128 => "complex128" | BString => "string" | BUnsafePointer => ""
    end.

(** analysis.go:2226-2269 with pkgLocal false.  The information on an array,
    slice, map or pointer type always has an element. *)
Fixpoint literal (elide : bool) (t : TypeInfo) {struct t} : bytes :=
  match t with
  | MkTI name k _ pkg _ _ empty isbyte isrune len key elem =>
      match name with
      | _ :: _ => match pkg with [] => name | _ => pkg ++ B "." ++ name end
      | [] =>
          let el := match elem with Some e => literal false e | None => B "<nil>" end in
          match k with
          | KArray => B "[" ++ format_int 10 len ++ B "]" ++ el
          | KSlice => B "[]" ++ el
          | KMap => B "map[" ++ match key with Some x => literal false x | None => B "<nil>" end ++ B "]" ++ el
          | KPtr => if elide then el else B "*" ++ el
          | KBasic BUint8 => if isbyte then B "byte" else B "uint8"
          | KBasic BInt32 => if isrune then B "rune" else B "int32"
          | KBasic b => basic_text b
          | KInterface => if empty then B "interface{}" else B "<unsupported>"
          | KStruct | KChan | KFunc => B "<unsupported>"
          | KInvalid => B "<invalid>"
          end
      end
  end.
Definition kind_basic (k : kind) : bool := match k with KBasic _ => true | _ => false end.
(** analysis.go:2209-2220 *)
Definition GenericLiteral (t : TypeInfo) : bytes :=
  match t_kind t with
  | KBasic b => if t_byte t then B "byte" else if t_rune t then B "rune" else basic_text b
  | _ => literal true t
  end.

(** analysis.go:2275-2282 for one kind, 2286-2295, 2318-2346 *)
Definition kind_is (f : kind -> bool) (t : TypeInfo) : bool :=
  f (t_kind t) || (kind_ptr (t_kind t) && match t_elem t with Some e => f (t_kind e) | None => false end).
Definition flag_is (f : tflags -> bool) (t : TypeInfo) : bool :=
  f (t_flags t) || (kind_ptr (t_kind t) && match t_elem t with Some e => f (t_flags e) | None => false end).
Definition IsByteSlice (t : TypeInfo) : bool :=
  match t_kind t, t_elem t with
  | KSlice, Some e => match t_kind e with KBasic BUint8 => true | _ => false end
  | _, _ => false
  end.
Definition IsString (t : TypeInfo) : bool := kind_is (fun k => match k with KBasic BString => true | _ => false end) t.
Definition IsJSONIllegal (t : TypeInfo) : bool :=
  kind_is (fun k => match k with KChan | KFunc | KBasic BComplex64 | KBasic BComplex128 => true | _ => false end) t.
Definition IsXMLIllegal (t : TypeInfo) : bool :=
  kind_is (fun k => match k with KChan | KFunc | KMap => true | _ => false end) t.

(** analysis/types.go:676-701 *)
Definition IsReadOnly (f : FieldInfo) : bool :=
  existsb (fun s => mode_IsReadOnly (sn_mode s)) (fi_sel f) || mode_IsReadOnly (fi_mode f).
Definition IsWriteOnly (f : FieldInfo) : bool :=
  existsb (fun s => mode_IsWriteOnly (sn_mode s)) (fi_sel f) || mode_IsWriteOnly (fi_mode f).
Definition ExcludeFromFilter (f : FieldInfo) : bool :=
  existsb (fun s => negb (m_filter (sn_mode s))) (fi_sel f) || negb (m_filter (fi_mode f)).

Definition is_string (t : pgtype) : bool := match ty_cat t with CatString => true | _ => false end.
Definition is_array (t : pgtype) : bool := match ty_cat t with CatArray => true | _ => false end.

(** The lookup compatibility.oid2literal[key][lit] *)
Definition compat (o : N) (typmod1 : bool) (lit : bytes) : option compentry :=
  match find (fun r => N.eqb (fst (fst r)) o && Bool.eqb (snd (fst r)) typmod1) oid2literal with
  | Some r => Filter.lookup lit (snd r)
  | None => None
  end.
(** postgres.go:2005-2032 *)
Definition typeCompatibility (k : catalog) (ct : pgtype) (ft : TypeInfo) (typmod1 : bool) : option compentry :=
  let lit := GenericLiteral ft in
  let o := if ty_enum ct then oid_Text else ty_oid ct in
  match compat o typmod1 lit with
  | Some e => Some e
  | None =>
      match ty_cat ct with
      | CatString => compat oid_Text typmod1 lit
      | CatArray =>
          compat (match find_type k (ty_elem ct) with
                  | Some et => if is_string et then oid_TextArr else o
                  | None => o
                  end) typmod1 lit
      | _ => None
      end
  end.
(** postgres.go:2046-2060 *)
Definition isLength1Type (k : catalog) (c : column) : cres bool :=
  chk t <- (if is_array (co_type c) then deref (find_type k (ty_elem (co_type c))) else COk (co_type c));
  COk (match ty_cat t with
       | CatBitstring => Z.eqb (co_typmod c) 1
       | CatString => Z.eqb (co_typmod c - 4) 1
       | _ => false
       end).

(** enums.go:77-103 *)
Definition oprname (p : predicate) : bytes :=
  B match p with
    | IsEQ => "=" | NotEQ => "<>" | NotEQ2 => "<>" | IsLT => "<" | IsGT => ">" | IsLTE => "<=" | IsGTE => ">="
    | IsMatch => "~" | IsMatchi => "~*" | NotMatch => "!~" | NotMatchi => "!~*"
    | IsDistinct => "<>" | NotDistinct => "="
    | IsLike => "~~" | NotLike => "!~~" | IsILike => "~~*" | NotILike => "!~~*"
    | IsSimilar => "~~" | NotSimilar => "!~~" | IsIn => "=" | NotIn => "<>"
    | _ => ""
    end.

(** postgres.go:961-1007; [r] is None for a nil type. *)
Definition typeCheckComparison (k : catalog) (l : pgtype) (r : option pgtype) (p : predicate) (q : quantifier)
    : cres unit :=
  chk r <- (if p_array p || quant_set q then
              chk r <- deref r;
              chk _ <- insist (is_array r) (if p_array p then DPredicateOperandArray else DPredicateOperandQuantifier);
              COk (find_type k (ty_elem r))
            else COk r);
  chk r <- deref r;
  let lo := ty_oid l in
  let ro := ty_oid r in
  let implicit (target source : N) : bool :=
    match find_cast k target source with
    | Some CastImplicit => has_op k (oprname p) target target
    | _ => false
    end in
  insist (N.eqb lo ro
          || ((is_string l || ty_enum l) && N.eqb ro oid_Unknown)
          || has_op k (oprname p) lo ro
          || (negb (N.eqb lo ro) && (implicit ro lo || implicit lo ro)))
         DColumnComparison.

(** postgres.go:1499-1521 *)
Definition checkTypeCoercion (k : catalog) (target source : N) : bool :=
  N.eqb target source || N.eqb target oid_Any || N.eqb source oid_Unknown
  || match find_cast k target source with Some CastImplicit | Some CastAssignment => true | _ => false end.

(** ** Conditions *)

(** postgres.go:726-733, 850-858 *)
Definition valuer_as_string (t : TypeInfo) : TypeInfo :=
  if negb (kind_basic (t_kind t)) && f_valuer (t_flags t) then plain_ti (KBasic BString) else t.

(** postgres.go:763-782: the loop over the operators; [best] is comp. *)
Fixpoint scan_ops (k : catalog) (name : bytes) (left : N) (ft : TypeInfo) (ops : list (bytes * N * N))
    (best : option compentry) : option compentry :=
  match ops with
  | [] => best
  | (n, l, r) :: rest =>
      if bytes_eqb n name && N.eqb l left then
        match find_type k r with
        | None => scan_ops k name left ft rest best
        | Some t =>
            match typeCompatibility k t ft false with
            | None => scan_ops k name left ft rest best
            | Some e =>
                match ce_valuer e with
                | [] => Some e
                | _ => scan_ops k name left ft rest (match best with Some b => Some b | None => Some e end)
                end
            end
        end
      else scan_ops k name left ft rest best
  end.

(** postgres.go:791-866: the types of the arguments of the pairs of functions
    whose results can be compared. *)
Fixpoint proc_pairs (k : catalog) (p : predicate) (q : quantifier) (pairs : list ((N * N) * (N * N)))
    : cres (list (pgtype * pgtype)) :=
  match pairs with
  | [] => COk []
  | ((la, lr), (ra, rr)) :: rest =>
      match find_type k lr, find_type k rr with
      | Some lt, Some rt =>
          match typeCheckComparison k lt (Some rt) p q with
          | COk _ =>
              match find_type k la, find_type k ra with
              | Some x, Some y => chk l <- proc_pairs k p q rest; COk ((x, y) :: l)
              | _, _ => proc_pairs k p q rest
              end
          | CErr _ => proc_pairs k p q rest
          | CPanic => CPanic
          end
      | _, _ => proc_pairs k p q rest
      end
  end.
Definition typeCheckFieldConditionalWithFunc (k : catalog) (f : fcond) : cres bytes :=
  chk procs <- orelse (Filter.lookup (fc_func f) (cat_procs k)) DProcedureUnknown;
  chk pairs <- proc_pairs k (fc_pred f) (fc_quant f) (list_prod procs procs);
  let ft := valuer_as_string (fc_type f) in
  let found := flat_map (fun pr => if checkTypeCoercion k (ty_oid (fst pr)) (ty_oid (co_type (fc_col f)))
                                   then match typeCompatibility k (snd pr) ft false with
                                        | Some e => [ce_valuer e]
                                        | None => []
                                        end
                                   else []) pairs in
  match found with v :: _ => COk v | [] => CErr DProcedureUnknown end.

(** postgres.go:714-789: the valuer to be used *)
Definition typeCheckFieldConditional (k : catalog) (f : fcond) : cres bytes :=
  match fc_func f with
  | _ :: _ => typeCheckFieldConditionalWithFunc k f
  | [] =>
      let ct := co_type (fc_col f) in
      let ft := valuer_as_string (fc_type f) in
      let co := if ty_enum ct then oid_Text else ty_oid ct in
      chk ct <- (if p_array (fc_pred f) || quant_set (fc_quant f) then
                   orelse (match find (fun e => N.eqb (fst e) (ty_oid ct)) TypeToArray with
                           | Some e => find_type k (snd e)
                           | None => None
                           end)
                          (if p_array (fc_pred f) then DPredicateOperandArray else DPredicateOperandQuantifier)
                 else COk ct);
      chk first <- (if has_op k (oprname (fc_pred f)) co co then
                      chk m <- isLength1Type k (fc_col f);
                      COk (typeCompatibility k ct ft m)
                    else COk None);
      match first with
      | Some e => COk (ce_valuer e)
      | None =>
          chk e <- orelse (scan_ops k (oprname (fc_pred f)) co ft (cat_ops k) None) DColumnFieldComparison;
          COk (ce_valuer e)
      end
  end.

Definition p_boolean (p : predicate) : bool :=
  match p with IsTrue | NotTrue | IsFalse | NotFalse | IsUnknown | NotUnknown => true | _ => false end.
Definition p_null (p : predicate) : bool := match p with IsNull | NotNull => true | _ => false end.
Definition rel_eqb (a b : RelIdent) : bool :=
  bytes_eqb (r_name a) (r_name b) && bytes_eqb (r_alias a) (r_alias b) && bytes_eqb (r_qual a) (r_qual b).

(** postgres.go:874-948; the left column is given with its relation, [inwhere]
    says that the condition is a gosql.Column directive of a where struct. *)
Definition check_column_cond (c : checker) (inwhere : bool) (d : cond) (lhs : RelIdent * column) : cres unit :=
  let (lrid, lcol) := lhs in
  if p_unary (c_pred d) then
    chk _ <- insist (negb (p_boolean (c_pred d)) || N.eqb (ty_oid (co_type lcol)) oid_Bool) DPredicateOperandBool;
    insist (negb (p_null (c_pred d) && co_notnull lcol && negb (inwhere && negb (rel_eqb (ck_rid c) lrid))))
           DPredicateOperandNull
  else
    chk rt <- match c_col (c_rhs d), c_lit d with
              | _ :: _, _ => chk (_, col) <- findColumn c (c_rhs d); COk (Some (co_type col))
              | [], _ :: _ => chk o <- orelse (db_lit (ck_db c) (c_lit d)) DPredicateLiteralExpr;
                              COk (find_type (ck_cat c) o)
              | [], [] => COk None
              end;
    typeCheckComparison (ck_cat c) (co_type lcol) rt (c_pred d) (c_quant d).
Definition typeCheckColumnConditional (c : checker) (inwhere : bool) (d : cond) : cres unit :=
  chk lhs <- findColumn c (c_lhs d);
  check_column_cond c inwhere d lhs.
Definition typeCheckJoinConditional (c : checker) (rid : RelIdent) (rel : relation) (d : cond) : cres unit :=
  chk col <- orelse (findRelColumn rel (c_col (c_lhs d))) DColumnUnknown;
  check_column_cond c false d (rid, col).

(** postgres.go:619-695 *)
Definition recode {A} (a b : dbcode) (same : dbcode -> dbcode -> bool) (r : cres A) : cres A :=
  match r with CErr e => CErr (if same e a then b else e) | _ => r end.
Definition same_code (a b : dbcode) : bool :=
  match a, b with
  | DColumnComparison, DColumnComparison | DColumnFieldComparison, DColumnFieldComparison => true
  | _, _ => false
  end.
Definition check_bound (c : checker) (id : ColIdent) (lhs : RelIdent * column) (p : predicate) (b : bound)
    : cres rbound :=
  match b with
  | BoundColumn r =>
      let d := MkCond id r [] p QNone in
      chk _ <- recode DColumnComparison DBetweenColumnComparison same_code (check_column_cond c false d lhs);
      COk (RBColumn d)
  | BoundField name t =>
      let f := MkFC name t id (snd lhs) p QNone [] [] in
      chk v <- recode DColumnFieldComparison DBetweenFieldComparison same_code
                 (typeCheckFieldConditional (ck_cat c) f);
      COk (RBField (MkFC name t id (snd lhs) p QNone [] v))
  end.
Definition negated (p : predicate) : bool :=
  match p with NotBetween | NotBetweenSym | NotBetweenAsym => true | _ => false end.

(** postgres.go:543-604 *)
Fixpoint typeCheckWhereItem (c : checker) (i : witem) {struct i} : cres wcond :=
  match i with
  | WBool b => COk (WCBool b)
  | WNested name items =>
      chk l <- (fix all (l : list witem) : cres (list wcond) :=
                  match l with
                  | [] => COk []
                  | i :: r => chk x <- typeCheckWhereItem c i; chk xs <- all r; COk (x :: xs)
                  end) items;
      COk (WCNested name l)
  | WColumn d => chk _ <- typeCheckColumnConditional c true d; COk (WCColumn d)
  | WField name t id p q fn =>
      chk (_, col) <- findColumn c id;
      chk v <- typeCheckFieldConditional (ck_cat c) (MkFC name t id col p q fn []);
      COk (WCField (MkFC name t id col p q fn v))
  | WBetween name id p lo hi =>
      chk lhs <- findColumn c id;
      chk l <- check_bound c id lhs (if negated p then IsLT else IsGTE) lo;
      chk h <- check_bound c id lhs (if negated p then IsGT else IsLTE) hi;
      COk (WCBetween name id p l h)
  end.

(** postgres.go:525-541 *)
Definition typeCheckQueryWhereStruct (c : checker) (q : qstate) : cres (list wcond) :=
  match q_where q with None => COk [] | Some w => check_all (typeCheckWhereItem c) (w_items w) end.

(** postgres.go:476-523 *)
Definition check_join_item (c : checker) (rid : RelIdent) (rel : relation) (i : jitem) : cres wcond :=
  match i with
  | JBool b => COk (WCBool b)
  | JCond d => chk _ <- typeCheckJoinConditional c rid rel d; COk (WCColumn d)
  end.
Fixpoint check_joins (c : checker) (dirs : list JoinDirective) : cres (checker * list (list wcond)) :=
  match dirs with
  | [] => COk (c, [])
  | d :: r =>
      chk (c, rel) <- loadJoinRelation c (j_rel d);
      chk l <- check_all (check_join_item c (j_rel d) rel) (j_items d);
      chk (c, ls) <- check_joins c r;
      COk (c, l :: ls)
  end.
Definition typeCheckQueryJoinStruct (c : checker) (q : qstate) : cres (checker * list (list wcond)) :=
  match q_join q with
  | None => COk (c, [])
  | Some j =>
      chk c <- match j_relation j with
               | None => COk c
               | Some id => chk (c, _) <- loadJoinRelation c id; COk c
               end;
      check_joins c (j_dirs j)
  end.

(** ** Fields *)

(** postgres.go:1175-1197 and alike: a JSON or XML column *)
Definition document (custom illegal : bool) (t : TypeInfo) (fn : bytes) (e : dbcode) : cres bytes :=
  if custom then COk fn
  else if illegal then CErr e
  else if IsByteSlice t || IsString t then COk []
  else COk fn.
Definition is_json (c : column) : bool := N.eqb (ty_oid (co_type c)) oid_JSON || N.eqb (ty_oid (co_type c)) oid_JSONB.
Definition is_xml (c : column) : bool := N.eqb (ty_oid (co_type c)) oid_XML.
Definition by_table (k : catalog) (c : column) (t : TypeInfo) (get : compentry -> bytes) (e : dbcode) : cres bytes :=
  chk m <- isLength1Type k c;
  match typeCompatibility k (co_type c) t m with Some x => COk (get x) | None => CErr e end.

(** postgres.go:1164-1236: the scanner *)
Definition read_check (k : catalog) (f : FieldInfo) (c : column) : cres bytes :=
  let t := fi_type f in
  if is_iface (t_kind t) && negb (t_empty t) then CErr DColumnFieldTypeRead
  else if ImplementsScanner t then COk []
  else if is_json c then document (flag_is f_jsonu t) (IsJSONIllegal t) t (B "JSON") DColumnFieldTypeRead
  else if t_empty t then COk (B "AnyToEmptyInterface")
  else if is_xml c then document (flag_is f_xmlu t) (IsXMLIllegal t) t (B "XML") DColumnFieldTypeRead
  else by_table k c t ce_scanner DColumnFieldTypeRead.

(** postgres.go:1300-1362, 1418-1478: the valuer *)
Definition value_check (k : catalog) (f : FieldInfo) (c : column) : cres bytes :=
  let t := fi_type f in
  if ImplementsValuer t then COk []
  else if is_json c then document (flag_is f_jsonm t) (IsJSONIllegal t) t (B "JSON") DColumnFieldTypeWrite
  else if is_xml c then document (flag_is f_xmlm t) (IsXMLIllegal t) t (B "XML") DColumnFieldTypeWrite
  else by_table k c t ce_valuer DColumnFieldTypeWrite.

Definition forced (c : checker) (id : ColIdent) : bool :=
  match ck_force c with Some l => Contains l id | None => false end.
(** The field's column, qualified with the alias of the target. *)
Definition target_ident (c : checker) (f : FieldInfo) : ColIdent := MkCol (r_alias (ck_rid c)) (c_col (fi_col f)).

(** postgres.go:1155-1263 *)
Definition typeCheckFieldRead (c : checker) (strict : bool) (f : FieldInfo) : cres (option fread) :=
  match findRelColumn (ck_rel c) (c_col (fi_col f)) with
  | None => if strict then CErr DColumnUnknown else COk None
  | Some col =>
      chk s <- read_check (ck_cat c) f col;
      let id := target_ident c f in
      COk (if IsWriteOnly f && negb (forced c id) then None else Some (MkFR f col id s))
  end.

(** postgres.go:1289-1379 *)
Definition typeCheckFieldWrite (c : checker) (n : nat) (f : FieldInfo) : cres (option fwrite) :=
  match findRelColumn (ck_rel c) (c_col (fi_col f)) with
  | None => COk None
  | Some col =>
      chk _ <- insist (negb (fi_default f) || co_hasdef col) DColumnDefaultUnset;
      chk v <- value_check (ck_cat c) f col;
      COk (Some (MkFW n f col (target_ident c f) v))
  end.

(** postgres.go:1401-1497 with strict false *)
Definition typeCheckFieldFilter (c : checker) (f : FieldInfo) : cres (option ffilter) :=
  if ExcludeFromFilter f then COk None
  else
    match findRelColumn (ck_rel c) (c_col (fi_col f)) with
    | None => COk None
    | Some col =>
        chk v <- value_check (ck_cat c) f col;
        COk (Some (MkFF f col (target_ident c f) v))
    end.

(** postgres.go:1990-2003 *)
Definition skipFieldInsert (c : checker) (w : fwrite) : bool :=
  negb (m_insert (fi_mode (fw_field w))) && negb (forced c (fw_ident w)).
Definition skipFieldUpdate (c : checker) (w : fwrite) : bool :=
  negb (m_update (fi_mode (fw_field w))) && negb (forced c (fw_ident w)).

(** ** The query's parts *)

(** postgres.go:299-312, 343-355 *)
Definition check_columns (c : checker) (l : list ColIdent) : cres unit :=
  chk _ <- check_all (findColumn c) l; COk tt.
Definition typeCheckQueryForceDirective (c : checker) (q : qstate) : cres unit :=
  match q_force q with None => COk tt | Some l => check_columns c (l_items l) end.
Definition typeCheckQueryOrderByDirective (c : checker) (q : qstate) : cres unit :=
  match q_orderby q with None => COk tt | Some l => check_columns c (map o_col l) end.
(** postgres.go:321-336 *)
Definition check_default (c : checker) (id : ColIdent) : cres unit :=
  chk col <- orelse (findRelColumn (ck_rel c) (c_col id)) DColumnUnknown;
  insist (co_hasdef col) DColumnDefaultUnset.
Definition typeCheckQueryDefaultDirective (c : checker) (q : qstate) : cres unit :=
  match q_default q with None => COk tt | Some l => chk _ <- check_all (check_default c) (l_items l); COk tt end.

(** postgres.go:1577-1599 with strict true *)
Definition findQueryColumnField (c : checker) (q : qstate) (id : ColIdent) : cres FieldInfo :=
  match find (fun f => bytes_eqb (c_col (fi_col f)) (c_col id)) (rt_fields (q_rtype q)) with
  | Some f => chk _ <- findColumn c id; COk f
  | None => CPanic
  end.
(** postgres.go:373-401 *)
Definition typeCheckQueryReturnDirective (c : checker) (q : qstate) : cres (list fread) :=
  match q_return q with
  | None => COk []
  | Some l =>
      if l_all l then chk r <- check_all (typeCheckFieldRead c false) (rt_fields (q_rtype q)); COk (somes r)
      else
        chk fs <- check_all (findQueryColumnField c q) (l_items l);
        chk r <- check_all (typeCheckFieldRead c true) fs; COk (somes r)
  end.
(** postgres.go:411-422 *)
Definition typeCheckQueryResultField (c : checker) (q : qstate) : cres (list fread) :=
  match q_result q with
  | None => COk []
  | Some r => chk l <- check_all (typeCheckFieldRead c true) (rt_fields (rs_type r)); COk (somes l)
  end.

(** postgres.go:438-444: the fields of a select's relation *)
Definition check_select_field (c : checker) (f : FieldInfo) : cres (option fread) :=
  typeCheckFieldRead c (match ck_optional c with Some l => negb (Contains l (fi_col f)) | None => true end) f.
(** postgres.go:445-459: one field of an insert's or update's relation *)
Definition check_write_field (c : checker) (n : nat) (f : FieldInfo) : cres (option fwrite) :=
  chk w <- typeCheckFieldWrite c n f;
  chk _ <- insist (match w with Some _ => true | None => IsReadOnly f end) DColumnUnknown;
  COk w.
Fixpoint check_write_fields (c : checker) (n : nat) (l : list FieldInfo) : cres (list (option fwrite)) :=
  match l with
  | [] => COk []
  | f :: r => chk w <- check_write_field c n f; chk ws <- check_write_fields c (S n) r; COk (w :: ws)
  end.
(** postgres.go:433-474: reads, writes and primary keys *)
Definition typeCheckQueryRelField (c : checker) (q : qstate) (rf : RelField)
    : cres (list fread * list fwrite * list fwrite) :=
  if rf_dir rf then COk ([], [], [])
  else
    match q_kind q with
    | KSelect =>
        chk r <- check_all (check_select_field c) (rt_fields (rf_type rf)); COk (somes r, [], [])
    | KInsert | KUpdate =>
        chk w <- check_write_fields c 0 (rt_fields (rf_type rf));
        let skip := if is_insert (q_kind q) then skipFieldInsert c else skipFieldUpdate c in
        COk ([], filter (fun w => negb (skip w)) (somes w), filter (fun w => co_primary (fw_col w)) (somes w))
    | _ => COk ([], [], [])
    end.

(** postgres.go:1033-1073: the first index on the columns that is unique *)
Definition column_target (r : relation) (nums : list Z) : cres ctarget :=
  let on := filter (fun i => matchNumbers (ix_key i) nums) (rel_ixs r) in
  match on with
  | [] => CErr DIndexColumnsUnknown
  | _ =>
      match find (fun i => ix_unique i || ix_primary i) on with
      | Some i => COk (CTIndex (ix_expr i) (ix_pred i))
      | None => CErr DIndexColumnsNotUnique
      end
  end.
(** postgres.go:1024-1131 *)
Definition typeCheckQueryOnConflictStruct (c : checker) (q : qstate) (writes : list fwrite)
    : cres (option conflict) :=
  match q_onconflict q with
  | None => COk None
  | Some oc =>
      chk t <- match oc_column oc with
               | None => COk CTNone
               | Some ids =>
                   chk cols <- check_all (fun id => orelse (findRelColumn (ck_rel c) (c_col id)) DColumnUnknown) ids;
                   column_target (ck_rel c) (map co_num cols)
               end;
      chk t <- match oc_index oc with
               | None => COk t
               | Some n =>
                   chk i <- orelse (findRelIndex (ck_rel c) n) DIndexUnknown;
                   chk _ <- insist (ix_unique i || ix_primary i) DIndexNotUnique;
                   COk (CTIndex (ix_expr i) (ix_pred i))
               end;
      chk t <- match oc_constraint oc with
               | None => COk t
               | Some n =>
                   chk k <- orelse (findRelConstraint (ck_rel c) n) DConstraintUnknown;
                   chk _ <- insist (match snd k with ConPKey | ConUnique => true | _ => false end)
                              DConstraintNotUnique;
                   COk (CTConstraint (fst k))
               end;
      chk u <- match oc_update oc with
               | None => COk []
               | Some l =>
                   if l_all l then COk (map fw_col writes)
                   else check_all (fun id => orelse (findRelColumn (ck_rel c) (c_col id)) DColumnUnknown) (l_items l)
               end;
      COk (Some (MkCI t u))
  end.

(** postgres.go:251-291 and the case of a query in Check (l.195-203) *)
Definition check_query (db : database) (q : qstate) : cres tinfo :=
  match q_rel q with
  | None => CPanic
  | Some rf =>
      chk c <- loadTargetRelation db rf;
      chk (c, joins) <- typeCheckQueryJoinStruct c q;
      let c := MkCk (ck_db c) (ck_rid c) (ck_rel c) (ck_map c) (q_force q) (q_optional q) in
      chk _ <- typeCheckQueryForceDirective c q;
      chk _ <- typeCheckQueryDefaultDirective c q;
      chk _ <- typeCheckQueryOrderByDirective c q;
      chk r1 <- typeCheckQueryReturnDirective c q;
      chk r2 <- typeCheckQueryResultField c q;
      chk (r3, w, pk) <- typeCheckQueryRelField c q rf;
      chk wh <- typeCheckQueryWhereStruct c q;
      chk oc <- typeCheckQueryOnConflictStruct c q w;
      COk (MkTInfo (r1 ++ r2 ++ r3) w [] pk joins wh oc)
  end.

(** postgres.go:209-248 and the case of a filter in Check *)
Definition check_filter (db : database) (s : fstate) : cres tinfo :=
  match fs_rel s with
  | None => CPanic
  | Some rf =>
      chk c <- loadTargetRelation db rf;
      chk l <- check_all (typeCheckFieldFilter c) (rt_fields (rf_type rf));
      chk _ <- match fs_ts s with
               | None => COk tt
               | Some id =>
                   chk col <- orelse (findRelColumn (ck_rel c) (c_col id)) DColumnUnknown;
                   insist (N.eqb (ty_oid (co_type col)) oid_TSVector) DColumnTextSearchType
               end;
      COk (MkTInfo [] [] (somes l) [] [] [] None)
  end.
