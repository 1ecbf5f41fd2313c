(** The text of the generated code, up to white space: a printer for the
    statements of Gen.v, GenOut.v and FilterCode.v, by which the model is
    compared with the files under /repo/internal/testdata/generator.  It does
    in outline what github.com/frk/ast does; no theorem uses it. *)
From Coq Require Import Decimal DecimalString.
From Coq Require Import Ascii String ZArith NArith Bool List.
From Verif Require Import GoBase FilterCode AParse Analysis Oids Compat Gen GenOut Check.
Import ListNotations.
Local Open Scope string_scope.
Local Open Scope list_scope.

Definition num (n : N) : bytes := B (NilZero.string_of_uint (N.to_uint n)).
Definition znum (z : Z) : bytes := num (Z.to_N z).
Definition nnum (n : nat) : bytes := num (N.of_nat n).

Fixpoint sep (s : bytes) (l : list bytes) : bytes :=
  match l with [] => [] | [a] => a | a :: r => a ++ s ++ sep s r end.
Definition commas := sep (B ",").
Definition dq : bytes := B """".
Definition quoted (s : bytes) : bytes := dq ++ s ++ dq.

(** ** SQL *)

Definition p_rel (r : RelIdent) : bytes :=
  (match r_qual r with [] => [] | q => quoted q ++ B "." end) ++ quoted (r_name r)
  ++ (match r_alias r with [] => [] | a => B " AS " ++ a end).
Definition p_col (c : ColIdent) : bytes :=
  (match c_qual c with [] => [] | q => q ++ B "." end) ++ quoted (c_col c).
Definition p_param (z : Z) : bytes := B "$" ++ znum z.
Definition p_quant (q : quantifier) : bytes :=
  match q with QNone => [] | QuantAny => B "ANY" | QuantSome => B "SOME" | QuantAll => B "ALL" end.
Definition upper (c : ascii) : ascii :=
  let n := N_of_ascii c in if ((97 <=? n) && (n <=? 122))%N then ascii_of_N (n - 32) else c.
Fixpoint p_expr (e : sexpr Z) : bytes :=
  match e with
  | XDefault => B "DEFAULT"
  | XParam p => p_param p
  | XCol c => p_col c
  | XLit l => l
  | XCast e t => p_expr e ++ B "::" ++ t
  | XNullif e l => B "NULLIF(" ++ p_expr e ++ B "," ++ l ++ B ")"
  | XCoalesce a b => B "COALESCE(" ++ p_expr a ++ B "," ++ p_expr b ++ B ")"
  | XFunc f e => f ++ B "(" ++ p_expr e ++ B ")"
  | XQuant q e => p_quant q ++ B "(" ++ p_expr e ++ B ")"
  end.
Definition p_not (b : bool) (s : string) : bytes := if b then B "NOT " ++ B s else B s.
Definition p_op (o : sqlop) : bytes :=
  match o with
  | OpEq => B "=" | OpNe => B "<>" | OpNe2 => B "!=" | OpLt => B "<" | OpGt => B ">" | OpLe => B "<=" | OpGe => B ">="
  | OpLike n => p_not n "LIKE" | OpILike n => p_not n "ILIKE" | OpSimilar n => p_not n "SIMILAR TO"
  | OpDistinct n => if n then B "IS NOT DISTINCT FROM" else B "IS DISTINCT FROM"
  | OpMatch => B "~" | OpMatchCi => B "~*" | OpNotMatch => B "!~" | OpNotMatchCi => B "!~*"
  end.
Definition p_truth (t : truth) : bytes :=
  match t with TUnknown => B "UNKNOWN" | TTrue => B "TRUE" | TFalse => B "FALSE" end.
Definition p_is (n : bool) : bytes := if n then B " IS NOT " else B " IS ".
Definition p_conn (b : option boolean) : bytes :=
  match b with None => [] | Some BoolAnd => B " AND " | Some BoolOr => B " OR " end.
Fixpoint p_bool (e : bexpr Z nat) : bytes :=
  match e with
  | YOp o l r => p_expr l ++ p_op o ++ p_expr r
  | YIn n l k =>
      p_expr l ++ p_not n " IN" ++ B "(` + gosql.InValueList(len" ++ nnum k ++ B ", pos" ++ nnum k ++ B ") + `)"
  | YTruth n t e => p_expr e ++ p_is n ++ p_truth t
  | YNull n e => p_expr e ++ p_is n ++ B "NULL"
  | YBetween e lo hi => p_expr e ++ B " BETWEEN " ++ p_expr lo ++ B " AND " ++ p_expr hi
  | YVal e => p_expr e
  | YNil => []
  | YList paren items =>
      let b := List.concat (map (fun i => p_conn (fst i) ++ p_bool (snd i)) items) in
      if paren then B "(" ++ b ++ B ")" else b
  end.
Definition p_jtype (j : join_type) : bytes :=
  match j with
  | JNone => [] | JCross => B "CROSS JOIN " | JInner => B "INNER JOIN " | JLeft => B "LEFT JOIN "
  | JRight => B "RIGHT JOIN " | JFull => B "FULL JOIN "
  end.
Definition p_join (j : tjoin Z nat) : bytes :=
  p_jtype (tj_type j) ++ p_rel (tj_rel j)
  ++ match p_bool (tj_cond j) with [] => [] | c => B " ON " ++ c end.
(** The first relation of a FROM list is joined with the rest by juxtaposition,
    the list of values by a comma. *)
Definition p_texpr (t : texpr Z nat) : bytes :=
  match t with TxRel r => p_rel r | TxJoin j => B " " ++ p_join j | TxValues => B "(VALUES" end.
Definition p_from (kw : string) (l : list (texpr Z nat)) : bytes :=
  match l with [] => [] | _ => B kw ++ List.concat (map p_texpr l) end.
Definition p_where (w : option (bexpr Z nat)) : bytes := match w with Some e => B " WHERE " ++ p_bool e | None => [] end.
Definition p_order (l : list order_item) : bytes :=
  match l with
  | [] => []
  | _ => B " ORDER BY "
         ++ commas (map (fun '(c, d, n) => p_col c ++ (if d : bool then B " DESC" else B " ASC")
                                           ++ (if n : bool then B " NULLS FIRST" else B " NULLS LAST")) l)
  end.
Definition p_lim (kw : string) (l : lim Z) : bytes :=
  match l with LNone => [] | LInt n => B kw ++ num n | LParam p => B kw ++ p_param p end.
Definition p_ret (l : list (sexpr Z)) : bytes := match l with [] => [] | _ => B " RETURNING " ++ commas (map p_expr l) end.
Definition p_target (t : ctarget) : bytes :=
  match t with
  | CTNone => []
  | CTIndex e p => B "(" ++ e ++ B ")" ++ match p with [] => [] | _ => B " WHERE " ++ p end
  | CTConstraint n => B " ON CONSTRAINT " ++ quoted n
  end.
Definition p_oconf (o : option oconf) : bytes :=
  match o with
  | None => []
  | Some o =>
      B " ON CONFLICT " ++ p_target (on_target o)
      ++ match on_update o with
         | [] => B " DO NOTHING"
         | l => B " DO UPDATE SET " ++ commas (map (fun c => quoted c ++ B "= EXCLUDED." ++ quoted c) l)
         end
  end.
Definition p_override (o : option overriding) : bytes :=
  match o with
  | None => []
  | Some OverridingSystem => B " OVERRIDING SYSTEM VALUE"
  | Some OverridingUser => B " OVERRIDING USER VALUE"
  end.
Definition p_set (cols : list bytes) (vals : list (sexpr Z)) : bytes :=
  match cols, vals with
  | [c], [v] => quoted c ++ B "=" ++ p_expr v
  | _, _ => B "(" ++ commas (map quoted cols) ++ B ") = (" ++ commas (map p_expr vals) ++ B ")"
  end.
Definition p_stmt (s : gsql) : bytes :=
  match s with
  | StInsert t cols ov vals oc ret =>
      B "INSERT INTO " ++ p_rel t ++ B "(" ++ commas (map quoted cols) ++ B ")" ++ p_override ov ++ B " VALUES "
      ++ (match vals with [] => [] | _ => B "(" ++ commas (map p_expr vals) ++ B ")" end) ++ p_oconf oc ++ p_ret ret
  | StUpdate t cols vals fr wh ret =>
      B "UPDATE " ++ p_rel t ++ B " SET " ++ p_set cols vals ++ p_from " FROM " fr ++ p_where wh ++ p_ret ret
  | StSelect cols t js wh ord l o =>
      B "SELECT " ++ commas (map p_expr cols) ++ B " FROM " ++ p_rel t ++ List.concat (map p_join js) ++ p_where wh
      ++ p_order ord ++ p_lim " LIMIT " l ++ p_lim " OFFSET " o
  | StCount t js wh ord o =>
      B "SELECT COUNT(*) FROM " ++ p_rel t ++ List.concat (map p_join js) ++ p_where wh ++ p_order ord ++ p_lim " OFFSET " o
  | StExists n open t js wh ord l o =>
      B "SELECT " ++ p_not n "EXISTS" ++ B "(SELECT 1 FROM " ++ p_rel t ++ List.concat (map p_join js) ++ p_where wh
      ++ p_order ord ++ p_lim " LIMIT " l ++ p_lim " OFFSET " o ++ (if open then [] else B ")")
  | StDelete t us wh ret => B "DELETE FROM " ++ p_rel t ++ p_from " USING " us ++ p_where wh ++ p_ret ret
  | StInsertTail oc ret => p_oconf oc ++ p_ret ret
  | StUpdateTail al wh ret =>
      (match al with
       | Some (a, cs) => B ") AS " ++ a ++ B "(" ++ commas (map quoted cs) ++ B ")"
       | None => [] end) ++ p_where wh ++ p_ret ret
  end.

(** ** Go *)

Definition p_ivar (x : ivar) : bytes :=
  match x with
  | VNstatic => B "nstatic" | VLen k => B "len" ++ nnum k | VPosK k => B "pos" ++ nnum k | VI => B "i" | VPos => B "pos"
  end.
Fixpoint p_gexpr (e : gexpr) : bytes :=
  match e with
  | GQ => B "q"
  | GV => B "v"
  | GIdx e x => p_gexpr e ++ B "[" ++ p_ivar x ++ B "]"
  | GSel e f => p_gexpr e ++ B "." ++ f
  | GConv f e => B "pgsql." ++ f ++ B "(" ++ p_gexpr e ++ B ")"
  | GAddr e => B "&" ++ p_gexpr e
  end.
Fixpoint p_iexpr (e : iexpr) : bytes :=
  match e with
  | IConst z => znum z
  | IVar x => p_ivar x
  | IAdd a b => p_iexpr a ++ B "+" ++ p_iexpr b
  | IMul a b => p_iexpr a ++ B "*" ++ p_iexpr b
  | ILen e => B "len(" ++ p_gexpr e ++ B ")"
  end.
Definition tick (s : bytes) : bytes := B "`" ++ s ++ B "`".
(** Adjacent literals are written as one. *)
Fixpoint p_strx (open : bool) (l : list strx) : bytes :=
  let lit s r := (if open then s else B "`" ++ s)
                 ++ match r with (SText _ :: _ | SNode _ :: _) => p_strx true r
                               | [] => B "`" | _ => B "`+" ++ p_strx false r end in
  match l with
  | [] => []
  | SNode n :: r => lit (p_stmt n) r
  | SText t :: r => lit t r
  | SOrd i :: r => B "gosql.OrdinalParameters[" ++ p_iexpr i ++ B "]" ++ match r with [] => [] | _ => B "+" ++ p_strx false r end
  | SFilter :: r => B "filterString" ++ match r with [] => [] | _ => B "+" ++ p_strx false r end
  end.
Fixpoint p_gstmt (s : gstmt) : bytes :=
  match s with
  | GDecl c n => (if c then B "const" else B "var") ++ B " queryString = `" ++ p_stmt n ++ B "`"
  | GInt VPos e => B "pos := " ++ p_iexpr e
  | GInt x e => p_ivar x ++ B "=" ++ p_iexpr e
  | GMake e => B "params := make([]interface{}," ++ p_iexpr e ++ B ")"
  | GSet i e => B "params[" ++ p_iexpr i ++ B "] = " ++ p_gexpr e
  | GRange e l => (match l with [_] => B "for _, _ = range " | _ => B "for i, v := range " end) ++ p_gexpr e ++ B "{" ++ List.concat (map p_gstmt l) ++ B "}"
  | GFor x l => B "for i := 0; i < " ++ p_ivar x ++ B "; i++ {" ++ List.concat (map p_gstmt l) ++ B "}"
  | GAppend l => B "queryString += " ++ p_strx false l
  | GChop => B "queryString = queryString[:len(queryString)-1]"
  | GFilter f n => B "filterString, params := q." ++ f ++ B ".ToSQL(" ++ znum n ++ B ")"
  | GPrepend l => B "params = append([]interface{}{" ++ commas (map p_gexpr l) ++ B "}, params...)"
  | GIfZero f v => B "if q." ++ f ++ B " == 0 { q." ++ f ++ B " = " ++ num v ++ B "}"
  | GCall _ _ _ => []
  end.
(** The integer variables at the head stand in one declaration. *)
Fixpoint p_ints (l : list gstmt) : bytes :=
  match l with
  | GInt x e :: r => p_gstmt (GInt x e) ++ p_ints r
  | _ => B ")" ++ List.concat (map p_gstmt l)
  end.
Definition p_code (l : list gstmt) : bytes :=
  match l with
  | GInt _ _ :: _ => B "var (" ++ p_ints l
  | _ => List.concat (map p_gstmt l)
  end.

Definition p_callm (m : callm) : string := match m with CExec => "c.Exec" | CQueryRow => "c.QueryRow" | CQuery => "c.Query" end.
Definition p_call (rows : bool) (m : callm) (c : ctxarg) (a : inargs) : bytes :=
  (match m with
   | CExec => if rows then B "res, err := " else B "_, err := "
   | CQueryRow => B "row := "
   | CQuery => B "rows, err := " end)
  ++ B (p_callm m)
  ++ (match c with
      | CtxNone => B "(" | CtxParam => B "Context(ctx, " | CtxField f => B "Context(q." ++ f ++ B "," end)
  ++ commas (B "queryString" :: match a with AParams => [B "params..."] | AList l => map p_gexpr l end) ++ B ")".
Definition p_basic (k : basic) : bytes :=
  match k with
  | BInt => B "int" | BInt8 => B "int8" | BInt16 => B "int16" | BInt32 => B "int32" | BInt64 => B "int64"
  | BUint => B "uint" | BUint8 => B "uint8" | BUint16 => B "uint16" | BUint32 => B "uint32" | BUint64 => B "uint64"
  | BFloat32 => B "float32" | BFloat64 => B "float64" | BString => B "string" | BBool => B "bool" | _ => []
  end.
Definition p_errx (single : bool) (e : errx) : bytes :=
  match e with
  | EVar => B "err"
  | EScan l => (if single then B "row" else B "rows") ++ B ".Scan(" ++ commas (map p_gexpr l) ++ B ")"
  | ERowsErr => B "rows.Err()"
  end.
Definition p_kind (k : qkind) : bytes :=
  match k with
  | KInsert => B "Insert" | KUpdate => B "Update" | KDelete => B "Delete" | KSelect => B "Select"
  | KSelectCount => B "SelectCount" | KSelectExists => B "SelectExists" | KSelectNotExists => B "SelectNotExists"
  end.
(** The types of allocated values are not in the model: T. *)
Fixpoint p_rstmt (q : qstate) (name : bytes) (call : gstmt) (s : rstmt) : bytes :=
  let many l := List.concat (map (p_rstmt q name call) l) in
  let single := IsSingleOutput q in
  match s with
  | RCall => match call with GCall m c a => p_call (is_some (q_rows q)) m c a | _ => [] end
  | RDefer => B "defer rows.Close()"
  | RInit InitRoot => p_gexpr (outputRoot q) ++ B " = new(T)"
  | RInit InitNew => B "v := new(T)"
  | RInit InitVar => B "var v T"
  | RInit (InitPath p) => p_gexpr (gsel (outputVar q) p) ++ B " = new(T)"
  | RScan l => B "err := " ++ p_errx single (EScan l)
  | RIfErr l => B "if err != nil {" ++ many l ++ B "}"
  | RIfExpr e l => B "if err := " ++ p_errx single e ++ B "; err != nil {" ++ many l ++ B "}"
  | RReturn None => B "return nil"
  | RReturn (Some e) => B "return " ++ p_errx single e
  | RHandle h e => B "return q." ++ h ++ B ".HandleError(" ++ p_errx single e ++ B ")"
  | RHandleInfo h =>
      B "return q." ++ h ++ B ".HandleErrorInfo(&gosql.ErrorInfo{Error: err, QueryString: queryString, QueryKind: "
      ++ quoted (p_kind (q_kind q)) ++ B ", QueryName: " ++ quoted name ++ B ", QueryValue: q})"
  | RAffected => B "i64, err := res.RowsAffected()"
  | RStore f (KBasic BInt64) => B "q." ++ f ++ B "= i64"
  | RStore f (KBasic k) => B "q." ++ f ++ B "=" ++ p_basic k ++ B "(i64)"
  | RStore f _ => []
  | RAfter x => p_gexpr x ++ B ".AfterScan()"
  | RIter root m l =>
      B "if err := " ++ p_gexpr root ++ (match m with [] => [] | _ => B "." ++ m end) ++ B "(v); err != nil {" ++ many l ++ B "}"
  | RZero => B "i := 0"
  | RIncr => B "i += 1"
  | RAppend root => p_gexpr root ++ B " = append(" ++ p_gexpr root ++ B ", v)"
  | RFor l => B "for rows.Next() {" ++ many l ++ B "}"
  end.

(** ** The whole *)

Definition blank (c : ascii) : bool :=
  match N_of_ascii c with 32%N | 9%N | 10%N | 13%N => true | _ => false end.
Definition squash (s : bytes) : bytes := filter (fun c => negb (blank c)) s.

(** A method name, whether it takes a context, and its body. *)
Definition golden_query (db : database) (e : env) (withctx : bool) (name : bytes) (fs : fields) : option bytes :=
  match analyzeQueryStruct e name fs with
  | AOk q =>
      match check_query db q with
      | COk t =>
          let code := buildQueryCode withctx q t in
          Some (squash (p_code code
                        ++ List.concat (map (p_rstmt q name (last code (GMake (IConst 0)))) (result_stmts q t))))
      | _ => None
      end
  | _ => None
  end.

(** *** Filters *)

Definition p_type (t : TypeInfo) : bytes :=
  (match t_name t with
   | [] => match t_kind t with KBasic k => p_basic k | KSlice => B "[]byte" | _ => [] end
   | n => (if t_imported t then t_pkg t ++ B "." else []) ++ n
   end).
Fixpoint p_fexpr (e : fexpr) : bytes :=
  match e with
  | XId x => x
  | XNil => B "nil"
  | XStr [] => quoted []
  | XStr s => tick s
  | XSel x s => p_fexpr x ++ B "." ++ s
  | XCall f l => p_fexpr f ++ B "(" ++ commas (map p_fexpr l) ++ B ")"
  | FilterCode.XFunc b => B "func(){" ++ p_fexpr b ++ B "}"
  end.
Fixpoint p_fstm (s : fstm) : bytes :=
  match s with
  | XDo e => p_fexpr e
  | XReturn e => B "return " ++ p_fexpr e
  | XIfNil x l => B "if " ++ p_fexpr x ++ B "== nil {" ++ List.concat (map p_fstm l) ++ B "}"
  end.
Definition p_fty (typ : bytes) (t : fty) : bytes :=
  match t with TyString => B "string" | TyField t => p_type t | TyFunc => B "func(*" ++ typ ++ B ")" end.
Definition p_elem (v2 : bool) (e : colelem) : bytes :=
  quoted (el_key e) ++ B ":"
  ++ if v2 then B "{Name:" ++ tick (el_name e) ++ (if el_nullable e then B ",IsNULLable:true" else []) ++ B "}"
     else tick (el_name e).
Definition p_fdecl (d : fdecl) : bytes :=
  match d with
  | XVar n v2 l =>
      B "var " ++ n ++ B "=map[string]" ++ (if v2 then B "filter.Column" else B "string") ++ B "{"
      ++ commas (map (p_elem v2) l) ++ B "}"
  | XMethod recv typ name ps r body =>
      B "func (" ++ recv ++ B " *" ++ typ ++ B ") " ++ name ++ B "("
      ++ commas (map (fun p => fst p ++ B " " ++ p_fty typ (snd p)) ps) ++ B ")"
      ++ (if r then B "*" ++ typ else []) ++ B "{" ++ List.concat (map p_fstm body) ++ B "}"
  end.
Definition golden_filter (db : database) (e : env) (name : bytes) (fs : fields) : option bytes :=
  match analyzeFilterStruct e fs with
  | AOk s =>
      match check_filter db s with
      | COk t =>
          match buildFilterCode true [] name s t with
          | Ok l => Some (squash (List.concat (map p_fdecl l)))
          | _ => None
          end
      | _ => None
      end
  | _ => None
  end.
