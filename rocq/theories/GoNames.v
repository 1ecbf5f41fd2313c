(** The names mentioned by the statements of a generated method: the body of
    Gen.v and GenOut.v as Go statements of ScopeSpec.v. *)
From Coq Require Import Ascii String ZArith NArith Bool List.
From Verif Require Import GoBase Strconv AParse PgSpec Analysis Oids Gen GenRun GenOut ScopeSpec.
Import ListNotations.
Local Open Scope string_scope.
Local Open Scope list_scope.

Definition mention (xs : list text) : ex := MkEx xs [].
Definition outside (xs : list text) : ex := MkEx [] xs.
Definition both (a b : ex) : ex := MkEx (locals a ++ locals b) (outers a ++ outers b).
Definition all_of (l : list ex) : ex := fold_right both (mention []) l.

Definition v_q := lit "q". Definition v_c := lit "c". Definition v_ctx := lit "ctx".
Definition v_text := lit "queryString". Definition v_params := lit "params". Definition v_ftext := lit "filterString".
Definition v_row := lit "row". Definition v_rows := lit "rows". Definition v_res := lit "res". Definition v_err := lit "err".
Definition v_i64 := lit "i64". Definition v_i := lit "i". Definition v_v := lit "v".

(** generator.go:1606-1633: the numbered variables are len1, pos1, len2, ... *)
Definition itoa (k : nat) : text := format_uint 10 (N.of_nat k).
Definition iname (x : ivar) : text :=
  match x with
  | VNstatic => lit "nstatic"
  | VLen k => lit "len" ++ itoa k
  | VPosK k => lit "pos" ++ itoa k
  | VI => v_i
  | VPos => lit "pos"
  end.

Fixpoint gnames (e : gexpr) : ex :=
  match e with
  | GQ => mention [v_q]
  | GV => mention [v_v]
  | GIdx e x => both (gnames e) (mention [iname x])
  | GSel e _ => gnames e
  | GConv _ e => both (outside [lit "pgsql"]) (gnames e)
  | GAddr e => gnames e
  end.
Fixpoint inames (e : iexpr) : ex :=
  match e with
  | IConst _ => mention []
  | IVar x => mention [iname x]
  | IAdd a b | IMul a b => both (inames a) (inames b)
  | ILen e => both (outside [lit "len"]) (gnames e)
  end.
(** The text of an SQL node is a literal, but for the calls
    gosql.InValueList(lenk, posk) of its IN predicates. *)
Definition node_names (n : gsql) : ex :=
  all_of (map (fun k => both (outside [lit "gosql"]) (mention [iname (VLen k); iname (VPosK k)])) (stmt_lists n)).
Definition snames (s : strx) : ex :=
  match s with
  | SNode n => node_names n
  | SText _ => mention []
  | SOrd i => both (outside [lit "gosql"]) (inames i)
  | SFilter => mention [v_ftext]
  end.
Definition nil_name : ex := outside [lit "nil"].
(** if err != nil { l } *)
Definition if_err (l : list go) : list go := [Eval (both (mention [v_err]) nil_name); Block l].

(** generator.go:1430-1744, 1770-1841.  A range over rows without arguments
    binds neither variable (1498-1505); it is recognised by its body, which
    otherwise begins with the declaration of pos. *)
Fixpoint go_first (q : qstate) (s : gstmt) : list go :=
  match s with
  | GDecl c n => [if c then Const v_text (node_names n) else Var v_text (node_names n)]
  | GInt VPos e => [Short [iname VPos] (inames e)]
  | GInt x e => [Var (iname x) (inames e)]
  | GMake e => [Short [v_params] (both (outside [lit "make"]) (inames e))]
  | GSet i e => [Eval (both (mention [v_params]) (both (inames i) (gnames e)))]
  | GRange e body =>
      match body with
      | GInt VPos _ :: _ => [Block [Short [v_i; v_v] (gnames e); Block (flat_map (go_first q) body)]]
      | _ => [Block [Eval (gnames e); Block (flat_map (go_first q) body)]]
      end
  | GFor x body => [Block [Short [v_i] (mention []); Eval (mention [v_i; iname x]); Block (flat_map (go_first q) body)]]
  | GAppend l => [Assign v_text (all_of (map snames l))]
  | GChop => [Assign v_text (both (outside [lit "len"]) (mention [v_text]))]
  | GFilter _ _ => [Short [v_ftext; v_params] (mention [v_q])]
  | GPrepend l => [Assign v_params (both (outside [lit "append"]) (both (mention [v_params]) (all_of (map gnames l))))]
  | GIfZero _ _ => [Block [Eval (mention [v_q]); Block [Eval (mention [v_q])]]]
  | GCall m c a =>
      let e := both (mention [v_c; v_text])
                 (both (match c with CtxNone => mention [] | CtxParam => mention [v_ctx] | CtxField _ => mention [v_q] end)
                       (match a with AParams => mention [v_params] | AList l => all_of (map gnames l) end)) in
      [Short (match m with
              | CExec => [if is_some (q_rows q) then v_res else blank; v_err]
              | CQueryRow => [v_row]
              | CQuery => [v_rows; v_err]
              end) e]
  end.

(** generator.go:486-495, 537-541: the name of a type, or of its package. *)
Definition type_name (imp : text -> text) (imported : bool) (path name : text) : text :=
  if imported then imp path else name.
Definition root_type (imp : text -> text) (q : qstate) : text :=
  let b := rt_base (out_type q) in type_name imp (t_imported b) (t_path b) (t_name b).
Fixpoint nodes_at (p : list text) (sel : list selnode) : list selnode :=
  match p, sel with
  | [f], n :: _ => if bytes_eqb (sn_name n) f then [n] else []
  | f :: p, n :: r => if bytes_eqb (sn_name n) f then nodes_at p r else []
  | _, _ => []
  end.
Definition node_type (imp : text -> text) (n : selnode) : text := type_name imp (sn_imported n) (sn_path n) (sn_tname n).
Definition path_types (imp : text -> text) (t : tinfo) (p : list text) : list text :=
  map (node_type imp) (filter sn_ptr (flat_map (fun r => nodes_at p (fi_sel (fr_field r))) (ti_reads t))).
Definition int_name (k : kind) : text :=
  match k with
  | KBasic BInt => lit "int" | KBasic BInt8 => lit "int8" | KBasic BInt16 => lit "int16" | KBasic BInt32 => lit "int32"
  | KBasic BInt64 => lit "int64" | KBasic BUint => lit "uint" | KBasic BUint8 => lit "uint8" | KBasic BUint16 => lit "uint16"
  | KBasic BUint32 => lit "uint32" | _ => lit "uint64"
  end.
Definition source (q : qstate) : text := if IsSingleOutput q then v_row else v_rows.
Definition enames (q : qstate) (e : errx) : ex :=
  match e with
  | EVar => mention [v_err]
  | EScan args => both (mention [source q]) (all_of (map gnames args))
  | ERowsErr => mention [v_rows]
  end.
Definition go_init (imp : text -> text) (q : qstate) (t : tinfo) (i : init) : go :=
  match i with
  | InitRoot => Eval (both (mention [v_q]) (outside [lit "new"; root_type imp q]))
  | InitNew => Short [v_v] (outside [lit "new"; root_type imp q])
  | InitVar => Var v_v (outside [root_type imp q])
  | InitPath p => Eval (both (gnames (outputVar q)) (outside (lit "new" :: path_types imp t p)))
  end.

(** generator.go:1844-2041, 2138-2192; the call itself is in the first half. *)
Fixpoint go_second (imp : text -> text) (q : qstate) (t : tinfo) (s : rstmt) : list go :=
  match s with
  | RCall => []
  | RDefer => [Eval (mention [v_rows])]
  | RInit i => [go_init imp q t i]
  | RScan args => [Short [v_err] (both (mention [source q]) (all_of (map gnames args)))]
  | RIfErr l => [Block (if_err (flat_map (go_second imp q t) l))]
  | RIfExpr e l => [Block (Short [v_err] (enames q e) :: if_err (flat_map (go_second imp q t) l))]
  | RReturn None => [Return nil_name]
  | RReturn (Some e) => [Return (enames q e)]
  | RHandle _ e => [Return (both (mention [v_q]) (enames q e))]
  | RHandleInfo _ => [Return (both (mention [v_q; v_err; v_text]) (outside [lit "gosql"]))]
  | RAffected => [Short [v_i64; v_err] (mention [v_res])]
  | RStore _ k => [Eval (both (mention [v_q; v_i64]) (outside [int_name k]))]
  | RAfter x => [Eval (gnames x)]
  | RIter root _ l =>
      [Block (Short [v_err] (both (gnames root) (mention [v_v])) :: if_err (flat_map (go_second imp q t) l))]
  | RZero => [Short [v_i] (mention [])]
  | RIncr => [Assign v_i (mention [])]
  | RAppend root => [Eval (both (gnames root) (both (mention [v_v]) (outside [lit "append"])))]
  | RFor body => [Block [Eval (mention [v_rows]); Block (flat_map (go_second imp q t) body)]]
  end.

(** generator.go:226-251: the method's parameters and body; [imp] gives the
    name under which a package is imported. *)
Definition method_params (wc : bool) : list text := if wc then [v_q; v_ctx; v_c] else [v_q; v_c].
Definition method_body (imp : text -> text) (wc : bool) (q : qstate) (t : tinfo) : list go :=
  flat_map (go_first q) (buildQueryCode wc q t) ++ flat_map (go_second imp q t) (result_stmts q t).

(** ** The names the generator chooses *)

Definition fixed_names : list text :=
  [v_q; v_c; v_ctx; v_text; v_params; v_ftext; v_row; v_rows; v_res; v_err; v_i64; v_i; v_v; lit "nstatic"; lit "pos"].
Definition reserved (x : text) : Prop :=
  In x fixed_names \/ exists k, x = lit "len" ++ itoa k \/ x = lit "pos" ++ itoa k.

(** The types (or their packages) named in a method that allocates what it
    scans into: that of the records, and those of pointers to nested structs. *)
Definition named_types (imp : text -> text) (q : qstate) (t : tinfo) (x : text) : Prop :=
  (x = root_type imp q /\ (rt_ptr (out_type q) = true \/ rt_slice (out_type q) = true \/ rt_iter (out_type q) = true))
  \/ exists r n, In r (ti_reads t) /\ In n (fi_sel (fr_field r)) /\ sn_ptr n = true /\ x = node_type imp n.
