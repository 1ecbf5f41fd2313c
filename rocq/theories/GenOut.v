(** The second half of a generated method: the call's result, and how rows
    are scanned into the query struct; and a small interpreter for it. *)
From Coq Require Import Ascii String ZArith NArith Bool List.
From Verif Require Import GoBase AParse Analysis Oids Gen.
Import ListNotations.
Local Open Scope string_scope.
Local Open Scope list_scope.

(** ** What the generator writes *)

(** An error expression: the variable err, the call row.Scan(args), the call
    rows.Err(). *)
Inductive errx := EVar | EScan (args : list gexpr) | ERowsErr.

Inductive rstmt :=
| RCall                                   (* res/row/rows[, err] := c.Exec/QueryRow/Query(...) *)
| RDefer                                  (* defer rows.Close() *)
| RInit (i : init)
| RScan (args : list gexpr)               (* err := row(s).Scan(args) *)
| RIfErr (l : list rstmt)                 (* if err != nil { l } *)
| RIfExpr (e : errx) (l : list rstmt)     (* if err := e; err != nil { l } *)
| RReturn (e : option errx)               (* return e, or return nil *)
| RHandle (h : bytes) (e : errx)          (* return q.h.HandleError(e) *)
| RHandleInfo (h : bytes)                 (* return q.h.HandleErrorInfo(&gosql.ErrorInfo{Error: err, ...}) *)
| RAffected                               (* i64, err := res.RowsAffected() *)
| RStore (f : bytes) (k : kind)           (* q.f = k(i64) *)
| RAfter (x : gexpr)                      (* x.AfterScan() *)
| RIter (root : gexpr) (m : bytes) (l : list rstmt)  (* if err := root.m(v); err != nil { l } *)
| RZero | RIncr                           (* i := 0, i += 1 *)
| RAppend (root : gexpr)                  (* root = append(root, v) *)
| RFor (body : list rstmt).               (* for rows.Next() { body } *)

(** generator.go:2138-2192.  The comparison errExpr == errVar at 2166 holds of
    the variable only. *)
Definition makeErrorReturnStmt (q : qstate) (e : errx) : list rstmt :=
  match q_errh q with
  | None => [RReturn (Some e)]
  | Some h =>
      if eh_info h then
        match e with
        | EVar => [RHandleInfo (eh_name h)]
        | _ => [RIfExpr e [RHandleInfo (eh_name h)]; RReturn None]
        end
      else [RHandle (eh_name h) e]
  end.
(** generator.go:2236-2246 *)
Definition makeErrorIfStmt (q : qstate) : rstmt := RIfErr (makeErrorReturnStmt q EVar).

(** What buildQueryOutput (generator.go:442-477) leaves unset when nothing is
    read. *)
Definition has_out (q : qstate) (t : tinfo) : bool :=
  match ti_reads t with [] => IsSelectCountOrExists q | _ => true end.
Definition outputIsAfterScanner (q : qstate) (t : tinfo) : bool := has_out q t && rt_after (out_type q).
Definition outputIsIter (q : qstate) (t : tinfo) : bool := has_out q t && rt_iter (out_type q).
Definition outputToInput (q : qstate) (t : tinfo) : bool :=
  has_out q t && IsInsertOrUpdateSlice q && negb (is_some (q_result q)).
Definition HasNoErrorInfoHandler (q : qstate) : bool :=
  match q_errh q with Some h => negb (eh_info h) | None => true end.

(** generator.go:1844-1889 *)
Definition buildQueryResultRowsAffected (q : qstate) (r : RowsAffectedField) : list rstmt :=
  [makeErrorIfStmt q; RAffected; makeErrorIfStmt q; RStore (ra_name r) (ra_kind r); RReturn None].

(** generator.go:1892-1941 *)
Definition buildQueryResultRowScan (q : qstate) (t : tinfo) : list rstmt :=
  map RInit (outputInit q t)
  ++ (if negb (outputIsAfterScanner q t) && HasNoErrorInfoHandler q
      then makeErrorReturnStmt q (EScan (outputArgs q t))
      else [RScan (outputArgs q t); makeErrorIfStmt q]
           ++ (if outputIsAfterScanner q t then [RAfter (outputVar q)] else [])
           ++ [RReturn None]).

(** generator.go:1944-2041 *)
Definition buildQueryResultRowsScan (q : qstate) (t : tinfo) : list rstmt :=
  (if outputToInput q t then [RZero] else [])
  ++ [RFor (map RInit (outputInit q t)
            ++ [RScan (outputArgs q t); makeErrorIfStmt q]
            ++ (if outputIsAfterScanner q t then [RAfter (outputVar q)] else [])
            ++ (if outputIsIter q t then
                  [RIter (outputRoot q) (rt_method (out_type q)) (makeErrorReturnStmt q EVar)]
                else if outputToInput q t then [RIncr]
                else [RAppend (outputRoot q)]))]
  ++ makeErrorReturnStmt q ERowsErr.

(** generator.go:207-220, with the call statements of 1775-1841; the
    arguments of the call are in Gen.v. *)
Definition result_stmts (q : qstate) (t : tinfo) : list rstmt :=
  if IsWithoutOutput q then
    RCall :: match q_rows q with
             | Some r => buildQueryResultRowsAffected q r
             | None => makeErrorReturnStmt q EVar
             end
  else if IsSingleOutput q then RCall :: buildQueryResultRowScan q t
  else [RCall; makeErrorIfStmt q; RDefer] ++ buildQueryResultRowsScan q t.

(** ** The interpreter *)

(** The shape of a struct type: a field that is scanned into as a whole, or a
    nested struct, held by pointer or not. *)
Inductive rty := RScal | RStruct (ptr : bool) (fields : list (bytes * rty)).

(** The contents of a field: nil (a pointer to a struct), the zero value, the
    column value [d] read through the converter [conv] (empty: directly), or a
    struct or pointer to one. *)
Inductive rv := VNil | VZero | VGot (conv : bytes) (d : nat) | VRec (fields : list (bytes * rv)).

Fixpoint zero_of (t : rty) : rv :=
  match t with
  | RScal => VZero
  | RStruct true _ => VNil
  | RStruct false fs => VRec (map (fun p => (fst p, zero_of (snd p))) fs)
  end.
(** new(T) and var v T, for T the struct with fields [fs] *)
Definition zero_rec (fs : list (bytes * rty)) : rv := zero_of (RStruct false fs).

Fixpoint look {A} (f : bytes) (l : list (bytes * A)) : option A :=
  match l with
  | [] => None
  | (k, x) :: r => if bytes_eqb k f then Some x else look f r
  end.
Fixpoint upd {A} (f : bytes) (g : A -> option A) (l : list (bytes * A)) : option (list (bytes * A)) :=
  match l with
  | [] => None
  | (k, x) :: r =>
      if bytes_eqb k f then option_map (fun y => (k, y) :: r) (g x)
      else option_map (cons (k, x)) (upd f g r)
  end.
(** x.f1.f2...; None when a pointer on the way is nil *)
Fixpoint get (v : rv) (p : list bytes) : option rv :=
  match p with
  | [] => Some v
  | f :: p => match v with
              | VRec fs => match look f fs with Some x => get x p | None => None end
              | _ => None
              end
  end.
(** x.f1.f2... = y *)
Fixpoint put (p : list bytes) (y : rv) (v : rv) : option rv :=
  match p with
  | [] => Some y
  | f :: p => match v with VRec fs => option_map VRec (upd f (put p y) fs) | _ => None end
  end.
Fixpoint ty_get (t : rty) (p : list bytes) : option rty :=
  match p with
  | [] => Some t
  | f :: p => match t with
              | RStruct _ fs => match look f fs with Some u => ty_get u p | None => None end
              | RScal => None
              end
  end.

(** A field of the query struct: a record, a slice, an iterator (what it has
    been called with), a number. *)
Inductive oval := ORec (r : rv) | OSlice (l : list rv) | OIter (seen : list rv) | ONum (z : Z).

(** Errors are numbers; a row is an error or its column values. *)
Definition row : Type := nat + list nat.

(** The database's and the user's side: the shape of the record's base type,
    the error of the call, the row of QueryRow, the rows of Query and the
    final rows.Err(), the count of RowsAffected, what AfterScan does to a
    record, and the iterator's answer given the records it saw before. *)
Record oenv := MkEnv {
  e_fields : list (bytes * rty);
  e_call : option nat; e_row : row; e_rows : list row; e_err : option nat; e_count : nat + Z;
  e_after : rv -> rv; e_iter : list rv -> rv -> option nat }.

(** The error Scan returns for a row of the wrong width. *)
Definition err_width : nat := 0.

Record ost := MkO {
  o_q : bytes -> oval; o_v : option rv; o_i : nat; o_err : option nat; o_n : Z; o_row : row;
  o_closed : bool }.
Definition so_q (x : bytes -> oval) (s : ost) := MkO x (o_v s) (o_i s) (o_err s) (o_n s) (o_row s) (o_closed s).
Definition so_v (x : option rv) (s : ost) := MkO (o_q s) x (o_i s) (o_err s) (o_n s) (o_row s) (o_closed s).
Definition so_i (x : nat) (s : ost) := MkO (o_q s) (o_v s) x (o_err s) (o_n s) (o_row s) (o_closed s).
Definition so_err (x : option nat) (s : ost) := MkO (o_q s) (o_v s) (o_i s) x (o_n s) (o_row s) (o_closed s).
Definition so_n (x : Z) (s : ost) := MkO (o_q s) (o_v s) (o_i s) (o_err s) x (o_row s) (o_closed s).
Definition so_row (x : row) (s : ost) := MkO (o_q s) (o_v s) (o_i s) (o_err s) (o_n s) x (o_closed s).
Definition so_closed (x : bool) (s : ost) := MkO (o_q s) (o_v s) (o_i s) (o_err s) (o_n s) (o_row s) x.
Definition set_field (f : bytes) (x : oval) (s : ost) : ost :=
  so_q (fun g => if bytes_eqb g f then x else o_q s g) s.

(** What the method returns: an error or nil, or whatever the handler makes
    of the error (or nil) it is called with. *)
Inductive oret := RetErr (e : option nat) | RetHandler (h : bytes) (e : option nat) | RetInfo (h : bytes) (e : option nat).

(** Running statements: on to the next, returned, or panicked. *)
Inductive outcome := Next (s : ost) | Done (s : ost) (r : oret) | Crash.

(** The variable at the root of a destination, and the path from it. *)
Inductive oroot := OField (f : bytes) | OElem (f : bytes) | OVar.
Fixpoint place (e : gexpr) : option (oroot * list bytes) :=
  match e with
  | GV => Some (OVar, [])
  | GIdx (GSel GQ f) VI => Some (OElem f, [])
  | GSel GQ f => Some (OField f, [])
  | GSel e f => match place e with Some (r, p) => Some (r, p ++ [f]) | None => None end
  | _ => None
  end.
Fixpoint set_nth {A} (n : nat) (x : A) (l : list A) : list A :=
  match l, n with
  | [], _ => []
  | _ :: r, O => x :: r
  | y :: r, S n => y :: set_nth n x r
  end.
Definition read_root (s : ost) (r : oroot) : option rv :=
  match r with
  | OVar => o_v s
  | OField f => match o_q s f with ORec x => Some x | _ => None end
  | OElem f => match o_q s f with OSlice l => nth_error l (o_i s) | _ => None end
  end.
Definition write_root (r : oroot) (x : rv) (s : ost) : ost :=
  match r with
  | OVar => so_v (Some x) s
  | OField f => set_field f (ORec x) s
  | OElem f => match o_q s f with OSlice l => set_field f (OSlice (set_nth (o_i s) x l)) s | _ => s end
  end.
(** place = y; None: nil pointer, or index out of range *)
Definition store (r : oroot) (p : list bytes) (y : rv) (s : ost) : option ost :=
  match read_root s r with
  | Some x => option_map (fun x => write_root r x s) (put p y x)
  | None => None
  end.

(** An argument of Scan: its converter and place. *)
Definition dest (e : gexpr) : option (bytes * (oroot * list bytes)) :=
  match e with
  | GConv fn (GAddr e) => option_map (pair fn) (place e)
  | GAddr e => option_map (pair []) (place e)
  | _ => None
  end.
(** Taking the address panics when a pointer on the way is nil. *)
Definition addressable (s : ost) (e : gexpr) : bool :=
  match dest e with
  | Some (_, (r, p)) => is_some (store r p VZero s)
  | None => false
  end.
Fixpoint write_all (l : list gexpr) (ds : list nat) (s : ost) : option ost :=
  match l, ds with
  | e :: l, d :: ds =>
      match dest e with
      | Some (fn, (r, p)) => match store r p (VGot fn d) s with
                             | Some s => write_all l ds s
                             | None => None
                             end
      | None => None
      end
  | _, _ => Some s
  end.
(** row(s).Scan(args): the state and the error.  A failing Scan is taken to
    write nothing. *)
Definition scan (args : list gexpr) (s : ost) : option (ost * option nat) :=
  if forallb (addressable s) args then
    match o_row s with
    | inl e => Some (s, Some e)
    | inr ds =>
        if Nat.eqb (List.length ds) (List.length args)
        then option_map (fun s => (s, None)) (write_all args ds s)
        else Some (s, Some err_width)
    end
  else None.

(** T(i64) *)
Definition wrapS (w z : Z) : Z := ((z + 2 ^ (w - 1)) mod 2 ^ w - 2 ^ (w - 1))%Z.
Definition conv_int (k : kind) (z : Z) : Z :=
  match k with
  | KBasic BInt8 => wrapS 8 z
  | KBasic BInt16 => wrapS 16 z
  | KBasic BInt32 => wrapS 32 z
  | KBasic BUint8 => z mod 2 ^ 8
  | KBasic BUint16 => z mod 2 ^ 16
  | KBasic BUint32 => z mod 2 ^ 32
  | KBasic BUint | KBasic BUint64 => z mod 2 ^ 64
  | _ => z
  end%Z.

Definition exec_init (env : oenv) (out : gexpr) (i : init) (s : ost) : option ost :=
  match i with
  | InitNew | InitVar => Some (so_v (Some (zero_rec (e_fields env))) s)
  | InitRoot => match place out with
                | Some (r, _) => Some (write_root r (zero_rec (e_fields env)) s)
                | None => None
                end
  | InitPath p =>
      match place out, ty_get (RStruct false (e_fields env)) p with
      | Some (r, _), Some (RStruct true fs) => store r p (zero_rec fs) s
      | _, _ => None
      end
  end.

(** The value of an error expression. *)
Definition eval_err (env : oenv) (e : errx) (s : ost) : option (ost * option nat) :=
  match e with
  | EVar => Some (s, o_err s)
  | EScan args => scan args s
  | ERowsErr => Some (s, e_err env)
  end.

(** [out] is the output variable; it only serves [RInit]. *)
Fixpoint rexec (env : oenv) (out : gexpr) (st : rstmt) (s : ost) {struct st} : outcome :=
  let fix seq (l : list rstmt) (s : ost) : outcome :=
    match l with
    | [] => Next s
    | a :: l => match rexec env out a s with Next s => seq l s | o => o end
    end in
  match st with
  | RCall => Next (so_err (e_call env) (so_row (e_row env) s))
  | RDefer => Next (so_closed true s)
  | RInit i => match exec_init env out i s with Some s => Next s | None => Crash end
  | RScan args => match scan args s with Some (s, e) => Next (so_err e s) | None => Crash end
  | RIfErr l => match o_err s with Some _ => seq l s | None => Next s end
  | RIfExpr e l =>
      match eval_err env e s with
      | Some (s, Some x) => seq l (so_err (Some x) s)
      | Some (s, None) => Next s
      | None => Crash
      end
  | RReturn None => Done s (RetErr None)
  | RReturn (Some e) => match eval_err env e s with Some (s, x) => Done s (RetErr x) | None => Crash end
  | RHandle h e => match eval_err env e s with Some (s, x) => Done s (RetHandler h x) | None => Crash end
  | RHandleInfo h => Done s (RetInfo h (o_err s))
  | RAffected => match e_count env with
                 | inl e => Next (so_err (Some e) s)
                 | inr z => Next (so_n z (so_err None s))
                 end
  | RStore f k => Next (set_field f (ONum (conv_int k (o_n s))) s)
  | RAfter x =>
      match place x with
      | Some (r, _) => match read_root s r with
                       | Some v => Next (write_root r (e_after env v) s)
                       | None => Crash
                       end
      | None => Crash
      end
  | RIter root _ l =>
      match place root, o_v s with
      | Some (OField f, []), Some v =>
          match o_q s f with
          | OIter seen =>
              let s := set_field f (OIter (seen ++ [v])) s in
              match e_iter env seen v with
              | Some x => seq l (so_err (Some x) s)
              | None => Next s
              end
          | _ => Crash
          end
      | _, _ => Crash
      end
  | RZero => Next (so_i 0 s)
  | RIncr => Next (so_i (S (o_i s)) s)
  | RAppend root =>
      match place root, o_v s with
      | Some (OField f, []), Some v =>
          match o_q s f with
          | OSlice l => Next (set_field f (OSlice (l ++ [v])) s)
          | _ => Crash
          end
      | _, _ => Crash
      end
  | RFor body =>
      (fix loop (rows : list row) (s : ost) : outcome :=
         match rows with
         | [] => Next s
         | r :: rows => match seq body (so_row r s) with Next s => loop rows s | o => o end
         end) (e_rows env) s
  end.
Fixpoint rseq (env : oenv) (out : gexpr) (l : list rstmt) (s : ost) : outcome :=
  match l with
  | [] => Next s
  | a :: l => match rexec env out a s with Next s => rseq env out l s | o => o end
  end.

(** The method's second half, on a query struct with fields [fs]. *)
Definition run_result (env : oenv) (q : qstate) (t : tinfo) (fs : bytes -> oval) : outcome :=
  rseq env (outputVar q) (result_stmts q t) (MkO fs None 0 None 0%Z (inr []) false).
