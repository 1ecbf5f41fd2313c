(** What writing a slice of records means: one parenthesised list of values for
    each record. *)
From Coq Require Import Ascii String ZArith NArith Bool List.
From Verif Require Import GoBase AParse Analysis Oids Gen GenRun GenSpec.
Import ListNotations.
Local Open Scope string_scope.
Local Open Scope list_scope.

(** The SQL text of a value of a VALUES list. *)
Fixpoint cell_sql (e : sexpr Z) : list tok :=
  match e with
  | XDefault => toks (B "DEFAULT")
  | XParam n => [TPar n]
  | XCast e t => cell_sql e ++ toks (B "::" ++ t)
  | XNullif e z => toks (B "NULLIF(") ++ cell_sql e ++ toks (B ", " ++ z ++ B ")")
  | _ => []
  end.
Fixpoint separated (sep : bytes) (l : list (list tok)) : list tok :=
  match l with [] => [] | [x] => x | x :: r => x ++ toks sep ++ separated sep r end.
Definition row_sql (row : list (sexpr Z)) : list tok :=
  toks (B "(") ++ separated (B ", ") (map cell_sql row) ++ toks (B ")").
Definition rows_sql (rows : list (list (sexpr Z))) : list tok := separated (B ",") (map row_sql rows).

(** The numbers from 1 to n. *)
Definition one_to (n : nat) : list Z := map Z.of_nat (seq 1 n).

(** Row by row the values of the records' fields: the server, given the
    arguments, stores for the record [v] what [vals] describes; and the
    placeholders of the rows count the arguments. *)
Definition rows_hold (vals : list (sexpr access)) (recs args : list gv) (rows : list (list (sexpr Z))) : Prop :=
  Forall2 (fun v row => map (sexpr_map (argument args)) row = map (sexpr_map (value v)) vals) recs rows
  /\ flat_map (flat_map sexpr_params) rows = one_to (List.length args).

(** In an update of a slice the rows also hold the primary keys that are not
    written. *)
Definition key_value (w : fwrite) : sexpr access := XParam (Acc (field_path (fw_field w)) []).
Inductive other_keys (t : tinfo) : list fwrite -> list fwrite -> Prop :=
| ok_nil : other_keys t [] []
| ok_written : forall w x l r, In x (ti_writes t) -> fw_id x = fw_id w -> other_keys t l r -> other_keys t (w :: l) r
| ok_other : forall w l r, (forall x, In x (ti_writes t) -> fw_id x <> fw_id w) -> other_keys t l r ->
    other_keys t (w :: l) (w :: r).
(** x is the alias of the VALUES list. *)
Definition in_values (c : bytes) : ColIdent := MkCol (B "x") c.
Definition key_cond {P L} (w : fwrite) : bexpr P L :=
  YOp OpEq (XCol (fw_ident w)) (XCast (XCol (in_values (c_col (fw_ident w)))) (ty_fmt (co_type (fw_col w)))).
Fixpoint key_conds {P L} (b : option boolean) (l : list fwrite) : list (option boolean * bexpr P L) :=
  match l with [] => [] | w :: r => (b, key_cond w) :: key_conds (Some BoolAnd) r end.

(** The statement that writes a slice of records: what stands before the rows,
    the values of one row (with fields of the record), and what follows.
    In an update no column is set to its default and nothing is returned:
    the generator does not handle these (see the refutations of C41). *)
Inductive rows_intended (q : qstate) (t : tinfo) : list (sexpr access) -> fstmt -> option fstmt -> Prop :=
| rows_insert_plain : forall vals, q_kind q = KInsert -> rt_slice (q_rtype q) = true -> ti_writes t <> [] ->
    Forall2 (stored q [] false) (ti_writes t) vals -> conflict_is t = None -> ti_reads t = [] ->
    rows_intended q t vals (StInsert (q_relid q) (columns_of (ti_writes t)) (q_override q) [] None []) None
| rows_insert_tail : forall vals ret, q_kind q = KInsert -> rt_slice (q_rtype q) = true -> ti_writes t <> [] ->
    Forall2 (stored q [] false) (ti_writes t) vals -> Forall2 fetched (ti_reads t) ret ->
    conflict_is t <> None \/ ti_reads t <> [] ->
    rows_intended q t vals (StInsert (q_relid q) (columns_of (ti_writes t)) (q_override q) [] None [])
      (Some (StInsertTail (conflict_is t) ret))
| rows_update : forall vals from others, q_kind q = KUpdate -> rt_slice (q_rtype q) = true ->
    q_where q = None -> q_all q = false -> ti_writes t <> [] -> ti_reads t = [] ->
    (forall w, In w (ti_writes t) -> defaulted q w = false) ->
    Forall2 (stored q [] true) (ti_writes t) vals -> from_is q t from -> other_keys t (ti_pkeys t) others ->
    rows_intended q t (vals ++ map key_value others)
      (StUpdate (q_relid q) (columns_of (ti_writes t))
         (map (fun w => XCol (in_values (co_name (fw_col w)))) (ti_writes t)) (from ++ [TxValues]) None [])
      (Some (StUpdateTail (Some (B "x", columns_of (ti_writes t) ++ columns_of others))
               (Some (YList false (key_conds None (ti_pkeys t)))) [])).
