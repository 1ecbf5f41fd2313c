(** What a query with a filter field means: the statement without a condition,
    followed by the text of the filter. *)
From Coq Require Import Ascii String ZArith NArith Bool List.
From Verif Require Import GoBase AParse Analysis Oids Gen GenRun GenSpec.
Import ListNotations.
Local Open Scope string_scope.
Local Open Scope list_scope.

(** What stands before the filter's text and what follows it.  Left out,
    because the generator puts them before the filter's text: the order, limit
    and offset of a select, the limit of a select of a single record, and what
    a delete returns (see the refutations of C55). *)
Inductive filtered (q : qstate) (t : tinfo) : fstmt -> option fstmt -> Prop :=
| fil_select : forall cols joins, q_kind q = KSelect -> ~ single (q_rtype q) ->
    q_orderby q = None -> q_limit q = None -> q_offset q = None ->
    Forall2 fetched (ti_reads t) cols -> joins_are q t joins ->
    filtered q t (StSelect cols (q_relid q) joins None [] LNone LNone) None
| fil_count : forall joins, q_kind q = KSelectCount -> q_limit q = None -> q_offset q = None -> joins_are q t joins ->
    filtered q t (StCount (q_relid q) joins None [] LNone) None
| fil_exists : forall (neg : bool) joins, q_kind q = (if neg then KSelectNotExists else KSelectExists) ->
    q_limit q = None -> q_offset q = None -> joins_are q t joins ->
    filtered q t (StExists neg true (q_relid q) joins None [] LNone LNone) None
| fil_delete : forall from, q_kind q = KDelete -> ti_reads t = [] -> from_is q t from ->
    filtered q t (StDelete (q_relid q) from None []) None
| fil_update : forall vals from, q_kind q = KUpdate -> rt_slice (q_rtype q) = false -> ti_reads t = [] ->
    Forall2 (stored q [q_relname q] false) (ti_writes t) vals -> from_is q t from ->
    filtered q t (StUpdate (q_relid q) (columns_of (ti_writes t)) vals from None []) None
| fil_update_returning : forall vals from ret, q_kind q = KUpdate -> rt_slice (q_rtype q) = false -> ti_reads t <> [] ->
    Forall2 (stored q [q_relname q] false) (ti_writes t) vals -> from_is q t from ->
    Forall2 fetched (ti_reads t) ret ->
    filtered q t (StUpdate (q_relid q) (columns_of (ti_writes t)) vals from None [])
      (Some (StUpdateTail None None ret)).

(** The filter's text with its placeholders numbered: each stands for the
    filter's value. *)
Definition filter_text_is (args : list gv) (text : list (ascii + nat)) (vals : list gv) (l : list tok) : Prop :=
  Forall2 (fun x tk => match x with
                       | inl c => tk = TChr c
                       | inr k => exists m, tk = TPar m /\ (1 <= m <= 65535)%Z /\ argument args m = nth_error vals k
                       end) text l.
(** The statement of EXISTS is closed after the filter's text. *)
Definition closing (n : fstmt) : list tok := match n with StExists _ true _ _ _ _ _ _ => [TChr ")"%char] | _ => [] end.
