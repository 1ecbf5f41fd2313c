(** What is expected of the rows a generated method receives. *)
From Coq Require Import Ascii String ZArith NArith Bool List.
From Verif Require Import GoBase AParse Analysis Oids Gen GenOut.
Import ListNotations.
Local Open Scope list_scope.

(** The field [name] under the selector [sel] is a field of a struct of shape
    [t], and the selector tells which of the structs on the way are held by
    pointer. *)
Fixpoint in_type (t : rty) (sel : list selnode) (name : bytes) : Prop :=
  match t with
  | RScal => False
  | RStruct _ ts =>
      match sel with
      | [] => look name ts = Some RScal
      | n :: r => exists us, look (sn_name n) ts = Some (RStruct (sn_ptr n) us)
                             /\ in_type (RStruct (sn_ptr n) us) r name
      end
  end.
Definition read_path (r : fread) : list bytes := sel_path (fr_field r).
Definition reads_in (ts : list (bytes * rty)) (reads : list fread) : Prop :=
  Forall (fun r => in_type (RStruct false ts) (fi_sel (fr_field r)) (fi_name (fr_field r))) reads.

(** [p] is the path of a struct held by pointer, on the way to the field read
    by [r]. *)
Definition pointer_on (r : fread) (p : list bytes) : Prop :=
  exists a n b, fi_sel (fr_field r) = a ++ n :: b /\ sn_ptr n = true /\ p = map sn_name a ++ [sn_name n].

(** No two different such paths spell the same string. *)
Definition no_collision (reads : list fread) : Prop :=
  forall r1 r2 p1 p2, In r1 reads -> In r2 reads -> pointer_on r1 p1 -> pointer_on r2 p2 ->
    List.concat p1 = List.concat p2 -> p1 = p2.

(** The columns [ds] are in the fields read, in order, each through its
    converter; other columns in [x] were in [old]. *)
Definition scanned (reads : list fread) (ds : list nat) (old x : rv) : Prop :=
  List.length ds = List.length reads
  /\ (forall i r d, nth_error reads i = Some r -> nth_error ds i = Some d ->
        get x (read_path r) = Some (VGot (fr_scanner r) d))
  /\ (forall p fn d, get x p = Some (VGot fn d) -> In p (map read_path reads) \/ get old p = Some (VGot fn d)).
(** A new record: no other column in it. *)
Definition decoded (reads : list fread) (ds : list nat) (x : rv) : Prop := scanned reads ds VNil x.

(** A value of the shape. *)
Fixpoint fits (t : rty) (v : rv) {struct t} : Prop :=
  match t with
  | RScal => v = VZero \/ exists fn d, v = VGot fn d
  | RStruct ptr ts =>
      (ptr = true /\ v = VNil)
      \/ exists vs, v = VRec vs
         /\ (fix go (ts : list (bytes * rty)) (vs : list (bytes * rv)) : Prop :=
               match ts, vs with
               | [], [] => True
               | (f, t) :: ts, (g, y) :: vs => f = g /\ fits t y /\ go ts vs
               | _, _ => False
               end) ts vs
  end.
(** The record can take the fields read. *)
Definition ready (ts : list (bytes * rty)) (reads : list fread) (v : rv) : Prop :=
  fits (RStruct false ts) v /\ forall r, In r reads -> get v (read_path r) <> None.

(** A record written in place: the other fields keep what they had. *)
Definition updated (ts : list (bytes * rty)) (reads : list fread) (ds : list nat) (old x : rv) : Prop :=
  List.length ds = List.length reads
  /\ (forall i r d, nth_error reads i = Some r -> nth_error ds i = Some d ->
        get x (read_path r) = Some (VGot (fr_scanner r) d))
  /\ (forall q, ty_get (RStruct false ts) q = Some RScal -> ~ In q (map read_path reads) -> get x q = get old q).

(** What the method answers for an error or nil: the error itself, the
    handler's answer to it, or the answer of a handler that is only asked
    about errors. *)
Definition answer (q : qstate) (e : option nat) : oret :=
  match q_errh q with
  | None => RetErr e
  | Some h => if eh_info h
              then match e with Some _ => RetInfo (eh_name h) e | None => RetErr None end
              else RetHandler (eh_name h) e
  end.

(** Handing records to an iterator until it answers with an error: what it has
    seen and the error. *)
Fixpoint iterate (it : list rv -> rv -> option nat) (seen recs : list rv) : list rv * option nat :=
  match recs with
  | [] => (seen, None)
  | v :: r => match it seen v with
              | Some e => (seen ++ [v], Some e)
              | None => iterate it (seen ++ [v]) r
              end
  end.

(** The rows of the result: [good], then the end of the rows (with the error
    rows.Err() reports) or a row that cannot be scanned. *)
Definition rows_are (rows : list row) (err : option nat) (good : list (list nat)) (end_ : option nat) : Prop :=
  (rows = map inr good /\ end_ = err)
  \/ exists e rest, rows = map inr good ++ inl e :: rest /\ end_ = Some e.

(** The query gets its rows in one way: from a select, a result field or a
    return directive. *)
Definition one_source (q : qstate) : Prop :=
  (isSelect (q_kind q) = true /\ q_result q = None /\ q_return q = None)
  \/ (isSelect (q_kind q) = false /\ q_result q <> None /\ q_return q = None)
  \/ (isSelect (q_kind q) = false /\ q_result q = None /\ q_return q <> None).
Definition out_field (q : qstate) : bytes :=
  match q_result q with Some r => rs_name r | None => q_relname q end.
(** Rows returned by an insert or update are written to the records given. *)
Definition in_place (q : qstate) : Prop := IsInsertOrUpdate q = true /\ q_result q = None.

(** The fields read are fields of the record's type, each read once, and no
    two paths to nested structs spell the same string. *)
Definition shaped (env : oenv) (t : tinfo) : Prop :=
  ti_reads t <> [] /\ reads_in (e_fields env) (ti_reads t) /\ NoDup (map read_path (ti_reads t)).
(** AfterScan, when the record has it. *)
Definition finish (env : oenv) (q : qstate) (x : rv) : rv := if rt_after (out_type q) then e_after env x else x.
