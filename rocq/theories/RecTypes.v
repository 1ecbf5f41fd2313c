(** Model of the analysis of record types on types that may mention themselves
    (internal/analysis/analysis.go:520-698).  In [Analysis] a type is a finite
    tree; here a declared type is a name, and its underlying type is looked up.

    Neither the recursion of analyzeTypeInfo nor the loop of
    analyzeFieldInfoList looks for cycles, so they need not end: the functions
    take an amount of fuel and give [None] when it is used up.

    Simplifications: as in [Analysis]; what interface, func and chan types are
    made of is left out, since the analysis does not look at it. *)
From Coq Require Import Ascii String ZArith NArith Bool List.
From Verif Require Import GoBase AParse Analysis.
Import ListNotations.
Local Open Scope list_scope.

Inductive rtype :=
| RBasic (k : basic) (isbyte isrune : bool)
| RChan | RFunc | RIface (empty scanner valuer : bool)
| RArray (n : Z) (t : rtype)
| RSlice (t : rtype)
| RPtr (t : rtype)
| RMap (k v : rtype)
| RStruct (fs : list (fvar * rtype))
| RName (n : tname).

(** types.Named.Underlying *)
Definition decls := tname -> rtype.

Definition obind {A C} (x : option (ares A)) (f : A -> option (ares C)) : option (ares C) :=
  match x with
  | None => None
  | Some (AOk a) => f a
  | Some (AErr e) => Some (AErr e)
  | Some APanic => Some APanic
  end.
Definition known {A} (x : ares A) : option (ares A) := Some x.

(** analysis.go:647-698 *)
Fixpoint typeInfoR (fuel : nat) (D : decls) (e : env) (t : rtype) : option (ares (TypeInfo * rtype)) :=
  match fuel with
  | O => None
  | S fuel =>
      match t with
      | RName n =>
          match n_pkg n with
          | None => Some APanic
          | Some (p, pn) =>
              obind (typeInfoR fuel D e (D n)) (fun '(i, b) =>
                known (AOk (MkTI (n_name n) (t_kind i) p pn (negb (bytes_eqb p (e_pkg e))) (n_flags n) (t_empty i)
                                 (t_byte i) (t_rune i) (t_len i) (t_key i) (t_elem i), b)))
          end
      | RBasic k isbyte isrune =>
          Some (AOk (MkTI [] (KBasic k) [] [] false no_flags false isbyte isrune 0 None None, t))
      | RSlice u => obind (typeInfoR fuel D e u) (fun '(i, b) => known (AOk (with_elem i (plain_ti KSlice), b)))
      | RArray n u =>
          obind (typeInfoR fuel D e u) (fun '(i, b) =>
            known (AOk (MkTI [] KArray [] [] false no_flags false false false n None (Some i), b)))
      | RMap k u =>
          obind (typeInfoR fuel D e k) (fun '(ik, _) =>
          obind (typeInfoR fuel D e u) (fun '(i, b) =>
            known (AOk (MkTI [] KMap [] [] false no_flags false false false 0 (Some ik) (Some i), b))))
      | RPtr u => obind (typeInfoR fuel D e u) (fun '(i, b) => known (AOk (with_elem i (plain_ti KPtr), b)))
      | RIface em sc va =>
          Some (AOk (MkTI [] KInterface [] [] false (MkFlags sc va false false false false) em false false 0 None None, t))
      | RStruct _ => Some (AOk (plain_ti KStruct, t))
      | RChan => Some (AOk (plain_ti KChan, t))
      | RFunc => Some (AOk (plain_ti KFunc, t))
      end
  end.

(** analysis.go:522-528 *)
Record rframe := MkRFrame { rf_fields : list (fvar * rtype); rf_imported : bool; rf_pfx : bytes; rf_sel : list selnode }.
Inductive rstep := RSkip | RDescend (f : rframe) | RLeaf (f : FieldInfo).

(** analysis.go:537-636 *)
Definition field_stepR (fuel : nat) (D : decls) (e : env) (sp : relspace) (fr : rframe) (v : fvar) (t : rtype) : option (ares rstep) :=
  let tg := v_tag v in
  let sqltag := tag_first tg (B "sql") in
  if bytes_eqb sqltag [] || bytes_eqb sqltag (B "-") || bytes_eqb (v_name v) (B "_")
     || (negb (v_exported v) && rf_imported fr)
  then Some (AOk RSkip)
  else
    obind (typeInfoR fuel D e t) (fun '(i, base) =>
    if is_struct i && has_prefix (B ">") sqltag then
      match base with
      | RStruct fs =>
          known (do m <- lift_res (parseFieldMode tg);
                 AOk (RDescend (MkRFrame fs (t_imported i) (rf_pfx fr ++ skipn 1 sqltag)
                                         (rf_sel fr ++ [make_node v i m]))))
      | _ => Some APanic
      end
    else
      known (do cid <- lift (parseColIdent sp (rf_pfx fr ++ sqltag));
             do m <- lift_res (parseFieldMode tg);
             let '(co, cv) := parseCoalesceInfo tg in
             AOk (RLeaf (MkFI (v_name v) i (rf_sel fr) (v_embedded v) (v_exported v) tg cid
                              (parseFilterColumnKey e (v_name v) tg (rf_sel fr)) m
                              (tag_opt tg (B "sql") (B "nullempty")) (tag_opt tg (B "sql") (B "default"))
                              (tag_opt tg (B "sql") (B "add")) co cv)))).

(** analysis.go:533-640 *)
Fixpoint fields_loopR (fuel : nat) (D : decls) (e : env) (sp : relspace) (stack : list rframe) (out : list FieldInfo)
  : option (ares (list FieldInfo)) :=
  match fuel with
  | O => None
  | S fuel =>
      match stack with
      | [] => Some (AOk out)
      | fr :: rest =>
          match rf_fields fr with
          | [] => fields_loopR fuel D e sp rest out
          | (v, t) :: fs =>
              let fr' := MkRFrame fs (rf_imported fr) (rf_pfx fr) (rf_sel fr) in
              obind (field_stepR fuel D e sp fr v t) (fun s =>
              match s with
              | RSkip => fields_loopR fuel D e sp (fr' :: rest) out
              | RDescend f => fields_loopR fuel D e sp (f :: fr' :: rest) out
              | RLeaf f => fields_loopR fuel D e sp (fr' :: rest) (out ++ [f])
              end)
          end
      end
  end.

(** analysis.go:520-641 for the fields of a struct *)
Definition fieldInfoListR (fuel : nat) (D : decls) (e : env) (sp : relspace) (imported : bool) (fs : list (fvar * rtype))
  : option (ares (list FieldInfo)) := fields_loopR fuel D e sp [MkRFrame fs imported [] []] [].
