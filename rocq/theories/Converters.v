(** Model of the option filter_value_converters: reading it
    (internal/config/config.go:98-111, internal/config/types.go:213-268), and the
    table made of it (internal/analysis/analysis.go:2357-2368), which
    [FilterCode.FilterValueConverter] looks up, and the reference to the function
    in the generated code.

    Simplifications: the JSON is given decoded, an entry being a list of keys and
    values in the order of the file; other keys than type and func are left out. *)
From Coq Require Import Ascii String ZArith NArith Bool List.
From Verif Require Import GoBase AParse Analysis FilterCode Imports.
Import ListNotations.
Local Open Scope list_scope.

(** types.go:215-219 *)
Record objid := MkObj { o_path : bytes; o_name : bytes; o_set : bool }.
Definition no_obj : objid := MkObj [] [] false.

(** types.go:227-233 *)
Definition obj_string (i : objid) : bytes :=
  match o_name i with [] => o_path i | n => o_path i ++ B "." ++ n end.

(** types.go:235.  In the class [\w\.-/] the part \.-/ is the range from the dot
    to the slash, which are neighbours: the hyphen is not in it. *)
Definition rx_pathchar : rx :=
  RCls (fun c => in_range 48 57 c || in_range 65 90 c || beq c "_" || in_range 97 122 c || in_range 46 47 c).
Definition rxObjId : rx := RSeq rx_word (RSeq (RStar rx_pathchar) (RSeq rx_word (RSeq (RChr ".") rx_name))).

(** types.go:238-250; [None] is an error. *)
Definition obj_Set (i : objid) (v : bytes) : option objid :=
  match v with
  | [] => Some i
  | _ =>
      if rx_match rxObjId v then
        match cut_last "."%char v with Some (p, n) => Some (MkObj p n true) | None => None end
      else None
  end.

Inductive jval := JNull | JStr (s : bytes) | JOther.

(** types.go:253-268 *)
Definition obj_json (i : objid) (j : jval) : option objid :=
  if o_set i then Some i
  else match j with JNull => Some i | JStr s => obj_Set i s | JOther => None end.

(** config.go:106-111 *)
Inductive ckey := KType | KFunc.
Definition centry := list (ckey * jval).
Record conv := MkConv { cv_type : objid; cv_func : objid }.

(** encoding/json: the keys of an object in turn *)
Fixpoint read_entry (c : conv) (e : centry) : option conv :=
  match e with
  | [] => Some c
  | (KType, j) :: r => match obj_json (cv_type c) j with Some t => read_entry (MkConv t (cv_func c)) r | None => None end
  | (KFunc, j) :: r => match obj_json (cv_func c) j with Some f => read_entry (MkConv (cv_type c) f) r | None => None end
  end.
Fixpoint read_entries (l : list centry) : option (list conv) :=
  match l with
  | [] => Some []
  | e :: r =>
      match read_entry (MkConv no_obj no_obj) e, read_entries r with
      | Some c, Some cs => Some (c :: cs)
      | _, _ => None
      end
  end.

(** analysis.go:2359-2368 *)
Definition AnalyzeFilterValueConverters (l : list conv) : list (bytes * fident) :=
  map (fun c => (o_path (cv_type c) ++ B "." ++ o_name (cv_type c), (o_path (cv_func c), o_name (cv_func c)))) l.

(** generator.go:750-759, types.go:646-648: how the code refers to the function;
    [pkg] is the package for which the code is generated. *)
Definition converter_ref (pkg : bytes) (set : list impspec) (id : fident) : list impspec * fexpr :=
  if bytes_eqb (fst id) pkg then (set, XId (snd id))
  else let '(set, n) := addimport set (fst id) [] in (set, XSel (XId n) (snd id)).
