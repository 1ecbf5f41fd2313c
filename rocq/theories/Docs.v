(** Models of pgsql.JSON, pgsql.XML, pgsql.AnyToEmptyInterface and
    pgsql.BitFromBool.  encoding/json and encoding/xml are parameters: [marshal]
    encodes a Go value, [unmarshal] decodes a text into a variable with the given
    content. *)
From Coq Require Import Ascii String ZArith NArith Bool List.
From Verif Require Import GoBase.
Import ListNotations.
Local Open Scope char_scope.

(** What a driver hands to Scan (database/sql/driver.Value). *)
Inductive dsrc := DNil | DBytes (b : bytes) | DString (b : bytes) | DOther.

(** json.go:23-28, xml.go:30-35; [None] is the nil interface. *)
Definition DocValue {V} (marshal : V -> res bytes) (v : option V) : res dval :=
  match v with
  | None => Ok None
  | Some x => rmap Some (marshal x)
  end.

(** json.go:30-35, xml.go:23-28; the new content of the destination. *)
Definition DocScan {V} (unmarshal : bytes -> V -> res V) (s : dsrc) (old : V) : res V :=
  match s with
  | DBytes b => unmarshal b old
  | _ => Ok old
  end.

(** any.go:17-20 *)
Definition AnyScan (s : dsrc) (_ : dsrc) : res dsrc := Ok s.

(** bit.go:16-21 *)
Definition BitFromBool (v : bool) : dval := if v then Some ["1"] else Some ["0"].
