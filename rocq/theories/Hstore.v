(** Models of pgsql/hstore.go and pgsql/hstorearr.go.

    A Go map is an association list; the Valuers iterate over it in list
    order, and the theorems quantify over all orders.  Values are
    [option bytes]: [None] is a nil *string / an invalid sql.NullString.
    The map[string]string variants use [Some] only. *)
From Coq Require Import Ascii String ZArith NArith Bool List.
From Verif Require Import GoBase Strconv ConvertUtil Codecs.
Import ListNotations.
Local Open Scope char_scope.

Definition hmap := list (bytes * option bytes).

(** hstore.go:104-113 (StringPtr), 155-164 (NullString), 49-54 (String). *)
Definition enc_pair (p : bytes * option bytes) : bytes :=
  quote1 (fst p) ++ ["="; ">"] ++
  match snd p with Some v => quote1 v | None => B "NULL" end.

(** hstore.go:43-61, 98-119, 148-169: nil map is NULL, the trailing comma is
    dropped if anything was written. *)
Definition HStoreFrom (v : option hmap) : dval :=
  match v with
  | None => None
  | Some m =>
      let out := List.concat (map (fun p => enc_pair p ++ [","]) m) in
      Some (match out with [] => [] | _ => removelast out end)
  end.

(** Go map assignment [hash[k] = v]. *)
Fixpoint upsert {V} (k : bytes) (v : V) (m : list (bytes * V)) : list (bytes * V) :=
  match m with
  | [] => [(k, v)]
  | (k', v') :: r => if bytes_eqb k k' then (k, v) :: r else (k', v') :: upsert k v r
  end.

Definition build {V} (ps : list (bytes * V)) : list (bytes * V) :=
  fold_left (fun m p => upsert (fst p) (snd p) m) ps [].

(** hstore.go:132-140 and 184-193: a nil (= never appended to) value is the
    nil pointer / invalid string. *)
Definition val_opt (v : bytes) : option bytes := match v with [] => None | _ => Some v end.

(** hstore.go:79-85: a nil value is the empty string. *)
Definition val_str (v : bytes) : option bytes := Some v.

(** hstore.go:67-88 ([val_str]), 125-142 and 175-197 ([val_opt]); NULL leaves
    the destination alone. *)
Definition HStoreTo (val : bytes -> option bytes) (s : src) (old : option hmap) : res (option hmap) :=
  match srcbytes s with
  | None => Ok old
  | Some d => rmap (fun ps => Some (build (map (fun p => (fst p, val (snd p))) ps))) (pgparsehstore d)
  end.

Definition HStoreToStringMap := HStoreTo val_str.
Definition HStoreToStringPtrMap := HStoreTo val_opt.
Definition HStoreToNullStringMap := HStoreTo val_opt.

(** hstorearr.go:62-67 (String), 145-168 (StringPtr, NullString). *)
Definition enc_pair2 (p : bytes * option bytes) : bytes :=
  quote2 (fst p) ++ ["="; ">"] ++
  match snd p with Some v => quote2 v | None => B "NULL" end.

(** hstorearr.go:51-89: one array element. *)
Definition enc_hstore (o : option hmap) : bytes :=
  match o with
  | None => B "NULL"
  | Some m =>
      match m with
      | [] => [dq; dq]
      | _ => removelast (dq :: List.concat (map (fun p => enc_pair2 p ++ [","]) m)) ++ [dq]
      end
  end.

(** hstorearr.go:42-93, 131-191, 237-298 *)
Definition HStoreArrayFrom : slice (option hmap) -> dval := arr_value enc_hstore.

(** hstorearr.go:99-128 etc.: NULL leaves the destination alone. *)
Definition HStoreArrayTo (val : bytes -> option bytes) (s : src) (old : slice (option hmap))
  : res (slice (option hmap)) :=
  match srcbytes s with
  | None => Ok old
  | Some d =>
      rmap (fun hs => Some (map (option_map (fun ps => build (map (fun p => (fst p, val (snd p))) ps))) hs))
           (pgparsehstorearr d)
  end.

Definition HStoreArrayToStringMapSlice := HStoreArrayTo val_str.
Definition HStoreArrayToStringPtrMapSlice := HStoreArrayTo val_opt.
Definition HStoreArrayToNullStringMapSlice := HStoreArrayTo val_opt.
