(** When the analysis of a record type ends, in terms of the declarations. *)
From Coq Require Import Ascii String ZArith NArith Bool List.
From Verif Require Import GoBase AParse Analysis RecTypes.
Import ListNotations.
Local Open Scope list_scope.

(** The elements of the type, of its elements, and so on, come to an end. *)
Inductive ends (D : decls) : rtype -> Prop :=
| en_basic : forall k a b, ends D (RBasic k a b)
| en_chan : ends D RChan
| en_func : ends D RFunc
| en_iface : forall a b c, ends D (RIface a b c)
| en_struct : forall fs, ends D (RStruct fs)
| en_array : forall n u, ends D u -> ends D (RArray n u)
| en_slice : forall u, ends D u -> ends D (RSlice u)
| en_ptr : forall u, ends D u -> ends D (RPtr u)
| en_map : forall k u, ends D k -> ends D u -> ends D (RMap k u)
| en_name : forall n, ends D (D n) -> ends D (RName n).

Definition under (D : decls) (t : rtype) : rtype := match t with RName n => D n | _ => t end.
(** A struct, or a pointer to a struct *)
Definition struct_at (D : decls) (t : rtype) (fs : list (fvar * rtype)) : Prop :=
  under D t = RStruct fs \/ exists u, under D t = RPtr u /\ under D u = RStruct fs.
(** The type is declared in another package. *)
Definition foreign_type (e : env) (t : rtype) : bool :=
  match t with
  | RName n => match n_pkg n with Some (p, _) => negb (bytes_eqb p (e_pkg e)) | None => false end
  | _ => false
  end.

(** The field is looked at: it has a column, and a name, and is exported if the
    struct is declared in another package. *)
Definition looked_at (imported : bool) (v : fvar) : Prop :=
  tag_first (v_tag v) (B "sql") <> [] /\ tag_first (v_tag v) (B "sql") <> B "-" /\ v_name v <> B "_"
  /\ (imported = true -> v_exported v = true).
(** The tag starts with the sign for nested fields. *)
Definition descends (v : fvar) : Prop := exists r, tag_first (v_tag v) (B "sql") = ">"%char :: r.

(** The fields, and the fields of the structs in which they are nested, come to
    an end. *)
Inductive record_ends (D : decls) (e : env) : bool -> list (fvar * rtype) -> Prop :=
| record_end : forall im fs,
    (forall v t, In (v, t) fs -> looked_at im v -> ends D t) ->
    (forall v t gs, In (v, t) fs -> looked_at im v -> descends v -> struct_at D t gs -> record_ends D e (foreign_type e t) gs) ->
    record_ends D e im fs.

(** Go: the underlying type of a type is not a declared type. *)
Definition proper (D : decls) : Prop := forall n m, D n <> RName m.


(** The type written out: every declared name is followed by its underlying
    type.  A type that mentions itself has no such tree. *)
Inductive tree (D : decls) : rtype -> gtype -> Prop :=
| tr_basic : forall k a b, tree D (RBasic k a b) (TBasic k a b)
| tr_chan : forall u, tree D RChan (TChan u)
| tr_func : forall ps rs, tree D RFunc (TFunc ps rs)
| tr_iface : forall ms a b c, tree D (RIface a b c) (TIface ms a b c)
| tr_array : forall n t u, tree D t u -> tree D (RArray n t) (TArray n u)
| tr_slice : forall t u, tree D t u -> tree D (RSlice t) (TSlice u)
| tr_ptr : forall t u, tree D t u -> tree D (RPtr t) (TPtr u)
| tr_map : forall k l t u, tree D k l -> tree D t u -> tree D (RMap k t) (TMap l u)
| tr_struct : forall fs gs, trees D fs gs -> tree D (RStruct fs) (TStruct gs)
| tr_name : forall n u, tree D (D n) u -> tree D (RName n) (TNamed n u)
with trees (D : decls) : list (fvar * rtype) -> fields -> Prop :=
| trs_nil : trees D [] []
| trs_cons : forall v t u fs gs, tree D t u -> trees D fs gs -> trees D ((v, t) :: fs) ((v, u) :: gs).
