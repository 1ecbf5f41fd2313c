(** What the cache of relation types is compared with: every struct is analysed
    on its own. *)
From Coq Require Import Ascii String ZArith NArith Bool List.
From Verif Require Import GoBase AParse Analysis RelCache.
Import ListNotations.
Local Open Scope list_scope.

(** The structs of a run, each analysed by a process of its own, up to the first
    one that is refused *)
Fixpoint alone (cfg : env) (l : list target) : list (ares (qstate + fstate)) :=
  match l with
  | [] => []
  | g :: r =>
      let x := Run (in_package cfg g) (g_name g) (g_type g) in
      x :: match x with AOk _ => alone cfg r | _ => [] end
  end.

(** [t] is the type of a field of the struct that stands for a record: the field
    has the tag rel or is called Result. *)
Definition uses (g : target) (t : gtype) : Prop :=
  exists fs v, g_type g = TStruct fs /\ In (v, t) fs
    /\ (tag_has (v_tag v) (B "rel") = true \/ tolower (v_name v) = B "result").

(** Anything but a struct that is written out *)
Definition literal_struct (t : gtype) : bool := match t with TStruct _ => true | _ => false end.

(** A type that is called by the same text in two structs is the same type. *)
Definition one_type_per_name (l : list target) : Prop :=
  forall g1 g2 t1 t2, In g1 l -> In g2 l -> uses g1 t1 -> uses g2 t2 -> literal_struct t1 = false ->
    typeString t1 = typeString t2 -> t1 = t2.

(** A record type is used in one package only. *)
Definition one_package_per_type (l : list target) : Prop :=
  forall g1 g2 t, In g1 l -> In g2 l -> uses g1 t -> uses g2 t -> literal_struct t = false -> g_pkg g1 = g_pkg g2.

(** No sql tag in the type has a dot, that is, no column has a qualifier. *)
Definition no_dot (s : bytes) : bool := forallb (fun c => negb (beq c ".")) s.
Fixpoint no_dots (t : gtype) : bool :=
  match t with
  | TBasic _ _ _ => true
  | TArray _ u | TSlice u | TPtr u | TChan u | TNamed _ u => no_dots u
  | TMap k u => no_dots k && no_dots u
  | TFunc ps rs => forallb no_dots ps && forallb no_dots rs
  | TIface ms _ _ _ => forallb (fun m => match m with (_, _, (ps, rs)) => forallb no_dots ps && forallb no_dots rs end) ms
  | TStruct fs => forallb (fun f => match f with (v, u) => no_dot (tag_first (v_tag v) (B "sql")) && no_dots u end) fs
  end.
Definition unqualified (l : list target) : Prop :=
  forall g t, In g l -> uses g t -> no_dots t = true.

(** A record type with qualified columns is used by one struct only. *)
Definition own_qualifiers (l : list target) : Prop :=
  forall g1 g2 t, In g1 l -> In g2 l -> uses g1 t -> uses g2 t -> literal_struct t = false -> no_dots t = false -> g1 = g2.

(** Two types are written alike: the same path and name of a declared type under
    the same pointers, slices and arrays. *)
Inductive same_name : gtype -> gtype -> Prop :=
| sn_named : forall n n' u u' p a a', n_pkg n = Some (p, a) -> n_pkg n' = Some (p, a') -> n_name n = n_name n' ->
    same_name (TNamed n u) (TNamed n' u')
| sn_ptr : forall u u', same_name u u' -> same_name (TPtr u) (TPtr u')
| sn_slice : forall u u', same_name u u' -> same_name (TSlice u) (TSlice u')
| sn_array : forall k u u', same_name u u' -> same_name (TArray k u) (TArray k u').

(** A declared type under pointers, slices and arrays; the path of its package
    starts with neither an asterisk nor a bracket, its name has no dot. *)
Inductive declared : gtype -> Prop :=
| de_named : forall n u c p a, n_pkg n = Some (c :: p, a) -> c <> "*"%char -> c <> "["%char -> no_dot (n_name n) = true -> declared (TNamed n u)
| de_ptr : forall u, declared u -> declared (TPtr u)
| de_slice : forall u, declared u -> declared (TSlice u)
| de_array : forall k u, declared u -> declared (TArray k u).
