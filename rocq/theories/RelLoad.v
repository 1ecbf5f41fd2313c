(** Model of the relations that a run of the checker has loaded
    (internal/postgres/postgres.go:1806-1985, types.go:149-177): they are
    kept in Catalog.Relations under their identifiers, and pointers to them are
    compared (postgres.go:908).  A pointer is a position in [ld_heap].
    The catalog is taken as it is when a relation is loaded; locking is left out. *)
From Coq Require Import Ascii String ZArith NArith Bool List.
From Verif Require Import GoBase AParse Check.
Import ListNotations.
Local Open Scope list_scope.

Record loader := MkLoader { ld_heap : list relation; ld_map : list (RelIdent * nat) }.
Definition no_loads : loader := MkLoader [] [].

(** Equality of the struct RelIdent, the key of the map (analysis/types.go:588-596) *)
Definition ident_eqb (a b : RelIdent) : bool :=
  bytes_eqb (r_name a) (r_name b) && bytes_eqb (r_alias a) (r_alias b) && bytes_eqb (r_qual a) (r_qual b).
Fixpoint find_rel (id : RelIdent) (m : list (RelIdent * nat)) : option nat :=
  match m with
  | [] => None
  | (k, p) :: r => if ident_eqb k id then Some p else find_rel id r
  end.

(** postgres.go:1806-1985 *)
Definition loadRelationC (db : database) (s : loader) (id : RelIdent) : cres nat * loader :=
  match find_rel id (ld_map s) with
  | Some p => (COk p, s)
  | None =>
      match loadRelation db id with
      | COk r => (COk (List.length (ld_heap s)), MkLoader (ld_heap s ++ [r]) ((id, List.length (ld_heap s)) :: ld_map s))
      | CErr e => (CErr e, s)
      | CPanic => (CPanic, s)
      end
  end.

(** Loads one after the other, each with what the database then holds *)
Fixpoint loads (s : loader) (l : list (database * RelIdent)) : list (cres nat) * loader :=
  match l with
  | [] => ([], s)
  | (db, id) :: r =>
      let '(x, s) := loadRelationC db s id in
      let '(xs, s) := loads s r in (x :: xs, s)
  end.
