(** The imports of a generated file. *)
From Coq Require Import Ascii String ZArith NArith Bool List.
From Verif Require Import GoBase Strconv.
Import ListNotations.
Local Open Scope string_scope.
Local Open Scope list_scope.

(** generator.go, type impspec; entries are told apart by their path. *)
Record impspec := MkImp { i_path : bytes; i_name : bytes; i_local : bool; i_num : N }.

(** What follows the last slash. *)
Fixpoint base_name (acc p : bytes) : bytes :=
  match p with
  | [] => acc
  | c :: p => if beq c "/"%char then base_name p p else base_name acc p
  end.
(** generator.go:2063-2068 *)
Definition import_name (path name : bytes) : bytes :=
  match name with [] => base_name path path | _ => name end.

Definition bump (path : bytes) (i : impspec) : impspec :=
  if bytes_eqb (i_path i) path then MkImp (i_path i) (i_name i) (i_local i) (i_num i + 1) else i.

(** generator.go:2070-2091: the loop, which returns the entry with the same
    path or goes on with the last namesake, and the addition.  The result is
    the new set and the name of the entry returned. *)
Fixpoint search (path name : bytes) (set : list impspec) (namesake : option impspec) : impspec + option impspec :=
  match set with
  | [] => inr namesake
  | i :: set =>
      if bytes_eqb (i_path i) path then inl i
      else search path name set (if bytes_eqb (i_name i) name then Some i else namesake)
  end.
Definition addimport (set : list impspec) (path name : bytes) : list impspec * bytes :=
  let name := import_name path name in
  match search path name set None with
  | inl i => (set, i_name i)
  | inr None => (set ++ [MkImp path name false 0], name)
  | inr (Some ns) =>
      let n := name ++ format_uint 10 (i_num ns + 1) in
      (map (bump (i_path ns)) set ++ [MkImp path n true 0], n)
  end.

(** A sequence of requests: the set and the names returned. *)
Fixpoint addimports (set : list impspec) (l : list (bytes * bytes)) : list impspec * list bytes :=
  match l with
  | [] => (set, [])
  | (p, n) :: l =>
      let '(set, x) := addimport set p n in
      let '(set, xs) := addimports set l in (set, x :: xs)
  end.

(** generator.go:2094-2135: the import specs, a name where there is one to
    give, in three groups; the blank lines between groups are left out. *)
Fixpoint has_byte (c : ascii) (a : bytes) : bool :=
  match a with [] => false | x :: a => beq x c || has_byte c a end.
Definition import_group (path : bytes) : nat :=
  if has_prefix (B "github.com/frk/gosql") path then 3
  else if has_byte "."%char path then 2
  else 1.
Definition newImportDecl (set : list impspec) : list (option bytes * bytes) :=
  let specs := map (fun i => (if i_local i then Some (i_name i) else None, i_path i)) set in
  filter (fun s => Nat.eqb (import_group (snd s)) 1) specs
  ++ filter (fun s => Nat.eqb (import_group (snd s)) 2) specs
  ++ filter (fun s => Nat.eqb (import_group (snd s)) 3) specs.
