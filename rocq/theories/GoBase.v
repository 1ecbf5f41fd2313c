(** Common vocabulary for the Go code that is modelled: bytes, results
    (value / error / panic), nil-able slices.  No proofs here. *)
From Coq Require Import Ascii String ZArith NArith Bool List.
Import ListNotations.

(** A Go byte.  [list ascii] stands for both [string] and non-nil [[]byte]. *)
Definition bytes := list ascii.

(** Literal notation: [B "abc"] is the byte string of a Coq string literal. *)
Definition B (s : string) : bytes := list_ascii_of_string s.

(** A Coq literal for the byte with the given code. *)
Definition chr (n : N) : ascii := ascii_of_N n.
Definition code (c : ascii) : N := N_of_ascii c.

(** Result of a Go call that may return a non-nil error or panic (index or
    slice out of range, nil dereference). *)
Inductive res (A : Type) : Type :=
| Ok (a : A)
| Err
| Panic.
Arguments Ok {A} a.
Arguments Err {A}.
Arguments Panic {A}.

Definition bind {A C} (r : res A) (f : A -> res C) : res C :=
  match r with Ok a => f a | Err => Err | Panic => Panic end.

Definition rmap {A C} (f : A -> C) (r : res A) : res C :=
  bind r (fun a => Ok (f a)).

(** Left-to-right traversal that stops at the first error or panic: the shape
    [for i := range elems { v, err := f(elems[i]); if err != nil { return err } }]. *)
Fixpoint mapM {A C} (f : A -> res C) (l : list A) : res (list C) :=
  match l with
  | [] => Ok []
  | x :: r => bind (f x) (fun y => bind (mapM f r) (fun ys => Ok (y :: ys)))
  end.

(** A driver source value: [None] is SQL NULL (Go nil). *)
Definition src := option bytes.

(** A driver value produced by a Valuer: [None] is SQL NULL. *)
Definition dval := option bytes.

(** nil-able Go slice of A. *)
Definition slice (A : Type) := option (list A).

Definition beq (a c : ascii) : bool := Ascii.eqb a c.

(** Equality test of byte strings (Go [==] on strings, [bytes.Equal]). *)
Fixpoint bytes_eqb (a b : bytes) : bool :=
  match a, b with
  | [], [] => true
  | x :: a', y :: b' => Ascii.eqb x y && bytes_eqb a' b'
  | _, _ => false
  end.

(** [strings.HasPrefix] *)
Fixpoint has_prefix (p a : bytes) : bool :=
  match p, a with
  | [], _ => true
  | x :: p', y :: a' => Ascii.eqb x y && has_prefix p' a'
  | _ :: _, [] => false
  end.

(** The Go slice expression [a[1:len(a)-1]]: panics when len(a) < 2. *)
Definition drop_ends (a : bytes) : res bytes :=
  match a with
  | _ :: (_ :: _) as t => Ok (removelast t)
  | _ => Panic
  end.

(** [bs] joined with separator [sep]. *)
Fixpoint join (sep : bytes) (l : list bytes) : bytes :=
  match l with
  | [] => []
  | [x] => x
  | x :: r => x ++ sep ++ join sep r
  end.

(** The writer idiom used all over package pgsql:
    [out := {open}; for e { out = append(out, enc(e)...); out = append(out, sep) }; out[len(out)-1] = close]
    (the last separator is overwritten by the closing delimiter). *)
Definition write_sep (open sep close : ascii) (els : list bytes) : bytes :=
  let out := open :: concat (map (fun e => e ++ [sep]) els) in
  removelast out ++ [close].

(** Split conjunctions only ([repeat split] would also try to close equations
    by conversion). *)
Ltac conjs := repeat match goal with |- _ /\ _ => split end.
