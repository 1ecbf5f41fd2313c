
From Coq Require Import Ascii String ZArith NArith Bool List Lia.
From Verif Require Import GoBase AParse Analysis AnalysisProofs Check RelLoad RelLoadSpec.
From Verif Require Import RelLoadFinal.
Import ListNotations.
Local Open Scope list_scope.

(** * C105 *)
(** A load gives a pointer to what the first load of that relation read which
    succeeded; a load fails only if none has succeeded, and then as it would alone. *)
Theorem C105_loaded : forall l i db id x, nth_error l i = Some (db, id) -> nth_error (fst (loads no_loads l)) i = Some x ->
  match x with
  | COk a => exists r, nth_error (ld_heap (snd (loads no_loads l))) a = Some r /\ first_load (firstn (S i) l) id r
  | CErr e => (forall r, ~ first_load (firstn i l) id r) /\ loadRelation db id = CErr e
  | CPanic => (forall r, ~ first_load (firstn i l) id r) /\ loadRelation db id = CPanic
  end.
Proof. exact C105_loaded_proof. Qed.
Print Assumptions C105_loaded.

(** Every load gets an answer. *)
Theorem C105_total : forall l, List.length (fst (loads no_loads l)) = List.length l.
Proof. exact C105_total_proof. Qed.
Print Assumptions C105_total.

(** While the database does not change, the loads give what they give alone. *)
Theorem C105_same_database : forall db ids i id x, nth_error ids i = Some id ->
  nth_error (fst (loads no_loads (map (pair db) ids))) i = Some x ->
  match x with
  | COk a => exists r, nth_error (ld_heap (snd (loads no_loads (map (pair db) ids)))) a = Some r /\ loadRelation db id = COk r
  | CErr e => loadRelation db id = CErr e
  | CPanic => loadRelation db id = CPanic
  end.
Proof. exact C105_same_database_proof. Qed.
Print Assumptions C105_same_database.

(** Two pointers are equal if and only if the identifiers are, alias and schema
    included; the checker's comparison of relations rests on this. *)
Theorem C105_pointers : forall l i j db db' id id' a b,
  nth_error l i = Some (db, id) -> nth_error l j = Some (db', id') ->
  nth_error (fst (loads no_loads l)) i = Some (COk a) -> nth_error (fst (loads no_loads l)) j = Some (COk b) ->
  (a = b <-> id = id').
Proof. exact C105_pointers_proof. Qed.
Print Assumptions C105_pointers.

Example C105_ex : loads no_loads [(ex_data None, ex_u); (ex_data (Some 7%N), ex_u); (ex_data (Some 7%N), ex_v); (ex_data (Some 9%N), ex_u)] =
  ([CErr DRelationUnknown; COk 0; COk 1; COk 0],
   MkLoader [MkRelation 7%N [] [(B "users_pkey", ConPKey)] []; MkRelation 7%N [] [(B "users_pkey", ConPKey)] []] [(ex_v, 1); (ex_u, 0)]).
Proof. reflexivity. Qed.
