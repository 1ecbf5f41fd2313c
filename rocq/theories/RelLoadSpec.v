(** What loading relations one after the other is compared with. *)
From Coq Require Import Ascii String ZArith NArith Bool List.
From Verif Require Import GoBase AParse Check.
Import ListNotations.
Local Open Scope list_scope.

(** What the first load of the relation that succeeds reads *)
Inductive first_load : list (database * RelIdent) -> RelIdent -> relation -> Prop :=
| fl_here : forall db id r l, loadRelation db id = COk r -> first_load ((db, id) :: l) id r
| fl_other : forall db id id' r l, id <> id' -> first_load l id r -> first_load ((db, id') :: l) id r
| fl_failed : forall db id r l, (forall r', loadRelation db id <> COk r') -> first_load l id r -> first_load ((db, id) :: l) id r.
