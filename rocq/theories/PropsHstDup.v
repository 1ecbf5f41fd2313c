(** hstore texts in which a key occurs more than once. *)
From Coq Require Import Ascii String ZArith NArith Bool List Lia.
From Verif Require Import GoBase Strconv ConvertUtil Codecs IntCodecs Hstore PgSpec ConvertProofs PgSpecProofs TextProofs SimpleProofs DecimalLink IntProofs HstoreProofs ArraysFinal.
From Verif Require Import HstDupFinal.
Import ListNotations.
Local Open Scope char_scope.

(** ** C08 *)
(** Whatever pairs are rendered, each key comes back with its last value. *)
Theorem C08_hstore_last : forall (ps : list (bytes * option bytes)) old s, s = Some (hstore_out ps) \/ s = HStoreFrom (Some ps) ->
  (exists m, HStoreToStringPtrMap s old = Ok (Some m) /\ last_of nullable_read ps m)
  /\ (exists m, HStoreToNullStringMap s old = Ok (Some m) /\ last_of nullable_read ps m)
  /\ (exists m, HStoreToStringMap s old = Ok (Some m) /\ last_of plain_read ps m).
Proof. exact C08_hstore_last_proof. Qed.
Print Assumptions C08_hstore_last.

Example C08_last_ex : HStoreToStringPtrMap (Some (hstore_out [(B "k", Some (B "v")); (B "e", None); (B "k", Some (B "w"))])) None
  = Ok (Some [(B "k", Some (B "w")); (B "e", None)]).
Proof. vm_compute. reflexivity. Qed.

(** ** C09 *)
Theorem C09_hstorearr_last : forall (l : list (option (list (bytes * option bytes)))) old s,
  s = Some (array_out (map (option_map hstore_out) l)) \/ s = HStoreArrayFrom (Some l) ->
  let same f x m := match x, m with Some ps, Some m => last_of f ps m | None, None => True | _, _ => False end in
  (exists ms, HStoreArrayToStringPtrMapSlice s old = Ok (Some ms) /\ Forall2 (same nullable_read) l ms)
  /\ (exists ms, HStoreArrayToNullStringMapSlice s old = Ok (Some ms) /\ Forall2 (same nullable_read) l ms)
  /\ (exists ms, HStoreArrayToStringMapSlice s old = Ok (Some ms) /\ Forall2 (same plain_read) l ms).
Proof. exact C09_hstorearr_last_proof. Qed.
Print Assumptions C09_hstorearr_last.

Example C09_last_ex : HStoreArrayToStringMapSlice (HStoreArrayFrom (Some [Some [(B "a", Some (B "1")); (B "a", None)]; None])) None
  = Ok (Some [Some [(B "a", Some [])]; None]).
Proof. vm_compute. reflexivity. Qed.
