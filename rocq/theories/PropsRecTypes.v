
From Coq Require Import Ascii String ZArith NArith Bool List Lia.
From Verif Require Import GoBase AParse Analysis AnalysisProofs RecTypes RecTypesSpec.
From Verif Require Import RecTypesFinal.
Import ListNotations.
Local Open Scope list_scope.

(** If the fields and the structs in which they are nested come to an end, the
    analysis of the record type ends. *)
Theorem C106_terminates : forall D e sp im fs, proper D -> record_ends D e im fs -> exists fuel r, fieldInfoListR fuel D e sp im fs = Some r.
Proof. exact C106_terminates_proof. Qed.
Print Assumptions C106_terminates.

(** It gives fields only then. *)
Theorem C106_needs : forall fuel D e sp im fs l, fieldInfoListR fuel D e sp im fs = Some (AOk l) -> record_ends D e im fs.
Proof. exact C106_needs_proof. Qed.
Print Assumptions C106_needs.

(** For types that can be written out as trees the result is that of the model
    used elsewhere, which is on trees. *)
Theorem C106_same : forall D e sp im fs gs, proper D -> trees D fs gs ->
  exists n, forall fuel, n <= fuel -> fieldInfoListR fuel D e sp im fs = Some (analyzeFieldInfoList e sp im gs).
Proof. exact C106_same_proof. Qed.
Print Assumptions C106_same.

(** A result does not depend on the fuel. *)
Theorem C106_fuel : forall fuel fuel' D e sp im fs r r',
  fieldInfoListR fuel D e sp im fs = Some r -> fieldInfoListR fuel' D e sp im fs = Some r' -> r = r'.
Proof. exact C106_fuel_proof. Qed.
Print Assumptions C106_fuel.

(** It need not end: a record type that nests its own fields, as
    type Node struct with a field Parent of type pointer to Node and a column
    tag that starts with the sign for nested fields. *)
Theorem C106_record_refuted : exists D e fs, proper D /\ (forall v t, In (v, t) fs -> ends D t) /\
  forall fuel sp, fieldInfoListR fuel D e sp false fs = None.
Proof. exact C106_record_refuted_proof. Qed.
Print Assumptions C106_record_refuted.

(** Nor does the analysis of a type that is a slice of itself. *)
Theorem C106_type_refuted : exists D e t, proper D /\ forall fuel, typeInfoR fuel D e t = None.
Proof. exact C106_type_refuted_proof. Qed.
Print Assumptions C106_type_refuted.

(** A record type that mentions itself in a field which is a column is fine: it
    has no tree, and the analysis ends. *)
Example C106_ends_ex : proper ds /\ record_ends ds an_env false [(column "Id" "id", int_ty); (column "Next" "next", RPtr (RName Other))]
  /\ option_map (fun r => match r with AOk l => map (fun f => (fi_name f, fi_col f)) l | _ => [] end)
       (fieldInfoListR 10 ds an_env [] false [(column "Id" "id", int_ty); (column "Next" "next", RPtr (RName Other))])
     = Some [(B "Id", MkCol [] (B "id")); (B "Next", MkCol [] (B "next"))].
Proof.
  split; [exact ds_proper|]. split; [|reflexivity]. constructor.
  - intros v t [X|[X|[]]] _; injection X as <- <-; repeat constructor.
  - intros v t gs [X|[X|[]]] _ [r R] A; injection X as <- <-; discriminate R.
Qed.

Example C106_tree_ex : trees ds [(column "Id" "id", int_ty); (column "Next" "next", RPtr int_ty)]
  [(column "Id" "id", TBasic BInt false false); (column "Next" "next", TPtr (TBasic BInt false false))].
Proof. repeat constructor. Qed.
