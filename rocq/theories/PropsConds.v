(** Properties of the check of conditions and conversions against the database (internal/postgres). *)
From Coq Require Import Ascii String ZArith NArith Bool List Lia Permutation.
From Verif Require Import GoBase AParse Analysis AnalysisSpec QuerySpec AnalysisProofs AnalysisRoles QueryFinal PropsQuery Oids Compat Gen GenSpec Check ConvertProofs CheckSpec CheckProofs CheckEx PropsCols.
From Verif Require Import CondsFinal.
Import ListNotations.
Local Open Scope string_scope.
Local Open Scope list_scope.

(** ** C65 *)

Theorem C65_where : forall db q t rf tr d, check_query db q = COk t -> target db q rf tr -> within (WColumn d) (where_of q) ->
  exists rid tr' r, denotes db (bindings rf (joined (q_join q))) (c_lhs d) rid tr' r
    /\ sound_cond db (bindings rf (joined (q_join q))) d r (rid <> rf_id rf).
Proof. exact C65_where_proof. Qed.
Print Assumptions C65_where.

Example C65_ex : exists t d, check_query db_ex ex_query = COk t /\ within (WColumn d) (where_of ex_query) /\ c_pred d = NotNull /\ c_lhs d = MkCol (B "p") (B "id").
Proof.
  eexists _, _. split; [vm_compute; reflexivity|]. split; [apply wi_here; vm_compute; right; right; left; reflexivity|]. split; reflexivity.
Qed.

Theorem C65_bounds : forall db q t rf tr n id p lo hi id', check_query db q = COk t -> target db q rf tr -> within (WBetween n id p lo hi) (where_of q) ->
  In (BoundColumn id') [lo; hi] ->
  exists rid tr' r p', denotes db (bindings rf (joined (q_join q))) id rid tr' r
    /\ In p' [IsLT; IsGTE; IsGT; IsLTE] /\ sound_cond db (bindings rf (joined (q_join q))) (MkCond id id' [] p' QNone) r False.
Proof. exact C65_bounds_proof. Qed.
Print Assumptions C65_bounds.

Example C65_bounds_ex : exists t n id p lo hi, check_query db_ex ex_between = COk t /\ within (WBetween n id p lo hi) (where_of ex_between) /\ In (BoundColumn (MkCol (B "p") (B "user_id"))) [lo; hi].
Proof.
  eexists _, _, _, _, _, _. split; [vm_compute; reflexivity|].
  split; [eapply wi_deep; [vm_compute; left; reflexivity|]; apply wi_here; left; reflexivity|]. left. reflexivity.
Qed.

(** ** C66 *)
Theorem C66_sound : forall k f v, typeCheckFieldConditional k f = COk v ->
  field_sound k (MkFC (fc_name f) (fc_type f) (fc_ident f) (fc_col f) (fc_pred f) (fc_quant f) (fc_func f) v).
Proof. exact C66_sound_proof. Qed.
Print Assumptions C66_sound.

Theorem C66_complete : forall k f v, one_each k -> fc_func f = [] ->
  (p_array (fc_pred f) || quant_set (fc_quant f) = true -> exists a t, In (ty_oid (co_type (fc_col f)), a) TypeToArray /\ type_of k a t) ->
  (exists b, length1 k (fc_col f) b) ->
  field_sound k (MkFC (fc_name f) (fc_type f) (fc_ident f) (fc_col f) (fc_pred f) (fc_quant f) [] v) ->
  exists v', typeCheckFieldConditional k f = COk v'.
Proof. exact C66_complete_proof. Qed.
Print Assumptions C66_complete.

Example C66_ex : one_each db_cats /\ typeCheckFieldConditional db_cats (ex_fcond (plain_ti (KBasic BInt64)) IsEQ) = COk []
  /\ typeCheckFieldConditional db_cats (ex_fcond (MkTI [] KSlice [] [] false no_flags false false false 0 None (Some (plain_ti (KBasic BInt)))) IsIn) = COk (B "Int4ArrayFromIntSlice")
  /\ typeCheckFieldConditional db_cats (ex_fcond (plain_ti (KBasic BBool)) IsEQ) = CErr DColumnFieldComparison.
Proof. split; [exact db_one_each|]. repeat split. Qed.

Theorem C66_order : forall k k' f v, reordered k k' -> typeCheckFieldConditional k f = COk v ->
  exists v', typeCheckFieldConditional k' f = COk v' /\ (v = v' \/ (v <> [] /\ v' <> [])).
Proof. exact C66_order_proof. Qed.
Print Assumptions C66_order.

Example C66_order_ex : reordered db_cats (MkCat db_types (rev (cat_ops db_cats)) (cat_casts db_cats) (cat_procs db_cats)).
Proof. repeat split. apply Permutation_rev. Qed.

(** ... but which converter is used may depend on it: for an operator between a
    type and both inet[] and cidr[], say. *)
Theorem C66_converter_refuted : exists k k' f v v', reordered k k' /\ one_each k /\ typeCheckFieldConditional k f = COk v
  /\ typeCheckFieldConditional k' f = COk v' /\ v <> v'.
Proof. exact C66_converter_refuted_proof. Qed.
Print Assumptions C66_converter_refuted.
