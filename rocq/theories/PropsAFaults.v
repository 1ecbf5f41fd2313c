(** C98: the analysis rejects a query or filter struct exactly when something
    is wrong with it, and the error names what. *)
From Coq Require Import Ascii String ZArith NArith Bool List Lia.
From Verif Require Import GoBase Strconv ConvertUtil ConvertProofs Filter Filters2Final AParse PgSpec TagSpec SqlSpec AParseProofs TagsFinal Analysis AnalysisSpec AnalysisProofs AnalysisRoles QuerySpec QueryProofs QueryShape QuerySlots QueryFinal FieldSpec FieldFactsFinal AFaultSpec.
From Verif Require Import AFaultsFinal.
Import ListNotations.
Local Open Scope string_scope.
Local Open Scope list_scope.
Local Open Scope char_scope.

(** ** Errors of the monad *)

(** ** Names *)

(** ** Record types *)

(** ** Conditions *)

(** ** Where structs *)

(** ** join structs *)

(** ** on conflict structs *)

(** ** order by *)

(** ** The fields of a query struct *)

(** ** The relation field *)

(** ** The passes over the fields *)

(** ** Filter structs *)

(** ** No panics *)

(** ** Examples *)

(** A struct that is rejected has a fault, and the error names it. *)
Theorem C98_rejected : forall e name fs c, plain name -> plain_names fs -> analyzeQueryStruct e name fs = AErr c -> query_fault (e_pkg e) name fs c.
Proof. exact C98_rejected_proof. Qed.
Print Assumptions C98_rejected.

Example C98_rejected_ex : (plain (lit "InsertUser") /\ plain_names ex_bad_return /\ analyzeQueryStruct ex_env (lit "InsertUser") ex_bad_return = AErr EColumnFieldUnknown)
  /\ (plain_names ex_bad_where /\ analyzeQueryStruct ex_env (lit "SelectUsers") ex_bad_where = AErr (EC EUnknownQualifier))
  /\ analyzeQueryStruct ex_env (lit "SelectUsers") [] = AErr EMissingRelField
  /\ analyzeQueryStruct ex_env (lit "SelectUsers") [ex_rel "user:u"; ex_rel "user:u"] = AErr EConflictingRelTag.
Proof. conjs; try (vm_compute; reflexivity); [apply plain_name|apply plain_fields|apply plain_fields]; vm_compute; reflexivity. Qed.

(** A struct that is accepted has none. *)
Theorem C98_accepted : forall e name fs q, plain name -> plain_names fs -> analyzeQueryStruct e name fs = AOk q -> forall c, ~ query_fault (e_pkg e) name fs c.
Proof. exact C98_accepted_proof. Qed.
Print Assumptions C98_accepted.

Example C98_accepted_ex : plain (lit "SelectUsers") /\ plain_names ex_full /\ analyzeQueryStruct ex_env (lit "SelectUsers") ex_full = AOk ex_query.
Proof. conjs; [apply plain_name|apply plain_fields|]; vm_compute; reflexivity. Qed.

(** The analysis of a struct of a known kind, without predeclared named types
    and without empty options, ends: it is accepted unless it has a fault. *)
Theorem C98_decided : forall e name fs k, plain name -> plain_names fs -> named_kind name k -> regular fs ->
  (exists q, analyzeQueryStruct e name fs = AOk q) \/ (exists c, analyzeQueryStruct e name fs = AErr c /\ query_fault (e_pkg e) name fs c).
Proof. exact C98_decided_proof. Qed.
Print Assumptions C98_decided.

Example C98_decided_ex : plain (lit "SelectUsers") /\ plain_names ex_full /\ named_kind (lit "SelectUsers") KSelect /\ regular ex_full.
Proof.
  conjs; [apply plain_name; vm_compute; reflexivity|apply plain_fields; vm_compute; reflexivity| |exact ex_full_regular].
  apply kind_spec; [apply plain_name; vm_compute; reflexivity|vm_compute; reflexivity].
Qed.

(** A field of the type error ends the analysis with a panic. *)
Theorem C98_ends_refuted : exists e name fs k, plain name /\ plain_names fs /\ named_kind name k /\ analyzeQueryStruct e name fs = APanic.
Proof. exact C98_ends_refuted_proof. Qed.
Print Assumptions C98_ends_refuted.

Theorem C98_filter_rejected : forall e fs c, plain_names fs -> analyzeFilterStruct e fs = AErr c -> filter_fault (e_pkg e) fs c.
Proof. exact C98_filter_rejected_proof. Qed.
Print Assumptions C98_filter_rejected.

Example C98_filter_rejected_ex : plain_names [ex_rel "user:u"] /\ analyzeFilterStruct ex_env [ex_rel "user:u"] = AErr EMissingFilterConstructor
  /\ plain_names (ex_filter ++ [ex_rel "user:u"]) /\ analyzeFilterStruct ex_env (ex_filter ++ [ex_rel "user:u"]) = AErr EConflictingRelTag.
Proof. conjs; try (vm_compute; reflexivity); apply plain_fields; vm_compute; reflexivity. Qed.

Theorem C98_filter_accepted : forall e fs q, plain_names fs -> analyzeFilterStruct e fs = AOk q -> forall c, ~ filter_fault (e_pkg e) fs c.
Proof. exact C98_filter_accepted_proof. Qed.
Print Assumptions C98_filter_accepted.

Example C98_filter_accepted_ex : plain_names ex_filter /\ exists q, analyzeFilterStruct ex_env ex_filter = AOk q /\ fs_ctor q = Some (lit "F", true).
Proof. split; [apply plain_fields; vm_compute; reflexivity|]. eexists. split; vm_compute; reflexivity. Qed.

Theorem C98_filter_decided : forall e fs, plain_names fs -> regular fs ->
  (exists q, analyzeFilterStruct e fs = AOk q) \/ (exists c, analyzeFilterStruct e fs = AErr c /\ filter_fault (e_pkg e) fs c).
Proof. exact C98_filter_decided_proof. Qed.
Print Assumptions C98_filter_decided.

Example C98_filter_decided_ex : plain_names ex_filter /\ regular ex_filter.
Proof.
  split; [apply plain_fields; vm_compute; reflexivity|]. intros u I. unfold ex_filter, ex_ctor, ex_rel, ex_user, ex_dir, ex_int, ex_str, ex_name, ex_var in I. regular0.
Qed.
