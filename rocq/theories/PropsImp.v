
From Coq Require Import Ascii String ZArith NArith Bool List Lia Permutation.
From Verif Require Import GoBase Strconv StrconvProofs DecimalLink Imports ConvertProofs AnalysisProofs GenExec.
From Verif Require Import ImpFinal.
Import ListNotations.
Local Open Scope string_scope.
Local Open Scope list_scope.

(** C43: every path requested gets one entry, and every request for it is
    given that entry's name. *)
Theorem C43_one_name_per_path : forall reqs set names, addimports [] reqs = (set, names) ->
  NoDup (map i_path set)
  /\ Forall2 (fun rq x => exists i, In i set /\ i_path i = fst rq /\ i_name i = x) reqs names
  /\ (forall p, In p (map i_path set) <-> In p (map fst reqs)).
Proof. exact C43_one_name_per_path_proof. Qed.
Print Assumptions C43_one_name_per_path.

(** So requests for the same path are given the same name. *)
Theorem C43_equal_paths : forall reqs set names j k rj rk xj xk, addimports [] reqs = (set, names) ->
  nth_error reqs j = Some rj -> nth_error reqs k = Some rk -> fst rj = fst rk ->
  nth_error names j = Some xj -> nth_error names k = Some xk -> xj = xk.
Proof. exact C43_equal_paths_proof. Qed.
Print Assumptions C43_equal_paths.

(** The names are distinct when no name asked for is another one followed by
    digits. *)
Theorem C43_distinct_names : forall reqs set names, addimports [] reqs = (set, names) -> no_digits reqs ->
  NoDup (map i_name set).
Proof. exact C43_distinct_names_proof. Qed.
Print Assumptions C43_distinct_names.

Theorem C43_collision_refuted : exists reqs set names, addimports [] reqs = (set, names) /\ NoDup (map fst reqs)
  /\ ~ NoDup (map i_name set).
Proof. exact C43_collision_refuted_proof. Qed.
Print Assumptions C43_collision_refuted.

(** The import declaration has each path once and, when the names asked for are
    the packages' own, binds it to the name given for it. *)
Theorem C43_declared : forall own reqs set names, addimports [] reqs = (set, names) ->
  (forall r, In r reqs -> own (fst r) = asked r) ->
  Permutation (map snd (newImportDecl set)) (map i_path set)
  /\ forall i, In i set -> exists s, In s (newImportDecl set) /\ snd s = i_path i /\ binds own s = i_name i.
Proof. exact C43_declared_proof. Qed.
Print Assumptions C43_declared.

Theorem C43_default_name : forall a b, (forall c, In c b -> c <> "/"%char) ->
  import_name (a ++ "/"%char :: b) [] = b /\ import_name b [] = b.
Proof. exact C43_default_name_proof. Qed.
Print Assumptions C43_default_name.

Example ex_C43 : no_digits z_reqs
  /\ snd (addimports [] z_reqs) = [B "gosql"; B "foo"; B "context"; B "foo1"; B "foo"; B "foo2"]
  /\ newImportDecl (fst (addimports [] z_reqs)) =
     [(None, B "a/foo"); (None, B "context"); (Some (B "foo2"), B "c/foo"); (Some (B "foo1"), B "gopkg.in/b/foo"); (None, B "github.com/frk/gosql")].
Proof. split; [exact z_no_digits|]. split; vm_compute; reflexivity. Qed.
