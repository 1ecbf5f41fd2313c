From Coq Require Import Decimal DecimalString DecimalZ DecimalPos Ascii String ZArith NArith Bool List Lia.
From Verif Require Import GoBase Strconv ConvertUtil ConvertProofs Filter Filters2Final AParse PgSpec TagSpec SqlSpec AParseProofs TagsFinal Analysis AnalysisSpec AnalysisProofs AnalysisRoles QuerySpec QueryProofs QueryShape RelCache RelCacheSpec.
From Verif Require Import RelCacheFinal.
Import ListNotations.
Local Open Scope list_scope.

(** * C104 *)
(** A run that keeps the record types it has met gives for every struct what the
    struct gives on its own, if no struct is analysed twice, a record type is used
    in one package only, and by one struct only if its columns have qualifiers. *)
Theorem C104_transparent : forall cfg l, NoDup l -> one_type_per_name l -> one_package_per_type l -> own_qualifiers l ->
  session cfg [] l = alone cfg l.
Proof. exact C104_transparent_proof. Qed.
Print Assumptions C104_transparent.

(** A run on one struct is what the other theorems speak of. *)
Theorem C104_single : forall cfg g, one_type_per_name [g] -> session cfg [] [g] = alone cfg [g].
Proof. exact C104_single_proof. Qed.
Print Assumptions C104_single.

(** What is stored answers for the type from then on, whatever the package and
    the relations of the query are. *)
Theorem C104_once : forall e sp c t rt c', relTypeC e sp c t = (AOk rt, c') -> lookup (typeString t) c' <> None ->
  forall e' sp' t', typeString t' = typeString t -> relTypeC e' sp' c' t' = (AOk rt, c').
Proof. exact C104_once_proof. Qed.
Print Assumptions C104_once.

(** The analysis of a struct leaves what is stored as it is, also if it fails. *)
Theorem C104_stays : forall e c name t k rt, lookup k c = Some rt -> lookup k (snd (RunC e c name t)) = Some rt.
Proof. exact C104_stays_proof. Qed.
Print Assumptions C104_stays.

Example C104_ex_stays : let e := Analysis.MkEnv (B "store") [] [] false in
  map fst (snd (RunC e (snd (relTypeC e [] [] w_user)) (B "SelectPost") (g_type (w_query (B "store") (B "SelectPost") (B "posts:p") ex_post)))) = [B "store.Post"; B "store.User"].
Proof. vm_compute. reflexivity. Qed.

(** The key tells declared types, and pointers to, slices and arrays of them,
    apart by the path of the package, the name and the length. *)
Theorem C104_key : forall t t', declared t -> declared t' -> (typeString t = typeString t' <-> same_name t t').
Proof. exact C104_key_proof. Qed.
Print Assumptions C104_key.

Example C104_ex_key : declared (TArray 12 (TPtr w_user)) /\ typeString (TArray 12 (TPtr w_user)) = B "[12]*store.User".
Proof. split; [|reflexivity]. apply de_array, de_ptr. eapply de_named; [reflexivity|discriminate|discriminate|reflexivity]. Qed.

(** Two packages: the second takes the type for one of its own, and sees its
    unexported fields; in the other order the fields are lost. *)
Theorem C104_packages_refuted : exists cfg g1 g2,
  one_type_per_name [g1; g2] /\ unqualified [g1; g2]
  /\ map imported_of (alone cfg [g1; g2]) = [Some false; Some true]
  /\ map fields_of (alone cfg [g1; g2]) = [Some [B "Id"; B "hash"]; Some [B "Id"]]
  /\ map imported_of (session cfg [] [g1; g2]) = [Some false; Some false]
  /\ map fields_of (session cfg [] [g1; g2]) = [Some [B "Id"; B "hash"]; Some [B "Id"; B "hash"]]
  /\ map imported_of (session cfg [] [g2; g1]) = [Some true; Some true]
  /\ map fields_of (session cfg [] [g2; g1]) = [Some [B "Id"]; Some [B "Id"]].
Proof. exact C104_packages_refuted_proof. Qed.
Print Assumptions C104_packages_refuted.

(** Two structs of a package: whether the second is refused for an unknown
    qualifier depends on the first. *)
Theorem C104_qualifier_refuted : exists cfg g1 g2,
  one_type_per_name [g1; g2] /\ one_package_per_type [g1; g2]
  /\ alone cfg [g2] = [AErr (EC EUnknownQualifier)]
  /\ map fields_of (session cfg [] [g1; g2]) = [Some [B "Id"]; Some [B "Id"]]
  /\ session cfg [] [g2; g1] = [AErr (EC EUnknownQualifier)].
Proof. exact C104_qualifier_refuted_proof. Qed.
Print Assumptions C104_qualifier_refuted.

(** Calls of the analysis after one that failed: a record type with a bad column
    is accepted, without the columns from there on. *)
Theorem C104_failure_refuted : exists cfg g1 g2 e,
  one_type_per_name [g1; g2] /\ one_package_per_type [g1; g2] /\ unqualified [g1; g2]
  /\ alone cfg [g1] = [AErr e] /\ alone cfg [g2] = [AErr e]
  /\ exists x, analyses cfg [] [g1; g2] = [AErr e; x] /\ fields_of x = Some [B "Id"].
Proof. exact C104_failure_refuted_proof. Qed.
Print Assumptions C104_failure_refuted.

Example C104_ex : NoDup ex_targets /\ one_type_per_name ex_targets /\ one_package_per_type ex_targets /\ own_qualifiers ex_targets
  /\ map fields_of (session w_cfg [] ex_targets) = [Some [B "Id"; B "hash"]; Some [B "Id"; B "hash"]; Some [B "Id"]].
Proof.
  assert (X : typeString w_user <> typeString ex_post) by discriminate.
  split; [|split; [|split; [|split]]].
  - unfold ex_targets. repeat constructor; cbn; intros H; repeat (destruct H as [H|H]; [discriminate H|]); exact H.
  - intros g1 g2 t1 t2 I1 I2 U1 U2 _ E.
    destruct I1 as [<-|[<-|[<-|[]]]]; destruct I2 as [<-|[<-|[<-|[]]]]; apply w_uses in U1; apply w_uses in U2; subst; congruence.
  - intros g1 g2 t I1 I2 _ _ _. destruct I1 as [<-|[<-|[<-|[]]]]; destruct I2 as [<-|[<-|[<-|[]]]]; reflexivity.
  - intros g1 g2 t I1 I2 U1 U2 _ Q.
    destruct I1 as [<-|[<-|[<-|[]]]]; destruct I2 as [<-|[<-|[<-|[]]]]; try reflexivity; apply w_uses in U1; apply w_uses in U2; subst;
      try (vm_compute in Q; discriminate Q); congruence.
  - vm_compute. reflexivity.
Qed.

(** The type of Result is found under the type of the relation, which was
    analysed with fewer relations. *)
Example C104_ex_single :
  let g := MkTarget (B "store") (B "UpdatePost") (TStruct [(MkVar (B "Rel") true false [(B "rel", [B "posts:p"])], ex_post);
                                                          (MkVar (B "Result") true false [], ex_post)]) in
  one_type_per_name [g] /\ map fields_of (session w_cfg [] [g]) = [Some [B "Id"]].
Proof.
  split; [|vm_compute; reflexivity]. intros g1 g2 t1 t2 [<-|[]] [<-|[]] (fs & v & E & I & _) (fs' & v' & E' & I' & _) _ _.
  injection E as <-. injection E' as <-. destruct I as [I|[I|[]]]; destruct I' as [I'|[I'|[]]]; congruence.
Qed.

(** The hypothesis of [C104_once] holds of a type of another package. *)
Example C104_ex_once : exists rt c', relTypeC (Analysis.MkEnv (B "web") [] [] false) [] [] w_user = (AOk rt, c') /\ lookup (typeString w_user) c' <> None.
Proof. eexists. eexists. split; [vm_compute; reflexivity|]. vm_compute. discriminate. Qed.
