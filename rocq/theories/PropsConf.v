(** Where the value of each option of the gosql command comes from: the command
    line, the config file, or the default. *)
From Coq Require Import Ascii String ZArith NArith Bool List Lia.
From Verif Require Import GoBase Strconv Utf8 Filter AParse Analysis ConvertProofs AnalysisProofs Config ConfigSpec.
From Verif Require Import ConfFinal.
Import ListNotations.
Local Open Scope string_scope.
Local Open Scope list_scope.

(** ** The options *)
(** Every command line that the program accepts is a sequence of flags with
    values as the usage text describes it. *)
Theorem C45_cmdline : forall abs fs read named args c,
  configure abs fs read named args = Some c -> exists occs, cmdline args occs.
Proof. exact C45_cmdline_proof. Qed.
Print Assumptions C45_cmdline.

Theorem C45_precedence : forall abs fs read named args c occs,
  cmdline args occs -> configure abs fs read named args = Some c ->
  exists file, file_used abs fs read named occs file
    /\ forall o, (o = OArg -> List.length (given o occs) <= 1) -> in_effect occs file o (fst (c o)).
Proof. exact C45_precedence_proof. Qed.
Print Assumptions C45_precedence.

Example C45_ex_line : cmdline ex_args ex_occs.
Proof.
  unfold ex_args, ex_occs.
  apply (cl_next (B "-") (B "f") _ (B "a.go")); [left; reflexivity|cbn; tauto|cbn; tauto|].
  apply (cl_eq (B "--") (B "f") _ (B "b.go")); [right; reflexivity|cbn; tauto|].
  apply (cl_switch (B "-") (B "r")); [left; reflexivity|cbn; tauto|exact Logic.I|].
  apply (cl_eq (B "-") (B "fcktag") _ []); [left; reflexivity|cbn; tauto|].
  apply (cl_next (B "-") (B "argtype")); [left; reflexivity|cbn; tauto|cbn; tauto|].
  apply cl_stop. intros d body [->| ->] _; discriminate.
Qed.

Example C45_ex : exists c,
  configure (fun _ => [B "sub"; B "proj"]) ex_fs ex_read (fun _ => None) ex_args = Some c
  /\ map (fun o => fst (c o)) [OFiles; ORecursive; OTag; OMethod; OQuote; OArg]
     = [VL [B "a.go"; B "b.go"]; VB true; VS []; VS (B "Run"); VB false;
        VT (MkGT (B "Conn") (B "my/db") (B "gosql") true)].
Proof. eexists. split; [vm_compute; reflexivity|vm_compute; reflexivity]. Qed.

(** No text given for a flag is passed over: a bad one ends the program. *)
Theorem C45_flags_checked : forall abs fs read named args c occs,
  cmdline args occs -> configure abs fs read named args = Some c ->
  forall o x, In x (given o occs) -> exists v, text_value o x v.
Proof. exact C45_flags_checked_proof. Qed.
Print Assumptions C45_flags_checked.

(** Well-formed flags and a well-formed file are accepted. *)
Theorem C45_accepted : forall abs fs read named args occs file,
  cmdline args occs -> file_used abs fs read named occs file ->
  (forall o x, In x (given o occs) -> exists v, text_value o x v) ->
  (forall o j, In j (in_file o file) -> exists v, json_value o j v) ->
  exists c, configure abs fs read named args = Some c.
Proof. exact C45_accepted_proof. Qed.
Print Assumptions C45_accepted.

(** The star of an argument type stays when a later flag gives a type without
    one. *)
Theorem C45_argtype_refuted : exists args occs c t,
  cmdline args occs
  /\ (forall abs fs read named, named (B "x") = Some [] -> configure abs fs read named args = Some c)
  /\ fst (c OArg) = VT t
  /\ type_text (last (given OArg occs) []) (MkGT (B "Tx") (B "b") (B "gosql") false)
  /\ t = MkGT (B "Tx") (B "b") (B "gosql") true.
Proof. exact C45_argtype_refuted_proof. Qed.
Print Assumptions C45_argtype_refuted.

(** ** The config file that is found *)

(** The file is one of the two names in the innermost git root at or above the
    working directory. *)
Theorem C73_found : forall fs dir p, find_config fs dir = Some (Some p) ->
  exists n d l, p = n :: d /\ project fs dir d l /\ conf_name n /\ In (n, false) l.
Proof. exact C73_found_proof. Qed.
Print Assumptions C73_found.

(** There is no file only when there is no git root, or when the innermost has
    neither file: files of outer projects and of directories inside the project
    are not considered. *)
Theorem C73_none : forall fs dir, find_config fs dir = Some None ->
  (forall d, above d dir -> exists l, fs d = Some l /\ ~ git_root l)
  \/ exists d l, project fs dir d l /\ forall n, conf_name n -> ~ In (n, false) l.
Proof. exact C73_none_proof. Qed.
Print Assumptions C73_none.

(** The search fails only when a directory cannot be read. *)
Theorem C73_search : forall fs dir, (forall d, above d dir -> fs d <> None) -> exists r, find_config fs dir = Some r.
Proof. exact C73_search_proof. Qed.
Print Assumptions C73_search.

Example C73_ex : find_config ex_fs [B "sub"; B "proj"] = Some (Some [B ".gosql.json"; B "proj"])
  /\ project ex_fs [B "sub"; B "proj"] [B "proj"] [(B ".gosql.json", false); (B ".git", true)].
Proof.
  split; [vm_compute; reflexivity|]. split; [apply above_up, above_self|]. split; [reflexivity|].
  split; [right; left; reflexivity|]. intros d' Hd Hl. apply above_cons in Hd. destruct Hd as [->|Hd].
  - eexists. split; [reflexivity|]. cbn. intros [H|[H|[]]]; discriminate.
  - apply above_len in Hd. cbn in Hd, Hl. lia.
Qed.

(** With both files in the root, the order in which the system lists the
    directory decides. *)
Theorem C73_both_refuted : exists l1 l2 p1 p2,
  (forall e, In e l1 <-> In e l2)
  /\ find_config (fun _ => Some l1) [B "proj"] = Some (Some p1)
  /\ find_config (fun _ => Some l2) [B "proj"] = Some (Some p2)
  /\ p1 <> p2.
Proof. exact C73_both_refuted_proof. Qed.
Print Assumptions C73_both_refuted.
