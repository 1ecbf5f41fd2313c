(** What the gosql command finds, which files it writes and what is on disk when
    it ends. *)
From Coq Require Import Ascii String ZArith NArith Bool List Permutation Lia.
From Verif Require Import GoBase Strconv Utf8 Filter TagSpec AParse AParseProofs Analysis ConvertProofs AnalysisProofs Config Command CommandSpec.
From Verif Require Import CmdFinal.
Import ListNotations.
Local Open Scope string_scope.
Local Open Scope list_scope.

(** ** Prefixes and suffixes *)

(** ** C46: output names *)

(** A format that passes the validation has one place for the name; without a
    place, the name comes first. *)
Theorem C46_format : forall f f', norm_format f = Some f' <->
  (~ In "%"%char f /\ f' = B "%s" ++ f) \/ (exists pre post, fmt_of f pre post /\ f' = f).
Proof. exact C46_format_proof. Qed.
Print Assumptions C46_format.

(** The output is in the directory of the input; its name is that of the input
    with the two parts of the format around it, and it is the name of a Go file. *)
Theorem C46_name : forall f pre post p dir base,
  fmt_of f pre post -> file_in p dir base ->
  exists stem n, stem_of base stem /\ go_name (pre ++ stem ++ post) n /\ outFilePath f p = dir ++ "/"%char :: n.
Proof. exact C46_name_proof. Qed.
Print Assumptions C46_name.

Example C46_ex_name : norm_format (B "_gen") = Some (B "%s_gen")
  /\ outFilePath (B "%s_gen") (B "/p/user.go") = B "/p/user_gen.go"
  /\ fmt_of (B "%s_gen") [] (B "_gen") /\ file_in (B "/p/user.go") (B "/p") (B "user.go").
Proof.
  split; [vm_compute; reflexivity|]. split; [vm_compute; reflexivity|]. split.
  - split; [reflexivity|]. split; [tauto|]. cbn. intuition discriminate.
  - split; [reflexivity|]. cbn. intuition discriminate.
Qed.

(** Different Go files have different outputs, in whatever directories they are. *)
Theorem C46_injective : forall f pre post p1 p2 d1 d2 b1 b2,
  fmt_of f pre post -> ~ In "/"%char (pre ++ post) ->
  post <> [] -> post <> B "o" -> post <> B "go" ->
  file_in p1 d1 b1 -> file_in p2 d2 b2 -> go_file b1 -> go_file b2 ->
  outFilePath f p1 = outFilePath f p2 -> p1 = p2.
Proof. exact C46_injective_proof. Qed.
Print Assumptions C46_injective.

Example C46_ex_injective : fmt_of (B "%s_gosql.go") [] (B "_gosql.go")
  /\ file_in (B "/p/a.go") (B "/p") (B "a.go") /\ go_file (B "a.go")
  /\ outFilePath (B "%s_gosql.go") (B "/p/a.go") = B "/p/a_gosql.go".
Proof.
  split; [|split; [|split]].
  - split; [reflexivity|]. split; [tauto|]. cbn. intuition discriminate.
  - split; [reflexivity|]. cbn. intuition discriminate.
  - exists (B "a"). reflexivity.
  - vm_compute. reflexivity.
Qed.

(** Without an affix after the name, two files can have one output. *)
Theorem C46_injective_refuted : exists f pre post p1 p2 d b1 b2,
  fmt_of f pre post /\ post = [] /\ file_in p1 d b1 /\ file_in p2 d b2 /\ go_file b1 /\ go_file b2
  /\ p1 <> p2 /\ outFilePath f p1 = outFilePath f p2.
Proof. exact C46_injective_refuted_proof. Qed.
Print Assumptions C46_injective_refuted.

(** A format that adds something, and not three bytes, never names the input. *)
Theorem C46_not_self : forall f pre post p dir base,
  fmt_of f pre post -> ~ In "/"%char (pre ++ post) -> List.length (pre ++ post) <> 0 -> List.length (pre ++ post) <> 3 ->
  file_in p dir base -> go_file base -> outFilePath f p <> p.
Proof. exact C46_not_self_proof. Qed.
Print Assumptions C46_not_self.

(** With the formats %s and %s.go, and with an empty format, the input is
    overwritten. *)
Theorem C46_self_refuted : forall f, In f [[]; B ".go"; B "%s"; B "%s.go"] ->
  exists f', norm_format f = Some f' /\ outFilePath f' (B "/p/user.go") = B "/p/user.go".
Proof. exact C46_self_refuted_proof. Qed.
Print Assumptions C46_self_refuted.

(** The output for one file can be another input file. *)
Theorem C46_other_refuted : exists p1 p2, p1 <> p2
  /\ outFilePath (B "%s_gosql.go") p1 = p2 /\ outFilePath (B "%s_gosql.go") p2 <> p2.
Proof. exact C46_other_refuted_proof. Qed.
Print Assumptions C46_other_refuted.

(** ** C74: targets *)

(** Exactly the targets declared in the files that pass the filter are found,
    under the package and the file that declares them. *)
Theorem C74_search : forall flt pkgs pk path h,
  (exists fs hs, In (pk, fs) (Search flt pkgs) /\ In (path, hs) fs /\ In h hs) <->
  (exists p f, In p pkgs /\ gp_name p = pk /\ In f (gp_files p) /\ gf_path f = path
     /\ (forall g, flt = Some g -> g path = true) /\ declares f h).
Proof. exact C74_search_proof. Qed.
Print Assumptions C74_search.

Example C74_ex : Search (Some (fun p => negb (bytes_eqb p (B "/p/b.go"))))
    [MkPkg (B "p") [ex_file74; MkFile (B "/p/b.go") (gf_decls ex_file74)]; MkPkg (B "q") [MkFile (B "/q/c.go") [DOther]]]
  = [(B "p", [(B "/p/a.go", [(B "SELECTusers", TStruct [])])])]
  /\ declares ex_file74 (B "SELECTusers", TStruct []).
Proof.
  split; [vm_compute; reflexivity|]. apply declares_spec. vm_compute. left. reflexivity.
Qed.

(** No output is made for a file without targets, and none twice for one file. *)
Theorem C74_files : forall flt pkgs,
  (forall pk fs, In (pk, fs) (Search flt pkgs) -> fs <> [] /\ forall path hs, In (path, hs) fs -> hs <> [])
  /\ (NoDup (flat_map (fun p => map gf_path (gp_files p)) pkgs) ->
      NoDup (flat_map (fun pf : bytes * list (bytes * list hit) => map fst (snd pf)) (Search flt pkgs))).
Proof. exact C74_files_proof. Qed.
Print Assumptions C74_files.

(** The filter passes the files that are listed or match an expression, and every
    file when there is neither list nor expression. *)
Theorem C74_filter : forall rx files regexps p,
  (forall g, FileFilterFunc rx files regexps = Some g -> g p = true) <->
  (files = [] /\ regexps = []) \/ In p files \/ (exists r, In r regexps /\ rx r p = true).
Proof. exact C74_filter_proof. Qed.
Print Assumptions C74_filter.

(** ** C75: what the analysis is given *)

(** A struct type whose name spells one of the words in ASCII letters is analysed
    as what the word says. *)
Theorem C75_kind : forall e n p rest fs w, In w [B "select"; B "insert"; B "update"; B "delete"; B "filter"] ->
  n = p ++ rest -> spelled p w -> trimmed n ->
  (w = B "filter" /\ Run e n (TStruct fs) = (do f <- analyzeFilterStruct e fs; AOk (inr f)))
  \/ (exists k, kind_of w k /\ query_kind n = AOk k
      /\ Run e n (TStruct fs) = (do q <- analyzeQueryStruct e n fs; AOk (inl q))).
Proof. exact C75_kind_proof. Qed.
Print Assumptions C75_kind.

Example C75_ex : In (B "delete") [B "select"; B "insert"; B "update"; B "delete"; B "filter"]
  /\ B "DeleteUser" = B "Delete" ++ B "User" /\ spelled (B "Delete") (B "delete") /\ trimmed (B "DeleteUser").
Proof.
  split; [cbn; tauto|]. split; [reflexivity|]. split; [vm_compute; reflexivity|]. split.
  - intros c r E. injection E as <- _. unfold space. vm_compute. intuition discriminate.
  - intros r c E. change (B "DeleteUser") with (B "DeleteUse" ++ ["r"%char]) in E. apply app_inj_tail in E.
    destruct E as [_ <-]. unfold space. vm_compute. intuition discriminate.
Qed.

(** A type that is found is not always fit for the analysis, which panics: a type
    with such a name that is no struct, *)
Theorem C75_nonstruct_refuted : exists f h, declares f h /\ target_name (fst h)
  /\ forall e, Run e (fst h) (snd h) = APanic.
Proof. exact C75_nonstruct_refuted_proof. Qed.
Print Assumptions C75_nonstruct_refuted.

(** an alias with such a name of a struct type with another, *)
Theorem C75_alias_refuted : exists f h fs, declares f h /\ snd h = TStruct fs /\ ~ target_name (fst h)
  /\ forall e, Run e (fst h) (snd h) = APanic.
Proof. exact C75_alias_refuted_proof. Qed.
Print Assumptions C75_alias_refuted.

(** or a struct whose name is spelled with the letter U+017F. *)
Theorem C75_long_s_refuted : exists n fs, target_name n /\ forall e, Run e n (TStruct fs) = APanic.
Proof. exact C75_long_s_refuted_proof. Qed.
Print Assumptions C75_long_s_refuted.

(** ** C76: what is on disk at the end *)

(** When the run succeeds, every target was analysed, checked and generated, the
    output of every file found is on disk, formatted, and nothing else changed. *)
Theorem C76_done : forall T (target : hit -> res T) gen w format flt pkgs d d',
  RunCommand target gen w format flt pkgs d = (d', Done) ->
  exists outs srcs, outputs target gen format (Search flt pkgs) outs /\ formatted w outs srcs /\ written d srcs d'.
Proof. exact C76_done_proof. Qed.
Print Assumptions C76_done.

(** A panic leaves the disk as it was, and so does every failure before the first
    file is written. *)
Theorem C76_untouched : forall T (target : hit -> res T) gen w format flt pkgs d d' r,
  RunCommand target gen w format flt pkgs d = (d', r) ->
  r = Crashed \/ ~ (exists outs, outputs target gen format (Search flt pkgs) outs) -> d' = d.
Proof. exact C76_untouched_proof. Qed.
Print Assumptions C76_untouched.

(** When writing fails at a file, the files before it are written, the file
    itself is gone unless it could not even be created, the rest is as before. *)
Theorem C76_failed : forall T (target : hit -> res T) gen w format flt pkgs d d' outs,
  RunCommand target gen w format flt pkgs d = (d', Failed) -> outputs target gen format (Search flt pkgs) outs ->
  exists done srcs p buf rest d0, outs = done ++ (p, buf) :: rest /\ formatted w done srcs /\ written d srcs d0
    /\ ((w_create w p = false /\ d' = d0) \/
        (w_create w p = true /\ (w_format w buf = None \/ w_write w p = false) /\ d' = put d0 p None)).
Proof. exact C76_failed_proof. Qed.
Print Assumptions C76_failed.

Example C76_ex :
  ex_view (ex_run (B "InsertB")) = ([Some (B "src"); Some (B "pSelectA;"); Some (B "pInsertB;")], Done)
  /\ ex_view (ex_run (B "SelectBad")) = ([Some (B "src"); None; Some (B "old")], Failed)
  /\ ex_view (ex_run (B "InsertOdd")) = ([Some (B "src"); Some (B "pSelectA;"); None], Failed).
Proof. repeat split; vm_compute; reflexivity. Qed.

(** An output that was good before a run can be gone after it. *)
Theorem C76_lost_refuted : exists T (target : hit -> res T) gen w format flt pkgs d d' p s,
  RunCommand target gen w format flt pkgs d = (d', Failed) /\ d p = Some s /\ d' p = None.
Proof. exact C76_lost_refuted_proof. Qed.
Print Assumptions C76_lost_refuted.

Theorem C76_each_file : forall T (target : hit -> res T) gen w format flt pkgs d d' pre post,
  RunCommand target gen w format flt pkgs d = (d', Done) ->
  fmt_of format pre post -> ~ In "/"%char (pre ++ post) -> post <> [] -> post <> B "o" -> post <> B "go" ->
  NoDup (flat_map (fun p => map gf_path (gp_files p)) pkgs) ->
  (forall p f, In p pkgs -> In f (gp_files p) -> exists dir base, file_in (gf_path f) dir base /\ go_file base) ->
  forall pk fs path hs, In (pk, fs) (Search flt pkgs) -> In (path, hs) fs ->
  exists ts buf src, Forall2 (fun h t => target h = Ok t) hs ts /\ gen pk ts = Ok buf
    /\ w_format w buf = Some src /\ d' (outFilePath format path) = Some src.
Proof. exact C76_each_file_proof. Qed.
Print Assumptions C76_each_file.

Example C76_ex_each : let pkgs := [MkPkg (B "p") [MkFile (B "/p/a.go") [ex_type (B "SelectA"); ex_type (B "User")];
                                             MkFile (B "/p/b.go") [ex_type (B "InsertB")]]] in
  NoDup (flat_map (fun p => map gf_path (gp_files p)) pkgs)
  /\ (forall p f, In p pkgs -> In f (gp_files p) -> exists dir base, file_in (gf_path f) dir base /\ go_file base)
  /\ exists d', ex_run (B "InsertB") = (d', Done).
Proof.
  cbv zeta. split; [|split].
  - vm_compute. repeat constructor; cbn [In]; intuition discriminate.
  - intros p f [<-|[]] Hf. cbn [gp_files In] in Hf. destruct Hf as [<-|[<-|[]]].
    + exists (B "/p"), (B "a.go"). split; [split; [reflexivity|cbn; intuition discriminate]|]. exists (B "a"). reflexivity.
    + exists (B "/p"), (B "b.go"). split; [split; [reflexivity|cbn; intuition discriminate]|]. exists (B "b"). reflexivity.
  - destruct (ex_run (B "InsertB")) as [d' r] eqn:E. exists d'. f_equal.
    change r with (snd (d', r)). rewrite <- E. vm_compute. reflexivity.
Qed.
