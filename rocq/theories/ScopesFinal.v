(** Definitions and proofs used by PropsScopes.v. *)
From Coq Require Import Ascii String ZArith NArith Bool List Lia.
From Verif Require Import GoBase Strconv StrconvProofs AParse PgSpec Analysis Oids ConvertProofs AnalysisSpec AnalysisProofs AnalysisRoles QuerySlots Gen GenRun GenOut GenSpec Check Accepted ScopeSpec GoNames QueryFinal CheckEx.
Import ListNotations.
Local Open Scope string_scope.
Local Open Scope list_scope.

Lemma in_without : forall ys u x, In x (without ys u) <-> In x u /\ ~ In x ys.
Proof.
  intros ys u x. unfold without. rewrite filter_In. split; intros [A B]; split; auto.
  - intros I. apply negb_true_iff in B. apply not_true_iff_false in B. apply B. apply existsb_exists. exists x. split; auto. apply bytes_eqb_eq. reflexivity.
  - apply negb_true_iff. apply not_true_iff_false. intros E. apply existsb_exists in E. destruct E as (y & Y & E). apply bytes_eqb_eq in E. subst. auto.
Qed.

Lemma dec_cons : forall x y b s, declared x ((y, b) :: s) <-> x = y \/ declared x s.
Proof.
  intros. unfold declared. cbn. split.
  - intros (c & [E|E]); [injection E as -> ->; auto|right; eauto].
  - intros [->|(c & E)]; eauto.
Qed.

Lemma dec_app : forall x s s', declared x (s ++ s') <-> declared x s \/ declared x s'.
Proof.
  intros. unfold declared. split.
  - intros (b & I). apply in_app_iff in I. destruct I; [left|right]; eauto.
  - intros [(b & I)|(b & I)]; exists b; apply in_app_iff; auto.
Qed.

Lemma dec_nil : forall x, ~ declared x [].
Proof. intros x (b & []). Qed.

Lemma itoa_ne : forall k, itoa k <> [].
Proof. intros k. apply format_uint_nonempty. Qed.

Lemma itoa_eq : forall a b, itoa a = itoa b -> a = b.
Proof.
  intros a b E. unfold itoa in E. pose proof (format_uint_value 10 (N.of_nat a) ltac:(lia) ltac:(lia)) as A.
  rewrite E, (format_uint_value 10 (N.of_nat b)) in A by lia. injection A as A. lia.
Qed.

Lemma iname_inj : forall x y, iname x = iname y -> x = y.
Proof.
  intros [|a| a| |] [|b| b| |] E; try reflexivity; try (vm_compute in E; discriminate E);
    try (exfalso; cbn in E; discriminate E); try (cbn in E; injection E as E).
  - f_equal. apply itoa_eq. exact E.
  - f_equal. apply itoa_eq. exact E.
  - exfalso. apply (itoa_ne a). exact E.
  - exfalso. apply (itoa_ne b). symmetry. exact E.
Qed.

Definition held (s : scope) : Prop := forall x, declared x s -> reserved x.

Definition clean (e : ex) : Prop := forall x, In x (outers e) -> ~ reserved x.

Definition within (e : ex) (s : scope) : Prop := forall x, In x (locals e) -> declared x s.

Lemma legal_intro : forall s e, held s -> clean e -> within e s -> legal_ex s e.
Proof. intros s e H C W. split; [exact W|]. intros x I D. apply (C x I). apply H. exact D. Qed.

Lemma res_fixed : forall x, In x fixed_names -> reserved x.
Proof. intros. left. exact H. Qed.

Lemma res_iname : forall x, reserved (iname x).
Proof. intros [|k|k| |]; try (left; cbn; tauto); right; exists k; auto. Qed.

Ltac unres :=
  let F := fresh in intros F; destruct F as [F|(?k & [F|F])];
  [cbn [fixed_names In] in F; repeat (destruct F as [F|F]; [vm_compute in F; discriminate F|]); exact F
  |cbn in F; first [discriminate F | injection F as F; first [discriminate F| eapply itoa_ne; symmetry; exact F]]..].

Lemma res_new : ~ reserved (lit "new").
Proof. unres. Qed.

Lemma res_len : ~ reserved (lit "len").
Proof. unres. Qed.

Lemma res_make : ~ reserved (lit "make").
Proof. unres. Qed.

Lemma res_append : ~ reserved (lit "append").
Proof. unres. Qed.

Lemma res_nil : ~ reserved (lit "nil").
Proof. unres. Qed.

Lemma res_pgsql : ~ reserved (lit "pgsql").
Proof. unres. Qed.

Lemma res_gosql : ~ reserved (lit "gosql").
Proof. unres. Qed.

Lemma res_int : forall k, ~ reserved (int_name k).
Proof. intros k. unfold int_name. repeat match goal with |- context [match ?x with _ => _ end] => destruct x end; unres. Qed.

Lemma clean_mention : forall l, clean (mention l).
Proof. intros l x []. Qed.

Lemma clean_both : forall a b, clean a -> clean b -> clean (both a b).
Proof. intros a b A B x I. apply in_app_iff in I. destruct I; auto. Qed.

Lemma clean_out : forall l, (forall x, In x l -> ~ reserved x) -> clean (outside l).
Proof. intros l H x I. auto. Qed.

Lemma clean_all : forall l, (forall e, In e l -> clean e) -> clean (all_of l).
Proof. induction l as [|a l IH]; intros H; [apply clean_mention|]. apply clean_both; [apply H; left; reflexivity|apply IH; intros; apply H; right; assumption]. Qed.

Ltac out1 := apply clean_out; let x := fresh in let I := fresh in intros x I; cbn [In] in I;
  repeat (destruct I as [<-|I]; [first [exact res_new|exact res_len|exact res_make|exact res_append|exact res_nil|exact res_pgsql|exact res_gosql|apply res_int]|]); contradiction.

Lemma clean_g : forall e, clean (gnames e).
Proof. induction e; cbn [gnames]; auto using clean_mention. - apply clean_both; auto using clean_mention. - apply clean_both; auto. out1. Qed.

Lemma clean_i : forall e, clean (inames e).
Proof. induction e; cbn [inames]; auto using clean_mention, clean_both. apply clean_both; [out1|apply clean_g]. Qed.

Lemma clean_node : forall n, clean (node_names n).
Proof. intros n. apply clean_all. intros e I. apply in_map_iff in I. destruct I as (k & <- & _). apply clean_both; [out1|apply clean_mention]. Qed.

Lemma clean_s : forall s, clean (snames s).
Proof. intros [n|t|i|]; cbn [snames]; auto using clean_mention, clean_node. apply clean_both; [out1|apply clean_i]. Qed.

Lemma clean_nil : clean nil_name.
Proof. unfold nil_name. out1. Qed.

Lemma clean_gs : forall l, clean (all_of (map gnames l)).
Proof. intros. apply clean_all. intros e I. apply in_map_iff in I. destruct I as (g & <- & _). apply clean_g. Qed.

Lemma clean_ss : forall l, clean (all_of (map snames l)).
Proof. intros. apply clean_all. intros e I. apply in_map_iff in I. destruct I as (g & <- & _). apply clean_s. Qed.

Lemma clean_e : forall q e, clean (enames q e).
Proof. intros q [|a|]; cbn [enames]; auto using clean_mention. apply clean_both; auto using clean_mention, clean_gs. Qed.

Lemma in_all : forall l x, In x (locals (all_of l)) <-> exists e, In e l /\ In x (locals e).
Proof.
  induction l as [|a l IH]; intros x; cbn [all_of fold_right].
  - split; [intros []|intros (e & [] & _)].
  - cbn [both locals]. rewrite in_app_iff. fold (all_of l). rewrite IH. split.
    + intros [A|(e & A & B)]; [exists a; split; [left; reflexivity|exact A]|exists e; split; [right; exact A|exact B]].
    + intros (e & [<-|A] & B); [left; exact B|right; exists e; auto].
Qed.

Lemma in_gs : forall l x, In x (locals (all_of (map gnames l))) <-> exists g, In g l /\ In x (locals (gnames g)).
Proof.
  intros. rewrite in_all. split.
  - intros (e & I & X). apply in_map_iff in I. destruct I as (g & <- & I). eauto.
  - intros (g & I & X). exists (gnames g). split; auto. apply in_map. exact I.
Qed.

Lemma in_ss : forall l x, In x (locals (all_of (map snames l))) <-> exists g, In g l /\ In x (locals (snames g)).
Proof.
  intros. rewrite in_all. split.
  - intros (e & I & X). apply in_map_iff in I. destruct I as (g & <- & I). eauto.
  - intros (g & I & X). exists (snames g). split; auto. apply in_map. exact I.
Qed.

Lemma gnames_gsel : forall p e, gnames (gsel e p) = gnames e.
Proof. unfold gsel. induction p as [|f p IH]; intros e; [reflexivity|]. cbn [fold_left]. rewrite IH. reflexivity. Qed.

Lemma gnames_conv : forall e c, locals (gnames (addConverterCallExpr e c)) = locals (gnames e).
Proof. intros e [|a c]; reflexivity. Qed.

Definition ok (above here : scope) (l : list go) (wants : list text) : Prop :=
  exists u, scoped above here l u /\ forall x, In x wants -> In x u.

Lemma ok_nil : forall above here, ok above here [] [].
Proof. intros. exists []. split; [constructor|auto]. Qed.

Lemma ok_weak : forall above here l n m, ok above here l n -> incl m n -> ok above here l m.
Proof. intros above here l n m (u & U & N) I. exists u. split; auto. Qed.

Lemma ok_const : forall above here x e l n m, held (here ++ above) -> clean e -> within e (here ++ above) -> ~ declared x here ->
  ok above ((x, false) :: here) l n -> (forall y, In y m -> In y (locals e) \/ (In y n /\ y <> x)) -> ok above here (Const x e :: l) m.
Proof.
  intros above here x e l n m H C W D (u & U & N) M. eexists. split; [apply s_const; eauto using legal_intro|].
  intros y Y. apply in_app_iff. destruct (M y Y) as [A|[A B]]; [left; exact A|right]. apply in_without. split; auto. intros [E|[]]. congruence.
Qed.

Lemma ok_var : forall above here x e l n m, held (here ++ above) -> clean e -> within e (here ++ above) -> ~ declared x here ->
  ok above ((x, true) :: here) l n -> In x n -> (forall y, In y m -> In y (locals e) \/ (In y n /\ y <> x)) -> ok above here (Var x e :: l) m.
Proof.
  intros above here x e l n m H C W D (u & U & N) X M. eexists. split; [apply s_var; eauto using legal_intro|].
  intros y Y. apply in_app_iff. destruct (M y Y) as [A|[A B]]; [left; exact A|right]. apply in_without. split; auto. intros [E|[]]. congruence.
Qed.

Lemma ok_short : forall above here xs ys e l n m, held (here ++ above) -> clean e -> within e (here ++ above) -> fresh here xs ys -> ys <> [] ->
  ok above (map (fun y => (y, true)) ys ++ here) l n -> (forall y, In y ys -> In y n) ->
  (forall y, In y m -> In y (locals e) \/ (In y n /\ ~ In y ys)) -> ok above here (Short xs e :: l) m.
Proof.
  intros above here xs ys e l n m H C W D NE (u & U & N) X M. eexists. split; [eapply s_short; eauto using legal_intro|].
  intros y Y. apply in_app_iff. destruct (M y Y) as [A|[A B]]; [left; exact A|right]. apply in_without. split; auto.
Qed.

Lemma ok_assign : forall above here x e l n m, held (here ++ above) -> clean e -> within e (here ++ above) -> means x true (here ++ above) ->
  ok above here l n -> (forall y, In y m -> In y (locals e) \/ In y n) -> ok above here (Assign x e :: l) m.
Proof.
  intros above here x e l n m H C W D (u & U & N) M. eexists. split; [apply s_assign; eauto using legal_intro|].
  intros y Y. apply in_app_iff. destruct (M y Y) as [A|A]; auto.
Qed.

Lemma ok_eval : forall above here e l n m, held (here ++ above) -> clean e -> within e (here ++ above) ->
  ok above here l n -> (forall y, In y m -> In y (locals e) \/ In y n) -> ok above here (Eval e :: l) m.
Proof.
  intros above here e l n m H C W (u & U & N) M. eexists. split; [apply s_eval; eauto using legal_intro|].
  intros y Y. apply in_app_iff. destruct (M y Y) as [A|A]; auto.
Qed.

Lemma ok_return : forall above here e l n m, held (here ++ above) -> clean e -> within e (here ++ above) ->
  ok above here l n -> (forall y, In y m -> In y (locals e) \/ In y n) -> ok above here (Return e :: l) m.
Proof.
  intros above here e l n m H C W (u & U & N) M. eexists. split; [apply s_return; eauto using legal_intro|].
  intros y Y. apply in_app_iff. destruct (M y Y) as [A|A]; auto.
Qed.

Lemma ok_block : forall above here b l n n' m, ok (here ++ above) [] b n' -> ok above here l n ->
  (forall y, In y m -> In y n' \/ In y n) -> ok above here (Block b :: l) m.
Proof.
  intros above here b l n n' m (u' & U' & N') (u & U & N) M. eexists. split; [eapply s_block; eauto|].
  intros y Y. apply in_app_iff. destruct (M y Y) as [A|A]; auto.
Qed.

Lemma held_cons : forall x b s, reserved x -> held s -> held ((x, b) :: s).
Proof. intros x b s R H y D. apply dec_cons in D. destruct D as [->|D]; auto. Qed.

Lemma held_app : forall s s', held s -> held s' -> held (s ++ s').
Proof. intros s s' A B y D. apply dec_app in D. destruct D; auto. Qed.

Lemma held_nil : held [].
Proof. intros y D. destruct (dec_nil _ D). Qed.

Lemma within_both : forall a b s, within a s -> within b s -> within (both a b) s.
Proof. intros a b s A B x I. apply in_app_iff in I. destruct I; auto. Qed.

Lemma within_out : forall l s, within (outside l) s.
Proof. intros l s x []. Qed.

Lemma within_m : forall l s, (forall x, In x l -> declared x s) -> within (mention l) s.
Proof. intros l s H x I. auto. Qed.

Ltac dcl := first [assumption | apply dec_cons; first [left; reflexivity | right; dcl] | apply dec_app; first [left; dcl | right; dcl]].

Ltac wm := apply within_m; let x := fresh in let I := fresh in intros x I; cbn [In] in I; repeat (destruct I as [<-|I]; [solve [dcl]|]); contradiction.

Ltac ne := let E := fresh in intros E; vm_compute in E; discriminate E.

(** what is wanted is mentioned *)
Ltac wants := let y := fresh "y" in let Y := fresh "Y" in intros y Y; cbn [In locals mention both outside app enames] in Y |- *;
  repeat (destruct Y as [<-|Y]; [solve [first [left; cbn; auto 20; fail | right; split; [auto 20|first [ne|intros [E|[]]; revert E; ne]] | right; auto 20 | auto 20]]|]); try contradiction.

Ltac cl := repeat first [apply clean_both|apply clean_mention|apply clean_g|apply clean_i|apply clean_node|apply clean_nil|apply clean_gs|apply clean_ss|apply clean_e|out1].

Lemma ok_iferr : forall above here body n, held (here ++ above) -> declared v_err (here ++ above) ->
  ok (here ++ above) [] body n -> ok above here (if_err body) (v_err :: n).
Proof.
  intros above here body n H E B. unfold if_err. eapply ok_eval; [exact H|cl|apply within_both; [wm|apply within_out]| |].
  - eapply ok_block; [exact B|apply ok_nil|]. intros y Y. left. exact Y.
  - intros y [<-|Y]; [left; left; reflexivity|right; exact Y].
Qed.

Lemma held_err : forall s, held s -> held ((v_err, true) :: s).
Proof. intros. apply held_cons; auto. left. cbn. tauto. Qed.

Lemma ok_iferr2 : forall above here e body n, held (here ++ above) -> clean e -> within e (here ++ above) ->
  ok ((v_err, true) :: here ++ above) [] body n ->
  ok above here [Block (Short [v_err] e :: if_err body)] (locals e).
Proof.
  intros above here e body n H C W B. eapply ok_block; [|apply ok_nil|intros y Y; left; exact Y].
  eapply ok_short with (ys := [v_err]) (n := v_err :: n); [exact H|exact C|exact W|apply f_new; [ne|apply dec_nil|auto|constructor]|discriminate| | |].
  - apply ok_iferr; [apply held_err; exact H|apply dec_cons; auto|exact B].
  - intros y [<-|[]]. left. reflexivity.
  - intros y Y. left. exact Y.
Qed.

Lemma err_ret : forall imp q t above here e, held (here ++ above) -> within (enames q e) (here ++ above) ->
  declared v_q (here ++ above) -> declared v_text (here ++ above) ->
  ok above here (flat_map (go_second imp q t) (makeErrorReturnStmt q e)) (locals (enames q e)).
Proof.
  intros imp q t above here e H W Q T. unfold makeErrorReturnStmt.
  assert (RI : forall h s, held s -> declared v_err s -> declared v_q s -> declared v_text s ->
    ok s [] (flat_map (go_second imp q t) [RHandleInfo h]) [v_err]).
  { intros h s Hs A B C. cbn [flat_map go_second app]. eapply ok_return; [exact Hs|cl|apply within_both; [|apply within_out]|apply ok_nil|].
    - apply within_m. intros x [<-|[<-|[<-|[]]]]; auto.
    - intros y [<-|[]]. left. cbn. auto. }
  destruct (q_errh q) as [h|].
  - destruct (eh_info h).
    + destruct e as [|args|].
      * cbn [flat_map go_second app]. eapply ok_return; [exact H|cl|apply within_both; [|apply within_out]|apply ok_nil|].
        -- apply within_m. intros x [<-|[<-|[<-|[]]]]; auto. apply W. left. reflexivity.
        -- intros y [<-|[]]. left. cbn. auto.
      * assert (K : ok above here [Block (Short [v_err] (enames q (EScan args)) :: if_err (flat_map (go_second imp q t) [RHandleInfo (eh_name h)]))] (locals (enames q (EScan args)))).
        { eapply ok_iferr2; [exact H|cl|exact W|]. apply RI; [apply held_err; exact H|apply dec_cons; auto..]. }
        destruct K as (u & U & N). inversion U; subst. inversion H6; subst. exists (u0 ++ locals nil_name ++ []). split.
        -- cbn [flat_map go_second app] in *. apply s_block; [exact H4|]. apply s_return; [|constructor]. apply legal_intro; [exact H|cl|apply within_out].
        -- intros x X. apply N in X. rewrite app_nil_r in X. apply in_app_iff. auto.
      * assert (K : ok above here [Block (Short [v_err] (enames q ERowsErr) :: if_err (flat_map (go_second imp q t) [RHandleInfo (eh_name h)]))] (locals (enames q ERowsErr))).
        { eapply ok_iferr2; [exact H|cl|exact W|]. apply RI; [apply held_err; exact H|apply dec_cons; auto..]. }
        destruct K as (u & U & N). inversion U; subst. inversion H6; subst. exists (u0 ++ locals nil_name ++ []). split.
        -- cbn [flat_map go_second app] in *. apply s_block; [exact H4|]. apply s_return; [|constructor]. apply legal_intro; [exact H|cl|apply within_out].
        -- intros x X. apply N in X. rewrite app_nil_r in X. apply in_app_iff. auto.
    + cbn [flat_map go_second app]. eapply ok_return; [exact H|cl|apply within_both; [|exact W]|apply ok_nil|].
      * apply within_m. intros x [<-|[]]; auto.
      * intros y Y. left. cbn. auto.
  - cbn [flat_map go_second app]. eapply ok_return; [exact H|cl|exact W|apply ok_nil|]. auto.
Qed.

Definition plain_types (imp : text -> text) (q : qstate) (t : tinfo) : Prop :=
  canSkipRelInit q = false -> forall x, named_types imp q t x -> ~ reserved x.

Lemma nodes_at_in : forall p sel n, In n (nodes_at p sel) -> In n sel.
Proof.
  induction p as [|f p IH]; intros sel n I; [destruct sel; contradiction|].
  destruct sel as [|m sel]; [destruct p; contradiction|]. cbn [nodes_at] in I. destruct p as [|g p].
  - destruct (bytes_eqb _ _); [|contradiction]. destruct I as [<-|[]]. left. reflexivity.
  - destruct (bytes_eqb _ _); [|contradiction]. right. apply IH. exact I.
Qed.

Lemma clean_path : forall imp q t p, plain_types imp q t -> canSkipRelInit q = false -> clean (outside (lit "new" :: path_types imp t p)).
Proof.
  intros imp q t p P S. apply clean_out. intros x [<-|I]; [exact res_new|]. apply (P S). right.
  unfold path_types in I. apply in_map_iff in I. destruct I as (n & <- & I). apply filter_In in I. destruct I as [I F].
  apply in_flat_map in I. destruct I as (r & R & I). exists r, n. apply nodes_at_in in I. auto.
Qed.

(** The statements that allocate nested structs *)
Lemma paths_ok : forall imp q t above here ps rest n, held (here ++ above) -> plain_types imp q t -> canSkipRelInit q = false ->
  within (gnames (outputVar q)) (here ++ above) -> ok above here rest n ->
  ok above here (flat_map (go_second imp q t) (map RInit (map InitPath ps)) ++ rest) n.
Proof.
  intros imp q t above here ps rest n H P S W R. induction ps as [|p ps IH]; [exact R|].
  cbn [map flat_map go_second go_init app]. eapply ok_eval; [exact H| |apply within_both; [exact W|apply within_out]|exact IH|auto].
  apply clean_both; [apply clean_g|eapply clean_path; eauto].
Qed.

Lemma init_sel_paths : forall sel pre key done, exists ps, fst (init_sel pre key sel done) = map InitPath ps.
Proof.
  induction sel as [|n sel IH]; intros pre key done; cbn [init_sel]; [exists []; reflexivity|].
  destruct (sn_ptr n && _); [|apply IH]. destruct (IH (pre ++ [sn_name n]) (key ++ sn_name n) ((key ++ sn_name n) :: done)) as (ps & E).
  destruct (init_sel _ _ sel _) as [is d]. cbn [fst] in *. exists ((pre ++ [sn_name n]) :: ps). rewrite E. reflexivity.
Qed.

Lemma init_fields_paths : forall l done, exists ps, init_fields l done = map InitPath ps.
Proof.
  induction l as [|r l IH]; intros done; cbn [init_fields]; [exists []; reflexivity|].
  destruct (init_sel_paths (fi_sel (fr_field r)) [] [] done) as (ps & E). destruct (init_sel [] [] _ done) as [is d]. cbn [fst] in E.
  destruct (IH d) as (ps' & E'). exists (ps ++ ps'). rewrite E, E', map_app. reflexivity.
Qed.

Lemma inits : forall q t, exists ps, outputInit q t = (if has_out q t then init_root q else []) ++ map InitPath ps
  /\ (canSkipRelInit q = true -> ps = [] /\ init_root q = []).
Proof.
  intros q t. unfold outputInit, has_out. destruct (ti_reads t) as [|r l].
  - exists []. split; [rewrite app_nil_r; destruct (IsSelectCountOrExists q); reflexivity|]. intros C. split; [reflexivity|]. unfold init_root. rewrite C. reflexivity.
  - destruct (canSkipRelInit q) eqn:C.
    + exists []. split; [rewrite !app_nil_r; reflexivity|]. intros _. split; [reflexivity|]. unfold init_root. rewrite C. reflexivity.
    + destruct (init_fields_paths (r :: l) []) as (ps & E). exists ps. rewrite E. split; [reflexivity|discriminate].
Qed.

Lemma out_args : forall q t g, In g (outputArgs q t) -> locals (gnames g) = locals (gnames (outputVar q)) \/ (IsSelectCountOrExists q = true /\ locals (gnames g) = [v_q]).
Proof.
  intros q t g I. unfold outputArgs in I. destruct (IsSelectCountOrExists q).
  - destruct I as [<-|[]]. right. auto.
  - left. apply in_map_iff in I. destruct I as (r & <- & _). rewrite gnames_conv. cbn [gnames]. rewrite gnames_gsel. reflexivity.
Qed.

Lemma args_in : forall q t s, (IsSelectCountOrExists q = true -> declared v_q s) -> within (gnames (outputVar q)) s -> within (all_of (map gnames (outputArgs q t))) s.
Proof.
  intros q t s D W x I. apply in_gs in I. destruct I as (g & G & I). destruct (out_args q t g G) as [E|[C E]].
  - rewrite E in I. auto.
  - rewrite E in I. destruct I as [<-|[]]. auto.
Qed.

Lemma args_use : forall q t x, IsSelectCountOrExists q = false -> ti_reads t <> [] -> In x (locals (gnames (outputVar q))) ->
  In x (locals (all_of (map gnames (outputArgs q t)))).
Proof.
  intros q t x C R I. destruct (ti_reads t) as [|r l] eqn:E; [congruence|]. apply in_gs. unfold outputArgs. rewrite C, E.
  exists (addConverterCallExpr (GAddr (gsel (outputVar q) (sel_path (fr_field r)))) (fr_scanner r)). split; [left; reflexivity|].
  rewrite gnames_conv. cbn [gnames]. rewrite gnames_gsel. exact I.
Qed.

(** if err != nil { return ... } *)
Lemma err_if : forall imp q t above here rest n, held (here ++ above) -> declared v_err (here ++ above) -> declared v_q (here ++ above) ->
  declared v_text (here ++ above) -> ok above here rest n ->
  ok above here (go_second imp q t (makeErrorIfStmt q) ++ rest) (v_err :: n).
Proof.
  intros imp q t above here rest n H E Q T R. unfold makeErrorIfStmt. cbn [go_second app].
  eapply ok_block; [eapply ok_iferr with (here := []); [exact H|exact E|]|exact R|].
  - apply err_ret; auto. cbn [enames]. apply within_m. intros x [<-|[]]. exact E.
  - intros y [<-|Y]; [left; left; reflexivity|right; exact Y].
Qed.

Lemma exec_ok : forall imp q t above here, held (here ++ above) -> means v_err true here -> declared v_q (here ++ above) -> declared v_text (here ++ above) ->
  (q_rows q <> None -> declared v_res (here ++ above)) -> ~ declared v_i64 here -> IsWithoutOutput q = true ->
  ok above here (flat_map (go_second imp q t) (result_stmts q t)) (v_err :: if is_some (q_rows q) then [v_res] else []).
Proof.
  intros imp q t above here H E Q T R N W. unfold result_stmts. rewrite W. cbn [flat_map go_second app].
  assert (DE : declared v_err (here ++ above)).
  { apply dec_app. left. clear -E. induction E; apply dec_cons; auto. }
  destruct (q_rows q) as [r|]; cbn [is_some].
  - unfold buildQueryResultRowsAffected. cbn [flat_map].
    eapply ok_weak with (n := v_err :: [v_res]); [|apply incl_refl].
    apply err_if; auto. cbn [go_second app].
    eapply ok_short with (ys := [v_i64]) (n := v_err :: [v_i64]); [exact H|cl|apply within_m; intros x [<-|[]]; apply R; discriminate| |discriminate| | |].
    + apply f_new; [ne|exact N|intros [F|[]]; revert F; ne|]. apply f_old; [ne|exact E|auto|constructor].
    + assert (H' : held ((map (fun y => (y, true)) [v_i64] ++ here) ++ above)). { apply held_cons; auto. left. cbn. tauto. }
      cbn [map app] in H' |- *.
      apply err_if; [exact H'|cbn [app]; dcl..|].
      eapply ok_eval with (n := []); [exact H'|cl|apply within_both; [|apply within_out]| |].
      * apply within_m. intros x [<-|[<-|[]]]; cbn [app]; dcl.
      * eapply ok_return; [exact H'|cl|apply within_out|apply ok_nil|]. intros y [].
      * intros y [<-|[]]. left. cbn. auto.
    + intros y [<-|[]]. right. left. reflexivity.
    + intros y [<-|[]]. left. left. reflexivity.
  - eapply ok_weak; [apply err_ret; auto|].
    + cbn [enames]. apply within_m. intros x [<-|[]]. exact DE.
    + intros y [<-|[]]. left. reflexivity.
Qed.

Lemma single_ok : forall imp q t above here, held (here ++ above) -> plain_types imp q t -> declared v_q (here ++ above) -> declared v_text (here ++ above) ->
  declared v_row (here ++ above) -> ~ declared v_err here -> IsWithoutOutput q = false -> IsSingleOutput q = true -> rt_single (out_type q) = true ->
  ok above here (flat_map (go_second imp q t) (result_stmts q t)) [v_row].
Proof.
  intros imp q t above here H P Q T R N W I S. unfold result_stmts. rewrite W, I. cbn [flat_map go_second app].
  assert (OV : gnames (outputVar q) = mention [v_q]).
  { unfold outputVar, rt_single in *. destruct (rt_slice (out_type q)), (rt_iter (out_type q)); try discriminate. reflexivity. }
  assert (WQ : forall s, declared v_q s -> within (gnames (outputVar q)) s). { intros s D. rewrite OV. apply within_m. intros x [<-|[]]. exact D. }
  unfold buildQueryResultRowScan. rewrite flat_map_app.
  destruct (inits q t) as (ps & E & SK). rewrite E, map_app, flat_map_app, <- app_assoc.
  assert (REST : ok above here (flat_map (go_second imp q t)
    (if negb (outputIsAfterScanner q t) && HasNoErrorInfoHandler q then makeErrorReturnStmt q (EScan (outputArgs q t))
     else [RScan (outputArgs q t); makeErrorIfStmt q] ++ (if outputIsAfterScanner q t then [RAfter (outputVar q)] else []) ++ [RReturn None])) [v_row]).
  { assert (WE : forall s, declared v_row s -> declared v_q s -> within (enames q (EScan (outputArgs q t))) s).
    { intros s D1 D2. cbn [enames]. unfold source. rewrite I. apply within_both; [apply within_m; intros x [<-|[]]; exact D1|apply args_in; auto]. }
    destruct (negb (outputIsAfterScanner q t) && HasNoErrorInfoHandler q).
    - eapply ok_weak; [apply err_ret; auto|]. intros y [<-|[]]. cbn [enames]. unfold source. rewrite I. left. reflexivity.
    - cbn [flat_map app go_second]. eapply ok_short with (ys := [v_err]) (n := [v_err]); [exact H|cl|apply WE; auto| |discriminate| | |].
      + apply f_new; [ne|exact N|auto|constructor].
      + cbn [map app]. assert (H' : held (((v_err, true) :: here) ++ above)) by (apply held_err; exact H).
        apply err_if; [exact H'|cbn [app]; dcl..|]. rewrite flat_map_app.
        destruct (outputIsAfterScanner q t); cbn [flat_map app go_second].
        * eapply ok_eval with (n := []); [exact H'|cl|apply WQ; cbn [app]; dcl| |intros y []].
          eapply ok_return; [exact H'|cl|apply within_out|apply ok_nil|intros y []].
        * eapply ok_return; [exact H'|cl|apply within_out|apply ok_nil|intros y []].
      + intros y [<-|[]]. left. reflexivity.
      + intros y [<-|[]]. left. unfold source. rewrite I. left. reflexivity. }
  destruct (canSkipRelInit q) eqn:C.
  - destruct (SK eq_refl) as [-> ->]. replace (if has_out q t then [] else []) with (@nil init) by (destruct (has_out q t); reflexivity). exact REST.
  - assert (RP : ok above here (flat_map (go_second imp q t) (map RInit (map InitPath ps)) ++ flat_map (go_second imp q t)
      (if negb (outputIsAfterScanner q t) && HasNoErrorInfoHandler q then makeErrorReturnStmt q (EScan (outputArgs q t))
       else [RScan (outputArgs q t); makeErrorIfStmt q] ++ (if outputIsAfterScanner q t then [RAfter (outputVar q)] else []) ++ [RReturn None])) [v_row]).
    { apply paths_ok; auto. }
    destruct (has_out q t); [|exact RP]. unfold init_root. rewrite C. unfold rt_single in S.
    destruct (rt_slice (out_type q)) eqn:S1, (rt_iter (out_type q)) eqn:S2; try discriminate. cbn [negb andb orb].
    destruct (rt_ptr (out_type q)) eqn:S3; [|exact RP]. cbn [map flat_map go_second go_init app].
    eapply ok_eval; [exact H| |apply within_both; [|apply within_out]|exact RP|auto].
    + apply clean_both; [apply clean_mention|]. apply clean_out. intros x [<-|[<-|[]]]; [exact res_new|]. apply (P C). left. auto.
    + apply within_m. intros x [<-|[]]. exact Q.
Qed.

Lemma rows_ok : forall imp q t above here, held (here ++ above) -> plain_types imp q t -> declared v_q (here ++ above) -> declared v_text (here ++ above) ->
  declared v_rows (here ++ above) -> declared v_err (here ++ above) -> ~ declared v_i here -> IsWithoutOutput q = false -> IsSingleOutput q = false ->
  IsSelectCountOrExists q = false -> ti_reads t <> [] -> rt_slice (out_type q) = true \/ rt_iter (out_type q) = true ->
  (rt_iter (out_type q) = true -> canSkipRelInit q = false /\ rt_slice (out_type q) = false) ->
  ok above here (flat_map (go_second imp q t) (result_stmts q t)) [v_err; v_rows].
Proof.
  intros imp q t above here H P Q T R E N W I C RD SI IT. unfold result_stmts. rewrite W, I. rewrite flat_map_app. cbn [flat_map].
  change (go_second imp q t RCall ++ ?l) with l. rewrite app_nil_r, <- app_assoc.
  apply err_if; auto. change (go_second imp q t RDefer) with [Eval (mention [v_rows])]. cbn [app].
  eapply ok_eval with (n := []); [exact H|cl|apply within_m; intros x [<-|[]]; exact R| |intros y [<-|[]]; left; left; reflexivity].
  assert (HO : has_out q t = true). { unfold has_out. destruct (ti_reads t); [congruence|reflexivity]. }
  unfold buildQueryResultRowsScan.
  assert (END : forall s, held s -> declared v_rows s -> declared v_q s -> declared v_text s -> forall h a, s = h ++ a ->
    ok a h (flat_map (go_second imp q t) (makeErrorReturnStmt q ERowsErr)) []).
  { intros s Hs D1 D2 D3 h a ->. eapply ok_weak; [apply err_ret; auto|intros y []]. cbn [enames]. apply within_m. intros x [<-|[]]. exact D1. }
  assert (SRC : source q = v_rows). { unfold source. rewrite I. reflexivity. }
  destruct (inits q t) as (ps & EI & SK). rewrite HO in EI. rewrite EI.
  destruct (rt_slice (out_type q) && canSkipRelInit q) eqn:IP.
  - (* in place *)
    apply andb_prop in IP. destruct IP as [SL CS]. destruct (SK CS) as [-> ->]. cbn [map app].
    assert (OI : outputToInput q t = true).
    { unfold outputToInput. rewrite HO. unfold canSkipRelInit in CS. apply andb_prop in CS. destruct CS as [IU NR]. unfold IsInsertOrUpdateSlice. rewrite IU, NR.
      unfold out_type in SL. destruct (q_result q); [discriminate|]. rewrite SL. reflexivity. }
    assert (NI : outputIsIter q t = false).
    { unfold outputIsIter. rewrite HO. destruct (rt_iter (out_type q)); [|reflexivity]. destruct (IT eq_refl) as [A _]. congruence. }
    assert (OV : locals (gnames (outputVar q)) = [v_q; v_i]). { unfold outputVar. rewrite SL, CS. reflexivity. }
    rewrite OI, NI. rewrite !flat_map_app. cbn [flat_map go_second app].
    eapply ok_short with (ys := [v_i]) (n := [v_i]); [exact H|cl|apply within_m; intros x []| |discriminate| | |].
    + apply f_new; [ne|exact N|auto|constructor].
    + cbn [map app]. assert (H1 : held (((v_i, true) :: here) ++ above)). { apply held_cons; auto. left. cbn. tauto. }
      eapply ok_block with (n' := [v_i]) (n := []); [|apply (END (((v_i, true) :: here) ++ above)); auto; cbn [app]; dcl|intros y Y; left; exact Y].
      eapply ok_eval with (n := [v_i]); [exact H1|cl|apply within_m; intros x [<-|[]]; cbn [app]; dcl| |intros y Y; right; exact Y].
      eapply ok_block with (n' := [v_i]) (n := []); [|apply ok_nil|intros y Y; left; exact Y].
      eapply ok_short with (ys := [v_err]) (n := [v_err]); [exact H1|cl| |apply f_new; [ne|apply dec_nil|auto|constructor]|discriminate| | |].
      * rewrite SRC. apply within_both; [apply within_m; intros x [<-|[]]; cbn [app]; dcl|]. apply args_in; [intros; cbn [app]; dcl|].
        intros x X. rewrite OV in X. destruct X as [<-|[<-|[]]]; cbn [app]; dcl.
      * cbn [map app]. assert (H2 : held ([(v_err, true)] ++ (v_i, true) :: here ++ above)) by (apply held_err; exact H1).
        rewrite <- ?app_comm_cons, <- ?app_assoc. cbn [app]. apply err_if; [exact H2|cbn [app]; dcl..|].
        assert (INC : ok ((v_i, true) :: here ++ above) [(v_err, true)] [Assign v_i (mention [])] []).
        { eapply ok_assign with (n := []); [exact H2|cl|apply within_m; intros x []| |apply ok_nil|intros y []]. cbn [app]. apply m_there; [ne|apply m_here]. }
        destruct (outputIsAfterScanner q t); cbn [flat_map go_second app]; [|exact INC].
        eapply ok_eval with (n := []); [exact H2|cl| |exact INC|intros y []]. intros x X. rewrite OV in X. destruct X as [<-|[<-|[]]]; cbn [app]; dcl.
      * intros y [<-|[]]. left. reflexivity.
      * intros y [<-|[]]. left. apply in_app_iff. right. apply args_use; auto. rewrite OV. cbn. auto.
    + intros y [<-|[]]. left. reflexivity.
    + intros y [].
  - (* records of their own *)
    assert (CS : canSkipRelInit q = false).
    { destruct SI as [S1|S1]; [rewrite S1 in IP; exact IP|apply IT; exact S1]. }
    assert (OI : outputToInput q t = false).
    { unfold outputToInput. rewrite HO. unfold canSkipRelInit in CS. unfold IsInsertOrUpdateSlice. destruct (IsInsertOrUpdate q); [|reflexivity].
      cbn [andb] in CS. rewrite CS. cbn [andb]. apply andb_false_r. }
    assert (OV : locals (gnames (outputVar q)) = [v_v]).
    { unfold outputVar. rewrite IP. replace (rt_slice (out_type q) || rt_iter (out_type q)) with true; [reflexivity|]. destruct SI as [-> | ->]; [reflexivity|symmetry; apply orb_true_r]. }
    rewrite OI. rewrite !flat_map_app. cbn [flat_map go_second app].
    eapply ok_block with (n' := []) (n := []); [|apply (END (here ++ above)); auto|intros y []].
    eapply ok_eval with (n := []); [exact H|cl|apply within_m; intros x [<-|[]]; exact R| |intros y []].
    eapply ok_block with (n' := []) (n := []); [|apply ok_nil|intros y []]. cbn [app].
    rewrite map_app, !flat_map_app.
    assert (BODY : forall ab, ab = here ++ above -> ok ab [(v_v, true)] (flat_map (go_second imp q t) (map RInit (map InitPath ps)) ++
       (flat_map (go_second imp q t) [RScan (outputArgs q t); makeErrorIfStmt q]
       ++ flat_map (go_second imp q t) (if outputIsAfterScanner q t then [RAfter (outputVar q)] else [])
       ++ flat_map (go_second imp q t) (if outputIsIter q t then [RIter (outputRoot q) (rt_method (out_type q)) (makeErrorReturnStmt q EVar)] else [RAppend (outputRoot q)]))) [v_v]).
    { intros ab AB. assert (H1 : held ([(v_v, true)] ++ ab)). { subst ab. apply held_cons; auto. left. cbn. tauto. }
      assert (Dq : declared v_q ab) by (subst; auto). assert (Dt : declared v_text ab) by (subst; auto). assert (Dr : declared v_rows ab) by (subst; auto).
      apply paths_ok; auto. { intros x X. rewrite OV in X. destruct X as [<-|[]]. cbn [app]. dcl. }
      cbn [flat_map go_second app]. rewrite app_nil_r.
      eapply ok_short with (ys := [v_err]) (n := [v_err]); [exact H1|cl| |apply f_new; [ne| |auto|constructor]|discriminate| | |].
      - rewrite SRC. apply within_both; [apply within_m; intros x [<-|[]]; cbn [app]; dcl|]. apply args_in; [congruence|].
        intros x X. rewrite OV in X. destruct X as [<-|[]]. cbn [app]. dcl.
      - intros D. apply dec_cons in D. destruct D as [D|D]; [revert D; ne|exact (dec_nil _ D)].
      - cbn [map app]. assert (H2 : held ([(v_err, true); (v_v, true)] ++ ab)) by (apply held_err; exact H1).
        apply err_if; [exact H2|cbn [app]; dcl..|].
        assert (LAST : ok ab [(v_err, true); (v_v, true)] (flat_map (go_second imp q t) (if outputIsIter q t then [RIter (outputRoot q) (rt_method (out_type q)) (makeErrorReturnStmt q EVar)] else [RAppend (outputRoot q)])) []).
        { assert (WR : within (gnames (outputRoot q)) ([(v_err, true); (v_v, true)] ++ ab)). { cbn [outputRoot gnames]. apply within_m. intros x [<-|[]]. cbn [app]. dcl. }
          destruct (outputIsIter q t); cbn [flat_map go_second app].
          - eapply ok_weak; [eapply ok_iferr2; [exact H2|cl|apply within_both; [exact WR|apply within_m; intros x [<-|[]]; cbn [app]; dcl]|]|intros y []].
            apply err_ret; [apply held_err; exact H2| |cbn [app]; dcl..]. cbn [enames]. apply within_m. intros x [<-|[]]. cbn [app]. dcl.
          - eapply ok_eval with (n := []); [exact H2|cl|apply within_both; [exact WR|apply within_both; [apply within_m; intros x [<-|[]]; cbn [app]; dcl|apply within_out]]|apply ok_nil|intros y []]. }
        destruct (outputIsAfterScanner q t); cbn [flat_map go_second app]; [|exact LAST].
        eapply ok_eval with (n := []); [exact H2|cl| |exact LAST|intros y []]. intros x X. rewrite OV in X. destruct X as [<-|[]]. cbn [app]. dcl.
      - intros y [<-|[]]. left. reflexivity.
      - intros y [<-|[]]. left. apply in_app_iff. right. apply args_use; auto. rewrite OV. cbn. auto. }
    specialize (BODY _ eq_refl). cbn [flat_map go_second app] in BODY. rewrite app_nil_r, <- flat_map_app in BODY.
    unfold init_root. rewrite CS.
    assert (RT : ~ reserved (root_type imp q)). { apply (P CS). left. split; [reflexivity|]. tauto. }
    assert (SI' : rt_slice (out_type q) || rt_iter (out_type q) = true) by (destruct SI as [-> | ->]; [reflexivity|apply orb_true_r]).
    assert (NS : negb (rt_slice (out_type q)) && negb (rt_iter (out_type q)) && rt_ptr (out_type q) = false) by (destruct SI as [-> | ->]; cbn; rewrite ?andb_false_r; reflexivity).
    rewrite NS, SI'. cbn [andb].
    destruct (rt_ptr (out_type q)); cbn [map flat_map go_second go_init app].
    + eapply ok_short with (ys := [v_v]) (n := [v_v]); [exact H| |apply within_out|apply f_new; [ne|apply dec_nil|auto|constructor]|discriminate| |intros y Y; exact Y|intros y []].
      * apply clean_out. intros x [<-|[<-|[]]]; [exact res_new|exact RT].
      * exact BODY.
    + eapply ok_var with (n := [v_v]); [exact H| |apply within_out|apply dec_nil| |left; reflexivity|intros y []].
      * apply clean_out. intros x [<-|[]]. exact RT.
      * exact BODY.
Qed.

(** What the analysis has made sure of, and what it has not: rows are read
    into a slice or an iterator, and there are columns to read. *)
Record settled (q : qstate) (t : tinfo) : Prop := MkSettled {
  st_single : IsWithoutOutput q = false -> IsSingleOutput q = true -> rt_single (out_type q) = true;
  st_many : IsWithoutOutput q = false -> IsSingleOutput q = false -> IsSelectCountOrExists q = false
    /\ (rt_iter (out_type q) = true -> canSkipRelInit q = false /\ rt_slice (out_type q) = false)
    /\ ti_reads t <> [] /\ (rt_slice (out_type q) = true \/ rt_iter (out_type q) = true) }.

Definition late : list text := [v_row; v_rows; v_err; v_res; v_i64; v_i].

Definition arg_names (a : inargs) : ex := match a with AParams => mention [v_params] | AList l => all_of (map gnames l) end.

Lemma call_ok : forall imp wc q t here a, settled q t -> plain_types imp q t -> held here ->
  declared v_q here -> declared v_c here -> declared v_text here -> (wc = true -> declared v_ctx here) ->
  (forall x, In x late -> ~ declared x here) -> within (arg_names a) here ->
  ok [] here (go_first q (GCall (if IsWithoutOutput q then CExec else if IsSingleOutput q then CQueryRow else CQuery) (call_ctx wc q) a)
              ++ flat_map (go_second imp q t) (result_stmts q t)) (v_text :: locals (arg_names a)).
Proof.
  intros imp wc q t here a ST P H DQ DC DT DX L WA. cbn [go_first]. fold (arg_names a).
  set (e := both (mention [v_c; v_text]) _). cbn [app].
  assert (CE : clean e). { unfold e, arg_names. destruct (call_ctx wc q), a; cl. }
  assert (H0 : held (here ++ [])) by (rewrite app_nil_r; exact H).
  assert (WE : within e (here ++ [])).
  { rewrite app_nil_r. apply within_both; [wm|]. apply within_both; [|exact WA]. unfold call_ctx. destruct wc; [apply within_m; intros x [<-|[]]; auto|]. destruct (q_ctx q); wm. }
  assert (UE : forall y, In y (v_text :: locals (arg_names a)) -> In y (locals e)).
  { intros y [<-|Y]; unfold e; cbn [locals both mention]; [cbn; auto|]. apply in_app_iff. right. apply in_app_iff. right. exact Y. }
  assert (HL : forall xs, incl xs late -> held ((map (fun y => (y, true)) xs ++ here) ++ [])).
  { intros xs I. rewrite app_nil_r. apply held_app; [|exact H]. intros x (b & B). apply in_map_iff in B. destruct B as (y & Y & B). injection Y as <- <-.
    left. apply I in B. unfold late in B. cbn in B |- *. tauto. }
  assert (LT : forall x, In x late -> forall ys, ~ In x ys -> ~ declared x (map (fun y => (y, true)) ys ++ here)).
  { intros x X ys N D. apply dec_app in D. destruct D as [(b & B)|D]; [|exact (L x X D)]. apply in_map_iff in B. destruct B as (y & Y & B). injection Y as -> _. auto. }
  destruct (IsWithoutOutput q) eqn:W.
  - pose (xs := if is_some (q_rows q) then [v_res; v_err] else [v_err]).
    eapply ok_short with (ys := xs) (n := xs); [exact H0|exact CE|exact WE| |unfold xs; destruct (is_some _); discriminate| |auto|intros y Y; left; apply UE; exact Y].
    + unfold xs. destruct (is_some (q_rows q)).
      * apply f_new; [ne|apply L; cbn; auto|intros [F|[]]; revert F; ne|]. apply f_new; [ne|apply L; cbn; auto|auto|constructor].
      * apply f_blank. apply f_new; [ne|apply L; cbn; auto|auto|constructor].
    + eapply ok_weak; [apply exec_ok; auto|].
      * apply HL. unfold xs, late. destruct (is_some _); intros y; cbn; tauto.
      * unfold xs. destruct (is_some _); cbn [map app]; [apply m_there; [ne|]|]; apply m_here.
      * rewrite app_nil_r. apply dec_app. auto.
      * rewrite app_nil_r. apply dec_app. auto.
      * intros R. unfold xs. destruct (q_rows q); [|congruence]. cbn [is_some map app]. dcl.
      * apply LT; [cbn; auto 10|]. unfold xs. destruct (is_some _); intros F; cbn [In] in F; repeat (destruct F as [F|F]; [revert F; ne|]); exact F.
      * unfold xs. destruct (is_some _); intros y; cbn; tauto.
  - destruct (IsSingleOutput q) eqn:S.
    + eapply ok_short with (ys := [v_row]) (n := [v_row]); [exact H0|exact CE|exact WE|apply f_new; [ne|apply L; cbn; auto|auto|constructor]|discriminate| |auto|intros y Y; left; apply UE; exact Y].
      apply single_ok; auto.
      * apply HL. intros y; cbn; tauto.
      * rewrite app_nil_r. apply dec_app. auto.
      * rewrite app_nil_r. apply dec_app. auto.
      * cbn [map app]. dcl.
      * apply LT; [cbn; auto 10|]. intros [F|[]]; revert F; ne.
      * apply (st_single _ _ ST); auto.
    + destruct (st_many _ _ ST W S) as (C & IT & RD & SI).
      eapply ok_short with (ys := [v_rows; v_err]) (n := [v_err; v_rows]); [exact H0|exact CE|exact WE| |discriminate| |intros y; cbn; tauto|intros y Y; left; apply UE; exact Y].
      * apply f_new; [ne|apply L; cbn; auto|intros [F|[]]; revert F; ne|]. apply f_new; [ne|apply L; cbn; auto|auto|constructor].
      * apply rows_ok; auto.
        -- apply HL. intros y; cbn; tauto.
        -- rewrite app_nil_r. apply dec_app. auto.
        -- rewrite app_nil_r. apply dec_app. auto.
        -- cbn [map app]. dcl.
        -- cbn [map app]. dcl.
        -- apply LT; [cbn; auto 10|]. intros F; cbn [In] in F; repeat (destruct F as [F|F]; [revert F; ne|]); exact F.
Qed.

Definition rooted (xs : list text) (l : list gexpr) : Prop := forall g, In g l -> forall x, In x (locals (gnames g)) -> In x xs.

Lemma fallback_ok : forall above here q l rest n, held (here ++ above) -> declared v_q (here ++ above) -> ok above here rest n ->
  ok above here (flat_map (go_first q) (fallback l) ++ rest) n.
Proof.
  intros above here q l rest n H D R. unfold fallback. destruct l as [l|]; [|exact R]. destruct (lf_name l); [exact R|]. destruct (0 <? _)%N; [|exact R].
  cbn [flat_map go_first app]. eapply ok_block with (n' := []); [|exact R|auto].
  eapply ok_eval with (n := []); [exact H|cl|apply within_m; intros x [<-|[]]; exact D| |intros y []].
  eapply ok_block with (n := []) (n' := []); [|apply ok_nil|intros y []].
  eapply ok_eval with (n := []); [exact H|cl|apply within_m; intros x [<-|[]]; exact D|apply ok_nil|intros y []].
Qed.

(** From the fallbacks on *)
Definition after_text (imp : text -> text) (wc : bool) (q : qstate) (t : tinfo) (args slices : list gexpr) : list go :=
  flat_map (go_first q) (fallback (q_limit q) ++ fallback (q_offset q)
    ++ (if is_some (q_filter q) && is_update (q_kind q) then [GPrepend args] else [])
    ++ [GCall (if IsWithoutOutput q then CExec else if IsSingleOutput q then CQueryRow else CQuery) (call_ctx wc q) (call_args q args slices)])
  ++ flat_map (go_second imp q t) (result_stmts q t).

Lemma after_ok : forall imp wc q t here args slices, settled q t -> plain_types imp q t -> held here ->
  declared v_q here -> declared v_c here -> declared v_text here -> (wc = true -> declared v_ctx here) ->
  (forall x, In x late -> ~ declared x here) -> (q_filter q <> None -> means v_params true here) ->
  within (arg_names (call_args q args slices)) here -> (is_some (q_filter q) && is_update (q_kind q) = true -> rooted [v_q] args) ->
  ok [] here (after_text imp wc q t args slices) (v_text :: locals (arg_names (call_args q args slices))).
Proof.
  intros imp wc q t here args slices ST P H DQ DC DT DX L F WA RQ. unfold after_text. rewrite !flat_map_app, <- !app_assoc.
  assert (H0 : held (here ++ [])) by (rewrite app_nil_r; exact H).
  apply fallback_ok; [exact H0|rewrite app_nil_r; exact DQ|]. apply fallback_ok; [exact H0|rewrite app_nil_r; exact DQ|].
  assert (CALL := call_ok imp wc q t here (call_args q args slices) ST P H DQ DC DT DX L WA).
  destruct (is_some (q_filter q) && is_update (q_kind q)) eqn:FU; [|cbn [flat_map app]; rewrite app_nil_r; exact CALL].
  assert (M : means v_params true here). { apply F. destruct (q_filter q); [discriminate|discriminate FU]. }
  cbn [flat_map app]. rewrite app_nil_r. change (go_first q (GPrepend args)) with [Assign v_params (both (outside [lit "append"]) (both (mention [v_params]) (all_of (map gnames args))))].
  cbn [app]. eapply ok_assign; [exact H0|cl| |rewrite app_nil_r; exact M|exact CALL|auto].
  apply within_both; [apply within_out|]. apply within_both; rewrite app_nil_r.
  - apply within_m. intros x [<-|[]]. clear -M. induction M; apply dec_cons; auto.
  - intros x X. apply in_gs in X. destruct X as (g & G & X). destruct (RQ eq_refl g G x X) as [<-|[]]. exact DQ.
Qed.

Definition grows (s s' : gst) (ks : list nat) : Prop :=
  exists l, g_slices s' = g_slices s ++ l /\ rooted [v_q] l /\ forall k, In k ks -> 1 <= k <= List.length (g_slices s').

Lemma rooted_app : forall xs a b, rooted xs a -> rooted xs b -> rooted xs (a ++ b).
Proof. intros xs a b A B g G. apply in_app_iff in G. destruct G; [apply A|apply B]; assumption. Qed.

Lemma rooted_nil : forall xs, rooted xs [].
Proof. intros xs g []. Qed.

Lemma grows_same : forall s s', g_slices s' = g_slices s -> grows s s' [].
Proof. intros s s' E. exists []. rewrite app_nil_r. split; [exact E|]. split; [apply rooted_nil|]. intros k []. Qed.

Lemma grows_trans : forall s s' s'' k k', grows s s' k -> grows s' s'' k' -> grows s s'' (k ++ k').
Proof.
  intros s s' s'' k k' (l & E & R & B) (l' & E' & R' & B'). exists (l ++ l'). rewrite E', E, app_assoc. split; [reflexivity|]. split; [apply rooted_app; auto|].
  intros x X. rewrite E', E in *. rewrite !app_length in *. apply in_app_iff in X. destruct X as [X|X]; [apply B in X|apply B' in X]; lia.
Qed.

Lemma grows_incl : forall s s' k k', grows s s' k -> incl k' k -> grows s s' k'.
Proof. intros s s' k k' (l & E & R & B) I. exists l. auto. Qed.

Definition quser (e : gexpr) : Prop := forall x, In x (locals (gnames e)) -> x = v_q.

Lemma grows_pred : forall sx p l r s, quser sx -> let '(e, s') := mk_pred sx p l r s in grows s s' (bexpr_lists e).
Proof.
  intros sx p l r s Q. unfold mk_pred. destruct (sql_op p); [apply grows_same; reflexivity|]. destruct (sql_truth p) as [[n t]|]; [apply grows_same; reflexivity|].
  destruct p; try (apply grows_same; reflexivity); (exists [sx]; cbn [g_slices bexpr_lists]; split; [reflexivity|]; split;
    [intros g [<-|[]] x X; left; symmetry; apply Q; exact X|intros k [<-|[]]; rewrite app_length; cbn [List.length]; lia]).
Qed.

Lemma grows_items : forall (mk : wcond -> gst -> bexpr Z nat * gst) l,
  (forall c, In c l -> forall s, let '(e, s') := mk c s in grows s s' (bexpr_lists e)) ->
  forall first b s, let '(items, s') := bool_items mk first b l s in grows s s' (flat_map (fun it => bexpr_lists (snd it)) items).
Proof.
  intros mk. induction l as [|c l IH]; intros H first b s; [apply grows_same; reflexivity|].
  assert (HT : forall c, In c l -> forall s, let '(e, s') := mk c s in grows s s' (bexpr_lists e)) by (intros c' C'; apply H; right; exact C').
  specialize (IH HT). pose proof (H c (or_introl eq_refl)) as HC.
  assert (G : let '(items, s') := (let '(e, s) := mk c s in let '(items, s) := bool_items mk false b l s in
      (if first then (None, e) :: items else match b with Some _ => (b, e) :: items | None => items end, s)) in
      grows s s' (flat_map (fun it => bexpr_lists (snd it)) items)).
  { specialize (HC s). destruct (mk c s) as [e s1]. specialize (IH false b s1). destruct (bool_items mk false b l s1) as [items s2].
    pose proof (grows_trans _ _ _ _ _ HC IH) as T. destruct first; [exact T|]. destruct b; [exact T|].
    eapply grows_incl; [exact T|]. intros y Y. apply in_app_iff. auto. }
  destruct c; cbn [bool_items]; fold (bool_items mk); try exact G. apply (IH false (Some b0) s).
Qed.

Fixpoint wsize (c : wcond) : nat := match c with WCNested _ l => S (list_sum (map wsize l)) | _ => 1 end.

Lemma wsize_in : forall c l, In c l -> wsize c <= list_sum (map wsize l).
Proof. induction l as [|a l IH]; intros []; [subst|]; cbn [map list_sum fold_right]; [lia|]. specialize (IH H). unfold list_sum in IH. lia. Qed.

Lemma grows_bool : forall n c, wsize c <= n -> forall sx s, quser sx -> let '(e, s') := mk_bool sx c s in grows s s' (bexpr_lists e).
Proof.
  induction n as [|n IH]; intros c N sx s Q; [destruct c; cbn in N; lia|]. destruct c as [b|f|c|nm id p lo hi|nm l]; cbn [mk_bool].
  - apply grows_same. reflexivity.
  - unfold mk_field, param_fresh. cbv zeta. match goal with |- context [mk_pred ?a ?b ?c ?d ?e] => pose proof (grows_pred a b c d e) as G; destruct (mk_pred a b c d e) as [x s'] end.
    destruct (G Q) as (l & E & R). exists l. split; [exact E|exact R].
  - unfold mk_column. apply grows_pred. exact Q.
  - assert (MB : forall b s, let '(e, s') := mk_bound b s in g_slices s' = g_slices s) by (intros [] ?; reflexivity).
    pose proof (MB lo s) as M1. destruct (mk_bound lo s) as [l s1]. pose proof (MB hi s1) as M2. destruct (mk_bound hi s1) as [h s2].
    cbn [bexpr_lists]. apply grows_same. congruence.
  - assert (G : forall c, In c l -> forall s, let '(e, s') := mk_bool (GSel sx nm) c s in grows s s' (bexpr_lists e)).
    { intros c C s0. apply IH; [|exact Q]. pose proof (wsize_in c l C). cbn [wsize] in N. lia. }
    pose proof (grows_items (mk_bool (GSel sx nm)) l G true None s) as I. destruct (bool_items _ _ _ _ _) as [items s']. exact I.
Qed.

Lemma grows_list : forall sx l s, quser sx -> let '(e, s') := makeSQLBoolValueExprList sx l s in grows s s' (bexpr_lists e).
Proof.
  intros sx l s Q. unfold makeSQLBoolValueExprList. pose proof (grows_items (mk_bool sx) l (fun c _ s => grows_bool (wsize c) c (le_n _) sx s Q) true None s) as I.
  destruct (bool_items _ _ _ _ _) as [items s']. exact I.
Qed.

Lemma grows_joins : forall dirs conds s, let '(js, s') := table_joins dirs conds s in grows s s' (flat_map (fun j => bexpr_lists (tj_cond j)) js).
Proof.
  induction dirs as [|d dirs IH]; intros [|c conds] s; try (apply grows_same; reflexivity). cbn [table_joins].
  pose proof (grows_list GQ c s) as G. destruct (makeSQLBoolValueExprList GQ c s) as [e s1]. specialize (IH conds s1). destruct (table_joins dirs conds s1) as [js s2].
  cbn [flat_map tj_cond]. eapply grows_trans; [apply G|exact IH]. intros x [X|[]]. auto.
Qed.

Lemma pkey_conds_same : forall l slice first s, let '(items, s') := pkey_conds slice first l s in
  g_slices s' = g_slices s /\ flat_map (fun it => bexpr_lists (snd it)) items = [].
Proof.
  induction l as [|w l IH]; intros slice first s; [split; reflexivity|]. cbn [pkey_conds]. unfold param_field.
  destruct (find_num _ _).
  - specialize (IH slice false s). destruct (pkey_conds slice false l s). exact IH.
  - match goal with |- context [pkey_conds slice false l ?s1] => specialize (IH slice false s1); destruct (pkey_conds slice false l s1) end. exact IH.
Qed.

Lemma grows_where : forall q t s, let '(wh, s') := whereClause q t s in grows s s' (opt_list (@bexpr_lists Z nat) wh).
Proof.
  intros q t s. unfold whereClause. destruct (IsUpdateWithPKeys q).
  - pose proof (pkey_conds_same (ti_pkeys t) (rt_slice (q_rtype q)) true s) as P. destruct (pkey_conds _ _ _ _) as [items s']. destruct P as [P1 P2].
    cbn [opt_list bexpr_lists]. eapply grows_incl; [apply grows_same; exact P1|]. rewrite P2. apply incl_refl.
  - destruct (ti_where t) as [|c l] eqn:W; [apply grows_same; reflexivity|].
    match goal with |- context [makeSQLBoolValueExprList ?a ?b s] => pose proof (grows_list a b s) as G; destruct (makeSQLBoolValueExprList a b s) as [e s'] end.
    apply G. destruct (q_where q); intros x [X|[]]; auto.
Qed.

Lemma lim_same : forall q s, let '(l, s') := limitClause q s in g_slices s' = g_slices s.
Proof. intros q s. unfold limitClause. destruct (q_limit q) as [l|]; [|reflexivity]. destruct (lf_name l); reflexivity. Qed.

Lemma off_same : forall q s, let '(l, s') := offsetClause q s in g_slices s' = g_slices s.
Proof. intros q s. unfold offsetClause. destruct (q_offset q) as [l|]; [|reflexivity]. destruct (lf_name l); reflexivity. Qed.

Definition listed (n : gsql) (o : option gsql) (s : gst) : Prop :=
  (forall k, In k (stmt_lists n) -> 1 <= k <= List.length (g_slices s))
  /\ forall n', o = Some n' -> forall k, In k (stmt_lists n') -> 1 <= k <= List.length (g_slices s).

Lemma from_lists : forall q js k, In k (flat_map (fun x => match x with TxJoin j => bexpr_lists (tj_cond j) | _ => [] end) (from_list q js)) ->
  In k (flat_map (fun j => bexpr_lists (tj_cond j)) js).
Proof.
  intros q js k I. apply in_flat_map in I. destruct I as (x & X & I). unfold from_list in X. destruct (q_join q); [|destruct X].
  destruct X as [<-|X]; [destruct I|]. apply in_map_iff in X. destruct X as (jj & <- & J). apply in_flat_map. eauto.
Qed.

Lemma query_lists : forall q t vals s, g_slices s = [] -> let '(main, tail, s') := querySQL q t vals s in rooted [v_q] (g_slices s') /\ listed main tail s'.
Proof.
  intros q t vals s S0. unfold querySQL.
  assert (J : let '(js, s1) := tableJoinSlice q t s in grows s s1 (flat_map (fun j => bexpr_lists (tj_cond j)) js)).
  { unfold tableJoinSlice. destruct (q_join q); [apply grows_joins|apply grows_same; reflexivity]. }
  destruct (tableJoinSlice q t s) as [js s1]. pose proof (grows_where q t s1) as W. destruct (whereClause q t s1) as [wh s2].
  pose proof (lim_same q s2) as L. destruct (limitClause q s2) as [lm s3]. pose proof (off_same q s3) as O. destruct (offsetClause q s3) as [off s4].
  pose proof (grows_trans _ _ _ _ _ J W) as G. assert (E4 : g_slices s4 = g_slices s2) by congruence.
  destruct G as (l & E & R & B). rewrite S0 in E. cbn [app] in E. rewrite <- E4 in E, B.
  assert (RR : rooted [v_q] (g_slices s4)) by (rewrite E; exact R).
  assert (BJ : forall k, In k (flat_map (fun j => bexpr_lists (tj_cond j)) js) -> 1 <= k <= List.length (g_slices s4)) by (intros; apply B, in_app_iff; auto).
  assert (BW : forall k, In k (opt_list (@bexpr_lists Z nat) wh) -> 1 <= k <= List.length (g_slices s4)) by (intros; apply B, in_app_iff; auto).
  assert (BF : forall k, In k (flat_map (fun x => match x with TxJoin j => bexpr_lists (tj_cond j) | _ => [] end) (from_list q js)) -> 1 <= k <= List.length (g_slices s4))
    by (intros k K; apply BJ; eapply from_lists; exact K).
  assert (SPL : forall a b, (forall k, In k a -> 1 <= k <= List.length (g_slices s4)) -> (forall k, In k b -> 1 <= k <= List.length (g_slices s4)) ->
    forall k, In k (a ++ b) -> 1 <= k <= List.length (g_slices s4)). { intros a b A C k K. apply in_app_iff in K. destruct K; auto. }
  assert (NOF : forall (b : bool) k, In k (opt_list (@bexpr_lists Z nat) (if b then None else wh)) -> 1 <= k <= List.length (g_slices s4)).
  { intros [|] k K; [destruct K|apply BW; exact K]. }
  destruct (q_kind q); cbv zeta; try (split; [exact RR|]; unfold listed; split; [cbn [stmt_lists]; apply SPL; first [exact BJ|exact BW|exact BF|apply NOF]|intros n' N; discriminate N]).
  - unfold insert_stmt. split; [exact RR|]. split; [intros k []|]. match goal with |- context [if ?c then Some _ else None] => destruct c end; [|discriminate]. intros n' N k K. injection N as <-. destruct K.
  - unfold update_stmt. destruct (rt_slice (q_rtype q)).
    + split; [exact RR|]. split.
      * cbn [stmt_lists]. apply SPL; [|intros k []]. rewrite flat_map_app. apply SPL; [exact BF|intros k []].
      * intros n' N. injection N as <-. exact BW.
    + match goal with |- context [if ?c then (StUpdate _ _ _ _ None [], _) else _] => destruct c end.
      * split; [exact RR|]. split; [cbn [stmt_lists]; apply SPL; [exact BF|intros k []]|]. intros n' N k K. injection N as <-. destruct K.
      * split; [exact RR|]. split; [cbn [stmt_lists]; apply SPL; auto|discriminate].
Qed.

(** Join conditions and where conditions that compare no column with a list *)
Definition lists_free (l : list wcond) : Prop := Forall (fun c => match c with WCColumn c => c_pred c <> IsIn /\ c_pred c <> NotIn | _ => True end) l.

Lemma plain_list : forall sx l s, Forall (fun c => match c with WCBool _ | WCColumn _ => True | _ => False end) l -> lists_free l ->
  let '(e, s') := makeSQLBoolValueExprList sx l s in g_slices s' = g_slices s.
Proof.
  intros sx l s F L. unfold makeSQLBoolValueExprList.
  assert (K : forall l first b s, Forall (fun c => match c with WCBool _ | WCColumn _ => True | _ => False end) l -> lists_free l ->
    g_slices (snd (bool_items (mk_bool sx) first b l s)) = g_slices s).
  { clear. induction l as [|c l IH]; intros first b s F L; [reflexivity|]. inversion_clear F as [|? ? F1 F2]. inversion_clear L as [|? ? L1 L2].
    destruct c as [b'|f|c|nm id p lo hi|nm m]; try contradiction; cbn [bool_items]; [apply IH; auto|]. cbn [mk_bool]. unfold mk_column, mk_pred.
    assert (M : forall x, (let '(e, s0) := (x, s) in let '(items, s1) := bool_items (mk_bool sx) false b l s0 in
      (if first then (None, e) :: items else match b with Some _ => (b, e) :: items | None => items end, s1)) = 
      (let '(items, s1) := bool_items (mk_bool sx) false b l s in (if first then (None, x) :: items else match b with Some _ => (b, x) :: items | None => items end, s1))) by reflexivity.
    specialize (IH false b s F2 L2). fold (bool_items (mk_bool sx)) in *.
    destruct (sql_op (c_pred c)); [destruct (bool_items (mk_bool sx) false b l s); exact IH|]. destruct (sql_truth (c_pred c)) as [[? ?]|]; [destruct (bool_items (mk_bool sx) false b l s); exact IH|].
    destruct (c_pred c); try (destruct (bool_items (mk_bool sx) false b l s); exact IH); destruct L1; congruence. }
  specialize (K l true None s F L). destruct (bool_items _ _ _ _ _). exact K.
Qed.

Lemma no_slices : forall q t vals s, q_where q = None -> checked q t -> Forall lists_free (ti_joins t) -> g_slices s = [] ->
  g_slices (snd (querySQL q t vals s)) = [].
Proof.
  intros q t vals s W C JF S0. unfold querySQL.
  assert (J : let '(js, s1) := tableJoinSlice q t s in g_slices s1 = g_slices s).
  { unfold tableJoinSlice. destruct (q_join q) as [j|]; [|reflexivity]. destruct C as (_ & _ & _ & _ & _ & _ & CJ). clear -CJ JF. revert s CJ JF. generalize (ti_joins t).
    induction (j_dirs j) as [|d dirs IH]; intros [|c conds] s CJ JF; try reflexivity. cbn [table_joins]. inversion_clear CJ as [|? ? C1 C2]. inversion_clear JF as [|? ? J1 J2].
    pose proof (plain_list GQ c s C1 J1) as P. destruct (makeSQLBoolValueExprList GQ c s) as [e s1]. specialize (IH conds s1 C2 J2). destruct (table_joins dirs conds s1). congruence. }
  destruct (tableJoinSlice q t s) as [js s1].
  assert (WH : let '(wh, s2) := whereClause q t s1 in g_slices s2 = g_slices s1).
  { unfold whereClause. destruct (IsUpdateWithPKeys q).
    - pose proof (pkey_conds_same (ti_pkeys t) (rt_slice (q_rtype q)) true s1) as P. destruct (pkey_conds _ _ _ _) as [items s']. exact (proj1 P).
    - destruct C as (_ & _ & CW & _). rewrite (CW W). reflexivity. }
  destruct (whereClause q t s1) as [wh s2].
  pose proof (lim_same q s2) as L. destruct (limitClause q s2) as [lm s3]. pose proof (off_same q s3) as O. destruct (offsetClause q s3) as [off s4].
  destruct (q_kind q); cbn [snd]; congruence.
Qed.

Lemma target_same : forall q t s, g_slices (snd (input_target_values q t s)) = g_slices s.
Proof.
  intros q t s. unfold input_target_values. destruct (ti_writes t) as [|w0 ws0]; [reflexivity|].
  assert (PF : forall i s, g_slices (snd (param_field i s)) = g_slices s) by (intros i s0; unfold param_field; destruct (find_num _ _); reflexivity).
  assert (IV : forall l s, g_slices (snd (input_vals q l s)) = g_slices s).
  { induction l as [|w l IH]; intros s0; [reflexivity|]. cbn [input_vals].
    assert (V : g_slices (snd (input_val q w s0)) = g_slices s0). { unfold input_val. destruct (canUseDefault _ _); [reflexivity|]. pose proof (PF (fw_id w) s0) as P. destruct (param_field _ _). destruct (NeedsNULLIF w); [exact P|]. destruct (IsUpdateSlice q); exact P. }
    destruct (input_val q w s0) as [v s1]. specialize (IH s1). destruct (input_vals q l s1). cbn [snd] in *. congruence. }
  assert (PV : forall l s, g_slices (snd (pkey_vals l s)) = g_slices s).
  { induction l as [|w l IH]; intros s0; [reflexivity|]. cbn [pkey_vals]. pose proof (PF (fw_id w) s0) as P. destruct (param_field _ _) as [n s1]. specialize (IH s1). destruct (pkey_vals l s1). cbn [snd] in *. congruence. }
  pose proof (IV (w0 :: ws0) s) as I. destruct (input_vals q (w0 :: ws0) s) as [vs s1]. destruct (IsUpdateSlice q); [|exact I].
  pose proof (PV (inputPKeys t) s1) as P. destruct (pkey_vals _ _). cbn [snd] in *. congruence.
Qed.

Lemma wargs_q : forall n c, wsize c <= n -> forall sx, quser sx -> rooted [v_q] (wcond_args sx c).
Proof.
  assert (FA : forall sx f, quser sx -> rooted [v_q] (fcond_args sx f)).
  { intros sx f Q. unfold fcond_args. destruct (p_array _); [apply rooted_nil|]. intros g [<-|[]] x X. rewrite gnames_conv in X. left. symmetry. apply Q. exact X. }
  induction n as [|n IH]; intros c N sx Q; [destruct c; cbn in N; lia|]. destruct c as [b|f|c|nm id p lo hi|nm l]; cbn [wcond_args]; try apply rooted_nil.
  - apply FA. exact Q.
  - assert (BA : forall b, rooted [v_q] (bound_args (GSel sx nm) b)) by (intros []; [apply FA; exact Q|apply rooted_nil]). apply rooted_app; apply BA.
  - intros g G. apply in_flat_map in G. destruct G as (c & C & G). pose proof (wsize_in c l C). cbn [wsize] in N. exact (IH c ltac:(lia) (GSel sx nm) Q g G).
Qed.

Lemma lims_q : forall l, rooted [v_q] (lim_args l).
Proof. intros [l|]; [|apply rooted_nil]. cbn. destruct (lf_name l); [apply rooted_nil|]. intros g [<-|[]] x X. exact X. Qed.

Lemma writes_in : forall q t, exists xs, locals (gnames (inputRoot q)) = xs /\ rooted xs (write_args q t) /\ rooted xs (pkey_args q t)
  /\ forall g, In g (write_args q t ++ pkey_args q t) -> locals (gnames g) = xs.
Proof.
  intros q t. eexists. split; [reflexivity|].
  assert (A : forall g, In g (write_args q t ++ pkey_args q t) -> locals (gnames g) = locals (gnames (inputRoot q))).
  { intros g G. apply in_app_iff in G. destruct G as [G|G].
    - apply in_map_iff in G. destruct G as (w & <- & _). rewrite gnames_conv, gnames_gsel. reflexivity.
    - unfold pkey_args in G. destruct (IsUpdateWithPKeys q); [|destruct G]. apply in_map_iff in G. destruct G as (w & <- & _). rewrite gnames_gsel. reflexivity. }
  split; [|split; [|exact A]]; intros g G x X; [rewrite <- (A g); [exact X|apply in_app_iff; auto]..].
Qed.

Lemma args_q : forall q t, checked q t -> IsInsertOrUpdateSlice q = false -> rooted [v_q] (inputArgs q t).
Proof.
  intros q t C S. destruct (writes_in q t) as (xs & X & RW & RP & _). unfold inputArgs.
  assert (WK : rooted [v_q] (write_args q t) /\ rooted [v_q] (pkey_args q t)).
  { unfold IsInsertOrUpdateSlice, IsInsertOrUpdate in S. destruct (is_insert (q_kind q) || is_update (q_kind q)) eqn:IU.
    - cbn in S. unfold inputRoot in X. rewrite S in X. cbn in X. subst xs. split; assumption.
    - destruct C as (CW & _). unfold write_args, pkey_args, IsUpdateWithPKeys. rewrite (CW IU). apply orb_false_iff in IU. destruct IU as [_ ->]. split; apply rooted_nil. }
  apply rooted_app; [apply WK|]. apply rooted_app.
  - unfold where_args. destruct (q_where q); [|apply rooted_nil]. intros g G. apply in_flat_map in G. destruct G as (c & CC & G). refine (wargs_q (wsize c) c (le_n _) _ _ g G). intros x [Y|[]]; auto.
  - apply rooted_app; [apply WK|]. apply rooted_app; apply lims_q.
Qed.

Lemma args_v : forall q t, IsInsertOrUpdateSlice q = true -> q_where q = None -> q_limit q = None -> q_offset q = None ->
  inputArgs q t = write_args q t ++ pkey_args q t /\ forall g, In g (inputArgs q t) -> locals (gnames g) = [v_v].
Proof.
  intros q t S W L O. unfold inputArgs, where_args. rewrite W, L, O. cbn [lim_args app]. rewrite app_nil_r. split; [reflexivity|].
  destruct (writes_in q t) as (xs & X & _ & _ & A). unfold IsInsertOrUpdateSlice in S. apply andb_true_iff in S. destruct S as [_ S]. unfold inputRoot in X. rewrite S in X. cbn in X. subst xs. exact A.
Qed.

Lemma means_dec : forall x b s, means x b s -> declared x s.
Proof. intros x b s M. induction M; apply dec_cons; auto. Qed.

Lemma node_plain : forall n : gsql, stmt_lists n = [] -> node_names n = mention [].
Proof. intros n E. unfold node_names. rewrite E. reflexivity. Qed.

Lemma listed_nil : forall n : gsql, (forall k, In k (stmt_lists n) -> 1 <= k <= 0) -> stmt_lists n = [].
Proof. intros n H. destruct (stmt_lists n) as [|k l]; [reflexivity|]. specialize (H k (or_introl eq_refl)). lia. Qed.

(** What the parameters of the method declare *)
Record start (wc : bool) (s : scope) : Prop := MkStart {
  st_held : held s; st_q : declared v_q s; st_c : declared v_c s; st_ctx : wc = true -> declared v_ctx s;
  st_only : forall x, declared x s -> In x [v_q; v_c; v_ctx] }.

Lemma start_params : forall wc, start wc (map (fun p => (p, true)) (method_params wc)).
Proof.
  intros wc. assert (O : forall x, declared x (map (fun p => (p, true)) (method_params wc)) -> In x [v_q; v_c; v_ctx]).
  { intros x (b & I). apply in_map_iff in I. destruct I as (y & Y & I). injection Y as -> _. destruct wc; cbn in I |- *; tauto. }
  constructor; [|destruct wc; cbn; dcl|destruct wc; cbn; dcl|intros ->; cbn; dcl|exact O].
  intros x D. left. apply O in D. cbn in D |- *. tauto.
Qed.

Lemma start_not : forall wc s x, start wc s -> ~ In x [v_q; v_c; v_ctx] -> ~ declared x s.
Proof. intros wc s x ST N D. apply N. eapply st_only; eauto. Qed.

Ltac notin := let F := fresh in intros F; cbn [In] in F; repeat (destruct F as [F|F]; [revert F; ne|]); exact F.

Lemma const_ok : forall imp wc q t s0 main, start wc s0 -> settled q t -> plain_types imp q t -> checked q t -> IsInsertOrUpdateSlice q = false ->
  q_filter q = None -> stmt_lists main = [] ->
  ok [] s0 (flat_map (go_first q) [GDecl true main] ++ after_text imp wc q t (inputArgs q t) []) [].
Proof.
  intros imp wc q t s0 main S0 ST P C I F L. cbn [flat_map go_first app]. rewrite (node_plain _ L).
  eapply ok_const with (n := []); [rewrite app_nil_r; apply S0|cl|intros x []|eapply start_not; [exact S0|notin]| |intros y []].
  eapply ok_weak; [apply after_ok; auto|intros y []].
  - apply held_cons; [left; cbn; tauto|apply S0].
  - apply dec_cons. right. apply S0.
  - apply dec_cons. right. apply S0.
  - dcl.
  - intros W. apply dec_cons. right. apply S0. exact W.
  - intros x X D. apply dec_cons in D. destruct D as [->|D]; [revert X; notin|]. apply (st_only _ _ S0) in D. cbn in X, D.
    repeat (destruct X as [<-|X]; [revert D; notin|]). exact X.
  - congruence.
  - unfold call_args. rewrite F, I. cbn [negb is_some orb andb arg_names]. intros x X. apply in_gs in X. destruct X as (g & G & X).
    destruct (args_q q t C I g G x X) as [<-|[]]. apply dec_cons. right. apply S0.
  - rewrite F. discriminate.
Qed.

Lemma filter_ok : forall imp wc q t s0 main tail f, start wc s0 -> settled q t -> plain_types imp q t -> checked q t -> IsInsertOrUpdateSlice q = false ->
  q_filter q = Some f -> stmt_lists main = [] -> (forall n, tail = Some n -> stmt_lists n = []) ->
  ok [] s0 (flat_map (go_first q) (filter_text f (closes q) (inputArgs q t) (GDecl false main) tail) ++ after_text imp wc q t (inputArgs q t) []) [].
Proof.
  intros imp wc q t s0 main tail f S0 ST P C I F L T. unfold filter_text. cbn [flat_map go_first app]. rewrite (node_plain _ L).
  set (here := (v_ftext, true) :: (v_params, true) :: (v_text, true) :: s0).
  assert (H1 : held ((v_text, true) :: s0)) by (apply held_cons; [left; cbn; tauto|apply S0]).
  assert (HH : held here) by (do 2 (apply held_cons; [left; cbn; tauto|]); exact H1).
  assert (M : means v_text true here) by (do 2 (apply m_there; [ne|]); apply m_here).
  assert (AO : ok [] here (after_text imp wc q t (inputArgs q t) []) (v_text :: [v_params])).
  { eapply ok_weak; [apply after_ok; auto|].
    - do 3 (apply dec_cons; right). apply S0.
    - do 3 (apply dec_cons; right). apply S0.
    - unfold here. dcl.
    - intros W. do 3 (apply dec_cons; right). apply S0. exact W.
    - intros x X D. unfold here in D. do 3 (apply dec_cons in D; destruct D as [->|D]; [revert X; notin|]). apply (st_only _ _ S0) in D. cbn in X, D.
      repeat (destruct X as [<-|X]; [revert D; notin|]). exact X.
    - intros _. apply m_there; [ne|]. apply m_here.
    - unfold call_args. rewrite F. cbn [is_some]. rewrite orb_true_r. cbn [orb arg_names]. apply within_m. intros x [<-|[]]. unfold here. dcl.
    - intros _. apply args_q; assumption.
    - unfold call_args. rewrite F. cbn [is_some]. rewrite orb_true_r. cbn [orb arg_names mention locals]. apply incl_refl. }
  eapply ok_var with (n := [v_text]); [rewrite app_nil_r; apply S0|cl|intros x []|eapply start_not; [exact S0|notin]| |cbn; auto|intros y []].
  eapply ok_short with (ys := [v_ftext; v_params]) (n := [v_ftext; v_params; v_text]);
    [rewrite app_nil_r; exact H1|cl|apply within_m; intros x [<-|[]]; rewrite app_nil_r; apply dec_cons; right; apply S0| |discriminate| |intros y; cbn; tauto|].
  - assert (NF : forall x, ~ In x [v_q; v_c; v_ctx] -> x <> v_text -> ~ declared x ((v_text, true) :: s0)).
    { intros x N E D. apply dec_cons in D. destruct D as [D|D]; [auto|]. exact (start_not _ _ _ S0 N D). }
    apply f_new; [ne|apply NF; [notin|ne]|notin|]. apply f_new; [ne|apply NF; [notin|ne]|auto|constructor].
  - cbn [map app]. fold here. eapply ok_assign with (n := [v_params; v_text]); [rewrite app_nil_r; exact HH|apply clean_ss| |rewrite app_nil_r; exact M| |].
    + intros x X. apply (proj1 (in_ss (SFilter :: if closes q then [SText (B ")")] else []) x)) in X. destruct X as (g & G & X). rewrite app_nil_r. destruct G as [<-|G].
      * destruct X as [<-|[]]. unfold here. dcl.
      * destruct (closes q); [destruct G as [<-|[]]|destruct G]. destruct X.
    + assert (AO' : ok [] here (after_text imp wc q t (inputArgs q t) []) [v_params; v_text]) by (eapply ok_weak; [exact AO|intros y; cbn; tauto]).
      destruct tail as [n|]; [|exact AO']. cbn [flat_map go_first app]. eapply ok_assign; [rewrite app_nil_r; exact HH|apply clean_ss| |rewrite app_nil_r; exact M|exact AO'|auto].
      intros x X. apply (proj1 (in_ss [SText (B " "); SNode n] x)) in X. destruct X as (g & [<-|[<-|[]]] & X); [destruct X|]. cbn [snames] in X. rewrite (node_plain _ (T n eq_refl)) in X. destruct X.
    + intros y [<-|[<-|[<-|[]]]]; cbn; auto.
  - intros y [<-|[]]. right. split; [cbn; auto|notin].
Qed.

Fixpoint vscope (k : nat) (l : list gexpr) (s : scope) : scope :=
  match l with [] => s | _ :: r => vscope (S k) r ((iname (VPosK k), true) :: (iname (VLen k), true) :: s) end.

Lemma vscope_dec : forall l k s x, declared x (vscope k l s) <->
  declared x s \/ exists j, k <= j < k + List.length l /\ (x = iname (VLen j) \/ x = iname (VPosK j)).
Proof.
  induction l as [|a l IH]; intros k s x; cbn [vscope List.length].
  - split; [auto|]. intros [D|(j & J & _)]; [exact D|lia].
  - rewrite IH, !dec_cons. split.
    + intros [[->|[->|D]]|(j & J & E)]; [right; exists k; split; [lia|auto]|right; exists k; split; [lia|auto]|auto|right; exists j; split; [lia|auto]].
    + intros [D|(j & J & E)]; [auto|]. destruct (Nat.eq_dec j k) as [->|N]; [destruct E; auto|]. right. exists j. split; [lia|auto].
Qed.

Lemma vars_ok : forall q l k here rest n m, held here -> declared v_q here -> declared (iname VNstatic) here -> 1 <= k ->
  (1 < k -> declared (iname (VPosK (k - 1))) here /\ declared (iname (VLen (k - 1))) here) ->
  (forall j, k <= j -> ~ declared (iname (VLen j)) here /\ ~ declared (iname (VPosK j)) here) -> rooted [v_q] l ->
  ok [] (vscope k l here) rest n -> (forall j, k <= j < k + List.length l -> In (iname (VLen j)) n /\ In (iname (VPosK j)) n) ->
  (forall y, In y m -> In y n /\ forall j, k <= j -> y <> iname (VLen j) /\ y <> iname (VPosK j)) ->
  ok [] here (flat_map (go_first q) (slice_vars k l) ++ rest) m.
Proof.
  intros q. induction l as [|a l IH]; intros k here rest n m H DQ DN K1 DP DF R O N M.
  - cbn [slice_vars flat_map app vscope] in *. eapply ok_weak; [exact O|]. intros y Y. apply M. exact Y.
  - cbn [slice_vars flat_map go_first app]. cbn [vscope List.length] in *.
    set (here1 := (iname (VLen k), true) :: here) in *. set (here2 := (iname (VPosK k), true) :: here1) in *.
    assert (H1 : held here1) by (apply held_cons; [apply res_iname|exact H]).
    assert (H2 : held here2) by (apply held_cons; [apply res_iname|exact H1]).
    eapply ok_var with (n := iname (VLen k) :: m); [rewrite app_nil_r; exact H|cl| |apply DF; lia| |left; reflexivity|].
    + intros x X. rewrite app_nil_r. cbn [inames both locals outside app] in X. destruct (R a (or_introl eq_refl) x X) as [<-|[]]. exact DQ.
    + eapply ok_var with (n := iname (VPosK k) :: iname (VLen k) :: m); [rewrite app_nil_r; exact H1|apply clean_i| | | |left; reflexivity|].
      * rewrite app_nil_r. destruct k as [|[|k]]; [lia| |].
        -- cbn [inames]. apply within_m. intros x [<-|[]]. apply dec_cons. right. exact DN.
        -- cbn [inames]. destruct (DP ltac:(lia)) as [D1 D2]. apply within_both; apply within_m; intros x [<-|[]]; apply dec_cons; right; assumption.
      * intros D. apply dec_cons in D. destruct D as [D|D]; [apply iname_inj in D; discriminate D|]. exact (proj2 (DF k (le_n _)) D).
      * fold here2. apply (IH (S k) here2 rest n (iname (VPosK k) :: iname (VLen k) :: m)); auto.
        -- unfold here2, here1. dcl.
        -- unfold here2, here1. dcl.
        -- intros _. replace (S k - 1) with k by lia. unfold here2, here1. split; dcl.
        -- intros j J. unfold here2, here1. destruct (DF j ltac:(lia)) as [F1 F2].
           split; intros D; do 2 (apply dec_cons in D; destruct D as [D|D]; [apply iname_inj in D; first [discriminate D|injection D as D; lia]|]); auto.
        -- intros g G. apply R. right. exact G.
        -- intros j J. apply N. lia.
        -- intros y [<-|[<-|Y]].
           ++ split; [apply N; lia|]. intros j J. split; intros E; apply iname_inj in E; first [discriminate E|injection E as E; lia].
           ++ split; [apply N; lia|]. intros j J. split; intros E; apply iname_inj in E; first [discriminate E|injection E as E; lia].
           ++ destruct (M y Y) as [Y1 Y2]. split; [exact Y1|]. intros j J. apply Y2. lia.
      * intros y [<-|Y]; right; (split; [cbn; auto|]); [intros E; apply iname_inj in E; discriminate E|]. apply (proj2 (M y Y) k (le_n _)).
    + intros y Y. right. split; [right; exact Y|]. apply (proj2 (M y Y) k (le_n _)).
Qed.

Lemma static_ok : forall q l k here rest n, held here -> declared v_q here -> declared v_params here -> rooted [v_q] l ->
  ok [] here rest n -> ok [] here (flat_map (go_first q) (set_static k l) ++ rest) n.
Proof.
  intros q. induction l as [|a l IH]; intros k here rest n H DQ DP R O; [exact O|]. cbn [set_static flat_map go_first app].
  eapply ok_eval; [rewrite app_nil_r; exact H|cl| |apply IH; [exact H|exact DQ|exact DP|intros g G; apply R; right; exact G|exact O]|auto].
  rewrite app_nil_r. apply within_both; [wm|]. apply within_both; [intros x []|]. intros x X. destruct (R a (or_introl eq_refl) x X) as [<-|[]]. exact DQ.
Qed.

Lemma fors_ok : forall q l k here rest n m, held here -> declared v_q here -> declared v_params here -> rooted [v_q] l ->
  (forall j, k <= j < k + List.length l -> declared (iname (VLen j)) here /\ declared (iname (VPosK j)) here) ->
  ok [] here rest n -> (forall y, In y m -> In y n \/ exists j, k <= j < k + List.length l /\ (y = iname (VLen j) \/ y = iname (VPosK j))) ->
  ok [] here (flat_map (go_first q) (set_slices k l) ++ rest) m.
Proof.
  intros q. induction l as [|a l IH]; intros k here rest n m H DQ DP R D O M.
  - cbn [set_slices flat_map app]. eapply ok_weak; [exact O|]. intros y Y. destruct (M y Y) as [A|(j & J & _)]; [exact A|cbn [List.length] in J; lia].
  - cbn [set_slices flat_map go_first app List.length] in *. destruct (D k ltac:(lia)) as [DL DK].
    assert (HI : held ((v_i, true) :: here)) by (apply held_cons; [left; cbn; tauto|exact H]).
    assert (NI : forall x, x = VLen k \/ x = VPosK k -> iname x <> v_i) by (intros x [->| ->] E; change v_i with (iname VI) in E; apply iname_inj in E; discriminate E).
    eapply ok_block with (n' := [iname (VLen k); iname (VPosK k)]) (n := filter (fun y => negb (existsb (bytes_eqb y) [iname (VLen k); iname (VPosK k)])) m).
    + eapply ok_short with (ys := [v_i]) (n := [v_i; iname (VLen k); iname (VPosK k)]); [cbn [app]; rewrite app_nil_r; exact H|cl|intros x []|apply f_new; [ne|apply dec_nil|auto|constructor]|discriminate| |cbn; tauto|].
      * eapply ok_eval with (n := [iname (VPosK k)]); [cbn [map app]; rewrite app_nil_r; exact HI|cl| | |].
        -- cbn [map app]. rewrite app_nil_r. apply within_m. intros x [<-|[<-|[]]]; dcl.
        -- eapply ok_block with (n := []); [|apply ok_nil|intros y Y; left; exact Y]. cbn [map app]. rewrite app_nil_r.
           eapply ok_eval with (n := []); [exact HI|cl| |apply ok_nil|].
           ++ cbn [inames gnames]. apply within_both; [wm|]. apply within_both; [apply within_both; wm|]. apply within_both; [|wm].
              intros x X. destruct (R a (or_introl eq_refl) x X) as [<-|[]]. apply dec_cons. auto.
           ++ intros y [<-|[]]. left. cbn. auto 10.
        -- intros y [<-|[<-|[<-|[]]]]; cbn; auto.
      * intros y [<-|[<-|[]]]; right; (split; [cbn; auto|]); intros [E|[]]; symmetry in E; revert E; apply NI; auto.
    + apply (IH (S k) here rest n); auto.
      * intros g G. apply R. right. exact G.
      * intros j J. apply D. lia.
      * intros y Y. apply (in_without [iname (VLen k); iname (VPosK k)] m y) in Y. destruct Y as [Y1 Y2]. destruct (M y Y1) as [A|(j & J & E)]; [auto|]. right. exists j. split; [|exact E].
        destruct (Nat.eq_dec j k) as [->|NE]; [exfalso; apply Y2; cbn; destruct E; auto|lia].
    + intros y Y. destruct (in_dec (list_eq_dec Ascii.ascii_dec) y [iname (VLen k); iname (VPosK k)]) as [I|I]; [left; exact I|right].
      apply (in_without [iname (VLen k); iname (VPosK k)] m y). split; assumption.
Qed.

Lemma size_names : forall l e k x, In x (locals (inames (slice_size e k l))) -> In x (locals (inames e)) \/ exists j, k <= j < k + List.length l /\ x = iname (VLen j).
Proof.
  induction l as [|a l IH]; intros e k x X; [auto|]. cbn [slice_size List.length] in *. apply IH in X. destruct X as [X|(j & J & E)]; [|right; exists j; split; [lia|exact E]].
  cbn [inames both locals] in X. apply in_app_iff in X. destruct X as [X|[<-|[]]]; [auto|]. right. exists k. split; [lia|reflexivity].
Qed.

Lemma size_uses : forall l e k x, In x (locals (inames e)) -> In x (locals (inames (slice_size e k l))).
Proof. induction l as [|a l IH]; intros e k x X; [exact X|]. cbn [slice_size]. apply IH. cbn [inames both locals]. apply in_app_iff. auto. Qed.

Lemma slices_ok : forall imp wc q t s0 main num a l, start wc s0 -> settled q t -> plain_types imp q t -> checked q t -> IsInsertOrUpdateSlice q = false ->
  (forall k, In k (stmt_lists main) -> 1 <= k <= List.length (a :: l)) -> rooted [v_q] (a :: l) ->
  ok [] s0 (flat_map (go_first q) (slice_args num (inputArgs q t) (a :: l) (GDecl false main)) ++ after_text imp wc q t (inputArgs q t) (a :: l)) [].
Proof.
  intros imp wc q t s0 main num a l S0 ST P C I L R. set (sl := a :: l) in *. unfold slice_args.
  change (flat_map (go_first q) (GInt VNstatic (IConst num) :: ?x)) with (Var (iname VNstatic) (mention []) :: flat_map (go_first q) x).
  rewrite !flat_map_app. cbn [flat_map]. rewrite !flat_map_app. cbn [app]. rewrite <- ?app_assoc. cbn [go_first app]. rewrite <- ?app_assoc.
  set (s1 := (iname VNstatic, true) :: s0). set (s2 := vscope 1 sl s1). set (s3 := (v_text, true) :: s2). set (s4 := (v_params, true) :: s3).
  assert (H1 : held s1) by (apply held_cons; [apply res_iname|apply S0]).
  assert (H2 : held s2). { intros x D. apply vscope_dec in D. destruct D as [D|(j & J & [->| ->])]; [apply H1; exact D|apply res_iname|apply res_iname]. }
  assert (H3 : held s3) by (apply held_cons; [left; cbn; tauto|exact H2]).
  assert (H4 : held s4) by (apply held_cons; [left; cbn; tauto|exact H3]).
  assert (D12 : forall x, declared x s1 -> declared x s2) by (intros; apply vscope_dec; auto).
  assert (DL : forall j, 1 <= j <= List.length sl -> declared (iname (VLen j)) s2 /\ declared (iname (VPosK j)) s2).
  { intros j J. split; apply vscope_dec; right; exists j; (split; [lia|auto]). }
  assert (UP : forall x, declared x s0 -> declared x s4) by (intros x D; do 2 (apply dec_cons; right); apply D12; apply dec_cons; auto).
  assert (NO : forall x, ~ In x [v_q; v_c; v_ctx; iname VNstatic] -> (forall j, x <> iname (VLen j) /\ x <> iname (VPosK j)) -> ~ declared x s2).
  { intros x N J D. apply vscope_dec in D. destruct D as [D|(j & _ & E)]; [|destruct (J j); destruct E; auto]. apply dec_cons in D.
    destruct D as [->|D]; [apply N; cbn; auto|]. apply (st_only _ _ S0) in D. apply N. cbn in D |- *. tauto. }
  assert (FX : forall x, In x (v_text :: v_params :: late) -> ~ declared x s2).
  { intros x X. apply NO; [cbn [late In] in X; repeat (destruct X as [<-|X]; [notin|]); destruct X|]. intros j. cbn [late In] in X.
    repeat (destruct X as [<-|X]; [split; intros E; cbn in E; discriminate E|]). destruct X. }
  assert (CA : call_args q (inputArgs q t) sl = AParams) by reflexivity.
  pose (vars := flat_map (fun j => [iname (VLen j); iname (VPosK j)]) (seq 1 (List.length sl))).
  assert (INV : forall j, 1 <= j < 1 + List.length sl -> In (iname (VLen j)) vars /\ In (iname (VPosK j)) vars).
  { intros j J. split; apply in_flat_map; exists j; (split; [apply in_seq; lia|cbn; auto]). }
  assert (VIN : forall y, In y vars -> exists j, 1 <= j < 1 + List.length sl /\ (y = iname (VLen j) \/ y = iname (VPosK j))).
  { intros y Y. apply in_flat_map in Y. destruct Y as (j & J & Y). apply in_seq in J. exists j. split; [exact J|]. destruct Y as [<-|[<-|[]]]; auto. }
  eapply ok_var with (n := [iname VNstatic]); [rewrite app_nil_r; apply S0|cl|intros x []|eapply start_not; [exact S0|notin]| |left; reflexivity|intros y []].
  fold s1. apply (vars_ok q sl 1 s1 _ (iname VNstatic :: vars)); auto.
  - apply dec_cons. right. apply S0.
  - apply dec_cons. auto.
  - intros K. lia.
  - intros j J. split; intros D; (apply dec_cons in D; destruct D as [D|D]; [apply iname_inj in D; discriminate D|]);
      apply (st_only _ _ S0) in D; cbn in D; repeat (destruct D as [D|D]; [discriminate D|]); exact D.
  - fold s2. eapply ok_var with (n := v_text :: iname VNstatic :: vars); [rewrite app_nil_r; exact H2|cl| |apply FX; cbn; auto| |left; reflexivity|].
    + intros x X. rewrite app_nil_r. unfold node_names in X. apply in_all in X. destruct X as (e & E & X). apply in_map_iff in E. destruct E as (k & <- & K). destruct (DL k (L k K)). cbn in X. destruct X as [<-|[<-|[]]]; assumption.
    + fold s3. eapply ok_short with (ys := [v_params]) (n := v_params :: v_text :: vars);
        [rewrite app_nil_r; exact H3|apply clean_both; [out1|apply clean_i]| | |discriminate| |intros y [<-|[]]; cbn; auto|].
      * rewrite app_nil_r. apply within_both; [apply within_out|]. intros x X. apply size_names in X. destruct X as [[<-|[]]|(j & J & ->)]; apply dec_cons; right; [apply D12; apply dec_cons; auto|apply DL; lia].
      * apply f_new; [ne| |auto|constructor]. intros D. apply dec_cons in D. destruct D as [D|D]; [revert D; ne|]. revert D. apply FX. cbn. auto.
      * cbn [map app]. fold s4. apply static_ok; auto; [apply UP, S0|unfold s4; dcl|apply args_q; assumption|].
        apply (fors_ok q sl 1 s4 _ (v_params :: [v_text])); auto; [apply UP, S0|unfold s4; dcl| | |].
        -- intros j J. split; do 2 (apply dec_cons; right); apply DL; lia.
        -- eapply ok_weak; [apply after_ok; auto|].
           ++ apply UP, S0.
           ++ apply UP, S0.
           ++ unfold s4, s3. dcl.
           ++ intros W. apply UP, S0, W.
           ++ intros x X D. do 2 (apply dec_cons in D; destruct D as [->|D]; [revert X; notin|]). revert D. apply FX. cbn [late In] in X |- *. tauto.
           ++ intros _. apply m_here.
           ++ rewrite CA. apply within_m. intros x [<-|[]]. unfold s4. dcl.
           ++ intros _. apply args_q; assumption.
           ++ rewrite CA. cbn. intros y [<-|[<-|[]]]; cbn; auto.
        -- intros y [<-|[<-|Y]]; [left; cbn; auto|left; cbn; auto|right]. apply VIN. exact Y.
      * intros y [<-|[<-|Y]].
        -- right. split; [cbn; auto|notin].
        -- left. cbn [both outside locals app]. apply size_uses. left. reflexivity.
        -- right. split; [cbn; auto|]. destruct (VIN y Y) as (j & _ & [->| ->]); intros [E|[]]; cbn in E; discriminate E.
    + intros y [<-|Y]; right; (split; [cbn; auto|]); [ne|]. destruct (VIN y Y) as (j & _ & [->| ->]); intros E; cbn in E; discriminate E.
  - intros j J. destruct (INV j J). split; right; assumption.
  - intros y [<-|[]]. split; [left; reflexivity|]. intros j J. split; intros E; apply iname_inj in E; discriminate E.
Qed.

Definition plain_vals (vals : list (sexpr Z)) : Prop := Forall (fun v => v = XDefault) vals.

Lemma row_names : forall vals sep k x, In x (locals (all_of (map snames (row_cells sep k vals)))) -> x = iname VPos /\ ~ plain_vals vals.
Proof.
  induction vals as [|v vals IH]; intros sep k x X; [destruct X|]. cbn [row_cells] in X. apply in_ss in X. destruct X as (g & G & X). apply in_app_iff in G. destruct G as [G|G].
  - assert (V : x = iname VPos /\ v <> XDefault).
    { destruct v as [|p|id|l|[|p|id|l|e t|e l|e1 e2|f e|qq e] ty|e l|e1 e2|f e|qq e]; cbn in G; repeat (destruct G as [<-|G]; [cbn in X; first [destruct X; fail|destruct X as [<-|[]]; (split; [reflexivity|discriminate])]|]); destruct G. }
    destruct V as [V N]. split; [exact V|]. intros P. inversion_clear P. auto.
  - destruct (IH _ _ x (proj2 (in_ss _ _) (ex_intro _ g (conj G X)))) as [A B]. split; [exact A|]. intros P. inversion_clear P. auto.
Qed.

Lemma text_names : forall vals x, In x (locals (all_of (map snames (row_text vals)))) -> x = iname VPos /\ ~ plain_vals vals.
Proof.
  intros vals x X. apply in_ss in X. destruct X as (g & G & X). unfold row_text in G. apply in_app_iff in G. destruct G as [G|[<-|[]]]; [|destruct X].
  eapply row_names. apply in_ss. exists g. split; [exact G|exact X].
Qed.

(** Nothing to pass: the rows are all defaults. *)
Lemma vals_plain : forall q t s, inputArgs q t = [] -> (IsUpdateSlice q = true -> IsUpdateWithPKeys q = true) ->
  let '(vals, pvals, _) := input_target_values q t s in plain_vals (vals ++ pvals).
Proof.
  intros q t s A U. unfold inputArgs in A. apply app_eq_nil in A. destruct A as [AW A]. apply app_eq_nil in A. destruct A as [_ A]. apply app_eq_nil in A. destruct A as [AP _].
  unfold input_target_values. destruct (ti_writes t) as [|w0 ws0] eqn:W; [constructor|].
  assert (V : forall l s, filter (fun w => negb (canUseDefault q (fw_field w))) l = [] -> plain_vals (fst (input_vals q l s))).
  { induction l as [|w l IH]; intros s0 F; [constructor|]. cbn [input_vals filter] in *. destruct (canUseDefault q (fw_field w)) eqn:D; [|discriminate F].
    unfold input_val. rewrite D. specialize (IH s0 F). destruct (input_vals q l s0). constructor; [reflexivity|exact IH]. }
  unfold write_args in AW. apply map_eq_nil in AW. rewrite W in AW. specialize (V (w0 :: ws0) s AW). destruct (input_vals q (w0 :: ws0) s) as [vs s1].
  destruct (IsUpdateSlice q) eqn:US; [|rewrite app_nil_r; exact V]. unfold pkey_args in AP. rewrite (U eq_refl) in AP. apply map_eq_nil in AP. rewrite AP. cbn [pkey_vals]. rewrite app_nil_r. exact V.
Qed.

Lemma sets_ok : forall q l k above here rest n, held (here ++ above) -> declared v_v (here ++ above) -> declared v_params (here ++ above) -> declared (iname VPos) (here ++ above) ->
  (forall g, In g l -> locals (gnames g) = [v_v]) -> ok above here rest n ->
  ok above here (flat_map (go_first q) (set_args k l) ++ rest) (match l with [] => n | _ => v_params :: iname VPos :: v_v :: n end).
Proof.
  intros q. induction l as [|a l IH]; intros k above here rest n H DV DP DO R O; [exact O|]. cbn [set_args flat_map go_first app].
  eapply ok_eval; [exact H|cl| |apply IH; [exact H|exact DV|exact DP|exact DO|intros g G; apply R; right; exact G|exact O]|].
  - apply within_both; [wm|]. apply within_both; [cbn [inames]; apply within_both; [wm|intros x []]|]. intros x X. rewrite (R a (or_introl eq_refl)) in X. destruct X as [<-|[]]. exact DV.
  - intros y [<-|[<-|[<-|Y]]].
    + left. cbn. auto.
    + left. cbn. auto.
    + left. cbn [both locals mention app]. right. apply in_app_iff. right. rewrite (R a (or_introl eq_refl)). left. reflexivity.
    + right. destruct l; [exact Y|right; right; right; exact Y].
Qed.

Lemma rows_text_ok : forall imp wc q t s0 main tail vals, start wc s0 -> settled q t -> plain_types imp q t -> IsInsertOrUpdateSlice q = true ->
  q_filter q = None -> stmt_lists main = [] -> (forall n, tail = Some n -> stmt_lists n = []) ->
  (forall g, In g (inputArgs q t) -> locals (gnames g) = [v_v]) -> (inputArgs q t = [] -> plain_vals vals) ->
  ok [] s0 (flat_map (go_first q) (slice_rows q (inputArgs q t) vals (GDecl false main) tail) ++ after_text imp wc q t (inputArgs q t) []) [].
Proof.
  intros imp wc q t s0 main tail vals S0 ST P I F L T AV PV. set (args := inputArgs q t) in *. unfold slice_rows. cbv zeta.
  set (s1 := (v_text, true) :: s0).
  assert (H1 : held s1) by (apply held_cons; [left; cbn; tauto|apply S0]).
  assert (NF : forall x, ~ In x [v_text; v_q; v_c; v_ctx] -> ~ declared x s1).
  { intros x N D. apply dec_cons in D. destruct D as [->|D]; [apply N; cbn; auto|]. apply (st_only _ _ S0) in D. apply N. cbn in D |- *. tauto. }
  assert (CA : call_args q args [] = match args with [] => AList [] | _ => AParams end).
  { unfold call_args. rewrite F, I. destruct args; reflexivity. }
  (* from the end of the loop on *)
  assert (END : forall s, held s -> means v_text true s -> (forall x, declared x s0 -> declared x s) -> (forall x, In x late -> ~ declared x s) ->
    (args <> [] -> declared v_params s) ->
    ok [] s (flat_map (go_first q) ([GChop] ++ match tail with Some n => [GAppend [SText (B " "); SNode n]] | None => [] end) ++ after_text imp wc q t args [])
      (v_text :: match args with [] => [] | _ => [v_params] end)).
  { intros s H M UP LT DP. assert (AO : ok [] s (after_text imp wc q t args []) (v_text :: match args with [] => [] | _ => [v_params] end)).
    { eapply ok_weak; [apply after_ok; auto|].
      - apply UP, S0.
      - apply UP, S0.
      - eapply means_dec; exact M.
      - intros W. apply UP, S0, W.
      - congruence.
      - rewrite CA. destruct args; [intros x []|]. apply within_m. intros x [<-|[]]. apply DP. discriminate.
      - rewrite F. discriminate.
      - rewrite CA. destruct args; apply incl_refl. }
    cbn [app flat_map go_first]. eapply ok_assign; [rewrite app_nil_r; exact H|cl|apply within_both; [apply within_out|rewrite app_nil_r; apply within_m; intros x [<-|[]]; eapply means_dec; exact M]|rewrite app_nil_r; exact M| |intros y Y; right; exact Y].
    destruct tail as [n|]; [|exact AO]. cbn [flat_map go_first app].
    eapply ok_assign; [rewrite app_nil_r; exact H|apply clean_ss| |rewrite app_nil_r; exact M|exact AO|auto].
    intros x X. apply (proj1 (in_ss [SText (B " "); SNode n] x)) in X. destruct X as (g & [<-|[<-|[]]] & X); [destruct X|]. cbn [snames] in X. rewrite (node_plain _ (T n eq_refl)) in X. destruct X. }
  change (flat_map (go_first q) (GDecl false main :: ?x)) with (Var v_text (node_names main) :: flat_map (go_first q) x). rewrite (node_plain _ L). cbn [app].
  eapply ok_var with (n := [v_text]); [rewrite app_nil_r; apply S0|cl|intros x []|eapply start_not; [exact S0|notin]| |left; reflexivity|intros y []]. fold s1.
  assert (M1 : means v_text true s1) by apply m_here.
  destruct args as [|a args'] eqn:EA.
  - rewrite flat_map_app, <- app_assoc. cbn [flat_map go_first app].
    eapply ok_block with (n' := []); [|apply END; auto|intros y [<-|[]]; right; left; reflexivity].
    + cbn [app]. rewrite app_nil_r. eapply ok_eval with (n := []); [exact H1|cl|intros x [<-|[]]; apply dec_cons; right; apply S0| |intros y []].
      eapply ok_block with (n := []) (n' := []); [|apply ok_nil|intros y []].
      eapply ok_assign with (n := []); [exact H1|apply clean_ss| |exact M1|apply ok_nil|intros y []].
      intros x X. apply (text_names vals x) in X. destruct X as [_ N]. exfalso. apply N. auto.
    + intros x D. apply dec_cons. auto.
    + intros x X. apply NF. cbn in X. repeat (destruct X as [<-|X]; [notin|]). destruct X.
    + congruence.
  - rewrite flat_map_app, <- app_assoc. cbn [flat_map]. cbn [go_first app].
    change (flat_map (go_first q) (GInt VPos ?e :: ?x)) with (Short [iname VPos] (inames e) :: flat_map (go_first q) x). cbn [inames].
    set (s2 := (v_params, true) :: s1).
    assert (H2 : held s2) by (apply held_cons; [left; cbn; tauto|exact H1]).
    eapply ok_short with (ys := [v_params]) (n := v_params :: [v_text]); [rewrite app_nil_r; exact H1|cl| |apply f_new; [ne|apply NF; notin|auto|constructor]|discriminate| |intros y [<-|[]]; left; reflexivity|].
    + rewrite app_nil_r. cbn [inames both locals outside mention gnames app]. intros x X. cbn in X. destruct X as [<-|[]]. apply dec_cons. right. apply S0.
    + cbn [map app]. fold s2.
      assert (M2 : means v_text true s2) by (apply m_there; [ne|exact M1]).
      eapply ok_block with (n' := []) (n := v_params :: [v_text]); [| |intros y Y; right; exact Y].
      * cbn [app]. rewrite app_nil_r. set (s3 := (v_i, true) :: (v_v, true) :: s2).
        assert (H3 : held s3) by (do 2 (apply held_cons; [left; cbn; tauto|]); exact H2).
        eapply ok_short with (ys := [v_i; v_v]) (n := [v_i; v_v]); [exact H2|cl|intros x [<-|[]]; do 2 (apply dec_cons; right); apply S0| |discriminate| |auto|intros y []].
        -- apply f_new; [ne|apply dec_nil|notin|]. apply f_new; [ne|apply dec_nil|auto|constructor].
        -- eapply ok_block with (n := []); [|apply ok_nil|intros y Y; left; exact Y]. cbn [map app]. fold s3.
           assert (H4 : held ([(iname VPos, true)] ++ s3)) by (apply held_cons; [apply res_iname|exact H3]).
           rewrite flat_map_app. eapply ok_short with (ys := [iname VPos]) (n := v_params :: iname VPos :: v_v :: []); [exact H3|cl|apply within_both; [apply within_m; intros x [<-|[]]; unfold s3; dcl|intros x []]|apply f_new; [ne|apply dec_nil|auto|constructor]|discriminate| |intros y [<-|[]]; cbn; auto|].
           ++ cbn [map app]. assert (SA := sets_ok q (a :: args') 0 s3 [(iname VPos, true)]). cbn [flat_map]. apply SA; [exact H4|unfold s3; cbn [app]; dcl|unfold s3, s2; cbn [app]; dcl|cbn [app]; dcl|exact AV|].
              eapply ok_assign with (n := []); [exact H4|apply clean_ss| |cbn [app]; do 3 (apply m_there; [ne|]); exact M2|apply ok_nil|intros y []].
              intros x X. apply (text_names vals x) in X. destruct X as [-> _]. cbn [app]. dcl.
           ++ intros y [<-|[<-|[]]]; [left; cbn; auto|]. right. split; [cbn; auto|notin].
      * eapply ok_weak; [apply END; auto|].
        -- intros x D. do 2 (apply dec_cons; right). exact D.
        -- intros x X D. apply dec_cons in D. destruct D as [->|D]; [revert X; notin|]. revert D. apply NF. cbn in X. repeat (destruct X as [<-|X]; [notin|]). destruct X.
        -- intros _. unfold s2. dcl.
        -- intros y; cbn; tauto.
    + intros y [<-|[]]. right. split; [cbn; auto|notin].
Qed.

Lemma settled_of : forall q t, decent q ->
  (IsWithoutOutput q = false -> IsSingleOutput q = false -> ti_reads t <> [] /\ rt_array (out_type q) = false) -> settled q t.
Proof.
  intros q t D R. constructor.
  - intros W S. unfold IsSingleOutput in S. unfold out_type. destruct (q_result q) as [r|] eqn:QR.
    + destruct (d_res _ D r QR) as (A & B0 & _). rewrite A, B0 in S. cbn in S. rewrite orb_false_r in S. exact S.
    + rewrite orb_false_r in S. apply orb_true_iff in S. destruct S as [S|S]; apply andb_true_iff in S; apply S.
  - intros W S. destruct (R W S) as [R1 R2]. split; [|split; [|split; [exact R1|]]].
    + destruct (IsSelectCountOrExists q) eqn:C; [|reflexivity]. pose proof (d_cnt _ D C) as Z. unfold IsSelectCountOrExists in C. apply andb_true_iff in C. destruct C as [C _].
      unfold IsSingleOutput in S. rewrite C, Z in S. discriminate S.
    + unfold out_type, canSkipRelInit. destruct (q_result q) as [r|] eqn:QR.
      * intros I. split; [apply andb_false_r|]. apply (d_res _ D r QR). exact I.
      * intros I. destruct (d_rel _ D I) as [-> ?]. split; [reflexivity|assumption].
    + assert (NS : rt_single (out_type q) = false).
      { unfold IsSingleOutput in S. unfold out_type. apply orb_false_iff in S. destruct S as [S S3]. apply orb_false_iff in S. destruct S as [S1 S2].
        destruct (q_result q) as [r|] eqn:QR; [exact S2|]. unfold IsWithoutOutput in W. rewrite QR in W. cbn in W.
        destruct (isSelect (q_kind q)); [exact S1|]. destruct (q_return q); [exact S3|discriminate W]. }
      unfold rt_single in NS. rewrite R2 in NS. destruct (rt_slice (out_type q)); [auto|]. destruct (rt_iter (out_type q)); [auto|discriminate NS].
Qed.

(** The rows of a slice are joined to no list. *)
Definition rows_listless (q : qstate) (t : tinfo) : Prop := IsInsertOrUpdateSlice q = true -> Forall lists_free (ti_joins t).

Lemma body_ok : forall imp wc q t s0, start wc s0 -> decent q -> settled q t -> plain_types imp q t -> checked q t -> rows_listless q t ->
  ok [] s0 (method_body imp wc q t) [].
Proof.
  intros imp wc q t s0 S0 D ST P C RL. unfold method_body, buildQueryCode.
  pose proof (target_same q t g_init) as TS. pose proof (vals_plain q t g_init) as VP. destruct (input_target_values q t g_init) as [[vals pvals] s1]. cbn [snd] in TS.
  pose proof (query_lists q t vals s1 TS) as QL. pose proof (no_slices q t vals s1) as NS.
  destruct (querySQL q t vals s1) as [[main tail] s2]. destruct QL as [RQ [LM LT]]. cbn [snd] in NS. cbv zeta.
  rewrite flat_map_app, <- app_assoc.
  match goal with |- ok [] s0 (?a ++ ?b) [] => change b with (after_text imp wc q t (inputArgs q t) (g_slices s2)) end.
  assert (NIL : forall n : gsql, (forall k, In k (stmt_lists n) -> 1 <= k <= List.length (@nil gexpr)) -> stmt_lists n = []) by (intros; apply listed_nil; auto).
  destruct (IsInsertOrUpdateSlice q) eqn:IS.
  - destruct (d_where _ D IS) as (DW & DF & DA). specialize (NS DW C (RL IS) TS). rewrite NS in *.
    rewrite DF. cbn [is_some negb andb].
    assert (SEL : isSelect (q_kind q) = false). { unfold IsInsertOrUpdateSlice, IsInsertOrUpdate in IS. destruct (q_kind q); try discriminate IS; reflexivity. }
    destruct C as (_ & CL & _). destruct (CL SEL) as [L1 L2].
    refine (rows_text_ok imp wc q t s0 main tail (vals ++ pvals) S0 ST P IS DF _ _ _ _).
    + apply NIL. exact LM.
    + intros n N. apply NIL. apply (LT n N).
    + apply (args_v q t IS DW L1 L2).
    + intros A. apply VP; [exact A|]. intros U. unfold IsUpdateWithPKeys, HasNoQualifier. unfold IsUpdateSlice in U. apply andb_true_iff in U. destruct U as [-> _]. rewrite DW, DF, DA. reflexivity.
  - destruct (g_slices s2) as [|a l] eqn:GS.
    + destruct (q_filter q) as [f|] eqn:F.
      * cbn [is_some negb andb]. pose proof (filter_ok imp wc q t s0 main tail f S0 ST P C IS F) as FO. apply FO; [apply NIL; exact LM|intros n N; apply NIL; apply (LT n N)].
      * cbn [is_some negb andb]. apply (const_ok imp wc q t s0 main S0 ST P C IS F). apply NIL. exact LM.
    + rewrite andb_false_r. cbn [andb]. exact (slices_ok imp wc q t s0 main (g_num s2) a l S0 ST P C IS LM RQ).
Qed.

Definition ends (l : list rstmt) : Prop := exists l' s, l = l' ++ [s] /\ forall imp q t, exists e, go_second imp q t s = [Return e].

Lemma ends_app : forall a b, ends b -> ends (a ++ b).
Proof. intros a b (l & s & -> & E). exists (a ++ l), s. rewrite app_assoc. auto. Qed.

Lemma ends_one : forall s, (forall imp q t, exists e, go_second imp q t s = [Return e]) -> ends [s].
Proof. intros s E. exists [], s. auto. Qed.

Lemma ends_none : ends [RReturn None].
Proof. apply ends_one. intros. eexists. reflexivity. Qed.

Lemma ends_err : forall q e, ends (makeErrorReturnStmt q e).
Proof.
  intros q e. unfold makeErrorReturnStmt. destruct (q_errh q) as [h|]; [|apply ends_one; intros; eexists; reflexivity].
  destruct (eh_info h); [|apply ends_one; intros; eexists; reflexivity]. destruct e; try (apply ends_one; intros; eexists; reflexivity).
  - apply (ends_app [_]). apply ends_none.
  - apply (ends_app [_]). apply ends_none.
Qed.

Lemma ends_result : forall q t, ends (result_stmts q t).
Proof.
  intros q t. unfold result_stmts. destruct (IsWithoutOutput q).
  - apply (ends_app [RCall]). destruct (q_rows q) as [r|]; [|apply ends_err]. apply (ends_app [_; _; _; _]). apply ends_none.
  - destruct (IsSingleOutput q).
    + apply (ends_app [RCall]). unfold buildQueryResultRowScan. apply ends_app. destruct (_ && _); [apply ends_err|]. apply ends_app. apply ends_app. apply ends_none.
    + apply ends_app. unfold buildQueryResultRowsScan. do 2 apply ends_app. apply ends_err.
Qed.

(** Rows that are scanned have columns, and go to a slice or an iterator. *)
Definition rows_have_columns (q : qstate) (t : tinfo) : Prop :=
  IsWithoutOutput q = false -> IsSingleOutput q = false -> ti_reads t <> [] /\ rt_array (out_type q) = false.

Lemma C93_scope_proof : forall e name fs db q t imp wc, analyzeQueryStruct e name fs = AOk q -> check_query db q = COk t ->
  plain_types imp q t -> rows_have_columns q t -> rows_listless q t ->
  good_body (method_params wc) (method_body imp wc q t).
Proof.
  intros e name fs db q t imp wc A C P R L. split.
  - destruct (body_ok imp wc q t _ (start_params wc) (decent_query _ _ _ _ A) (settled_of q t (decent_query _ _ _ _ A) R) P (accepted_checked _ _ _ _ _ _ A C) L) as (u & U & _).
    exists u. exact U.
  - destruct (ends_result q t) as (l & s & E & G). destruct (G imp q t) as (x & X). unfold method_body. rewrite E, flat_map_app. cbn [flat_map]. rewrite X. cbn [app].
    exists (flat_map (go_first q) (buildQueryCode wc q t) ++ flat_map (go_second imp q t) l), x. rewrite app_assoc. reflexivity.
Qed.

Definition is_declared (x : text) (s : scope) : bool := existsb (fun p => bytes_eqb x (fst p)) s.

Fixpoint meaning (x : text) (s : scope) : option bool :=
  match s with [] => None | (y, b) :: s => if bytes_eqb x y then Some b else meaning x s end.

Lemma is_declared_iff : forall x s, is_declared x s = true <-> declared x s.
Proof.
  intros x s. unfold is_declared. rewrite existsb_exists. split.
  - intros ([y b] & I & E). apply bytes_eqb_eq in E. cbn in E. subst. exists b. exact I.
  - intros (b & I). exists (x, b). split; [exact I|]. apply bytes_eqb_eq. reflexivity.
Qed.

Lemma meaning_means : forall x b s, means x b s -> meaning x s = Some b.
Proof. intros x b s M. induction M; cbn [meaning]; [rewrite (proj2 (bytes_eqb_eq x x) eq_refl); reflexivity|]. destruct (bytes_eqb x y) eqn:E; [apply bytes_eqb_eq in E; contradiction|exact IHM]. Qed.

Definition legal_b (s : scope) (e : ex) : bool := forallb (fun x => is_declared x s) (locals e) && forallb (fun x => negb (is_declared x s)) (outers e).

Lemma legal_b_ok : forall s e, legal_ex s e -> legal_b s e = true.
Proof.
  intros s e [L O]. apply andb_true_iff. split; apply forallb_forall; intros x X.
  - apply is_declared_iff. auto.
  - apply negb_true_iff, not_true_iff_false. intros D. apply is_declared_iff in D. exact (O x X D).
Qed.

Fixpoint new_of (s : scope) (xs : list text) : list text :=
  match xs with [] => [] | x :: xs => if bytes_eqb x blank || is_declared x s then new_of s xs else x :: new_of s xs end.

Lemma new_of_ok : forall s xs ys, fresh s xs ys -> new_of s xs = ys.
Proof.
  intros s xs ys F. induction F; cbn [new_of]; auto.
  - apply meaning_means in H0. assert (D : is_declared x s = true).
    { apply is_declared_iff. clear -H0. induction s as [|[y b] s IH]; [discriminate H0|]. cbn [meaning] in H0. apply dec_cons. destruct (bytes_eqb x y) eqn:E; [apply bytes_eqb_eq in E; auto|right; auto]. }
    rewrite D, orb_true_r. exact IHF.
  - destruct (bytes_eqb x blank) eqn:E; [apply bytes_eqb_eq in E; contradiction|]. destruct (is_declared x s) eqn:D; [apply is_declared_iff in D; contradiction|]. cbn [orb]. rewrite IHF. reflexivity.
Qed.

Fixpoint uses (above here : scope) (s : go) : option (scope * (list text -> option (list text))) :=
  let block := fix block (above here : scope) (l : list go) : option (list text) :=
    match l with
    | [] => Some []
    | s :: l => match uses above here s with
                | Some (here, k) => match block above here l with Some u => k u | None => None end
                | None => None
                end
    end in
  match s with
  | Const x e => if legal_b (here ++ above) e && negb (is_declared x here) then Some ((x, false) :: here, fun u => Some (locals e ++ without [x] u)) else None
  | Var x e => if legal_b (here ++ above) e && negb (is_declared x here)
               then Some ((x, true) :: here, fun u => if existsb (bytes_eqb x) u then Some (locals e ++ without [x] u) else None) else None
  | Short xs e => let ys := new_of here xs in
               if legal_b (here ++ above) e && negb (match ys with [] => true | _ => false end)
               then Some (map (fun y => (y, true)) ys ++ here, fun u => if forallb (fun y => existsb (bytes_eqb y) u) ys then Some (locals e ++ without ys u) else None) else None
  | Assign x e => if legal_b (here ++ above) e && match meaning x (here ++ above) with Some true => true | _ => false end then Some (here, fun u => Some (locals e ++ u)) else None
  | Eval e | Return e => if legal_b (here ++ above) e then Some (here, fun u => Some (locals e ++ u)) else None
  | Block b => match block (here ++ above) [] b with Some u => Some (here, fun u' => Some (u ++ u')) | None => None end
  end.

Definition all_uses : scope -> scope -> list go -> option (list text) :=
  fix block (above here : scope) (l : list go) : option (list text) :=
    match l with
    | [] => Some []
    | s :: l => match uses above here s with
                | Some (here, k) => match block above here l with Some u => k u | None => None end
                | None => None
                end
    end.

Lemma in_existsb : forall (x : text) u, In x u -> existsb (bytes_eqb x) u = true.
Proof. intros x u I. apply existsb_exists. exists x. split; [exact I|]. apply bytes_eqb_eq. reflexivity. Qed.

Lemma undeclared_b : forall x s, ~ declared x s -> is_declared x s = false.
Proof. intros x s N. apply not_true_iff_false. intros D. apply N. apply is_declared_iff. exact D. Qed.

Lemma all_uses_ok : forall above here l u, scoped above here l u -> all_uses above here l = Some u.
Proof.
  intros above here l u H. induction H; cbn [all_uses]; fold all_uses; auto.
  - cbn [uses]. rewrite (legal_b_ok _ _ H), (undeclared_b _ _ H0). cbn [andb negb]. rewrite IHscoped. reflexivity.
  - cbn [uses]. rewrite (legal_b_ok _ _ H), (undeclared_b _ _ H0). cbn [andb negb]. rewrite IHscoped, (in_existsb _ _ H2). reflexivity.
  - cbn [uses]. rewrite (new_of_ok _ _ _ H0), (legal_b_ok _ _ H). cbn [andb]. destruct ys as [|y ys]; [congruence|]. cbn [negb]. rewrite IHscoped.
    rewrite (proj2 (forallb_forall (fun y => existsb (bytes_eqb y) u) (y :: ys))); [reflexivity|]. intros x X. apply in_existsb. auto.
  - cbn [uses]. rewrite (legal_b_ok _ _ H), (meaning_means _ _ _ H0). cbn [andb]. rewrite IHscoped. reflexivity.
  - cbn [uses]. rewrite (legal_b_ok _ _ H), IHscoped. reflexivity.
  - cbn [uses]. fold all_uses. rewrite IHscoped1, IHscoped2. reflexivity.
  - cbn [uses]. rewrite (legal_b_ok _ _ H), IHscoped. reflexivity.
Qed.

Lemma bad_body : forall ps l, all_uses [] (map (fun p => (p, true)) ps) l = None -> ~ good_body ps l.
Proof. intros ps l N [(u & U) _]. apply all_uses_ok in U. congruence. Qed.

Definition rec_of (n : string) : gtype := TNamed (ex_name n) (TStruct [(ex_var "Id" (ex_tag "sql" ["id"]), ex_int);
  (ex_var "Address" (ex_tag "sql" [">"]), TPtr (TNamed (ex_name "Address") (TStruct [(ex_var "City" (ex_tag "sql" ["city"]), ex_str)])))]).

Definition rel_of (t : gtype) : fvar * gtype := (ex_var "Rel" (ex_tag "rel" ["user:u"]), t).

Definition where_in : fvar * gtype := (ex_var "Where" [], TStruct [(ex_var "Ids" (ex_tag "sql" ["u.id isin"]), TSlice ex_int); (ex_var "Email" (ex_tag "sql" ["u.email"]), ex_str)]).

Definition no_import : text -> text := fun p => p.

Ltac not_reserved := let F := fresh in intros F; destruct F as [F|(k & [F|F])];
  [cbn [fixed_names In] in F; repeat (destruct F as [F|F]; [vm_compute in F; discriminate F|]); exact F|vm_compute in F; discriminate F..].

Lemma C93_array_refuted_proof : exists e name fs db q t, analyzeQueryStruct e name fs = AOk q /\ check_query db q = COk t
  /\ rt_array (out_type q) = true /\ forall imp wc, ~ good_body (method_params wc) (method_body imp wc q t).
Proof.
  exists ex_env, (B "SelectUsers"), [rel_of (TArray 3 (TPtr (rec_of "User")))], db_ex. eexists _, _.
  split; [vm_compute; reflexivity|]. split; [vm_compute; reflexivity|]. split; [vm_compute; reflexivity|].
  intros imp wc. apply bad_body. destruct wc; vm_compute; reflexivity.
Qed.

Lemma C93_name_refuted_proof : exists e name fs db q t, analyzeQueryStruct e name fs = AOk q /\ check_query db q = COk t
  /\ rows_have_columns q t /\ rows_listless q t /\ forall imp wc, ~ good_body (method_params wc) (method_body imp wc q t).
Proof.
  exists ex_env, (B "SelectUser"), [rel_of (TPtr (rec_of "row"))], db_ex. eexists _, _.
  split; [vm_compute; reflexivity|]. split; [vm_compute; reflexivity|]. split; [|split].
  - intros _ E. vm_compute in E. discriminate E.
  - intros E. vm_compute in E. discriminate E.
  - intros imp wc. apply bad_body. destruct wc; vm_compute; reflexivity.
Qed.

Lemma C93_list_refuted_proof : exists e name fs db q t, analyzeQueryStruct e name fs = AOk q /\ check_query db q = COk t
  /\ IsInsertOrUpdateSlice q = true /\ rows_have_columns q t /\ forall imp wc, ~ good_body (method_params wc) (method_body imp wc q t).
Proof.
  exists ex_env, (B "UpdateUsers"), [rel_of (TSlice (TPtr (rec_of "User"))); (ex_var "From" [], TStruct [(ex_var "_" (ex_tag "sql" ["post:p"]), ex_dir "Relation");
    (ex_var "_" (ex_tag "sql" ["user:v"; "v.email isin u.tags"]), ex_dir "LeftJoin")])], db_ex. eexists _, _.
  split; [vm_compute; reflexivity|]. split; [vm_compute; reflexivity|]. split; [vm_compute; reflexivity|]. split.
  - intros E. vm_compute in E. discriminate E.
  - intros imp wc. apply bad_body. destruct wc; vm_compute; reflexivity.
Qed.
