(** Definitions and proofs used by PropsFilters2.v. *)
From Coq Require Import Ascii String ZArith NArith Bool List Lia.
From Verif Require Import GoBase Strconv StrconvProofs ConvertUtil ConvertProofs Codecs IntCodecs Filter PgSpec PgSpecProofs TextProofs DecimalLink MoneyProofs SqlSpec FilterProofs FilterRun FilterGram FiltersFinal.
Import ListNotations.
Local Open Scope char_scope.

(** *** C25: conditions in FQL *)
(** A rule is usable when its key is known, its value converts, and operator
    and value make a predicate. *)
Definition usable (m : list (bytes * column)) (k cmp : bytes) (v : gval) : Prop :=
  exists c v', lookup k m = Some c /\ match c_conv c with Some f => f v = Ok v' | None => v' = v end
    /\ col_role cmp v' = RPred /\ (bytes_eqb (toupper cmp) (B "IN") = true -> slice_len v' <> 0%nat).

(** The token sequences of FQL conditions. *)
Inductive fql_cond (m : list (bytes * column)) : list fqltok -> Prop :=
| fc_rule : forall k cmp v, usable m k cmp v -> fql_cond m [TRule k cmp v]
| fc_group : forall l, fql_cond m l -> fql_cond m (TLParen :: l ++ [TRParen])
| fc_and : forall a b, fql_cond m a -> fql_cond m b -> fql_cond m (a ++ TAnd :: b)
| fc_or : forall a b, fql_cond m a -> fql_cond m b -> fql_cond m (a ++ TOr :: b).

Definition same_but_where (s s' : cst) : Prop := s' = set_where (f_where s') s.

Lemma sbw_refl : forall s, same_but_where s s.
Proof. intros []. reflexivity. Qed.

Lemma sbw_trans : forall a b c, same_but_where a b -> same_but_where b c -> same_but_where a c.
Proof. intros a b c H K. unfold same_but_where in *. rewrite K, H. reflexivity. Qed.

Lemma sbw_push : forall n s, same_but_where s (push n s).
Proof. reflexivity. Qed.

Lemma sbw_conn : forall n s, same_but_where s (conn n s).
Proof. intros. unfold conn. destruct (canAndOr s). apply sbw_push. apply sbw_refl. Qed.

Lemma sbw_map : forall a b, same_but_where a b -> s_colmap b = s_colmap a.
Proof. intros a b H. rewrite H. reflexivity. Qed.

Lemma col_role_act : forall c cmp v, col_role cmp v = RPred -> (bytes_eqb (toupper cmp) (B "IN") = true -> slice_len v <> 0%nat) ->
  exists n, col_act c cmp v = APred n /\ pred_node n.
Proof.
  intros c cmp v R N. pose (s := zero_cst).
  destruct (leaf_role (KCol c cmp v) s eq_refl I) as [A C]. cbn [leaf_act call_role proper] in A, C. rewrite R in A.
  destruct (col_act c cmp v) as [| |n]; try discriminate. exists n. split; auto. apply pred_nodeb_spec. destruct C as [-> _].
  destruct (bytes_eqb (toupper cmp) (B "IN")); [|reflexivity]. cbn [andb]. apply orb_true_iff. right.
  apply negb_true_iff. apply Nat.eqb_neq. auto.
Qed.

Lemma fql_run : forall m l, fql_cond m l -> forall s rest bad, s_colmap s = m ->
  exists s' g, fql_loop (l ++ rest) bad s = fql_loop rest bad s' /\ same_but_where s s' /\ cond g
    /\ f_where s' = f_where s ++ (if lastc (f_where s) then [NAnd] else []) ++ g.
Proof.
  intros m l C. induction C as [k cmp v (c & v' & L & CV & R & N)|l C IH|a b CA IA CB IB|a b CA IA CB IB]; intros s rest bad M.
  - destruct (col_role_act (c_name c) cmp v' R N) as (n & A & PN).
    exists (Col (c_name c) cmp v' s), [n]. conjs.
    + cbn [app fql_loop]. rewrite M, L. destruct (c_conv c) as [f|]; rewrite CV; reflexivity.
    + rewrite Col_act, A. cbn [act]. unfold pred. eapply sbw_trans. apply sbw_conn. apply sbw_push.
    + now apply cond_pred.
    + rewrite Col_act, A. cbn [act]. apply where_pred.
  - assert (s_colmap (push NLParen (conn NAnd s)) = m) as M1 by (rewrite <- M; apply (sbw_map s); eapply sbw_trans; [apply sbw_conn|apply sbw_push]).
    destruct (IH (push NLParen (conn NAnd s)) (TRParen :: rest) bad M1) as (s1 & g & E & S & G & W).
    exists (push NRParen s1), (NLParen :: g ++ [NRParen]). conjs.
    + change ((TLParen :: l ++ [TRParen]) ++ rest) with (TLParen :: ((l ++ [TRParen]) ++ rest)). rewrite <- app_assoc. cbn [app fql_loop]. rewrite E. reflexivity.
    + eapply sbw_trans; [|apply sbw_push]. eapply sbw_trans; [|exact S]. eapply sbw_trans; [apply sbw_conn|apply sbw_push].
    + now apply cond_group.
    + rewrite push_where, W, push_where, where_conn, lastc_snoc. cbn [node_canAndOr app]. rewrite <- !app_assoc. reflexivity.
  - rewrite <- app_assoc. destruct (IA s ((TAnd :: b) ++ rest) bad M) as (s1 & g1 & E1 & S1 & G1 & W1).
    assert (s_colmap (push NAnd s1) = m) as M1 by (rewrite <- M; apply (sbw_map s); eapply sbw_trans; [exact S1|apply sbw_push]).
    destruct (IB (push NAnd s1) rest bad M1) as (s2 & g2 & E2 & S2 & G2 & W2).
    exists s2, (g1 ++ NAnd :: g2). conjs.
    + rewrite E1. exact E2.
    + eapply sbw_trans; [exact S1|]. eapply sbw_trans; [apply sbw_push|exact S2].
    + now apply cond_and.
    + rewrite W2, push_where, lastc_snoc, W1. cbn [node_canAndOr app]. rewrite <- !app_assoc. reflexivity.
  - rewrite <- app_assoc. destruct (IA s ((TOr :: b) ++ rest) bad M) as (s1 & g1 & E1 & S1 & G1 & W1).
    assert (s_colmap (push NOr s1) = m) as M1 by (rewrite <- M; apply (sbw_map s); eapply sbw_trans; [exact S1|apply sbw_push]).
    destruct (IB (push NOr s1) rest bad M1) as (s2 & g2 & E2 & S2 & G2 & W2).
    exists s2, (g1 ++ NOr :: g2). conjs.
    + rewrite E1. exact E2.
    + eapply sbw_trans; [exact S1|]. eapply sbw_trans; [apply sbw_push|exact S2].
    + now apply cond_or.
    + rewrite W2, push_where, lastc_snoc, W1. cbn [node_canAndOr app]. rewrite <- !app_assoc. reflexivity.
Qed.

Lemma C25_fql_condition_proof : forall toks s, fql_cond (s_colmap s) toks ->
  exists g, UnmarshalFQL toks false s
      = (set_where (f_where s ++ (match rev (f_where s) with [] => [] | n :: _ => if node_canAndOr n then [NAnd] else [] end) ++ g) s, false)
    /\ cond g.
Proof.
  intros toks s C. destruct (fql_run _ _ C s [] false eq_refl) as (s' & g & E & S & G & W). exists g. split; auto.
  rewrite app_nil_r in E. unfold UnmarshalFQL. rewrite E. cbn [fql_loop]. f_equal. rewrite S. rewrite W. unfold lastc.
  destruct (rev (f_where s)); reflexivity.
Qed.

Definition fql_demo : list fqltok :=
  [TRule (B "age") (B "<") (GInt64 9); TOr; TLParen; TRule (B "name") (B "=") GNil; TAnd; TRule (B "age") (B ">") (GInt64 30); TRParen].

Lemma fql_demo_cond : fql_cond demo_map fql_demo.
Proof.
  assert (forall k cmp v c, lookup k demo_map = Some c -> (match c_conv c with Some f => f v = Ok v | None => v = v end) ->
    col_role cmp v = RPred -> bytes_eqb (toupper cmp) (B "IN") = false -> fql_cond demo_map [TRule k cmp v]) as R.
  { intros k cmp v c L C R N. apply fc_rule. exists c, v. rewrite N. conjs; auto. discriminate. }
  apply (fc_or _ [_] (TLParen :: ([TRule (B "name") (B "=") GNil] ++ TAnd :: [TRule (B "age") (B ">") (GInt64 30)]) ++ [TRParen])).
  - eapply R; reflexivity.
  - apply fc_group. apply fc_and; eapply R; reflexivity.
Qed.

(** *** C26: clauses that are not conditions *)
Definition ending (t : text) : Prop := exists u c, t = u ++ [c] /\ c <> " " /\ c <> "(".

Lemma ending_app : forall a b, ending b -> ending (a ++ b).
Proof. intros a b (u & c & -> & H). exists (a ++ u), c. rewrite app_assoc. auto. Qed.

Lemma param_chars : forall p, is_param p -> Forall (fun c => c <> " " /\ c <> "(" /\ c <> ")") p /\ p <> [].
Proof.
  intros p (n & ->). split; [|discriminate]. constructor. { conjs; discriminate. }
  rewrite <- format_int_spec. eapply Forall_impl; [|apply format_int_numchar]. intros c. apply numchar_clean.
Qed.

Lemma word_ending : forall s, s <> [] -> Forall (fun c => c <> " " /\ c <> "(" /\ c <> ")") s -> exists u c, s = u ++ [c] /\ c <> " " /\ c <> "(" /\ c <> ")".
Proof.
  intros s N F. destruct s as [|c0 s0] using rev_ind; [congruence|]. apply Forall_app in F. destruct F as [_ F]. inversion F as [|? ? (A & C & D) _]; subst.
  exists s0, c0. auto.
Qed.

Lemma param_ending : forall p, is_param p -> exists u c, p = u ++ [c] /\ c <> " " /\ c <> "(" /\ c <> ")".
Proof. intros p P. destruct (param_chars p P). now apply word_ending. Qed.

Lemma commas_ending : forall ps, ps <> [] -> Forall is_param ps -> exists u c, commas ps = u ++ [c] /\ c <> " " /\ c <> "(" /\ c <> ")".
Proof.
  induction ps as [|x ps IH]; intros N F; [congruence|]. inversion F as [|? ? F1 F2]; subst. destruct ps as [|y ps].
  - now apply param_ending.
  - destruct IH as (u & c & E & H); auto. discriminate. exists (x ++ "," :: u), c. split; auto.
    change (commas (x :: y :: ps)) with (x ++ "," :: commas (y :: ps)). rewrite E. rewrite <- app_assoc. reflexivity.
Qed.

Lemma last_eq : forall {A} (u v : list A) x y, u ++ [x] = v ++ [y] -> u = v /\ x = y.
Proof. intros. now apply app_inj_tail. Qed.

(** No condition ends in a blank or in an empty pair of parentheses. *)
Lemma condition_ending : forall t, is_condition t -> ending t /\ forall u, t <> u ++ lit "()".
Proof.
  assert (forall t, ending t -> (forall u, t <> u ++ ["("; ")"]) -> ending t /\ forall u, t <> u ++ lit "()") as MK by auto.
  intros t C. induction C as [t P|t C [(u & c & E & B1 & B2) IH]|a b CA IA CB [IB1 IB2]|a b CA IA CB [IB1 IB2]].
  - destruct P as [col op p W O P|col w W I|col ps W N F|col p ty W P I|col p W P].
    + destruct (param_ending p P) as (u & c & -> & B1 & B2 & B3).
      replace (col ++ " " :: op ++ " " :: u ++ [c]) with ((col ++ " " :: op ++ " " :: u) ++ [c]).
      2:{ rewrite <- app_assoc. cbn [app]. rewrite <- app_assoc. reflexivity. }
      split. { eexists _, c. eauto. } intros v H. change (lit "()") with (["("] ++ [")"]) in H. rewrite app_assoc in H. apply last_eq in H. tauto.
    + assert (exists u c, w = u ++ [c] /\ c <> " " /\ c <> "(" /\ c <> ")") as (u & c & -> & B1 & B2 & B3).
      { cbn [map In] in I. decompose [or] I; try contradiction; subst w.
        exists (lit "NUL"), "L". conjs; try discriminate; reflexivity.
        exists (lit "NOT NUL"), "L". conjs; try discriminate; reflexivity.
        exists (lit "TRU"), "E". conjs; try discriminate; reflexivity.
        exists (lit "NOT TRU"), "E". conjs; try discriminate; reflexivity.
        exists (lit "FALS"), "E". conjs; try discriminate; reflexivity.
        exists (lit "NOT FALS"), "E". conjs; try discriminate; reflexivity. }
      rewrite !app_assoc. split. { eexists _, c. eauto. } intros v H. change (lit "()") with (["("] ++ [")"]) in H. rewrite app_assoc in H. apply last_eq in H. tauto.
    + split. { do 2 apply ending_app. apply ending_app. exists [], ")". conjs; try discriminate; reflexivity. }
      intros v H. destruct (commas_ending ps N F) as (u & c & E & B1 & B2 & B3). rewrite E in H.
      change (lit "()") with (["("] ++ [")"]) in H. rewrite !app_assoc in H. apply last_eq in H. destruct H as [H _].
      apply last_eq in H. tauto.
    + change (lit "[])") with (lit "[" ++ ["]"] ++ [")"]).
      split. { do 7 apply ending_app. exists [], ")". conjs; try discriminate; reflexivity. }
      intros v H. change (lit "()") with (["("] ++ [")"]) in H. rewrite !app_assoc in H. apply last_eq in H. destruct H as [H _].
      apply last_eq in H. destruct H. discriminate.
    + split. { do 3 apply ending_app. exists [], ")". conjs; try discriminate; reflexivity. }
      intros v H. destruct (param_ending p P) as (u & c & -> & B1 & B2 & B3).
      change (lit "()") with (["("] ++ [")"]) in H. rewrite !app_assoc in H. apply last_eq in H. destruct H as [H _]. apply last_eq in H. tauto.
  - split. { do 2 apply ending_app. exists [], ")". conjs; try discriminate; reflexivity. }
    intros v H. rewrite E in H. change (lit "()") with (["("] ++ [")"]) in H. rewrite !app_assoc in H. apply last_eq in H. destruct H as [H _].
    apply last_eq in H. tauto.
  - split. { do 2 apply ending_app. auto. } intros v H. destruct IB1 as (x & c & E & B1 & B2).
    destruct b as [|c1 [|c2 b]].
    + destruct x; discriminate.
    + assert (is_condition [c1]) by exact CB. rewrite E in H. change (lit "()") with (["("] ++ [")"]) in H. rewrite !app_assoc in H. apply last_eq in H. destruct H as [H1 H2].
      change (lit " AND ") with (lit " AND" ++ [" "]) in H1.
      destruct x as [|? [|]]; try discriminate. rewrite app_nil_r, app_assoc in H1. apply last_eq in H1. destruct H1. discriminate.
    + destruct (exists_last (l := c1 :: c2 :: b)) as (y & d & Y); [discriminate|].
      destruct y as [|y0 y']; [destruct b; discriminate|]. destruct (exists_last (l := y0 :: y')) as (z & d' & Z0); [discriminate|].
      rewrite Z0 in Y. rewrite Y in H. change (lit "()") with (["("] ++ [")"]) in H. rewrite !app_assoc in H. apply last_eq in H. destruct H as [H1 H2].
      apply last_eq in H1. destruct H1 as [H1 H3]. subst d d'. apply (IB2 z). rewrite Y, <- app_assoc. reflexivity.
  - split. { do 2 apply ending_app. auto. } intros v H. destruct IB1 as (x & c & E & B1 & B2).
    destruct b as [|c1 [|c2 b]].
    + destruct x; discriminate.
    + rewrite E in H. change (lit "()") with (["("] ++ [")"]) in H. rewrite !app_assoc in H. apply last_eq in H. destruct H as [H1 H2].
      change (lit " OR ") with (lit " OR" ++ [" "]) in H1.
      destruct x as [|? [|]]; try discriminate. rewrite app_nil_r, app_assoc in H1. apply last_eq in H1. destruct H1. discriminate.
    + destruct (exists_last (l := c1 :: c2 :: b)) as (y & d & Y); [discriminate|].
      destruct y as [|y0 y']; [destruct b; discriminate|]. destruct (exists_last (l := y0 :: y')) as (z & d' & Z0); [discriminate|].
      rewrite Z0 in Y. rewrite Y in H. change (lit "()") with (["("] ++ [")"]) in H. rewrite !app_assoc in H. apply last_eq in H. destruct H as [H1 H2].
      apply last_eq in H1. destruct H1 as [H1 H3]. subst d d'. apply (IB2 z). rewrite Y, <- app_assoc. reflexivity.
Qed.

Lemma blank_end : forall u, ~ is_condition (u ++ [" "]).
Proof. intros u C. destruct (condition_ending _ C) as [(v & c & E & B1 & _) _]. apply last_eq in E. destruct E. congruence. Qed.

Lemma empty_end : forall u, ~ is_condition (u ++ lit "()").
Proof. intros u C. destruct (condition_ending _ C) as [_ H]. now apply (H u). Qed.

Definition breaks (cs : list call) (where_ : string) : Prop :=
  rmap fst (ToSQL (runs cs zero_cst) 0) = Ok (lit " WHERE " ++ lit where_) /\ ~ is_condition (lit where_).

Lemma C26_broken_where_clauses_proof :
  breaks [KCol (B "a") (B "=") (GInt 1); KCol (B "b") (B ">") GNil] "a = $1 AND "
  /\ breaks [KCol (B "a") (B "=") (GInt 1); KCol (B "b") (B "!=") (GBool true)] "a = $1 AND "
  /\ breaks [KCol (B "a") (B "=") (GInt 1); KOr None] "a = $1 OR "
  /\ breaks [KAnd (Some [])] "()"
  /\ breaks [KInInts (B "a") (Some [])] "a IN ()"
  /\ breaks [KCol (B "a") (B "in") (GStrings None)] "a IN ()"
  /\ breaks [KInit demo_map []; KFQL [TRule (B "age") (B "<") (GInt64 9); TAnd; TRule (B "nosuch") (B "=") (GInt64 1)] false] "u.age < $1 AND "
  /\ snd (UnmarshalFQL [TRule (B "age") (B "<") (GInt64 9); TAnd; TRule (B "nosuch") (B "=") (GInt64 1)] false (InitV2 demo_map [] zero_cst)) = false.
Proof.
  conjs; try (split; [vm_compute; reflexivity|]); try reflexivity.
  - apply (blank_end (lit "a = $1 AND")).
  - apply (blank_end (lit "a = $1 AND")).
  - apply (blank_end (lit "a = $1 OR")).
  - apply (empty_end []).
  - apply (empty_end (lit "a IN ")).
  - apply (empty_end (lit "a IN ")).
  - apply (blank_end (lit "u.age < $1 AND")).
Qed.

(** *** C27: limit, offset, page *)
Definition is_paging (k : call) : bool := match k with KOffset n | KPage n => (0 <? n)%Z | _ => false end.

(** The argument of the last Limit call with a positive argument, else 0. *)
Definition last_limit (l : list call) : Z :=
  fold_left (fun a k => match k with KLimit n => if (0 <? n)%Z then n else a | _ => a end) l 0%Z.

Definition pg (a : Z * Z) (k : call) : Z * Z :=
  match k with
  | KLimit n => if (0 <? n)%Z then (n, snd a) else a
  | KOffset n => if (0 <? n)%Z then (fst a, n) else a
  | KPage n => if (0 <? n)%Z then (fst a, wrap64 (fst a * (n - 1))) else a
  | _ => a
  end.

Definition lims (s : cst) : Z * Z := (f_limit s, f_offset s).

Lemma lims_conn : forall c s, lims (conn c s) = lims s.
Proof. intros. unfold conn. destruct (canAndOr s); reflexivity. Qed.

Lemma lims_act : forall a s, lims (act a s) = lims s.
Proof. intros a s. destruct (act_rest a s) as (_ & _ & _ & _ & A & C). unfold lims. now rewrite A, C. Qed.

Lemma lims_fql : forall toks bad s, lims (fst (fql_loop toks bad s)) = lims s.
Proof.
  induction toks as [|t toks IH]; intros bad s. reflexivity. destruct t as [| | | |k cmp v]; cbn [fql_loop]; try (rewrite IH; reflexivity).
  - rewrite IH. change (lims (push NLParen (conn NAnd s))) with (lims (conn NAnd s)). apply lims_conn.
  - destruct (lookup k (s_colmap s)) as [c|]. destruct (match c_conv c with Some f => f v | None => Ok v end); auto. rewrite IH, Col_act. apply lims_act.
    destruct (s_strict s); auto.
Qed.

Lemma pg_nonneg : forall l a, (0 <= fst a)%Z -> (0 <= fst (fold_left pg l a))%Z.
Proof.
  induction l as [|k l IH]; intros a A. exact A. cbn [fold_left]. apply IH. destruct k; cbn [pg]; auto; destruct (Z.ltb_spec 0 n); cbn [fst]; auto; lia.
Qed.

Lemma fold_flat : forall l a, Forall (fun k => forall s, (0 <= f_limit s)%Z -> lims (run k s) = fold_left pg (leaves k) (lims s)) l ->
  forall s, (0 <= f_limit s)%Z -> lims s = a -> lims (fold_left (fun s k => run k s) l s) = fold_left pg (flat_map leaves l) a.
Proof.
  induction l as [|k l IH]; intros a F s S E. exact E. inversion F as [|? ? F1 F2]; subst. cbn [fold_left flat_map]. rewrite fold_left_app.
  apply IH; auto. pose proof (pg_nonneg (leaves k) (lims s) S) as N. rewrite <- F1 in N by auto. exact N.
Qed.

Lemma lims_run : forall k s, (0 <= f_limit s)%Z -> lims (run k s) = fold_left pg (leaves k) (lims s).
Proof.
  intros k. induction k as [o IH|o IH|k L] using call_nest_ind; intros s S.
  - destruct o as [l|]; cbn [run leaves nest_ok] in *. 2: apply lims_conn.
    change (lims (push NRParen (fold_left (fun s k => run k s) l (push NLParen (conn NAnd s))))) with (lims (fold_left (fun s k => run k s) l (push NLParen (conn NAnd s)))).
    pose proof (lims_conn NAnd s) as C. apply fold_flat; auto. pose proof (f_equal fst C) as C'. cbn [fst lims] in C'. cbn [push set_where f_limit]. now rewrite C'.
  - destruct o as [l|]; cbn [run leaves nest_ok] in *. 2: apply lims_conn.
    change (lims (push NRParen (fold_left (fun s k => run k s) l (push NLParen (conn NOr s))))) with (lims (fold_left (fun s k => run k s) l (push NLParen (conn NOr s)))).
    pose proof (lims_conn NOr s) as C. apply fold_flat; auto. pose proof (f_equal fst C) as C'. cbn [fst lims] in C'. cbn [push set_where f_limit]. now rewrite C'.
  - destruct k; try contradiction; cbn [run leaves fold_left pg]; try reflexivity.
    + rewrite Col_act. apply lims_act.
    + apply (lims_act (APred _)).
    + apply (lims_act (APred _)).
    + apply (lims_act (APred _)).
    + apply (lims_act (APred _)).
    + apply (lims_act (APred _)).
    + apply (lims_act (APred _)).
    + apply (lims_act (APred _)).
    + apply (lims_act (APred _)).
    + unfold TextSearch. destruct (s_tscol s); auto. apply (lims_act (APred _)).
    + unfold Limit. destruct (0 <? n)%Z; reflexivity.
    + unfold Offset. destruct (0 <? n)%Z; reflexivity.
    + unfold Page. apply Z.leb_le in S. rewrite S, andb_true_r. destruct (0 <? n)%Z; reflexivity.
    + apply lims_fql.
    + unfold UnmarshalSort. destruct (sort_loop_where str true false [] s) as (_ & _ & _ & _ & A & C). unfold lims. now rewrite A, C.
Qed.

Lemma lims_runs : forall cs, lims (runs cs zero_cst) = fold_left pg (flat_map leaves cs) (0, 0)%Z.
Proof.
  intros cs. apply fold_flat; auto. apply Forall_forall. intros k _ s. apply lims_run. cbn. lia.
Qed.

Lemma pg_limit : forall l a o, fst (fold_left pg l (a, o)) = fold_left (fun a k => match k with KLimit n => if (0 <? n)%Z then n else a | _ => a end) l a.
Proof.
  induction l as [|k l IH]; intros a o. reflexivity. cbn [fold_left]. destruct k; cbn [pg]; auto; destruct (0 <? n)%Z; cbn [fst snd]; auto.
Qed.

Lemma pg_rest : forall l a, forallb (fun k => negb (is_paging k)) l = true -> snd (fold_left pg l a) = snd a.
Proof.
  induction l as [|k l IH]; intros a F. reflexivity. cbn [forallb] in F. apply andb_prop in F. destruct F as [F1 F2]. cbn [fold_left]. rewrite IH by auto.
  destruct k; cbn [pg is_paging] in *; auto; destruct (0 <? n)%Z; auto; discriminate.
Qed.

Lemma C27_limit_offset_page_proof : forall cs, let s := runs cs zero_cst in let l := flat_map leaves cs in
  f_limit s = last_limit l
  /\ (forallb (fun k => negb (is_paging k)) l = true -> f_offset s = 0%Z)
  /\ (forall pre n post, l = pre ++ KOffset n :: post -> (0 < n)%Z -> forallb (fun k => negb (is_paging k)) post = true -> f_offset s = n)
  /\ (forall pre n post, l = pre ++ KPage n :: post -> (0 < n)%Z -> forallb (fun k => negb (is_paging k)) post = true ->
        (-2 ^ 63 <= f_offset s < 2 ^ 63)%Z /\ ((f_offset s - last_limit pre * (n - 1)) mod 2 ^ 64 = 0)%Z
        /\ ((last_limit pre * (n - 1) < 2 ^ 63)%Z -> f_offset s = (last_limit pre * (n - 1))%Z)).
Proof.
  intros cs s l. pose proof (lims_runs cs) as R. fold s in R. fold l in R. clearbody s l.
  assert (f_limit s = last_limit l) as A by (unfold last_limit; rewrite <- (pg_limit l 0%Z 0%Z), <- R; reflexivity).
  assert (f_offset s = snd (fold_left pg l (0, 0)%Z)) as O by (rewrite <- R; reflexivity).
  conjs; auto.
  - intros F. rewrite O, pg_rest by auto. reflexivity.
  - intros pre n post -> N F. rewrite O, fold_left_app. cbn [fold_left pg]. apply Z.ltb_lt in N. rewrite N, pg_rest by auto. reflexivity.
  - intros pre n post -> N F. rewrite O, fold_left_app. cbn [fold_left pg]. pose proof N as N'. apply Z.ltb_lt in N. rewrite N, pg_rest by auto. cbn [snd].
    rewrite pg_limit. fold (last_limit pre).
    assert (0 <= last_limit pre)%Z as LP. { unfold last_limit. rewrite <- (pg_limit pre 0%Z 0%Z). apply pg_nonneg. cbn; lia. }
    set (x := (last_limit pre * (n - 1))%Z). assert (0 <= x)%Z by (subst x; nia). unfold wrap64.
    pose proof (Z.mod_pos_bound (x + 2 ^ 63) (2 ^ 64) ltac:(lia)). conjs.
    + lia.
    + lia.
    + pose proof (Z.div_mod (x + 2 ^ 63) (2 ^ 64) ltac:(lia)) as DM.
      replace ((x + 2 ^ 63) mod 2 ^ 64 - 2 ^ 63 - x)%Z with (- ((x + 2 ^ 63) / 2 ^ 64) * 2 ^ 64)%Z by lia. apply Z.mod_mul. lia.
    + intros B. rewrite Z.mod_small by lia. lia.
Qed.

Lemma C27_page_can_be_lost_proof :
  rmap fst (ToSQL (runs [KPage 3; KLimit 20] zero_cst) 0) = Ok (lit " LIMIT 20")
  /\ rmap fst (ToSQL (runs [KLimit (2 ^ 62); KPage 5] zero_cst) 0) = Ok (lit " LIMIT 4611686018427387904")
  /\ rmap fst (ToSQL (runs [KLimit (2 ^ 62); KPage 3] zero_cst) 0) = Ok (lit " LIMIT 4611686018427387904").
Proof. conjs; vm_compute; reflexivity. Qed.

(** *** C28: the sort specification *)
(** An item is a key, optionally after a hyphen; empty items don't count. *)
Definition sort_item (x : text) : list (bool * text) :=
  match x with
  | [] => []
  | c :: k => if ascii_dec c "-" then match k with [] => [] | _ => [(true, k)] end else [(false, x)]
  end.

Definition sort_keys (items : list text) : list (bool * text) := flat_map sort_item items.

Definition order_text (c : column) (desc : bool) : text :=
  c_name c ++ (if desc then lit " DESC" else lit " ASC") ++ (if c_nullable c then lit " NULLS LAST" else []).

Definition known (m : list (bytes * column)) (dk : bool * text) : list text :=
  match lookup (snd dk) m with Some c => [order_text c (fst dk)] | None => [] end.

Definition is_known (m : list (bytes * column)) (dk : bool * text) : bool :=
  match lookup (snd dk) m with Some _ => true | None => false end.

Fixpoint known_prefix (m : list (bytes * column)) (l : list (bool * text)) : list (bool * text) :=
  match l with
  | [] => []
  | x :: r => if is_known m x then x :: known_prefix m r else []
  end.

(** The clause after adding items to it. *)
Definition extended (old : text) (items : list text) : text :=
  joined (lit ", ") ((match old with [] => [] | _ => [old] end) ++ items).

Fixpoint key_loop (l : list (bool * text)) (s : cst) : cst * bool :=
  match l with
  | [] => (s, false)
  | (d, k) :: r => let '(s', e) := sort_key d k s in if e then (s', true) else key_loop r s'
  end.

Lemma key_loop_app : forall a b s, key_loop (a ++ b) s = let '(s', e) := key_loop a s in if e then (s', true) else key_loop b s'.
Proof.
  induction a as [|[d k] a IH]; intros b s. reflexivity. cbn [app key_loop]. destruct (sort_key d k s) as [s' []]; auto.
Qed.

Lemma sort_key_nil : forall d s, sort_key d [] s = (s, false).
Proof. reflexivity. Qed.

Lemma sort_loop_key : forall x, ~ In "," x -> forall rest start desc key s, (start = true -> key = [] /\ desc = false) ->
  (start = false \/ x = [] \/ (exists c r, x = c :: r /\ c <> "-")) ->
  sort_loop (x ++ rest) start desc key s = sort_loop rest (match x with [] => start | _ => false end) desc (key ++ x) s.
Proof.
  induction x as [|c x IH]; intros N rest start desc key s S H. cbn [app]. now rewrite app_nil_r.
  cbn [app sort_loop]. cbn [In] in N. unfold beq. destruct (Ascii.eqb_spec c ","); [subst; tauto|].
  replace (start && Ascii.eqb c "-") with false.
  2:{ symmetry. destruct H as [->|[H|(c' & r' & H & NE)]]; [reflexivity|discriminate|]. injection H as <- <-. apply andb_false_intro2. now apply Ascii.eqb_neq. }
  rewrite IH; auto; try tauto. 2: discriminate. rewrite <- app_assoc. cbn [app]. destruct x; reflexivity.
Qed.

Lemma sort_loop_items : forall l str s, pieces "," l str -> sort_loop str true false [] s = key_loop (sort_keys l) s.
Proof.
  assert (forall x, ~ In "," x -> forall rest s, (rest = [] \/ exists r, rest = "," :: r) ->
    sort_loop (x ++ rest) true false [] s =
    let '(s', e) := key_loop (sort_item x) s in
    if e then (s', true) else match rest with [] => (s', false) | _ :: r => sort_loop r true false [] s' end) as ONE.
  { intros x N rest s RS.
    assert (forall d k st, (match rest with [] => sort_loop rest st d k s = sort_key d k s | _ :: r => sort_loop rest st d k s = let '(s', e) := sort_key d k s in if e then (s', true) else sort_loop r true false [] s' end)) as RL.
    { intros d k st. destruct RS as [->|(r & ->)]. reflexivity. reflexivity. }
    assert (forall d k st s0, s0 = s -> sort_loop rest st d k s = let '(s', e) := key_loop (match k with [] => [] | _ => [(d, k)] end) s0 in
       if e then (s', true) else match rest with [] => (s', false) | _ :: r => sort_loop r true false [] s' end) as RK.
    { intros d k st s0 ->. specialize (RL d k st). destruct k as [|c k].
      - rewrite sort_key_nil in RL. cbn [key_loop]. destruct rest; auto.
      - cbn [key_loop]. destruct (sort_key d (c :: k) s) as [s' []]; destruct rest; auto. }
    destruct x as [|c x].
    - cbn [app sort_item]. apply (RK false [] true s eq_refl).
    - cbn [sort_item]. destruct (ascii_dec c "-") as [->|NC].
      + cbn [app sort_loop]. change (beq "-" ",") with false. change (beq "-" "-") with true. cbn [andb].
        cbn [In] in N. rewrite sort_loop_key; auto; discriminate.
      + rewrite sort_loop_key by (auto; right; right; eauto). cbn [app]. apply (RK false (c :: x) false s eq_refl). }
  induction l as [|x l IH]; intros str s (NE & F & E); [congruence|]. inversion F as [|? ? F1 F2]; subst.
  unfold sort_keys. cbn [flat_map]. rewrite key_loop_app. destruct l as [|y l].
  - cbn [joined]. rewrite <- (app_nil_r x) at 1. rewrite ONE by auto. reflexivity.
  - change (joined [","] (x :: y :: l)) with (x ++ "," :: joined [","] (y :: l)). rewrite ONE by eauto. destruct (key_loop (sort_item x) s) as [s' []]; auto.
    apply IH. split; [discriminate|]. auto.
Qed.

Lemma joined_snoc : forall sep l x, joined sep (l ++ [x]) = match l with [] => x | _ => joined sep l ++ sep ++ x end.
Proof.
  intros sep. induction l as [|y l IH]; intros x. reflexivity. destruct l as [|z l]. reflexivity.
  change ((y :: z :: l) ++ [x]) with (y :: (z :: l) ++ [x]). change (joined sep (y :: (z :: l) ++ [x])) with (y ++ sep ++ joined sep ((z :: l) ++ [x])).
  rewrite IH. change (joined sep (y :: z :: l)) with (y ++ sep ++ joined sep (z :: l)). now rewrite <- !app_assoc.
Qed.

Lemma order_text_ne : forall c d, order_text c d <> [].
Proof. intros c d H. unfold order_text in H. destruct (c_name c); [|discriminate]. destruct d; discriminate. Qed.

Definition ext1 (old x : text) : text := match old with [] => x | _ => old ++ lit ", " ++ x end.

Lemma extended_add : forall old x items, x <> [] -> extended (ext1 old x) items = extended old (x :: items).
Proof.
  intros old x items X. unfold extended, ext1. destruct old as [|c o].
  - destruct x; [congruence|reflexivity].
  - change ((match (c :: o) ++ lit ", " ++ x with [] => [] | _ => [(c :: o) ++ lit ", " ++ x] end)) with [(c :: o) ++ lit ", " ++ x].
    cbn [app]. destruct items as [|y items]; [reflexivity|].
    change (joined (lit ", ") ((c :: o ++ lit ", " ++ x) :: y :: items)) with (((c :: o) ++ lit ", " ++ x) ++ lit ", " ++ joined (lit ", ") (y :: items)).
    change (joined (lit ", ") ((c :: o) :: x :: y :: items)) with ((c :: o) ++ lit ", " ++ x ++ lit ", " ++ joined (lit ", ") (y :: items)).
    now rewrite <- !app_assoc.
Qed.

Lemma extended_nil : forall old, extended old [] = old.
Proof. intros []; reflexivity. Qed.

Lemma sort_key_known : forall d k s c, k <> [] -> lookup k (s_colmap s) = Some c ->
  sort_key d k s = (set_orderby (ext1 (f_orderby s) (order_text c d)) s, false).
Proof.
  intros d k s c K L. unfold sort_key, ext1. destruct k; [congruence|]. rewrite L. unfold OrderByV2, add_order. destruct (f_orderby s); reflexivity.
Qed.

Definition ne_key (dk : bool * text) : Prop := snd dk <> [].

Lemma sort_keys_ne : forall l, Forall ne_key (sort_keys l).
Proof.
  intros l. apply Forall_forall. intros [d k] I. unfold sort_keys in I. apply in_flat_map in I. destruct I as (x & _ & I).
  unfold sort_item in I. destruct x as [|c x]; [destruct I|]. destruct (ascii_dec c "-").
  - destruct x as [|c' x]; [destruct I|]. destruct I as [I|[]]. injection I as <- <-. discriminate.
  - destruct I as [I|[]]. injection I as <- <-. discriminate.
Qed.

Lemma key_loop_lenient : forall l s, s_strict s = false -> Forall ne_key l ->
  key_loop l s = (set_orderby (extended (f_orderby s) (flat_map (known (s_colmap s)) l)) s, false).
Proof.
  induction l as [|[d k] l IH]; intros s S F. { cbn [key_loop flat_map]. rewrite extended_nil. destruct s; reflexivity. }
  inversion F as [|? ? F1 F2]; subst. unfold ne_key in F1. cbn [snd] in F1. cbn [key_loop flat_map]. unfold known at 1. cbn [fst snd].
  destruct (lookup k (s_colmap s)) as [c|] eqn:L.
  - rewrite (sort_key_known d k s c F1 L). rewrite IH; auto. cbn [set_orderby f_orderby s_colmap]. rewrite extended_add by apply order_text_ne. reflexivity.
  - unfold sort_key. destruct k; [congruence|]. rewrite L, S. cbn [app]. now apply IH.
Qed.

Lemma key_loop_strict : forall l s, s_strict s = true -> Forall ne_key l ->
  key_loop l s = (set_orderby (extended (f_orderby s) (flat_map (known (s_colmap s)) (known_prefix (s_colmap s) l))) s, negb (forallb (is_known (s_colmap s)) l)).
Proof.
  induction l as [|[d k] l IH]; intros s S F. { cbn [key_loop known_prefix flat_map]. rewrite extended_nil. destruct s; reflexivity. }
  inversion F as [|? ? F1 F2]; subst. unfold ne_key in F1. cbn [snd] in F1. cbn [key_loop known_prefix forallb].
  assert (is_known (s_colmap s) (d, k) = match lookup k (s_colmap s) with Some _ => true | None => false end) as IK by reflexivity. rewrite IK.
  destruct (lookup k (s_colmap s)) as [c|] eqn:L.
  - rewrite (sort_key_known d k s c F1 L). rewrite IH; auto. cbn [set_orderby f_orderby s_colmap flat_map].
    assert (known (s_colmap s) (d, k) = [order_text c d]) as KN by (unfold known; cbn [fst snd]; now rewrite L). rewrite KN. cbn [app].
    rewrite extended_add by apply order_text_ne. reflexivity.
  - unfold sort_key. destruct k; [congruence|]. rewrite L, S. cbn [andb negb flat_map]. rewrite extended_nil. destruct s; reflexivity.
Qed.

(** Every text has its list of pieces. *)
Lemma pieces_exist : forall sep s, exists l, pieces sep l s.
Proof.
  intros sep. induction s as [|c s (l & N & F & E)]. { exists [[]]. split; [discriminate|]. split; [repeat constructor; intros []|reflexivity]. }
  destruct (ascii_dec c sep) as [->|NE].
  - exists ([] :: l). split; [discriminate|]. split. constructor; auto. rewrite E. destruct l; [congruence|reflexivity].
  - destruct l as [|x l]; [congruence|]. inversion F as [|? ? F1 F2]; subst. exists ((c :: x) :: l). split; [discriminate|]. split.
    constructor; auto. intros [I|I]; [congruence|tauto]. destruct l; reflexivity.
Qed.

Lemma C28_sort_lenient_proof : forall str items s, pieces "," items str -> s_strict s = false ->
  UnmarshalSort str s = (set_orderby (extended (f_orderby s) (flat_map (known (s_colmap s)) (sort_keys items))) s, false).
Proof. intros str items s P S. unfold UnmarshalSort. rewrite (sort_loop_items items); auto. apply key_loop_lenient; auto. apply sort_keys_ne. Qed.

Lemma C28_sort_strict_proof : forall str items s, pieces "," items str -> s_strict s = true ->
  UnmarshalSort str s = (set_orderby (extended (f_orderby s) (flat_map (known (s_colmap s)) (known_prefix (s_colmap s) (sort_keys items)))) s,
                         negb (forallb (is_known (s_colmap s)) (sort_keys items))).
Proof. intros str items s P S. unfold UnmarshalSort. rewrite (sort_loop_items items); auto. apply key_loop_strict; auto. apply sort_keys_ne. Qed.

Lemma C28_every_text_has_items_proof : forall str, exists items, pieces "," items str.
Proof. apply pieces_exist. Qed.

(** *** C48: text search *)
Definition blank (c : ascii) : Prop := In (N_of_ascii c) [9; 10; 11; 12; 13; 32]%N.

Definition trimmed (t : text) : Prop := match t with [] => True | c :: _ => ~ blank c end /\ match rev t with [] => True | c :: _ => ~ blank c end.

Definition filled (x : text) : bool := match x with [] => false | _ => true end.

Lemma is_space_blank : forall c, is_space c = true <-> blank c.
Proof.
  intros c. unfold is_space, blank. rewrite existsb_exists. split.
  - intros (x & I & E). apply N.eqb_eq in E. unfold code in E. now rewrite E.
  - intros I. exists (N_of_ascii c). split; auto. apply N.eqb_refl.
Qed.

Lemma trim_left_app : forall a t, Forall blank a -> match t with [] => True | c :: _ => ~ blank c end -> trim_left (a ++ t) = t.
Proof.
  induction a as [|c a IH]; intros t F T.
  - cbn [app]. destruct t as [|c t]; auto. cbn [trim_left]. destruct (is_space c) eqn:E; auto. apply is_space_blank in E. tauto.
  - inversion F as [|? ? F1 F2]; subst. cbn [app trim_left]. apply is_space_blank in F1. rewrite F1. auto.
Qed.

Lemma trim_left_blank : forall a, Forall blank a -> trim_left a = [].
Proof. intros a F. rewrite <- (app_nil_r a). apply trim_left_app; auto. Qed.

Lemma trim_space_app : forall a t b, Forall blank a -> Forall blank b -> trimmed t -> trim_space (a ++ t ++ b) = t.
Proof.
  intros a t b A B0 [T1 T2]. unfold trim_space. destruct t as [|c t].
  - cbn [app]. rewrite (trim_left_blank (a ++ b)) by (apply Forall_app; auto). reflexivity.
  - rewrite trim_left_app; auto. rewrite rev_app_distr. rewrite trim_left_app; auto. apply rev_involutive. now apply Forall_rev.
Qed.

Lemma split_at_pieces : forall sep l t, pieces sep l t -> split_at sep t = l.
Proof.
  intros sep. induction l as [|x l IH]; intros t (N & F & E); [congruence|]. inversion F as [|? ? F1 F2]; subst.
  assert (forall x rest, ~ In sep x -> split_at sep (x ++ rest) = match split_at sep rest with y :: l => (x ++ y) :: l | [] => [x] end) as SA.
  { clear. induction x as [|c x IH]; intros rest N. cbn [app]. { destruct rest as [|c r]; cbn [split_at]. reflexivity. destruct (beq c sep); auto. destruct (split_at sep r); auto. }
    cbn [app split_at]. cbn [In] in N. unfold beq. destruct (Ascii.eqb_spec c sep); [subst; tauto|]. rewrite IH by tauto. destruct (split_at sep rest); reflexivity. }
  destruct l as [|y l].
  - cbn [joined]. rewrite <- (app_nil_r x) at 1. rewrite SA; auto. cbn [split_at]. now rewrite app_nil_r.
  - change (joined [sep] (x :: y :: l)) with (x ++ sep :: joined [sep] (y :: l)). rewrite SA; auto. cbn [split_at]. unfold beq. rewrite Ascii.eqb_refl.
    rewrite app_nil_r. f_equal. apply IH. split; [discriminate|]. auto.
Qed.

Lemma ts_fold_spec : forall l out, fold_left (fun out str => match str with [] => out | _ => out ++ B " & " ++ str ++ B ":*" end) l out
  = out ++ List.concat (map (fun w => lit " & " ++ w ++ lit ":*") (filter filled l)).
Proof.
  induction l as [|x l IH]; intros out. cbn. now rewrite app_nil_r. cbn [fold_left filter]. destruct x as [|c x]; cbn [filled]. apply IH.
  rewrite IH. cbn [map List.concat]. rewrite <- !app_assoc. reflexivity.
Qed.

Lemma joined_concat : forall sep x l, joined sep (x :: l) = x ++ List.concat (map (fun w => sep ++ w) l).
Proof.
  intros sep x l. revert x. induction l as [|y l IH]; intros x. cbn. now rewrite app_nil_r.
  change (joined sep (x :: y :: l)) with (x ++ sep ++ joined sep (y :: l)). rewrite IH. cbn [map List.concat]. now rewrite <- app_assoc.
Qed.

Lemma C48_text_search_query_proof : forall a t b words, Forall blank a -> Forall blank b -> trimmed t -> pieces " " words t ->
  toTSQuery (a ++ t ++ b) = joined (lit " & ") (map (fun w => w ++ lit ":*") (filter filled words)).
Proof.
  intros a t b words A B0 T P. unfold toTSQuery. rewrite trim_space_app by auto. rewrite (split_at_pieces _ words) by auto.
  destruct P as (N & F & E). destruct words as [|x l]; [congruence|]. rewrite ts_fold_spec. destruct x as [|c x].
  - destruct l as [|y l]; [reflexivity|]. exfalso. change (joined [" "] ([] :: y :: l)) with (" " :: joined [" "] (y :: l)) in E. subst t.
    destruct T as [T _]. apply T. cbn. tauto.
  - cbn [filter filled map]. rewrite joined_concat, map_map. reflexivity.
Qed.
