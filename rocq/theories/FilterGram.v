(** The WHERE clause as a boolean condition: proofs. *)
From Coq Require Import Ascii String ZArith NArith Bool List Lia.
From Verif Require Import GoBase Strconv StrconvProofs ConvertUtil ConvertProofs Codecs IntCodecs Filter PgSpec PgSpecProofs TextProofs DecimalLink MoneyProofs SqlSpec FilterProofs FilterRun.
Import ListNotations.
Local Open Scope char_scope.

(** *** conditions as sequences of nodes *)
Definition pred_node (n : node) : Prop :=
  match n with
  | NBinary _ _ _ | NText _ _ => True
  | NUnary _ w => In w (map lit ["IS NULL"; "IS NOT NULL"; "IS TRUE"; "IS NOT TRUE"; "IS FALSE"; "IS NOT FALSE"]%string)
  | NIn _ vals => vals <> []
  | NAny _ _ cast => In cast (map lit ["::int8[]"; "::int4[]"; "::int2[]"; "::text[]"]%string)
  | _ => False
  end.

Inductive cond : list node -> Prop :=
| cond_pred : forall n, pred_node n -> cond [n]
| cond_group : forall l, cond l -> cond (NLParen :: l ++ [NRParen])
| cond_and : forall a b, cond a -> cond b -> cond (a ++ NAnd :: b)
| cond_or : forall a b, cond a -> cond b -> cond (a ++ NOr :: b).

(** *** text of a condition *)
Definition node_words (n : node) : Prop :=
  match n with
  | NBinary col op _ => word col /\ is_operator op
  | NUnary col _ | NText col _ | NIn col _ | NAny col _ _ => word col
  | _ => True
  end.

Lemma all_text_app : forall a b p, all_text (a ++ b) p = all_text a p ++ all_text b (p + Z.of_nat (List.length (all_vals a))).
Proof.
  induction a as [|n a IH]; intros b p. cbn [app all_text all_vals flat_map List.length]. f_equal. lia.
  cbn [app all_text]. rewrite IH, <- app_assoc. do 2 f_equal. change (all_vals (n :: a)) with (node_vals n ++ all_vals a). rewrite app_length. f_equal. lia.
Qed.

Lemma par_is_param : forall i, is_param (par i).
Proof. intros i. exists (i + 1)%Z. unfold par. f_equal. apply format_int_spec. Qed.

Lemma concat_zrange1 : forall p, List.concat (map par (zrange p 1)) = par p.
Proof. intros. unfold zrange. cbn [seq map List.concat]. rewrite app_nil_r. f_equal. lia. Qed.

Lemma pred_text : forall n p, pred_node n -> node_words n ->
  is_predicate (node_text n (map par (zrange p (List.length (node_vals n))))).
Proof.
  intros n p P W. destruct n as [col op v|col pred|col v| | | | |col vals|col v cast]; try contradiction;
  cbn [pred_node node_words node_text node_vals List.length] in *; rewrite ?concat_zrange1.
  - destruct W. apply pr_cmp; auto. apply par_is_param.
  - assert (exists w, pred = lit "IS " ++ w /\ In w (map lit ["NULL"; "NOT NULL"; "TRUE"; "NOT TRUE"; "FALSE"; "NOT FALSE"]%string)) as (w & -> & I).
    { cbn [map In] in P. decompose [or] P; try contradiction; subst pred.
      exists (lit "NULL"). split; [reflexivity|]. cbn [map In]. auto.
      exists (lit "NOT NULL"). split; [reflexivity|]. cbn [map In]. auto.
      exists (lit "TRUE"). split; [reflexivity|]. cbn [map In]. auto.
      exists (lit "NOT TRUE"). split; [reflexivity|]. cbn [map In]. auto.
      exists (lit "FALSE"). split; [reflexivity|]. cbn [map In]. auto 6.
      exists (lit "NOT FALSE"). split; [reflexivity|]. cbn [map In]. auto 7. }
    exact (pr_is col w W I).
  - apply pr_ts; auto. apply par_is_param.
  - apply pr_in; auto.
    + destruct vals; [congruence|]. cbn [List.length]. rewrite zrange_S. discriminate.
    + apply Forall_forall. intros x I. apply in_map_iff in I. destruct I as (i & <- & _). apply par_is_param.
  - assert (exists ty, cast = lit "::" ++ ty ++ lit "[]" /\ In ty (map lit ["int8"; "int4"; "int2"; "text"]%string)) as (ty & -> & I).
    { cbn [map In] in P. decompose [or] P; try contradiction; subst cast.
      exists (lit "int8"). split; [reflexivity|]. cbn [map In]. auto.
      exists (lit "int4"). split; [reflexivity|]. cbn [map In]. auto.
      exists (lit "int2"). split; [reflexivity|]. cbn [map In]. auto.
      exists (lit "text"). split; [reflexivity|]. cbn [map In]. auto. }
    rewrite <- !app_assoc. apply (pr_any col (par p) ty); auto. apply par_is_param.
Qed.

Lemma cond_text : forall l, cond l -> forall p, Forall node_words l -> is_condition (all_text l p).
Proof.
  intros l C. induction C as [n P|l C IH|a b CA IA CB IB|a b CA IA CB IB]; intros p W.
  - cbn [all_text]. rewrite app_nil_r. apply cd_pred. apply pred_text; auto. now inversion W.
  - inversion W as [|? ? _ W']; subst. apply Forall_app in W'. destruct W' as [W' _].
    cbn [all_text node_text node_vals List.length]. rewrite all_text_app. cbn [all_text node_text app]. apply (cd_group (all_text l (p + Z.of_nat 0))). now apply IH.
  - apply Forall_app in W. destruct W as [W1 W2]. inversion W2; subst. rewrite all_text_app. cbn [all_text node_text].
    apply cd_and; auto.
  - apply Forall_app in W. destruct W as [W1 W2]. inversion W2; subst. rewrite all_text_app. cbn [all_text node_text].
    apply cd_or; auto.
Qed.

(** *** which call sequences give conditions *)
Inductive role := RNone | RConn | RPred.
Definition act_role (a : colact) : role := match a with ANone => RNone | AConn => RConn | APred _ => RPred end.

(** What Col does with an operator and a value. *)
Definition is_slice (v : gval) : bool := match v with GInt64s _ | GInts _ | GInt16s _ | GStrings _ => true | _ => false end.
Definition slice_len (v : gval) : nat :=
  match v with
  | GInt64s (Some l) | GInts (Some l) | GInt16s (Some l) => List.length l
  | GStrings (Some l) => List.length l
  | _ => 0
  end.
Definition col_role (op : bytes) (v : gval) : role :=
  if bytes_eqb (toupper op) (B "ANY") || bytes_eqb (toupper op) (B "IN") then (if is_slice v then RPred else RNone)
  else match v with
       | GNil | GBool _ => if bytes_eqb op (B "=") || bytes_eqb op (B "<>") then RPred else RConn
       | _ => RPred
       end.
Definition call_role (ts : bool) (k : call) : role :=
  match k with
  | KCol _ op v => col_role op v
  | KInInt64s _ _ | KInInts _ _ | KInInt16s _ _ | KInStrings _ _
  | KAnyInt64s _ _ | KAnyInts _ _ | KAnyInt16s _ _ | KAnyStrings _ _ => RPred
  | KTextSearch _ => if ts then RPred else RNone
  | KAnd None | KOr None => RConn
  | KAnd (Some _) | KOr (Some _) => RPred
  | _ => RNone
  end.

Definition step (ts : bool) (r : role) (k : call) : role := match call_role ts k with RNone => r | x => x end.
(** The role of the last call that concerns the WHERE clause. *)
Definition last_role (ts : bool) (l : list call) : role := fold_left (step ts) l RNone.
Definition ends_with_pred (ts : bool) (l : list call) : bool := match last_role ts l with RPred => true | _ => false end.

Definition nonempty {A} (l : slice A) : bool := match l with Some (_ :: _) => true | _ => false end.
Fixpoint proper (ts : bool) (k : call) : bool :=
  match k with
  | KCol _ op v => negb (bytes_eqb (toupper op) (B "IN") && is_slice v) || negb (Nat.eqb (slice_len v) 0)
  | KInInt64s _ l | KInInts _ l | KInInt16s _ l => nonempty l
  | KInStrings _ l => nonempty l
  | KAnd (Some l) | KOr (Some l) => forallb (proper ts) l && ends_with_pred ts l
  | _ => true
  end.

Definition pred_nodeb (n : node) : bool :=
  match n with
  | NBinary _ _ _ | NText _ _ => true
  | NUnary _ w => existsb (bytes_eqb w) (map lit ["IS NULL"; "IS NOT NULL"; "IS TRUE"; "IS NOT TRUE"; "IS FALSE"; "IS NOT FALSE"]%string)
  | NIn _ vals => negb (Nat.eqb (List.length vals) 0)
  | NAny _ _ cast => existsb (bytes_eqb cast) (map lit ["::int8[]"; "::int4[]"; "::int2[]"; "::text[]"]%string)
  | _ => false
  end.

Lemma existsb_bytes : forall w l, existsb (bytes_eqb w) l = true <-> In w l.
Proof.
  intros w l. rewrite existsb_exists. split.
  - intros (x & I & E). apply bytes_eqb_eq in E. now subst.
  - intros I. exists w. split; auto. now apply bytes_eqb_eq.
Qed.

Lemma pred_nodeb_spec : forall n, pred_nodeb n = true <-> pred_node n.
Proof.
  intros [col op v|col pred|col v| | | | |col vals|col v cast]; cbn [pred_nodeb pred_node]; try (split; [auto|reflexivity]); try (split; [discriminate|contradiction]); try apply existsb_bytes.
  destruct vals; cbn [List.length Nat.eqb negb]; split; congruence.
Qed.

(** The automaton that reads a condition: open groups, and whether an operand
    is expected. *)
Definition chk1 (n : node) (st : option (nat * bool)) : option (nat * bool) :=
  match st with
  | None => None
  | Some (d, e) =>
      match n with
      | NAnd | NOr => if e then None else Some (d, true)
      | NLParen => if e then Some (S d, true) else None
      | NRParen => if e then None else match d with S d' => Some (d', false) | O => None end
      | _ => if e && pred_nodeb n then Some (d, false) else None
      end
  end.
Definition chk (l : list node) (st : option (nat * bool)) : option (nat * bool) := fold_left (fun st n => chk1 n st) l st.

Lemma chk_app : forall a b st, chk (a ++ b) st = chk b (chk a st).
Proof. intros. unfold chk. apply fold_left_app. Qed.

Lemma chk_none : forall l, chk l None = None.
Proof. induction l; auto. Qed.

Lemma cond_chk : forall l, cond l -> forall d, chk l (Some (d, true)) = Some (d, false).
Proof.
  intros l C. induction C as [n P|l C IH|a b CA IA CB IB|a b CA IA CB IB]; intros d.
  - apply pred_nodeb_spec in P. cbn [chk fold_left]. destruct n; try discriminate; cbn [chk1 andb]; rewrite ?P; reflexivity.
  - change (NLParen :: l ++ [NRParen]) with ([NLParen] ++ l ++ [NRParen]). rewrite !chk_app. cbn [chk fold_left chk1]. fold (chk l). rewrite IH. reflexivity.
  - rewrite chk_app, IA. change (NAnd :: b) with ([NAnd] ++ b). rewrite chk_app. cbn [chk fold_left chk1]. fold (chk b). apply IB.
  - rewrite chk_app, IA. change (NOr :: b) with ([NOr] ++ b). rewrite chk_app. cbn [chk fold_left chk1]. fold (chk b). apply IB.
Qed.

Lemma chk_last : forall l d e, chk l (Some (0%nat, true)) = Some (d, e) -> e = negb (lastc l).
Proof.
  intros l. induction l as [|n l _] using rev_ind; intros d e H.
  - injection H as <- <-. reflexivity.
  - rewrite lastc_snoc. rewrite chk_app in H. cbn [chk fold_left] in H. fold (chk l) in H.
    destruct (chk l (Some (0%nat, true))) as [[d' e']|]; [|discriminate]. destruct n, e'; cbn [chk1 andb] in H;
    repeat match type of H with (if ?b then _ else _) = _ => destruct b | (match ?b with O => _ | S _ => _ end) = _ => destruct b end;
    try discriminate; injection H as <- <-; reflexivity.
Qed.

Definition start : option (nat * bool) := Some (0%nat, true).
Definition expects (r : role) (e : bool) : bool := match r with RNone => e | RConn => true | RPred => false end.

Lemma chk_act : forall a s d e, chk (f_where s) start = Some (d, e) ->
  chk (f_where (act a s)) start =
  match a with
  | APred n => if pred_nodeb n then Some (d, false) else chk1 n (Some (d, true))
  | _ => Some (d, expects (act_role a) e)
  end.
Proof.
  intros a s d e H. pose proof (chk_last _ _ _ H) as L. destruct a as [| |n]; cbn [act act_role expects].
  - exact H.
  - rewrite where_conn, chk_app, H. destruct (lastc (f_where s)); cbn [negb] in L; subst e; reflexivity.
  - rewrite where_pred, !chk_app, H. destruct (lastc (f_where s)); cbn [negb] in L; subst e; cbn [chk fold_left chk1];
    destruct n; cbn [pred_nodeb andb]; try reflexivity;
    match goal with |- context[if ?b then _ else _] => destruct b; reflexivity end.
Qed.

Definition has_ts (s : cst) : bool := match s_tscol s with [] => false | _ => true end.

Lemma in_eqb_any : forall o, bytes_eqb (toupper o) (B "ANY") = true -> bytes_eqb (toupper o) (B "IN") = false.
Proof. intros o H. apply bytes_eqb_eq in H. rewrite H. reflexivity. Qed.

Lemma leaf_role : forall k s, plain k = true -> (match k with KAnd _ | KOr _ => False | _ => True end) ->
  act_role (leaf_act (s_tscol s) k) = call_role (has_ts s) k
  /\ match leaf_act (s_tscol s) k with
     | APred n => pred_nodeb n = proper (has_ts s) k /\ (pred_nodeb n = false -> exists c vals, n = NIn c vals)
     | _ => proper (has_ts s) k = true
     end.
Proof.
  assert (forall A (f : A -> gval) c l, pred_nodeb (NIn c (map f (match l with Some v => v | None => [] end))) = nonempty l
     /\ (pred_nodeb (NIn c (map f (match l with Some v => v | None => [] end))) = false ->
         exists c' vals, NIn c (map f (match l with Some v => v | None => [] end)) = NIn c' vals)) as HIn.
  { intros A f c l. split; [|eauto]. cbn [pred_nodeb]. rewrite map_length. destruct l as [[|]|]; reflexivity. }
  assert (forall A (f : A -> gval) c l b, (nonempty l = b) -> pred_nodeb (NIn c (map f (match l with Some v => v | None => [] end))) = b
     /\ (pred_nodeb (NIn c (map f (match l with Some v => v | None => [] end))) = false ->
         exists c' vals, NIn c (map f (match l with Some v => v | None => [] end)) = NIn c' vals)) as HIn2.
  { intros A f c l b <-. apply HIn. }
  assert (forall A (l : slice A), nonempty l = negb (Nat.eqb (match l with Some v => List.length v | None => 0 end) 0)) as HN.
  { intros A [[|]|]; reflexivity. }
  intros k s P L. destruct k; try discriminate; try contradiction; cbn [leaf_act act_role call_role proper]; auto.
  - unfold col_act, col_role. destruct (bytes_eqb (toupper op) (B "ANY")) eqn:EA.
    { rewrite (in_eqb_any _ EA). cbn [orb andb negb]. destruct v; cbn [is_slice act_role pred_nodeb]; split; auto; split; auto; discriminate. }
    destruct (bytes_eqb (toupper op) (B "IN")) eqn:EI; cbn [orb andb negb].
    { destruct v; cbn [is_slice act_role negb orb]; split; auto; apply HIn2; rewrite HN; destruct l; reflexivity. }
    destruct v as [|[]| | | | | | | | | |]; cbn [act_role pred_nodeb]; try (split; [reflexivity|split; [reflexivity|discriminate]]);
    destruct (bytes_eqb op (B "=")); cbn [orb]; try (split; [reflexivity|split; [reflexivity|discriminate]]);
    destruct (bytes_eqb op (B "<>")); cbn [orb]; try (split; [reflexivity|split; [reflexivity|discriminate]]);
    split; reflexivity.
  - split; [reflexivity|]. split; [reflexivity|discriminate].
  - split; [reflexivity|]. split; [reflexivity|discriminate].
  - split; [reflexivity|]. split; [reflexivity|discriminate].
  - split; [reflexivity|]. split; [reflexivity|discriminate].
  - unfold has_ts. destruct (s_tscol s); cbn [act_role]; split; auto. split; [reflexivity|discriminate].
Qed.

(** Running a call in a state described by the automaton. *)
Definition run_chk (k : call) : Prop := forall s d e, plain k = true -> chk (f_where s) start = Some (d, e) ->
  chk (f_where (run k s)) start = if proper (has_ts s) k then Some (d, expects (call_role (has_ts s) k) e) else None.
Definition grows (k : call) : Prop := forall s, exists ext, f_where (run k s) = f_where s ++ ext.

Lemma act_grows : forall a s, exists ext, f_where (act a s) = f_where s ++ ext.
Proof.
  intros [| |n] s; cbn [act].
  - exists []. now rewrite app_nil_r.
  - rewrite where_conn. eauto.
  - rewrite where_pred. eauto.
Qed.

Lemma grows_fold : forall l, Forall grows l -> forall s, exists ext, f_where (fold_left (fun s k => run k s) l s) = f_where s ++ ext.
Proof.
  induction l as [|k l IH]; intros F s. exists []. now rewrite app_nil_r.
  inversion F as [|? ? F1 F2]; subst. cbn [fold_left]. destruct (IH F2 (run k s)) as [e1 E1]. destruct (F1 s) as [e2 E2].
  exists (e2 ++ e1). rewrite E1, E2. now rewrite <- app_assoc.
Qed.

Lemma fql_grows : forall toks bad s, exists ext, f_where (fst (fql_loop toks bad s)) = f_where s ++ ext.
Proof.
  induction toks as [|t toks IH]; intros bad s. exists []. now rewrite app_nil_r.
  assert (forall s', (exists e, f_where s' = f_where s ++ e) -> exists ext, f_where (fst (fql_loop toks bad s')) = f_where s ++ ext) as ST.
  { intros s' [e E]. destruct (IH bad s') as [e' E']. exists (e ++ e'). rewrite E', E. now rewrite <- app_assoc. }
  destruct t as [| | | |k cmp v]; cbn [fql_loop].
  - apply ST. cbn [push set_where f_where]. rewrite where_conn, <- app_assoc. eauto.
  - apply ST. cbn [push set_where f_where]. eauto.
  - apply ST. cbn [push set_where f_where]. eauto.
  - apply ST. cbn [push set_where f_where]. eauto.
  - destruct (lookup k (s_colmap s)) as [c|].
    + destruct (match c_conv c with Some f => f v | None => Ok v end) as [v'| |]; try (exists []; now rewrite app_nil_r).
      apply ST. rewrite Col_act. apply act_grows.
    + destruct (s_strict s). { exists []. now rewrite app_nil_r. } apply ST. exists []. now rewrite app_nil_r.
Qed.

Lemma nest_grows : forall l c s, Forall grows l -> exists ext,
  f_where (push NRParen (fold_left (fun s k => run k s) l (push NLParen (conn c s)))) = f_where s ++ ext.
Proof.
  intros l c s F. cbn [push set_where f_where]. destruct (grows_fold l F (push NLParen (conn c s))) as [e E]. rewrite E.
  cbn [push set_where f_where]. rewrite where_conn, <- !app_assoc. eauto.
Qed.

Lemma run_grows : forall k, grows k.
Proof.
  intros k. induction k as [o IH|o IH|k L] using call_nest_ind; intros s.
  - destruct o as [l|]; cbn [run nest_ok] in *. now apply nest_grows. rewrite where_conn. eauto.
  - destruct o as [l|]; cbn [run nest_ok] in *. now apply nest_grows. rewrite where_conn. eauto.
  - destruct (plain k) eqn:P.
    + destruct (leaf_where k s P L) as [A _]. rewrite A. apply act_grows.
    + destruct k; try discriminate; try contradiction; cbn [run]. apply fql_grows. exists []. now rewrite app_nil_r.
Qed.

Lemma chk_runs_none : forall l s, chk (f_where s) start = None -> chk (f_where (fold_left (fun s k => run k s) l s)) start = None.
Proof.
  intros l s H. destruct (grows_fold l) with (s := s) as [e E]. { apply Forall_forall. intros k _. apply run_grows. }
  rewrite E, chk_app, H. apply chk_none.
Qed.

Lemma conn_ts : forall n s, s_tscol (conn n s) = s_tscol s.
Proof. intros. unfold conn. destruct (canAndOr s); reflexivity. Qed.

Lemma ts_fold : forall l, Forall (fun k => forall s, plain k = true -> s_tscol (run k s) = s_tscol s) l ->
  forall s, forallb plain l = true -> s_tscol (fold_left (fun s k => run k s) l s) = s_tscol s.
Proof.
  induction l as [|k l IH]; intros F s P. reflexivity.
  inversion F; subst. cbn [forallb] in P. apply andb_prop in P. destruct P. cbn [fold_left]. rewrite IH; auto.
Qed.

Lemma ts_run : forall k s, plain k = true -> s_tscol (run k s) = s_tscol s.
Proof.
  intros k. induction k as [o IH|o IH|k L] using call_nest_ind; intros s P.
  - destruct o as [l|]; cbn [run plain nest_ok] in *. 2: apply conn_ts.
    cbn [push set_where s_tscol]. rewrite ts_fold; auto. cbn [push set_where s_tscol]. apply conn_ts.
  - destruct o as [l|]; cbn [run plain nest_ok] in *. 2: apply conn_ts.
    cbn [push set_where s_tscol]. rewrite ts_fold; auto. cbn [push set_where s_tscol]. apply conn_ts.
  - now apply leaf_where.
Qed.

Lemma has_ts_run : forall k s, plain k = true -> has_ts (run k s) = has_ts s.
Proof. intros. unfold has_ts. now rewrite ts_run. Qed.

Lemma runs_chk : forall l, Forall run_chk l -> forall s d r e0, forallb plain l = true ->
  chk (f_where s) start = Some (d, expects r e0) ->
  chk (f_where (fold_left (fun s k => run k s) l s)) start
  = if forallb (proper (has_ts s)) l then Some (d, expects (fold_left (step (has_ts s)) l r) e0) else None.
Proof.
  induction l as [|k l IH]; intros F s d r e0 P H. exact H.
  inversion F as [|? ? F1 F2]; subst. cbn [forallb] in P. apply andb_prop in P. destruct P as [P1 P2].
  pose proof (F1 s d (expects r e0) P1 H) as C. cbn [fold_left forallb].
  destruct (proper (has_ts s) k).
  - cbn [andb]. pose proof (has_ts_run k s P1) as TS.
    rewrite <- TS. apply IH; auto.
    rewrite C, TS. unfold step. destruct (call_role (has_ts s) k); reflexivity.
  - cbn [andb]. now apply chk_runs_none.
Qed.

Lemma push_where : forall n s, f_where (push n s) = f_where s ++ [n].
Proof. reflexivity. Qed.

Lemma nest_chk : forall l c s d e, Forall run_chk l -> forallb plain l = true -> (c = NAnd \/ c = NOr) ->
  chk (f_where s) start = Some (d, e) ->
  chk (f_where (push NRParen (fold_left (fun s k => run k s) l (push NLParen (conn c s))))) start
  = if forallb (proper (has_ts s)) l && ends_with_pred (has_ts s) l then Some (d, false) else None.
Proof.
  intros l c s d e F P C H.
  assert (chk (f_where (push NLParen (conn c s))) start = Some (S d, true)) as H1.
  { pose proof (chk_last _ _ _ H) as L. cbn [push set_where f_where]. rewrite where_conn, !chk_app, H.
    destruct (lastc (f_where s)); cbn [negb] in L; subst e. destruct C; subst; reflexivity. reflexivity. }
  rewrite push_where, chk_app.
  pose proof (runs_chk l F (push NLParen (conn c s)) (S d) RNone true P H1) as R.
  assert (has_ts (push NLParen (conn c s)) = has_ts s) as TS by (unfold has_ts; cbn [push set_where s_tscol]; now rewrite conn_ts).
  rewrite R, TS.
  unfold ends_with_pred, last_role. destruct (forallb (proper (has_ts s)) l); [|reflexivity]. cbn [andb].
  destruct (fold_left (step (has_ts s)) l RNone); reflexivity.
Qed.

Lemma run_chk_all : forall k, run_chk k.
Proof.
  intros k. induction k as [o IH|o IH|k L] using call_nest_ind; intros s d e P H.
  - destruct o as [l|]; cbn [run plain nest_ok proper call_role expects] in *. now apply nest_chk with (e := e); auto.
    exact (chk_act AConn s d e H).
  - destruct o as [l|]; cbn [run plain nest_ok proper call_role expects] in *. now apply nest_chk with (e := e); auto.
    pose proof (chk_last _ _ _ H) as LL. rewrite where_conn, chk_app, H. destruct (lastc (f_where s)); cbn [negb] in LL; subst e; reflexivity.
  - destruct (leaf_where k s P L) as [A _]. rewrite A, (chk_act _ s d e H).
    destruct (leaf_role k s P L) as [R S]. rewrite <- R. destruct (leaf_act (s_tscol s) k) as [| |n]; cbn [act_role] in *; try (now rewrite S).
    destruct S as [S1 S2]. rewrite <- S1. destruct (pred_nodeb n) eqn:E; [reflexivity|]. destruct (S2 eq_refl) as (c & vals & ->).
    cbn [chk1]. rewrite E. reflexivity.
Qed.

(** *** proper sequences give conditions *)
Definition shape (r : role) (ext : list node) : Prop :=
  match r with
  | RNone => ext = []
  | RConn => ext = [] \/ exists g c, (c = NAnd \/ c = NOr) /\ cond g /\ ext = g ++ [c]
  | RPred => cond ext
  end.

Definition run_cond (k : call) : Prop := forall s w ext r, plain k = true -> proper (has_ts s) k = true ->
  f_where s = w ++ ext -> lastc w = false -> shape r ext ->
  exists ext', f_where (run k s) = w ++ ext' /\ shape (match call_role (has_ts s) k with RNone => r | x => x end) ext'.

Lemma cond_lastc : forall g, cond g -> forall w, lastc (w ++ g) = true.
Proof.
  intros g C. induction C as [n P|l C IH|a b CA IA CB IB|a b CA IA CB IB]; intros w.
  - rewrite lastc_snoc. destruct n; try contradiction; reflexivity.
  - change (NLParen :: l ++ [NRParen]) with ((NLParen :: l) ++ [NRParen]). rewrite app_assoc, lastc_snoc. reflexivity.
  - change (a ++ NAnd :: b) with (a ++ [NAnd] ++ b). rewrite !app_assoc. apply IB.
  - change (a ++ NOr :: b) with (a ++ [NOr] ++ b). rewrite !app_assoc. apply IB.
Qed.

Lemma shape_lastc : forall r w ext, lastc w = false -> shape r ext -> lastc (w ++ ext) = match r with RPred => true | _ => false end.
Proof.
  intros r w ext L S. destruct r; cbn [shape] in S.
  - subst. now rewrite app_nil_r.
  - destruct S as [->|(g & c & C & _ & ->)]. now rewrite app_nil_r. rewrite app_assoc, lastc_snoc. destruct C; subst; reflexivity.
  - now apply cond_lastc.
Qed.

Lemma shape_join : forall r w ext c g, lastc w = false -> shape r ext -> (c = NAnd \/ c = NOr) -> cond g ->
  exists ext', (w ++ ext) ++ (if lastc (w ++ ext) then [c] else []) ++ g = w ++ ext' /\ cond ext'.
Proof.
  intros r w ext c g L S C G. rewrite (shape_lastc r w ext L S). destruct r; cbn [shape] in S.
  - subst. rewrite app_nil_r. exists g. auto.
  - destruct S as [->|(g0 & c0 & C0 & G0 & ->)]. rewrite app_nil_r. exists g. auto.
    exists (g0 ++ c0 :: g). split. rewrite <- !app_assoc. reflexivity. destruct C0; subst. now apply cond_and. now apply cond_or.
  - exists (ext ++ c :: g). split. rewrite <- !app_assoc. reflexivity. destruct C; subst. now apply cond_and. now apply cond_or.
Qed.

Lemma shape_conn : forall r w ext c, lastc w = false -> shape r ext -> (c = NAnd \/ c = NOr) ->
  exists ext', (w ++ ext) ++ (if lastc (w ++ ext) then [c] else []) = w ++ ext' /\ shape RConn ext'.
Proof.
  intros r w ext c L S C. rewrite (shape_lastc r w ext L S). destruct r; cbn [shape] in *.
  - subst. exists []. rewrite !app_nil_r. auto.
  - exists ext. rewrite app_nil_r. auto.
  - exists (ext ++ [c]). rewrite app_assoc. split; auto. right. exists ext, c. auto.
Qed.

Lemma runs_cond : forall l, Forall run_cond l -> forall s w ext r, forallb plain l = true -> forallb (proper (has_ts s)) l = true ->
  f_where s = w ++ ext -> lastc w = false -> shape r ext ->
  exists ext', f_where (fold_left (fun s k => run k s) l s) = w ++ ext' /\ shape (fold_left (step (has_ts s)) l r) ext'.
Proof.
  induction l as [|k l IH]; intros F s w ext r P Q W L S. exists ext. auto.
  inversion F as [|? ? F1 F2]; subst. cbn [forallb] in P, Q. apply andb_prop in P, Q. destruct P as [P1 P2], Q as [Q1 Q2].
  destruct (F1 s w ext r P1 Q1 W L S) as (e1 & E1 & S1). cbn [fold_left].
  rewrite <- (has_ts_run k s P1) in Q2 |- *. eapply IH; eauto. unfold step. rewrite (has_ts_run k s P1). exact S1.
Qed.

Lemma nest_cond : forall l c s w ext r, Forall run_cond l -> forallb plain l = true ->
  forallb (proper (has_ts s)) l && ends_with_pred (has_ts s) l = true -> (c = NAnd \/ c = NOr) ->
  f_where s = w ++ ext -> lastc w = false -> shape r ext ->
  exists ext', f_where (push NRParen (fold_left (fun s k => run k s) l (push NLParen (conn c s)))) = w ++ ext' /\ cond ext'.
Proof.
  intros l c s w ext r F P Q C W L S. apply andb_prop in Q. destruct Q as [Q1 Q2].
  assert (has_ts (push NLParen (conn c s)) = has_ts s) as TS by (unfold has_ts; cbn [push set_where s_tscol]; now rewrite conn_ts).
  destruct (runs_cond l F (push NLParen (conn c s)) (f_where (push NLParen (conn c s))) [] RNone P) as (e & E & SE).
  { now rewrite TS. } { now rewrite app_nil_r. } { cbn [push set_where f_where]. apply lastc_snoc. } { reflexivity. }
  rewrite TS in SE. unfold ends_with_pred, last_role in Q2. destruct (fold_left (step (has_ts s)) l RNone); try discriminate.
  rewrite push_where, E, push_where, where_conn, W.
  destruct (shape_join r w ext c (NLParen :: e ++ [NRParen]) L S C (cond_group e SE)) as (e' & E' & CE).
  exists e'. split; auto. rewrite <- E'. rewrite <- !app_assoc. reflexivity.
Qed.

Lemma run_cond_all : forall k, run_cond k.
Proof.
  intros k. induction k as [o IH|o IH|k L] using call_nest_ind; intros s w ext r P Q W LC S.
  - destruct o as [l|]; cbn [run plain nest_ok proper call_role] in *. now apply nest_cond with (ext := ext) (r := r); auto.
    rewrite where_conn, W. apply (shape_conn r); auto.
  - destruct o as [l|]; cbn [run plain nest_ok proper call_role] in *. now apply nest_cond with (ext := ext) (r := r); auto.
    rewrite where_conn, W. apply (shape_conn r); auto.
  - destruct (leaf_where k s P L) as [A _]. rewrite A.
    destruct (leaf_role k s P L) as [R S']. rewrite <- R. destruct (leaf_act (s_tscol s) k) as [| |n]; cbn [act_role act] in *.
    + exists ext. auto.
    + rewrite where_conn, W. apply (shape_conn r); auto.
    + destruct S' as [S1 S2]. rewrite Q in S1. apply pred_nodeb_spec in S1. rewrite where_pred, W.
      apply (shape_join r w ext NAnd [n] LC S); auto. now apply cond_pred.
Qed.

(** *** parentheses *)
Fixpoint depth (l : list node) (d : Z) : option Z :=
  match l with
  | [] => Some d
  | NLParen :: r => depth r (d + 1)
  | NRParen :: r => if (0 <? d)%Z then depth r (d - 1) else None
  | _ :: r => depth r d
  end.
Lemma depth_app : forall a b d, depth (a ++ b) d = match depth a d with Some x => depth b x | None => None end.
Proof.
  induction a as [|n a IH]; intros b d. reflexivity. cbn [app depth]. destruct n; try apply IH.
  destruct (0 <? d)%Z; auto.
Qed.
