(** How the Constructor's methods change the filter. *)
From Coq Require Import Ascii String ZArith NArith Bool List Lia.
From Verif Require Import GoBase Strconv StrconvProofs ConvertUtil ConvertProofs Codecs IntCodecs Filter PgSpec PgSpecProofs TextProofs DecimalLink MoneyProofs SqlSpec FilterProofs.
Import ListNotations.
Local Open Scope char_scope.

(** *** induction over calls and their nests *)
Section CallInd.
  Variable P : call -> Prop.
  Definition nest_ok (o : option (list call)) : Prop := match o with Some l => Forall P l | None => True end.
  Hypothesis HAnd : forall o, nest_ok o -> P (KAnd o).
  Hypothesis HOr : forall o, nest_ok o -> P (KOr o).
  Hypothesis HLeaf : forall k, (match k with KAnd _ | KOr _ => False | _ => True end) -> P k.
  Fixpoint call_nest_ind (k : call) : P k :=
    match k with
    | KAnd (Some l) => HAnd (Some l) ((fix go l := match l return Forall P l with [] => Forall_nil P | x :: r => Forall_cons x (call_nest_ind x) (go r) end) l)
    | KAnd None => HAnd None I
    | KOr (Some l) => HOr (Some l) ((fix go l := match l return Forall P l with [] => Forall_nil P | x :: r => Forall_cons x (call_nest_ind x) (go r) end) l)
    | KOr None => HOr None I
    | k => HLeaf k I
    end.
End CallInd.

(** *** the last node *)
Definition lastc (l : list node) : bool := match rev l with [] => false | n :: _ => node_canAndOr n end.

Lemma lastc_snoc : forall l n, lastc (l ++ [n]) = node_canAndOr n.
Proof. intros. unfold lastc. rewrite rev_unit. reflexivity. Qed.

Lemma canAndOr_lastc : forall s, canAndOr s = lastc (f_where s).
Proof. reflexivity. Qed.

Lemma adj_snoc : forall l n, adj (l ++ [n]) = adj l && (negb (lastc l) || follower n).
Proof.
  induction l as [|x l IH]; intros n. reflexivity.
  cbn [app adj]. destruct l as [|y l].
  - cbn [app adj]. change (lastc [x]) with (node_canAndOr x). cbn [andb]. now rewrite andb_true_r.
  - change ((y :: l) ++ [n]) with (y :: l ++ [n]). cbv iota beta. rewrite <- andb_assoc. f_equal.
    change (y :: l ++ [n]) with ((y :: l) ++ [n]). rewrite IH. f_equal. f_equal. f_equal. unfold lastc.
    cbn [rev]. destruct (rev l ++ [y]) eqn:E. { destruct (rev l); discriminate. } reflexivity.
Qed.

Lemma where_conn : forall n s, f_where (conn n s) = f_where s ++ (if lastc (f_where s) then [n] else []).
Proof. intros. unfold conn. rewrite canAndOr_lastc. destruct (lastc _). reflexivity. now rewrite app_nil_r. Qed.

Lemma where_pred : forall n s, f_where (pred n s) = f_where s ++ (if lastc (f_where s) then [NAnd] else []) ++ [n].
Proof. intros. unfold pred, push. cbn [f_where set_where]. rewrite where_conn, <- app_assoc. reflexivity. Qed.

(** What a call of Col does. *)
Inductive colact := ANone | AConn | APred (n : node).
Definition col_act (col op : bytes) (v : gval) : colact :=
  if bytes_eqb (toupper op) (B "ANY") then
    match v with
    | GInt64s l => APred (NAny col (GValuer (IntArrayFrom l)) (B "::int8[]"))
    | GInts l => APred (NAny col (GValuer (IntArrayFrom l)) (B "::int4[]"))
    | GInt16s l => APred (NAny col (GValuer (IntArrayFrom l)) (B "::int2[]"))
    | GStrings l => APred (NAny col (GValuer (TextArrayFromStringSlice l)) (B "::text[]"))
    | _ => ANone
    end
  else if bytes_eqb (toupper op) (B "IN") then
    match v with
    | GInt64s l => APred (NIn col (map GInt64 (match l with Some v => v | None => [] end)))
    | GInts l => APred (NIn col (map GInt (match l with Some v => v | None => [] end)))
    | GInt16s l => APred (NIn col (map GInt16 (match l with Some v => v | None => [] end)))
    | GStrings l => APred (NIn col (map GString (match l with Some v => v | None => [] end)))
    | _ => ANone
    end
  else match v with
       | GNil => if bytes_eqb op (B "=") then APred (NUnary col (B "IS NULL"))
                 else if bytes_eqb op (B "<>") then APred (NUnary col (B "IS NOT NULL")) else AConn
       | GBool true => if bytes_eqb op (B "=") then APred (NUnary col (B "IS TRUE"))
                 else if bytes_eqb op (B "<>") then APred (NUnary col (B "IS NOT TRUE")) else AConn
       | GBool false => if bytes_eqb op (B "=") then APred (NUnary col (B "IS FALSE"))
                 else if bytes_eqb op (B "<>") then APred (NUnary col (B "IS NOT FALSE")) else AConn
       | _ => APred (NBinary col op v)
       end.
Definition act (a : colact) (s : cst) : cst :=
  match a with ANone => s | AConn => conn NAnd s | APred n => pred n s end.

Lemma Col_act : forall col op v s, Col col op v s = act (col_act col op v) s.
Proof.
  intros. unfold Col, col_act, unary. destruct (bytes_eqb (toupper op) (B "ANY")). { destruct v; reflexivity. }
  destruct (bytes_eqb (toupper op) (B "IN")). { destruct v; reflexivity. }
  destruct v as [|[]| | | | | | | | | |]; try reflexivity;
  destruct (bytes_eqb op (B "=")); try reflexivity; destruct (bytes_eqb op (B "<>")); reflexivity.
Qed.

(** Every leaf call as an action on the WHERE clause. *)
Definition leaf_act (ts : bytes) (k : call) : colact :=
  match k with
  | KCol c o v => col_act c o v
  | KInInt64s c l => APred (NIn c (map GInt64 (match l with Some v => v | None => [] end)))
  | KInInts c l => APred (NIn c (map GInt (match l with Some v => v | None => [] end)))
  | KInInt16s c l => APred (NIn c (map GInt16 (match l with Some v => v | None => [] end)))
  | KInStrings c l => APred (NIn c (map GString (match l with Some v => v | None => [] end)))
  | KAnyInt64s c l => APred (NAny c (GValuer (IntArrayFrom l)) (B "::int8[]"))
  | KAnyInts c l => APred (NAny c (GValuer (IntArrayFrom l)) (B "::int4[]"))
  | KAnyInt16s c l => APred (NAny c (GValuer (IntArrayFrom l)) (B "::int2[]"))
  | KAnyStrings c l => APred (NAny c (GValuer (TextArrayFromStringSlice l)) (B "::text[]"))
  | KTextSearch v => match ts with [] => ANone | _ => APred (NText ts v) end
  | _ => ANone
  end.

Lemma sort_loop_where : forall str st d k s, f_where (fst (sort_loop str st d k s)) = f_where s
  /\ s_tscol (fst (sort_loop str st d k s)) = s_tscol s /\ s_colmap (fst (sort_loop str st d k s)) = s_colmap s
  /\ s_strict (fst (sort_loop str st d k s)) = s_strict s
  /\ f_limit (fst (sort_loop str st d k s)) = f_limit s /\ f_offset (fst (sort_loop str st d k s)) = f_offset s.
Proof.
  assert (forall d k s, f_where (fst (sort_key d k s)) = f_where s /\ s_tscol (fst (sort_key d k s)) = s_tscol s
     /\ s_colmap (fst (sort_key d k s)) = s_colmap s /\ s_strict (fst (sort_key d k s)) = s_strict s
     /\ f_limit (fst (sort_key d k s)) = f_limit s /\ f_offset (fst (sort_key d k s)) = f_offset s) as K.
  { intros d k s. unfold sort_key. destruct k; [conjs; reflexivity|]. destruct (lookup _ _); conjs; reflexivity. }
  induction str as [|c r IH]; intros st d k s; cbn [sort_loop]. apply K.
  destruct (beq c ",").
  - pose proof (K d k s) as K1. destruct (sort_key d k s) as [s1 e1]. cbn [fst] in K1. destruct K1 as (K1 & K2 & K3 & K4 & K5 & K6).
    destruct e1. { cbn [fst]. auto 10. }
    destruct (IH true false [] s1) as (I1 & I2 & I3 & I4 & I5 & I6). conjs; congruence.
  - destruct (st && beq c "-"); apply IH.
Qed.

(** Calls that use neither FQL nor Init. *)
Fixpoint plain (k : call) : bool :=
  match k with
  | KFQL _ _ | KInit _ _ => false
  | KAnd (Some l) | KOr (Some l) => forallb plain l
  | _ => true
  end.

Lemma act_rest : forall a s, s_tscol (act a s) = s_tscol s /\ s_colmap (act a s) = s_colmap s /\ s_strict (act a s) = s_strict s
  /\ f_orderby (act a s) = f_orderby s /\ f_limit (act a s) = f_limit s /\ f_offset (act a s) = f_offset s.
Proof.
  intros [| |n] s; cbn [act]; unfold pred, conn; destruct (canAndOr s); conjs; reflexivity.
Qed.

Lemma leaf_where : forall k s, plain k = true -> (match k with KAnd _ | KOr _ => False | _ => True end) ->
  f_where (run k s) = f_where (act (leaf_act (s_tscol s) k) s) /\ s_tscol (run k s) = s_tscol s.
Proof.
  intros k s P L. destruct k; try discriminate; try contradiction; cbn [run leaf_act]; try (conjs; reflexivity).
  - rewrite Col_act. split; [reflexivity|]. apply act_rest.
  - unfold ColInInt64s, ColIn. split; [reflexivity|]. apply (act_rest (APred _)).
  - unfold ColInInts, ColIn. split; [reflexivity|]. apply (act_rest (APred _)).
  - unfold ColInInt16s, ColIn. split; [reflexivity|]. apply (act_rest (APred _)).
  - unfold ColInStrings, ColIn. split; [reflexivity|]. apply (act_rest (APred _)).
  - unfold ColAnyInt64s, ColIn. split; [reflexivity|]. apply (act_rest (APred _)).
  - unfold ColAnyInts, ColIn. split; [reflexivity|]. apply (act_rest (APred _)).
  - unfold ColAnyInt16s, ColIn. split; [reflexivity|]. apply (act_rest (APred _)).
  - unfold ColAnyStrings, ColIn. split; [reflexivity|]. apply (act_rest (APred _)).
  - unfold TextSearch. destruct (s_tscol s) as [|c ts] eqn:E; split; auto.
    rewrite <- E at 2. apply (act_rest (APred (NText (c :: ts) v)) s).
  - unfold Limit. destruct (0 <? n)%Z; conjs; reflexivity.
  - unfold Offset. destruct (0 <? n)%Z; conjs; reflexivity.
  - unfold Page. destruct ((0 <? n) && (0 <=? f_limit s))%Z; conjs; reflexivity.
  - unfold UnmarshalSort. destruct (sort_loop_where str true false [] s) as (A & A2 & _). auto.
Qed.

(** *** invariants: neighbours and dollar signs *)
Definition clean_map (m : list (bytes * column)) : Prop := Forall (fun kc => nodollar (c_name (snd kc))) m.

Fixpoint dollar_free (k : call) : Prop :=
  match k with
  | KCol c o _ => nodollar c /\ nodollar o
  | KInInt64s c _ | KInInts c _ | KInInt16s c _ | KInStrings c _
  | KAnyInt64s c _ | KAnyInts c _ | KAnyInt16s c _ | KAnyStrings c _ => nodollar c
  | KAnd (Some l) | KOr (Some l) => (fix all l := match l with [] => True | x :: r => dollar_free x /\ all r end) l
  | KOrderBy c _ _ | KOrderByV2 c _ _ _ => nodollar c
  | KFQL toks _ => Forall (fun t => match t with TRule _ cmp _ => nodollar cmp | _ => True end) toks
  | KInit m ts => clean_map m /\ nodollar ts
  | _ => True
  end.

Lemma dollar_free_all : forall l, (fix all l := match l with [] => True | x :: r => dollar_free x /\ all r end) l <-> Forall dollar_free l.
Proof.
  induction l as [|x l IH]. split; auto. split.
  - intros [A C]. constructor; auto. now apply IH.
  - intros F. inversion F; subst. split; auto. now apply IH.
Qed.

Record inv (s : cst) : Prop := {
  inv_adj : adj (f_where s) = true;
  inv_nodes : Forall node_nodollar (f_where s);
  inv_order : nodollar (f_orderby s);
  inv_map : clean_map (s_colmap s);
  inv_ts : nodollar (s_tscol s) }.

Lemma inv_zero : inv zero_cst.
Proof. constructor; cbn; auto; try (intros []); constructor. Qed.

Lemma inv_push : forall n s, inv s -> node_nodollar n -> (lastc (f_where s) = true -> follower n = true) -> inv (push n s).
Proof.
  intros n s [A N O M T] C F. constructor; cbn [push set_where f_where f_orderby s_colmap s_tscol]; auto.
  - rewrite adj_snoc, A. cbn [andb]. destruct (lastc (f_where s)); auto.
  - apply Forall_app. auto.
Qed.

Lemma inv_conn : forall n s, inv s -> (n = NAnd \/ n = NOr) -> inv (conn n s) /\ lastc (f_where (conn n s)) = false.
Proof.
  intros n s I C. unfold conn. rewrite canAndOr_lastc. destruct (lastc (f_where s)) eqn:E.
  - split. apply inv_push; auto; destruct C; subst; exact Logic.I || reflexivity.
    cbn [push set_where f_where]. rewrite lastc_snoc. destruct C; subst; reflexivity.
  - auto.
Qed.

Lemma inv_pred : forall n s, inv s -> node_nodollar n -> inv (pred n s).
Proof.
  intros n s I C. unfold pred. destruct (inv_conn NAnd s I (or_introl eq_refl)) as [A L]. apply inv_push; auto. rewrite L. discriminate.
Qed.

Definition act_clean (a : colact) : Prop := match a with APred n => node_nodollar n | _ => True end.

Lemma inv_act : forall a s, inv s -> act_clean a -> inv (act a s).
Proof. intros [| |n] s I C; cbn [act]; auto. apply inv_conn; auto. now apply inv_pred. Qed.

Lemma any_clean : forall c v t, nodollar c -> In t ["::int8[]"; "::int4[]"; "::int2[]"; "::text[]"]%string -> node_nodollar (NAny c v (B t)).
Proof.
  intros c v t C I. cbn [In] in I. cbn [node_nodollar].
  conjs; auto; destruct I as [<-|[<-|[<-|[<-|[]]]]]; try reflexivity; apply nodollar_lit; reflexivity.
Qed.

Lemma col_act_clean : forall c o v, nodollar c -> nodollar o -> act_clean (col_act c o v).
Proof.
  intros c o v C O. unfold col_act. destruct (bytes_eqb (toupper o) (B "ANY")).
  { destruct v; try exact I; apply any_clean; auto; cbn [In]; auto. }
  destruct (bytes_eqb (toupper o) (B "IN")).
  { destruct v; try exact I; exact C. }
  assert (forall w, existsb (fun c => Ascii.eqb c "$") (lit w) = false -> act_clean (APred (NUnary c (B w)))) as U.
  { intros w W. split; auto. apply nodollar_lit. exact W. }
  destruct v as [|[]| | | | | | | | | |]; cbn [act_clean node_nodollar]; auto;
  destruct (bytes_eqb o (B "=")); try (apply U; reflexivity); destruct (bytes_eqb o (B "<>")); try (apply U; reflexivity); exact I.
Qed.

Lemma lookup_clean : forall k m c, clean_map m -> lookup k m = Some c -> nodollar (c_name c).
Proof.
  intros k m c. induction m as [|[k' c'] m IH]; intros M L; cbn [lookup] in L. discriminate.
  inversion M as [|? ? M1 M2]; subst. destruct (bytes_eqb k k'). injection L as <-. exact M1. now apply IH.
Qed.

Lemma order_item_clean : forall c d n, nodollar c -> nodollar n -> nodollar (order_item c d n).
Proof.
  intros. unfold order_item. apply nodollar_app; auto. apply nodollar_app; auto. destruct d; apply nodollar_lit; reflexivity.
Qed.

Lemma inv_add_order : forall it s, inv s -> nodollar it -> inv (add_order it s).
Proof.
  intros it s [A N O M T] C. constructor; cbn [add_order set_orderby f_where f_orderby s_colmap s_tscol]; auto.
  destruct (f_orderby s) as [|c o]; auto. apply nodollar_app; auto. apply nodollar_app; auto. apply nodollar_lit; reflexivity.
Qed.

Lemma nulls_clean : forall b, nodollar (nulls_text b).
Proof. intros []; apply nodollar_lit; reflexivity. Qed.

Lemma nodollar_nil : nodollar [].
Proof. intros []. Qed.

Lemma inv_sort_key : forall d k s, inv s -> inv (fst (sort_key d k s)).
Proof.
  intros d k s I. unfold sort_key. destruct k as [|a k]; [exact I|].
  destruct (lookup (a :: k) (s_colmap s)) as [c|] eqn:L; [|exact I].
  cbn [fst]. unfold OrderByV2. apply inv_add_order; auto. apply order_item_clean.
  eapply lookup_clean. apply (inv_map _ I). exact L. destruct (c_nullable c). apply nulls_clean. apply nodollar_nil.
Qed.

Lemma inv_sort : forall str st d k s, inv s -> inv (fst (sort_loop str st d k s)).
Proof.
  induction str as [|c r IH]; intros st d k s I; cbn [sort_loop]. now apply inv_sort_key.
  destruct (beq c ",").
  - pose proof (inv_sort_key d k s I) as K. destruct (sort_key d k s) as [s1 e1]. cbn [fst] in K. destruct e1; auto.
  - destruct (st && beq c "-"); apply IH; auto.
Qed.

Lemma inv_fql : forall toks bad s, inv s -> Forall (fun t => match t with TRule _ cmp _ => nodollar cmp | _ => True end) toks ->
  inv (fst (fql_loop toks bad s)).
Proof.
  induction toks as [|t toks IH]; intros bad s I F. exact I.
  inversion F as [|? ? F1 F2]; subst. destruct t as [| | | |k cmp v]; cbn [fql_loop].
  - apply IH; auto. destruct (inv_conn NAnd s I (or_introl eq_refl)) as [A L]. apply inv_push; cbn [node_nodollar]; auto. rewrite L. discriminate.
  - apply IH; auto. apply inv_push; cbn [node_nodollar]; auto.
  - apply IH; auto. apply inv_push; cbn [node_nodollar]; auto.
  - apply IH; auto. apply inv_push; cbn [node_nodollar]; auto.
  - destruct (lookup k (s_colmap s)) as [c|] eqn:L.
    + destruct (match c_conv c with Some f => f v | None => Ok v end) as [v'| |]; try exact I.
      apply IH; auto. rewrite Col_act. apply inv_act; auto. apply col_act_clean; auto. eapply lookup_clean. apply (inv_map _ I). exact L.
    + destruct (s_strict s); auto.
Qed.

Lemma inv_limits : forall l o s, inv s -> inv (set_limits l o s).
Proof. intros l o s [A N O M T]. constructor; auto. Qed.

Lemma inv_fold : forall l, Forall (fun k => forall s, dollar_free k -> inv s -> inv (run k s)) l ->
  forall s, Forall dollar_free l -> inv s -> inv (fold_left (fun s k => run k s) l s).
Proof.
  induction l as [|k l IH]; intros F s D I. exact I.
  inversion F; subst. inversion D; subst. cbn [fold_left]. apply IH; auto.
Qed.

Lemma inv_nest : forall l c s, Forall (fun k => forall s, dollar_free k -> inv s -> inv (run k s)) l ->
  Forall dollar_free l -> (c = NAnd \/ c = NOr) -> inv s ->
  inv (push NRParen (fold_left (fun s k => run k s) l (push NLParen (conn c s)))).
Proof.
  intros l c s F D C I. apply inv_push; cbn [node_nodollar]; auto. apply inv_fold; auto.
  destruct (inv_conn c s I C) as [A L]. apply inv_push; cbn [node_nodollar]; auto. rewrite L. discriminate.
Qed.

Lemma inv_run : forall k s, dollar_free k -> inv s -> inv (run k s).
Proof.
  intros k. induction k as [o IH|o IH|k L] using call_nest_ind; intros s D I.
  - destruct o as [l|]; cbn [run dollar_free nest_ok] in *.
    + apply dollar_free_all in D. now apply inv_nest; auto.
    + now apply inv_conn; auto.
  - destruct o as [l|]; cbn [run dollar_free nest_ok] in *.
    + apply dollar_free_all in D. now apply inv_nest; auto.
    + now apply inv_conn; auto.
  - destruct k; try contradiction; cbn [run dollar_free] in *.
    + rewrite Col_act. apply inv_act; auto. now apply col_act_clean.
    + apply (inv_act (APred _)); auto.
    + apply (inv_act (APred _)); auto.
    + apply (inv_act (APred _)); auto.
    + apply (inv_act (APred _)); auto.
    + apply (inv_act (APred _)); auto. apply any_clean; cbn [In]; auto.
    + apply (inv_act (APred _)); auto. apply any_clean; cbn [In]; auto.
    + apply (inv_act (APred _)); auto. apply any_clean; cbn [In]; auto.
    + apply (inv_act (APred _)); auto. apply any_clean; cbn [In]; auto 6.
    + unfold TextSearch. destruct (s_tscol s) eqn:E; auto. apply inv_pred; auto. cbn [node_nodollar]. rewrite <- E. apply (inv_ts _ I).
    + apply inv_add_order; auto. apply order_item_clean; auto. apply nulls_clean.
    + apply inv_add_order; auto. apply order_item_clean; auto. destruct nullable. apply nulls_clean. apply nodollar_nil.
    + unfold Limit. destruct (0 <? n)%Z; auto. now apply inv_limits.
    + unfold Offset. destruct (0 <? n)%Z; auto. now apply inv_limits.
    + unfold Page. destruct ((0 <? n) && (0 <=? f_limit s))%Z; auto. now apply inv_limits.
    + now apply inv_fql.
    + now apply inv_sort.
    + destruct I as [A N O M T]. constructor; auto.
    + destruct I as [A N O M T], D as [D1 D2]. constructor; auto.
Qed.

Lemma inv_runs : forall l s, Forall dollar_free l -> inv s -> inv (runs l s).
Proof. intros l s F I. apply inv_fold; auto. apply Forall_forall. intros k _ s'. apply inv_run. Qed.
