(** Lemmas about the generator: written values, keys, joins and whole
    statements. *)
From Coq Require Import Ascii String ZArith NArith Bool List Lia.
From Verif Require Import GoBase AParse Analysis Oids Gen GenRun GenSpec GenProofs.
Import ListNotations.
Local Open Scope string_scope.
Local Open Scope list_scope.

(** ** Written values *)

Definition wacc (pre : list bytes) (w : fwrite) : access := Acc (pre ++ field_path (fw_field w)) (fw_valuer w).
Definition kept (q : qstate) (l : list fwrite) : list fwrite := filter (fun w => negb (defaulted q w)) l.

Lemma bytes_eqb_nil : forall b, bytes_eqb b [] = true <-> b = [].
Proof. intros [|a b]; split; intro H; try reflexivity; try discriminate H. Qed.

Lemma NeedsNULLIF_spec : forall w, NeedsNULLIF w = true <-> null_as_zero w.
Proof.
  intro w. unfold NeedsNULLIF, IsNULLable, null_as_zero.
  rewrite !andb_true_iff, !negb_true_iff, bytes_eqb_nil. tauto.
Qed.

Lemma find_num_cons : forall k x n l, find_num k ((x, n) :: l) = if Nat.eqb k x then Some n else find_num k l.
Proof. reflexivity. Qed.

Definition store_wrap (q : qstate) (w : fwrite) {P} (x : sexpr P) : sexpr P :=
  if NeedsNULLIF w then addNULLIFCallExpr x (fw_col w)
  else if IsUpdateSlice q then XCast x (ty_fmt (co_type (fw_col w))) else x.

Lemma input_val_kept : forall q w s, defaulted q w = false ->
  input_val q w s = (store_wrap q w (XParam (fst (param_field (fw_id w) s))), snd (param_field (fw_id w) s)).
Proof.
  intros q w s D. unfold input_val. change (canUseDefault q (fw_field w)) with (defaulted q w). rewrite D.
  destruct (param_field (fw_id w) s) as [n s']. unfold store_wrap. cbn [fst snd].
  destruct (NeedsNULLIF w); [reflexivity|]. destruct (IsUpdateSlice q); reflexivity.
Qed.

Lemma stored_wrap : forall q pre w e, stored q pre (IsUpdateSlice q) w e ->
  (defaulted q w = true /\ e = XDefault) \/ (defaulted q w = false /\ e = store_wrap q w (XParam (wacc pre w))).
Proof.
  intros q pre w e [D|D N|D N U|z D N U Z|D N U Z]; [left; auto| right; split; auto..];
    unfold store_wrap; try (rewrite (proj2 (NeedsNULLIF_spec w) N); unfold addNULLIFCallExpr).
  - destruct (NeedsNULLIF w) eqn:E; [apply NeedsNULLIF_spec in E; contradiction|].
    destruct (IsUpdateSlice q); reflexivity.
  - rewrite U, N.eqb_refl. reflexivity.
  - apply N.eqb_neq in U. rewrite U, Z. reflexivity.
  - apply N.eqb_neq in U. rewrite U, Z. reflexivity.
Qed.

Lemma store_wrap_map : forall q w P Q (f : P -> Q) p, sexpr_map f (store_wrap q w (XParam p)) = store_wrap q w (XParam (f p)).
Proof.
  intros. unfold store_wrap. destruct (NeedsNULLIF w); [|destruct (IsUpdateSlice q); reflexivity].
  unfold addNULLIFCallExpr. destruct (N.eqb _ _); [reflexivity|]. destruct (find_oid _ _); reflexivity.
Qed.
Lemma store_wrap_params : forall q w P (p : P), sexpr_params (store_wrap q w (XParam p)) = [p].
Proof.
  intros. unfold store_wrap. destruct (NeedsNULLIF w); [|destruct (IsUpdateSlice q); reflexivity].
  unfold addNULLIFCallExpr. destruct (N.eqb _ _); [reflexivity|]. destruct (find_oid _ _); reflexivity.
Qed.

Lemma vals_good : forall q pre ws es, Forall2 (stored q pre (IsUpdateSlice q)) ws es ->
  forall s, NoDup (map fw_id ws) -> (forall w, In w ws -> find_num (fw_id w) (g_set s) = None) ->
  exists vs s', input_vals q ws s = (vs, s')
  /\ g_num s' = (g_num s + Z.of_nat (List.length (kept q ws)))%Z
  /\ g_slices s' = g_slices s
  /\ (forall X (f : Z -> X) (F : access -> X), agree f F (g_num s) (map (wacc pre) (kept q ws)) ->
        map (sexpr_map f) vs = map (sexpr_map F) es)
  /\ (forall i, In i (flat_map sexpr_params vs) <-> (g_num s < i <= g_num s')%Z)
  /\ (forall id, ~ In id (map fw_id (kept q ws)) -> find_num id (g_set s') = find_num id (g_set s))
  /\ (forall i w, nth_error (kept q ws) i = Some w ->
        find_num (fw_id w) (g_set s') = Some (g_num s + 1 + Z.of_nat i)%Z).
Proof.
  intros q pre ws es H. induction H as [|w e ws es H HS IH]; intros s ND FR.
  - eexists _, _. split; [reflexivity|]. cbn. split; [lia|]. split; [reflexivity|]. split; [reflexivity|].
    split; [intro i; lia|]. split; [reflexivity|]. intros [|i] w E; discriminate E.
  - cbn [map] in ND. inversion ND as [|x l NI ND']; subst. cbn [input_vals].
    destruct (stored_wrap _ _ _ _ H) as [[D ->]|[D ->]].
    + assert (K : kept q (w :: ws) = kept q ws) by (unfold kept; cbn [filter]; rewrite D; reflexivity).
      rewrite K. unfold input_val. change (canUseDefault q (fw_field w)) with (defaulted q w). rewrite D.
      destruct (IH s ND') as (vs & s' & E & N & S & M & P & U & V); [intros x Hx; apply FR; right; exact Hx|].
      rewrite E. eexists _, _. split; [reflexivity|]. split; [exact N|]. split; [exact S|]. split; [|split; [|split]].
      * intros X f F HA. cbn [map sexpr_map]. rewrite (M _ f F HA). reflexivity.
      * exact P.
      * exact U.
      * exact V.
    + assert (K : kept q (w :: ws) = w :: kept q ws) by (unfold kept; cbn [filter]; rewrite D; reflexivity).
      rewrite K. rewrite (input_val_kept _ _ _ D). unfold param_field. rewrite (FR w (or_introl eq_refl)). cbn [fst snd].
      set (s1 := MkG (g_num s + 1) ((fw_id w, (g_num s + 1)%Z) :: g_set s) (g_slices s)).
      destruct (IH s1 ND') as (vs & s' & E & N & S & M & P & U & V).
      { intros x Hx. cbn [g_set s1]. rewrite find_num_cons.
        destruct (Nat.eqb_spec (fw_id x) (fw_id w)) as [Q|Q]; [|apply FR; right; exact Hx].
        exfalso. apply NI. rewrite <- Q. apply in_map. exact Hx. }
      rewrite E. eexists _, _. split; [reflexivity|]. cbn [g_num s1] in N, P, V. cbn [g_slices s1] in S.
      cbn [List.length map]. split; [lia|]. split; [exact S|]. split; [|split; [|split]].
      * intros X f F HA. change (wacc pre w :: map (wacc pre) (kept q ws)) with ([wacc pre w] ++ map (wacc pre) (kept q ws)) in HA.
        apply agree_app in HA. destruct HA as [HA1 HA2]. apply agree_one in HA1. cbn [map].
        rewrite store_wrap_map, HA1, (store_wrap_map q w _ _ F). f_equal. apply (M _ f F). exact HA2.
      * intro i. cbn [flat_map]. rewrite in_app_iff, store_wrap_params, P. cbn [In]. lia.
      * intros id NIN. cbn [map In] in NIN. rewrite U by tauto. cbn [g_set s1]. rewrite find_num_cons.
        destruct (Nat.eqb_spec id (fw_id w)) as [Q|Q]; [|reflexivity]. exfalso. apply NIN. left. congruence.
      * intros [|i] x E'; cbn [nth_error] in E'.
        -- injection E' as <-. rewrite U.
           ++ cbn [g_set s1]. rewrite find_num_cons, Nat.eqb_refl. f_equal. lia.
           ++ intro IN. apply NI. apply in_map_iff in IN. destruct IN as (y & Q & IN). rewrite <- Q. apply in_map.
              unfold kept in IN. apply filter_In in IN. tauto.
        -- rewrite (V _ _ E'). f_equal. lia.
Qed.

Lemma write_args_accs : forall q t, rt_slice (q_rtype q) = false ->
  write_args q t = map (acc_expr GQ) (map (wacc [q_relname q]) (kept q (ti_writes t))).
Proof.
  intros q t S. unfold write_args, inputRoot. rewrite S, map_map. apply map_ext. intro w.
  unfold acc_expr, wacc. cbn [a_path a_conv app gsel]. reflexivity.
Qed.

(** ** Keys *)

Definition unwritten (t : tinfo) (l : list fwrite) : list fwrite :=
  filter (fun w => negb (existsb (fun x => Nat.eqb (fw_id x) (fw_id w)) (ti_writes t))) l.
Definition kacc (q : qstate) (w : fwrite) : access := Acc (q_relname q :: field_path (fw_field w)) [].

Lemma unwritten_cons_alone : forall t w l, (forall x, In x (ti_writes t) -> fw_id x <> fw_id w) ->
  unwritten t (w :: l) = w :: unwritten t l.
Proof.
  intros t w l H. unfold unwritten. cbn [filter].
  destruct (existsb _ (ti_writes t)) eqn:E; [|reflexivity].
  apply existsb_exists in E. destruct E as (x & IN & E). apply Nat.eqb_eq in E. destruct (H x IN E).
Qed.
Lemma unwritten_cons_written : forall t w l x, In x (ti_writes t) -> fw_id x = fw_id w ->
  unwritten t (w :: l) = unwritten t l.
Proof.
  intros t w l x IN E. unfold unwritten. cbn [filter].
  destruct (existsb _ (ti_writes t)) eqn:Q; [reflexivity|].
  exfalso. assert (existsb (fun x => Nat.eqb (fw_id x) (fw_id w)) (ti_writes t) = true); [|congruence].
  apply existsb_exists. exists x. split; [exact IN|]. apply Nat.eqb_eq. exact E.
Qed.

Lemma keys_good : forall q t b l es, keys_are q t b l es -> (b = None \/ b = Some BoolAnd) ->
  forall s, NoDup (map fw_id l) ->
  (forall w, In w l -> (forall x, In x (ti_writes t) -> fw_id x <> fw_id w) -> find_num (fw_id w) (g_set s) = None) ->
  (forall x, In x (ti_writes t) -> defaulted q x = false ->
     exists n, find_num (fw_id x) (g_set s) = Some n /\ (0 < n <= g_num s)%Z) -> (0 <= g_num s)%Z ->
  exists items s', pkey_conds false (match b with None => true | _ => false end) l s = (items, s')
  /\ g_num s' = (g_num s + Z.of_nat (List.length (unwritten t l)))%Z
  /\ g_slices s' = g_slices s
  /\ (forall X Y (f : Z -> X) (F : access -> X) (g : nat -> Y) (G : list bytes -> Y),
        agree f F (g_num s) (map (kacc q) (unwritten t l)) ->
        (forall x n, In x (ti_writes t) -> defaulted q x = false -> find_num (fw_id x) (g_set s) = Some n ->
           f n = F (wacc [q_relname q] x)) ->
        map (fun it => (fst it, bexpr_map f g (snd it))) items = map (fun it => (fst it, bexpr_map F G (snd it))) es)
  /\ (forall i, (g_num s < i <= g_num s')%Z -> In i (flat_map (fun it => bexpr_params noh (snd it)) items))
  /\ (forall i, In i (flat_map (fun it => bexpr_params noh (snd it)) items) -> (0 < i <= g_num s')%Z)
  /\ flat_map (fun it => bexpr_lists (snd it)) items = [].
Proof.
  intros q t b l es H. induction H as [b|b w e l es K H IH]; intros HB s ND F1 F2 POS.
  - eexists _, _. split; [reflexivity|]. cbn. split; [lia|]. repeat split; try reflexivity; try lia; try tauto.
  - cbn [map] in ND. inversion ND as [|y l' NI ND']; subst. cbn [pkey_conds].
    assert (BB : (if match b with None => true | Some _ => false end then None else Some BoolAnd) = b)
      by (destruct HB as [-> | ->]; reflexivity).
    destruct K as [A|x IN EQ D].
    + rewrite (unwritten_cons_alone _ _ _ A). unfold param_field. rewrite (F1 w (or_introl eq_refl) A).
      set (s1 := MkG (g_num s + 1) ((fw_id w, (g_num s + 1)%Z) :: g_set s) (g_slices s)).
      assert (OTHER : forall id, id <> fw_id w -> find_num id (g_set s1) = find_num id (g_set s)).
      { intros id Q. cbn [g_set s1]. rewrite find_num_cons. apply Nat.eqb_neq in Q. rewrite Q. reflexivity. }
      destruct (IH (or_intror eq_refl) s1 ND') as (items & s' & E & N & S & M & P1 & P2 & LS).
      { intros x Hx A'. rewrite OTHER; [apply F1; [right; exact Hx|exact A']|].
        intro Q. apply NI. rewrite <- Q. apply in_map. exact Hx. }
      { intros x Hx D'. destruct (F2 x Hx D') as (n & E & B). exists n. rewrite OTHER by (apply A; exact Hx).
        split; [exact E|]. cbn [g_num s1]. lia. }
      { cbn [g_num s1]. lia. }
      rewrite E, BB. eexists _, _. split; [reflexivity|]. cbn [g_num s1] in N, P1. cbn [g_slices s1] in S.
      cbn [List.length map]. split; [lia|]. split; [exact S|]. split; [|split; [|split]].
      * intros X Y f F g G HA HW.
        change (kacc q w :: map (kacc q) (unwritten t l)) with ([kacc q w] ++ map (kacc q) (unwritten t l)) in HA.
        apply agree_app in HA. destruct HA as [HA1 HA2]. apply agree_one in HA1.
        cbn [map fst snd bexpr_map sexpr_map]. rewrite HA1. f_equal. apply (M _ _ f F g G); [exact HA2|].
        intros x n Hx D' E'. rewrite OTHER in E' by (apply A; exact Hx). apply HW; assumption.
      * intros i B. cbn [flat_map snd bexpr_params sexpr_params app In].
        destruct (Z.eq_dec i (g_num s + 1)) as [->|Q]; [left; reflexivity|]. right. apply P1. lia.
      * intros i B. cbn [flat_map snd bexpr_params sexpr_params app In] in B. destruct B as [<-|B]; [lia|].
        apply P2. exact B.
      * cbn [flat_map snd bexpr_lists app]. exact LS.
    + rewrite (unwritten_cons_written _ _ _ _ IN EQ). unfold param_field.
      destruct (F2 x IN D) as (n & E0 & B0). rewrite <- EQ, E0.
      destruct (IH (or_intror eq_refl) s ND') as (items & s' & E & N & S & M & P1 & P2 & LS);
        [intros y Hy A'; apply F1; [right; exact Hy|exact A'] | exact F2 | exact POS |].
      rewrite E, BB. eexists _, _. split; [reflexivity|]. split; [exact N|]. split; [exact S|]. split; [|split; [|split]].
      * intros X Y f F g G HA HW. cbn [map fst snd bexpr_map sexpr_map].
        rewrite (HW x n IN D E0). unfold wacc. cbn [app]. f_equal. apply (M _ _ f F g G); assumption.
      * intros i B. cbn [flat_map snd bexpr_params sexpr_params app In]. right. apply P1. exact B.
      * intros i B. cbn [flat_map snd bexpr_params sexpr_params app In] in B. destruct B as [<-|B]; [lia|].
        apply P2. exact B.
      * cbn [flat_map snd bexpr_lists app]. exact LS.
Qed.

(** ** Joins *)

Definition only_columns (c : wcond) : Prop := match c with WCBool _ | WCColumn _ => True | _ => False end.

Lemma only_columns_accs : forall l p, Forall only_columns l ->
  flat_map (wcond_accs p) l = [] /\ flat_map (wcond_slices p) l = [].
Proof.
  intros l p H. induction H as [|c l H HS IH]; [split; reflexivity|]. destruct IH as [I1 I2].
  cbn [flat_map]. rewrite I1, I2. destruct c; try destruct H; split; reflexivity.
Qed.

Lemma joins_good : forall dirs conds js,
  Forall2 (fun dc x => join_is (fst dc) (snd dc) x) (combine dirs conds) js -> List.length conds = List.length dirs ->
  Forall (Forall only_columns) conds -> forall s,
  exists js', table_joins dirs conds s = (js', s)
  /\ (forall X Y (f : Z -> X) (F : access -> X) (g : nat -> Y) (G : list bytes -> Y),
        map (tjoin_map f g) js' = map (tjoin_map F G) js)
  /\ flat_map (fun j => bexpr_params noh (tj_cond j)) js' = []
  /\ flat_map (fun j => bexpr_lists (tj_cond j)) js' = [].
Proof.
  induction dirs as [|d dirs IH]; intros [|c conds] js H L HC s; try discriminate L.
  - inversion H; subst. exists []. repeat split; reflexivity.
  - cbn [combine] in H. inversion H as [|dc x l js1 HJ HR]; subst. cbn [fst snd] in HJ.
    inversion HC as [|c' l' C1 C2]; subst. inversion HJ as [d' l' e SA]; subst. cbn [table_joins].
    destruct (proj1 (proj2 says_built) _ _ _ _ SA) as (es & -> & IB).
    unfold makeSQLBoolValueExprList. change GQ with (gsel GQ []).
    destruct (IB None s) as (is' & s1 & E & (N & ST & SL & M & P & K)).
    destruct (only_columns_accs c [] C1) as [A1 A2]. rewrite A1 in *. rewrite A2 in *. cbn in N, SL.
    rewrite app_nil_r in SL. rewrite E.
    assert (s1 = s) by (destruct s as [a1 b1 c1], s1 as [a2 b2 c2]; cbn [g_num g_set g_slices] in *; f_equal; [lia|assumption..]). subst s1.
    injection L as L. destruct (IH conds js1 HR L C2 s) as (js' & E' & M' & P' & K'). rewrite E'.
    eexists. split; [reflexivity|]. split; [|split].
    + intros. cbn [map]. rewrite (M' _ _ f F g G). f_equal. unfold tjoin_map. cbn [tj_type tj_rel tj_cond]. f_equal.
      apply (M _ _ f F g G); intros i a Q; destruct i; discriminate Q.
    + cbn [flat_map tj_cond]. rewrite P', app_nil_r. 
      destruct (bexpr_params noh (YList false is')) as [|i l] eqn:Q; [reflexivity|].
      exfalso. specialize (P i). destruct P as [P _]. specialize (P (or_introl eq_refl)). lia.
    + cbn [flat_map tj_cond]. rewrite K', app_nil_r.
      rewrite K. reflexivity.
Qed.

(** ** Clauses *)

Definition lim_accs (l : option LimitField) : list access :=
  match l with Some l => match lf_name l with [] => [] | n => [Acc [n] []] end | None => [] end.
Lemma lim_args_accs : forall l, lim_args l = map (acc_expr GQ) (lim_accs l).
Proof. intros [l|]; [|reflexivity]. unfold lim_args, lim_accs. destruct (lf_name l); reflexivity. Qed.

(** What a limit or offset clause built in state [s] means. *)
Definition lgood (s s' : gst) (accs : list access) (x' : lim Z) (x : lim access) : Prop :=
  g_num s' = (g_num s + Z.of_nat (List.length accs))%Z /\ g_set s' = g_set s /\ g_slices s' = g_slices s
  /\ (forall X (f : Z -> X) (F : access -> X), agree f F (g_num s) accs -> lim_map f x' = lim_map F x)
  /\ (forall i, In i (lim_params x') <-> (g_num s < i <= g_num s')%Z).

Lemma lgood_no : forall s x' x, (forall X (f : Z -> X) F, lim_map f x' = lim_map F x) -> lim_params x' = [] ->
  lgood s s [] x' x.
Proof.
  intros s x' x M P. unfold lgood. rewrite P. cbn. split; [lia|]. split; [reflexivity|]. split; [reflexivity|].
  split; [intros; apply M|]. intro i. lia.
Qed.
Lemma lgood_param : forall s a n, n <> [] -> a = Acc [n] [] ->
  lgood s (MkG (g_num s + 1) (g_set s) (g_slices s)) [a] (LParam (g_num s + 1)%Z) (LParam a).
Proof.
  intros s a n NE ->. unfold lgood. cbn [g_num g_set g_slices List.length]. split; [lia|]. split; [reflexivity|].
  split; [reflexivity|]. split.
  - intros X f F HA. apply agree_one in HA. cbn. rewrite HA. reflexivity.
  - intro i. cbn. lia.
Qed.

Lemma number_good : forall (o : option LimitField) x s, number_is o x ->
  forall q, q_offset q = o ->
  exists x' s', offsetClause q s = (x', s') /\ lgood s s' (lim_accs o) x' x.
Proof.
  intros o x s H q E. unfold offsetClause, lim_accs. rewrite E. destruct H as [|l N V|l N V|l N].
  - eexists _, _. split; [reflexivity|]. apply lgood_no; reflexivity.
  - rewrite N, V. eexists _, _. split; [reflexivity|]. apply lgood_no; reflexivity.
  - rewrite N. assert ((0 <? lf_value l)%N = true) as -> by (apply N.ltb_lt; lia).
    eexists _, _. split; [reflexivity|]. apply lgood_no; reflexivity.
  - unfold param_fresh. destruct (lf_name l) as [|c n] eqn:Q; [contradiction|].
    eexists _, _. split; [reflexivity|]. eapply lgood_param; [|reflexivity]. discriminate.
Qed.

Lemma limit_good : forall q x s, limit_is q x ->
  exists x' s', limitClause q s = (x', s') /\ lgood s s' (lim_accs (q_limit q)) x' x.
Proof.
  intros q x s [l x1 E H|E H|E H]; unfold limitClause, lim_accs; rewrite E.
  - inversion H as [|l' N V|l' N V|l' N]; subst.
    + rewrite N, V. eexists _, _. split; [reflexivity|]. apply lgood_no; reflexivity.
    + rewrite N. assert ((0 <? lf_value l)%N = true) as -> by (apply N.ltb_lt; lia).
      eexists _, _. split; [reflexivity|]. apply lgood_no; reflexivity.
    + unfold param_fresh. destruct (lf_name l) as [|c n] eqn:Q; [contradiction|].
      eexists _, _. split; [reflexivity|]. eapply lgood_param; [|reflexivity]. discriminate.
  - destruct H as (H1 & H2 & H3). unfold rt_single. rewrite H1, H2, H3.
    eexists _, _. split; [reflexivity|]. apply lgood_no; reflexivity.
  - assert (rt_single (q_rtype q) = false) as ->.
    { unfold single in H. unfold rt_single. destruct (rt_slice _), (rt_iter _), (rt_array _); try reflexivity. exfalso. auto. }
    eexists _, _. split; [reflexivity|]. apply lgood_no; reflexivity.
Qed.

Definition where_accs (q : qstate) (t : tinfo) : list access :=
  match q_where q with Some w => flat_map (wcond_accs [w_name w]) (ti_where t) | None => [] end.
Definition where_slices (q : qstate) (t : tinfo) : list (list bytes) :=
  match q_where q with Some w => flat_map (wcond_slices [w_name w]) (ti_where t) | None => [] end.
Lemma where_args_accs : forall q t, where_args q t = map (acc_expr GQ) (where_accs q t).
Proof.
  intros q t. unfold where_args, where_accs. destruct (q_where q) as [w|]; [|reflexivity].
  change (GSel GQ (w_name w)) with (gsel GQ [w_name w]). apply flat_map_map_ext. intros. apply wcond_args_accs.
Qed.

(** The where clause as [good] for an optional expression. *)
Definition wgood (s s' : gst) accs sls (e' : option (bexpr Z nat)) (e : option (bexpr access (list bytes))) : Prop :=
  match e', e with
  | Some e', Some e => good s s' accs sls e' e
  | None, None => s' = s /\ accs = [] /\ sls = []
  | _, _ => False
  end.

Lemma where_good : forall q t e s, where_is q t e -> (q_where q = None -> ti_where t = []) ->
  IsUpdateWithPKeys q = false ->
  exists e' s', whereClause q t s = (e', s') /\ wgood s s' (where_accs q t) (where_slices q t) e' e.
Proof.
  intros q t e s H W U. unfold whereClause. rewrite U. destruct H as [E|w e Q NE SA].
  - rewrite E. eexists _, _. split; [reflexivity|]. cbn. split; [reflexivity|]. unfold where_accs, where_slices. rewrite E.
    destruct (q_where q); split; reflexivity.
  - destruct (ti_where t) as [|c l] eqn:TE; [contradiction|]. rewrite <- TE in *.
    destruct (proj1 (proj2 says_built) _ _ _ _ SA) as (es & -> & IB).
    unfold makeSQLBoolValueExprList. rewrite Q. change (GSel GQ (w_name w)) with (gsel GQ [w_name w]).
    destruct (IB None s) as (is' & s1 & E & G). rewrite TE in E |- *. rewrite E. eexists _, _. split; [reflexivity|].
    cbn [wgood]. unfold where_accs, where_slices. rewrite Q, TE. rewrite TE in G. exact G.
Qed.

(** ** Output *)

Lemma NeedsCOALESCE_spec : forall r, NeedsCOALESCE r = true <-> zero_for_null r.
Proof.
  intro r. unfold NeedsCOALESCE, IsNULLable, zero_for_null.
  rewrite orb_true_iff, !andb_true_iff, !negb_true_iff, bytes_eqb_nil. tauto.
Qed.
Lemma fetched_out : forall r e, fetched r e ->
  (forall X (f : Z -> X) (F : access -> X), sexpr_map f (out_val r) = sexpr_map F e) /\ sexpr_params (@out_val Z r) = [].
Proof.
  intros r e [N|v N V NE|N V U|z N V U Z|N V U Z]; unfold out_val;
    try (rewrite (proj2 (NeedsCOALESCE_spec r) N); unfold addCoalesceCallExpr).
  - destruct (NeedsCOALESCE r) eqn:E; [apply NeedsCOALESCE_spec in E; contradiction|]. split; reflexivity.
  - rewrite V. destruct v; [contradiction|]. split; reflexivity.
  - rewrite V, U, N.eqb_refl. split; reflexivity.
  - apply N.eqb_neq in U. rewrite V, U, Z. split; reflexivity.
  - apply N.eqb_neq in U. rewrite V, U, Z. split; reflexivity.
Qed.
Lemma output_good : forall t es, Forall2 fetched (ti_reads t) es ->
  (forall X (f : Z -> X) (F : access -> X), map (sexpr_map f) (outputVals t) = map (sexpr_map F) es)
  /\ flat_map sexpr_params (@outputVals Z t) = [].
Proof.
  intros t es. unfold outputVals. generalize (ti_reads t). intro l. intro H.
  induction H as [|r e l es H HS [I1 I2]]; [split; reflexivity|].
  destruct (fetched_out r e H) as [M P]. cbn [map flat_map]. split.
  - intros. rewrite (M _ f F), (I1 _ f F). reflexivity.
  - rewrite P, I2. reflexivity.
Qed.

(** ** Statements *)

(** The fields sent and the slices unnested, in order. *)
Definition key_accs (q : qstate) (t : tinfo) : list access :=
  if IsUpdateWithPKeys q then map (kacc q) (unwritten t (ti_pkeys t)) else [].
Definition all_accs (q : qstate) (t : tinfo) : list access :=
  map (wacc [q_relname q]) (kept q (ti_writes t)) ++ where_accs q t ++ key_accs q t
  ++ lim_accs (q_limit q) ++ lim_accs (q_offset q).

Lemma inputArgs_accs : forall q t, rt_slice (q_rtype q) = false \/ ti_writes t = [] /\ is_update (q_kind q) = false ->
  inputArgs q t = map (acc_expr GQ) (all_accs q t).
Proof.
  intros q t S. unfold inputArgs, all_accs. rewrite !map_app, where_args_accs, !lim_args_accs. f_equal; [|f_equal; f_equal].
  - destruct S as [S|[S _]]; [apply write_args_accs; exact S|]. unfold write_args. rewrite S. reflexivity.
  - unfold pkey_args, key_accs. destruct (IsUpdateWithPKeys q) eqn:U; [|reflexivity].
    destruct S as [S|[_ S]].
    + unfold inputRoot. rewrite S, map_map. reflexivity.
    + unfold IsUpdateWithPKeys in U. rewrite S in U. discriminate U.
Qed.

(** [n] is the statement built for [S] with the arguments [accs] and slices [sls]. *)
Definition sgood (s : gst) (accs : list access) (sls : list (list bytes)) (n : gsql) (S : fstmt) : Prop :=
  g_num s = Z.of_nat (List.length accs) /\ g_slices s = map (gsel GQ) sls
  /\ (forall X Y (f : Z -> X) (F : access -> X) (g : nat -> Y) (G : list bytes -> Y),
        agree f F 0 accs -> agreeS g G 0 sls -> stmt_map f g n = stmt_map F G S)
  /\ (forall i, In i (stmt_params noh n) <-> (0 < i <= g_num s)%Z)
  /\ stmt_lists n = seq 1 (List.length sls).
