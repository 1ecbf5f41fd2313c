(** Lemmas about the generator's parameter numbering. *)
From Coq Require Import Ascii String ZArith NArith Bool List Lia.
From Verif Require Import GoBase AParse Analysis Oids Gen GenRun GenSpec.
Import ListNotations.
Local Open Scope string_scope.
Local Open Scope list_scope.

(** ** Operators *)

Lemma op_sql_inj : forall a b, op_sql a = op_sql b -> a = b.
Proof.
  intros a b. destruct a as [ | | | | | | |[]|[]|[]|[]| | | |], b as [ | | | | | | |[]|[]|[]|[]| | | |];
    intro H; try reflexivity; vm_compute in H; discriminate H.
Qed.

Lemma asks_op : forall p op, asks p op -> sql_op p = Some op /\ p_array p = false.
Proof.
  intros p op (tag & sql & H & T & O).
  assert (E : exists o, sql_op p = Some o /\ op_sql o = B sql /\ p_array p = false).
  { subst p. unfold operators in H. cbn [In] in H.
    repeat (destruct H as [H|H]; [injection H as <- <-; vm_compute; eexists; repeat split|]); destruct H. }
  destruct E as (o & E1 & E2 & E3). rewrite <- O in E2. apply op_sql_inj in E2. subst. auto.
Qed.

(** ** Agreement of numbers with fields *)

Definition agree {A X} (f : Z -> X) (F : A -> X) (n : Z) (l : list A) : Prop :=
  forall i a, nth_error l i = Some a -> f (n + 1 + Z.of_nat i)%Z = F a.
Definition agreeS {A X} (g : nat -> X) (G : A -> X) (n : nat) (l : list A) : Prop :=
  forall i a, nth_error l i = Some a -> g (n + 1 + i) = G a.

Lemma agree_app : forall A X (f : Z -> X) (F : A -> X) n a b,
  agree f F n (a ++ b) <-> agree f F n a /\ agree f F (n + Z.of_nat (List.length a)) b.
Proof.
  intros. split.
  - intro H. split; intros i x E.
    + apply H. rewrite nth_error_app1; [assumption|]. apply nth_error_Some. congruence.
    + replace (n + Z.of_nat (List.length a) + 1 + Z.of_nat i)%Z with (n + 1 + Z.of_nat (List.length a + i))%Z by lia.
      apply H. rewrite nth_error_app2 by lia. replace (List.length a + i - List.length a) with i by lia. assumption.
  - intros [H1 H2] i x E. destruct (Nat.ltb_spec i (List.length a)) as [L|L].
    + rewrite nth_error_app1 in E by assumption. apply H1; assumption.
    + rewrite nth_error_app2 in E by assumption. apply H2 in E.
      replace (n + 1 + Z.of_nat i)%Z with (n + Z.of_nat (List.length a) + 1 + Z.of_nat (i - List.length a))%Z by lia.
      assumption.
Qed.
Lemma agreeS_app : forall A X (f : nat -> X) (F : A -> X) n a b,
  agreeS f F n (a ++ b) <-> agreeS f F n a /\ agreeS f F (n + List.length a) b.
Proof.
  intros. split.
  - intro H. split; intros i x E.
    + apply H. rewrite nth_error_app1; [assumption|]. apply nth_error_Some. congruence.
    + replace (n + List.length a + 1 + i) with (n + 1 + (List.length a + i)) by lia.
      apply H. rewrite nth_error_app2 by lia. replace (List.length a + i - List.length a) with i by lia. assumption.
  - intros [H1 H2] i x E. destruct (Nat.ltb_spec i (List.length a)) as [L|L].
    + rewrite nth_error_app1 in E by assumption. apply H1; assumption.
    + rewrite nth_error_app2 in E by assumption. apply H2 in E.
      replace (n + 1 + i) with (n + List.length a + 1 + (i - List.length a)) by lia.
      assumption.
Qed.
Lemma agree_one : forall A X (f : Z -> X) (F : A -> X) n a, agree f F n [a] -> f (n + 1)%Z = F a.
Proof. intros A X f F n a H. specialize (H 0 a eq_refl). rewrite Z.add_0_r in H. exact H. Qed.
Lemma agreeS_one : forall A X (f : nat -> X) (F : A -> X) n a, agreeS f F n [a] -> f (n + 1) = F a.
Proof. intros A X f F n a H. specialize (H 0 a eq_refl). rewrite Nat.add_0_r in H. exact H. Qed.

(** ** Arguments as fields *)

Definition acc_expr (root : gexpr) (a : access) : gexpr :=
  addConverterCallExpr (gsel root (a_path a)) (a_conv a).
Definition fcond_accs (p : list bytes) (f : fcond) : list access :=
  if p_array (fc_pred f) then [] else [Acc (p ++ [fc_name f]) (fc_valuer f)].
Definition bound_accs (p : list bytes) (b : rbound) : list access :=
  match b with RBField f => fcond_accs p f | RBColumn _ => [] end.
Fixpoint wcond_accs (p : list bytes) (c : wcond) : list access :=
  match c with
  | WCField f => fcond_accs p f
  | WCBetween name _ _ lo hi => bound_accs (p ++ [name]) lo ++ bound_accs (p ++ [name]) hi
  | WCNested name l => flat_map (wcond_accs (p ++ [name])) l
  | _ => []
  end.
Fixpoint wcond_slices (p : list bytes) (c : wcond) : list (list bytes) :=
  match c with
  | WCField f => if p_array (fc_pred f) then [p ++ [fc_name f]] else []
  | WCNested name l => flat_map (wcond_slices (p ++ [name])) l
  | _ => []
  end.

Lemma gsel_snoc : forall r p n, gsel r (p ++ [n]) = GSel (gsel r p) n.
Proof. intros. unfold gsel. rewrite fold_left_app. reflexivity. Qed.

Lemma fcond_args_accs : forall p f, fcond_args (gsel GQ p) f = map (acc_expr GQ) (fcond_accs p f).
Proof.
  intros. unfold fcond_args, fcond_accs. destruct (p_array (fc_pred f)); [reflexivity|].
  cbn [map]. unfold acc_expr. cbn [a_path a_conv]. rewrite gsel_snoc. reflexivity.
Qed.
Lemma bound_args_accs : forall p b, bound_args (gsel GQ p) b = map (acc_expr GQ) (bound_accs p b).
Proof. intros p []; [apply fcond_args_accs|reflexivity]. Qed.
Lemma flat_map_map_ext : forall A B C (f : A -> list B) (g : A -> list C) (h : C -> B) l,
  (forall x, In x l -> f x = map h (g x)) -> flat_map f l = map h (flat_map g l).
Proof.
  intros A B C f g h l. induction l as [|a l IH]; intro H; [reflexivity|].
  cbn [flat_map]. rewrite map_app, (H a (or_introl eq_refl)), IH; [reflexivity|]. intros x Hx. apply H. right. exact Hx.
Qed.

(** Induction on conditions. *)
Lemma wcond_ind2 : forall (P : wcond -> Prop),
  (forall b, P (WCBool b)) -> (forall f, P (WCField f)) -> (forall c, P (WCColumn c)) ->
  (forall n i p lo hi, P (WCBetween n i p lo hi)) ->
  (forall n l, Forall P l -> P (WCNested n l)) -> forall c, P c.
Proof.
  intros P H1 H2 H3 H4 H5. fix IH 1. intros [b|f|c|n i p lo hi|n l]; [apply H1|apply H2|apply H3|apply H4|].
  apply H5. induction l as [|c l IHl]; constructor; [apply IH|exact IHl].
Qed.

Lemma wcond_args_accs : forall c p, wcond_args (gsel GQ p) c = map (acc_expr GQ) (wcond_accs p c).
Proof.
  induction c as [b|f|c|n i q lo hi|n l H] using wcond_ind2; intro p; cbn [wcond_args wcond_accs]; try reflexivity.
  - apply fcond_args_accs.
  - rewrite <- gsel_snoc, !bound_args_accs, map_app. reflexivity.
  - rewrite <- gsel_snoc. apply flat_map_map_ext. intros x Hx. rewrite Forall_forall in H. apply H; assumption.
Qed.

(** ** What the generator builds for a condition *)

Definition noh {P L} : L -> list P := fun _ => [].

(** [e'] is built for [e] between the states [s] and [s'], using up the
    fields [accs] and the slices [sls]. *)
Definition good (s s' : gst) (accs : list access) (sls : list (list bytes))
    (e' : bexpr Z nat) (e : bexpr access (list bytes)) : Prop :=
  g_num s' = (g_num s + Z.of_nat (List.length accs))%Z
  /\ g_set s' = g_set s
  /\ g_slices s' = g_slices s ++ map (gsel GQ) sls
  /\ (forall X Y (f : Z -> X) (F : access -> X) (g : nat -> Y) (G : list bytes -> Y),
        agree f F (g_num s) accs -> agreeS g G (List.length (g_slices s)) sls ->
        bexpr_map f g e' = bexpr_map F G e)
  /\ (forall i, In i (bexpr_params noh e') <-> (g_num s < i <= g_num s')%Z)
  /\ bexpr_lists e' = seq (S (List.length (g_slices s))) (List.length sls).

Lemma good_nil : forall s b, good s s [] [] (YList b []) (YList b []).
Proof.
  intros. unfold good. cbn. rewrite app_nil_r. repeat split; try reflexivity; try lia; try tauto.
Qed.

Lemma good_cons : forall s s1 s2 a1 a2 l1 l2 e1' e1 b x is' es,
  good s s1 a1 l1 e1' e1 -> good s1 s2 a2 l2 (YList b is') (YList b es) ->
  good s s2 (a1 ++ a2) (l1 ++ l2) (YList b ((x, e1') :: is')) (YList b ((x, e1) :: es)).
Proof.
  intros s s1 s2 a1 a2 l1 l2 e1' e1 b x is' es (N1 & S1 & L1 & M1 & P1 & K1) (N2 & S2 & L2 & M2 & P2 & K2).
  unfold good. rewrite app_length, map_app, app_assoc. split; [lia|]. split; [congruence|].
  split; [rewrite L2, L1; reflexivity|]. split; [|split].
  - intros X Y f F g G HA HS. apply agree_app in HA. apply agreeS_app in HS. destruct HA as [HA1 HA2], HS as [HS1 HS2].
    cbn [bexpr_map map fst snd]. rewrite (M1 _ _ f F g G HA1 HS1).
    assert (E := M2 _ _ f F g G). rewrite <- N1 in HA2.
    replace (List.length (g_slices s) + List.length l1) with (List.length (g_slices s1)) in HS2
      by (rewrite L1, app_length, map_length; reflexivity).
    specialize (E HA2 HS2). cbn [bexpr_map] in E. injection E as E. rewrite E. reflexivity.
  - intro i. cbn [bexpr_params flat_map snd]. rewrite in_app_iff, P1.
    specialize (P2 i). cbn [bexpr_params] in P2. rewrite P2. lia.
  - cbn [bexpr_lists flat_map snd] in *. rewrite K1, K2, (app_length l1), seq_app.
    rewrite L1, app_length, map_length. reflexivity.
Qed.

Lemma good_paren : forall s s' a l b1 b2 is' es,
  good s s' a l (YList b1 is') (YList b1 es) -> good s s' a l (YList b2 is') (YList b2 es).
Proof.
  intros s s' a l b1 b2 is' es (N & S & L & M & P & K). unfold good.
  split; [assumption|]. split; [assumption|]. split; [assumption|]. split; [|split; assumption].
  intros X Y f F g G HA HS. specialize (M _ _ f F g G HA HS). cbn [bexpr_map] in *. injection M as M. rewrite M. reflexivity.
Qed.

Scheme says_mind := Induction for says Sort Prop
  with says_all_mind := Induction for says_all Sort Prop
  with says_items_mind := Induction for says_items Sort Prop.
Combined Scheme says_mutind from says_mind, says_all_mind, says_items_mind.

Lemma applied_map : forall X Y (f : X -> Y) n e, sexpr_map f (applied n e) = applied n (sexpr_map f e).
Proof. intros X Y f [|c n] e; reflexivity. Qed.
Lemma applied_params : forall X n (e : sexpr X), sexpr_params (applied n e) = sexpr_params e.
Proof. intros X [|c n] e; reflexivity. Qed.
Lemma quantify_map : forall X Y (f : X -> Y) q t e, sexpr_map f (quantify q t e) = quantify q t (sexpr_map f e).
Proof. intros X Y f [] [|c t] e; reflexivity. Qed.
Lemma quantify_params : forall X q t (e : sexpr X), sexpr_params (quantify q t e) = sexpr_params e.
Proof. intros X [] [|c t] e; reflexivity. Qed.

Lemma mk_pred_op : forall sx p op l r s, sql_op p = Some op -> mk_pred sx p l r s = (YOp op l r, s).
Proof. intros. unfold mk_pred. rewrite H. reflexivity. Qed.

Lemma mk_field_eq : forall sx f s,
  mk_field sx f s =
  mk_pred (GSel sx (fc_name f)) (fc_pred f) (applied (fc_func f) (XCol (fc_ident f)))
    (quantify (fc_quant f) (ty_fmt (co_type (fc_col f))) (applied (fc_func f) (XParam (g_num s + 1)%Z)))
    (MkG (g_num s + 1) (g_set s) (g_slices s)).
Proof. intros. unfold mk_field, param_fresh, quantified, quantify, applied. reflexivity. Qed.

Lemma bound_good : forall p b e, bound_is p b e -> forall s,
  exists e' s', mk_bound b s = (e', s')
  /\ g_num s' = (g_num s + Z.of_nat (List.length (bound_accs p b)))%Z
  /\ g_set s' = g_set s /\ g_slices s' = g_slices s
  /\ (forall X (f : Z -> X) (F : access -> X), agree f F (g_num s) (bound_accs p b) -> sexpr_map f e' = sexpr_map F e)
  /\ (forall i, In i (sexpr_params e') <-> (g_num s < i <= g_num s')%Z).
Proof.
  intros p b e [f A|c] s; cbn [mk_bound].
  - unfold param_fresh. eexists _, _. split; [reflexivity|]. unfold bound_accs, fcond_accs. rewrite A.
    cbn [List.length g_num g_set g_slices]. split; [lia|]. split; [reflexivity|]. split; [reflexivity|]. split.
    + intros X g G H. apply agree_one in H. cbn [sexpr_map]. rewrite H. reflexivity.
    + intro i. cbn. lia.
  - eexists _, _. split; [reflexivity|]. cbn [bound_accs List.length]. split; [lia|].
    split; [reflexivity|]. split; [reflexivity|]. split; [reflexivity|]. intro i. cbn. lia.
Qed.

Definition built (p : list bytes) (c : wcond) (e : bexpr access (list bytes)) : Prop :=
  no_bool c /\ forall s, exists e' s', mk_bool (gsel GQ p) c s = (e', s')
    /\ good s s' (wcond_accs p c) (wcond_slices p c) e' e.
Definition items_built (p : list bytes) (first : bool) (l : list wcond)
    (es : list (option boolean * bexpr access (list bytes))) : Prop :=
  forall b s, exists is' s', bool_items (mk_bool (gsel GQ p)) first b l s = (is', s')
    /\ good s s' (flat_map (wcond_accs p) l) (flat_map (wcond_slices p) l) (YList false is') (YList false es).

Lemma bool_items_cons : forall (mk : wcond -> gst -> bexpr Z nat * gst) first b c l s, no_bool c ->
  bool_items mk first b (c :: l) s =
  let '(e, s) := mk c s in
  let '(items, s) := bool_items mk false b l s in
  (if first then (None, e) :: items
   else match b with Some _ => (b, e) :: items | None => items end, s).
Proof. intros mk first b c l s H. destruct c; try reflexivity. destruct H. Qed.

Ltac column_good :=
  split; [exact I|]; intro s; cbn [mk_bool]; unfold mk_column, quantified;
  match goal with E : sql_op _ = Some _ |- _ => rewrite (mk_pred_op _ _ _ _ _ _ E) | _ => idtac end;
  eexists _, _; split; [reflexivity|]; unfold good; cbn; rewrite ?app_nil_r; repeat split; try reflexivity; try lia; try tauto.

Lemma no_accs_good : forall p c e e' s,
  wcond_accs p c = [] -> wcond_slices p c = [] ->
  (forall X Y (f : Z -> X) (F : access -> X) (g : nat -> Y) (G : list bytes -> Y), bexpr_map f g e' = bexpr_map F G e) ->
  bexpr_params noh e' = [] -> bexpr_lists e' = [] ->
  good s s (wcond_accs p c) (wcond_slices p c) e' e.
Proof.
  intros p c e e' s A S M P L. unfold good. rewrite A, S, P, L. cbn. rewrite app_nil_r.
  repeat split; try reflexivity; try lia; try tauto. intros. apply M.
Qed.

Lemma column_rhs_eq : forall X (c : cond),
  column_rhs c = if col_empty (c_rhs c) then XLit (c_lit c) else @XCol X (c_rhs c).
Proof. reflexivity. Qed.

Lemma says_built :
  (forall p c e, says p c e -> built p c e)
  /\ (forall p paren l e, says_all p paren l e -> exists es, e = YList paren es /\ items_built p true l es)
  /\ (forall p items es, says_items p items es ->
        (forall l, links l items -> items_built p false l es) /\ (forall l, chain l items -> items_built p true l es)).
Proof.
  apply says_mutind.
  - (* field *)
    intros p f op A. apply asks_op in A. destruct A as [A N]. split; [exact I|]. intro s. cbn [mk_bool].
    rewrite mk_field_eq, (mk_pred_op _ _ _ _ _ _ A). eexists _, _. split; [reflexivity|].
    unfold good. cbn [wcond_accs wcond_slices]. unfold fcond_accs. rewrite N. cbn [List.length g_num g_set g_slices map].
    rewrite app_nil_r. split; [lia|]. split; [reflexivity|]. split; [reflexivity|]. split; [|split].
    + intros X Y g G h H HA HS. apply agree_one in HA. cbn [bexpr_map].
      rewrite !quantify_map, !applied_map. cbn [sexpr_map]. rewrite HA. reflexivity.
    + intro i. cbn [bexpr_params]. rewrite quantify_params, !applied_params. cbn. lia.
    + reflexivity.
  - (* in *)
    intros p f E. split; [exact I|]. intro s. cbn [mk_bool]. rewrite mk_field_eq.
    change (stringToPredicate (B "isin")) with IsIn in E. rewrite E. unfold mk_pred. cbn [sql_op sql_truth].
    eexists _, _. split; [reflexivity|]. unfold good. cbn [wcond_accs wcond_slices g_num g_set g_slices].
    unfold fcond_accs. rewrite E. cbn [p_array List.length map]. rewrite <- gsel_snoc, !app_length. cbn [List.length].
    split; [lia|]. split; [reflexivity|]. split; [reflexivity|]. split; [|split].
    + intros X Y g G h H HA HS. apply agreeS_one in HS. cbn [bexpr_map]. rewrite HS, !applied_map. reflexivity.
    + intro i. cbn [bexpr_params]. rewrite applied_params. cbn. lia.
    + cbn. f_equal. lia.
  - (* not in *)
    intros p f E. split; [exact I|]. intro s. cbn [mk_bool]. rewrite mk_field_eq.
    change (stringToPredicate (B "notin")) with NotIn in E. rewrite E. unfold mk_pred. cbn [sql_op sql_truth].
    eexists _, _. split; [reflexivity|]. unfold good. cbn [wcond_accs wcond_slices g_num g_set g_slices].
    unfold fcond_accs. rewrite E. cbn [p_array List.length map]. rewrite <- gsel_snoc, !app_length. cbn [List.length].
    split; [lia|]. split; [reflexivity|]. split; [reflexivity|]. split; [|split].
    + intros X Y g G h H HA HS. apply agreeS_one in HS. cbn [bexpr_map]. rewrite HS, !applied_map. reflexivity.
    + intro i. cbn [bexpr_params]. rewrite applied_params. cbn. lia.
    + cbn. f_equal. lia.
  - (* columns *)
    intros p c op A E. apply asks_op in A. destruct A as [A N]. split; [exact I|]. intro s. cbn [mk_bool].
    unfold mk_column. rewrite (mk_pred_op _ _ _ _ _ _ A). eexists _, _. split; [reflexivity|].
    change (@quantified) with (@quantify). rewrite column_rhs_eq, E.
    apply no_accs_good; try reflexivity; cbn [bexpr_map bexpr_params]; intros; rewrite ?quantify_map, ?quantify_params; reflexivity.
  - (* literal *)
    intros p c op A E. apply asks_op in A. destruct A as [A N]. split; [exact I|]. intro s. cbn [mk_bool].
    unfold mk_column. rewrite (mk_pred_op _ _ _ _ _ _ A). eexists _, _. split; [reflexivity|].
    change (@quantified) with (@quantify). rewrite column_rhs_eq, E.
    apply no_accs_good; try reflexivity; cbn [bexpr_map bexpr_params]; intros; rewrite ?quantify_map, ?quantify_params; reflexivity.
  - (* truth *)
    intros p c tag neg t H E. split; [exact I|]. intro s. cbn [mk_bool]. unfold mk_column.
    assert (T : sql_op (c_pred c) = None /\ sql_truth (c_pred c) = Some (neg, t)).
    { rewrite E. unfold truth_tests in H. cbn [In] in H.
      repeat (destruct H as [H|H]; [injection H as <- <- <-; vm_compute; split; reflexivity|]); destruct H. }
    destruct T as [T1 T2]. unfold mk_pred. rewrite T1, T2. eexists _, _. split; [reflexivity|].
    apply no_accs_good; try reflexivity.
  - intros p c E. split; [exact I|]. intro s. cbn [mk_bool]. unfold mk_column.
    change (stringToPredicate (B "isnull")) with IsNull in E. rewrite E.
    eexists _, _. split; [reflexivity|]. apply no_accs_good; try reflexivity.
  - intros p c E. split; [exact I|]. intro s. cbn [mk_bool]. unfold mk_column.
    change (stringToPredicate (B "notnull")) with NotNull in E. rewrite E.
    eexists _, _. split; [reflexivity|]. apply no_accs_good; try reflexivity.
  - intros p c E. split; [exact I|]. intro s. cbn [mk_bool]. unfold mk_column. rewrite E.
    eexists _, _. split; [reflexivity|]. apply no_accs_good; try reflexivity.
  - (* between *)
    intros p name id lo hi l h HL HH. split; [exact I|]. intro s. cbn [mk_bool].
    destruct (bound_good _ _ _ HL s) as (l' & s1 & E1 & N1 & S1 & L1 & M1 & P1). rewrite E1.
    destruct (bound_good _ _ _ HH s1) as (h' & s2 & E2 & N2 & S2 & L2 & M2 & P2). rewrite E2.
    eexists _, _. split; [reflexivity|]. unfold good. cbn [wcond_accs wcond_slices map]. rewrite app_nil_r, app_length.
    split; [lia|]. split; [congruence|]. split; [congruence|]. split; [|split].
    + intros X Y f F g G HA HS. apply agree_app in HA. destruct HA as [HA1 HA2]. cbn [bexpr_map].
      rewrite (M1 _ f F HA1). rewrite <- N1 in HA2. rewrite (M2 _ f F HA2). reflexivity.
    + intro i. cbn [bexpr_params sexpr_params app]. rewrite in_app_iff, P1, P2. lia.
    + reflexivity.
  - (* nested *)
    intros p name l e _ (es & -> & H). split; [exact I|]. intro s. cbn [mk_bool].
    rewrite <- gsel_snoc. destruct (H None s) as (is' & s' & E & G). rewrite E.
    eexists _, _. split; [reflexivity|]. cbn [wcond_accs wcond_slices]. eapply good_paren; exact G.
  - (* list *)
    intros p paren l items es C _ [_ H]. exists es. split; [reflexivity|]. apply H. exact C.
  - intros p. split.
    + intros l L. inversion L; subst. intros b s. eexists _, _. split; [reflexivity|]. apply good_nil.
    + intros l L. inversion L; subst. intros b s. eexists _, _. split; [reflexivity|]. apply good_nil.
  - intros p b c e l es _ [NB HC] _ [HL _]. split.
    + intros l0 L. inversion L as [|b' c' l' r' NB' L']; subst. intros b0 s.
      change (bool_items (mk_bool (gsel GQ p)) false b0 (WCBool b' :: c :: l') s)
        with (bool_items (mk_bool (gsel GQ p)) false (Some b') (c :: l') s).
      rewrite bool_items_cons by exact NB.
      destruct (HC s) as (e' & s1 & E1 & G1). rewrite E1.
      destruct (HL _ L' (Some b') s1) as (is' & s2 & E2 & G2). rewrite E2.
      eexists _, _. split; [reflexivity|]. cbn [flat_map wcond_accs wcond_slices app].
      eapply good_cons; eassumption.
    + intros l0 L. inversion L as [|c' l' r' NB' L']; subst. intros b0 s.
      rewrite bool_items_cons by exact NB.
      destruct (HC s) as (e' & s1 & E1 & G1). rewrite E1.
      destruct (HL _ L' b0 s1) as (is' & s2 & E2 & G2). rewrite E2.
      eexists _, _. split; [reflexivity|]. cbn [flat_map]. eapply good_cons; eassumption.
Qed.
