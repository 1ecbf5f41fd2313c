(** Definitions and proofs used by PropsFaults.v. *)
From Coq Require Import Ascii String ZArith NArith Bool List Lia.
From Verif Require Import GoBase AParse Analysis AnalysisSpec QuerySpec AnalysisProofs AnalysisRoles QueryFinal PropsQuery Oids Compat Gen GenSpec Check ConvertProofs CheckSpec CheckProofs CheckEx ColsFinal CondsFinal ConflFinal FaultSpec.
Import ListNotations.
Local Open Scope string_scope.
Local Open Scope list_scope.

Lemma cbind_err : forall A C (r : cres A) (f : A -> cres C) e, cbind r f = CErr e -> r = CErr e \/ exists a, r = COk a /\ f a = CErr e.
Proof. intros A C r f e H. destruct r as [a|e'|]; cbn in H; [right; now exists a|left; congruence|discriminate]. Qed.

Lemma orelse_err : forall A (o : option A) e e', orelse o e = CErr e' -> o = None /\ e = e'.
Proof. intros A o e e' H. destruct o; cbn in H; [discriminate|]. split; congruence. Qed.

Lemma insist_err : forall b e e', insist b e = CErr e' -> b = false /\ e = e'.
Proof. intros b e e' H. destruct b; cbn in H; [discriminate|]. split; congruence. Qed.

Lemma deref_err : forall A (o : option A) e, deref o <> CErr e.
Proof. intros A o e H. destruct o; discriminate. Qed.

Lemma check_all_err : forall A C (f : A -> cres C) l e, check_all f l = CErr e -> exists x, In x l /\ f x = CErr e.
Proof.
  induction l as [|a l IH]; intros e H; cbn in H; [discriminate|]. apply cbind_err in H. destruct H as [H|(c & _ & H)]; [exists a; split; [now left|exact H]|].
  apply cbind_err in H. destruct H as [H|(cs & _ & H)]; [|discriminate]. destruct (IH _ H) as (x & I & K). exists x. split; [now right|exact K].
Qed.

(** *** Relations and columns *)
Lemma type_unique : forall k o t u, one_each k -> type_of k o t -> type_of k o u -> t = u.
Proof. intros k o t u U T V. apply (find_type_complete _ _ _ U) in T. apply (find_type_complete _ _ _ U) in V. congruence. Qed.

Lemma loadRelation_err : forall db id e, one_each (db_cat db) -> loadRelation db id = CErr e ->
  (e = DRelationUnknown /\ db_rels db (dotted id) = None)
  \/ (e = DColumnUnknownType /\ exists t r, db_rels db (dotted id) = Some t /\ In r (rr_cols t) /\ forall u, ~ type_of (db_cat db) (cr_type r) u).
Proof.
  intros db id e U H. unfold loadRelation in H. rewrite QualifiedName_dotted in H. apply cbind_err in H. destruct H as [H|(t & H1 & H)].
  - apply orelse_err in H. destruct H as [H <-]. now left.
  - apply orelse_ok in H1. right. apply cbind_err in H. destruct H as [H|(cols & _ & H)].
    + apply check_all_err in H. destruct H as (r & I & H). unfold load_column in H. apply cbind_err in H. destruct H as [H|(x & _ & H)]; [|discriminate].
      apply orelse_err in H. destruct H as [H <-]. split; [reflexivity|]. exists t, r. split; [exact H1|]. split; [exact I|]. intros u T.
      apply (find_type_complete _ _ _ U) in T. congruence.
    + apply cbind_err in H. destruct H as [H|(ixs & _ & H)]; [|discriminate]. apply check_all_err in H. destruct H as (x & _ & H).
      unfold load_index in H. destruct (parseIndexExpr (ir_def x)); discriminate.
Qed.

Lemma lookup_none : forall A n (m : list (bytes * A)), Filter.lookup n m = None -> ~ In n (map fst m).
Proof.
  induction m as [|[k v] m IH]; intros H; cbn in *; [tauto|]. destruct (bytes_eqb n k) eqn:E; [discriminate|]. intros [K|K]; [|exact (IH H K)].
  apply bytes_eqb_neq in E. congruence.
Qed.

Lemma findColumn_err : forall db rf t l c id e, state_of db rf t l c -> findColumn c id = CErr e -> bad_ident db (bindings rf l) id e.
Proof.
  intros db rf t l c id e [S1 S2 S3 S4 S5 S6] H. unfold findColumn in H.
  destruct (Filter.lookup (c_qual id) (ck_map c)) as [[rid rel]|] eqn:E.
  - apply cbind_err in H. destruct H as [H|(x & _ & H)]; [|discriminate]. apply orelse_err in H. destruct H as [H <-].
    apply lookup_first in E. destruct E as (m1 & m2 & E & N).
    rewrite E in S6. apply Forall_app in S6. destruct S6 as [_ S6]. apply Forall_inv in S6. cbn in S6. destruct S6 as (t' & D & L).
    apply (bi_column _ _ _ rid t'); [|exact D|exact (findRelColumn_none _ _ _ _ L H)].
    rewrite E, map_app in S5. cbn [map fst snd] in S5. apply (f_equal (@rev _)) in S5.
    rewrite rev_involutive, rev_app_distr in S5. cbn [rev] in S5. rewrite <- app_assoc in S5. cbn [app] in S5.
    eexists _, _. split; [symmetry; exact S5|]. rewrite map_rev, map_map, <- in_rev. cbn. exact N.
  - injection H as <-. apply bi_qualifier. intros rid (l1 & l2 & K & _). apply lookup_none in E. apply E.
    assert (I : In (c_qual id) (map fst (rev (bindings rf l)))) by (rewrite map_rev, <- in_rev, K, map_app; apply in_app_iff; right; now left).
    rewrite <- S5, map_map in I. exact I.
Qed.

(** *** Comparisons *)
Lemma cast_found : forall k t s c, NoDup (map fst (cat_casts k)) -> In (t, s, c) (cat_casts k) -> find_cast k t s = Some c.
Proof.
  intros k t s c U I. unfold find_cast. induction (cat_casts k) as [|[[t' s'] c'] l IH]; [contradiction|]. cbn in *. inversion U as [|? ? N U']; subst.
  destruct I as [I|I]; [injection I as -> -> ->; now rewrite !N.eqb_refl|]. destruct (N.eqb t' t && N.eqb s' s) eqn:E; [|now apply IH].
  apply andb_true_iff in E. destruct E as [E1 E2]. apply N.eqb_eq in E1, E2. subst. exfalso. apply N. change (t, s) with (fst (t, s, c)). now apply in_map.
Qed.

Lemma comparable_eq : forall k p l e, NoDup (map fst (cat_casts k)) -> comparable k p l e ->
  N.eqb (ty_oid l) (ty_oid e) || ((is_string l || ty_enum l) && N.eqb (ty_oid e) oid_Unknown) || has_op k (oprname p) (ty_oid l) (ty_oid e)
  || (negb (N.eqb (ty_oid l) (ty_oid e))
      && (match find_cast k (ty_oid e) (ty_oid l) with Some CastImplicit => has_op k (oprname p) (ty_oid e) (ty_oid e) | _ => false end
          || match find_cast k (ty_oid l) (ty_oid e) with Some CastImplicit => has_op k (oprname p) (ty_oid l) (ty_oid l) | _ => false end)) = true.
Proof.
  intros k p l e U H. destruct (N.eqb (ty_oid l) (ty_oid e)) eqn:Q; [reflexivity|]. destruct H as [H|[[H1 H2]|[H|[[H1 H2]|[H1 H2]]]]].
  - apply N.eqb_neq in Q. contradiction.
  - rewrite H2, N.eqb_refl. unfold is_string. destruct H1 as [->| ->]; [reflexivity|]. now rewrite orb_true_r.
  - rewrite (in_has_op _ _ _ _ H). now rewrite orb_true_r.
  - rewrite (cast_found _ _ _ _ U H1), (in_has_op _ _ _ _ H2). now rewrite !orb_true_r.
  - rewrite (cast_found _ _ _ _ U H1), (in_has_op _ _ _ _ H2). now rewrite !orb_true_r.
Qed.

Lemma is_array_iff : forall t, is_array t = true <-> ty_cat t = CatArray.
Proof. intros t. unfold is_array. destruct (ty_cat t); split; congruence. Qed.

Lemma comparison_err : forall k l r p q e, keyed k -> typeCheckComparison k l r p q = CErr e ->
  exists rt, r = Some rt /\
    ((e = DPredicateOperandArray /\ p_array p = true /\ ty_cat rt <> CatArray)
     \/ (e = DPredicateOperandQuantifier /\ p_array p = false /\ quant_set q = true /\ ty_cat rt <> CatArray)
     \/ (e = DColumnComparison /\ exists et, compared k p q rt et /\ ~ comparable k p l et)).
Proof.
  intros k l r p q e (U1 & U2 & _) H. unfold typeCheckComparison in H. unfold compared. apply cbind_err in H.
  assert (F : forall et, insist (N.eqb (ty_oid l) (ty_oid et) || ((is_string l || ty_enum l) && N.eqb (ty_oid et) oid_Unknown) || has_op k (oprname p) (ty_oid l) (ty_oid et)
    || (negb (N.eqb (ty_oid l) (ty_oid et))
        && (match find_cast k (ty_oid et) (ty_oid l) with Some CastImplicit => has_op k (oprname p) (ty_oid et) (ty_oid et) | _ => false end
            || match find_cast k (ty_oid l) (ty_oid et) with Some CastImplicit => has_op k (oprname p) (ty_oid l) (ty_oid l) | _ => false end))) DColumnComparison = CErr e ->
    e = DColumnComparison /\ ~ comparable k p l et).
  { intros et K. apply insist_err in K. destruct K as [K <-]. split; [reflexivity|]. intros C. apply (comparable_eq _ _ _ _ U2) in C. congruence. }
  destruct (p_array p || quant_set q) eqn:A.
  - destruct H as [H|(o & H1 & H)].
    + apply cbind_err in H. destruct H as [H|(rt & R & H)]; [now apply deref_err in H|]. apply deref_ok in R. exists rt. split; [exact R|].
      apply cbind_err in H. destruct H as [H|(x & _ & H)]; [|discriminate]. apply insist_err in H. destruct H as [H <-].
      assert (N : ty_cat rt <> CatArray) by (intros K; apply is_array_iff in K; congruence).
      destruct (p_array p); [now left|right; left]. repeat split; try assumption.
    + apply cbind_ok in H1. destruct H1 as (rt & R & H1). apply deref_ok in R. exists rt. split; [exact R|]. right; right.
      apply cbind_ok in H1. destruct H1 as (x & A' & H1). apply insist_ok in A'. apply is_array_iff in A'. injection H1 as <-.
      apply cbind_err in H. destruct H as [H|(et & E & H)]; [now apply deref_err in H|]. apply deref_ok in E. apply find_type_ok in E.
      apply F in H. destruct H as [-> H]. split; [reflexivity|]. exists et. repeat split; try assumption; apply E.
  - destruct H as [H|(o & H1 & H)]; [discriminate|]. injection H1 as <-. apply cbind_err in H. destruct H as [H|(et & E & H)]; [now apply deref_err in H|].
    apply deref_ok in E. exists et. split; [exact E|]. right; right. apply F in H. destruct H as [-> H]. split; [reflexivity|]. exists et. now split.
Qed.

Lemma truth_iff : forall p, p_boolean p = true <-> truth_test p.
Proof. intros p. unfold truth_test. destruct p; cbn; intuition discriminate. Qed.

Lemma null_iff : forall p, p_null p = true <-> null_test p.
Proof. intros p. unfold null_test. destruct p; cbn; intuition discriminate. Qed.

Lemma unary_false : forall p, p_unary p = false -> binary p.
Proof. intros p H. unfold binary, truth_test, null_test. destruct p; cbn in *; intuition discriminate. Qed.

Lemma null_col : forall k t r c, describes k t r c -> co_notnull c = cr_notnull r.
Proof. intros k t r c H. apply H. Qed.

Lemma def_col : forall k t r c, describes k t r c -> co_hasdef c = cr_hasdef r.
Proof. intros k t r c H. apply H. Qed.

Lemma type_col : forall k t r c, describes k t r c -> ty_oid (co_type c) = cr_type r.
Proof. intros k t r c H. apply H. Qed.

Lemma column_cond_err : forall db rf t l c w d rid lcol tr r e, keyed (db_cat db) -> state_of db rf t l c -> describes (db_cat db) tr r lcol ->
  check_column_cond c w d (rid, lcol) = CErr e -> bad_cond db (bindings rf l) d r (w = true /\ rid <> rf_id rf) e.
Proof.
  intros db rf t l c w d rid lcol tr r e U SO D H. unfold check_column_cond in H. destruct (p_unary (c_pred d)) eqn:P.
  - apply cbind_err in H. destruct H as [H|(x & _ & H)]; apply insist_err in H; destruct H as [H <-].
    + apply orb_false_iff in H. destruct H as [H1 H2]. apply negb_false_iff in H1. apply truth_iff in H1. apply N.eqb_neq in H2. rewrite (type_col _ _ _ _ D) in H2.
      now apply bc_bool.
    + apply negb_false_iff in H. apply andb_true_iff in H. destruct H as [H H3]. apply andb_true_iff in H. destruct H as [H1 H2].
      rewrite (null_col _ _ _ _ D) in H2. apply null_iff in H1. apply bc_null; try assumption. intros [-> N].
      cbn [andb] in H3. rewrite negb_involutive in H3. rewrite rel_eqb_eq, (so_rid _ _ _ _ _ SO) in H3. congruence.
  - apply unary_false in P. apply cbind_err in H. unfold ck_cat in H. rewrite (so_db _ _ _ _ _ SO) in H.
    destruct H as [H|(o & H1 & H)].
    + destruct (c_col (c_rhs d)) as [|a s] eqn:R; [destruct (c_lit d) as [|b m] eqn:M; [discriminate|]|].
      * apply cbind_err in H. destruct H as [H|(x & _ & H)]; [|discriminate]. apply orelse_err in H. destruct H as [H <-].
        rewrite <- M in H. apply bc_literal; try assumption. rewrite M. discriminate.
      * apply cbind_err in H. destruct H as [H|([x y] & _ & H)]; [|discriminate]. apply (bc_right _ _ _ _ _ e P); [rewrite R; discriminate|].
        exact (findColumn_err _ _ _ _ _ _ _ SO H).
    + destruct (comparison_err _ _ _ _ _ _ U H) as (rt & -> & K).
      assert (O : operand db (bindings rf l) d rt).
      { unfold operand. destruct (c_col (c_rhs d)) as [|a s] eqn:R; [destruct (c_lit d) as [|b m] eqn:M; [discriminate|]|].
        - apply cbind_ok in H1. destruct H1 as (x & X & H1). apply orelse_ok in X. injection H1 as H1. apply find_type_ok in H1. exists x. now split.
        - apply cbind_ok in H1. destruct H1 as ((rid', col) & X & H1). injection H1 as <-. destruct (findColumn_ok _ _ _ _ _ _ _ _ SO X) as (t' & r' & X1 & X2).
          exists rid', t', r'. split; [exact X1|]. exact (describes_type _ _ _ _ X2). }
      destruct K as [(-> & K1 & K2)|[(-> & K1 & K2 & K3)|(-> & et & K1 & K2)]].
      * now apply (bc_array _ _ _ _ _ rt).
      * now apply (bc_quantifier _ _ _ _ _ rt).
      * apply (bc_types _ _ _ _ _ (co_type lcol) rt et); try assumption. exact (describes_type _ _ _ _ D).
Qed.

(** *** Conditions on fields *)
Lemma candidates_none : forall k n l ft r rt e, one_each k -> scan_ops k n l ft (cat_ops k) None = None -> In (n, l, r) (cat_ops k) -> type_of k r rt ->
  ~ fits k rt false (GenericLiteral ft) e.
Proof.
  intros k n l ft r rt e U H I T F. rewrite scan_ops_eq in H. destruct (find plain_entry _); [discriminate|].
  destruct (fits_compatibility _ _ _ _ _ U F) as (e' & E).
  assert (J : In e' (candidates k n l ft (cat_ops k))).
  { unfold candidates. apply in_flat_map. exists (n, l, r). split; [exact I|]. rewrite bytes_eqb_refl, N.eqb_refl. cbn [andb]. rewrite (find_type_complete _ _ _ U T), E. now left. }
  destruct (candidates k n l ft (cat_ops k)); [contradiction|discriminate].
Qed.

Lemma coercion_complete : forall k t s, NoDup (map fst (cat_casts k)) ->
  (t = s \/ t = oid_Any \/ s = oid_Unknown \/ exists c, In (t, s, c) (cat_casts k) /\ c <> CastExplicit) -> checkTypeCoercion k t s = true.
Proof.
  intros k t s U H. unfold checkTypeCoercion. destruct H as [->|[->|[->|(c & I & N)]]].
  - now rewrite N.eqb_refl.
  - rewrite N.eqb_refl. now rewrite orb_true_r.
  - rewrite N.eqb_refl. now rewrite !orb_true_r.
  - rewrite (cast_found _ _ _ _ U I). destruct c; try congruence; now rewrite !orb_true_r.
Qed.

Lemma comparison_complete : forall k l rt p q et, keyed k -> compared k p q rt et -> comparable k p l et -> typeCheckComparison k l (Some rt) p q = COk tt.
Proof.
  intros k l rt p q et (U1 & U2 & _) C M. unfold typeCheckComparison. unfold compared in C. destruct (p_array p || quant_set q).
  - destruct C as [C1 C2]. apply is_array_iff in C1. cbn [deref cbind]. rewrite C1. cbn [insist cbind]. rewrite (find_type_complete _ _ _ U1 C2). cbn [deref cbind].
    rewrite (comparable_eq _ _ _ _ U2 M). reflexivity.
  - subst et. cbn [deref cbind]. rewrite (comparable_eq _ _ _ _ U2 M). reflexivity.
Qed.

Lemma pairs_complete : forall k p q pairs l la lr ra rr x y lt rt et, keyed k -> proc_pairs k p q pairs = COk l -> In ((la, lr), (ra, rr)) pairs ->
  type_of k la x -> type_of k ra y -> type_of k lr lt -> type_of k rr rt -> compared k p q rt et -> comparable k p lt et -> In (x, y) l.
Proof.
  induction pairs as [|[[la' lr'] [ra' rr']] pairs IH]; intros l la lr ra rr x y lt rt et U H I T1 T2 T3 T4 C M; [contradiction|]. pose proof (proj1 U) as U1. cbn in H. destruct I as [I|I].
  - injection I as -> -> -> ->. rewrite (find_type_complete _ _ _ U1 T1), (find_type_complete _ _ _ U1 T2), (find_type_complete _ _ _ U1 T3), (find_type_complete _ _ _ U1 T4) in H.
    rewrite (comparison_complete _ _ _ _ _ _ U C M) in H. apply cbind_ok in H. destruct H as (l' & _ & H). injection H as <-. now left.
  - assert (G : forall l', proc_pairs k p q pairs = COk l' -> In (x, y) l') by (intros l' E; eapply IH; eauto).
    destruct (find_type k lr'); [|now apply G]. destruct (find_type k rr'); [|now apply G].
    destruct (typeCheckComparison _ _ _ _ _); [|now apply G|discriminate].
    destruct (find_type k la'); [|now apply G]. destruct (find_type k ra'); [|now apply G].
    apply cbind_ok in H. destruct H as (l' & H & E). injection E as <-. right. now apply G.
Qed.

Lemma proc_pairs_err : forall k p q pairs e, proc_pairs k p q pairs <> CErr e.
Proof.
  induction pairs as [|[[la lr] [ra rr]] pairs IH]; intros e H; cbn in H; [discriminate|].
  destruct (find_type k lr); [|now apply IH in H]. destruct (find_type k rr); [|now apply IH in H]. destruct (typeCheckComparison _ _ _ _ _); [|now apply IH in H|discriminate].
  destruct (find_type k la); [|now apply IH in H]. destruct (find_type k ra); [|now apply IH in H]. apply cbind_err in H. destruct H as [H|(x & _ & H)]; [now apply IH in H|discriminate].
Qed.

Lemma proc_found : forall k n l, NoDup (map fst (cat_procs k)) -> In (n, l) (cat_procs k) -> Filter.lookup n (cat_procs k) = Some l.
Proof.
  intros k n l U I. induction (cat_procs k) as [|[n' l'] r IH]; [contradiction|]. cbn in *. inversion U as [|? ? N U']; subst.
  destruct I as [I|I]; [injection I as -> ->; now rewrite bytes_eqb_refl|]. destruct (bytes_eqb n n') eqn:E; [|now apply IH].
  apply bytes_eqb_eq in E. subst. exfalso. apply N. change n' with (fst (n', l)). now apply in_map.
Qed.

Lemma isLength1_err : forall k c e, isLength1Type k c <> CErr e.
Proof.
  intros k c e H. unfold isLength1Type in H. apply cbind_err in H. destruct H as [H|(x & _ & H)]; [|discriminate].
  destruct (is_array (co_type c)); [now apply deref_err in H|discriminate].
Qed.

Lemma func_err : forall k f e, keyed k -> fc_func f <> [] -> typeCheckFieldConditionalWithFunc k f = CErr e -> e = DProcedureUnknown /\ forall v, ~ field_sound k (with_valuer f v).
Proof.
  intros k f e U FN H. pose proof U as (U1 & U2 & U3).
  assert (G : forall v, field_sound k (with_valuer f v) -> forall procs pairs, Filter.lookup (fc_func f) (cat_procs k) = Some procs -> proc_pairs k (fc_pred f) (fc_quant f) (list_prod procs procs) = COk pairs ->
    exists x y e, In (x, y) pairs /\ checkTypeCoercion k (ty_oid x) (ty_oid (co_type (fc_col f))) = true /\ typeCompatibility k y (valuer_as_string (fc_type f)) false = Some e).
  { intros v S procs pairs LK PP. unfold field_sound, with_valuer in S. cbn [fc_name fc_type fc_ident fc_col fc_pred fc_quant fc_func fc_valuer] in S. cbn zeta in S.
    destruct (fc_func f) as [|a s] eqn:FE; [congruence|].
    destruct S as (procs' & la & lr & ra & rr & I & I1 & I2 & (lt & rt & et & T1 & T2 & C1 & C2) & (x & T3) & CO & y & e' & T4 & F & _).
    pose proof (proc_found _ _ _ U3 I) as E. rewrite E in LK. injection LK as <-. rewrite <- value_type_eq in F. destruct (fits_compatibility _ _ _ _ _ U1 F) as (e2 & TE).
    exists x, y, e2. split; [|split; [|exact TE]].
    - apply (pairs_complete k _ _ _ _ la lr ra rr x y lt rt et U PP); try assumption. apply in_prod_iff. now split.
    - destruct T3 as [_ <-]. now apply coercion_complete. }
  unfold typeCheckFieldConditionalWithFunc in H. apply cbind_err in H. destruct H as [H|(procs & H1 & H)].
  - apply orelse_err in H. destruct H as [H <-]. split; [reflexivity|]. intros v S. unfold field_sound, with_valuer in S. cbn [fc_name fc_type fc_ident fc_col fc_pred fc_quant fc_func fc_valuer] in S. cbn zeta in S.
    destruct (fc_func f) as [|a s] eqn:FE; [congruence|]. destruct S as (procs' & la & lr & ra & rr & I & _). rewrite (proc_found _ _ _ U3 I) in H. discriminate.
  - apply orelse_ok in H1. apply cbind_err in H. destruct H as [H|(pairs & H2 & H)]; [now apply proc_pairs_err in H|]. cbn zeta in H.
    set (found := flat_map _ pairs) in H. destruct found as [|v' found'] eqn:FO; [|discriminate]. injection H as <-. split; [reflexivity|].
    intros v S. destruct (G v S _ _ H1 H2) as (x & y & e & I & C & T).
    assert (J : In (ce_valuer e) found). { unfold found. apply in_flat_map. exists (x, y). split; [exact I|]. cbn [fst snd]. rewrite C, T. now left. }
    rewrite FO in J. contradiction.
Qed.

Lemma field_cond_err : forall k f e, keyed k -> typeCheckFieldConditional k f = CErr e -> bad_field k f e.
Proof.
  intros k f e U H. pose proof U as (U1 & _). unfold typeCheckFieldConditional in H. destruct (fc_func f) as [|a s] eqn:FN.
  2:{ assert (NE : fc_func f <> []) by (rewrite FN; discriminate). destruct (func_err _ _ _ U NE H) as [-> K]. now apply bf_func. }
  cbn zeta in H. fold (stored (co_type (fc_col f))) in H. apply cbind_err in H. destruct H as [H|(pt & H1 & H)].
  - destruct (p_array (fc_pred f) || quant_set (fc_quant f)) eqn:A; [|discriminate]. apply orelse_err in H. destruct H as [H <-].
    assert (N : no_array_type k (co_type (fc_col f))).
    { intros b u I T. destruct (array_of _ _ I) as (q & E & <-). rewrite E in H. rewrite (find_type_complete _ _ _ U1 T) in H. discriminate. }
    destruct (p_array (fc_pred f)) eqn:PA; [apply bf_array; assumption|]. apply bf_quantifier; assumption.
  - apply cbind_err in H. destruct H as [H|(o & H2 & H)].
    { destruct (has_op _ _ _ _); [|discriminate]. apply cbind_err in H. destruct H as [H|(x & _ & H)]; [now apply isLength1_err in H|discriminate]. }
    destruct o as [en|]; [discriminate|]. apply cbind_err in H. destruct H as [H|(x & _ & H)]; [|discriminate]. apply orelse_err in H. destruct H as [H <-].
    apply bf_types; [exact FN|]. intros v S. unfold field_sound, with_valuer in S. cbn [fc_name fc_type fc_ident fc_col fc_pred fc_quant fc_func fc_valuer] in S. cbn zeta in S.
    rewrite FN in S. destruct S as (en & _ & [(m & pt' & L & O & HP & F)|(r & rt & I & T & F)]).
    + rewrite (in_has_op _ _ _ _ O) in H2. rewrite (length1_complete _ _ _ U1 L) in H2. cbn [cbind] in H2. injection H2 as H2.
      assert (E : pt' = pt).
      { destruct (p_array (fc_pred f) || quant_set (fc_quant f)); [|injection H1 as <-; exact HP]. destruct HP as (b & I & T). apply orelse_ok in H1.
        destruct (array_of _ _ I) as (q & E & <-). rewrite E in H1. rewrite (find_type_complete _ _ _ U1 T) in H1. congruence. }
      subst pt'. rewrite <- value_type_eq in F. destruct (fits_compatibility _ _ _ _ _ U1 F) as (e' & E). congruence.
    + rewrite <- value_type_eq in F. exact (candidates_none _ _ _ _ _ _ _ U1 H I T F).
Qed.

(** *** Where structs and joins *)
Lemma bad_cond_weaken : forall db l d r (P Q : Prop) e, (Q -> P) -> bad_cond db l d r P e -> bad_cond db l d r Q e.
Proof.
  intros db l d r P Q e W H. destruct H as [| | | | |t|lt t et];
    [now apply bc_bool|apply bc_null; tauto|eapply bc_right; eassumption|now apply bc_literal|eapply bc_array; eassumption|eapply bc_quantifier; eassumption|eapply bc_types; eassumption].
Qed.

Lemma bad_ident_code : forall db l id e, bad_ident db l id e -> e = DColumnQualifierUnknown \/ e = DColumnUnknown.
Proof. intros db l id e H. destruct H; [now left|now right]. Qed.

Lemma bad_cond_code : forall db l d r P e, bad_cond db l d r P e -> e <> DColumnFieldComparison.
Proof. intros db l d r P e H. destruct H as [| |e B1 N B2| | | |]; try discriminate. apply bad_ident_code in B2. destruct B2; subst; discriminate. Qed.

Lemma bad_field_code : forall k f e, bad_field k f e -> e <> DColumnComparison.
Proof. intros k f e H. destruct H; discriminate. Qed.

Lemma bound_err : forall db rf t l c id rid lcol tr r p b e, keyed (db_cat db) -> state_of db rf t l c -> describes (db_cat db) tr r lcol ->
  check_bound c id (rid, lcol) p b = CErr e -> bad_bound db (bindings rf l) id tr r p b e.
Proof.
  intros db rf t l c id rid lcol tr r p b e U SO D H. destruct b as [n ty|id']; cbn [check_bound snd] in H; apply cbind_err in H; (destruct H as [H|(x & _ & H)]; [|discriminate]).
  - unfold ck_cat in H. rewrite (so_db _ _ _ _ _ SO) in H. destruct (typeCheckFieldConditional (db_cat db) (MkFC n ty id lcol p QNone [] [])) as [v|e'|] eqn:E; cbn [recode] in H; try discriminate.
    injection H as <-. apply (field_cond_err _ _ _ U) in E. pose proof (bad_field_code _ _ _ E) as NC.
    replace (if same_code e' DColumnFieldComparison then DBetweenFieldComparison else e') with (between_code e') by (destruct e'; reflexivity || congruence).
    exact (bb_field _ _ _ _ _ _ _ _ _ _ D E).
  - destruct (check_column_cond c false (MkCond id id' [] p QNone) (rid, lcol)) as [v|e'|] eqn:E; cbn [recode] in H; try discriminate. injection H as <-.
    apply (column_cond_err _ _ _ _ _ _ _ _ _ _ _ _ U SO D) in E. pose proof (bad_cond_code _ _ _ _ _ _ E) as NC.
    replace (if same_code e' DColumnComparison then DBetweenColumnComparison else e') with (between_code e') by (destruct e'; reflexivity || congruence).
    apply bb_column. eapply bad_cond_weaken; [|exact E]. tauto.
Qed.

Lemma where_item_err : forall db rf t l c, keyed (db_cat db) -> state_of db rf t l c -> forall i e, typeCheckWhereItem c i = CErr e -> bad_item db (rf_id rf) (bindings rf l) i e.
Proof.
  intros db rf t l c U SO. induction i as [b|n ft id p q fn|d|n id p lo hi|n is IH] using witem_ind2; intros e H; cbn [typeCheckWhereItem] in H.
  - discriminate.
  - apply cbind_err in H. destruct H as [H|((rid, col) & H1 & H)]; [apply bw_field_lhs; exact (findColumn_err _ _ _ _ _ _ _ SO H)|].
    destruct (findColumn_ok _ _ _ _ _ _ _ _ SO H1) as (t' & r & D1 & D2). apply cbind_err in H. destruct H as [H|(v & _ & H)]; [|discriminate].
    unfold ck_cat in H. rewrite (so_db _ _ _ _ _ SO) in H. apply (field_cond_err _ _ _ U) in H. eapply bw_field; eassumption.
  - apply cbind_err in H. destruct H as [H|(v & _ & H)]; [|discriminate]. unfold typeCheckColumnConditional in H. apply cbind_err in H.
    destruct H as [H|((rid, col) & H1 & H)]; [apply bw_lhs; exact (findColumn_err _ _ _ _ _ _ _ SO H)|].
    destruct (findColumn_ok _ _ _ _ _ _ _ _ SO H1) as (t' & r & D1 & D2). apply (column_cond_err _ _ _ _ _ _ _ _ _ _ _ _ U SO D2) in H.
    eapply bw_column; [exact D1|]. eapply bad_cond_weaken; [|exact H]. tauto.
  - apply cbind_err in H. destruct H as [H|((rid, col) & H1 & H)]; [apply bw_between_lhs; exact (findColumn_err _ _ _ _ _ _ _ SO H)|].
    destruct (findColumn_ok _ _ _ _ _ _ _ _ SO H1) as (t' & r & D1 & D2).
    assert (N : forall A (x y : A), (if negated p then x else y) = match p with NotBetween | NotBetweenSym | NotBetweenAsym => x | _ => y end) by (intros; destruct p; reflexivity).
    rewrite !N in H. apply cbind_err in H. destruct H as [H|(lo' & _ & H)].
    + eapply bw_between_lo; [exact D1|]. exact (bound_err _ _ _ _ _ _ _ _ _ _ _ _ _ U SO D2 H).
    + apply cbind_err in H. destruct H as [H|(hi' & _ & H)]; [|discriminate]. eapply bw_between_hi; [exact D1|]. exact (bound_err _ _ _ _ _ _ _ _ _ _ _ _ _ U SO D2 H).
  - apply cbind_err in H. destruct H as [H|(v & _ & H)]; [|discriminate]. rewrite nested_all in H. apply check_all_err in H. destruct H as (i & I & H).
    rewrite Forall_forall in IH. eapply bw_nested; [exact I|]. exact (IH i I e H).
Qed.

Definition join_fault (db : database) (rf : RelField) (l : list RelIdent) (dirs : list JoinDirective) (e : dbcode) : Prop :=
  (exists d, In d dirs /\ ((e = DRelationUnknown /\ db_rels db (dotted (j_rel d)) = None)
     \/ (e = DColumnUnknownType /\ exists t r, db_rels db (dotted (j_rel d)) = Some t /\ In r (rr_cols t) /\ forall u, ~ type_of (db_cat db) (cr_type r) u)))
  \/ exists d1 d d2 i t, dirs = d1 ++ d :: d2 /\ In i (j_items d) /\ db_rels db (dotted (j_rel d)) = Some t
       /\ bad_join db (bindings rf (l ++ map j_rel (d1 ++ [d]))) t i e.

Lemma loadJoin_err : forall db rf t l c id e, one_each (db_cat db) -> state_of db rf t l c -> loadJoinRelation c id = CErr e ->
  (e = DRelationUnknown /\ db_rels db (dotted id) = None)
  \/ (e = DColumnUnknownType /\ exists t r, db_rels db (dotted id) = Some t /\ In r (rr_cols t) /\ forall u, ~ type_of (db_cat db) (cr_type r) u).
Proof.
  intros db rf t l c id e U SO H. unfold loadJoinRelation in H. rewrite (so_db _ _ _ _ _ SO) in H. apply cbind_err in H. destruct H as [H|(x & _ & H)]; [|discriminate].
  exact (loadRelation_err _ _ _ U H).
Qed.

Lemma check_joins_err : forall db rf t dirs l c e, keyed (db_cat db) -> state_of db rf t l c -> check_joins c dirs = CErr e -> join_fault db rf l dirs e.
Proof.
  induction dirs as [|d dirs IH]; intros l c e U SO H; cbn in H; [discriminate|].
  apply cbind_err in H. destruct H as [H|((c1, rel) & H1 & H)].
  - left. exists d. split; [now left|]. exact (loadJoin_err _ _ _ _ _ _ _ (proj1 U) SO H).
  - destruct (load_join_ok _ _ _ _ _ _ _ _ SO H1) as (SO1 & t' & D & L). apply cbind_err in H. destruct H as [H|(x & _ & H)].
    + apply check_all_err in H. destruct H as (i & I & H). right. exists [], d, dirs, i, t'. split; [reflexivity|]. split; [exact I|]. split; [exact D|]. cbn [app map].
      destruct i as [b|dd]; cbn [check_join_item] in H; [discriminate|]. apply cbind_err in H. destruct H as [H|(y & _ & H)]; [|discriminate].
      unfold typeCheckJoinConditional in H. apply cbind_err in H. destruct H as [H|(col & F & H)].
      * apply orelse_err in H. destruct H as [H <-]. apply bj_lhs. exact (findRelColumn_none _ _ _ _ L H).
      * apply orelse_ok in F. destruct (findRelColumn_some _ _ _ _ _ L F) as (r & R & DS).
        apply (column_cond_err _ _ _ _ _ _ _ _ _ _ _ _ U SO1 DS) in H. eapply bj_cond; [exact R|]. eapply bad_cond_weaken; [|exact H]. tauto.
    + apply cbind_err in H. destruct H as [H|((c2, xs) & _ & H)]; [|discriminate]. apply (IH _ _ _ U SO1) in H. destruct H as [(d' & I & H)|(d1 & d' & d2 & i & tt' & E & I & D' & H)].
      * left. exists d'. split; [now right|exact H].
      * right. exists (d :: d1), d', d2, i, tt'. split; [now rewrite E|]. split; [exact I|]. split; [exact D'|]. rewrite <- app_assoc in H. exact H.
Qed.

(** *** Fields *)
Lemma flag_iff : forall g t, flag_is g t = true <-> has_flag g t.
Proof.
  intros g t. unfold flag_is, has_flag. rewrite orb_true_iff, andb_true_iff. unfold kind_ptr. split.
  - intros [H|[H1 H2]]; [now left|right]. destruct (t_kind t); try discriminate. split; [reflexivity|]. destruct (t_elem t) as [x|]; [|discriminate]. now exists x.
  - intros [H|(H1 & x & H2 & H3)]; [now left|right]. rewrite H1, H2. now split.
Qed.

Lemma kind_iff : forall f P t, (forall k, f k = true <-> P k) -> (kind_is f t = true <-> of_kind P t).
Proof.
  intros f P t E. unfold kind_is, of_kind. rewrite orb_true_iff, andb_true_iff, E. unfold kind_ptr. split.
  - intros [H|[H1 H2]]; [now left|right]. destruct (t_kind t); try discriminate. split; [reflexivity|]. destruct (t_elem t) as [x|]; [|discriminate]. exists x. split; [reflexivity|]. now apply E.
  - intros [H|(H1 & x & H2 & H3)]; [now left|right]. rewrite H1, H2. split; [reflexivity|]. now apply E.
Qed.

Lemma json_iff : forall t, IsJSONIllegal t = true <-> of_kind no_json t.
Proof. intros t. unfold IsJSONIllegal. apply kind_iff. intros k. unfold no_json. destruct k; try match goal with b : basic |- _ => destruct b end; cbn; intuition congruence. Qed.

Lemma xml_iff : forall t, IsXMLIllegal t = true <-> of_kind no_xml t.
Proof. intros t. unfold IsXMLIllegal. apply kind_iff. intros k. unfold no_xml. destruct k; cbn; intuition congruence. Qed.

Lemma is_json_iff : forall c, is_json c = true <-> json_column c.
Proof. intros c. unfold is_json, json_column. rewrite orb_true_iff, !N.eqb_eq. tauto. Qed.

Lemma is_xml_iff : forall c, is_xml c = true <-> xml_column c.
Proof. intros c. unfold is_xml, xml_column. apply N.eqb_eq. Qed.

Lemma iff_false : forall (b : bool) (P : Prop), (b = true <-> P) -> (b = false <-> ~ P).
Proof. intros b P H. destruct b; intuition congruence. Qed.

Lemma document_err : forall custom illegal t fn x e, document custom illegal t fn x = CErr e -> custom = false /\ illegal = true /\ x = e.
Proof. intros custom illegal t fn x e H. unfold document in H. destruct custom; [discriminate|]. destruct illegal; [|destruct (IsByteSlice t || IsString t); discriminate]. repeat split. congruence. Qed.

Lemma by_table_err : forall k c t get x e, one_each k -> by_table k c t get x = CErr e -> no_entry k c t /\ x = e.
Proof.
  intros k c t get x e U H. unfold by_table in H. apply cbind_err in H. destruct H as [H|(m & L & H)]; [now apply isLength1_err in H|].
  destruct (typeCompatibility k (co_type c) t m) as [y|] eqn:T; [discriminate|]. split; [|congruence]. intros m' e' L' F. rewrite (length1_complete _ _ _ U L') in L. injection L as <-.
  destruct (fits_compatibility _ _ _ _ _ U F) as (e2 & E). congruence.
Qed.

Lemma iface_iff : forall k, is_iface k = true <-> k = KInterface.
Proof. intros []; cbn; split; congruence. Qed.

Lemma read_err : forall k f c e, one_each k -> read_check k f c = CErr e -> e = DColumnFieldTypeRead /\ unreadable k (fi_type f) c.
Proof.
  intros k f c e U H. unfold read_check in H. cbv zeta in H. destruct (is_iface (t_kind (fi_type f)) && negb (t_empty (fi_type f))) eqn:I.
  { injection H as <-. split; [reflexivity|]. apply andb_true_iff in I. destruct I as [I1 I2]. apply iface_iff in I1. apply negb_true_iff in I2. now apply ur_interface. }
  destruct (ImplementsScanner (fi_type f)) eqn:S; [discriminate|]. apply (iff_false _ _ (ImplementsScanner_iff _)) in S. change (~ scans (fi_type f)) in S.
  destruct (is_json c) eqn:J.
  { apply document_err in H. destruct H as (H1 & H2 & <-). split; [reflexivity|]. apply is_json_iff in J. apply (iff_false _ _ (flag_iff _ _)) in H1. apply json_iff in H2. now apply ur_json. }
  destruct (t_empty (fi_type f)) eqn:E; [discriminate|]. destruct (is_xml c) eqn:X.
  { apply document_err in H. destruct H as (H1 & H2 & <-). split; [reflexivity|]. apply is_xml_iff in X. apply (iff_false _ _ (flag_iff _ _)) in H1. apply xml_iff in H2. now apply ur_xml. }
  apply (by_table_err _ _ _ _ _ _ U) in H. destruct H as [H <-]. split; [reflexivity|].
  apply (iff_false _ _ (is_json_iff _)) in J. apply (iff_false _ _ (is_xml_iff _)) in X. apply ur_other; assumption.
Qed.

Lemma value_err : forall k f c e, one_each k -> value_check k f c = CErr e -> e = DColumnFieldTypeWrite /\ unwritable k (fi_type f) c.
Proof.
  intros k f c e U H. unfold value_check in H. cbv zeta in H.
  destruct (ImplementsValuer (fi_type f)) eqn:S; [discriminate|]. apply (iff_false _ _ (ImplementsValuer_iff _)) in S. change (~ has_flag f_valuer (fi_type f)) in S.
  destruct (is_json c) eqn:J.
  { apply document_err in H. destruct H as (H1 & H2 & <-). split; [reflexivity|]. apply is_json_iff in J. apply (iff_false _ _ (flag_iff _ _)) in H1. apply json_iff in H2. now apply uw_json. }
  destruct (is_xml c) eqn:X.
  { apply document_err in H. destruct H as (H1 & H2 & <-). split; [reflexivity|]. apply is_xml_iff in X. apply (iff_false _ _ (flag_iff _ _)) in H1. apply xml_iff in H2. now apply uw_xml. }
  apply (by_table_err _ _ _ _ _ _ U) in H. destruct H as [H <-]. split; [reflexivity|].
  apply (iff_false _ _ (is_json_iff _)) in J. apply (iff_false _ _ (is_xml_iff _)) in X. apply uw_other; assumption.
Qed.

Lemma field_read_err : forall db rf t l c b f e, one_each (db_cat db) -> state_of db rf t l c -> typeCheckFieldRead c b f = CErr e ->
  forall P : Prop, (b = true -> P) -> bad_read (db_cat db) t P f e.
Proof.
  intros db rf t l c b f e U SO H P W. unfold typeCheckFieldRead in H. destruct (findRelColumn (ck_rel c) (c_col (fi_col f))) as [col|] eqn:F.
  - apply cbind_err in H. destruct H as [H|(x & _ & H)]; [|discriminate]. unfold ck_cat in H. rewrite (so_db _ _ _ _ _ SO) in H. apply (read_err _ _ _ _ U) in H. destruct H as [-> H].
    destruct (findRelColumn_some _ _ _ _ _ (so_rel _ _ _ _ _ SO) F) as (r & R & D). apply (br_type _ _ _ _ r col); [now split|exact H].
  - destruct b; [|discriminate]. injection H as <-. apply br_column; [now apply W|]. exact (findRelColumn_none _ _ _ _ (so_rel _ _ _ _ _ SO) F).
Qed.

Lemma field_write_err : forall db rf t l c n f e, one_each (db_cat db) -> state_of db rf t l c -> check_write_field c n f = CErr e -> bad_write (db_cat db) t f e.
Proof.
  intros db rf t l c n f e U SO H. unfold check_write_field in H. apply cbind_err in H. destruct H as [H|(w & H1 & H)].
  - unfold typeCheckFieldWrite in H. destruct (findRelColumn (ck_rel c) (c_col (fi_col f))) as [col|] eqn:F; [|discriminate].
    destruct (findRelColumn_some _ _ _ _ _ (so_rel _ _ _ _ _ SO) F) as (r & R & D). apply cbind_err in H. destruct H as [H|(x & _ & H)].
    + apply insist_err in H. destruct H as [H <-]. apply orb_false_iff in H. destruct H as [H1 H2]. apply negb_false_iff in H1. rewrite (def_col _ _ _ _ D) in H2.
      apply (bx_default _ _ _ r col); [now split|exact H1|exact H2].
    + apply cbind_err in H. destruct H as [H|(y & _ & H)]; [|discriminate]. unfold ck_cat in H. rewrite (so_db _ _ _ _ _ SO) in H. apply (value_err _ _ _ _ U) in H. destruct H as [-> H].
      apply (bx_type _ _ _ r col); [now split|exact H].
  - apply cbind_err in H. destruct H as [H|(x & _ & H)]; [|discriminate]. apply insist_err in H. destruct H as [H <-]. destruct w as [w|]; [discriminate|].
    apply (field_write_ok _ _ _ _ _ _ _ _ SO) in H1. apply (iff_false _ _ (IsReadOnly_iff _)) in H. now apply bx_column.
Qed.

Lemma write_fields_err : forall c fs n e, check_write_fields c n fs = CErr e -> exists f m, In f fs /\ check_write_field c m f = CErr e.
Proof.
  induction fs as [|f fs IH]; intros n e H; cbn in H; [discriminate|]. apply cbind_err in H. destruct H as [H|(w & _ & H)]; [exists f, n; split; [now left|exact H]|].
  apply cbind_err in H. destruct H as [H|(ws & _ & H)]; [|discriminate]. destruct (IH _ _ H) as (f' & m & I & K). exists f', m. split; [now right|exact K].
Qed.

(** *** Conflicts *)
Lemma numbers_iff : forall a b, matchNumbers a b = true <-> List.length a = List.length b /\ incl a b.
Proof.
  intros a b. unfold matchNumbers. rewrite andb_true_iff, Nat.eqb_eq, forallb_forall. unfold incl. split; intros [H1 H2]; (split; [exact H1|]); intros x I; specialize (H2 x I).
  - apply existsb_exists in H2. destruct H2 as (y & J & E). apply Z.eqb_eq in E. now subst.
  - apply existsb_exists. exists x. split; [exact H2|]. apply Z.eqb_refl.
Qed.

Lemma find_first : forall A C (g : C -> bytes) (h : A -> bytes) (R : A -> C -> Prop) n rows l, Forall2 R rows l -> (forall a c, R a c -> g c = h a) ->
  match find (fun c => bytes_eqb (g c) n) l with
  | Some c => exists l1 a l2, rows = l1 ++ a :: l2 /\ R a c /\ h a = n /\ ~ In n (map h l1)
  | None => ~ In n (map h rows)
  end.
Proof.
  intros A C g h R n rows l F E. induction F as [|a c rows l D _ IH]; cbn; [tauto|]. destruct (bytes_eqb (g c) n) eqn:B.
  - apply bytes_eqb_eq in B. exists [], a, rows. repeat split; [exact D|now rewrite <- (E _ _ D)|cbn; tauto].
  - apply bytes_eqb_neq in B. rewrite (E _ _ D) in B. destruct (find _ l) as [x|].
    + destruct IH as (l1 & a' & l2 & -> & D' & H & N). exists (a :: l1), a', l2. repeat split; try assumption. cbn. intros [K|K]; [congruence|contradiction].
    + cbn. intros [K|K]; [congruence|contradiction].
Qed.

Lemma find_constraint : forall n l, match find (fun k : bytes * contype => bytes_eqb (fst k) n) l with
  | Some k => exists l1 l2, l = l1 ++ (n, snd k) :: l2 /\ ~ In n (map fst l1)
  | None => ~ In n (map fst l)
  end.
Proof.
  intros n l. induction l as [|[m k] l IH]; cbn; [tauto|]. destruct (bytes_eqb m n) eqn:B.
  - apply bytes_eqb_eq in B. subst. exists [], l. split; [reflexivity|]. cbn. tauto.
  - apply bytes_eqb_neq in B. destruct (find _ l) as [x|].
    + destruct IH as (l1 & l2 & -> & N). exists ((m, k) :: l1), l2. split; [reflexivity|]. cbn. intros [K|K]; contradiction.
    + intros [K|K]; contradiction.
Qed.

Lemma ix_decides : forall x i, ix_describes x i -> (ix_unique i || ix_primary i = true <-> decides x).
Proof. intros x i (_ & E1 & E2 & _). unfold decides. rewrite orb_true_iff, E1, E2. tauto. Qed.

Lemma columns_err : forall k t rel ids e, loaded k t rel -> check_all (fun id => orelse (findRelColumn rel (c_col id)) DColumnUnknown) ids = CErr e ->
  e = DColumnUnknown /\ exists id, In id ids /\ ~ has_row t (c_col id).
Proof.
  intros k t rel ids e L H. apply check_all_err in H. destruct H as (id & I & H). apply orelse_err in H. destruct H as [H <-]. split; [reflexivity|]. exists id. split; [exact I|].
  exact (findRelColumn_none _ _ _ _ L H).
Qed.

Lemma index_on_iff : forall x i rows nums, ix_describes x i -> nums = map cr_num rows -> (matchNumbers (ix_key i) nums = true <-> index_on x rows).
Proof. intros x i rows nums (_ & _ & _ & E & _) ->. rewrite numbers_iff, E, map_length. reflexivity. Qed.

Lemma ix_in : forall xs is i, Forall2 ix_describes xs is -> In i is -> exists x, In x xs /\ ix_describes x i.
Proof. intros xs is i F I. exact (forall2_in_r _ _ _ _ _ _ F I). Qed.

Lemma conflict_err : forall db rf t l c q w e oc, state_of db rf t l c -> q_onconflict q = Some oc -> typeCheckQueryOnConflictStruct c q w = CErr e -> bad_conflict t oc e.
Proof.
  intros db rf t l c q w e oc SO Q H. pose proof (so_rel _ _ _ _ _ SO) as L. pose proof L as (_ & LC & LI). unfold typeCheckQueryOnConflictStruct in H. rewrite Q in H.
  apply cbind_err in H. destruct H as [H|(t1 & _ & H)].
  { destruct (oc_column oc) as [ids|] eqn:C; [|discriminate]. apply cbind_err in H. destruct H as [H|(cols & H1 & H)].
    - apply (columns_err _ _ _ _ _ L) in H. destruct H as (-> & id & I & N). exact (bo_column _ _ _ _ C I N).
    - destruct (columns_rows _ _ _ _ _ L H1) as (rows & R & D). apply describes_nums in D. unfold column_target in H. cbn zeta in H.
      destruct (filter (fun i => matchNumbers (ix_key i) (map co_num cols)) (rel_ixs (ck_rel c))) as [|i0 on] eqn:F.
      + injection H as <-. apply (bo_no_index _ _ ids rows C R). intros x I O. destruct (forall2_in_l _ _ _ _ _ _ LI I) as (i & I' & DI).
        apply (index_on_iff _ _ _ _ DI D) in O. assert (K : In i []) by (rewrite <- F; apply filter_In; now split). contradiction.
      + destruct (find (fun i => ix_unique i || ix_primary i) (i0 :: on)) as [x|] eqn:G; [discriminate|]. injection H as <-. rewrite <- F in G.
        assert (K : In i0 (rel_ixs (ck_rel c)) /\ matchNumbers (ix_key i0) (map co_num cols) = true) by (apply (filter_In (fun i => matchNumbers (ix_key i) (map co_num cols))); rewrite F; now left). destruct K as [K1 K2].
        apply (bo_not_unique _ _ ids rows C R).
        * destruct (ix_in _ _ _ LI K1) as (x & I & DI). exists x. split; [exact I|]. now apply (index_on_iff _ _ _ _ DI D).
        * intros x I O DX. destruct (forall2_in_l _ _ _ _ _ _ LI I) as (i & I' & DI). apply (index_on_iff _ _ _ _ DI D) in O. apply (ix_decides _ _ DI) in DX.
          pose proof (find_none _ _ G i) as Z. cbv beta in Z. rewrite Z in DX; [discriminate|]. apply filter_In. now split. }
  apply cbind_err in H. destruct H as [H|(t2 & _ & H)].
  { destruct (oc_index oc) as [n|] eqn:C; [|discriminate]. pose proof (find_first _ _ ix_name ir_name ix_describes n _ _ LI (fun a c D => proj1 D)) as FF.
    apply cbind_err in H. destruct H as [H|(i & H1 & H)].
    - apply orelse_err in H. destruct H as [H <-]. unfold findRelIndex in H. rewrite H in FF. exact (bo_index _ _ _ C FF).
    - apply orelse_ok in H1. unfold findRelIndex in H1. rewrite H1 in FF. destruct FF as (l1 & x & l2 & E & DX & NX & NI).
      apply cbind_err in H. destruct H as [H|(y & _ & H)]; [|discriminate]. apply insist_err in H. destruct H as [H <-]. apply (bo_index_kind _ _ n x C); [exists l1, l2; now split|].
      apply (iff_false _ _ (ix_decides _ _ DX)). exact H. }
  apply cbind_err in H. destruct H as [H|(t3 & _ & H)].
  { destruct (oc_constraint oc) as [n|] eqn:C; [|discriminate]. pose proof (find_constraint n (rr_cons t)) as FF. rewrite <- LC in FF.
    apply cbind_err in H. destruct H as [H|(i & H1 & H)].
    - apply orelse_err in H. destruct H as [H <-]. unfold findRelConstraint in H. rewrite H in FF. rewrite LC in FF. exact (bo_constraint _ _ _ C FF).
    - apply orelse_ok in H1. unfold findRelConstraint in H1. rewrite H1 in FF. rewrite LC in FF.
      apply cbind_err in H. destruct H as [H|(y & _ & H)]; [|discriminate]. apply insist_err in H. destruct H as [H <-]. apply (bo_constraint_kind _ _ n (snd i) C FF); intros K; rewrite K in H; discriminate. }
  apply cbind_err in H. destruct H as [H|(u & _ & H)]; [|discriminate]. destruct (oc_update oc) as [ul|] eqn:C; [|discriminate]. destruct (l_all ul) eqn:A; [discriminate|].
  apply (columns_err _ _ _ _ _ L) in H. destruct H as (-> & id & I & N). exact (bo_update _ _ _ _ C A I N).
Qed.

(** *** Queries *)
Lemma columns_checked_err : forall db rf t l c ids e, state_of db rf t l c -> check_columns c ids = CErr e -> exists id, In id ids /\ bad_ident db (bindings rf l) id e.
Proof.
  intros db rf t l c ids e SO H. unfold check_columns in H. apply cbind_err in H. destruct H as [H|(x & _ & H)]; [|discriminate]. apply check_all_err in H.
  destruct H as (id & I & H). exists id. split; [exact I|]. exact (findColumn_err _ _ _ _ _ _ _ SO H).
Qed.

Lemma find_field : forall fs n f, find (fun f => bytes_eqb (c_col (fi_col f)) n) fs = Some f -> first_field fs n f.
Proof.
  induction fs as [|g fs IH]; intros n f H; cbn in H; [discriminate|]. unfold first_field. destruct (bytes_eqb (c_col (fi_col g)) n) eqn:B.
  - injection H as <-. apply bytes_eqb_eq in B. exists [], fs. repeat split; [exact B|cbn; tauto].
  - destruct (IH _ _ H) as (l1 & l2 & -> & E & N). exists (g :: l1), l2. repeat split; [exact E|]. cbn. apply bytes_eqb_neq in B. unfold field_name at 1. intros [K|K]; [congruence|contradiction].
Qed.

Lemma rejected_faulty : forall db q rf e, keyed (db_cat db) -> q_rel q = Some rf -> check_query db q = CErr e -> fault db q rf e.
Proof.
  intros db q rf e U R H. pose proof (proj1 U) as U1. assert (QT : q_rtype q = rf_type rf) by (unfold q_rtype; now rewrite R). unfold check_query in H. rewrite R in H.
  assert (LR : forall id, In id (rf_id rf :: joined (q_join q)) -> (e = DRelationUnknown /\ db_rels db (dotted id) = None)
      \/ (e = DColumnUnknownType /\ exists t r, db_rels db (dotted id) = Some t /\ In r (rr_cols t) /\ forall u, ~ type_of (db_cat db) (cr_type r) u) -> fault db q rf e).
  { intros id I [(-> & N)|(-> & t & r & D & J & N)]; [exact (ft_relation _ _ _ _ I N)|exact (ft_column_type _ _ _ _ _ _ I D J N)]. }
  apply cbind_err in H. destruct H as [H|(c0 & H0 & H)].
  { unfold loadTargetRelation in H. apply cbind_err in H. destruct H as [H|(x & _ & H)]; [|discriminate]. apply (LR (rf_id rf)); [now left|]. exact (loadRelation_err _ _ _ U1 H). }
  apply load_target_ok in H0. destruct H0 as (tr & SO). apply cbind_err in H. destruct H as [H|((c1, joins) & H1 & H)].
  { unfold typeCheckQueryJoinStruct in H. destruct (q_join q) as [j|] eqn:J; [|discriminate].
    assert (G : forall c, state_of db rf tr (source_of j) c -> check_joins c (j_dirs j) = CErr e -> fault db q rf e).
    { intros c S1 K. apply (check_joins_err _ _ _ _ _ _ _ U S1) in K. destruct K as [(d & I & K)|(d1 & d & d2 & i & t' & E & I & D & K)].
      - apply (LR (j_rel d)); [|exact K]. right. unfold joined. apply in_app_iff. right. now apply in_map.
      - exact (ft_join _ _ _ _ _ _ _ _ _ _ J E I D K). }
    apply cbind_err in H. unfold source_of in G. destruct (j_relation j) as [id|] eqn:JR.
    - destruct H as [H|(c1 & H1 & H)].
      + apply cbind_err in H. destruct H as [H|((x & y) & _ & H)]; [|discriminate]. apply (LR id); [right; unfold joined; rewrite JR; now left|]. exact (loadJoin_err _ _ _ _ _ _ _ U1 SO H).
      + apply cbind_ok in H1. destruct H1 as ((c2, rel) & H1 & E). injection E as <-. destruct (load_join_ok _ _ _ _ _ _ _ _ SO H1) as (SO1 & _). exact (G _ SO1 H).
    - destruct H as [H|(c1 & H1 & H)]; [discriminate|]. injection H1 as <-. exact (G _ SO H). }
  destruct (join_struct_ok _ _ _ _ _ _ _ SO H1) as (SO1 & _). apply (set_force_ok _ _ _ _ _ (q_force q) (q_optional q)) in SO1. cbn zeta in H.
  set (c := MkCk _ _ _ _ _ _) in H, SO1. assert (OP : ck_optional c = q_optional q) by reflexivity. clearbody c. clear H1 SO c0 c1.
  assert (T : target db q rf tr) by (split; [exact R|exact (so_target _ _ _ _ _ SO1)]).
  apply cbind_err in H. destruct H as [H|(x & _ & H)].
  { unfold typeCheckQueryForceDirective in H. destruct (q_force q) as [l|] eqn:F; [|discriminate]. apply (columns_checked_err _ _ _ _ _ _ _ SO1) in H. destruct H as (id & I & H).
    exact (ft_force _ _ _ _ _ _ F I H). }
  apply cbind_err in H. destruct H as [H|(? & _ & H)].
  { unfold typeCheckQueryDefaultDirective in H. destruct (q_default q) as [l|] eqn:F; [|discriminate]. apply cbind_err in H. destruct H as [H|(y & _ & H)]; [|discriminate].
    apply check_all_err in H. destruct H as (id & I & H). unfold check_default in H. apply cbind_err in H. destruct H as [H|(col & F' & H)].
    - apply orelse_err in H. destruct H as [H <-]. apply (findRelColumn_none _ _ _ _ (so_rel _ _ _ _ _ SO1)) in H. exact (ft_default_column _ _ _ _ _ _ T F I H).
    - apply orelse_ok in F'. destruct (findRelColumn_some _ _ _ _ _ (so_rel _ _ _ _ _ SO1) F') as (r & RN & D). apply insist_err in H. destruct H as [H <-].
      rewrite (def_col _ _ _ _ D) in H. exact (ft_default _ _ _ _ _ _ _ T F I RN H). }
  apply cbind_err in H. destruct H as [H|(? & _ & H)].
  { unfold typeCheckQueryOrderByDirective in H. destruct (q_orderby q) as [l|] eqn:F; [|discriminate]. apply (columns_checked_err _ _ _ _ _ _ _ SO1) in H. destruct H as (id & I & H).
    apply in_map_iff in I. destruct I as (o & <- & I). exact (ft_order _ _ _ _ _ _ F I H). }
  apply cbind_err in H. destruct H as [H|(? & _ & H)].
  { unfold typeCheckQueryReturnDirective in H. destruct (q_return q) as [l|] eqn:F; [|discriminate]. rewrite QT in H. destruct (l_all l) eqn:A.
    - apply cbind_err in H. destruct H as [H|(y & _ & H)]; [|discriminate]. apply check_all_err in H. destruct H as (f & I & H).
      apply (ft_return_all _ _ _ _ _ _ _ T F A I). apply (field_read_err _ _ _ _ _ _ _ _ U1 SO1 H). discriminate.
    - apply cbind_err in H. destruct H as [H|(fs & H1 & H)].
      + apply check_all_err in H. destruct H as (id & I & H). unfold findQueryColumnField in H. destruct (find _ _) as [f|]; [|discriminate].
        apply cbind_err in H. destruct H as [H|(y & _ & H)]; [|discriminate]. apply (ft_return _ _ _ _ _ _ F A I). exact (findColumn_err _ _ _ _ _ _ _ SO1 H).
      + apply check_all_ok in H1. apply cbind_err in H. destruct H as [H|(y & _ & H)]; [|discriminate]. apply check_all_err in H. destruct H as (f & I & H).
        destruct (forall2_in_r _ _ _ _ _ _ H1 I) as (id & J & K). unfold findQueryColumnField in K. rewrite QT in K. destruct (find _ _) as [f'|] eqn:FF; [|discriminate].
        apply cbind_ok in K. destruct K as (z & _ & K). injection K as ->. apply find_field in FF.
        apply (ft_return_some _ _ _ _ _ _ _ _ T F A J FF). apply (field_read_err _ _ _ _ _ _ _ _ U1 SO1 H). intros _. exact Logic.I. }
  apply cbind_err in H. destruct H as [H|(? & _ & H)].
  { unfold typeCheckQueryResultField in H. destruct (q_result q) as [l|] eqn:F; [|discriminate]. apply cbind_err in H. destruct H as [H|(y & _ & H)]; [|discriminate].
    apply check_all_err in H. destruct H as (f & I & H). apply (ft_result _ _ _ _ _ _ _ T F I). apply (field_read_err _ _ _ _ _ _ _ _ U1 SO1 H). intros _. exact Logic.I. }
  apply cbind_err in H. destruct H as [H|(((r3, w), pk) & _ & H)].
  { unfold typeCheckQueryRelField in H. destruct (rf_dir rf) eqn:D; [discriminate|].
    assert (SE : forall (K : q_kind q = KSelect), (chk r <- check_all (check_select_field c) (rt_fields (rf_type rf)); COk (somes r, @nil fwrite, @nil fwrite)) = CErr e -> fault db q rf e).
    { intros K G. apply cbind_err in G. destruct G as [G|(y & _ & G)]; [|discriminate]. apply check_all_err in G. destruct G as (f & I & G). unfold check_select_field in G.
      apply (ft_select _ _ _ _ _ _ T D K I). apply (field_read_err _ _ _ _ _ _ _ _ U1 SO1 G). rewrite OP. intros N (l & E & M). rewrite E in N. apply negb_true_iff in N.
      assert (Z : Contains l (fi_col f) = true) by (apply contains_named; exact M). congruence. }
    assert (WE : forall C (h : _ -> cres C), q_kind q = KInsert \/ q_kind q = KUpdate -> (forall ws e', h ws <> CErr e') -> (chk w <- check_write_fields c 0 (rt_fields (rf_type rf)); h w) = CErr e -> fault db q rf e).
    { intros C h K NE G. apply cbind_err in G. destruct G as [G|(y & _ & G)]; [|now apply NE in G]. apply write_fields_err in G. destruct G as (f & m & I & G).
      apply (ft_write _ _ _ _ _ _ T D K I). exact (field_write_err _ _ _ _ _ _ _ _ U1 SO1 G). }
    destruct (q_kind q) eqn:K; try discriminate.
    - refine (WE _ _ (or_introl eq_refl) _ H). discriminate.
    - refine (WE _ _ (or_intror eq_refl) _ H). discriminate.
    - exact (SE eq_refl H). }
  apply cbind_err in H. destruct H as [H|(wh & _ & H)].
  { unfold typeCheckQueryWhereStruct in H. destruct (q_where q) as [ws|] eqn:F; [|discriminate]. apply check_all_err in H. destruct H as (i & I & H).
    apply (ft_where _ _ _ i); [unfold where_of; now rewrite F|]. exact (where_item_err _ _ _ _ _ U SO1 _ _ H). }
  apply cbind_err in H. destruct H as [H|(y & _ & H)]; [|discriminate].
  destruct (q_onconflict q) as [oc|] eqn:F; [|unfold typeCheckQueryOnConflictStruct in H; rewrite F in H; discriminate].
  apply (ft_conflict _ _ _ _ _ _ T F). exact (conflict_err _ _ _ _ _ _ _ _ _ SO1 F H).
Qed.

(** *** A query at fault is not accepted. *)
Lemma stands_unique : forall l x a b, stands_for l x a -> stands_for l x b -> a = b.
Proof.
  intros l x a b (l1 & l2 & E & N) (m1 & m2 & E' & N'). rewrite E in E'. clear E. revert m1 E'. induction l1 as [|y l1 IH]; intros [|z m1] E'; cbn in *.
  - now injection E'.
  - injection E' as <- E'. exfalso. apply N. rewrite E', map_app. apply in_app_iff. right. now left.
  - injection E' as -> E'. exfalso. apply N'. rewrite <- E', map_app. apply in_app_iff. right. now left.
  - injection E' as _ E'. exact (IH m1 E').
Qed.

Lemma denotes_unique : forall db l id a t r b u s, denotes db l id a t r -> denotes db l id b u s -> a = b /\ t = u /\ r = s.
Proof.
  intros db l id a t r b u s (A1 & A2 & A3) (B1 & B2 & B3). pose proof (stands_unique _ _ _ _ A1 B1) as <-. rewrite A2 in B2. injection B2 as <-.
  repeat split. exact (row_unique _ _ _ _ A3 B3).
Qed.

Lemma describes_unique : forall k t r c d, one_each k -> describes k t r c -> describes k t r d -> c = d.
Proof.
  intros k t r [] [] U (A1 & A2 & A3 & A4 & A5 & A6 & A7 & A8 & A9 & A0) (B1 & B2 & B3 & B4 & B5 & B6 & B7 & B8 & B9 & B0). cbn in *.
  assert (E : co_type = co_type0) by (apply (type_unique k (cr_type r)); [exact U|now split|now split]). congruence.
Qed.

Lemma ident_sound : forall db l id rid t r e, denotes db l id rid t r -> ~ bad_ident db l id e.
Proof.
  intros db l id rid t r e (D1 & D2 & D3) H. destruct H as [H|rid' t' H1 H2 H3]; [exact (H _ D1)|]. pose proof (stands_unique _ _ _ _ D1 H1) as <-.
  rewrite D2 in H2. injection H2 as <-. exact (H3 (row_has _ _ _ D3)).
Qed.

Lemma operand_unique : forall db l d t u, one_each (db_cat db) -> operand db l d t -> operand db l d u -> t = u.
Proof.
  intros db l d t u U A C. unfold operand in *. destruct (c_col (c_rhs d)); [destruct (c_lit d); [contradiction|]|].
  - destruct A as (o & A1 & A2), C as (o' & C1 & C2). rewrite A1 in C1. injection C1 as <-. exact (type_unique _ _ _ _ U A2 C2).
  - destruct A as (rid & tr & r & A1 & A2), C as (rid' & tr' & r' & C1 & C2). destruct (denotes_unique _ _ _ _ _ _ _ _ _ A1 C1) as (_ & _ & <-). exact (type_unique _ _ _ _ U A2 C2).
Qed.

Lemma compared_unique : forall k p q r a b, one_each k -> compared k p q r a -> compared k p q r b -> a = b.
Proof. intros k p q r a b U A C. unfold compared in *. destruct (p_array p || quant_set q); [|congruence]. exact (type_unique _ _ _ _ U (proj2 A) (proj2 C)). Qed.

Lemma sound_binary : forall db l d r P, sound_cond db l d r P -> binary (c_pred d) ->
  exists lt rt e, type_of (db_cat db) (cr_type r) lt /\ operand db l d rt /\ compared (db_cat db) (c_pred d) (c_quant d) rt e /\ comparable (db_cat db) (c_pred d) lt e.
Proof. intros db l d r P H (B1 & B2). unfold sound_cond, truth_test, null_test in *. destruct (c_pred d); try exact H; exfalso; cbn in B1, B2; intuition. Qed.

Lemma cond_sound : forall db l d r P e, keyed (db_cat db) -> sound_cond db l d r P -> ~ bad_cond db l d r P e.
Proof.
  intros db l d r P e (U & _) H K. destruct K as [T N|T N O|e' B1 N D|B1 E M L|t B1 O A N|t B1 O A Q N|lt t et B1 L O C N].
  - unfold sound_cond, truth_test in *. destruct (c_pred d); cbn in T; try (exfalso; intuition discriminate); contradiction.
  - unfold sound_cond, null_test in *. destruct (c_pred d); cbn in T; try (exfalso; intuition discriminate); destruct H; congruence || contradiction.
  - destruct (sound_binary _ _ _ _ _ H B1) as (_ & rt & _ & _ & O & _). unfold operand in O. destruct (c_col (c_rhs d)); [congruence|].
    destruct O as (rid & tr & r' & O & _). exact (ident_sound _ _ _ _ _ _ _ O D).
  - destruct (sound_binary _ _ _ _ _ H B1) as (_ & rt & _ & _ & O & _). unfold operand in O. rewrite E in O. destruct (c_lit d); [congruence|]. destruct O as (o & O & _). congruence.
  - destruct (sound_binary _ _ _ _ _ H B1) as (_ & rt & et & _ & O' & C & _). pose proof (operand_unique _ _ _ _ _ U O O') as <-. unfold compared in C. rewrite A in C. destruct C as [C _]. contradiction.
  - destruct (sound_binary _ _ _ _ _ H B1) as (_ & rt & et & _ & O' & C & _). pose proof (operand_unique _ _ _ _ _ U O O') as <-. unfold compared in C. rewrite A, Q in C. destruct C as [C _]. contradiction.
  - destruct (sound_binary _ _ _ _ _ H B1) as (lt' & rt & et' & L' & O' & C' & M). pose proof (operand_unique _ _ _ _ _ U O O') as <-.
    pose proof (type_unique _ _ _ _ U L L') as <-. pose proof (compared_unique _ _ _ _ _ _ U C C') as <-. contradiction.
Qed.

Lemma field_no : forall k f v e, typeCheckFieldConditional k f = COk v -> ~ bad_field k f e.
Proof.
  intros k f v e H K. pose proof (field_cond_ok _ _ _ H) as S. change (field_sound k (with_valuer f v)) in S.
  assert (A : fc_func f = [] -> p_array (fc_pred f) || quant_set (fc_quant f) = true -> no_array_type k (co_type (fc_col f)) -> False).
  { intros FN A N. unfold typeCheckFieldConditional in H. rewrite FN in H. cbn zeta in H. rewrite A in H. apply cbind_ok in H. destruct H as (ct & H & _). apply orelse_ok in H.
    destruct (find _ TypeToArray) as [[a b]|] eqn:F; [|discriminate]. apply find_some in F. destruct F as [I F]. apply N.eqb_eq in F. cbn in F, H. subst a.
    apply find_type_ok in H. exact (N _ _ I H). }
  destruct K as [K1 K2 K3|K1 K2 K3 K4|K1 K2|K1 K2]; [apply A; try assumption; now rewrite K2|apply A; try assumption; now rewrite K2, K3|exact (K2 _ S)|exact (K2 _ S)].
Qed.

Lemma bound_no : forall db rf t l c id rid lcol tr r p b rb e, keyed (db_cat db) -> state_of db rf t l c -> describes (db_cat db) tr r lcol ->
  check_bound c id (rid, lcol) p b = COk rb -> ~ bad_bound db (bindings rf l) id tr r p b e.
Proof.
  intros db rf t l c id rid lcol tr r p b rb e U SO D H K. destruct K as [id' e K|n ty col e D' K].
  - cbn [check_bound] in H. apply cbind_ok in H. destruct H as (x & H & _). apply recode_ok in H.
    apply (column_cond_ok _ _ _ _ _ _ _ _ _ _ _ _ SO D) in H. apply (sound_cond_weaken _ _ _ _ _ False) in H; [|intros [W _]; discriminate].
    exact (cond_sound _ _ _ _ _ _ U H K).
  - pose proof (describes_unique _ _ _ _ _ (proj1 U) D D') as <-. cbn [check_bound snd] in H. apply cbind_ok in H. destruct H as (x & H & _). apply recode_ok in H.
    unfold ck_cat in H. rewrite (so_db _ _ _ _ _ SO) in H. exact (field_no _ _ _ _ H K).
Qed.

Lemma where_item_no : forall db rf t l c, keyed (db_cat db) -> state_of db rf t l c -> forall i w e, typeCheckWhereItem c i = COk w -> ~ bad_item db (rf_id rf) (bindings rf l) i e.
Proof.
  intros db rf t l c U SO i w e H K. revert w H. induction K as [d e K|d rid tr r e D K|n ty id p q fn e K|n ty id p q fn rid tr r col e D DS K|n id p lo hi e K|n id p lo hi rid tr r e D K|n id p lo hi rid tr r e D K|n i is e I K IH];
    intros w H; cbn [typeCheckWhereItem] in H; try (apply cbind_ok in H; destruct H as (x & H & H')).
  - unfold typeCheckColumnConditional in H. apply cbind_ok in H. destruct H as ((rid, col) & H & _). destruct (findColumn_ok _ _ _ _ _ _ _ _ SO H) as (t' & r & D1 & _).
    exact (ident_sound _ _ _ _ _ _ _ D1 K).
  - unfold typeCheckColumnConditional in H. apply cbind_ok in H. destruct H as ((rid', col) & H & H2). destruct (findColumn_ok _ _ _ _ _ _ _ _ SO H) as (t' & r' & D1 & D2).
    destruct (denotes_unique _ _ _ _ _ _ _ _ _ D D1) as (<- & <- & <-). apply (column_cond_ok _ _ _ _ _ _ _ _ _ _ _ _ SO D2) in H2.
    apply (sound_cond_weaken _ _ _ _ _ (rid <> rf_id rf)) in H2; [|tauto]. exact (cond_sound _ _ _ _ _ _ U H2 K).
  - destruct x as (rid, col). destruct (findColumn_ok _ _ _ _ _ _ _ _ SO H) as (t' & r & D1 & _). exact (ident_sound _ _ _ _ _ _ _ D1 K).
  - destruct x as (rid', col'). destruct (findColumn_ok _ _ _ _ _ _ _ _ SO H) as (t' & r' & D1 & D2). destruct (denotes_unique _ _ _ _ _ _ _ _ _ D D1) as (<- & <- & <-).
    pose proof (describes_unique _ _ _ _ _ (proj1 U) DS D2) as <-. apply cbind_ok in H'. destruct H' as (v & H' & _). unfold ck_cat in H'. rewrite (so_db _ _ _ _ _ SO) in H'.
    exact (field_no _ _ _ _ H' K).
  - destruct x as (rid, col). destruct (findColumn_ok _ _ _ _ _ _ _ _ SO H) as (t' & r & D1 & _). exact (ident_sound _ _ _ _ _ _ _ D1 K).
  - destruct x as (rid', col'). destruct (findColumn_ok _ _ _ _ _ _ _ _ SO H) as (t' & r' & D1 & D2). destruct (denotes_unique _ _ _ _ _ _ _ _ _ D D1) as (<- & <- & <-).
    apply cbind_ok in H'. destruct H' as (lo' & H1 & _). replace (if negated p then IsLT else IsGTE) with (match p with NotBetween | NotBetweenSym | NotBetweenAsym => IsLT | _ => IsGTE end) in H1 by (destruct p; reflexivity).
    exact (bound_no _ _ _ _ _ _ _ _ _ _ _ _ _ _ U SO D2 H1 K).
  - destruct x as (rid', col'). destruct (findColumn_ok _ _ _ _ _ _ _ _ SO H) as (t' & r' & D1 & D2). destruct (denotes_unique _ _ _ _ _ _ _ _ _ D D1) as (<- & <- & <-).
    apply cbind_ok in H'. destruct H' as (lo' & _ & H'). apply cbind_ok in H'. destruct H' as (hi' & H1 & _).
    replace (if negated p then IsGT else IsLTE) with (match p with NotBetween | NotBetweenSym | NotBetweenAsym => IsGT | _ => IsLTE end) in H1 by (destruct p; reflexivity).
    exact (bound_no _ _ _ _ _ _ _ _ _ _ _ _ _ _ U SO D2 H1 K).
  - rewrite nested_all in H. apply check_all_ok in H. destruct (forall2_in_l _ _ _ _ _ _ H I) as (w' & _ & E). exact (IH _ E).
Qed.

Lemma joins_at : forall db rf t d1 l d d2 ls, joins_checked db rf t l (d1 ++ d :: d2) ls ->
  exists c rel t' x, state_of db rf t (l ++ map j_rel (d1 ++ [d])) c /\ db_rels db (dotted (j_rel d)) = Some t'
    /\ loaded (db_cat db) t' rel /\ Forall2 (fun i w => check_join_item c (j_rel d) rel i = COk w) (j_items d) x.
Proof.
  induction d1 as [|a d1 IH]; intros l d d2 ls H; cbn in H; destruct ls as [|x xs]; try contradiction; destruct H as [H1 H2].
  - destruct H1 as (c & rel & t' & H). exists c, rel, t', x. exact H.
  - destruct (IH _ _ _ _ H2) as (c & rel & t' & y & S1 & H). exists c, rel, t', y. rewrite <- app_assoc in S1. split; [exact S1|exact H].
Qed.

Lemma loaded_types : forall k t rel r, loaded k t rel -> In r (rr_cols t) -> exists u, type_of k (cr_type r) u.
Proof. intros k t rel r (L & _) I. destruct (forall2_in_l _ _ _ _ _ _ L I) as (c & _ & D). exists (co_type c). exact (describes_type _ _ _ _ D). Qed.

Lemma relations_loaded : forall db rf t l c id, state_of db rf t l c -> In id (rf_id rf :: l) -> exists t' rel, db_rels db (dotted id) = Some t' /\ loaded (db_cat db) t' rel.
Proof.
  intros db rf t l c id [S1 S2 S3 S4 S5 S6] I.
  assert (J : In (ref_name id, id) (rev (bindings rf l))).
  { rewrite <- in_rev. unfold bindings. right. apply (in_map (fun id => (ref_name id, id))). exact I. }
  rewrite <- S5 in J. apply in_map_iff in J. destruct J as ([n [i rel]] & E & J). cbn in E. injection E as _ ->. rewrite Forall_forall in S6. specialize (S6 _ J). cbn in S6.
  destruct S6 as (t' & D & L). exists t', rel. now split.
Qed.

Lemma read_no : forall k f c v, read_check k f c = COk v -> ~ unreadable k (fi_type f) c.
Proof.
  intros k f c v H K. unfold read_check in H. cbv zeta in H. destruct (is_iface (t_kind (fi_type f)) && negb (t_empty (fi_type f))) eqn:I; [discriminate|].
  assert (JX : xml_column c -> is_json c = false) by (intros X; apply (iff_false _ _ (is_json_iff _)); unfold xml_column, json_column in *; rewrite X; intros [E|E]; vm_compute in E; discriminate).
  destruct K as [K1 K2|K1 K2 K3 K4|K1 K2 K3 K4 K5|K1 K2 K3 K4 K5].
  - apply iface_iff in K1. rewrite K1, K2 in I. discriminate.
  - apply (iff_false _ _ (ImplementsScanner_iff _)) in K2. rewrite K2 in H. apply is_json_iff in K1. rewrite K1 in H. apply (iff_false _ _ (flag_iff _ _)) in K3. apply json_iff in K4.
    unfold document in H. rewrite K3, K4 in H. discriminate.
  - apply (iff_false _ _ (ImplementsScanner_iff _)) in K2. rewrite K2, (JX K1), K3 in H. apply is_xml_iff in K1. rewrite K1 in H. apply (iff_false _ _ (flag_iff _ _)) in K4. apply xml_iff in K5.
    unfold document in H. rewrite K4, K5 in H. discriminate.
  - apply (iff_false _ _ (ImplementsScanner_iff _)) in K3. apply (iff_false _ _ (is_json_iff _)) in K1. apply (iff_false _ _ (is_xml_iff _)) in K2. rewrite K3, K1, K4, K2 in H.
    apply by_table_ok in H. destruct H as (m & e & L & F & _). exact (K5 _ _ L F).
Qed.

Lemma value_no : forall k f c v, value_check k f c = COk v -> ~ unwritable k (fi_type f) c.
Proof.
  intros k f c v H K. unfold value_check in H. cbv zeta in H.
  assert (JX : xml_column c -> is_json c = false) by (intros X; apply (iff_false _ _ (is_json_iff _)); unfold xml_column, json_column in *; rewrite X; intros [E|E]; vm_compute in E; discriminate).
  destruct K as [K1 K2 K3 K4|K1 K2 K3 K4|K1 K2 K3 K5].
  - apply (iff_false _ _ (ImplementsValuer_iff _)) in K2. rewrite K2 in H. apply is_json_iff in K1. rewrite K1 in H. apply (iff_false _ _ (flag_iff _ _)) in K3. apply json_iff in K4.
    unfold document in H. rewrite K3, K4 in H. discriminate.
  - apply (iff_false _ _ (ImplementsValuer_iff _)) in K2. rewrite K2, (JX K1) in H. apply is_xml_iff in K1. rewrite K1 in H. apply (iff_false _ _ (flag_iff _ _)) in K3. apply xml_iff in K4.
    unfold document in H. rewrite K3, K4 in H. discriminate.
  - apply (iff_false _ _ (ImplementsValuer_iff _)) in K3. apply (iff_false _ _ (is_json_iff _)) in K1. apply (iff_false _ _ (is_xml_iff _)) in K2. rewrite K3, K1, K2 in H.
    apply by_table_ok in H. destruct H as (m & e & L & F & _). exact (K5 _ _ L F).
Qed.

Lemma col_of_found : forall k t rel f r c, one_each k -> loaded k t rel -> col_of k t f r c -> findRelColumn rel (c_col (fi_col f)) = Some c.
Proof.
  intros k t rel f r c U L (R & D). destruct (findRelColumn rel (c_col (fi_col f))) as [c'|] eqn:F.
  - destruct (findRelColumn_some _ _ _ _ _ L F) as (r' & R' & D'). pose proof (row_unique _ _ _ _ R R') as <-. now rewrite (describes_unique _ _ _ _ _ U D D').
  - exfalso. exact (findRelColumn_none _ _ _ _ L F (row_has _ _ _ R)).
Qed.

Lemma field_read_no : forall db rf t l c b f o e (P : Prop), one_each (db_cat db) -> state_of db rf t l c -> typeCheckFieldRead c b f = COk o -> (P -> b = true) -> ~ bad_read (db_cat db) t P f e.
Proof.
  intros db rf t l c b f o e P U SO H W K. destruct K as [K1 K2|r col K1 K2].
  - destruct (field_read_ok _ _ _ _ _ _ _ _ SO H) as (_ & X). exact (K2 (X (W K1))).
  - unfold typeCheckFieldRead in H. rewrite (col_of_found _ _ _ _ _ _ U (so_rel _ _ _ _ _ SO) K1) in H. apply cbind_ok in H. destruct H as (s & H & _).
    unfold ck_cat in H. rewrite (so_db _ _ _ _ _ SO) in H. exact (read_no _ _ _ _ H K2).
Qed.

Lemma field_write_no : forall db rf t l c n f o e, one_each (db_cat db) -> state_of db rf t l c -> check_write_field c n f = COk o -> ~ bad_write (db_cat db) t f e.
Proof.
  intros db rf t l c n f o e U SO H K. unfold check_write_field in H. apply cbind_ok in H. destruct H as (w & H & H2). destruct K as [K1 K2|r col K1 K2 K3|r col K1 K2].
  - apply cbind_ok in H2. destruct H2 as (x & H2 & _). apply insist_ok in H2. unfold typeCheckFieldWrite in H. destruct (findRelColumn (ck_rel c) (c_col (fi_col f))) as [col|] eqn:F.
    + destruct (findRelColumn_some _ _ _ _ _ (so_rel _ _ _ _ _ SO) F) as (r & R & _). exact (K1 (row_has _ _ _ R)).
    + injection H as <-. apply IsReadOnly_iff in H2. contradiction.
  - unfold typeCheckFieldWrite in H. rewrite (col_of_found _ _ _ _ _ _ U (so_rel _ _ _ _ _ SO) K1) in H. apply cbind_ok in H. destruct H as (x & H & _). apply insist_ok in H.
    rewrite K2, (def_col _ _ _ _ (proj2 K1)), K3 in H. discriminate.
  - unfold typeCheckFieldWrite in H. rewrite (col_of_found _ _ _ _ _ _ U (so_rel _ _ _ _ _ SO) K1) in H. apply cbind_ok in H. destruct H as (x & _ & H). apply cbind_ok in H. destruct H as (v & H & _).
    unfold ck_cat in H. rewrite (so_db _ _ _ _ _ SO) in H. exact (value_no _ _ _ _ H K2).
Qed.

Lemma write_fields_at : forall c fs n os f, check_write_fields c n fs = COk os -> In f fs -> exists m o, check_write_field c m f = COk o.
Proof.
  induction fs as [|g fs IH]; intros n os f H I; [contradiction|]. cbn in H. apply cbind_ok in H. destruct H as (w & H & H2). destruct I as [->|I]; [now exists n, w|].
  apply cbind_ok in H2. destruct H2 as (ws & H2 & _). exact (IH _ _ _ H2 I).
Qed.

Lemma first_index_unique : forall t n x y, first_index t n x -> first_index t n y -> x = y.
Proof.
  intros t n x y (l1 & l2 & E & N & F) (m1 & m2 & E' & N' & F'). rewrite E in E'. clear E. revert m1 E' F'. induction l1 as [|a l1 IH]; intros [|b m1] E' F'; cbn in *.
  - now injection E'.
  - injection E' as <- _. exfalso. apply F'. now left.
  - injection E' as -> _. exfalso. apply F. now left.
  - injection E' as -> E'. apply (IH (fun K => F (or_intror K)) m1 E'). intros K. apply F'. now right.
Qed.

Lemma first_constraint_unique : forall t n x y, first_constraint t n x -> first_constraint t n y -> x = y.
Proof.
  intros t n x y (l1 & l2 & E & F) (m1 & m2 & E' & F'). rewrite E in E'. clear E. revert m1 E' F'. induction l1 as [|a l1 IH]; intros [|b m1] E' F'; cbn in *.
  - now injection E'.
  - injection E' as <- _. exfalso. apply F'. now left.
  - injection E' as -> _. exfalso. apply F. now left.
  - injection E' as -> E'. apply (IH (fun K => F (or_intror K)) m1 E'). intros K. apply F'. now right.
Qed.

Lemma rows_unique : forall t ids rows rows', Forall2 (fun id r => row_named t (c_col id) r) ids rows -> Forall2 (fun id r => row_named t (c_col id) r) ids rows' -> rows = rows'.
Proof.
  intros t ids rows rows' F. revert rows'. induction F as [|id r ids rows R _ IH]; intros rows' G; inversion G; subst; [reflexivity|]. f_equal; [eapply row_unique; eassumption|]. now apply IH.
Qed.

Lemma columns_all : forall k t rel ids cols id, loaded k t rel -> check_all (fun id => orelse (findRelColumn rel (c_col id)) DColumnUnknown) ids = COk cols -> In id ids -> has_row t (c_col id).
Proof.
  intros k t rel ids cols id L H I. apply check_all_ok in H. destruct (forall2_in_l _ _ _ _ _ _ H I) as (c & _ & F). apply orelse_ok in F.
  destruct (findRelColumn_some _ _ _ _ _ L F) as (r & R & _). exact (row_has _ _ _ R).
Qed.

Lemma conflict_no : forall db rf t l c q w o e oc, state_of db rf t l c -> q_onconflict q = Some oc -> typeCheckQueryOnConflictStruct c q w = COk o -> ~ bad_conflict t oc e.
Proof.
  intros db rf t l c q w o e oc SO Q H K. pose proof (so_rel _ _ _ _ _ SO) as L. pose proof L as (_ & LC & LI). unfold typeCheckQueryOnConflictStruct in H. rewrite Q in H.
  apply cbind_ok in H. destruct H as (t1 & H1 & H). apply cbind_ok in H. destruct H as (t2 & H2 & H). apply cbind_ok in H. destruct H as (t3 & H3 & H). apply cbind_ok in H. destruct H as (u & H4 & _).
  assert (CT : forall ids rows, oc_column oc = Some ids -> Forall2 (fun id r => row_named t (c_col id) r) ids rows -> exists x, In x (rr_ixs t) /\ index_on x rows /\ decides x).
  { intros ids rows C R. rewrite C in H1. apply cbind_ok in H1. destruct H1 as (cols & G1 & G2). destruct (columns_rows _ _ _ _ _ L G1) as (rows' & R' & D). pose proof (rows_unique _ _ _ _ R R') as <-.
    apply describes_nums in D. unfold column_target in G2. cbn zeta in G2. destruct (filter _ _) as [|i0 on] eqn:F; [discriminate|].
    destruct (find (fun i => ix_unique i || ix_primary i) (i0 :: on)) as [i|] eqn:G; [|discriminate]. apply find_some in G. destruct G as [G3 G4]. rewrite <- F in G3. apply filter_In in G3. destruct G3 as [G5 G6].
    destruct (ix_in _ _ _ LI G5) as (x & I & DI). exists x. split; [exact I|]. split; [now apply (index_on_iff _ _ _ _ DI D)|]. now apply (ix_decides _ _ DI). }
  destruct K as [ids id C I N|ids rows C R N|ids rows C R E N|n C N|n x C F N|n C N|n k C F N1 N2|ul id C A I N].
  - rewrite C in H1. apply cbind_ok in H1. destruct H1 as (cols & H1 & _). exact (N (columns_all _ _ _ _ _ _ L H1 I)).
  - destruct (CT _ _ C R) as (x & I & O & _). exact (N x I O).
  - destruct (CT _ _ C R) as (x & I & O & D). exact (N x I O D).
  - rewrite C in H2. apply cbind_ok in H2. destruct H2 as (i & H2 & _). apply orelse_ok in H2. unfold findRelIndex in H2.
    pose proof (find_first _ _ ix_name ir_name ix_describes n _ _ LI (fun a c D => proj1 D)) as FF. rewrite H2 in FF. destruct FF as (l1 & x & l2 & E & _ & NX & _). apply N. rewrite E, map_app. apply in_app_iff. right. now left.
  - rewrite C in H2. apply cbind_ok in H2. destruct H2 as (i & H2 & G). apply orelse_ok in H2. unfold findRelIndex in H2.
    pose proof (find_first _ _ ix_name ir_name ix_describes n _ _ LI (fun a c D => proj1 D)) as FF. rewrite H2 in FF. destruct FF as (l1 & y & l2 & E & DY & NX & NI).
    assert (Y : first_index t n y) by (exists l1, l2; now split). pose proof (first_index_unique _ _ _ _ F Y) as <-. apply cbind_ok in G. destruct G as (z & G & _). apply insist_ok in G.
    apply N. now apply (ix_decides _ _ DY).
  - rewrite C in H3. apply cbind_ok in H3. destruct H3 as (i & H3 & _). apply orelse_ok in H3. unfold findRelConstraint in H3.
    pose proof (find_constraint n (rel_cons (ck_rel c))) as FF. rewrite H3 in FF. destruct FF as (l1 & l2 & E & _). apply N. rewrite <- LC, E, map_app. apply in_app_iff. right. now left.
  - rewrite C in H3. apply cbind_ok in H3. destruct H3 as (i & H3 & G). apply orelse_ok in H3. unfold findRelConstraint in H3.
    pose proof (find_constraint n (rel_cons (ck_rel c))) as FF. rewrite H3 in FF. rewrite LC in FF. change (first_constraint t n (snd i)) in FF. pose proof (first_constraint_unique _ _ _ _ F FF) as ->.
    apply cbind_ok in G. destruct G as (z & G & _). apply insist_ok in G. destruct (snd i); congruence.
  - rewrite C, A in H4. exact (N (columns_all _ _ _ _ _ _ L H4 I)).
Qed.

Lemma columns_no : forall db rf t l c ids id e, state_of db rf t l c -> check_columns c ids = COk tt -> In id ids -> ~ bad_ident db (bindings rf l) id e.
Proof.
  intros db rf t l c ids id e SO H I. unfold check_columns in H. apply cbind_ok in H. destruct H as (x & H & _). apply check_all_ok in H. destruct (forall2_in_l _ _ _ _ _ _ H I) as ((rid, col) & _ & F).
  destruct (findColumn_ok _ _ _ _ _ _ _ _ SO F) as (t' & r & D & _). exact (ident_sound _ _ _ _ _ _ _ D).
Qed.

Lemma first_field_found : forall fs n f, first_field fs n f -> find (fun f => bytes_eqb (c_col (fi_col f)) n) fs = Some f.
Proof.
  intros fs n f (l1 & l2 & -> & E & N). induction l1 as [|g l1 IH]; cbn.
  - unfold field_name in E. rewrite E. now rewrite bytes_eqb_refl.
  - destruct (bytes_eqb (c_col (fi_col g)) n) eqn:B; [apply bytes_eqb_eq in B; exfalso; apply N; now left|]. apply IH. intros K. apply N. now right.
Qed.

Lemma faulty_rejected : forall db q rf e t, keyed (db_cat db) -> q_rel q = Some rf -> fault db q rf e -> check_query db q <> COk t.
Proof.
  intros db q rf e t U R K H. pose proof (proj1 U) as U1. assert (QT : q_rtype q = rf_type rf) by (unfold q_rtype; now rewrite R).
  apply check_query_ok in H. destruct H as (rf' & tr & c & P). pose proof (pa_rel _ _ _ _ _ _ P) as E. rewrite R in E. injection E as <-. pose proof (pa_state _ _ _ _ _ _ P) as SO.
  assert (TT : forall tr', target db q rf tr' -> tr' = tr) by (intros tr' (_ & D); pose proof (so_target _ _ _ _ _ SO); congruence).
  destruct (pa_reads _ _ _ _ _ _ P) as (r1 & r2 & r3 & R1 & R2 & R3 & _).
  destruct K as [id I N|id t' r I D J N|j d1 d d2 i t' e J E I D K|l id e F I K|l o e F I K|l id tr' T F I N|l id tr' r T F I RN N|l id e F A I K|l f tr' e T F A I K|l id f tr' e T F A I FF K|r f tr' e T F I K|f tr' e T D KI I K|f tr' e T D KI I K|i e I K|oc tr' e T F K].
  - destruct (relations_loaded _ _ _ _ _ _ SO I) as (t' & rel & D & _). congruence.
  - destruct (relations_loaded _ _ _ _ _ _ SO I) as (u & rel & D' & L). rewrite D in D'. injection D' as <-. destruct (loaded_types _ _ _ _ L J) as (x & X). exact (N x X).
  - pose proof (pa_joins _ _ _ _ _ _ P) as G. rewrite J, E in G. apply joins_at in G. destruct G as (c' & rel & u & x & S1 & D' & L & F). rewrite D in D'. injection D' as <-. unfold source_of in K.
    destruct (forall2_in_l _ _ _ _ _ _ F I) as (w & _ & G). destruct K as [dd N|dd r e RN K]; cbn [check_join_item] in G; apply cbind_ok in G; destruct G as (y & G & _); unfold typeCheckJoinConditional in G;
      apply cbind_ok in G; destruct G as (col & G1 & G2); apply orelse_ok in G1; destruct (findRelColumn_some _ _ _ _ _ L G1) as (r' & R' & DS).
    + exact (N (row_has _ _ _ R')).
    + pose proof (row_unique _ _ _ _ RN R') as <-. apply (column_cond_ok _ _ _ _ _ _ _ _ _ _ _ _ S1 DS) in G2. apply (sound_cond_weaken _ _ _ _ _ False) in G2; [|intros [W _]; discriminate].
      exact (cond_sound _ _ _ _ _ _ U G2 K).
  - pose proof (pa_forced _ _ _ _ _ _ P) as G. unfold typeCheckQueryForceDirective in G. rewrite F in G. exact (columns_no _ _ _ _ _ _ _ _ SO G I K).
  - pose proof (pa_orderby _ _ _ _ _ _ P) as G. unfold typeCheckQueryOrderByDirective in G. rewrite F in G. exact (columns_no _ _ _ _ _ _ _ _ SO G (in_map o_col _ _ I) K).
  - rewrite (TT _ T) in *. pose proof (pa_default _ _ _ _ _ _ P) as G. unfold typeCheckQueryDefaultDirective in G. rewrite F in G. apply cbind_ok in G. destruct G as (x & G & _). apply check_all_ok in G.
    destruct (forall2_in_l _ _ _ _ _ _ G I) as (y & _ & G'). unfold check_default in G'. apply cbind_ok in G'. destruct G' as (col & G' & _). apply orelse_ok in G'.
    destruct (findRelColumn_some _ _ _ _ _ (so_rel _ _ _ _ _ SO) G') as (r & R' & _). exact (N (row_has _ _ _ R')).
  - rewrite (TT _ T) in *. pose proof (pa_default _ _ _ _ _ _ P) as G. unfold typeCheckQueryDefaultDirective in G. rewrite F in G. apply cbind_ok in G. destruct G as (x & G & _). apply check_all_ok in G.
    destruct (forall2_in_l _ _ _ _ _ _ G I) as (y & _ & G'). unfold check_default in G'. apply cbind_ok in G'. destruct G' as (col & G' & HD). apply orelse_ok in G'. apply insist_ok in HD.
    destruct (findRelColumn_some _ _ _ _ _ (so_rel _ _ _ _ _ SO) G') as (r' & R' & DS). pose proof (row_unique _ _ _ _ RN R') as <-. rewrite (def_col _ _ _ _ DS), N in HD. discriminate.
  - unfold typeCheckQueryReturnDirective in R1. rewrite F, A in R1. apply cbind_ok in R1. destruct R1 as (fs & G & _). apply check_all_ok in G. destruct (forall2_in_l _ _ _ _ _ _ G I) as (f & _ & G').
    unfold findQueryColumnField in G'. destruct (find _ _) as [f'|]; [|discriminate]. apply cbind_ok in G'. destruct G' as ((rid, col) & G' & _).
    destruct (findColumn_ok _ _ _ _ _ _ _ _ SO G') as (t' & r & D & _). exact (ident_sound _ _ _ _ _ _ _ D K).
  - rewrite (TT _ T) in *. unfold typeCheckQueryReturnDirective in R1. rewrite F, A, QT in R1. apply cbind_ok in R1. destruct R1 as (os & G & _). apply check_all_ok in G. destruct (forall2_in_l _ _ _ _ _ _ G I) as (o & _ & G').
    refine (field_read_no _ _ _ _ _ _ _ _ _ _ U1 SO G' _ K). contradiction.
  - rewrite (TT _ T) in *. unfold typeCheckQueryReturnDirective in R1. rewrite F, A in R1. apply cbind_ok in R1. destruct R1 as (fs & G & R1). apply cbind_ok in R1. destruct R1 as (os & G2 & _).
    apply check_all_ok in G, G2. destruct (forall2_in_l _ _ _ _ _ _ G I) as (f' & J & G'). unfold findQueryColumnField in G'. rewrite QT, (first_field_found _ _ _ FF) in G'.
    apply cbind_ok in G'. destruct G' as (x & _ & G'). injection G' as <-. destruct (forall2_in_l _ _ _ _ _ _ G2 J) as (o & _ & G'). exact (field_read_no _ _ _ _ _ _ _ _ _ _ U1 SO G' (fun _ => eq_refl) K).
  - rewrite (TT _ T) in *. unfold typeCheckQueryResultField in R2. rewrite F in R2. apply cbind_ok in R2. destruct R2 as (os & G & _). apply check_all_ok in G. destruct (forall2_in_l _ _ _ _ _ _ G I) as (o & _ & G').
    exact (field_read_no _ _ _ _ _ _ _ _ _ _ U1 SO G' (fun _ => eq_refl) K).
  - rewrite (TT _ T) in *. unfold typeCheckQueryRelField in R3. rewrite D, KI in R3. apply cbind_ok in R3. destruct R3 as (os & G & _). apply check_all_ok in G. destruct (forall2_in_l _ _ _ _ _ _ G I) as (o & _ & G').
    unfold check_select_field in G'. refine (field_read_no _ _ _ _ _ _ _ _ _ _ U1 SO G' _ K). rewrite (pa_optional _ _ _ _ _ _ P). intros N. destruct (q_optional q) as [l|]; [|reflexivity].
    apply negb_true_iff. destruct (Contains l (fi_col f)) eqn:C; [|reflexivity]. exfalso. apply N. exists l. split; [reflexivity|]. now apply contains_named.
  - rewrite (TT _ T) in *. unfold typeCheckQueryRelField in R3. rewrite D in R3.
    assert (G : exists os, check_write_fields c 0 (rt_fields (rf_type rf)) = COk os).
    { destruct KI as [KI|KI]; rewrite KI in R3; apply cbind_ok in R3; destruct R3 as (os & G & _); now exists os. }
    destruct G as (os & G). destruct (write_fields_at _ _ _ _ _ G I) as (m & o & G'). exact (field_write_no _ _ _ _ _ _ _ _ _ U1 SO G' K).
  - pose proof (pa_where _ _ _ _ _ _ P) as G. unfold typeCheckQueryWhereStruct in G. unfold where_of in I. destruct (q_where q) as [ws|]; [|contradiction]. apply check_all_ok in G.
    destruct (forall2_in_l _ _ _ _ _ _ G I) as (w & _ & G'). exact (where_item_no _ _ _ _ _ U SO _ _ _ G' K).
  - rewrite (TT _ T) in *. exact (conflict_no _ _ _ _ _ _ _ _ _ _ SO F (pa_conflict _ _ _ _ _ _ P) K).
Qed.

Lemma keyed_ex : keyed (db_cat db_ex).
Proof. split; [exact db_one_each|]. split; repeat constructor; vm_compute; intuition discriminate. Qed.

Lemma closed_ex : closed db_ex.
Proof.
  split.
  - intros t I E. vm_compute in I. repeat (destruct I as [<-|I]; [try discriminate; eexists; apply find_type_ok; vm_compute; reflexivity|]). contradiction.
  - intros s o H. cbn [db_lit db_ex] in H. destruct (bytes_eqb s (B "'x'")); [injection H as <-; eexists; apply find_type_ok; vm_compute; reflexivity|].
    destruct (bytes_eqb s (B "1")); [injection H as <-; eexists; apply find_type_ok; vm_compute; reflexivity|discriminate].
  - intros n t x H I. cbn [db_rels db_ex] in H. destruct (bytes_eqb n (B "user")); [injection H as <-|destruct (bytes_eqb n (B "post")); [injection H as <-; destruct I|discriminate]].
    cbn [rr_ixs db_user] in I. repeat (destruct I as [<-|I]; [eexists; vm_compute; reflexivity|]). contradiction.
Qed.

Definition code_of (name : string) (fs : fields) : option dbcode := match check_query db_ex (ex_analysed name fs) with CErr e => Some e | _ => None end.

Definition u_rel (fs : fields) : fvar * gtype := ex_one (TNamed (ex_name "User") (TStruct fs)).

Definition u_id : fvar * gtype := (ex_var "Id" (ex_tag "sql" ["id"]), ex_int).

Definition u_where (fs : fields) : fields := [u_rel [u_id]; (ex_var "Where" [], TStruct fs)].

Definition u_cond (s : string) : fvar * gtype := (ex_var "_" (ex_tag "sql" [s]), ex_dir "Column").

Definition u_conflict (tag dir : string) : fields :=
  [u_rel [u_id]; (ex_var "OnConflict" [], TStruct [(ex_var "_" (ex_tag "sql" [tag]), ex_dir dir); (ex_var "_" [], ex_dir "Ignore")])].

Definition bad_filters : fstate := match analyzeFilterStruct ex_env
  [(ex_var "_" (ex_tag "rel" ["user:u"]), TNamed (ex_name "User") (TStruct [u_id])); (ex_var "_" (ex_tag "sql" ["u.email"]), ex_dir "TextSearch"); ex_ctor "F" []]
  with AOk s => s | _ => MkF None None None [] end.

Lemma C96_fault_proof : forall db q rf e, keyed (db_cat db) -> q_rel q = Some rf -> check_query db q = CErr e -> fault db q rf e.
Proof. exact rejected_faulty. Qed.

Lemma C96_rejected_proof : forall db q rf e t, keyed (db_cat db) -> q_rel q = Some rf -> fault db q rf e -> check_query db q <> COk t.
Proof. exact faulty_rejected. Qed.

Lemma C96_filter_fault_proof : forall db s rf e, keyed (db_cat db) -> fs_rel s = Some rf -> check_filter db s = CErr e -> filter_fault db s rf e.
Proof.
  intros db s rf e (U & _) R H. unfold check_filter in H. rewrite R in H. apply cbind_err in H. destruct H as [H|(c & H0 & H)].
  { unfold loadTargetRelation in H. apply cbind_err in H. destruct H as [H|(x & _ & H)]; [|discriminate]. apply (loadRelation_err _ _ _ U) in H.
    destruct H as [(-> & N)|(-> & t & r & D & J & N)]; [exact (ff_relation _ _ _ N)|exact (ff_column_type _ _ _ _ _ D J N)]. }
  apply load_target_ok in H0. destruct H0 as (tr & SO). pose proof (so_target _ _ _ _ _ SO) as T. apply cbind_err in H. destruct H as [H|(x & _ & H)].
  - apply check_all_err in H. destruct H as (f & I & H). unfold typeCheckFieldFilter in H. destruct (ExcludeFromFilter f) eqn:X; [discriminate|].
    destruct (findRelColumn (ck_rel c) (c_col (fi_col f))) as [col|] eqn:F; [|discriminate]. destruct (findRelColumn_some _ _ _ _ _ (so_rel _ _ _ _ _ SO) F) as (r & RN & D).
    apply cbind_err in H. destruct H as [H|(y & _ & H)]; [|discriminate]. unfold ck_cat in H. rewrite (so_db _ _ _ _ _ SO) in H. apply (value_err _ _ _ _ U) in H. destruct H as [-> H].
    refine (ff_field _ _ _ _ _ _ _ T I _ (conj RN D) H). intros m J. destruct (m_filter m) eqn:M; [reflexivity|]. exfalso.
    assert (Z : ExcludeFromFilter f = true) by (unfold ExcludeFromFilter; apply (mode_flags (fun m => negb (m_filter m))); exists m; split; [exact J|now rewrite M]). congruence.
  - apply cbind_err in H. destruct H as [H|(y & _ & H)]; [|discriminate]. destruct (fs_ts s) as [id|] eqn:Q; [|discriminate]. apply cbind_err in H. destruct H as [H|(col & F & H)].
    + apply orelse_err in H. destruct H as [H <-]. exact (ff_search_column _ _ _ _ _ T Q (findRelColumn_none _ _ _ _ (so_rel _ _ _ _ _ SO) H)).
    + apply orelse_ok in F. destruct (findRelColumn_some _ _ _ _ _ (so_rel _ _ _ _ _ SO) F) as (r & RN & D). apply insist_err in H. destruct H as [H <-]. apply N.eqb_neq in H.
      rewrite (type_col _ _ _ _ D) in H. exact (ff_search_type _ _ _ _ _ _ T Q RN H).
Qed.

Lemma C96_filter_rejected_proof : forall db s rf e t, keyed (db_cat db) -> fs_rel s = Some rf -> filter_fault db s rf e -> check_filter db s <> COk t.
Proof.
  intros db s rf e t (U & _) R K H. unfold check_filter in H. rewrite R in H. apply cbind_ok in H. destruct H as (c & H0 & H). apply load_target_ok in H0. destruct H0 as (tr & SO).
  pose proof (so_target _ _ _ _ _ SO) as T. pose proof (so_rel _ _ _ _ _ SO) as L. apply cbind_ok in H. destruct H as (x & H1 & H). apply check_all_ok in H1. apply cbind_ok in H. destruct H as (y & H2 & _).
  destruct K as [N|t' r D J N|tr' f r col D I M C K|tr' id D Q N|tr' id r D Q RN N]; try (rewrite T in D; injection D as <-).
  - congruence.
  - destruct (loaded_types _ _ _ _ L J) as (z & X). exact (N z X).
  - destruct (forall2_in_l _ _ _ _ _ _ H1 I) as (o & _ & G). unfold typeCheckFieldFilter in G. destruct (ExcludeFromFilter f) eqn:X.
    { unfold ExcludeFromFilter in X. apply (mode_flags (fun m => negb (m_filter m))) in X. destruct X as (m & J & X). rewrite (M m J) in X. discriminate. }
    rewrite (col_of_found _ _ _ _ _ _ U L C) in G. apply cbind_ok in G. destruct G as (v & G & _). unfold ck_cat in G. rewrite (so_db _ _ _ _ _ SO) in G. exact (value_no _ _ _ _ G K).
  - rewrite Q in H2. apply cbind_ok in H2. destruct H2 as (col & F & _). apply orelse_ok in F. destruct (findRelColumn_some _ _ _ _ _ L F) as (r & RN & _). exact (N (row_has _ _ _ RN)).
  - rewrite Q in H2. apply cbind_ok in H2. destruct H2 as (col & F & G). apply orelse_ok in F. destruct (findRelColumn_some _ _ _ _ _ L F) as (r' & RN' & D). pose proof (row_unique _ _ _ _ RN RN') as <-.
    apply insist_ok in G. apply N.eqb_eq in G. rewrite (type_col _ _ _ _ D) in G. contradiction.
Qed.

Lemma C96_decided_proof : forall e name fs q rf db, analyzeQueryStruct e name fs = AOk q -> plain_names fs -> closed db -> keyed (db_cat db) -> q_rel q = Some rf ->
  (exists t, check_query db q = COk t) <-> (forall c, ~ fault db q rf c).
Proof.
  intros e name fs q rf db A PN C U R. split.
  - intros (t & H) c F. exact (faulty_rejected _ _ _ _ _ U R F H).
  - intros N. destruct (check_query db q) as [t|c|] eqn:H; [now exists t|exfalso; exact (N c (rejected_faulty _ _ _ _ U R H))|exfalso; exact (C71_no_panic_proof _ _ _ _ _ A PN C H)].
Qed.
