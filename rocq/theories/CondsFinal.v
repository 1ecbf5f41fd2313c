(** Definitions and proofs used by PropsConds.v. *)
From Coq Require Import Ascii String ZArith NArith Bool List Lia Permutation.
From Verif Require Import GoBase AParse Analysis AnalysisSpec QuerySpec AnalysisProofs AnalysisRoles QueryFinal PropsQuery Oids Compat Gen GenSpec Check ConvertProofs CheckSpec CheckProofs CheckEx PropsCols.
Import ListNotations.
Local Open Scope string_scope.
Local Open Scope list_scope.

Lemma within_conforms : forall db rid l i is ws, within i is -> Forall2 (conforms db rid l) is ws -> exists w, conforms db rid l i w.
Proof.
  intros db rid l i is ws W. revert ws. induction W as [is I|n is is' I _ IH]; intros ws F.
  - destruct (forall2_in_l _ _ _ _ _ _ F I) as (w & _ & C). exists w. exact C.
  - destruct (forall2_in_l _ _ _ _ _ _ F I) as (w & _ & C). inversion C as [| | | |n' is0 cs C' E1 E2]; subst. exact (IH _ C').
Qed.

Lemma C65_where_proof : forall db q t rf tr d, check_query db q = COk t -> target db q rf tr -> within (WColumn d) (where_of q) ->
  exists rid tr' r, denotes db (bindings rf (joined (q_join q))) (c_lhs d) rid tr' r
    /\ sound_cond db (bindings rf (joined (q_join q))) d r (rid <> rf_id rf).
Proof.
  intros db q t rf tr d H T W. pose proof (C64_where _ _ _ _ _ H T) as F. destruct (within_conforms _ _ _ _ _ _ W F) as (w & C).
  inversion C as [|? rid tr' r D K| | |]; subst. exists rid, tr', r. split; assumption.
Qed.

Lemma C65_bounds_proof : forall db q t rf tr n id p lo hi id', check_query db q = COk t -> target db q rf tr -> within (WBetween n id p lo hi) (where_of q) ->
  In (BoundColumn id') [lo; hi] ->
  exists rid tr' r p', denotes db (bindings rf (joined (q_join q))) id rid tr' r
    /\ In p' [IsLT; IsGTE; IsGT; IsLTE] /\ sound_cond db (bindings rf (joined (q_join q))) (MkCond id id' [] p' QNone) r False.
Proof.
  intros db q t rf tr n id p lo hi id' H T W I. pose proof (C64_where _ _ _ _ _ H T) as F. destruct (within_conforms _ _ _ _ _ _ W F) as (w & C).
  inversion C as [| | |? ? ? ? ? lo' hi' rid tr' r D K1 K2|]; subst. exists rid, tr', r.
  assert (K : exists p' b, In p' [IsLT; IsGTE; IsGT; IsLTE] /\ bound_conforms db (bindings rf (joined (q_join q))) id tr' r p' (BoundColumn id') b).
  { destruct I as [I|[I|[]]]; subst; [exists (match p with NotBetween | NotBetweenSym | NotBetweenAsym => IsLT | _ => IsGTE end), lo'
      |exists (match p with NotBetween | NotBetweenSym | NotBetweenAsym => IsGT | _ => IsLTE end), hi']; (split; [destruct p; cbn; tauto|assumption]). }
  destruct K as (p' & b & I' & K). exists p'. split; [exact D|]. split; [exact I'|]. destruct b as [f|d]; [contradiction|]. destruct K as [-> K]. exact K.
Qed.

Definition ex_between : qstate := ex_analysed "SelectPosts" [(ex_var "Rel" (ex_tag "rel" ["post:p"]), TPtr (TNamed (ex_name "Post") (TStruct [(ex_var "Id" (ex_tag "sql" ["id"]), ex_int)])));
  (ex_var "Where" [], TStruct [(ex_var "In" (ex_tag "sql" [">"]), TStruct [(ex_var "A" (ex_tag "sql" ["p.id isbetween"]), TStruct [(ex_var "_" (ex_tag "sql" ["p.user_id"; "x"]), ex_dir "Column"); (ex_var "Y" (ex_tag "sql" ["y"]), ex_int)])])])].

Lemma C66_sound_proof : forall k f v, typeCheckFieldConditional k f = COk v ->
  field_sound k (MkFC (fc_name f) (fc_type f) (fc_ident f) (fc_col f) (fc_pred f) (fc_quant f) (fc_func f) v).
Proof. exact field_cond_ok. Qed.

(** Conversely, what is described is accepted.  [one_each]: types have one
    entry each in the catalog, as OIDs are unique. *)
Definition one_each (k : catalog) : Prop := NoDup (map ty_oid (cat_types k)).

Lemma find_type_complete : forall k o t, one_each k -> type_of k o t -> find_type k o = Some t.
Proof.
  intros k o t U [I E]. unfold find_type. unfold one_each in U. induction (cat_types k) as [|a l IH]; [contradiction|]. cbn in *. inversion U as [|? ? N U']; subst.
  destruct I as [->|I]; [now rewrite N.eqb_refl|]. destruct (N.eqb (ty_oid a) (ty_oid t)) eqn:E; [|now apply IH].
  apply N.eqb_eq in E. exfalso. apply N. rewrite E. now apply in_map.
Qed.

Definition ce_eqb (a b : compentry) : bool := bytes_eqb (ce_valuer a) (ce_valuer b) && bytes_eqb (ce_scanner a) (ce_scanner b).

Lemma ce_eqb_eq : forall a b, ce_eqb a b = true -> a = b.
Proof. intros [a1 a2] [b1 b2] H. apply andb_true_iff in H. destruct H as [H1 H2]. apply bytes_eqb_eq in H1, H2. cbn in *. congruence. Qed.

Lemma table_functional : forallb (fun r => forallb (fun p => match compat (fst (fst r)) (snd (fst r)) (fst p) with Some e => ce_eqb e (snd p) | None => false end) (snd r)) oid2literal = true.
Proof. vm_compute. reflexivity. Qed.

Lemma entry_compat : forall o m lit e, entry o m lit e -> compat o m lit = Some e.
Proof.
  intros o m lit e (rows & I & J). pose proof table_functional as T. rewrite forallb_forall in T. specialize (T _ I). cbn [fst snd] in T.
  rewrite forallb_forall in T. specialize (T _ J). cbn [fst snd] in T. destruct (compat o m lit); [|discriminate]. now rewrite (ce_eqb_eq _ _ T).
Qed.

Lemma fits_compatibility : forall k t m ft e, one_each k -> fits k t m (GenericLiteral ft) e -> exists e', typeCompatibility k t ft m = Some e'.
Proof.
  intros k t m ft e U H. unfold typeCompatibility. fold (stored t). destruct (compat (stored t) m (GenericLiteral ft)) as [e'|] eqn:C; [exists e'; reflexivity|].
  destruct H as [H|[[H1 H2]|[H1 (et & H2 & H3 & H4)]]].
  - apply entry_compat in H. congruence.
  - rewrite H1. apply entry_compat in H2. exists e. exact H2.
  - rewrite H1, (find_type_complete _ _ _ U H2). unfold is_string. rewrite H3. apply entry_compat in H4. exists e. exact H4.
Qed.

(** The entries of the operators that fit, in order. *)
Definition candidates (k : catalog) (n : bytes) (l : N) (ft : TypeInfo) (ops : list (bytes * N * N)) : list compentry :=
  flat_map (fun o => let '(n', l', r) := o in
    if bytes_eqb n' n && N.eqb l' l then
      match find_type k r with
      | Some t => match typeCompatibility k t ft false with Some e => [e] | None => [] end
      | None => []
      end
    else []) ops.

Definition plain_entry (e : compentry) : bool := match ce_valuer e with [] => true | _ => false end.

Lemma scan_ops_eq : forall k n l ft ops best, scan_ops k n l ft ops best =
  match find plain_entry (candidates k n l ft ops) with
  | Some e => Some e
  | None => match best with Some b => Some b | None => hd_error (candidates k n l ft ops) end
  end.
Proof.
  induction ops as [|[[n' l'] r] ops IH]; intros best; cbn; [now destruct best|].
  destruct (bytes_eqb n' n && N.eqb l' l); [|apply IH]. destruct (find_type k r) as [t|]; [|apply IH].
  destruct (typeCompatibility k t ft false) as [e|]; [|apply IH]. cbn [app find hd_error]. unfold plain_entry at 1. destruct (ce_valuer e); [reflexivity|].
  rewrite IH. fold (candidates k n l ft ops). destruct (find plain_entry (candidates k n l ft ops)); [reflexivity|]. destruct best; reflexivity.
Qed.

Lemma arrays_functional : forallb (fun p => match find (fun e => N.eqb (fst e) (fst p)) TypeToArray with Some q => N.eqb (snd q) (snd p) | None => false end) TypeToArray = true.
Proof. vm_compute. reflexivity. Qed.

Lemma array_of : forall o a, In (o, a) TypeToArray -> exists q, find (fun e => N.eqb (fst e) o) TypeToArray = Some q /\ snd q = a.
Proof.
  intros o a I. pose proof arrays_functional as T. rewrite forallb_forall in T. specialize (T _ I). cbn [fst snd] in T.
  destruct (find (fun e => N.eqb (fst e) o) TypeToArray) as [q|]; [|discriminate]. exists q. split; [reflexivity|]. now apply N.eqb_eq.
Qed.

Lemma length1_complete : forall k c b, one_each k -> length1 k c b -> isLength1Type k c = COk b.
Proof.
  intros k c b U (t & H1 & H2). unfold isLength1Type.
  assert (E : (if is_array (co_type c) then deref (find_type k (ty_elem (co_type c))) else COk (co_type c)) = COk t).
  { destruct (is_array (co_type c)); [now rewrite (find_type_complete _ _ _ U H1)|now subst]. }
  rewrite E. cbn [cbind]. f_equal. destruct (ty_cat t).
  - destruct b; [exfalso; now apply H2|reflexivity].
  - destruct (Z.eqb_spec (co_typmod c - 4) 1) as [K|K]; destruct b; try reflexivity; [symmetry; apply H2; lia|exfalso; apply K; rewrite (proj1 H2 eq_refl); reflexivity].
  - destruct (Z.eqb_spec (co_typmod c) 1) as [K|K]; destruct b; try reflexivity; [symmetry; now apply H2|exfalso; now apply K, H2].
  - destruct b; [exfalso; now apply H2|reflexivity].
Qed.

Lemma in_has_op : forall k n l r, In (n, l, r) (cat_ops k) -> has_op k n l r = true.
Proof.
  intros k n l r I. unfold has_op. apply existsb_exists. exists (n, l, r). split; [exact I|]. unfold op_eqb. cbn.
  now rewrite bytes_eqb_refl, !N.eqb_refl.
Qed.

Lemma C66_complete_proof : forall k f v, one_each k -> fc_func f = [] ->
  (p_array (fc_pred f) || quant_set (fc_quant f) = true -> exists a t, In (ty_oid (co_type (fc_col f)), a) TypeToArray /\ type_of k a t) ->
  (exists b, length1 k (fc_col f) b) ->
  field_sound k (MkFC (fc_name f) (fc_type f) (fc_ident f) (fc_col f) (fc_pred f) (fc_quant f) [] v) ->
  exists v', typeCheckFieldConditional k f = COk v'.
Proof.
  intros k f v U FN AR (b & L) H. unfold typeCheckFieldConditional. rewrite FN. cbn zeta. fold (stored (co_type (fc_col f))).
  unfold field_sound in H. cbn zeta in H. cbn [fc_name fc_type fc_ident fc_col fc_pred fc_quant fc_func fc_valuer] in H. destruct H as (e & _ & H).
  set (pick := if p_array (fc_pred f) || quant_set (fc_quant f) then _ else COk (co_type (fc_col f))).
  assert (PK : exists pt, pick = COk pt /\ (if p_array (fc_pred f) || quant_set (fc_quant f)
      then exists a, In (ty_oid (co_type (fc_col f)), a) TypeToArray /\ type_of k a pt else pt = co_type (fc_col f))).
  { unfold pick. destruct (p_array (fc_pred f) || quant_set (fc_quant f)); [|exists (co_type (fc_col f)); split; reflexivity].
    destruct (AR eq_refl) as (a & t & I & T). exists t. destruct (array_of _ _ I) as (q & F & <-). rewrite F, (find_type_complete _ _ _ U T).
    split; [reflexivity|]. exists (snd q). split; assumption. }
  destruct PK as (pt & -> & PK). cbn [cbind]. rewrite (length1_complete _ _ _ U L). cbn [cbind].
  set (first := if has_op _ _ _ _ then _ else COk None). destruct first as [[x|]| |] eqn:F0; cbn [cbind]; [eexists; reflexivity| | |];
    try (unfold first in F0; destruct (has_op k (oprname (fc_pred f)) (stored (co_type (fc_col f))) (stored (co_type (fc_col f)))); discriminate).
  assert (N : candidates k (oprname (fc_pred f)) (stored (co_type (fc_col f))) (valuer_as_string (fc_type f)) (cat_ops k) <> []).
  { destruct H as [(m & pt' & L' & O & PT & FT)|(r & rt & I & T & FT)].
    - exfalso. unfold first in F0. rewrite (in_has_op _ _ _ _ O) in F0. apply (length1_complete _ _ _ U) in L'. apply (length1_complete _ _ _ U) in L.
      rewrite L in L'. injection L' as ->.
      assert (pt' = pt).
      { destruct (p_array (fc_pred f) || quant_set (fc_quant f)); [|congruence]. destruct PK as (a & I & T). destruct PT as (a' & I' & T').
        destruct (array_of _ _ I) as (q & F & E). destruct (array_of _ _ I') as (q' & F' & E'). rewrite F in F'. injection F' as <-. rewrite E in E'. subst a'.
        apply (find_type_complete _ _ _ U) in T, T'. congruence. }
      subst pt'. rewrite <- value_type_eq in FT. destruct (fits_compatibility _ _ _ _ _ U FT) as (e' & C). rewrite C in F0. discriminate.
    - rewrite <- value_type_eq in FT. destruct (fits_compatibility _ _ _ _ _ U FT) as (e' & C). intros E.
      assert (J : In e' (candidates k (oprname (fc_pred f)) (stored (co_type (fc_col f))) (valuer_as_string (fc_type f)) (cat_ops k))).
      { unfold candidates. apply in_flat_map. exists (oprname (fc_pred f), stored (co_type (fc_col f)), r). split; [exact I|].
        rewrite bytes_eqb_refl, N.eqb_refl. cbn [andb]. rewrite (find_type_complete _ _ _ U T), C. now left. }
      rewrite E in J. contradiction. }
  rewrite scan_ops_eq. destruct (find plain_entry _) as [y|]; [eexists; reflexivity|]. destruct (candidates _ _ _ _ _) as [|y l]; [congruence|]. eexists; reflexivity.
Qed.

(** A column of type integer compared with an int64, and with a []int for IN. *)
Definition ex_fcond (t : TypeInfo) (p : predicate) : fcond :=
  MkFC (B "F") t (MkCol [] (B "id")) (MkCo 1 (B "id") (-1) true true true (MkTy oid_Int4 (B "integer") false CatOther 0) true 7001) p QNone [] [].

Lemma db_one_each : one_each db_cats.
Proof. repeat constructor; vm_compute; intuition discriminate. Qed.

(** The order in which the operators are met does not matter for acceptance,
    and not for whether a converter is needed... *)
Definition reordered (k k' : catalog) : Prop :=
  cat_types k' = cat_types k /\ cat_casts k' = cat_casts k /\ cat_procs k' = cat_procs k /\ Permutation (cat_ops k) (cat_ops k').

Lemma re_type : forall k k' o, reordered k k' -> find_type k' o = find_type k o.
Proof. intros k k' o (E & _). unfold find_type. now rewrite E. Qed.

Lemma re_cast : forall k k' t s, reordered k k' -> find_cast k' t s = find_cast k t s.
Proof. intros k k' t s (_ & E & _). unfold find_cast. now rewrite E. Qed.

Lemma re_op : forall k k' n l r, reordered k k' -> has_op k' n l r = has_op k n l r.
Proof.
  intros k k' n l r (_ & _ & _ & P). destruct (has_op k n l r) eqn:E.
  - apply has_op_in in E. apply in_has_op. exact (Permutation_in _ P E).
  - destruct (has_op k' n l r) eqn:E'; [|reflexivity]. apply has_op_in in E'. apply (Permutation_in _ (Permutation_sym P)) in E'.
    apply in_has_op in E'. congruence.
Qed.

Lemma re_compat : forall k k' t ft m, reordered k k' -> typeCompatibility k' t ft m = typeCompatibility k t ft m.
Proof. intros k k' t ft m R. unfold typeCompatibility. now rewrite (re_type _ _ _ R). Qed.

Lemma re_comparison : forall k k' l r p q, reordered k k' -> typeCheckComparison k' l r p q = typeCheckComparison k l r p q.
Proof.
  intros k k' l r p q R. unfold typeCheckComparison.
  assert (E : (if p_array p || quant_set q then chk r0 <- deref r; chk _ <- insist (is_array r0) (if p_array p then DPredicateOperandArray else DPredicateOperandQuantifier); COk (find_type k' (ty_elem r0)) else COk r)
            = (if p_array p || quant_set q then chk r0 <- deref r; chk _ <- insist (is_array r0) (if p_array p then DPredicateOperandArray else DPredicateOperandQuantifier); COk (find_type k (ty_elem r0)) else COk r)).
  { destruct (p_array p || quant_set q); [|reflexivity]. destruct r; [|reflexivity]. cbn. now rewrite (re_type _ _ _ R). }
  rewrite E. match goal with |- cbind ?x _ = _ => destruct x as [[e|]| |] end; try reflexivity. cbn [cbind deref]. cbv zeta. cbv beta. now rewrite !(re_cast _ _ _ _ R), !(re_op _ _ _ _ _ R).
Qed.

Lemma re_pairs : forall k k' p q l, reordered k k' -> proc_pairs k' p q l = proc_pairs k p q l.
Proof.
  intros k k' p q l R. induction l as [|[[la lr] [ra rr]] l IH]; [reflexivity|]. cbn. rewrite !(re_type _ _ _ R), IH.
  destruct (find_type k lr); [|reflexivity]. destruct (find_type k rr); [|reflexivity]. now rewrite (re_comparison _ _ _ _ _ _ R).
Qed.

Lemma re_length1 : forall k k' c, reordered k k' -> isLength1Type k' c = isLength1Type k c.
Proof. intros k k' c R. unfold isLength1Type. now rewrite (re_type _ _ _ R). Qed.

Lemma re_candidates : forall k k' n l ft, reordered k k' -> Permutation (candidates k n l ft (cat_ops k)) (candidates k' n l ft (cat_ops k')).
Proof.
  intros k k' n l ft R. assert (E : forall ops, candidates k' n l ft ops = candidates k n l ft ops).
  { intros ops. unfold candidates. apply flat_map_ext. intros [[n' l'] r]. rewrite (re_type _ _ _ R). destruct (find_type k r); [|reflexivity].
    now rewrite (re_compat _ _ _ _ _ R). }
  rewrite E. unfold candidates. apply Permutation_flat_map. apply R.
Qed.

Lemma re_coercion : forall k k' t s, reordered k k' -> checkTypeCoercion k' t s = checkTypeCoercion k t s.
Proof. intros k k' t s R. unfold checkTypeCoercion. now rewrite (re_cast _ _ _ _ R). Qed.

Lemma C66_order_proof : forall k k' f v, reordered k k' -> typeCheckFieldConditional k f = COk v ->
  exists v', typeCheckFieldConditional k' f = COk v' /\ (v = v' \/ (v <> [] /\ v' <> [])).
Proof.
  intros k k' f v R H. unfold typeCheckFieldConditional in *. destruct (fc_func f) as [|a s] eqn:FN.
  - cbn zeta in *. rewrite (re_op _ _ _ _ _ R), (re_length1 _ _ _ R).
    set (pick' := if p_array (fc_pred f) || quant_set (fc_quant f) then _ else COk (co_type (fc_col f))).
    set (pick := if p_array (fc_pred f) || quant_set (fc_quant f) then _ else COk (co_type (fc_col f))) in H.
    assert (E : pick' = pick).
    { unfold pick', pick. destruct (p_array (fc_pred f) || quant_set (fc_quant f)); [|reflexivity]. destruct (find _ TypeToArray); [|reflexivity]. now rewrite (re_type _ _ _ R). }
    rewrite E. apply cbind_ok in H. destruct H as (pt & -> & H). cbn [cbind].
    set (first' := if has_op _ _ _ _ then _ else COk None). set (first := if has_op _ _ _ _ then _ else COk None) in H.
    assert (E' : first' = first).
    { unfold first', first. destruct (has_op _ _ _ _); [|reflexivity]. destruct (isLength1Type k (fc_col f)); cbn [cbind]; try reflexivity. now rewrite (re_compat _ _ _ _ _ R). }
    rewrite E'. clearbody first. apply cbind_ok in H. destruct H as (o & -> & H). cbn [cbind]. destruct o as [e|].
    + injection H as <-. eexists. split; [reflexivity|now left].
    + apply cbind_ok in H. destruct H as (e & H & EV). injection EV as <-. apply orelse_ok in H. rewrite scan_ops_eq in *.
      pose proof (re_candidates k k' (oprname (fc_pred f)) (stored (co_type (fc_col f))) (valuer_as_string (fc_type f)) R) as P. unfold stored in P.
      set (c := candidates k _ _ _ _) in *. set (c' := candidates k' _ _ _ _) in *. clearbody c c'.
      destruct (find plain_entry c) as [x|] eqn:F.
      * injection H as ->. apply find_some in F. destruct F as [I PE]. destruct (find plain_entry c') as [x'|] eqn:F'.
        -- apply find_some in F'. destruct F' as [_ PE']. exists (ce_valuer x'). split; [reflexivity|]. left. unfold plain_entry in *.
           destruct (ce_valuer e), (ce_valuer x'); congruence.
        -- pose proof (find_none _ _ F' e (Permutation_in _ P I)). congruence.
      * destruct c as [|y c]; [discriminate|]. injection H as ->. destruct (find plain_entry c') as [x'|] eqn:F'.
        -- apply find_some in F'. destruct F' as [I PE]. apply (Permutation_in _ (Permutation_sym P)) in I. pose proof (find_none _ _ F x' I). congruence.
        -- destruct c' as [|y' c']; [apply Permutation_sym, Permutation_nil in P; discriminate|]. exists (ce_valuer y'). split; [reflexivity|]. right.
           pose proof (find_none _ _ F e (or_introl eq_refl)) as N1. pose proof (find_none _ _ F' y' (or_introl eq_refl)) as N2. unfold plain_entry in N1, N2.
           destruct (ce_valuer e), (ce_valuer y'); split; congruence.
  - unfold typeCheckFieldConditionalWithFunc in *. rewrite FN in *. assert (EP : cat_procs k' = cat_procs k) by apply R. rewrite EP.
    apply cbind_ok in H. destruct H as (procs & HP & H). rewrite HP. cbn [cbind]. rewrite (re_pairs _ _ _ _ _ R). apply cbind_ok in H. destruct H as (pairs & HQ & H). rewrite HQ. cbn [cbind].
    cbn zeta in *. exists v. split; [|now left]. rewrite <- H. erewrite flat_map_ext; [reflexivity|]. intros [x y]. cbn [fst snd].
    rewrite (re_coercion _ _ _ _ R). destruct (checkTypeCoercion _ _ _); [|reflexivity]. now rewrite (re_compat _ _ _ _ _ R).
Qed.

Lemma C66_converter_refuted_proof : exists k k' f v v', reordered k k' /\ one_each k /\ typeCheckFieldConditional k f = COk v
  /\ typeCheckFieldConditional k' f = COk v' /\ v <> v'.
Proof.
  set (ts := [MkTy 90002 (B "net") false CatOther 0; MkTy oid_InetArr (B "inet[]") false CatArray oid_Inet; MkTy oid_CIDRArr (B "cidr[]") false CatArray oid_CIDR]).
  exists (MkCat ts [(B "=", 90002%N, oid_InetArr); (B "=", 90002%N, oid_CIDRArr)] [] []), (MkCat ts [(B "=", 90002%N, oid_CIDRArr); (B "=", 90002%N, oid_InetArr)] [] []).
  exists (MkFC (B "F") (MkTI [] KSlice [] [] false no_flags false false false 0 None (Some (MkTI (B "IPNet") KStruct (B "net") (B "net") true no_flags false false false 0 None None)))
     (MkCol [] (B "c")) (MkCo 1 (B "c") (-1) true true true (MkTy 90002 (B "net") false CatOther 0) true 7001) IsEQ QNone [] []).
  eexists _, _. split; [repeat split; apply perm_swap|]. split; [repeat constructor; vm_compute; intuition discriminate|].
  split; [vm_compute; reflexivity|]. split; [vm_compute; reflexivity|]. discriminate.
Qed.
