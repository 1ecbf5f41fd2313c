(** What the analysis and the checker have seen to in a query they accept:
    the hypotheses of the theorems on the generated method. *)
From Coq Require Import Ascii String ZArith NArith Bool List Lia.
From Verif Require Import GoBase AParse Analysis AnalysisSpec AnalysisProofs AnalysisRoles QuerySlots Gen GenSpec Check.
Import ListNotations.
Local Open Scope string_scope.
Local Open Scope list_scope.

(** ** What the analysis has seen to *)

Record decent (q : qstate) : Prop := MkDecent {
  d_res : forall r, q_result q = Some r -> isSelect (q_kind q) = false /\ q_return q = None /\ (rt_iter (rs_type r) = true -> rt_slice (rs_type r) = false);
  d_ret : q_return q <> None -> isSelect (q_kind q) = false /\ q_result q = None;
  d_where : IsInsertOrUpdateSlice q = true -> q_where q = None /\ q_filter q = None /\ q_all q = false;
  d_rel : rt_iter (q_rtype q) = true -> IsInsertOrUpdate q = false /\ rt_slice (q_rtype q) = false;
  d_cnt : IsSelectCountOrExists q = true -> q_rtype q = zero_rt }.
Lemma iter_not_slice : forall e sp t rt, analyzeRelType e sp t = AOk rt -> rt_iter rt = true -> rt_slice rt = false.
Proof.
  intros e sp t rt H I.
  assert (F : forall n u p s a len it m, finish_rt e sp n u p s a len it m = AOk rt -> rt_slice rt = s /\ rt_iter rt = it).
  { intros n u p s a len it m K. unfold finish_rt in K. aok. cbv zeta in *. repeat match goal with K : match ?x with _ => _ end = AOk _ |- _ => destruct x; try discriminate K | _ => progress aok end; subst; auto. }
  unfold analyzeRelType in H. cbv zeta in H.
  repeat match goal with
  | K : match ?x with _ => _ end = AOk _ |- _ => destruct x; try discriminate K
  | K : finish_rt _ _ _ _ _ _ _ _ _ _ = AOk _ |- _ => apply F in K; destruct K; congruence
  | K : abind _ _ = AOk _ |- _ => destruct (abind_ok _ _ _ K) as (? & ? & ?); clear K
  end.
Qed.
Lemma decent_step : forall e q v t q', decent q -> field_pass1 e q v t = AOk q' -> decent q'.
Proof.
  intros e q v t q' D H. apply step_ran in H. destruct D as [D1 D2 D3 D4 D5].
  assert (K : q_kind q' = q_kind q -> q_rel q' = q_rel q -> q_result q' = q_result q -> q_return q' = q_return q -> q_where q' = q_where q -> q_filter q' = q_filter q -> q_all q' = q_all q -> decent q').
  { intros A1 A2 A3 A4 A5 A6 A7. constructor; unfold IsInsertOrUpdateSlice, IsInsertOrUpdate, IsSelectCountOrExists, q_rtype in *; rewrite ?A1, ?A2, ?A3, ?A4, ?A5, ?A6, ?A7; auto. }
  assert (W : where_allowed q = AOk tt -> q_kind q' = q_kind q -> q_rel q' = q_rel q -> q_result q' = q_result q -> q_return q' = q_return q -> decent q').
  { intros W A1 A2 A3 A4. apply where_allowed_ok in W. destruct W as (W1 & W2 & _). constructor; unfold IsInsertOrUpdateSlice, IsInsertOrUpdate, IsSelectCountOrExists, q_rtype in *; rewrite ?A1, ?A2, ?A3, ?A4; auto.
    intros I. exfalso. apply andb_true_iff in I. destruct I as [I1 I2]. change (rt_slice (q_reltype q) = true) in I2. destruct (q_kind q); try discriminate I1; [congruence|]. rewrite W2 in I2; [discriminate I2|reflexivity]. }
  inversion H as [R|? ? R|R|R|R|? R|R|R|R|R|R|R|R|R|R|R|R|R|R]; clear H.
  - pose proof (set_where_ok _ _ _ _ _ R) as (x & Q). unfold analyzeWhereStruct in R. destruct (abind_ok _ _ _ R) as ([] & E & _). subst q'. apply W; auto.
  - pose proof (set_join_ok _ _ _ _ _ R) as (sp & x & Q). subst q'. apply K; auto.
  - pose proof (set_onconflict_ok _ _ _ _ _ R) as (x & Q). subst q'. apply K; auto.
  - pose proof (set_limit_ok _ _ _ _ _ R) as (x & Q). subst q'. apply K; auto.
  - pose proof (set_offset_ok _ _ _ _ _ R) as (x & Q). subst q'. apply K; auto.
  - pose proof (set_errh_ok _ _ _ _ R) as Q. subst q'. apply K; auto.
  - pose proof (set_ctx_ok _ _ _ R) as Q. subst q'. apply K; auto.
  - pose proof (set_filter_ok _ _ _ R) as Q. unfold analyzeFilterField in R. destruct (abind_ok _ _ _ R) as ([] & E & _). subst q'. apply W; auto.
  - unfold analyzeResultField in R. aok. apply output_allowed_ok in E. destruct E as (O1 & O2 & O3 & O4). subst q'. constructor; auto.
    + intros r R. cbn in R. injection R as <-. split; [cbn; destruct O1 as [->|[->| ->]]; reflexivity|]. split; [exact O2|]. eapply iter_not_slice. exact E0.
    + cbn. congruence.
  - pose proof (set_rows_ok _ _ _ _ _ R) as (x & Q). subst q'. apply K; auto.
  - pose proof (set_return_ok _ _ _ _ _ R) as (x & Q). unfold analyzeReturnDirective in R. aok. apply output_allowed_ok in E0. destruct E0 as (O1 & O2 & O3 & O4). subst q'. constructor; auto.
    + cbn. rewrite O3. discriminate.
    + intros _. cbn. split; [destruct O1 as [->|[->| ->]]; reflexivity|exact O3].
  - pose proof (set_orderby_ok _ _ _ _ _ R) as (x & Q). subst q'. apply K; auto.
  - pose proof (set_optional_ok _ _ _ _ _ R) as (x & Q). subst q'. apply K; auto.
  - pose proof (set_force_ok _ _ _ _ _ R) as (x & Q). subst q'. apply K; auto.
  - pose proof (set_default_ok _ _ _ _ _ R) as (x & Q). subst q'. apply K; auto.
  - pose proof (set_override_ok _ _ _ _ _ R) as (x & Q). subst q'. apply K; auto.
  - unfold analyzeAllDirective in R. aok. subst q'. constructor; auto. intros I. exfalso. unfold IsInsertOrUpdateSlice, IsInsertOrUpdate, q_rtype in I. cbn in I.
    change (match q_rel q with Some r => rf_type r | None => zero_rt end) with (q_reltype q) in I. destruct (q_kind q); try discriminate; cbn in *; rewrite I in *; discriminate.
  - subst q'. apply K; reflexivity.
  - subst q'. apply K; reflexivity.
Qed.
Lemma decent_pass : forall e fs q q', decent q -> field_pass e q fs = AOk q' -> decent q'.
Proof. induction fs as [|[v t] fs IH]; intros q q' D H; cbn [field_pass] in H; [injection H as <-; exact D|]. destruct (abind_ok _ _ _ H) as (q1 & E & K). eapply IH; [eapply decent_step; eauto|exact K]. Qed.
Lemma decent_query : forall e name fs q, analyzeQueryStruct e name fs = AOk q -> decent q.
Proof.
  intros e name fs q H. destruct (query_inv _ _ _ _ H) as (k & fs1 & v & t & fs2 & q0 & QK & _ & _ & _ & R & P). apply (decent_pass e fs q0 q); [|exact P].
  assert (KK : isSelect k && negb (is_plain_select k) = false).
  { unfold query_kind in QK. cbv zeta in QK. repeat match goal with QK : (if ?c then _ else _) = _ |- _ => destruct c; [injection QK as <-; reflexivity|] end. discriminate. }
  clear -R KK. unfold analyzeQueryStructRelField in R. cbv zeta in R. aok.
  assert (Z : forall k' d a, decent (set_kind_ k' (set_rel_ (Some (MkRelF (v_name v) d zero_rt a)) (set_sp_ a1 (new_query k))))).
  { intros. constructor; cbn; try discriminate; try congruence; auto. }
  repeat match goal with K : (if ?c then _ else _) = _ |- _ => destruct c | K : abind _ _ = AOk _ |- _ => destruct (abind_ok _ _ _ K) as (? & ? & ?); clear K | _ => progress aok end; subst; auto.
  1: (constructor; cbn; try discriminate; try congruence; auto).
  all: constructor; cbn; try discriminate; try congruence; [auto|intros I|unfold IsSelectCountOrExists; cbn; intros C; congruence].
  all: match goal with A : analyzeRelType _ _ _ = AOk _ |- _ => split; [|eapply iter_not_slice; eauto] end.
  all: match goal with A : negb (_ && _) = true |- _ => cbn in A; rewrite I, andb_true_r in A; apply negb_true_iff in A; exact A end.
Qed.

Record sorted_out (q : qstate) : Prop := MkSorted {
  so_lim : isSelect (q_kind q) = false -> q_limit q = None /\ q_offset q = None;
  so_ins : q_kind q = KInsert -> q_where q = None /\ q_join q = None }.
Lemma sorted_query : forall e name fs q, analyzeQueryStruct e name fs = AOk q -> sorted_out q.
Proof.
  intros e name fs q H. destruct (query_inv _ _ _ _ H) as (k & fs1 & v & t & fs2 & q0 & _ & _ & _ & _ & R & P).
  destruct (pass_effect _ _ _ _ P) as (PK & _ & PH & PL & _).
  assert (N : forall r, In r [RLimit; ROffset; RWhere; RJoin] -> has q r = true -> exists r', same r' r = true /\ legal (q_kind q) r').
  { intros r I Hr. assert (NR : r <> RRel) by (intros ->; cbn in I; repeat (destruct I as [I|I]; [discriminate I|]); exact I).
    rewrite (PH r NR) in Hr. apply orb_true_iff in Hr. destruct Hr as [Hr|Hr].
    - exfalso. apply rel_field_inv in R. destruct R as (rid & sp & rt & dir & k' & _ & _ & _ & -> & _). cbn in I. repeat (destruct I as [<-|I]; [discriminate Hr|]). exact I.
    - apply existsb_exists in Hr. destruct Hr as (x & X & S). exists (snd x). split; [exact S|]. rewrite PK. apply PL. exact X. }
  constructor.
  - intros S. split.
    + destruct (q_limit q) eqn:E; [|reflexivity]. exfalso. destruct (N RLimit) as (r' & S' & L); [cbn; auto|cbn; rewrite E; reflexivity|].
      destruct r'; try discriminate S'. destruct (q_kind q); try discriminate S; cbn in L; intuition discriminate.
    + destruct (q_offset q) eqn:E; [|reflexivity]. exfalso. destruct (N ROffset) as (r' & S' & L); [cbn; auto|cbn; rewrite E; reflexivity|].
      destruct r'; try discriminate S'. destruct (q_kind q); try discriminate S; cbn in L; intuition discriminate.
  - intros K. split.
    + destruct (q_where q) eqn:E; [|reflexivity]. exfalso. destruct (N RWhere) as (r' & S' & L); [cbn; auto|cbn; rewrite E; reflexivity|].
      destruct r'; try discriminate S'. rewrite K in L. cbn in L. intuition discriminate.
    + destruct (q_join q) eqn:E; [|reflexivity]. exfalso. destruct (N RJoin) as (r' & S' & L); [cbn; auto|cbn; rewrite E; reflexivity|].
      rewrite K in L. destruct r'; try discriminate S'; cbn in L; intuition discriminate.
Qed.

Lemma cbind_ok : forall {A B} (r : cres A) (f : A -> cres B) b, cbind r f = COk b -> exists a, r = COk a /\ f a = COk b.
Proof. intros A B [a|e|] f b H; try discriminate H. exists a. auto. Qed.
Lemma write_ids : forall c l n ws, check_write_fields c n l = COk ws -> NoDup (map fw_id (somes ws)) /\ forall w, In w (somes ws) -> n <= fw_id w.
Proof.
  induction l as [|f l IH]; intros n ws H; cbn [check_write_fields] in H; [injection H as <-; split; [constructor|intros w []]|].
  apply cbind_ok in H. destruct H as (w & W & H). apply cbind_ok in H. destruct H as (ws' & R & H). injection H as <-. destruct (IH _ _ R) as [N B].
  unfold check_write_field in W. apply cbind_ok in W. destruct W as (w' & W & W2). apply cbind_ok in W2. destruct W2 as (u & _ & W2). injection W2 as ->.
  destruct w as [w|]; cbn [somes].
  - assert (I : fw_id w = n). { unfold typeCheckFieldWrite in W. destruct (findRelColumn _ _); [|discriminate W]. apply cbind_ok in W. destruct W as (? & _ & W). apply cbind_ok in W. destruct W as (? & _ & W). injection W as <-. reflexivity. }
    cbn [map]. split.
    + constructor; [|exact N]. intros X. apply in_map_iff in X. destruct X as (x & E & X). apply B in X. lia.
    + intros x [<-|X]; [lia|]. apply B in X. lia.
  - split; [exact N|]. intros x X. apply B in X. lia.
Qed.
Lemma nodup_filter : forall {A B} (g : A -> B) p l, NoDup (map g l) -> NoDup (map g (filter p l)).
Proof.
  intros A B g p. induction l as [|a l IH]; intros N; [exact N|]. inversion_clear N as [|? ? N1 N2]. cbn [filter]. destruct (p a); [|auto]. cbn [map]. constructor; [|auto].
  intros X. apply N1. apply in_map_iff in X. destruct X as (x & E & X). apply filter_In in X. apply in_map_iff. exists x. tauto.
Qed.
Lemma join_conds : forall dirs c c' ls, check_joins c dirs = COk (c', ls) -> Forall (Forall (fun c => match c with WCBool _ | WCColumn _ => True | _ => False end)) ls.
Proof.
  induction dirs as [|d dirs IH]; intros c c' ls H; cbn [check_joins] in H; [injection H as _ <-; constructor|].
  apply cbind_ok in H. destruct H as ([c1 rel] & _ & H). apply cbind_ok in H. destruct H as (l & L & H). apply cbind_ok in H. destruct H as ([c2 ls'] & R & H). injection H as _ <-.
  constructor; [|eapply IH; exact R]. clear -L. revert l L. generalize (j_items d). intros items. induction items as [|i items IH]; intros l L; cbn in L; [injection L as <-; constructor|].
  apply cbind_ok in L. destruct L as (x & X & L). apply cbind_ok in L. destruct L as (xs & XS & L). injection L as <-. constructor; [|apply IH; exact XS].
  destruct i; cbn in X; [injection X as <-; exact Logic.I|]. apply cbind_ok in X. destruct X as (? & _ & X). injection X as <-. exact Logic.I.
Qed.
Lemma accepted_checked : forall e name fs db q t, analyzeQueryStruct e name fs = AOk q -> check_query db q = COk t -> checked q t.
Proof.
  intros e name fs db q t A H. destruct (sorted_query _ _ _ _ A) as [SL SI]. unfold check_query in H. destruct (q_rel q) as [rf|] eqn:RF; [|discriminate H].
  apply cbind_ok in H. destruct H as (c & _ & H). apply cbind_ok in H. destruct H as ([c1 joins] & J & H). cbv zeta in H.
  do 3 (apply cbind_ok in H; destruct H as (? & _ & H)). apply cbind_ok in H. destruct H as (r1 & _ & H). apply cbind_ok in H. destruct H as (r2 & _ & H).
  apply cbind_ok in H. destruct H as ([[r3 w] pk] & R & H). apply cbind_ok in H. destruct H as (wh & WH & H). apply cbind_ok in H. destruct H as (oc & _ & H). injection H as <-.
  assert (WR : (is_insert (q_kind q) || is_update (q_kind q) = false -> w = []) /\ NoDup (map fw_id w) /\ NoDup (map fw_id pk)).
  { unfold typeCheckQueryRelField in R. destruct (rf_dir rf); [injection R as <- <- <-; repeat split; auto; constructor|].
    destruct (q_kind q); try (injection R as <- <- <-; repeat split; auto; constructor).
    all: apply cbind_ok in R; destruct R as (ws & W & R); cbv zeta in R; injection R as <- <- <-.
    all: try (repeat split; auto; constructor).
    all: destruct (write_ids _ _ _ _ W) as [N _]; split; [discriminate|]; split; apply nodup_filter; exact N. }
  destruct WR as (W1 & W2 & W3). unfold checked. cbn [ti_writes ti_where ti_pkeys ti_joins].
  split; [exact W1|]. split; [exact SL|]. split; [unfold typeCheckQueryWhereStruct in WH; intros N; rewrite N in WH; injection WH as <-; reflexivity|].
  split; [exact SI|]. split; [exact W2|]. split; [exact W3|].
  unfold typeCheckQueryJoinStruct in J. destruct (q_join q) as [j|]; [|injection J as _ <-; constructor]. apply cbind_ok in J. destruct J as (? & _ & J). eapply join_conds. exact J.
Qed.
