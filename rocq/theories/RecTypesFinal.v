(** Definitions and proofs used by PropsRecTypes.v. *)
From Coq Require Import Ascii String ZArith NArith Bool List Lia.
From Verif Require Import GoBase AParse Analysis AnalysisProofs RecTypes RecTypesSpec.
Import ListNotations.
Local Open Scope list_scope.

Lemma info_mono : forall f D e t r, typeInfoR f D e t = Some r -> forall f', f <= f' -> typeInfoR f' D e t = Some r.
Proof.
  induction f as [|f IH]; intros D e t r H f' L; [discriminate H|]. destruct f' as [|f']; [lia|]. assert (L' : f <= f') by lia.
  cbn [typeInfoR] in *. destruct t as [k a b| | |a b c|n u|u|u|k u|fs|n]; try exact H.
  - destruct (typeInfoR f D e u) as [x|] eqn:E; [|discriminate H]. rewrite (IH _ _ _ _ E _ L'). exact H.
  - destruct (typeInfoR f D e u) as [x|] eqn:E; [|discriminate H]. rewrite (IH _ _ _ _ E _ L'). exact H.
  - destruct (typeInfoR f D e u) as [x|] eqn:E; [|discriminate H]. rewrite (IH _ _ _ _ E _ L'). exact H.
  - destruct (typeInfoR f D e k) as [y|] eqn:E1; [|discriminate H]. rewrite (IH _ _ _ _ E1 _ L').
    destruct y as [[ik bk]| |]; cbn [obind] in *; try exact H.
    destruct (typeInfoR f D e u) as [x|] eqn:E; [|discriminate H]. rewrite (IH _ _ _ _ E _ L'). exact H.
  - destruct (n_pkg n) as [[p pn]|]; [|exact H].
    destruct (typeInfoR f D e (D n)) as [x|] eqn:E; [|discriminate H]. rewrite (IH _ _ _ _ E _ L'). exact H.
Qed.

Lemma step_mono : forall f D e sp fr v t r, field_stepR f D e sp fr v t = Some r -> forall f', f <= f' -> field_stepR f' D e sp fr v t = Some r.
Proof.
  intros f D e sp fr v t r H f' L. unfold field_stepR in *. destruct (_ || _); [exact H|].
  destruct (typeInfoR f D e t) as [x|] eqn:E; [|discriminate H]. rewrite (info_mono _ _ _ _ _ E _ L). exact H.
Qed.

Lemma loop_mono : forall f D e sp st out r, fields_loopR f D e sp st out = Some r -> forall f', f <= f' -> fields_loopR f' D e sp st out = Some r.
Proof.
  induction f as [|f IH]; intros D e sp st out r H f' L; [discriminate H|]. destruct f' as [|f']; [lia|]. assert (L' : f <= f') by lia.
  cbn [fields_loopR] in *. destruct st as [|fr rest]; [exact H|]. destruct (rf_fields fr) as [|[v t] fs]; [eapply IH; eauto|].
  destruct (field_stepR f D e sp fr v t) as [x|] eqn:E; [|discriminate H]. rewrite (step_mono _ _ _ _ _ _ _ _ E _ L').
  destruct x as [s| |]; cbn [obind] in *; try exact H. destruct s; eapply IH; eauto.
Qed.

Lemma info_ends : forall D e t, ends D t -> exists f r, typeInfoR f D e t = Some r.
Proof.
  intros D e t H. induction H as [k a b| | |a b c|fs|n u H (f & r & E)|u H (f & r & E)|u H (f & r & E)|k u Hk (fk & rk & Ek) H (f & r & E)|n H (f & r & E)].
  - exists 1. eexists. reflexivity.
  - exists 1. eexists. reflexivity.
  - exists 1. eexists. reflexivity.
  - exists 1. eexists. reflexivity.
  - exists 1. eexists. reflexivity.
  - exists (S f). cbn [typeInfoR]. rewrite E. destruct r as [[i b]| |]; cbn; eexists; reflexivity.
  - exists (S f). cbn [typeInfoR]. rewrite E. destruct r as [[i b]| |]; cbn; eexists; reflexivity.
  - exists (S f). cbn [typeInfoR]. rewrite E. destruct r as [[i b]| |]; cbn; eexists; reflexivity.
  - exists (S (fk + f)). cbn [typeInfoR]. rewrite (info_mono _ _ _ _ _ Ek (fk + f)) by lia.
    destruct rk as [[ik bk]| |]; cbn [obind]; try (eexists; reflexivity).
    rewrite (info_mono _ _ _ _ _ E (fk + f)) by lia. destruct r as [[i b]| |]; cbn; eexists; reflexivity.
  - exists (S f). cbn [typeInfoR]. destruct (n_pkg n) as [[p pn]|]; [|eexists; reflexivity].
    rewrite E. destruct r as [[i b]| |]; cbn; eexists; reflexivity.
Qed.

Lemma ends_info : forall f D e t x, typeInfoR f D e t = Some (AOk x) -> ends D t.
Proof.
  induction f as [|f IH]; intros D e t x H; [discriminate H|]. cbn [typeInfoR] in H.
  destruct t as [k a b| | |a b c|n u|u|u|k u|fs|n]; try constructor.
  - destruct (typeInfoR f D e u) as [[y| |]|] eqn:E; cbn [obind] in H; try discriminate H. eapply IH; exact E.
  - destruct (typeInfoR f D e u) as [[y| |]|] eqn:E; cbn [obind] in H; try discriminate H. eapply IH; exact E.
  - destruct (typeInfoR f D e u) as [[y| |]|] eqn:E; cbn [obind] in H; try discriminate H. eapply IH; exact E.
  - destruct (typeInfoR f D e k) as [[[ik bk]| |]|] eqn:E; cbn [obind] in H; try discriminate H. eapply IH; exact E.
  - destruct (typeInfoR f D e k) as [[[ik bk]| |]|]; cbn [obind] in H; try discriminate H.
    destruct (typeInfoR f D e u) as [[y| |]|] eqn:E; cbn [obind] in H; try discriminate H. eapply IH; exact E.
  - destruct (n_pkg n) as [[p pn]|]; [|discriminate H].
    destruct (typeInfoR f D e (D n)) as [[y| |]|] eqn:E; cbn [obind] in H; try discriminate H. eapply IH; exact E.
Qed.

Definition facts (D : decls) (e : env) (t : rtype) (i : TypeInfo) (b : rtype) : Prop :=
  match t with
  | RStruct gs => t_kind i = KStruct /\ b = RStruct gs
  | RPtr u => t_kind i = KPtr /\ exists f i', typeInfoR f D e u = Some (AOk (i', b)) /\ t_elem i = Some i'
  | RName _ => True
  | _ => t_kind i <> KStruct /\ t_kind i <> KPtr
  end.

Lemma info_facts1 : forall f D e t i b, typeInfoR f D e t = Some (AOk (i, b)) -> facts D e t i b.
Proof.
  intros [|f] D e t i b H; [discriminate H|]. cbn [typeInfoR] in H. unfold facts.
  destruct t as [k a c| | |a c d|n u|u|u|k u|fs|n]; try exact Logic.I; try (inversion H; subst; split; discriminate).
  - destruct (typeInfoR f D e u) as [[[i' b']| |]|] eqn:E; cbn in H; try discriminate H. inversion H; subst. split; discriminate.
  - destruct (typeInfoR f D e u) as [[[i' b']| |]|] eqn:E; cbn in H; try discriminate H. inversion H; subst. split; discriminate.
  - destruct (typeInfoR f D e u) as [[[i' b']| |]|] eqn:E; cbn in H; try discriminate H. inversion H; subst. split; [reflexivity|].
    exists f, i'. split; [exact E|reflexivity].
  - destruct (typeInfoR f D e k) as [[[ik bk]| |]|]; cbn in H; try discriminate H.
    destruct (typeInfoR f D e u) as [[[i' b']| |]|] eqn:E; cbn in H; try discriminate H. inversion H; subst. split; discriminate.
  - inversion H; subst. split; reflexivity.
Qed.

Lemma info_facts : forall f D e t i b, typeInfoR f D e t = Some (AOk (i, b)) -> facts D e (under D t) i b.
Proof.
  intros f D e t i b H. destruct t as [k a c| | |a c d|n u|u|u|k u|fs|n]; try (apply (info_facts1 f); exact H).
  destruct f as [|f]; [discriminate H|]. cbn [typeInfoR] in H. destruct (n_pkg n) as [[p pn]|]; [|discriminate H].
  destruct (typeInfoR f D e (D n)) as [[[i' b']| |]|] eqn:E; cbn in H; try discriminate H. inversion H; subst. cbn [under].
  apply info_facts1 in E. unfold facts in *. destruct (D n); exact E.
Qed.

Lemma info_foreign : forall f D e t i b, typeInfoR f D e t = Some (AOk (i, b)) -> t_imported i = foreign_type e t.
Proof.
  intros [|f] D e t i b H; [discriminate H|]. cbn [typeInfoR] in H.
  destruct t as [k a c| | |a c d|n u|u|u|k u|fs|n]; try (inversion H; reflexivity); unfold foreign_type.
  - destruct (typeInfoR f D e u) as [[[i' b']| |]|]; cbn in H; try discriminate H. inversion H; reflexivity.
  - destruct (typeInfoR f D e u) as [[[i' b']| |]|]; cbn in H; try discriminate H. inversion H; reflexivity.
  - destruct (typeInfoR f D e u) as [[[i' b']| |]|]; cbn in H; try discriminate H. inversion H; reflexivity.
  - destruct (typeInfoR f D e k) as [[[ik bk]| |]|]; cbn in H; try discriminate H.
    destruct (typeInfoR f D e u) as [[[i' b']| |]|]; cbn in H; try discriminate H. inversion H; reflexivity.
  - destruct (n_pkg n) as [[p pn]|]; [|discriminate H].
    destruct (typeInfoR f D e (D n)) as [[[i' b']| |]|]; cbn in H; try discriminate H. inversion H; reflexivity.
Qed.

Lemma kind_at : forall f D e t i b, proper D -> typeInfoR f D e t = Some (AOk (i, b)) -> t_kind i = KStruct -> exists gs, under D t = RStruct gs /\ b = RStruct gs.
Proof.
  intros f D e t i b P H K. apply info_facts in H. unfold facts in H.
  assert (N : forall m, under D t <> RName m) by (intros m; destruct t; cbn; try discriminate; apply P).
  destruct (under D t) as [k a c| | |a c d|n u|u|u|k u|fs|n]; try (destruct H as [? _]; congruence).
  - exists fs. tauto.
  - exfalso. apply (N n). reflexivity.
Qed.

Lemma struct_facts : forall f D e t i b, proper D -> typeInfoR f D e t = Some (AOk (i, b)) -> is_struct i = true ->
  exists gs, b = RStruct gs /\ struct_at D t gs.
Proof.
  intros f D e t i b P H S1. unfold is_struct in S1. apply orb_prop in S1. destruct S1 as [S1|S1].
  - destruct (kind_at f D e t i b P H) as (gs & U & ->); [destruct (t_kind i); try discriminate S1; reflexivity|]. exists gs. split; [reflexivity|left; exact U].
  - apply andb_prop in S1. destruct S1 as [S1 S2]. assert (K : t_kind i = KPtr) by (destruct (t_kind i); try discriminate S1; reflexivity).
    pose proof (info_facts _ _ _ _ _ _ H) as F. unfold facts in F.
    assert (N : forall m, under D t <> RName m) by (intros m; destruct t; cbn; try discriminate; apply P).
    destruct (under D t) as [k a c| | |a c d|n u|u|u|k u|fs|n] eqn:U; try (destruct F as [F1 F2]; congruence).
    + destruct F as (_ & f' & i' & E & El). rewrite El in S2.
      destruct (kind_at f' D e u i' b P E) as (gs & U' & ->); [destruct (t_kind i'); try discriminate S2; reflexivity|].
      exists gs. split; [reflexivity|]. right. exists u. auto.
Qed.

Lemma struct_info : forall f D e t i b gs, typeInfoR f D e t = Some (AOk (i, b)) -> struct_at D t gs -> is_struct i = true /\ b = RStruct gs.
Proof.
  intros f D e t i b gs H A. pose proof (info_facts _ _ _ _ _ _ H) as F. unfold facts in F. destruct A as [U|(u & U & U2)]; rewrite U in F.
  - destruct F as [K ->]. split; [|reflexivity]. unfold is_struct. rewrite K. reflexivity.
  - destruct F as (K & f' & i' & E & El). apply info_facts in E. unfold facts in E. rewrite U2 in E. destruct E as [K' ->].
    split; [|reflexivity]. unfold is_struct. rewrite K, El, K'. reflexivity.
Qed.

Lemma eqb_iff : forall a b, bytes_eqb a b = true <-> a = b.
Proof.
  induction a as [|x a IH]; intros [|y b]; cbn; split; intros H; try discriminate; auto.
  - apply andb_prop in H. destruct H as [H1 H2]. apply Ascii.eqb_eq in H1. apply IH in H2. congruence.
  - inversion H; subst. rewrite (proj2 (Ascii.eqb_eq y y) eq_refl). apply IH. reflexivity.
Qed.

Lemma looked_iff : forall im v, looked_at im v <->
  bytes_eqb (tag_first (v_tag v) (B "sql")) [] || bytes_eqb (tag_first (v_tag v) (B "sql")) (B "-") || bytes_eqb (v_name v) (B "_") || (negb (v_exported v) && im) = false.
Proof.
  intros im v. unfold looked_at. rewrite !orb_false_iff, andb_false_iff, negb_false_iff.
  rewrite <- !not_true_iff_false, !eqb_iff. destruct im, (v_exported v); intuition congruence.
Qed.

Lemma descends_iff : forall v, descends v <-> has_prefix (B ">") (tag_first (v_tag v) (B "sql")) = true.
Proof.
  intros v. unfold descends. destruct (tag_first (v_tag v) (B "sql")) as [|c r].
  - split; [intros [r H]; discriminate H|discriminate].
  - change (has_prefix (B ">") (c :: r)) with (Ascii.eqb ">"%char c && true). rewrite andb_true_r. split.
    + intros [r' H]. inversion H; subst. reflexivity.
    + intros H. apply Ascii.eqb_eq in H. subst c. exists r. reflexivity.
Qed.

Lemma step_some : forall D e sp im fs v t fr, record_ends D e im fs -> rf_imported fr = im -> In (v, t) fs ->
  exists f r, field_stepR f D e sp fr v t = Some r.
Proof.
  intros D e sp im fs v t fr R I1 I2. unfold field_stepR. rewrite I1.
  destruct (bytes_eqb (tag_first (v_tag v) (B "sql")) [] || bytes_eqb (tag_first (v_tag v) (B "sql")) (B "-") || bytes_eqb (v_name v) (B "_") || (negb (v_exported v) && im)) eqn:L.
  - exists 0. eexists. reflexivity.
  - apply looked_iff in L. inversion R as [im' fs' H1 H2]; subst. destruct (info_ends D e t (H1 v t I2 L)) as (f & r & E). exists f. rewrite E.
    destruct r as [[i b]| |]; cbn [obind]; try (eexists; reflexivity).
    destruct (_ && _); [destruct b|]; eexists; reflexivity.
Qed.

Lemma step_descend : forall f D e sp fr v t g, proper D -> field_stepR f D e sp fr v t = Some (AOk (RDescend g)) ->
  looked_at (rf_imported fr) v /\ descends v /\ struct_at D t (rf_fields g) /\ rf_imported g = foreign_type e t.
Proof.
  intros f D e sp fr v t g P H. unfold field_stepR in H.
  match type of H with (if ?c then _ else _) = _ => destruct c eqn:L; [discriminate H|] end. apply looked_iff in L. split; [exact L|].
  destruct (typeInfoR f D e t) as [[[i b]| |]|] eqn:E; cbn [obind] in H; try discriminate H.
  destruct (is_struct i && has_prefix (B ">") (tag_first (v_tag v) (B "sql"))) eqn:C.
  - apply andb_prop in C. destruct C as [C1 C2]. destruct (struct_facts _ _ _ _ _ _ P E C1) as (gs & -> & A).
    unfold known in H. destruct (lift_res (parseFieldMode (v_tag v))) as [m| |]; cbn in H; try discriminate H.
    injection H as <-. cbn [rf_fields rf_imported]. repeat split; [apply descends_iff; exact C2|exact A|eapply info_foreign; exact E].
  - exfalso. unfold known in H. destruct (lift (parseColIdent sp (rf_pfx fr ++ tag_first (v_tag v) (B "sql")))) as [c| |]; cbn in H; try discriminate H.
    destruct (lift_res (parseFieldMode (v_tag v))) as [m| |]; cbn in H; try discriminate H.
    destruct (parseCoalesceInfo (v_tag v)); discriminate H.
Qed.

Lemma loop_ends : forall D e sp, proper D -> forall im fs, record_ends D e im fs -> forall pfx sel rest,
  (forall out, exists f r, fields_loopR f D e sp rest out = Some r) ->
  forall out, exists f r, fields_loopR f D e sp (MkRFrame fs im pfx sel :: rest) out = Some r.
Proof.
  intros D e sp P im fs R. induction R as [im fs H1 H2 IH]. intros pfx sel rest Hr.
  assert (R : record_ends D e im fs) by (constructor; auto). clear H2.
  assert (G : forall l, incl l fs -> forall out, exists f r, fields_loopR f D e sp (MkRFrame l im pfx sel :: rest) out = Some r).
  { induction l as [|[v t] l IHl]; intros Il out.
    - destruct (Hr out) as (f & r & E). exists (S f), r. cbn. exact E.
    - assert (I2 : In (v, t) fs) by (apply Il; left; reflexivity).
      assert (Il' : incl l fs) by (intros x Hx; apply Il; right; exact Hx). specialize (IHl Il').
      destruct (step_some D e sp im fs v t (MkRFrame ((v, t) :: l) im pfx sel) R eq_refl I2) as (f1 & r1 & E1).
      destruct r1 as [s|c|].
      + destruct s as [|g|x].
        * destruct (IHl out) as (f2 & r2 & E2). exists (S (f1 + f2)), r2. cbn [fields_loopR rf_fields rf_imported rf_pfx rf_sel].
          rewrite (step_mono _ _ _ _ _ _ _ _ E1 (f1 + f2)) by lia. cbn [obind]. apply (loop_mono _ _ _ _ _ _ _ E2). lia.
        * destruct (step_descend _ _ _ _ _ _ _ _ P E1) as (L & Dd & A & Im). cbn [rf_imported] in L.
          destruct g as [gf gi gp gs]. cbn [rf_fields rf_imported] in A, Im. subst gi.
          destruct (IH v t gf I2 L Dd A gp gs (MkRFrame l im pfx sel :: rest) IHl out) as (f2 & r2 & E2).
          exists (S (f1 + f2)), r2. cbn [fields_loopR rf_fields rf_imported rf_pfx rf_sel].
          rewrite (step_mono _ _ _ _ _ _ _ _ E1 (f1 + f2)) by lia. cbn [obind]. apply (loop_mono _ _ _ _ _ _ _ E2). lia.
        * destruct (IHl (out ++ [x])) as (f2 & r2 & E2). exists (S (f1 + f2)), r2. cbn [fields_loopR rf_fields rf_imported rf_pfx rf_sel].
          rewrite (step_mono _ _ _ _ _ _ _ _ E1 (f1 + f2)) by lia. cbn [obind]. apply (loop_mono _ _ _ _ _ _ _ E2). lia.
      + exists (S f1). eexists. cbn [fields_loopR rf_fields rf_imported rf_pfx rf_sel]. rewrite E1. reflexivity.
      + exists (S f1). eexists. cbn [fields_loopR rf_fields rf_imported rf_pfx rf_sel]. rewrite E1. reflexivity. }
  intros out. apply G. apply incl_refl.
Qed.

Lemma C106_terminates_lemma : forall D e sp im fs, proper D -> record_ends D e im fs -> exists fuel r, fieldInfoListR fuel D e sp im fs = Some r.
Proof.
  intros D e sp im fs P R. unfold fieldInfoListR. apply (loop_ends D e sp P im fs R). intros out. exists 1. eexists. reflexivity.
Qed.

Lemma record_cons : forall D e im v t fs, record_ends D e im fs ->
  (looked_at im v -> ends D t) -> (forall gs, looked_at im v -> descends v -> struct_at D t gs -> record_ends D e (foreign_type e t) gs) ->
  record_ends D e im ((v, t) :: fs).
Proof.
  intros D e im v t fs R H1 H2. inversion R as [im' fs' A1 A2]; subst. constructor.
  - intros v' t' [X|X] L; [injection X as <- <-; auto|eauto].
  - intros v' t' gs [X|X] L Dd A; [injection X as <- <-; eauto|eauto].
Qed.

Lemma loop_needs : forall f D e sp st out l, fields_loopR f D e sp st out = Some (AOk l) ->
  forall fr, In fr st -> record_ends D e (rf_imported fr) (rf_fields fr).
Proof.
  induction f as [|f IH]; intros D e sp st out l H fr I1; [discriminate H|]. cbn [fields_loopR] in H.
  destruct st as [|fr0 rest]; [destruct I1|]. destruct (rf_fields fr0) as [|[v t] fs] eqn:Ef.
  - destruct I1 as [<-|I1]; [|eapply IH; eauto]. rewrite Ef. constructor; intros v t; [intros []|intros gs []].
  - destruct (field_stepR f D e sp fr0 v t) as [[s| |]|] eqn:E; cbn [obind] in H; try discriminate H.
    assert (Rest : record_ends D e (rf_imported fr0) fs).
    { destruct s as [|g|x]; [apply (IH _ _ _ _ _ _ H (MkRFrame fs (rf_imported fr0) (rf_pfx fr0) (rf_sel fr0)))
        |apply (IH _ _ _ _ _ _ H (MkRFrame fs (rf_imported fr0) (rf_pfx fr0) (rf_sel fr0)))
        |apply (IH _ _ _ _ _ _ H (MkRFrame fs (rf_imported fr0) (rf_pfx fr0) (rf_sel fr0)))]; cbn; auto. }
    destruct I1 as [<-|I1].
    + rewrite Ef. apply record_cons; [exact Rest| |].
      * intros L. apply looked_iff in L. unfold field_stepR in E. rewrite L in E.
        destruct (typeInfoR f D e t) as [[x| |]|] eqn:Et; cbn [obind] in E; try discriminate E. eapply ends_info; exact Et.
      * intros gs L Dd A. apply looked_iff in L. apply descends_iff in Dd. unfold field_stepR in E. rewrite L in E.
        destruct (typeInfoR f D e t) as [[[i b]| |]|] eqn:Et; cbn [obind] in E; try discriminate E.
        destruct (struct_info _ _ _ _ _ _ _ Et A) as [S1 ->]. rewrite S1, Dd in E. cbn [andb] in E. unfold known in E.
        destruct (lift_res (parseFieldMode (v_tag v))) as [m| |]; cbn in E; try discriminate E. injection E as <-.
        rewrite <- (info_foreign _ _ _ _ _ _ Et).
        match type of H with fields_loopR _ _ _ _ (?g :: _) _ = _ => apply (IH _ _ _ _ _ _ H g) end. left; reflexivity.
    + destruct s as [|g|x]; eapply IH; try exact H; cbn; auto.
Qed.

Lemma C106_needs_lemma : forall fuel D e sp im fs l, fieldInfoListR fuel D e sp im fs = Some (AOk l) -> record_ends D e im fs.
Proof.
  intros fuel D e sp im fs l H. apply (loop_needs _ _ _ _ _ _ _ H (MkRFrame fs im [] [])). left; reflexivity.
Qed.

Scheme tree_mut := Minimality for tree Sort Prop with trees_mut := Minimality for trees Sort Prop.

Lemma trees_end : forall D e fs gs, trees D fs gs -> forall im, record_ends D e im fs.
Proof.
  intros D e. apply (trees_mut D (fun t _ => ends D t /\ forall hs, struct_at D t hs -> forall im, record_ends D e im hs) (fun fs _ => forall im, record_ends D e im fs)); intros.
  - split; [constructor|]. intros hs [X|(w & X & _)]; discriminate X.
  - split; [constructor|]. intros hs [X|(w & X & _)]; discriminate X.
  - split; [constructor|]. intros hs [X|(w & X & _)]; discriminate X.
  - split; [constructor|]. intros hs [X|(w & X & _)]; discriminate X.
  - split; [constructor; tauto|]. intros hs [X|(w & X & _)]; discriminate X.
  - split; [constructor; tauto|]. intros hs [X|(w & X & _)]; discriminate X.
  - split; [constructor; tauto|]. intros hs [X|(w & X & Y)]; [discriminate X|]. injection X as <-. apply H0. left. exact Y.
  - split; [constructor; tauto|]. intros hs [X|(w & X & _)]; discriminate X.
  - split; [constructor; tauto|]. intros hs [X|(w & X & _)]; [|discriminate X]. injection X as <-. exact H0.
  - split; [constructor; tauto|]. intros hs X. apply H0. unfold struct_at in *. cbn [under] in X.
    destruct X as [X|(w & X & Y)]; [left; rewrite X; reflexivity|right; exists w; split; [rewrite X; reflexivity|exact Y]].
  - constructor; intros v t; [intros []|intros hs []].
  - apply record_cons; [apply H2|tauto|]. intros hs _ _ A. apply H0. exact A.
Qed.

Definition same_info (D : decls) (r : ares (TypeInfo * rtype)) (r' : ares (TypeInfo * gtype)) : Prop :=
  match r with
  | AOk (i, b) => exists b', r' = AOk (i, b') /\ tree D b b'
  | AErr c => r' = AErr c
  | APanic => r' = APanic
  end.

Lemma info_same : forall f D e t u r, tree D t u -> typeInfoR f D e t = Some r -> same_info D r (analyzeTypeInfo e u).
Proof.
  induction f as [|f IH]; intros D e t u r T H; [discriminate H|]. cbn [typeInfoR] in H. inversion T; subst; cbn [analyzeTypeInfo].
  - injection H as <-. eexists. split; [reflexivity|constructor].
  - injection H as <-. eexists. split; [reflexivity|constructor].
  - injection H as <-. eexists. split; [reflexivity|constructor].
  - injection H as <-. eexists. split; [reflexivity|constructor].
  - destruct (typeInfoR f D e t0) as [y|] eqn:E; [|discriminate H]. pose proof (IH _ _ _ _ _ H0 E) as I1.
    destruct y as [[i b]| |]; cbn in H, I1; injection H as <-; [|rewrite I1; reflexivity|rewrite I1; reflexivity].
    destruct I1 as (b' & -> & Tb). exists b'. split; [reflexivity|exact Tb].
  - destruct (typeInfoR f D e t0) as [y|] eqn:E; [|discriminate H]. pose proof (IH _ _ _ _ _ H0 E) as I1.
    destruct y as [[i b]| |]; cbn in H, I1; injection H as <-; [|rewrite I1; reflexivity|rewrite I1; reflexivity].
    destruct I1 as (b' & -> & Tb). exists b'. split; [reflexivity|exact Tb].
  - destruct (typeInfoR f D e t0) as [y|] eqn:E; [|discriminate H]. pose proof (IH _ _ _ _ _ H0 E) as I1.
    destruct y as [[i b]| |]; cbn in H, I1; injection H as <-; [|rewrite I1; reflexivity|rewrite I1; reflexivity].
    destruct I1 as (b' & -> & Tb). exists b'. split; [reflexivity|exact Tb].
  - destruct (typeInfoR f D e k) as [y|] eqn:E; [|discriminate H]. pose proof (IH _ _ _ _ _ H0 E) as I1.
    destruct y as [[ik bk]| |]; cbn [obind same_info] in H, I1; [|injection H as <-; rewrite I1; reflexivity|injection H as <-; rewrite I1; reflexivity].
    destruct I1 as (bk' & -> & Tk). cbn [abind].
    destruct (typeInfoR f D e t0) as [y|] eqn:E2; [|discriminate H]. pose proof (IH _ _ _ _ _ H1 E2) as I2.
    destruct y as [[i b]| |]; cbn in H, I2; injection H as <-; [|rewrite I2; reflexivity|rewrite I2; reflexivity].
    destruct I2 as (b' & -> & Tb). exists b'. split; [reflexivity|exact Tb].
  - injection H as <-. eexists. split; [reflexivity|constructor; assumption].
  - destruct (n_pkg n) as [[p pn]|]; [|injection H as <-; reflexivity].
    destruct (typeInfoR f D e (D n)) as [y|] eqn:E; [|discriminate H]. pose proof (IH _ _ _ _ _ H0 E) as I1.
    destruct y as [[i b]| |]; cbn in H, I1; injection H as <-; [|rewrite I1; reflexivity|rewrite I1; reflexivity].
    destruct I1 as (b' & -> & Tb). exists b'. split; [reflexivity|exact Tb].
Qed.

Definition same_frame (D : decls) (fr : rframe) (gr : frame) : Prop :=
  trees D (rf_fields fr) (fr_fields gr) /\ fr_imported gr = rf_imported fr /\ fr_pfx gr = rf_pfx fr /\ fr_sel gr = rf_sel fr.

Definition same_step (D : decls) (r : ares rstep) (r' : ares fstep) : Prop :=
  match r with
  | AOk RSkip => r' = AOk FSkip
  | AOk (RLeaf x) => r' = AOk (FLeaf x)
  | AOk (RDescend f) => exists g, r' = AOk (FDescend g) /\ same_frame D f g
  | AErr c => r' = AErr c
  | APanic => r' = APanic
  end.

Lemma some_inj : forall A (x y : A), Some x = Some y -> x = y.
Proof. congruence. Qed.

Lemma step_same : forall f D e sp fr gr v t u r, same_frame D fr gr -> tree D t u -> field_stepR f D e sp fr v t = Some r ->
  same_step D r (field_step e sp gr v u).
Proof.
  intros f D e sp fr gr v t u r (_ & Ei & Ep & Es) T H. unfold field_stepR in H. unfold field_step. rewrite Ei, Ep, Es.
  match type of H with (if ?c then _ else _) = _ => destruct c; [injection H as <-; reflexivity|] end.
  destruct (typeInfoR f D e t) as [y|] eqn:E; [|discriminate H]. pose proof (info_same _ _ _ _ _ _ T E) as I1.
  destruct y as [[i b]| |]; cbn [obind same_info] in H, I1; [|injection H as <-; rewrite I1; reflexivity|injection H as <-; rewrite I1; reflexivity].
  destruct I1 as (b' & -> & Tb). cbn [abind].
  destruct (is_struct i && has_prefix (B ">") (tag_first (v_tag v) (B "sql"))).
  - inversion Tb; subst; try (injection H as <-; reflexivity). unfold known in H. apply some_inj in H. subst r.
    destruct (lift_res (parseFieldMode (v_tag v))) as [m| |]; cbn [abind same_step]; try reflexivity.
    eexists. split; [reflexivity|]. repeat split; assumption.
  - unfold known in H. apply some_inj in H. subst r.
    destruct (lift (parseColIdent sp (rf_pfx fr ++ tag_first (v_tag v) (B "sql")))) as [c| |]; cbn [abind same_step]; try reflexivity.
    destruct (lift_res (parseFieldMode (v_tag v))) as [m| |]; cbn [abind same_step]; try reflexivity.
    destruct (parseCoalesceInfo (v_tag v)); cbn [abind same_step]; reflexivity.
Qed.

Lemma loop_same : forall f D e sp st st' out r, Forall2 (same_frame D) st st' -> fields_loopR f D e sp st out = Some r ->
  fields_loop f e sp st' out = r.
Proof.
  induction f as [|f IH]; intros D e sp st st' out r T H; [discriminate H|]. cbn [fields_loopR fields_loop] in *.
  inversion T as [|fr gr rest rest' F T']; subst; [injection H as <-; reflexivity|].
  pose proof F as F0. destruct F as (Tf & Ei & Ep & Es). destruct (rf_fields fr) as [|[v t] fs] eqn:Ef; inversion Tf; subst.
  - eapply IH; [exact T'|exact H].
  - destruct (field_stepR f D e sp fr v t) as [y|] eqn:E; [|discriminate H].
    match goal with Ht : tree D t ?u |- _ => pose proof (step_same _ _ _ _ _ gr _ _ u _ F0 Ht E) as X end.
    assert (Y : forall hs, trees D fs hs -> same_frame D (MkRFrame fs (rf_imported fr) (rf_pfx fr) (rf_sel fr)) (MkFrame hs (fr_imported gr) (fr_pfx gr) (fr_sel gr))) by (intros; repeat split; assumption).
    destruct y as [[|g|x]| |]; cbn [obind same_step] in H, X; try (injection H as <-; rewrite X; reflexivity).
    + rewrite X. cbn [abind]. eapply IH; [|exact H]. constructor; auto.
    + destruct X as (g' & -> & G). cbn [abind]. eapply IH; [|exact H]. repeat constructor; auto; apply G.
    + rewrite X. cbn [abind]. eapply IH; [|exact H]. constructor; auto.
Qed.

Lemma C106_fuel_lemma : forall fuel fuel' D e sp im fs r r',
  fieldInfoListR fuel D e sp im fs = Some r -> fieldInfoListR fuel' D e sp im fs = Some r' -> r = r'.
Proof.
  intros f f' D e sp im fs r r' H H'. unfold fieldInfoListR in *.
  pose proof (loop_mono _ _ _ _ _ _ _ H (f + f') ltac:(lia)) as A. pose proof (loop_mono _ _ _ _ _ _ _ H' (f + f') ltac:(lia)) as C. congruence.
Qed.

Lemma C106_same_lemma : forall D e sp im fs gs, proper D -> trees D fs gs ->
  exists n, forall fuel, n <= fuel -> fieldInfoListR fuel D e sp im fs = Some (analyzeFieldInfoList e sp im gs).
Proof.
  intros D e sp im fs gs P T. destruct (C106_terminates_lemma D e sp im fs P (trees_end D e fs gs T im)) as (f & r & E).
  exists f. intros fuel L. unfold fieldInfoListR in *. pose proof (loop_mono _ _ _ _ _ _ _ E (fuel + S (S (tsize (TStruct gs)))) ltac:(lia)) as E'.
  rewrite (loop_mono _ _ _ _ _ _ _ E fuel L). f_equal.
  rewrite <- (loop_same (fuel + S (S (tsize (TStruct gs)))) D e sp [MkRFrame fs im [] []] [MkFrame gs im [] []] [] r); [|repeat constructor; exact T|exact E'].
  unfold analyzeFieldInfoList. apply loop_fuel; unfold ssize; cbn [map list_sum fold_right fr_fields]; rewrite tsize_struct; lia.
Qed.

Definition own (x : string) : tname := MkName (B x) (Some (B "example.com/m", B "m")) no_flags false false false false.

Definition Node : tname := own "Node".

Definition Rec : tname := own "Rec".

Definition Other : tname := own "Other".

Definition column (x c : string) : fvar := MkVar (B x) true false [(B "sql", [B c])].

Definition int_ty : rtype := RBasic BInt false false.

Definition node_fields : list (fvar * rtype) :=
  [(column "Parent" ">parent_", RPtr (RName Node)); (column "Id" "id", int_ty)].

Definition by_name (l : list (tname * rtype)) (n : tname) : rtype :=
  match find (fun '(m, _) => bytes_eqb (n_name m) (n_name n)) l with Some (_, t) => t | None => RChan end.

Definition ds : decls := by_name
  [(Node, RStruct node_fields); (Rec, RSlice (RName Rec));
   (Other, RStruct [(column "Id" "id", int_ty); (column "Next" "next", RPtr (RName Other))])].

Definition an_env : env := Analysis.MkEnv (B "example.com/m") [] (B ".") false.

Lemma ds_proper : proper ds.
Proof.
  intros n m. unfold ds, by_name. cbn [find]. destruct (bytes_eqb _ _); [discriminate|]. destruct (bytes_eqb _ _); [discriminate|]. destruct (bytes_eqb _ _); discriminate.
Qed.

Lemma node_step : forall f sp pfx sel x, field_stepR f ds an_env sp (MkRFrame node_fields false pfx sel) (column "Parent" ">parent_") (RPtr (RName Node)) = Some x ->
  exists pfx' sel', x = AOk (RDescend (MkRFrame node_fields false pfx' sel')).
Proof.
  intros [|[|[|f]]] sp pfx sel x H; try discriminate H. cbn in H. injection H as <-. eexists. eexists. reflexivity.
Qed.

Lemma node_loop : forall f sp pfx sel rest out, fields_loopR f ds an_env sp (MkRFrame node_fields false pfx sel :: rest) out = None.
Proof.
  induction f as [|f IH]; intros sp pfx sel rest out; [reflexivity|]. cbn [fields_loopR rf_fields node_fields].
  match goal with |- obind ?x _ = None => destruct x as [y|] eqn:E; [|reflexivity] end.
  apply node_step in E. destruct E as (p & s & ->). cbn [obind]. apply IH.
Qed.

Lemma C106_record_refuted_lemma : exists D e fs, proper D /\ (forall v t, In (v, t) fs -> ends D t) /\
  forall fuel sp, fieldInfoListR fuel D e sp false fs = None.
Proof.
  exists ds, an_env, node_fields. split; [exact ds_proper|]. split.
  - intros v t [X|[X|[]]]; injection X as <- <-; repeat constructor.
  - intros fuel sp. apply node_loop.
Qed.

Lemma rec_info : forall f, typeInfoR f ds an_env (RName Rec) = None /\ typeInfoR f ds an_env (RSlice (RName Rec)) = None.
Proof.
  induction f as [|f [IH1 IH2]]; [split; reflexivity|]. split; cbn [typeInfoR].
  - change (n_pkg Rec) with (Some (B "example.com/m", B "m")). change (ds Rec) with (RSlice (RName Rec)). rewrite IH2. reflexivity.
  - rewrite IH1. reflexivity.
Qed.

Lemma C106_type_refuted_lemma : exists D e t, proper D /\ forall fuel, typeInfoR fuel D e t = None.
Proof. exists ds, an_env, (RName Rec). split; [exact ds_proper|]. intros fuel. apply rec_info. Qed.

Lemma C106_terminates_proof : forall D e sp im fs, proper D -> record_ends D e im fs -> exists fuel r, fieldInfoListR fuel D e sp im fs = Some r.
Proof. exact C106_terminates_lemma. Qed.

Lemma C106_needs_proof : forall fuel D e sp im fs l, fieldInfoListR fuel D e sp im fs = Some (AOk l) -> record_ends D e im fs.
Proof. exact C106_needs_lemma. Qed.

Lemma C106_same_proof : forall D e sp im fs gs, proper D -> trees D fs gs ->
  exists n, forall fuel, n <= fuel -> fieldInfoListR fuel D e sp im fs = Some (analyzeFieldInfoList e sp im gs).
Proof. exact C106_same_lemma. Qed.

Lemma C106_fuel_proof : forall fuel fuel' D e sp im fs r r',
  fieldInfoListR fuel D e sp im fs = Some r -> fieldInfoListR fuel' D e sp im fs = Some r' -> r = r'.
Proof. exact C106_fuel_lemma. Qed.

Lemma C106_record_refuted_proof : exists D e fs, proper D /\ (forall v t, In (v, t) fs -> ends D t) /\
  forall fuel sp, fieldInfoListR fuel D e sp false fs = None.
Proof. exact C106_record_refuted_lemma. Qed.

Lemma C106_type_refuted_proof : exists D e t, proper D /\ forall fuel, typeInfoR fuel D e t = None.
Proof. exact C106_type_refuted_lemma. Qed.
