(** Definitions and proofs used by PropsFilCode.v. *)
From Coq Require Import Ascii String ZArith NArith Bool List Lia.
From Verif Require Filter.
From Verif Require Import GoBase Strconv AParse Analysis AnalysisSpec QuerySpec AnalysisProofs AnalysisRoles QueryFinal PropsQuery Oids Compat Gen GenSpec Check ConvertProofs CheckSpec CheckProofs CheckEx ColsFinal ConflFinal FilterCode FilterCodeSpec.
Import ListNotations.
Local Open Scope string_scope.
Local Open Scope list_scope.

Lemma picked_split : forall A (P : A -> Prop) l r f l1 l2, picked P l r -> l = l1 ++ f :: l2 -> P f ->
  exists r1 r2, r = r1 ++ f :: r2 /\ forall g, In g r1 -> In g l1 /\ P g.
Proof.
  intros A P l r f l1 l2 H. revert l1 l2. induction H as [|a l r Q H IH|a l r Q H IH]; intros l1 l2 E K.
  - destruct l1; discriminate.
  - destruct l1 as [|b l1]; injection E as -> E.
    + exists [], r. split; [reflexivity|]. intros g [].
    + destruct (IH _ _ E K) as (r1 & r2 & -> & I). exists (b :: r1), r2. split; [reflexivity|]. intros g [<-|J]; [split; [now left|exact Q]|]. destruct (I g J). split; [now right|assumption].
  - destruct l1 as [|b l1]; injection E as -> E; [contradiction|].
    destruct (IH _ _ E K) as (r1 & r2 & -> & I). exists r1, r2. split; [reflexivity|]. intros g J. destruct (I g J). split; [now right|assumption].
Qed.

Lemma picked_join : forall A (P : A -> Prop) l r f r1 r2, picked P l r -> r = r1 ++ f :: r2 ->
  P f /\ exists l1 l2, l = l1 ++ f :: l2 /\ forall g, In g l1 -> P g -> In g r1.
Proof.
  intros A P l r f r1 r2 H. revert r1 r2. induction H as [|a l r Q H IH|a l r Q H IH]; intros r1 r2 E.
  - destruct r1; discriminate.
  - destruct r1 as [|b r1]; injection E as -> E.
    + split; [exact Q|]. exists [], l. split; [reflexivity|]. intros g [].
    + destruct (IH _ _ E) as (K & l1 & l2 & -> & I). split; [exact K|]. exists (b :: l1), l2. split; [reflexivity|]. intros g [<-|J] G; [now left|right; now apply I].
  - destruct (IH _ _ E) as (K & l1 & l2 & -> & I). split; [exact K|]. exists (a :: l1), l2. split; [reflexivity|]. intros g [<-|J] G; [contradiction|now apply I].
Qed.

Lemma map_split : forall A B (h : A -> B) l m1 b m2, map h l = m1 ++ b :: m2 -> exists l1 a l2, l = l1 ++ a :: l2 /\ map h l1 = m1 /\ h a = b /\ map h l2 = m2.
Proof.
  intros A B h. induction l as [|a l IH]; intros m1 b m2 E; [destruct m1; discriminate|]. destruct m1 as [|c m1]; injection E as E1 E.
  - exists [], a, l. auto.
  - destruct (IH _ _ _ E) as (l1 & a' & l2 & -> & <- & <- & <-). exists (a :: l1), a', l2. repeat split. cbn. now rewrite E1.
Qed.

Lemma existsb_bytes : forall k l, existsb (bytes_eqb k) l = true <-> In k l.
Proof.
  intros k l. rewrite existsb_exists. split; [intros (x & I & E); apply bytes_eqb_eq in E; now subst|]. intros I. exists k. split; [exact I|]. now apply bytes_eqb_eq.
Qed.

Lemma fmt_written : forall q id, fmtColIdent q id = written q (c_qual id) (c_col id).
Proof. intros q [a n]. unfold fmtColIdent, written, quoted. destruct a; destruct q; cbn; rewrite ?app_nil_r, <- ?app_assoc; reflexivity. Qed.

Lemma name_path : forall f, method_name f = path_name f.
Proof. intros f. unfold method_name, path_name. rewrite concat_app. cbn. now rewrite app_nil_r. Qed.

Lemma reserved_iff : forall n, existsb (bytes_eqb n) reservedFilterMethodNames = true <-> reserved n.
Proof. intros n. apply existsb_bytes. Qed.

Definition as_column (conv : fident -> Filter.gval -> res Filter.gval) (e : colelem) : bytes * Filter.column :=
  (el_key e, {| Filter.c_name := el_name e; Filter.c_conv := option_map conv (el_conv e); Filter.c_nullable := el_nullable e |}).

Definition elem_of (q : bool) (convs : list (bytes * fident)) (v2 : bool) (x : ffilter) : colelem :=
  MkElem (fi_fck (ff_field x)) (fmtColIdent q (ff_ident x)) (if v2 then FilterValueConverter convs (ff_field x) else None) (if v2 then TreatAsNULLable x else false).

Lemma map_elems_step : forall q convs v2 seen x r,
  map_elems q convs v2 seen (x :: r) = if bytes_eqb (fi_fck (ff_field x)) [] || existsb (bytes_eqb (fi_fck (ff_field x))) seen then map_elems q convs v2 seen r
    else elem_of q convs v2 x :: map_elems q convs v2 (fi_fck (ff_field x) :: seen) r.
Proof. intros q convs v2 seen x r. cbn [map_elems]. unfold elem_of. destruct (fi_fck (ff_field x)) as [|c k]; [reflexivity|]. cbn [bytes_eqb orb]. reflexivity. Qed.

Lemma elems_keys : forall q convs v2 l seen, NoDup (map el_key (map_elems q convs v2 seen l)) /\ forall k, In k (map el_key (map_elems q convs v2 seen l)) -> ~ In k seen /\ k <> [].
Proof.
  intros q convs v2. induction l as [|x l IH]; intros seen; [split; [constructor|intros k []]|]. rewrite map_elems_step.
  destruct (bytes_eqb (fi_fck (ff_field x)) []) eqn:E1; [apply IH|]. destruct (existsb _ seen) eqn:E2; cbn [orb]; [apply IH|]. cbn [map]. destruct (IH (fi_fck (ff_field x) :: seen)) as [I1 I2]. cbn [el_key elem_of]. split.
  - constructor; [|exact I1]. intros K. apply I2 in K. destruct K as [K _]. apply K. now left.
  - intros k [<-|K].
    + split; [|now apply bytes_eqb_neq]. intros K. apply existsb_bytes in K. congruence.
    + apply I2 in K. destruct K as [K1 K2]. split; [|exact K2]. intros J. apply K1. now right.
Qed.

Definition first_filter (l : list ffilter) (k : bytes) (x : ffilter) : Prop :=
  exists l1 l2, l = l1 ++ x :: l2 /\ fi_fck (ff_field x) = k /\ k <> [] /\ forall y, In y l1 -> fi_fck (ff_field y) <> k.

Lemma elems_first : forall q convs v2 l seen e, In e (map_elems q convs v2 seen l) <->
  exists x, first_filter l (el_key e) x /\ ~ In (el_key e) seen /\ e = elem_of q convs v2 x.
Proof.
  intros q convs v2. induction l as [|x l IH]; intros seen e.
  - split; [intros []|]. intros (x & (l1 & l2 & E & _) & _). destruct l1; discriminate.
  - rewrite map_elems_step. destruct (bytes_eqb (fi_fck (ff_field x)) [] || existsb (bytes_eqb (fi_fck (ff_field x))) seen) eqn:S.
    + assert (X : fi_fck (ff_field x) = [] \/ In (fi_fck (ff_field x)) seen).
      { apply orb_true_iff in S. destruct S as [S|S]; [left; now apply bytes_eqb_eq|right; now apply existsb_bytes]. }
      rewrite IH. split.
      * intros (y & (l1 & l2 & -> & Y1 & Y2 & Y3) & N & ->). exists y. split; [|split; [exact N|reflexivity]]. exists (x :: l1), l2. repeat split; auto. intros z [<-|Z]; [|now apply Y3]. intros K. rewrite <- K in *. destruct X; contradiction.
      * intros (y & ([|z l1] & l2 & E & Y1 & Y2 & Y3) & N & ->); injection E as -> E.
        -- rewrite Y1 in *. destruct X; contradiction.
        -- exists y. split; [|split; [exact N|reflexivity]]. exists l1, l2. repeat split; auto. intros w W. apply Y3. now right.
    + apply orb_false_iff in S. destruct S as [S1 S2]. apply bytes_eqb_neq in S1. assert (S3 : ~ In (fi_fck (ff_field x)) seen) by (intros K; apply existsb_bytes in K; congruence).
      cbn [In]. rewrite IH. split.
      * intros [<-|(y & (l1 & l2 & -> & Y1 & Y2 & Y3) & N & ->)].
        -- exists x. split; [|split; [exact S3|reflexivity]]. exists [], l. repeat split; auto.
        -- exists y. split; [|split; [intros K; apply N; now right|reflexivity]]. exists (x :: l1), l2. repeat split; auto. intros z [<-|Z]; [|now apply Y3]. intros K. apply N. now left.
      * intros (y & ([|z l1] & l2 & E & Y1 & Y2 & Y3) & N & ->); injection E as -> E; [now left|right].
        exists y. split; [|split; [|reflexivity]]. exists l1, l2. repeat split; auto. { intros w W. apply Y3. now right. } intros [K|K]; [|contradiction]. revert K. apply Y3. now left.
Qed.

Lemma methods_only : forall conv q typ ctor l, flat_map (var_value conv) (flat_map (col_method q typ ctor) l) = [].
Proof. intros conv q typ ctor. induction l as [|x l IH]; [reflexivity|]. cbn [flat_map]. rewrite flat_map_app, IH, app_nil_r. unfold col_method. destruct (existsb _ _); reflexivity. Qed.

Lemma globals : forall conv q convs typ s t code ctor v2, buildFilterCode q convs typ s t = Ok code -> fs_ctor s = Some (ctor, v2) ->
  flat_map (var_value conv) code = [(map_id typ, VMap (map (as_column conv) (map_elems q convs v2 [] (ti_filters t))))].
Proof.
  intros conv q convs typ s t code ctor v2 H E. unfold buildFilterCode in H. rewrite E in H. injection H as <-. cbn [flat_map var_value app init_method]. rewrite flat_map_app, methods_only. reflexivity.
Qed.

Lemma names_app : forall a b, method_names (a ++ b) = method_names a ++ method_names b.
Proof. intros. apply flat_map_app. Qed.

Lemma found_method : forall code recv typ n ps r b, NoDup (method_names code) -> In (XMethod recv typ n ps r b) code -> find (declares n) code = Some (XMethod recv typ n ps r b).
Proof.
  induction code as [|d code IH]; intros recv typ n ps r b N I; [destruct I|]. cbn [find]. destruct I as [->|I].
  - cbn. now rewrite (proj2 (bytes_eqb_eq n n) eq_refl).
  - destruct d as [x y z|r' t' n' ps' rs' b']; cbn [declares]; [exact (IH _ _ _ _ _ _ N I)|]. cbn in N. inversion N as [|? ? N1 N2]; subst. destruct (bytes_eqb n' n) eqn:E; [|exact (IH _ _ _ _ _ _ N2 I)].
    exfalso. apply bytes_eqb_eq in E. subst. apply N1. apply in_flat_map. eexists. split; [exact I|]. now left.
Qed.

Lemma col_body : forall ctor G col op v s, execs ctor ((B "f", VSelf) :: (B "op", VString op) :: (B "val", VAny v) :: G)
  [XDo (XCall (ctor_sel ctor (B "Col")) [XStr col; XId (B "op"); XId (B "val")]); XReturn (XId (B "f"))] s = Ok (Filter.Col col op v s).
Proof. intros. cbn -[Filter.Col]. rewrite (proj2 (bytes_eqb_eq ctor ctor) eq_refl). reflexivity. Qed.

Lemma bool_body : forall ctor G nm n g s, ((nm = B "And" /\ n = Filter.NAnd) \/ (nm = B "Or" /\ n = Filter.NOr)) -> execs ctor ((B "f", VSelf) :: (B "nest", VFunc g) :: G)
    [XIfNil (XId (B "nest")) [XDo (XCall (ctor_sel ctor nm) [XNil]); XReturn (XId (B "f"))];
     XDo (XCall (ctor_sel ctor nm) [XFunc (XCall (XId (B "nest")) [XId (B "f")])]);
     XReturn (XId (B "f"))] s = connect n g s.
Proof.
  intros ctor G nm n g s H. destruct g as [g|].
  - cbn -[Filter.conn Filter.push connect bytes_eqb]. change (bytes_eqb (B "nest") (B "f")) with false. change (bytes_eqb (B "nest") (B "nest")) with true. change (bytes_eqb (B "f") (B "f")) with true.
    cbn -[Filter.conn Filter.push connect bytes_eqb]. rewrite (proj2 (bytes_eqb_eq ctor ctor) eq_refl).
    destruct H as [[-> ->]|[-> ->]]; cbn -[Filter.conn Filter.push]; match goal with |- context [g ?x] => destruct (g x) end; reflexivity.
  - destruct H as [[-> ->]|[-> ->]]; cbn -[Filter.conn Filter.push]; rewrite (proj2 (bytes_eqb_eq ctor ctor) eq_refl); reflexivity.
Qed.

Lemma init_body : forall ctor id m ts (v2 : bool) s, id <> B "f" -> execs ctor [(B "f", VSelf); (id, VMap m)]
  [XDo (XCall (ctor_sel ctor (if v2 then B "InitV2" else B "Init")) [XId id; XStr ts])] s = Ok (Filter.InitV2 m ts s).
Proof.
  intros ctor id m ts v2 s N. unfold execs, exec, eval, ctor_sel. cbn [Filter.lookup]. rewrite (proj2 (bytes_eqb_neq id (B "f")) N), (proj2 (bytes_eqb_eq id id) eq_refl).
  change (bytes_eqb (B "f") (B "f")) with true. cbn [bind rmap fst snd]. rewrite (proj2 (bytes_eqb_eq ctor ctor) eq_refl). destruct v2; reflexivity.
Qed.

Lemma made_filters : forall q convs typ db s t rf tr ctor v2 code, made q convs typ db s t rf tr ctor v2 code ->
  picked (usable tr) (rt_fields (rf_type rf)) (map ff_field (ti_filters t)) /\ forall x, In x (ti_filters t) -> connected (db_cat db) rf tr (ff_field x) (ff_col x) (ff_ident x).
Proof.
  intros q convs typ db s t rf tr ctor v2 code [H1 H2 H3 H4 H5]. destruct (C70_filters_proof _ _ _ _ _ H1 H2 H3) as (A & Bb & _). split; [exact A|]. intros x I. now apply Bb.
Qed.

Lemma made_field : forall q convs typ db s t rf tr ctor v2 code f, made q convs typ db s t rf tr ctor v2 code -> In f (rt_fields (rf_type rf)) -> usable tr f ->
  exists x, In x (ti_filters t) /\ ff_field x = f /\ fmtColIdent q (ff_ident x) = written q (r_alias (rf_id rf)) (field_name f).
Proof.
  intros q convs typ db s t rf tr ctor v2 code f M I U. destruct (made_filters _ _ _ _ _ _ _ _ _ _ _ M) as [P C]. apply in_split in I. destruct I as (l1 & l2 & E).
  destruct (picked_split _ _ _ _ _ _ _ P E U) as (r1 & r2 & R & _). destruct (map_split _ _ _ _ _ _ _ R) as (x1 & x & x2 & X & _ & F & _). exists x. assert (J : In x (ti_filters t)) by (rewrite X; apply in_elt).
  split; [exact J|]. split; [exact F|]. destruct (C _ J) as [_ ->]. rewrite fmt_written. cbn. now rewrite F.
Qed.

Lemma call_field : forall conv q convs typ db s t rf tr ctor v2 code f op v c, made q convs typ db s t rf tr ctor v2 code -> NoDup (method_names code) ->
  In f (rt_fields (rf_type rf)) -> usable tr f -> ~ reserved (path_name f) ->
  invoke conv code ctor (path_name f) [VString op; VAny v] c = Ok (Filter.Col (written q (r_alias (rf_id rf)) (field_name f)) op v c).
Proof.
  intros conv q convs typ db s t rf tr ctor v2 code f op v c M N I U R. destruct (made_field _ _ _ _ _ _ _ _ _ _ _ _ M I U) as (x & X1 & X2 & X3).
  assert (J : In (XMethod (B "f") typ (path_name f) [(B "op", TyString); (B "val", TyField (fi_type f))] true
     [XDo (XCall (ctor_sel ctor (B "Col")) [XStr (fmtColIdent q (ff_ident x)); XId (B "op"); XId (B "val")]); XReturn (XId (B "f"))]) code).
  { pose proof (md_code _ _ _ _ _ _ _ _ _ _ _ M) as K. unfold buildFilterCode in K. rewrite (md_ctor _ _ _ _ _ _ _ _ _ _ _ M) in K. injection K as <-. right. right. apply in_or_app. left. apply in_flat_map. exists x. split; [exact X1|].
    unfold col_method. rewrite X2, name_path. destruct (existsb _ _) eqn:E; [apply reserved_iff in E; contradiction|]. now left. }
  unfold invoke. rewrite (found_method _ _ _ _ _ _ _ N J), X3. cbn [List.length Nat.eqb map fst combine app]. apply col_body.
Qed.

Lemma call_bool : forall conv q convs typ db s t rf tr ctor v2 code nm n g c, made q convs typ db s t rf tr ctor v2 code -> NoDup (method_names code) ->
  ((nm = B "And" /\ n = Filter.NAnd) \/ (nm = B "Or" /\ n = Filter.NOr)) -> invoke conv code ctor nm [VFunc g] c = connect n g c.
Proof.
  intros conv q convs typ db s t rf tr ctor v2 code nm n g c M N H.
  assert (J : In (bool_method typ ctor nm) code).
  { pose proof (md_code _ _ _ _ _ _ _ _ _ _ _ M) as K. unfold buildFilterCode in K. rewrite (md_ctor _ _ _ _ _ _ _ _ _ _ _ M) in K. injection K as <-. right. right. apply in_or_app. right. destruct H as [[-> _]|[-> _]]; [now left|right; now left]. }
  unfold invoke. unfold bool_method in J. rewrite (found_method _ _ _ _ _ _ _ N J). cbn [List.length Nat.eqb map fst combine app]. now apply bool_body.
Qed.

Scheme means_rec := Minimality for means Sort Prop with all_mean_rec := Minimality for all_mean Sort Prop.

Combined Scheme means_all from means_rec, all_mean_rec.

Lemma program_runs : forall conv q convs typ db s t rf tr ctor v2 code, made q convs typ db s t rf tr ctor v2 code -> NoDup (method_names code) ->
  (forall u k, means q rf tr u k -> forall c, urun conv code ctor u c = Ok (Filter.run k c))
  /\ (forall us ks, all_mean q rf tr us ks -> forall c, uruns conv code ctor us c = Ok (Filter.runs ks c)).
Proof.
  intros conv q convs typ db s t rf tr ctor v2 code M N.
  assert (E : forall l, (fix all (l : list ucall) : change := match l with [] => @Ok Filter.cst | u :: r => fun s => bind (urun conv code ctor u s) (all r) end) l = uruns conv code ctor l).
  { induction l as [|u l IH]; [reflexivity|]. cbn [uruns]. now rewrite IH. }
  apply means_all.
  - intros f op v I U R c. cbn [urun Filter.run]. eapply call_field; eassumption.
  - intros us ks _ IH c. cbn [urun]. rewrite E. rewrite (call_bool _ _ _ _ _ _ _ _ _ _ _ _ _ Filter.NAnd _ _ M N) by (left; auto). cbn [connect]. rewrite IH. reflexivity.
  - intros us ks _ IH c. cbn [urun]. rewrite E. rewrite (call_bool _ _ _ _ _ _ _ _ _ _ _ _ _ Filter.NOr _ _ M N) by (right; auto). cbn [connect]. rewrite IH. reflexivity.
  - intros c. cbn [urun]. rewrite (call_bool _ _ _ _ _ _ _ _ _ _ _ _ _ Filter.NAnd _ _ M N) by (left; auto). reflexivity.
  - intros c. cbn [urun]. rewrite (call_bool _ _ _ _ _ _ _ _ _ _ _ _ _ Filter.NOr _ _ M N) by (right; auto). reflexivity.
  - reflexivity.
  - intros u k us ks _ IH1 _ IH2 c. cbn [uruns]. rewrite IH1. cbn [bind]. rewrite IH2. reflexivity.
Qed.

Lemma converter_of : forall convs f, converter convs f (FilterValueConverter convs f).
Proof.
  intros convs f. unfold FilterValueConverter, converter. set (k := _ ++ _). clearbody k. destruct (Filter.lookup k (rev convs)) as [id|] eqn:E.
  - destruct (lookup_first _ _ _ _ E) as (m1 & m2 & R & N). exists (rev m2), (rev m1). split.
    + rewrite <- (rev_involutive convs), R, rev_app_distr. cbn. now rewrite <- app_assoc.
    + rewrite map_rev. intros K. apply N. now apply in_rev in K.
  - intros I. apply in_map_iff in I. destruct I as ([k' id] & K & I). cbn in K. subst k'. apply in_rev in I. clear -E I. induction (rev convs) as [|[k' v] l IH]; [destruct I|]. cbn in E. destruct (bytes_eqb k k') eqn:Q; [discriminate|]. destruct I as [I|I]; [|auto]. injection I as -> ->. apply bytes_eqb_neq in Q. congruence.
Qed.

Lemma converter_unique : forall convs f a b, converter convs f a -> converter convs f b -> a = b.
Proof.
  intros convs f a b. unfold converter. set (k := _ ++ _). clearbody k.
  assert (X : forall l1 l2 l3 l4 (x y : fident), l1 ++ (k, x) :: l2 = l3 ++ (k, y) :: l4 -> ~ In k (map fst l2) -> ~ In k (map fst l4) -> x = y).
  { intros l1. induction l1 as [|p l1 IH]; intros l2 l3 l4 x y E N M; destruct l3 as [|p' l3]; cbn in E.
    - injection E; congruence.
    - injection E as <- ->. exfalso. apply N. rewrite map_app. apply in_or_app. right. now left.
    - injection E as -> <-. exfalso. apply M. rewrite map_app. apply in_or_app. right. now left.
    - injection E as -> E. exact (IH _ _ _ _ _ E N M). }
  destruct a as [a|], b as [b|].
  - intros (l1 & l2 & E & N) (l3 & l4 & E' & N'). f_equal. rewrite E in E'. exact (X _ _ _ _ _ _ E' N N').
  - intros (l1 & l2 & E & N) K. exfalso. apply K. rewrite E, map_app. apply in_or_app. right. now left.
  - intros K (l1 & l2 & E & N). exfalso. apply K. rewrite E, map_app. apply in_or_app. right. now left.
  - reflexivity.
Qed.

Lemma lookup_pair : forall A k (m : list (bytes * A)) v, NoDup (map fst m) -> (Filter.lookup k m = Some v <-> In (k, v) m).
Proof.
  intros A k m v. induction m as [|[k' v'] m IH]; intros N; cbn; [split; [discriminate|tauto]|]. cbn in N. inversion N as [|? ? N1 N2]; subst. destruct (bytes_eqb k k') eqn:E.
  - apply bytes_eqb_eq in E. subst. split; [intros K; injection K as ->; now left|]. intros [K|K]; [injection K as ->; reflexivity|]. exfalso. apply N1. change k' with (fst (k', v)). now apply in_map.
  - apply bytes_eqb_neq in E. rewrite (IH N2). split; [now right|]. intros [K|K]; [injection K as -> ->; contradiction|exact K].
Qed.

Lemma first_field : forall q convs typ db s t rf tr ctor v2 code k f, made q convs typ db s t rf tr ctor v2 code ->
  (first_with_key tr (rt_fields (rf_type rf)) k f <-> exists x, first_filter (ti_filters t) k x /\ ff_field x = f).
Proof.
  intros q convs typ db s t rf tr ctor v2 code k f M. destruct (made_filters _ _ _ _ _ _ _ _ _ _ _ M) as [P C]. split.
  - intros (l1 & l2 & E & U & K & NE & N). destruct (picked_split _ _ _ _ _ _ _ P E U) as (r1 & r2 & R & I). destruct (map_split _ _ _ _ _ _ _ R) as (x1 & x & x2 & X & X1 & X2 & X3). exists x. split; [|exact X2].
    exists x1, x2. rewrite X2. repeat split; auto. intros y Y. apply (in_map ff_field) in Y. rewrite X1 in Y. destruct (I _ Y) as [I1 I2]. now apply N.
  - intros (x & (l1 & l2 & E & K & NE & N) & <-). assert (R : map ff_field (ti_filters t) = map ff_field l1 ++ ff_field x :: map ff_field l2) by (rewrite E, map_app; reflexivity).
    destruct (picked_join _ _ _ _ _ _ _ P R) as (U & m1 & m2 & EM & I). exists m1, m2. split; [exact EM|]. split; [exact U|]. split; [exact K|]. split; [exact NE|]. intros g G GU. specialize (I g G GU). apply in_map_iff in I. destruct I as (y & <- & I). now apply N.
Qed.

Lemma init_map : forall conv q convs typ db s t rf tr ctor v2 code, made q convs typ db s t rf tr ctor v2 code ->
  let m := map (as_column conv) (map_elems q convs v2 [] (ti_filters t)) in
  NoDup (map fst m) /\ forall k col, Filter.lookup k m = Some col <-> exists f, first_with_key tr (rt_fields (rf_type rf)) k f /\ column_for conv q convs v2 rf tr f col.
Proof.
  intros conv q convs typ db s t rf tr ctor v2 code M m. destruct (made_filters _ _ _ _ _ _ _ _ _ _ _ M) as [P C].
  assert (N : NoDup (map fst m)). { unfold m. rewrite map_map. cbn. apply (elems_keys q convs v2 (ti_filters t) []). }
  split; [exact N|]. intros k col. rewrite (lookup_pair _ _ _ _ N). unfold m. rewrite in_map_iff.
  assert (Y : forall x, In x (ti_filters t) -> column_for conv q convs v2 rf tr (ff_field x) (snd (as_column conv (elem_of q convs v2 x)))).
  { intros x I. destruct (C _ I) as [(r & R & D) ID]. destruct D as (_ & _ & _ & D & _). unfold as_column, elem_of. cbn [snd el_key el_name el_conv el_nullable]. eexists r, _, _. split; [exact R|]. split; [rewrite ID, fmt_written; reflexivity|].
    destruct v2; [|now split]. split; [apply converter_of|]. unfold TreatAsNULLable. rewrite D. destruct (m_notnull _), (cr_notnull r); cbn; intuition congruence. }
  split.
  - intros (e & E & I). apply elems_first in I. destruct I as (x & F & _ & ->). unfold as_column in E. injection E as <- <-. exists (ff_field x). split; [apply (first_field _ _ _ _ _ _ _ _ _ _ _ _ _ M); exists x; split; [exact F|reflexivity]|].
    destruct F as (l1 & l2 & E & _). apply (Y x). rewrite E. apply in_elt.
  - intros (f & F & K). apply (first_field _ _ _ _ _ _ _ _ _ _ _ _ _ M) in F. destruct F as (x & F & <-). exists (elem_of q convs v2 x). assert (EK : fi_fck (ff_field x) = k) by (destruct F as (? & ? & ? & ? & ?); assumption). split.
    + assert (J : In x (ti_filters t)) by (destruct F as (l1 & l2 & E & _); rewrite E; apply in_elt). destruct (Y _ J) as (r & id & b & R & EC & V). destruct K as (r' & id' & b' & R' & EC' & V').
      unfold as_column in *. cbn [snd el_key elem_of] in *. rewrite EK. f_equal. rewrite EC, EC'. assert (r = r') by (eapply row_unique; eassumption). subst r'. f_equal.
      * f_equal. destruct v2; [|destruct V, V'; congruence]. eapply converter_unique; [apply V|apply V'].
      * destruct v2; [|destruct V, V'; congruence]. destruct V as [_ V], V' as [_ V']. rewrite <- V' in V. destruct b, b'; try reflexivity; [symmetry; now apply V|now apply V].
    + apply elems_first. exists x. cbn [el_key elem_of]. rewrite EK. split; [exact F|]. split; [intros []|reflexivity].
Qed.

Lemma call_init : forall conv q convs typ db s t rf tr ctor v2 code c, made q convs typ db s t rf tr ctor v2 code -> NoDup (method_names code) ->
  invoke conv code ctor (B "Init") [] c = Ok (Filter.InitV2 (map (as_column conv) (map_elems q convs v2 [] (ti_filters t))) (match fs_ts s with Some id => written q (c_qual id) (c_col id) | None => [] end) c).
Proof.
  intros conv q convs typ db s t rf tr ctor v2 code c M N.
  assert (J : In (init_method q typ ctor v2 (fs_ts s)) code).
  { pose proof (md_code _ _ _ _ _ _ _ _ _ _ _ M) as K. unfold buildFilterCode in K. rewrite (md_ctor _ _ _ _ _ _ _ _ _ _ _ M) in K. injection K as <-. right. now left. }
  unfold init_method in J. unfold invoke. rewrite (found_method _ _ _ _ _ _ _ N J). cbn [List.length Nat.eqb map combine app]. rewrite (globals conv _ _ _ _ _ _ _ _ (md_code _ _ _ _ _ _ _ _ _ _ _ M) (md_ctor _ _ _ _ _ _ _ _ _ _ _ M)).
  rewrite init_body by (unfold map_id; discriminate). do 2 f_equal. destruct (fs_ts s) as [id|]; [apply fmt_written|reflexivity].
Qed.

Lemma names_of : forall q typ ctor l, method_names (flat_map (col_method q typ ctor) l) = map path_name (filter (fun f => negb (existsb (bytes_eqb (path_name f)) reservedFilterMethodNames)) (map ff_field l)).
Proof.
  intros q typ ctor. induction l as [|x l IH]; [reflexivity|]. cbn [flat_map map filter]. rewrite names_app, IH. unfold col_method. rewrite name_path. destruct (existsb _ _); reflexivity.
Qed.

Lemma picked_filter : forall A (P : A -> Prop) (Q : A -> bool) l r, picked P l r -> picked (fun a => P a /\ Q a = true) l (filter Q r).
Proof.
  intros A P Q l r H. induction H as [|a l r K H IH|a l r K H IH]; cbn; [constructor| |constructor; [tauto|exact IH]]. destruct (Q a) eqn:E; constructor; auto. rewrite E. intros [_ F]. discriminate.
Qed.

Lemma picked_ext : forall A (P Q : A -> Prop) l r, (forall a, P a <-> Q a) -> picked P l r -> picked Q l r.
Proof. intros A P Q l r E H. induction H; constructor; auto; [now apply E|rewrite <- E; assumption]. Qed.

Lemma made_names : forall q convs typ db s t rf tr ctor v2 code, made q convs typ db s t rf tr ctor v2 code ->
  exists l, picked (fun f => usable tr f /\ ~ reserved (path_name f)) (rt_fields (rf_type rf)) l /\ method_names code = B "Init" :: map path_name l ++ [B "And"; B "Or"].
Proof.
  intros q convs typ db s t rf tr ctor v2 code M. destruct (made_filters _ _ _ _ _ _ _ _ _ _ _ M) as [P C].
  pose proof (md_code _ _ _ _ _ _ _ _ _ _ _ M) as K. unfold buildFilterCode in K. rewrite (md_ctor _ _ _ _ _ _ _ _ _ _ _ M) in K. injection K as <-.
  eexists. split; [|cbn; f_equal; rewrite names_app, names_of; reflexivity].
  eapply picked_ext; [|apply picked_filter; exact P]. intros f. cbv beta. rewrite negb_true_iff, <- not_true_iff_false, reserved_iff. tauto.
Qed.

Lemma sort_rest : forall r d key s, ~ In ","%char r -> Filter.sort_loop r false d key s = Filter.sort_key d (key ++ r) s.
Proof.
  induction r as [|c r IH]; intros d key s N; cbn [Filter.sort_loop]; [now rewrite app_nil_r|].
  destruct (beq c ",") eqn:E; [apply Ascii.eqb_eq in E; subst; exfalso; apply N; now left|]. cbn [andb]. rewrite IH by (intros K; apply N; now right). now rewrite <- app_assoc.
Qed.

Lemma sort_one : forall (d : bool) k s, k <> [] -> ~ In ","%char k -> (d = true \/ hd_error k <> Some "-"%char) -> Filter.UnmarshalSort ((if d then B "-" else []) ++ k) s = Filter.sort_key d k s.
Proof.
  intros d [|c k] s NE N H; [congruence|]. unfold Filter.UnmarshalSort. destruct d.
  - change (B "-" ++ c :: k) with ("-"%char :: c :: k). cbn [Filter.sort_loop]. change (beq "-" ",") with false. change (beq "-" "-") with true. cbn [andb]. apply (sort_rest (c :: k) true [] s N).
  - cbn [app]. cbn [Filter.sort_loop]. destruct (beq c ",") eqn:E; [apply Ascii.eqb_eq in E; subst; exfalso; apply N; now left|]. destruct (beq c "-") eqn:E2.
    + apply Ascii.eqb_eq in E2. subst. destruct H as [H|H]; [discriminate|]. cbn in H. congruence.
    + cbn [andb]. rewrite sort_rest by (intros K; apply N; now right). reflexivity.
Qed.

Lemma C97_built_proof : forall q convs typ e fs s db t, analyzeFilterStruct e fs = AOk s -> check_filter db s = COk t ->
  exists rf tr ctor v2 code, made q convs typ db s t rf tr ctor v2 code.
Proof.
  intros q convs typ e fs s db t A H. unfold analyzeFilterStruct in A. aok. subst. destruct (fs_rel s) as [rf|] eqn:R; [|discriminate]. destruct (fs_ctor s) as [[ctor v2]|] eqn:C; [|discriminate].
  pose proof H as K. unfold check_filter in K. rewrite R in K. apply cbind_ok in K. destruct K as (c & K & _). unfold loadTargetRelation in K. apply cbind_ok in K. destruct K as (rel & K & _). unfold loadRelation in K. apply cbind_ok in K. destruct K as (tr & K & _). apply orelse_ok in K.
  exists rf, tr, ctor, v2. eexists. constructor; [exact H|exact R|exact K|exact C|]. unfold buildFilterCode. rewrite C. reflexivity.
Qed.

Lemma C97_methods_proof : forall q convs typ db s t rf tr ctor v2 code, made q convs typ db s t rf tr ctor v2 code ->
  exists l, picked (fun f => usable tr f /\ ~ reserved (path_name f)) (rt_fields (rf_type rf)) l /\ method_names code = B "Init" :: map path_name l ++ [B "And"; B "Or"].
Proof. exact made_names. Qed.

Lemma C97_calls_proof : forall conv q convs typ db s t rf tr ctor v2 code us ks c, made q convs typ db s t rf tr ctor v2 code -> NoDup (method_names code) ->
  all_mean q rf tr us ks -> uruns conv code ctor us c = Ok (Filter.runs ks c).
Proof. intros conv q convs typ db s t rf tr ctor v2 code us ks c M N H. exact (proj2 (program_runs conv _ _ _ _ _ _ _ _ _ _ _ M N) us ks H c). Qed.

Lemma C97_init_proof : forall conv q convs typ db s t rf tr ctor v2 code, made q convs typ db s t rf tr ctor v2 code -> NoDup (method_names code) ->
  exists m, (forall c, invoke conv code ctor (B "Init") [] c
      = Ok (Filter.InitV2 m (match fs_ts s with Some id => written q (c_qual id) (c_col id) | None => [] end) c))
    /\ NoDup (map fst m)
    /\ forall k col, Filter.lookup k m = Some col <-> exists f, first_with_key tr (rt_fields (rf_type rf)) k f /\ column_for conv q convs v2 rf tr f col.
Proof.
  intros conv q convs typ db s t rf tr ctor v2 code M N. eexists. split; [intros c; exact (call_init conv _ _ _ _ _ _ _ _ _ _ _ c M N)|]. exact (init_map conv _ _ _ _ _ _ _ _ _ _ _ M).
Qed.

Lemma C97_fql_proof : forall conv q convs typ db s t rf tr ctor v2 code c c' k cmp v, made q convs typ db s t rf tr ctor v2 code -> NoDup (method_names code) ->
  invoke conv code ctor (B "Init") [] c = Ok c' ->
  (forall f, first_with_key tr (rt_fields (rf_type rf)) k f -> exists id, (if v2 then converter convs f id else id = None)
     /\ Filter.UnmarshalFQL [Filter.TRule k cmp v] false c'
        = match (match id with Some i => conv i v | None => Ok v end) with
          | Ok w => (Filter.Col (written q (r_alias (rf_id rf)) (field_name f)) cmp w c', false)
          | _ => (c', true)
          end)
  /\ ((forall f, ~ first_with_key tr (rt_fields (rf_type rf)) k f) -> Filter.UnmarshalFQL [Filter.TRule k cmp v] false c' = (c', Filter.s_strict c)).
Proof.
  intros conv q convs typ db s t rf tr ctor v2 code c c' k cmp v M N H. rewrite (call_init conv _ _ _ _ _ _ _ _ _ _ _ c M N) in H. injection H as <-. destruct (init_map conv _ _ _ _ _ _ _ _ _ _ _ M) as [_ L]. set (m := map _ _) in *. split.
  - intros f F. destruct (made_filters _ _ _ _ _ _ _ _ _ _ _ M) as [P C]. pose proof F as F'. apply (first_field _ _ _ _ _ _ _ _ _ _ _ _ _ M) in F'. destruct F' as (x & F1 & F2). assert (J : In x (ti_filters t)) by (destruct F1 as (l1 & l2 & E & _); rewrite E; apply in_elt).
    assert (K : exists col, Filter.lookup k m = Some col /\ column_for conv q convs v2 rf tr f col).
    { destruct (C _ J) as [(r & R & D) _]. rewrite F2 in R. set (b := if v2 then negb (m_notnull (fi_mode f)) && negb (cr_notnull r) else false).
      set (col := {| Filter.c_name := written q (r_alias (rf_id rf)) (field_name f); Filter.c_conv := option_map conv (if v2 then FilterValueConverter convs f else None); Filter.c_nullable := b |}).
      assert (Q : column_for conv q convs v2 rf tr f col). { exists r, (if v2 then FilterValueConverter convs f else None), b. split; [exact R|]. split; [reflexivity|]. unfold b. destruct v2; [|now split]. split; [apply converter_of|]. destruct (m_notnull _), (cr_notnull r); cbn; intuition congruence. }
      exists col. split; [|exact Q]. apply L. exists f. split; [exact F|exact Q]. }
    destruct K as (col & K & (r & id & b & R & -> & V)). exists id. split; [destruct v2; apply V|]. unfold Filter.UnmarshalFQL. cbn [Filter.fql_loop]. cbn [Filter.s_colmap Filter.InitV2]. rewrite K. cbn [Filter.c_conv Filter.c_name].
    destruct id as [i|]; cbn [option_map]; [|reflexivity]. destruct (conv i v); reflexivity.
  - intros NF. unfold Filter.UnmarshalFQL. cbn [Filter.fql_loop]. cbn [Filter.s_colmap Filter.s_strict Filter.InitV2]. destruct (Filter.lookup k m) as [col|] eqn:E; [|destruct (Filter.s_strict c); reflexivity]. apply L in E. destruct E as (f & F & _). exfalso. exact (NF f F).
Qed.

Lemma C97_sort_proof : forall conv q convs typ db s t rf tr ctor v2 code c c' (d : bool) k f, made q convs typ db s t rf tr ctor v2 code -> NoDup (method_names code) ->
  invoke conv code ctor (B "Init") [] c = Ok c' -> first_with_key tr (rt_fields (rf_type rf)) k f -> ~ In ","%char k -> (d = true \/ hd_error k <> Some "-"%char) ->
  exists col, column_for conv q convs v2 rf tr f col
    /\ Filter.UnmarshalSort ((if d then B "-" else []) ++ k) c' = (Filter.OrderByV2 (Filter.c_name col) d (Filter.c_nullable col) false c', false).
Proof.
  intros conv q convs typ db s t rf tr ctor v2 code c c' d k f M N H F NC D. rewrite (call_init conv _ _ _ _ _ _ _ _ _ _ _ c M N) in H. injection H as <-. destruct (init_map conv _ _ _ _ _ _ _ _ _ _ _ M) as [_ L]. set (m := map _ _) in *.
  destruct (made_filters _ _ _ _ _ _ _ _ _ _ _ M) as [P C]. pose proof F as F'. apply (first_field _ _ _ _ _ _ _ _ _ _ _ _ _ M) in F'. destruct F' as (x & F1 & F2). assert (J : In x (ti_filters t)) by (destruct F1 as (l1 & l2 & E & _); rewrite E; apply in_elt).
  destruct (C _ J) as [(r & R & D') _]. rewrite F2 in R. set (b := if v2 then negb (m_notnull (fi_mode f)) && negb (cr_notnull r) else false).
  set (col := {| Filter.c_name := written q (r_alias (rf_id rf)) (field_name f); Filter.c_conv := option_map conv (if v2 then FilterValueConverter convs f else None); Filter.c_nullable := b |}).
  assert (Q : column_for conv q convs v2 rf tr f col). { exists r, (if v2 then FilterValueConverter convs f else None), b. split; [exact R|]. split; [reflexivity|]. unfold b. destruct v2; [|now split]. split; [apply converter_of|]. destruct (m_notnull _), (cr_notnull r); cbn; intuition congruence. }
  exists col. split; [exact Q|]. assert (NE : k <> []) by (destruct F as (? & ? & ? & ? & ? & ? & ?); assumption). rewrite sort_one by assumption. unfold Filter.sort_key. destruct k as [|c0 k]; [congruence|]. cbn [Filter.s_colmap Filter.InitV2]. rewrite (proj2 (L (c0 :: k) col)); [reflexivity|]. exists f. split; assumption.
Qed.

(** *** Examples *)
Definition filters97 (name : string) : fstate := match analyzeFilterStruct ex_env
  [(ex_var "_" (ex_tag "rel" ["user:u"]), TNamed (ex_name "User") (TStruct [(ex_var "Id" (ex_tag "sql" ["id"]), ex_int); (ex_var "Email" (ex_tag "sql" ["email"; "xf"]), ex_str);
      (ex_var name (ex_tag "sql" ["login"]), TNamed (ex_name "Text") ex_str)]));
   (ex_var "_" (ex_tag "sql" ["u.ts"]), ex_dir "TextSearch"); ex_ctor "F" (ex_tag "filter" ["v2"])] with AOk s => s | _ => MkF None None None [] end.

Definition t97 (name : string) : tinfo := match check_filter db_ex (filters97 name) with COk t => t | _ => MkTInfo [] [] [] [] [] [] None end.

Definition convs97 : list (bytes * fident) := [(B "app.Text", (B "app", B "ToText"))].

Definition code97 (name : string) : list fdecl := match buildFilterCode true convs97 (B "FilterUser") (filters97 name) (t97 name) with Ok c => c | _ => [] end.

Definition rel97 (name : string) : RelField := match fs_rel (filters97 name) with Some rf => rf | None => MkRelF [] (MkRel [] [] []) zero_rt false end.

Lemma made97 : made true convs97 (B "FilterUser") db_ex (filters97 "Login") (t97 "Login") (rel97 "Login") db_user (B "F") true (code97 "Login").
Proof. constructor; vm_compute; reflexivity. Qed.

Lemma names97 : NoDup (method_names (code97 "Login")).
Proof.
  assert (E : method_names (code97 "Login") = [B "Init"; B "Id"; B "Login"; B "And"; B "Or"]) by (vm_compute; reflexivity). rewrite E.
  repeat (apply NoDup_cons; [intros K; repeat (destruct K as [K|K]; [discriminate K|]); destruct K|]). apply NoDup_nil.
Qed.

Lemma usable97 : forall f, In f (rt_fields (rf_type (rel97 "Login"))) -> fi_name f <> B "Email" -> usable db_user f.
Proof.
  intros f I N. vm_compute in I. destruct I as [<-|[<-|[<-|[]]]]; [| |].
  - split; [split; [reflexivity|intros s []]|vm_compute; now left].
  - exfalso. apply N. reflexivity.
  - split; [split; [reflexivity|intros s []]|vm_compute; right; right; now left].
Qed.

Definition f97 (n : nat) : FieldInfo := nth n (rt_fields (rf_type (rel97 "Login"))) (MkFI [] (plain_ti KInvalid) [] false false [] no_col [] mode_default false false false false []).

Lemma f97_0 : In (f97 0) (rt_fields (rf_type (rel97 "Login"))) /\ fi_name (f97 0) <> B "Email".
Proof. split; [apply nth_In; vm_compute; lia|]. vm_compute. discriminate. Qed.

Lemma f97_2 : In (f97 2) (rt_fields (rf_type (rel97 "Login"))) /\ fi_name (f97 2) <> B "Email".
Proof. split; [apply nth_In; vm_compute; lia|]. vm_compute. discriminate. Qed.

Lemma key97 : first_with_key db_user (rt_fields (rf_type (rel97 "Login"))) (B "Login") (f97 2).
Proof.
  exists [f97 0; f97 1], []. split; [vm_compute; reflexivity|]. split; [exact (usable97 _ (proj1 f97_2) (proj2 f97_2))|]. split; [vm_compute; reflexivity|]. split; [discriminate|].
  intros g [<-|[<-|[]]] _; vm_compute; discriminate.
Qed.

Lemma C97_names_refuted_proof : exists q convs typ db s t rf tr ctor v2 code, made q convs typ db s t rf tr ctor v2 code /\ ~ NoDup (method_names code).
Proof.
  exists true, convs97, (B "FilterUser"), db_ex, (filters97 "And"), (t97 "And"), (rel97 "And"), db_user, (B "F"), true, (code97 "And"). split; [constructor; vm_compute; reflexivity|].
  assert (E : method_names (code97 "And") = [B "Init"; B "Id"; B "And"; B "And"; B "Or"]) by (vm_compute; reflexivity). rewrite E. intros N. inversion N as [|? ? _ N1]; subst. inversion N1 as [|? ? _ N2]; subst. inversion N2 as [|? ? N3 _]; subst. apply N3. now left.
Qed.

Lemma C97_hides_refuted_proof : exists q convs typ db s t rf tr ctor v2 code, made q convs typ db s t rf tr ctor v2 code /\ NoDup (method_names code) /\ In (B "ToSQL") (method_names code).
Proof.
  exists true, convs97, (B "FilterUser"), db_ex, (filters97 "ToSQL"), (t97 "ToSQL"), (rel97 "ToSQL"), db_user, (B "F"), true, (code97 "ToSQL"). split; [constructor; vm_compute; reflexivity|].
  assert (E : method_names (code97 "ToSQL") = [B "Init"; B "Id"; B "ToSQL"; B "And"; B "Or"]) by (vm_compute; reflexivity). rewrite E. split; [|right; right; now left].
  repeat (apply NoDup_cons; [intros K; repeat (destruct K as [K|K]; [discriminate K|]); destruct K|]). apply NoDup_nil.
Qed.

Lemma C97_field_refuted_proof : exists q convs typ db s t rf tr ctor v2 code, made q convs typ db s t rf tr ctor v2 code /\ NoDup (method_names code) /\ In ctor (method_names code).
Proof.
  exists true, convs97, (B "FilterUser"), db_ex, (filters97 "F"), (t97 "F"), (rel97 "F"), db_user, (B "F"), true, (code97 "F"). split; [constructor; vm_compute; reflexivity|].
  assert (E : method_names (code97 "F") = [B "Init"; B "Id"; B "F"; B "And"; B "Or"]) by (vm_compute; reflexivity). rewrite E. split; [|right; right; now left].
  repeat (apply NoDup_cons; [intros K; repeat (destruct K as [K|K]; [discriminate K|]); destruct K|]). apply NoDup_nil.
Qed.
