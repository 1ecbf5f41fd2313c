(** Definitions and proofs used by PropsPreds.v. *)
From Coq Require Import Ascii String ZArith NArith Bool List Lia.
From Verif Require Import GoBase TypePreds GoTypeSpec.
Import ListNotations.
Local Open Scope string_scope.
Local Open Scope list_scope.

Lemma beqs : forall a b, bytes_eqb a b = true <-> a = b.
Proof.
  induction a as [|x a IH]; intros [|y b]; cbn; split; intros H; try discriminate; try reflexivity.
  - apply andb_true_iff in H as [H1 H2]. apply Ascii.eqb_eq in H1. apply IH in H2. now subst.
  - injection H as -> ->. rewrite Ascii.eqb_refl. now apply IH.
Qed.

Lemma beqs_refl : forall a, bytes_eqb a a = true.
Proof. intros. now apply beqs. Qed.

Lemma suffix_spec : forall p a, ends_with p a = true <-> exists pre, a = pre ++ p.
Proof.
  assert (P : forall p a, has_prefix p a = true <-> exists r, a = p ++ r).
  { induction p as [|x p IH]; intros a; cbn.
    - split; eauto.
    - destruct a as [|y a]; [split; [discriminate|intros (r & H); discriminate]|].
      rewrite andb_true_iff, IH. split.
      + intros (H1 & r & ->). apply Ascii.eqb_eq in H1. subst. now exists r.
      + intros (r & H). injection H as -> ->. split; [apply Ascii.eqb_refl|eauto]. }
  intros p a. unfold ends_with. rewrite P. split; intros (r & H).
  - exists (rev r). rewrite <- (rev_involutive a), H, rev_app_distr, rev_involutive. reflexivity.
  - exists (rev r). rewrite H, rev_app_distr. reflexivity.
Qed.

Lemma tidy_name : forall t n, tidy t = true -> legal t = true -> expand t = YName n -> t = YName n.
Proof.
  intros t n T L E. destruct t as [ | | | | | | | | |m|[[p|] a] u]; cbn in *; try discriminate; try congruence. apply andb_true_iff in L as [_ L].
  destruct u as [ | | | | | | |[|? ?]| | | ]; discriminate.
Qed.

Lemma alias_any : forall n u, tidy (YAlias n u) = true -> legal (YAlias n u) = true -> fst n = None /\ snd n = B "any" /\ u = YIface [].
Proof.
  intros [[p|] a] u T L; [discriminate|]. cbn [tidy legal] in *. apply andb_true_iff in L as [_ L]. apply beqs in T.
  destruct u as [ | | | | | | |[|? ?]| | | ]; try discriminate. cbn. auto.
Qed.

Ltac inv_ty t T L E :=
  destruct t; cbn [expand] in E; try discriminate E;
  try (exfalso; match type of T with tidy (YAlias ?n ?u) = true => destruct (alias_any n u T L) as (_ & _ & ->); cbn [expand map] in E; discriminate E end).

Lemma tidy_ptr : forall t x, tidy t = true -> legal t = true -> expand t = YPtr x ->
  exists e, t = YPtr e /\ tidy e = true /\ legal e = true /\ expand e = x.
Proof. intros t x T L E. inv_ty t T L E. injection E as <-. eauto. Qed.

Lemma tidy_slice : forall t x, tidy t = true -> legal t = true -> expand t = YSlice x ->
  exists e, t = YSlice e /\ tidy e = true /\ legal e = true /\ expand e = x.
Proof. intros t x T L E. inv_ty t T L E. injection E as <-. eauto. Qed.

Lemma tidy_basic : forall t k, tidy t = true -> legal t = true -> expand t = YBasic k -> t = YBasic k.
Proof. intros t k T L E. inv_ty t T L E. congruence. Qed.

Lemma tidy_map : forall t x y, tidy t = true -> legal t = true -> expand t = YMap x y ->
  exists k v, t = YMap k v /\ (tidy k = true /\ legal k = true /\ expand k = x) /\ (tidy v = true /\ legal v = true /\ expand v = y).
Proof.
  intros t x y T L E. inv_ty t T L E. injection E as <- <-. cbn [tidy legal] in *.
  apply andb_true_iff in T as []. apply andb_true_iff in L as []. eauto 10.
Qed.

Lemma tidy_thunk : forall t, tidy t = true -> legal t = true -> expand t = YFunc [] [] false -> t = YFunc [] [] false.
Proof.
  intros t T L E. inv_ty t T L E. injection E as E1 E2 E3. apply map_eq_nil in E1, E2. now subst.
Qed.

Lemma tidy_any : forall t, legal t = true -> (tidy t = true /\ expand t = YIface [] <-> IsEmptyInterface t = true).
Proof.
  intros t L. split.
  - intros [T E]. destruct t; cbn [expand] in E; try discriminate E.
    + injection E as E. apply map_eq_nil in E. now subst.
    + destruct (alias_any n t T L) as (H1 & H2 & ->). destruct n as [o a]. cbn in H1, H2. subst. reflexivity.
  - intros H. destruct t; cbn in H; try discriminate H.
    + destruct ms; [now cbn|discriminate].
    + destruct n as [[p|] a]; [discriminate|]. cbn [legal] in L. apply andb_true_iff in L as [L1 L2].
      destruct t as [ | | | | | | |[|? ?]| | | ]; try discriminate. cbn. auto.
Qed.

Definition fit (x t : ty) : Prop := identical x t /\ tidy t = true.

Lemma fit_string : forall t, legal t = true -> (fit string_t t <-> IsString t = true).
Proof.
  intros t L. split.
  - intros [E T]. unfold identical in E. cbn in E. symmetry in E. apply tidy_basic in E; auto. now subst.
  - destruct t as [[]| | | | | | | | | | ]; try discriminate. now split.
Qed.

Lemma fit_error : forall t, legal t = true -> (fit error_t t <-> IsErrorType t = true).
Proof.
  intros t L. split.
  - intros [E T]. unfold identical in E. cbn in E. symmetry in E. apply tidy_name in E; auto. now subst.
  - destruct t as [ | | | | | | | | |[[p|] n]| ]; try discriminate. cbn. intros H. apply beqs in H. subst. now split.
Qed.

Lemma fit_any : forall t, legal t = true -> (fit any_t t <-> IsEmptyInterface t = true).
Proof.
  intros t L. rewrite <- (tidy_any t L). unfold fit, identical. cbn [expand any_t map]. intuition congruence.
Qed.

Lemma fit_anys : forall t, legal t = true -> (fit anys t <-> IsEmptyInterfaceSlice t = true).
Proof.
  intros t L. split.
  - intros [E T]. unfold identical in E. symmetry in E. cbn in E. apply tidy_slice in E as (e & -> & T' & L' & E); auto.
    cbn. apply fit_any; [exact L'|]. split; [|exact T']. unfold identical. cbn. congruence.
  - destruct t; try discriminate. cbn. intros H. apply fit_any in H as [E T]; [|exact L].
    split; [|exact T]. unfold identical in *. cbn in *. congruence.
Qed.

Lemma fit_named : forall p n t, legal t = true -> (fit (YName (Some p, n)) t <-> is_named p n t = true).
Proof.
  intros p n t L. split.
  - intros [E T]. unfold identical in E. cbn in E. symmetry in E. apply tidy_name in E; auto. subst. cbn. now rewrite !beqs_refl.
  - destruct t as [ | | | | | | | | |[[q|] m]| ]; try discriminate. cbn. intros H. apply andb_true_iff in H as [H1 H2].
    apply beqs in H1, H2. subst. now split.
Qed.

Lemma fit_ptr : forall p n t, legal t = true -> (fit (YPtr (YName (Some p, n))) t <-> is_ptr_to p n t = true).
Proof.
  intros p n t L. split.
  - intros [E T]. unfold identical in E. cbn in E. symmetry in E. apply tidy_ptr in E as (e & -> & T' & L' & E); auto.
    cbn. apply fit_named; [exact L'|]. split; [|exact T']. unfold identical. cbn. congruence.
  - destruct t; try discriminate. cbn. intros H. apply fit_named in H as [E T]; [|exact L].
    split; [|exact T]. unfold identical in *. cbn in *. congruence.
Qed.

Lemma fit_bytes : forall t, legal t = true -> (fit bytes_t t <-> isbyteslice t = true).
Proof.
  intros t L. split.
  - intros [E T]. unfold identical in E. cbn in E. symmetry in E. apply tidy_slice in E as (e & -> & T' & L' & E); auto.
    apply tidy_basic in E; auto. now subst.
  - destruct t as [ | |[[]| | | | | | | | | | ]| | | | | | | | ]; try discriminate. now split.
Qed.

Lemma fit_thunk : forall t, legal t = true -> (fit (YFunc [] [] false) t <-> IsNiladicFunc t = true).
Proof.
  intros t L. split.
  - intros [E T]. unfold identical in E. cbn in E. symmetry in E. apply tidy_thunk in E; auto. now subst.
  - destruct t as [ | | | | | |[|] [|] v| | | | ]; try discriminate. intros _. cbn in L. destruct v; [discriminate|]. now split.
Qed.

Lemma fit_stringmap : forall t, legal t = true -> (fit (YMap string_t string_t) t <-> IsStringMap t = true).
Proof.
  intros t L. split.
  - intros [E T]. unfold identical in E. cbn in E. symmetry in E. apply tidy_map in E as (k & v & -> & (T1 & L1 & E1) & (T2 & L2 & E2)); auto.
    apply tidy_basic in E1, E2; auto. now subst.
  - destruct t as [ | | | |[[]| | | | | | | | | | ] [[]| | | | | | | | | | ]| | | | | | ]; try discriminate. now split.
Qed.

Lemma named_p_spec : forall p n t, legal t = true -> (fit (YName (Some p, n)) t <-> is_named_p p n t = Ok true).
Proof.
  intros p n t L. rewrite (fit_named p n t L). destruct t as [ | | | | | | | | |[[q|] m]| ]; cbn; try (split; discriminate).
  rewrite andb_comm. destruct (_ && _); split; congruence.
Qed.

Lemma fit_xmlptr : forall n t, legal t = true -> (fit (YPtr (named_t "encoding/xml" n)) t <->
  match t with YPtr e => is_named_p (B "encoding/xml") (B n) e | _ => Ok false end = Ok true).
Proof.
  intros n t L. unfold named_t. rewrite (fit_ptr _ _ t L). destruct t; cbn [is_ptr_to]; try (split; discriminate).
  rewrite <- (fit_named _ _ t) by exact L. rewrite (named_p_spec _ _ t) by exact L. reflexivity.
Qed.

Lemma fit_colmap : forall t, legal t = true ->
  ((exists p, vendored "github.com/frk/gosql/filter" p /\ fit (YMap string_t (YName (Some p, B "Column"))) t) <-> IsStringColumnMap t = Ok true).
Proof.
  intros t L. split.
  - intros (p & (pre & V) & E & T). unfold identical in E. cbn in E. symmetry in E.
    apply tidy_map in E as (k & v & -> & (T1 & L1 & E1) & (T2 & L2 & E2)); auto.
    apply tidy_basic in E1; auto. apply tidy_name in E2; auto. subst. cbn.
    f_equal. exact (proj2 (suffix_spec filterPath _) (ex_intro _ pre eq_refl)).
  - destruct t as [ | | | |[[]| | | | | | | | | | ] v| | | | | | ]; cbn -[ends_with bytes_eqb]; try discriminate.
    destruct v as [ | | | | | | | | |[[q|] m]| ]; cbn -[ends_with bytes_eqb]; try discriminate. intros H. injection H as H.
    apply andb_true_iff in H as [H1 H2]. apply beqs in H1. apply suffix_spec in H2 as (pre & ->). subst.
    exists (pre ++ filterPath). split; [now exists pre|]. now split.
Qed.

Lemma fit_info : forall t, legal t = true ->
  ((exists p, vendored "github.com/frk/gosql" p /\ fit (YPtr (YName (Some p, B "ErrorInfo"))) t) <->
   match t with
   | YPtr (YName n) => bind (pathOf n) (fun q => Ok (ends_with gosqlPath q && bytes_eqb (snd n) (B "ErrorInfo")))
   | _ => Ok false
   end = Ok true).
Proof.
  intros t L. split.
  - intros (p & (pre & V) & E & T). unfold identical in E. cbn in E. symmetry in E.
    apply tidy_ptr in E as (e & -> & T' & L' & E); auto. apply tidy_name in E; auto. subst. cbn. f_equal.
    rewrite andb_true_r. exact (proj2 (suffix_spec gosqlPath _) (ex_intro _ pre eq_refl)).
  - destruct t as [ |[ | | | | | | | | |[[q|] m]| ]| | | | | | | | | ]; cbn -[ends_with bytes_eqb]; try discriminate. intros H. injection H as H.
    apply andb_true_iff in H as [H2 H1]. apply beqs in H1. apply suffix_spec in H2 as (pre & ->). subst.
    exists (pre ++ gosqlPath). split; [now exists pre|]. now split.
Qed.

Lemma find_in : forall m s ms, NoDup (map fst ms) -> (find_method m ms = Some s <-> In (m, s) ms).
Proof.
  induction ms as [|[n s'] r IH]; intros N; cbn; [split; [discriminate|tauto]|].
  inversion N as [|? ? N1 N2]; subst. destruct (bytes_eqb n m) eqn:E.
  - apply beqs in E. subst. split; intros H; [injection H as ->; auto|]. destruct H as [H|H]; [congruence|].
    exfalso. apply N1. apply (in_map fst) in H. exact H.
  - rewrite IH by exact N2. split; [auto|]. intros [H|H]; [|exact H]. injection H as -> ->. rewrite beqs_refl in E. discriminate.
Qed.

Lemma filter_one : forall (m : bytes) (l : list (bytes * entry)) e, NoDup (map fst l) ->
  (map snd (filter (fun x => bytes_eqb (fst x) m) l) = [e] <-> In (m, e) l).
Proof.
  intros m l e N. split.
  - intros H. destruct (filter _ l) as [|[a b] r] eqn:F; [discriminate|]. cbn in H. injection H as -> H.
    assert (I : In (a, e) (filter (fun x => bytes_eqb (fst x) m) l)) by (rewrite F; now left).
    apply filter_In in I as [I E]. apply beqs in E. cbn in E. now subst.
  - induction l as [|[a b] r IH]; cbn; [tauto|]. inversion N as [|? ? N1 N2]; subst. cbn in N1. intros [H|H].
    + injection H as -> ->. rewrite beqs_refl. cbn. f_equal.
      destruct (filter _ r) as [|[a c] r'] eqn:F; [reflexivity|]. exfalso.
      assert (I : In (a, c) (filter (fun x => bytes_eqb (fst x) m) r)) by (rewrite F; now left).
      apply filter_In in I as [I E]. apply beqs in E. cbn in E. subst. apply N1. apply (in_map fst) in I. exact I.
    + destruct (bytes_eqb a m) eqn:E; [|now apply IH]. apply beqs in E. subst. exfalso. apply N1. apply (in_map fst) in H. exact H.
Qed.

Lemma NoDup_left : forall (A : Type) (a b : list A), NoDup (a ++ b) -> NoDup a.
Proof.
  induction a as [|x a IH]; intros b N; [constructor|]. inversion N as [|? ? N1 N2]; subst. constructor; [|eapply IH; eauto].
  intros I. apply N1. apply in_or_app. now left.
Qed.

Lemma own : forall w n d m s, w n = Some d -> legal_decl d ->
  (entries w (YName n) 0 m = [EMethod s] <-> find_method m (methoder d) = Some s).
Proof.
  intros w n d m s W (N & _ & _ & R & U). unfold entries. cbn [level flat_map]. rewrite app_nil_r.
  unfold members, target. cbn [resolve]. rewrite W.
  assert (N' : NoDup (map fst (map (fun m => (fst m, EMethod (snd m))) (d_methods d) ++ literal_members (d_under d)))).
  { rewrite map_app, map_map. rewrite map_app, map_map in N. exact N. }
  rewrite filter_one by exact N'. rewrite in_app_iff, in_map_iff. unfold methoder.
  assert (D : (exists x, (fst x, EMethod (snd x)) = (m, EMethod s) /\ In x (d_methods d)) <-> In (m, s) (d_methods d)).
  { split; [intros ([a b] & H & I); cbn in H; injection H as -> ->; exact I|intros I; now exists (m, s)]. }
  rewrite D. assert (N1 : NoDup (map fst (d_methods d))) by (rewrite map_app in N; now apply NoDup_left in N).
  destruct (d_under d) eqn:Eu; cbn [literal_members] in *; try (rewrite find_in by exact N1; cbn [In]; tauto).
  - rewrite (R _ eq_refl) in *. rewrite find_in.
    + cbn [In]. rewrite in_map_iff. split.
      * intros [[]|([a b] & H & I)]. cbn in H. injection H as -> ->. exact I.
      * intros I. right. now exists (m, s).
    + cbn [map app] in N'. rewrite map_map in N'. exact N'.
  - rewrite find_in by exact N1. split; [intros [H|H]; [exact H|]|auto]. apply in_map_iff in H as (x & H & _). discriminate.
Qed.

Lemma forall_in : forall (A : Type) (f : A -> bool) l x, forallb f l = true -> In x l -> f x = true.
Proof. intros A f l x H I. eapply forallb_forall in H; eauto. Qed.

Lemma own_legal : forall d m s, legal_decl d -> find_method m (methoder d) = Some s -> legal_sig s = true.
Proof.
  intros d m s (N & F & L & R & U) H.
  assert (G : forall ms, find_method m ms = Some s -> exists k, In (k, s) ms).
  { clear. induction ms as [|[a b] r IH]; cbn; [discriminate|]. destruct (bytes_eqb a m); intros H; [injection H as ->; eauto|].
    destruct (IH H) as (k & I). eauto. }
  apply G in H as (k & I). unfold methoder in I.
  assert (D : In (k, s) (d_methods d) -> legal_sig s = true).
  { intros J. rewrite Forall_forall in F. apply (F _ J). }
  destruct (d_under d) eqn:E; auto. cbn [legal] in L. eapply forall_in in L; [|exact I]. exact L.
Qed.

Lemma directly1 : forall w n d m s0, w n = Some d -> legal_decl d ->
  (directly w (YName n) [(m, s0)] <-> exists s, find_method m (methoder d) = Some s /\ legal_sig s = true /\ same_sig s0 s /\ tidy_sig s = true).
Proof.
  intros w n d m s0 W D. split.
  - intros H. destruct (H m s0 (or_introl eq_refl)) as (s & E & S1 & T). apply (own w n d m s W D) in E.
    exists s. repeat split; auto; try apply S1. eapply own_legal; eauto.
  - intros (s & E & L & S1 & T) m' s' [H|[]]. injection H as <- <-. exists s. split; [now apply (own w n d m s W D)|auto].
Qed.

Lemma directly_cons : forall w t m s i, directly w t ((m, s) :: i) <-> directly w t [(m, s)] /\ directly w t i.
Proof.
  intros. unfold directly. split.
  - intros H. split; intros m' s' I; apply H; [destruct I as [I|[]]; now left|now right].
  - intros [H1 H2] m' s' [I|I]; [apply H1; now left|now apply H2].
Qed.

Lemma directly_nil : forall w t, directly w t [].
Proof. intros w t m s []. Qed.

Lemma sig_spec : forall ps0 rs0 v0 s, legal_sig s = true ->
  (same_sig (ps0, rs0, v0) s /\ tidy_sig s = true <->
   Forall2 (fun x t => legal t = true /\ fit x t) ps0 (sparams s) /\ Forall2 (fun x t => legal t = true /\ fit x t) rs0 (sresults s) /\ v0 = svariadic s).
Proof.
  assert (P : forall xs ts, forallb legal ts = true ->
    (Forall2 identical xs ts /\ forallb tidy ts = true <-> Forall2 (fun x t => legal t = true /\ fit x t) xs ts)).
  { induction xs as [|x xs IH]; intros [|t ts] L.
    - split; [constructor|split; constructor].
    - split; [intros [H _]; inversion H|intros H; inversion H].
    - split; [intros [H _]; inversion H|intros H; inversion H].
    - cbn [forallb] in *. apply andb_true_iff in L as [L1 L2]. specialize (IH ts L2). rewrite andb_true_iff. unfold fit. split.
      + intros (H & T1 & T2). inversion H; subst. constructor; [auto|]. now apply IH.
      + intros H. inversion H as [|? ? ? ? (H1 & H2 & H3) H4]; subst. apply IH in H4 as [H4 H5]. repeat split; auto. }
  intros ps0 rs0 v0 s L. unfold legal_sig in L. apply andb_true_iff in L as [L _]. apply andb_true_iff in L as [L1 L2].
  unfold same_sig, tidy_sig. rewrite andb_true_iff. rewrite <- (P ps0 _ L1), <- (P rs0 _ L2). cbn. tauto.
Qed.

Lemma Forall2_nil0 : forall (A C : Type) (R : A -> C -> Prop) l, Forall2 R [] l <-> l = [].
Proof. intros. split; intros H; [now inversion H|subst; constructor]. Qed.

Lemma Forall2_cons0 : forall (A C : Type) (R : A -> C -> Prop) x xs l, Forall2 R (x :: xs) l <-> exists y ys, l = y :: ys /\ R x y /\ Forall2 R xs ys.
Proof. intros. split; [intros H; inversion H; subst; eauto|intros (y & ys & -> & H1 & H2); now constructor]. Qed.

(** A test of a method's signature says what the interface asks for. *)
Definition test_ok (test : sig -> res bool) (s0 : sig) : Prop :=
  forall s, legal_sig s = true -> (test s = Ok true <-> same_sig s0 s /\ tidy_sig s = true).

Lemma method_spec : forall w n d m s0 test, w n = Some d -> legal_decl d -> test_ok test s0 ->
  (match find_method m (methoder d) with Some s => test s | None => Ok false end = Ok true <-> directly w (YName n) [(m, s0)]).
Proof.
  intros w n d m s0 test W D T. rewrite (directly1 w n d m s0 W D). destruct (find_method m (methoder d)) as [s|] eqn:E.
  - pose proof (own_legal d m s D E) as L. rewrite (T s L). split; [intros []; exists s; auto|]. intros (s' & H & _ & H'). injection H as <-. exact H'.
  - split; [discriminate|]. intros (s & H & _). discriminate.
Qed.

Lemma andr_ok : forall a b, andr a b = Ok true <-> a = Ok true /\ b = Ok true.
Proof. intros [[]| | ] b; cbn; split; intros H; try discriminate; try tauto; destruct H; discriminate. Qed.

Lemma ok_inj : forall b : bool, @Ok bool b = Ok true <-> b = true.
Proof. intros. split; congruence. Qed.

Lemma legal_split : forall ps rs v, legal_sig (ps, rs, v) = true -> Forall (fun t => legal t = true) ps /\ Forall (fun t => legal t = true) rs /\ variadic_ok ps v = true.
Proof.
  intros ps rs v L. unfold legal_sig in L. cbn in L. apply andb_true_iff in L as [L L3]. apply andb_true_iff in L as [L1 L2].
  rewrite forallb_forall in L1, L2. rewrite !Forall_forall. auto.
Qed.

Lemma f2_0 : forall (A C : Type) (R : A -> C -> Prop), Forall2 R [] [] <-> True.
Proof. intros. split; constructor. Qed.

Lemma f2_s : forall (A C : Type) (R : A -> C -> Prop) x xs y ys, Forall2 R (x :: xs) (y :: ys) <-> R x y /\ Forall2 R xs ys.
Proof. intros. split; [intros H; inversion H; subst; auto|intros []; now constructor]. Qed.

Lemma f2_l : forall (A C : Type) (R : A -> C -> Prop) x xs, Forall2 R (x :: xs) [] <-> False.
Proof. intros. split; [intros H; inversion H|tauto]. Qed.

Lemma f2_r : forall (A C : Type) (R : A -> C -> Prop) y ys, Forall2 R [] (y :: ys) <-> False.
Proof. intros. split; [intros H; inversion H|tauto]. Qed.

Lemma no_true : @Ok bool false = Ok true <-> False.
Proof. split; [discriminate|tauto]. Qed.

Ltac fits :=
  repeat first
    [ rewrite andr_ok | rewrite ok_inj | rewrite andb_true_iff
    | rewrite fit_string by assumption | rewrite fit_error by assumption | rewrite fit_any by assumption
    | rewrite fit_anys by assumption | rewrite fit_bytes by assumption | rewrite fit_thunk by assumption
    | rewrite fit_stringmap by assumption | rewrite fit_xmlptr by assumption
    | rewrite fit_ptr by assumption | rewrite fit_named by assumption ].

(** By cases on the lengths of the lists of parameters and results. *)
Ltac sig_cases :=
  let ps := fresh "ps" in let rs := fresh "rs" in let v := fresh "v" in let L := fresh "L" in
  intros [[ps rs] v] L; rewrite (sig_spec _ _ _ _ L);
  cbn [sparams sresults svariadic fst snd];
  destruct ps as [|? [|? [|? [|? ?]]]]; destruct rs as [|? [|? [|? ?]]];
  repeat first [rewrite f2_0 | rewrite f2_s | rewrite f2_l | rewrite f2_r];
  try (rewrite ?no_true; tauto);
  apply legal_split in L; destruct L as (?L1 & ?L2 & ?L3);
  repeat match goal with
         | H : Forall _ (_ :: _) |- _ => inversion H; clear H; subst
         | H : Forall _ [] |- _ => clear H
         end.

Lemma scan_test : test_ok (fun s => match s with ([p], [r], _) => Ok (IsEmptyInterface p && IsErrorType r) | _ => Ok false end)
  ([any_t], [error_t], false).
Proof. sig_cases. fits. destruct v; [|tauto]. destruct t; try discriminate. cbn. intuition discriminate. Qed.

Ltac not_variadic :=
  match goal with |- context [false = ?v] => destruct v; [|tauto] end;
  match goal with
  | H : variadic_ok _ true = true |- _ =>
      cbn in H; try discriminate H;
      match type of H with is_slice ?t = true => destruct t; try discriminate H end
  end; cbn; intuition discriminate.

Lemma value_test : test_ok (fun s => match s with ([], [v; r], _) => Ok (IsSqlDriverValue v && IsErrorType r) | _ => Ok false end)
  ([], [named_t "database/sql/driver" "Value"; error_t], false).
Proof. sig_cases. unfold named_t. fits. not_variadic. Qed.

Lemma jsonm_test : test_ok (fun s => match s with ([], [b; r], _) => Ok (isbyteslice b && IsErrorType r) | _ => Ok false end)
  ([], [bytes_t; error_t], false).
Proof. sig_cases. fits. not_variadic. Qed.

Lemma jsonu_test : forall s, legal_sig s = true ->
  (match s with ([b], [r], _) => Ok (isbyteslice b && IsErrorType r) | _ => Ok false end = Ok true <->
   same_sig ([bytes_t], [error_t], svariadic s) s /\ tidy_sig s = true).
Proof. sig_cases. fits. tauto. Qed.

Lemma xmlm_test : test_ok (fun s => match s with ([e; x], [r], _) => andr (isxmlencoder e) (andr (isxmlstartelem x) (Ok (IsErrorType r))) | _ => Ok false end)
  ([YPtr (named_t "encoding/xml" "Encoder"); named_t "encoding/xml" "StartElement"], [error_t], false).
Proof.
  sig_cases. unfold isxmlstartelem. rewrite (fit_xmlptr "Encoder") by assumption. unfold named_t.
  rewrite (named_p_spec _ _ t0) by assumption. fits. not_variadic.
Qed.

Lemma xmlu_test : test_ok (fun s => match s with ([e; x], [r], _) => andr (isxmldecoder e) (andr (isxmlstartelem x) (Ok (IsErrorType r))) | _ => Ok false end)
  ([YPtr (named_t "encoding/xml" "Decoder"); named_t "encoding/xml" "StartElement"], [error_t], false).
Proof.
  sig_cases. unfold isxmlstartelem. rewrite (fit_xmlptr "Decoder") by assumption. unfold named_t.
  rewrite (named_p_spec _ _ t0) by assumption. fits. not_variadic.
Qed.

Lemma after_test : test_ok (fun s => match s with ([], [], _) => Ok true | _ => Ok false end) ([], [], false).
Proof. sig_cases. not_variadic. Qed.

Lemma errh_test : test_ok (fun s => match s with ([p], [r], _) => Ok (IsErrorType p && IsErrorType r) | _ => Ok false end) ([error_t], [error_t], false).
Proof. sig_cases. fits. not_variadic. Qed.

Lemma scan_spec : forall cases ms seen0 out, NoDup (map fst ms) ->
  (scan_methods cases ms seen0 = Ok (Some out) <->
   (forall m s c, In (m, s) ms -> find (fun c => bytes_eqb m (fst c)) cases = Some c -> snd c s = Ok true) /\
   out = rev (map fst (filter (fun e => existsb (fun c => bytes_eqb (fst e) (fst c)) cases) ms)) ++ seen0).
Proof.
  intros cases ms. induction ms as [|[m s] r IH]; intros seen0 out N; cbn [scan_methods map filter In].
  - cbn. split; [intros H; injection H as <-; split; [tauto|reflexivity]|intros [_ ->]; reflexivity].
  - inversion N as [|? ? N1 N2]; subst.
    assert (X : existsb (fun c => bytes_eqb (fst (m, s)) (fst c)) cases = match find (fun c => bytes_eqb m (fst c)) cases with Some _ => true | None => false end).
    { clear. cbn. induction cases as [|[k t] cs IH]; cbn; [reflexivity|]. destruct (bytes_eqb m k); cbn; auto. }
    rewrite X. destruct (find _ cases) as [[k test]|] eqn:F.
    + destruct (test s) as [[]| | ] eqn:T; cbn [bind].
      * rewrite IH by exact N2. cbn [map rev]. rewrite <- app_assoc. cbn [app]. split.
        -- intros [H ->]. split; [|reflexivity]. intros m' s' c [I|I] F'; [|eapply H; eauto]. injection I as <- <-. rewrite F in F'. injection F' as <-. exact T.
        -- intros [H ->]. split; [|reflexivity]. intros m' s' c I F'. eapply H; eauto.
      * split; [discriminate|]. intros [H _]. specialize (H m s _ (or_introl eq_refl) F). cbn in H. congruence.
      * split; [discriminate|]. intros [H _]. specialize (H m s _ (or_introl eq_refl) F). cbn in H. congruence.
      * split; [discriminate|]. intros [H _]. specialize (H m s _ (or_introl eq_refl) F). cbn in H. congruence.
    + rewrite IH by exact N2. split; intros [H ->]; (split; [|reflexivity]).
      * intros m' s' c [I|I] F'; [|eapply H; eauto]. injection I as <- <-. congruence.
      * intros m' s' c I F'. eapply H; eauto.
Qed.

Lemma has_all_spec : forall cases ms, NoDup (map fst ms) -> NoDup (map fst cases) ->
  (has_all cases ms = Ok true <-> forall m test, In (m, test) cases -> exists s, find_method m ms = Some s /\ test s = Ok true).
Proof.
  intros cases ms N NC. unfold has_all.
  assert (FI : forall m test, In (m, test) cases -> find (fun c => bytes_eqb m (fst c)) cases = Some (m, test)).
  { clear - NC. induction cases as [|[k t] cs IH]; cbn; [tauto|]. inversion NC as [|? ? N1 N2]; subst. intros m test [H|H].
    - injection H as -> ->. now rewrite beqs_refl.
    - destruct (bytes_eqb m k) eqn:E; [|now apply IH]. apply beqs in E. subst. exfalso. apply N1. apply (in_map fst) in H. exact H. }
  assert (FO : forall m c, find (fun c => bytes_eqb m (fst c)) cases = Some c -> In c cases /\ fst c = m).
  { intros m c H. apply find_some in H as [H1 H2]. apply beqs in H2. auto. }
  split.
  - intros H. destruct (scan_methods cases ms []) as [[seen|]| | ] eqn:E; try discriminate. injection H as H.
    apply scan_spec in E as [E ->]; [|exact N]. rewrite forallb_forall in H. intros m test I.
    specialize (H _ I). apply existsb_exists in H as (x & J & H). apply beqs in H. cbn in H. subst x.
    rewrite app_nil_r in J. apply in_rev, in_map_iff in J as ([m' s] & J1 & J2). cbn in J1. subst m'.
    apply filter_In in J2 as [J2 _]. exists s. split; [now apply find_in|]. apply (E m s (m, test) J2 (FI _ _ I)).
  - intros H.
    assert (E : scan_methods cases ms [] = Ok (Some (rev (map fst (filter (fun e => existsb (fun c => bytes_eqb (fst e) (fst c)) cases) ms)) ++ []))).
    { apply scan_spec; [exact N|]. split; [|reflexivity]. intros m s [k test] I F. apply FO in F as [F1 F2]. cbn in F2. subst k.
      destruct (H _ _ F1) as (s' & H1 & H2). apply find_in in I; [|exact N]. rewrite H1 in I. injection I as ->. exact H2. }
    rewrite E. cbn [bind]. f_equal. apply forallb_forall. intros [m test] I. destruct (H _ _ I) as (s & H1 & _).
    apply existsb_exists. exists m. split; [|apply beqs_refl]. rewrite app_nil_r, <- in_rev. apply in_map_iff. exists (m, s). split; [reflexivity|].
    apply filter_In. apply find_in in H1; [|exact N]. split; [exact H1|]. apply existsb_exists. exists (m, test). split; [exact I|apply beqs_refl].
Qed.

Lemma own_nodup : forall d, legal_decl d -> NoDup (map fst (methoder d)).
Proof.
  intros d (N & _ & _ & R & _). unfold methoder. rewrite map_app in N. destruct (d_under d) eqn:E; try (now apply NoDup_left in N).
  rewrite (R _ eq_refl) in N. cbn in N. rewrite !map_map in N. exact N.
Qed.

Lemma all_spec : forall w n d cases (i : list (bytes * sig)), w n = Some d -> legal_decl d -> NoDup (map fst cases) ->
  Forall2 (fun c e => fst c = fst e /\ test_ok (snd c) (snd e)) cases i ->
  (has_all cases (methoder d) = Ok true <-> directly w (YName n) i).
Proof.
  intros w n d cases i W D NC F. rewrite has_all_spec by (auto using own_nodup). clear NC.
  induction F as [|[m test] [m' s0] cs i [E T] F IH].
  - split; [intros _; apply directly_nil|intros _ m test []].
  - cbn in E, T. subst m'. rewrite directly_cons, <- (method_spec w n d m s0 test W D T). split.
    + intros H. split.
      * destruct (H m test (or_introl eq_refl)) as (s & H1 & H2). now rewrite H1.
      * apply IH. intros m' test' I. apply H. now right.
    + intros [H1 H2] m' test' [I|I]; [|now apply IH]. injection I as <- <-.
      destruct (find_method m (methoder d)) as [s|]; [eauto|discriminate].
Qed.

Ltac variadic_only :=
  match goal with |- context [true = ?v] => destruct v; fits; intuition congruence end.

Lemma conn_tests : Forall2 (fun c e => fst c = fst e /\ test_ok (snd c) (snd e)) conn_cases
  [(B "Exec", ([string_t; anys], [sql_result; error_t], true));
   (B "Query", ([string_t; anys], [sql_rows; error_t], true));
   (B "QueryRow", ([string_t; anys], [sql_row], true));
   (B "ExecContext", ([context_t; string_t; anys], [sql_result; error_t], true));
   (B "QueryContext", ([context_t; string_t; anys], [sql_rows; error_t], true));
   (B "QueryRowContext", ([context_t; string_t; anys], [sql_row], true))].
Proof.
  unfold sql_result, sql_rows, sql_row, context_t, named_t, conn_cases.
  repeat (constructor; [split; [reflexivity|]; cbn [snd]; sig_cases;
    unfold IsSqlResult, IsSqlRowsPtr, IsSqlRowPtr, IsContextType; destruct v; fits; rewrite ?no_true; intuition congruence|]).
  constructor.
Qed.

Lemma init_test : test_ok (fun s => match s with ([m; c], [], _) => Ok (IsStringMap m && IsString c) | _ => Ok false end) ([YMap string_t string_t; string_t], [], false).
Proof. sig_cases. fits. not_variadic. Qed.

Lemma col_test : test_ok (fun s => match s with ([c; o; v], [], _) => Ok (IsString c && IsString o && IsEmptyInterface v) | _ => Ok false end) ([string_t; string_t; any_t], [], false).
Proof. sig_cases. fits. not_variadic. Qed.

Lemma nest_test : test_ok (fun s => match s with ([f], [], _) => Ok (IsNiladicFunc f) | _ => Ok false end) ([YFunc [] [] false], [], false).
Proof. sig_cases. fits. not_variadic. Qed.

Lemma init2_test : forall s, legal_sig s = true ->
  (match s with ([m; c], [], _) => andr (IsStringColumnMap m) (Ok (IsString c)) | _ => Ok false end = Ok true <->
   exists p, vendored "github.com/frk/gosql/filter" p /\ same_sig ([YMap string_t (YName (Some p, B "Column")); string_t], [], false) s /\ tidy_sig s = true).
Proof.
  intros s L. split.
  - destruct s as [[[|m [|c [|? ?]]] [|? ?]] v]; try discriminate. rewrite andr_ok, ok_inj. intros [H1 H2].
    pose proof (legal_split _ _ _ L) as (L1 & _ & L3). inversion L1 as [|? ? Lm Lc']; subst. inversion Lc' as [|? ? Lc _]; subst.
    apply fit_colmap in H1 as (p & V & F1); [|exact Lm]. exists p. split; [exact V|]. rewrite (sig_spec _ _ _ _ L). cbn [sparams sresults svariadic fst snd].
    rewrite !f2_s, !f2_0. apply fit_string in H2; [|exact Lc].
    destruct v; [|tauto]. destruct c; try discriminate. destruct H2 as [H2 _]. discriminate H2.
  - intros (p & V & H). apply (sig_spec _ _ _ _ L) in H as (H1 & H2 & H3).
    destruct s as [[ps rs] v]. cbn [sparams sresults svariadic fst snd] in *.
    inversion H2; subst. inversion H1 as [|? ? ? ? [Lm Fm] H1']; subst. inversion H1' as [|? ? ? ? [Lc Fc] H1'']; subst. inversion H1''; subst.
    rewrite andr_ok, ok_inj. split; [apply fit_colmap; eauto|now apply fit_string].
Qed.

Lemma method_ex : forall w n d m (P : bytes -> Prop) (s0 : bytes -> sig) test, w n = Some d -> legal_decl d ->
  (forall s, legal_sig s = true -> (test s = Ok true <-> exists p, P p /\ same_sig (s0 p) s /\ tidy_sig s = true)) ->
  ((exists s, find_method m (methoder d) = Some s /\ test s = Ok true) <-> exists p, P p /\ directly w (YName n) [(m, s0 p)]).
Proof.
  intros w n d m P s0 test W D T. split.
  - intros (s & E & H). pose proof (own_legal d m s D E) as L. apply (T s L) in H as (p & V & H1 & H2).
    exists p. split; [exact V|]. apply (directly1 w n d m _ W D). eauto.
  - intros (p & V & H). apply (directly1 w n d m _ W D) in H as (s & E & L & H). exists s. split; [exact E|]. apply T; eauto.
Qed.

Lemma column_main : forall w n d, w n = Some d -> legal_decl d ->
  (ImplementsScanner d = Ok true <-> directly w (YName n) Scanner) /\
  (ImplementsValuer d = Ok true <-> directly w (YName n) Valuer) /\
  (ImplementsJSONMarshaler d = Ok true <-> directly w (YName n) JSONMarshaler) /\
  (ImplementsJSONUnmarshaler d = Ok true <->
     directly w (YName n) JSONUnmarshaler \/ directly w (YName n) [(B "UnmarshalJSON", ([bytes_t], [error_t], true))]) /\
  (ImplementsXMLMarshaler d = Ok true <-> directly w (YName n) XMLMarshaler) /\
  (ImplementsXMLUnmarshaler d = Ok true <-> directly w (YName n) XMLUnmarshaler).
Proof.
  intros w n d W D. repeat match goal with |- _ /\ _ => split end.
  - apply (method_spec w n d (B "Scan") _ _ W D scan_test).
  - apply (method_spec w n d (B "Value") _ _ W D value_test).
  - apply (method_spec w n d (B "MarshalJSON") _ _ W D jsonm_test).
  - unfold ImplementsJSONUnmarshaler, IsJSONUnmarshaler, JSONUnmarshaler. rewrite !(directly1 w n d _ _ W D).
    destruct (find_method (B "UnmarshalJSON") (methoder d)) as [s|] eqn:E.
    + pose proof (own_legal d _ s D E) as L. rewrite (jsonu_test s L). split.
      * intros [H1 H2]. destruct s as [[ps rs] [|]]; cbn [svariadic snd] in H1; [right|left]; eauto.
      * intros [(s' & H & _ & H1 & H2)|(s' & H & _ & H1 & H2)]; injection H as <-; (split; [|exact H2]);
          destruct s as [[ps rs] v]; destruct H1 as (A1 & A2 & A3); cbn in A3; subst v; repeat split; assumption.
    + split; [discriminate|]. intros [(s & H & _)|(s & H & _)]; discriminate.
  - apply (method_spec w n d (B "MarshalXML") _ _ W D xmlm_test).
  - apply (method_spec w n d (B "UnmarshalXML") _ _ W D xmlu_test).
Qed.

Lemma C101_column_proof : forall w n d, w n = Some d -> legal_decl d ->
  (ImplementsScanner d = Ok true <-> directly w (YName n) Scanner) /\
  (ImplementsValuer d = Ok true <-> directly w (YName n) Valuer) /\
  (ImplementsJSONMarshaler d = Ok true <-> directly w (YName n) JSONMarshaler) /\
  (ImplementsJSONUnmarshaler d = Ok true <->
     directly w (YName n) JSONUnmarshaler \/ directly w (YName n) [(B "UnmarshalJSON", ([bytes_t], [error_t], true))]) /\
  (ImplementsXMLMarshaler d = Ok true <-> directly w (YName n) XMLMarshaler) /\
  (ImplementsXMLUnmarshaler d = Ok true <-> directly w (YName n) XMLUnmarshaler).
Proof. exact column_main. Qed.

Definition no_interface (d : decl) : Prop := forall ms, d_under d <> YIface ms.

Lemma methoder_plain : forall d, no_interface d -> methoder d = d_methods d.
Proof. intros d H. unfold methoder. destruct (d_under d) eqn:E; try reflexivity. exfalso. exact (H _ E). Qed.

Lemma handlers_main : forall w n d, w n = Some d -> legal_decl d -> no_interface d ->
  (ImplementsAfterScanner d = Ok true <-> directly w (YName n) AfterScanner) /\
  (ImplementsErrorHandler d = Ok true <-> directly w (YName n) ErrorHandler) /\
  (ImplementsErrorInfoHandler d = Ok true <->
     exists p, vendored "github.com/frk/gosql" p /\ directly w (YName n) (ErrorInfoHandler p)).
Proof.
  intros w n d W D NI. unfold ImplementsAfterScanner, ImplementsErrorHandler, ImplementsErrorInfoHandler. rewrite <- (methoder_plain d NI).
  split; [|split].
  - apply (method_spec w n d (B "AfterScan") _ _ W D after_test).
  - apply (method_spec w n d (B "HandleError") _ _ W D errh_test).
  - unfold ErrorInfoHandler.
    set (test := fun s : sig => match s with
      | ([p], [r], _) => if IsErrorType r then
        match p with
        | YPtr (YName n) => bind (pathOf n) (fun q => Ok (ends_with gosqlPath q && bytes_eqb (snd n) (B "ErrorInfo")))
        | _ => Ok false
        end else Ok false
      | _ => Ok false end).
    rewrite <- (method_ex w n d (B "HandleErrorInfo") (vendored "github.com/frk/gosql") (fun p => ([YPtr (YName (Some p, B "ErrorInfo"))], [error_t], false)) test W D).
    + change (match find_method (B "HandleErrorInfo") (methoder d) with Some s => test s | None => Ok false end = Ok true <->
        (exists s, find_method (B "HandleErrorInfo") (methoder d) = Some s /\ test s = Ok true)).
      destruct (find_method _ _) as [s|]; split; intros H; try discriminate; eauto.
      * destruct H as (s' & E & H). injection E as <-. exact H.
      * destruct H as (s' & E & H). discriminate E.
    + intros s L. unfold test. split.
      * destruct s as [[[|p [|? ?]] [|r [|? ?]]] v]; try discriminate. destruct (IsErrorType r) eqn:Er; [|discriminate]. intros H.
        pose proof (legal_split _ _ _ L) as (L1 & L2 & L3). inversion L1 as [|? ? Lp _]; subst. inversion L2 as [|? ? Lr _]; subst.
        destruct (proj2 (fit_info p Lp) H) as (q & V & F). exists q. split; [exact V|]. rewrite (sig_spec _ _ _ _ L). cbn [sparams sresults svariadic fst snd].
        rewrite !f2_s, !f2_0. apply fit_error in Er; [|exact Lr]. destruct v; [|tauto]. destruct p; try discriminate H. discriminate L3.
      * intros (q & V & H). apply (sig_spec _ _ _ _ L) in H as (H1 & H2 & H3).
        destruct s as [[ps rs] v]. cbn [sparams sresults svariadic fst snd] in *.
        inversion H1 as [|? ? ? ? [Lp Fp] H1']; subst. inversion H1'; subst. inversion H2 as [|? ? ? ? [Lr Fr] H2']; subst. inversion H2'; subst.
        apply fit_error in Fr; [|exact Lr]. rewrite Fr. apply fit_info; eauto.
Qed.

Lemma C101_handlers_proof : forall w n d, w n = Some d -> legal_decl d -> no_interface d ->
  (ImplementsAfterScanner d = Ok true <-> directly w (YName n) AfterScanner) /\
  (ImplementsErrorHandler d = Ok true <-> directly w (YName n) ErrorHandler) /\
  (ImplementsErrorInfoHandler d = Ok true <->
     exists p, vendored "github.com/frk/gosql" p /\ directly w (YName n) (ErrorInfoHandler p)).
Proof. exact handlers_main. Qed.

Lemma directly_perm : forall w t i j, incl j i -> directly w t i -> directly w t j.
Proof. intros w t i j I H m s J. apply H, I, J. Qed.

Lemma conn_main : forall w n d, w n = Some d -> legal_decl d ->
  (ImplementsGosqlConn d = Ok true <-> directly w (YName n) Conn).
Proof.
  intros w n d W D. unfold ImplementsGosqlConn.
  refine (iff_trans (all_spec w n d conn_cases _ W D _ conn_tests) _).
  - unfold conn_cases. cbn [map fst]. repeat constructor; cbn; intuition discriminate.
  - split; apply directly_perm; intros x I; cbn in *; tauto.
Qed.

Lemma C101_conn_proof : forall w n d, w n = Some d -> legal_decl d ->
  (ImplementsGosqlConn d = Ok true <-> directly w (YName n) Conn).
Proof. exact conn_main. Qed.

Lemma ctor_main : forall w n d, w n = Some d -> legal_decl d ->
  (ImplementsGosqlFilterConstructor d = Ok true <->
   exists p, vendored "github.com/frk/gosql/filter" p /\ directly w (YName n) (FilterConstructor ++ InitV2 p)).
Proof.
  intros w n d W D. unfold ImplementsGosqlFilterConstructor. rewrite has_all_spec; [|now apply own_nodup|].
  2: { unfold ctor_cases. cbn [map fst]. repeat constructor; cbn; intuition discriminate. }
  pose proof (method_ex w n d (B "InitV2") (vendored "github.com/frk/gosql/filter")
    (fun p => ([YMap string_t (YName (Some p, B "Column")); string_t], [], false)) _ W D init2_test) as M2.
  assert (M : forall m s0 test, test_ok test s0 -> ((exists s, find_method m (methoder d) = Some s /\ test s = Ok true) <-> directly w (YName n) [(m, s0)])).
  { intros m s0 test T. rewrite <- (method_spec w n d m s0 test W D T). destruct (find_method m (methoder d)) as [s|].
    - split; [intros (s' & E & H); congruence|eauto].
    - split; [intros (s' & E & H)|intros H]; discriminate. }
  unfold FilterConstructor, InitV2. cbn [app]. split.
  - intros H. destruct (proj1 M2 (H _ _ (or_intror (or_introl eq_refl)))) as (p & V & H2). exists p. split; [exact V|].
    rewrite (directly_cons _ _ _ _ (_ :: _ :: _ :: _)), (directly_cons _ _ _ _ (_ :: _ :: _)), (directly_cons _ _ _ _ (_ :: _)), (directly_cons _ _ _ _ [_]).
    repeat split.
    + apply (M _ _ _ init_test). apply H. now left.
    + apply (M _ _ _ col_test). apply H. now right; right; left.
    + apply (M _ _ _ nest_test). apply H. now right; right; right; left.
    + apply (M _ _ _ nest_test). apply H. now right; right; right; right; left.
    + exact H2.
  - intros (p & V & H) m test I.
    rewrite (directly_cons _ _ _ _ (_ :: _ :: _ :: _)), (directly_cons _ _ _ _ (_ :: _ :: _)), (directly_cons _ _ _ _ (_ :: _)), (directly_cons _ _ _ _ [_]) in H.
    destruct H as (H1 & H2 & H3 & H4 & H5). destruct I as [I|[I|[I|[I|[I|[]]]]]]; injection I as <- <-.
    + exact (proj2 (M _ _ _ init_test) H1).
    + apply M2. eauto.
    + exact (proj2 (M _ _ _ col_test) H2).
    + exact (proj2 (M _ _ _ nest_test) H3).
    + exact (proj2 (M _ _ _ nest_test) H4).
Qed.

Lemma C101_constructor_proof : forall w n d, w n = Some d -> legal_decl d ->
  (ImplementsGosqlFilterConstructor d = Ok true <->
   exists p, vendored "github.com/frk/gosql/filter" p /\ directly w (YName n) (FilterConstructor ++ InitV2 p)).
Proof. exact ctor_main. Qed.

(** What is declared directly is implemented. *)
Lemma direct_main : forall w t i, directly w t i -> implements w t i.
Proof.
  intros w t i H m s I. destruct (H m s I) as (s' & E & S1 & _). exists s'. split; [|exact S1].
  exists O. split; [exact E|]. intros d' L. lia.
Qed.

Lemma C101_sound_proof : forall w t i, directly w t i -> implements w t i.
Proof. exact direct_main. Qed.

Definition at_path (path : string) (n : string) : tyname := (Some (B path), B n).

Definition tyname_eqb (a b : tyname) : bool :=
  match fst a, fst b with
  | Some p, Some q => bytes_eqb p q && bytes_eqb (snd a) (snd b)
  | None, None => bytes_eqb (snd a) (snd b)
  | _, _ => false
  end.

Fixpoint declared (l : list (tyname * decl)) : world :=
  fun n => match l with [] => None | (m, d) :: r => if tyname_eqb n m then Some d else declared r n end.

(** type T struct { sql.NullString; *sql.DB; After }, where After has AfterScan *)
Definition null_string := MkDecl (YStruct [(B "String", false, string_t); (B "Valid", false, YBasic (KBasicOther 1))]) (Scanner ++ Valuer).

Definition sql_db := MkDecl (YStruct [(B "dsn", false, string_t)]) Conn.

Definition after := MkDecl (YStruct []) AfterScanner.

Definition embedding := MkDecl (YStruct [(B "NullString", true, named_t "database/sql" "NullString");
  (B "DB", true, YPtr (named_t "database/sql" "DB")); (B "After", true, named_t "p" "After")]) [].

Definition ex_world : world := declared
  [(at_path "p" "T", embedding); (at_path "database/sql" "NullString", null_string);
   (at_path "database/sql" "DB", sql_db); (at_path "p" "After", after)].

Ltac nodups := repeat constructor; cbn; intuition discriminate.

Ltac legal_tac := split; [nodups|split; [repeat constructor|split; [reflexivity|split; [intros ms H; first [discriminate H|reflexivity]|exact Logic.I]]]].

Lemma pick : forall w t m s i, In (m, s) i -> (exists d, entries w t d m = [EMethod s] /\ forall d', (d' < d)%nat -> entries w t d' m = []) ->
  exists s', selects w t m s' /\ same_sig s s'.
Proof.
  intros w t m s i _ H. exists s. split; [exact H|]. assert (R : forall l, Forall2 identical l l) by (induction l; constructor; [reflexivity|assumption]).
  repeat split; apply R.
Qed.

Ltac promoted :=
  intros m s I; apply (pick _ _ m s _ I); exists 1%nat; cbn in I;
  repeat match goal with H : _ \/ _ |- _ => destruct H as [H|H] end; try contradiction;
  injection I as <- <-; (split; [vm_compute; reflexivity|]); (intros [|d'] L; [vm_compute; reflexivity|lia]).

Lemma promoted_main : exists w n d, w n = Some d /\ legal_decl d /\
  implements w (YName n) Scanner /\ ImplementsScanner d = Ok false /\
  implements w (YName n) Valuer /\ ImplementsValuer d = Ok false /\
  implements w (YName n) AfterScanner /\ ImplementsAfterScanner d = Ok false /\
  implements w (YName n) Conn /\ ImplementsGosqlConn d = Ok false.
Proof.
  exists ex_world, (at_path "p" "T"), embedding. split; [reflexivity|]. split; [legal_tac|].
  repeat match goal with |- _ /\ _ => split end; try reflexivity; promoted.
Qed.

Lemma C101_promoted_refuted_proof : exists w n d, w n = Some d /\ legal_decl d /\
  implements w (YName n) Scanner /\ ImplementsScanner d = Ok false /\
  implements w (YName n) Valuer /\ ImplementsValuer d = Ok false /\
  implements w (YName n) AfterScanner /\ ImplementsAfterScanner d = Ok false /\
  implements w (YName n) Conn /\ ImplementsGosqlConn d = Ok false.
Proof. exact promoted_main. Qed.

(** type Any = interface{}; func (t *T) Scan(src p.Any) error *)
Lemma alias_main : exists w n d, w n = Some d /\ legal_decl d /\
  implements w (YName n) Scanner /\ ImplementsScanner d = Ok false.
Proof.
  set (d := MkDecl (YStruct []) [(B "Scan", ([YAlias (at_path "p" "Any") any_t], [error_t], false))]).
  exists (declared [(at_path "p" "T", d)]), (at_path "p" "T"), d. split; [reflexivity|]. split; [legal_tac|]. split; [|reflexivity].
  intros m s [H|[]]. injection H as <- <-. eexists. split.
  - exists O. split; [vm_compute; reflexivity|]. intros d' L. lia.
  - repeat split; repeat constructor.
Qed.

Lemma C101_alias_refuted_proof : exists w n d, w n = Some d /\ legal_decl d /\
  implements w (YName n) Scanner /\ ImplementsScanner d = Ok false.
Proof. exact alias_main. Qed.

(** A field of an interface type, such as gosql.ErrorHandler itself. *)
Lemma interface_main : forall (w : world) n ms d, w n = Some d -> legal_decl d -> d_under d = YIface ms ->
  ImplementsAfterScanner d = Ok false /\ ImplementsErrorHandler d = Ok false /\ ImplementsErrorInfoHandler d = Ok false.
Proof.
  intros w n ms d W (_ & _ & _ & R & _) E. specialize (R ms E).
  unfold ImplementsAfterScanner, ImplementsErrorHandler, ImplementsErrorInfoHandler. rewrite R. cbn. auto.
Qed.

Lemma C101_interface_proof : forall (w : world) n ms d, w n = Some d -> legal_decl d -> d_under d = YIface ms ->
  ImplementsAfterScanner d = Ok false /\ ImplementsErrorHandler d = Ok false /\ ImplementsErrorInfoHandler d = Ok false.
Proof. exact interface_main. Qed.

Lemma interface_bad : exists (w : world) d, w (at_path "github.com/frk/gosql" "ErrorHandler") = Some d /\ legal_decl d /\
  implements w (named_t "github.com/frk/gosql" "ErrorHandler") ErrorHandler /\ ImplementsErrorHandler d = Ok false.
Proof.
  set (d := MkDecl (YIface ErrorHandler) []).
  exists (declared [(at_path "github.com/frk/gosql" "ErrorHandler", d)]), d. split; [reflexivity|]. split; [legal_tac|]. split; [|reflexivity].
  apply direct_main. intros m s [H|[]]. injection H as <- <-. eexists. split; [vm_compute; reflexivity|]. split; [|reflexivity]. repeat split; repeat constructor.
Qed.

Lemma C101_interface_refuted_proof : exists w d, w (at_path "github.com/frk/gosql" "ErrorHandler") = Some d /\ legal_decl d /\
  implements w (named_t "github.com/frk/gosql" "ErrorHandler") ErrorHandler /\ ImplementsErrorHandler d = Ok false.
Proof. exact interface_bad. Qed.

(** The interface gosql.FilterConstructor itself is no filter constructor. *)
Lemma ctor_bad : exists w d, w (at_path "github.com/frk/gosql" "FilterConstructor") = Some d /\ legal_decl d /\
  implements w (named_t "github.com/frk/gosql" "FilterConstructor") FilterConstructor /\ ImplementsGosqlFilterConstructor d = Ok false.
Proof.
  set (d := MkDecl (YIface FilterConstructor) []).
  exists (declared [(at_path "github.com/frk/gosql" "FilterConstructor", d)]), d. split; [reflexivity|]. split; [legal_tac|]. split; [|reflexivity].
  apply direct_main. intros m s I. cbn in I.
  repeat match goal with H : _ \/ _ |- _ => destruct H as [H|H] end; try contradiction;
  injection I as <- <-; eexists; (split; [vm_compute; reflexivity|]); (split; [|reflexivity]); repeat split; repeat constructor.
Qed.

Lemma C101_constructor_refuted_proof : exists w d, w (at_path "github.com/frk/gosql" "FilterConstructor") = Some d /\ legal_decl d /\
  implements w (named_t "github.com/frk/gosql" "FilterConstructor") FilterConstructor /\ ImplementsGosqlFilterConstructor d = Ok false.
Proof. exact ctor_bad. Qed.

(** func (t *T) UnmarshalJSON(b ...byte) error *)
Lemma variadic_bad : exists w n d, w n = Some d /\ legal_decl d /\
  ImplementsJSONUnmarshaler d = Ok true /\ ~ implements w (YName n) JSONUnmarshaler.
Proof.
  set (d := MkDecl (YStruct []) [(B "UnmarshalJSON", ([bytes_t], [error_t], true))]).
  exists (declared [(at_path "p" "T", d)]), (at_path "p" "T"), d. split; [reflexivity|]. split; [legal_tac|]. split; [reflexivity|].
  intros H. destruct (H _ _ (or_introl eq_refl)) as (s & (k & E & Z) & _ & _ & V). destruct k as [|k].
  - vm_compute in E. injection E as <-. discriminate V.
  - specialize (Z O ltac:(lia)). vm_compute in Z. discriminate Z.
Qed.

Lemma C101_variadic_refuted_proof : exists w n d, w n = Some d /\ legal_decl d /\
  ImplementsJSONUnmarshaler d = Ok true /\ ~ implements w (YName n) JSONUnmarshaler.
Proof. exact variadic_bad. Qed.

(** func (t *T) HandleErrorInfo(i *x.ErrorInfo) error for the package x of
    example.com/mygithub.com/frk/gosql, which is neither gosql nor vendored *)
Lemma path_bad : exists w n d, w n = Some d /\ legal_decl d /\ ImplementsErrorInfoHandler d = Ok true /\
  forall p, p = B "github.com/frk/gosql" \/ (exists pre, p = pre ++ B "/vendor/github.com/frk/gosql") -> ~ implements w (YName n) (ErrorInfoHandler p).
Proof.
  set (d := MkDecl (YStruct []) (ErrorInfoHandler (B "example.com/mygithub.com/frk/gosql"))).
  exists (declared [(at_path "p" "T", d)]), (at_path "p" "T"), d. split; [reflexivity|]. split; [legal_tac|]. split; [reflexivity|].
  intros p P H. destruct (H _ _ (or_introl eq_refl)) as (s & (k & E & Z) & Fp & _ & _). destruct k as [|k].
  - assert (G : s = ([YPtr (YName (Some (B "example.com/mygithub.com/frk/gosql"), B "ErrorInfo"))], [error_t], false)) by (vm_compute in E; injection E as <-; reflexivity).
    subst s. cbn [sparams fst] in Fp. inversion Fp as [|? ? ? ? I _]; subst. unfold identical in I. cbn [expand] in I. injection I as I.
    destruct P as [->|(pre & ->)]; [discriminate I|]. apply (f_equal (@rev _)) in I. rewrite rev_app_distr in I. discriminate I.
  - specialize (Z O ltac:(lia)). vm_compute in Z. discriminate Z.
Qed.

Lemma C101_path_refuted_proof : exists w n d, w n = Some d /\ legal_decl d /\ ImplementsErrorInfoHandler d = Ok true /\
  forall p, p = B "github.com/frk/gosql" \/ (exists pre, p = pre ++ B "/vendor/github.com/frk/gosql") -> ~ implements w (YName n) (ErrorInfoHandler p).
Proof. exact path_bad. Qed.

(** No predeclared type such as error, also behind a pointer or as element of a map. *)
Fixpoint packaged (t : ty) : bool :=
  match t with
  | YName (None, _) => false
  | YPtr e => packaged e
  | YMap _ v => packaged v
  | _ => true
  end.

Definition total (r : res bool) : Prop := exists b, r = Ok b.

Lemma andr_total : forall a b, total a -> total b -> total (andr a b).
Proof. intros a b [[] ->] [y ->]; cbn; eexists; reflexivity. Qed.

Lemma named_total : forall p n t, packaged t = true -> total (is_named_p p n t).
Proof. intros p n t H. destruct t as [ | | | | | | | | |[[q|] m]| ]; try (eexists; reflexivity); discriminate. Qed.

Ltac sure := repeat match goal with |- total match ?x with _ => _ end => destruct x end; eexists; reflexivity.

Lemma scan_total : forall cases ms seen, (forall m s c, In (m, s) ms -> In c cases -> m = fst c -> total (snd c s)) ->
  exists o, scan_methods cases ms seen = Ok o.
Proof.
  induction ms as [|[m s] r IH]; intros seen H; cbn; [eauto|]. destruct (find _ cases) as [[k test]|] eqn:F.
  - apply find_some in F as [F1 F2]. apply beqs in F2. destruct (H m s (k, test) (or_introl eq_refl) F1 F2) as [b E]. cbn in E.
    rewrite E. cbn. destruct b; [|eauto]. apply IH. intros; eapply H; eauto. now right.
  - apply IH. intros; eapply H; eauto. now right.
Qed.

Lemma total_main : forall w n d, w n = Some d -> legal_decl d ->
  (forall m s, In m [B "MarshalXML"; B "UnmarshalXML"; B "HandleErrorInfo"; B "InitV2"] ->
     entries w (YName n) 0 m = [EMethod s] -> forallb packaged (sparams s) = true) ->
  forall f, In f [ImplementsScanner; ImplementsValuer; ImplementsJSONMarshaler; ImplementsJSONUnmarshaler; ImplementsXMLMarshaler;
    ImplementsXMLUnmarshaler; ImplementsAfterScanner; ImplementsErrorHandler; ImplementsErrorInfoHandler; ImplementsGosqlConn;
    ImplementsGosqlFilterConstructor] -> exists b, f d = Ok b.
Proof.
  intros w n d W D P f F. change (total (f d)).
  assert (Q : forall m s, In m [B "MarshalXML"; B "UnmarshalXML"; B "HandleErrorInfo"; B "InitV2"] ->
     find_method m (methoder d) = Some s -> forallb packaged (sparams s) = true).
  { intros m s I E. apply (P m s I). now apply (own w n d m s W D). }
  clear P. cbn [In] in F. repeat (destruct F as [F|F]; [subst f|]); try contradiction.
  - unfold ImplementsScanner, IsScanner. sure.
  - unfold ImplementsValuer, IsValuer. sure.
  - unfold ImplementsJSONMarshaler, IsJSONMarshaler. sure.
  - unfold ImplementsJSONUnmarshaler, IsJSONUnmarshaler. sure.
  - unfold ImplementsXMLMarshaler, IsXMLMarshaler. specialize (Q (B "MarshalXML")). destruct (find_method _ _) as [[[[|p [|p2 [|? ?]]] [|r [|? ?]]] v]|]; try sure.
    specialize (Q _ ltac:(cbn; tauto) eq_refl). cbn in Q. apply andb_true_iff in Q as [Q1 Q2]. rewrite andb_true_r in Q2.
    repeat apply andr_total; [|now apply named_total|eexists; reflexivity]. destruct p; try sure. now apply named_total.
  - unfold ImplementsXMLUnmarshaler, IsXMLUnmarshaler. specialize (Q (B "UnmarshalXML")). destruct (find_method _ _) as [[[[|p [|p2 [|? ?]]] [|r [|? ?]]] v]|]; try sure.
    specialize (Q _ ltac:(cbn; tauto) eq_refl). cbn in Q. apply andb_true_iff in Q as [Q1 Q2]. rewrite andb_true_r in Q2.
    repeat apply andr_total; [|now apply named_total|eexists; reflexivity]. destruct p; try sure. now apply named_total.
  - unfold ImplementsAfterScanner. sure.
  - unfold ImplementsErrorHandler. sure.
  - unfold ImplementsErrorInfoHandler.
    assert (M : find_method (B "HandleErrorInfo") (d_methods d) = find_method (B "HandleErrorInfo") (methoder d) \/ d_methods d = []).
    { destruct D as (_ & _ & _ & R & _). unfold methoder. destruct (d_under d) eqn:E; auto. right. eapply R; reflexivity. }
    destruct M as [M|M]; [|rewrite M; eexists; reflexivity]. rewrite M. specialize (Q (B "HandleErrorInfo")).
    destruct (find_method _ (methoder d)) as [[[[|p [|p2 ?]] [|r [|? ?]]] v]|]; try sure. destruct (IsErrorType r); [|sure].
    specialize (Q _ ltac:(cbn; tauto) eq_refl). cbn in Q. rewrite andb_true_r in Q.
    destruct p as [ |[ | | | | | | | | |[[q|] m]| ]| | | | | | | | | ]; try sure. discriminate.
  - unfold ImplementsGosqlConn, has_all. destruct (scan_total conn_cases (methoder d) []) as [o ->]; [|eexists; reflexivity].
    intros m s [k test] _ I _. cbn [snd]. cbn [conn_cases In] in I.
    repeat (destruct I as [I|I]; [injection I as <- <-; sure|]). contradiction.
  - unfold ImplementsGosqlFilterConstructor, has_all. destruct (scan_total ctor_cases (methoder d) []) as [o ->]; [|eexists; reflexivity].
    intros m s [k test] J I E. cbn [fst snd] in *. subst k. cbn [ctor_cases In] in I.
    destruct I as [I|[I|I]]; [injection I as <- <-; sure| |repeat (destruct I as [I|I]; [injection I as <- <-; sure|]); contradiction].
    injection I as <- <-. apply find_in in J; [|now apply own_nodup]. apply Q in J; [|cbn; tauto].
    destruct s as [[[|p [|c [|? ?]]] [|? ?]] v]; try sure. cbn in J. apply andb_true_iff in J as [J _].
    apply andr_total; [|eexists; reflexivity]. destruct p; try sure. cbn [IsStringColumnMap]. destruct (IsString p1); [|sure].
    destruct p2 as [ | | | | | | | | |[[q|] m]| ]; try sure. discriminate.
Qed.

Lemma C101_total_proof : forall w n d, w n = Some d -> legal_decl d ->
  (forall m s, In m [B "MarshalXML"; B "UnmarshalXML"; B "HandleErrorInfo"; B "InitV2"] ->
     entries w (YName n) 0 m = [EMethod s] -> forallb packaged (sparams s) = true) ->
  forall f, In f [ImplementsScanner; ImplementsValuer; ImplementsJSONMarshaler; ImplementsJSONUnmarshaler; ImplementsXMLMarshaler;
    ImplementsXMLUnmarshaler; ImplementsAfterScanner; ImplementsErrorHandler; ImplementsErrorInfoHandler; ImplementsGosqlConn;
    ImplementsGosqlFilterConstructor] -> exists b, f d = Ok b.
Proof. exact total_main. Qed.

(** func (t *T) MarshalXML(e *error, s xml.StartElement) error and the like *)
Lemma panic_bad : exists d1 d2 d3 d4, legal_decl d1 /\ legal_decl d2 /\ legal_decl d3 /\ legal_decl d4 /\
  ImplementsXMLMarshaler d1 = Panic /\ ImplementsXMLUnmarshaler d2 = Panic /\
  ImplementsErrorInfoHandler d3 = Panic /\ ImplementsGosqlFilterConstructor d4 = Panic.
Proof.
  exists (MkDecl (YStruct []) [(B "MarshalXML", ([YPtr error_t; any_t], [error_t], false))]),
    (MkDecl (YStruct []) [(B "UnmarshalXML", ([YPtr (named_t "encoding/xml" "Decoder"); error_t], [error_t], false))]),
    (MkDecl (YStruct []) [(B "HandleErrorInfo", ([YPtr error_t], [error_t], false))]),
    (MkDecl (YStruct []) [(B "InitV2", ([YMap string_t error_t; string_t], [], false))]).
  repeat match goal with |- _ /\ _ => split end; try reflexivity; legal_tac.
Qed.

Lemma C101_panic_refuted_proof : exists d1 d2 d3 d4, legal_decl d1 /\ legal_decl d2 /\ legal_decl d3 /\ legal_decl d4 /\
  ImplementsXMLMarshaler d1 = Panic /\ ImplementsXMLUnmarshaler d2 = Panic /\
  ImplementsErrorInfoHandler d3 = Panic /\ ImplementsGosqlFilterConstructor d4 = Panic.
Proof. exact panic_bad. Qed.
