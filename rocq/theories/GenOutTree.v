From Coq Require Import Ascii String ZArith NArith Bool List Lia.
From Verif Require Import GoBase AParse Analysis Oids Gen GenOut GenOutSpec ConvertProofs AnalysisProofs.
Import ListNotations.
Local Open Scope list_scope.

(** ** Paths *)
Lemma look_upd_same : forall A f g (l l' : list (bytes * A)), upd f g l = Some l' ->
  exists y y', look f l = Some y /\ g y = Some y' /\ look f l' = Some y'.
Proof.
  induction l as [|[k x] l IH]; cbn; intros l' H; [discriminate|].
  destruct (bytes_eqb k f) eqn:E.
  - destruct (g x) eqn:G; [|discriminate]. injection H as <-. cbn. rewrite E. eauto.
  - destruct (upd f g l) eqn:U; [|discriminate]. injection H as <-. cbn. rewrite E. exact (IH _ eq_refl).
Qed.
Lemma look_upd_other : forall A f f' g (l l' : list (bytes * A)), upd f g l = Some l' -> f' <> f ->
  look f' l' = look f' l.
Proof.
  induction l as [|[k x] l IH]; cbn; intros l' H N; [discriminate|].
  destruct (bytes_eqb k f) eqn:E.
  - destruct (g x) eqn:G; [|discriminate]. injection H as <-. cbn.
    apply bytes_eqb_eq in E. subst k. destruct (bytes_eqb f f') eqn:E2; [|reflexivity].
    apply bytes_eqb_eq in E2. congruence.
  - destruct (upd f g l) eqn:U; [|discriminate]. injection H as <-. cbn.
    destruct (bytes_eqb k f'); [reflexivity|]. exact (IH _ eq_refl N).
Qed.
Lemma upd_total : forall A f g (l : list (bytes * A)) y y', look f l = Some y -> g y = Some y' ->
  exists l', upd f g l = Some l'.
Proof.
  induction l as [|[k x] l IH]; cbn; intros y y' H G; [discriminate|].
  destruct (bytes_eqb k f) eqn:E.
  - injection H as ->. rewrite G. cbn. eauto.
  - destruct (IH _ _ H G) as [l' ->]. cbn. eauto.
Qed.

Lemma put_total : forall p y v x, get v p = Some x -> exists v', put p y v = Some v'.
Proof.
  induction p as [|f p IH]; cbn; intros y v x H; [eauto|].
  destruct v as [| | |fs]; try discriminate.
  destruct (look f fs) as [z|] eqn:L; [|discriminate].
  destruct (IH y _ _ H) as [z' Z]. destruct (upd_total _ _ _ _ _ _ L Z) as [l' ->]. cbn. eauto.
Qed.
Lemma get_put_ext : forall p y v v' r, put p y v = Some v' -> get v' (p ++ r) = get y r.
Proof.
  induction p as [|f p IH]; cbn; intros y v v' r H; [congruence|].
  destruct v as [| | |fs]; try discriminate.
  destruct (upd f (put p y) fs) as [fs'|] eqn:U; [|discriminate]. injection H as <-.
  destruct (look_upd_same _ _ _ _ _ U) as (z & z' & _ & Z & ->). exact (IH _ _ _ _ Z).
Qed.
Lemma get_put_same : forall p y v v', put p y v = Some v' -> get v' p = Some y.
Proof. intros p y v v' H. rewrite <- (app_nil_r p). rewrite (get_put_ext _ _ _ _ _ H). reflexivity. Qed.

Definition pre (a b : list bytes) : Prop := exists r, b = a ++ r.
Lemma get_put_other : forall p y v v' p', put p y v = Some v' -> ~ pre p p' ->
  get v' p' = get v p' \/ (exists r, p = p' ++ r /\ r <> [] /\ exists fs, get v' p' = Some (VRec fs)).
Proof.
  induction p as [|f p IH]; cbn; intros y v v' p' H N.
  - exfalso. apply N. exists p'. reflexivity.
  - destruct v as [| | |fs]; try discriminate.
    destruct (upd f (put p y) fs) as [fs'|] eqn:U; [|discriminate]. injection H as <-.
    destruct p' as [|f' p'].
    + right. exists (f :: p). split; [reflexivity|]. split; [discriminate|]. cbn. eauto.
    + cbn. destruct (look_upd_same _ _ _ _ _ U) as (z & z' & L & Z & L').
      destruct (bytes_eqb f' f) eqn:E.
      * apply bytes_eqb_eq in E. subst f'. rewrite L, L'.
        destruct (IH _ _ _ p' Z) as [G|(r & -> & Nr & fs2 & G)].
        { intros [r ->]. apply N. exists r. reflexivity. }
        { left. exact G. }
        right. exists r. split; [reflexivity|]. split; [assumption|]. eauto.
      * apply bytes_eqb_neq in E. left. rewrite (look_upd_other _ _ _ _ _ _ U E). reflexivity.
Qed.
(** A struct that is not under [p] is still there. *)
Lemma get_put_rec : forall p y v v' p' fs, put p y v = Some v' -> get v p' = Some (VRec fs) ->
  ~ (exists r, p' = p ++ r /\ r <> []) -> (exists gs, y = VRec gs) ->
  exists fs', get v' p' = Some (VRec fs').
Proof.
  intros p y v v' p' fs H G N [gs ->].
  destruct (list_eq_dec (list_eq_dec Ascii.ascii_dec) p p') as [->|D].
  - rewrite (get_put_same _ _ _ _ H). eauto.
  - destruct (get_put_other _ _ _ _ p' H) as [E|(r & _ & _ & E)].
    + intros [r ->]. apply N. exists r. split; [reflexivity|]. intros ->. apply D. rewrite app_nil_r. reflexivity.
    + rewrite E, G. eauto.
    + exact E.
Qed.

(** ** Values and shapes *)
Fixpoint fits_all (ts : list (bytes * rty)) (vs : list (bytes * rv)) : Prop :=
  match ts, vs with
  | [], [] => True
  | (f, t) :: ts, (g, y) :: vs => f = g /\ fits t y /\ fits_all ts vs
  | _, _ => False
  end.
Lemma fits_struct : forall ptr ts v, fits (RStruct ptr ts) v <->
  (ptr = true /\ v = VNil) \/ exists vs, v = VRec vs /\ fits_all ts vs.
Proof.
  intros ptr ts v. cbn. split; intros [H|(vs & E & H)]; auto; right; exists vs; (split; [exact E|]);
    clear E; revert vs H; induction ts as [|[f t] ts IH]; intros [|[g y] vs] H; cbn in *; auto;
    destruct H as (A & B1 & C); auto.
Qed.
Lemma fits_all_look : forall ts vs f t, fits_all ts vs -> look f ts = Some t ->
  exists y, look f vs = Some y /\ fits t y.
Proof.
  induction ts as [|[k u] ts IH]; intros [|[g y] vs] f t F L; cbn in *; try discriminate; try contradiction.
  destruct F as (-> & F & FS). destruct (bytes_eqb g f); [injection L as ->; eauto|]. exact (IH _ _ _ FS L).
Qed.
Lemma fits_all_upd : forall ts vs vs' f t g, fits_all ts vs -> look f ts = Some t -> upd f g vs = Some vs' ->
  (forall y y', fits t y -> g y = Some y' -> fits t y') -> fits_all ts vs'.
Proof.
  induction ts as [|[k u] ts IH]; intros [|[h y] vs] vs' f t g F L U K; cbn in *; try discriminate; try contradiction.
  destruct F as (-> & F & FS). destruct (bytes_eqb h f) eqn:E.
  - injection L as ->. destruct (g y) eqn:G; [|discriminate]. injection U as <-. cbn. eauto.
  - destruct (upd f g vs) eqn:U2; [|discriminate]. injection U as <-. cbn. eauto.
Qed.
Lemma put_fits : forall p y v v' t t', fits t v -> ty_get t p = Some t' -> fits t' y -> put p y v = Some v' ->
  fits t v'.
Proof.
  induction p as [|f p IH]; cbn; intros y v v' t t' F T Y P; [congruence|].
  destruct t as [|ptr ts]; [discriminate|]. destruct (look f ts) as [u|] eqn:L; [|discriminate].
  destruct v as [| | |vs]; try discriminate.
  destruct (upd f (put p y) vs) as [vs'|] eqn:U; [|discriminate]. injection P as <-.
  apply fits_struct in F. destruct F as [[_ F]|(vs2 & E & F)]; [discriminate|]. injection E as <-.
  apply fits_struct. right. exists vs'. split; [reflexivity|].
  eapply fits_all_upd; eauto.
Qed.
(** Every field of a shape is there once the structs held by pointer are. *)
Lemma fits_get : forall p v t t', fits t v -> ty_get t p = Some t' ->
  (forall q r us, p = q ++ r -> r <> [] -> ty_get t q = Some (RStruct true us) -> exists vs, get v q = Some (VRec vs)) ->
  exists y, get v p = Some y /\ fits t' y.
Proof.
  induction p as [|f p IH]; cbn; intros v t t' F T K; [injection T as <-; eauto|].
  destruct t as [|ptr ts]; [discriminate|]. destruct (look f ts) as [u|] eqn:L; [|discriminate].
  assert (V : exists vs, v = VRec vs /\ fits_all ts vs).
  { apply fits_struct in F. destruct F as [[-> ->]|F]; [|exact F].
    destruct (K [] (f :: p) ts eq_refl) as [vs E]; [discriminate|reflexivity|discriminate]. }
  destruct V as (vs & -> & FS). destruct (fits_all_look _ _ _ _ FS L) as (y & Y & FY). rewrite Y.
  apply (IH _ _ _ FY T). intros q r us -> N TQ.
  destruct (K (f :: q) r us eq_refl N) as [vs2 E].
  { cbn. rewrite L. exact TQ. }
  cbn in E. rewrite Y in E. eauto.
Qed.

Lemma zero_fits_all : forall ts, Forall (fun p => fits (snd p) (zero_of (snd p))) ts ->
  fits_all ts (map (fun p => (fst p, zero_of (snd p))) ts).
Proof. induction ts as [|[f t] ts IH]; intros F; cbn; [exact Logic.I|]. inversion F; subst. auto. Qed.
Fixpoint rty_size (t : rty) : nat :=
  match t with
  | RScal => 1
  | RStruct _ ts => S (fold_right (fun p n => rty_size (snd p) + n) 0 ts)
  end.
Lemma rty_ind2 : forall P : rty -> Prop, P RScal ->
  (forall ptr ts, Forall (fun p => P (snd p)) ts -> P (RStruct ptr ts)) -> forall t, P t.
Proof.
  intros P H0 HS t. remember (rty_size t) as n eqn:E.
  assert (L : rty_size t <= n) by lia. clear E. revert t L.
  induction n as [|n IH]; intros t L; [destruct t; cbn in L; lia|].
  destruct t as [|ptr ts]; [exact H0|]. apply HS. cbn in L. apply Forall_forall. intros [f u] I. apply IH. cbn.
  assert (M : rty_size u <= fold_right (fun p n => rty_size (snd p) + n) 0 ts).
  { clear L. induction ts as [|[g w] ts IHt]; [destruct I|]. cbn. destruct I as [I|I].
    - injection I as -> ->. lia.
    - specialize (IHt I). lia. }
  lia.
Qed.
Lemma zero_of_fits : forall t, fits t (zero_of t).
Proof.
  induction t as [|ptr ts F] using rty_ind2; [left; reflexivity|].
  apply fits_struct. destruct ptr; [left; auto|]. right. eexists. split; [reflexivity|]. apply zero_fits_all. exact F.
Qed.
Lemma zero_rec_fits : forall ptr ts, fits (RStruct ptr ts) (zero_rec ts).
Proof.
  intros ptr ts. apply fits_struct. right. eexists. split; [reflexivity|]. apply zero_fits_all.
  apply Forall_forall. intros p _. apply zero_of_fits.
Qed.
Lemma look_map : forall A C (h : A -> C) f l, look f (map (fun p => (fst p, h (snd p))) l) = option_map h (look f l).
Proof. induction l as [|[k x] l IH]; cbn; [reflexivity|]. destruct (bytes_eqb k f); [reflexivity|exact IH]. Qed.
Lemma look_in : forall A f (l : list (bytes * A)) x, look f l = Some x -> exists k, In (k, x) l.
Proof.
  induction l as [|[k y] l IH]; cbn; intros x H; [discriminate|]. destruct (bytes_eqb k f).
  - injection H as ->. eauto.
  - destruct (IH _ H). eauto.
Qed.
(** A new value holds no column. *)
Lemma zero_of_get : forall t p fn d, get (zero_of t) p <> Some (VGot fn d).
Proof.
  induction t as [|ptr ts F] using rty_ind2; intros [|f p] fn d H; cbn in H; try discriminate.
  - destruct ptr; discriminate.
  - destruct ptr; [discriminate|]. rewrite look_map in H. destruct (look f ts) as [u|] eqn:L; [|discriminate].
    cbn in H. destruct (look_in _ _ _ _ L) as [k I]. rewrite Forall_forall in F. exact (F _ I _ _ _ H).
Qed.
Lemma ty_get_app : forall p r t, ty_get t (p ++ r) = match ty_get t p with Some u => ty_get u r | None => None end.
Proof.
  induction p as [|f p IH]; intros r t; cbn; [reflexivity|]. destruct t as [|b ts]; [reflexivity|].
  destruct (look f ts); [apply IH|reflexivity].
Qed.
(** ** Allocation of nested structs *)
Definition init1 (ts : list (bytes * rty)) (i : init) (v : rv) : option rv :=
  match i with
  | InitPath p => match ty_get (RStruct false ts) p with
                  | Some (RStruct true fs) => put p (zero_rec fs) v
                  | _ => None
                  end
  | _ => None
  end.
Fixpoint init_run (ts : list (bytes * rty)) (l : list init) (v : rv) : option rv :=
  match l with
  | [] => Some v
  | i :: l => match init1 ts i v with Some v => init_run ts l v | None => None end
  end.
Lemma init_run_app : forall ts a b v, init_run ts (a ++ b) v =
  match init_run ts a v with Some v => init_run ts b v | None => None end.
Proof. induction a as [|i a IH]; intros b v; cbn; [reflexivity|]. destruct (init1 ts i v); [apply IH|reflexivity]. Qed.

Definition no_more (v0 v : rv) : Prop := forall p fn d, get v p = Some (VGot fn d) -> get v0 p = Some (VGot fn d).
Record allocated (ts : list (bytes * rty)) (v0 : rv) (P : list bytes -> Prop) (A : list (list bytes)) (done : list bytes) (v : rv) : Prop := {
  al_fits : fits (RStruct false ts) v;
  al_done : done = map (@List.concat ascii) A;
  al_nodup : NoDup A;
  al_rec : forall p, In p A -> exists vs, get v p = Some (VRec vs);
  al_ptr : forall p, In p A -> P p;
  al_pre : forall p q r us, In p A -> p = q ++ r -> r <> [] -> ty_get (RStruct false ts) q = Some (RStruct true us) -> In q A;
  al_got : no_more v0 v }.

Lemma no_more_put : forall p ts v0 v v', no_more v0 v -> put p (zero_rec ts) v = Some v' -> no_more v0 v'.
Proof.
  intros p ts v0 v v' N H q fn d G.
  destruct (list_eq_dec (list_eq_dec Ascii.ascii_dec) (firstn (List.length p) q) p) as [E|D].
  - assert (Q : q = p ++ skipn (List.length p) q) by (rewrite <- E at 1; symmetry; apply firstn_skipn).
    rewrite Q in G. rewrite (get_put_ext _ _ _ _ _ H) in G. exfalso. exact (zero_of_get _ _ _ _ G).
  - destruct (get_put_other _ _ _ _ q H) as [E|(r & _ & _ & fs & E)].
    + intros [r ->]. apply D. rewrite firstn_app, Nat.sub_diag, firstn_all. cbn. apply app_nil_r.
    + rewrite E in G. exact (N _ _ _ G).
    + congruence.
Qed.

Lemma existsb_key : forall k l, existsb (bytes_eqb k) l = true <-> In k l.
Proof.
  intros k l. rewrite existsb_exists. split.
  - intros (x & I & E). apply bytes_eqb_eq in E. subst. exact I.
  - intros I. exists k. split; [exact I|]. apply bytes_eqb_eq. reflexivity.
Qed.

Lemma init_sel_ok : forall ts v0 (P : list bytes -> Prop),
  (forall p1 p2, P p1 -> P p2 -> List.concat p1 = List.concat p2 -> p1 = p2) ->
  forall sel pr name b us A done v,
  allocated ts v0 P A done v ->
  ty_get (RStruct false ts) pr = Some (RStruct b us) ->
  in_type (RStruct b us) sel name ->
  (forall q r ws, pr = q ++ r -> ty_get (RStruct false ts) q = Some (RStruct true ws) -> In q A) ->
  (forall a n c, sel = a ++ n :: c -> sn_ptr n = true -> P (pr ++ map sn_name a ++ [sn_name n])) ->
  exists L done' v', init_sel pr (List.concat pr) sel done = (map InitPath L, done')
    /\ init_run ts (map InitPath L) v = Some v'
    /\ allocated ts v0 P (rev L ++ A) done' v'
    /\ (forall q r ws, pr ++ map sn_name sel = q ++ r -> ty_get (RStruct false ts) q = Some (RStruct true ws) -> In q (rev L ++ A))
    /\ (forall p, In p L -> exists a n c, sel = a ++ n :: c /\ sn_ptr n = true /\ p = pr ++ map sn_name a ++ [sn_name n]).
Proof.
  intros ts v0 P INJ sel. induction sel as [|n sel IH]; intros pr name b us A done v AL TY IT PRE PP.
  - exists [], done, v. cbn. split; [reflexivity|]. split; [reflexivity|]. split; [exact AL|]. split.
    + intros q r ws E. rewrite app_nil_r in E. eauto.
    + intros p [].
  - cbn [in_type] in IT. destruct IT as (ws & L & IT).
    set (pr' := pr ++ [sn_name n]).
    assert (KEY : List.concat pr ++ sn_name n = List.concat pr').
    { unfold pr'. rewrite concat_app. cbn. rewrite app_nil_r. reflexivity. }
    assert (TY' : ty_get (RStruct false ts) pr' = Some (RStruct (sn_ptr n) ws)).
    { unfold pr'. rewrite ty_get_app, TY. cbn. rewrite L. reflexivity. }
    cbn [init_sel]. rewrite KEY.
    assert (SNOC : forall q r, pr' = q ++ r -> r = [] /\ q = pr' \/ exists r', pr = q ++ r').
    { intros q r E. destruct r as [|x r] using rev_ind.
      - left. rewrite app_nil_r in E. auto.
      - right. exists r. unfold pr' in E. rewrite app_assoc in E. apply app_inj_tail in E. tauto. }
    assert (PP' : forall a m c, sel = a ++ m :: c -> sn_ptr m = true -> P (pr' ++ map sn_name a ++ [sn_name m])).
    { intros a m c E M. specialize (PP (n :: a) m c). cbn in PP. unfold pr'. rewrite <- app_assoc. cbn.
      apply PP; [rewrite E; reflexivity|exact M]. }
    assert (WHERE : forall p Lx, (forall p, In p Lx -> exists a m c, sel = a ++ m :: c /\ sn_ptr m = true /\ p = pr' ++ map sn_name a ++ [sn_name m]) ->
        In p Lx -> exists a m c, n :: sel = a ++ m :: c /\ sn_ptr m = true /\ p = pr ++ map sn_name a ++ [sn_name m]).
    { intros p Lx H I. destruct (H _ I) as (a & m & c & -> & M & ->). exists (n :: a), m, c.
      split; [reflexivity|]. split; [exact M|]. unfold pr'. rewrite <- app_assoc. reflexivity. }
    destruct (sn_ptr n && negb (existsb (bytes_eqb (List.concat pr')) done)) eqn:C.
    + apply andb_true_iff in C. destruct C as [PT C]. apply negb_true_iff in C. rewrite PT in TY', IT.
      assert (NEW : ~ In pr' A).
      { intros I. apply (in_map (@List.concat ascii)) in I. rewrite <- (al_done _ _ _ _ _ _ AL) in I.
        apply existsb_key in I. congruence. }
      assert (UNDER : forall p r, In p A -> p = pr' ++ r -> False).
      { intros p r I E. destruct r as [|x r].
        - rewrite app_nil_r in E. subst p. contradiction.
        - apply NEW. eapply (al_pre _ _ _ _ _ _ AL); [exact I|exact E|discriminate|exact TY']. }
      (* the destination exists *)
      destruct (fits_get pr' v _ _ (al_fits _ _ _ _ _ _ AL) TY') as (y & G & _).
      { intros q r xs E N TQ. destruct (SNOC _ _ E) as [[-> _]|[r' E']]; [congruence|].
        apply (al_rec _ _ _ _ _ _ AL). eapply PRE; eauto. }
      destruct (put_total _ (zero_rec ws) _ _ G) as [v1 V1].
      assert (AL1 : allocated ts v0 P (pr' :: A) (List.concat pr' :: done) v1).
      { constructor.
        - eapply put_fits; [exact (al_fits _ _ _ _ _ _ AL)|exact TY'|apply zero_rec_fits|exact V1].
        - cbn. rewrite (al_done _ _ _ _ _ _ AL). reflexivity.
        - constructor; [exact NEW|exact (al_nodup _ _ _ _ _ _ AL)].
        - intros p [<-|I].
          + rewrite (get_put_same _ _ _ _ V1). unfold zero_rec. cbn. eauto.
          + destruct (al_rec _ _ _ _ _ _ AL p I) as [vs E].
            eapply get_put_rec; [exact V1|exact E| |unfold zero_rec; cbn; eauto].
            intros (r & Er & _). exact (UNDER _ _ I Er).
        - intros p [<-|I]; [|exact (al_ptr _ _ _ _ _ _ AL p I)]. exact (PP [] n sel eq_refl PT).
        - intros p q r xs [<-|I] E N TQ.
          + destruct (SNOC _ _ E) as [[-> _]|[r' E']]; [congruence|]. right. eapply PRE; eauto.
          + right. eapply (al_pre _ _ _ _ _ _ AL); eauto.
        - eapply no_more_put; [exact (al_got _ _ _ _ _ _ AL)|exact V1]. }
      destruct (IH pr' name true ws (pr' :: A) (List.concat pr' :: done) v1 AL1 TY' IT) as (Lx & done' & v' & E1 & E2 & E3 & E4 & E5).
      { intros q r xs E TQ. destruct (SNOC _ _ E) as [[_ ->]|[r' E']]; [left; reflexivity|]. right. eapply PRE; eauto. }
      { exact PP'. }
      exists (pr' :: Lx), done', v'. fold pr'. rewrite E1. cbn [map init_run init1 rev]. rewrite TY', V1, E2.
      split; [reflexivity|]. split; [reflexivity|]. rewrite <- app_assoc. cbn [app]. split; [exact E3|]. split.
      * intros q r xs E. eapply E4. unfold pr'. rewrite <- app_assoc. exact E.
      * intros p [<-|I]; [|exact (WHERE _ _ E5 I)]. exists [], n, sel. split; [reflexivity|]. split; [exact PT|]. reflexivity.
    + fold pr'.
      assert (IN : sn_ptr n = true -> In pr' A).
      { intros PT. rewrite PT in C. cbn in C. apply negb_false_iff in C. apply existsb_key in C.
        rewrite (al_done _ _ _ _ _ _ AL) in C. apply in_map_iff in C. destruct C as (p & E & I).
        rewrite <- (INJ p pr' (al_ptr _ _ _ _ _ _ AL p I) (PP [] n sel eq_refl PT) E). exact I. }
      destruct (IH pr' name (sn_ptr n) ws A done v AL TY' IT) as (Lx & done' & v' & E1 & E2 & E3 & E4 & E5).
      { intros q r xs E TQ. destruct (SNOC _ _ E) as [[_ ->]|[r' E']]; [|eapply PRE; eauto].
        apply IN. congruence. }
      { exact PP'. }
      exists Lx, done', v'. split; [exact E1|]. split; [exact E2|]. split; [exact E3|]. split.
      * intros q r xs E. eapply E4. unfold pr'. rewrite <- app_assoc. exact E.
      * intros p I. exact (WHERE _ _ E5 I).
Qed.

Lemma in_type_ty : forall sel name t, in_type t sel name -> ty_get t (map sn_name sel ++ [name]) = Some RScal.
Proof.
  induction sel as [|n sel IH]; intros name [|b ts] H; cbn in *; try contradiction.
  - rewrite H. reflexivity.
  - destruct H as (us & -> & H). exact (IH _ _ H).
Qed.
Lemma in_type_ptr : forall a n c name t, in_type t (a ++ n :: c) name ->
  exists us, ty_get t (map sn_name a ++ [sn_name n]) = Some (RStruct (sn_ptr n) us).
Proof.
  induction a as [|m a IH]; intros n c name [|b ts] H; cbn in *; try contradiction.
  - destruct H as (us & -> & _). eauto.
  - destruct H as (us & -> & H). exact (IH _ _ _ _ H).
Qed.

Lemma init_fields_ok : forall ts v0 (P : list bytes -> Prop),
  (forall p1 p2, P p1 -> P p2 -> List.concat p1 = List.concat p2 -> p1 = p2) ->
  forall reads A done v,
  allocated ts v0 P A done v -> reads_in ts reads ->
  (forall r p, In r reads -> pointer_on r p -> P p) ->
  exists L done' v', init_fields reads done = map InitPath L
    /\ init_run ts (map InitPath L) v = Some v'
    /\ allocated ts v0 P (rev L ++ A) done' v'
    /\ (forall r p, In r reads -> pointer_on r p -> In p (rev L ++ A))
    /\ (forall p, In p L -> exists r, In r reads /\ pointer_on r p).
Proof.
  intros ts v0 P INJ reads. induction reads as [|r reads IH]; intros A done v AL RI PP.
  - exists [], done, v. cbn. split; [reflexivity|]. split; [reflexivity|]. split; [exact AL|].
    split; [intros ? ? []|intros ? []].
  - apply Forall_cons_iff in RI. destruct RI as [R RI].
    destruct (init_sel_ok ts v0 P INJ (fi_sel (fr_field r)) [] (fi_name (fr_field r)) false ts A done v AL eq_refl R) as (L1 & d1 & v1 & E1 & E2 & E3 & E4 & E5).
    { intros q x ws E TQ. symmetry in E. apply app_eq_nil in E. destruct E as [-> _]. cbn in TQ. discriminate. }
    { intros a n c E N. apply (PP r); [left; reflexivity|]. exists a, n, c. auto. }
    destruct (IH _ _ _ E3 RI) as (L2 & d2 & v2 & F1 & F2 & F3 & F4 & F5).
    { intros x p I. apply PP. right. exact I. }
    exists (L1 ++ L2), d2, v2. cbn [init_fields]. change (@nil ascii) with (List.concat (@nil bytes)) at 1. rewrite E1, F1, map_app.
    split; [reflexivity|]. rewrite init_run_app, E2. split; [exact F2|].
    rewrite rev_app_distr, <- app_assoc. split; [exact F3|]. split.
    + intros x p [<-|I] PO; [|exact (F4 _ _ I PO)].
      apply in_or_app. right. destruct PO as (a & n & c & E & N & ->).
      rewrite E in R. destruct (in_type_ptr _ _ _ _ _ R) as [us T]. rewrite N in T.
      apply (E4 _ (map sn_name c) us); [|exact T]. rewrite E, map_app. cbn. rewrite <- app_assoc. reflexivity.
    + intros p I. apply in_app_iff in I. destruct I as [I|I].
      * destruct (E5 _ I) as (a & n & c & E & N & ->). exists r. split; [left; reflexivity|]. exists a, n, c. auto.
      * destruct (F5 _ I) as (x & I2 & PO). exists x. split; [right; exact I2|exact PO].
Qed.

Lemma allocated_none : forall ts P v0, fits (RStruct false ts) v0 -> allocated ts v0 P [] [] v0.
Proof.
  intros ts P v0 F. constructor.
  - exact F.
  - reflexivity.
  - constructor.
  - intros ? [].
  - intros ? [].
  - intros ? ? ? ? [].
  - intros p fn d H. exact H.
Qed.

(** ** Scanning one row into a record *)
Fixpoint fill (reads : list fread) (ds : list nat) (v : rv) : option rv :=
  match reads, ds with
  | r :: reads, d :: ds => match put (read_path r) (VGot (fr_scanner r) d) v with
                           | Some v => fill reads ds v
                           | None => None
                           end
  | _, _ => Some v
  end.
Lemma scal_no_ext : forall t p r, ty_get t p = Some RScal -> ty_get t (p ++ r) = Some RScal -> r = [].
Proof. intros t p [|x r] H K; [reflexivity|]. rewrite ty_get_app, H in K. discriminate. Qed.

Lemma put_other_leaf : forall ts p q y v v', ty_get (RStruct false ts) p = Some RScal ->
  ty_get (RStruct false ts) q = Some RScal -> p <> q -> put p y v = Some v' -> get v' q = get v q.
Proof.
  intros ts p q y v v' TP TQ N H. destruct (get_put_other _ _ _ _ q H) as [E|(r & -> & Nr & _)].
  - intros [r ->]. rewrite (scal_no_ext _ _ _ TP TQ), app_nil_r in N. congruence.
  - exact E.
  - exfalso. apply Nr. exact (scal_no_ext _ _ _ TQ TP).
Qed.

Lemma fill_ok : forall ts reads ds v, reads_in ts reads -> NoDup (map read_path reads) -> ready ts reads v ->
  List.length ds = List.length reads ->
  exists x, fill reads ds v = Some x /\ fits (RStruct false ts) x
    /\ (forall i r d, nth_error reads i = Some r -> nth_error ds i = Some d ->
          get x (read_path r) = Some (VGot (fr_scanner r) d))
    /\ (forall q, ty_get (RStruct false ts) q = Some RScal -> ~ In q (map read_path reads) -> get x q = get v q)
    /\ (forall q fn d, get x q = Some (VGot fn d) -> In q (map read_path reads) \/ get v q = Some (VGot fn d)).
Proof.
  intros ts reads. induction reads as [|r reads IH]; intros [|d ds] v RI ND [F AD] LE; try discriminate.
  - exists v. cbn. split; [reflexivity|]. split; [exact F|]. split; [intros [|i]; discriminate|]. split; auto.
  - apply Forall_cons_iff in RI. destruct RI as [R RI]. cbn [map] in ND. apply NoDup_cons_iff in ND. destruct ND as [N1 ND].
    assert (T : ty_get (RStruct false ts) (read_path r) = Some RScal) by exact (in_type_ty _ _ _ R).
    assert (TS : forall x, In x reads -> ty_get (RStruct false ts) (read_path x) = Some RScal).
    { intros x I. rewrite Forall_forall in RI. exact (in_type_ty _ _ _ (RI _ I)). }
    destruct (get v (read_path r)) as [y|] eqn:G; [|exfalso; exact (AD r (or_introl eq_refl) G)].
    destruct (put_total _ (VGot (fr_scanner r) d) _ _ G) as [v1 V1].
    assert (SAME : forall x, In x reads -> get v1 (read_path x) = get v (read_path x)).
    { intros x I. eapply put_other_leaf; [exact T|exact (TS _ I)| |exact V1]. intros E. apply N1. rewrite E. apply in_map. exact I. }
    destruct (IH ds v1 RI ND) as (x & E1 & E2 & E3 & E4 & E5).
    { split.
      - eapply put_fits; [exact F|exact T| |exact V1]. right. eauto.
      - intros z I. rewrite (SAME _ I). apply AD. right. exact I. }
    { cbn in LE. lia. }
    exists x. cbn [fill]. rewrite V1. split; [exact E1|]. split; [exact E2|]. split; [|split].
    + intros [|i] z e Z Hd; cbn in Z, Hd.
      * injection Z as <-. injection Hd as <-. rewrite (E4 _ T N1). exact (get_put_same _ _ _ _ V1).
      * exact (E3 i z e Z Hd).
    + intros q TQ NQ. cbn in NQ. rewrite (E4 q TQ); [|tauto].
      eapply put_other_leaf; [exact T|exact TQ| |exact V1]. tauto.
    + intros q fn e GQ. destruct (E5 _ _ _ GQ) as [I|G1]; [left; right; exact I|].
      destruct (list_eq_dec (list_eq_dec Ascii.ascii_dec) (read_path r) q) as [D0|D]; [left; left; exact D0|].
      destruct (list_eq_dec (list_eq_dec Ascii.ascii_dec) (firstn (List.length (read_path r)) q) (read_path r)) as [E|D2].
      * assert (Q : q = read_path r ++ skipn (List.length (read_path r)) q) by (rewrite <- E at 1; symmetry; apply firstn_skipn).
        rewrite Q in G1. rewrite (get_put_ext _ _ _ _ _ V1) in G1. destruct (skipn _ q) eqn:SK; [|discriminate].
        rewrite app_nil_r in Q. congruence.
      * destruct (get_put_other _ _ _ _ q V1) as [E|(z & _ & _ & fs & E)].
        { intros [z ->]. apply D2. rewrite firstn_app, Nat.sub_diag, firstn_all. cbn. apply app_nil_r. }
        { right. rewrite <- E. exact G1. }
        { congruence. }
Qed.

(** A record allocated for the fields read is ready for them. *)
Lemma allocated_ready : forall ts v0 P A done v reads, allocated ts v0 P A done v -> reads_in ts reads ->
  (forall r p, In r reads -> pointer_on r p -> In p A) -> ready ts reads v.
Proof.
  intros ts v0 P A done v reads AL RI K. split; [exact (al_fits _ _ _ _ _ _ AL)|]. intros r I.
  unfold reads_in in RI. rewrite Forall_forall in RI. specialize (RI _ I). cbn beta in RI.
  pose proof (in_type_ty _ _ _ RI) as T.
  destruct (fits_get _ v _ _ (al_fits _ _ _ _ _ _ AL) T) as (y & G & _).
  - intros q x us E N TQ. apply (al_rec _ _ _ _ _ _ AL). apply (K r); [exact I|].
    (* q is a nonempty prefix of the selector *)
    set (sel := fi_sel (fr_field r)) in *.
    assert (Q : exists n, q = firstn n (map sn_name sel)).
    { exists (List.length q). assert (L : List.length q <= List.length (map sn_name sel)).
      { assert (LE : List.length (map sn_name sel ++ [fi_name (fr_field r)]) = List.length (q ++ x)) by (rewrite E; reflexivity).
        rewrite !app_length in LE. destruct x; [congruence|]. cbn in LE. lia. }
      assert (FE : firstn (List.length q) (map sn_name sel ++ [fi_name (fr_field r)]) = q).
      { rewrite E, firstn_app, Nat.sub_diag, firstn_all. cbn. apply app_nil_r. }
      rewrite firstn_app in FE. replace (List.length q - List.length (map sn_name sel)) with 0 in FE by lia.
      cbn in FE. rewrite app_nil_r in FE. symmetry. exact FE. }
    destruct Q as [n ->]. rewrite firstn_map in TQ |- *.
    destruct (firstn n sel) as [|z l] eqn:FN using rev_ind; [cbn in TQ; discriminate|]. clear IHl.
    exists l, z, (skipn n sel). fold sel. rewrite <- (firstn_skipn n sel) at 1. rewrite FN, <- app_assoc.
    split; [reflexivity|]. rewrite map_app in TQ |- *. cbn in TQ |- *. split; [|reflexivity].
    rewrite <- (firstn_skipn n sel), FN, <- app_assoc in RI. cbn in RI.
    destruct (in_type_ptr _ _ _ _ _ RI) as [ws T2]. congruence.
  - change (get v (read_path r) = Some y) in G. congruence.
Qed.

Lemma alloc_ok : forall ts reads v0, reads_in ts reads -> no_collision reads -> fits (RStruct false ts) v0 ->
  exists L v, init_fields reads [] = map InitPath L /\ init_run ts (map InitPath L) v0 = Some v
    /\ NoDup L /\ (forall p, In p L <-> exists r, In r reads /\ pointer_on r p)
    /\ ready ts reads v /\ no_more v0 v.
Proof.
  intros ts reads v0 RI NC F.
  destruct (init_fields_ok ts v0 (fun p => exists r, In r reads /\ pointer_on r p)) with (reads := reads) (A := @nil (list bytes)) (done := @nil bytes) (v := v0)
    as (L & d' & v & E1 & E2 & E3 & E4 & E5).
  - intros p1 p2 (r1 & I1 & H1) (r2 & I2 & H2). exact (NC _ _ _ _ I1 I2 H1 H2).
  - apply allocated_none. exact F.
  - exact RI.
  - intros r p I H. exists r. auto.
  - pose proof (allocated_ready _ _ _ _ _ _ _ E3 RI E4) as RD. rewrite app_nil_r in E3, E4.
    exists L, v. split; [exact E1|]. split; [exact E2|]. split.
    { rewrite <- (rev_involutive L). apply NoDup_rev. exact (al_nodup _ _ _ _ _ _ E3). }
    split; [|split; [exact RD|exact (al_got _ _ _ _ _ _ E3)]].
    intros p. split; [apply E5|]. intros (r & I & PO). apply in_rev. exact (E4 _ _ I PO).
Qed.

Lemma alloc_and_fill : forall ts reads v0 ds, reads_in ts reads -> no_collision reads -> fits (RStruct false ts) v0 ->
  NoDup (map read_path reads) -> List.length ds = List.length reads ->
  exists L v x, init_fields reads [] = map InitPath L /\ init_run ts (map InitPath L) v0 = Some v
    /\ ready ts reads v /\ fill reads ds v = Some x /\ scanned reads ds v0 x.
Proof.
  intros ts reads v0 ds RI NC F ND LE.
  destruct (alloc_ok ts reads v0 RI NC F) as (L & v & E1 & E2 & _ & _ & RD & NM).
  destruct (fill_ok _ _ ds _ RI ND RD LE) as (x & F1 & _ & F3 & _ & F5).
  exists L, v, x. split; [exact E1|]. split; [exact E2|]. split; [exact RD|]. split; [exact F1|].
  split; [exact LE|]. split; [exact F3|]. intros p fn d G. destruct (F5 _ _ _ G) as [I|G2]; [left; exact I|].
  right. exact (NM _ _ _ G2).
Qed.
