(** Definitions and proofs used by PropsRelLoad.v. *)
From Coq Require Import Ascii String ZArith NArith Bool List Lia.
From Verif Require Import GoBase AParse Analysis AnalysisProofs Check RelLoad RelLoadSpec.
Import ListNotations.
Local Open Scope list_scope.

Lemma eqb_true : forall a b, bytes_eqb a b = true -> a = b.
Proof.
  induction a as [|x a IH]; intros [|y b] H; cbn in H; try discriminate; auto.
  apply andb_prop in H. destruct H as [H1 H2]. f_equal; [|auto]. apply Ascii.eqb_eq. exact H1.
Qed.

Lemma ident_eq : forall a b, ident_eqb a b = true <-> a = b.
Proof.
  intros [n a q] [n' a' q']. unfold ident_eqb. cbn. split.
  - intros H. apply andb_prop in H. destruct H as [H H3]. apply andb_prop in H. destruct H as [H1 H2].
    apply eqb_true in H1, H2, H3. congruence.
  - intros H. inversion H. rewrite !bytes_eqb_refl. reflexivity.
Qed.

Lemma ident_dec : forall a b : RelIdent, a = b \/ a <> b.
Proof. intros a b. destruct (ident_eqb a b) eqn:E; [left; apply ident_eq, E|right]. intros H. apply ident_eq in H. congruence. Qed.

(** *** The specification as a function *)
Fixpoint firstf (l : list (database * RelIdent)) (id : RelIdent) : option relation :=
  match l with
  | [] => None
  | (db, k) :: r => if ident_eqb k id then match loadRelation db id with COk x => Some x | _ => firstf r id end else firstf r id
  end.

Lemma firstf_spec : forall l id r, firstf l id = Some r <-> first_load l id r.
Proof.
  induction l as [|[db k] l IH]; intros id r; cbn.
  - split; [discriminate|]. intros H. inversion H.
  - destruct (ident_eqb k id) eqn:E.
    + apply ident_eq in E. subst k. destruct (loadRelation db id) as [x| |] eqn:L.
      * split; [intros H; inversion H; subst; constructor; exact L|]. intros H. inversion H; subst; congruence.
      * rewrite IH. split; [intros H; apply fl_failed; [congruence|exact H]|]. intros H. inversion H; subst; congruence.
      * rewrite IH. split; [intros H; apply fl_failed; [congruence|exact H]|]. intros H. inversion H; subst; congruence.
    + assert (N : id <> k) by (intros ->; rewrite (proj2 (ident_eq k k) eq_refl) in E; discriminate).
      rewrite IH. split; [intros H; apply fl_other; auto|]. intros H. inversion H; subst; congruence.
Qed.

Lemma firstf_app : forall a b id, firstf (a ++ b) id = match firstf a id with Some r => Some r | None => firstf b id end.
Proof.
  induction a as [|[db k] a IH]; intros b id; cbn; [reflexivity|]. rewrite IH.
  destruct (ident_eqb k id); [|reflexivity]. destruct (loadRelation db id); reflexivity.
Qed.

(** *** The invariant: [p] are the loads so far *)
Record inv (p : list (database * RelIdent)) (s : loader) : Prop := {
  inv_find : forall id, match find_rel id (ld_map s) with
                        | Some a => exists r, nth_error (ld_heap s) a = Some r /\ firstf p id = Some r
                        | None => firstf p id = None
                        end;
  inv_inj : forall i j a, find_rel i (ld_map s) = Some a -> find_rel j (ld_map s) = Some a -> i = j }.

Record ext (s s' : loader) : Prop := {
  ext_map : forall id a, find_rel id (ld_map s) = Some a -> find_rel id (ld_map s') = Some a;
  ext_heap : forall a r, nth_error (ld_heap s) a = Some r -> nth_error (ld_heap s') a = Some r }.

Definition result (p : list (database * RelIdent)) (s : loader) (db : database) (id : RelIdent) (x : cres nat) : Prop :=
  match x with
  | COk a => find_rel id (ld_map s) = Some a /\ exists r, nth_error (ld_heap s) a = Some r /\ firstf (p ++ [(db, id)]) id = Some r
  | CErr e => firstf p id = None /\ loadRelation db id = CErr e
  | CPanic => firstf p id = None /\ loadRelation db id = CPanic
  end.

Lemma ext_refl : forall s, ext s s.
Proof. intros s. split; auto. Qed.

Lemma ext_trans : forall a b c, ext a b -> ext b c -> ext a c.
Proof. intros a b c [A1 A2] [B1 B2]. split; auto. Qed.

Lemma result_ext : forall p s s' db id x, ext s s' -> result p s db id x -> result p s' db id x.
Proof.
  intros p s s' db id x [E1 E2] R. destruct x as [a|e|]; cbn in *; auto. destruct R as (F & r & H & K). split; [auto|]. exists r. auto.
Qed.

Lemma load1 : forall p s db id, inv p s ->
  result p (snd (loadRelationC db s id)) db id (fst (loadRelationC db s id))
  /\ ext s (snd (loadRelationC db s id)) /\ inv (p ++ [(db, id)]) (snd (loadRelationC db s id)).
Proof.
  intros p s db id [F J]. unfold loadRelationC. pose proof (F id) as Fi.
  assert (ID : ident_eqb id id = true) by (apply ident_eq; reflexivity).
  assert (OT : forall k, k <> id -> firstf (p ++ [(db, id)]) k = firstf p k).
  { intros k N. rewrite firstf_app. destruct (firstf p k); [reflexivity|]. cbn. destruct (ident_eqb id k) eqn:E; [|reflexivity].
    apply ident_eq in E. congruence. }
  destruct (find_rel id (ld_map s)) as [a|] eqn:L; cbn [fst snd].
  - destruct Fi as (r & H & K).
    assert (K' : firstf (p ++ [(db, id)]) id = Some r) by (rewrite firstf_app, K; reflexivity).
    split; [cbn; split; [exact L|exists r; auto]|]. split; [apply ext_refl|]. split; [|exact J].
    intros k. destruct (ident_dec k id) as [->|N]; [rewrite L; exists r; auto|]. rewrite (OT k N). apply F.
  - destruct (loadRelation db id) as [r|e|] eqn:LR; cbn [fst snd].
    + assert (K' : firstf (p ++ [(db, id)]) id = Some r) by (rewrite firstf_app, Fi; cbn; rewrite ID, LR; reflexivity).
      assert (H' : nth_error (ld_heap s ++ [r]) (List.length (ld_heap s)) = Some r) by (rewrite nth_error_app2, Nat.sub_diag; [reflexivity|lia]).
      assert (OK : forall k, k <> id -> find_rel k ((id, List.length (ld_heap s)) :: ld_map s) = find_rel k (ld_map s)).
      { intros k N. cbn. destruct (ident_eqb id k) eqn:E; [|reflexivity]. apply ident_eq in E. congruence. }
      assert (LT : forall k a, find_rel k (ld_map s) = Some a -> a < List.length (ld_heap s)).
      { intros k a H. specialize (F k). rewrite H in F. destruct F as (r' & H1 & _). apply nth_error_Some. congruence. }
      split; [cbn; rewrite ID; split; [reflexivity|exists r; auto]|].
      split; [split; cbn [ld_map ld_heap]|split; cbn [ld_map ld_heap]].
      * intros k a H. rewrite OK; [exact H|]. intros ->. congruence.
      * intros a x H. rewrite nth_error_app1; [exact H|]. apply nth_error_Some. congruence.
      * intros k. destruct (ident_dec k id) as [->|N]; [cbn; rewrite ID; exists r; auto|].
        rewrite (OK k N), (OT k N). specialize (F k). destruct (find_rel k (ld_map s)) as [a|] eqn:E; [|exact F].
        destruct F as (x & H1 & H2). exists x. split; [|exact H2]. rewrite nth_error_app1; [exact H1|]. eapply LT; exact E.
      * intros i j a H1 H2. destruct (ident_dec i id) as [->|Ni]; destruct (ident_dec j id) as [->|Nj]; auto.
        -- cbn in H1. rewrite ID in H1. inversion H1; subst a. rewrite OK in H2 by exact Nj. apply LT in H2. lia.
        -- cbn in H2. rewrite ID in H2. inversion H2; subst a. rewrite OK in H1 by exact Ni. apply LT in H1. lia.
        -- rewrite OK in H1 by exact Ni. rewrite OK in H2 by exact Nj. eapply J; eauto.
    + split; [cbn; auto|]. split; [apply ext_refl|]. split; [|exact J].
      intros k. destruct (ident_dec k id) as [->|N]; [|rewrite (OT k N); apply F].
      rewrite L, firstf_app, Fi. cbn. rewrite ID, LR. reflexivity.
    + split; [cbn; auto|]. split; [apply ext_refl|]. split; [|exact J].
      intros k. destruct (ident_dec k id) as [->|N]; [|rewrite (OT k N); apply F].
      rewrite L, firstf_app, Fi. cbn. rewrite ID, LR. reflexivity.
Qed.

Lemma loads_all : forall l p s, inv p s ->
  ext s (snd (loads s l)) /\ inv (p ++ l) (snd (loads s l)) /\ List.length (fst (loads s l)) = List.length l
  /\ forall i db id x, nth_error l i = Some (db, id) -> nth_error (fst (loads s l)) i = Some x ->
       result (p ++ firstn i l) (snd (loads s l)) db id x.
Proof.
  induction l as [|[db id] l IH]; intros p s I; cbn [loads].
  - rewrite app_nil_r. split; [apply ext_refl|]. split; [exact I|]. split; [reflexivity|]. intros [|i] ? ? ? H; discriminate H.
  - destruct (load1 p s db id I) as (R & E & I'). destruct (loadRelationC db s id) as [x s1]. cbn [fst snd] in *.
    destruct (IH _ _ I') as (E2 & I2 & Ln & R2). destruct (loads s1 l) as [xs s2]. cbn [fst snd] in *.
    rewrite <- app_assoc in I2. cbn in I2.
    split; [eapply ext_trans; eauto|]. split; [exact I2|]. split; [cbn; congruence|].
    intros [|i] db' id' x' H1 H2; cbn in H1, H2.
    + inversion H1; inversion H2; subst. cbn. rewrite app_nil_r. eapply result_ext; eauto.
    + cbn [firstn]. specialize (R2 i db' id' x' H1 H2). rewrite <- app_assoc in R2. exact R2.
Qed.

Lemma inv_none : inv [] no_loads.
Proof. split; [intros id; reflexivity|]. intros i j a H. discriminate H. Qed.

Lemma firstf_none : forall l id, firstf l id = None <-> (forall r, ~ first_load l id r).
Proof.
  intros l id. split.
  - intros H r K. apply firstf_spec in K. congruence.
  - intros H. destruct (firstf l id) as [r|] eqn:E; [|reflexivity]. apply firstf_spec in E. exfalso. eapply H; exact E.
Qed.

Lemma C105_loaded_lemma : forall l i db id x, nth_error l i = Some (db, id) -> nth_error (fst (loads no_loads l)) i = Some x ->
  match x with
  | COk a => exists r, nth_error (ld_heap (snd (loads no_loads l))) a = Some r /\ first_load (firstn (S i) l) id r
  | CErr e => (forall r, ~ first_load (firstn i l) id r) /\ loadRelation db id = CErr e
  | CPanic => (forall r, ~ first_load (firstn i l) id r) /\ loadRelation db id = CPanic
  end.
Proof.
  intros l i db id x H1 H2. destruct (loads_all l [] no_loads inv_none) as (_ & _ & _ & R). specialize (R i db id x H1 H2). cbn [app] in R.
  assert (F : firstn (S i) l = firstn i l ++ [(db, id)]).
  { clear - H1. revert i H1. induction l as [|y l IH]; intros [|i] H; try discriminate H; cbn in *; [inversion H; subst; reflexivity|]. f_equal. apply IH, H. }
  destruct x as [a|e|]; cbn in R.
  - destruct R as (_ & r & N & K). exists r. split; [exact N|]. rewrite F. apply firstf_spec, K.
  - destruct R as [R1 R2]. split; [|exact R2]. apply firstf_none, R1.
  - destruct R as [R1 R2]. split; [|exact R2]. apply firstf_none, R1.
Qed.

Lemma C105_same_database_lemma : forall db ids i id x, nth_error ids i = Some id ->
  nth_error (fst (loads no_loads (map (pair db) ids))) i = Some x ->
  match x with
  | COk a => exists r, nth_error (ld_heap (snd (loads no_loads (map (pair db) ids)))) a = Some r /\ loadRelation db id = COk r
  | CErr e => loadRelation db id = CErr e
  | CPanic => loadRelation db id = CPanic
  end.
Proof.
  intros db ids i id x H1 H2. pose proof (C105_loaded_lemma (map (pair db) ids) i db id x) as C.
  rewrite nth_error_map, H1 in C. specialize (C eq_refl H2).
  destruct x as [a|e|]; try apply C. destruct C as (r & N & K). exists r. split; [exact N|]. clear - K.
  revert K. generalize (S i). intros n. revert n. induction ids as [|k ids IH]; intros [|n] K; cbn in K; inversion K; subst; auto; eapply IH; eauto.
Qed.

Lemma C105_pointers_lemma : forall l i j db db' id id' a b,
  nth_error l i = Some (db, id) -> nth_error l j = Some (db', id') ->
  nth_error (fst (loads no_loads l)) i = Some (COk a) -> nth_error (fst (loads no_loads l)) j = Some (COk b) ->
  (a = b <-> id = id').
Proof.
  intros l i j db db' id id' a b H1 H2 H3 H4. destruct (loads_all l [] no_loads inv_none) as (_ & [_ J] & _ & R).
  pose proof (R _ _ _ _ H1 H3) as R1. pose proof (R _ _ _ _ H2 H4) as R2. cbn in R1, R2. destruct R1 as [R1 _]. destruct R2 as [R2 _].
  split; [intros ->; eapply J; eauto|]. intros ->. congruence.
Qed.

Lemma C105_total_lemma : forall l, List.length (fst (loads no_loads l)) = List.length l.
Proof. intros l. apply (loads_all l [] no_loads inv_none). Qed.

Lemma C105_loaded_proof : forall l i db id x, nth_error l i = Some (db, id) -> nth_error (fst (loads no_loads l)) i = Some x ->
  match x with
  | COk a => exists r, nth_error (ld_heap (snd (loads no_loads l))) a = Some r /\ first_load (firstn (S i) l) id r
  | CErr e => (forall r, ~ first_load (firstn i l) id r) /\ loadRelation db id = CErr e
  | CPanic => (forall r, ~ first_load (firstn i l) id r) /\ loadRelation db id = CPanic
  end.
Proof. exact C105_loaded_lemma. Qed.

Lemma C105_total_proof : forall l, List.length (fst (loads no_loads l)) = List.length l.
Proof. exact C105_total_lemma. Qed.

Lemma C105_same_database_proof : forall db ids i id x, nth_error ids i = Some id ->
  nth_error (fst (loads no_loads (map (pair db) ids))) i = Some x ->
  match x with
  | COk a => exists r, nth_error (ld_heap (snd (loads no_loads (map (pair db) ids)))) a = Some r /\ loadRelation db id = COk r
  | CErr e => loadRelation db id = CErr e
  | CPanic => loadRelation db id = CPanic
  end.
Proof. exact C105_same_database_lemma. Qed.

Lemma C105_pointers_proof : forall l i j db db' id id' a b,
  nth_error l i = Some (db, id) -> nth_error l j = Some (db', id') ->
  nth_error (fst (loads no_loads l)) i = Some (COk a) -> nth_error (fst (loads no_loads l)) j = Some (COk b) ->
  (a = b <-> id = id').
Proof. exact C105_pointers_lemma. Qed.

(** A table that is missing at first, then is loaded under two names; the last
    load finds the first row although the database has changed. *)
Definition ex_rel (oid : N) : relrow := MkRelRow oid true [] [(B "users_pkey", ConPKey)] [].

Definition ex_data (o : option N) : database :=
  MkDB (MkCat [] [] [] []) (fun n => if bytes_eqb n (B "users") then option_map ex_rel o else None) (fun _ => None).

Definition ex_u : RelIdent := MkRel (B "users") (B "u") [].

Definition ex_v : RelIdent := MkRel (B "users") (B "v") [].
