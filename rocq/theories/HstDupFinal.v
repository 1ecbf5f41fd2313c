(** Definitions and proofs used by PropsHstDup.v. *)
From Coq Require Import Ascii String ZArith NArith Bool List Lia.
From Verif Require Import GoBase Strconv ConvertUtil Codecs IntCodecs Hstore PgSpec ConvertProofs PgSpecProofs TextProofs SimpleProofs DecimalLink IntProofs HstoreProofs ArraysFinal.
Import ListNotations.
Local Open Scope char_scope.

(** The last pair with the key [k] is [(k, x)]. *)
Definition last_pair (ps : list (bytes * option bytes)) (k : bytes) (x : option bytes) : Prop :=
  exists l1 l2, ps = l1 ++ (k, x) :: l2 /\ ~ In k (map fst l2).

(** [m] has one entry for each key of [ps], and it is the last one; [read] is
    what becomes of a value. *)
Definition last_of (read : option bytes -> option bytes) (ps m : list (bytes * option bytes)) : Prop :=
  NoDup (map fst m) /\ forall k v, In (k, v) m <-> exists x, last_pair ps k x /\ v = read x.

Lemma upsert_keys : forall V k (v : V) m, NoDup (map fst m) -> NoDup (map fst (upsert k v m)) /\ forall j, In j (map fst (upsert k v m)) <-> j = k \/ In j (map fst m).
Proof.
  intros V k v. induction m as [|[k' v'] m IH]; intros H; cbn.
  - split; [repeat constructor; tauto|]. intros j. intuition congruence.
  - cbn in H. inversion H as [|? ? N D]; subst. destruct (bytes_eqb k k') eqn:E.
    + apply bytes_eqb_eq in E. subst. cbn. split; [exact H|]. intros j. intuition congruence.
    + destruct (IH D) as [I1 I2]. cbn. split.
      * constructor; [|exact I1]. rewrite I2. intros [->|K]; [|contradiction]. rewrite (proj2 (bytes_eqb_eq _ _) eq_refl) in E. discriminate.
      * intros j. rewrite I2. intuition congruence.
Qed.

Lemma upsert_in : forall V k (v : V) m j x, NoDup (map fst m) -> (In (j, x) (upsert k v m) <-> (j = k /\ x = v) \/ (j <> k /\ In (j, x) m)).
Proof.
  intros V k v m j x. induction m as [|[k' v'] m IH]; intros H; cbn.
  - intuition congruence.
  - cbn in H. inversion H as [|? ? N D]; subst. destruct (bytes_eqb k k') eqn:E.
    + apply bytes_eqb_eq in E. subst. cbn. split.
      * intros [K|K]; [left; injection K; auto|]. right. split; [|now right]. intros ->. apply N. change k' with (fst (k', x)). now apply in_map.
      * intros [[-> ->]|[M [K|K]]]; [now left|injection K as -> _; congruence|now right].
    + cbn. rewrite (IH D). assert (NE : k' <> k) by (intros ->; rewrite (proj2 (bytes_eqb_eq k k) eq_refl) in E; discriminate). split.
      * intros [K|[K|[M K]]]; [injection K as -> ->; right; split; [exact NE|now left]|now left|right; split; [exact M|now right]].
      * intros [K|[M [K|K]]]; [right; now left|now left|right; right; now split].
Qed.

Lemma fold_upsert_last : forall (f : option bytes -> option bytes) ps,
  last_of f ps (build (map (fun p => (fst p, f (snd p))) ps)).
Proof.
  intros f ps. unfold build. induction ps as [|[k x] ps IH] using rev_ind.
  - split; [constructor|]. intros k v. split; [intros []|]. intros (x & ([|a l1] & l2 & E & _) & _); discriminate.
  - rewrite map_app, fold_left_app. cbn [map fold_left fst snd]. destruct IH as [I1 I2]. set (m := fold_left _ _ _) in *. split; [now apply upsert_keys|].
    intros j v. rewrite (upsert_in _ _ _ _ _ _ I1). split.
    + intros [[-> ->]|[N K]].
      * exists x. split; [|reflexivity]. exists ps, []. split; [reflexivity|]. intros [].
      * apply I2 in K. destruct K as (y & (l1 & l2 & -> & L) & ->). exists y. split; [|reflexivity]. exists l1, (l2 ++ [(k, x)]). split; [now rewrite <- app_assoc|].
        rewrite map_app. intros K. apply in_app_iff in K. destruct K as [K|[K|[]]]; [contradiction|]. cbn in K. congruence.
    + intros (y & (l1 & l2 & E & L) & ->). destruct l2 as [|z l2 _] using rev_ind.
      * apply app_inj_tail in E. destruct E as [-> E]. injection E as -> ->. now left.
      * rewrite app_comm_cons, app_assoc in E. apply app_inj_tail in E. destruct E as [-> <-]. rewrite map_app in L. right. split.
        -- intros ->. apply L. apply in_app_iff. right. now left.
        -- apply I2. exists y. split; [|reflexivity]. exists l1, l2. split; [reflexivity|]. intros K. apply L. apply in_app_iff. now left.
Qed.

Lemma scan_any : forall val m old s, s = Some (hstore_out m) \/ s = HStoreFrom (Some m) ->
  HStoreTo val s old = Ok (Some (build (map (fun x => (fst x, val (str_of (snd x)))) m))).
Proof.
  intros val m old s [-> | ->].
  - rewrite hstore_out_text. unfold HStoreTo, srcbytes. rewrite hs_pairs; [|apply good_pg|now right]. cbn [rmap bind]. now rewrite map_map.
  - rewrite hstore_literal. unfold HStoreTo, srcbytes. rewrite hs_pairs; [|apply good_go|now left]. cbn [rmap bind]. now rewrite map_map.
Qed.

Lemma last_of_ext : forall f g ps m, (forall o, f o = g o) -> last_of f ps m -> last_of g ps m.
Proof.
  intros f g ps m E [N H]. split; [exact N|]. intros k v. rewrite H. split; intros (x & L & ->); exists x; (split; [exact L|]); [apply E|symmetry; apply E].
Qed.

Lemma scan_last : forall val f ps old s, (forall o, val (str_of o) = f o) -> s = Some (hstore_out ps) \/ s = HStoreFrom (Some ps) ->
  exists m, HStoreTo val s old = Ok (Some m) /\ last_of f ps m.
Proof.
  intros val f ps old s E S. eexists. split; [exact (scan_any val ps old s S)|]. apply (last_of_ext (fun o => val (str_of o))); [exact E|]. exact (fold_upsert_last (fun o => val (str_of o)) ps).
Qed.

Lemma C08_hstore_last_proof : forall (ps : list (bytes * option bytes)) old s, s = Some (hstore_out ps) \/ s = HStoreFrom (Some ps) ->
  (exists m, HStoreToStringPtrMap s old = Ok (Some m) /\ last_of nullable_read ps m)
  /\ (exists m, HStoreToNullStringMap s old = Ok (Some m) /\ last_of nullable_read ps m)
  /\ (exists m, HStoreToStringMap s old = Ok (Some m) /\ last_of plain_read ps m).
Proof.
  intros ps old s S. exact (conj (scan_last _ _ ps old s val_opt_read S) (conj (scan_last _ _ ps old s val_opt_read S) (scan_last _ _ ps old s val_str_read S))).
Qed.

Lemma C09_hstorearr_last_proof : forall (l : list (option (list (bytes * option bytes)))) old s,
  s = Some (array_out (map (option_map hstore_out) l)) \/ s = HStoreArrayFrom (Some l) ->
  let same f x m := match x, m with Some ps, Some m => last_of f ps m | None, None => True | _, _ => False end in
  (exists ms, HStoreArrayToStringPtrMapSlice s old = Ok (Some ms) /\ Forall2 (same nullable_read) l ms)
  /\ (exists ms, HStoreArrayToNullStringMapSlice s old = Ok (Some ms) /\ Forall2 (same nullable_read) l ms)
  /\ (exists ms, HStoreArrayToStringMapSlice s old = Ok (Some ms) /\ Forall2 (same plain_read) l ms).
Proof.
  intros l old s S same.
  assert (X : forall val f, (forall o, val (str_of o) = f o) -> exists ms, HStoreArrayTo val s old = Ok (Some ms) /\ Forall2 (same f) l ms).
  { intros val f E. exists (map (option_map (fun ps => build (map (fun x => (fst x, val (str_of (snd x)))) ps))) l). split.
    - assert (G : forall p sep, good_esc p -> sep_ok sep -> HStoreArrayTo val (Some ("{" :: commas (map (elem2_text p sep) l) ++ ["}"])) old
        = Ok (Some (map (option_map (fun ps => build (map (fun x => (fst x, val (str_of (snd x)))) ps))) l))).
      { intros p sep G1 G2. unfold HStoreArrayTo, srcbytes. rewrite hsa_array by assumption. unfold rmap. cbn [bind]. do 2 f_equal. rewrite map_map. apply map_ext.
        intros [m|]; cbn [option_map]; [|reflexivity]. unfold read_pairs. now rewrite map_map. }
      destruct S as [-> | ->].
      + unfold array_out. rewrite map_map. rewrite (map_ext _ _ hstore_elem_out). apply G; [apply good_pg|now right].
      + rewrite hstorearr_literal. apply G; [apply good_go|now left].
    - clear S. induction l as [|[ps|] l IH]; cbn; constructor; try exact IH; [|exact Logic.I]. apply (last_of_ext (fun o => val (str_of o))); [exact E|]. exact (fold_upsert_last (fun o => val (str_of o)) ps). }
  exact (conj (X _ _ val_opt_read) (conj (X _ _ val_opt_read) (X _ _ val_str_read))).
Qed.
