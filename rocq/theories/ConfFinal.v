(** Definitions and proofs used by PropsConf.v. *)
From Coq Require Import Ascii String ZArith NArith Bool List Lia.
From Verif Require Import GoBase Strconv Utf8 Filter AParse Analysis ConvertProofs AnalysisProofs Config ConfigSpec.
Import ListNotations.
Local Open Scope string_scope.
Local Open Scope list_scope.

Fixpoint apply_all (st : cstate) (occs : list (target * bytes)) : option cstate :=
  match occs with
  | [] => Some st
  | (t, v) :: occs => match set_target st t v with None => None | Some st => apply_all st occs end
  end.

Lemma cut_first_sound : forall sep s a b, cut_first sep s = Some (a, b) -> s = a ++ sep :: b.
Proof.
  induction s as [|c r IH]; cbn; intros a b H; [discriminate|].
  destruct (beq c sep) eqn:E.
  - injection H as <- <-. apply Ascii.eqb_eq in E. subst. reflexivity.
  - destruct (cut_first sep r) as [[a' b']|]; [|discriminate].
    injection H as <- <-. cbn. f_equal. apply IH. reflexivity.
Qed.

Lemma lookup_in : forall A (m : list (bytes * A)) k v, Filter.lookup k m = Some v -> In (k, v) m.
Proof.
  induction m as [|[k' v'] m IH]; cbn; intros k v H; [discriminate|].
  destruct (bytes_eqb k k') eqn:E.
  - injection H as <-. apply bytes_eqb_eq in E. subst. left. reflexivity.
  - right. apply IH. exact H.
Qed.

Lemma flag_target_in : forall n t, flag_target n = Some t -> In (n, t) flags.
Proof.
  unfold flag_target. intros n t H.
  destruct (Filter.lookup n flag_opts) as [o|] eqn:E.
  - injection H as <-. apply lookup_in in E. cbn in E.
    repeat (destruct E as [E|E]; [injection E as <- <-; cbn; tauto|]). destruct E.
  - destruct (bytes_eqb n (B "config")) eqn:E2; [|discriminate].
    injection H as <-. apply bytes_eqb_eq in E2. subst. cbn. tauto.
Qed.

Lemma arg_flag : forall a body, arg_kind a = AFlag body -> exists d, dash d /\ a = d ++ body.
Proof.
  intros [|c1 [|c2 r]] body; cbn; try discriminate.
  destruct (negb (beq c1 "-")) eqn:E1; [discriminate|].
  apply negb_false_iff in E1. apply Ascii.eqb_eq in E1. subst.
  destruct (beq c2 "-") eqn:E2.
  - apply Ascii.eqb_eq in E2. subst. destruct r; [discriminate|].
    intros [= <-]. exists (B "--"). split; [right; reflexivity|reflexivity].
  - intros [= <-]. exists (B "-"). split; [left; reflexivity|reflexivity].
Qed.

Lemma split_sound : forall body n v, split_flag body = Some (n, v) ->
  body = n ++ match v with Some x => "="%char :: x | None => [] end.
Proof.
  intros [|c r] n v; cbn; [discriminate|].
  destruct (beq c "-" || beq c "="); [discriminate|].
  destruct (cut_first "=" r) as [[a b]|] eqn:E; intros [= <- <-].
  - apply cut_first_sound in E. subst. reflexivity.
  - rewrite app_nil_r. reflexivity.
Qed.

Lemma is_bool_spec : forall t,
  (match t with TOpt o => is_bool_flag o | TFile => false end) = true <-> switch t.
Proof. intros [[]|]; cbn; unfold switch; cbn; intuition discriminate. Qed.

Lemma parse_reads : forall n args st st', List.length args <= n -> parse_flags st args = Some st' ->
  exists occs, cmdline args occs /\ apply_all st occs = Some st'.
Proof.
  induction n as [|n IH]; intros args st st' Hn H.
  - destruct args; [|cbn in Hn; lia]. cbn in H. injection H as <-. exists []. split; [constructor|reflexivity].
  - destruct args as [|a args].
    { cbn in H. injection H as <-. exists []. split; [constructor|reflexivity]. }
    cbn in Hn. cbn [parse_flags] in H.
    destruct (arg_kind a) as [| |body] eqn:Ea.
    + injection H as <-. exists []. split; [|reflexivity]. apply cl_stop. intros d body [Hd|Hd] Hb Eq; subst;
        destruct body as [|c body]; try congruence; cbn in Ea; try discriminate.
      destruct (beq c "-"); [|discriminate]. destruct body; discriminate.
    + injection H as <-. exists []. split; [|reflexivity].
      destruct a as [|c1 [|c2 r]]; try discriminate. cbn in Ea.
      destruct (beq c1 "-") eqn:E1; [|discriminate]. destruct (beq c2 "-") eqn:E2; [|discriminate].
      destruct r; [|discriminate]. apply Ascii.eqb_eq in E1, E2. subst. apply cl_end.
    + destruct (split_flag body) as [[name v]|] eqn:Es; [|discriminate].
      destruct (flag_target name) as [t|] eqn:Et; [|discriminate].
      apply arg_flag in Ea. destruct Ea as (d & Hd & ->). apply split_sound in Es. subst body.
      apply flag_target_in in Et.
      pose proof (is_bool_spec t) as Hb.
      destruct (match t with TOpt o => is_bool_flag o | TFile => false end).
      * destruct v as [v|].
        -- destruct (set_target st t v) as [st1|] eqn:E1; [|discriminate].
           apply IH in H; [|lia]. destruct H as (occs & Hc & Ho).
           exists ((t, v) :: occs). split.
           ++ apply cl_eq; assumption.
           ++ cbn. rewrite E1. exact Ho.
        -- destruct (set_target st t (B "true")) as [st1|] eqn:E1; [|discriminate].
           apply IH in H; [|lia]. destruct H as (occs & Hc & Ho).
           exists ((t, B "true") :: occs). split.
           ++ rewrite app_nil_r. apply cl_switch; try assumption. apply Hb. reflexivity.
           ++ cbn [apply_all]. rewrite E1. exact Ho.
      * destruct v as [v|].
        -- destruct (set_target st t v) as [st1|] eqn:E1; [|discriminate].
           apply IH in H; [|lia]. destruct H as (occs & Hc & Ho).
           exists ((t, v) :: occs). split.
           ++ apply cl_eq; assumption.
           ++ cbn. rewrite E1. exact Ho.
        -- destruct args as [|v args]; [discriminate|].
           destruct (set_target st t v) as [st1|] eqn:E1; [|discriminate].
           apply IH in H; [|cbn in Hn; lia]. destruct H as (occs & Hc & Ho).
           exists ((t, v) :: occs). split.
           ++ rewrite app_nil_r. apply cl_next; try assumption. intros Hs. apply Hb in Hs. discriminate.
           ++ cbn. rewrite E1. exact Ho.
Qed.

Lemma parse_apply : forall args occs, cmdline args occs -> forall st, parse_flags st args = apply_all st occs.
Proof.
  induction 1 as [|a rest Hs|rest|d n t rest occs Hd Hf Hs Hc IH|d n t v rest occs Hd Hf Hc IH|d n t v rest occs Hd Hf Hs Hc IH];
    intros st.
  - reflexivity.
  - cbn [parse_flags]. destruct (arg_kind a) as [| |body] eqn:Ea; try reflexivity.
    pose proof (arg_flag _ _ Ea) as (d & Hd & ->).
    assert (Hn : body <> []).
    { intros ->. destruct Hd; subst; cbn in Ea; discriminate. }
    exfalso. exact (Hs d body Hd Hn eq_refl).
  - reflexivity.
  - cbn [apply_all].
    repeat (destruct Hf as [Hf|Hf]; [injection Hf as <- <-; try (exfalso; exact Hs);
      destruct Hd; subst; cbn [parse_flags]; cbn -[set_target];
      match goal with |- context [set_target ?a ?b ?c] => destruct (set_target a b c) end; auto|]).
    destruct Hf.
  - cbn [apply_all].
    repeat (destruct Hf as [Hf|Hf]; [injection Hf as <- <-;
      destruct Hd; subst; cbn [parse_flags]; cbn -[set_target];
      match goal with |- context [set_target ?a ?b ?c] => destruct (set_target a b c) end; auto|]).
    destruct Hf.
  - cbn [apply_all].
    repeat (destruct Hf as [Hf|Hf]; [injection Hf as <- <-; try (exfalso; apply Hs; exact Logic.I);
      destruct Hd; subst; cbn [parse_flags]; cbn -[set_target];
      match goal with |- context [set_target ?a ?b ?c] => destruct (set_target a b c) end; auto|]).
    destruct Hf.
Qed.

Fixpoint set_all (v : oval * bool) (l : list bytes) : option (oval * bool) :=
  match l with
  | [] => Some v
  | x :: l => match oset v x with None => None | Some v => set_all v l end
  end.

Definition kind_ok (o : opt) (v : oval) : Prop :=
  match v with
  | VS _ => textual o = true
  | VB _ => switch (TOpt o)
  | VL _ => o = OFiles \/ o = ORegexps
  | VT _ => o = OArg
  end.

Lemma oset_kind : forall o v x v', kind_ok o (fst v) -> oset v x = Some v' -> kind_ok o (fst v').
Proof.
  intros o [v s] x v' K H. destruct v; cbn in H.
  - injection H as <-. exact K.
  - destruct x; [injection H as <-; exact K|]. destruct (ParseBool (a :: x)); [|discriminate].
    injection H as <-. exact K.
  - destruct x; injection H as <-; exact K.
  - destruct x; [injection H as <-; exact K|]. destruct (gotype_set t (a :: x)); [|discriminate].
    injection H as <-. exact K.
Qed.

Lemma oset_uncounted : forall o v x, kind_ok o (fst v) -> counts o x = false -> oset v x = Some v.
Proof.
  intros o [v s] x K H. unfold counts in H. apply orb_false_iff in H. destruct H as [H1 H2].
  apply negb_false_iff in H2. apply bytes_eqb_eq in H2. subst x.
  destruct v; cbn in *; try reflexivity. congruence.
Qed.

Lemma upd_same : forall c o v, upd c o v o = v.
Proof. intros. unfold upd. destruct (opt_eq o o); congruence. Qed.

Lemma upd_other : forall c o o' v, o <> o' -> upd c o v o' = c o'.
Proof. intros. unfold upd. destruct (opt_eq o o'); congruence. Qed.

Lemma apply_given : forall occs st st', (forall o, kind_ok o (fst (fst st o))) -> apply_all st occs = Some st' ->
  forall o, set_all (fst st o) (given o occs) = Some (fst st' o).
Proof.
  induction occs as [|[t x] occs IH]; intros [c f] st' K H o; cbn in H.
  - injection H as <-. reflexivity.
  - destruct t as [o'|]; cbn in H.
    + destruct (oset (c o') x) as [v|] eqn:E; [|discriminate].
      assert (K' : forall o0, kind_ok o0 (fst (upd c o' v o0))).
      { intros o0. unfold upd. destruct (opt_eq o' o0) as [<-|]; [|apply K].
        eapply oset_kind; [apply (K o')|exact E]. }
      specialize (IH (upd c o' v, f) st' K' H o). cbn in IH.
      cbn [given flat_map fst snd]. destruct (opt_eq o o') as [->|N].
      * rewrite upd_same in IH. destruct (counts o' x) eqn:C.
        -- cbn. rewrite E. exact IH.
        -- pose proof (oset_uncounted o' _ _ (K o') C) as X. cbn [fst] in X. rewrite X in E. injection E as <-. exact IH.
      * rewrite upd_other in IH by congruence. exact IH.
    + specialize (IH (c, x) st' K H o). exact IH.
Qed.

Lemma apply_named : forall occs st st', apply_all st occs = Some st' ->
  snd st' = last (flat_map (fun tv : target * bytes => match fst tv with TFile => [snd tv] | TOpt _ => [] end) occs) (snd st).
Proof.
  induction occs as [|[t x] occs IH]; intros [c f] st' H; cbn in H.
  - injection H as <-. reflexivity.
  - destruct t as [o'|]; cbn in H.
    + destruct (oset (c o') x) as [v|]; [|discriminate]. apply IH in H. exact H.
    + apply IH in H. rewrite H. cbn [flat_map fst snd app].
      destruct (flat_map (fun tv : target * bytes => match fst tv with TFile => [snd tv] | TOpt _ => [] end) occs) eqn:E;
        [reflexivity|].
      cbn [last]. clear. revert l b. induction l as [|y l IH]; intros b; [reflexivity|]. cbn [last]. apply IH.
Qed.

Lemma parse_bool_yes : forall x b, ParseBool x = Some b -> if b then says_yes x else says_no x.
Proof.
  unfold ParseBool. intros x b H.
  destruct (existsb (bytes_eqb x) [B "1"; B "t"; B "T"; B "TRUE"; B "true"; B "True"]) eqn:E1.
  - injection H as <-. apply existsb_exists in E1. destruct E1 as (y & Hy & E).
    apply bytes_eqb_eq in E. subst. exact Hy.
  - destruct (existsb (bytes_eqb x) [B "0"; B "f"; B "F"; B "FALSE"; B "false"; B "False"]) eqn:E2; [|discriminate].
    injection H as <-. apply existsb_exists in E2. destruct E2 as (y & Hy & E).
    apply bytes_eqb_eq in E. subst. exact Hy.
Qed.

Lemma cut_last_sound : forall sep s a b, cut_last sep s = Some (a, b) -> s = a ++ sep :: b /\ ~ In sep b.
Proof.
  assert (NoneIn : forall sep s, cut_last sep s = None -> ~ In sep s).
  { induction s as [|c r IH]; cbn; intros H; [tauto|].
    destruct (cut_last sep r) as [[a b]|]; [discriminate|].
    destruct (beq c sep) eqn:E; [discriminate|]. intros [->|Hi]; [|apply IH; auto].
    unfold beq in E. rewrite Ascii.eqb_refl in E. discriminate. }
  induction s as [|c r IH]; cbn; intros a b H; [discriminate|].
  destruct (cut_last sep r) as [[a' b']|] eqn:E.
  - injection H as <- <-. destruct (IH _ _ eq_refl) as [H1 H2]. subst. split; [reflexivity|exact H2].
  - destruct (beq c sep) eqn:E2; [|discriminate]. injection H as <- <-.
    apply Ascii.eqb_eq in E2. subst. split; [reflexivity|]. apply NoneIn. exact E.
Qed.

Lemma gotype_set_text : forall t x t', gotype_set t x = Some t' -> gt_ptr t = false -> gt_pkg t = B "gosql" -> type_text x t'.
Proof.
  unfold gotype_set. intros t x t' H Hp Hg. destruct (cut_last "." x) as [[p n]|] eqn:E; [|discriminate].
  apply cut_last_sound in E. destruct E as [-> Hn].
  destruct p as [|c p].
  - injection H as <-. unfold type_text; cbn. rewrite Hp. repeat split; auto. discriminate.
  - destruct (beq c "*") eqn:Ec; injection H as <-; unfold type_text; cbn.
    + apply Ascii.eqb_eq in Ec. subst. repeat split; auto. discriminate.
    + rewrite Hp. repeat split; auto. intros _ [= ->]. discriminate.
Qed.

Lemma last_cons2 : forall A (x y : A) l d, last (x :: y :: l) d = last (y :: l) d.
Proof. reflexivity. Qed.

Lemma set_all_kind : forall o l v v', kind_ok o (fst v) -> set_all v l = Some v' -> kind_ok o (fst v').
Proof.
  induction l as [|x l IH]; intros v v' K H; cbn in H.
  - injection H as <-. exact K.
  - destruct (oset v x) eqn:E; [|discriminate]. eapply IH; [|exact H]. eapply oset_kind; eauto.
Qed.

Lemma set_all_str : forall l s b v', set_all (VS s, b) l = Some v' ->
  v' = (VS (last l s), match l with [] => b | _ => true end).
Proof.
  induction l as [|x l IH]; intros s b v' H.
  - injection H as <-. reflexivity.
  - cbn [set_all oset fst] in H. apply IH in H. rewrite H. destruct l; [reflexivity|].
    rewrite last_cons2. f_equal. f_equal. clear. revert b0. induction l; intros; [reflexivity|]. cbn [last]. apply IHl.
Qed.

Lemma set_all_list : forall l s b v', Forall (fun x => x <> []) l -> set_all (VL s, b) l = Some v' ->
  v' = (VL (s ++ l), match l with [] => b | _ => true end).
Proof.
  induction l as [|x l IH]; intros s b v' F H.
  - injection H as <-. rewrite app_nil_r. reflexivity.
  - apply Forall_cons_iff in F. destruct F as [F1 F2].
    cbn [set_all oset fst] in H. destruct x as [|a x]; [congruence|].
    apply IH in H; [|exact F2]. rewrite <- app_assoc in H. rewrite H. cbn. destruct l; reflexivity.
Qed.

Lemma set_all_bool : forall l s b v', Forall (fun x => x <> []) l -> set_all (VB s, b) l = Some v' ->
  match l with [] => v' = (VB s, b) | _ => exists r, v' = (VB r, true) /\ ParseBool (last l []) = Some r end.
Proof.
  induction l as [|x l IH]; intros s b v' F H.
  - injection H as <-. reflexivity.
  - apply Forall_cons_iff in F. destruct F as [F1 F2].
    cbn [set_all oset fst] in H. destruct x as [|a x]; [congruence|].
    destruct (ParseBool (a :: x)) as [r|] eqn:E; [|discriminate].
    apply IH in H; [|exact F2]. destruct l.
    + subst. exists r. split; [reflexivity|exact E].
    + rewrite last_cons2. exact H.
Qed.

Lemma given_counts : forall o occs, Forall (fun x => counts o x = true) (given o occs).
Proof.
  intros. apply Forall_forall. intros x H. unfold given in H. apply in_flat_map in H.
  destruct H as ([t y] & _ & H). cbn in H. destruct t as [o'|]; [|destruct H].
  destruct (opt_eq o o'); [|destruct H]. destruct (counts o y) eqn:E; [|destruct H].
  destruct H as [<-|[]]. exact E.
Qed.

Lemma counts_nonempty : forall o l, textual o = false -> Forall (fun x => counts o x = true) l -> Forall (fun x : bytes => x <> []) l.
Proof.
  intros o l T. apply Forall_impl. intros x H ->. unfold counts in H. rewrite T in H. discriminate.
Qed.

Lemma default_kind : forall o, kind_ok o (default_value o).
Proof. intros []; cbn; auto. Qed.

Lemma set_all_value : forall o l v', Forall (fun x => counts o x = true) l -> l <> [] ->
  (o = OArg -> List.length l <= 1) ->
  set_all (default_value o, false) l = Some v' -> texts_value o l (fst v') /\ snd v' = true.
Proof.
  intros o l v' F Hne Ha H. pose proof (default_kind o) as K.
  destruct (default_value o) eqn:D; cbn in K.
  - apply set_all_str in H. subst. destruct l; [congruence|]. cbn [fst snd]. split; [|reflexivity].
    cbn [texts_value text_value]. split; [exact K|]. clear. revert b. induction l; intros; [reflexivity|]. cbn [last]. apply IHl.
  - apply set_all_bool in H; [|eapply counts_nonempty; [|exact F]; destruct o; cbn in K; tauto].
    destruct l; [congruence|]. destruct H as (r & -> & H). apply parse_bool_yes in H.
    split; [|reflexivity]. cbn [fst texts_value text_value]. destruct r; split; assumption.
  - apply set_all_list in H; [|eapply counts_nonempty; [|exact F]; destruct K; subst; reflexivity].
    subst. destruct l; [congruence|]. split; [|reflexivity]. cbn [fst texts_value].
    split; [exact K|]. destruct K; subst; injection D as <-; reflexivity.
  - subst o. specialize (Ha eq_refl). destruct l as [|x [|y l]]; [congruence| |cbn in Ha; lia].
    cbn [set_all oset fst] in H. apply counts_nonempty in F; [|reflexivity].
    apply Forall_cons_iff in F. destruct F as [F _]. destruct x as [|a x]; [congruence|].
    destruct (gotype_set t (a :: x)) as [t'|] eqn:E; [|discriminate]. injection H as <-.
    split; [|reflexivity]. cbn [fst texts_value text_value last]. split; [reflexivity|].
    injection D as <-. eapply gotype_set_text; [exact E|reflexivity|reflexivity].
Qed.

Lemma decode_set : forall file c c' o, snd (c o) = true -> decode c file = Some c' -> c' o = c o.
Proof.
  induction file as [|[o' j] file IH]; intros c c' o Hs H; cbn in H.
  - injection H as <-. reflexivity.
  - destruct (ojson (c o') j) as [v|] eqn:E; [|discriminate].
    destruct (opt_eq o' o) as [->|N].
    + unfold ojson in E. rewrite Hs in E. injection E as <-.
      apply (IH _ _ o) in H; [|rewrite upd_same; exact Hs]. rewrite H. apply upd_same.
    + apply (IH _ _ o) in H; [|rewrite upd_other by exact N; exact Hs]. rewrite H. apply upd_other; exact N.
Qed.

Lemma json_elems_spec : forall js l, json_elems js = Some l ->
  Forall2 (fun j x => j = JStr x \/ (j = JNull /\ x = [])) js l.
Proof.
  induction js as [|j js IH]; intros l H; cbn in H.
  - injection H as <-. constructor.
  - destruct (json_elem j) as [x|] eqn:E; [|discriminate]. destruct (json_elems js) as [r|]; [|discriminate].
    injection H as <-. constructor; [|apply IH; reflexivity].
    destruct j; cbn in E; try discriminate; injection E as <-; auto.
Qed.

Lemma ojson_spec : forall o j v, ojson (default_value o, false) j = Some v ->
  if says_nothing o j then v = (default_value o, false) else json_value o j (fst v) /\ snd v = true.
Proof.
  intros o j v H. unfold ojson in H. cbn [snd fst] in H. pose proof (default_kind o) as K.
  destruct (default_value o) eqn:D; cbn in K.
  - destruct j; try discriminate; try (injection H as <-; reflexivity).
    injection H as <-. destruct s0; [destruct o; try discriminate K|]; cbn; auto.
  - destruct j; try discriminate; try (injection H as <-; reflexivity).
    injection H as <-. cbn. auto.
  - destruct j; try discriminate; try (injection H as <-; reflexivity).
    destruct (json_elems l0) as [r|] eqn:E; [|discriminate]. apply json_elems_spec in E.
    destruct r.
    + injection H as <-. inversion E; subst. destruct K; subst; reflexivity.
    + injection H as <-. destruct l0; [inversion E|]. cbn. split; [|reflexivity]. split; [exact K|].
      eexists. split; [reflexivity|exact E].
  - destruct j; try discriminate; try (injection H as <-; reflexivity). subst o.
    cbn [oset fst] in H. destruct s; [injection H as <-; reflexivity|].
    destruct (gotype_set t (a :: s)) as [t'|] eqn:E; [|discriminate]. injection H as <-.
    cbn. split; [|reflexivity]. split; [reflexivity|]. eexists. split; [reflexivity|].
    injection D as <-. eapply gotype_set_text; [exact E|reflexivity|reflexivity].
Qed.

Lemma decode_unset : forall file c c' o, c o = (default_value o, false) -> decode c file = Some c' ->
  match in_file o file with
  | [] => c' o = (default_value o, false)
  | j :: _ => json_value o j (fst (c' o))
  end.
Proof.
  induction file as [|[o' j] file IH]; intros c c' o Hs H; cbn in H.
  - injection H as <-. exact Hs.
  - destruct (ojson (c o') j) as [v|] eqn:E; [|discriminate].
    cbn [in_file flat_map fst snd]. destruct (opt_eq o o') as [<-|N].
    + rewrite Hs in E. apply ojson_spec in E. destruct (says_nothing o j).
      * subst v. apply (IH _ _ o) in H; [exact H|]. apply upd_same.
      * cbn [app]. destruct E as [E1 E2].
        apply (decode_set _ _ _ o) in H; [|rewrite upd_same; exact E2]. rewrite H, upd_same. exact E1.
    + apply (IH _ _ o) in H; [exact H|]. rewrite upd_other by congruence. exact Hs.
Qed.

Lemma defaults_agree : forall o, default_value o = documented_default o.
Proof. intros []; reflexivity. Qed.

Lemma parsed_effect : forall occs c f, apply_all (DefaultConfig, []) occs = Some (c, f) ->
  forall o, (o = OArg -> List.length (given o occs) <= 1) ->
  match given o occs with
  | [] => c o = (default_value o, false)
  | _ => texts_value o (given o occs) (fst (c o)) /\ snd (c o) = true
  end.
Proof.
  intros occs c f H o Ha. pose proof (apply_given occs (DefaultConfig, []) _ (fun o => default_kind o) H o) as G. cbn [fst] in G.
  unfold DefaultConfig in G.
  destruct (given o occs) as [|x l] eqn:E.
  - cbn in G. congruence.
  - rewrite <- E in *. apply set_all_value; auto.
    + apply given_counts.
    + rewrite E. discriminate.
Qed.

Lemma decode_effect : forall occs file c f c', apply_all (DefaultConfig, []) occs = Some (c, f) -> decode c file = Some c' ->
  forall o, (o = OArg -> List.length (given o occs) <= 1) -> in_effect occs file o (fst (c' o)).
Proof.
  intros occs file c f c' H D o Ha. pose proof (parsed_effect _ _ _ H o Ha) as P. unfold in_effect.
  destruct (given o occs) as [|x l].
  - pose proof (decode_unset _ _ _ o P D) as U. destruct (in_file o file); [|exact U].
    rewrite U. apply defaults_agree.
  - destruct P as [P1 P2]. apply (decode_set _ _ _ o P2) in D. rewrite D. exact P1.
Qed.

Lemma C45_cmdline_proof : forall abs fs read named args c,
  configure abs fs read named args = Some c -> exists occs, cmdline args occs.
Proof.
  intros abs fs read named args c H. unfold configure in H.
  destruct (parse_flags (DefaultConfig, []) args) as [st|] eqn:E; [|discriminate].
  apply (parse_reads (List.length args)) in E; [|lia]. destruct E as (occs & Hc & _). exists occs. exact Hc.
Qed.

Lemma C45_precedence_proof : forall abs fs read named args c occs,
  cmdline args occs -> configure abs fs read named args = Some c ->
  exists file, file_used abs fs read named occs file
    /\ forall o, (o = OArg -> List.length (given o occs) <= 1) -> in_effect occs file o (fst (c o)).
Proof.
  intros abs fs read named args c occs Hc H. unfold configure in H. rewrite (parse_apply _ _ Hc) in H.
  destruct (apply_all (DefaultConfig, []) occs) as [[c0 f]|] eqn:E; [|discriminate].
  pose proof (apply_named _ _ _ E) as N. cbn [snd] in N. fold (named_file occs) in N.
  destruct f as [|a f].
  - pose proof (parsed_effect _ _ _ E OWd ltac:(discriminate)) as W.
    assert (Wd : exists wd, fst (c0 OWd) = VS wd /\ texts_value OWd (B "." :: given OWd occs) (VS wd)).
    { destruct (given OWd occs) as [|x l].
      - rewrite W. exists (B "."). split; [reflexivity|]. cbn. auto.
      - destruct W as [W _]. destruct (fst (c0 OWd)) as [s| | |] eqn:D; cbn in W.
        + exists s. split; [reflexivity|]. exact W.
        + destruct b; destruct W as [[] _].
        + destruct W as [[W|W] _]; discriminate.
        + destruct W as [W _]; discriminate. }
    destruct Wd as (wd & D & T). rewrite D in H.
    destruct (find_config fs (abs wd)) as [[p|]|] eqn:F; [| |discriminate].
    + destruct (read p) as [file|] eqn:R; [|discriminate]. exists file. split.
      * unfold file_used. rewrite <- N. exists wd. split; [exact T|]. eexists. split; [exact F|]. exact R.
      * eapply decode_effect; eauto.
    + injection H as <-. exists []. split.
      * unfold file_used. rewrite <- N. exists wd. split; [exact T|]. eexists. split; [exact F|]. reflexivity.
      * eapply decode_effect; [exact E|reflexivity].
  - destruct (named (a :: f)) as [file|] eqn:R; [|discriminate]. exists file. split.
    + unfold file_used. rewrite <- N. exact R.
    + eapply decode_effect; eauto.
Qed.

(** A command line with two files, a switch and a type in effect over a config
    file that sets two of them and more. *)
Definition ex_args : list bytes :=
  [B "-f"; B "a.go"; B "--f=b.go"; B "-r"; B "-fcktag="; B "-argtype"; B "*my/db.Conn"; B "rest"; B "-r=false"].

Definition ex_occs : list (target * bytes) :=
  [(TOpt OFiles, B "a.go"); (TOpt OFiles, B "b.go"); (TOpt ORecursive, B "true"); (TOpt OTag, []);
   (TOpt OArg, B "*my/db.Conn")].

Definition ex_file : list (opt * json) :=
  [(OFiles, JArr [JStr (B "c.go")]); (OMethod, JStr (B "Run")); (OTag, JStr (B "db")); (OMethod, JStr (B "Do"));
   (OQuote, JNull)].

Definition ex_fs (p : path) : option listing :=
  match p with
  | [_; _] => Some [(B "x.go", false); (B ".gosql", false)]
  | [_] => Some [(B ".gosql.json", false); (B ".git", true)]
  | _ => None
  end.

Definition ex_read (p : path) : option (list (opt * json)) :=
  match p with [n; _] => if bytes_eqb n (B ".gosql.json") then Some ex_file else None | _ => None end.

(** All texts given for flags are well-formed, also those of no effect. *)
Lemma oset_valid : forall o v x v', kind_ok o (fst v) -> counts o x = true -> oset v x = Some v' -> exists w, text_value o x w.
Proof.
  intros o [v s] x v' K C H. destruct v; cbn in K, H.
  - exists (VS x). split; [exact K|reflexivity].
  - destruct x as [|a x]; [destruct o; cbn in K; try tauto; discriminate|].
    destruct (ParseBool (a :: x)) as [r|] eqn:E; [|discriminate]. apply parse_bool_yes in E.
    exists (VB r). destruct r; split; assumption.
  - exists (VL [x]). split; [exact K|reflexivity].
  - subst o. destruct x as [|a x]; [discriminate|].
    destruct (gotype_set t (a :: x)) as [t'|] eqn:E; [|discriminate].
    assert (E2 : exists t2, gotype_set (MkGT [] [] (B "gosql") false) (a :: x) = Some t2).
    { revert E. unfold gotype_set. destruct (cut_last "." (a :: x)) as [[p n]|]; [|discriminate].
      intros _. destruct p as [|c p]; [eauto|]. destruct (beq c "*"); eauto. }
    destruct E2 as (t2 & E2). exists (VT t2). split; [reflexivity|]. eapply gotype_set_text; [exact E2|reflexivity|reflexivity].
Qed.

Lemma parse_bool_no : forall x, (exists b, ParseBool x = Some b) <-> says_yes x \/ says_no x.
Proof.
  intros x. split.
  - intros (b & H). apply parse_bool_yes in H. destruct b; auto.
  - intros [H|H]; cbn in H;
      repeat (destruct H as [<-|H]; [eexists; reflexivity|]); destruct H.
Qed.

Lemma cut_last_some : forall sep a b, exists p q, cut_last sep (a ++ sep :: b) = Some (p, q).
Proof.
  induction a as [|c a IH]; intros b; cbn.
  - destruct (cut_last sep b) as [[p q]|]; [eauto|]. unfold beq. rewrite Ascii.eqb_refl. eauto.
  - destruct (IH b) as (p & q & ->). eauto.
Qed.

Lemma oset_total : forall o v x w, kind_ok o (fst v) -> text_value o x w -> exists v', oset v x = Some v'.
Proof.
  intros o [v s] x w K T. destruct v; cbn in K; cbn [oset fst].
  - eauto.
  - destruct x as [|a x]; [eauto|].
    assert (P : exists b, ParseBool (a :: x) = Some b).
    { apply parse_bool_no. destruct w as [ |[]| | ]; cbn in T.
      - destruct o; cbn in K, T; destruct T; try tauto; discriminate.
      - destruct T as [_ T]. left. exact T.
      - destruct T as [_ T]. right. exact T.
      - destruct T as [[->| ->] _]; destruct K.
      - destruct T as [-> _]. destruct K. }
    destruct P as (r & ->). eauto.
  - destruct x; eauto.
  - subst o. destruct x as [|a x]; [eauto|].
    destruct w as [ |[]| |t']; cbn in T; try (destruct T as [T _]; try discriminate; try (destruct T; discriminate); destruct T; fail).
    destruct T as [_ (E & _)].
    assert (G : exists t2, gotype_set t (a :: x) = Some t2).
    { unfold gotype_set. rewrite E.
      destruct (cut_last_some "." ((if gt_ptr t' then B "*" else []) ++ gt_path t') (gt_name t')) as (p & q & C).
      rewrite <- app_assoc in C. rewrite C. destruct p as [|c p]; [eauto|]. destruct (beq c "*"); eauto. }
    destruct G as (t2 & ->). eauto.
Qed.

Lemma apply_valid : forall occs st st', (forall o, kind_ok o (fst (fst st o))) -> apply_all st occs = Some st' ->
  forall o x, In x (given o occs) -> exists v, text_value o x v.
Proof.
  induction occs as [|[t x] occs IH]; intros [c f] st' K H o y Hy; cbn in H; [destruct Hy|].
  destruct t as [o'|]; cbn in H.
  - destruct (oset (c o') x) as [v|] eqn:E; [|discriminate].
    assert (K' : forall o0, kind_ok o0 (fst (upd c o' v o0))).
    { intros o0. unfold upd. destruct (opt_eq o' o0) as [<-|]; [|apply K].
      eapply oset_kind; [apply (K o')|exact E]. }
    cbn [given flat_map fst snd] in Hy. destruct (opt_eq o o') as [->|N].
    + destruct (counts o' x) eqn:C.
      * destruct Hy as [<-|Hy]; [eapply oset_valid; [apply K|exact C|exact E]|].
        eapply (IH (upd c o' v, f)); eauto.
      * eapply (IH (upd c o' v, f)); eauto.
    + eapply (IH (upd c o' v, f)); eauto.
  - eapply (IH (c, x)); eauto.
Qed.

Lemma apply_total : forall occs st, (forall o, kind_ok o (fst (fst st o))) ->
  (forall o x, In x (given o occs) -> exists v, text_value o x v) -> exists st', apply_all st occs = Some st'.
Proof.
  induction occs as [|[t x] occs IH]; intros [c f] K H; cbn [apply_all set_target fst snd]; [eauto|].
  destruct t as [o'|].
  - assert (E : exists v, oset (c o') x = Some v).
    { destruct (counts o' x) eqn:C.
      - destruct (H o' x) as (w & T).
        { cbn [given flat_map fst snd]. destruct (opt_eq o' o'); [|congruence]. rewrite C. left. reflexivity. }
        eapply oset_total; [apply K|exact T].
      - exists (c o'). apply (oset_uncounted o'); [apply K|exact C]. }
    destruct E as (v & E). cbn [set_target fst snd]. rewrite E. apply IH.
    + cbn. intros o0. unfold upd. destruct (opt_eq o' o0) as [<-|]; [|apply K].
      eapply oset_kind; [apply (K o')|exact E].
    + intros o y Hy. apply H. cbn [given flat_map fst snd]. apply in_or_app. right. exact Hy.
  - apply IH; [exact K|]. intros o y Hy. apply H. cbn [given flat_map fst snd]. apply in_or_app. right. exact Hy.
Qed.

Lemma json_elems_total : forall js l, Forall2 (fun j x => j = JStr x \/ (j = JNull /\ x = [])) js l -> json_elems js = Some l.
Proof.
  induction 1 as [|j x js l H _ IH]; [reflexivity|]. cbn. rewrite IH. destruct H as [->|[-> ->]]; reflexivity.
Qed.

Lemma ojson_total : forall o v j, kind_ok o (fst v) -> says_nothing o j = true \/ (exists w, json_value o j w) ->
  exists v', ojson v j = Some v'.
Proof.
  intros o [v s] j K H. unfold ojson. cbn [snd fst]. destruct s; [eauto|].
  destruct H as [H|(w & H)].
  - destruct j as [| | |x|js|]; cbn in H; try discriminate; [eauto| |].
    + destruct x; [|discriminate]. destruct o; try discriminate. destruct v; cbn in K; try discriminate; try tauto.
      * destruct K; discriminate.
      * cbn. eauto.
    + destruct js; [|discriminate]. destruct v.
      * destruct o; try discriminate.
      * destruct o; try discriminate; destruct K.
      * cbn. eauto.
      * cbn in K. subst. discriminate.
  - destruct w as [x|b|l|t]; cbn in H.
    + destruct H as [T ->]. destruct v; cbn in K.
      * eauto.
      * destruct o; try discriminate; destruct K.
      * destruct K; subst; discriminate.
      * subst; discriminate.
    + destruct H as [T ->]. destruct v; cbn in K.
      * destruct o; try discriminate; destruct T.
      * eauto.
      * destruct K; subst; destruct T.
      * subst; destruct T.
    + destruct H as [T (js & -> & F)]. destruct v; cbn in K.
      * destruct T; subst; discriminate.
      * destruct T; subst; destruct K.
      * apply json_elems_total in F. rewrite F. destruct l; eauto.
      * subst; destruct T; discriminate.
    + destruct H as [-> (x & -> & T)]. destruct v; cbn in K; try discriminate; try tauto.
      * destruct K; discriminate.
      * apply (oset_total OArg _ _ (VT t)); [reflexivity|]. split; [reflexivity|exact T].
Qed.

Lemma ojson_kind : forall o v j v', kind_ok o (fst v) -> ojson v j = Some v' -> kind_ok o (fst v').
Proof.
  intros o [v s] j v' K H. unfold ojson in H. cbn [snd fst] in H. destruct s; [injection H as <-; exact K|].
  destruct j; try (injection H as <-; exact K); destruct v; try discriminate; try (injection H as <-; exact K).
  - eapply (oset_kind o (VT t, false)); [exact K|exact H].
  - destruct (json_elems l) as [[|x l1]|]; try discriminate; injection H as <-; exact K.
Qed.

Lemma decode_total : forall file c, (forall o, kind_ok o (fst (c o))) ->
  (forall o j, In j (in_file o file) -> exists v, json_value o j v) -> exists c', decode c file = Some c'.
Proof.
  induction file as [|[o' j] file IH]; intros c K H; cbn [decode]; [eauto|].
  assert (E : exists v, ojson (c o') j = Some v).
  { apply (ojson_total o'); [apply K|]. destruct (says_nothing o' j) eqn:E; [auto|right].
    apply H. cbn [in_file flat_map fst snd]. destruct (opt_eq o' o'); [|congruence]. rewrite E. left. reflexivity. }
  destruct E as (v & E). rewrite E. apply IH.
  - intros o. unfold upd. destruct (opt_eq o' o) as [<-|]; [|apply K]. eapply ojson_kind; [apply (K o')|exact E].
  - intros o y Hy. apply H. cbn [in_file flat_map fst snd]. apply in_or_app. right. exact Hy.
Qed.

Lemma apply_kind : forall occs st st', (forall o, kind_ok o (fst (fst st o))) -> apply_all st occs = Some st' ->
  forall o, kind_ok o (fst (fst st' o)).
Proof.
  intros occs st st' K H o. pose proof (apply_given _ _ _ K H o) as G. eapply set_all_kind; [apply K|exact G].
Qed.

Lemma C45_flags_checked_proof : forall abs fs read named args c occs,
  cmdline args occs -> configure abs fs read named args = Some c ->
  forall o x, In x (given o occs) -> exists v, text_value o x v.
Proof.
  intros abs fs read named args c occs Hc H. unfold configure in H. rewrite (parse_apply _ _ Hc) in H.
  destruct (apply_all (DefaultConfig, []) occs) as [st|] eqn:E; [|discriminate].
  eapply apply_valid; [|exact E]. exact default_kind.
Qed.

Lemma C45_accepted_proof : forall abs fs read named args occs file,
  cmdline args occs -> file_used abs fs read named occs file ->
  (forall o x, In x (given o occs) -> exists v, text_value o x v) ->
  (forall o j, In j (in_file o file) -> exists v, json_value o j v) ->
  exists c, configure abs fs read named args = Some c.
Proof.
  intros abs fs read named args occs file Hc U T J. unfold configure. rewrite (parse_apply _ _ Hc).
  destruct (apply_total occs (DefaultConfig, []) default_kind T) as ([c f] & E). rewrite E.
  pose proof (apply_named _ _ _ E) as N. cbn [snd] in N. fold (named_file occs) in N.
  pose proof (apply_kind occs (DefaultConfig, []) _ default_kind E) as K. cbn [fst] in K.
  unfold file_used in U. rewrite <- N in U.
  destruct f as [|a f].
  - destruct U as (wd & W & found & F & R).
    assert (D : fst (c OWd) = VS wd).
    { pose proof (parsed_effect _ _ _ E OWd ltac:(discriminate)) as P.
      destruct (given OWd occs) as [|x l].
      - rewrite P. destruct W as [_ ->]. reflexivity.
      - destruct P as [P _]. cbn [texts_value text_value] in W. destruct W as [_ W]. rewrite last_cons2 in W.
        pose proof (K OWd) as K1. destruct (fst (c OWd)); cbn in K1.
        + cbn [texts_value text_value] in P. destruct P as [_ P]. congruence.
        + destruct K1.
        + destruct K1; discriminate.
        + discriminate. }
    rewrite D, F. destruct found as [p|]; [|eauto]. rewrite R. apply decode_total; assumption.
  - rewrite U. apply decode_total; assumption.
Qed.

Lemma C45_argtype_refuted_proof : exists args occs c t,
  cmdline args occs
  /\ (forall abs fs read named, named (B "x") = Some [] -> configure abs fs read named args = Some c)
  /\ fst (c OArg) = VT t
  /\ type_text (last (given OArg occs) []) (MkGT (B "Tx") (B "b") (B "gosql") false)
  /\ t = MkGT (B "Tx") (B "b") (B "gosql") true.
Proof.
  exists [B "-config=x"; B "-argtype=*a.Db"; B "-argtype=b.Tx"],
         [(TFile, B "x"); (TOpt OArg, B "*a.Db"); (TOpt OArg, B "b.Tx")].
  destruct (parse_flags (DefaultConfig, []) [B "-config=x"; B "-argtype=*a.Db"; B "-argtype=b.Tx"]) as [[c f]|] eqn:E;
    [|vm_compute in E; discriminate].
  exists c. eexists. split; [|split; [|split; [|split; [|reflexivity]]]].
  - apply (cl_eq (B "-") (B "config") _ (B "x")); [left; reflexivity|cbn; tauto|].
    apply (cl_eq (B "-") (B "argtype") _ (B "*a.Db")); [left; reflexivity|cbn; tauto|].
    apply (cl_eq (B "-") (B "argtype") _ (B "b.Tx")); [left; reflexivity|cbn; tauto|]. constructor.
  - intros abs fs read named Hn. unfold configure. rewrite E. 
    assert (F : Some f = Some (B "x")).
    { transitivity (option_map (fun st : cstate => snd st)
        (parse_flags (DefaultConfig, []) [B "-config=x"; B "-argtype=*a.Db"; B "-argtype=b.Tx"])).
      - rewrite E. reflexivity.
      - vm_compute. reflexivity. }
    injection F as ->. change (B "x") with ["x"%char] in *. cbv iota. rewrite Hn. reflexivity.
  - assert (X : Some (fst (c OArg)) = Some (VT (MkGT (B "Tx") (B "b") (B "gosql") true))); [|injection X as X; exact X].
    transitivity (option_map (fun st : cstate => fst (fst st OArg))
      (parse_flags (DefaultConfig, []) [B "-config=x"; B "-argtype=*a.Db"; B "-argtype=b.Tx"])).
    + rewrite E. reflexivity.
    + vm_compute. reflexivity.
  - vm_compute. repeat split; try (intros [H|[H|[]]]; discriminate); discriminate.
Qed.

Lemma examine_fold : forall l r0 c0 r c, fold_left examine_step l (r0, c0) = (r, c) ->
  (r = true <-> r0 = true \/ git_root l)
  /\ ((c = c0 /\ forall n, conf_name n -> ~ In (n, false) l) \/ (conf_name c /\ In (c, false) l)).
Proof.
  induction l as [|[n d] l IH]; intros r0 c0 r c H.
  - injection H as <- <-. split; [unfold git_root; cbn; tauto|]. left. split; [reflexivity|]. intros; tauto.
  - cbn [fold_left examine_step] in H. apply IH in H. destruct H as [H1 H2]. clear IH. split.
    + rewrite H1. unfold git_root. cbn [In]. rewrite orb_true_iff, andb_true_iff. split.
      * intros [[H|[Hn Hd]]|H]; auto. apply bytes_eqb_eq in Hn. subst. auto.
      * intros [H|[H|H]]; auto. injection H as -> ->. left. right. split; [apply bytes_eqb_refl|reflexivity].
    + destruct ((bytes_eqb n (B ".gosql") || bytes_eqb n (B ".gosql.json")) && negb d) eqn:E.
      * apply andb_true_iff in E. destruct E as [E1 E2]. apply negb_true_iff in E2. subst d.
        assert (Cn : conf_name n).
        { apply orb_true_iff in E1. destruct E1 as [E1|E1]; apply bytes_eqb_eq in E1; [left|right]; exact E1. }
        right. destruct H2 as [[-> _]|[H2 H3]]; [split; [exact Cn|left; reflexivity]|split; [exact H2|right; exact H3]].
      * destruct H2 as [[-> H2]|[H2 H3]]; [left|right; split; [exact H2|right; exact H3]].
        split; [reflexivity|]. intros m Hm [Hi|Hi]; [|exact (H2 m Hm Hi)].
        injection Hi as -> ->. destruct Hm as [->| ->]; vm_compute in E; discriminate.
Qed.

Lemma conf_nonempty : forall n, conf_name n -> n <> [].
Proof. intros n [->| ->]; discriminate. Qed.

Lemma examine_spec : forall l r c, examineDir l = (r, c) ->
  (r = true <-> git_root l)
  /\ (r = true -> (c = [] /\ forall n, conf_name n -> ~ In (n, false) l) \/ (conf_name c /\ In (c, false) l)).
Proof.
  intros l r c H. unfold examineDir in H.
  destruct (fold_left examine_step l (false, [])) as [r1 c1] eqn:E. injection H as <- <-.
  apply examine_fold in E. destruct E as [E1 E2]. split.
  - rewrite E1. intuition discriminate.
  - intros ->. exact E2.
Qed.

Lemma above_self : forall x d, above (x :: d) (x :: d).
Proof. intros. split; [discriminate|]. exists []. reflexivity. Qed.

Lemma above_up : forall x d d', above d' d -> above d' (x :: d).
Proof. intros x d d' [H (b & ->)]. split; [exact H|]. exists (x :: b). reflexivity. Qed.

Lemma above_cons : forall x d d', above d' (x :: d) -> d' = x :: d \/ above d' d.
Proof.
  intros x d d' [H (b & E)]. destruct b as [|y b]; [left; symmetry; exact E|].
  right. split; [exact H|]. injection E as <- ->. exists b. reflexivity.
Qed.

Lemma above_len : forall d' d, above d' d -> List.length d' <= List.length d.
Proof. intros d' d [_ (b & ->)]. rewrite app_length. lia. Qed.

Lemma find_sound : forall fs dir r, find_config fs dir = Some r ->
  match r with
  | Some p => exists n d l, p = n :: d /\ project fs dir d l /\ conf_name n /\ In (n, false) l
  | None =>
      (forall d, above d dir -> exists l, fs d = Some l /\ ~ git_root l)
      \/ exists d l, project fs dir d l /\ forall n, conf_name n -> ~ In (n, false) l
  end.
Proof.
  induction dir as [|x dir IH]; intros r H; cbn [find_config] in H.
  - injection H as <-. left. intros d [Hd (b & E)]. destruct b, d; try discriminate; congruence.
  - destruct (fs (x :: dir)) as [l|] eqn:F; [|discriminate].
    destruct (examineDir l) as [root conf] eqn:X. apply examine_spec in X. destruct X as [X1 X2].
    destruct root.
    + assert (P : project fs (x :: dir) (x :: dir) l).
      { split; [apply above_self|]. split; [exact F|]. split; [apply X1; reflexivity|].
        intros d' Hd Hl. apply above_len in Hd. lia. }
      destruct (X2 eq_refl) as [[-> N]|[C I]].
      * injection H as <-. right. exists (x :: dir), l. split; [exact P|exact N].
      * destruct conf as [|a conf]; [destruct (conf_nonempty _ C eq_refl)|].
        injection H as <-. exists (a :: conf), (x :: dir), l. split; [reflexivity|]. split; [exact P|]. split; assumption.
    + assert (N : ~ git_root l) by (intros G; apply X1 in G; discriminate).
      assert (L : forall d l', project fs dir d l' -> project fs (x :: dir) d l').
      { intros d l' (A & F' & G & Up). split; [apply above_up; exact A|]. split; [exact F'|]. split; [exact G|].
        intros d' Hd Hl. apply above_cons in Hd. destruct Hd as [->|Hd]; [|apply Up; assumption].
        exists l. split; assumption. }
      apply IH in H. destruct r as [p|].
      * destruct H as (n & d & l' & -> & P & C & I). exists n, d, l'. auto.
      * destruct H as [H|(d & l' & P & C)]; [left|right; exists d, l'; auto].
        intros d Hd. apply above_cons in Hd. destruct Hd as [->|Hd]; [exists l; auto|apply H; exact Hd].
Qed.

Lemma find_total : forall fs dir, (forall d, above d dir -> fs d <> None) -> exists r, find_config fs dir = Some r.
Proof.
  induction dir as [|x dir IH]; intros H; cbn [find_config]; [eauto|].
  destruct (fs (x :: dir)) as [l|] eqn:F; [|exfalso; apply (H (x :: dir)); [apply above_self|exact F]].
  destruct (examineDir l) as [[] conf]; [eauto|]. apply IH. intros d Hd. apply H. apply above_up. exact Hd.
Qed.

Lemma C73_found_proof : forall fs dir p, find_config fs dir = Some (Some p) ->
  exists n d l, p = n :: d /\ project fs dir d l /\ conf_name n /\ In (n, false) l.
Proof. intros fs dir p H. apply find_sound in H. exact H. Qed.

Lemma C73_none_proof : forall fs dir, find_config fs dir = Some None ->
  (forall d, above d dir -> exists l, fs d = Some l /\ ~ git_root l)
  \/ exists d l, project fs dir d l /\ forall n, conf_name n -> ~ In (n, false) l.
Proof. intros fs dir H. apply find_sound in H. exact H. Qed.

Lemma C73_search_proof : forall fs dir, (forall d, above d dir -> fs d <> None) -> exists r, find_config fs dir = Some r.
Proof. exact find_total. Qed.

Lemma C73_both_refuted_proof : exists l1 l2 p1 p2,
  (forall e, In e l1 <-> In e l2)
  /\ find_config (fun _ => Some l1) [B "proj"] = Some (Some p1)
  /\ find_config (fun _ => Some l2) [B "proj"] = Some (Some p2)
  /\ p1 <> p2.
Proof.
  exists [(B ".git", true); (B ".gosql", false); (B ".gosql.json", false)],
         [(B ".git", true); (B ".gosql.json", false); (B ".gosql", false)],
         [B ".gosql.json"; B "proj"], [B ".gosql"; B "proj"].
  split; [intros e; cbn [In]; tauto|]. split; [vm_compute; reflexivity|]. split; [vm_compute; reflexivity|]. discriminate.
Qed.
