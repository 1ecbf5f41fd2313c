(** Lemmas about the tag parsers. *)
From Coq Require Import Ascii String ZArith NArith Bool List Lia.
From Verif Require Import GoBase Strconv ConvertUtil ConvertProofs Filter AParse PgSpec TagSpec.
Import ListNotations.
Local Open Scope char_scope.

(** *** regular expressions *)
Inductive lang : rx -> bytes -> Prop :=
| l_eps : lang REps []
| l_cls : forall p c, p c = true -> lang (RCls p) [c]
| l_seq : forall a b s t, lang a s -> lang b t -> lang (RSeq a b) (s ++ t)
| l_altl : forall a b s, lang a s -> lang (RAlt a b) s
| l_altr : forall a b s, lang b s -> lang (RAlt a b) s
| l_star0 : forall a, lang (RStar a) []
| l_star1 : forall a s t, lang a s -> lang (RStar a) t -> lang (RStar a) (s ++ t).

Lemma rx_null_lang : forall r, rx_null r = true <-> lang r [].
Proof.
  induction r; cbn; split; intros H; try discriminate; try (now constructor).
  - inversion H.
  - inversion H.
  - apply andb_true_iff in H. destruct H as [H1 H2]. change (lang (RSeq r1 r2) ([] ++ [])). constructor; [now apply IHr1|now apply IHr2].
  - inversion H; subst. apply app_eq_nil in H2. destruct H2; subst. apply andb_true_iff. split; [now apply IHr1|now apply IHr2].
  - apply orb_true_iff in H. destruct H; [apply l_altl; now apply IHr1|apply l_altr; now apply IHr2].
  - inversion H; subst; apply orb_true_iff; [left; now apply IHr1|right; now apply IHr2].
Qed.

Lemma star_cons : forall a c s, lang (RStar a) (c :: s) -> exists s1 s2, s = s1 ++ s2 /\ lang a (c :: s1) /\ lang (RStar a) s2.
Proof.
  intros a c s H. remember (RStar a) as r eqn:Er. remember (c :: s) as w eqn:Ew. revert c s Ew.
  induction H; intros c' s' Ew; try discriminate.
  inversion Er; subst. destruct s as [|x s].
  - cbn in Ew. apply (IHlang2 eq_refl _ _ Ew).
  - cbn in Ew. inversion Ew; subst. exists s, t. auto.
Qed.

Lemma rx_deriv_lang : forall r c s, lang (rx_deriv c r) s <-> lang r (c :: s).
Proof.
  induction r as [| |p|a IHa b IHb|a IHa b IHb|a IHa]; intros c s; cbn.
  - split; intros H; inversion H.
  - split; intros H; inversion H.
  - destruct (p c) eqn:E; split; intros H.
    + inversion H; subst. now constructor.
    + inversion H; subst. constructor.
    + inversion H.
    + inversion H; subst. congruence.
  - assert (lang (RSeq (rx_deriv c a) b) s -> lang (RSeq a b) (c :: s)) as X.
    { intros H. inversion H; subst. change (c :: s0 ++ t) with ((c :: s0) ++ t). constructor; auto. now apply IHa. }
    destruct (rx_null a) eqn:E; split; intros H.
    + inversion H; subst; auto. change (c :: s) with ([] ++ c :: s). constructor. now apply rx_null_lang. now apply IHb.
    + inversion H as [| |? ? s0 t Ha Hb Ea Es| | | |]; subst. destruct s0 as [|x s0]; cbn in Es.
      * apply l_altr. apply IHb. now rewrite <- Es.
      * inversion Es; subst. apply l_altl. constructor; auto. now apply IHa.
    + auto.
    + inversion H as [| |? ? s0 t Ha Hb Ea Es| | | |]; subst. destruct s0 as [|x s0]; cbn in Es.
      * apply rx_null_lang in Ha. congruence.
      * inversion Es; subst. constructor; auto. now apply IHa.
  - split; intros H; inversion H; subst.
    + apply l_altl. now apply IHa.
    + apply l_altr. now apply IHb.
    + apply l_altl. now apply IHa.
    + apply l_altr. now apply IHb.
  - split; intros H.
    + inversion H; subst. change (c :: s0 ++ t) with ((c :: s0) ++ t). apply l_star1; auto. now apply IHa.
    + destruct (star_cons _ _ _ H) as (s1 & s2 & -> & A & S). constructor; auto. now apply IHa.
Qed.

Lemma rx_match_lang : forall s r, rx_match r s = true <-> lang r s.
Proof.
  induction s as [|c s IH]; intros r; cbn.
  - apply rx_null_lang.
  - rewrite IH. apply rx_deriv_lang.
Qed.

Lemma lang_cls : forall p s, lang (RCls p) s <-> exists c, s = [c] /\ p c = true.
Proof.
  intros p s. split.
  - intros H. inversion H; subst. eauto.
  - intros (c & -> & H). now constructor.
Qed.
Lemma lang_seq : forall a b s, lang (RSeq a b) s <-> exists x y, s = x ++ y /\ lang a x /\ lang b y.
Proof.
  intros a b s. split.
  - intros H. inversion H; subst. eauto.
  - intros (x & y & -> & ? & ?). now constructor.
Qed.
Lemma lang_opt : forall a s, lang (ROpt a) s <-> s = [] \/ lang a s.
Proof.
  intros a s. split.
  - intros H. inversion H; subst; auto. left. now inversion H3.
  - intros [->|H]. apply l_altl. constructor. now apply l_altr.
Qed.
Lemma lang_star_cls : forall p s, lang (RStar (RCls p)) s <-> Forall (fun c => p c = true) s.
Proof.
  intros p s. split.
  - intros H. remember (RStar (RCls p)) as r eqn:Er. induction H; try discriminate; auto.
    inversion Er; subst. apply lang_cls in H. destruct H as (c & -> & P). constructor; auto.
  - induction 1; [constructor|]. change (x :: l) with ([x] ++ l). apply l_star1; auto. now constructor.
Qed.
Lemma lang_chr : forall c s, lang (RChr c) s <-> s = [c].
Proof.
  intros c s. unfold RChr. rewrite lang_cls. split.
  - intros (x & -> & H). unfold beq in H. apply Ascii.eqb_eq in H. now subst.
  - intros ->. exists c. split; auto. unfold beq. apply Ascii.eqb_refl.
Qed.

(** *** characters *)
Lemma in_range_spec : forall lo hi c, in_range (N_of_ascii lo) (N_of_ascii hi) c = true <-> between lo c hi.
Proof.
  intros. unfold in_range, between, code. rewrite andb_true_iff, !N.leb_le. tauto.
Qed.
Lemma beq_true : forall a c, beq a c = true <-> a = c.
Proof. intros. unfold beq. apply Ascii.eqb_eq. Qed.

Lemma head_spec : forall c, (in_range 65 90 c || in_range 97 122 c || beq c "_") = true <-> name_start c.
Proof.
  intros c. unfold name_start. rewrite !orb_true_iff, beq_true.
  change 65%N with (N_of_ascii "A"). change 90%N with (N_of_ascii "Z").
  change 97%N with (N_of_ascii "a"). change 122%N with (N_of_ascii "z").
  rewrite !in_range_spec. tauto.
Qed.
Lemma word_spec : forall c, (in_range 48 57 c || in_range 65 90 c || beq c "_" || in_range 97 122 c) = true <-> name_char c.
Proof.
  intros c. unfold name_char, name_start. rewrite !orb_true_iff, beq_true.
  change 65%N with (N_of_ascii "A"). change 90%N with (N_of_ascii "Z").
  change 97%N with (N_of_ascii "a"). change 122%N with (N_of_ascii "z").
  change 48%N with (N_of_ascii "0"). change 57%N with (N_of_ascii "9").
  rewrite !in_range_spec. tauto.
Qed.

Lemma Forall_iff : forall {A} (P Q : A -> Prop), (forall x, P x <-> Q x) -> forall l, Forall P l <-> Forall Q l.
Proof. intros A P Q H l. split; intros F; (eapply Forall_impl; [|exact F]); intros x Hx; now apply H. Qed.

Lemma name_lang : forall s, lang rx_name s <-> is_name s.
Proof.
  intros s. unfold rx_name, is_name. rewrite lang_seq. split.
  - intros (x & y & -> & H & K). apply lang_cls in H. destruct H as (c & -> & P). apply lang_star_cls in K.
    exists c, y. split; auto. split. now apply head_spec. apply (Forall_iff _ _ word_spec). exact K.
  - intros (c & r & -> & P & K). exists [c], r. split; auto. split.
    + apply lang_cls. exists c. split; auto. now apply head_spec.
    + apply lang_star_cls. apply (Forall_iff _ _ word_spec). exact K.
Qed.

Lemma ident_match : forall s, rx_match rxIdent s = true <-> is_name s.
Proof. intros s. rewrite rx_match_lang. apply name_lang. Qed.

(** Characters of names are not separators. *)
Lemma name_char_ne : forall c, name_char c -> c <> "." /\ c <> ":" /\ (N_of_ascii c < 128)%N.
Proof.
  intros c H. unfold name_char, name_start, between in H.
  assert ((48 <= N_of_ascii c <= 57 \/ 65 <= N_of_ascii c <= 90 \/ 97 <= N_of_ascii c <= 122 \/ N_of_ascii c = 95)%N) as K.
  { change (N_of_ascii "A") with 65%N in H. change (N_of_ascii "Z") with 90%N in H. change (N_of_ascii "a") with 97%N in H.
    change (N_of_ascii "z") with 122%N in H. change (N_of_ascii "0") with 48%N in H. change (N_of_ascii "9") with 57%N in H.
    destruct H as [[H|[H| ->]]|H]; try lia. right. right. right. reflexivity. }
  conjs; try (intros ->; cbn in K; lia). lia.
Qed.
Lemma name_chars : forall s, is_name s -> Forall name_char s.
Proof. intros s (c & r & -> & H & F). constructor; auto. now left. Qed.
Lemma name_nonempty : forall s, is_name s -> s <> [].
Proof. intros s (c & r & -> & _). discriminate. Qed.
Lemma name_not_in : forall s x, is_name s -> x = "." \/ x = ":" -> ~ In x s.
Proof.
  intros s x N X I. apply name_chars in N. rewrite Forall_forall in N. apply N in I. apply name_char_ne in I.
  destruct I as (A & C & _). destruct X; contradiction.
Qed.

(** *** cut_last *)
Lemma cut_last_app : forall sep a b, ~ In sep b -> cut_last sep (a ++ sep :: b) = Some (a, b).
Proof.
  intros sep a b H. assert (cut_last sep b = None) as N.
  { induction b as [|c b IH]; auto. cbn. rewrite IH by (intros I; apply H; now right).
    destruct (beq c sep) eqn:E; auto. apply beq_true in E. exfalso. apply H. left. auto. }
  induction a as [|c a IH]; cbn.
  - rewrite N. unfold beq. rewrite Ascii.eqb_refl. reflexivity.
  - now rewrite IH.
Qed.
Lemma cut_last_none : forall sep s, ~ In sep s -> cut_last sep s = None.
Proof.
  induction s as [|c s IH]; intros H; auto. cbn. rewrite IH by (intros I; apply H; now right).
  destruct (beq c sep) eqn:E; auto. apply beq_true in E. exfalso. apply H. left. auto.
Qed.

(** *** identifiers *)
Lemma col_match : forall s, rx_match rxColIdent s = true <->
  is_name s \/ exists q n, is_name q /\ is_name n /\ s = q ++ "." :: n.
Proof.
  intros s. rewrite rx_match_lang. unfold rxColIdent. rewrite lang_seq. split.
  - intros (x & y & -> & H & K). apply name_lang in K. apply lang_opt in H. destruct H as [->|H].
    + left. exact K.
    + apply lang_seq in H. destruct H as (q & d & -> & Q & D). apply lang_chr in D. subst d. apply name_lang in Q.
      right. exists q, y. rewrite <- app_assoc. auto.
  - intros [H|(q & n & Q & N & ->)].
    + exists [], s. split; auto. split; [apply lang_opt; auto|now apply name_lang].
    + exists (q ++ ["."]), n. rewrite <- app_assoc. split; auto. split; [|now apply name_lang].
      apply lang_opt. right. apply lang_seq. exists q, ["."]. split; auto. split; [now apply name_lang|now apply lang_chr].
Qed.

Lemma rel_match : forall s, rx_match rxRelIdent s = true <->
  exists q n a, (q = [] \/ is_name q) /\ is_name n /\ (a = [] \/ is_name a) /\ s = qualified q (aliased n a).
Proof.
  intros s. rewrite rx_match_lang. unfold rxRelIdent. rewrite lang_seq. split.
  - intros (x & y & -> & H & K). apply lang_seq in K. destruct K as (n & z & -> & N & Z). apply name_lang in N.
    apply lang_opt in H. apply lang_opt in Z.
    assert (exists a, (a = [] \/ is_name a) /\ n ++ z = aliased n a) as (a & A & Ea).
    { destruct Z as [->|Z]. exists []. rewrite app_nil_r. auto.
      apply lang_seq in Z. destruct Z as (c & a & -> & C & A). apply lang_chr in C. subst c. apply name_lang in A.
      exists a. split; auto. pose proof (name_nonempty a A). destruct a; [contradiction|reflexivity]. }
    rewrite Ea. destruct H as [->|H].
    + exists [], n, a. auto.
    + apply lang_seq in H. destruct H as (q & d & -> & Q & D). apply lang_chr in D. subst d. apply name_lang in Q.
      exists q, n, a. split; auto. split; auto. split; auto. rewrite <- app_assoc. pose proof (name_nonempty q Q). destruct q; [contradiction|reflexivity].
  - intros (q & n & a & Q & N & A & ->).
    assert (lang (RSeq rx_name (ROpt (RSeq (RChr ":") rx_name))) (aliased n a)) as L.
    { apply lang_seq. destruct A as [->|A].
      - exists n, []. cbn. rewrite app_nil_r. split; auto. split; [now apply name_lang|apply lang_opt; auto].
      - exists n, (":" :: a). pose proof (name_nonempty a A). split. destruct a; [contradiction|reflexivity].
        split; [now apply name_lang|]. apply lang_opt. right. apply lang_seq. exists [":"], a. split; auto. split; [now apply lang_chr|now apply name_lang]. }
    destruct Q as [->|Q].
    + exists [], (aliased n a). split; auto. split; auto. apply lang_opt. auto.
    + exists (q ++ ["."]), (aliased n a). rewrite <- app_assoc. pose proof (name_nonempty q Q). split. destruct q; [contradiction|reflexivity].
      split; auto. apply lang_opt. right. apply lang_seq. exists q, ["."]. split; auto. split; [now apply name_lang|now apply lang_chr].
Qed.

Lemma lower_char_low : forall c, lower_char c = low c.
Proof. reflexivity. Qed.

Lemma reserved_spec : forall s, rxReserved s = true <-> is_value_word s.
Proof.
  intros s. unfold rxReserved, is_value_word, spelled. rewrite existsb_exists. split.
  - intros (w & I & E). apply bytes_eqb_eq in E. exists w. split; auto.
  - intros (w & I & E). exists w. split; auto. apply bytes_eqb_eq. exact E.
Qed.

Lemma lookup_in : forall {A} (k : bytes) (m : list (bytes * A)), (exists v, lookup k m = Some v) <-> In k (map fst m).
Proof.
  intros A k m. induction m as [|[k' v'] m IH]; cbn.
  - split; [intros (v & H); discriminate|tauto].
  - destruct (bytes_eqb k k') eqn:E.
    + apply bytes_eqb_eq in E. subst. split; eauto.
    + rewrite IH. split; auto. intros [->|H]; auto. exfalso.
      assert (bytes_eqb k k = true) as X by now apply bytes_eqb_eq. congruence.
Qed.

Lemma low_dot : forall c, low c = "." -> c = ".".
Proof.
  intros c. unfold low, code, chr. destruct ((65 <=? N_of_ascii c) && (N_of_ascii c <=? 90))%N eqn:E; auto.
  apply andb_true_iff in E. rewrite !N.leb_le in E. intros H. apply (f_equal N_of_ascii) in H.
  rewrite N_ascii_embedding in H by lia. cbn in H. lia.
Qed.

(** Value words hold no dot. *)
Lemma value_word_no_dot : forall s, is_value_word s -> ~ In "." s.
Proof.
  intros s (w & I & E) D. apply (in_map lower_char) in D. unfold spelled in E. rewrite E in D.
  change (lower_char ".") with "." in D. revert D. apply Forall_forall with (x := w) (2 := I).
  unfold value_words. repeat (apply Forall_cons; [cbn; intuition discriminate|]). constructor.
Qed.

Lemma parseColIdent_spec : forall sp v q n,
  parseColIdent sp v = inl (MkCol q n) <->
  v = qualified q n /\ is_name n /\ ((q = [] /\ ~ is_value_word n) \/ (is_name q /\ In q (map fst sp))).
Proof.
  intros sp v q n. unfold parseColIdent, isColIdent.
  assert (forall q n, is_name q -> is_name n -> cut_last "." (q ++ "." :: n) = Some (q, n)) as CL.
  { intros q0 n0 Q N. apply cut_last_app. apply name_not_in; auto. }
  split.
  - destruct (rx_match rxColIdent v) eqn:M; cbn [andb negb]; [|discriminate].
    destruct (rxReserved v) eqn:R; cbn [negb]; [discriminate|].
    apply col_match in M. destruct M as [M|(q0 & n0 & Q & N & ->)].
    + rewrite cut_last_none by (apply name_not_in; auto). intros H. inversion H; subst. split; auto. split; auto. left. split; auto.
      intros W. apply reserved_spec in W. congruence.
    + rewrite CL by auto. destruct (lookup q0 sp) eqn:L; [|discriminate]. intros H. inversion H; subst.
      pose proof (name_nonempty q Q). split. destruct q; [contradiction|reflexivity]. split; auto. right. split; auto.
      apply lookup_in. eauto.
  - intros (-> & N & [[-> W]|[Q I]]).
    + cbn [qualified]. assert (rx_match rxColIdent n = true) as -> by (apply col_match; auto).
      destruct (rxReserved n) eqn:R. apply reserved_spec in R. contradiction. cbn [andb negb].
      rewrite cut_last_none by (apply name_not_in; auto). reflexivity.
    + pose proof (name_nonempty q Q). assert (qualified q n = q ++ "." :: n) as -> by (destruct q; [contradiction|reflexivity]).
      assert (rx_match rxColIdent (q ++ "." :: n) = true) as -> by (apply col_match; eauto 6).
      destruct (rxReserved (q ++ "." :: n)) eqn:R.
      * apply reserved_spec in R. apply value_word_no_dot in R. exfalso. apply R. apply in_app_iff. right. now left.
      * cbn [andb negb]. rewrite CL by auto. apply lookup_in in I. destruct I as (x & ->). reflexivity.
Qed.

Lemma parseColIdent_error : forall sp v,
  parseColIdent sp v = inr EUnknownQualifier <-> exists q n, v = q ++ "." :: n /\ is_name q /\ is_name n /\ ~ In q (map fst sp).
Proof.
  intros sp v. unfold parseColIdent, isColIdent. split.
  - destruct (rx_match rxColIdent v) eqn:M; cbn [andb negb]; [|discriminate].
    destruct (rxReserved v) eqn:R; cbn [negb]; [discriminate|].
    apply col_match in M. destruct M as [M|(q0 & n0 & Q & N & ->)].
    + rewrite cut_last_none by (apply name_not_in; auto). discriminate.
    + rewrite cut_last_app by (apply name_not_in; auto). destruct (lookup q0 sp) eqn:L; [discriminate|]. intros _.
      exists q0, n0. split; auto. split; auto. split; auto. intros I. apply lookup_in in I. destruct I as (x & E). congruence.
  - intros (q & n & -> & Q & N & I).
    assert (rx_match rxColIdent (q ++ "." :: n) = true) as -> by (apply col_match; eauto 6).
    destruct (rxReserved (q ++ "." :: n)) eqn:R.
    + apply reserved_spec in R. apply value_word_no_dot in R. exfalso. apply R. apply in_app_iff. right. now left.
    + cbn [andb negb]. rewrite cut_last_app by (apply name_not_in; auto). destruct (lookup q sp) eqn:L; auto.
      exfalso. apply I. apply lookup_in. eauto.
Qed.

Lemma parseColIdent_errs : forall sp v e, parseColIdent sp v = inr e -> e = EBadColId \/ e = EUnknownQualifier.
Proof.
  intros sp v e. unfold parseColIdent. destruct (negb (isColIdent v)). intros H; inversion H; auto.
  destruct (cut_last "." v) as [[q n]|]; [|discriminate]. destruct (lookup q sp); [discriminate|]. intros H; inversion H; auto.
Qed.

Lemma parseRelIdent_spec : forall v q n a,
  parseRelIdent v = inl (MkRel n a q) <->
  v = qualified q (aliased n a) /\ is_name n /\ (q = [] \/ is_name q) /\ (a = [] \/ is_name a).
Proof.
  intros v q n a. unfold parseRelIdent.
  assert (forall n a, is_name n -> a = [] \/ is_name a ->
            ~ In "." (aliased n a) /\ ((cut_last ":" (aliased n a) = None /\ a = [] /\ aliased n a = n) \/ cut_last ":" (aliased n a) = Some (n, a))) as AL.
  { intros n0 a0 N A. destruct A as [->|A]; cbn [aliased].
    - split. apply name_not_in; auto. left. rewrite cut_last_none by (apply name_not_in; auto). auto.
    - pose proof (name_nonempty a0 A). assert (aliased n0 a0 = n0 ++ ":" :: a0) as -> by (destruct a0; [contradiction|reflexivity]).
      split. intros I. apply in_app_iff in I. destruct I as [I|[I|I]]; [revert I; apply name_not_in; auto|discriminate|revert I; apply name_not_in; auto].
      right. rewrite cut_last_app by (apply name_not_in; auto). reflexivity. }
  split.
  - destruct (rx_match rxRelIdent v) eqn:M; cbn [negb]; [|discriminate].
    apply rel_match in M. destruct M as (q0 & n0 & a0 & Q & N & A & ->). destruct (AL n0 a0 N A) as [ND E].
    destruct Q as [->|Q]; cbn [qualified].
    + rewrite cut_last_none by auto. cbv beta iota zeta. destruct E as [(-> & -> & ->)| ->]; intros H; inversion H; subst; auto.
    + pose proof (name_nonempty q0 Q). assert (qualified q0 (aliased n0 a0) = q0 ++ "." :: aliased n0 a0) as -> by (destruct q0; [contradiction|reflexivity]).
      rewrite cut_last_app by auto. cbv beta iota zeta. destruct E as [(-> & -> & EA)| ->]; intros H0; inversion H0; subst; (split; [|now auto]); (destruct q; [contradiction|]); auto.
  - intros (-> & N & Q & A). destruct (AL n a N A) as [ND E].
    assert (rx_match rxRelIdent (qualified q (aliased n a)) = true) as -> by (apply rel_match; eauto 10). cbn [negb].
    destruct Q as [->|Q]; cbn [qualified].
    + rewrite cut_last_none by auto. cbv beta iota zeta. destruct E as [(-> & -> & ->)| ->]; reflexivity.
    + pose proof (name_nonempty q Q). assert (qualified q (aliased n a) = q ++ "." :: aliased n a) as -> by (destruct q; [contradiction|reflexivity]).
      rewrite cut_last_app by auto. cbv beta iota zeta. destruct E as [(-> & -> & ->)| ->]; reflexivity.
Qed.

(** *** lower case and white space *)
Lemma lower_cons : forall c r, (N_of_ascii c < 128)%N -> lower (c :: r) = low c :: lower r.
Proof.
  intros c r H. assert ((code c =? 196)%N = false) as E1 by (apply N.eqb_neq; unfold code; lia).
  assert ((code c =? 226)%N = false) as E2 by (apply N.eqb_neq; unfold code; lia).
  destruct r as [|d [|e r]]; cbn [lower]; auto; rewrite ?E1, ?E2; reflexivity.
Qed.
Lemma lower_ascii : forall s, ascii7 s -> lower s = map low s.
Proof.
  induction s as [|c s IH]; intros H; auto. inversion H; subst. rewrite lower_cons by auto. cbn [map]. now rewrite IH.
Qed.

Lemma is_space_spec : forall c, is_space c = true <-> space c.
Proof.
  intros c. unfold is_space, space. rewrite existsb_exists. split.
  - intros (x & I & E). apply N.eqb_eq in E. unfold code in E. rewrite E. exact I.
  - intros I. exists (N_of_ascii c). split; auto. unfold code. apply N.eqb_refl.
Qed.

Definition lead_ok (s : bytes) : Prop := match s with [] => True | c :: _ => ~ space c end.

Lemma trim_left_lead : forall a t, spaces a -> lead_ok t -> trim_left (a ++ t) = t.
Proof.
  intros a t F L. induction F as [|c a F1 F IH]; cbn [app].
  - destruct t as [|c t]; auto. cbn [trim_left]. destruct (is_space c) eqn:E; auto. apply is_space_spec in E. cbn in L. tauto.
  - cbn [trim_left]. apply is_space_spec in F1. rewrite F1. auto.
Qed.
Lemma trim_left_split : forall s, exists a, spaces a /\ s = a ++ trim_left s /\ lead_ok (trim_left s).
Proof.
  induction s as [|c s (a & A & E & L)]; cbn [trim_left].
  - exists []. conjs; auto. constructor. cbn. auto.
  - destruct (is_space c) eqn:Sp.
    + exists (c :: a). conjs; auto. constructor; auto. now apply is_space_spec. cbn. now rewrite <- E.
    + exists []. conjs; auto. constructor. cbn. intros H. apply is_space_spec in H. congruence.
Qed.

Lemma trimmed_lead : forall s, trimmed s -> lead_ok s /\ lead_ok (rev s).
Proof.
  intros s [H1 H2]. split.
  - destruct s as [|c s]; cbn; auto. now apply (H1 c s).
  - destruct (rev s) as [|c r] eqn:E; cbn; auto. apply (H2 (rev r) c). rewrite <- (rev_involutive s), E. reflexivity.
Qed.
Lemma lead_trimmed : forall s, lead_ok s -> lead_ok (rev s) -> trimmed s.
Proof.
  intros s H1 H2. split; intros.
  - subst. exact H1.
  - subst. rewrite rev_app_distr in H2. exact H2.
Qed.

Lemma trim_space_eq : forall a t b, spaces a -> spaces b -> trimmed t -> trim_space (a ++ t ++ b) = t.
Proof.
  intros a t b A Bb T. destruct (trimmed_lead _ T) as [L1 L2]. unfold trim_space. destruct t as [|c t].
  - cbn [app]. rewrite <- (app_nil_r (a ++ b)). rewrite trim_left_lead; cbn; auto. now apply Forall_app.
  - rewrite trim_left_lead; auto. rewrite rev_app_distr. rewrite trim_left_lead; auto. apply rev_involutive. now apply Forall_rev.
Qed.
Lemma trim_space_split : forall s, exists a b, spaces a /\ spaces b /\ s = a ++ trim_space s ++ b /\ trimmed (trim_space s).
Proof.
  intros s. destruct (trim_left_split s) as (a & A & E & L). unfold trim_space.
  destruct (trim_left_split (rev (trim_left s))) as (b & Bb & E2 & L2).
  exists a, (rev b).
  assert (trim_left s = rev (trim_left (rev (trim_left s))) ++ rev b) as E3.
  { rewrite <- rev_app_distr, <- E2. now rewrite rev_involutive. }
  conjs; auto. now apply Forall_rev. rewrite <- E3. exact E.
  apply lead_trimmed.
  - rewrite E3 in L. destruct (rev (trim_left (rev (trim_left s)))); cbn in *; auto.
  - rewrite rev_involutive. exact L2.
Qed.
Lemma trim_space_tail : forall s b, spaces b -> trim_space (s ++ b) = trim_space s.
Proof.
  intros s b Hb. destruct (trim_space_split s) as (a & c & A & C & E & T).
  rewrite E at 1. rewrite <- !app_assoc. apply trim_space_eq; auto. now apply Forall_app.
Qed.
Lemma trim_space_trimmed : forall s, trimmed s -> trim_space s = s.
Proof.
  intros s T. pose proof (trim_space_eq [] s [] (Forall_nil _) (Forall_nil _) T) as H. cbn [app] in H. now rewrite app_nil_r in H.
Qed.

(** *** operators *)
Lemma sym_len_none : forall c r, sym_len (c :: r) = None <-> ~ symbol_char c.
Proof.
  intros c r. unfold sym_len, symbol_char. cbn [In].
  destruct (beq c "=") eqn:E1; [apply beq_true in E1; subst; split; [discriminate|intros H; exfalso; apply H; auto]|].
  destruct (beq c "!") eqn:E2.
  { apply beq_true in E2; subst; split; [|intros H; exfalso; apply H; auto]. destruct r as [|d r]; [discriminate|].
    destruct (beq d "~" && _); [discriminate|]. destruct (beq d "=" || beq d "~"); discriminate. }
  destruct (beq c "<") eqn:E3.
  { apply beq_true in E3; subst; split; [|intros H; exfalso; apply H; auto]. destruct r as [|d r]; [discriminate|].
    destruct (beq d "=" || beq d ">"); discriminate. }
  destruct (beq c ">") eqn:E4.
  { apply beq_true in E4; subst; split; [|intros H; exfalso; apply H; auto]. destruct r as [|d r]; [discriminate|].
    destruct (beq d "="); discriminate. }
  destruct (beq c "~") eqn:E5.
  { apply beq_true in E5; subst; split; [|intros H; exfalso; apply H; auto 6]. destruct r as [|d r]; [discriminate|].
    destruct (beq d "*"); discriminate. }
  split; auto. intros _ [<-|[<-|[<-|[<-|[<-|[]]]]]]; cbn in *; discriminate.
Qed.

(** A symbol read at the head of [s] is a symbol, and the longest one. *)
Definition longest (op t : text) : Prop :=
  In op symbols /\ forall op', In op' symbols -> prefix_of op' (op ++ t) -> (List.length op' <= List.length op)%nat.

Ltac sym_in := unfold symbols; cbn [map In]; repeat (first [left; reflexivity | right]).
Ltac sym_cases I := unfold symbols in I; cbn [map] in I;
  repeat (apply in_inv in I; destruct I as [<-|I]); [..|destruct I].
Ltac no_beq := match goal with H : beq _ _ = false |- _ => cbn in H; discriminate end.
Ltac all_syms := let I' := fresh in intros op' I' (z & Z); sym_cases I'; cbn [app lit list_ascii_of_string List.length] in *; try lia;
  injection Z; intros; subst; try discriminate.

Lemma sym_len_longest : forall s n, sym_len s = Some (S n) -> longest (firstn (S n) s) (skipn (S n) s).
Proof.
  intros s n. unfold longest. destruct s as [|c r]; [discriminate|]. unfold sym_len.
  destruct (beq c "=") eqn:E1. { apply beq_true in E1; subst. intros H; inversion H; subst. cbn [firstn skipn app]. split. sym_in. all_syms. }
  destruct (beq c "!") eqn:E2.
  { apply beq_true in E2; subst. destruct r as [|d r]; [discriminate|].
    destruct (beq d "~" && match r with e :: _ => beq e "*" | [] => false end) eqn:E3.
    - apply andb_true_iff in E3. destruct E3 as [E3 E4]. apply beq_true in E3. subst. destruct r as [|e r]; [discriminate|]. apply beq_true in E4. subst.
      intros H; inversion H; subst. cbn [firstn skipn app]. split. sym_in. all_syms.
    - destruct (beq d "=" || beq d "~") eqn:E4; [|discriminate]. apply orb_true_iff in E4. rewrite !beq_true in E4.
      intros H; inversion H; subst. destruct E4; subst; cbn [firstn skipn app]; (split; [sym_in|]); all_syms. }
  destruct (beq c "<") eqn:E3.
  { apply beq_true in E3; subst. destruct r as [|d r].
    - intros H; inversion H; subst. cbn [firstn skipn app]. split. sym_in. all_syms.
    - destruct (beq d "=" || beq d ">") eqn:E4.
      + apply orb_true_iff in E4. rewrite !beq_true in E4. intros H; inversion H; subst. destruct E4; subst; cbn [firstn skipn app]; (split; [sym_in|]); all_syms.
      + intros H; inversion H; subst. cbn [firstn skipn app]. split. sym_in. all_syms. }
  destruct (beq c ">") eqn:E4.
  { apply beq_true in E4; subst. destruct r as [|d r].
    - intros H; inversion H; subst. cbn [firstn skipn app]. split. sym_in. all_syms.
    - destruct (beq d "=") eqn:E5.
      + apply beq_true in E5. intros H; inversion H; subst. cbn [firstn skipn app]. split. sym_in. all_syms.
      + intros H; inversion H; subst. cbn [firstn skipn app]. split. sym_in. all_syms. }
  destruct (beq c "~") eqn:E5; [|discriminate].
  { apply beq_true in E5; subst. destruct r as [|d r].
    - intros H; inversion H; subst. cbn [firstn skipn app]. split. sym_in. all_syms.
    - destruct (beq d "*") eqn:E6.
      + apply beq_true in E6. intros H; inversion H; subst. cbn [firstn skipn app]. split. sym_in. all_syms.
      + intros H; inversion H; subst. cbn [firstn skipn app]. split. sym_in. all_syms. }
Qed.

Lemma longest_sym_len : forall op t, longest op t -> sym_len (op ++ t) = Some (List.length op) /\ (0 < List.length op)%nat.
Proof.
  intros op t [I M].
  assert (forall op', In op' symbols -> (List.length op < List.length op')%nat -> ~ prefix_of op' (op ++ t)) as X.
  { intros op' I' L P. specialize (M op' I' P). lia. }
  clear M. sym_cases I; (split; [|cbn; lia]); cbn [app lit list_ascii_of_string List.length] in *; unfold sym_len;
   try reflexivity; destruct t as [|d t]; try reflexivity; cbn [app].
  - destruct (beq d "=") eqn:E. { apply beq_true in E. subst. exfalso. apply (X (lit "<=")). sym_in. cbn; lia. exists t. reflexivity. }
    destruct (beq d ">") eqn:E'. { apply beq_true in E'. subst. exfalso. apply (X (lit "<>")). sym_in. cbn; lia. exists t. reflexivity. }
    reflexivity.
  - destruct (beq d "=") eqn:E. { apply beq_true in E. subst. exfalso. apply (X (lit ">=")). sym_in. cbn; lia. exists t. reflexivity. }
    reflexivity.
  - destruct (beq d "*") eqn:E. { apply beq_true in E. subst. exfalso. apply (X (lit "~*")). sym_in. cbn; lia. exists t. reflexivity. }
    reflexivity.
  - destruct (beq d "*") eqn:E. { apply beq_true in E. subst. exfalso. apply (X (lit "!~*")). sym_in. cbn; lia. exists t. reflexivity. }
    reflexivity.
Qed.

Lemma low_space : forall c, low c = " " -> c = " ".
Proof.
  intros c. unfold low, code, chr. destruct ((65 <=? N_of_ascii c) && (N_of_ascii c <=? 90))%N eqn:E; auto.
  apply andb_true_iff in E. rewrite !N.leb_le in E. intros H. apply (f_equal N_of_ascii) in H.
  rewrite N_ascii_embedding in H by lia. cbn in H. lia.
Qed.

Lemma word_ends_low : forall t, word_ends (map low t) <-> word_ends t.
Proof.
  intros t. unfold word_ends. destruct t as [|c t]; cbn; [tauto|]. split; intros [H|(r & H)]; try discriminate; right.
  - injection H as H _. apply low_space in H. subst. eauto.
  - injection H as -> _. exists (map low t). reflexivity.
Qed.

Lemma has_prefix_spec : forall a s, has_prefix a s = true <-> prefix_of a s.
Proof.
  induction a as [|c a IH]; intros s; cbn.
  - split; auto. intros _. exists s. reflexivity.
  - destruct s as [|d s].
    + split; [discriminate|]. intros (t & H). discriminate.
    + rewrite andb_true_iff, IH. unfold prefix_of. split.
      * intros [E (t & ->)]. apply Ascii.eqb_eq in E. subst. exists t. reflexivity.
      * intros (t & H). injection H as -> ->. split; eauto. apply Ascii.eqb_refl.
Qed.

Lemma word_at_spec : forall a s, word_at a s = true <-> exists t, s = a ++ t /\ word_ends t.
Proof.
  intros a s. unfold word_at. rewrite andb_true_iff, has_prefix_spec. unfold prefix_of. split.
  - intros [(t & ->) H]. exists t. split; auto. rewrite skipn_app, skipn_all, Nat.sub_diag in H. cbn in H.
    unfold word_ends. destruct t as [|c t]; auto. apply beq_true in H. subst. eauto.
  - intros (t & -> & W). split; eauto. rewrite skipn_app, skipn_all, Nat.sub_diag. cbn.
    destruct W as [->|(r & ->)]; auto.
Qed.

(** The words that [word_op] recognises. *)
Lemma word_op_some : forall x op, word_op x = Some op -> In op op_words /\ exists t, x = op ++ t /\ word_ends t.
Proof.
  intros x op. unfold word_op.
  assert (forall p1 p2, (p1 = B "not" \/ p1 = B "is") -> x = p1 ++ p2 ->
            match find (fun adj => word_at adj p2) predicateAdjectives with Some adj => Some (p1 ++ adj) | None => None end = Some op ->
            In op op_words /\ exists t, x = op ++ t /\ word_ends t) as X.
  { intros p1 p2 P E. destruct (find _ _) as [adj|] eqn:F; [|discriminate]. intros H. injection H as <-.
    apply find_some in F. destruct F as [I W]. apply word_at_spec in W. destruct W as (t & -> & W). split.
    - clear -P I. unfold predicateAdjectives in I. repeat (apply in_inv in I; destruct I as [<-|I]); [..|destruct I];
        destruct P; subst; unfold op_words; cbn [map In]; repeat (first [left; reflexivity | right]).
    - exists t. rewrite E. rewrite app_assoc. auto. }
  destruct (Nat.ltb 3 (List.length x) && has_prefix (B "not") x) eqn:E1.
  - apply andb_true_iff in E1. destruct E1 as [_ E1]. apply has_prefix_spec in E1. destruct E1 as (p2 & ->).
    change (skipn 3 (B "not" ++ p2)) with p2. destruct p2 as [|c p2]; [discriminate|]. apply X; auto.
  - destruct (Nat.ltb 2 (List.length x) && has_prefix (B "is") x) eqn:E2; [|discriminate].
    apply andb_true_iff in E2. destruct E2 as [_ E2]. apply has_prefix_spec in E2. destruct E2 as (p2 & ->).
    change (skipn 2 (B "is" ++ p2)) with p2. destruct p2 as [|c p2]; [discriminate|]. apply X; auto.
Qed.

Lemma word_op_complete : forall op t, In op op_words -> word_ends t -> word_op (op ++ t) = Some op.
Proof.
  intros op t I W. unfold op_words in I. cbn [map] in I.
  destruct W as [->|(r & ->)]; repeat (apply in_inv in I; destruct I as [<-|I]); try reflexivity; destruct I.
Qed.

(** No operator word begins with a space or a symbol. *)
Lemma word_op_head : forall c x, ~ (c = "n" \/ c = "i") -> word_op (c :: x) = None.
Proof.
  intros c x H. destruct (word_op (c :: x)) as [op|] eqn:E; auto. apply word_op_some in E. destruct E as (I & t & E & _). exfalso. apply H.
  clear H. unfold op_words in I. cbn [map] in I. repeat (apply in_inv in I; destruct I as [<-|I]); [..|destruct I]; cbn in E; injection E as -> _; auto.
Qed.

(** *** the scan *)
Lemma skipn_app_len : forall {A} (a b : list A), skipn (List.length a) (a ++ b) = b.
Proof. intros. rewrite skipn_app, skipn_all, Nat.sub_diag. reflexivity. Qed.
Lemma skipn_map_len : forall (f : ascii -> ascii) a b, skipn (List.length a) (map f (a ++ b)) = map f b.
Proof. intros. rewrite map_app. rewrite <- (map_length f a) at 1. apply skipn_app_len. Qed.
Lemma firstn_app_len : forall {A} (a b : list A), firstn (List.length a) (a ++ b) = a.
Proof. intros. rewrite firstn_app, firstn_all, Nat.sub_diag. cbn. apply app_nil_r. Qed.

Definition no_symbol (s : text) : Prop := Forall (fun c => ~ symbol_char c) s.

(** Characters that cannot be part of an operator are passed over. *)
Lemma pred_loop_skip : forall a pre s,
  no_symbol a ->
  (forall a1 a2, a = a1 ++ " " :: a2 -> word_op (map low (a2 ++ s)) = None) ->
  pred_loop (map low (pre ++ a ++ s)) pre (a ++ s) = pred_loop (map low (pre ++ a ++ s)) (pre ++ a) s.
Proof.
  induction a as [|c a IH]; intros pre s F W; cbn [app].
  - now rewrite app_nil_r.
  - inversion F as [|? ? F1 F2]; subst. cbn [pred_loop]. rewrite (proj2 (sym_len_none c (a ++ s)) F1).
    assert (pred_loop (map low (pre ++ c :: a ++ s)) (pre ++ [c]) (a ++ s) = pred_loop (map low (pre ++ c :: a ++ s)) (pre ++ c :: a) s) as N.
    { replace (pre ++ c :: a ++ s) with ((pre ++ [c]) ++ a ++ s) by now rewrite <- app_assoc.
      rewrite IH; auto. f_equal. now rewrite <- app_assoc.
      intros a1 a2 E. apply (W (c :: a1) a2). cbn. now rewrite E. }
    destruct (beq c " ") eqn:E; auto. apply beq_true in E. subst.
    assert (Nat.ltb (List.length (map low (pre ++ " " :: a ++ s))) (S (List.length pre)) = false) as ->.
    { apply Nat.ltb_ge. rewrite map_length, app_length. cbn. lia. }
    assert (skipn (S (List.length pre)) (map low (pre ++ " " :: a ++ s)) = map low (a ++ s)) as ->.
    { replace (S (List.length pre)) with (List.length (pre ++ [" "])) by (rewrite app_length; cbn; lia).
      replace (pre ++ " " :: a ++ s) with ((pre ++ [" "]) ++ a ++ s) by now rewrite <- app_assoc. apply skipn_map_len. }
    rewrite (W [] a eq_refl). exact N.
Qed.

Lemma pred_loop_symbol : forall x pre op t, longest op t -> pred_loop x pre (op ++ t) = Ok (pre, op, t).
Proof.
  intros x pre op t L. destruct (longest_sym_len _ _ L) as [E P]. destruct (op ++ t) as [|c r] eqn:Eo; [discriminate|].
  cbn [pred_loop]. rewrite E. destruct (List.length op) as [|n] eqn:En; [lia|]. rewrite <- En, <- Eo.
  now rewrite firstn_app_len, skipn_app_len.
Qed.

Lemma pred_loop_word : forall pre o op t, In op op_words -> spelled o op -> word_ends t ->
  pred_loop (map low (pre ++ " " :: o ++ t)) pre (" " :: o ++ t) = Ok (pre, op, t).
Proof.
  intros pre o op t I Sp W. cbn [pred_loop]. rewrite (proj2 (sym_len_none " " (o ++ t))).
  2: { intros [H|[H|[H|[H|[H|[]]]]]]; discriminate. }
  change (beq " " " ") with true. cbn [andb].
  assert (Nat.ltb (List.length (map low (pre ++ " " :: o ++ t))) (S (List.length pre)) = false) as ->.
  { apply Nat.ltb_ge. rewrite map_length, app_length. cbn. lia. }
  assert (skipn (S (List.length pre)) (map low (pre ++ " " :: o ++ t)) = op ++ map low t) as ->.
  { replace (S (List.length pre)) with (List.length (pre ++ [" "])) by (rewrite app_length; cbn; lia).
    replace (pre ++ " " :: o ++ t) with ((pre ++ [" "]) ++ o ++ t) by now rewrite <- app_assoc. rewrite skipn_map_len.
    rewrite map_app. f_equal. exact Sp. }
  rewrite word_op_complete by (auto; now apply word_ends_low).
  replace (List.length op) with (List.length o) by (rewrite <- Sp, map_length; reflexivity). now rewrite skipn_app_len.
Qed.

(** What the scan returns. *)
Lemma pred_loop_sound : forall s pre,
  (pred_loop (map low (pre ++ s)) pre s = Ok ([], [], [])) \/
  (exists a w o t op, s = a ++ w ++ o ++ t /\ no_symbol (a ++ w) /\ op_at w o t op
     /\ pred_loop (map low (pre ++ s)) pre s = Ok (pre ++ a, op, t)).
Proof.
  induction s as [|c s IH]; intros pre; [left; reflexivity|].
  cbn [pred_loop]. destruct (sym_len (c :: s)) as [[|n]|] eqn:E.
  - left. reflexivity.
  - right. pose proof (sym_len_longest _ _ E) as L. exists [], [], (firstn (S n) (c :: s)), (skipn (S n) (c :: s)), (firstn (S n) (c :: s)).
    conjs.
    + cbn [app]. symmetry. apply firstn_skipn.
    + constructor.
    + destruct L as [L1 L2]. apply op_symbol; auto. constructor.
    + now rewrite app_nil_r.
  - apply sym_len_none in E.
    assert (pred_loop (map low (pre ++ c :: s)) (pre ++ [c]) s = Ok ([], [], []) \/
            exists a w o t op, c :: s = a ++ w ++ o ++ t /\ no_symbol (a ++ w) /\ op_at w o t op
              /\ pred_loop (map low (pre ++ c :: s)) (pre ++ [c]) s = Ok (pre ++ a, op, t)) as X.
    { replace (pre ++ c :: s) with ((pre ++ [c]) ++ s) by now rewrite <- app_assoc.
      destruct (IH (pre ++ [c])) as [H|(a & w & o & t & op & H1 & H2 & H3 & H4)]; auto.
      right. exists (c :: a), w, o, t, op. conjs; auto.
      - cbn. now rewrite H1.
      - constructor; auto.
      - rewrite H4. now rewrite <- app_assoc. }
    destruct (beq c " ") eqn:Ec; [|exact X]. apply beq_true in Ec. subst.
    assert (Nat.ltb (List.length (map low (pre ++ " " :: s))) (S (List.length pre)) = false) as ->.
    { apply Nat.ltb_ge. rewrite map_length, app_length. cbn. lia. }
    assert (skipn (S (List.length pre)) (map low (pre ++ " " :: s)) = map low s) as ->.
    { replace (S (List.length pre)) with (List.length (pre ++ [" "])) by (rewrite app_length; cbn; lia).
      replace (pre ++ " " :: s) with ((pre ++ [" "]) ++ s) by now rewrite <- app_assoc. apply skipn_map_len. }
    destruct (word_op (map low s)) as [op|] eqn:W; [|exact X].
    right. apply word_op_some in W. destruct W as (I & t' & Et & Wt).
    exists [], [" "], (firstn (List.length op) s), (skipn (List.length op) s), op.
    assert (map low (firstn (List.length op) s) = op) as Eo by (rewrite <- firstn_map, Et; apply firstn_app_len).
    assert (map low (skipn (List.length op) s) = t') as Et' by (rewrite <- skipn_map, Et; apply skipn_app_len).
    conjs.
    + cbn [app]. f_equal. symmetry. apply firstn_skipn.
    + constructor; auto.
    + apply (op_word [] _ _ op); auto. constructor. apply word_ends_low. now rewrite Et'.
    + now rewrite app_nil_r.
Qed.
