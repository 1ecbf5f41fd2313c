(** Lemmas about the parsers of pgsql/convert_util.go. *)
From Coq Require Import Ascii String ZArith NArith Bool List Lia.
From Verif Require Import GoBase Strconv StrconvProofs ConvertUtil.
Import ListNotations.
Local Open Scope char_scope.

Lemma beq_refl : forall c, beq c c = true.
Proof. intros. apply Ascii.eqb_refl. Qed.

Lemma beq_eq : forall c d, beq c d = true <-> c = d.
Proof. intros. apply Ascii.eqb_eq. Qed.

Lemma beq_neq : forall c d, beq c d = false <-> c <> d.
Proof. intros. apply Ascii.eqb_neq. Qed.

Lemma bytes_eqb_eq : forall a b, bytes_eqb a b = true <-> a = b.
Proof.
  induction a as [|x a IH]; destruct b as [|y b]; simpl; split; intros H; try congruence; auto.
  - apply andb_true_iff in H. destruct H as [H1 H2]. apply Ascii.eqb_eq in H1. apply IH in H2. congruence.
  - inversion H; subst. rewrite Ascii.eqb_refl. apply IH. reflexivity.
Qed.

(** [removelast] and delimiters *)
Lemma drop_ends_wrap : forall o x c, drop_ends (o :: x ++ [c]) = Ok x.
Proof.
  intros. unfold drop_ends. destruct (x ++ [c]) eqn:E.
  - destruct x; discriminate.
  - rewrite <- E, removelast_last. reflexivity.
Qed.

Lemma concat_sep_join : forall s els, els <> [] ->
  List.concat (map (fun e => e ++ [s]) els) = join [s] els ++ [s].
Proof.
  induction els as [|e els IH]; intros H. congruence.
  destruct els as [|e' els].
  - simpl. now rewrite app_nil_r.
  - change (List.concat (map (fun e => e ++ [s]) (e :: e' :: els)))
      with ((e ++ [s]) ++ List.concat (map (fun e => e ++ [s]) (e' :: els))).
    rewrite IH by discriminate. simpl. now rewrite <- !app_assoc.
Qed.

Lemma write_sep_join : forall o s c els, els <> [] ->
  write_sep o s c els = o :: join [s] els ++ [c].
Proof.
  intros. unfold write_sep. rewrite concat_sep_join by auto.
  rewrite app_comm_cons, removelast_last. reflexivity.
Qed.

Lemma drop_ends_write_sep : forall o s c els, els <> [] ->
  drop_ends (write_sep o s c els) = Ok (join [s] els).
Proof. intros. rewrite write_sep_join by auto. apply drop_ends_wrap. Qed.

(** A property of all bytes of a string. *)
Definition nochar (c : ascii) (s : bytes) : Prop := ~ In c s.

Lemma nochar_cons : forall c d s, nochar c (d :: s) <-> d <> c /\ nochar c s.
Proof. unfold nochar. simpl. intuition. Qed.

Lemma nochar_app : forall c s t, nochar c (s ++ t) <-> nochar c s /\ nochar c t.
Proof. unfold nochar. intros. rewrite in_app_iff. intuition. Qed.

Lemma forall_nochar : forall (f : ascii -> bool) c s,
  Forall (fun x => f x = true) s -> f c = false -> nochar c s.
Proof.
  intros f c s H E I. rewrite Forall_forall in H. specialize (H _ I). congruence.
Qed.

Lemma split_on_app : forall sep e cur rest, nochar sep e ->
  split_on sep cur (e ++ sep :: rest) = (cur ++ e) :: split_on sep [] rest.
Proof.
  induction e as [|c e IH]; intros cur rest H.
  - simpl. rewrite beq_refl, app_nil_r. reflexivity.
  - apply nochar_cons in H. destruct H as [H1 H2]. simpl.
    apply beq_neq in H1. rewrite H1, IH by auto. now rewrite <- app_assoc.
Qed.

Lemma split_on_end : forall sep e cur, nochar sep e -> split_on sep cur e = [cur ++ e].
Proof.
  induction e as [|c e IH]; intros cur H.
  - simpl. now rewrite app_nil_r.
  - apply nochar_cons in H. destruct H as [H1 H2]. simpl.
    apply beq_neq in H1. rewrite H1, IH by auto. now rewrite <- app_assoc.
Qed.

Lemma split_on_join : forall sep els, els <> [] -> Forall (nochar sep) els ->
  split_on sep [] (join [sep] els) = els.
Proof.
  induction els as [|e els IH]; intros N F. congruence.
  inversion F; subst. destruct els as [|e' els].
  - simpl join. now apply split_on_end.
  - change (join [sep] (e :: e' :: els)) with (e ++ sep :: join [sep] (e' :: els)).
    rewrite split_on_app by auto. rewrite IH; auto. discriminate.
Qed.

Lemma join_nil_inv : forall sep els, join [sep] els = [] -> els = [] \/ els = [[]].
Proof.
  intros sep els H. destruct els as [|e els]; auto. destruct els as [|e' els].
  - simpl in H. subst. auto.
  - simpl in H. apply app_eq_nil in H. destruct H as [_ H]. discriminate.
Qed.

(** The comma splitter inverts the writer on comma-free elements; the only
    confusion is between no element and one empty element. *)
Lemma comma_array_write : forall o c els,
  els <> [] -> els <> [[]] -> Forall (nochar ",") els ->
  pgParseCommaArray (write_sep o "," c els) = Ok els.
Proof.
  intros. unfold pgParseCommaArray. rewrite drop_ends_write_sep by auto. cbn [bind].
  destruct (join [","] els) eqn:E.
  - apply join_nil_inv in E. tauto.
  - rewrite <- E, split_on_join; auto.
Qed.

Lemma comma_array_empty : pgParseCommaArray ["{"; "}"] = Ok [].
Proof. reflexivity. Qed.

Lemma vector_join : forall els,
  els <> [] -> els <> [[]] -> Forall (nochar " ") els ->
  pgParseVector (join [" "] els) = els.
Proof.
  intros. unfold pgParseVector.
  destruct (join [" "] els) eqn:E.
  - apply join_nil_inv in E. tauto.
  - rewrite <- E, split_on_join; auto.
Qed.

Lemma cut_app : forall sep x r, nochar sep x -> cut sep (x ++ sep :: r) = Some (x, r).
Proof.
  induction x as [|c x IH]; intros r H; simpl.
  - now rewrite beq_refl.
  - apply nochar_cons in H. destruct H as [H1 H2]. apply beq_neq in H1.
    rewrite H1, IH by auto. reflexivity.
Qed.

Lemma cut_none : forall sep x, nochar sep x -> cut sep x = None.
Proof.
  induction x as [|c x IH]; intros H; simpl; auto.
  apply nochar_cons in H. destruct H as [H1 H2]. apply beq_neq in H1. now rewrite H1, IH.
Qed.

Lemma range_parse : forall o c x y, nochar "," x ->
  pgParseRange (o :: x ++ "," :: y ++ [c]) = Ok (Some x, Some y).
Proof.
  intros. unfold pgParseRange.
  replace (o :: x ++ "," :: y ++ [c]) with (o :: (x ++ "," :: y) ++ [c])
    by (rewrite <- app_assoc; reflexivity).
  rewrite drop_ends_wrap. cbn [bind]. rewrite cut_app; auto.
Qed.

Lemma upto_app : forall sep x r, nochar sep x -> upto sep (x ++ sep :: r) = x.
Proof.
  induction x as [|c x IH]; intros r H; simpl.
  - now rewrite beq_refl.
  - apply nochar_cons in H. destruct H as [H1 H2]. apply beq_neq in H1.
    rewrite H1, IH by auto. reflexivity.
Qed.

Lemma upto_all : forall sep x, nochar sep x -> upto sep x = x.
Proof.
  induction x as [|c x IH]; intros H; simpl; auto.
  apply nochar_cons in H. destruct H as [H1 H2]. apply beq_neq in H1. now rewrite H1, IH.
Qed.

Lemma skipn_length_app : forall {A} (x y : list A), skipn (List.length x) (x ++ y) = y.
Proof. induction x; simpl; auto. Qed.

Lemma skipn_app_plus : forall {A} (x y : list A) n,
  skipn (List.length x + n) (x ++ y) = skipn n y.
Proof. induction x; simpl; auto. Qed.

(** *** string arrays *)
Lemma sa_skip : forall s k, sa_loop s k = sa_loop (skipn k s) 0.
Proof.
  induction s as [|c s IH]; intros k.
  - destruct k; reflexivity.
  - destruct k. reflexivity. simpl. apply IH.
Qed.

Definition esc1 (e : bytes) : bytes := flat_map (fun c => if needs_esc c then [bs; c] else [c]) e.

Lemma needs_esc_false : forall c, needs_esc c = false -> beq c dq = false /\ beq c bs = false.
Proof.
  unfold needs_esc. intros c H. apply orb_false_iff in H. destruct H as [H _].
  apply orb_false_iff in H. auto.
Qed.

Ltac pairlia :=
  match goal with |- inl (?a, ?x) = inl (?a, ?y) =>
    replace x with y by (cbn [List.length app]; lia); reflexivity end.

Lemma sa_quoted_esc : forall e rest str k ib,
  sa_quoted (esc1 e ++ dq :: rest) str k ib = inl (str ++ e, S (k + List.length (esc1 e))).
Proof.
  induction e as [|c e IH]; intros.
  - simpl. rewrite app_nil_r. pairlia.
  - unfold esc1. cbn [flat_map]. fold (esc1 e). destruct (needs_esc c) eqn:E.
    + cbn [app sa_quoted]. rewrite beq_refl. rewrite IH, <- app_assoc. cbn [app List.length].
      pairlia.
    + destruct (needs_esc_false _ E) as [E1 E2]. cbn [app sa_quoted]. rewrite E1, E2.
      rewrite IH, <- app_assoc. cbn [app List.length]. pairlia.
Qed.

(** The literal written for one element of a text array. *)
Definition enc_text (o : option bytes) : bytes :=
  match o with None => B "NULL" | Some e => quote1 e end.

Lemma sa_quote1 : forall e rest, sa_loop (quote1 e ++ rest) 0 = Some e :: sa_loop rest 0.
Proof.
  intros. unfold quote1. fold (esc1 e). cbn [app]. rewrite <- app_assoc. cbn [app].
  change (sa_loop (dq :: esc1 e ++ dq :: rest) 0) with
    (match sa_quoted (esc1 e ++ dq :: rest) [] 0 0 with
     | inl (str, k) => Some str :: sa_loop (esc1 e ++ dq :: rest) k
     | inr k => sa_loop (esc1 e ++ dq :: rest) k end).
  rewrite sa_quoted_esc. cbn [app]. f_equal. rewrite sa_skip. cbn [plus].
  replace (S (List.length (esc1 e))) with (List.length (esc1 e) + 1)%nat by lia.
  rewrite skipn_app_plus. reflexivity.
Qed.

Lemma sa_enc : forall o rest, sa_loop (enc_text o ++ rest) 0 = o :: sa_loop rest 0.
Proof.
  destruct o; intros. apply sa_quote1. reflexivity.
Qed.

Lemma sa_join : forall l, sa_loop (join [","] (map enc_text l)) 0 = l.
Proof.
  induction l as [|o l IH]. reflexivity.
  destruct l as [|o' l].
  - simpl map. simpl join. rewrite <- (app_nil_r (enc_text o)), sa_enc. reflexivity.
  - change (join [","] (map enc_text (o :: o' :: l)))
      with (enc_text o ++ "," :: join [","] (map enc_text (o' :: l))).
    rewrite sa_enc. f_equal.
    change (sa_loop ("," :: join [","] (map enc_text (o' :: l))) 0)
      with (sa_loop (join [","] (map enc_text (o' :: l))) 0). apply IH.
Qed.

Lemma string_array_write : forall l, l <> [] ->
  pgParseStringArray (write_sep "{" "," "}" (map enc_text l)) = Ok l.
Proof.
  intros. unfold pgParseStringArray. rewrite drop_ends_write_sep.
  - cbn [bind]. now rewrite sa_join.
  - destruct l; simpl; congruence.
Qed.

(** *** quoted string arrays (elements are returned raw) *)
Lemma qsa_skip : forall s k, qsa_loop s k = qsa_loop (skipn k s) 0.
Proof.
  induction s as [|c s IH]; intros k.
  - destruct k; reflexivity.
  - destruct k. reflexivity. simpl. apply IH.
Qed.

Lemma qsa_quoted_plain : forall e rest acc, nochar dq e -> nochar bs e ->
  qsa_quoted (e ++ dq :: rest) acc = Some (acc ++ e).
Proof.
  induction e as [|c e IH]; intros rest acc H1 H2.
  - simpl. now rewrite app_nil_r.
  - apply nochar_cons in H1. apply nochar_cons in H2. destruct H1 as [A1 A2], H2 as [B1 B2].
    apply beq_neq in A1. apply beq_neq in B1. cbn [app qsa_quoted]. rewrite A1, B1.
    rewrite IH by auto. now rewrite <- app_assoc.
Qed.

Lemma qsa_elem : forall e rest, nochar dq e -> nochar bs e ->
  qsa_loop (dq :: e ++ dq :: rest) 0 = Some e :: qsa_loop (skipn 1 rest) 0.
Proof.
  intros. change (qsa_loop (dq :: e ++ dq :: rest) 0) with
    (match qsa_quoted (e ++ dq :: rest) [] with
            | Some str => Some str :: qsa_loop (e ++ dq :: rest) (List.length str + 2)
            | None => qsa_loop (e ++ dq :: rest) 0
            end).
  rewrite qsa_quoted_plain by auto. cbn [app]. f_equal.
  rewrite qsa_skip. rewrite skipn_app_plus. reflexivity.
Qed.

Lemma qsa_join : forall els, Forall (fun e => nochar dq e /\ nochar bs e) els ->
  qsa_loop (join [","] (map (fun e => dq :: e ++ [dq]) els)) 0 = map Some els.
Proof.
  induction els as [|e els IH]; intros F. reflexivity.
  inversion F as [|? ? [H1 H2] F']; subst. destruct els as [|e' els].
  - simpl map. simpl join. rewrite qsa_elem by auto. reflexivity.
  - change (join [","] (map (fun e => dq :: e ++ [dq]) (e :: e' :: els)))
      with ((dq :: e ++ [dq]) ++ "," :: join [","] (map (fun e => dq :: e ++ [dq]) (e' :: els))).
    cbn [app]. rewrite <- app_assoc. cbn [app]. rewrite qsa_elem by auto.
    cbn [skipn map]. f_equal. apply IH. auto.
Qed.

Lemma quoted_string_array_write : forall els, els <> [] ->
  Forall (fun e => nochar dq e /\ nochar bs e) els ->
  pgParseQuotedStringArray (write_sep "{" "," "}" (map (fun e => dq :: e ++ [dq]) els)) = Ok (map Some els).
Proof.
  intros. unfold pgParseQuotedStringArray. rewrite drop_ends_write_sep.
  - cbn [bind]. rewrite qsa_join; auto.
  - destruct els; simpl; congruence.
Qed.
