(** Lemmas about the server specification: which element texts array_in reads
    back as which elements; [array_in] inverts [array_out]. *)
From Coq Require Import Decimal DecimalString.
From Coq Require Import Ascii String ZArith NArith Bool List Lia.
From Verif Require Import PgSpec.
Import ListNotations.
Local Open Scope char_scope.

Definition next_of (c : ascii) : ain := if ascii_dec c "," then AStart false else AEnd.

(** [t], followed by a comma or the closing brace, is read as element [o]. *)
Definition elem_reads (t : text) (o : option text) : Prop :=
  forall b done c rest, c = "," \/ c = "}" ->
  ain_go (AStart b) false done (t ++ c :: rest) = ain_go (next_of c) false (o :: done) rest.

Definition plain (e : text) : Prop := Forall (fun c => pg_special c = false) e.

Lemma special_false : forall c, pg_special c = false ->
  c <> """" /\ c <> "\" /\ c <> "{" /\ c <> "}" /\ c <> "," /\ pg_space c = false.
Proof.
  intros c H. unfold pg_special in H. destruct in_dec as [|n]; [discriminate|].
  simpl in n. intuition (subst; tauto).
Qed.

Lemma drop_while_nil : forall f s, Forall (fun c => f c = false) s -> drop_while f s = s.
Proof. intros f s H. destruct H; simpl; auto. now rewrite H. Qed.

Lemma rtrim_plain : forall e, plain e -> rtrim e = e.
Proof.
  intros e H. unfold rtrim. rewrite drop_while_nil. apply rev_involutive.
  apply Forall_rev. eapply Forall_impl; [|exact H]. intros c Hc. now apply special_false in Hc.
Qed.

Lemma ain_unq : forall e done acc esc c rest, plain e -> c = "," \/ c = "}" ->
  ain_go (AUnq acc esc) false done (e ++ c :: rest)
  = ain_go (next_of c) false (unq_elem (acc ++ e) esc :: done) rest.
Proof.
  induction e as [|x e IH]; intros done acc esc c rest H Hc.
  - rewrite app_nil_r. destruct Hc; subst; reflexivity.
  - inversion H; subst. apply special_false in H2. destruct H2 as (A1 & A2 & A3 & A4 & A5 & A6).
    cbn [app ain_go].
    destruct (ascii_dec x "\"); [tauto|]. destruct (ascii_dec x ","); [tauto|].
    destruct (ascii_dec x "}"); [tauto|].
    destruct in_dec as [i|_]. { simpl in i. intuition congruence. }
    rewrite IH by auto. now rewrite <- app_assoc.
Qed.

Lemma elem_reads_unq : forall e, e <> [] -> plain e ->
  elem_reads e (if is_null_word e then None else Some e).
Proof.
  intros e N P b done c rest Hc. destruct e as [|x e]; [congruence|].
  inversion P; subst. assert (H1' := H1). apply special_false in H1.
  destruct H1 as (A1 & A2 & A3 & A4 & A5 & A6).
  cbn [app ain_go]. rewrite A6.
  destruct (ascii_dec x """"); [tauto|].
  destruct (ascii_dec x "\"); [tauto|].
  destruct (ascii_dec x "}"); [tauto|].
  destruct in_dec as [i|_]. { simpl in i. intuition congruence. }
  rewrite ain_unq by auto. unfold unq_elem. cbn [app]. rewrite rtrim_plain by (constructor; auto).
  destruct (is_null_word (x :: e)); reflexivity.
Qed.

Lemma elem_reads_null : elem_reads (lit "NULL") None.
Proof.
  apply (elem_reads_unq (lit "NULL")). discriminate. repeat constructor.
Qed.

(** Escaping by any predicate that covers the quote and the backslash. *)
Definition esc_by (p : ascii -> bool) (e : text) : text :=
  flat_map (fun c => if p c then ["\"; c] else [c]) e.

Lemma ain_quo : forall p e done acc rest, p """" = true -> p "\" = true ->
  ain_go (AQuo acc) false done (esc_by p e ++ """" :: rest)
  = ain_go (AAfter (acc ++ e)) false done rest.
Proof.
  intros p e done acc rest P1 P2. revert acc.
  induction e as [|x e IH]; intros acc.
  - rewrite app_nil_r. reflexivity.
  - unfold esc_by. cbn [flat_map]. fold (esc_by p e). destruct (p x) eqn:E.
    + cbn [app ain_go]. destruct (ascii_dec "\" "\"); [|congruence].
      rewrite IH, <- app_assoc. reflexivity.
    + cbn [app ain_go]. destruct (ascii_dec x "\"); [congruence|].
      destruct (ascii_dec x """"); [congruence|].
      rewrite IH, <- app_assoc. reflexivity.
Qed.

Lemma elem_reads_quo : forall p e, p """" = true -> p "\" = true ->
  elem_reads ("""" :: esc_by p e ++ [""""]) (Some e).
Proof.
  intros p e P1 P2 b done c rest Hc.
  rewrite <- app_comm_cons, <- app_assoc.
  transitivity (ain_go (AQuo []) false done (esc_by p e ++ [""""] ++ c :: rest)).
  { reflexivity. }
  change ([""""] ++ c :: rest) with ("""" :: c :: rest).
  rewrite ain_quo by auto. destruct Hc; subst; reflexivity.
Qed.

Lemma pg_escape_by : forall e,
  pg_escape e = esc_by (fun c => if in_dec ascii_dec c [""""; "\"] then true else false) e.
Proof.
  intros. unfold pg_escape, esc_by. apply flat_map_ext. intros c. destruct in_dec; reflexivity.
Qed.

Lemma needs_quotes_false : forall e, needs_quotes e = false ->
  e <> [] /\ is_null_word e = false /\ plain e.
Proof.
  intros [|x e] H. discriminate. simpl needs_quotes in H.
  apply orb_false_iff in H. destruct H as [H1 H2]. split; [discriminate|]. split; auto.
  unfold plain. rewrite Forall_forall. intros c Hc.
  destruct (pg_special c) eqn:E; auto.
  assert (existsb pg_special (x :: e) = true) by (apply existsb_exists; eauto).
  simpl existsb in H. congruence.
Qed.

Lemma elem_out_reads : forall o, elem_reads (elem_out o) o.
Proof.
  intros [e|]; simpl.
  - destruct (needs_quotes e) eqn:E.
    + rewrite pg_escape_by. now apply elem_reads_quo.
    + apply needs_quotes_false in E. destruct E as (A & Bn & C).
      pose proof (elem_reads_unq e A C) as H. now rewrite Bn in H.
  - apply elem_reads_null.
Qed.

Lemma ain_commas : forall ts os done, ts <> [] -> Forall2 elem_reads ts os ->
  forall b, ain_go (AStart b) false done (commas ts ++ ["}"]) = Some (rev done ++ os).
Proof.
  induction ts as [|t ts IH]; intros os done N F b. congruence.
  inversion F as [|? o ? os' R F']; subst. destruct ts as [|t' ts].
  - inversion F'; subst. simpl commas. rewrite R by auto. reflexivity.
  - change (commas (t :: t' :: ts)) with (t ++ "," :: commas (t' :: ts)).
    rewrite <- app_assoc. rewrite <- app_comm_cons.
    rewrite R by auto. change (next_of ",") with (AStart false).
    rewrite (IH os') by (auto; discriminate). simpl. now rewrite <- app_assoc.
Qed.

Lemma array_in_commas : forall ts os, Forall2 elem_reads ts os ->
  array_in ("{" :: commas ts ++ ["}"]) = Some os.
Proof.
  intros ts os F. unfold array_in. cbn [drop_while].
  destruct (pg_space "{") eqn:E; [discriminate|].
  destruct ts.
  - inversion F; subst. reflexivity.
  - rewrite (ain_commas _ os) by (auto; discriminate). reflexivity.
Qed.

(** The server reads back what it writes. *)
Lemma array_in_out : forall l, array_in (array_out l) = Some l.
Proof.
  intros. apply array_in_commas. induction l; simpl; constructor; auto. apply elem_out_reads.
Qed.

Lemma all_some_map : forall {A C D} (g : A -> C) (f : C -> option D) (h : A -> D) l,
  (forall x, In x l -> f (g x) = Some (h x)) -> all_some f (map g l) = Some (map h l).
Proof.
  induction l as [|x l IH]; intros H. reflexivity.
  simpl. rewrite H by (simpl; auto). rewrite IH; auto. intros; apply H; simpl; auto.
Qed.

Lemma elems_in_some : forall {A} (f : text -> option A) (g : A -> text) l,
  (forall x, In x l -> f (g x) = Some x) ->
  elems_in f (map (fun x => Some (g x)) l) = Some (map Some l).
Proof.
  intros. unfold elems_in. apply all_some_map. intros x Hx. now rewrite H.
Qed.
