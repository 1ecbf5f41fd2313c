(** Definitions and proofs used by PropsTags.v. *)
From Coq Require Import Ascii String ZArith NArith Bool List Lia.
From Verif Require Import GoBase Strconv ConvertUtil ConvertProofs Filter AParse PgSpec TagSpec AParseProofs.
Import ListNotations.
Local Open Scope char_scope.

Lemma ascii7_app : forall a b, ascii7 (a ++ b) <-> ascii7 a /\ ascii7 b.
Proof. intros. unfold ascii7. apply Forall_app. Qed.

Lemma symbol_not_space : forall c, symbol_char c -> ~ space c.
Proof. intros c [<-|[<-|[<-|[<-|[<-|[]]]]]] H; unfold space in H; cbn in H; intuition discriminate. Qed.

Lemma space_not_symbol : forall c, space c -> ~ symbol_char c.
Proof. intros c S H. now apply (symbol_not_space c). Qed.

Lemma low_not_space : forall c, space (low c) <-> space c.
Proof.
  intros c. unfold low, code, chr. destruct ((65 <=? N_of_ascii c) && (N_of_ascii c <=? 90))%N eqn:E; [|tauto].
  apply andb_true_iff in E. rewrite !N.leb_le in E. unfold space. rewrite N_ascii_embedding by lia. cbn. intuition lia.
Qed.

Lemma spelled_nonspace : forall o op, In op op_words \/ In op quant_words -> spelled o op ->
  o <> [] /\ lead_ok o /\ lead_ok (rev o).
Proof.
  intros o op I S. assert (op <> [] /\ lead_ok op /\ lead_ok (rev op)) as (N & L1 & L2).
  { clear S. destruct I as [I|I]; [unfold op_words in I|unfold quant_words in I]; cbn [map] in I;
      repeat (apply in_inv in I; destruct I as [<-|I]); try destruct I; (split; [discriminate|]); cbn; unfold space; cbn; intuition discriminate. }
  unfold spelled in S. change lower_char with low in S. conjs.
  - intros ->. cbn in S. now subst.
  - destruct o as [|c o]; cbn; auto. subst. cbn in L1. intros H. apply L1. now apply low_not_space.
  - subst op. rewrite <- map_rev in L2. destruct (rev o) as [|c r]; cbn in *; auto. intros H. apply L2. now apply low_not_space.
Qed.

Lemma quant_split_quant : forall q o t, In q quant_words -> spelled o q -> word_ends t -> ascii7 (o ++ t) ->
  quant_split (o ++ t) = (q, trim_space t).
Proof.
  intros q o t I S W A. unfold quant_split. rewrite lower_ascii by auto. rewrite map_app.
  assert (map low o = q) as -> by exact S. apply word_ends_low in W.
  assert (List.length o = List.length q) as L by (rewrite <- S; now rewrite map_length).
  unfold quant_words in I. cbn [map] in I. repeat (apply in_inv in I; destruct I as [<-|I]); [..|destruct I].
  - assert (word_at (B "any") (lit "any" ++ map low t) = true) as -> by (apply word_at_spec; exists (map low t); auto).
    change 3%nat with (List.length (lit "any")). now rewrite <- L, skipn_app_len.
  - change (word_at (B "any") (lit "some" ++ map low t)) with false. change (word_at (B "all") (lit "some" ++ map low t)) with false. cbv iota.
    assert (word_at (B "some") (lit "some" ++ map low t) = true) as -> by (apply word_at_spec; exists (map low t); auto).
    change 4%nat with (List.length (lit "some")). now rewrite <- L, skipn_app_len.
  - change (word_at (B "any") (lit "all" ++ map low t)) with false. cbv iota.
    assert (word_at (B "all") (lit "all" ++ map low t) = true) as -> by (apply word_at_spec; exists (map low t); auto).
    change 3%nat with (List.length (lit "all")). now rewrite <- L, skipn_app_len.
Qed.

Lemma word_at_spelled : forall a m, ascii7 m -> word_at a (lower m) = true ->
  exists o t, m = o ++ t /\ spelled o a /\ word_ends t.
Proof.
  intros a m A H. rewrite lower_ascii in H by auto. apply word_at_spec in H. destruct H as (t & E & W).
  exists (firstn (List.length a) m), (skipn (List.length a) m). conjs.
  - symmetry. apply firstn_skipn.
  - unfold spelled. change lower_char with low. rewrite <- firstn_map, E. apply firstn_app_len.
  - apply word_ends_low. rewrite <- skipn_map, E, skipn_app_len. exact W.
Qed.

Lemma quant_split_cases : forall m, ascii7 m ->
  (quant_split m = ([], m) /\ ~ starts_with_quantifier m) \/
  (exists q o t, In q quant_words /\ spelled o q /\ m = o ++ t /\ word_ends t /\ quant_split m = (q, trim_space t)).
Proof.
  intros m A.
  destruct (existsb (fun q => word_at q (lower m)) quant_words) eqn:E.
  - right. apply existsb_exists in E. destruct E as (q & I & H). apply word_at_spelled in H; auto.
    destruct H as (o & t & -> & S & W). exists q, o, t. conjs; auto. apply quant_split_quant; auto.
  - left. split.
    + unfold quant_split. unfold quant_words in E. cbn [map existsb] in E. rewrite !orb_false_iff in E. destruct E as (E1 & E2 & E3 & _).
      change (lit "any") with (B "any") in E1. change (lit "some") with (B "some") in E2. change (lit "all") with (B "all") in E3.
      now rewrite E1, E2, E3.
    + intros (q & o & t & I & S & -> & W).
      assert (existsb (fun q => word_at q (lower (o ++ t))) quant_words = true) as X; [|congruence].
      apply existsb_exists. exists q. split; auto. apply word_at_spec. exists (map low t). rewrite lower_ascii by auto. rewrite map_app.
      split. f_equal. exact S. now apply word_ends_low.
Qed.

Lemma lead_app : forall a b, a <> [] -> lead_ok a -> lead_ok (a ++ b).
Proof. intros [|c a] b N L; [contradiction|exact L]. Qed.

Lemma trimmed_app : forall a b, a <> [] -> lead_ok a -> lead_ok (rev b) -> b <> [] -> trimmed (a ++ b).
Proof.
  intros a b N L1 L2 Nb. apply lead_trimmed. now apply lead_app. rewrite rev_app_distr. apply lead_app; auto.
  intros H. apply Nb. now rewrite <- (rev_involutive b), H.
Qed.

Lemma operand_split : forall t q r, ascii7 t -> operand t q r -> quant_split (trim_space t) = (q, r).
Proof.
  intros t q r A H. inversion H as [w r0 w' S1 S2 T N E1 E2 E3|w o q0 t0 w1 r0 w2 S1 I Sp W E S2 S3 T E1 E2 E3]; subst.
  - rewrite trim_space_eq by auto. apply ascii7_app in A. destruct A as [_ A]. apply ascii7_app in A. destruct A as [A _].
    destruct (quant_split_cases r A) as [[Q _]|(q & o & t & I & Sp & E & W & _)]; auto.
    exfalso. apply N. exists q, o, t. auto.
  - destruct (spelled_nonspace o q (or_intror I) Sp) as (No & L1 & L2). destruct (trimmed_lead _ T) as [T1 T2].
    assert (ascii7 o /\ ascii7 (w1 ++ r)) as [Ao Ar].
    { rewrite !ascii7_app in A. rewrite ascii7_app. tauto. }
    destruct r as [|c r].
    + cbn [app] in *. rewrite trim_space_eq; auto.
      2: now apply Forall_app. 2: now apply lead_trimmed.
      rewrite <- (app_nil_r o). rewrite (quant_split_quant q); auto. now left. rewrite app_nil_r; auto.
    + replace (w ++ o ++ w1 ++ (c :: r) ++ w2) with (w ++ (o ++ w1 ++ c :: r) ++ w2) by now rewrite <- !app_assoc.
      assert (lead_ok (rev (w1 ++ c :: r))) as L3.
      { rewrite rev_app_distr. apply lead_app; auto. intros H0. apply (f_equal (@List.length ascii)) in H0. rewrite rev_length in H0. discriminate. }
      rewrite trim_space_eq; auto. 2: apply trimmed_app; auto; now destruct w1.
      rewrite (quant_split_quant q); auto.
      * f_equal. pose proof (trim_space_eq w1 (c :: r) [] S2 (Forall_nil _) T) as H0. now rewrite app_nil_r in H0.
      * destruct W as [W|(z & W)]. destruct w1; discriminate. right. destruct w1 as [|d w1]; cbn in *; injection W as -> _; eauto.
      * apply ascii7_app. auto.
Qed.

Lemma operand_of_split : forall t, ascii7 t -> lead_ok (rev t) -> exists q r, quant_split (trim_space t) = (q, r) /\ operand t q r.
Proof.
  intros t A L. destruct (trim_space_split t) as (a & b & Sa & Sb & E & T). set (m := trim_space t) in *.
  assert (ascii7 m) as Am. { rewrite E in A. rewrite !ascii7_app in A. tauto. }
  destruct (quant_split_cases m Am) as [[Q N]|(q & o & t1 & I & Sp & Em & W & Q)].
  - exists [], m. split; auto. rewrite E. now apply opd_plain.
  - exists q, (trim_space t1). split; auto.
    destruct (spelled_nonspace o q (or_intror I) Sp) as (No & L1 & L2).
    assert (b = []) as ->.
    { destruct (rev b) as [|c b'] eqn:Eb. rewrite <- (rev_involutive b), Eb. reflexivity.
      rewrite E in L. rewrite !rev_app_distr, Eb in L. cbn in L. exfalso. apply L.
      apply Forall_rev in Sb. rewrite Eb in Sb. now inversion Sb. }
    rewrite app_nil_r in E. rewrite E, Em. destruct (trim_space_split t1) as (c & d & Sc & Sd & E1 & T1).
    apply (opd_quant a o q t1 c (trim_space t1) d); auto.
Qed.

Lemma op_nonspace : forall w o t op, op_at w o t op -> o <> [] /\ lead_ok o /\ lead_ok (rev o).
Proof.
  intros w o t op H. inversion H as [? ? ? S I M|? ? ? ? S I Sp W]; subst.
  - unfold symbols in I. cbn [map] in I. repeat (apply in_inv in I; destruct I as [<-|I]); try destruct I; (split; [discriminate|]);
      cbn; unfold space; cbn; intuition discriminate.
  - apply (spelled_nonspace o op); auto.
Qed.

Lemma op_at_spaces : forall w o t op, op_at w o t op -> spaces w.
Proof.
  intros w o t op H. inversion H; subst; auto. apply Forall_app. split; auto. constructor; [|constructor]. unfold space. cbn. auto 8.
Qed.

Lemma op_at_shorten : forall w o t b op, spaces b -> op_at w o (t ++ b) op -> op_at w o t op.
Proof.
  intros w o t b op Sb H. inversion H as [? ? ? S I M|? ? ? ? S I Sp W]; subst.
  - apply op_symbol; auto. intros op' I' (z & Z). apply M; auto. exists (z ++ b). rewrite app_assoc, Z. now rewrite <- app_assoc.
  - apply op_word; auto. destruct W as [W|(r & W)].
    + apply app_eq_nil in W. left. tauto.
    + destruct t as [|c t]. now left. right. cbn in W. injection W as -> _. eauto.
Qed.

Lemma no_symbol_spaces : forall w, spaces w -> no_symbol w.
Proof. intros w. apply Forall_impl. apply space_not_symbol. Qed.

(** The scan finds the operator after a column without blanks. *)
Lemma scan_finds : forall col w o t op,
  Forall (fun c => ~ space c /\ ~ symbol_char c) col -> op_at w o t op ->
  exists w', spaces w' /\ pred_loop (map low (col ++ w ++ o ++ t)) [] (col ++ w ++ o ++ t) = Ok (col ++ w', op, t).
Proof.
  intros col w o t op F H.
  assert (no_symbol col) as Nc by (eapply Forall_impl; [|exact F]; intros c [_ ?]; auto).
  assert (forall w' s, spaces w' -> (match s with [] => True | c :: _ => c <> "n" /\ c <> "i" /\ c <> "N" /\ c <> "I" end) ->
          pred_loop (map low (col ++ w' ++ s)) [] (col ++ w' ++ s) = pred_loop (map low (col ++ w' ++ s)) (col ++ w') s) as X.
  { intros w' s S Hs. rewrite app_assoc. change (pred_loop (map low ([] ++ (col ++ w') ++ s)) [] ((col ++ w') ++ s) = pred_loop (map low ([] ++ (col ++ w') ++ s)) ([] ++ (col ++ w')) s).
    apply pred_loop_skip.
    - apply Forall_app. split; auto. now apply no_symbol_spaces.
    - intros a1 a2 E.
      assert (spaces a2) as Sa.
      { apply (f_equal (@rev ascii)) in E. rewrite !rev_app_distr in E. cbn [rev] in E. rewrite <- app_assoc in E. cbn [app] in E.
        apply Forall_rev in F. apply Forall_rev in S. rewrite <- (rev_involutive a2). apply Forall_rev.
        revert E S. generalize (rev w'). induction (rev a2) as [|c r IH]; intros v E S; [constructor|].
        destruct v as [|d v].
        - cbn [app] in E. destruct (rev col) as [|e rc]; [discriminate|]. cbn [app] in E. exfalso.
          assert (In " " (e :: rc)) as I by (rewrite E; right; apply in_app_iff; right; now left).
          rewrite Forall_forall in F. apply F in I. destruct I as [I _]. apply I. unfold space. cbn. auto 8.
        - cbn [app] in E. injection E as -> E. inversion S; subst. constructor; auto. apply (IH v); auto. }
      destruct (a2 ++ s) as [|c r] eqn:Er; auto. cbn [map]. apply word_op_head.
      assert (c <> "n" /\ c <> "i" /\ c <> "N" /\ c <> "I") as (N1 & N2 & N3 & N4).
      { destruct a2 as [|d a2]; cbn in Er.
        - subst s. exact Hs.
        - injection Er as -> _. inversion Sa as [|? ? Sc]; subst. conjs; intros ->; unfold space in Sc; cbn in Sc; intuition discriminate. }
      clear -N1 N2 N3 N4. intros L.
      assert (forall x y : ascii, N_of_ascii x = N_of_ascii y -> x = y) as Inj.
      { intros x y Exy. rewrite <- (ascii_N_embedding x), <- (ascii_N_embedding y). now rewrite Exy. }
      unfold low, code, chr in L. destruct ((65 <=? N_of_ascii c) && (N_of_ascii c <=? 90))%N eqn:E; [|tauto].
      apply andb_true_iff in E. rewrite !N.leb_le in E.
      destruct L as [L|L]; apply (f_equal N_of_ascii) in L; rewrite N_ascii_embedding in L by lia.
      + apply N3, Inj. change (N_of_ascii "n") with 110%N in L. change (N_of_ascii "N") with 78%N. lia.
      + apply N4, Inj. change (N_of_ascii "i") with 105%N in L. change (N_of_ascii "I") with 73%N. lia. }
  inversion H as [? ? ? S I M|w2 ? ? ? S I Sp W]; subst.
  - exists w. split; auto. rewrite X; auto.
    + apply pred_loop_symbol. split; auto.
    + clear -I. unfold symbols in I. cbn [map] in I. repeat (apply in_inv in I; destruct I as [<-|I]); try destruct I; cbn; (conjs; discriminate).
  - exists w2. split; auto. rewrite <- (app_assoc w2). cbn [app]. rewrite X; auto.
    + rewrite app_assoc. rewrite pred_loop_word with (op := op); auto.
    + conjs; discriminate.
Qed.

Lemma C29_condition_read_back_proof : forall w0 col w o t op q r,
  spaces w0 -> col <> [] -> Forall (fun c => ~ space c /\ ~ symbol_char c) col ->
  op_at w o t op -> operand t q r -> ascii7 (w0 ++ col ++ w ++ o ++ t) ->
  parsePredicateExpr (w0 ++ col ++ w ++ o ++ t) = Ok (col, op, q, r).
Proof.
  intros w0 col w o t op q r S0 Nc F H Od A. unfold parsePredicateExpr.
  destruct (op_nonspace _ _ _ _ H) as (No & Lo1 & Lo2).
  destruct (trim_left_split (rev t)) as (b & Sb & Eb & Lb).
  set (t' := rev (trim_left (rev t))).
  assert (t = t' ++ rev b) as Et. { rewrite <- (rev_involutive t). rewrite Eb. rewrite rev_app_distr. reflexivity. }
  assert (trim_space (w0 ++ col ++ w ++ o ++ t) = col ++ w ++ o ++ t') as ->.
  { rewrite Et. replace (w0 ++ col ++ w ++ o ++ t' ++ rev b) with (w0 ++ (col ++ w ++ o ++ t') ++ rev b) by now rewrite <- !app_assoc.
    apply trim_space_eq; auto. now apply Forall_rev.
    apply trimmed_app; auto.
    - destruct col as [|c col]; [contradiction|]. inversion F as [|? ? [? ?]]; auto.
    - rewrite !rev_app_distr. rewrite <- app_assoc. unfold t'. rewrite rev_involutive.
      destruct (trim_left (rev t)) as [|c l]; cbn [app]; auto. apply lead_app; auto.
      intros E. apply No. now rewrite <- (rev_involutive o), E.
    - destruct w; [|discriminate]. destruct o; [contradiction|discriminate]. }
  assert (op_at w o t' op) as H' by (apply (op_at_shorten w o t' (rev b) op); [now apply Forall_rev|now rewrite <- Et]).
  assert (ascii7 t /\ ascii7 (col ++ w ++ o ++ t')) as [At Ae].
  { rewrite Et in A |- *. rewrite !ascii7_app in A. rewrite !ascii7_app. tauto. }
  rewrite lower_ascii by auto.
  destruct (scan_finds col w o t' op F H') as (w' & Sw & ->). cbn [bind].
  assert (trim_space (col ++ w') = col) as ->.
  { pose proof (trim_space_eq [] col w' (Forall_nil _) Sw) as X. cbn [app] in X. apply X.
    apply lead_trimmed. destruct col as [|c col]; [contradiction|]. inversion F as [|? ? [? ?]]; auto.
    apply Forall_rev in F. destruct (rev col); cbn; auto. inversion F as [|? ? [? ?]]; auto. }
  assert (trim_space t' = trim_space t) as -> by (rewrite Et, trim_space_tail; [auto|now apply Forall_rev]).
  rewrite (operand_split t q r) by auto. destruct col; [contradiction|]. reflexivity.
Qed.

Ltac in_list := unfold symbols, op_words, quant_words; cbn [map In]; repeat (first [left; reflexivity | right]).

Ltac no_spaces := repeat (apply Forall_cons; [split; (unfold space, symbol_char; cbn; intuition discriminate)|]); apply Forall_nil.

Lemma C29_column_alone_proof : forall w0 col w1,
  spaces w0 -> spaces w1 -> Forall (fun c => ~ space c /\ ~ symbol_char c) col -> ascii7 col ->
  parsePredicateExpr (w0 ++ col ++ w1) = Ok (col, [], [], []).
Proof.
  intros w0 col w1 S0 S1 F A. unfold parsePredicateExpr. rewrite trim_space_eq; auto.
  2: { apply lead_trimmed. destruct col as [|c col]; cbn; auto. inversion F as [|? ? [? ?]]; auto.
       apply Forall_rev in F. destruct (rev col); cbn; auto. inversion F as [|? ? [? ?]]; auto. }
  rewrite lower_ascii by auto.
  pose proof (pred_loop_skip col [] []) as X. cbn [app] in X. rewrite app_nil_r in X. rewrite X.
  - reflexivity.
  - eapply Forall_impl; [|exact F]. intros c [_ ?]; auto.
  - intros a1 a2 E. exfalso. rewrite Forall_forall in F. assert (In " " col) as I by (rewrite E; apply in_app_iff; right; now left).
    apply F in I. destruct I as [I _]. apply I. unfold space. cbn. auto 8.
Qed.

Lemma C29_result_is_in_the_text_proof : forall expr, ascii7 expr ->
  exists w0 e w1, spaces w0 /\ spaces w1 /\ trimmed e /\ expr = w0 ++ e ++ w1 /\
  (parsePredicateExpr expr = Ok (e, [], [], []) \/
   exists lhs w o t op q r, e = lhs ++ w ++ o ++ t /\ lhs <> [] /\ trimmed lhs
     /\ Forall (fun c => ~ symbol_char c) lhs /\ op_at w o t op /\ operand t q r
     /\ parsePredicateExpr expr = Ok (lhs, op, q, r)).
Proof.
  intros expr A. destruct (trim_space_split expr) as (w0 & w1 & S0 & S1 & E & T). set (e := trim_space expr) in *.
  exists w0, e, w1. conjs; auto. unfold parsePredicateExpr. fold e.
  assert (ascii7 e) as Ae. { rewrite E in A. rewrite !ascii7_app in A. tauto. }
  rewrite lower_ascii by auto. clearbody e. clear E.
  destruct (pred_loop_sound e []) as [H|(a & w & o & t & op & H1 & H2 & H3 & H4)].
  - left. cbn [app] in H. rewrite H. reflexivity.
  - cbn [app] in H4. rewrite H4. cbn [bind].
    destruct (trimmed_lead _ T) as [T1 T2].
    assert (ascii7 t) as At. { rewrite H1 in Ae. rewrite !ascii7_app in Ae. tauto. }
    assert (lead_ok (rev t)) as Lt.
    { rewrite H1 in T2. rewrite !rev_app_distr in T2. rewrite <- !app_assoc in T2. destruct (rev t); cbn in *; auto. }
    destruct (operand_of_split t At Lt) as (q & r & Q & Od). rewrite Q.
    destruct (trim_space_split a) as (a1 & a2 & Sa1 & Sa2 & Ea & Ta). destruct (trim_space a) as [|c l] eqn:El.
    + left. reflexivity.
    + right. exists (c :: l), (a2 ++ w), o, t, op, q, r.
      assert (a1 = []) as ->.
      { destruct a1 as [|x a1]; auto. exfalso. rewrite H1, Ea in T1. cbn in T1. inversion Sa1; contradiction. }
      conjs; auto.
      * rewrite H1, Ea. cbn [app]. now rewrite <- !app_assoc.
      * discriminate.
      * rewrite Ea in H2. apply Forall_app in H2. destruct H2 as [H2 _]. cbn [app] in H2.
        change (no_symbol ((c :: l) ++ a2)) in H2. apply Forall_app in H2. tauto.
      * inversion H3 as [? ? ? S I M|w2 ? ? ? S I Sp W]; subst.
        -- apply op_symbol; auto. now apply Forall_app.
        -- rewrite app_assoc. apply op_word; auto. now apply Forall_app.
Qed.

Lemma C29_asymmetric_between_is_never_read_proof : forall expr lhs op q r, ascii7 expr ->
  parsePredicateExpr expr = Ok (lhs, op, q, r) ->
  stringToPredicate op <> IsBetweenAsym /\ stringToPredicate op <> NotBetweenAsym
  /\ (op <> [] -> stringToPredicate op <> PNone).
Proof.
  intros expr lhs op q r A H.
  assert (op = [] \/ In op symbols \/ In op op_words) as C.
  { destruct (C29_result_is_in_the_text_proof expr A) as (w0 & e & w1 & _ & _ & _ & _ & [K|(l & w & o & t & op' & q' & r' & _ & _ & _ & _ & O & _ & K)]);
      rewrite K in H; injection H; intros; subst.
    - now left.
    - right. inversion O; subst; auto. }
  destruct C as [->|[I|I]].
  - conjs; try discriminate. contradiction.
  - sym_cases I; vm_compute; conjs; intros; discriminate.
  - unfold op_words in I. cbn [map] in I. repeat (apply in_inv in I; destruct I as [<-|I]); try destruct I; vm_compute; conjs; intros; discriminate.
Qed.

Lemma C29_operators_are_told_apart_proof : forall a b,
  In a (symbols ++ op_words) -> In b (symbols ++ op_words) -> stringToPredicate a = stringToPredicate b -> a = b.
Proof.
  intros a b. assert (forall l, NoDup (map stringToPredicate l) -> In a l -> In b l -> stringToPredicate a = stringToPredicate b -> a = b) as X.
  { induction l as [|x l IH]; cbn [map In]; intros N Ia Ib E; [contradiction|]. inversion N as [|? ? N1 N2]; subst.
    destruct Ia as [->|Ia], Ib as [->|Ib]; auto.
    - exfalso. apply N1. rewrite E. now apply in_map.
    - exfalso. apply N1. rewrite <- E. now apply in_map. }
  intros Ia Ib. apply (X (symbols ++ op_words)); auto. vm_compute.
  repeat (apply NoDup_cons; [cbn [In]; intuition discriminate|]). apply NoDup_nil.
Qed.

Lemma C29_non_ascii_panics_refuted_proof : exists expr, parsePredicateExpr expr = Panic.
Proof. exists (map ascii_of_N [196; 176; 196; 176; 32; 120]%N). reflexivity. Qed.

Lemma C30_column_identifiers_proof : forall sp v q n,
  parseColIdent sp v = inl (MkCol q n) <->
  v = qualified q n /\ is_name n /\ ((q = [] /\ ~ is_value_word n) \/ (is_name q /\ In q (map fst sp))).
Proof. exact parseColIdent_spec. Qed.

Lemma C30_unknown_qualifier_proof : forall sp v,
  parseColIdent sp v = inr EUnknownQualifier <->
  exists q n, v = q ++ "." :: n /\ is_name q /\ is_name n /\ ~ In q (map fst sp).
Proof. exact parseColIdent_error. Qed.

Lemma C30_identifier_alphabet_proof : forall sp v id, parseColIdent sp v = inl id ->
  Forall (fun c => name_char c \/ c = ".") v /\ Forall name_char (c_qual id) /\ Forall name_char (c_col id).
Proof.
  intros sp v [q n] H. apply parseColIdent_spec in H. destruct H as (-> & N & Q). apply name_chars in N.
  assert (Forall name_char q) as Nq by (destruct Q as [[-> _]|[Q _]]; [constructor|now apply name_chars]).
  conjs; auto. assert (forall l, Forall name_char l -> Forall (fun c => name_char c \/ c = ".") l) as X.
  { intros l. apply Forall_impl. auto. }
  destruct q as [|c q]; cbn [qualified]; auto. apply Forall_app. split; auto.
Qed.

Lemma C30_relation_identifiers_proof : forall v q n a,
  parseRelIdent v = inl (MkRel n a q) <->
  v = qualified q (aliased n a) /\ is_name n /\ (q = [] \/ is_name q) /\ (a = [] \/ is_name a).
Proof. exact parseRelIdent_spec. Qed.

Lemma C30_column_lists_proof : forall sp tag l,
  parseColIdentList sp tag = inl l <->
  (tag = [[ "*" ]] /\ l = MkColList true []) \/
  (exists ids, l = MkColList false ids /\ tag <> [] /\ Forall2 (fun v id => parseColIdent sp v = inl id) tag ids).
Proof.
  assert (forall sp tag ids, colIdents sp tag = inl ids <-> Forall2 (fun v id => parseColIdent sp v = inl id) tag ids) as X.
  { intros sp tag. induction tag as [|v tag IH]; intros ids; cbn [colIdents].
    - split; intros H. injection H as <-. constructor. now inversion H.
    - destruct (parseColIdent sp v) as [id|e] eqn:E.
      + destruct (colIdents sp tag) as [l|e'] eqn:El.
        * split; intros H. injection H as <-. constructor; auto. now apply IH.
          inversion H as [|? y ? l' H1 H2]; subst. rewrite E in H1. injection H1 as <-. apply IH in H2. injection H2 as <-. reflexivity.
        * split; intros H. discriminate. inversion H as [|? y ? l' H1 H2]; subst. apply IH in H2. discriminate.
      + split; intros H. discriminate. inversion H as [|? y ? l' H1 H2]; subst. congruence. }
  assert (forall sp, parseColIdent sp ["*"] = inr EBadColId) as Star by reflexivity.
  intros sp tag l.
  assert (match parseColIdents sp tag with inl l => inl (MkColList false l) | inr e => inr e end = inl l <->
          exists ids, l = MkColList false ids /\ tag <> [] /\ Forall2 (fun v id => parseColIdent sp v = inl id) tag ids) as Y.
  { unfold parseColIdents. destruct tag as [|v tag].
    - split; intros H. discriminate. destruct H as (ids & _ & N & _). contradiction.
    - destruct (colIdents sp (v :: tag)) as [ids|e] eqn:E.
      + split; intros H.
        * injection H as <-. exists ids. conjs; auto. discriminate. now apply X.
        * destruct H as (ids' & -> & _ & F). apply X in F. congruence.
      + split; intros H. discriminate. destruct H as (ids' & -> & _ & F). apply X in F. congruence. }
  unfold parseColIdentList. destruct tag as [|v [|v' tag]].
  - rewrite Y. split; auto. intros [[H _]|H]; [discriminate|auto].
  - destruct (bytes_eqb v (B "*")) eqn:E.
    + apply bytes_eqb_eq in E. subst v. split; intros H.
      * injection H as <-. left. auto.
      * destruct H as [[_ ->]|(ids & -> & _ & F)]; auto. inversion F as [|? ? ? ? F1]; subst. rewrite Star in F1. discriminate.
    + rewrite Y. split; auto. intros [[H _]|H]; auto. injection H as ->. discriminate.
  - rewrite Y. split; auto. intros [[H _]|H]; [discriminate|auto].
Qed.

(** *** C34: field options *)
(** The permission [p] in a parsed field mode. *)
Definition allowed (p : permission) (m : FieldMode) : bool :=
  match p with
  | PSelect => m_select m | PFilter => m_filter m | PInsert => m_insert m | PUpdate => m_update m
  | PNull => negb (m_notnull m)
  end.

Definition perm_eqb (a b : permission) : bool :=
  match a, b with
  | PSelect, PSelect | PFilter, PFilter | PInsert, PInsert | PUpdate, PUpdate | PNull, PNull => true
  | _, _ => false
  end.

Lemma perm_eqb_eq : forall a b, perm_eqb a b = true <-> a = b.
Proof. intros [] []; cbn; split; congruence. Qed.

Definition lastf (p : permission) (l : list (permission * bool)) (d : bool) : bool :=
  fold_left (fun acc x => if perm_eqb (fst x) p then snd x else acc) l d.

Lemma lastf_app : forall p a b d, lastf p (a ++ b) d = lastf p b (lastf p a d).
Proof. intros. unfold lastf. apply fold_left_app. Qed.

Lemma lastf_word : forall p l b, lastf p l true = b <-> last_word p l b.
Proof.
  intros p l. induction l as [|[p' b'] l IH] using rev_ind; intros b.
  - cbn. unfold last_word. split.
    + intros <-. right. split; auto.
    + intros [(l1 & l2 & E & _)|[-> _]]; auto. destruct l1; discriminate.
  - rewrite lastf_app. cbn [lastf fold_left fst snd]. destruct (perm_eqb p' p) eqn:E.
    + apply perm_eqb_eq in E. subst p'. unfold last_word. split.
      * intros <-. left. exists l, []. split; auto.
      * intros [(l1 & l2 & El & N)|[-> N]].
        -- destruct l2 as [|x l2] using rev_ind.
           ++ apply app_inj_tail in El. destruct El as [_ El]. congruence.
           ++ change (l ++ [(p, b')] = l1 ++ ((p, b) :: l2) ++ [x]) in El. rewrite app_assoc in El. apply app_inj_tail in El. destruct El as [_ <-].
              exfalso. apply (N b'). apply in_app_iff. right. now left.
        -- exfalso. apply (N b'). apply in_app_iff. right. now left.
    + assert (p' <> p) as Np by (intros ->; destruct p; discriminate).
      fold (lastf p l true). rewrite IH. unfold last_word. split.
      * intros [(l1 & l2 & -> & N)|[-> N]].
        -- left. exists l1, (l2 ++ [(p', b')]). split. now rewrite <- app_assoc.
           intros b2 I. apply in_app_iff in I. destruct I as [I|[I|[]]]; [now apply (N b2)|congruence].
        -- right. split; auto. intros b2 I. apply in_app_iff in I. destruct I as [I|[I|[]]]; [now apply (N b2)|congruence].
      * intros [(l1 & l2 & El & N)|[-> N]].
        -- left. destruct l2 as [|x l2] using rev_ind.
           ++ apply app_inj_tail in El. destruct El as [_ El]. congruence.
           ++ change (l ++ [(p', b')] = l1 ++ ((p, b) :: l2) ++ [x]) in El. rewrite app_assoc in El. apply app_inj_tail in El. destruct El as [-> <-].
              exists l1, l2. split; auto. intros b2 I. apply (N b2). apply in_app_iff. auto.
        -- right. split; auto. intros b2 I. apply (N b2). apply in_app_iff. auto.
Qed.

Lemma letter_step : forall p v c m, allowed p (letter v c m) = lastf p (letter_says v c) (allowed p m).
Proof.
  intros p v c m. destruct c as [[] [] [] [] [] [] [] []]; destruct p; destruct v; reflexivity.
Qed.

Lemma letters_step : forall p v l m, allowed p (fold_left (fun m c => letter v c m) l m) = lastf p (flat_map (letter_says v) l) (allowed p m).
Proof.
  intros p v l. induction l as [|c l IH]; intros m; cbn [fold_left flat_map]; auto.
  rewrite IH, letter_step, lastf_app. reflexivity.
Qed.

Lemma option_step : forall o m, o <> [] -> exists m', mode_option o m = Ok m' /\ forall p, allowed p m' = lastf p (option_says o) (allowed p m).
Proof.
  intros [|c r] m N; [contradiction|]. clear N. unfold mode_option.
  destruct (beq c "-") eqn:E1.
  { apply beq_true in E1. subst. eexists. split; [reflexivity|]. intros p. rewrite letters_step. reflexivity. }
  destruct (beq c "+") eqn:E2.
  { apply beq_true in E2. subst. eexists. split; [reflexivity|]. intros p. rewrite letters_step. reflexivity. }
  eexists. split; [reflexivity|]. intros p.
  destruct c as [[] [] [] [] [] [] [] []]; try reflexivity; try (cbn in E1; discriminate); try (cbn in E2; discriminate);
    destruct r as [|d r]; try reflexivity; destruct d as [[] [] [] [] [] [] [] []]; try reflexivity; destruct r; try reflexivity; destruct p; reflexivity.
Qed.

Lemma C34_last_option_wins_proof : forall t col opts,
  tag_get t (B "sql") = col :: opts -> Forall (fun o => o <> []) opts ->
  exists m, parseFieldMode t = Ok m /\
    forall p b, allowed p m = b <-> last_word p (flat_map option_says opts) b.
Proof.
  intros t col opts E F. unfold parseFieldMode. rewrite E.
  assert (forall opts m, Forall (fun o => o <> []) opts -> exists m', mode_options opts m = Ok m' /\
    forall p, allowed p m' = lastf p (flat_map option_says opts) (allowed p m)) as X.
  { clear. intros opts. induction opts as [|o opts IH]; intros m F; cbn [mode_options flat_map].
    - exists m. auto.
    - inversion F as [|? ? F1 F2]; subst. destruct (option_step o m F1) as (m1 & -> & H1). cbn [bind].
      destruct (IH m1 F2) as (m2 & -> & H2). exists m2. split; auto. intros p. now rewrite H2, H1, lastf_app. }
  destruct (X opts mode_default F) as (m & -> & H). exists m. split; auto. intros p b. rewrite H.
  replace (allowed p mode_default) with true by (destruct p; reflexivity). apply lastf_word.
Qed.

Lemma C34_no_options_proof : forall t, (List.length (tag_get t (B "sql")) <= 1)%nat ->
  exists m, parseFieldMode t = Ok m /\ forall p, allowed p m = true.
Proof.
  intros t L. unfold parseFieldMode. destruct (tag_get t (B "sql")) as [|x [|y l]]; cbn in L; try lia;
  exists mode_default; (split; [reflexivity|intros []; reflexivity]).
Qed.

Lemma C34_empty_option_panics_proof : forall t col opts,
  tag_get t (B "sql") = col :: opts -> In [] opts -> parseFieldMode t = Panic.
Proof.
  intros t col opts E I. unfold parseFieldMode. rewrite E. generalize mode_default. clear E.
  induction opts as [|o opts IH]; intros m; [contradiction|]. cbn [mode_options]. destruct I as [->|I]; [reflexivity|].
  destruct o as [|c r]; [reflexivity|]. destruct (option_step (c :: r) m) as (m' & -> & _); [discriminate|]. cbn [bind]. now apply IH.
Qed.

Lemma C34_read_only_write_only_proof : forall m,
  (mode_IsReadOnly m = true <-> allowed PSelect m = true /\ allowed PInsert m = false /\ allowed PUpdate m = false)
  /\ (mode_IsWriteOnly m = true <-> allowed PSelect m = false /\ (allowed PInsert m = true \/ allowed PUpdate m = true)).
Proof.
  intros [[] [] [] [] []]; vm_compute; intuition congruence.
Qed.
