(** Running the statements that handle results. *)
From Coq Require Import Ascii String ZArith NArith Bool List Lia.
From Verif Require Import GoBase AParse Analysis Oids Gen GenOut GenOutSpec GenOutTree ConvertProofs AnalysisProofs.
Import ListNotations.
Local Open Scope list_scope.

Lemma rseq_app : forall env out a b s, rseq env out (a ++ b) s =
  match rseq env out a s with Next s => rseq env out b s | o => o end.
Proof. induction a as [|x a IH]; intros b s; cbn [app rseq]; [reflexivity|]. destruct (rexec env out x s); auto. Qed.

(** ** States up to the extension of the query's fields *)
Record eqo (a b : ost) : Prop := {
  eq_q : forall f, o_q a f = o_q b f; eq_v : o_v a = o_v b; eq_i : o_i a = o_i b; eq_err : o_err a = o_err b;
  eq_n : o_n a = o_n b; eq_row : o_row a = o_row b; eq_closed : o_closed a = o_closed b }.
Lemma eqo_refl : forall s, eqo s s.
Proof. intros s. constructor; reflexivity. Qed.
Lemma eqo_trans : forall a b c, eqo a b -> eqo b c -> eqo a c.
Proof. intros a b c [] []. constructor; intros; etransitivity; eauto. Qed.

Lemma set_field_same : forall f x s, o_q (set_field f x s) f = x.
Proof. intros. cbn. rewrite bytes_eqb_refl. reflexivity. Qed.
Lemma set_field_other : forall f g x s, g <> f -> o_q (set_field f x s) g = o_q s g.
Proof. intros f g x s N. cbn. apply bytes_eqb_neq in N. rewrite N. reflexivity. Qed.

Lemma set_nth_same : forall A n (x : A) l, n < List.length l -> nth_error (set_nth n x l) n = Some x.
Proof. induction n as [|n IH]; intros x [|y l] L; cbn in *; try lia; [reflexivity|]. apply IH. lia. Qed.
Lemma set_nth_len : forall A n (x : A) l, List.length (set_nth n x l) = List.length l.
Proof. induction n as [|n IH]; intros x [|y l]; cbn; auto. Qed.
Lemma set_nth_twice : forall A n (x y : A) l, set_nth n x (set_nth n y l) = set_nth n x l.
Proof. induction n as [|n IH]; intros x y [|z l]; cbn; auto. rewrite IH. reflexivity. Qed.
Lemma set_nth_id : forall A n (x : A) l, nth_error l n = Some x -> set_nth n x l = l.
Proof. induction n as [|n IH]; intros x [|z l] H; cbn in *; try discriminate; [congruence|]. rewrite (IH _ _ H). reflexivity. Qed.

Lemma eqo_read : forall a b r, eqo a b -> read_root a r = read_root b r.
Proof. intros a b r [Q V I _ _ _ _]. destruct r; cbn; rewrite ?Q, ?V, ?I; reflexivity. Qed.
Lemma eqo_write : forall a b r x, eqo a b -> eqo (write_root r x a) (write_root r x b).
Proof.
  intros a b r x E. pose proof E as [Q V I Er N R C]. destruct r as [f|f|]; cbn [write_root].
  - constructor; cbn; auto. intros g. rewrite Q. reflexivity.
  - rewrite Q. destruct (o_q b f); try exact E. constructor; cbn; auto. intros g. rewrite I, Q. reflexivity.
  - constructor; cbn; auto.
Qed.
Lemma write_write : forall r x y s, eqo (write_root r x (write_root r y s)) (write_root r x s).
Proof.
  intros [f|f|] x y s; cbn [write_root].
  - constructor; cbn; auto. intros g. destruct (bytes_eqb g f); reflexivity.
  - destruct (o_q s f) as [|l| |] eqn:E; cbn [write_root]; try (rewrite E; apply eqo_refl).
    rewrite set_field_same. constructor; cbn; auto. intros g. destruct (bytes_eqb g f); [|reflexivity].
    rewrite set_nth_twice. reflexivity.
  - constructor; cbn; auto.
Qed.
Lemma write_id : forall r x s, read_root s r = Some x -> eqo s (write_root r x s).
Proof.
  intros [f|f|] x s H; cbn in H |- *.
  - destruct (o_q s f) eqn:E; try discriminate. injection H as ->. constructor; cbn; auto. intros g.
    destruct (bytes_eqb g f) eqn:G; [|reflexivity]. apply bytes_eqb_eq in G. subst. exact E.
  - destruct (o_q s f) eqn:E; try discriminate. rewrite (set_nth_id _ _ _ _ H). constructor; cbn; auto. intros g.
    destruct (bytes_eqb g f) eqn:G; [|reflexivity]. apply bytes_eqb_eq in G. subst. exact E.
  - constructor; cbn; auto.
Qed.
Lemma read_write : forall r x y s, read_root s r = Some y -> read_root (write_root r x s) r = Some x.
Proof.
  intros [f|f|] x y s H; cbn in H |- *.
  - rewrite bytes_eqb_refl. reflexivity.
  - destruct (o_q s f) eqn:E; try discriminate. rewrite set_field_same. cbn. apply set_nth_same.
    apply nth_error_Some. congruence.
  - reflexivity.
Qed.

(** [s1] is [s] with the value [v] in the place [r]. *)
Definition holds (r : oroot) (s : ost) (v : rv) (s1 : ost) : Prop :=
  (exists v0, read_root s r = Some v0) /\ eqo s1 (write_root r v s).
Lemma holds_read : forall r s v s1, holds r s v s1 -> read_root s1 r = Some v.
Proof. intros r s v s1 [[v0 H] E]. rewrite (eqo_read _ _ _ E). exact (read_write _ _ _ _ H). Qed.
Lemma holds_write : forall r s v x s1, holds r s v s1 -> holds r s x (write_root r x s1).
Proof.
  intros r s v x s1 [X E]. split; [exact X|].
  eapply eqo_trans; [apply eqo_write; exact E|]. apply write_write.
Qed.
Lemma holds_row : forall r s v s1, holds r s v s1 -> o_row s1 = o_row s.
Proof.
  intros r s v s1 [_ E]. rewrite (eq_row _ _ E). destruct r as [f|f|]; cbn; auto. destruct (o_q s f); reflexivity.
Qed.
Lemma holds_self : forall r s v, read_root s r = Some v -> holds r s v s.
Proof. intros r s v H. split; [eauto|]. apply write_id. exact H. Qed.

Lemma store_holds : forall r s v s1 p y v', holds r s v s1 -> put p y v = Some v' ->
  exists s2, store r p y s1 = Some s2 /\ holds r s v' s2.
Proof.
  intros r s v s1 p y v' H P. unfold store. rewrite (holds_read _ _ _ _ H), P. cbn.
  eexists. split; [reflexivity|]. eapply holds_write; eauto.
Qed.

(** ** Places *)
Lemma place_sel : forall e r p f, place e = Some (r, p) -> place (GSel e f) = Some (r, p ++ [f]).
Proof.
  intros e r p f H. destruct e as [| |e x|e g|fn e|e]; try discriminate;
    match goal with |- place (GSel ?X f) = _ =>
      change (match place X with Some (r, p) => Some (r, p ++ [f]) | None => None end = Some (r, p ++ [f])) end;
    rewrite H; reflexivity.
Qed.
Lemma place_gsel : forall path e r p, place e = Some (r, p) -> place (gsel e path) = Some (r, p ++ path).
Proof.
  induction path as [|f path IH]; intros e r p H; [cbn; rewrite app_nil_r; exact H|].
  change (gsel e (f :: path)) with (gsel (GSel e f) path). rewrite (IH (GSel e f) r (p ++ [f]) (place_sel _ _ _ _ H)), <- app_assoc. reflexivity.
Qed.
Definition arg (out : gexpr) (r : fread) : gexpr :=
  addConverterCallExpr (GAddr (gsel out (Gen.sel_path (fr_field r)))) (fr_scanner r).
Lemma dest_arg : forall out rt r, place out = Some (rt, []) -> dest (arg out r) = Some (fr_scanner r, (rt, read_path r)).
Proof.
  intros out rt r H. unfold arg, addConverterCallExpr. destruct (fr_scanner r); cbn [dest];
    rewrite (place_gsel _ _ _ _ H); reflexivity.
Qed.

Lemma args_addressable : forall out rt s v s1 reads ts, place out = Some (rt, []) -> holds rt s v s1 ->
  ready ts reads v -> forallb (addressable s1) (map (arg out) reads) = true.
Proof.
  intros out rt s v s1 reads ts PL H [_ RD]. apply forallb_forall. intros e I. apply in_map_iff in I.
  destruct I as (r & <- & I). unfold addressable. rewrite (dest_arg _ _ _ PL).
  destruct (get v (read_path r)) as [y|] eqn:G; [|exfalso; exact (RD r I G)].
  destruct (put_total _ VZero _ _ G) as [v' P]. destruct (store_holds _ _ _ _ _ _ _ H P) as (s2 & -> & _). reflexivity.
Qed.
Lemma write_all_holds : forall out rt s reads ds v s1 x, place out = Some (rt, []) -> holds rt s v s1 ->
  fill reads ds v = Some x -> exists s2, write_all (map (arg out) reads) ds s1 = Some s2 /\ holds rt s x s2.
Proof.
  intros out rt s reads. induction reads as [|r reads IH]; intros ds v s1 x PL H F.
  - cbn in *. injection F as <-. eauto.
  - destruct ds as [|d ds]; cbn in F |- *; [injection F as <-; eauto|].
    rewrite (dest_arg _ _ _ PL).
    destruct (put (read_path r) (VGot (fr_scanner r) d) v) as [v'|] eqn:P; [|discriminate].
    destruct (store_holds _ _ _ _ _ _ _ H P) as (s2 & -> & H2). eapply IH; eauto.
Qed.
Lemma scan_good : forall out rt s v s1 reads ts ds x, place out = Some (rt, []) -> holds rt s v s1 ->
  ready ts reads v -> o_row s = inr ds -> List.length ds = List.length reads -> fill reads ds v = Some x ->
  exists s2, scan (map (arg out) reads) s1 = Some (s2, None) /\ holds rt s x s2.
Proof.
  intros out rt s v s1 reads ts ds x PL H RD RW LE F. unfold scan.
  rewrite (args_addressable _ _ _ _ _ _ _ PL H RD), (holds_row _ _ _ _ H), RW, map_length, LE, Nat.eqb_refl.
  destruct (write_all_holds _ _ _ _ _ _ _ _ PL H F) as (s2 & -> & H2). cbn. eauto.
Qed.
Lemma scan_bad : forall out rt s v s1 reads ts e, place out = Some (rt, []) -> holds rt s v s1 ->
  ready ts reads v -> o_row s = inl e -> scan (map (arg out) reads) s1 = Some (s1, Some e).
Proof.
  intros out rt s v s1 reads ts e PL H RD RW. unfold scan.
  rewrite (args_addressable _ _ _ _ _ _ _ PL H RD), (holds_row _ _ _ _ H), RW. reflexivity.
Qed.

Lemma init_holds : forall env out rt s L v v' s1, place out = Some (rt, []) -> holds rt s v s1 ->
  init_run (e_fields env) (map InitPath L) v = Some v' ->
  exists s2, rseq env out (map RInit (map InitPath L)) s1 = Next s2 /\ holds rt s v' s2.
Proof.
  intros env out rt s L. induction L as [|p L IH]; intros v v' s1 PL H R; cbn [map init_run] in R.
  - injection R as <-. cbn. eauto.
  - unfold init1 in R. cbn [map rseq rexec exec_init]. rewrite PL.
    destruct (ty_get (RStruct false (e_fields env)) p) as [[|[] fs]|]; try discriminate.
    destruct (put p (zero_rec fs) v) as [v1|] eqn:P; [|discriminate].
    destruct (store_holds _ _ _ _ _ _ _ H P) as (s2 & -> & H2). eapply IH; eauto.
Qed.

(** ** Statements *)
Lemma rexec_seq : forall env out l s,
  (fix seq (l : list rstmt) (s : ost) : outcome :=
     match l with [] => Next s | a :: l => match rexec env out a s with Next s => seq l s | o => o end end) l s
  = rseq env out l s.
Proof. induction l as [|a l IH]; intros s; cbn [rseq]; [reflexivity|]. destruct (rexec env out a s); auto. Qed.
Lemma iferr_none : forall env out q s, o_err s = None -> rexec env out (makeErrorIfStmt q) s = Next s.
Proof. intros env out q s H. cbn. rewrite H. reflexivity. Qed.
Lemma ret_err : forall env out q s e rest, o_err s = Some e -> rseq env out (makeErrorReturnStmt q EVar ++ rest) s = Done s (answer q (Some e)).
Proof.
  intros env out q s e rest H. unfold makeErrorReturnStmt, answer. destruct (q_errh q) as [h|]; [|cbn; rewrite H; reflexivity].
  destruct (eh_info h); cbn; rewrite H; reflexivity.
Qed.
Lemma iferr_some : forall env out q s e, o_err s = Some e ->
  rexec env out (makeErrorIfStmt q) s = Done s (answer q (Some e)).
Proof.
  intros env out q s e H. cbn [makeErrorIfStmt rexec]. rewrite H, rexec_seq.
  rewrite <- (app_nil_r (makeErrorReturnStmt q EVar)). apply ret_err. exact H.
Qed.
Lemma ret_rows : forall env out q s, exists s', rseq env out (makeErrorReturnStmt q ERowsErr) s = Done s' (answer q (e_err env))
  /\ o_q s' = o_q s /\ o_closed s' = o_closed s.
Proof.
  intros env out q s. unfold makeErrorReturnStmt, answer. destruct (q_errh q) as [h|]; [|cbn; eauto].
  destruct (eh_info h); [|cbn; eauto]. cbn. destruct (e_err env); cbn; eauto.
Qed.
Lemma scan_stmt_good : forall env out args s s2 rest q, scan args s = Some (s2, None) ->
  rseq env out ([RScan args; makeErrorIfStmt q] ++ rest) s = rseq env out rest (so_err None s2).
Proof. intros env out args s s2 rest q H. cbn [app rseq]. cbn [rexec]. rewrite H. cbn. reflexivity. Qed.
Lemma scan_stmt_bad : forall env out args s s2 rest q e, scan args s = Some (s2, Some e) ->
  rseq env out ([RScan args; makeErrorIfStmt q] ++ rest) s = Done (so_err (Some e) s2) (answer q (Some e)).
Proof.
  intros env out args s s2 rest q e H. cbn [app rseq]. remember (makeErrorIfStmt q) as st. cbn [rexec]. rewrite H. subst st.
  rewrite (iferr_some env out q (so_err (Some e) s2) e eq_refl). reflexivity.
Qed.

(** The loop over rows. *)
Fixpoint rloop (env : oenv) (out : gexpr) (body : list rstmt) (rows : list row) (s : ost) : outcome :=
  match rows with
  | [] => Next s
  | r :: rows => match rseq env out body (so_row r s) with Next s => rloop env out body rows s | o => o end
  end.
Lemma rfor : forall env out body s, rexec env out (RFor body) s = rloop env out body (e_rows env) s.
Proof.
  intros env out body s. cbn [rexec]. generalize (e_rows env). intros rows. revert s.
  induction rows as [|r rows IH]; intros s; cbn [rloop]; [reflexivity|]. rewrite rexec_seq.
  destruct (rseq env out body (so_row r s)); auto.
Qed.
