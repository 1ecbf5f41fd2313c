(** Lemmas about running the statements the generator writes. *)
From Coq Require Import Ascii String ZArith NArith Bool List Lia.
From Verif Require Import GoBase AParse Analysis Oids Gen GenRun GenSpec GenProofs GenProofs2 GenProofs3.
Import ListNotations.
Local Open Scope string_scope.
Local Open Scope list_scope.

(** ** Expressions *)

Lemma bind_ok : forall A B (r : res A) (f : A -> res B) b, bind r f = Ok b -> exists a, r = Ok a /\ f a = Ok b.
Proof. intros A B [a| |] f b H; try discriminate H. eauto. Qed.
Lemma rmap_ok : forall A B (r : res A) (f : A -> B) b, rmap f r = Ok b -> exists a, r = Ok a /\ b = f a.
Proof. intros A B [a| |] f b H; try discriminate H. injection H as <-. eauto. Qed.
Lemma or_panic_ok : forall A (o : option A) a, or_panic o = Ok a -> o = Some a.
Proof. intros A [x|] a H; [injection H as ->; reflexivity|discriminate H]. Qed.

Lemma eval_gsel : forall s p e, eval s (gsel e p) = bind (eval s e) (fun v => or_panic (at_path v p)).
Proof.
  intros s p. induction p as [|f p IH]; intro e.
  - cbn. destruct (eval s e); reflexivity.
  - change (gsel e (f :: p)) with (gsel (GSel e f) p). rewrite IH. cbn [eval].
    destruct (eval s e) as [v| |]; [|reflexivity..]. cbn [bind at_path]. destruct (gfield v f); reflexivity.
Qed.
Lemma eval_acc : forall s a, eval s (acc_expr GQ a) = or_panic (value (s_q s) a).
Proof.
  intros s [p c]. unfold acc_expr, value. cbn [a_path a_conv].
  assert (E : eval s (gsel GQ p) = or_panic (at_path (s_q s) p)) by (rewrite eval_gsel; reflexivity).
  destruct c as [|x c]; cbn [addConverterCallExpr eval]; rewrite E; destruct (at_path (s_q s) p); reflexivity.
Qed.
Lemma eval_acc_v : forall s a, eval s (acc_expr GV a) = or_panic (value (s_v s) a).
Proof.
  intros s [p c]. unfold acc_expr, value. cbn [a_path a_conv].
  assert (E : eval s (gsel GV p) = or_panic (at_path (s_v s) p)) by (rewrite eval_gsel; reflexivity).
  destruct c as [|x c]; cbn [addConverterCallExpr eval]; rewrite E; destruct (at_path (s_v s) p); reflexivity.
Qed.

(** Only the receiver, the loop variable and the integers matter. *)
Lemma eval_same : forall e s s', s_q s = s_q s' -> s_v s = s_v s' -> (forall x, s_int s x = s_int s' x) ->
  eval s e = eval s' e.
Proof.
  induction e as [| |e IH x|e IH f|fn e IH|e IH]; intros s s' Q V I; cbn [eval].
  - rewrite Q. reflexivity.
  - rewrite V. reflexivity.
  - rewrite (IH s s' Q V I), I. reflexivity.
  - rewrite (IH s s' Q V I). reflexivity.
  - rewrite (IH s s' Q V I). reflexivity.
  - apply IH; assumption.
Qed.
Lemma evals_same : forall l s s', s_q s = s_q s' -> s_v s = s_v s' -> (forall x, s_int s x = s_int s' x) ->
  evals s l = evals s' l.
Proof.
  induction l as [|e l IH]; intros s s' Q V I; [reflexivity|]. cbn [evals].
  rewrite (eval_same e s s' Q V I). destruct (eval s' e); [|reflexivity..]. cbn [bind]. rewrite (IH s s' Q V I). reflexivity.
Qed.
Lemma evals_params : forall l s p, evals (set_params p s) l = evals s l.
Proof. intros. apply evals_same; reflexivity. Qed.
Lemma evals_length : forall l s vs, evals s l = Ok vs -> List.length vs = List.length l.
Proof.
  induction l as [|e l IH]; intros s vs H; cbn [evals] in H; [injection H as <-; reflexivity|].
  apply bind_ok in H. destruct H as (v & _ & H). apply rmap_ok in H. destruct H as (vs' & H & ->). cbn. f_equal. eapply IH; eassumption.
Qed.

(** The arguments have the values of their fields. *)
Lemma evals_accs : forall accs s vs, evals s (map (acc_expr GQ) accs) = Ok vs ->
  Forall2 (fun a v => value (s_q s) a = Some v) accs vs.
Proof.
  induction accs as [|a accs IH]; intros s vs H; cbn [map evals] in H; [injection H as <-; constructor|].
  apply bind_ok in H. destruct H as (v & E & H). apply rmap_ok in H. destruct H as (vs' & H & ->).
  rewrite eval_acc in E. apply or_panic_ok in E. constructor; [exact E|]. eapply IH; eassumption.
Qed.
Lemma accs_evals : forall accs s vs, Forall2 (fun a v => value (s_q s) a = Some v) accs vs ->
  evals s (map (acc_expr GQ) accs) = Ok vs.
Proof.
  intros accs s vs H. induction H as [|a v accs vs E H IH]; [reflexivity|]. cbn [map evals].
  rewrite eval_acc, E. cbn [or_panic bind]. rewrite IH. reflexivity.
Qed.

Lemma forall2_length : forall A B (R : A -> B -> Prop) l m, Forall2 R l m -> List.length l = List.length m.
Proof. intros A B R l m H. induction H; cbn; congruence. Qed.

Lemma forall2_impl : forall A B (R S : A -> B -> Prop), (forall x y, R x y -> S x y) ->
  forall l m, Forall2 R l m -> Forall2 S l m.
Proof. intros A B R S I l m H. induction H; constructor; auto. Qed.

Lemma accs_agree : forall v accs vs rest, Forall2 (fun a x => value v a = Some x) accs vs ->
  agree (argument (vs ++ rest)) (value v) 0 accs.
Proof.
  intros v accs vs rest H i a E. unfold argument. destruct (Z.leb_spec (0 + 1 + Z.of_nat i) 0) as [L|L]; [lia|].
  replace (Z.to_nat (0 + 1 + Z.of_nat i - 1)) with i by lia.
  assert (IL : i < List.length vs).
  { rewrite <- (forall2_length _ _ _ _ _ H). apply nth_error_Some. congruence. }
  rewrite nth_error_app1 by exact IL. clear L. revert i E IL.
  induction H as [|x y accs vs E H IH]; intros [|i] Q IL; cbn [nth_error] in *; try discriminate Q.
  - injection Q as ->. symmetry. exact E.
  - apply IH; [exact Q|]. cbn in IL. lia.
Qed.

(** ** Statements *)

Lemma seqM_app : forall S (a b : list (S -> res S)) s, seqM (a ++ b) s = bind (seqM a s) (seqM b).
Proof.
  intros S a. induction a as [|f a IH]; intros b s; [reflexivity|]. cbn [app seqM].
  destruct (f s); [|reflexivity..]. cbn [bind]. apply IH.
Qed.

Lemma set_q_id : forall s, set_q (s_q s) s = s.
Proof. intros []. reflexivity. Qed.
Lemma with_default_zero : forall l v, lf_value l = 0%N -> with_default (Some l) v = v.
Proof.
  intros l v E. unfold with_default. destruct v; try reflexivity. destruct (lf_name l); [reflexivity|].
  destruct (get_field _ _) as [[]|]; try reflexivity. destruct z; try reflexivity. rewrite E. reflexivity.
Qed.
Lemma with_default_noname : forall l v, lf_name l = [] -> with_default (Some l) v = v.
Proof. intros l v E. unfold with_default. destruct v; try reflexivity. rewrite E. reflexivity. Qed.

Lemma fallback_ok : forall l s s', seqM (map exec (fallback l)) s = Ok s' -> s' = set_q (with_default l (s_q s)) s.
Proof.
  intros [l|] s s' H; [|cbn in H; injection H as <-; cbn; symmetry; apply set_q_id].
  unfold fallback in H. destruct (lf_name l) as [|c n] eqn:N.
  - cbn in H. injection H as <-. rewrite with_default_noname by exact N. symmetry. apply set_q_id.
  - destruct (0 <? lf_value l)%N eqn:V.
    + cbn [map seqM exec] in H. unfold with_default. destruct (s_q s) as [| | |fs| | |] eqn:Q; try discriminate H.
      rewrite N. destruct (get_field (c :: n) fs) as [v|]; [|discriminate H].
      rewrite V. destruct v as [|z| | | | |]; try (cbn in H; injection H as <-; rewrite <- Q; symmetry; apply set_q_id).
      destruct z; cbn in H; injection H as <-; try (rewrite <- Q; symmetry; apply set_q_id). reflexivity.
    + apply N.ltb_ge in V. rewrite with_default_zero by lia. cbn in H. injection H as <-. symmetry. apply set_q_id.
Qed.

Lemma set_nth_app : forall A (pre : list A) x r a, set_nth (List.length pre) a (pre ++ x :: r) = Some (pre ++ a :: r).
Proof. intros A pre. induction pre as [|y pre IH]; intros; [reflexivity|]. cbn. rewrite IH. reflexivity. Qed.

Lemma set_static_ok : forall args k s pre rest,
  s_params s = pre ++ rest -> k = Z.of_nat (List.length pre) -> List.length args <= List.length rest ->
  seqM (map exec (set_static k args)) s
  = bind (evals s args) (fun vals => Ok (set_params (pre ++ vals ++ skipn (List.length args) rest) s)).
Proof.
  induction args as [|a args IH]; intros k s pre rest P K L; cbn [set_static map seqM evals].
  - cbn. rewrite <- P. destruct s; reflexivity.
  - destruct rest as [|x rest]; [cbn in L; lia|]. cbn [exec ieval bind].
    destruct (eval s a) as [v| |]; [|reflexivity..]. cbn [bind].
    destruct (Z.ltb_spec k 0) as [Q|Q]; [lia|]. rewrite P, K, Nat2Z.id, set_nth_app. cbn [or_panic rmap bind].
    rewrite (IH _ _ (pre ++ [v]) rest).
    + rewrite evals_params. destruct (evals s args) as [vals| |]; [|reflexivity..]. cbn [bind rmap].
      rewrite <- app_assoc. reflexivity.
    + cbn [s_params set_params]. rewrite <- app_assoc. reflexivity.
    + rewrite app_length. cbn. lia.
    + cbn in L. lia.
Qed.

(** ** Slices *)

(** Agreement outside of the parameters and the loop counter. *)
Definition same (s s' : st) : Prop :=
  s_q s' = s_q s /\ s_v s' = s_v s /\ s_text s' = s_text s /\ s_filter s' = s_filter s /\ s_call s' = s_call s
  /\ forall x, x <> VI -> s_int s' x = s_int s x.
Lemma same_refl : forall s, same s s.
Proof. intro s. repeat split; reflexivity. Qed.
Lemma same_trans : forall a b c, same a b -> same b c -> same a c.
Proof.
  intros a b c (A1 & A2 & A3 & A4 & A5 & A6) (B1 & B2 & B3 & B4 & B5 & B6). unfold same.
  repeat split; try congruence. intros x N. rewrite B6, A6 by exact N. reflexivity.
Qed.

Lemma ivar_eqb_refl : forall x, ivar_eqb x x = true.
Proof. intros []; cbn; try reflexivity; apply Nat.eqb_refl. Qed.
Lemma ivar_eqb_eq : forall x y, ivar_eqb x y = true -> x = y.
Proof. intros [] [] H; cbn in H; try discriminate H; try reflexivity; apply Nat.eqb_eq in H; subst; reflexivity. Qed.
Lemma set_int_at : forall x z s, s_int (set_int x z s) x = z.
Proof. intros. cbn. rewrite ivar_eqb_refl. reflexivity. Qed.
Lemma set_int_other : forall x y z s, y <> x -> s_int (set_int x z s) y = s_int s y.
Proof.
  intros x y z s N. cbn. destruct (ivar_eqb y x) eqn:E; [|reflexivity]. apply ivar_eqb_eq in E. contradiction.
Qed.

Lemma eval_path_q : forall s s' p, s_q s' = s_q s -> eval s' (gsel GQ p) = eval s (gsel GQ p).
Proof. intros s s' p Q. rewrite !eval_gsel. cbn [eval]. rewrite Q. reflexivity. Qed.

Lemma for_fill : forall k p l2 l1 s pre rest v,
  eval s (gsel GQ p) = Ok v -> elems v = l1 ++ l2 ->
  s_params s = pre ++ rest -> Z.of_nat (List.length pre) = (s_int s (VPosK k) + Z.of_nat (List.length l1))%Z ->
  (0 <= s_int s (VPosK k))%Z -> List.length l2 <= List.length rest ->
  exists s', for_loop (seqM (map exec [GSet (IAdd (IVar (VPosK k)) (IVar VI)) (GIdx (gsel GQ p) VI)]))
               (Z.of_nat (List.length l1)) (List.length l2) s = Ok s'
    /\ same s s' /\ s_params s' = pre ++ l2 ++ skipn (List.length l2) rest.
Proof.
  intros k p l2. induction l2 as [|x l2 IH]; intros l1 s pre rest v EV EL P PO NN LE.
  - cbn. exists s. split; [reflexivity|]. split; [apply same_refl|exact P].
  - destruct rest as [|y rest]; [cbn in LE; lia|].
    cbn [List.length for_loop map seqM exec].
    set (s1 := set_int VI (Z.of_nat (List.length l1)) s).
    assert (PK : s_int s1 (VPosK k) = s_int s (VPosK k)) by (apply set_int_other; discriminate).
    assert (PI : s_int s1 VI = Z.of_nat (List.length l1)) by (apply set_int_at).
    cbn [ieval bind eval]. rewrite PK, PI, (eval_path_q s s1 p eq_refl), EV. cbn [bind].
    assert (VS : v = VSlice (l1 ++ x :: l2)).
    { destruct v; cbn [elems] in EL; try (destruct l1; discriminate EL). rewrite EL. reflexivity. }
    rewrite VS. unfold znth. destruct (Z.ltb_spec (Z.of_nat (List.length l1)) 0) as [Q|Q]; [lia|].
    rewrite Nat2Z.id. assert (nth_error (l1 ++ x :: l2) (List.length l1) = Some x) as ->.
    { rewrite nth_error_app2 by lia. rewrite Nat.sub_diag. reflexivity. }
    cbn [or_panic bind]. destruct (Z.ltb_spec (s_int s (VPosK k) + Z.of_nat (List.length l1)) 0) as [Q'|Q']; [lia|].
    change (s_params s1) with (s_params s). rewrite P, <- PO, Nat2Z.id, set_nth_app. cbn [or_panic rmap bind].
    destruct (IH (l1 ++ [x]) (set_params (pre ++ x :: rest) s1) (pre ++ [x]) rest v) as (s' & E & SM & PP).
    + rewrite <- EV. apply eval_path_q. reflexivity.
    + rewrite EL, <- app_assoc. reflexivity.
    + cbn [s_params set_params]. rewrite <- app_assoc. reflexivity.
    + change (s_int (set_params (pre ++ x :: rest) s1) (VPosK k)) with (s_int s1 (VPosK k)). rewrite PK, !app_length. cbn. lia.
    + change (s_int (set_params (pre ++ x :: rest) s1) (VPosK k)) with (s_int s1 (VPosK k)). rewrite PK. exact NN.
    + cbn in LE. lia.
    + exists s'. split; [|split].
      * rewrite <- E. f_equal. rewrite app_length. cbn. lia.
      * eapply same_trans; [|exact SM]. repeat split. intros z NE. cbn. destruct (ivar_eqb z VI) eqn:IE; [|reflexivity].
        apply ivar_eqb_eq in IE. contradiction.
      * rewrite PP, <- app_assoc. reflexivity.
Qed.

Definition zlen {A} (l : list A) : Z := Z.of_nat (List.length l).
Definition total (ls : list (list gv)) : Z := zlen (concat ls).

(** The lengths and positions the slice variables hold. *)
Definition slice_env (s : st) (pos : Z) (k : nat) (ls : list (list gv)) : Prop :=
  forall j l, nth_error ls j = Some l ->
    s_int s (VLen (k + j)) = zlen l /\ s_int s (VPosK (k + j)) = (pos + total (firstn j ls))%Z.

Lemma set_slices_ok : forall paths k s pos pre rest vs,
  Forall2 (fun p v => eval s (gsel GQ p) = Ok v) paths vs ->
  slice_env s pos k (map elems vs) -> (0 <= pos)%Z ->
  s_params s = pre ++ rest -> zlen pre = pos -> List.length (concat (map elems vs)) = List.length rest ->
  exists s', seqM (map exec (set_slices k (map (gsel GQ) paths))) s = Ok s'
    /\ same s s' /\ s_params s' = pre ++ concat (map elems vs).
Proof.
  intros paths. induction paths as [|p paths IH]; intros k s pos pre rest vs EV SE NN P PO LE.
  - inversion EV; subst. cbn in *. exists s. split; [reflexivity|]. split; [apply same_refl|].
    destruct rest; [exact P|discriminate LE].
  - inversion EV as [|p' v paths' vs' E1 E2]; subst.
    change (map (gsel GQ) (p :: paths)) with (gsel GQ p :: map (gsel GQ) paths). cbn [set_slices map seqM].
    match goal with |- context [exec (GFor ?x ?b) s] =>
      change (exec (GFor x b) s) with (for_loop (seqM (map exec b)) 0 (Z.to_nat (s_int s x)) s) end.
    destruct (SE 0 (elems v) eq_refl) as [SL SP]. rewrite Nat.add_0_r in *. cbn [firstn] in SP. unfold total in SP.
    cbn in SP. rewrite Z.add_0_r in SP. rewrite SL. unfold zlen at 1. rewrite Nat2Z.id.
    destruct (for_fill k p (elems v) [] s pre rest v E1 eq_refl P) as (s1 & F & SM & PP).
    { rewrite SP. unfold zlen. cbn. lia. }
    { rewrite SP. unfold zlen. lia. }
    { cbn in LE. rewrite app_length in LE. lia. }
    cbn [List.length Z.of_nat] in F. 
    rewrite F. cbn [bind]. destruct SM as (M1 & M2 & M3 & M4 & M5 & M6).
    destruct (IH (S k) s1 (zlen pre + zlen (elems v))%Z (pre ++ elems v) (skipn (List.length (elems v)) rest) vs')
      as (s' & E & SM' & PP').
    + eapply forall2_impl; [|exact E2]. cbn beta. intros x y H. rewrite <- H. apply eval_path_q. exact M1.
    + intros j l Q. destruct (SE (S j) l Q) as [A B]. replace (S k + j) with (k + S j) by lia.
      rewrite !M6 by discriminate. split; [exact A|]. rewrite B. cbn [map firstn]. unfold total. cbn [concat].
      unfold zlen. rewrite app_length. lia.
    + unfold zlen. lia.
    + rewrite PP, app_assoc. reflexivity.
    + unfold zlen. rewrite app_length. lia.
    + rewrite skipn_length. cbn in LE. rewrite app_length in LE. lia.
    + exists s'. split; [exact E|]. split; [eapply same_trans; [|exact SM']; repeat split; assumption|].
      rewrite PP', <- app_assoc. reflexivity.
Qed.

Lemma slice_vars_ok : forall paths k s s', 0 < k ->
  seqM (map exec (slice_vars k (map (gsel GQ) paths))) s = Ok s' ->
  exists vs, Forall2 (fun p v => eval s (gsel GQ p) = Ok v) paths vs
  /\ s_q s' = s_q s /\ s_v s' = s_v s /\ s_text s' = s_text s /\ s_params s' = s_params s /\ s_filter s' = s_filter s
  /\ s_call s' = s_call s
  /\ (forall x, (forall j, k <= j -> x <> VLen j /\ x <> VPosK j) -> s_int s' x = s_int s x)
  /\ slice_env s' (match k with 1%nat => s_int s VNstatic | _ => s_int s (VPosK (Nat.pred k)) + s_int s (VLen (Nat.pred k)) end)%Z
       k (map elems vs).
Proof.
  induction paths as [|p paths IH]; intros k s s' K H.
  - cbn in H. injection H as <-. exists [].
    split; [constructor|]. do 7 (split; [reflexivity|]). intros j l Q. destruct j; discriminate Q.
  - cbn [map slice_vars seqM exec] in H. apply bind_ok in H. destruct H as (s1 & H1 & H).
    apply rmap_ok in H1. destruct H1 as (z & Z1 & ->). cbn [ieval] in Z1. apply rmap_ok in Z1. destruct Z1 as (v & EV & ->).
    apply bind_ok in H. destruct H as (s2 & H2 & H). apply rmap_ok in H2. destruct H2 as (z & Z2 & ->).
    set (pos := (match k with 1%nat => s_int s VNstatic | _ => s_int s (VPosK (Nat.pred k)) + s_int s (VLen (Nat.pred k)) end)%Z).
    assert (z = pos).
    { unfold pos. destruct k as [|[|k]]; [lia| |].
      - cbn [ieval] in Z2. injection Z2 as <-. reflexivity.
      - cbn [Nat.pred]. rewrite <- (set_int_other (VLen (S (S k))) (VPosK (S k)) (glen v) s) by discriminate.
        rewrite <- (set_int_other (VLen (S (S k))) (VLen (S k)) (glen v) s) by (intro Q; injection Q as Q; lia).
        injection Z2 as <-. reflexivity. }
    subst z. set (s2 := set_int (VPosK k) pos (set_int (VLen k) (glen v) s)) in *.
    assert (LK : s_int s2 (VLen k) = glen v).
    { unfold s2. rewrite set_int_other by discriminate. apply set_int_at. }
    assert (PK : s_int s2 (VPosK k) = pos) by apply set_int_at.
    destruct (IH (S k) s2 s') as (vs & F & Q1 & Q2 & Q3 & Q4 & Q5 & Q6 & IN & SE); [lia|exact H|].
    exists (v :: vs). split; [|split; [exact Q1|split; [exact Q2|split; [exact Q3|split; [exact Q4|split; [exact Q5|split; [exact Q6|split]]]]]]].
    + constructor; [exact EV|]. eapply forall2_impl; [|exact F]. cbn beta. intros x y E. rewrite <- E. symmetry.
      apply eval_path_q. reflexivity.
    + intros x N. rewrite IN.
      * unfold s2. destruct (N k (le_n k)) as [N1 N2]. rewrite !set_int_other; [reflexivity|exact N1|exact N2].
      * intros j L. apply N. lia.
    + assert (GL : glen v = zlen (elems v)) by (destruct v; reflexivity).
      intros [|j] l E; cbn [map nth_error] in E.
      * injection E as <-. rewrite Nat.add_0_r. cbn [firstn]. unfold total. cbn.
        rewrite !IN by (intros j L; split; try discriminate; intro Q; injection Q as Q; lia).
        rewrite LK, PK, Z.add_0_r. split; [exact GL|reflexivity].
      * destruct (SE j l E) as [A B]. replace (k + S j) with (S k + j) by lia. split; [exact A|]. rewrite B.
        assert ((match S k with 1%nat => s_int s2 VNstatic | _ => s_int s2 (VPosK (Nat.pred (S k))) + s_int s2 (VLen (Nat.pred (S k))) end)%Z
                = (pos + glen v)%Z) as ->.
        { destruct k as [|k]; [lia|]. cbn [Nat.pred]. rewrite PK, LK. reflexivity. }
        cbn [map firstn]. unfold total. cbn [concat]. unfold zlen. rewrite app_length, GL. unfold zlen. lia.
Qed.

Lemma slice_size_ok : forall ls k s e n, slice_env s n k ls -> ieval s e = Ok n ->
  forall (slices : list gexpr) m, List.length slices = List.length ls -> ieval s e = Ok m ->
  ieval s (slice_size e k slices) = Ok (m + total ls)%Z.
Proof.
  induction ls as [|l ls IH]; intros k s e n SE E slices m L EM; destruct slices as [|a slices]; try discriminate L.
  - cbn. rewrite EM. unfold total. cbn. f_equal. lia.
  - cbn [slice_size]. destruct (SE 0 l eq_refl) as [A B]. rewrite Nat.add_0_r in A. 
    assert (EN : ieval s (IAdd e (IVar (VLen k))) = Ok (m + zlen l)%Z) by (cbn [ieval]; rewrite EM, A; reflexivity).
    rewrite (IH (S k) s (IAdd e (IVar (VLen k))) (m + zlen l)%Z) with (m := (m + zlen l)%Z).
    + unfold total. cbn [concat]. unfold zlen. rewrite app_length. f_equal. lia.
    + intros j x Q. destruct (SE (S j) x Q) as [C D]. replace (S k + j) with (k + S j) by lia. split; [exact C|].
      rewrite D. rewrite E in EM. injection EM as ->. unfold total. cbn [firstn concat]. unfold zlen. rewrite app_length. lia.
    + exact EN.
    + injection L as L. exact L.
    + exact EN.
Qed.

(** ** Composition of traversals *)

Lemma sexpr_map_map : forall P Q R (f : P -> Q) (g : Q -> R) e, sexpr_map g (sexpr_map f e) = sexpr_map (fun x => g (f x)) e.
Proof. intros. induction e; cbn; congruence. Qed.
Lemma bexpr_ind2 : forall P L (H : bexpr P L -> Prop),
  (forall op l r, H (YOp op l r)) -> (forall n l v, H (YIn n l v)) -> (forall n t e, H (YTruth n t e)) ->
  (forall n e, H (YNull n e)) -> (forall e a b, H (YBetween e a b)) -> (forall e, H (YVal e)) -> H YNil ->
  (forall p items, Forall (fun it => H (snd it)) items -> H (YList p items)) -> forall e, H e.
Proof.
  intros P L H H1 H2 H3 H4 H5 H6 H7 H8. fix IH 1. intros [op l r|n l v|n t e|n e|e a b|e| |p items];
    [apply H1|apply H2|apply H3|apply H4|apply H5|apply H6|apply H7|].
  apply H8. induction items as [|[b x] items IHl]; constructor; [apply IH|exact IHl].
Qed.
Lemma bexpr_map_map : forall P Q R L M N (f : P -> Q) (g : Q -> R) (h : L -> M) (k : M -> N) e,
  bexpr_map g k (bexpr_map f h e) = bexpr_map (fun x => g (f x)) (fun x => k (h x)) e.
Proof.
  intros. induction e as [| | | | | | |p items H] using bexpr_ind2; cbn; rewrite ?sexpr_map_map; try reflexivity.
  f_equal. rewrite map_map. apply map_ext_in. intros [b x] IN. cbn. rewrite Forall_forall in H.
  f_equal. apply (H (b, x) IN).
Qed.
Lemma tjoin_map_map : forall P Q R L M N (f : P -> Q) (g : Q -> R) (h : L -> M) (k : M -> N) e,
  tjoin_map g k (tjoin_map f h e) = tjoin_map (fun x => g (f x)) (fun x => k (h x)) e.
Proof. intros. unfold tjoin_map. cbn. rewrite bexpr_map_map. reflexivity. Qed.
Lemma stmt_map_map : forall P Q R L M N (f : P -> Q) (g : Q -> R) (h : L -> M) (k : M -> N) n,
  stmt_map g k (stmt_map f h n) = stmt_map (fun x => g (f x)) (fun x => k (h x)) n.
Proof.
  assert (E : forall P Q R (f : P -> Q) (g : Q -> R) l, map (sexpr_map g) (map (sexpr_map f) l) = map (sexpr_map (fun x => g (f x))) l).
  { intros. rewrite map_map. apply map_ext. intro. apply sexpr_map_map. }
  assert (J : forall P Q R L M N (f : P -> Q) (g : Q -> R) (h : L -> M) (k : M -> N) l,
    map (tjoin_map g k) (map (tjoin_map f h) l) = map (tjoin_map (fun x => g (f x)) (fun x => k (h x))) l).
  { intros. rewrite map_map. apply map_ext. intro. apply tjoin_map_map. }
  assert (T : forall P Q R L M N (f : P -> Q) (g : Q -> R) (h : L -> M) (k : M -> N) l,
    map (texpr_map g k) (map (texpr_map f h) l) = map (texpr_map (fun x => g (f x)) (fun x => k (h x))) l).
  { intros. rewrite map_map. apply map_ext. intros []; cbn; rewrite ?tjoin_map_map; reflexivity. }
  assert (W : forall P Q R L M N (f : P -> Q) (g : Q -> R) (h : L -> M) (k : M -> N) o,
    option_map (bexpr_map g k) (option_map (bexpr_map f h) o) = option_map (bexpr_map (fun x => g (f x)) (fun x => k (h x))) o).
  { intros. destruct o; cbn; rewrite ?bexpr_map_map; reflexivity. }
  assert (LM : forall P Q R (f : P -> Q) (g : Q -> R) l, lim_map g (lim_map f l) = lim_map (fun x => g (f x)) l).
  { intros. destruct l; reflexivity. }
  intros. destruct n; cbn [stmt_map]; rewrite ?E, ?J, ?T, ?W, ?LM; reflexivity.
Qed.
