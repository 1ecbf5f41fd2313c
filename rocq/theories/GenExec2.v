(** Running the method of a query without filter that writes at most one
    record: the statement and its arguments together. *)
From Coq Require Import Ascii String ZArith NArith Bool List Lia.
From Verif Require Import GoBase ConvertProofs AParse Analysis Oids Gen GenRun GenSpec GenProofs GenProofs2 GenProofs3 GenExec.
Import ListNotations.
Local Open Scope string_scope.
Local Open Scope list_scope.

(** ** Traversals *)

Lemma flat_map_map2 : forall A B C (f : B -> list C) (g : A -> B) l, flat_map f (map g l) = flat_map (fun x => f (g x)) l.
Proof. intros. induction l; cbn; congruence. Qed.
Lemma map_flat_map : forall A B C (f : B -> C) (g : A -> list B) l, map f (flat_map g l) = flat_map (fun x => map f (g x)) l.
Proof. intros. induction l; cbn; [reflexivity|]. rewrite map_app. congruence. Qed.
Lemma flat_map_ext_in : forall A B (f g : A -> list B) l, (forall x, In x l -> f x = g x) -> flat_map f l = flat_map g l.
Proof. intros A B f g l H. induction l as [|a l IH]; [reflexivity|]. cbn. rewrite H by (left; reflexivity). f_equal. apply IH. intros. apply H. right. assumption. Qed.

Lemma sexpr_params_map : forall P Q (f : P -> Q) e, sexpr_params (sexpr_map f e) = map f (sexpr_params e).
Proof. intros. induction e; cbn; rewrite ?map_app; congruence. Qed.
Lemma bexpr_lists_map : forall P Q L M (f : P -> Q) (g : L -> M) e, bexpr_lists (bexpr_map f g e) = map g (bexpr_lists e).
Proof.
  intros. induction e as [| | | | | | |p items H] using bexpr_ind2; try reflexivity. cbn.
  rewrite flat_map_map2, map_flat_map. apply flat_map_ext_in. intros [b x] IN. rewrite Forall_forall in H. apply (H _ IN).
Qed.
Lemma bexpr_params_map : forall P Q L M (f : P -> Q) (g : L -> M) e,
  bexpr_params noh (bexpr_map f g e) = map f (bexpr_params noh e).
Proof.
  intros. induction e as [| | | | | | |p items H] using bexpr_ind2; cbn;
    rewrite ?sexpr_params_map; unfold noh; rewrite ?map_app; try reflexivity.
  rewrite flat_map_map2, map_flat_map. apply flat_map_ext_in. intros [b x] IN. rewrite Forall_forall in H. apply (H _ IN).
Qed.
Lemma stmt_lists_map : forall P Q L M (f : P -> Q) (g : L -> M) n, stmt_lists (stmt_map f g n) = map g (stmt_lists n).
Proof.
  assert (J : forall P Q L M (f : P -> Q) (g : L -> M) l,
    flat_map (fun j => bexpr_lists (tj_cond j)) (map (tjoin_map f g) l) = map g (flat_map (fun j => bexpr_lists (tj_cond j)) l)).
  { intros. rewrite flat_map_map2, map_flat_map. apply flat_map_ext_in. intros. apply bexpr_lists_map. }
  assert (T : forall P Q L M (f : P -> Q) (g : L -> M) l,
    flat_map (fun x => match x with TxJoin j => bexpr_lists (tj_cond j) | _ => [] end) (map (texpr_map f g) l)
    = map g (flat_map (fun x => match x with TxJoin j => bexpr_lists (tj_cond j) | _ => [] end) l)).
  { intros. rewrite flat_map_map2, map_flat_map. apply flat_map_ext_in. intros [] _; try reflexivity. apply bexpr_lists_map. }
  assert (W : forall P Q L M (f : P -> Q) (g : L -> M) o,
    opt_list (@bexpr_lists Q M) (option_map (bexpr_map f g) o) = map g (opt_list (@bexpr_lists P L) o)).
  { intros. destruct o; [apply bexpr_lists_map|reflexivity]. }
  intros. destruct n; cbn [stmt_lists stmt_map]; rewrite ?map_app, ?J, ?T, ?W; reflexivity.
Qed.
Lemma stmt_params_map : forall P Q L M (f : P -> Q) (g : L -> M) n,
  stmt_params noh (stmt_map f g n) = map f (stmt_params noh n).
Proof.
  assert (E : forall P Q (f : P -> Q) l, flat_map (@sexpr_params Q) (map (sexpr_map f) l) = map f (flat_map (@sexpr_params P) l)).
  { intros. rewrite flat_map_map2, map_flat_map. apply flat_map_ext_in. intros. apply sexpr_params_map. }
  assert (J : forall P Q L M (f : P -> Q) (g : L -> M) l,
    flat_map (fun j => bexpr_params noh (tj_cond j)) (map (tjoin_map f g) l) = map f (flat_map (fun j => bexpr_params noh (tj_cond j)) l)).
  { intros. rewrite flat_map_map2, map_flat_map. apply flat_map_ext_in. intros. apply bexpr_params_map. }
  assert (T : forall P Q L M (f : P -> Q) (g : L -> M) l,
    flat_map (texpr_params noh) (map (texpr_map f g) l) = map f (flat_map (texpr_params noh) l)).
  { intros. rewrite flat_map_map2, map_flat_map. apply flat_map_ext_in. intros [] _; try reflexivity. apply bexpr_params_map. }
  assert (W : forall P Q L M (f : P -> Q) (g : L -> M) o,
    opt_list (bexpr_params noh) (option_map (bexpr_map f g) o) = map f (opt_list (bexpr_params noh) o)).
  { intros. destruct o; [apply bexpr_params_map|reflexivity]. }
  assert (LM : forall P Q (f : P -> Q) l, lim_params (lim_map f l) = map f (lim_params l)) by (intros; destruct l; reflexivity).
  intros. destruct n; cbn [stmt_params stmt_map]; rewrite ?map_app, ?E, ?J, ?T, ?W, ?LM; reflexivity.
Qed.

(** The parameters of a tree are those outside of its lists and those in them. *)
Definition split_in {P L} (h : L -> list P) (a b : list P) (ls : list L) : Prop :=
  forall x, In x a <-> In x b \/ exists l, In l ls /\ In x (h l).
Lemma split_nil : forall P L (h : L -> list P) a, split_in h a a [].
Proof. intros P L h a x. split; [left; assumption|]. intros [H|(l & [] & _)]. exact H. Qed.
Lemma split_app : forall P L (h : L -> list P) a b c a' b' c', split_in h a b c -> split_in h a' b' c' ->
  split_in h (a ++ a') (b ++ b') (c ++ c').
Proof.
  intros P L h a b c a' b' c' H H' x. rewrite !in_app_iff, (H x), (H' x). split.
  - intros [[K|(l & I & K)]|[K|(l & I & K)]]; eauto 6 using in_or_app; right; exists l; split; auto using in_or_app.
  - intros [[K|K]|(l & I & K)]; auto. apply in_app_iff in I. destruct I as [I|I]; eauto 8.
Qed.
Lemma split_pre : forall P L (h : L -> list P) e a b c, split_in h a b c -> split_in h (e ++ a) (e ++ b) c.
Proof. intros. apply (split_app P L h e e [] a b c); [apply split_nil|assumption]. Qed.
Lemma split_flat : forall A P L (h : L -> list P) (f g : A -> list P) (k : A -> list L) l,
  (forall x, In x l -> split_in h (f x) (g x) (k x)) -> split_in h (flat_map f l) (flat_map g l) (flat_map k l).
Proof.
  intros A P L h f g k l H. induction l as [|a l IH]; [apply split_nil|]. cbn. apply split_app.
  - apply H. left. reflexivity.
  - apply IH. intros. apply H. right. assumption.
Qed.
Lemma bexpr_split : forall P L (h : L -> list P) e, split_in h (bexpr_params h e) (bexpr_params noh e) (bexpr_lists e).
Proof.
  intros. induction e as [| n l v| | | | | |p items H] using bexpr_ind2; try apply split_nil.
  - cbn. unfold noh. rewrite app_nil_r. intro x. rewrite in_app_iff. split.
    + intros [K|K]; [left; exact K|right]. exists v. split; [left; reflexivity|exact K].
    + intros [K|(l' & [<-|[]] & K)]; auto.
  - cbn. apply split_flat. intros [b x] IN. rewrite Forall_forall in H. apply (H _ IN).
Qed.
Lemma stmt_split : forall P L (h : L -> list P) n, split_in h (stmt_params h n) (stmt_params noh n) (stmt_lists n).
Proof.
  intros P L h.
  assert (J : forall l, split_in h (flat_map (fun j : tjoin P L => bexpr_params h (tj_cond j)) l)
    (flat_map (fun j => bexpr_params noh (tj_cond j)) l) (flat_map (fun j => bexpr_lists (tj_cond j)) l)).
  { intro. apply split_flat. intros. apply bexpr_split. }
  assert (T : forall l, split_in h (flat_map (texpr_params h) l) (flat_map (texpr_params noh) l)
    (flat_map (fun x : texpr P L => match x with TxJoin j => bexpr_lists (tj_cond j) | _ => [] end) l)).
  { intro. apply split_flat. intros [] _; cbn; [apply split_nil|apply bexpr_split|apply split_nil]. }
  assert (W : forall o, split_in h (opt_list (bexpr_params h) o) (opt_list (bexpr_params noh) o) (opt_list (@bexpr_lists P L) o)).
  { intros [e|]; [apply bexpr_split|apply split_nil]. }
  assert (R : forall a b c e, split_in h a b c -> split_in h (a ++ e) (b ++ e) c).
  { intros a b c e K. rewrite <- (app_nil_r c). apply split_app; [exact K|apply split_nil]. }
  intros n. destruct n; cbn [stmt_params stmt_lists]; try apply split_nil.
  - apply split_pre. apply split_app; [apply T|]. apply R. apply W.
  - apply split_pre. apply split_app; [apply J|]. apply R. apply W.
  - apply split_app; [apply J|]. apply R. apply W.
  - apply split_app; [apply J|]. apply R. apply W.
  - apply split_app; [apply T|]. apply R. apply W.
  - apply R. apply W.
Qed.

(** ** The method *)

Lemma intended_noslice : forall q t S, intended q t S -> IsInsertOrUpdateSlice q = false.
Proof.
  intros q t S I. unfold IsInsertOrUpdateSlice, IsInsertOrUpdate. inversion I as [ | | | | |neg| ]; subst;
    try (match goal with H : rt_slice _ = false |- _ => rewrite H end; apply andb_false_r);
    repeat match goal with H : q_kind q = _ |- _ => rewrite H end; try reflexivity. destruct neg; reflexivity.
Qed.
Lemma intended_args : forall q t S, intended q t S -> checked q t ->
  inputArgs q t = map (acc_expr GQ) (all_accs q t).
Proof.
  intros q t S I C. apply inputArgs_accs. destruct C as (C & _).
  inversion I as [ | | | | |neg| ]; subst; try (left; assumption); right; split;
    try (apply C); repeat match goal with H : q_kind q = _ |- _ => rewrite H end; try reflexivity; destruct neg; reflexivity.
Qed.

(** The list of statements, taken apart. *)
Definition method (q : qstate) : callm :=
  if IsWithoutOutput q then CExec else if IsSingleOutput q then CQueryRow else CQuery.
Lemma code_parts : forall wc q t S, intended q t S -> checked q t -> q_filter q = None ->
  (forall l, q_kind q = KSelectCount -> q_limit q = Some l -> lf_name l = []) ->
  exists main s, sgood s (all_accs q t) (where_slices q t) main S
  /\ buildQueryCode wc q t =
     (match where_slices q t with
      | [] => [GDecl true main]
      | _ => slice_args (g_num s) (map (acc_expr GQ) (all_accs q t)) (map (gsel GQ) (where_slices q t)) (GDecl false main)
      end) ++ fallback (q_limit q) ++ fallback (q_offset q)
     ++ [GCall (method q) (call_ctx wc q)
           (match where_slices q t with [] => AList (map (acc_expr GQ) (all_accs q t)) | _ => AParams end)].
Proof.
  intros wc q t S I C F L. destruct (stmt_good q t S I C F L) as (vals & s1 & main & s2 & E1 & E2 & G).
  exists main, s2. split; [exact G|]. unfold buildQueryCode. rewrite E1, E2, F, (intended_noslice q t S I), (intended_args q t S I C).
  destruct G as (_ & GS & _). rewrite GS. unfold call_args. rewrite F, (intended_noslice q t S I).
  destruct (where_slices q t) as [|p ps]; cbn; reflexivity.
Qed.

Definition ctx_of (wc : bool) (q : qstate) (D : gv) : option (option (option gv)) :=
  if wc then Some (Some None) else match q_ctx q with
  | Some f => match gfield D f with Some v => Some (Some (Some v)) | None => None end
  | None => Some None
  end.
Lemma exec_call : forall m wc q a s s', exec (GCall m (call_ctx wc q) a) s = Ok s' <->
  exists args ctx, (match a with AParams => Ok (s_params s) | AList l => evals s l end) = Ok args
  /\ ctx_of wc q (s_q s) = Some ctx /\ s' = set_call (MkCall m ctx (s_text s) args) s.
Proof.
  intros m wc q a s s'. cbn [exec]. destruct (match a with AParams => Ok (s_params s) | AList l => evals s l end) as [args| |].
  2,3: split; [discriminate|intros (x & y & H & _); discriminate H].
  cbn [bind]. unfold call_ctx, ctx_of. destruct wc; [|destruct (q_ctx q) as [f|]].
  - cbn. split; [intro H; injection H as <-; eauto 6|]. intros (x & y & A & B & ->). injection A as <-. injection B as <-. reflexivity.
  - destruct (gfield (s_q s) f) as [v|]; cbn.
    + split; [intro H; injection H as <-; eauto 6|]. intros (x & y & A & B & ->). injection A as <-. injection B as <-. reflexivity.
    + split; [discriminate|]. intros (x & y & A & B & _). discriminate B.
  - cbn. split; [intro H; injection H as <-; eauto 6|]. intros (x & y & A & B & ->). injection A as <-. injection B as <-. reflexivity.
Qed.

Lemma fallbacks_ok : forall q s s', seqM (map exec (fallback (q_limit q) ++ fallback (q_offset q))) s = Ok s' ->
  s' = set_q (with_defaults q (s_q s)) s.
Proof.
  intros q s s' H. rewrite map_app, seqM_app in H. apply bind_ok in H. destruct H as (s1 & H1 & H2).
  apply fallback_ok in H1. apply fallback_ok in H2. subst. reflexivity.
Qed.

Lemma members_elems : forall D p v, or_panic (at_path D p) = Ok v -> members D p = map Some (elems v).
Proof. intros D p v H. apply or_panic_ok in H. unfold members. rewrite H. destruct v; reflexivity. Qed.

(** *** Without lists *)
Lemma run_static : forall wc q t S D c, intended q t S -> checked q t -> q_filter q = None ->
  (forall l, q_kind q = KSelectCount -> q_limit q = Some l -> lf_name l = []) ->
  where_slices q t = [] -> run (buildQueryCode wc q t) D = Ok c ->
  exists n, cl_text c = [TNode n] /\ executed (cl_args c) n = filled (with_defaults q D) S
  /\ (forall i, In i (stmt_params (fun l => l) n) <-> (1 <= i <= zlen (cl_args c))%Z)
  /\ cl_method c = method q /\ ctx_of wc q (with_defaults q D) = Some (cl_ctx c).
Proof.
  intros wc q t S D c I C F L W R. destruct (code_parts wc q t S I C F L) as (main & s & (GN & GS & GM & GP & GL) & E).
  rewrite E, W in R. unfold run in R. apply bind_ok in R. destruct R as (s1 & R & K).
  cbn [app map seqM exec] in R. apply bind_ok in R. destruct R as (s2 & R1 & R).
  rewrite W in GL. assert (NL : stmt_lists main = []) by exact GL.
  unfold render in R1. rewrite NL in R1. cbn [forallb rmap bind] in R1. injection R1 as <-.
  rewrite app_assoc, map_app, seqM_app in R. apply bind_ok in R. destruct R as (s3 & R2 & R3).
  apply fallbacks_ok in R2. cbn [s_q set_text st0] in R2.
  cbn [map seqM] in R3. apply bind_ok in R3. destruct R3 as (s4 & R3 & R4). injection R4 as <-.
  apply exec_call in R3. destruct R3 as (args & ctx & A & X & ->). cbn in K. injection K as <-. cbn [cl_text cl_args cl_method cl_ctx].
  subst s3. cbn [s_q set_q] in X. apply evals_accs in A. cbn [s_q set_q] in A.
  eexists. split; [reflexivity|]. split; [|split; [|split; [reflexivity|exact X]]].
  - unfold executed, filled. rewrite stmt_map_map. apply GM.
    + replace args with (args ++ []) by apply app_nil_r. apply accs_agree. exact A.
    + rewrite W. intros i a Q. destruct i; discriminate Q.
  - intro i. rewrite (stmt_split _ _ (fun l : list Z => l) _ i), stmt_lists_map, NL, stmt_params_map, map_id, GP, GN. unfold zlen.
    rewrite <- (forall2_length _ _ _ _ _ A). split; [intros [Q|(l & [] & _)]; lia|]. intro Q. left. lia.
Qed.

(** The lists of the statement are the slices of the where struct. *)
Lemma intended_lists : forall s accs sls n S, sgood s accs sls n S -> stmt_lists S = sls.
Proof.
  intros s accs sls n S (_ & _ & GM & _ & GL).
  assert (E := GM unit (option (list bytes)) (fun _ => tt) (fun _ => tt) (fun k => nth_error sls (k - 1)) Some).
  assert (E' : stmt_map (fun _ => tt) (fun k => nth_error sls (k - 1)) n = stmt_map (fun _ => tt) Some S).
  { apply E; [intros i a _; reflexivity|]. intros i a H. cbn. rewrite Nat.sub_0_r. exact H. }
  apply (f_equal (@stmt_lists _ _)) in E'. rewrite !stmt_lists_map, GL in E'.
  assert (M : map (fun k => nth_error sls (k - 1)) (seq 1 (List.length sls)) = map Some sls).
  { rewrite <- seq_shift, map_map. clear. induction sls as [|a l IH]; [reflexivity|]. cbn [List.length seq map]. f_equal.
    rewrite <- seq_shift, map_map, <- IH. apply map_ext. intro k. cbn. rewrite Nat.sub_0_r. reflexivity. }
  rewrite M in E'. clear -E'. revert E'. generalize (stmt_lists S). induction sls as [|a l IH]; intros [|b m] H; try discriminate H.
  - reflexivity.
  - injection H as -> H. f_equal. apply IH. exact H.
Qed.

(** Numbers from n + 1 on. *)
Lemma seq_from : forall b a, seq a b = map (fun i => a + i) (seq 0 b).
Proof.
  induction b as [|b IH]; intro a; [reflexivity|]. cbn [seq map]. rewrite Nat.add_0_r. f_equal.
  rewrite IH, (IH 1), map_map. apply map_ext. intro. lia.
Qed.
Lemma in_numbers_app : forall a b n, (0 <= a)%Z -> (0 <= b)%Z -> in_numbers (a + b) n = in_numbers a n ++ in_numbers b (n + a).
Proof.
  intros a b n A B. unfold in_numbers. rewrite Z2Nat.inj_add, seq_app, map_app by assumption. f_equal.
  cbn [Nat.add]. rewrite (seq_from _ (Z.to_nat a)), map_map. apply map_ext. intro i. lia.
Qed.
Lemma in_numbers_in : forall i a n, In i (in_numbers a n) <-> (n < i <= n + a)%Z.
Proof.
  intros. unfold in_numbers. rewrite in_map_iff. split.
  - intros (k & <- & H). apply in_seq in H. lia.
  - intro H. exists (Z.to_nat (i - n - 1)). split; [lia|]. apply in_seq. lia.
Qed.
Lemma in_numbers_length : forall a n, List.length (in_numbers a n) = Z.to_nat a.
Proof. intros. unfold in_numbers. rewrite map_length, seq_length. reflexivity. Qed.

Lemma in_numbers_nodup : forall a n, NoDup (in_numbers a n).
Proof.
  intros. unfold in_numbers. generalize (Z.to_nat a). intro m. assert (H := seq_NoDup m 0). induction H as [|x l N H IH]; [constructor|].
  cbn [map]. constructor; [|exact IH]. intro I. apply in_map_iff in I. destruct I as (y & E & I). assert (y = x) by lia. subst. contradiction.
Qed.

(** Each block of numbers is the block of its values in the arguments. *)
Lemma argument_block : forall pre l post,
  map (argument (pre ++ l ++ post)) (in_numbers (zlen l) (zlen pre)) = map Some l.
Proof.
  intros pre l. revert pre. induction l as [|x l IH]; intros pre post; [reflexivity|].
  replace (zlen (x :: l)) with (1 + zlen l)%Z by (unfold zlen; cbn [List.length]; lia).
  rewrite in_numbers_app by (unfold zlen; lia). rewrite map_app. 
  change (map Some (x :: l)) with ([Some x] ++ map Some l). f_equal.
  - unfold in_numbers. change (Z.to_nat 1) with 1. cbn [seq map]. f_equal. unfold argument, zlen.
    destruct (Z.leb_spec (Z.of_nat (List.length pre) + 1 + Z.of_nat 0) 0); [lia|].
    replace (Z.to_nat (Z.of_nat (List.length pre) + 1 + Z.of_nat 0 - 1)) with (List.length pre) by lia.
    rewrite nth_error_app2, Nat.sub_diag by lia. reflexivity.
  - specialize (IH (pre ++ [x]) post). rewrite <- app_assoc in IH. cbn [app] in IH |- *. rewrite <- IH. f_equal. f_equal.
    unfold zlen. rewrite app_length. cbn. lia.
Qed.

(** The blocks of slices of given contents. *)
Fixpoint blocks (pos : Z) (ls : list (list gv)) : list (list Z) :=
  match ls with [] => [] | l :: r => in_numbers (zlen l) pos :: blocks (pos + zlen l) r end.
Lemma blocks_concat : forall ls pos, concat (blocks pos ls) = in_numbers (total ls) pos.
Proof.
  induction ls as [|l ls IH]; intro pos; [reflexivity|]. cbn [blocks concat]. rewrite IH, <- in_numbers_app by (unfold total, zlen; lia).
  f_equal. unfold total, zlen. cbn [concat]. rewrite app_length. lia.
Qed.
Lemma blocks_length : forall ls pos, map (@List.length Z) (blocks pos ls) = map (@List.length gv) ls.
Proof.
  induction ls as [|l ls IH]; intro pos; [reflexivity|]. cbn [blocks map]. rewrite IH, in_numbers_length. f_equal. unfold zlen. lia.
Qed.
Lemma blocks_env : forall ls k s pos, slice_env s pos k ls ->
  map (fun j => in_numbers (s_int s (VLen j)) (s_int s (VPosK j))) (seq k (List.length ls)) = blocks pos ls.
Proof.
  induction ls as [|l ls IH]; intros k s pos SE; [reflexivity|]. cbn [List.length seq map blocks].
  destruct (SE 0 l eq_refl) as [A B]. rewrite Nat.add_0_r in *. unfold total in B. cbn in B. rewrite Z.add_0_r in B. rewrite A, B. f_equal.
  apply IH. intros j x H. destruct (SE (S j) x H) as [C D]. replace (k + S j) with (S k + j) in * by lia. split; [exact C|].
  rewrite D. unfold total, zlen. cbn [firstn concat]. rewrite app_length. lia.
Qed.
Lemma blocks_args : forall ls pre, map (map (argument (pre ++ concat ls))) (blocks (zlen pre) ls) = map (map Some) ls.
Proof.
  induction ls as [|l ls IH]; intro pre; [reflexivity|]. cbn [blocks map concat]. f_equal; [apply argument_block|].
  specialize (IH (pre ++ l)). rewrite <- app_assoc in IH. rewrite <- IH. f_equal. f_equal. unfold zlen. rewrite app_length. lia.
Qed.

(** *** With lists *)
Lemma run_slices : forall wc q t S D c, intended q t S -> checked q t -> q_filter q = None ->
  (forall l, q_kind q = KSelectCount -> q_limit q = Some l -> lf_name l = []) ->
  where_slices q t <> [] -> run (buildQueryCode wc q t) D = Ok c ->
  exists n, cl_text c = [TNode n] /\ executed (cl_args c) n = filled D S
  /\ (forall i, In i (stmt_params (fun l => l) n) <-> (1 <= i <= zlen (cl_args c))%Z)
  /\ cl_method c = method q /\ ctx_of wc q (with_defaults q D) = Some (cl_ctx c)
  /\ exists fixed lists, cl_args c = fixed ++ concat lists
     /\ (forall i, In i (stmt_params noh n) <-> (1 <= i <= zlen fixed)%Z)
     /\ Forall2 (fun p l => members D p = map Some l) (stmt_lists S) lists
     /\ stmt_lists n = blocks (zlen fixed) lists
     /\ (zlen (cl_args c) <= 65535 \/ zlen (cl_args c) = zlen fixed)%Z.
Proof.
  intros wc q t S D c I C F L W R. destruct (code_parts wc q t S I C F L) as (main & s & G & E).
  assert (LS := intended_lists _ _ _ _ _ G). destruct G as (GN & GS & GM & GP & GL).
  rewrite E in R. remember (where_slices q t) as sls eqn:WS.
  assert (R' : run (slice_args (g_num s) (map (acc_expr GQ) (all_accs q t)) (map (gsel GQ) sls) (GDecl false main)
     ++ fallback (q_limit q) ++ fallback (q_offset q) ++ [GCall (method q) (call_ctx wc q) AParams]) D = Ok c).
  { destruct sls; [contradiction|exact R]. }
  clear R E. unfold run in R'. apply bind_ok in R'. destruct R' as (s1 & R & K).
  unfold slice_args in R. cbn [app map seqM exec ieval] in R. cbn [rmap bind] in R.
  set (sa := set_int VNstatic (g_num s) (st0 D)) in *.
  rewrite !map_app, <- !app_assoc, seqM_app in R. apply bind_ok in R. destruct R as (sb & R1 & R).
  apply slice_vars_ok in R1; [|lia]. destruct R1 as (vs & EV & Q1 & Q2 & Q3 & Q4 & Q5 & Q6 & IN & SE).
  cbn iota in SE. change (s_int sa VNstatic) with (g_num s) in SE.
  cbn [app map seqM] in R. apply bind_ok in R. destruct R as (sc & R2 & R).
  cbn [exec] in R2. apply rmap_ok in R2. destruct R2 as (n & R2 & ->).
  apply bind_ok in R. destruct R as (sd & R3 & R). cbn [exec] in R3.
  assert (LV : List.length vs = List.length sls) by (symmetry; eapply forall2_length; exact EV).
  assert (NS : s_int sb VNstatic = g_num s).
  { rewrite IN; [reflexivity|]. intros. split; discriminate. }
  assert (SZ : ieval (set_text [TNode n] sb) (slice_size (IVar VNstatic) 1 (map (gsel GQ) sls)) = Ok (g_num s + total (map elems vs))%Z).
  { apply slice_size_ok with (n := g_num s).
    - exact SE.
    - cbn. rewrite NS. reflexivity.
    - rewrite !map_length. symmetry. exact LV.
    - cbn. rewrite NS. reflexivity. }
  rewrite SZ in R3. cbn [bind] in R3.
  destruct (Z.ltb_spec (g_num s + total (map elems vs)) 0) as [B|_]; [unfold total, zlen in B; lia|]. injection R3 as <-.
  set (sd := set_params _ _) in R. rewrite !map_app, <- !app_assoc, seqM_app in R.
  apply bind_ok in R. destruct R as (se & R4 & R).
  rewrite (set_static_ok _ 0 sd [] (s_params sd)) in R4.
  2: reflexivity. 2: reflexivity.
  2: { unfold sd. cbn [s_params set_params]. rewrite repeat_length, map_length. unfold total, zlen. lia. }
  apply bind_ok in R4. destruct R4 as (fixed & FX & R4). injection R4 as <-.
  assert (QD : s_q sd = D) by (unfold sd; cbn; rewrite Q1; reflexivity).
  apply evals_accs in FX. rewrite QD in FX.
  assert (LF : g_num s = zlen fixed) by (unfold zlen; rewrite <- (forall2_length _ _ _ _ _ FX); exact GN).
  cbn [app] in R. set (se := set_params _ _) in R.
  rewrite seqM_app in R. apply bind_ok in R. destruct R as (sf & R5 & R).
  destruct (set_slices_ok sls 1 se (g_num s) fixed (skipn (List.length (map (acc_expr GQ) (all_accs q t))) (s_params sd)) vs)
    as (sf' & X5 & SM & PP).
  - eapply forall2_impl; [|exact EV]. cbn beta. intros x y H. rewrite <- H. apply eval_path_q.
    unfold se. cbn [s_q set_params]. rewrite QD. reflexivity.
  - intros j l N. destruct (SE j l N) as [A B]. split; [exact A|exact B].
  - lia.
  - reflexivity.
  - symmetry. exact LF.
  - rewrite skipn_length. unfold sd. cbn [s_params set_params]. rewrite repeat_length, map_length. unfold total, zlen. lia.
  - rewrite X5 in R5. injection R5 as <-.
    destruct SM as (M1 & M2 & M3 & M4 & M5 & M6).
    rewrite app_assoc, <- map_app, seqM_app in R. apply bind_ok in R. destruct R as (sg & R6 & R7).
    apply fallbacks_ok in R6. cbn [map seqM] in R7. apply bind_ok in R7. destruct R7 as (sh & R7 & R8). injection R8 as <-.
    apply exec_call in R7. destruct R7 as (args & ctx & A & X & ->). cbn in K. injection K as <-. cbn [cl_text cl_args cl_method cl_ctx].
    injection A as <-. subst sg. cbn [s_q s_params s_text set_q] in *. rewrite M1 in X. change (s_q se) with (s_q sd) in X. rewrite QD in X.
    rewrite M3. change (s_text se) with [TNode n].
    assert (EA : Forall2 (fun p l => members D p = map Some l) sls (map elems vs)).
    { clear -EV. induction EV as [|p v ps vs H HV IH]; [constructor|]. cbn [map]. constructor; [|exact IH].
      apply members_elems. rewrite eval_gsel in H. exact H. }
    unfold render in R2. destruct (forallb _ _) eqn:OK; [|discriminate R2]. injection R2 as <-.
    assert (LI : map (fun k => in_numbers (s_int sb (VLen k)) (s_int sb (VPosK k))) (stmt_lists main)
                 = blocks (zlen fixed) (map elems vs)).
    { rewrite GL, <- LV, <- (map_length elems), <- LF. apply blocks_env. exact SE. }
    assert (PN : forall i, In i (stmt_params noh main) <-> (1 <= i <= zlen fixed)%Z) by (intro i; rewrite GP, LF; lia).
    eexists. split; [reflexivity|]. rewrite PP. split; [|split; [|split; [reflexivity|split; [exact X|]]]].
    + unfold executed, filled. rewrite stmt_map_map. apply GM; [apply accs_agree; exact FX|].
      assert (BA : map (fun k => map (argument (fixed ++ concat (map elems vs))) (in_numbers (s_int sb (VLen k)) (s_int sb (VPosK k))))
                     (seq 1 (List.length sls)) = map (members D) sls).
      { rewrite <- GL, <- (map_map (fun k => in_numbers (s_int sb (VLen k)) (s_int sb (VPosK k)))
            (map (argument (fixed ++ concat (map elems vs))))), LI, blocks_args.
        clear -EA. induction EA as [|p l ps ls H HV IH]; [reflexivity|]. cbn [map]. rewrite IH, H. reflexivity. }
      intros i a N. cbn [Nat.add]. 
      assert (IL : i < List.length sls) by (apply nth_error_Some; congruence).
      assert (N1 := map_nth_error (members D) i sls N). rewrite <- BA in N1.
      rewrite nth_error_map in N1. rewrite (nth_error_nth' (seq 1 (List.length sls)) 0) in N1 by (rewrite seq_length; exact IL).
      rewrite seq_nth in N1 by exact IL. cbn [option_map] in N1. injection N1 as N1. exact N1.
    + intro i. rewrite (stmt_split _ _ (fun l : list Z => l) _ i), stmt_lists_map, LI, stmt_params_map, map_id, PN.
      assert (IB : (exists l, In l (blocks (zlen fixed) (map elems vs)) /\ In i l) <-> In i (concat (blocks (zlen fixed) (map elems vs)))).
      { rewrite in_concat. reflexivity. }
      rewrite IB, blocks_concat, in_numbers_in. unfold total, zlen. rewrite app_length. lia.
    + exists fixed, (map elems vs). split; [reflexivity|]. split; [|split; [|split]].
      * intro i. rewrite stmt_params_map, map_id. apply PN.
      * rewrite LS. exact EA.
      * rewrite stmt_lists_map. exact LI.
      * assert (UP : forall i, In i (concat (blocks (zlen fixed) (map elems vs))) -> (i <= 65535)%Z).
        { intros i II. rewrite <- LI in II. apply in_concat in II. destruct II as (l & IL & II).
          apply in_map_iff in IL. destruct IL as (k & <- & IK). rewrite forallb_forall in OK. specialize (OK k IK).
          apply in_numbers_in in II. unfold in_ok, ordinal_ok in OK. apply orb_true_iff in OK. destruct OK as [OK|OK].
          - apply Z.leb_le in OK. lia.
          - rewrite !andb_true_iff, !Z.leb_le, !Z.ltb_lt in OK. lia. }
        rewrite blocks_concat in UP. specialize (UP (zlen fixed + total (map elems vs))%Z). rewrite in_numbers_in in UP.
        unfold total, zlen in *. rewrite app_length. lia.
Qed.

(** *** The method does not panic *)

Lemma get_upd_same : forall f v l x, get_field f l = Some x -> get_field f (upd_field f v l) = Some v.
Proof.
  intros f v l x. unfold get_field. induction l as [|[g y] l IH]; cbn; [discriminate|].
  destruct (bytes_eqb g f) eqn:E; cbn; [|rewrite E; exact IH]. intros _.
  assert (bytes_eqb f f = true) as -> by (apply bytes_eqb_eq; reflexivity). reflexivity.
Qed.
Lemma get_upd_other : forall f g v l, f <> g -> get_field g (upd_field f v l) = get_field g l.
Proof.
  intros f g v l N. unfold get_field. induction l as [|[h y] l IH]; cbn; [reflexivity|].
  destruct (bytes_eqb h f) eqn:E; cbn.
  - apply bytes_eqb_eq in E. subst h. destruct (bytes_eqb f g) eqn:Q; [apply bytes_eqb_eq in Q; contradiction|reflexivity].
  - destruct (bytes_eqb h g); [reflexivity|exact IH].
Qed.
Lemma with_default_path : forall l D p, at_path D p <> None -> at_path (with_default l D) p <> None.
Proof.
  intros [l|] D p H; [|exact H]. unfold with_default. destruct D as [| | |fs| | |]; try exact H.
  destruct (lf_name l) as [|c n] eqn:N; [exact H|]. destruct (get_field (c :: n) fs) as [[|z| | | | |]|] eqn:G; try exact H.
  destruct z; try exact H. destruct (0 <? lf_value l)%N; [|exact H].
  destruct p as [|f p]; [discriminate|]. cbn [at_path gfield] in *. destruct (bytes_eqb (c :: n) f) eqn:E.
  - apply bytes_eqb_eq in E. subst f. rewrite (get_upd_same _ _ _ _ G). rewrite G in H. destruct p; [discriminate|].
    exfalso. apply H. reflexivity.
  - rewrite get_upd_other; [exact H|]. intro Q. subst f. assert (bytes_eqb (c :: n) (c :: n) = true) by (apply bytes_eqb_eq; reflexivity).
    congruence.
Qed.
Lemma value_path : forall D a, value D a <> None <-> at_path D (a_path a) <> None.
Proof. intros D a. unfold value. destruct (at_path D (a_path a)); split; intro H; try discriminate; contradiction. Qed.
Lemma with_defaults_value : forall q D a, value D a <> None -> value (with_defaults q D) a <> None.
Proof. intros q D a H. apply value_path. apply value_path in H. unfold with_defaults. apply with_default_path, with_default_path, H. Qed.

Lemma fallback_runs : forall l s, (forall x, l = Some x -> lf_name x <> [] -> gfield (s_q s) (lf_name x) <> None) ->
  seqM (map exec (fallback l)) s = Ok (set_q (with_default l (s_q s)) s).
Proof.
  intros l s H. assert (E : exists s', seqM (map exec (fallback l)) s = Ok s').
  { destruct l as [x|]; [|eexists; reflexivity]. unfold fallback. destruct (lf_name x) as [|c n] eqn:N; [eexists; reflexivity|].
    destruct (0 <? lf_value x)%N; [|eexists; reflexivity]. specialize (H x eq_refl). rewrite N in H.
    specialize (H ltac:(discriminate)). cbn [map seqM exec]. destruct (s_q s) as [| | |fs| | |]; try (cbn in H; congruence).
    cbn [gfield] in H. destruct (get_field (c :: n) fs) as [[|z| | | | |]|]; try congruence; try (eexists; reflexivity).
    destruct z; eexists; reflexivity. }
  destruct E as [s' E]. rewrite E. apply fallback_ok in E. subst. reflexivity.
Qed.
Lemma fallbacks_run : forall q s,
  (forall x, q_limit q = Some x -> lf_name x <> [] -> gfield (s_q s) (lf_name x) <> None) ->
  (forall x, q_offset q = Some x -> lf_name x <> [] -> gfield (s_q s) (lf_name x) <> None) ->
  seqM (map exec (fallback (q_limit q) ++ fallback (q_offset q))) s = Ok (set_q (with_defaults q (s_q s)) s).
Proof.
  intros q s A B. rewrite map_app, seqM_app, (fallback_runs _ _ A). cbn [bind]. rewrite fallback_runs; [reflexivity|].
  cbn [s_q set_q]. intros x E N. specialize (B x E N).
  assert (P : at_path (s_q s) [lf_name x] <> None) by (cbn; destruct (gfield (s_q s) (lf_name x)); [discriminate|contradiction]).
  apply (with_default_path (q_limit q)) in P. intro Q. apply P. cbn [at_path]. rewrite Q. reflexivity.
Qed.

Lemma accs_in : forall s accs sls n S a, sgood s accs sls n S -> In a accs -> In a (stmt_params noh S).
Proof.
  intros s accs sls n S a (GN & _ & GM & GP & _) I. apply In_nth_error in I. destruct I as [i I].
  assert (E : stmt_map (fun z => nth_error accs (Z.to_nat (z - 1))) (fun _ => tt) n = stmt_map Some (fun _ => tt) S).
  { apply GM; [|intros j x _; reflexivity]. intros j x J. replace (Z.to_nat (0 + 1 + Z.of_nat j - 1)) with j by lia. exact J. }
  apply (f_equal (stmt_params noh)) in E. rewrite !stmt_params_map in E.
  assert (K : In (Some a) (map Some (stmt_params noh S))).
  { rewrite <- E. apply in_map_iff. exists (Z.of_nat i + 1)%Z. split; [replace (Z.to_nat (Z.of_nat i + 1 - 1)) with i by lia; exact I|].
    apply GP. assert (i < List.length accs) by (apply nth_error_Some; congruence). lia. }
  apply in_map_iff in K. destruct K as (x & Q & K). injection Q as ->. exact K.
Qed.

Lemma accs_values : forall D accs, (forall a, In a accs -> value D a <> None) ->
  exists vs, Forall2 (fun a v => value D a = Some v) accs vs.
Proof.
  intros D accs. induction accs as [|a accs IH]; intro H; [exists []; constructor|].
  destruct IH as [vs V]; [intros; apply H; right; assumption|]. destruct (value D a) as [v|] eqn:E.
  - exists (v :: vs). constructor; assumption.
  - exfalso. apply (H a (or_introl eq_refl)). exact E.
Qed.

Lemma lim_acc_in : forall q t x, q_limit q = Some x \/ q_offset q = Some x -> lf_name x <> [] -> In (Acc [lf_name x] []) (all_accs q t).
Proof.
  intros q t x H N. unfold all_accs. rewrite !in_app_iff. right; right; right.
  assert (E : In (Acc [lf_name x] []) (lim_accs (Some x))).
  { unfold lim_accs. destruct (lf_name x); [contradiction|left; reflexivity]. }
  destruct H as [-> | ->]; [left|right]; exact E.
Qed.

Lemma slice_vars_runs : forall paths k s, (forall p, In p paths -> at_path (s_q s) p <> None) ->
  exists s', seqM (map exec (slice_vars k (map (gsel GQ) paths))) s = Ok s'.
Proof.
  induction paths as [|p paths IH]; intros k s H; [eexists; reflexivity|].
  cbn [map slice_vars seqM]. 
  assert (E : exists v, eval s (gsel GQ p) = Ok v).
  { rewrite eval_gsel. cbn. specialize (H p (or_introl eq_refl)). destruct (at_path (s_q s) p); [eexists; reflexivity|contradiction]. }
  destruct E as [v E]. cbn [exec ieval]. rewrite E. cbn [rmap bind].
  assert (X : forall s, exists z, ieval s (match k with 1 => IVar VNstatic | _ => IAdd (IVar (VPosK (k - 1))) (IVar (VLen (k - 1))) end) = Ok z).
  { intro u. destruct k as [|[|k]]; eexists; reflexivity. }
  destruct (X (set_int (VLen k) (glen v) s)) as [z ->]. cbn [rmap bind]. apply IH.
  intros p' I. cbn. apply H. right. exact I.
Qed.

Lemma run_succeeds : forall wc q t S D, intended q t S -> checked q t -> q_filter q = None ->
  (forall l, q_kind q = KSelectCount -> q_limit q = Some l -> lf_name l = []) ->
  (forall a, In a (stmt_params noh S) -> value D a <> None) ->
  (forall p, In p (stmt_lists S) -> at_path D p <> None) ->
  (Z.of_nat (List.length (stmt_params noh S) + List.length (flat_map (members D) (stmt_lists S))) <= 65535)%Z ->
  ctx_of wc q (with_defaults q D) <> None ->
  exists c, run (buildQueryCode wc q t) D = Ok c.
Proof.
  intros wc q t S D I C F L HV HL HN HC. destruct (code_parts wc q t S I C F L) as (main & s & G & E).
  assert (LS := intended_lists _ _ _ _ _ G).
  assert (AV : forall a, In a (all_accs q t) -> value D a <> None) by (intros a A; apply HV; eapply accs_in; eassumption).
  assert (LF : forall x, q_limit q = Some x \/ q_offset q = Some x -> lf_name x <> [] -> gfield D (lf_name x) <> None).
  { intros x Q N. specialize (AV _ (lim_acc_in q t x Q N)). apply value_path in AV. cbn in AV.
    destruct (gfield D (lf_name x)); [discriminate|contradiction]. }
  destruct (ctx_of wc q (with_defaults q D)) as [ctx|] eqn:CX; [|contradiction].
  rewrite E. destruct (where_slices q t) as [|p0 ps] eqn:W.
  - assert (NL : stmt_lists main = []) by (destruct G as (_ & _ & _ & _ & GL); exact GL).
    destruct (accs_values (with_defaults q D) (all_accs q t)) as [vs V].
    { intros a A. apply with_defaults_value, AV, A. }
    unfold run. cbn [app map seqM]. 
    assert (X : exec (GDecl true main) (st0 D) = Ok (set_text [TNode (stmt_map (fun z => z) (fun k => in_numbers (s_int (st0 D) (VLen k)) (s_int (st0 D) (VPosK k))) main)] (st0 D))).
    { cbn [exec]. unfold render. rewrite NL. reflexivity. }
    rewrite X. cbn [bind]. set (s1 := set_text _ _). rewrite app_assoc, map_app, seqM_app.
    rewrite fallbacks_run by (intros x Q N; apply LF; [auto|exact N]). cbn [bind map seqM].
    assert (Y := proj2 (exec_call (method q) wc q (AList (map (acc_expr GQ) (all_accs q t))) (set_q (with_defaults q (s_q s1)) s1) _)
      (ex_intro _ vs (ex_intro _ ctx (conj (accs_evals _ (set_q (with_defaults q (s_q s1)) s1) _ V) (conj CX eq_refl))))).
    rewrite Y. eexists. reflexivity.
  - rewrite <- W in *. set (sls := where_slices q t) in *. clear E W p0 ps. destruct G as (GN & GS & GM & GP & GL).
    remember (GCall (method q) (call_ctx wc q) AParams) as gc eqn:GC.
    unfold run, slice_args. cbn [app map seqM exec ieval rmap bind].
    set (sa := set_int VNstatic (g_num s) (st0 D)).
    rewrite !map_app, <- !app_assoc, seqM_app.
    destruct (slice_vars_runs sls 1 sa) as [sb R1]; [intros p P; apply HL; rewrite LS; exact P|].
    rewrite R1. cbn [bind]. apply slice_vars_ok in R1; [|lia].
    destruct R1 as (vs & EV & Q1 & Q2 & Q3 & Q4 & Q5 & Q6 & IN & SE).
    cbn iota in SE. change (s_int sa VNstatic) with (g_num s) in SE.
    assert (LV : List.length vs = List.length sls) by (symmetry; eapply forall2_length; exact EV).
    assert (NS : s_int sb VNstatic = g_num s) by (rewrite IN; [reflexivity|]; intros; split; discriminate).
    assert (EA : Forall2 (fun p l => members D p = map Some l) sls (map elems vs)).
    { clear -EV. induction EV as [|p v ps vs H HV IH]; [constructor|]. cbn [map]. constructor; [|exact IH].
      apply members_elems. rewrite eval_gsel in H. exact H. }
    assert (TOT : (g_num s + total (map elems vs) <= 65535)%Z).
    { assert (A : List.length (flat_map (members D) (stmt_lists S)) = List.length (concat (map elems vs))).
      { rewrite LS. clear -EA. induction EA as [|p l ps ls H HV IH]; [reflexivity|]. cbn [flat_map concat].
        rewrite !app_length, IH, H, map_length. reflexivity. }
      assert (B : List.length (in_numbers (g_num s) 0) <= List.length (stmt_params noh main)).
      { apply NoDup_incl_length; [apply in_numbers_nodup|]. intros i H. apply in_numbers_in in H. apply GP. lia. }
      assert (Q : List.length (stmt_params noh main) = List.length (stmt_params noh S)).
      { assert (E := GM unit unit (fun _ => tt) (fun _ => tt) (fun _ => tt) (fun _ => tt) ltac:(intros i a _; reflexivity) ltac:(intros i a _; reflexivity)).
        apply (f_equal (fun x => List.length (stmt_params noh x))) in E. rewrite !stmt_params_map, !map_length in E. exact E. }
      rewrite in_numbers_length in B. unfold total, zlen. lia. }
    assert (OK : forallb (fun k => in_ok (s_int sb (VLen k)) (s_int sb (VPosK k))) (stmt_lists main) = true).
    { apply forallb_forall. intros k IK. rewrite GL in IK. apply in_seq in IK.
      destruct (nth_error (map elems vs) (k - 1)) as [l|] eqn:NE.
      2: { apply nth_error_None in NE. rewrite map_length in NE. lia. }
      destruct (SE (k - 1) l NE) as [A B]. replace (1 + (k - 1)) with k in * by lia. rewrite A, B.
      assert (LE : (total (firstn (k - 1) (map elems vs)) + zlen l <= total (map elems vs))%Z).
      { clear -NE. revert NE. generalize (k - 1). generalize (map elems vs). induction l0 as [|x ls IH]; intros [|n] H; try discriminate H.
        - injection H as ->. unfold total, zlen. cbn. rewrite app_length. lia.
        - specialize (IH n H). unfold total, zlen in *. cbn [firstn concat]. rewrite !app_length. lia. }
      unfold in_ok, ordinal_ok. destruct (Z.leb_spec (zlen l) 0); [reflexivity|]. cbn [orb].
      unfold total, zlen in *. rewrite !andb_true_iff, !Z.leb_le, !Z.ltb_lt. lia. }
    cbn [app map seqM]. cbn [exec]. unfold render. rewrite OK. cbn [rmap bind].
    set (n := stmt_map _ _ main).
    assert (SZ : ieval (set_text [TNode n] sb) (slice_size (IVar VNstatic) 1 (map (gsel GQ) sls)) = Ok (g_num s + total (map elems vs))%Z).
    { apply slice_size_ok with (n := g_num s).
      - exact SE.
      - cbn. rewrite NS. reflexivity.
      - rewrite !map_length. symmetry. exact LV.
      - cbn. rewrite NS. reflexivity. }
    rewrite SZ. cbn [bind].
    destruct (Z.ltb_spec (g_num s + total (map elems vs)) 0) as [B|_]; [unfold total, zlen in B; lia|].
    set (sd := set_params _ _). cbn [bind]. rewrite !map_app, <- !app_assoc, seqM_app.
    rewrite (set_static_ok _ 0 sd [] (s_params sd)).
    2: reflexivity. 2: reflexivity.
    2: { unfold sd. cbn [s_params set_params]. rewrite repeat_length, map_length. unfold total, zlen. lia. }
    assert (QD : s_q sd = D) by (unfold sd; cbn; rewrite Q1; reflexivity).
    destruct (accs_values D (all_accs q t) AV) as [fixed FX]. assert (FX' := FX). rewrite <- QD in FX'.
    rewrite (accs_evals _ _ _ FX'). cbn [bind app].
    assert (LN : g_num s = zlen fixed) by (unfold zlen; rewrite <- (forall2_length _ _ _ _ _ FX); exact GN).
    set (se := set_params _ _). rewrite seqM_app.
    destruct (set_slices_ok sls 1 se (g_num s) fixed (skipn (List.length (map (acc_expr GQ) (all_accs q t))) (s_params sd)) vs)
      as (sf & X5 & SM & PP).
    + eapply forall2_impl; [|exact EV]. cbn beta. intros x y H. rewrite <- H. apply eval_path_q.
      unfold se. cbn [s_q set_params]. rewrite QD. reflexivity.
    + intros j l N. destruct (SE j l N) as [A B]. split; [exact A|exact B].
    + lia.
    + reflexivity.
    + symmetry. exact LN.
    + rewrite skipn_length. unfold sd. cbn [s_params set_params]. rewrite repeat_length, map_length. unfold total, zlen. lia.
    + rewrite X5. cbn [bind]. destruct SM as (M1 & _).
      assert (QF : s_q sf = D) by (rewrite M1; exact QD).
      rewrite app_assoc, <- map_app, seqM_app.
      rewrite fallbacks_run by (rewrite QF; intros x Q N; apply LF; [auto|exact N]). cbn [bind map seqM]. rewrite QF, GC.
      assert (Y := proj2 (exec_call (method q) wc q AParams (set_q (with_defaults q D) sf) _)
        (ex_intro _ _ (ex_intro _ ctx (conj eq_refl (conj CX eq_refl))))).
      rewrite Y. eexists. reflexivity.
Qed.
