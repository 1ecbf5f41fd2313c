(** Definitions and proofs used by PropsImp.v. *)
From Coq Require Import Ascii String ZArith NArith Bool List Lia Permutation.
From Verif Require Import GoBase Strconv StrconvProofs DecimalLink Imports ConvertProofs AnalysisProofs GenExec.
Import ListNotations.
Local Open Scope string_scope.
Local Open Scope list_scope.

(** The name a request asks for: the one given, or what follows the last slash
    of the path. *)
Definition asked (rq : bytes * bytes) : bytes := import_name (fst rq) (snd rq).

(** No name asked for is another one followed by digits. *)
Definition no_digits (reqs : list (bytes * bytes)) : Prop :=
  forall r1 r2 d, In r1 reqs -> In r2 reqs -> asked r2 = asked r1 ++ d -> d <> [] ->
    ~ Forall (fun c => decdigit c = true) d.

Lemma itoa_digits : forall n, Forall (fun c => decdigit c = true) (format_uint 10 n).
Proof. intros n. apply format_uint_chars; [lia|]. apply decdigit_char. Qed.

Lemma itoa_inj : forall a b, format_uint 10 a = format_uint 10 b -> a = b.
Proof.
  intros a b E. pose proof (format_uint_value 10 a ltac:(lia) ltac:(lia)) as A.
  rewrite E, (format_uint_value 10 b) in A by lia. congruence.
Qed.

Lemma search_found : forall path name set ns i, search path name set ns = inl i -> In i set /\ i_path i = path.
Proof.
  induction set as [|j set IH]; intros ns i H; cbn in H; [discriminate|].
  destruct (bytes_eqb (i_path j) path) eqn:E.
  - injection H as <-. apply bytes_eqb_eq in E. split; [left; reflexivity|exact E].
  - destruct (IH _ _ H). split; [right; assumption|assumption].
Qed.

Lemma search_new : forall path name set ns o, search path name set ns = inr o ->
  ~ In path (map i_path set)
  /\ (o = None -> ns = None /\ ~ In name (map i_name set))
  /\ (forall j, o = Some j -> ns = Some j \/ (In j set /\ i_name j = name)).
Proof.
  induction set as [|j set IH]; intros ns o H; cbn in H.
  - injection H as <-. split; [intros []|]. split; [intros ->; split; [reflexivity|intros []]|]. intros j ->. left. reflexivity.
  - destruct (bytes_eqb (i_path j) path) eqn:E; [discriminate|]. apply bytes_eqb_neq in E.
    destruct (IH _ _ H) as (A & B1 & C). split; [intros [K|K]; [exact (E K)|exact (A K)]|]. split.
    + intros ->. destruct (B1 eq_refl) as [B2 B3]. destruct (bytes_eqb (i_name j) name) eqn:N; [discriminate|].
      apply bytes_eqb_neq in N. split; [exact B2|]. intros [K|K]; [exact (N K)|exact (B3 K)].
    + intros i ->. destruct (C i eq_refl) as [K|[K1 K2]]; [|right; split; [right; exact K1|exact K2]].
      destruct (bytes_eqb (i_name j) name) eqn:N; [|left; exact K]. injection K as <-. apply bytes_eqb_eq in N.
      right. split; [left; reflexivity|exact N].
Qed.

Lemma bump_path : forall p i, i_path (bump p i) = i_path i.
Proof. intros p i. unfold bump. destruct (bytes_eqb _ _); reflexivity. Qed.

Lemma bump_name : forall p i, i_name (bump p i) = i_name i.
Proof. intros p i. unfold bump. destruct (bytes_eqb _ _); reflexivity. Qed.

Lemma bump_local : forall p i, i_local (bump p i) = i_local i.
Proof. intros p i. unfold bump. destruct (bytes_eqb _ _); reflexivity. Qed.

Lemma bump_num : forall p i, (i_num i <= i_num (bump p i))%N.
Proof. intros p i. unfold bump. destruct (bytes_eqb _ _); cbn; lia. Qed.

Lemma map_bump : forall A (f : impspec -> A) p set, (forall i, f (bump p i) = f i) -> map f (map (bump p) set) = map f set.
Proof. intros A f p set H. rewrite map_map. apply map_ext. exact H. Qed.

(** What one request does to the set. *)
Definition keeps (set set' : list impspec) : Prop :=
  forall i, In i set -> exists j, In j set' /\ i_path j = i_path i /\ i_name j = i_name i /\ i_local j = i_local i.

Lemma keeps_trans : forall a b c, keeps a b -> keeps b c -> keeps a c.
Proof.
  intros a b c H K i I. destruct (H _ I) as (j & J & P & N & L). destruct (K _ J) as (k & KI & P2 & N2 & L2).
  exists k. repeat split; congruence.
Qed.

Lemma keeps_refl : forall a, keeps a a.
Proof. intros a i I. exists i. auto. Qed.

Lemma nodup_snoc : forall A (l : list A) a, NoDup l -> ~ In a l -> NoDup (l ++ [a]).
Proof.
  intros A l a ND N. apply (NoDup_Add (Add_app a l [])). rewrite app_nil_r. split; assumption.
Qed.

Lemma addimport_step : forall set path name set' x, addimport set path name = (set', x) ->
  NoDup (map i_path set) ->
  NoDup (map i_path set') /\ keeps set set'
  /\ (exists i, In i set' /\ i_path i = path /\ i_name i = x)
  /\ (forall p, In p (map i_path set') -> In p (map i_path set) \/ p = path).
Proof.
  intros set path name set' x H ND. unfold addimport in H.
  destruct (search path (import_name path name) set None) as [i|[ns|]] eqn:SR.
  - injection H as <- <-. destruct (search_found _ _ _ _ _ SR) as [I P]. split; [exact ND|]. split; [apply keeps_refl|].
    split; [exists i; auto|auto].
  - injection H as <- <-. destruct (search_new _ _ _ _ _ SR) as (NP & _ & _).
    rewrite map_app, (map_bump _ i_path) by (intros; apply bump_path). split; [apply nodup_snoc; assumption|].
    split; [intros i I; exists (bump (i_path ns) i); rewrite bump_path, bump_name, bump_local; split; [apply in_or_app; left; apply in_map; exact I|auto]|].
    split; [eexists; split; [apply in_or_app; right; left; reflexivity|]; auto|].
    intros p I. apply in_app_iff in I. destruct I as [I|[I|[]]]; auto.
  - injection H as <- <-. destruct (search_new _ _ _ _ _ SR) as (NP & _ & _). rewrite map_app. split; [apply nodup_snoc; assumption|].
    split; [intros i I; exists i; split; [apply in_or_app; left; exact I|auto]|].
    split; [eexists; split; [apply in_or_app; right; left; reflexivity|]; auto|].
    intros p I. apply in_app_iff in I. destruct I as [I|[I|[]]]; auto.
Qed.

Lemma addimports_ok : forall reqs set set' names, addimports set reqs = (set', names) -> NoDup (map i_path set) ->
  NoDup (map i_path set') /\ keeps set set'
  /\ Forall2 (fun rq x => exists i, In i set' /\ i_path i = fst rq /\ i_name i = x) reqs names
  /\ (forall p, In p (map i_path set') -> In p (map i_path set) \/ In p (map fst reqs)).
Proof.
  induction reqs as [|[p n] reqs IH]; intros set set' names H ND; cbn [addimports] in H.
  - injection H as <- <-. split; [exact ND|]. split; [apply keeps_refl|]. split; [constructor|auto].
  - destruct (addimport set p n) as [s1 x] eqn:A. destruct (addimports s1 reqs) as [s2 xs] eqn:B1. injection H as <- <-.
    destruct (addimport_step _ _ _ _ _ A ND) as (ND1 & K1 & (i & I & P & N) & F1).
    destruct (IH _ _ _ B1 ND1) as (ND2 & K2 & F & F2).
    split; [exact ND2|]. split; [exact (keeps_trans _ _ _ K1 K2)|]. split.
    + constructor; [|exact F]. destruct (K2 _ I) as (j & J & PJ & NJ & _). exists j. cbn. repeat split; congruence.
    + intros q Q. destruct (F2 _ Q) as [Q1|Q1]; [|right; right; exact Q1].
      destruct (F1 _ Q1) as [Q2| ->]; [left; exact Q2|right; left; reflexivity].
Qed.

Lemma C43_one_name_per_path_proof : forall reqs set names, addimports [] reqs = (set, names) ->
  NoDup (map i_path set)
  /\ Forall2 (fun rq x => exists i, In i set /\ i_path i = fst rq /\ i_name i = x) reqs names
  /\ (forall p, In p (map i_path set) <-> In p (map fst reqs)).
Proof.
  intros reqs set names H. destruct (addimports_ok _ _ _ _ H (NoDup_nil _)) as (A & _ & F & D).
  split; [exact A|]. split; [exact F|]. intros p. split.
  - intros I. destruct (D _ I) as [[]|I2]. exact I2.
  - intros I. apply in_map_iff in I. destruct I as (rq & <- & I). apply In_nth_error in I. destruct I as [k K].
    clear - F K. revert k K. induction F as [|r x reqs names (i & I & P & _) F IH]; intros [|k] K; cbn in K; try discriminate.
    + injection K as <-. rewrite <- P. apply in_map. exact I.
    + exact (IH _ K).
Qed.

Lemma C43_equal_paths_proof : forall reqs set names j k rj rk xj xk, addimports [] reqs = (set, names) ->
  nth_error reqs j = Some rj -> nth_error reqs k = Some rk -> fst rj = fst rk ->
  nth_error names j = Some xj -> nth_error names k = Some xk -> xj = xk.
Proof.
  intros reqs set names j k rj rk xj xk H RJ RK E XJ XK.
  destruct (C43_one_name_per_path_proof _ _ _ H) as (ND & F & _).
  assert (G : forall n r x, nth_error reqs n = Some r -> nth_error names n = Some x -> exists i, In i set /\ i_path i = fst r /\ i_name i = x).
  { clear - F. induction F as [|r x reqs names R F IH]; intros [|n] r' x' A B1; cbn in *; try discriminate.
    - injection A as <-. injection B1 as <-. exact R.
    - exact (IH _ _ _ A B1). }
  destruct (G _ _ _ RJ XJ) as (a & A1 & A2 & A3). destruct (G _ _ _ RK XK) as (b & B1 & B2 & B3).
  assert (a = b) as ->; [|congruence]. clear - ND A1 B1 A2 B2 E.
  assert (P : i_path a = i_path b) by congruence. clear A2 B2 E.
  induction set as [|z set IH]; [destruct A1|]. cbn in ND. apply NoDup_cons_iff in ND. destruct ND as [N ND].
  destruct A1 as [->|A1]; destruct B1 as [->|B1]; auto.
  - exfalso. apply N. rewrite P. apply in_map. exact B1.
  - exfalso. apply N. rewrite <- P. apply in_map. exact A1.
Qed.

(** Where the names come from: asked for, or asked for with a number. *)
Definition from (names : list bytes) (set : list impspec) : Prop :=
  forall i, In i set ->
    (i_local i = false /\ In (i_name i) names)
    \/ (i_local i = true /\ exists n k j, In n names /\ i_name i = n ++ format_uint 10 k
        /\ In j set /\ i_local j = false /\ i_name j = n /\ (k <= i_num j)%N).

Definition sep (names : list bytes) : Prop :=
  forall n m d, In n names -> In m names -> m = n ++ d -> d <> [] -> ~ Forall (fun c => decdigit c = true) d.

Lemma sep_num : forall names n m k, sep names -> In n names -> In m names -> m <> n ++ format_uint 10 k.
Proof.
  intros names n m k S0 N M E. exact (S0 _ _ _ N M E (format_uint_nonempty _ _) (itoa_digits _)).
Qed.

Lemma sep_nums : forall names n m k j, sep names -> In n names -> In m names ->
  n ++ format_uint 10 k = m ++ format_uint 10 j -> n = m /\ k = j.
Proof.
  intros names n m k j S0 N M E. destruct (app_eq_app _ _ _ _ E) as (d & [[A B1]|[A B1]]).
  - destruct d as [|c d].
    + rewrite app_nil_r in A. cbn in B1. split; [exact A|]. symmetry. apply itoa_inj. exact B1.
    + exfalso. apply (S0 m n (c :: d) M N A); [discriminate|]. pose proof (itoa_digits j) as F. rewrite B1 in F.
      apply Forall_app in F. tauto.
  - destruct d as [|c d].
    + rewrite app_nil_r in A. cbn in B1. split; [symmetry; exact A|]. apply itoa_inj. exact B1.
    + exfalso. apply (S0 n m (c :: d) N M A); [discriminate|]. pose proof (itoa_digits k) as F. rewrite B1 in F.
      apply Forall_app in F. tauto.
Qed.

Lemma addimport_names : forall names set path name set' x, sep names -> In (import_name path name) names ->
  addimport set path name = (set', x) -> NoDup (map i_path set) -> NoDup (map i_name set) -> from names set ->
  NoDup (map i_name set') /\ from names set'.
Proof.
  intros names set path name set' x SP IN H NP ND FR. unfold addimport in H. set (nm := import_name path name) in *.
  destruct (search path nm set None) as [i|[ns|]] eqn:SR.
  - injection H as <- <-. auto.
  - injection H as <- <-. destruct (search_new _ _ _ _ _ SR) as (_ & _ & C).
    destruct (C ns eq_refl) as [C1|[NI NN]]; [discriminate|]. clear C.
    (* the namesake has the name it was asked for under *)
    assert (NL : i_local ns = false).
    { destruct (FR _ NI) as [[L _]|(_ & n & k & j & I1 & E & _)]; [exact L|].
      exfalso. apply (sep_num names n nm k SP I1 IN). congruence. }
    assert (UN : forall a b, In a set -> In b set -> i_name a = i_name b -> a = b).
    { clear - ND. induction set as [|z set IH]; intros a b A B1 E; [destruct A|]. cbn in ND. apply NoDup_cons_iff in ND. destruct ND as [N ND].
      destruct A as [->|A]; destruct B1 as [->|B1]; auto.
      - exfalso. apply N. rewrite E. apply in_map. exact B1.
      - exfalso. apply N. rewrite <- E. apply in_map. exact A. }
    assert (FRESH : ~ In (nm ++ format_uint 10 (i_num ns + 1)) (map i_name set)).
    { intros I. apply in_map_iff in I. destruct I as (i & E & I). destruct (FR _ I) as [[_ L]|(_ & n & k & j & I1 & E1 & J & JL & JN & K)].
      - rewrite E in L. exact (sep_num names nm _ _ SP IN L eq_refl).
      - rewrite E1 in E. destruct (sep_nums names n nm k _ SP I1 IN E) as [-> ->].
        rewrite (UN j ns J NI) in K by congruence. lia. }
    split.
    + rewrite map_app, (map_bump _ i_name) by (intros; apply bump_name). apply nodup_snoc; assumption.
    + intros i I. apply in_app_iff in I. destruct I as [I|[<-|[]]].
      * apply in_map_iff in I. destruct I as (i0 & <- & I). rewrite bump_local, bump_name.
        destruct (FR _ I) as [L|(L & n & k & j & I1 & E1 & J & JL & JN & K)]; [left; exact L|].
        right. split; [exact L|]. exists n, k, (bump (i_path ns) j). rewrite bump_local, bump_name.
        split; [exact I1|]. split; [exact E1|]. split; [apply in_or_app; left; apply in_map; exact J|].
        split; [exact JL|]. split; [exact JN|]. pose proof (bump_num (i_path ns) j). lia.
      * right. cbn [i_local i_name]. split; [reflexivity|]. exists nm, (i_num ns + 1)%N, (bump (i_path ns) ns).
        rewrite bump_local, bump_name. split; [exact IN|]. split; [reflexivity|].
        split; [apply in_or_app; left; apply in_map; exact NI|]. split; [exact NL|]. split; [exact NN|].
        unfold bump. rewrite bytes_eqb_refl. cbn. lia.
  - injection H as <- <-. destruct (search_new _ _ _ _ _ SR) as (_ & NN & _). destruct (NN eq_refl) as [_ NN2].
    split; [rewrite map_app; apply nodup_snoc; assumption|].
    intros i I. apply in_app_iff in I. destruct I as [I|[<-|[]]].
    + destruct (FR _ I) as [L|(L & n & k & j & I1 & E1 & J & R)]; [left; exact L|]. right. split; [exact L|].
      exists n, k, j. split; [exact I1|]. split; [exact E1|]. split; [apply in_or_app; left; exact J|exact R].
    + left. split; [reflexivity|exact IN].
Qed.

Lemma C43_distinct_names_proof : forall reqs set names, addimports [] reqs = (set, names) -> no_digits reqs ->
  NoDup (map i_name set).
Proof.
  intros reqs set names H ND.
  assert (G : forall l s0 s1 xs ns, sep ns -> (forall r, In r l -> In (asked r) ns) -> addimports s0 l = (s1, xs) ->
     NoDup (map i_path s0) -> NoDup (map i_name s0) -> from ns s0 -> NoDup (map i_name s1)).
  { induction l as [|[p n] l IH]; intros s0 s1 xs ns SP IN A NP N0 FR; cbn [addimports] in A.
    - injection A as <- <-. exact N0.
    - destruct (addimport s0 p n) as [s2 x] eqn:A1. destruct (addimports s2 l) as [s3 ys] eqn:A2. injection A as <- <-.
      destruct (addimport_names ns s0 p n s2 x SP (IN (p, n) (or_introl eq_refl)) A1 NP N0 FR) as [N2 F2].
      destruct (addimport_step _ _ _ _ _ A1 NP) as (NP2 & _).
      eapply IH; [exact SP| |exact A2|exact NP2|exact N2|exact F2]. intros r R. apply IN. right. exact R. }
  apply (G reqs [] set names (map asked reqs)); auto using NoDup_nil.
  - intros n m d N M E. apply in_map_iff in N. destruct N as (r1 & <- & R1). apply in_map_iff in M. destruct M as (r2 & <- & R2).
    exact (ND r1 r2 d R1 R2 E).
  - intros r R. apply in_map. exact R.
  - apply NoDup_nil.
  - apply NoDup_nil.
  - intros i [].
Qed.

Lemma C43_collision_refuted_proof : exists reqs set names, addimports [] reqs = (set, names) /\ NoDup (map fst reqs)
  /\ ~ NoDup (map i_name set).
Proof.
  exists [(B "c/foo1", []); (B "a/foo", []); (B "b/foo", [])]. eexists. eexists. split; [vm_compute; reflexivity|].
  split; [cbn; repeat constructor; cbn; intuition discriminate|].
  vm_compute. intros N. inversion N as [|? ? H _]; subst. apply H. right. left. reflexivity.
Qed.

(** The name in an import spec, or the package's own. *)
Definition binds (own : bytes -> bytes) (s : option bytes * bytes) : bytes := match fst s with Some n => n | None => own (snd s) end.

Lemma groups_perm : forall A (g : A -> nat) l, Forall (fun x => 1 <= g x <= 3) l ->
  Permutation (filter (fun x => Nat.eqb (g x) 1) l ++ filter (fun x => Nat.eqb (g x) 2) l ++ filter (fun x => Nat.eqb (g x) 3) l) l.
Proof.
  intros A g l F. induction F as [|x l H F IH]; [constructor|]. cbn [filter].
  assert (C : g x = 1 \/ g x = 2 \/ g x = 3) by lia. destruct C as [E|[E|E]]; rewrite E; cbn [Nat.eqb].
  - cbn [app]. apply perm_skip. exact IH.
  - etransitivity; [|apply perm_skip; exact IH]. symmetry. apply Permutation_middle.
  - etransitivity; [|apply perm_skip; exact IH]. symmetry. rewrite !app_assoc. apply Permutation_middle.
Qed.

Lemma import_group_range : forall p, 1 <= import_group p <= 3.
Proof. intros p. unfold import_group. destruct (has_prefix _ p); [lia|]. destruct (has_byte _ p); lia. Qed.

Lemma addimports_own : forall own reqs set set' names, addimports set reqs = (set', names) ->
  (forall r, In r reqs -> own (fst r) = asked r) ->
  (forall i, In i set -> i_local i = false -> i_name i = own (i_path i)) ->
  forall i, In i set' -> i_local i = false -> i_name i = own (i_path i).
Proof.
  induction reqs as [|[p n] reqs IH]; intros set set' names H OW K; cbn [addimports] in H; [injection H as <- <-; exact K|].
  destruct (addimport set p n) as [s1 x] eqn:A. destruct (addimports s1 reqs) as [s2 xs] eqn:B1. injection H as <- <-.
  eapply (IH _ _ _ B1); [intros r R; apply OW; right; exact R|]. clear IH B1.
  pose proof (OW (p, n) (or_introl eq_refl)) as O1. unfold asked in O1. cbn in O1. unfold addimport in A.
  destruct (search p (import_name p n) set None) as [i|[ns|]].
  - injection A as <- <-. exact K.
  - injection A as <- <-. intros i I L. apply in_app_iff in I. destruct I as [I|[<-|[]]]; [|discriminate].
    apply in_map_iff in I. destruct I as (j & <- & J). rewrite bump_local in L. rewrite bump_name, bump_path. exact (K _ J L).
  - injection A as <- <-. intros i I L. apply in_app_iff in I. destruct I as [I|[<-|[]]]; [exact (K _ I L)|]. cbn. symmetry. exact O1.
Qed.

Lemma C43_declared_proof : forall own reqs set names, addimports [] reqs = (set, names) ->
  (forall r, In r reqs -> own (fst r) = asked r) ->
  Permutation (map snd (newImportDecl set)) (map i_path set)
  /\ forall i, In i set -> exists s, In s (newImportDecl set) /\ snd s = i_path i /\ binds own s = i_name i.
Proof.
  intros own reqs set names H OW.
  assert (P : Permutation (newImportDecl set) (map (fun i => (if i_local i then Some (i_name i) else None, i_path i)) set)).
  { unfold newImportDecl. apply (groups_perm _ (fun s : option bytes * bytes => import_group (snd s))).
    apply Forall_forall. intros s _. apply import_group_range. }
  split.
  - apply (Permutation_map snd) in P. rewrite map_map in P. exact P.
  - intros i I. exists (if i_local i then Some (i_name i) else None, i_path i). split.
    + eapply Permutation_in; [symmetry; exact P|]. apply in_map_iff. exists i. auto.
    + split; [reflexivity|]. unfold binds. cbn. destruct (i_local i) eqn:L; [reflexivity|]. symmetry.
      eapply addimports_own; [exact H|exact OW| |exact I|exact L]. intros ? [].
Qed.

(** The name of a path: what follows its last slash. *)
Lemma base_name_app : forall b a acc, (forall c, In c b -> c <> "/"%char) -> base_name acc (a ++ "/"%char :: b) = b.
Proof.
  intros b a. induction a as [|c a IH]; intros acc N; cbn.
  - assert (K : forall acc l, (forall c, In c l -> c <> "/"%char) -> base_name acc l = acc).
    { clear. intros acc l. induction l as [|c l IH]; intros N; cbn; [reflexivity|]. unfold beq.
      destruct (Ascii.eqb_spec c "/"%char) as [E|E]; [exfalso; exact (N c (or_introl eq_refl) E)|].
      apply IH. intros d D. apply N. right. exact D. }
    apply K. exact N.
  - destruct (beq c "/"%char); apply IH; exact N.
Qed.

Lemma C43_default_name_proof : forall a b, (forall c, In c b -> c <> "/"%char) ->
  import_name (a ++ "/"%char :: b) [] = b /\ import_name b [] = b.
Proof.
  intros a b N. split; [apply base_name_app; exact N|]. cbn.
  assert (K : forall acc l, (forall c, In c l -> c <> "/"%char) -> base_name acc l = acc).
  { clear. intros acc l. induction l as [|c l IH]; intros N; cbn; [reflexivity|]. unfold beq.
    destruct (Ascii.eqb_spec c "/"%char) as [E|E]; [exfalso; exact (N c (or_introl eq_refl) E)|].
    apply IH. intros d D. apply N. right. exact D. }
  apply K. exact N.
Qed.

Definition z_reqs := [(B "github.com/frk/gosql", []); (B "a/foo", []); (B "context", []); (B "gopkg.in/b/foo", B "foo"); (B "a/foo", []); (B "c/foo", [])].

Lemma z_no_digits : no_digits z_reqs.
Proof.
  intros r1 r2 d I1 I2. cbn in I1, I2.
  repeat (destruct I1 as [<-|I1]; [repeat (destruct I2 as [<-|I2]; [intros E N F; clear F; vm_compute in E; first [discriminate E|injection E as <-; congruence]|]); destruct I2|]); destruct I1.
Qed.
