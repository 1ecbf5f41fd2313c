(** hstore and hstore[]. *)
From Coq Require Import Ascii String ZArith NArith Bool List Lia Permutation.
From Verif Require Import GoBase Strconv StrconvProofs ConvertUtil ConvertProofs Codecs Hstore
  PgSpec PgSpecProofs TextProofs SimpleProofs.
Import ListNotations.
Local Open Scope char_scope.

(** A pair written with an arbitrary escaping predicate. *)
Definition q (p : ascii -> bool) (e : bytes) : bytes := dq :: esc_by p e ++ [dq].
Definition pair_text (p : ascii -> bool) (x : bytes * option bytes) : bytes :=
  q p (fst x) ++ ["="; ">"] ++ match snd x with Some v => q p v | None => B "NULL" end.

Definition good_esc (p : ascii -> bool) : Prop :=
  p dq = true /\ p bs = true /\ p "=" = false /\ p ">" = false /\ p "N" = false /\ p "U" = false
  /\ p "L" = false /\ p "," = false /\ p " " = false.

Definition pg_esc (c : ascii) : bool := if in_dec ascii_dec c [""""; "\"] then true else false.

Lemma good_pg : good_esc pg_esc.
Proof. repeat split; reflexivity. Qed.
Lemma good_go : good_esc needs_esc.
Proof. repeat split; reflexivity. Qed.

(** The two separators in use: "," and ", ". *)
Definition sep_ok (sep : bytes) : Prop := sep = [","] \/ sep = [","; " "].

(** *** scalar *)
Lemma hs_skip : forall s k idx p, hs_loop s k idx p = hs_loop (skipn k s) 0 idx p.
Proof. induction s as [|c s IH]; intros [|k] idx p; auto. simpl. apply IH. Qed.

Lemma hs_quoted_by : forall p e rest acc k, p dq = true -> p bs = true ->
  hs_quoted (esc_by p e ++ dq :: rest) acc k = Ok (acc ++ e, S (k + List.length (esc_by p e))).
Proof.
  intros p e rest acc k P1 P2. revert acc k. induction e as [|c e IH]; intros.
  - cbn [esc_by flat_map app hs_quoted]. change (beq dq bs) with false. rewrite beq_refl, app_nil_r.
    cbv iota. cbn [List.length]. now rewrite Nat.add_0_r.
  - unfold esc_by. cbn [flat_map]. fold (esc_by p e). destruct (p c) eqn:E.
    + cbn [app hs_quoted]. change (beq "\" bs) with true. cbv iota. rewrite IH, <- app_assoc.
      cbn [app List.length]. do 2 f_equal. lia.
    + cbn [app hs_quoted].
      destruct (beq c bs) eqn:E1. { apply beq_eq in E1. congruence. }
      destruct (beq c dq) eqn:E2. { apply beq_eq in E2. congruence. }
      rewrite IH, <- app_assoc. cbn [app List.length]. do 2 f_equal. lia.
Qed.

Lemma hs_key : forall p k rest, p dq = true -> p bs = true ->
  hs_loop (q p k ++ rest) 0 false ([], []) = hs_loop rest 0 true (k, []).
Proof.
  intros p k rest P1 P2. unfold q. rewrite <- app_comm_cons, <- app_assoc. cbn [app hs_loop].
  rewrite beq_refl. cbn [fst snd]. rewrite hs_quoted_by by auto. cbn [bind app].
  rewrite hs_skip. replace (S (0 + List.length (esc_by p k))) with (List.length (esc_by p k) + 1)%nat by lia.
  now rewrite skipn_app_plus.
Qed.

Lemma hs_val : forall p k v rest, p dq = true -> p bs = true ->
  hs_loop (q p v ++ rest) 0 true (k, []) = rmap (cons (k, v)) (hs_loop rest 0 false ([], [])).
Proof.
  intros p k v rest P1 P2. unfold q. rewrite <- app_comm_cons, <- app_assoc. cbn [app hs_loop].
  rewrite beq_refl. cbn [fst snd]. rewrite hs_quoted_by by auto. cbn [bind app].
  f_equal.
  rewrite hs_skip. replace (S (0 + List.length (esc_by p v))) with (List.length (esc_by p v) + 1)%nat by lia.
  now rewrite skipn_app_plus.
Qed.

Lemma hs_pair : forall p x rest, good_esc p -> sep_start rest ->
  hs_loop (pair_text p x ++ rest) 0 false ([], [])
  = rmap (cons (fst x, str_of (snd x))) (hs_loop rest 0 false ([], [])).
Proof.
  intros p [k o] rest G S. destruct G as (P1 & P2 & _). unfold pair_text. cbn [fst snd].
  rewrite <- !app_assoc. rewrite hs_key by auto.
  cbn [app]. transitivity (hs_loop (match o with Some v => q p v | None => B "NULL" end ++ rest) 0 true (k, [])).
  { reflexivity. }
  destruct o as [v|].
  - now rewrite hs_val.
  - cbn [str_of]. destruct S as [-> | [r ->]]; reflexivity.
Qed.

Lemma hs_sep : forall sep rest, sep_ok sep ->
  hs_loop (sep ++ rest) 0 false ([], []) = hs_loop rest 0 false ([], []).
Proof. intros sep rest [-> | ->]; reflexivity. Qed.

Lemma sep_ok_start : forall sep rest, sep_ok sep -> sep_start (sep ++ rest).
Proof. intros sep rest [-> | ->]; right; eexists; reflexivity. Qed.

Lemma join_cons : forall sep x y l, join sep (x :: y :: l) = x ++ sep ++ join sep (y :: l).
Proof. reflexivity. Qed.

Lemma hs_pairs : forall p sep m, good_esc p -> sep_ok sep ->
  pgparsehstore (join sep (map (pair_text p) m)) = Ok (map (fun x => (fst x, str_of (snd x))) m).
Proof.
  intros p sep m G S. unfold pgparsehstore. induction m as [|x m IH]; auto.
  destruct m as [|y m].
  - simpl map. simpl join. rewrite <- (app_nil_r (pair_text p x)). rewrite hs_pair by (auto; now left). reflexivity.
  - cbn [map]. rewrite join_cons. rewrite hs_pair by (auto; now apply sep_ok_start).
    rewrite hs_sep by auto. cbn [map] in IH. rewrite IH. reflexivity.
Qed.

(** Go map built from pairs with distinct keys. *)
Lemma upsert_new : forall {V} k (v : V) m, ~ In k (map fst m) -> upsert k v m = m ++ [(k, v)].
Proof.
  induction m as [|[k' v'] m IH]; intros H; auto. cbn [upsert app].
  destruct (bytes_eqb k k') eqn:E.
  - apply bytes_eqb_eq in E. exfalso. apply H. now left.
  - rewrite IH; auto. intros I. apply H. now right.
Qed.

Lemma fold_upsert : forall {V} (ps m : list (bytes * V)), NoDup (map fst (m ++ ps)) ->
  fold_left (fun m p => upsert (fst p) (snd p) m) ps m = m ++ ps.
Proof.
  induction ps as [|[k v] ps IH]; intros m H; cbn [fold_left].
  - now rewrite app_nil_r.
  - cbn [fst snd]. rewrite upsert_new.
    + rewrite IH. now rewrite <- app_assoc. now rewrite <- app_assoc.
    + rewrite map_app in H. cbn [map] in H. apply NoDup_remove_2 in H.
      intros I. apply H. apply in_or_app. now left.
Qed.

Lemma build_nodup : forall {V} (ps : list (bytes * V)), NoDup (map fst ps) -> build ps = ps.
Proof. intros. unfold build. rewrite fold_upsert; auto. Qed.

(** *** the server's text *)
Lemma hpair_out_text : forall x, hpair_out x = pair_text pg_esc x.
Proof.
  intros [k o]. unfold hpair_out, pair_text, hquote, q. rewrite !pg_escape_by. cbn [fst snd].
  destruct o; [rewrite pg_escape_by|]; reflexivity.
Qed.

Lemma hstore_out_text : forall m, hstore_out m = join [","; " "] (map (pair_text pg_esc) m).
Proof.
  induction m as [|x m IH]; auto. destruct m as [|y m].
  - apply hpair_out_text.
  - change (hstore_out (x :: y :: m)) with (hpair_out x ++ [","; " "] ++ hstore_out (y :: m)).
    now rewrite IH, hpair_out_text.
Qed.

Lemma enc_pair_text : forall x, enc_pair x = pair_text needs_esc x.
Proof. reflexivity. Qed.

Lemma hstore_literal : forall m, HStoreFrom (Some m) = Some (join [","] (map (pair_text needs_esc) m)).
Proof.
  intros [|x m]; auto. unfold HStoreFrom. rewrite <- (map_map enc_pair (fun e => e ++ [","])).
  rewrite concat_sep_join by discriminate.
  assert (H : join [","] (map enc_pair (x :: m)) ++ [","] <> []).
  { intros H. apply app_eq_nil in H. destruct H; discriminate. }
  remember (join [","] (map enc_pair (x :: m)) ++ [","]) as out eqn:E.
  destruct out; [congruence|]. rewrite E, removelast_last. reflexivity.
Qed.

(** The server reads the Valuer's literal as the same pairs. *)
Lemma hin_key : forall p k done b rest, p dq = true -> p bs = true ->
  hin_go (HKey b) false done (q p k ++ rest) = hin_go (HEq k) false done rest.
Proof.
  intros p k done b rest P1 P2. unfold q. rewrite <- app_comm_cons, <- app_assoc. cbn [app].
  transitivity (hin_go (HKeyQ []) false done (esc_by p k ++ dq :: rest)). reflexivity.
  replace k with ([] ++ k) at 2 by reflexivity. generalize (@nil ascii) as acc.
  induction k as [|c k IH]; intros acc.
  - rewrite app_nil_r. reflexivity.
  - unfold esc_by. cbn [flat_map]. fold (esc_by p k). destruct (p c) eqn:E.
    + cbn [app hin_go]. destruct (ascii_dec "\" "\"); [|congruence]. rewrite IH, <- app_assoc. reflexivity.
    + cbn [app hin_go]. destruct (ascii_dec c "\") as [->|]; [unfold bs in *; congruence|].
      destruct (ascii_dec c """") as [->|]; [unfold dq in *; congruence|]. rewrite IH, <- app_assoc. reflexivity.
Qed.

Lemma hin_val : forall p k v done rest, p dq = true -> p bs = true ->
  hin_go (HVal k) false done (q p v ++ rest) = hin_go (HEnd (k, Some v)) false done rest.
Proof.
  intros p k v done rest P1 P2. unfold q. rewrite <- app_comm_cons, <- app_assoc. cbn [app].
  transitivity (hin_go (HValQ k []) false done (esc_by p v ++ dq :: rest)). reflexivity.
  replace v with ([] ++ v) at 2 by reflexivity. generalize (@nil ascii) as acc.
  induction v as [|c v IH]; intros acc.
  - rewrite app_nil_r. reflexivity.
  - unfold esc_by. cbn [flat_map]. fold (esc_by p v). destruct (p c) eqn:E.
    + cbn [app hin_go]. destruct (ascii_dec "\" "\"); [|congruence]. rewrite IH, <- app_assoc. reflexivity.
    + cbn [app hin_go]. destruct (ascii_dec c "\") as [->|]; [unfold bs in *; congruence|].
      destruct (ascii_dec c """") as [->|]; [unfold dq in *; congruence|]. rewrite IH, <- app_assoc. reflexivity.
Qed.

Lemma hin_pair : forall p x b done, good_esc p ->
  (forall sep rest, sep_ok sep -> hin_go (HKey b) false done (pair_text p x ++ sep ++ rest)
     = hin_go (HKey false) false (x :: done) rest) /\
  hin_go (HKey b) false done (pair_text p x) = Some (rev (x :: done)).
Proof.
  intros p [k o] b done (P1 & P2 & _). split.
  - intros sep rest S. unfold pair_text. cbn [fst snd]. rewrite <- !app_assoc.
    rewrite hin_key by auto. cbn [app].
    change (hin_go (HEq k) false done ("=" :: ">" :: match o with Some v => q p v | None => B "NULL" end ++ sep ++ rest))
      with (hin_go (HVal k) false done (match o with Some v => q p v | None => B "NULL" end ++ sep ++ rest)).
    destruct o as [v|].
    + rewrite hin_val by auto. destruct S as [-> | ->]; reflexivity.
    + destruct S as [-> | ->]; reflexivity.
  - unfold pair_text. cbn [fst snd]. rewrite hin_key by auto. cbn [app].
    change (hin_go (HEq k) false done ("=" :: ">" :: match o with Some v => q p v | None => B "NULL" end))
      with (hin_go (HVal k) false done (match o with Some v => q p v | None => B "NULL" end)).
    destruct o as [v|].
    + rewrite <- (app_nil_r (q p v)). now rewrite hin_val.
    + reflexivity.
Qed.

Lemma hin_pairs : forall p sep m done b, good_esc p -> sep_ok sep -> m <> [] ->
  hin_go (HKey b) false done (join sep (map (pair_text p) m)) = Some (rev done ++ m).
Proof.
  intros p sep m done b G S. revert done b. induction m as [|x m IH]; intros done b N. congruence.
  destruct (hin_pair p x b done G) as [H1 H2]. destruct m as [|y m].
  - simpl map. simpl join. rewrite H2. reflexivity.
  - cbn [map]. rewrite join_cons. rewrite H1 by auto. cbn [map] in IH. rewrite IH by discriminate.
    simpl. now rewrite <- app_assoc.
Qed.

Lemma hstore_in_text : forall p sep m, good_esc p -> sep_ok sep ->
  hstore_in (join sep (map (pair_text p) m)) = Some m.
Proof.
  intros p sep [|x m] G S. reflexivity. unfold hstore_in. now rewrite hin_pairs.
Qed.

Lemma hstore_server : forall m, exists d, HStoreFrom (Some m) = Some d /\ hstore_in d = Some m.
Proof.
  intros. eexists. split. apply hstore_literal. apply hstore_in_text. apply good_go. now left.
Qed.

(** Scanning. *)
Definition read_val (val : bytes -> option bytes) (o : option bytes) : option bytes := val (str_of o).

Lemma map_fst_read : forall (f : option bytes -> option bytes) (m : hmap),
  map fst (map (fun p => (fst p, f (snd p))) m) = map fst m.
Proof. intros. rewrite map_map. reflexivity. Qed.

Lemma hstore_scan_gen : forall p sep val m old, good_esc p -> sep_ok sep -> NoDup (map fst m) ->
  HStoreTo val (Some (join sep (map (pair_text p) m))) old
  = Ok (Some (map (fun x => (fst x, val (str_of (snd x)))) m)).
Proof.
  intros p sep val m old G S N. unfold HStoreTo, srcbytes. rewrite hs_pairs by auto.
  cbn [rmap bind]. unfold rmap. cbn [bind]. rewrite map_map. cbn [fst snd].
  rewrite build_nodup; auto. now rewrite (map_fst_read (fun o => val (str_of o))).
Qed.

Lemma hstore_scan_server : forall val m old, NoDup (map fst m) ->
  HStoreTo val (Some (hstore_out m)) old = Ok (Some (map (fun x => (fst x, val (str_of (snd x)))) m)).
Proof.
  intros. rewrite hstore_out_text. apply hstore_scan_gen; auto. apply good_pg. now right.
Qed.

Lemma hstore_scan_own : forall val m old, NoDup (map fst m) ->
  HStoreTo val (HStoreFrom (Some m)) old = Ok (Some (map (fun x => (fst x, val (str_of (snd x)))) m)).
Proof.
  intros. rewrite hstore_literal. apply hstore_scan_gen; auto. apply good_go. now left.
Qed.

(** *** arrays *)
Definition esc2_by (p : ascii -> bool) (e : bytes) : bytes :=
  flat_map (fun c => if p c then [bs; bs; bs; c] else [c]) e.
Definition q2 (p : ascii -> bool) (e : bytes) : bytes := bs :: dq :: esc2_by p e ++ [bs; dq].
Definition pair2_text (p : ascii -> bool) (x : bytes * option bytes) : bytes :=
  q2 p (fst x) ++ ["="; ">"] ++ match snd x with Some v => q2 p v | None => B "NULL" end.

Lemma esc_by_app : forall p a b, esc_by p (a ++ b) = esc_by p a ++ esc_by p b.
Proof. intros. apply flat_map_app. Qed.

Lemma esc_by_esc : forall p e, p bs = true -> esc_by p (esc_by p e) = esc2_by p e.
Proof.
  intros p e P. induction e as [|c e IH]; auto.
  change (esc_by p (c :: e)) with ((if p c then ["\"; c] else [c]) ++ esc_by p e).
  change (esc2_by p (c :: e)) with ((if p c then [bs; bs; bs; c] else [c]) ++ esc2_by p e).
  rewrite esc_by_app, IH. f_equal. unfold esc_by, bs in *. destruct (p c) eqn:E; cbn [flat_map app]; rewrite ?P, ?E; reflexivity.
Qed.

Lemma esc_by_q : forall p e, p dq = true -> p bs = true -> esc_by p (q p e) = q2 p e.
Proof.
  intros p e P1 P2. unfold q, q2.
  change (dq :: esc_by p e ++ [dq]) with ([dq] ++ esc_by p e ++ [dq]).
  rewrite !esc_by_app, esc_by_esc by auto. unfold esc_by. cbn [flat_map]. rewrite P1. reflexivity.
Qed.

Lemma esc_by_pair : forall p x, good_esc p -> esc_by p (pair_text p x) = pair2_text p x.
Proof.
  intros p [k o] (P1 & P2 & P3 & P4 & P5 & P6 & P7 & P8 & P9). unfold pair_text, pair2_text.
  cbn [fst snd]. rewrite !esc_by_app, esc_by_q by auto. do 2 f_equal.
  - unfold esc_by. cbn [flat_map]. now rewrite P3, P4.
  - destruct o. now apply esc_by_q. unfold esc_by, B. cbn [list_ascii_of_string flat_map]. now rewrite P5, P6, P7.
Qed.

Lemma esc_by_join : forall p sep m, good_esc p -> sep_ok sep ->
  esc_by p (join sep (map (pair_text p) m)) = join sep (map (pair2_text p) m).
Proof.
  intros p sep m G S. induction m as [|x m IH]; auto. destruct m as [|y m].
  - simpl map. simpl join. now apply esc_by_pair.
  - cbn [map]. rewrite !join_cons, !esc_by_app. cbn [map] in IH. rewrite IH, esc_by_pair by auto. do 2 f_equal.
    destruct G as (P1 & P2 & P3 & P4 & P5 & P6 & P7 & P8 & P9).
    destruct S as [-> | ->]; unfold esc_by; cbn [flat_map]; now rewrite ?P8, ?P9.
Qed.

Lemma enc_hstore_text : forall m,
  enc_hstore (Some m) = dq :: join [","] (map (pair2_text needs_esc) m) ++ [dq].
Proof.
  intros [|x m]; auto. unfold enc_hstore.
  rewrite <- (map_map enc_pair2 (fun e => e ++ [","])).
  rewrite concat_sep_join by discriminate. rewrite app_comm_cons, removelast_last.
  change (enc_pair2) with (fun x => enc_pair2 x).
  replace (map (pair2_text needs_esc) (x :: m)) with (map (fun x => enc_pair2 x) (x :: m)). reflexivity.
  apply map_ext. intros [k [v|]]; unfold enc_pair2, pair2_text, quote2, q2, esc2_by; cbn [fst snd];
    reflexivity.
Qed.

Definition hin_elem (o : option text) : option (option hstore) :=
  match o with None => Some None | Some t => option_map Some (hstore_in t) end.

Lemma enc_hstore_reads : forall o,
  elem_reads (enc_hstore o) (option_map (fun m => join [","] (map (pair_text needs_esc) m)) o).
Proof.
  intros [m|].
  - rewrite enc_hstore_text. cbn [option_map]. rewrite <- esc_by_join by (try apply good_go; now left).
    now apply elem_reads_quo.
  - apply elem_reads_null.
Qed.

(** The server reads the array literal as the same maps. *)
Lemma hstorearr_server : forall l,
  exists d, HStoreArrayFrom (Some l) = Some d /\ array_of hstore_in d = Some l.
Proof.
  intros l. destruct (arr_value_in enc_hstore
    (option_map (fun m => join [","] (map (pair_text needs_esc) m))) l) as (d & H1 & H2).
  { intros. apply enc_hstore_reads. }
  exists d. split; auto. unfold array_of. rewrite H2. unfold elems_in.
  rewrite (all_some_map _ _ (fun o => o)). now rewrite map_id.
  intros [m|] _; cbn [option_map]; auto.
  rewrite hstore_in_text. reflexivity. apply good_go. now left.
Qed.

(** Parsing. *)
Lemma hsa_quoted_by : forall p e rest fuel acc n, p dq = true -> p bs = true ->
  (List.length (esc2_by p e) < fuel)%nat ->
  hsa_quoted fuel (esc2_by p e ++ bs :: dq :: rest) acc n
  = Ok (acc ++ e, Some (2 + (n + List.length (esc2_by p e)))%nat).
Proof.
  intros p e rest fuel acc n P1 P2. revert fuel acc n. induction e as [|c e IH]; intros fuel acc n L.
  - destruct fuel; [simpl in L; lia|]. cbn [esc2_by flat_map app hsa_quoted]. rewrite beq_refl.
    change (beq dq bs) with false. rewrite beq_refl, app_nil_r. cbn [List.length]. cbv iota. now rewrite Nat.add_0_r.
  - unfold esc2_by in *. cbn [flat_map] in *. fold (esc2_by p e) in *. destruct (p c) eqn:E.
    + destruct fuel; [simpl in L; lia|]. cbn [app hsa_quoted]. rewrite beq_refl.
      rewrite IH by (cbn [app List.length] in L; lia). rewrite <- app_assoc. cbn [app List.length].
      do 4 f_equal. lia.
    + destruct fuel; [simpl in L; lia|]. cbn [app hsa_quoted].
      destruct (beq c bs) eqn:E1. { apply beq_eq in E1. congruence. }
      rewrite IH by (cbn [app List.length] in L; lia). rewrite <- app_assoc. cbn [app List.length].
      do 4 f_equal. lia.
Qed.

Lemma hsa_step : forall fuel r idx p h n,
  hsa_hstore (S fuel) r idx p h n =
  match r with
  | [] => Ok ((idx, p), None)
  | c :: r' =>
      let keyval : res (bytes * nat * bool * pair * list pair) :=
        if beq c bs then
          match r' with
          | [] => Panic
          | c1 :: r1 =>
              if beq c1 dq then
                bind (hsa_quoted (List.length r1) r1 (if idx then snd p else fst p) 0)
                  (fun '(str, o) =>
                     let adv := match o with Some m => (2 + m)%nat | None => O end in
                     let r_j := skipn adv r in
                     if idx
                     then Ok (r_j, (n + adv)%nat, false, ([], []), h ++ [(fst p, str)])
                     else Ok (r_j, (n + adv)%nat, true, (str, snd p), h))
              else Ok (r, n, idx, p, h)
          end
        else Ok (r, n, idx, p, h) in
      bind keyval (fun '(r1, n1, idx1, p1, h1) =>
        match r1 with
        | [] => Panic
        | d :: _ =>
            let '(r2, n2, idx2, p2, h2) :=
              if beq d "N" then (skipn 4 r1, (n1 + 4)%nat, false, ([], []), h1 ++ [p1])
              else (r1, n1, idx1, p1, h1) in
            match r2 with
            | [] => Panic
            | e :: r3 =>
                if beq e dq then Ok ((idx2, p2), Some (h2, S n2))
                else hsa_hstore fuel r3 idx2 p2 h2 (S n2)
            end
        end)
  end.
Proof. reflexivity. Qed.

(** One character that is neither a backslash, N nor a quote is skipped. *)
Lemma hsa_plain : forall fuel c r idx p h n, c <> bs -> c <> dq -> c <> "N" ->
  hsa_hstore (S fuel) (c :: r) idx p h n = hsa_hstore fuel r idx p h (S n).
Proof.
  intros fuel c r idx p h n H1 H2 H3. rewrite hsa_step. cbv zeta.
  apply beq_neq in H1, H2, H3. rewrite H1. cbn [bind]. now rewrite H3, H2.
Qed.

Lemma q2_len : forall p e, List.length (q2 p e) = (4 + List.length (esc2_by p e))%nat.
Proof. intros. unfold q2. cbn [List.length]. rewrite app_length. cbn [List.length]. lia. Qed.

Lemma hsa_q2 : forall p e rest, p dq = true -> p bs = true -> forall acc,
  match q2 p e ++ rest with
  | _ :: _ :: r1 => hsa_quoted (List.length r1) r1 acc 0
  | _ => Panic
  end = Ok (acc ++ e, Some (2 + List.length (esc2_by p e))%nat).
Proof.
  intros. unfold q2. cbn [app]. rewrite <- app_assoc. cbn [app].
  rewrite hsa_quoted_by; auto. rewrite !app_length. cbn [List.length]. lia.
Qed.

Lemma skipn_q2 : forall p e rest, skipn (4 + List.length (esc2_by p e)) (q2 p e ++ rest) = rest.
Proof.
  intros. rewrite <- q2_len. apply skipn_length_app.
Qed.

Lemma hsa_key : forall fuel p k rest h n, p dq = true -> p bs = true ->
  hsa_hstore (S fuel) (q2 p k ++ "=" :: rest) false ([], []) h n
  = hsa_hstore fuel rest true (k, []) h (n + List.length (q2 p k) + 1).
Proof.
  intros fuel p k rest h n P1 P2. rewrite hsa_step.
  pose proof (hsa_q2 p k ("=" :: rest) P1 P2 []) as H. pose proof (skipn_q2 p k ("=" :: rest)) as K.
  rewrite q2_len. unfold q2 in *. cbn [app] in *. rewrite beq_refl. cbn [fst snd]. cbv zeta. rewrite H. cbn [bind].
  replace (2 + (2 + List.length (esc2_by p k)))%nat with (4 + List.length (esc2_by p k))%nat by lia.
  rewrite K. change (beq dq dq) with true. cbn [bind].
  transitivity (hsa_hstore fuel rest true (k, []) h (S (n + (4 + List.length (esc2_by p k))))).
  reflexivity. f_equal. lia.
Qed.

(** After a value: a comma (then on) or the closing quote. *)
Lemma hsa_val : forall fuel p k v c rest h n, p dq = true -> p bs = true -> c = "," \/ c = dq ->
  hsa_hstore (S fuel) (q2 p v ++ c :: rest) true (k, []) h n
  = (let n' := S (n + List.length (q2 p v)) in
     if beq c dq then Ok ((false, ([], [])), Some (h ++ [(k, v)], n'))
     else hsa_hstore fuel rest false ([], []) (h ++ [(k, v)]) n').
Proof.
  intros fuel p k v c rest h n P1 P2 C. rewrite hsa_step.
  pose proof (hsa_q2 p v (c :: rest) P1 P2 []) as H. pose proof (skipn_q2 p v (c :: rest)) as K.
  rewrite q2_len. unfold q2 in *. cbn [app] in *. rewrite beq_refl. cbn [fst snd]. cbv zeta. rewrite H. cbn [bind].
  replace (2 + (2 + List.length (esc2_by p v)))%nat with (4 + List.length (esc2_by p v))%nat by lia.
  rewrite K. destruct C as [-> | ->]; reflexivity.
Qed.

Lemma hsa_null : forall fuel k c rest h n, c = "," \/ c = dq ->
  hsa_hstore (S fuel) (B "NULL" ++ c :: rest) true (k, []) h n
  = (let n' := S (n + 4) in
     if beq c dq then Ok ((false, ([], [])), Some (h ++ [(k, [])], n'))
     else hsa_hstore fuel rest false ([], []) (h ++ [(k, [])]) n').
Proof. intros fuel k c rest h n C. rewrite hsa_step. destruct C as [-> | ->]; reflexivity. Qed.

Lemma pair2_len : forall p x, (3 <= List.length (pair2_text p x))%nat.
Proof. intros. unfold pair2_text. rewrite app_length, q2_len. lia. Qed.

Lemma hsa_pair : forall fuel p x c rest h n, good_esc p -> c = "," \/ c = dq ->
  hsa_hstore (3 + fuel) (pair2_text p x ++ c :: rest) false ([], []) h n
  = (let n' := S (n + List.length (pair2_text p x)) in
     if beq c dq then Ok ((false, ([], [])), Some (h ++ [(fst x, str_of (snd x))], n'))
     else hsa_hstore fuel rest false ([], []) (h ++ [(fst x, str_of (snd x))]) n').
Proof.
  intros fuel p [k o] c rest h n (P1 & P2 & _) C. unfold pair2_text. cbn [fst snd].
  rewrite <- !app_assoc. change (["="; ">"] ++ ?x) with ("=" :: ">" :: x).
  cbn [app plus]. rewrite hsa_key by auto.
  rewrite hsa_plain by (intros E; discriminate E).
  destruct o as [v|].
  - rewrite hsa_val by auto. cbn [str_of].
    replace (S (n + List.length (q2 p k) + 1) + List.length (q2 p v))%nat
      with (n + List.length (q2 p k ++ "=" :: ">" :: q2 p v))%nat. reflexivity.
    rewrite !app_length. cbn [List.length]. lia.
  - rewrite hsa_null by auto. cbn [str_of].
    replace (S (n + List.length (q2 p k) + 1) + 4)%nat
      with (n + List.length (q2 p k ++ "=" :: ">" :: B "NULL"))%nat. reflexivity.
    rewrite !app_length. cbn [List.length B list_ascii_of_string]. lia.
Qed.

Lemma hsa_pairs : forall p sep m fuel h n rest, good_esc p -> sep_ok sep ->
  (List.length (join sep (map (pair2_text p) m)) < fuel)%nat ->
  hsa_hstore fuel (join sep (map (pair2_text p) m) ++ dq :: rest) false ([], []) h n
  = Ok ((false, ([], [])), Some (h ++ map (fun x => (fst x, str_of (snd x))) m,
                                 S (n + List.length (join sep (map (pair2_text p) m))))).
Proof.
  intros p sep m. induction m as [|x m IH]; intros fuel h n rest G S L.
  - destruct fuel; [simpl in L; lia|]. cbn [map join app]. rewrite hsa_step. cbv zeta.
    transitivity (@Ok ((bool * pair) * option (list pair * nat)) ((false, ([], [])), Some (h, Datatypes.S n))). reflexivity.
    rewrite app_nil_r. cbn [List.length]. now rewrite Nat.add_0_r.
  - destruct m as [|y m].
    + cbn [map join] in *. pose proof (pair2_len p x).
      replace fuel with (3 + (fuel - 3))%nat by lia. rewrite hsa_pair by auto. rewrite beq_refl. reflexivity.
    + cbn [map] in *. rewrite join_cons in *. rewrite !app_length in *. rewrite <- !app_assoc.
      pose proof (pair2_len p x).
      replace fuel with (3 + (fuel - 3))%nat by lia.
      destruct S as [-> | ->].
      * change ([","] ++ ?a) with ("," :: a). cbn [app]. rewrite hsa_pair by auto.
        change (beq "," dq) with false. cbv zeta iota.
        rewrite IH; auto; [|now left|cbn [List.length] in L; lia].
        rewrite <- app_assoc. cbn [app List.length]. do 4 f_equal. lia.
      * cbn [app]. rewrite hsa_pair by auto.
        change (beq "," dq) with false. cbv zeta iota.
        destruct (fuel - 3)%nat as [|f] eqn:F; [cbn [List.length] in L; lia|].
        rewrite hsa_plain by (intros E; discriminate E).
        rewrite IH; auto; [|now right|cbn [List.length] in L; lia].
        rewrite <- app_assoc. cbn [app List.length]. do 4 f_equal. lia.
Qed.

Lemma hsa_skip : forall s k idx p, hsa_loop s k idx p = hsa_loop (skipn k s) 0 idx p.
Proof. induction s as [|c s IH]; intros [|k] idx p; auto. simpl. apply IH. Qed.

Definition elem2_text (p : ascii -> bool) (sep : bytes) (o : option hmap) : bytes :=
  match o with None => B "NULL" | Some m => dq :: join sep (map (pair2_text p) m) ++ [dq] end.

Definition read_pairs (m : hmap) : list pair := map (fun x => (fst x, str_of (snd x))) m.

Lemma hsa_elem : forall p sep o rest, good_esc p -> sep_ok sep -> sep_start rest ->
  hsa_loop (elem2_text p sep o ++ rest) 0 false ([], [])
  = rmap (cons (option_map read_pairs o)) (hsa_loop rest 0 false ([], [])).
Proof.
  intros p sep o rest G S T. destruct o as [m|]; unfold elem2_text; cbn [option_map].
  - rewrite <- app_comm_cons, <- app_assoc. cbn [app hsa_loop]. rewrite beq_refl.
    rewrite hsa_pairs; auto.
    + cbn [bind]. f_equal. rewrite hsa_skip. cbn [plus].
      replace (Datatypes.S (List.length (join sep (map (pair2_text p) m))))
        with (List.length (join sep (map (pair2_text p) m)) + 1)%nat by lia.
      rewrite skipn_app_plus. reflexivity.
    + rewrite app_length. cbn [List.length]. lia.
  - destruct T as [-> | [r ->]]; reflexivity.
Qed.

Lemma hsa_elems : forall p sep l, good_esc p -> sep_ok sep ->
  hsa_loop (commas (map (elem2_text p sep) l)) 0 false ([], []) = Ok (map (option_map read_pairs) l).
Proof.
  intros p sep l G S. induction l as [|o l IH]; auto. destruct l as [|o' l].
  - simpl map. simpl commas. rewrite <- (app_nil_r (elem2_text p sep o)).
    rewrite hsa_elem by (auto; now left). reflexivity.
  - change (commas (map (elem2_text p sep) (o :: o' :: l)))
      with (elem2_text p sep o ++ "," :: commas (map (elem2_text p sep) (o' :: l))).
    rewrite hsa_elem by (auto; right; eauto).
    change (hsa_loop ("," :: commas (map (elem2_text p sep) (o' :: l))) 0 false ([], []))
      with (hsa_loop (commas (map (elem2_text p sep) (o' :: l))) 0 false ([], [])).
    rewrite IH. reflexivity.
Qed.

Lemma hsa_array : forall p sep l, good_esc p -> sep_ok sep ->
  pgparsehstorearr ("{" :: commas (map (elem2_text p sep) l) ++ ["}"]) = Ok (map (option_map read_pairs) l).
Proof.
  intros p sep l G S. unfold pgparsehstorearr. rewrite drop_ends_wrap. cbn [bind]. now apply hsa_elems.
Qed.

Definition read_map (val : bytes -> option bytes) (m : hmap) : hmap :=
  map (fun x => (fst x, val (str_of (snd x)))) m.

Definition distinct_keys (o : option hmap) : Prop :=
  match o with Some m => NoDup (map fst m) | None => True end.

Lemma hstorearr_scan_gen : forall p sep val l old, good_esc p -> sep_ok sep -> Forall distinct_keys l ->
  HStoreArrayTo val (Some ("{" :: commas (map (elem2_text p sep) l) ++ ["}"])) old
  = Ok (Some (map (option_map (read_map val)) l)).
Proof.
  intros p sep val l old G S F. unfold HStoreArrayTo, srcbytes. rewrite hsa_array by auto.
  unfold rmap. cbn [bind]. do 2 f_equal. rewrite map_map. apply map_ext_in. intros o I.
  destruct o as [m|]; cbn [option_map]; auto. f_equal. unfold read_pairs. rewrite map_map. cbn [fst snd].
  apply build_nodup. unfold read_map; rewrite map_map; cbn [fst snd].
  rewrite Forall_forall in F. exact (F _ I).
Qed.

Lemma hstorearr_literal : forall l,
  HStoreArrayFrom (Some l) = Some ("{" :: commas (map (elem2_text needs_esc [","]) l) ++ ["}"]).
Proof.
  intros. unfold HStoreArrayFrom. rewrite arr_value_commas. do 2 f_equal. f_equal. f_equal.
  apply map_ext. intros [m|]; auto. apply enc_hstore_text.
Qed.

(** The server's array text. *)
Definition hstore_array_text (l : list (option hstore)) : bytes := array_out (map (option_map hstore_out) l).

Lemma hstore_elem_out : forall o, elem_out (option_map hstore_out o) = elem2_text pg_esc [","; " "] o.
Proof.
  intros [m|]; [|reflexivity]. cbn [option_map elem2_text]. unfold elem_out. rewrite hstore_out_text.
  assert (needs_quotes (join [","; " "] (map (pair_text pg_esc) m)) = true) as ->.
  { destruct m as [|x m]. reflexivity.
    assert (In dq (join [","; " "] (map (pair_text pg_esc) (x :: m)))).
    { destruct m; cbn [map join]; unfold pair_text, q. now left. rewrite <- !app_comm_cons. now left. }
    unfold needs_quotes. destruct (join _ _); [contradiction|]. apply orb_true_iff. right.
    apply existsb_exists. exists dq. auto. }
  rewrite pg_escape_by. fold pg_esc.
  change (fun c => if in_dec ascii_dec c [""""; "\"] then true else false) with pg_esc.
  rewrite esc_by_join. reflexivity. apply good_pg. now right.
Qed.

Lemma hstorearr_scan_server : forall val l old, Forall distinct_keys l ->
  HStoreArrayTo val (Some (hstore_array_text l)) old = Ok (Some (map (option_map (read_map val)) l)).
Proof.
  intros val l old F. unfold hstore_array_text, array_out. rewrite map_map.
  rewrite (map_ext _ _ hstore_elem_out). apply hstorearr_scan_gen; auto. apply good_pg. now right.
Qed.

Lemma hstorearr_scan_own : forall val l old, Forall distinct_keys l ->
  HStoreArrayTo val (HStoreArrayFrom (Some l)) old = Ok (Some (map (option_map (read_map val)) l)).
Proof.
  intros val l old F. rewrite hstorearr_literal. apply hstorearr_scan_gen; auto. apply good_go. now left.
Qed.
