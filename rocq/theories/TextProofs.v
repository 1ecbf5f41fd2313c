(** Text-like arrays: client round trip, what the server reads, and what the
    scanner makes of the server's rendering. *)
From Coq Require Import Ascii String ZArith NArith Bool List Lia.
From Verif Require Import GoBase Strconv ConvertUtil ConvertProofs Codecs PgSpec PgSpecProofs.
Import ListNotations.
Local Open Scope char_scope.

Lemma join_commas : forall l, join [","] l = commas l.
Proof. induction l as [|x [|y l] IH]; auto. simpl in *. now rewrite IH. Qed.

Lemma arr_value_commas : forall {A} (enc : A -> bytes) l,
  arr_value enc (Some l) = Some ("{" :: commas (map enc l) ++ ["}"]).
Proof.
  intros A enc [|x l]. reflexivity.
  unfold arr_value. rewrite write_sep_join by discriminate. now rewrite join_commas.
Qed.

(** The literal of an array Valuer is read by the server elementwise. *)
Lemma arr_value_in : forall {A} (enc : A -> bytes) (mean : A -> option bytes) l,
  (forall x, In x l -> elem_reads (enc x) (mean x)) ->
  exists d, arr_value enc (Some l) = Some d /\ array_in d = Some (map mean l).
Proof.
  intros A enc mean l H. eexists. split. apply arr_value_commas.
  apply array_in_commas. induction l; simpl; constructor. apply H; simpl; auto.
  apply IHl. intros; apply H; simpl; auto.
Qed.

Lemma esc1_by : forall e, esc1 e = esc_by needs_esc e.
Proof. reflexivity. Qed.

Lemma quote1_reads : forall e, elem_reads (quote1 e) (Some e).
Proof.
  intros. change (quote1 e) with (dq :: esc_by needs_esc e ++ [dq]). now apply elem_reads_quo.
Qed.

Lemma enc_text_reads : forall o, elem_reads (enc_text o) o.
Proof. intros [e|]. apply quote1_reads. apply elem_reads_null. Qed.

(** *** client round trip *)
Lemma text_bytes_roundtrip : forall v old,
  TextArrayToByteSliceSlice (TextArrayFromByteSliceSlice v) old = Ok v.
Proof.
  intros [[|o l]|] old; try reflexivity.
  unfold TextArrayToByteSliceSlice, TextArrayFromByteSliceSlice, arr_value, arr_scan, srcbytes.
  change (fun o0 : option bytes => match o0 with Some e => quote1 e | None => B "NULL" end) with enc_text.
  rewrite string_array_write by discriminate. reflexivity.
Qed.

Lemma map_str_of_some : forall l, map str_of (map Some l) = l.
Proof. intros. rewrite map_map. simpl. apply map_id. Qed.

Lemma text_strings_roundtrip : forall v old,
  TextArrayToStringSlice (TextArrayFromStringSlice v) old = Ok v.
Proof.
  intros [[|o l]|] old; try reflexivity.
  unfold TextArrayToStringSlice, TextArrayFromStringSlice, arr_value, arr_scan, srcbytes.
  replace (map quote1 (o :: l)) with (map enc_text (map Some (o :: l))) by (rewrite map_map; reflexivity).
  rewrite string_array_write by discriminate.
  unfold rmap, bind. now rewrite map_str_of_some.
Qed.

(** *** what the server reads *)
Lemma text_bytes_server : forall l,
  exists d, TextArrayFromByteSliceSlice (Some l) = Some d /\ array_in d = Some l.
Proof.
  intros. destruct (arr_value_in enc_text (fun o => o) l) as (d & H1 & H2).
  { intros; apply enc_text_reads. }
  exists d. rewrite map_id in H2. auto.
Qed.

Lemma text_strings_server : forall l,
  exists d, TextArrayFromStringSlice (Some l) = Some d /\ array_in d = Some (map Some l).
Proof.
  intros. apply (arr_value_in quote1 Some). intros; apply quote1_reads.
Qed.

(** *** what the scanner makes of the server's rendering *)
Lemma sa_quoted_by : forall p, p dq = true -> p bs = true -> forall e rest str k ib,
  sa_quoted (esc_by p e ++ dq :: rest) str k ib = inl (str ++ e, S (k + List.length (esc_by p e))).
Proof.
  intros p P1 P2. induction e as [|c e IH]; intros.
  - simpl. rewrite app_nil_r. pairlia.
  - unfold esc_by. cbn [flat_map]. fold (esc_by p e). destruct (p c) eqn:E.
    + cbn [app sa_quoted]. change (beq "\" bs) with true. cbv iota.
      rewrite IH, <- app_assoc. cbn [app List.length]. pairlia.
    + cbn [app sa_quoted].
      destruct (beq c bs) eqn:E1. { apply beq_eq in E1. congruence. }
      destruct (beq c dq) eqn:E2. { apply beq_eq in E2. congruence. }
      rewrite IH, <- app_assoc. cbn [app List.length]. pairlia.
Qed.

Lemma sa_quote_by : forall p e rest, p dq = true -> p bs = true ->
  sa_loop (dq :: esc_by p e ++ dq :: rest) 0 = Some e :: sa_loop rest 0.
Proof.
  intros p e rest P1 P2.
  change (sa_loop (dq :: esc_by p e ++ dq :: rest) 0) with
    (match sa_quoted (esc_by p e ++ dq :: rest) [] 0 0 with
     | inl (str, k) => Some str :: sa_loop (esc_by p e ++ dq :: rest) k
     | inr k => sa_loop (esc_by p e ++ dq :: rest) k end).
  rewrite sa_quoted_by by auto. cbn [app]. rewrite sa_skip.
  replace (S (0 + List.length (esc_by p e))) with (List.length (esc_by p e) + 1)%nat by lia.
  rewrite skipn_app_plus. reflexivity.
Qed.

(** What may follow an element: nothing or a comma. *)
Definition sep_start (rest : bytes) : Prop := rest = [] \/ exists r, rest = "," :: r.

Lemma upto_sep : forall e rest, nochar "," e -> sep_start rest -> upto "," (e ++ rest) = e.
Proof.
  intros e rest N [-> | [r ->]]. rewrite app_nil_r. now apply upto_all. now apply upto_app.
Qed.

Lemma plain_nochar : forall e c, plain e -> pg_special c = true -> nochar c e.
Proof.
  intros e c H S I. unfold plain in H. rewrite Forall_forall in H. apply H in I. congruence.
Qed.

Lemma prefix_sep_gen : forall p e rest, nochar "," p -> sep_start rest ->
  has_prefix p (e ++ rest) = has_prefix p e.
Proof.
  induction p as [|x p IH]; intros e rest N S. destruct e; reflexivity.
  apply nochar_cons in N. destruct N as [N1 N2].
  destruct e as [|y e].
  - destruct S as [-> | [r ->]]; auto. cbn [app has_prefix].
    apply Ascii.eqb_neq in N1. now rewrite N1.
  - cbn [app has_prefix]. now rewrite IH.
Qed.

Lemma prefix_sep : forall e rest, sep_start rest ->
  has_prefix (B "NULL") (e ++ rest) = has_prefix (B "NULL") e.
Proof.
  intros. apply prefix_sep_gen; auto. intros I. simpl in I. intuition discriminate.
Qed.

Lemma sa_sep : forall rest, sep_start rest -> sa_loop rest 0 = sa_loop (skipn 1 rest) 0.
Proof. intros rest [-> | [r ->]]; reflexivity. Qed.

(** An unquoted element gives itself, unless it begins with NULL; then it
    gives at least two elements. *)
Lemma sa_unq : forall n e rest, (List.length e <= n)%nat -> e <> [] -> plain e -> sep_start rest ->
  exists pre, pre <> [] /\ sa_loop (e ++ rest) 0 = pre ++ sa_loop rest 0
    /\ (has_prefix (B "NULL") e = false -> pre = [Some e])
    /\ (has_prefix (B "NULL") e = true -> e <> B "NULL" -> (2 <= List.length pre)%nat).
Proof.
  induction n as [|n IH]; intros e rest L N P SS.
  { destruct e; simpl in L; [congruence|lia]. }
  destruct (has_prefix (B "NULL") e) eqn:HP.
  - destruct e as [|x0 [|x1 [|x2 [|x3 e]]]]; try (simpl in HP; rewrite ?andb_false_r in HP; discriminate).
    assert (E : x0 = "N" /\ x1 = "U" /\ x2 = "L" /\ x3 = "L").
    { unfold B in HP; cbn [has_prefix list_ascii_of_string] in HP. repeat (apply andb_prop in HP; destruct HP as [? HP]).
      repeat match goal with H : Ascii.eqb _ _ = true |- _ => apply Ascii.eqb_eq in H end. subst. auto. }
    destruct E as (-> & -> & -> & ->).
    assert (SL : sa_loop (("N" :: "U" :: "L" :: "L" :: e) ++ rest) 0 = None :: sa_loop (e ++ rest) 0).
    { cbn [app]. reflexivity. }
    destruct e as [|y e].
    + exists [None]. split; [discriminate|]. split. exact SL.
      split. discriminate. intros _ C. exfalso. apply C. reflexivity.
    + destruct (IH (y :: e) rest) as (pre & N1 & E1 & _ & _).
      { simpl in *. lia. } { discriminate. }
      { unfold plain in *. do 4 apply Forall_inv_tail in P. exact P. } { exact SS. }
      exists (None :: pre). split; [discriminate|]. split.
      { rewrite SL, E1. reflexivity. }
      split; [discriminate|]. intros _ _. destruct pre; [congruence|]. simpl. lia.
  - exists [Some e]. split; [discriminate|]. split; [|split; [auto|discriminate]].
    destruct e as [|c e]; [congruence|].
    assert (Hc := P). unfold plain in Hc. apply Forall_inv in Hc. apply special_false in Hc.
    destruct Hc as (A1 & A2 & A3 & A4 & A5 & _).
    assert (HP' : has_prefix (B "NULL") ((c :: e) ++ rest) = false) by (rewrite prefix_sep; auto).
    cbn [app] in *.
    assert (U : upto "," (e ++ rest) = e).
    { apply upto_sep; auto. apply Forall_inv_tail in P. now apply plain_nochar. }
    transitivity (if beq c "," then sa_loop (e ++ rest) 0
          else if beq c dq then
            match sa_quoted (e ++ rest) [] 0 0 with
            | inl (str, k) => Some str :: sa_loop (e ++ rest) k
            | inr k => sa_loop (e ++ rest) k
            end
          else if has_prefix (B "NULL") (c :: e ++ rest) then None :: sa_loop (e ++ rest) 3
          else
            let e := upto "," (e ++ rest) in
            Some (c :: e) :: sa_loop (skipn 0 (skipn (length (c :: e)) (c :: e)) ++ rest) 1).
    + cbn [sa_loop]. rewrite HP'.
      destruct (beq c ","); auto. destruct (beq c dq); auto.
      rewrite U. cbv zeta. f_equal.
      rewrite sa_skip. replace (Datatypes.S (List.length e)) with (List.length e + 1)%nat by lia.
      rewrite skipn_app_plus. rewrite (sa_skip (_ ++ rest)).
      replace (skipn (List.length (c :: e)) (c :: e)) with (@nil ascii).
      reflexivity. symmetry. apply skipn_all.
    + apply beq_neq in A5. rewrite A5. apply beq_neq in A1. change (beq c """") with (beq c dq) in A1.
      rewrite A1, HP', U. cbv zeta. f_equal.
      replace (skipn (List.length (c :: e)) (c :: e)) with (@nil ascii) by (symmetry; apply skipn_all).
      cbn [app skipn]. rewrite sa_skip. symmetry. now apply sa_sep.
Qed.

(** An element that array_out leaves unquoted although it begins with NULL. *)
Definition null_prefixed (o : option bytes) : bool :=
  match o with
  | Some e => negb (needs_quotes e) && has_prefix (B "NULL") e
  | None => false
  end.

Lemma sa_elem_out : forall o rest, sep_start rest ->
  exists pre, sa_loop (elem_out o ++ rest) 0 = pre ++ sa_loop rest 0
    /\ (null_prefixed o = false -> pre = [o])
    /\ (1 <= List.length pre)%nat
    /\ (null_prefixed o = true -> (2 <= List.length pre)%nat).
Proof.
  intros [e|] rest S; unfold elem_out, null_prefixed.
  - destruct (needs_quotes e) eqn:Q.
    + exists [Some e]. split; [|simpl; split; [auto|split; [lia|discriminate]]].
      rewrite pg_escape_by, <- app_comm_cons, <- app_assoc. apply sa_quote_by; reflexivity.
    + apply needs_quotes_false in Q. destruct Q as (N & Nw & P).
      destruct (sa_unq (List.length e) e rest) as (pre & N1 & E1 & A & C); auto.
      exists pre. split; [exact E1|]. cbn [negb andb]. split; [exact A|].
      split. destruct pre; [congruence|simpl; lia].
      intros HP. apply C; auto. intros ->. discriminate.
  - exists [None]. split; [|simpl; split; [auto|split; [lia|discriminate]]]. reflexivity.
Qed.

Lemma sa_array_out : forall l,
  let out := sa_loop (commas (map elem_out l)) 0 in
  (existsb null_prefixed l = false -> out = l) /\
  (List.length l <= List.length out)%nat /\
  (existsb null_prefixed l = true -> (List.length l < List.length out)%nat).
Proof.
  induction l as [|o l IH]; cbv zeta.
  - simpl. repeat split; auto; discriminate.
  - destruct l as [|o' l].
    + simpl map. simpl commas. destruct (sa_elem_out o []) as (pre & E & A & L & C). { now left. }
      rewrite app_nil_r in E. rewrite E. cbn [sa_loop]. rewrite app_nil_r.
      simpl existsb. rewrite orb_false_r. simpl List.length.
      repeat split; auto.
    + change (commas (map elem_out (o :: o' :: l)))
        with (elem_out o ++ "," :: commas (map elem_out (o' :: l))).
      destruct (sa_elem_out o ("," :: commas (map elem_out (o' :: l)))) as (pre & E & A & L & C).
      { right. eauto. }
      rewrite E. change (sa_loop ("," :: commas (map elem_out (o' :: l))) 0)
        with (sa_loop (commas (map elem_out (o' :: l))) 0).
      destruct IH as (I1 & I2 & I3).
      change (existsb null_prefixed (o :: o' :: l)) with (null_prefixed o || existsb null_prefixed (o' :: l)).
      rewrite app_length. change (List.length (o :: o' :: l)) with (S (List.length (o' :: l))).
      repeat split.
      * intros H. apply orb_false_iff in H. destruct H as [H1 H2]. rewrite A, I1 by auto. reflexivity.
      * lia.
      * intros H. apply orb_true_iff in H. destruct H as [H|H].
        specialize (C H). lia. specialize (I3 H). lia.
Qed.

Lemma string_array_out : forall l,
  pgParseStringArray (array_out l) = Ok (sa_loop (commas (map elem_out l)) 0).
Proof.
  intros. unfold pgParseStringArray, array_out. now rewrite drop_ends_wrap.
Qed.

Lemma text_bytes_scan_server : forall l old,
  TextArrayToByteSliceSlice (Some (array_out l)) old = Ok (Some l)
  <-> existsb null_prefixed l = false.
Proof.
  intros. unfold TextArrayToByteSliceSlice, arr_scan, srcbytes. rewrite string_array_out.
  destruct (sa_array_out l) as (A & _ & C). split.
  - intros H. injection H as H. destruct (existsb null_prefixed l); auto.
    specialize (C eq_refl). rewrite H in C. exfalso; exact (Nat.lt_irrefl _ C).
  - intros H. unfold rmap, bind. now rewrite A.
Qed.

(** For strings a NULL element reads as the empty string. *)
Lemma text_strings_scan_server : forall l old,
  TextArrayToStringSlice (Some (array_out l)) old
  = Ok (Some (map (fun o => match o with Some e => e | None => [] end) l))
  <-> existsb null_prefixed l = false.
Proof.
  intros. unfold TextArrayToStringSlice, arr_scan, srcbytes. rewrite string_array_out.
  destruct (sa_array_out l) as (A & _ & C). split.
  - intros H. injection H as H. destruct (existsb null_prefixed l); auto.
    specialize (C eq_refl). apply (f_equal (@List.length _)) in H. rewrite !map_length in H. exfalso; unfold bytes, text in *; lia.
  - intros H. unfold rmap, bind. rewrite A by auto. reflexivity.
Qed.
