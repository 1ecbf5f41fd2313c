(** Definitions and proofs used by PropsDates.v. *)
From Coq Require Import Ascii String ZArith NArith Bool List Lia.
From Verif Require Import GoBase Strconv StrconvProofs ConvertUtil ConvertProofs Codecs PgSpec PgSpecProofs SimpleProofs TextProofs IntProofs TimeSpec Times TimeCodecs TimeProofs.
Import ListNotations.
Local Open Scope char_scope.

(** Year 1 to 9999 and a real day. *)
Definition valid_date (t : time) : Prop := pdate_ok (date_of t) /\ (1 <= tm_year t <= 9999)%Z.

Definition valid_clock (t : time) : Prop :=
  (tm_hour t < 24)%N /\ (tm_min t < 60)%N /\ (tm_sec t < 60)%N /\ (tm_nsec t < 1000000000)%N.

Definition valid_off (t : time) : Prop := (- 57600 < tm_off t < 57600)%Z.

(** A time.Time for a date, for a time of day and for both. *)
Definition go_time (d : pdate) (c : clock) (off : Z) : time :=
  MkTime (Z.of_N (d_year d)) (d_month d) (d_day d) (c_hour c) (c_min c) (c_sec c) (c_us c * 1000) off.

Definition midnight : clock := MkC 0 0 0 0.

Definition in_years (d : pdate) : bool := negb (d_bc d) && (d_year d <=? 9999)%N.

Definition date_read (v : date_val) : res time :=
  match v with
  | DateFinite d => if in_years d then Ok (go_time d midnight 0) else Err
  | DateInfinity _ => Err
  end.

(** Go puts a time of day on January 1 of the year 0. *)
Definition time_read (v : time_val) : res time :=
  match v with
  | TimeOfDay c => Ok (MkTime 0 1 1 (c_hour c) (c_min c) (c_sec c) (c_us c * 1000) 0)
  | EndOfDay => Err
  end.

Definition ts_read (v : stamp_val) : res time :=
  match v with
  | StampFinite d c => if in_years d then Ok (go_time d c 0) else Err
  | StampInfinity _ => Err
  end.

(** Only zones of whole hours. *)
Definition tstz_read (v : stamp_val * zone) : res time :=
  match v with
  | (StampFinite d c, z) =>
      if in_years d && (z_min z =? 0)%N && (z_sec z =? 0)%N then Ok (go_time d c (zone_secs z)) else Err
  | (StampInfinity _, _) => Err
  end.

(** Only zones of hours and minutes that are not whole hours. *)
Definition timetz_read (v : time_val * zone) : res time :=
  match v with
  | (TimeOfDay c, z) =>
      if negb (z_min z =? 0)%N && (z_sec z =? 0)%N
      then Ok (MkTime 0 1 1 (c_hour c) (c_min c) (c_sec c) (c_us c * 1000) (zone_secs z)) else Err
  | (EndOfDay, _) => Err
  end.

Definition null_as {V} (n : res time) (f : V -> res time) (o : option V) : res time :=
  match o with Some v => f v | None => n end.

Lemma pdate_ok_days : forall d, pdate_ok d -> in_years d = true ->
  ((d_day d <? 1)%N || (daysIn (d_month d) (Z.of_N (d_year d)) <? d_day d)%N) = false
  /\ (d_year d <= 9999)%N /\ (1 <= d_month d <= 12)%N /\ d_bc d = false.
Proof.
  intros [bc y m d] (Y & M & D1 & D2) I. unfold in_years in I. cbn [d_bc d_year d_month d_day] in *.
  apply andb_true_iff in I. destruct I as [I1 I2]. apply negb_true_iff in I1. subst bc. apply N.leb_le in I2.
  rewrite month_days_daysIn in D2 by auto. repeat split; try tauto; try lia.
  apply orb_false_iff. split; apply N.ltb_ge; lia.
Qed.

Definition head_ok (b : bytes) : Prop := exists c r, b = c :: r /\ c <> "N" /\ c <> "n".

Definition spaced (b : bytes) : bool := existsb (fun c => beq c " ") b.

Lemma digits_spaced : forall k b n, digits k b n -> spaced b = false.
Proof.
  intros k b n (_ & D & _). unfold spaced. clear k n. induction b as [|c b IH]; auto.
  cbn [forallb] in D. apply andb_true_iff in D. destruct D as [D1 D2]. cbn [existsb]. rewrite IH by auto.
  destruct (beq c " ") eqn:E; auto. apply beq_eq in E. subst. discriminate.
Qed.

Lemma spaced_app : forall a b, spaced (a ++ b) = spaced a || spaced b.
Proof. intros. apply existsb_app. Qed.

Lemma year_spaced : forall y n, year_text y n -> spaced y = false.
Proof. intros y n [D|[(k & _ & D) _]]; eapply digits_spaced, D. Qed.

Lemma ymd_spaced : forall b d, ymd_text b d -> spaced b = false.
Proof.
  intros b d (y & m & dd & Hy & Hm & Hd & ->). rewrite spaced_app, (year_spaced y _ Hy).
  change (spaced ("-" :: m ++ "-" :: dd)) with (spaced (m ++ "-" :: dd)).
  rewrite spaced_app, (digits_spaced 2 m _ Hm).
  change (spaced ("-" :: dd)) with (spaced dd). now rewrite (digits_spaced 2 dd _ Hd).
Qed.

Lemma ymd_head : forall b d, ymd_text b d -> exists c r, b = c :: r /\ is_digit c = true.
Proof.
  intros b d (y & m & dd & Hy & Hm & Hd & ->).
  assert (H : exists k, (0 < k)%nat /\ digits k y (d_year d)).
  { destruct Hy as [D|[(k & K & D) _]]; eexists; (split; [|exact D]); lia. }
  destruct H as (k & K & L & D & _). destruct y as [|c y]. simpl in L; lia.
  cbn [forallb] in D. apply andb_true_iff in D. exists c. eexists. split. reflexivity. tauto.
Qed.

Lemma clock_head : forall b c, clock_text b c -> exists x r, b = x :: r /\ is_digit x = true.
Proof.
  intros b c (h & m & s & f & Hh & _ & _ & _ & ->). destruct (digits2_inv h _ Hh) as (x & y & -> & D & _).
  exists x. eexists. split. reflexivity. auto.
Qed.

Lemma digit_head : forall c r, is_digit c = true -> head_ok (c :: r).
Proof. intros c r D. exists c, r. repeat split; intros ->; discriminate. Qed.

(** dates *)
Lemma date_facts : forall b v, date_text b v ->
  head_ok b /\ forallb tchar b = true
  /\ ((spaced b = false /\ Parse dateLayout b = date_read v) \/ (spaced b = true /\ date_read v = Err)).
Proof.
  intros b [d|neg] H; cbn [date_text] in H.
  - destruct H as (O & x & X & ->). destruct (ymd_head x d X) as (c & r & E & D).
    split; [subst x; cbn [app]; now apply digit_head|]. split.
    { rewrite forallb_app, (tchar_ymd x d X). unfold era_text. now destruct (d_bc d). }
    unfold era_text. destruct (d_bc d) eqn:BC.
    + right. split. rewrite spaced_app, (ymd_spaced x d X). reflexivity.
      cbn [date_read]. unfold in_years. now rewrite BC.
    + left. rewrite app_nil_r. split. now apply (ymd_spaced x d). cbn [date_read].
      destruct (in_years d) eqn:I.
      * destruct (pdate_ok_days d O I) as (P & Y & M & _).
        unfold Parse. change dateLayout with (date_chunks ++ []). rewrite <- (app_nil_r x).
        rewrite (parse_ymd x d [] [] pst0) by auto. cbn [parse_chunks set_date p_month p_day p_year]. rewrite P. reflexivity.
      * unfold in_years in I. rewrite BC in I. cbn [negb andb] in I. apply N.leb_gt in I.
        apply parse_none. change dateLayout with (date_chunks ++ []). rewrite <- (app_nil_r x).
        now apply (parse_long_year x d).
  - subst b. destruct neg; (split; [eexists; eexists; repeat split; discriminate|]); split; auto.
Qed.

Lemma quote_dq : forall b l s r, l = ([], s) :: r -> s = StdLongYear \/ s = StdHour -> Parse l (dq :: b) = Err.
Proof. intros b l s r -> H. apply parse_none. now apply parse_nodigit. Qed.

Lemma elem_out_head : forall b, head_ok b -> forallb tchar b = true ->
  elem_out (Some b) = if spaced b then dq :: b ++ [dq] else b.
Proof. intros b (c & r & -> & H1 & H2) T. unfold spaced. now rewrite elem_out_t. Qed.

Lemma bound_out_head : forall b, head_ok b -> forallb tchar b = true ->
  bound_out b = if spaced b then dq :: b ++ [dq] else b.
Proof. intros b (c & r & -> & _ & _) T. now apply bound_out_t. Qed.

Lemma elem_out_facts : forall b, head_ok b -> forallb tchar b = true ->
  nochar "," (elem_out (Some b)) /\ elem_out (Some b) <> [].
Proof.
  intros b H T. rewrite elem_out_head by auto. assert (N := tchar_nochar "," b eq_refl T).
  destruct (spaced b).
  - split; [|discriminate]. apply nochar_cons. split. discriminate. apply nochar_app. split; auto.
    apply nochar_cons. split. discriminate. intros [].
  - split; auto. destruct H as (? & ? & -> & _). discriminate.
Qed.

(** comma separated arrays *)
Lemma mapM_forall2 : forall {A C D} (R : A -> C -> Prop) (f : A -> res D) (g : C -> res D) l l',
  Forall2 R l l' -> (forall a c, R a c -> f a = g c) -> mapM f l = mapM g l'.
Proof.
  intros A C D R f g l l' F H. induction F as [|a c l l' Hac F IH]; auto.
  cbn [mapM]. rewrite (H a c Hac). destruct (g c); cbn [bind]; auto. now rewrite IH.
Qed.

Lemma comma_read : forall {V D} (R : text -> V -> Prop) (parse : bytes -> res D) (mean : option V -> res D) els vs,
  Forall2 (opt_rel R) els vs ->
  (forall o v, opt_rel R o v -> nochar "," (elem_out o) /\ elem_out o <> [] /\ parse (elem_out o) = mean v) ->
  bind (pgParseCommaArray (array_out els)) (mapM parse) = mapM mean vs.
Proof.
  intros V D R parse mean els vs F H.
  assert (E : pgParseCommaArray (array_out els) = Ok (map elem_out els)).
  { assert (G := array_out_comma (fun x : option bytes => x) els). rewrite map_id in G. apply G.
    clear - F H. intros o I. induction F as [|x y l l' Hxy F IH]; [destruct I|]. destruct I as [<-|I]; auto.
    destruct (H x y Hxy) as (? & ? & _). auto. }
  rewrite E. cbn [bind]. rewrite <- (mapM_forall2 (opt_rel R) (fun o => parse (elem_out o)) mean els vs F).
  - clear. induction els as [|o els IH]; auto. cbn [map mapM]. destruct (parse (elem_out o)); auto. cbn [bind].
    now rewrite IH.
  - intros o v O. now apply H.
Qed.

Lemma C77_write_proof : forall ts, Forall valid_date ts ->
  exists bs, Forall2 (fun b t => date_text b (DateFinite (date_of t))) bs ts
    /\ DateArrayFromTimeSlice (Some ts) = Some (array_out (map Some bs)).
Proof.
  intros ts F. exists (map (Format dateLayout) ts). split.
  - induction F as [|t ts [O Y] F IH]; constructor; auto. split; auto. exists (Format dateLayout t).
    split. now apply format_ymd. cbn [era_text date_of d_bc]. now rewrite app_nil_r.
  - unfold DateArrayFromTimeSlice. rewrite map_map. apply arr_value_out. intros t I.
    rewrite Forall_forall in F. destruct (F t I) as [O Y].
    assert (X := format_ymd t O Y).
    assert (DT : date_text (Format dateLayout t) (DateFinite (date_of t))).
    { split; auto. exists (Format dateLayout t). split; auto. cbn [era_text date_of d_bc]. now rewrite app_nil_r. }
    destruct (date_facts _ _ DT) as (H & T & _). rewrite elem_out_head by auto.
    now rewrite (ymd_spaced _ _ X).
Qed.

Lemma C77_read_proof : forall els vs old, Forall2 (opt_rel date_text) els vs ->
  DateArrayToTimeSlice (Some (array_out els)) old = rmap Some (mapM (null_as Err date_read) vs).
Proof.
  intros els vs old F. unfold DateArrayToTimeSlice, arr_scan. cbn [srcbytes]. f_equal.
  apply (comma_read date_text (Parse dateLayout) _ els vs F). intros [b|] [v|] H; cbn [opt_rel] in H; try tauto.
  - destruct (date_facts b v H) as (H1 & H2 & H3). destruct (elem_out_facts b H1 H2) as [E1 E2].
    split; [|split]; auto. rewrite elem_out_head by auto. cbn [null_as].
    destruct H3 as [[-> H3]|[-> H3]]; auto. rewrite H3. eapply quote_dq. reflexivity. auto.
  - repeat split. intros [E|[E|[E|[E|[]]]]]; discriminate. discriminate.
Qed.

Definition day_of (t : time) : time := MkTime (tm_year t) (tm_month t) (tm_day t) 0 0 0 0 0.

Lemma C77_roundtrip_proof : forall ts old, Forall valid_date ts ->
  DateArrayToTimeSlice (DateArrayFromTimeSlice (Some ts)) old = Ok (Some (map day_of ts)).
Proof.
  intros ts old F. destruct (C77_write_proof ts F) as (b & F2 & ->).
  rewrite (C77_read_proof (map Some b) (map (fun t => Some (DateFinite (date_of t))) ts) old).
  - cbn [rmap]. replace (mapM _ _) with (Ok (map day_of ts)). reflexivity.
    symmetry. apply mapM_map. intros t I. rewrite Forall_forall in F. destruct (F t I) as [O Y].
    cbn [null_as date_read]. unfold in_years. cbn [date_of d_bc negb andb d_year].
    replace (Z.to_N (tm_year t) <=? 9999)%N with true by (symmetry; apply N.leb_le; lia).
    unfold go_time, day_of. cbn. rewrite Z2N.id by lia. reflexivity.
  - clear F. induction F2; constructor; auto.
Qed.

Definition bt (o : option text) : text := match o with Some b => bound_out b | None => [] end.

Definition opn (i : bool) : ascii := if i then "[" else "(".

Definition cls (i : bool) : ascii := if i then "]" else ")".

Lemma range_text_eq : forall li ui lo hi, range_text li ui lo hi = opn li :: bt lo ++ "," :: bt hi ++ [cls ui].
Proof. reflexivity. Qed.

(** What the bounds have in common, of dates and of timestamps. *)
Definition texts {V} (R : text -> V -> Prop) : Prop := forall b v, R b v -> head_ok b /\ forallb tchar b = true.

Lemma date_texts : texts date_text.
Proof. intros b v H. destruct (date_facts b v H) as (? & ? & _). auto. Qed.

Lemma bt_nocomma : forall {V} (R : text -> V -> Prop) o v, texts R -> opt_rel R o v -> nochar "," (bt o).
Proof.
  intros V R [b|] [v|] T H; cbn [opt_rel bt] in *; try tauto; [|intros []].
  destruct (T b v H) as [H1 H2]. rewrite bound_out_head by auto. assert (N := tchar_nochar "," b eq_refl H2).
  destruct (spaced b); auto. apply nochar_cons. split. discriminate. apply nochar_app. split; auto.
  apply nochar_cons. split. discriminate. intros [].
Qed.

Lemma range_halves : forall {V} (R : text -> V -> Prop) li ui tl th lo, texts R -> opt_rel R tl lo ->
  pgParseRange (range_text li ui tl th) = Ok (Some (bt tl), Some (bt th)).
Proof.
  intros V R li ui tl th lo T H. rewrite range_text_eq. apply range_parse. now apply (bt_nocomma R tl lo).
Qed.

(** *** Arrays of ranges *)
Lemma escape_app : forall a b, pg_escape (a ++ b) = pg_escape a ++ pg_escape b.
Proof. intros. apply flat_map_app. Qed.

Lemma escape_cons : forall c b, c <> dq -> c <> bs -> pg_escape (c :: b) = c :: pg_escape b.
Proof.
  intros c b H1 H2. unfold pg_escape. cbn [flat_map]. destruct in_dec as [i|]; auto. exfalso.
  simpl in i. unfold dq, bs in *. destruct i as [E|[E|[]]]; congruence.
Qed.

Lemma escape_t : forall b, forallb tchar b = true -> pg_escape b = b.
Proof. intros b T. apply esc_none; (apply tchar_nochar; [reflexivity|auto]). Qed.

Definition ebt (o : option text) : text :=
  match o with Some b => if spaced b then bs :: dq :: b ++ [bs; dq] else b | None => [] end.

Lemma escape_bt : forall {V} (R : text -> V -> Prop) o v, texts R -> opt_rel R o v -> pg_escape (bt o) = ebt o.
Proof.
  intros V R [b|] [v|] T H; cbn [opt_rel bt ebt] in *; try tauto; auto.
  destruct (T b v H) as [H1 H2]. rewrite bound_out_head by auto. destruct (spaced b); [|now apply escape_t].
  change (dq :: b ++ [dq]) with ([dq] ++ b ++ [dq]). rewrite !escape_app, (escape_t b) by auto. reflexivity.
Qed.

Lemma escape_range : forall {V} (R : text -> V -> Prop) li ui tl th lo hi, texts R -> opt_rel R tl lo -> opt_rel R th hi ->
  pg_escape (range_text li ui tl th) = opn li :: ebt tl ++ "," :: ebt th ++ [cls ui].
Proof.
  intros V R li ui tl th lo hi T H1 H2. rewrite range_text_eq.
  rewrite escape_cons by (destruct li; discriminate). rewrite escape_app, (escape_bt R tl lo) by auto.
  rewrite escape_cons by discriminate. rewrite escape_app, (escape_bt R th hi) by auto.
  do 4 f_equal. destruct ui; reflexivity.
Qed.

Lemma ebt_nocomma : forall {V} (R : text -> V -> Prop) o v, texts R -> opt_rel R o v -> nochar "," (ebt o).
Proof.
  intros V R [b|] [v|] T H; cbn [opt_rel ebt] in *; try tauto; [|intros []].
  destruct (T b v H) as [H1 H2]. assert (N := tchar_nochar "," b eq_refl H2).
  destruct (spaced b); auto. apply nochar_cons. split. discriminate. apply nochar_cons. split. discriminate.
  apply nochar_app. split; auto. apply nochar_cons. split. discriminate. apply nochar_cons. split. discriminate. intros [].
Qed.

Lemma qsa_quoted_esc : forall e rest acc, qsa_quoted (pg_escape e ++ dq :: rest) acc = Some (acc ++ pg_escape e).
Proof.
  induction e as [|c e IH]; intros rest acc.
  - cbn. now rewrite app_nil_r.
  - unfold pg_escape. cbn [flat_map]. fold (pg_escape e). destruct in_dec as [i|i].
    + change (([ "\"; c] ++ pg_escape e) ++ dq :: rest) with (bs :: c :: pg_escape e ++ dq :: rest).
      cbn [qsa_quoted]. rewrite beq_refl, IH, <- app_assoc. reflexivity.
    + cbn [app qsa_quoted]. assert (E1 : beq c bs = false) by (apply beq_neq; intros ->; apply i; simpl; auto).
      assert (E2 : beq c dq = false) by (apply beq_neq; intros ->; apply i; simpl; auto).
      rewrite E1, E2, IH, <- app_assoc. reflexivity.
Qed.

Lemma qsa_esc_elem : forall e rest,
  qsa_loop (dq :: pg_escape e ++ dq :: rest) 0 = Some (pg_escape e) :: qsa_loop (skipn 1 rest) 0.
Proof.
  intros. change (qsa_loop (dq :: pg_escape e ++ dq :: rest) 0) with
    (match qsa_quoted (pg_escape e ++ dq :: rest) [] with
     | Some str => Some str :: qsa_loop (pg_escape e ++ dq :: rest) (List.length str + 2)
     | None => qsa_loop (pg_escape e ++ dq :: rest) 0
     end).
  rewrite qsa_quoted_esc. cbn [app]. f_equal. rewrite qsa_skip, skipn_app_plus. reflexivity.
Qed.

Lemma range_quoted : forall li ui tl th, elem_out (Some (range_text li ui tl th)) = dq :: pg_escape (range_text li ui tl th) ++ [dq].
Proof.
  intros. cbn [elem_out]. replace (needs_quotes (range_text li ui tl th)) with true; auto.
  symmetry. rewrite range_text_eq. cbn [needs_quotes]. apply orb_true_iff. right.
  apply existsb_exists. exists ",". split; auto. right. apply in_or_app. right. now left.
Qed.

(** Elements of an array of ranges that the reader sees. *)
Definition seen {V} (l : list (option (range_val V))) : list (option (range_val V)) :=
  filter (fun o => match o with Some RangeEmpty => false | _ => true end) l.

Definition raw_rel {V} (R : text -> V -> Prop) (raw : option bytes) (o : option (range_val V)) : Prop :=
  match raw, o with
  | None, None => True
  | Some raw, Some (RangeBounds li ui lo hi) =>
      exists tl th, opt_rel R tl lo /\ opt_rel R th hi /\ raw = opn li :: ebt tl ++ "," :: ebt th ++ [cls ui]
  | _, _ => False
  end.

Lemma qsa_ranges : forall {V} (R : text -> V -> Prop) els vs, texts R -> Forall2 (opt_rel (range_rel R)) els vs ->
  Forall2 (raw_rel R) (qsa_loop (commas (map elem_out els)) 0) (seen vs).
Proof.
  intros V R els vs T F.
  assert (G : forall o v rest (l : list (option (range_val V))), opt_rel (range_rel R) o v -> sep_start rest ->
            Forall2 (raw_rel R) (qsa_loop rest 0) l ->
            Forall2 (raw_rel R) (qsa_loop (elem_out o ++ rest) 0) (seen [v] ++ l)).
  { intros [b|] [[|li ui lo hi]|] rest l O S FL; cbn [opt_rel range_rel] in O; try tauto.
    - subst b. exact FL.
    - destruct O as (tl & th & H1 & H2 & ->). rewrite range_quoted, <- app_comm_cons, <- app_assoc. cbn [app].
      rewrite qsa_esc_elem, qsa_sep by auto. cbn [seen filter app]. constructor; auto. cbn [raw_rel].
      exists tl, th. repeat split; auto. now apply (escape_range R li ui tl th lo hi).
    - cbn [seen filter app]. replace (qsa_loop (elem_out None ++ rest) 0) with (None :: qsa_loop rest 0).
      constructor; auto; exact Logic.I.
      transitivity (@None bytes :: qsa_loop (skipn 1 rest) 0). now rewrite qsa_sep.
      destruct S as [-> | [r ->]]; reflexivity. }
  induction F as [|o v els vs O F IH]. constructor.
  destruct els as [|o' els].
  - inversion F; subst. cbn [map commas]. rewrite <- (app_nil_r (elem_out o)), <- (app_nil_r (seen [v])).
    apply G; [auto|now left|constructor].
  - change (commas (map elem_out (o :: o' :: els))) with (elem_out o ++ "," :: commas (map elem_out (o' :: els))).
    change (seen (v :: vs)) with (seen ([v] ++ vs)). unfold seen. rewrite filter_app. apply G; [auto|right; eauto|exact IH].
Qed.

Lemma qsa_array : forall els, pgParseQuotedStringArray (array_out els) = Ok (qsa_loop (commas (map elem_out els)) 0).
Proof. intros. unfold pgParseQuotedStringArray, array_out. now rewrite drop_ends_wrap. Qed.

(** Bounds that are missing are read as the zero time, and so is `empty`. *)
Definition daterange_read (v : range_val date_val) : res (time * time) :=
  match v with
  | RangeEmpty => Ok (zero_time, zero_time)
  | RangeBounds _ _ lo hi =>
      bind (null_as (Ok zero_time) date_read lo) (fun a =>
      bind (null_as (Ok zero_time) date_read hi) (fun b => Ok (a, b)))
  end.

Lemma date_bound_nodigit : forall c r, is_digit c = false -> date_bound (Some (c :: r)) = Err.
Proof. intros c r D. cbn [date_bound]. apply parse_none. apply parse_nodigit; auto. Qed.

Lemma date_bound_read : forall (raw : bool) o v, opt_rel date_text o v ->
  date_bound (Some (if raw then ebt o else bt o)) = null_as (Ok zero_time) date_read v.
Proof.
  intros raw [b|] [v|] H; cbn [opt_rel] in H; try tauto; [|now destruct raw].
  destruct (date_facts b v H) as (H1 & H2 & H3). cbn [null_as bt ebt]. rewrite bound_out_head by auto.
  destruct H3 as [[-> H3]|[-> H3]].
  - rewrite <- H3. destruct H1 as (c & r & -> & _). now destruct raw.
  - rewrite H3. destruct raw; now apply date_bound_nodigit.
Qed.

Lemma C78_read_proof : forall b v old, range_rel date_text b v ->
  DateRangeToTimeArray2 (Some b) old = daterange_read v.
Proof.
  intros b [|li ui lo hi] old H; cbn [range_rel] in H.
  - subst b. reflexivity.
  - destruct H as (tl & th & H1 & H2 & ->). unfold DateRangeToTimeArray2. cbn [srcbytes]. unfold scan_daterange.
    rewrite (range_halves date_text li ui tl th lo date_texts H1). cbn [bind].
    rewrite (date_bound_read false tl lo H1), (date_bound_read false th hi H2). reflexivity.
Qed.

(** A zero time stands for a missing bound. *)
Definition date_end (t : time) : option date_val := if IsZero t then None else Some (DateFinite (date_of t)).

Definition bound_ok (t : time) : Prop := IsZero t = true \/ valid_date t.

Lemma date_end_rel : forall t, bound_ok t ->
  opt_rel date_text (if IsZero t then None else Some (Format dateLayout t)) (date_end t)
  /\ bt (if IsZero t then None else Some (Format dateLayout t)) = (if IsZero t then [] else Format dateLayout t)
  /\ ebt (if IsZero t then None else Some (Format dateLayout t)) = (if IsZero t then [] else Format dateLayout t).
Proof.
  intros t B. unfold date_end. destruct (IsZero t) eqn:Z. repeat split.
  destruct B as [B|[O Y]]; [congruence|]. assert (X := format_ymd t O Y).
  assert (DT : date_text (Format dateLayout t) (DateFinite (date_of t))).
  { split; auto. exists (Format dateLayout t). split; auto. cbn [era_text date_of d_bc]. now rewrite app_nil_r. }
  destruct (date_facts _ _ DT) as (H & T & _). split; [exact DT|]. cbn [bt ebt]. rewrite bound_out_head by auto.
  now rewrite (ymd_spaced _ _ X).
Qed.

Lemma enc_daterange_text : forall a b, bound_ok a -> bound_ok b ->
  enc_daterange (a, b) = range_text (negb (IsZero a)) false
    (if IsZero a then None else Some (Format dateLayout a)) (if IsZero b then None else Some (Format dateLayout b)).
Proof.
  intros a b A Bd. destruct (date_end_rel a A) as (_ & E1 & _), (date_end_rel b Bd) as (_ & E2 & _).
  rewrite range_text_eq, E1, E2. unfold enc_daterange. cbn [fst snd]. destruct (IsZero a), (IsZero b); reflexivity.
Qed.

Lemma enc_daterange_rel : forall a b, bound_ok a -> bound_ok b ->
  range_rel date_text (enc_daterange (a, b)) (RangeBounds (negb (IsZero a)) false (date_end a) (date_end b)).
Proof.
  intros a b A Bd. rewrite enc_daterange_text by auto.
  destruct (date_end_rel a A) as (E1 & _), (date_end_rel b Bd) as (E2 & _).
  exact (ex_intro _ _ (ex_intro _ _ (conj E1 (conj E2 eq_refl)))).
Qed.

Lemma C78_write_proof : forall a b, bound_ok a -> bound_ok b ->
  exists t, DateRangeFromTimeArray2 (a, b) = Some t
    /\ range_rel date_text t (RangeBounds (negb (IsZero a)) false (date_end a) (date_end b)).
Proof.
  intros a b A Bd. exists (enc_daterange (a, b)). split; [reflexivity|now apply enc_daterange_rel].
Qed.

(** Read again, the days come out as they were. *)
Definition plain_day (t : time) : Prop := t = day_of t /\ (t = zero_time \/ (valid_date t /\ IsZero t = false)).

Lemma C78_roundtrip_proof : forall a b old, plain_day a -> plain_day b ->
  DateRangeToTimeArray2 (DateRangeFromTimeArray2 (a, b)) old = Ok (a, b).
Proof.
  intros a b old [Da A] [Db Bd].
  assert (OK : forall t, t = zero_time \/ (valid_date t /\ IsZero t = false) -> bound_ok t).
  { intros t [->|[V _]]; [left; reflexivity|now right]. }
  destruct (C78_write_proof a b (OK a A) (OK b Bd)) as (t & E & H). rewrite E.
  etransitivity; [exact (C78_read_proof t _ old H)|]. cbn [daterange_read].
  assert (RD : forall t, t = day_of t -> t = zero_time \/ (valid_date t /\ IsZero t = false) ->
               null_as (Ok zero_time) date_read (date_end t) = Ok t).
  { clear. intros t D [->|[[O Y] Z]]; [reflexivity|]. unfold date_end. rewrite Z. cbn [null_as date_read].
    unfold in_years. cbn [date_of d_bc negb andb d_year].
    replace (Z.to_N (tm_year t) <=? 9999)%N with true by (symmetry; apply N.leb_le; lia).
    rewrite D. unfold go_time, day_of. cbn. rewrite Z2N.id by lia. reflexivity. }
  rewrite (RD a Da A), (RD b Db Bd). reflexivity.
Qed.

Lemma C78_empty_refuted_proof : exists b p,
  range_rel date_text b (RangeEmpty) /\ DateRangeToTimeArray2 (Some b) (zero_time, zero_time) = Ok p
  /\ exists b', DateRangeFromTimeArray2 p = Some b' /\ range_rel date_text b' (RangeBounds false false None None).
Proof.
  exists (B "empty"), (zero_time, zero_time). split; [reflexivity|]. split; [reflexivity|]. exists (B "(,)").
  split; [reflexivity|]. exists None, None. repeat split.
Qed.

Lemma C78_first_day_refuted_proof : exists b d p,
  range_rel date_text b (RangeBounds true false (Some d) None) /\ DateRangeToTimeArray2 (Some b) (zero_time, zero_time) = Ok p
  /\ exists b', DateRangeFromTimeArray2 p = Some b' /\ range_rel date_text b' (RangeBounds false false None None).
Proof.
  exists (B "[0001-01-01,)"), (DateFinite (MkD false 1 1 1)), (zero_time, zero_time).
  split. { exists (Some (B "0001-01-01")), None. split; [|repeat split].
    split. repeat split; vm_compute; congruence. exists (B "0001-01-01"). split; [|reflexivity].
    exists (B "0001"), (B "01"), (B "01"). split; [left; repeat split|]. repeat split. }
  split; [vm_compute; reflexivity|]. exists (B "(,)").
  split; [reflexivity|]. exists None, None. repeat split.
Qed.

Lemma C78_array_read_proof : forall els vs old, Forall2 (opt_rel (range_rel date_text)) els vs ->
  DateRangeArrayToTimeArray2Slice (Some (array_out els)) old
  = rmap Some (mapM (fun o => match o with Some v => daterange_read v | None => Panic end) (seen vs)).
Proof.
  intros els vs old F. unfold DateRangeArrayToTimeArray2Slice. cbn [srcbytes]. rewrite qsa_array. cbn [bind]. f_equal.
  apply (mapM_forall2 (raw_rel date_text)). apply qsa_ranges; auto. exact date_texts.
  intros [raw|] [[|li ui lo hi]|] H; cbn [raw_rel] in H; try tauto.
  destruct H as (tl & th & H1 & H2 & ->). unfold scan_daterange.
  rewrite range_parse by (apply (ebt_nocomma date_text tl lo); auto; exact date_texts). cbn [bind].
  assert (E1 := date_bound_read true tl lo H1). assert (E2 := date_bound_read true th hi H2).
  unfold text, bytes in *. rewrite E1, E2. reflexivity.
Qed.

Lemma C78_array_write_proof : forall ps, Forall (fun p => bound_ok (fst p) /\ bound_ok (snd p)) ps ->
  exists bs, Forall2 (fun b p => range_rel date_text b
      (RangeBounds (negb (IsZero (fst p))) false (date_end (fst p)) (date_end (snd p)))) bs ps
    /\ DateRangeArrayFromTimeArray2Slice (Some ps) = Some (array_out (map Some bs)).
Proof.
  intros ps F. exists (map enc_daterange ps). split.
  - induction F as [|[a b] ps [A Bd] F IH]; constructor; auto. cbn [fst snd] in *.
    now apply enc_daterange_rel.
  - unfold DateRangeArrayFromTimeArray2Slice. rewrite map_map. apply arr_value_out. intros [a b] I.
    rewrite Forall_forall in F. destruct (F (a, b) I) as [A Bd]. cbn [fst snd] in *.
    rewrite enc_daterange_text by auto. rewrite range_quoted.
    destruct (date_end_rel a A) as (R1 & E1 & E1'), (date_end_rel b Bd) as (R2 & E2 & E2').
    rewrite (escape_range date_text _ _ _ _ _ _ date_texts R1 R2), E1', E2'.
    rewrite range_text_eq, E1, E2. reflexivity.
Qed.

Lemma C78_array_roundtrip_proof : forall ps old, Forall (fun p => plain_day (fst p) /\ plain_day (snd p)) ps ->
  DateRangeArrayToTimeArray2Slice (DateRangeArrayFromTimeArray2Slice (Some ps)) old = Ok (Some ps).
Proof.
  intros ps old F.
  assert (OK : forall t, plain_day t -> bound_ok t).
  { intros t [_ [->|[V _]]]; [left; reflexivity|now right]. }
  destruct (C78_array_write_proof ps) as (bs & F2 & ->).
  { eapply Forall_impl; [|exact F]. intros p [H1 H2]. auto. }
  set (val := fun p : time * time => Some (RangeBounds (negb (IsZero (fst p))) false (date_end (fst p)) (date_end (snd p)))).
  rewrite (C78_array_read_proof (map Some bs) (map val ps) old).
  - replace (seen (map val ps)) with (map val ps).
    + replace (mapM _ (map val ps)) with (Ok ps). reflexivity. symmetry.
      rewrite <- (map_id ps) at 2. apply mapM_map. intros [a b] I. rewrite Forall_forall in F.
      destruct (F (a, b) I) as [[Da A] [Db Bd]]. cbn [fst snd] in *. subst val. cbn [fst snd].
      assert (RT := C78_roundtrip_proof a b (zero_time, zero_time) (conj Da A) (conj Db Bd)).
      destruct (C78_write_proof a b (OK a (conj Da A)) (OK b (conj Db Bd))) as (t & E & H). rewrite E in RT.
      etransitivity; [|exact RT]. symmetry. exact (C78_read_proof t _ _ H).
    + clear. induction ps as [|p ps IH]; auto. cbn [map]. unfold seen in *. subst val. cbn [filter]. now rewrite <- IH.
  - clear F. induction F2; constructor; auto.
Qed.
