(** Definitions and proofs used by PropsStamps.v. *)
From Coq Require Import Ascii String ZArith NArith Bool List Lia.
From Verif Require Import GoBase Strconv StrconvProofs ConvertUtil ConvertProofs Codecs PgSpec PgSpecProofs SimpleProofs TextProofs IntProofs TimeSpec Times TimeCodecs TimeProofs DatesFinal.
Import ListNotations.
Local Open Scope char_scope.

Lemma time_facts : forall b v, time_text b v ->
  head_ok b /\ forallb tchar b = true /\ spaced b = false /\ Parse timeLayout b = time_read v.
Proof.
  intros b [c|] H; cbn [time_text] in H.
  - destruct H as ((L1 & L2 & L3 & L4) & C). destruct (clock_head b c C) as (x & r & E & D).
    split; [subst b; now apply digit_head|]. split; [now apply (tchar_clock b c)|]. split.
    + destruct C as (h & m & s & f & Hh & Hm & Hs & Hf & ->).
      rewrite spaced_app, (digits_spaced 2 h _ Hh). change (spaced (":" :: m ++ ":" :: s ++ f)) with (spaced (m ++ ":" :: s ++ f)).
      rewrite spaced_app, (digits_spaced 2 m _ Hm). change (spaced (":" :: s ++ f)) with (spaced (s ++ f)).
      rewrite spaced_app, (digits_spaced 2 s _ Hs).
      destruct Hf as [[-> _]|(k & ds & n & _ & Dg & _ & ->)]; auto.
      change (spaced ("." :: ds)) with (spaced ds). now rewrite (digits_spaced k ds n Dg).
    + assert (P := parse_clock b c [] [] pst0 [] C L1 L2 L3 Logic.I eq_refl (or_introl eq_refl)).
      rewrite app_nil_r in P. rewrite (Parse_eq timeLayout b _ P). reflexivity.
  - subst b. split; [now apply digit_head|]. repeat split.
Qed.

Lemma zone_out_head : forall z zn r, zone_out z zn ->
  exists h m s, digits 2 h (z_hour zn) /\ digits 2 m (z_min zn) /\ digits 2 s (z_sec zn) /\ frac_end (z ++ r)
    /\ z = sign_of (z_east zn) :: h ++ (if (z_min zn =? 0)%N && (z_sec zn =? 0)%N then [] else ":" :: m)
           ++ (if (z_sec zn =? 0)%N then [] else ":" :: s).
Proof.
  intros z zn r (h & m & s & Hh & Hm & Hs & ->). exists h, m, s. repeat split; auto; try apply Hh; try apply Hm; try apply Hs.
  all: destruct (z_east zn); vm_compute; congruence.
Qed.

Lemma digits_len2 : forall b n, digits 2 b n -> exists x y, b = [x; y].
Proof. intros b n H. destruct (digits2_inv b n H) as (x & y & -> & _). eauto. Qed.

Lemma timetz_facts : forall b v, timetz_text b v ->
  head_ok b /\ forallb tchar b = true /\ spaced b = false /\ Parse timetzLayout b = timetz_read v.
Proof.
  intros b [tv zn] (x & z & ZO & Z & T & ->). cbn [fst snd] in *.
  destruct (time_facts x tv T) as (H1 & H2 & H3 & _).
  destruct (zone_out_head z zn [] Z) as (h & m & s & Hh & Hm & Hs & FE & EZ). rewrite app_nil_r in FE.
  split; [destruct H1 as (c & r & -> & ?); exists c; eexists; split; [reflexivity|auto]|].
  split; [rewrite forallb_app, H2; apply (tchar_zone z zn); now apply zone_out_text|].
  split.
  { rewrite spaced_app, H3, EZ. cbn [orb]. change (spaced (sign_of (z_east zn) :: ?r)) with (beq (sign_of (z_east zn)) " " || spaced r).
    unfold spaced. cbn [existsb]. fold (spaced (h ++ (if (z_min zn =? 0)%N && (z_sec zn =? 0)%N then [] else ":" :: m)
      ++ (if (z_sec zn =? 0)%N then [] else ":" :: s))). rewrite !spaced_app, (digits_spaced 2 h _ Hh).
    replace (beq (sign_of (z_east zn)) " ") with false by (destruct (z_east zn); reflexivity). cbn [orb].
    assert (S1 : spaced (":" :: m) = false) by (apply (digits_spaced 2 m _ Hm)).
    assert (S2 : spaced (":" :: s) = false) by (apply (digits_spaced 2 s _ Hs)).
    destruct ((z_min zn =? 0)%N && (z_sec zn =? 0)%N), (z_sec zn =? 0)%N; now rewrite ?S1, ?S2. }
  destruct tv as [c|].
  - destruct T as ((L1 & L2 & L3 & L4) & C).
    destruct ZO as (Z1 & Z2 & Z3).
    assert (P := parse_clock x c z [([], StdNumColonTZ)] pst0 [] C L1 L2 L3 FE eq_refl (or_introl eq_refl)).
    rewrite (Parse_eq timetzLayout (x ++ z) _ P). cbn [timetz_read]. rewrite EZ.
    destruct (z_min zn =? 0)%N eqn:E1; destruct (z_sec zn =? 0)%N eqn:E2; cbn [negb andb].
    + destruct (digits_len2 h _ Hh) as (h1 & h2 & ->). cbn [app parse_chunks skip parse_std]. reflexivity.
    + rewrite <- (app_nil_r (":" :: s)), <- app_comm_cons. cbn [app].
      rewrite (parse_colon_tz _ h m _ _ (":" :: s ++ []) [] _ Hh Hm Z1 Z2). reflexivity.
    + rewrite app_nil_r. rewrite <- (app_nil_r m). rewrite (parse_colon_tz _ h m _ _ [] [] _ Hh Hm Z1 Z2).
      apply N.eqb_eq in E2. destruct zn as [ze zh zm zs]; cbn [z_east z_hour z_min z_sec] in *. subst zs. reflexivity.
    + cbn [app]. rewrite (parse_colon_tz _ h m _ _ (":" :: s) [] _ Hh Hm Z1 Z2). reflexivity.
  - cbn [time_text] in T. subst x. apply parse_none. reflexivity.
Qed.

Lemma unspaced_read : forall {V} (R : text -> V -> Prop) l read els vs old,
  (forall b v, R b v -> head_ok b /\ forallb tchar b = true /\ spaced b = false /\ Parse l b = read v) ->
  Parse l (B "NULL") = Err ->
  Forall2 (opt_rel R) els vs ->
  arr_scan (fun d => bind (pgParseCommaArray d) (mapM (Parse l))) (Some (array_out els)) old
  = rmap Some (mapM (null_as Err read) vs).
Proof.
  intros V R l read els vs old H NU F. unfold arr_scan. cbn [srcbytes]. f_equal.
  apply (comma_read R (Parse l) _ els vs F). intros [b|] [v|] HR; cbn [opt_rel] in HR; try tauto.
  - destruct (H b v HR) as (H1 & H2 & H3 & H4). destruct (elem_out_facts b H1 H2) as [E1 E2].
    split; [|split]; auto. rewrite elem_out_head, H3 by auto. exact H4.
  - split; [intros [E|[E|[E|[E|[]]]]]; discriminate|]. split; [discriminate|exact NU].
Qed.

Lemma C79_read_proof : forall els vs old, Forall2 (opt_rel time_text) els vs ->
  TimeArrayToTimeSlice (Some (array_out els)) old = rmap Some (mapM (null_as Err time_read) vs).
Proof. intros els vs old F. apply (unspaced_read time_text timeLayout); auto. exact time_facts. Qed.

Lemma C79_timetz_read_proof : forall els vs old, Forall2 (opt_rel timetz_text) els vs ->
  TimetzArrayToTimeSlice (Some (array_out els)) old = rmap Some (mapM (null_as Err timetz_read) vs).
Proof. intros els vs old F. apply (unspaced_read timetz_text timetzLayout); auto. exact timetz_facts. Qed.

Lemma written_array : forall {A} (enc : A -> bytes) (P : bytes -> A -> Prop) l,
  (forall x, In x l -> P (enc x) x /\ elem_out (Some (enc x)) = enc x) ->
  exists bs, Forall2 P bs l /\ arr_value enc (Some l) = Some (array_out (map Some bs)).
Proof.
  intros A enc P l H. exists (map enc l). split.
  - induction l as [|x l IH]; constructor. apply H. now left. apply IH. intros y I. apply H. now right.
  - rewrite map_map. apply arr_value_out. intros x I. now apply H.
Qed.

Lemma C79_write_proof : forall ts, Forall valid_clock ts ->
  exists bs, Forall2 (fun b t => time_text b (TimeOfDay (clock_of t))) bs ts
    /\ TimeArrayFromTimeSlice (Some ts) = Some (array_out (map Some bs)).
Proof.
  intros ts F. apply written_array. intros t I. rewrite Forall_forall in F. destruct (F t I) as (V1 & V2 & V3 & V4).
  destruct (format_clock t V1 V2 V3 V4) as [O C].
  assert (T : time_text (Format timeLayout t) (TimeOfDay (clock_of t))) by (split; auto). split; auto.
  destruct (time_facts _ _ T) as (H1 & H2 & H3 & _). now rewrite elem_out_head, H3.
Qed.

Lemma C79_timetz_write_proof : forall ts, Forall (fun t => valid_clock t /\ valid_off t) ts ->
  exists bs, Forall2 (fun b t => exists z, zone_secs z = (Z.quot (tm_off t) 60 * 60)%Z
        /\ timetz_input b (TimeOfDay (clock_of t), z)) bs ts
    /\ TimetzArrayFromTimeSlice (Some ts) = Some (array_out (map Some bs)).
Proof.
  intros ts F. apply written_array. intros t I. rewrite Forall_forall in F. destruct (F t I) as ((V1 & V2 & V3 & V4) & VO).
  destruct (format_clock t V1 V2 V3 V4) as [O C].
  assert (T : time_text (Format timeLayout t) (TimeOfDay (clock_of t))) by (split; auto).
  destruct (appendZone_text true (tm_off t) VO) as (z & Z1 & Z2 & Z3 & _ & Z5).
  destruct (Z5 eq_refl) as (_ & h & m & Hh & Hm & EZ).
  destruct (time_facts _ _ T) as (H1 & H2 & H3 & _). rewrite format_timetz_eq. split.
  - exists z. split; auto. exists (Format timeLayout t), (appendZone true (tm_off t)). repeat split; auto; try apply Z2; try apply T.
  - rewrite elem_out_head.
    + rewrite spaced_app, H3, EZ. cbn [orb]. unfold spaced. cbn [existsb].
      fold (spaced (h ++ ":" :: m)). rewrite spaced_app, (digits_spaced 2 h _ Hh).
      change (spaced (":" :: m)) with (spaced m). rewrite (digits_spaced 2 m _ Hm).
      replace (beq (sign_of (z_east z)) " ") with false by (destruct (z_east z); reflexivity). reflexivity.
    + destruct H1 as (c & r & -> & ?). exists c. eexists. split. reflexivity. auto.
    + rewrite forallb_app, H2. now apply (tchar_zone _ z).
Qed.

Definition time_part (t : time) : time := MkTime 0 1 1 (tm_hour t) (tm_min t) (tm_sec t) (tm_nsec t / 1000000 * 1000000) 0.

Lemma C79_roundtrip_proof : forall ts old, Forall valid_clock ts ->
  TimeArrayToTimeSlice (TimeArrayFromTimeSlice (Some ts)) old = Ok (Some (map time_part ts)).
Proof.
  intros ts old F. destruct (C79_write_proof ts F) as (b & F2 & ->).
  rewrite (C79_read_proof (map Some b) (map (fun t => Some (TimeOfDay (clock_of t))) ts) old).
  - cbn [rmap]. replace (mapM _ _) with (Ok (map time_part ts)). reflexivity.
    symmetry. apply mapM_map. intros t I. cbn [null_as time_read]. unfold time_part, clock_of.
    cbn [c_hour c_min c_sec c_us]. rewrite <- N.mul_assoc. reflexivity.
  - clear F. induction F2; constructor; auto.
Qed.

Lemma C79_micros_refuted_proof : exists b c, time_text b (TimeOfDay c)
  /\ exists t b' c', TimeArrayToTimeSlice (Some (array_out [Some b])) None = Ok (Some [t])
       /\ TimeArrayFromTimeSlice (Some [t]) = Some (array_out [Some b']) /\ time_text b' (TimeOfDay c') /\ c' <> c.
Proof.
  exists (B "12:34:56.789999"), (MkC 12 34 56 789999). split.
  { split. repeat split. exists (B "12"), (B "34"), (B "56"), (B ".789999"). repeat split. right.
    exists 6%nat, (B "789999"), 789999%N. repeat split; lia. }
  exists (MkTime 0 1 1 12 34 56 789999000 0), (B "12:34:56.789"), (MkC 12 34 56 789000). repeat split.
  - exists (B "12"), (B "34"), (B "56"), (B ".789"). repeat split. right.
    exists 3%nat, (B "789"), 789%N. repeat split; lia.
  - discriminate.
Qed.

Lemma C79_hours_refuted_proof : exists t b v, valid_clock t /\ valid_off t
  /\ TimetzArrayFromTimeSlice (Some [t]) = Some (array_out [Some b]) /\ timetz_input b v
  /\ (forall b' old, timetz_text b' v -> TimetzArrayToTimeSlice (Some (array_out [Some b'])) old = Err)
  /\ exists b', timetz_text b' v.
Proof.
  exists (MkTime 0 1 1 4 5 6 0 (-28800)), (B "04:05:06-08:00"), (TimeOfDay (MkC 4 5 6 0), MkZ false 8 0 0).
  split; [vm_compute; repeat split|]. split; [split; cbn; lia|]. split; [vm_compute; reflexivity|].
  assert (C : time_text (B "04:05:06") (TimeOfDay (MkC 4 5 6 0))).
  { split. repeat split. exists (B "04"), (B "05"), (B "06"), []. repeat split. now left. }
  split; [|split].
  - exists (B "04:05:06"), (B "-08:00"). split; [vm_compute; repeat split|]. split; [|split; [exact C|reflexivity]].
    exists (B "08"). split; [repeat split|]. right. exists (B "00"). split; [repeat split|]. now left.
  - intros b' old H. rewrite (C79_timetz_read_proof [Some b'] [Some (TimeOfDay (MkC 4 5 6 0), MkZ false 8 0 0)] old).
    reflexivity. constructor; [exact H|constructor].
  - exists (B "04:05:06-08"), (B "04:05:06"), (B "-08"). split; [vm_compute; repeat split|].
    split; [|split; [exact C|reflexivity]]. exists (B "08"), (B "00"), (B "00"). repeat split.
Qed.

Definition stamp_layout (l : layout) : Prop := l = timestampLayout \/ l = timestamptzLayout.

Definition stamps {V} (R : text -> V -> Prop) (l : layout) (read : V -> res time) : Prop :=
  stamp_layout l /\
  forall b v, R b v -> head_ok b /\ forallb tchar b = true
    /\ ((spaced b = true /\ Parse l b = read v) \/ ((exists n, b = infinity_text n) /\ read v = Err)).

Lemma stamps_texts : forall {V} (R : text -> V -> Prop) l read, stamps R l read -> texts R.
Proof. intros V R l read [_ H] b v HR. destruct (H b v HR) as (? & ? & _). auto. Qed.

(** The two halves of a timestamp. *)
Lemma stamp_parse : forall x y d c r l, pdate_ok d -> clock_ok c -> ymd_text x d -> clock_text y c -> frac_end r ->
  parse_chunks (timestampLayout ++ l) (x ++ " " :: y ++ r) pst0
  = if (d_year d <=? 9999)%N
    then parse_chunks l r (set_clock (set_date pst0 (Z.of_N (d_year d)) (d_month d) (d_day d))
                                     (c_hour c) (c_min c) (c_sec c) (c_us c * 1000))
    else None.
Proof.
  intros x y d c r l O (L1 & L2 & L3 & L4) X Y FE.
  change (timestampLayout ++ l) with (date_chunks ++ ((B " ", StdHour) :: (B ":", StdZeroMinute) :: (B ":", StdZeroSecond)
    :: ([], StdFrac9 3) :: l)).
  destruct (d_year d <=? 9999)%N eqn:E.
  - apply N.leb_le in E. rewrite (parse_ymd x d) by (auto; apply O).
    rewrite <- (parse_clock y c r l (set_date pst0 (Z.of_N (d_year d)) (d_month d) (d_day d)) (B " ") Y L1 L2 L3 FE eq_refl (or_intror eq_refl)). reflexivity.
  - apply N.leb_gt in E. now apply (parse_long_year x d).
Qed.

Lemma stamp_shape : forall z b d c, stamp_text z b (StampFinite d c) -> forallb tchar z = true ->
  head_ok b /\ forallb tchar b = true /\ spaced b = true.
Proof.
  intros z b d c (O & CO & x & y & X & Y & ->) Z. split; [|split].
  - destruct (ymd_head x d X) as (h & r & -> & D). now apply digit_head.
  - rewrite forallb_app, (tchar_ymd x d X). cbn [forallb]. rewrite !forallb_app, (tchar_clock y c Y), Z.
    unfold era_text. now destruct (d_bc d).
  - rewrite spaced_app. apply orb_true_iff. right. reflexivity.
Qed.

Lemma era_end : forall d, frac_end (era_text d).
Proof. intros d. unfold era_text. destruct (d_bc d); vm_compute; repeat split; congruence. Qed.

Lemma inf_head : forall n, head_ok (infinity_text n) /\ forallb tchar (infinity_text n) = true.
Proof. intros []; (split; [eexists; eexists; repeat split; discriminate|reflexivity]). Qed.

Lemma ts_stamps : stamps ts_text timestampLayout ts_read.
Proof.
  split; [now left|]. intros b [d c|n] H; unfold ts_text in H.
  - destruct (stamp_shape [] b d c H eq_refl) as (H1 & H2 & H3). split; [auto|]. split; [auto|]. left. split; auto.
    destruct H as (O & CO & x & y & X & Y & ->). cbn [app].
    rewrite (Parse_eq timestampLayout _ _ (stamp_parse x y d c (era_text d) [] O CO X Y (era_end d))).
    cbn [ts_read]. destruct (in_years d) eqn:I.
    + destruct (pdate_ok_days d O I) as (P & Y4 & M & BC). apply N.leb_le in Y4. rewrite Y4.
      unfold era_text. rewrite BC. cbn [parse_chunks finish set_clock set_date p_year p_month p_day p_hour p_min p_sec p_nsec p_zone].
      rewrite P. reflexivity.
    + unfold in_years in I. apply andb_false_iff in I. destruct I as [I|I].
      * apply negb_false_iff in I. unfold era_text. rewrite I. now destruct (d_year d <=? 9999)%N.
      * now rewrite I.
  - cbn [stamp_text] in H. subst b. destruct (inf_head n). split; auto. split; auto. right. split; eauto.
Qed.

Lemma tstz_stamps : stamps tstz_text timestamptzLayout tstz_read.
Proof.
  split; [now right|]. intros b [[d c|n] zn] (z & ZO & Z & H); cbn [fst snd] in *.
  - destruct (stamp_shape z b d c H (tchar_zone z zn (zone_out_text z zn Z))) as (H1 & H2 & H3).
    split; [auto|]. split; [auto|]. left. split; auto.
    destruct (zone_out_head z zn (era_text d) Z) as (h & m & s & Hh & Hm & Hs & FE & EZ).
    destruct ZO as (Z1 & Z2 & Z3).
    destruct H as (O & CO & x & y & X & Y & ->). 
    rewrite (Parse_eq timestamptzLayout _ _ (stamp_parse x y d c (z ++ era_text d) [([], StdNumShortTZ)] O CO X Y FE)).
    rewrite EZ. rewrite <- app_comm_cons, <- app_assoc, (parse_short_tz _ h (z_hour zn) _ [] _ Hh Z1).
    cbn [tstz_read]. destruct (in_years d) eqn:I.
    + destruct (pdate_ok_days d O I) as (P & Y4 & M & BC). apply N.leb_le in Y4. rewrite Y4.
      unfold era_text. rewrite BC. cbn [andb].
      destruct (z_min zn =? 0)%N eqn:E1; destruct (z_sec zn =? 0)%N eqn:E2; cbn [andb app parse_chunks]; auto.
      cbn [finish set_zone set_clock set_date p_year p_month p_day p_hour p_min p_sec p_nsec p_zone].
      rewrite P. apply N.eqb_eq in E1, E2. destruct zn as [ze zh zm zs]; cbn [z_east z_hour z_min z_sec] in *. subst. reflexivity.
    + unfold in_years in I. apply andb_false_iff in I. destruct I as [I|I].
      * apply negb_false_iff in I. unfold era_text. rewrite I. cbn [andb]. destruct (d_year d <=? 9999)%N; auto.
        destruct (z_min zn =? 0)%N eqn:E1; destruct (z_sec zn =? 0)%N eqn:E2; reflexivity.
      * now rewrite I.
  - cbn [stamp_text] in H. subst b. destruct (inf_head n). split; auto. split; auto. right. split; eauto.
Qed.

Lemma stamp_scan_read : forall {V} (R : text -> V -> Prop) l read els vs old, stamps R l read ->
  Forall2 (opt_rel R) els vs ->
  stamp_scan l (Some (array_out els)) old = rmap Some (mapM (null_as (Ok zero_time) read) vs).
Proof.
  intros V R l read els vs old [SL H] F. unfold stamp_scan, arr_scan. cbn [srcbytes]. f_equal.
  apply (comma_read R (stamp_elem l) _ els vs F). intros [b|] [v|] HR; cbn [opt_rel] in HR; try tauto.
  - destruct (H b v HR) as (H1 & H2 & H3). destruct (elem_out_facts b H1 H2) as [E1 E2].
    split; [|split]; auto. rewrite elem_out_head by auto. cbn [null_as].
    destruct H3 as [[-> <-]|[[n ->] ->]].
    + cbn [stamp_elem]. change (beq dq "N") with false. cbv iota. now rewrite drop_ends_wrap.
    + destruct SL as [-> | ->], n; reflexivity.
  - split; [intros [E|[E|[E|[E|[]]]]]; discriminate|]. split; [discriminate|reflexivity].
Qed.

Lemma C80_read_proof : forall els vs old, Forall2 (opt_rel ts_text) els vs ->
  TimestampArrayToTimeSlice (Some (array_out els)) old = rmap Some (mapM (null_as (Ok zero_time) ts_read) vs).
Proof. intros. now apply (stamp_scan_read ts_text _ _ _ _ _ ts_stamps). Qed.

Lemma C80_tz_read_proof : forall els vs old, Forall2 (opt_rel tstz_text) els vs ->
  TimestamptzArrayToTimeSlice (Some (array_out els)) old = rmap Some (mapM (null_as (Ok zero_time) tstz_read) vs).
Proof. intros. now apply (stamp_scan_read tstz_text _ _ _ _ _ tstz_stamps). Qed.

Definition valid_stamp (t : time) : Prop := valid_date t /\ valid_clock t.

Lemma format_ts : forall t, valid_stamp t ->
  ts_text (Format timestampLayout t) (StampFinite (date_of t) (clock_of t)).
Proof.
  intros t ((O & Y) & V1 & V2 & V3 & V4). destruct (format_clock t V1 V2 V3 V4) as [CO C].
  split; auto. split; auto. exists (Format dateLayout t), (Format timeLayout t). split; [now apply format_ymd|]. split; auto.
  rewrite format_stamp_eq. cbn [app era_text date_of d_bc]. now rewrite app_nil_r.
Qed.

(** The zone that is written: whole hours, toward zero. *)
Definition hours_zone (t : time) (z : zone) : Prop :=
  zone_ok z /\ z_min z = 0%N /\ z_sec z = 0%N /\ zone_secs z = (Z.quot (tm_off t) 3600 * 3600)%Z.

Lemma format_tstz : forall t, valid_stamp t -> valid_off t -> exists z, hours_zone t z
  /\ tstz_text (Format timestamptzLayout t) (StampFinite (date_of t) (clock_of t), z).
Proof.
  intros t ((O & Y) & V1 & V2 & V3 & V4) VO. destruct (format_clock t V1 V2 V3 V4) as [CO C].
  destruct (appendZone_text false (tm_off t) VO) as (z & _ & Z2 & Z3 & Z4 & _). destruct (Z4 eq_refl) as (M0 & S0 & ZO).
  exists z. split; [split; auto|]. exists (appendZone false (tm_off t)). cbn [fst snd]. split; auto. split; auto.
  split; auto. split; auto. exists (Format dateLayout t), (Format timeLayout t). split; [now apply format_ymd|]. split; auto.
  rewrite format_stamptz_eq, format_stamp_eq, <- app_assoc, <- app_comm_cons. cbn [era_text date_of d_bc]. now rewrite app_nil_r.
Qed.

Lemma stamp_quoted : forall {V} (R : text -> V -> Prop) l read b v, stamps R l read -> R b v -> spaced b = true ->
  elem_out (Some b) = dq :: b ++ [dq] /\ bound_out b = dq :: b ++ [dq].
Proof.
  intros V R l read b v S HR SP. destruct (stamps_texts R l read S b v HR) as [H1 H2].
  now rewrite elem_out_head, bound_out_head, SP.
Qed.

Lemma stamp_written : forall {V} (R : text -> V -> Prop) l l' read (P : bytes -> time -> Prop) ts, stamps R l' read ->
  (forall t, In t ts -> P (Format l t) t /\ spaced (Format l t) = true /\ exists v, R (Format l t) v) ->
  exists bs, Forall2 P bs ts /\ stamp_value l (Some ts) = Some (array_out (map Some bs)).
Proof.
  intros V R l l' read P ts S H. exists (map (Format l) ts). split.
  - induction ts as [|x ts IH]; constructor. apply H. now left. apply IH. intros y I. apply H. now right.
  - rewrite map_map. unfold stamp_value. apply arr_value_out. intros t I. destruct (H t I) as (_ & SP & v & HR).
    apply (stamp_quoted R l' read _ v S HR SP).
Qed.

Lemma format_spaced : forall t, spaced (Format timestampLayout t) = true /\ spaced (Format timestamptzLayout t) = true.
Proof.
  intros t. assert (H : spaced (Format timestampLayout t) = true).
  { rewrite format_stamp_eq, spaced_app. apply orb_true_iff. now right. }
  split; auto. rewrite format_stamptz_eq, spaced_app, H. reflexivity.
Qed.

Lemma C80_write_proof : forall ts, Forall valid_stamp ts ->
  exists bs, Forall2 (fun b t => ts_text b (StampFinite (date_of t) (clock_of t))) bs ts
    /\ TimestampArrayFromTimeSlice (Some ts) = Some (array_out (map Some bs)).
Proof.
  intros ts F. apply (stamp_written ts_text timestampLayout _ _ _ ts ts_stamps). intros t I.
  rewrite Forall_forall in F. assert (T := format_ts t (F t I)). split; auto. split; [apply format_spaced|eauto].
Qed.

Lemma C80_tz_write_proof : forall ts, Forall (fun t => valid_stamp t /\ valid_off t) ts ->
  exists bs, Forall2 (fun b t => exists z, hours_zone t z /\ tstz_text b (StampFinite (date_of t) (clock_of t), z)) bs ts
    /\ TimestamptzArrayFromTimeSlice (Some ts) = Some (array_out (map Some bs)).
Proof.
  intros ts F. apply (stamp_written tstz_text timestamptzLayout _ _ _ ts tstz_stamps). intros t I.
  rewrite Forall_forall in F. destruct (F t I) as [VS VO]. destruct (format_tstz t VS VO) as (z & HZ & T).
  split; [eauto|]. split; [apply format_spaced|eauto].
Qed.

(** What remains of a time that is written and read. *)
Definition stamp_part (off : Z) (t : time) : time :=
  MkTime (tm_year t) (tm_month t) (tm_day t) (tm_hour t) (tm_min t) (tm_sec t) (tm_nsec t / 1000000 * 1000000) off.

Lemma in_years_of : forall t, valid_date t -> in_years (date_of t) = true.
Proof.
  intros t [O Y]. unfold in_years. cbn [date_of d_bc negb andb d_year]. apply N.leb_le. lia.
Qed.

Lemma go_time_of : forall t off, valid_date t -> go_time (date_of t) (clock_of t) off = stamp_part off t.
Proof.
  intros t off [O Y]. unfold go_time, stamp_part, date_of, clock_of. cbn [d_year d_month d_day c_hour c_min c_sec c_us].
  rewrite <- N.mul_assoc, Z2N.id by lia. reflexivity.
Qed.

Lemma C80_roundtrip_proof : forall ts old, Forall valid_stamp ts ->
  TimestampArrayToTimeSlice (TimestampArrayFromTimeSlice (Some ts)) old = Ok (Some (map (stamp_part 0) ts)).
Proof.
  intros ts old F. destruct (C80_write_proof ts F) as (b & F2 & ->).
  rewrite (C80_read_proof (map Some b) (map (fun t => Some (StampFinite (date_of t) (clock_of t))) ts) old).
  - replace (mapM _ _) with (Ok (map (stamp_part 0) ts)). reflexivity.
    symmetry. apply mapM_map. intros t I. rewrite Forall_forall in F. destruct (F t I) as [V _].
    cbn [null_as ts_read]. now rewrite in_years_of, go_time_of.
  - clear F. induction F2; constructor; auto.
Qed.

Definition hour_off (t : time) : Z := (Z.quot (tm_off t) 3600 * 3600)%Z.

Lemma C80_tz_roundtrip_proof : forall ts old, Forall (fun t => valid_stamp t /\ valid_off t) ts ->
  TimestamptzArrayToTimeSlice (TimestamptzArrayFromTimeSlice (Some ts)) old
  = Ok (Some (map (fun t => stamp_part (hour_off t) t) ts)).
Proof.
  intros ts old F. destruct (C80_tz_write_proof ts F) as (b & F2 & ->).
  assert (G : exists vs, Forall2 (opt_rel tstz_text) (map Some b) vs
            /\ mapM (null_as (Ok zero_time) tstz_read) vs = Ok (map (fun t => stamp_part (hour_off t) t) ts)).
  { induction F2 as [|x t b ts (z & (Z1 & Z2 & Z3 & Z4) & T) F2 IH].
    - exists []. split; constructor.
    - inversion F as [|? ? [[V _] _] F']; subst. destruct (IH F') as (vs & G1 & G2).
      exists (Some (StampFinite (date_of t) (clock_of t), z) :: vs). split; [constructor; auto|].
      cbn [mapM null_as tstz_read map]. rewrite in_years_of, Z2, Z3 by auto. cbn [andb N.eqb bind].
      rewrite G2. cbn [bind]. rewrite go_time_of, Z4 by auto. reflexivity. }
  destruct G as (vs & G1 & G2). rewrite (C80_tz_read_proof (map Some b) vs old G1), G2. reflexivity.
Qed.

Lemma C80_tz_exact_proof : forall ts old,
  Forall (fun t => valid_stamp t /\ valid_off t /\ tm_nsec t mod 1000000 = 0 /\ Z.rem (tm_off t) 3600 = 0%Z)%N ts ->
  TimestamptzArrayToTimeSlice (TimestamptzArrayFromTimeSlice (Some ts)) old = Ok (Some ts).
Proof.
  intros ts old F. rewrite C80_tz_roundtrip_proof.
  - do 2 f_equal. rewrite <- (map_id ts) at 2. apply map_ext_in. intros t I. rewrite Forall_forall in F.
    destruct (F t I) as (_ & _ & N0 & R0). unfold stamp_part, hour_off.
    replace (tm_nsec t / 1000000 * 1000000)%N with (tm_nsec t) by (assert (G := N.div_mod (tm_nsec t) 1000000); lia).
    replace (Z.quot (tm_off t) 3600 * 3600)%Z with (tm_off t) by (assert (G := Z.quot_rem' (tm_off t) 3600); lia).
    now destruct t.
  - eapply Forall_impl; [|exact F]. cbv beta. intros t H. tauto.
Qed.

Lemma C80_instant_refuted_proof : exists t t', valid_stamp t /\ valid_off t
  /\ TimestamptzArrayToTimeSlice (TimestamptzArrayFromTimeSlice (Some [t])) None = Ok (Some [t'])
  /\ instant t' <> instant t.
Proof.
  exists (MkTime 2024 5 6 12 0 0 0 19800), (MkTime 2024 5 6 12 0 0 0 18000). split.
  { split. split; [repeat split; vm_compute; congruence|cbn; lia]. vm_compute. repeat split. }
  split; [split; cbn; lia|]. split; [vm_compute; reflexivity|]. vm_compute. congruence.
Qed.

Lemma C80_utc_refuted_proof : exists t t', valid_stamp t
  /\ TimestampArrayToTimeSlice (TimestampArrayFromTimeSlice (Some [t])) None = Ok (Some [t']) /\ instant t' <> instant t.
Proof.
  exists (MkTime 2024 5 6 12 0 0 0 3600), (MkTime 2024 5 6 12 0 0 0 0). split.
  { split. split; [repeat split; vm_compute; congruence|cbn; lia]. vm_compute. repeat split. }
  split; [vm_compute; reflexivity|]. vm_compute. congruence.
Qed.

Definition stamprange_read {V} (read : V -> res time) (v : range_val V) : res (time * time) :=
  match v with
  | RangeEmpty => Ok (zero_time, zero_time)
  | RangeBounds _ _ lo hi =>
      bind (null_as (Ok zero_time) read lo) (fun a =>
      bind (null_as (Ok zero_time) read hi) (fun b => Ok (a, b)))
  end.

Lemma stamp_bound_read : forall {V} (R : text -> V -> Prop) l read o v, stamps R l read -> opt_rel R o v ->
  stamp_bound l (Some (bt o)) = null_as (Ok zero_time) read v.
Proof.
  intros V R l read [b|] [v|] [SL H] HR; cbn [opt_rel] in HR; try tauto; auto.
  destruct (H b v HR) as (H1 & H2 & H3). cbn [null_as bt]. rewrite bound_out_head by auto.
  destruct H3 as [[-> <-]|[[n ->] ->]].
  - cbn [stamp_bound]. now rewrite drop_ends_wrap.
  - destruct SL as [-> | ->], n; reflexivity.
Qed.

Lemma stamprange_scan_read : forall {V} (R : text -> V -> Prop) l read b v old, stamps R l read -> range_rel R b v ->
  stamprange_scan l (Some b) old = stamprange_read read v.
Proof.
  intros V R l read b [|li ui lo hi] old S H; cbn [range_rel] in H.
  - subst b. reflexivity.
  - destruct H as (tl & th & H1 & H2 & ->). unfold stamprange_scan. cbn [srcbytes].
    rewrite (range_halves R li ui tl th lo (stamps_texts R l read S) H1). cbn [bind].
    assert (E1 := stamp_bound_read R l read tl lo S H1). assert (E2 := stamp_bound_read R l read th hi S H2).
    unfold text, bytes in *. rewrite E1, E2. reflexivity.
Qed.

Lemma C81_read_proof : forall b v old, range_rel ts_text b v ->
  TsRangeToTimeArray2 (Some b) old = stamprange_read ts_read v.
Proof. intros. now apply (stamprange_scan_read ts_text _ _ _ _ _ ts_stamps). Qed.

Lemma C81_tz_read_proof : forall b v old, range_rel tstz_text b v ->
  TstzRangeToTimeArray2 (Some b) old = stamprange_read tstz_read v.
Proof. intros. now apply (stamprange_scan_read tstz_text _ _ _ _ _ tstz_stamps). Qed.

(** Written is always the range from the first time on and before the second
    one. *)
Lemma stamprange_text : forall {V} (R : text -> V -> Prop) l l' read a b va vb, stamps R l' read ->
  R (Format l a) va -> R (Format l b) vb -> spaced (Format l a) = true -> spaced (Format l b) = true ->
  stamprange_value l (a, b) = Some (range_text true false (Some (Format l a)) (Some (Format l b))).
Proof.
  intros V R l l' read a b va vb S Ra Rb Sa Sb.
  destruct (stamp_quoted R l' read _ _ S Ra Sa) as [_ Ea]. destruct (stamp_quoted R l' read _ _ S Rb Sb) as [_ Eb].
  rewrite range_text_eq. cbn [bt]. rewrite Ea, Eb. unfold stamprange_value. cbn [fst snd opn cls app].
  repeat (rewrite <- app_assoc; cbn [app]). reflexivity.
Qed.

Lemma C81_write_proof : forall a b, valid_stamp a -> valid_stamp b ->
  exists t, TsRangeFromTimeArray2 (a, b) = Some t
    /\ range_rel ts_text t (RangeBounds true false (Some (StampFinite (date_of a) (clock_of a)))
                                                   (Some (StampFinite (date_of b) (clock_of b)))).
Proof.
  intros a b A Bd. assert (Ta := format_ts a A). assert (Tb := format_ts b Bd).
  exists (range_text true false (Some (Format timestampLayout a)) (Some (Format timestampLayout b))). split.
  - apply (stamprange_text ts_text timestampLayout _ _ a b _ _ ts_stamps Ta Tb); apply format_spaced.
  - exists (Some (Format timestampLayout a)), (Some (Format timestampLayout b)). auto.
Qed.

Lemma C81_tz_write_proof : forall a b, valid_stamp a -> valid_off a -> valid_stamp b -> valid_off b ->
  exists t za zb, TstzRangeFromTimeArray2 (a, b) = Some t /\ hours_zone a za /\ hours_zone b zb
    /\ range_rel tstz_text t (RangeBounds true false (Some (StampFinite (date_of a) (clock_of a), za))
                                                     (Some (StampFinite (date_of b) (clock_of b), zb))).
Proof.
  intros a b A Oa Bd Ob. destruct (format_tstz a A Oa) as (za & Za & Ta). destruct (format_tstz b Bd Ob) as (zb & Zb & Tb).
  exists (range_text true false (Some (Format timestamptzLayout a)) (Some (Format timestamptzLayout b))), za, zb. split; [|split; [|split]]; auto.
  - apply (stamprange_text tstz_text timestamptzLayout _ _ a b _ _ tstz_stamps Ta Tb); apply format_spaced.
  - exists (Some (Format timestamptzLayout a)), (Some (Format timestamptzLayout b)). auto.
Qed.

Lemma C81_roundtrip_proof : forall a b old, valid_stamp a -> valid_stamp b ->
  TsRangeToTimeArray2 (TsRangeFromTimeArray2 (a, b)) old = Ok (stamp_part 0 a, stamp_part 0 b).
Proof.
  intros a b old A Bd. destruct (C81_write_proof a b A Bd) as (t & E & H). rewrite E.
  etransitivity; [exact (C81_read_proof t _ old H)|]. cbn [stamprange_read null_as ts_read]. destruct A as [A _], Bd as [Bd _].
  rewrite !in_years_of, !go_time_of by auto. reflexivity.
Qed.

Lemma C81_tz_roundtrip_proof : forall a b old, valid_stamp a -> valid_off a -> valid_stamp b -> valid_off b ->
  TstzRangeToTimeArray2 (TstzRangeFromTimeArray2 (a, b)) old = Ok (stamp_part (hour_off a) a, stamp_part (hour_off b) b).
Proof.
  intros a b old A Oa Bd Ob.
  destruct (C81_tz_write_proof a b A Oa Bd Ob) as (t & za & zb & E & (Z1 & Z2 & Z3 & Z4) & (Y1 & Y2 & Y3 & Y4) & H). rewrite E.
  etransitivity; [exact (C81_tz_read_proof t _ old H)|]. cbn [stamprange_read null_as tstz_read]. destruct A as [A _], Bd as [Bd _].
  rewrite !in_years_of, !go_time_of, Z2, Z3, Y2, Y3, Z4, Y4 by auto. reflexivity.
Qed.

Lemma C81_unbounded_refuted_proof : exists b v p,
  range_rel ts_text b (RangeBounds true false (Some v) None)
  /\ TsRangeToTimeArray2 (Some b) (zero_time, zero_time) = Ok p
  /\ exists b', TsRangeFromTimeArray2 p = Some b'
     /\ range_rel ts_text b' (RangeBounds true false (Some v) (Some (StampFinite (MkD false 1 1 1) midnight))).
Proof.
  set (t := MkTime 2024 5 6 0 0 0 0 0). exists (B "[""2024-05-06 00:00:00"",)"), (StampFinite (date_of t) (clock_of t)), (t, zero_time).
  assert (V : valid_stamp t) by (split; [split; [repeat split; vm_compute; congruence|cbn; lia]|vm_compute; repeat split]).
  assert (T := format_ts t V). split; [|split].
  - exists (Some (Format timestampLayout t)), None. split; [exact T|]. split; [exact Logic.I|vm_compute; reflexivity].
  - vm_compute. reflexivity.
  - apply C81_write_proof; auto. split; [split; [repeat split; vm_compute; congruence|cbn; lia]|vm_compute; repeat split].
Qed.

Lemma C81_inclusive_refuted_proof : exists b v w p,
  range_rel ts_text b (RangeBounds true true (Some v) (Some w))
  /\ TsRangeToTimeArray2 (Some b) (zero_time, zero_time) = Ok p
  /\ exists b', TsRangeFromTimeArray2 p = Some b' /\ range_rel ts_text b' (RangeBounds true false (Some v) (Some w)).
Proof.
  set (t := MkTime 2024 5 6 0 0 0 0 0). set (u := MkTime 2024 5 7 0 0 0 0 0).
  exists (B "[""2024-05-06 00:00:00"",""2024-05-07 00:00:00""]"), (StampFinite (date_of t) (clock_of t)),
    (StampFinite (date_of u) (clock_of u)), (t, u).
  assert (V : valid_stamp t) by (split; [split; [repeat split; vm_compute; congruence|cbn; lia]|vm_compute; repeat split]).
  assert (W : valid_stamp u) by (split; [split; [repeat split; vm_compute; congruence|cbn; lia]|vm_compute; repeat split]).
  split; [|split].
  - exists (Some (Format timestampLayout t)), (Some (Format timestampLayout u)). split; [exact (format_ts t V)|].
    split; [exact (format_ts u W)|vm_compute; reflexivity].
  - vm_compute. reflexivity.
  - now apply C81_write_proof.
Qed.

(** Arrays of such ranges: NULL elements and missing bounds make the reader
    panic, empty elements are left out. *)
Definition stamprange_elem_read {V} (read : V -> res time) (o : option (range_val V)) : res (time * time) :=
  match o with
  | Some (RangeBounds _ _ (Some lo) (Some hi)) =>
      bind (read lo) (fun a => bind (read hi) (fun b => Ok (a, b)))
  | _ => Panic
  end.

Lemma drop2_quoted : forall b, drop_ends2 (bs :: dq :: b ++ [bs; dq]) = Ok b.
Proof.
  intros b. unfold drop_ends2. replace (bs :: dq :: b ++ [bs; dq]) with (bs :: (dq :: b ++ [bs]) ++ [dq])
    by (cbn [app]; now rewrite <- app_assoc).
  rewrite drop_ends_wrap. cbn [bind]. apply drop_ends_wrap.
Qed.

Lemma stamprange_elem_ok : forall {V} (R : text -> V -> Prop) l read raw v, stamps R l read -> raw_rel R raw v ->
  stamprange_elem l raw = stamprange_elem_read read v.
Proof.
  intros V R l read [raw|] [[|li ui lo hi]|] S H; cbn [raw_rel] in H; try tauto.
  destruct H as (tl & th & H1 & H2 & ->). assert (T := stamps_texts R l read S).
  unfold stamprange_elem. cbn [str_of]. rewrite range_parse by (now apply (ebt_nocomma R tl lo)). cbn [bind str_of].
  destruct S as [SL S].
  assert (D : forall o v, opt_rel R o v ->
    match v with
    | None => drop_ends2 (ebt o) = Panic
    | Some v => exists x, drop_ends2 (ebt o) = Ok x /\ Parse l x = read v
    end).
  { intros [b|] [v|] HR; cbn [opt_rel] in HR; try tauto; auto. destruct (S b v HR) as (_ & _ & H3). cbn [ebt].
    destruct H3 as [[-> <-]|[[n ->] ->]].
    - exists b. split; auto. apply drop2_quoted.
    - destruct n. exists (B "nfini"); split; [reflexivity|destruct SL as [-> | ->]; reflexivity].
      exists (B "fini"); split; [reflexivity|destruct SL as [-> | ->]; reflexivity]. }
  assert (D1 := D tl lo H1). assert (D2 := D th hi H2). unfold text, bytes in *. destruct lo as [lo|].
  - destruct D1 as (x & -> & P1). cbn [bind]. destruct hi as [hi|].
    + destruct D2 as (y & -> & P2). cbn [bind stamprange_elem_read]. now rewrite P1, P2.
    + rewrite D2. reflexivity.
  - rewrite D1. destruct hi; reflexivity.
Qed.

Lemma stamprangearr_scan_read : forall {V} (R : text -> V -> Prop) l read els vs old, stamps R l read ->
  Forall2 (opt_rel (range_rel R)) els vs ->
  stamprangearr_scan l (Some (array_out els)) old = rmap Some (mapM (stamprange_elem_read read) (seen vs)).
Proof.
  intros V R l read els vs old S F. unfold stamprangearr_scan, arr_scan. cbn [srcbytes]. rewrite qsa_array. cbn [bind]. f_equal.
  apply (mapM_forall2 (raw_rel R)). apply qsa_ranges; auto. now apply (stamps_texts R l read).
  intros raw v H. now apply (stamprange_elem_ok R).
Qed.

Lemma C82_read_proof : forall els vs old, Forall2 (opt_rel (range_rel ts_text)) els vs ->
  TsRangeArrayToTimeArray2Slice (Some (array_out els)) old = rmap Some (mapM (stamprange_elem_read ts_read) (seen vs)).
Proof. intros. now apply (stamprangearr_scan_read ts_text _ _ _ _ _ ts_stamps). Qed.

Lemma C82_tz_read_proof : forall els vs old, Forall2 (opt_rel (range_rel tstz_text)) els vs ->
  TstzRangeArrayToTimeArray2Slice (Some (array_out els)) old = rmap Some (mapM (stamprange_elem_read tstz_read) (seen vs)).
Proof. intros. now apply (stamprangearr_scan_read tstz_text _ _ _ _ _ tstz_stamps). Qed.

Lemma stamprange_elem_text : forall {V} (R : text -> V -> Prop) l l' read a b va vb, stamps R l' read ->
  R (Format l a) va -> R (Format l b) vb -> spaced (Format l a) = true -> spaced (Format l b) = true ->
  elem_out (Some (range_text true false (Some (Format l a)) (Some (Format l b))))
  = dq :: "[" :: bs :: dq :: Format l a ++ bs :: dq :: "," :: bs :: dq :: Format l b ++ [bs; dq; ")"; dq].
Proof.
  intros V R l l' read a b va vb S Ra Rb Sa Sb. rewrite range_quoted.
  rewrite (escape_range R true false (Some (Format l a)) (Some (Format l b)) (Some va) (Some vb) (stamps_texts R l' read S) Ra Rb).
  cbn [ebt]. rewrite Sa, Sb. cbn [opn cls app]. repeat (rewrite <- app_assoc; cbn [app]). reflexivity.
Qed.

Lemma C82_write_proof : forall ps, Forall (fun p => valid_stamp (fst p) /\ valid_stamp (snd p)) ps ->
  exists bs, Forall2 (fun b p => range_rel ts_text b (RangeBounds true false
        (Some (StampFinite (date_of (fst p)) (clock_of (fst p)))) (Some (StampFinite (date_of (snd p)) (clock_of (snd p)))))) bs ps
    /\ TsRangeArrayFromTimeArray2Slice (Some ps) = Some (array_out (map Some bs)).
Proof.
  intros ps F. set (f := fun p : time * time => range_text true false (Some (Format timestampLayout (fst p))) (Some (Format timestampLayout (snd p)))).
  exists (map f ps). split.
  - induction F as [|[a b] ps [A Bd] F IH]; constructor; auto. cbn [fst snd] in *.
    exists (Some (Format timestampLayout a)), (Some (Format timestampLayout b)).
    split; [exact (format_ts a A)|]. split; [exact (format_ts b Bd)|reflexivity].
  - unfold TsRangeArrayFromTimeArray2Slice, stamprangearr_value. rewrite map_map. apply arr_value_out. intros [a b] I.
    rewrite Forall_forall in F. destruct (F (a, b) I) as [A Bd]. cbn [fst snd] in *. subst f. cbn [fst snd].
    apply (stamprange_elem_text ts_text timestampLayout _ _ a b _ _ ts_stamps (format_ts a A) (format_ts b Bd)); apply format_spaced.
Qed.

Lemma C82_tz_write_proof : forall ps,
  Forall (fun p => (valid_stamp (fst p) /\ valid_off (fst p)) /\ (valid_stamp (snd p) /\ valid_off (snd p))) ps ->
  exists bs, Forall2 (fun b p => exists za zb, hours_zone (fst p) za /\ hours_zone (snd p) zb /\
        range_rel tstz_text b (RangeBounds true false
        (Some (StampFinite (date_of (fst p)) (clock_of (fst p)), za)) (Some (StampFinite (date_of (snd p)) (clock_of (snd p)), zb)))) bs ps
    /\ TstzRangeArrayFromTimeArray2Slice (Some ps) = Some (array_out (map Some bs)).
Proof.
  intros ps F. set (f := fun p : time * time => range_text true false (Some (Format timestamptzLayout (fst p))) (Some (Format timestamptzLayout (snd p)))).
  exists (map f ps). split.
  - induction F as [|[a b] ps [[A Oa] [Bd Ob]] F IH]; constructor; auto. cbn [fst snd] in *.
    destruct (format_tstz a A Oa) as (za & Za & Ta). destruct (format_tstz b Bd Ob) as (zb & Zb & Tb).
    exists za, zb. split; auto. split; auto.
    exists (Some (Format timestamptzLayout a)), (Some (Format timestamptzLayout b)).
    split; [exact Ta|]. split; [exact Tb|reflexivity].
  - unfold TstzRangeArrayFromTimeArray2Slice, stamprangearr_value. rewrite map_map. apply arr_value_out. intros [a b] I.
    rewrite Forall_forall in F. destruct (F (a, b) I) as [[A Oa] [Bd Ob]]. cbn [fst snd] in *. subst f. cbn [fst snd].
    destruct (format_tstz a A Oa) as (za & Za & Ta). destruct (format_tstz b Bd Ob) as (zb & Zb & Tb).
    apply (stamprange_elem_text tstz_text timestamptzLayout _ _ a b _ _ tstz_stamps Ta Tb); apply format_spaced.
Qed.

Lemma C82_roundtrip_proof : forall ps old, Forall (fun p => valid_stamp (fst p) /\ valid_stamp (snd p)) ps ->
  TsRangeArrayToTimeArray2Slice (TsRangeArrayFromTimeArray2Slice (Some ps)) old
  = Ok (Some (map (fun p => (stamp_part 0 (fst p), stamp_part 0 (snd p))) ps)).
Proof.
  intros ps old F. destruct (C82_write_proof ps F) as (b & F2 & ->).
  set (val := fun p : time * time => Some (RangeBounds true false (Some (StampFinite (date_of (fst p)) (clock_of (fst p))))
    (Some (StampFinite (date_of (snd p)) (clock_of (snd p)))))).
  rewrite (C82_read_proof (map Some b) (map val ps) old).
  - replace (seen (map val ps)) with (map val ps).
    + rewrite (mapM_map val _ (fun p => (stamp_part 0 (fst p), stamp_part 0 (snd p)))). reflexivity.
      intros [x y] I. rewrite Forall_forall in F. destruct (F (x, y) I) as [[A _] [Bd _]]. cbn [fst snd] in *.
      subst val. cbn [stamprange_elem_read ts_read fst snd]. rewrite !in_years_of, !go_time_of by auto. reflexivity.
    + clear. induction ps as [|p ps IH]; auto. cbn [map]. unfold seen in *. subst val. cbn [filter]. now rewrite <- IH.
  - clear F. induction F2; constructor; auto.
Qed.

Lemma C82_panic_refuted_proof : exists b v,
  range_rel ts_text b (RangeBounds true false (Some v) None)
  /\ TsRangeArrayToTimeArray2Slice (Some (array_out [Some b])) None = Panic
  /\ TsRangeArrayToTimeArray2Slice (Some (array_out [None])) None = Panic.
Proof.
  set (t := MkTime 2024 5 6 0 0 0 0 0). exists (B "[""2024-05-06 00:00:00"",)"), (StampFinite (date_of t) (clock_of t)).
  assert (V : valid_stamp t) by (split; [split; [repeat split; vm_compute; congruence|cbn; lia]|vm_compute; repeat split]).
  split; [|split; vm_compute; reflexivity].
  exists (Some (Format timestampLayout t)), None. split; [exact (format_ts t V)|]. split; [exact Logic.I|vm_compute; reflexivity].
Qed.

Definition valid_day (c : Z * N * N) : Prop :=
  let '(y, m, d) := c in (1 <= m <= 12)%N /\ (1 <= d <= daysIn m y)%N.

Definition day_no (c : Z * N * N) : Z := let '(y, m, d) := c in day_number y m d.

Lemma div_pred : forall y k, (0 < k)%Z -> (y / k = (y - 1) / k + if y mod k =? 0 then 1 else 0)%Z.
Proof.
  intros y k K. assert (D := Z.div_mod y k). assert (M := Z.mod_pos_bound y k K).
  destruct (y mod k =? 0)%Z eqn:E.
  - apply Z.eqb_eq in E. replace (y - 1)%Z with (k * (y / k - 1) + (k - 1))%Z by nia.
    rewrite Z.add_comm with (n := (k * _)%Z), Z.mul_comm, Z.div_add by lia. rewrite (Z.div_small (k - 1) k) by lia. lia.
  - apply Z.eqb_neq in E. replace (y - 1)%Z with ((y mod k - 1) + (y / k) * k)%Z by nia.
    rewrite Z.div_add by lia. rewrite (Z.div_small (y mod k - 1) k) by lia. lia.
Qed.

Lemma year_step : forall y, day_number (y + 1) 1 1 = (day_number y 12 31 + 1)%Z.
Proof.
  intros y. unfold day_number. replace (y + 1 - 1)%Z with y by lia.
  rewrite (div_pred y 4), (div_pred y 100), (div_pred y 400) by lia. cbn [daysBefore].
  replace (2 <? 1)%N with false by reflexivity. replace (2 <? 12)%N with true by reflexivity. cbn [andb].
  unfold isLeap. change (Z.of_N 1) with 1%Z. change (Z.of_N 31) with 31%Z.
  assert (M : forall k j, (0 < k)%Z -> (0 < j)%Z -> (y mod (j * k) =? 0)%Z = true -> (y mod k =? 0)%Z = true).
  { intros k j K J E. apply Z.eqb_eq in E. apply Z.eqb_eq. apply Z.mod_divide in E; [|nia]. apply Z.mod_divide; [lia|].
    destruct E as [q ->]. exists (q * j)%Z. lia. }
  assert (M1 := M 4%Z 25%Z ltac:(lia) ltac:(lia)). assert (M2 := M 100%Z 4%Z ltac:(lia) ltac:(lia)).
  change (25 * 4)%Z with 100%Z in M1. change (4 * 100)%Z with 400%Z in M2.
  destruct (y mod 4 =? 0)%Z; destruct (y mod 100 =? 0)%Z; destruct (y mod 400 =? 0)%Z;
    cbn [andb orb negb]; try lia; try (now specialize (M1 eq_refl)); now specialize (M2 eq_refl).
Qed.

Lemma months : forall m, (1 <= m <= 12)%N -> In m [1; 2; 3; 4; 5; 6; 7; 8; 9; 10; 11; 12]%N.
Proof.
  intros m H. replace m with (N.of_nat (N.to_nat m)) by lia.
  assert (L : (1 <= N.to_nat m <= 12)%nat) by lia. revert L. generalize (N.to_nat m) as k.
  intros k L. do 13 (destruct k as [|k]; [simpl; tauto || lia|]). lia.
Qed.

Lemma next_day_no : forall c, valid_day c -> valid_day (next_day c) /\ day_no (next_day c) = (day_no c + 1)%Z.
Proof.
  intros [[y m] d] [M D]. unfold next_day. destruct (d <? daysIn m y)%N eqn:E.
  - apply N.ltb_lt in E. split. split; auto; lia. cbn [day_no]. unfold day_number. rewrite N2Z.inj_add. lia.
  - apply N.ltb_ge in E. assert (d = daysIn m y) by lia. subst d. destruct (m <? 12)%N eqn:E2.
    + assert (I := months m M). simpl in I.
      assert (L : daysIn 2 y = if isLeap y then 29%N else 28%N) by reflexivity.
      repeat (destruct I as [<-|I]; [first [discriminate E2 | split; [split; [lia|cbn; try (destruct (isLeap y)); lia]|];
        cbn [day_no]; unfold day_number; cbn -[Z.div Z.mul Z.add Z.sub isLeap];
        destruct (isLeap y); cbn -[Z.div Z.mul Z.add Z.sub]; lia]|]). destruct I.
    + apply N.ltb_ge in E2. assert (m = 12)%N by lia. subst m. split. split; cbn; lia. apply year_step.
Qed.

Lemma prev_day_ok : forall c, valid_day c -> valid_day (prev_day c) /\ next_day (prev_day c) = c.
Proof.
  intros [[y m] d] [M D]. unfold prev_day. destruct (1 <? d)%N eqn:E.
  - apply N.ltb_lt in E. split. split; auto; lia. unfold next_day.
    replace (d - 1 <? daysIn m y)%N with true by (symmetry; apply N.ltb_lt; lia). do 2 f_equal. lia.
  - apply N.ltb_ge in E. assert (d = 1)%N by lia. subst d. destruct (1 <? m)%N eqn:E2.
    + apply N.ltb_lt in E2. split.
      { split; [lia|]. split; [|lia]. assert (I := months (m - 1) ltac:(lia)). simpl in I.
        repeat (destruct I as [<-|I]; [cbn; try destruct (isLeap y); lia|]). destruct I. }
      unfold next_day. rewrite N.ltb_irrefl. replace (m - 1 <? 12)%N with true by (symmetry; apply N.ltb_lt; lia).
      do 2 f_equal. lia.
    + apply N.ltb_ge in E2. assert (m = 1)%N by lia. subst m. split. split; cbn; lia. cbn. do 2 f_equal. lia.
Qed.

Lemma prev_day_no : forall c, valid_day c -> valid_day (prev_day c) /\ day_no (prev_day c) = (day_no c - 1)%Z.
Proof.
  intros c V. destruct (prev_day_ok c V) as [P E]. split; auto. destruct (next_day_no _ P) as [_ N]. rewrite E in N. lia.
Qed.

Lemma add_days_no : forall k c, valid_day c -> valid_day (add_days k c) /\ day_no (add_days k c) = (day_no c + k)%Z.
Proof.
  intros k c V. destruct k as [|p|p]; cbn [add_days]. split; auto; lia.
  - revert V. generalize c. clear c. induction p as [|p IH] using Pos.peano_ind; intros c V.
    + cbn. destruct (next_day_no c V). auto.
    + rewrite Pos.iter_succ. destruct (IH c V) as [V' E]. destruct (next_day_no _ V') as [V'' E']. split; auto. lia.
  - revert V. generalize c. clear c. induction p as [|p IH] using Pos.peano_ind; intros c V.
    + cbn. destruct (prev_day_no c V). auto.
    + rewrite Pos.iter_succ. destruct (IH c V) as [V' E]. destruct (prev_day_no _ V') as [V'' E']. split; auto. lia.
Qed.

Lemma C83_date_time_proof : forall t old, valid_day (tm_year t, tm_month t, tm_day t) ->
  let u := DateToTime (STime t) old in
  instant u = instant t /\ tm_nsec u = tm_nsec t /\ tm_off u = 0%Z /\ valid_day (tm_year u, tm_month u, tm_day u)
  /\ (tm_hour u < 24 /\ tm_min u < 60 /\ tm_sec u < 60)%N.
Proof.
  intros t old V. cbn [DateToTime]. unfold InUTC.
  set (s := (Z.of_N (tm_hour t) * 3600 + Z.of_N (tm_min t) * 60 + Z.of_N (tm_sec t) - tm_off t)%Z).
  destruct (add_days_no (s / 86400) _ V) as [V' E]. destruct (add_days (s / 86400) _) as [[y m] d] eqn:EA.
  cbn [day_no] in E. assert (DM := Z.div_mod s 86400). assert (MB := Z.mod_pos_bound s 86400).
  set (r := (s mod 86400)%Z) in *. cbn zeta. cbn [tm_year tm_month tm_day tm_hour tm_min tm_sec tm_nsec tm_off].
  assert (R1 : (0 <= r / 3600 < 24)%Z) by (split; [apply Z.div_pos; lia|apply Z.div_lt_upper_bound; lia]).
  assert (R2 := Z.mod_pos_bound (r / 60) 60). assert (R3 := Z.mod_pos_bound r 60).
  assert (R4 := Z.div_mod r 60). assert (R5 := Z.div_mod (r / 60) 60).
  assert (R6 : (r / 60 / 60 = r / 3600)%Z) by (rewrite Z.div_div by lia; reflexivity).
  repeat split; auto; try apply V'; try lia.
  unfold instant. cbn [tm_year tm_month tm_day tm_hour tm_min tm_sec tm_nsec tm_off].
  rewrite E. rewrite !Z2N.id by lia. subst s. lia.
Qed.

Lemma C83_other_proof : forall s (ot : time) (ob : bytes) (os : slice ascii), (forall t, s <> STime t) ->
  DateToTime s ot = zero_time /\ DateToString s ob = [] /\ DateToByteSlice s os = None.
Proof. intros [t|b|] ot ob os H; auto. now destruct (H t). Qed.

Lemma C83_date_text_proof : forall t ob os, valid_date t ->
  date_text (DateToString (STime t) ob) (DateFinite (date_of t))
  /\ DateToByteSlice (STime t) os = Some (DateToString (STime t) ob).
Proof.
  intros t ob os [O Y]. split; [|reflexivity]. cbn [DateToString]. split; auto. exists (Format dateLayout t).
  split. now apply format_ymd. cbn [era_text date_of d_bc]. now rewrite app_nil_r.
Qed.

Lemma C83_timetz_text_proof : forall t old, valid_clock t -> valid_off t ->
  exists z, zone_secs z = (Z.quot (tm_off t) 60 * 60)%Z
    /\ timetz_input (TimetzToString (STime t) old) (TimeOfDay (clock_of t), z).
Proof.
  intros t old V VO. destruct V as (V1 & V2 & V3 & V4). destruct (format_clock t V1 V2 V3 V4) as [O C].
  assert (T : time_text (Format timeLayout t) (TimeOfDay (clock_of t))) by (split; auto).
  destruct (appendZone_text true (tm_off t) VO) as (z & Z1 & Z2 & Z3 & _ & _).
  exists z. split; auto. unfold TimetzToString, clock_scan. rewrite format_timetz_eq.
  exists (Format timeLayout t), (appendZone true (tm_off t)). repeat split; auto; try apply Z2; try apply T.
Qed.

Lemma C83_time_text_proof : forall t old, valid_clock t ->
  time_text (TimeToString (STime t) old) (TimeOfDay (clock_of t))
  /\ (forall b, TimeToString (SText b) old = b /\ TimetzToString (SText b) old = b)
  /\ TimeToString SOther old = old /\ TimetzToString SOther old = old.
Proof.
  intros t old (V1 & V2 & V3 & V4). destruct (format_clock t V1 V2 V3 V4) as [O C]. repeat split; auto; apply O.
Qed.
