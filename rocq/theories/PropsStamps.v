(** Arrays of times of day and of timestamps, ranges of timestamps and their
    arrays, and single dates: what is written and what is read. *)
From Coq Require Import Ascii String ZArith NArith Bool List Lia.
From Verif Require Import GoBase Strconv StrconvProofs ConvertUtil ConvertProofs Codecs PgSpec PgSpecProofs SimpleProofs TextProofs IntProofs TimeSpec Times TimeCodecs TimeProofs DatesFinal.
From Verif Require Import StampsFinal.
Import ListNotations.
Local Open Scope char_scope.

(** ** time[] and timetz[] *)

(** Times of day: read to the microsecond; 24:00:00 and NULL are errors. *)
Theorem C79_read : forall els vs old, Forall2 (opt_rel time_text) els vs ->
  TimeArrayToTimeSlice (Some (array_out els)) old = rmap Some (mapM (null_as Err time_read) vs).
Proof. exact C79_read_proof. Qed.
Print Assumptions C79_read.

(** With a zone: only zones that are not whole hours can be read. *)
Theorem C79_timetz_read : forall els vs old, Forall2 (opt_rel timetz_text) els vs ->
  TimetzArrayToTimeSlice (Some (array_out els)) old = rmap Some (mapM (null_as Err timetz_read) vs).
Proof. exact C79_timetz_read_proof. Qed.
Print Assumptions C79_timetz_read.

(** Written to the millisecond, the rest cut off. *)
Theorem C79_write : forall ts, Forall valid_clock ts ->
  exists bs, Forall2 (fun b t => time_text b (TimeOfDay (clock_of t))) bs ts
    /\ TimeArrayFromTimeSlice (Some ts) = Some (array_out (map Some bs)).
Proof. exact C79_write_proof. Qed.
Print Assumptions C79_write.

(** The zone is written in hours and minutes. *)
Theorem C79_timetz_write : forall ts, Forall (fun t => valid_clock t /\ valid_off t) ts ->
  exists bs, Forall2 (fun b t => exists z, zone_secs z = (Z.quot (tm_off t) 60 * 60)%Z
        /\ timetz_input b (TimeOfDay (clock_of t), z)) bs ts
    /\ TimetzArrayFromTimeSlice (Some ts) = Some (array_out (map Some bs)).
Proof. exact C79_timetz_write_proof. Qed.
Print Assumptions C79_timetz_write.

Theorem C79_roundtrip : forall ts old, Forall valid_clock ts ->
  TimeArrayToTimeSlice (TimeArrayFromTimeSlice (Some ts)) old = Ok (Some (map time_part ts)).
Proof. exact C79_roundtrip_proof. Qed.
Print Assumptions C79_roundtrip.

(** So microseconds are lost, and a timetz in a zone of whole hours cannot be
    read once the server has it. *)
Theorem C79_micros_refuted : exists b c, time_text b (TimeOfDay c)
  /\ exists t b' c', TimeArrayToTimeSlice (Some (array_out [Some b])) None = Ok (Some [t])
       /\ TimeArrayFromTimeSlice (Some [t]) = Some (array_out [Some b']) /\ time_text b' (TimeOfDay c') /\ c' <> c.
Proof. exact C79_micros_refuted_proof. Qed.
Print Assumptions C79_micros_refuted.

Theorem C79_hours_refuted : exists t b v, valid_clock t /\ valid_off t
  /\ TimetzArrayFromTimeSlice (Some [t]) = Some (array_out [Some b]) /\ timetz_input b v
  /\ (forall b' old, timetz_text b' v -> TimetzArrayToTimeSlice (Some (array_out [Some b'])) old = Err)
  /\ exists b', timetz_text b' v.
Proof. exact C79_hours_refuted_proof. Qed.
Print Assumptions C79_hours_refuted.

Example C79_ex :
  TimeArrayFromTimeSlice (Some [MkTime 2000 5 6 1 2 3 450000000 0]) = Some (B "{01:02:03.45}")
  /\ TimeArrayToTimeSlice (Some (B "{01:02:03.45,23:59:59.999999}")) None
     = Ok (Some [MkTime 0 1 1 1 2 3 450000000 0; MkTime 0 1 1 23 59 59 999999000 0])
  /\ TimetzArrayToTimeSlice (Some (B "{01:02:03+05:30}")) None = Ok (Some [MkTime 0 1 1 1 2 3 0 19800])
  /\ TimetzArrayToTimeSlice (Some (B "{01:02:03+05}")) None = Err
  /\ TimeArrayToTimeSlice (Some (B "{24:00:00}")) None = Err
  /\ TimeArrayToTimeSlice (Some (B "{NULL}")) None = Err.
Proof. vm_compute. repeat split. Qed.

(** ** timestamp[] and timestamptz[] *)

(** Timestamps are read exactly; NULL becomes the zero time; infinity and years
    outside of 1 to 9999 are errors. *)
Theorem C80_read : forall els vs old, Forall2 (opt_rel ts_text) els vs ->
  TimestampArrayToTimeSlice (Some (array_out els)) old = rmap Some (mapM (null_as (Ok zero_time) ts_read) vs).
Proof. exact C80_read_proof. Qed.
Print Assumptions C80_read.

(** With a zone, it has to be of whole hours. *)
Theorem C80_tz_read : forall els vs old, Forall2 (opt_rel tstz_text) els vs ->
  TimestamptzArrayToTimeSlice (Some (array_out els)) old = rmap Some (mapM (null_as (Ok zero_time) tstz_read) vs).
Proof. exact C80_tz_read_proof. Qed.
Print Assumptions C80_tz_read.

(** Timestamps are written with the date and the time of their own zone, to the
    millisecond. *)
Theorem C80_write : forall ts, Forall valid_stamp ts ->
  exists bs, Forall2 (fun b t => ts_text b (StampFinite (date_of t) (clock_of t))) bs ts
    /\ TimestampArrayFromTimeSlice (Some ts) = Some (array_out (map Some bs)).
Proof. exact C80_write_proof. Qed.
Print Assumptions C80_write.

Theorem C80_tz_write : forall ts, Forall (fun t => valid_stamp t /\ valid_off t) ts ->
  exists bs, Forall2 (fun b t => exists z, hours_zone t z /\ tstz_text b (StampFinite (date_of t) (clock_of t), z)) bs ts
    /\ TimestamptzArrayFromTimeSlice (Some ts) = Some (array_out (map Some bs)).
Proof. exact C80_tz_write_proof. Qed.
Print Assumptions C80_tz_write.

Theorem C80_roundtrip : forall ts old, Forall valid_stamp ts ->
  TimestampArrayToTimeSlice (TimestampArrayFromTimeSlice (Some ts)) old = Ok (Some (map (stamp_part 0) ts)).
Proof. exact C80_roundtrip_proof. Qed.
Print Assumptions C80_roundtrip.

Theorem C80_tz_roundtrip : forall ts old, Forall (fun t => valid_stamp t /\ valid_off t) ts ->
  TimestamptzArrayToTimeSlice (TimestamptzArrayFromTimeSlice (Some ts)) old
  = Ok (Some (map (fun t => stamp_part (hour_off t) t) ts)).
Proof. exact C80_tz_roundtrip_proof. Qed.
Print Assumptions C80_tz_roundtrip.

(** A time at milliseconds in a zone of whole hours is kept as it is. *)
Theorem C80_tz_exact : forall ts old,
  Forall (fun t => valid_stamp t /\ valid_off t /\ tm_nsec t mod 1000000 = 0 /\ Z.rem (tm_off t) 3600 = 0%Z)%N ts ->
  TimestamptzArrayToTimeSlice (TimestamptzArrayFromTimeSlice (Some ts)) old = Ok (Some ts).
Proof. exact C80_tz_exact_proof. Qed.
Print Assumptions C80_tz_exact.

(** In other zones the instant changes. *)
Theorem C80_instant_refuted : exists t t', valid_stamp t /\ valid_off t
  /\ TimestamptzArrayToTimeSlice (TimestamptzArrayFromTimeSlice (Some [t])) None = Ok (Some [t'])
  /\ instant t' <> instant t.
Proof. exact C80_instant_refuted_proof. Qed.
Print Assumptions C80_instant_refuted.

(** And so it does for timestamps without a zone that are not in UTC. *)
Theorem C80_utc_refuted : exists t t', valid_stamp t
  /\ TimestampArrayToTimeSlice (TimestampArrayFromTimeSlice (Some [t])) None = Ok (Some [t']) /\ instant t' <> instant t.
Proof. exact C80_utc_refuted_proof. Qed.
Print Assumptions C80_utc_refuted.

Example C80_ex :
  let t := MkTime 2024 5 6 12 34 56 789999999 (-12600) in
  TimestampArrayFromTimeSlice (Some [t; zero_time]) = Some (B "{""2024-05-06 12:34:56.789"",""0001-01-01 00:00:00""}")
  /\ TimestamptzArrayFromTimeSlice (Some [t]) = Some (B "{""2024-05-06 12:34:56.789-03""}")
  /\ TimestampArrayToTimeSlice (Some (B "{""2024-05-06 12:34:56.789999"",NULL}")) None
     = Ok (Some [MkTime 2024 5 6 12 34 56 789999000 0; zero_time])
  /\ TimestamptzArrayToTimeSlice (Some (B "{""2024-05-06 12:34:56-03:30""}")) None = Err
  /\ TimestampArrayToTimeSlice (Some (B "{infinity}")) None = Err
  /\ TimestampArrayToTimeSlice (Some (B "{""0044-03-15 12:00:00 BC""}")) None = Err
  /\ ts_text (B "0044-03-15 12:00:00 BC") (StampFinite (MkD true 44 3 15) (MkC 12 0 0 0))
  /\ tstz_text (B "2024-05-06 12:34:56-03:30") (StampFinite (MkD false 2024 5 6) (MkC 12 34 56 0), MkZ false 3 30 0).
Proof.
  do 6 (split; [vm_compute; reflexivity|]). split.
  - split. repeat split; vm_compute; congruence. split. repeat split; vm_compute; congruence.
    exists (B "0044-03-15"), (B "12:00:00"). split; [|split; [|reflexivity]].
    + exists (B "0044"), (B "03"), (B "15"). split; [left; repeat split|]. repeat split.
    + exists (B "12"), (B "00"), (B "00"), []. repeat split. now left.
  - exists (B "-03:30"). cbn [fst snd]. split; [vm_compute; repeat split|]. split.
    + exists (B "03"), (B "30"), (B "00"). repeat split.
    + split. repeat split; vm_compute; congruence. split. repeat split; vm_compute; congruence.
      exists (B "2024-05-06"), (B "12:34:56"). split; [|split; [|reflexivity]].
      * exists (B "2024"), (B "05"), (B "06"). split; [left; repeat split|]. repeat split.
      * exists (B "12"), (B "34"), (B "56"), []. repeat split. now left.
Qed.

(** ** tsrange, tstzrange and their arrays *)

(** A range is read as its two bounds whichever of them are included, a missing
    bound and both of an empty range as the zero time. *)
Theorem C81_read : forall b v old, range_rel ts_text b v ->
  TsRangeToTimeArray2 (Some b) old = stamprange_read ts_read v.
Proof. exact C81_read_proof. Qed.
Print Assumptions C81_read.

Theorem C81_tz_read : forall b v old, range_rel tstz_text b v ->
  TstzRangeToTimeArray2 (Some b) old = stamprange_read tstz_read v.
Proof. exact C81_tz_read_proof. Qed.
Print Assumptions C81_tz_read.

Theorem C81_write : forall a b, valid_stamp a -> valid_stamp b ->
  exists t, TsRangeFromTimeArray2 (a, b) = Some t
    /\ range_rel ts_text t (RangeBounds true false (Some (StampFinite (date_of a) (clock_of a)))
                                                   (Some (StampFinite (date_of b) (clock_of b)))).
Proof. exact C81_write_proof. Qed.
Print Assumptions C81_write.

Theorem C81_tz_write : forall a b, valid_stamp a -> valid_off a -> valid_stamp b -> valid_off b ->
  exists t za zb, TstzRangeFromTimeArray2 (a, b) = Some t /\ hours_zone a za /\ hours_zone b zb
    /\ range_rel tstz_text t (RangeBounds true false (Some (StampFinite (date_of a) (clock_of a), za))
                                                     (Some (StampFinite (date_of b) (clock_of b), zb))).
Proof. exact C81_tz_write_proof. Qed.
Print Assumptions C81_tz_write.

Theorem C81_roundtrip : forall a b old, valid_stamp a -> valid_stamp b ->
  TsRangeToTimeArray2 (TsRangeFromTimeArray2 (a, b)) old = Ok (stamp_part 0 a, stamp_part 0 b).
Proof. exact C81_roundtrip_proof. Qed.
Print Assumptions C81_roundtrip.

Theorem C81_tz_roundtrip : forall a b old, valid_stamp a -> valid_off a -> valid_stamp b -> valid_off b ->
  TstzRangeToTimeArray2 (TstzRangeFromTimeArray2 (a, b)) old = Ok (stamp_part (hour_off a) a, stamp_part (hour_off b) b).
Proof. exact C81_tz_roundtrip_proof. Qed.
Print Assumptions C81_tz_roundtrip.

(** A range without an end comes back as one that ends in year 1; one that
    includes its end comes back without it. *)
Theorem C81_unbounded_refuted : exists b v p,
  range_rel ts_text b (RangeBounds true false (Some v) None)
  /\ TsRangeToTimeArray2 (Some b) (zero_time, zero_time) = Ok p
  /\ exists b', TsRangeFromTimeArray2 p = Some b'
     /\ range_rel ts_text b' (RangeBounds true false (Some v) (Some (StampFinite (MkD false 1 1 1) midnight))).
Proof. exact C81_unbounded_refuted_proof. Qed.
Print Assumptions C81_unbounded_refuted.

Theorem C81_inclusive_refuted : exists b v w p,
  range_rel ts_text b (RangeBounds true true (Some v) (Some w))
  /\ TsRangeToTimeArray2 (Some b) (zero_time, zero_time) = Ok p
  /\ exists b', TsRangeFromTimeArray2 p = Some b' /\ range_rel ts_text b' (RangeBounds true false (Some v) (Some w)).
Proof. exact C81_inclusive_refuted_proof. Qed.
Print Assumptions C81_inclusive_refuted.

Theorem C82_read : forall els vs old, Forall2 (opt_rel (range_rel ts_text)) els vs ->
  TsRangeArrayToTimeArray2Slice (Some (array_out els)) old = rmap Some (mapM (stamprange_elem_read ts_read) (seen vs)).
Proof. exact C82_read_proof. Qed.
Print Assumptions C82_read.

Theorem C82_tz_read : forall els vs old, Forall2 (opt_rel (range_rel tstz_text)) els vs ->
  TstzRangeArrayToTimeArray2Slice (Some (array_out els)) old = rmap Some (mapM (stamprange_elem_read tstz_read) (seen vs)).
Proof. exact C82_tz_read_proof. Qed.
Print Assumptions C82_tz_read.

Theorem C82_write : forall ps, Forall (fun p => valid_stamp (fst p) /\ valid_stamp (snd p)) ps ->
  exists bs, Forall2 (fun b p => range_rel ts_text b (RangeBounds true false
        (Some (StampFinite (date_of (fst p)) (clock_of (fst p)))) (Some (StampFinite (date_of (snd p)) (clock_of (snd p)))))) bs ps
    /\ TsRangeArrayFromTimeArray2Slice (Some ps) = Some (array_out (map Some bs)).
Proof. exact C82_write_proof. Qed.
Print Assumptions C82_write.

Theorem C82_tz_write : forall ps,
  Forall (fun p => (valid_stamp (fst p) /\ valid_off (fst p)) /\ (valid_stamp (snd p) /\ valid_off (snd p))) ps ->
  exists bs, Forall2 (fun b p => exists za zb, hours_zone (fst p) za /\ hours_zone (snd p) zb /\
        range_rel tstz_text b (RangeBounds true false
        (Some (StampFinite (date_of (fst p)) (clock_of (fst p)), za)) (Some (StampFinite (date_of (snd p)) (clock_of (snd p)), zb)))) bs ps
    /\ TstzRangeArrayFromTimeArray2Slice (Some ps) = Some (array_out (map Some bs)).
Proof. exact C82_tz_write_proof. Qed.
Print Assumptions C82_tz_write.

Theorem C82_roundtrip : forall ps old, Forall (fun p => valid_stamp (fst p) /\ valid_stamp (snd p)) ps ->
  TsRangeArrayToTimeArray2Slice (TsRangeArrayFromTimeArray2Slice (Some ps)) old
  = Ok (Some (map (fun p => (stamp_part 0 (fst p), stamp_part 0 (snd p))) ps)).
Proof. exact C82_roundtrip_proof. Qed.
Print Assumptions C82_roundtrip.

(** A range without an end in the array and a NULL element each end the program. *)
Theorem C82_panic_refuted : exists b v,
  range_rel ts_text b (RangeBounds true false (Some v) None)
  /\ TsRangeArrayToTimeArray2Slice (Some (array_out [Some b])) None = Panic
  /\ TsRangeArrayToTimeArray2Slice (Some (array_out [None])) None = Panic.
Proof. exact C82_panic_refuted_proof. Qed.
Print Assumptions C82_panic_refuted.

Example C81_ex :
  let t := MkTime 2024 5 6 1 2 3 500000000 0 in let u := MkTime 2024 5 7 0 0 0 0 0 in
  valid_stamp t /\ valid_stamp u
  /\ TsRangeFromTimeArray2 (t, u) = Some (B "[""2024-05-06 01:02:03.5"",""2024-05-07 00:00:00"")")
  /\ TsRangeToTimeArray2 (Some (B "[""2024-05-06 01:02:03.5"",""2024-05-07 00:00:00"")")) (u, u) = Ok (t, u)
  /\ TsRangeToTimeArray2 (Some (B "[""2024-05-06 01:02:03.5"",infinity)")) (u, u) = Err
  /\ TsRangeToTimeArray2 None (t, u) = Ok (t, u)
  /\ TstzRangeToTimeArray2 (Some (B "[""2024-05-06 01:02:03.5+00"",)")) (u, u) = Ok (t, zero_time).
Proof.
  split. { split; [split; [repeat split; vm_compute; congruence|cbn; lia]|vm_compute; repeat split]. }
  split. { split; [split; [repeat split; vm_compute; congruence|cbn; lia]|vm_compute; repeat split]. }
  vm_compute. repeat split.
Qed.

Example C82_ex :
  let t := MkTime 2024 5 6 1 2 3 500000000 0 in let u := MkTime 2024 5 7 0 0 0 0 0 in
  TsRangeArrayFromTimeArray2Slice (Some [(t, u)]) = Some (B "{""[\""2024-05-06 01:02:03.5\"",\""2024-05-07 00:00:00\"")""}")
  /\ TsRangeArrayToTimeArray2Slice (Some (B "{empty,""[\""2024-05-06 01:02:03.5\"",\""2024-05-07 00:00:00\"")""}")) None = Ok (Some [(t, u)])
  /\ TsRangeArrayToTimeArray2Slice (Some (B "{""[\""2024-05-06 01:02:03.5\"",infinity)""}")) None = Err.
Proof. vm_compute. repeat split. Qed.

(** ** Single dates and times *)

(** A date column's time.Time is handed on as the same instant, told in UTC. *)
Theorem C83_date_time : forall t old, valid_day (tm_year t, tm_month t, tm_day t) ->
  let u := DateToTime (STime t) old in
  instant u = instant t /\ tm_nsec u = tm_nsec t /\ tm_off u = 0%Z /\ valid_day (tm_year u, tm_month u, tm_day u)
  /\ (tm_hour u < 24 /\ tm_min u < 60 /\ tm_sec u < 60)%N.
Proof. exact C83_date_time_proof. Qed.
Print Assumptions C83_date_time.

(** Anything that is not a time.Time, NULL included, empties the destination. *)
Theorem C83_other : forall s (ot : time) (ob : bytes) (os : slice ascii), (forall t, s <> STime t) ->
  DateToTime s ot = zero_time /\ DateToString s ob = [] /\ DateToByteSlice s os = None.
Proof. exact C83_other_proof. Qed.
Print Assumptions C83_other.

(** As text a date is the server's text of the day in the time's own zone. *)
Theorem C83_date_text : forall t ob os, valid_date t ->
  date_text (DateToString (STime t) ob) (DateFinite (date_of t))
  /\ DateToByteSlice (STime t) os = Some (DateToString (STime t) ob).
Proof. exact C83_date_text_proof. Qed.
Print Assumptions C83_date_text.

(** Times of day as text: a time.Time is written to the millisecond, text is
    kept, anything else leaves the destination as it was. *)
Theorem C83_timetz_text : forall t old, valid_clock t -> valid_off t ->
  exists z, zone_secs z = (Z.quot (tm_off t) 60 * 60)%Z
    /\ timetz_input (TimetzToString (STime t) old) (TimeOfDay (clock_of t), z).
Proof. exact C83_timetz_text_proof. Qed.
Print Assumptions C83_timetz_text.

Theorem C83_time_text : forall t old, valid_clock t ->
  time_text (TimeToString (STime t) old) (TimeOfDay (clock_of t))
  /\ (forall b, TimeToString (SText b) old = b /\ TimetzToString (SText b) old = b)
  /\ TimeToString SOther old = old /\ TimetzToString SOther old = old.
Proof. exact C83_time_text_proof. Qed.
Print Assumptions C83_time_text.

Example C83_ex :
  DateToTime (STime (MkTime 2024 3 1 0 30 0 7 3600)) zero_time = MkTime 2024 2 29 23 30 0 7 0
  /\ DateToTime (STime (MkTime 2023 12 31 23 0 0 0 (-7200))) zero_time = MkTime 2024 1 1 1 0 0 0 0
  /\ DateToString (STime (MkTime 2024 3 1 0 30 0 7 3600)) [] = B "2024-03-01"
  /\ TimetzToString (STime (MkTime 0 1 1 1 2 3 0 3600)) [] = B "01:02:03+01:00".
Proof. vm_compute. repeat split. Qed.
