(** Arrays and ranges of dates, times and timestamps: what is written and what
    is read, in terms of PostgreSQL's text of these types. *)
From Coq Require Import Ascii String ZArith NArith Bool List Lia.
From Verif Require Import GoBase Strconv StrconvProofs ConvertUtil ConvertProofs Codecs PgSpec PgSpecProofs SimpleProofs TextProofs IntProofs TimeSpec Times TimeCodecs TimeProofs.
From Verif Require Import DatesFinal.
Import ListNotations.
Local Open Scope char_scope.

(** ** Times that have a text *)

(** ** What the values of the server should be read as, where they can be *)

(** ** Elements *)

(** ** date[] *)
(** Dates are written as PostgreSQL writes them. *)
Theorem C77_write : forall ts, Forall valid_date ts ->
  exists bs, Forall2 (fun b t => date_text b (DateFinite (date_of t))) bs ts
    /\ DateArrayFromTimeSlice (Some ts) = Some (array_out (map Some bs)).
Proof. exact C77_write_proof. Qed.
Print Assumptions C77_write.

(** Any date array the server sends is read as its dates, or there is an error:
    for NULL elements, infinity, years before 1 and after 9999. *)
Theorem C77_read : forall els vs old, Forall2 (opt_rel date_text) els vs ->
  DateArrayToTimeSlice (Some (array_out els)) old = rmap Some (mapM (null_as Err date_read) vs).
Proof. exact C77_read_proof. Qed.
Print Assumptions C77_read.

(** Written and read again, the day is kept and the time of day dropped. *)
Theorem C77_roundtrip : forall ts old, Forall valid_date ts ->
  DateArrayToTimeSlice (DateArrayFromTimeSlice (Some ts)) old = Ok (Some (map day_of ts)).
Proof. exact C77_roundtrip_proof. Qed.
Print Assumptions C77_roundtrip.

Example C77_ex :
  let t := MkTime 2024 2 29 23 59 1 5 (-3600) in
  valid_date t
  /\ DateArrayFromTimeSlice (Some [t; MkTime 987 1 2 0 0 0 0 0]) = Some (B "{2024-02-29,0987-01-02}")
  /\ DateArrayToTimeSlice (Some (B "{2024-02-29,NULL}")) None = Err
  /\ DateArrayToTimeSlice (Some (B "{infinity}")) None = Err
  /\ DateArrayToTimeSlice (Some (B "{""0044-03-15 BC""}")) None = Err
  /\ DateArrayToTimeSlice (Some (B "{10000-01-01}")) None = Err
  /\ DateArrayToTimeSlice (Some (B "{2023-02-29}")) None = Err
  /\ date_text (B "0044-03-15 BC") (DateFinite (MkD true 44 3 15)).
Proof.
  split. { split; [|cbn; lia]. repeat split; vm_compute; congruence. }
  do 6 (split; [vm_compute; reflexivity|]).
  split. repeat split; vm_compute; congruence.
  exists (B "0044-03-15"). split; [|reflexivity]. exists (B "0044"), (B "03"), (B "15").
  split; [left; repeat split|]. repeat split.
Qed.

(** ** Ranges *)

(** ** daterange and daterange[] *)

(** Any daterange the server sends is read as its bounds, or there is an error. *)
Theorem C78_read : forall b v old, range_rel date_text b v ->
  DateRangeToTimeArray2 (Some b) old = daterange_read v.
Proof. exact C78_read_proof. Qed.
Print Assumptions C78_read.

(** Written is the range from the first day on and before the second one, with
    zero times for missing bounds. *)
Theorem C78_write : forall a b, bound_ok a -> bound_ok b ->
  exists t, DateRangeFromTimeArray2 (a, b) = Some t
    /\ range_rel date_text t (RangeBounds (negb (IsZero a)) false (date_end a) (date_end b)).
Proof. exact C78_write_proof. Qed.
Print Assumptions C78_write.

Theorem C78_roundtrip : forall a b old, plain_day a -> plain_day b ->
  DateRangeToTimeArray2 (DateRangeFromTimeArray2 (a, b)) old = Ok (a, b).
Proof. exact C78_roundtrip_proof. Qed.
Print Assumptions C78_roundtrip.

(** But not every range of the server survives being read and written: an empty
    one comes back as the one of all days, and the first day of year 1 as no
    bound. *)
Theorem C78_empty_refuted : exists b p,
  range_rel date_text b (RangeEmpty) /\ DateRangeToTimeArray2 (Some b) (zero_time, zero_time) = Ok p
  /\ exists b', DateRangeFromTimeArray2 p = Some b' /\ range_rel date_text b' (RangeBounds false false None None).
Proof. exact C78_empty_refuted_proof. Qed.
Print Assumptions C78_empty_refuted.

Theorem C78_first_day_refuted : exists b d p,
  range_rel date_text b (RangeBounds true false (Some d) None) /\ DateRangeToTimeArray2 (Some b) (zero_time, zero_time) = Ok p
  /\ exists b', DateRangeFromTimeArray2 p = Some b' /\ range_rel date_text b' (RangeBounds false false None None).
Proof. exact C78_first_day_refuted_proof. Qed.
Print Assumptions C78_first_day_refuted.

(** Arrays: empty elements are left out, NULL makes the reader panic. *)
Theorem C78_array_read : forall els vs old, Forall2 (opt_rel (range_rel date_text)) els vs ->
  DateRangeArrayToTimeArray2Slice (Some (array_out els)) old
  = rmap Some (mapM (fun o => match o with Some v => daterange_read v | None => Panic end) (seen vs)).
Proof. exact C78_array_read_proof. Qed.
Print Assumptions C78_array_read.

Theorem C78_array_write : forall ps, Forall (fun p => bound_ok (fst p) /\ bound_ok (snd p)) ps ->
  exists bs, Forall2 (fun b p => range_rel date_text b
      (RangeBounds (negb (IsZero (fst p))) false (date_end (fst p)) (date_end (snd p)))) bs ps
    /\ DateRangeArrayFromTimeArray2Slice (Some ps) = Some (array_out (map Some bs)).
Proof. exact C78_array_write_proof. Qed.
Print Assumptions C78_array_write.

Theorem C78_array_roundtrip : forall ps old, Forall (fun p => plain_day (fst p) /\ plain_day (snd p)) ps ->
  DateRangeArrayToTimeArray2Slice (DateRangeArrayFromTimeArray2Slice (Some ps)) old = Ok (Some ps).
Proof. exact C78_array_roundtrip_proof. Qed.
Print Assumptions C78_array_roundtrip.

Example C78_ex :
  let d := MkTime 2024 2 29 0 0 0 0 0 in let e := MkTime 2024 3 1 0 0 0 0 0 in
  plain_day d /\ plain_day zero_time
  /\ DateRangeFromTimeArray2 (d, e) = Some (B "[2024-02-29,2024-03-01)")
  /\ DateRangeArrayFromTimeArray2Slice (Some [(d, e); (zero_time, e)]) = Some (B "{""[2024-02-29,2024-03-01)"",""(,2024-03-01)""}")
  /\ DateRangeToTimeArray2 (Some (B "[infinity,)")) (d, e) = Err
  /\ DateRangeArrayToTimeArray2Slice (Some (B "{empty,""[2024-02-29,2024-03-01)""}")) None = Ok (Some [(d, e)])
  /\ DateRangeArrayToTimeArray2Slice (Some (B "{""[2024-02-29,2024-03-01)"",NULL}")) None = Panic
  /\ DateRangeToTimeArray2 None (d, e) = Ok (d, e).
Proof.
  split. { split; [reflexivity|]. right. split; [|reflexivity]. split; [|cbn; lia]. repeat split; vm_compute; congruence. }
  split. { split; [reflexivity|]. now left. }
  vm_compute. repeat split.
Qed.
