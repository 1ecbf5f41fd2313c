(** Models of the codecs of package pgsql for date, time, timetz, timestamp and
    timestamptz arrays, for the ranges of dates and timestamps and their
    arrays, and of the scanners of single dates and times.  Format and Parse
    are in Times.v. *)
From Coq Require Import Ascii String ZArith NArith Bool List.
From Verif Require Import GoBase Strconv ConvertUtil Codecs Times.
Import ListNotations.
Local Open Scope char_scope.

(** ** Arrays *)

(** datearr.go:23-39 *)
Definition DateArrayFromTimeSlice : slice time -> dval := arr_value (Format dateLayout).
(** datearr.go:45-66; pgparsedate is convert_util.go:201-203 *)
Definition DateArrayToTimeSlice : src -> slice time -> res (slice time) :=
  arr_scan (fun d => bind (pgParseCommaArray d) (mapM (Parse dateLayout))).

(** timearr.go:23-42, timetzarr.go:23-42 *)
Definition TimeArrayFromTimeSlice : slice time -> dval := arr_value (Format timeLayout).
Definition TimetzArrayFromTimeSlice : slice time -> dval := arr_value (Format timetzLayout).
(** timearr.go:48-69, timetzarr.go:48-69 *)
Definition TimeArrayToTimeSlice : src -> slice time -> res (slice time) :=
  arr_scan (fun d => bind (pgParseCommaArray d) (mapM (Parse timeLayout))).
Definition TimetzArrayToTimeSlice : src -> slice time -> res (slice time) :=
  arr_scan (fun d => bind (pgParseCommaArray d) (mapM (Parse timetzLayout))).

(** timestamparr.go:23-44, timestamptzarr.go:23-45 *)
Definition stamp_value (l : layout) : slice time -> dval := arr_value (fun t => dq :: Format l t ++ [dq]).
Definition TimestampArrayFromTimeSlice : slice time -> dval := stamp_value timestampLayout.
Definition TimestamptzArrayFromTimeSlice : slice time -> dval := stamp_value timestamptzLayout.
(** timestamparr.go:60-73, timestamptzarr.go:61-74: an element that starts
    with N leaves the zero time in place. *)
Definition stamp_elem (l : layout) (e : bytes) : res time :=
  match e with
  | c :: _ => if beq c "N" then Ok zero_time else bind (drop_ends e) (Parse l)
  | [] => bind (drop_ends e) (Parse l)
  end.
(** timestamparr.go:50-77, timestamptzarr.go:51-78 *)
Definition stamp_scan (l : layout) : src -> slice time -> res (slice time) :=
  arr_scan (fun d => bind (pgParseCommaArray d) (mapM (stamp_elem l))).
Definition TimestampArrayToTimeSlice := stamp_scan timestampLayout.
Definition TimestamptzArrayToTimeSlice := stamp_scan timestamptzLayout.

(** ** Ranges of dates *)

(** daterange.go:46-64 *)
Definition enc_daterange (p : time * time) : bytes :=
  (if IsZero (fst p) then ["("] else "[" :: Format dateLayout (fst p))
  ++ "," :: (if IsZero (snd p) then [] else Format dateLayout (snd p)) ++ [")"].
Definition DateRangeFromTimeArray2 (p : time * time) : dval := Some (enc_daterange p).
(** daterange.go:78-89, daterangearr.go:70-83 *)
Definition date_bound (o : option bytes) : res time :=
  match o with
  | Some (c :: r) => Parse dateLayout (c :: r)
  | _ => Ok zero_time
  end.
Definition scan_daterange (d : bytes) : res (time * time) :=
  bind (pgParseRange d) (fun '(lo, hi) =>
  bind (date_bound lo) (fun l => bind (date_bound hi) (fun h => Ok (l, h)))).
(** daterange.go:70-94: NULL leaves the destination alone. *)
Definition DateRangeToTimeArray2 (s : src) (old : time * time) : res (time * time) :=
  match srcbytes s with None => Ok old | Some d => scan_daterange d end.

(** daterangearr.go:23-51 *)
Definition DateRangeArrayFromTimeArray2Slice : slice (time * time) -> dval :=
  arr_value (fun p => dq :: enc_daterange p ++ [dq]).
(** daterangearr.go:57-90.  NULL executes v.val = nil on the scanner's own
    copy (l.62); a NULL element is a nil slice, on which pgParseRange panics. *)
Definition DateRangeArrayToTimeArray2Slice (s : src) (old : slice (time * time)) : res (slice (time * time)) :=
  match srcbytes s with
  | None => Ok old
  | Some d =>
      bind (pgParseQuotedStringArray d) (fun els =>
        rmap Some (mapM (fun o => match o with None => Panic | Some e => scan_daterange e end) els))
  end.

(** ** Ranges of timestamps *)

(** tsrange.go:23-35, tstzrange.go:23-35 *)
Definition stamprange_value (l : layout) (p : time * time) : dval :=
  Some ("[" :: dq :: Format l (fst p) ++ dq :: "," :: dq :: Format l (snd p) ++ [dq; ")"]).
Definition TsRangeFromTimeArray2 := stamprange_value timestampLayout.
Definition TstzRangeFromTimeArray2 := stamprange_value timestamptzLayout.
(** tsrange.go:50-64, tstzrange.go:50-64 *)
Definition stamp_bound (l : layout) (o : option bytes) : res time :=
  match o with
  | Some (c :: r) => bind (drop_ends (c :: r)) (Parse l)
  | _ => Ok zero_time
  end.
(** tsrange.go:41-69, tstzrange.go:41-69 *)
Definition stamprange_scan (l : layout) (s : src) (old : time * time) : res (time * time) :=
  match srcbytes s with
  | None => Ok old
  | Some d =>
      bind (pgParseRange d) (fun '(lo, hi) =>
      bind (stamp_bound l lo) (fun a => bind (stamp_bound l hi) (fun b => Ok (a, b))))
  end.
Definition TsRangeToTimeArray2 := stamprange_scan timestampLayout.
Definition TstzRangeToTimeArray2 := stamprange_scan timestamptzLayout.

(** tsrangearr.go:23-47, tstzrangearr.go:23-47 *)
Definition stamprangearr_value (l : layout) : slice (time * time) -> dval :=
  arr_value (fun p => dq :: "[" :: bs :: dq :: Format l (fst p)
                      ++ bs :: dq :: "," :: bs :: dq :: Format l (snd p) ++ [bs; dq; ")"; dq]).
Definition TsRangeArrayFromTimeArray2Slice := stamprangearr_value timestampLayout.
Definition TstzRangeArrayFromTimeArray2Slice := stamprangearr_value timestamptzLayout.
(** a[2:len(a)-2] *)
Definition drop_ends2 (a : bytes) : res bytes := bind (drop_ends a) drop_ends.
(** tsrangearr.go:64-83, tstzrangearr.go:64-83; a nil half is sliced like an
    empty one *)
Definition stamprange_elem (l : layout) (o : option bytes) : res (time * time) :=
  bind (pgParseRange (str_of o)) (fun '(lo, hi) =>
  bind (drop_ends2 (str_of lo)) (fun a => bind (drop_ends2 (str_of hi)) (fun b =>
  bind (Parse l a) (fun x => bind (Parse l b) (fun y => Ok (x, y)))))).
(** tsrangearr.go:53-87, tstzrangearr.go:53-87 *)
Definition stamprangearr_scan (l : layout) : src -> slice (time * time) -> res (slice (time * time)) :=
  arr_scan (fun d => bind (pgParseQuotedStringArray d) (mapM (stamprange_elem l))).
Definition TsRangeArrayToTimeArray2Slice := stamprangearr_scan timestampLayout.
Definition TstzRangeArrayToTimeArray2Slice := stamprangearr_scan timestamptzLayout.

(** ** Single dates and times *)

(** What a driver hands to these scanners: a time.Time, []byte or string, or
    anything else (nil included). *)
Inductive tsrc := STime (t : time) | SText (b : bytes) | SOther.

(** date.go:27-34, 40-47, 53-60; the old contents are overwritten in any case. *)
Definition DateToTime (s : tsrc) (_ : time) : time :=
  match s with STime t => InUTC t | _ => zero_time end.
Definition DateToString (s : tsrc) (_ : bytes) : bytes :=
  match s with STime t => Format dateLayout t | _ => [] end.
Definition DateToByteSlice (s : tsrc) (_ : slice ascii) : slice ascii :=
  match s with STime t => Some (Format dateLayout t) | _ => None end.
(** time.go:22-32, 38-48; timetz.go, same lines *)
Definition clock_scan (l : layout) (s : tsrc) (old : bytes) : bytes :=
  match s with STime t => Format l t | SText b => b | SOther => old end.
Definition TimeToString := clock_scan timeLayout.
Definition TimetzToString := clock_scan timetzLayout.
