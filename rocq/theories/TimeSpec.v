(** PostgreSQL's text form of dates, times and timestamps (datestyle ISO) and
    of ranges, from its documentation (8.5.2, 8.17.5) and the functions
    EncodeDateOnly, EncodeTimeOnly, EncodeDateTime, EncodeTimezone and
    range_deparse of its source.  Nothing here refers to the model of the Go
    code. *)
From Coq Require Import Ascii String ZArith NArith Bool List.
From Verif Require Import PgSpec.
Import ListNotations.
Local Open Scope char_scope.

(** Decimal numbers. *)
Definition is_digit (c : ascii) : bool := (48 <=? N_of_ascii c)%N && (N_of_ascii c <=? 57)%N.
Definition number (b : text) : N := fold_left (fun acc c => acc * 10 + (N_of_ascii c - 48))%N b 0%N.
(** [b] is the number [n] in exactly [k] digits. *)
Definition digits (k : nat) (b : text) (n : N) : Prop :=
  List.length b = k /\ forallb is_digit b = true /\ number b = n.

(** The calendar: [y] is the year AD, or BC. *)
Definition leap (y : N) : bool := ((y mod 4 =? 0) && (negb (y mod 100 =? 0) || (y mod 400 =? 0)))%N.
Definition month_days (leapy : bool) (m : N) : N :=
  (if existsb (N.eqb m) [1; 3; 5; 7; 8; 10; 12] then 31
   else if m =? 2 then (if leapy then 29 else 28)
   else 30)%N.
Record pdate := MkD { d_bc : bool; d_year : N; d_month : N; d_day : N }.
Definition pdate_ok (d : pdate) : Prop :=
  (1 <= d_year d /\ 1 <= d_month d <= 12 /\ 1 <= d_day d
   /\ d_day d <= month_days (leap (if d_bc d then d_year d - 1 else d_year d)) (d_month d))%N.

(** Year of four digits, or more without a leading zero. *)
Definition year_text (b : text) (y : N) : Prop :=
  digits 4 b y \/ (exists k, 4 < k /\ digits k b y)%nat /\ hd "0" b <> "0".
Definition ymd_text (b : text) (d : pdate) : Prop :=
  exists y m dd, year_text y (d_year d) /\ digits 2 m (d_month d) /\ digits 2 dd (d_day d)
    /\ b = y ++ "-" :: m ++ "-" :: dd.
Definition era_text (d : pdate) : text := if d_bc d then lit " BC" else [].

(** date_out *)
Inductive date_val := DateFinite (d : pdate) | DateInfinity (neg : bool).
Definition infinity_text (neg : bool) : text := if neg then lit "-infinity" else lit "infinity".
Definition date_text (b : text) (v : date_val) : Prop :=
  match v with
  | DateFinite d => pdate_ok d /\ exists x, ymd_text x d /\ b = x ++ era_text d
  | DateInfinity neg => b = infinity_text neg
  end.

(** Times of day: hours, minutes, seconds and microseconds. *)
Record clock := MkC { c_hour : N; c_min : N; c_sec : N; c_us : N }.
Definition clock_ok (c : clock) : Prop := (c_hour c < 24 /\ c_min c < 60 /\ c_sec c < 60 /\ c_us c < 1000000)%N.
(** A fraction of up to six digits: microseconds. *)
Definition frac_text (b : text) (us : N) : Prop :=
  (b = [] /\ us = 0%N)
  \/ exists k ds n, (1 <= k <= 6)%nat /\ digits k ds n /\ us = (n * 10 ^ N.of_nat (6 - k))%N /\ b = "." :: ds.
Definition clock_text (b : text) (c : clock) : Prop :=
  exists h m s f, digits 2 h (c_hour c) /\ digits 2 m (c_min c) /\ digits 2 s (c_sec c) /\ frac_text f (c_us c)
    /\ b = h ++ ":" :: m ++ ":" :: s ++ f.
(** time_out: midnight at the end of the day is 24:00:00. *)
Inductive time_val := TimeOfDay (c : clock) | EndOfDay.
Definition time_text (b : text) (v : time_val) : Prop :=
  match v with
  | TimeOfDay c => clock_ok c /\ clock_text b c
  | EndOfDay => b = lit "24:00:00"
  end.

(** A zone: the offset from UTC, east being positive, in hours, minutes and
    seconds.  The server writes the minutes when they or the seconds are not
    zero, the seconds when they are not zero; it reads any of the forms. *)
Record zone := MkZ { z_east : bool; z_hour : N; z_min : N; z_sec : N }.
Definition zone_ok (z : zone) : Prop := (z_hour z < 16 /\ z_min z < 60 /\ z_sec z < 60)%N.
Definition zone_secs (z : zone) : Z :=
  let n := Z.of_N (z_hour z * 3600 + z_min z * 60 + z_sec z) in if z_east z then n else (- n)%Z.
Definition zone_text (b : text) (z : zone) : Prop :=
  exists h, digits 2 h (z_hour z) /\
    let sh := (if z_east z then "+" else "-") :: h in
    (z_min z = 0%N /\ z_sec z = 0%N /\ b = sh)
    \/ exists m, digits 2 m (z_min z) /\
       ((z_sec z = 0%N /\ b = sh ++ ":" :: m)
        \/ exists s, digits 2 s (z_sec z) /\ b = sh ++ ":" :: m ++ ":" :: s).
Definition zone_out (b : text) (z : zone) : Prop :=
  exists h m s, digits 2 h (z_hour z) /\ digits 2 m (z_min z) /\ digits 2 s (z_sec z) /\
    b = (if z_east z then "+" else "-") :: h
        ++ (if (z_min z =? 0)%N && (z_sec z =? 0)%N then [] else ":" :: m)
        ++ (if (z_sec z =? 0)%N then [] else ":" :: s).

(** timestamp_out, timestamptz_out: the zone [None] for the former. *)
Inductive stamp_val := StampFinite (d : pdate) (c : clock) | StampInfinity (neg : bool).
Definition stamp_text (z : text) (b : text) (v : stamp_val) : Prop :=
  match v with
  | StampFinite d c =>
      pdate_ok d /\ clock_ok c
      /\ exists x y, ymd_text x d /\ clock_text y c /\ b = x ++ " " :: y ++ z ++ era_text d
  | StampInfinity neg => b = infinity_text neg
  end.

(** range_out: a bound is quoted when it is empty or has a blank or one of the
    characters of the syntax; the texts here have neither quotes nor
    backslashes. *)
Definition bound_special (c : ascii) : bool :=
  if in_dec ascii_dec c [""""; "\"; "("; ")"; "["; "]"; ","] then true else pg_space c.
Definition bound_out (b : text) : text :=
  match b with
  | [] => [""""; """"]
  | _ => if existsb bound_special b then """" :: b ++ [""""] else b
  end.
Definition range_text (linc uinc : bool) (lo hi : option text) : text :=
  (if linc then "[" else "(") :: match lo with Some b => bound_out b | None => [] end
  ++ "," :: match hi with Some b => bound_out b | None => [] end ++ [if uinc then "]" else ")"].

(** A range over values of type [V] whose texts are described by [R]. *)
Inductive range_val (V : Type) := RangeEmpty | RangeBounds (linc uinc : bool) (lo hi : option V).
Arguments RangeEmpty {V}.
Arguments RangeBounds {V}.
Definition opt_rel {A C} (R : A -> C -> Prop) (x : option A) (y : option C) : Prop :=
  match x, y with Some a, Some c => R a c | None, None => True | _, _ => False end.
Definition range_rel {V} (R : text -> V -> Prop) (b : text) (v : range_val V) : Prop :=
  match v with
  | RangeEmpty => b = lit "empty"
  | RangeBounds li ui lo hi =>
      exists tl th, opt_rel R tl lo /\ opt_rel R th hi /\ b = range_text li ui tl th
  end.

(** timestamp and timestamptz, the latter with the session's zone at that
    moment; timetz *)
Definition ts_text (b : text) (v : stamp_val) : Prop := stamp_text [] b v.
Definition tstz_text (b : text) (v : stamp_val * zone) : Prop :=
  exists z, zone_ok (snd v) /\ zone_out z (snd v) /\ stamp_text z b (fst v).
Definition timetz_text (b : text) (v : time_val * zone) : Prop :=
  exists x z, zone_ok (snd v) /\ zone_out z (snd v) /\ time_text x (fst v) /\ b = x ++ z.
(** What the server accepts for them: any form of the zone. *)
Definition tstz_input (b : text) (v : stamp_val * zone) : Prop :=
  exists z, zone_ok (snd v) /\ zone_text z (snd v) /\ stamp_text z b (fst v).
Definition timetz_input (b : text) (v : time_val * zone) : Prop :=
  exists x z, zone_ok (snd v) /\ zone_text z (snd v) /\ time_text x (fst v) /\ b = x ++ z.
