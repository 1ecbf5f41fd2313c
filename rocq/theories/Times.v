(** The parts of Go's package time (go.mod: go 1.23) that package pgsql uses:
    time.Time as the wall clock reading that its methods report, Format, Parse
    and ParseInLocation for the five layouts of convert_util.go, IsZero and
    In(UTC).  Modelled from the documentation and source of the standard
    library, which is not in /repo. *)
From Coq Require Import Ascii String ZArith NArith Bool List.
From Verif Require Import GoBase Strconv.
Import ListNotations.
Local Open Scope string_scope.
Local Open Scope list_scope.

(** A time.Time: what Date, Clock, Nanosecond and the offset of Zone report
    (the location's name is left out). *)
Record time := MkTime {
  tm_year : Z; tm_month : N; tm_day : N; tm_hour : N; tm_min : N; tm_sec : N; tm_nsec : N; tm_off : Z }.

(** time.Time{} *)
Definition zero_time : time := MkTime 1 1 1 0 0 0 0 0.

Definition isLeap (y : Z) : bool := ((y mod 4 =? 0) && (negb (y mod 100 =? 0) || (y mod 400 =? 0)))%Z.
Definition daysIn (m : N) (y : Z) : N :=
  match m with
  | 2 => if isLeap y then 29 else 28
  | 4 | 6 | 9 | 11 => 30
  | _ => 31
  end%N.

(** Days from January 1 of year 1 to the given day. *)
Definition daysBefore (m : N) : Z :=
  match m with
  | 1%N => 0 | 2%N => 31 | 3%N => 59 | 4%N => 90 | 5%N => 120 | 6%N => 151 | 7%N => 181 | 8%N => 212
  | 9%N => 243 | 10%N => 273 | 11%N => 304 | _ => 334
  end%Z.
Definition day_number (y : Z) (m d : N) : Z :=
  (365 * (y - 1) + (y - 1) / 4 - (y - 1) / 100 + (y - 1) / 400
   + daysBefore m + (if (2 <? m)%N && isLeap y then 1 else 0) + Z.of_N d - 1)%Z.
(** Seconds from January 1 of year 1, 00:00 UTC. *)
Definition instant (t : time) : Z :=
  (day_number (tm_year t) (tm_month t) (tm_day t) * 86400
   + Z.of_N (tm_hour t) * 3600 + Z.of_N (tm_min t) * 60 + Z.of_N (tm_sec t) - tm_off t)%Z.
Definition IsZero (t : time) : bool := (instant t =? 0)%Z && (tm_nsec t =? 0)%N.

(** ** Layouts *)

(** The elements of a layout (time.nextStdChunk). *)
Inductive std :=
| StdLongYear | StdZeroMonth | StdZeroDay | StdHour | StdZeroMinute | StdZeroSecond
| StdFrac9 (n : nat) | StdNumShortTZ | StdNumColonTZ.
(** A layout as nextStdChunk cuts it: elements with the text before them. *)
Definition layout := list (bytes * std).

(** convert_util.go:10-14 *)
Definition dateLayout : layout := [([], StdLongYear); (B "-", StdZeroMonth); (B "-", StdZeroDay)].
Definition timeLayout : layout :=
  [([], StdHour); (B ":", StdZeroMinute); (B ":", StdZeroSecond); ([], StdFrac9 3)].
Definition timetzLayout : layout := timeLayout ++ [([], StdNumColonTZ)].
Definition timestampLayout : layout :=
  [([], StdLongYear); (B "-", StdZeroMonth); (B "-", StdZeroDay);
   (B " ", StdHour); (B ":", StdZeroMinute); (B ":", StdZeroSecond); ([], StdFrac9 3)].
Definition timestamptzLayout : layout := timestampLayout ++ [([], StdNumShortTZ)].

(** ** Format *)

(** appendInt: at least [w] digits, zero padded. *)
Definition pad (w : nat) (n : N) : bytes :=
  let s := format_uint 10 n in repeat "0"%char (w - List.length s) ++ s.
Definition appendInt (w : nat) (z : Z) : bytes :=
  if (z <? 0)%Z then "-"%char :: pad w (Z.to_N (- z)) else pad w (Z.to_N z).

(** The last [k] decimal digits. *)
Fixpoint low_digits (k : nat) (n : N) : bytes :=
  match k with O => [] | S k => low_digits k (n / 10) ++ [digit_char (n mod 10)] end.
Fixpoint trim_zeros_rev (s : bytes) : bytes :=
  match s with c :: r => if beq c "0" then trim_zeros_rev r else s | [] => [] end.
(** appendNano for .999...: the first [n] of the nine digits, less the zeros
    at the end; nothing if no digit is left. *)
Definition appendNano (n : nat) (ns : N) : bytes :=
  match rev (trim_zeros_rev (rev (firstn n (low_digits 9 ns)))) with
  | [] => []
  | ds => "."%char :: ds
  end.

Definition appendZone (colon : bool) (off : Z) : bytes :=
  let zone := Z.quot off 60 in
  let a := Z.abs zone in
  (if (zone <? 0)%Z then "-"%char else "+"%char) :: pad 2 (Z.to_N (a / 60))
  ++ (if colon then ":"%char :: pad 2 (Z.to_N (a mod 60)) else []).

Definition format_std (t : time) (s : std) : bytes :=
  match s with
  | StdLongYear => appendInt 4 (tm_year t)
  | StdZeroMonth => pad 2 (tm_month t)
  | StdZeroDay => pad 2 (tm_day t)
  | StdHour => pad 2 (tm_hour t)
  | StdZeroMinute => pad 2 (tm_min t)
  | StdZeroSecond => pad 2 (tm_sec t)
  | StdFrac9 n => appendNano n (tm_nsec t)
  | StdNumShortTZ => appendZone false (tm_off t)
  | StdNumColonTZ => appendZone true (tm_off t)
  end.
(** Time.Format *)
Definition Format (l : layout) (t : time) : bytes := List.concat (map (fun p => fst p ++ format_std t (snd p)) l).

(** ** Parse *)

Definition digit_of (c : ascii) : option N :=
  let n := code c in if (48 <=? n)%N && (n <=? 57)%N then Some (n - 48)%N else None.

(** time.getnum *)
Definition getnum (s : bytes) (fixed : bool) : option (N * bytes) :=
  match s with
  | [] => None
  | a :: r =>
      match digit_of a with
      | None => None
      | Some x =>
          match r with
          | b :: r' => match digit_of b with
                       | Some y => Some (x * 10 + y, r')%N
                       | None => if fixed then None else Some (x, r)
                       end
          | [] => if fixed then None else Some (x, r)
          end
      end
  end.

Fixpoint cutspace (s : bytes) : bytes :=
  match s with c :: r => if beq c " " then cutspace r else s | [] => [] end.
(** time.skip; blanks in the prefixes of the layouts above are single. *)
Fixpoint skip (prefix value : bytes) : option bytes :=
  match prefix with
  | [] => Some value
  | p :: ps =>
      if beq p " " then
        match value with
        | [] => skip ps value
        | v :: _ => if beq v " " then skip ps (cutspace value) else None
        end
      else match value with
           | v :: vs => if beq v p then skip ps vs else None
           | [] => None
           end
  end.

(** The longest prefix of digits. *)
Fixpoint leading_digits (s : bytes) : bytes * bytes :=
  match s with
  | c :: r => match digit_of c with
              | Some _ => let (a, b) := leading_digits r in (c :: a, b)
              | None => ([], s)
              end
  | [] => ([], [])
  end.
(** time.atoi on digits *)
Definition atoi (s : bytes) : option N := match s with [] => None | _ => parse_digits 10 0 s end.

(** The variables of time.parse. *)
Record pst := MkPst {
  p_year : Z; p_month : option N; p_day : option N; p_hour : N; p_min : N; p_sec : N; p_nsec : N; p_zone : option Z }.
Definition pst0 : pst := MkPst 0 None None 0 0 0 0 None.

(** The cases of time.parse; None: an error.  The nine digits kept of a
    fraction are those of parseNanoseconds; a comma may stand for the point. *)
Definition parse_zone (sign : ascii) (h m : bytes) : option Z :=
  match getnum h true, getnum m true with
  | Some (hr, _), Some (mm, _) =>
      if (24 <? hr)%N || (60 <? mm)%N then None
      else if beq sign "+" then Some (Z.of_N (hr * 3600 + mm * 60))
      else if beq sign "-" then Some (- Z.of_N (hr * 3600 + mm * 60))%Z
      else None
  | _, _ => None
  end.
Definition parse_std (s : std) (v : bytes) (p : pst) : option (pst * bytes) :=
  match s with
  | StdLongYear =>
      match v with
      | a :: b :: c :: d :: r =>
          match digit_of a, atoi [a; b; c; d] with
          | Some _, Some y =>
              Some (MkPst (Z.of_N y) (p_month p) (p_day p) (p_hour p) (p_min p) (p_sec p) (p_nsec p) (p_zone p), r)
          | _, _ => None
          end
      | _ => None
      end
  | StdZeroMonth =>
      match getnum v true with
      | Some (n, r) =>
          if (n =? 0)%N || (12 <? n)%N then None
          else Some (MkPst (p_year p) (Some n) (p_day p) (p_hour p) (p_min p) (p_sec p) (p_nsec p) (p_zone p), r)
      | None => None
      end
  | StdZeroDay =>
      match getnum v true with
      | Some (n, r) =>
          Some (MkPst (p_year p) (p_month p) (Some n) (p_hour p) (p_min p) (p_sec p) (p_nsec p) (p_zone p), r)
      | None => None
      end
  | StdHour =>
      match getnum v false with
      | Some (n, r) =>
          if (24 <=? n)%N then None
          else Some (MkPst (p_year p) (p_month p) (p_day p) n (p_min p) (p_sec p) (p_nsec p) (p_zone p), r)
      | None => None
      end
  | StdZeroMinute =>
      match getnum v true with
      | Some (n, r) =>
          if (60 <=? n)%N then None
          else Some (MkPst (p_year p) (p_month p) (p_day p) (p_hour p) n (p_sec p) (p_nsec p) (p_zone p), r)
      | None => None
      end
  | StdZeroSecond =>
      match getnum v true with
      | Some (n, r) =>
          if (60 <=? n)%N then None
          else Some (MkPst (p_year p) (p_month p) (p_day p) (p_hour p) (p_min p) n (p_nsec p) (p_zone p), r)
      | None => None
      end
  | StdFrac9 _ =>
      match v with
      | c :: r =>
          if beq c "." || beq c "," then
            match leading_digits r with
            | ([], _) => Some (p, v)
            | (ds, r') =>
                let ds := firstn 9 ds in
                match atoi ds with
                | Some n =>
                    Some (MkPst (p_year p) (p_month p) (p_day p) (p_hour p) (p_min p) (p_sec p)
                            (n * 10 ^ N.of_nat (9 - List.length ds))%N (p_zone p), r')
                | None => None
                end
            end
          else Some (p, v)
      | [] => Some (p, v)
      end
  | StdNumShortTZ =>
      match v with
      | sg :: a :: b :: r =>
          match parse_zone sg [a; b] (B "00") with
          | Some z =>
              Some (MkPst (p_year p) (p_month p) (p_day p) (p_hour p) (p_min p) (p_sec p) (p_nsec p) (Some z), r)
          | None => None
          end
      | _ => None
      end
  | StdNumColonTZ =>
      match v with
      | sg :: a :: b :: c :: d :: e :: r =>
          if beq c ":" then
            match parse_zone sg [a; b] [d; e] with
            | Some z =>
                Some (MkPst (p_year p) (p_month p) (p_day p) (p_hour p) (p_min p) (p_sec p) (p_nsec p) (Some z), r)
            | None => None
            end
          else None
      | _ => None
      end
  end.

Fixpoint parse_chunks (l : layout) (v : bytes) (p : pst) : option pst :=
  match l with
  | [] => match v with [] => Some p | _ => None end
  | (prefix, s) :: l =>
      match skip prefix v with
      | Some v => match parse_std s v p with Some (p, v) => parse_chunks l v p | None => None end
      | None => None
      end
  end.

(** time.Parse, and time.ParseInLocation with a location of offset 0
    (time.UTC, or noZone of convert_util.go:17).  A zone that is given
    determines the offset (the location may be time.Local or a fixed zone). *)
Definition Parse (l : layout) (v : bytes) : res time :=
  match parse_chunks l v pst0 with
  | None => Err
  | Some p =>
      let m := match p_month p with Some m => m | None => 1%N end in
      let d := match p_day p with Some d => d | None => 1%N end in
      if (d <? 1)%N || (daysIn m (p_year p) <? d)%N then Err
      else Ok (MkTime (p_year p) m d (p_hour p) (p_min p) (p_sec p) (p_nsec p)
                      (match p_zone p with Some z => z | None => 0%Z end))
  end.

(** ** In(time.UTC) *)

Definition next_day (c : Z * N * N) : Z * N * N :=
  let '(y, m, d) := c in
  if (d <? daysIn m y)%N then (y, m, (d + 1)%N)
  else if (m <? 12)%N then (y, (m + 1)%N, 1%N)
  else ((y + 1)%Z, 1%N, 1%N).
Definition prev_day (c : Z * N * N) : Z * N * N :=
  let '(y, m, d) := c in
  if (1 <? d)%N then (y, m, (d - 1)%N)
  else if (1 <? m)%N then (y, (m - 1)%N, daysIn (m - 1) y)
  else ((y - 1)%Z, 12%N, 31%N).
Definition add_days (k : Z) (c : Z * N * N) : Z * N * N :=
  match k with
  | Z0 => c
  | Zpos p => Pos.iter next_day c p
  | Zneg p => Pos.iter prev_day c p
  end.
(** The wall clock of the same instant at offset 0. *)
Definition InUTC (t : time) : time :=
  let s := (Z.of_N (tm_hour t) * 3600 + Z.of_N (tm_min t) * 60 + Z.of_N (tm_sec t) - tm_off t)%Z in
  let '(y, m, d) := add_days (s / 86400) (tm_year t, tm_month t, tm_day t) in
  let r := (s mod 86400)%Z in
  MkTime y m d (Z.to_N (r / 3600)) (Z.to_N (r / 60 mod 60)) (Z.to_N (r mod 60)) (tm_nsec t) 0.
