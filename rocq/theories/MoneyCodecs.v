(** Models of the money Valuers and Scanners, and of the binary64 arithmetic
    they use.

    A finite non-negative float64 is represented by the integer f * 2^1074
    (every finite float64 is a multiple of 2^-1074).  The conversions and
    operations of Go round to the nearest float64, ties to even ([rn]); that
    [rn] is such a rounding is proved in MoneyProofs.v ([rn_nearest]).
    Overflow to infinity is not modelled: int64 amounts are far from it. *)
From Coq Require Import Ascii String ZArith NArith Bool List.
From Verif Require Import GoBase Strconv ConvertUtil Codecs.
Import ListNotations.
Local Open Scope Z_scope.

(** 2^1074 *)
Definition scale : Z := 2 ^ 1074.

(** The integer nearest to p/q, ties to even; p >= 0, q > 0. *)
Definition rne_div (p q : Z) : Z :=
  let a := p / q in
  let r := p mod q in
  if 2 * r <? q then a
  else if q <? 2 * r then a + 1
  else if Z.even a then a else a + 1.

(** The exponent of the last of 53 significant bits of x (0 for subnormals). *)
Definition last_bit (x : Z) : Z := Z.max 0 (Z.log2 x - 52).

(** The float64 nearest to p/q (scaled); p >= 0, q > 0. *)
Definition rn (p q : Z) : Z :=
  let t := p * scale in
  let j := last_bit (t / q) in
  rne_div t (q * 2 ^ j) * 2 ^ j.

(** Rounding is symmetric. *)
Definition rns (p q : Z) : Z := if p <? 0 then - rn (- p) q else rn p q.

(** float64(v) *)
Definition f64_of_int (v : Z) : Z := rns v 1.
(** f / 100.0 and f * 100.0 *)
Definition f64_div100 (f : Z) : Z := rns f (100 * scale).
Definition f64_mul100 (f : Z) : Z := rns (f * 100) scale.
(** int64(f): truncation; the result is unspecified outside int64 *)
Definition int_of_f64 (f : Z) : Z := Z.quot f scale.

(** A decimal numeral with two decimals: units.cents *)
Definition fmt_cents (neg : bool) (r : Z) : bytes :=
  (if neg then ["-"%char] else []) ++ format_uint 10 (Z.to_N (r / 100))
    ++ ["."%char; digit_char (Z.to_N (r / 10 mod 10)); digit_char (Z.to_N (r mod 10))].

(** strconv.AppendFloat(_, f, 'f', 2, 64) *)
Definition append_f2 (f : Z) : bytes :=
  fmt_cents (f <? 0) (rne_div (100 * Z.abs f) scale).

(** strconv.ParseFloat(s, 64), restricted to decimal numerals with an optional
    sign and an optional fraction.  Not modelled (answered with Err): exponents,
    hexadecimal, underscores, infinities and NaN. *)
Fixpoint cut_point (s : bytes) : bytes * bytes :=
  match s with
  | [] => ([], [])
  | c :: r => if beq c "." then ([], r) else let '(a, b) := cut_point r in (c :: a, b)
  end.
Definition parse_unsigned_float (s : bytes) : res Z :=
  let '(a, b) := cut_point s in
  match (a ++ b)%list with
  | [] => Err
  | d => match parse_digits 10 0 d with
         | Some n => Ok (rn (Z.of_N n) (10 ^ Z.of_nat (List.length b)))
         | None => Err
         end
  end.
Definition parse_float (s : bytes) : res Z :=
  match s with
  | [] => Err
  | c :: r => if beq c "-" then rmap Z.opp (parse_unsigned_float r)
              else if beq c "+" then parse_unsigned_float r
              else parse_unsigned_float s
  end.

(** money.go:23-27 *)
Definition enc_money (v : Z) : bytes := "$"%char :: append_f2 (f64_div100 (f64_of_int v)).
Definition MoneyFromInt64 (v : Z) : dval := Some (enc_money v).

(** money.go:41-48, moneyarr.go:64-71: [data[1:]] panics on an empty text. *)
Definition dec_money (d : bytes) : res Z :=
  match d with
  | [] => Panic
  | _ :: r => rmap (fun f => int_of_f64 (f64_mul100 f)) (parse_float r)
  end.

(** money.go:33-51 *)
Definition MoneyToInt64 (s : src) (old : Z) : res Z :=
  match srcbytes s with
  | None => Ok old
  | Some d => dec_money d
  end.

(** moneyarr.go:23-45 *)
Definition MoneyArrayFromInt64Slice : slice Z -> dval := arr_value enc_money.

(** moneyarr.go:51-77 *)
Definition MoneyArrayToInt64Slice : src -> slice Z -> res (slice Z) :=
  arr_scan (fun d => bind (pgParseCommaArray d) (mapM dec_money)).
