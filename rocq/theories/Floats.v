(** Model of Go's float32 and float64 as strconv prints and parses them, and of
    the Valuers and Scanners of float slices.

    A finite float of a format is a sign and the integer |f| * 2^expo (every
    finite float is a multiple of 2^-expo), as in MoneyCodecs.v. *)
From Coq Require Import Ascii String ZArith NArith Bool List.
From Verif Require Import GoBase Strconv ConvertUtil Codecs MoneyCodecs.
Import ListNotations.
Local Open Scope char_scope.
Local Open Scope Z_scope.

(** Significant bits, exponent of the smallest float, and the exponent from
    which on numbers overflow. *)
Record fformat := MkFF { prec : Z; expo : Z; over : Z }.
Definition f64 : fformat := MkFF 53 1074 1024.
Definition f32 : fformat := MkFF 24 149 128.

Inductive float := NaN | Inf (neg : bool) | Fin (neg : bool) (v : Z).

(** The exponent of the last significant bit of x (0 for subnormals). *)
Definition lastbit (ff : fformat) (x : Z) : Z := Z.max 0 (Z.log2 x - (prec ff - 1)).
(** The float nearest to the scaled number t/q; t >= 0, q > 0. *)
Definition round_to (ff : fformat) (t q : Z) : Z :=
  let j := lastbit ff (t / q) in rne_div t (q * 2 ^ j) * 2 ^ j.
(** The float nearest to m * 10^x. *)
Definition dec_round (ff : fformat) (m x : Z) : Z :=
  if x <? 0 then round_to ff (m * 2 ^ expo ff) (10 ^ (- x))
  else round_to ff (m * 10 ^ x * 2 ^ expo ff) 1.

(** ** strconv.ParseFloat *)

Definition dig (c : ascii) : option Z :=
  let n := Z.of_N (N_of_ascii c) in if (48 <=? n) && (n <=? 57) then Some (n - 48) else None.

(** strconv.readFloat, the digits; the mantissa, the number of its digits after
    the point, and the rest. *)
Fixpoint read_mant (s : bytes) (dot saw : bool) (m frac : Z) : option (Z * Z * bytes) :=
  let stop := if saw then Some (m, frac, s) else None in
  match s with
  | [] => stop
  | c :: r =>
      if beq c "." then (if dot then stop else read_mant r true saw m frac)
      else match dig c with
           | Some d => read_mant r dot true (10 * m + d) (if dot then frac + 1 else frac)
           | None => stop
           end
  end.
(** The exponent; what it exceeds 10000 by is cut off. *)
Fixpoint read_exp (s : bytes) (e : Z) : option Z :=
  match s with
  | [] => Some e
  | c :: r => match dig c with
              | Some d => read_exp r (if e <? 10000 then e * 10 + d else e)
              | None => None
              end
  end.
Definition exponent (s : bytes) : option Z :=
  match s with
  | [] => Some 0
  | c :: r =>
      if (beq c "e" || beq c "E")%bool then
        match r with
        | [] => None
        | c1 :: r1 =>
            let '(neg, ds) := if beq c1 "-" then (true, r1) else if beq c1 "+" then (false, r1) else (false, r) in
            match ds with
            | [] => None
            | _ => option_map (fun e => if neg : bool then - e else e) (read_exp ds 0)
            end
        end
      else None
  end.

Definition to_lower (c : ascii) : ascii :=
  let n := N_of_ascii c in if ((65 <=? n) && (n <=? 90))%N then ascii_of_N (n + 32) else c.
(** strconv.special *)
Definition is_inf (s : bytes) : bool :=
  let l := map to_lower s in bytes_eqb l (B "inf") || bytes_eqb l (B "infinity").
Definition is_nan (s : bytes) : bool := bytes_eqb (map to_lower s) (B "nan").

(** Overflow is an error. *)
Definition finite (ff : fformat) (neg : bool) (v : Z) : res float :=
  if v <? 2 ^ (over ff + expo ff) then Ok (Fin neg v) else Err.

Definition parse_abs (ff : fformat) (neg : bool) (s : bytes) : res float :=
  if is_inf s then Ok (Inf neg)
  else match read_mant s false false 0 0 with
       | None => Err
       | Some (m, frac, r) =>
           match exponent r with
           | None => Err
           | Some e => finite ff neg (dec_round ff m (e - frac))
           end
       end.

(** strconv.ParseFloat(s, bits), Go 1.23; that it rounds correctly is its
    documentation.  Not modelled (answered with Err): hexadecimal numbers and
    underscores. *)
Definition ParseFloat (ff : fformat) (s : bytes) : res float :=
  match s with
  | [] => Err
  | c :: r =>
      if beq c "-" then parse_abs ff true r
      else if beq c "+" then parse_abs ff false r
      else if is_nan s then Ok NaN
      else parse_abs ff false s
  end.

(** ** strconv.AppendFloat(_, f, 'f', -1, bits) *)

(** The shortest decimal that is read back as the float, of several the nearest:
    D and j of D * 10^j.  For each j from above the multiples of 10^j next to
    the float are tried; at j = - expo the float is such a multiple. *)
Fixpoint shortest (ff : fformat) (fuel : nat) (v j : Z) : Z * Z :=
  let a := if j <? 0 then v * 10 ^ (- j) else v in
  let b := if j <? 0 then 2 ^ expo ff else 2 ^ expo ff * 10 ^ j in
  match fuel with
  | O => (a / b, j)
  | S fuel =>
      if a / b =? 0 then shortest ff fuel v (j - 1)
      else
        let near := rne_div a b in
        let far := 2 * (a / b) + 1 - near in
        if dec_round ff near j =? v then (near, j)
        else if dec_round ff far j =? v then (far, j)
        else shortest ff fuel v (j - 1)
  end.
(** No zero at the end. *)
Definition trim0 (p : Z * Z) : Z * Z :=
  let '(d, j) := p in if d mod 10 =? 0 then (d / 10, j + 1) else (d, j).

Definition zeros0 (n : nat) : bytes := repeat "0" n.
(** strconv.fmtF *)
Definition fmt_f (d j : Z) : bytes :=
  let s := format_uint 10 (Z.to_N d) in
  if 0 <=? j then s ++ zeros0 (Z.to_nat j)
  else
    let k := Z.to_nat (- j) in
    if (k <? List.length s)%nat then
      firstn (List.length s - k) s ++ "." :: skipn (List.length s - k) s
    else B "0." ++ zeros0 (k - List.length s) ++ s.

(** A number with 10^(start v) above the float. *)
Definition start (ff : fformat) (v : Z) : Z :=
  let y := Z.log2 v + 1 - expo ff in
  if y <? 0 then - (3 * - y / 10) else y / 3 + 1.
Definition digits (ff : fformat) (v : Z) : Z * Z :=
  let j := start ff v in trim0 (shortest ff (Z.to_nat (j + expo ff)) v j).

Definition AppendFloat (ff : fformat) (f : float) : bytes :=
  match f with
  | NaN => B "NaN"
  | Inf neg => if neg then B "-Inf" else B "+Inf"
  | Fin neg v =>
      (if neg then ["-"] else []) ++
      (if v =? 0 then B "0" else let '(d, j) := digits ff v in fmt_f d j)
  end.

(** float64(f) of a float32: exact. *)
Definition widen (f : float) : float :=
  match f with Fin neg v => Fin neg (v * 2 ^ (expo f64 - expo f32)) | _ => f end.

(** ** Slices of floats *)

(** float4arr.go:33-49, numericarr.go (NumericArrayFromFloat32Slice) *)
Definition Float4ArrayFromFloat32Slice : slice float -> dval := arr_value (AppendFloat f32).
Definition NumericArrayFromFloat32Slice := Float4ArrayFromFloat32Slice.
(** float4arr.go:82-98, float8arr.go:82-98, numericarr.go *)
Definition Float8ArrayFromFloat64Slice : slice float -> dval := arr_value (AppendFloat f64).
Definition Float4ArrayFromFloat64Slice := Float8ArrayFromFloat64Slice.
Definition NumericArrayFromFloat64Slice := Float8ArrayFromFloat64Slice.
(** float8arr.go:33-49: a float32 is printed as the float64 it is *)
Definition Float8ArrayFromFloat32Slice : slice float -> dval := arr_value (fun f => AppendFloat f64 (widen f)).
(** float4arr.go:55-76, float8arr.go:55-76, numericarr.go *)
Definition FloatArrayToFloat32Slice : src -> slice float -> res (slice float) :=
  arr_scan (fun d => bind (pgParseCommaArray d) (mapM (ParseFloat f32))).
(** float4arr.go:104-125, float8arr.go:104-125, numericarr.go *)
Definition FloatArrayToFloat64Slice : src -> slice float -> res (slice float) :=
  arr_scan (fun d => bind (pgParseCommaArray d) (mapM (ParseFloat f64))).
