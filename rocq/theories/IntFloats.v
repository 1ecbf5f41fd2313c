(** Models of the float32 and float64 variants of the codecs of IntCodecs.v:
    int2[], int4[], int8[], int2vector, int4range, int8range, numrange and the
    arrays of those ranges.  (numeric[] of floats is in Floats.v, int2vector[]
    of floats in VecFloats.v.) *)
From Coq Require Import Ascii String ZArith NArith Bool List.
From Verif Require Import GoBase Strconv ConvertUtil Codecs MoneyCodecs IntCodecs Floats.
Import ListNotations.
Local Open Scope char_scope.
Local Open Scope Z_scope.

Inductive fty := F32 | F64.
Definition fmt_of (t : fty) : fformat := match t with F32 => f32 | F64 => f64 end.

(** The bitSize given to strconv.ParseInt: int2arr.go:659,708; int4arr.go, same
    lines; int8arr.go:657,706; int2vector.go:657,706;
    int4range.go:587,592,630,635; int8range.go, numrange.go, same lines;
    int4rangearr.go:804,809,867,872; int8rangearr.go, numrangearr.go, same lines. *)
Definition float_bits (c : icol) (t : fty) : N :=
  match c with
  | CInt2Arr | CInt2Vec | CInt2VecArr => 16
  | CInt4Arr | CInt4Range | CInt4RangeArr => 32
  | CInt8RangeArr | CNumRangeArr => match t with F32 => 32 | F64 => 64 end
  | _ => 64
  end%N.

(** float32(i64), float64(i64): to nearest. *)
Definition of_int (t : fty) (z : Z) : float :=
  Fin (z <? 0) (round_to (fmt_of t) (Z.abs z * 2 ^ expo (fmt_of t)) 1).
(** int64(f): towards zero.  For NaN and numbers outside int64 the result is left
    to the implementation; this is amd64's. *)
Definition int64_of (t : fty) (f : float) : Z :=
  match f with
  | Fin neg v =>
      let n := v / 2 ^ expo (fmt_of t) in
      let z := if neg then - n else n in
      if (- 2 ^ 63 <=? z) && (z <? 2 ^ 63) then z else - 2 ^ 63
  | _ => - 2 ^ 63
  end.

Definition scan_float (c : icol) (t : fty) (e : bytes) : res float :=
  rmap (of_int t) (parse_int 10 (float_bits c t) e).
Definition enc_float (t : fty) (f : float) : bytes := enc_int (int64_of t f).

(** int2arr.go:625-641,674-690; int4arr.go, int8arr.go:623-,672- *)
Definition IntArrayFromFloats (t : fty) : slice float -> dval := arr_value (enc_float t).
(** int2arr.go:647-669,696-718; int4arr.go, int8arr.go:645-,694- *)
Definition IntArrayToFloats (c : icol) (t : fty) : src -> slice float -> res (slice float) :=
  arr_scan (fun d => bind (pgParseCommaArray d) (mapM (scan_float c t))).

(** int2vector.go:623-639,672-688 *)
Definition Int2VectorFromFloats (t : fty) (v : slice float) : dval :=
  match v with
  | None => None
  | Some [] => Some []
  | Some l => Some (removelast (List.concat (map (fun f => enc_float t f ++ [" "]) l)))
  end.
(** int2vector.go:645-667,694-716 *)
Definition Int2VectorToFloats (t : fty) : src -> slice float -> res (slice float) :=
  arr_scan (fun d => mapM (scan_float CInt2Vec t) (pgParseVector d)).

(** int4range.go:563-570,606-613; int8range.go, numrange.go, same lines *)
Definition encf_range (t : fty) (p : float * float) : bytes :=
  "[" :: enc_float t (fst p) ++ "," :: enc_float t (snd p) ++ [")"].
Definition IntRangeFromFloats (t : fty) (p : float * float) : dval := Some (encf_range t p).
(** int4range.go:576-600,619-643; a missing bound is float32(0). *)
Definition scanf_bound (c : icol) (t : fty) (o : option bytes) : res Z :=
  match o with
  | Some (x :: r) => parse_int 10 (float_bits c t) (x :: r)
  | _ => Ok 0
  end.
Definition scanf_range (c : icol) (t : fty) (d : bytes) : res (float * float) :=
  bind (pgParseRange d) (fun '(lo, hi) =>
  bind (scanf_bound c t lo) (fun l => bind (scanf_bound c t hi) (fun h => Ok (of_int t l, of_int t h)))).
Definition IntRangeToFloats (c : icol) (t : fty) (s : src) (old : float * float) : res (float * float) :=
  match srcbytes s with
  | None => Ok old
  | Some d => scanf_range c t d
  end.

(** int4rangearr.go:763-782,826-845; int8rangearr.go, numrangearr.go, same lines *)
Definition IntRangeArrayFromFloats (t : fty) : slice (float * float) -> dval :=
  arr_value (fun p => dq :: encf_range t p ++ [dq]).
(** int4rangearr.go:788-820,851-883 *)
Definition IntRangeArrayToFloats (c : icol) (t : fty) (s : src) (old : slice (float * float)) : res (slice (float * float)) :=
  match srcbytes s with
  | None => Ok old
  | Some d =>
      bind (pgParseQuotedStringArray d) (fun els =>
        rmap Some (mapM (fun o => match o with
                                  | None => Panic
                                  | Some e => scanf_range c t e
                                  end) els))
  end.
