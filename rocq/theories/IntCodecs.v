(** Models of the integer codecs of package pgsql: int2[], int4[], int8[],
    numeric[], int2vector, int2vector[], int4range, int8range, numrange and
    the arrays of those ranges, for the ten Go integer types.

    The Go source has one Valuer and one Scanner per (column type, Go type);
    they differ only in the strconv function and its bitSize argument, which
    are tabulated in [scan_bits].  The float32/float64 variants are not in
    this file.  [int] and [uint] are 64 bits wide. *)
From Coq Require Import Ascii String ZArith NArith Bool List.
From Verif Require Import GoBase Strconv ConvertUtil Codecs.
Import ListNotations.
Local Open Scope char_scope.

(** The Go element types. *)
Inductive ity := TInt | TInt8 | TInt16 | TInt32 | TInt64
               | TUint | TUint8 | TUint16 | TUint32 | TUint64.

(** The PostgreSQL column types. *)
Inductive icol := CInt2Arr | CInt4Arr | CInt8Arr | CNumericArr
                | CInt2Vec | CInt2VecArr
                | CInt4Range | CInt8Range | CNumRange
                | CInt4RangeArr | CInt8RangeArr | CNumRangeArr.

Definition signed (t : ity) : bool :=
  match t with TInt | TInt8 | TInt16 | TInt32 | TInt64 => true | _ => false end.

Definition width (t : ity) : Z :=
  match t with
  | TInt | TInt64 | TUint | TUint64 => 64
  | TInt8 | TUint8 => 8
  | TInt16 | TUint16 => 16
  | TInt32 | TUint32 => 32
  end%Z.

(** bitSize passed to strconv.ParseInt / ParseUint by the scanner of column
    type [c] into Go type [t].
    int2arr.go:167,216,265,314,363,414,463,512,561,610;
    int4arr.go, same lines; int8arr.go:167,216,265,314,363,412,461,510,559,608;
    numericarr.go, same lines as int2arr.go; int2vector.go:167..608;
    int2vectorarr.go:174..696; int4range.go:157..549; int8range.go, numrange.go,
    same lines; int4rangearr.go:174..746; int8rangearr.go, numrangearr.go, same
    lines. *)
Definition scan_bits (c : icol) (t : ity) : N :=
  match c with
  | CInt2Arr | CInt2Vec | CInt2VecArr =>
      match t with TInt8 | TUint8 => 8 | _ => 16 end
  | CInt4Arr | CInt4Range | CInt4RangeArr =>
      match t with
      | TInt8 | TUint8 => 8
      | TInt16 | TUint16 => 16
      | _ => 32
      end
  | CInt8Arr =>
      match t with
      | TUint => 32                               (* int8arr.go:412 *)
      | TInt8 | TUint8 => 8
      | TInt16 | TUint16 => 16
      | TInt32 | TUint32 => 32
      | _ => 64
      end
  | CNumericArr => 64
  | CInt8Range | CNumRange | CInt8RangeArr | CNumRangeArr =>
      match t with
      | TInt8 | TUint8 => 8
      | TInt16 | TUint16 => 16
      | TInt32 | TUint32 => 32
      | _ => 64
      end
  end%N.

(** Conversion to the Go type, e.g. [int8(i64)] (int2arr.go:220). *)
Definition narrow (t : ity) (z : Z) : Z :=
  if signed t then wraps (width t) z else wrapu (width t) z.

(** The element parser of a scanner: ParseInt or ParseUint with the tabulated
    bitSize, then the conversion. *)
Definition scan_elem (c : icol) (t : ity) (e : bytes) : res Z :=
  if signed t then rmap (narrow t) (parse_int 10 (scan_bits c t) e)
  else rmap (fun n => narrow t (Z.of_N n)) (parse_uint 10 (scan_bits c t) e).

(** strconv.AppendInt(out, int64(i), 10) / AppendUint(out, uint64(u), 10). *)
Definition enc_int (z : Z) : bytes := format_int 10 z.

(** int2arr.go:133-148 and the other integer array Valuers. *)
Definition IntArrayFrom : slice Z -> dval := arr_value enc_int.

(** int2arr.go:155-175 and the other integer array Scanners. *)
Definition IntArrayTo (c : icol) (t : ity) : src -> slice Z -> res (slice Z) :=
  arr_scan (fun d => bind (pgParseCommaArray d) (mapM (scan_elem c t))).

(** int2vector.go:133-149: space separated, no delimiters. *)
Definition Int2VectorFrom (v : slice Z) : dval :=
  match v with
  | None => None
  | Some [] => Some []
  | Some l => Some (removelast (List.concat (map (fun z => enc_int z ++ [" "]) l)))
  end.

(** int2vector.go:155-175 *)
Definition Int2VectorTo (t : ity) : src -> slice Z -> res (slice Z) :=
  arr_scan (fun d => mapM (scan_elem CInt2Vec t) (pgParseVector d)).

(** int2vectorarr.go:143-150: opening quote, elements each followed by a blank,
    the last byte overwritten by a quote (for an empty vector that is the
    opening quote itself). *)
Definition enc_vec (l : list Z) : bytes :=
  removelast (dq :: List.concat (map (fun z => enc_int z ++ [" "]) l)) ++ [dq].

(** int2vectorarr.go:133-154; an inner nil slice is written like an empty one. *)
Definition Int2VectorArrayFrom : slice (slice Z) -> dval :=
  arr_value (fun o => enc_vec (match o with Some l => l | None => [] end)).

(** int2vectorarr.go:160-186: the inner slices are always allocated. *)
Definition Int2VectorArrayTo (t : ity) : src -> slice (slice Z) -> res (slice (slice Z)) :=
  arr_scan (fun d => bind (pgParseVectorArray d)
    (mapM (fun o => rmap Some (mapM (scan_elem CInt2VecArr t)
                                    (match o with Some es => es | None => [] end))))).

(** int4range.go:133-140 and the other range Valuers. *)
Definition enc_range (p : Z * Z) : bytes :=
  "[" :: enc_int (fst p) ++ "," :: enc_int (snd p) ++ [")"].
Definition IntRangeFrom (p : Z * Z) : dval := Some (enc_range p).

(** [if len(elems[i]) > 0 { parse }], otherwise 0 (int4range.go:156-165). *)
Definition scan_bound (c : icol) (t : ity) (o : option bytes) : res Z :=
  match o with
  | Some (x :: r) => scan_elem c t (x :: r)
  | _ => Ok 0%Z
  end.

Definition scan_range (c : icol) (t : ity) (d : bytes) : res (Z * Z) :=
  bind (pgParseRange d) (fun '(lo, hi) =>
  bind (scan_bound c t lo) (fun l => bind (scan_bound c t hi) (fun h => Ok (l, h)))).

(** int4range.go:146-170 and the other range Scanners: NULL leaves the
    destination alone. *)
Definition IntRangeTo (c : icol) (t : ity) (s : src) (old : Z * Z) : res (Z * Z) :=
  match srcbytes s with
  | None => Ok old
  | Some d => scan_range c t d
  end.

(** int4rangearr.go:133-152 *)
Definition IntRangeArrayFrom : slice (Z * Z) -> dval :=
  arr_value (fun p => dq :: enc_range p ++ [dq]).

(** int4rangearr.go:158-190.  NULL executes [v.val = nil] on the scanner's own
    copy (l.163), so the destination keeps its content.  A NULL element is a
    nil slice, on which [pgParseRange] panics. *)
Definition IntRangeArrayTo (c : icol) (t : ity) (s : src) (old : slice (Z * Z)) : res (slice (Z * Z)) :=
  match srcbytes s with
  | None => Ok old
  | Some d =>
      bind (pgParseQuotedStringArray d) (fun els =>
        rmap Some (mapM (fun o => match o with
                                  | None => Panic
                                  | Some e => scan_range c t e
                                  end) els))
  end.
