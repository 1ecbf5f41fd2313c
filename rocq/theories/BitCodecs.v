(** Models of the varbit, varbit[], tsvector and tsvector[] Valuers and Scanners. *)
From Coq Require Import Ascii String ZArith NArith Bool List.
From Verif Require Import GoBase Strconv ConvertUtil Codecs.
Import ListNotations.
Local Open Scope char_scope.

(** varbit.go:43-46 *)
Definition VarBitFromInt64 (v : Z) : dval := Some (format_int 2 v).

(** varbit.go:52-67; a NULL source leaves the destination alone. *)
Definition VarBitToInt64 (s : src) (old : Z) : res Z :=
  match srcbytes s with
  | None => Ok old
  | Some d => parse_int 2 64 d
  end.

(** varbit.go:83-87, 129-133 *)
Definition bit_of_bool (b : bool) : ascii := if b then "1" else "0".
Definition bit_of_uint8 (n : N) : ascii := if N.eqb n 1 then "1" else "0".
(** varbit.go:106-108, 152-154 *)
Definition bool_of_bit (c : ascii) : bool := beq c "1".
Definition uint8_of_bit (c : ascii) : N := if beq c "1" then 1%N else 0%N.

(** varbit.go:73-89, 119-135; nil gives NULL, an empty slice an empty string. *)
Definition VarBitFromBoolSlice (v : slice bool) : dval := option_map (map bit_of_bool) v.
Definition VarBitFromUint8Slice (v : slice N) : dval := option_map (map bit_of_uint8) v.

(** varbit.go:95-113, 141-159 *)
Definition VarBitToBoolSlice (s : src) (_ : slice bool) : res (slice bool) :=
  Ok (option_map (map bool_of_bit) (srcbytes s)).
Definition VarBitToUint8Slice (s : src) (_ : slice N) : res (slice N) :=
  Ok (option_map (map uint8_of_bit) (srcbytes s)).

(** varbitarr.go:75-99, 169-193: one element. *)
Definition enc_bits {A} (f : A -> ascii) (o : option (list A)) : bytes :=
  match o with
  | None => B "NULL"
  | Some [] => [dq; dq]
  | Some l => map f l
  end.

(** varbitarr.go:53-103, 147-197 *)
Definition VarBitArrayFromBoolSliceSlice : slice (option (list bool)) -> dval :=
  arr_value (enc_bits bit_of_bool).
Definition VarBitArrayFromUint8SliceSlice : slice (option (list N)) -> dval :=
  arr_value (enc_bits bit_of_uint8).

(** length 2 and beginning with a double quote (varbitarr.go:124, 218, 296) *)
Definition looks_empty (e : bytes) : bool :=
  match e with
  | c :: _ => Nat.eqb (List.length e) 2 && beq c dq
  | [] => false
  end.

(** varbitarr.go:121-137, 215-231: one element. *)
Definition dec_bits {A} (f : ascii -> A) (e : bytes) : option (list A) :=
  if looks_null e then None
  else if looks_empty e then Some []
  else Some (map f e).

(** varbitarr.go:109-141, 203-235 *)
Definition VarBitArrayToBoolSliceSlice : src -> slice (option (list bool)) -> res (slice (option (list bool))) :=
  arr_scan (fun d => rmap (map (dec_bits bool_of_bit)) (pgParseCommaArray d)).
Definition VarBitArrayToUint8SliceSlice : src -> slice (option (list N)) -> res (slice (option (list N))) :=
  arr_scan (fun d => rmap (map (dec_bits uint8_of_bit)) (pgParseCommaArray d)).

(** varbitarr.go:241-277 *)
Definition VarBitArrayFromStringSlice : slice bytes -> dval :=
  arr_value (fun e => match e with [] => [dq; dq] | _ => e end).

(** varbitarr.go:283-304 *)
Definition VarBitArrayToStringSlice : src -> slice bytes -> res (slice bytes) :=
  arr_scan (fun d => rmap (map (fun e => if looks_empty e then [] else e)) (pgParseCommaArray d)).

(** varbitarr.go:310-324 *)
Definition VarBitArrayFromInt64Slice : slice Z -> dval := arr_value (format_int 2).

(** varbitarr.go:330-352 *)
Definition VarBitArrayToInt64Slice : src -> slice Z -> res (slice Z) :=
  arr_scan (fun d => bind (pgParseCommaArray d) (mapM (parse_int 2 64))).

(** tsvector.go:32-57, 86-111: the elements with a blank after each but the
    last ([pos < size] holds exactly before the last element is complete). *)
Definition TSVectorFrom (v : slice bytes) : dval := option_map (join [" "]) v.

(** tsvector.go:63-80, 117-135 *)
Definition TSVectorTo (s : src) (_ : slice bytes) : res (slice bytes) :=
  Ok (option_map pgParseVector (srcbytes s)).

(** tsvectorarr.go:58-92, 164-198: one element; the last blank is overwritten
    by the closing quote. *)
Definition enc_tsv (o : option (list bytes)) : bytes :=
  match o with
  | None => B "NULL"
  | Some [] => [dq; dq]
  | Some l => removelast (dq :: List.concat (map (fun e => e ++ [" "]) l)) ++ [dq]
  end.

(** tsvectorarr.go:32-97, 138-203 *)
Definition TSVectorArrayFrom : slice (option (list bytes)) -> dval := arr_value enc_tsv.

(** tsvectorarr.go:115-127, 221-234 *)
Definition dec_tsv (o : option (list bytes)) : option (list bytes) :=
  match o with
  | None => None
  | Some [[]] => Some []
  | Some l => Some l
  end.

(** tsvectorarr.go:103-132, 209-239 *)
Definition TSVectorArrayTo : src -> slice (option (list bytes)) -> res (slice (option (list bytes))) :=
  arr_scan (fun d => rmap (map dec_tsv) (pgParseVectorArray d)).
