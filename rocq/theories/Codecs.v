(** Models of the Valuers and Scanners of package pgsql for text-like,
    boolean, bit, uuid and bytea arrays.

    A Valuer is a function to [dval] ([None] = SQL NULL).
    A Scanner takes the source and the previous content of the destination and
    returns the new content; on [Err] and [Panic] the destination is not written. *)
From Coq Require Import Ascii String ZArith NArith Bool List.
From Verif Require Import GoBase Strconv ConvertUtil.
Import ListNotations.
Local Open Scope char_scope.

(** The common shape of the array Valuers (e.g. textarr.go:32-46): nil gives
    NULL, empty gives [{}], otherwise the elements with the last comma
    overwritten by the closing brace. *)
Definition arr_value {A} (enc : A -> bytes) (v : slice A) : dval :=
  match v with
  | None => None
  | Some [] => Some (B "{}")
  | Some l => Some (write_sep "{" "," "}" (map enc l))
  end.

(** The common shape of the array Scanners (e.g. textarr.go:52-69): NULL sets
    the destination to nil. *)
Definition arr_scan {A} (parse : bytes -> res (list A)) (s : src) (_ : slice A) : res (slice A) :=
  match srcbytes s with
  | None => Ok None
  | Some d => rmap Some (parse d)
  end.

(** string(elem) of a possibly nil element. *)
Definition str_of (o : option bytes) : bytes := match o with Some b => b | None => [] end.

(** textarr.go:32-46 (also varchararr.go:9-11) *)
Definition TextArrayFromStringSlice : slice bytes -> dval := arr_value quote1.

(** textarr.go:52-69 (also varchararr.go:14-16) *)
Definition TextArrayToStringSlice : src -> slice bytes -> res (slice bytes) :=
  arr_scan (fun d => rmap (map str_of) (pgParseStringArray d)).

(** textarr.go:75-93, jsonarr.go:22-43, xmlarr.go:22-43, varchararr.go:19-21:
    elements are []byte, nil elements become NULL. *)
Definition TextArrayFromByteSliceSlice : slice (option bytes) -> dval :=
  arr_value (fun o => match o with None => B "NULL" | Some e => quote1 e end).

(** textarr.go:99-119, jsonarr.go:49-71, xmlarr.go:49-71, varchararr.go:24-26 *)
Definition TextArrayToByteSliceSlice : src -> slice (option bytes) -> res (slice (option bytes)) :=
  arr_scan pgParseStringArray.

(** tsqueryarr.go:32-66: quoted but not escaped. *)
Definition TSQueryArrayFromStringSlice : slice bytes -> dval :=
  arr_value (fun e => dq :: e ++ [dq]).

(** tsqueryarr.go:72-89 *)
Definition TSQueryArrayToStringSlice := TextArrayToStringSlice.

(** tsqueryarr.go:95-143 *)
Definition TSQueryArrayFromByteSliceSlice : slice (option bytes) -> dval :=
  arr_value (fun o => match o with None => B "NULL" | Some e => dq :: e ++ [dq] end).

(** [len(e) == 4 && e[0] == 'N'] (tsqueryarr.go:161, uuidarr.go:215) *)
Definition looks_null (e : bytes) : bool :=
  match e with
  | c :: _ => Nat.eqb (List.length e) 4 && beq c "N"
  | [] => false
  end.

(** tsqueryarr.go:149-171; a NULL element (nil) has length 0 and is copied into
    an empty non-nil slice. *)
Definition TSQueryArrayToByteSliceSlice : src -> slice (option bytes) -> res (slice (option bytes)) :=
  arr_scan (fun d => rmap (map (fun o => if looks_null (str_of o) then None else Some (str_of o)))
                          (pgParseStringArray d)).

(** byteaarr.go:33-55 and 94-117 *)
Definition enc_bytea (e : bytes) : bytes := [dq; bs; bs; "x"] ++ hex_encode e ++ [dq].
Definition ByteaArrayFrom : slice bytes -> dval := arr_value enc_bytea.

(** [src[4 : len(src)-1]] (byteaarr.go:76): panics when len < 5. *)
Definition bytea_trim (e : bytes) : res bytes := subslice e 4 (List.length e - 1).

(** byteaarr.go:61-88 and 123-150 *)
Definition ByteaArrayTo : src -> slice bytes -> res (slice bytes) :=
  arr_scan (fun d => bind (pgParseCommaArray d)
    (mapM (fun e => bind (bytea_trim e) hex_decode))).

(** boolarr.go:22-45 *)
Definition BoolArrayFromBoolSlice : slice bool -> dval :=
  arr_value (fun b : bool => [if b then "t" else "f"]).

(** [elems[i][0] == c]: panics on an empty element. *)
Definition first_is (c : ascii) (e : bytes) : res bool :=
  match e with [] => Panic | x :: _ => Ok (beq x c) end.

(** boolarr.go:51-72 *)
Definition BoolArrayToBoolSlice : src -> slice bool -> res (slice bool) :=
  arr_scan (fun d => bind (pgParseCommaArray d) (mapM (first_is "t"))).

(** bitarr.go:42-67 *)
Definition BitArrayFromBoolSlice : slice bool -> dval :=
  arr_value (fun b : bool => [if b then "1" else "0"]).

(** bitarr.go:73-98 ([]uint8) and 104-130 ([]uint) *)
Definition BitArrayFromUintSlice : slice N -> dval :=
  arr_value (fun n => [if N.eqb n 0 then "0" else "1"]).

(** bitarr.go:136-157 *)
Definition BitArrayToBoolSlice : src -> slice bool -> res (slice bool) :=
  arr_scan (fun d => bind (pgParseCommaArray d) (mapM (first_is "1"))).

(** bitarr.go:163-184 ([]uint8) and 190-211 ([]uint) *)
Definition BitArrayToUintSlice : src -> slice N -> res (slice N) :=
  arr_scan (fun d => bind (pgParseCommaArray d)
    (mapM (fun e => rmap (fun b : bool => if b then 1%N else 0%N) (first_is "1" e)))).

(** uuid.go:22-24; the argument is a [16]byte. *)
Definition UUIDFromByteArray16 (v : bytes) : dval := Some (pgFormatUUID v).

(** uuid.go:30-45: NULL leaves the destination alone. *)
Definition UUIDToByteArray16 (s : src) (old : bytes) : res bytes :=
  match srcbytes s with
  | None => Ok old
  | Some d => pgParseUUID d
  end.

(** uuidarr.go:42-67 *)
Definition UUIDArrayFromByteArray16Slice : slice bytes -> dval := arr_value pgFormatUUID.

(** uuidarr.go:73-94 *)
Definition UUIDArrayToByteArray16Slice : src -> slice bytes -> res (slice bytes) :=
  arr_scan (fun d => bind (pgParseCommaArray d) (mapM pgParseUUID)).

(** uuidarr.go:100-128 *)
Definition UUIDArrayFromStringSlice : slice bytes -> dval := arr_value (fun e => e).

(** uuidarr.go:134-151 *)
Definition UUIDArrayToStringSlice : src -> slice bytes -> res (slice bytes) :=
  arr_scan pgParseCommaArray.

(** uuidarr.go:157-197 *)
Definition UUIDArrayFromByteSliceSlice : slice (option bytes) -> dval :=
  arr_value (fun o => match o with None => B "NULL" | Some e => e end).

(** uuidarr.go:203-225 *)
Definition UUIDArrayToByteSliceSlice : src -> slice (option bytes) -> res (slice (option bytes)) :=
  arr_scan (fun d => rmap (map (fun e => if looks_null e then None else Some e)) (pgParseCommaArray d)).
