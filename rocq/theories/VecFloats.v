(** Model of the float32 and float64 variants of the int2vector[] codec
    (pgsql/int2vectorarr.go:709-823), the rest of which is in IntCodecs.v. *)
From Coq Require Import Ascii String ZArith NArith Bool List.
From Verif Require Import GoBase Strconv ConvertUtil Codecs IntCodecs Floats IntFloats.
Import ListNotations.
Local Open Scope char_scope.

(** int2vectorarr.go:722-729,780-787: as for the integers, the last byte is
    overwritten by a quote. *)
Definition encf_vec (t : fty) (l : list float) : bytes :=
  removelast (dq :: List.concat (map (fun f => enc_float t f ++ [" "]) l)) ++ [dq].

(** int2vectorarr.go:713-734,771-792 *)
Definition Int2VectorArrayFromFloats (t : fty) : slice (slice float) -> dval :=
  arr_value (fun o => encf_vec t (match o with Some l => l | None => [] end)).

(** int2vectorarr.go:740-765,798-823 *)
Definition Int2VectorArrayToFloats (t : fty) : src -> slice (slice float) -> res (slice (slice float)) :=
  arr_scan (fun d => bind (pgParseVectorArray d)
    (mapM (fun o => rmap Some (mapM (scan_float CInt2VecArr t)
                                    (match o with Some es => es | None => [] end))))).
