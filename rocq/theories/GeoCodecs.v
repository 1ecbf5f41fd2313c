(** Models of the geometric Valuers and Scanners: point, line, lseg, path,
    polygon, box and their arrays.

    strconv.AppendFloat(_, f, 'f', -1, 64) and strconv.ParseFloat(_, 64) are
    parameters ([ffmt], [fparse]); what is assumed of them is [floats_ok] in
    GeoProofs.v. *)
From Coq Require Import Ascii String ZArith NArith Bool List.
From Verif Require Import GoBase Strconv ConvertUtil Codecs.
Import ListNotations.
Local Open Scope char_scope.

Record floats := MkFloats {
  F : Type;
  ffmt : F -> bytes;
  fparse : bytes -> res F
}.

Section Geo.
Variable fl : floats.
Notation F := (F fl).
Definition fpt := (F * F)%type.

(** Two coordinates parsed in order. *)
Definition parse_pt (p : pt) : res fpt :=
  bind (fparse fl (fst p)) (fun x => bind (fparse fl (snd p)) (fun y => Ok (x, y))).

Definition enc_pt (p : fpt) : bytes := "(" :: ffmt fl (fst p) ++ "," :: ffmt fl (snd p) ++ [")"].

(** point.go:23-32 *)
Definition PointFrom (v : fpt) : dval := Some (enc_pt v).

(** point.go:38-58 *)
Definition PointTo (s : src) (old : fpt) : res fpt :=
  match srcbytes s with
  | None => Ok old
  | Some d => bind (pgParsePoint d) parse_pt
  end.

Definition fline := (F * F * F)%type.

Definition enc_line (v : fline) : bytes :=
  let '(a, b, c) := v in "{" :: ffmt fl a ++ "," :: ffmt fl b ++ "," :: ffmt fl c ++ ["}"].

Definition parse_line (l : line3) : res fline :=
  let '(a, b, c) := l in
  bind (fparse fl a) (fun x => bind (fparse fl b) (fun y => bind (fparse fl c) (fun z => Ok (x, y, z)))).

(** line.go:23-34 *)
Definition LineFrom (v : fline) : dval := Some (enc_line v).

(** line.go:40-64 *)
Definition LineTo (s : src) (old : fline) : res fline :=
  match srcbytes s with
  | None => Ok old
  | Some d => bind (pgParseLine d) parse_line
  end.

Definition flseg := (fpt * fpt)%type.

Definition enc_lseg (v : flseg) : bytes := "[" :: enc_pt (fst v) ++ "," :: enc_pt (snd v) ++ ["]"].

Definition parse_lseg (l : pt * pt) : res flseg :=
  bind (parse_pt (fst l)) (fun p => bind (parse_pt (snd l)) (fun q => Ok (p, q))).

(** lseg.go:23-36 *)
Definition LsegFrom (v : flseg) : dval := Some (enc_lseg v).

(** lseg.go:42-70 *)
Definition LsegTo (s : src) (old : flseg) : res flseg :=
  match srcbytes s with
  | None => Ok old
  | Some d => bind (pgParseLseg d) parse_lseg
  end.

(** path.go:32-54: nil and empty give NULL. *)
Definition PathFrom (v : slice fpt) : dval :=
  match v with
  | None | Some [] => None
  | Some l => Some (write_sep "[" "," "]" (map enc_pt l))
  end.

(** path.go:60-87 *)
Definition PathTo (s : src) (_ : slice fpt) : res (slice fpt) :=
  match srcbytes s with
  | None => Ok None
  | Some d => bind (pgParsePath d) (fun '(ps, _) => rmap Some (mapM parse_pt ps))
  end.

(** polygon.go:23-45 *)
Definition PolygonFrom (v : slice fpt) : dval :=
  match v with
  | None | Some [] => None
  | Some l => Some (write_sep "(" "," ")" (map enc_pt l))
  end.

(** polygon.go:51-78 *)
Definition PolygonTo (s : src) (_ : slice fpt) : res (slice fpt) :=
  match srcbytes s with
  | None => Ok None
  | Some d => bind (pgParsePolygon d) (fun ps => rmap Some (mapM parse_pt ps))
  end.

(** box.go:23-37 *)
Definition BoxFrom (v : flseg) : dval := Some ("(" :: enc_pt (fst v) ++ "," :: enc_pt (snd v) ++ [")"]).

(** [ParseFloat(elems[i])] for a possibly missing element (index out of range). *)
Definition parse_nth (es : list bytes) (i : nat) : res F :=
  match nth_error es i with
  | Some e => fparse fl e
  | None => Panic
  end.

(** box.go:43-78 *)
Definition BoxTo (s : src) (old : flseg) : res flseg :=
  match srcbytes s with
  | None => Ok old
  | Some d =>
      bind (pgParseBox d) (fun es =>
      bind (parse_nth es 0) (fun x1 => bind (parse_nth es 1) (fun y1 =>
      bind (parse_nth es 2) (fun x2 => bind (parse_nth es 3) (fun y2 =>
        Ok ((x1, y1), (x2, y2)))))))
  end.

(** pointarr.go:23-47, linearr.go:23-49, lsegarr.go:23-51 *)
Definition quoted (e : bytes) : bytes := dq :: e ++ [dq].
Definition PointArrayFrom : slice fpt -> dval := arr_value (fun p => quoted (enc_pt p)).
Definition LineArrayFrom : slice fline -> dval := arr_value (fun p => quoted (enc_line p)).
Definition LsegArrayFrom : slice flseg -> dval := arr_value (fun p => quoted (enc_lseg p)).

(** pointarr.go:53-74, linearr.go:55-79, lsegarr.go:57-84: a NULL source
    leaves the destination alone. *)
Definition keep_scan {A} (parse : bytes -> res (list A)) (s : src) (old : slice A) : res (slice A) :=
  match srcbytes s with
  | None => Ok old
  | Some d => rmap Some (parse d)
  end.

Definition PointArrayTo : src -> slice fpt -> res (slice fpt) :=
  keep_scan (fun d => bind (pgParsePointArray d) (mapM parse_pt)).
Definition LineArrayTo : src -> slice fline -> res (slice fline) :=
  keep_scan (fun d => bind (pgParseLineArray d) (mapM parse_line)).
Definition LsegArrayTo : src -> slice flseg -> res (slice flseg) :=
  keep_scan (fun d => bind (pgParseLsegArray d) (mapM parse_lseg)).

(** patharr.go:45-61, polygonarr.go:45-61: one element; the last byte, which
    for an empty list is the opening one, is overwritten by the closing one. *)
Definition enc_pts (open close : ascii) (o : option (list fpt)) : bytes :=
  match o with
  | None => B "NULL"
  | Some l =>
      removelast (dq :: open :: List.concat (map (fun p => enc_pt p ++ [","]) l)) ++ [close; dq]
  end.

(** patharr.go:23-66, polygonarr.go:23-66 *)
Definition PathArrayFrom : slice (option (list fpt)) -> dval := arr_value (enc_pts "[" "]").
Definition PolygonArrayFrom : slice (option (list fpt)) -> dval := arr_value (enc_pts "(" ")").

(** patharr.go:83-105, polygonarr.go:83-105: one element. *)
Definition parse_pts (o : option (list pt)) : res (option (list fpt)) :=
  match o with
  | None => Ok None
  | Some ps => rmap Some (mapM parse_pt ps)
  end.

(** patharr.go:72-109, polygonarr.go:72-109 *)
Definition PathArrayTo : src -> slice (option (list fpt)) -> res (slice (option (list fpt))) :=
  arr_scan (fun d => bind (pgParsePathArray d) (mapM parse_pts)).
Definition PolygonArrayTo : src -> slice (option (list fpt)) -> res (slice (option (list fpt))) :=
  arr_scan (fun d => bind (pgParsePolygonArray d) (mapM parse_pts)).

(** boxarr.go:23-48 *)
Definition enc_box (v : flseg) : bytes := enc_pt (fst v) ++ "," :: enc_pt (snd v).
Definition BoxArrayFrom (v : slice flseg) : dval :=
  match v with
  | None => None
  | Some [] => Some (B "{}")
  | Some l => Some (write_sep "{" ";" "}" (map enc_box l))
  end.

(** boxarr.go:65-91: groups of four; up to three left over are ignored. *)
Fixpoint quads (es : list bytes) : res (list flseg) :=
  match es with
  | a :: b :: c :: d :: r =>
      bind (parse_lseg ((a, b), (c, d))) (fun v => rmap (cons v) (quads r))
  | _ => Ok []
  end.

(** boxarr.go:54-95 *)
Definition BoxArrayTo : src -> slice flseg -> res (slice flseg) :=
  arr_scan (fun d => bind (pgParseBoxArray d) quads).

End Geo.
