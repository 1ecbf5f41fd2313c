(** Geometric types: point, line, lseg, path, polygon, box and their arrays.

    Go's float formatting and parsing are parameters: [floats_ok] says that
    parsing inverts formatting and that a formatted number is non-empty and
    contains no delimiter.  The server may render coordinates differently:
    [reads] relates any delimiter-free texts to the numbers they parse to. *)
From Coq Require Import Ascii String ZArith NArith Bool List Lia.
From Verif Require Import GoBase Strconv ConvertUtil ConvertProofs Codecs GeoCodecs PgSpec PgSpecProofs TextProofs SimpleProofs DecimalLink IntProofs BitProofs GeoProofs.
From Verif Require Import GeoFinal.
Import ListNotations.
Local Open Scope char_scope.

(** ** C15: scalars *)
Theorem C15_point : forall fl v old,
  floats_ok fl ->
  PointFrom fl v = Some (point_out (fmt1 fl v))
  /\ PointTo fl (PointFrom fl v) old = Ok v
  /\ forall p w, reads fl p w -> PointTo fl (Some (point_out p)) old = Ok w.
Proof. exact C15_point_proof. Qed.
Print Assumptions C15_point.

Theorem C15_line : forall fl v old,
  floats_ok fl ->
  LineFrom fl v = Some (line_out (fmt3 fl v))
  /\ LineTo fl (LineFrom fl v) old = Ok v
  /\ forall p w, reads3 fl p w -> LineTo fl (Some (line_out p)) old = Ok w.
Proof. exact C15_line_proof. Qed.
Print Assumptions C15_line.

Theorem C15_lseg : forall fl v old,
  floats_ok fl ->
  LsegFrom fl v = Some (lseg_out (fst (fmt2 fl v)) (snd (fmt2 fl v)))
  /\ LsegTo fl (LsegFrom fl v) old = Ok v
  /\ forall p w, reads2 fl p w -> LsegTo fl (Some (lseg_out (fst p) (snd p))) old = Ok w.
Proof. exact C15_lseg_proof. Qed.
Print Assumptions C15_lseg.

Theorem C15_path : forall fl l old,
  floats_ok fl -> l <> [] ->
  PathFrom fl (Some l) = Some (path_out false (map (fmt1 fl) l))
  /\ PathTo fl (PathFrom fl (Some l)) old = Ok (Some l)
  /\ forall closed ps vs, Forall2 (reads fl) ps vs -> PathTo fl (Some (path_out closed ps)) old = Ok (Some vs).
Proof. exact C15_path_proof. Qed.
Print Assumptions C15_path.

(** A closed path read and written again becomes an open one. *)
Theorem C15_closed_path_refuted : exists fl ps vs old v,
  floats_ok fl /\ Forall2 (reads fl) ps vs
  /\ PathTo fl (Some (path_out true ps)) old = Ok v
  /\ PathFrom fl v = Some (path_out false ps) /\ path_out false ps <> path_out true ps.
Proof. exact C15_closed_path_refuted_proof. Qed.
Print Assumptions C15_closed_path_refuted.

Theorem C15_polygon : forall fl l old,
  floats_ok fl -> l <> [] ->
  PolygonFrom fl (Some l) = Some (polygon_out (map (fmt1 fl) l))
  /\ PolygonTo fl (PolygonFrom fl (Some l)) old = Ok (Some l)
  /\ forall ps vs, Forall2 (reads fl) ps vs -> PolygonTo fl (Some (polygon_out ps)) old = Ok (Some vs).
Proof. exact C15_polygon_proof. Qed.
Print Assumptions C15_polygon.

(** nil and empty point lists are written as NULL, which is read as nil. *)
Theorem C15_empty_is_null : forall fl old,
  PathFrom fl (Some []) = None /\ PolygonFrom fl (Some []) = None
  /\ PathFrom fl None = None /\ PolygonFrom fl None = None
  /\ PathTo fl None old = Ok None /\ PolygonTo fl None old = Ok None.
Proof. exact C15_empty_is_null_proof. Qed.
Print Assumptions C15_empty_is_null.

Example C15_ex :
  floats_ok zfloats
  /\ PolygonFrom zfloats (Some [(1, -2); (30, 4)]%Z) = Some (lit "((1,-2),(30,4))")
  /\ PolygonTo zfloats (Some (lit "((1,-2),(30,4))")) None = Ok (Some [(1, -2); (30, 4)]%Z)
  /\ LineTo zfloats (Some (lit "{1,2,-3}")) (0, 0, 0)%Z = Ok (1, 2, -3)%Z
  /\ LsegFrom zfloats ((1, 2), (3, 4))%Z = Some (lit "[(1,2),(3,4)]").
Proof. split. apply zfloats_ok. conjs; reflexivity. Qed.

(** ** C16: arrays *)

Theorem C16_point_array : forall fl l old,
  floats_ok fl ->
  PointArrayFrom fl (Some l) = Some (array_out (map (fun v => Some (point_out (fmt1 fl v))) l))
  /\ PointArrayTo fl (PointArrayFrom fl (Some l)) old = Ok (Some l)
  /\ forall ps vs, Forall2 (reads fl) ps vs ->
       PointArrayTo fl (Some (array_out (map (fun p => Some (point_out p)) ps))) old = Ok (Some vs).
Proof. exact C16_point_array_proof. Qed.
Print Assumptions C16_point_array.

Theorem C16_line_array : forall fl l old,
  floats_ok fl ->
  LineArrayFrom fl (Some l) = Some (array_out (map (fun v => Some (line_out (fmt3 fl v))) l))
  /\ LineArrayTo fl (LineArrayFrom fl (Some l)) old = Ok (Some l)
  /\ forall ps vs, Forall2 (reads3 fl) ps vs ->
       LineArrayTo fl (Some (array_out (map (fun p => Some (line_out p)) ps))) old = Ok (Some vs).
Proof. exact C16_line_array_proof. Qed.
Print Assumptions C16_line_array.

Theorem C16_lseg_array : forall fl l old,
  floats_ok fl ->
  LsegArrayFrom fl (Some l)
    = Some (array_out (map (fun v => Some (lseg_out (fst (fmt2 fl v)) (snd (fmt2 fl v)))) l))
  /\ LsegArrayTo fl (LsegArrayFrom fl (Some l)) old = Ok (Some l)
  /\ forall ps vs, Forall2 (reads2 fl) ps vs ->
       LsegArrayTo fl (Some (array_out (map (fun p => Some (lseg_out (fst p) (snd p))) ps))) old = Ok (Some vs).
Proof. exact C16_lseg_array_proof. Qed.
Print Assumptions C16_lseg_array.

Theorem C16_path_array : forall fl l old,
  floats_ok fl -> Forall (fun o => o <> Some []) l ->
  PathArrayFrom fl (Some l) = Some (path_array_out (path_texts fl false l))
  /\ PathArrayTo fl (PathArrayFrom fl (Some l)) old = Ok (Some l)
  /\ forall ps vs, Forall2 (reads_path fl) ps vs ->
       PathArrayTo fl (Some (path_array_out ps)) old = Ok (Some vs).
Proof. exact C16_path_array_proof. Qed.
Print Assumptions C16_path_array.

Theorem C16_polygon_array : forall fl l old,
  floats_ok fl -> Forall (fun o => o <> Some []) l ->
  PolygonArrayFrom fl (Some l) = Some (path_array_out (path_texts fl true l))
  /\ PolygonArrayTo fl (PolygonArrayFrom fl (Some l)) old = Ok (Some l)
  /\ forall ps vs, Forall2 (reads_path fl) (map (option_map (fun p => (true, p))) ps) vs ->
       PolygonArrayTo fl (Some (array_out (map (option_map polygon_out) ps))) old = Ok (Some vs).
Proof. exact C16_polygon_array_proof. Qed.
Print Assumptions C16_polygon_array.

(** An empty inner list is not written as a path or polygon: the element
    text the server sees is a lone closing bracket. *)
Theorem C16_empty_inner_refuted : exists t u fl,
  PathArrayFrom fl (Some [Some []]) = Some t /\ array_in t = Some [Some (lit "]")]
  /\ PolygonArrayFrom fl (Some [Some []]) = Some u /\ array_in u = Some [Some (lit ")")].
Proof. exact C16_empty_inner_refuted_proof. Qed.
Print Assumptions C16_empty_inner_refuted.

(** A NULL element of a point, line or lseg array makes the scan fail (if the
    empty text is not a number). *)
Theorem C16_null_fails : forall fl old1 old2 old3,
  fparse fl [] = Err ->
  PointArrayTo fl (Some (array_out [None])) old1 = Err
  /\ LineArrayTo fl (Some (array_out [None])) old2 = Err
  /\ LsegArrayTo fl (Some (array_out [None])) old3 = Err.
Proof. exact C16_null_fails_proof. Qed.
Print Assumptions C16_null_fails.

(** Boxes: one array text with semicolons. *)
Theorem C16_box_array : forall fl l old,
  floats_ok fl ->
  BoxArrayFrom fl (Some l) = Some (box_array_out (map (fun v => Some (fmt2 fl v)) l))
  /\ BoxArrayTo fl (BoxArrayFrom fl (Some l)) old = Ok (Some l)
  /\ forall ps vs, Forall2 (reads2 fl) ps vs ->
       BoxArrayTo fl (Some (box_array_out (map Some ps))) old = Ok (Some vs).
Proof. exact C16_box_array_proof. Qed.
Print Assumptions C16_box_array.

(** A NULL element of a box array is silently dropped when it is last. *)
Theorem C16_box_null_refuted : exists fl old v t,
  BoxArrayTo fl (Some (box_array_out [Some t; None])) old = Ok (Some [v]).
Proof. exact C16_box_null_refuted_proof. Qed.
Print Assumptions C16_box_null_refuted.

Example C16_ex :
  PathArrayFrom zfloats (Some [Some [(1, -2); (30, 4)]%Z; None]) = Some (lit "{""[(1,-2),(30,4)]"",NULL}")
  /\ PathArrayTo zfloats (Some (lit "{""((1,-2),(30,4))"",NULL}")) None = Ok (Some [Some [(1, -2); (30, 4)]%Z; None])
  /\ BoxArrayTo zfloats (Some (lit "{(1,2),(3,4);(5,6),(7,8)}")) None = Ok (Some [((1, 2), (3, 4)); ((5, 6), (7, 8))]%Z)
  /\ LsegArrayTo zfloats (Some (lit "{""[(1,2),(3,4)]"",""[(5,6),(7,8)]""}")) None = Ok (Some [((1, 2), (3, 4)); ((5, 6), (7, 8))]%Z)
  /\ PointArrayTo zfloats (Some (lit "{""(1,2)"",""(3,4)""}")) None = Ok (Some [(1, 2); (3, 4)]%Z)
  /\ fparse zfloats [] = Err.
Proof. conjs; reflexivity. Qed.

(** ** C17: box *)
Theorem C17_box_scan : forall fl old p w,
  reads2 fl p w -> BoxTo fl (Some (box_out (fst p) (snd p))) old = Ok w.
Proof. exact C17_box_scan_proof. Qed.
Print Assumptions C17_box_scan.

(** The Valuer's literal is the other spelling the server accepts; the scanner
    always panics on it. *)
Theorem C17_box_own_literal_refuted : forall fl v old,
  floats_ok fl ->
  BoxFrom fl v = Some ("(" :: box_out (fst (fmt2 fl v)) (snd (fmt2 fl v)) ++ [")"])
  /\ BoxTo fl (BoxFrom fl v) old = Panic.
Proof. exact C17_box_own_literal_refuted_proof. Qed.
Print Assumptions C17_box_own_literal_refuted.

Example C17_ex :
  BoxTo zfloats (Some (lit "(3,4),(1,2)")) ((0, 0), (0, 0))%Z = Ok ((3, 4), (1, 2))%Z
  /\ BoxFrom zfloats ((3, 4), (1, 2))%Z = Some (lit "((3,4),(1,2))")
  /\ BoxTo zfloats (Some (lit "((3,4),(1,2))")) ((0, 0), (0, 0))%Z = Panic.
Proof. conjs; reflexivity. Qed.
