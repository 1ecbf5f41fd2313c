(** Definitions and proofs used by PropsGeo.v. *)
From Coq Require Import Ascii String ZArith NArith Bool List Lia.
From Verif Require Import GoBase Strconv ConvertUtil ConvertProofs Codecs GeoCodecs PgSpec PgSpecProofs TextProofs SimpleProofs DecimalLink IntProofs BitProofs GeoProofs.
Import ListNotations.
Local Open Scope char_scope.

Definition floats_ok (fl : floats) : Prop :=
  (forall x, fparse fl (ffmt fl x) = Ok x) /\ forall x, coord (ffmt fl x).

(** The server's text of a point and the point it denotes. *)
Definition reads (fl : floats) (p : gpoint) (v : F fl * F fl) : Prop :=
  coords p /\ fparse fl (fst p) = Ok (fst v) /\ fparse fl (snd p) = Ok (snd v).

Definition reads3 (fl : floats) (p : text * text * text) (v : F fl * F fl * F fl) : Prop :=
  let '(a, b, c) := p in let '(x, y, z) := v in
  (coord a /\ coord b /\ coord c) /\ fparse fl a = Ok x /\ fparse fl b = Ok y /\ fparse fl c = Ok z.

Definition reads2 (fl : floats) (p : gpoint * gpoint) (v : (F fl * F fl) * (F fl * F fl)) : Prop :=
  reads fl (fst p) (fst v) /\ reads fl (snd p) (snd v).

(** A path in the server's array: NULL or a non-empty list of points. *)
Definition reads_path (fl : floats) (p : option (bool * list gpoint)) (v : option (list (F fl * F fl))) : Prop :=
  match p, v with
  | None, None => True
  | Some (_, ps), Some vs => ps <> [] /\ Forall2 (reads fl) ps vs
  | _, _ => False
  end.

(** The texts the Valuers write. *)
Definition fmt1 (fl : floats) (v : F fl * F fl) : gpoint := (ffmt fl (fst v), ffmt fl (snd v)).

Definition fmt2 (fl : floats) (v : (F fl * F fl) * (F fl * F fl)) : gpoint * gpoint := (fmt1 fl (fst v), fmt1 fl (snd v)).

Definition fmt3 (fl : floats) (v : F fl * F fl * F fl) : text * text * text :=
  let '(x, y, z) := v in (ffmt fl x, ffmt fl y, ffmt fl z).

Lemma fmt1_reads : forall fl v, floats_ok fl -> reads fl (fmt1 fl v) v.
Proof. intros fl [x y] [H1 H2]. unfold reads, fmt1, coords. cbn [fst snd]. auto. Qed.

Lemma fmt2_reads : forall fl v, floats_ok fl -> reads2 fl (fmt2 fl v) v.
Proof. intros fl [x y] H. split; cbn [fmt2 fst snd]; now apply fmt1_reads. Qed.

Lemma fmt3_reads : forall fl v, floats_ok fl -> reads3 fl (fmt3 fl v) v.
Proof. intros fl [[x y] z] [H1 H2]. unfold reads3, fmt3. conjs; auto. Qed.

Lemma fmt1s_reads : forall fl l, floats_ok fl -> Forall2 (reads fl) (map (fmt1 fl) l) l.
Proof. intros fl l H. induction l; constructor; auto. now apply fmt1_reads. Qed.

Lemma enc_pt_out : forall fl v, enc_pt fl v = point_out (fmt1 fl v).
Proof. reflexivity. Qed.

Lemma parse_pt_reads : forall fl p v, reads fl p v -> parse_pt fl p = Ok v.
Proof. intros fl [a b] [x y] (_ & H1 & H2). unfold parse_pt. cbn [fst snd] in *. rewrite H1. cbn [bind]. rewrite H2. reflexivity. Qed.

Lemma parse_pts_reads : forall fl ps vs, Forall2 (reads fl) ps vs -> mapM (parse_pt fl) ps = Ok vs.
Proof.
  induction 1 as [|p v ps vs H F IH]; auto. cbn [mapM]. rewrite (parse_pt_reads _ _ _ H). cbn [bind]. rewrite IH. reflexivity.
Qed.

Lemma reads_coords : forall fl ps vs, Forall2 (reads fl) ps vs -> Forall coords ps.
Proof. induction 1 as [|p v ps vs [H _]]; constructor; auto. Qed.

Lemma parse_lseg_reads : forall fl p v, reads2 fl p v -> parse_lseg fl p = Ok v.
Proof.
  intros fl [p q] [v1 v2] [H1 H2]. unfold parse_lseg. cbn [fst snd] in *. rewrite (parse_pt_reads _ _ _ H1). cbn [bind].
  rewrite (parse_pt_reads _ _ _ H2). reflexivity.
Qed.

Lemma reads2_coords : forall fl ps vs, Forall2 (reads2 fl) ps vs -> Forall bcoords ps.
Proof. induction 1 as [|p v ps vs [[H1 _] [H2 _]]]; constructor; auto. split; auto. Qed.

Lemma write_sep_points : forall fl o c l, l <> [] ->
  write_sep o "," c (map (enc_pt fl) l) = o :: points_out (map (fmt1 fl) l) ++ [c].
Proof.
  intros fl o c l N. rewrite write_sep_join by (destruct l; simpl; congruence).
  f_equal. f_equal. unfold points_out. rewrite map_map. clear N. induction l as [|x [|y l] IH]; auto.
  cbn [map join commas] in *. rewrite IH. reflexivity.
Qed.

Lemma C15_point_proof : forall fl v old,
  floats_ok fl ->
  PointFrom fl v = Some (point_out (fmt1 fl v))
  /\ PointTo fl (PointFrom fl v) old = Ok v
  /\ forall p w, reads fl p w -> PointTo fl (Some (point_out p)) old = Ok w.
Proof.
  intros fl v old H.
  assert (X : forall p w, reads fl p w -> PointTo fl (Some (point_out p)) old = Ok w).
  { intros p w R. unfold PointTo, srcbytes. rewrite parse_point_out by apply R. cbn [bind]. now apply parse_pt_reads. }
  conjs; auto. change (PointFrom fl v) with (Some (point_out (fmt1 fl v))). apply X. now apply fmt1_reads.
Qed.

Lemma C15_line_proof : forall fl v old,
  floats_ok fl ->
  LineFrom fl v = Some (line_out (fmt3 fl v))
  /\ LineTo fl (LineFrom fl v) old = Ok v
  /\ forall p w, reads3 fl p w -> LineTo fl (Some (line_out p)) old = Ok w.
Proof.
  intros fl v old H.
  assert (X : forall p w, reads3 fl p w -> LineTo fl (Some (line_out p)) old = Ok w).
  { intros [[a b] c] [[x y] z] ((Ha & Hb & Hc) & R1 & R2 & R3). unfold LineTo, srcbytes. rewrite parse_line_out by auto. cbn [bind parse_line].
    rewrite R1. cbn [bind]. rewrite R2. cbn [bind]. rewrite R3. reflexivity. }
  assert (E : LineFrom fl v = Some (line_out (fmt3 fl v))) by (destruct v as [[x y] z]; reflexivity).
  conjs; auto. rewrite E. apply X. now apply fmt3_reads.
Qed.

Lemma C15_lseg_proof : forall fl v old,
  floats_ok fl ->
  LsegFrom fl v = Some (lseg_out (fst (fmt2 fl v)) (snd (fmt2 fl v)))
  /\ LsegTo fl (LsegFrom fl v) old = Ok v
  /\ forall p w, reads2 fl p w -> LsegTo fl (Some (lseg_out (fst p) (snd p))) old = Ok w.
Proof.
  intros fl v old H.
  assert (X : forall p w, reads2 fl p w -> LsegTo fl (Some (lseg_out (fst p) (snd p))) old = Ok w).
  { intros p w R. unfold LsegTo, srcbytes. rewrite parse_lseg_out by apply R. cbn [bind].
    replace (fst p, snd p) with p by now destruct p. now apply parse_lseg_reads. }
  assert (E : LsegFrom fl v = Some (lseg_out (fst (fmt2 fl v)) (snd (fmt2 fl v)))).
  { unfold LsegFrom, enc_lseg, lseg_out, points_out. cbn [map commas]. rewrite !enc_pt_out, <- app_assoc. reflexivity. }
  conjs; auto. rewrite E. apply X. now apply fmt2_reads.
Qed.

Lemma C15_path_proof : forall fl l old,
  floats_ok fl -> l <> [] ->
  PathFrom fl (Some l) = Some (path_out false (map (fmt1 fl) l))
  /\ PathTo fl (PathFrom fl (Some l)) old = Ok (Some l)
  /\ forall closed ps vs, Forall2 (reads fl) ps vs -> PathTo fl (Some (path_out closed ps)) old = Ok (Some vs).
Proof.
  intros fl l old H N.
  assert (X : forall closed ps vs, Forall2 (reads fl) ps vs -> PathTo fl (Some (path_out closed ps)) old = Ok (Some vs)).
  { intros c ps vs R. unfold PathTo, srcbytes. rewrite parse_path_out by now apply (reads_coords fl ps vs). cbn [bind].
    now rewrite (parse_pts_reads _ _ _ R). }
  assert (E : PathFrom fl (Some l) = Some (path_out false (map (fmt1 fl) l))).
  { unfold path_out. rewrite <- write_sep_points by auto. destruct l; [congruence|reflexivity]. }
  conjs; auto. rewrite E. apply X. now apply fmt1s_reads.
Qed.

Lemma C15_closed_path_refuted_proof : exists fl ps vs old v,
  floats_ok fl /\ Forall2 (reads fl) ps vs
  /\ PathTo fl (Some (path_out true ps)) old = Ok v
  /\ PathFrom fl v = Some (path_out false ps) /\ path_out false ps <> path_out true ps.
Proof.
  pose (fl := MkFloats unit (fun _ => lit "0") (fun _ => Ok tt)).
  assert (K : coord (lit "0")). { split; [discriminate|]. constructor; auto. unfold delims. simpl. intuition discriminate. }
  assert (H : floats_ok fl). { split. intros []; reflexivity. intros x. exact K. }
  exists fl, (map (fmt1 fl) [(tt, tt)]), [(tt, tt)], None, (Some [(tt, tt)]).
  destruct (C15_path_proof fl [(tt, tt)] None H ltac:(discriminate)) as (E1 & E2 & E3).
  conjs; [exact H|now apply fmt1s_reads|apply E3; now apply fmt1s_reads|exact E1|discriminate].
Qed.

Lemma C15_polygon_proof : forall fl l old,
  floats_ok fl -> l <> [] ->
  PolygonFrom fl (Some l) = Some (polygon_out (map (fmt1 fl) l))
  /\ PolygonTo fl (PolygonFrom fl (Some l)) old = Ok (Some l)
  /\ forall ps vs, Forall2 (reads fl) ps vs -> PolygonTo fl (Some (polygon_out ps)) old = Ok (Some vs).
Proof.
  intros fl l old H N.
  assert (X : forall ps vs, Forall2 (reads fl) ps vs -> PolygonTo fl (Some (polygon_out ps)) old = Ok (Some vs)).
  { intros ps vs R. unfold PolygonTo, srcbytes. rewrite parse_polygon_out by now apply (reads_coords fl ps vs). cbn [bind].
    now rewrite (parse_pts_reads _ _ _ R). }
  assert (E : PolygonFrom fl (Some l) = Some (polygon_out (map (fmt1 fl) l))).
  { unfold polygon_out. rewrite <- write_sep_points by auto. destruct l; [congruence|reflexivity]. }
  conjs; auto. rewrite E. apply X. now apply fmt1s_reads.
Qed.

Lemma C15_empty_is_null_proof : forall fl old,
  PathFrom fl (Some []) = None /\ PolygonFrom fl (Some []) = None
  /\ PathFrom fl None = None /\ PolygonFrom fl None = None
  /\ PathTo fl None old = Ok None /\ PolygonTo fl None old = Ok None.
Proof. intros. conjs; reflexivity. Qed.

(** A number format for the examples: decimal integers. *)
Definition zfloats : floats :=
  MkFloats Z int_out (fun s => match int_in s with Some z => Ok z | None => Err end).

Lemma zfloats_ok : floats_ok zfloats.
Proof.
  split.
  - intros z. cbn [zfloats fparse ffmt]. now rewrite int_in_out.
  - intros z. cbn [zfloats ffmt]. rewrite <- enc_int_out. split.
    + apply enc_int_nonempty.
    + apply Forall_forall. intros c I D. unfold delims in D. cbn [In] in D.
      repeat destruct D as [<-|D]; try (eapply enc_int_nochar; [|exact I]; reflexivity). destruct D.
Qed.

Lemma map_some {A} (l : list A) : map Some l = map (fun x => Some x) l.
Proof. reflexivity. Qed.

Lemma C16_point_array_proof : forall fl l old,
  floats_ok fl ->
  PointArrayFrom fl (Some l) = Some (array_out (map (fun v => Some (point_out (fmt1 fl v))) l))
  /\ PointArrayTo fl (PointArrayFrom fl (Some l)) old = Ok (Some l)
  /\ forall ps vs, Forall2 (reads fl) ps vs ->
       PointArrayTo fl (Some (array_out (map (fun p => Some (point_out p)) ps))) old = Ok (Some vs).
Proof.
  intros fl l old H.
  assert (X : forall ps vs, Forall2 (reads fl) ps vs ->
       PointArrayTo fl (Some (array_out (map (fun p => Some (point_out p)) ps))) old = Ok (Some vs)).
  { intros ps vs R. unfold PointArrayTo, keep_scan, srcbytes. rewrite pa_write by now apply (reads_coords fl ps vs). cbn [bind].
    now rewrite (parse_pts_reads _ _ _ R). }
  assert (E : PointArrayFrom fl (Some l) = Some (array_out (map (fun v => Some (point_out (fmt1 fl v))) l))).
  { apply arr_value_out. intros v _. rewrite enc_pt_out, point_elem_out. reflexivity. apply (fmt1_reads fl v H). }
  conjs; auto. rewrite E. rewrite <- (map_map (fmt1 fl) (fun p => Some (point_out p))). apply X. now apply fmt1s_reads.
Qed.

Lemma C16_line_array_proof : forall fl l old,
  floats_ok fl ->
  LineArrayFrom fl (Some l) = Some (array_out (map (fun v => Some (line_out (fmt3 fl v))) l))
  /\ LineArrayTo fl (LineArrayFrom fl (Some l)) old = Ok (Some l)
  /\ forall ps vs, Forall2 (reads3 fl) ps vs ->
       LineArrayTo fl (Some (array_out (map (fun p => Some (line_out p)) ps))) old = Ok (Some vs).
Proof.
  intros fl l old H.
  assert (X : forall ps vs, Forall2 (reads3 fl) ps vs ->
       LineArrayTo fl (Some (array_out (map (fun p => Some (line_out p)) ps))) old = Ok (Some vs)).
  { intros ps vs R. unfold LineArrayTo, keep_scan, srcbytes.
    rewrite la_write.
    2:{ induction R as [|[[a b] c] [[x y] z] ps vs (K & _) R IH]; constructor; auto. }
    cbn [bind]. induction R as [|[[a b] c] [[x y] z] ps vs (K & R1 & R2 & R3) R IH]; auto.
    cbn [mapM parse_line]. rewrite R1. cbn [bind]. rewrite R2. cbn [bind]. rewrite R3. cbn [bind].
    destruct (mapM (parse_line fl) ps); cbn [bind rmap] in *; unfold rmap in *; cbn [bind] in *; try discriminate.
    injection IH as ->. reflexivity. }
  assert (E : LineArrayFrom fl (Some l) = Some (array_out (map (fun v => Some (line_out (fmt3 fl v))) l))).
  { apply arr_value_out. intros [[x y] z] _. cbn [fmt3]. rewrite line_elem_out. reflexivity. all: apply H. }
  conjs; auto. rewrite E. rewrite <- (map_map (fmt3 fl) (fun p => Some (line_out p))). apply X.
  clear E X. induction l; constructor; auto. now apply fmt3_reads.
Qed.

Lemma parse_lsegs_reads : forall fl ps vs, Forall2 (reads2 fl) ps vs -> mapM (parse_lseg fl) ps = Ok vs.
Proof.
  induction 1 as [|p v ps vs H F IH]; auto. cbn [mapM]. rewrite (parse_lseg_reads _ _ _ H). cbn [bind]. rewrite IH. reflexivity.
Qed.

Lemma fmt2s_reads : forall fl l, floats_ok fl -> Forall2 (reads2 fl) (map (fmt2 fl) l) l.
Proof. intros fl l H. induction l; constructor; auto. now apply fmt2_reads. Qed.

Lemma C16_lseg_array_proof : forall fl l old,
  floats_ok fl ->
  LsegArrayFrom fl (Some l)
    = Some (array_out (map (fun v => Some (lseg_out (fst (fmt2 fl v)) (snd (fmt2 fl v)))) l))
  /\ LsegArrayTo fl (LsegArrayFrom fl (Some l)) old = Ok (Some l)
  /\ forall ps vs, Forall2 (reads2 fl) ps vs ->
       LsegArrayTo fl (Some (array_out (map (fun p => Some (lseg_out (fst p) (snd p))) ps))) old = Ok (Some vs).
Proof.
  intros fl l old H.
  assert (X : forall ps vs, Forall2 (reads2 fl) ps vs ->
       LsegArrayTo fl (Some (array_out (map (fun p => Some (lseg_out (fst p) (snd p))) ps))) old = Ok (Some vs)).
  { intros ps vs R. unfold LsegArrayTo, keep_scan, srcbytes. rewrite lsa_write by now apply (reads2_coords fl ps vs). cbn [bind].
    now rewrite (parse_lsegs_reads _ _ _ R). }
  assert (E : LsegArrayFrom fl (Some l) = Some (array_out (map (fun v => Some (lseg_out (fst (fmt2 fl v)) (snd (fmt2 fl v)))) l))).
  { apply arr_value_out. intros v _. destruct (fmt2_reads fl v H) as [[C1 _] [C2 _]]. rewrite lseg_elem_out by auto. unfold quoted.
    do 2 f_equal. unfold enc_lseg, lseg_out, points_out. cbn [map commas]. rewrite !enc_pt_out, <- app_assoc. reflexivity. }
  conjs; auto. rewrite E. rewrite <- (map_map (fmt2 fl) (fun p => Some (lseg_out (fst p) (snd p)))). apply X. now apply fmt2s_reads.
Qed.

(** Paths: a list is written as an open path; the scanner reads open and
    closed ones and NULLs. *)
Definition path_texts (fl : floats) (closed : bool) (l : list (option (list (F fl * F fl)))) : list (option (bool * list gpoint)) :=
  map (option_map (fun vs => (closed, map (fmt1 fl) vs))) l.

Definition path_array_out (l : list (option (bool * list gpoint))) : text :=
  array_out (map (option_map (fun v => path_out (fst v) (snd v))) l).

Lemma path_texts_read : forall fl c l, floats_ok fl -> Forall (fun o => o <> Some []) l ->
  Forall2 (reads_path fl) (path_texts fl c l) l.
Proof.
  intros fl c l H N. induction N as [|o l N F IH]; constructor; auto.
  destruct o as [vs|]; cbn; auto. split. destruct vs; simpl; congruence. now apply fmt1s_reads.
Qed.

Lemma reads_path_ocoords : forall fl ps vs, Forall2 (reads_path fl) ps vs -> Forall ocoords ps.
Proof.
  induction 1 as [|p v ps vs H F IH]; constructor; auto. destruct p as [[c qs]|], v as [ws|]; cbn in *; auto; try contradiction.
  destruct H as [N R]. split; auto. now apply (reads_coords fl qs ws).
Qed.

Lemma parse_paths_reads : forall fl ps vs, Forall2 (reads_path fl) ps vs ->
  mapM (parse_pts fl) (map (option_map snd) ps) = Ok vs.
Proof.
  induction 1 as [|p v ps vs H F IH]; auto. cbn [map mapM].
  replace (parse_pts fl (option_map snd p)) with (Ok v : res (option (list (fpt fl)))).
  - cbn [bind]. rewrite IH. reflexivity.
  - destruct p as [[c qs]|], v as [ws|]; cbn in *; auto; try contradiction. destruct H as [N R].
    now rewrite (parse_pts_reads _ _ _ R).
Qed.

Lemma enc_pts_out : forall fl o c vs, vs <> [] ->
  enc_pts fl o c (Some vs) = dq :: (o :: points_out (map (fmt1 fl) vs) ++ [c]) ++ [dq].
Proof.
  intros fl o c vs N. unfold enc_pts. rewrite <- (map_map (enc_pt fl) (fun e => e ++ [","])).
  rewrite concat_sep_join by (destruct vs; simpl; congruence).
  replace (dq :: o :: join [","] (map (enc_pt fl) vs) ++ [","]) with ((dq :: o :: join [","] (map (enc_pt fl) vs)) ++ [","]) by reflexivity.
  rewrite removelast_last.
  pose proof (write_sep_points fl o c vs N) as E. rewrite write_sep_join in E by (destruct vs; simpl; congruence).
  cbn [app] in *. f_equal. change [c; dq] with ([c] ++ [dq]). rewrite app_comm_cons, app_assoc, <- app_comm_cons. rewrite E. reflexivity.
Qed.

Lemma C16_path_array_proof : forall fl l old,
  floats_ok fl -> Forall (fun o => o <> Some []) l ->
  PathArrayFrom fl (Some l) = Some (path_array_out (path_texts fl false l))
  /\ PathArrayTo fl (PathArrayFrom fl (Some l)) old = Ok (Some l)
  /\ forall ps vs, Forall2 (reads_path fl) ps vs ->
       PathArrayTo fl (Some (path_array_out ps)) old = Ok (Some vs).
Proof.
  intros fl l old H N.
  assert (X : forall ps vs, Forall2 (reads_path fl) ps vs ->
       PathArrayTo fl (Some (path_array_out ps)) old = Ok (Some vs)).
  { intros ps vs R. unfold PathArrayTo, arr_scan, srcbytes, pgParsePathArray, path_array_out, array_out.
    rewrite drop_ends_wrap. cbn [bind]. rewrite map_map.
    rewrite pla_write by (auto using opens_lpar_or, closes_rpar_or; now apply (reads_path_ocoords fl ps vs)).
    now rewrite (parse_paths_reads _ _ _ R). }
  assert (E : PathArrayFrom fl (Some l) = Some (path_array_out (path_texts fl false l))).
  { unfold path_array_out, path_texts. rewrite map_map.
    apply (arr_value_out _ (fun x => option_map (fun v => path_out (fst v) (snd v)) (option_map (fun vs => (false, map (fmt1 fl) vs)) x))).
    intros [vs|] I; [|reflexivity]. rewrite Forall_forall in N. specialize (N _ I).
    assert (vs <> []) by (intros ->; now apply N). rewrite enc_pts_out by auto. cbn [option_map fst snd].
    rewrite path_elem_out. reflexivity. destruct vs; simpl; congruence.
    apply (reads_coords fl _ vs). now apply fmt1s_reads. }
  conjs; auto. rewrite E. apply X. now apply path_texts_read.
Qed.

Lemma C16_polygon_array_proof : forall fl l old,
  floats_ok fl -> Forall (fun o => o <> Some []) l ->
  PolygonArrayFrom fl (Some l) = Some (path_array_out (path_texts fl true l))
  /\ PolygonArrayTo fl (PolygonArrayFrom fl (Some l)) old = Ok (Some l)
  /\ forall ps vs, Forall2 (reads_path fl) (map (option_map (fun p => (true, p))) ps) vs ->
       PolygonArrayTo fl (Some (array_out (map (option_map polygon_out) ps))) old = Ok (Some vs).
Proof.
  intros fl l old H N.
  assert (X : forall ps vs, Forall2 (reads_path fl) ps vs ->
       PolygonArrayTo fl (Some (path_array_out ps)) old = Ok (Some vs)).
  { intros ps vs R. unfold PolygonArrayTo, arr_scan, srcbytes, pgParsePolygonArray, path_array_out, array_out.
    rewrite drop_ends_wrap. cbn [bind]. rewrite map_map.
    rewrite pla_write by (auto using opens_lpar, closes_rpar; now apply (reads_path_ocoords fl ps vs)).
    now rewrite (parse_paths_reads _ _ _ R). }
  assert (E : PolygonArrayFrom fl (Some l) = Some (path_array_out (path_texts fl true l))).
  { unfold path_array_out, path_texts. rewrite map_map.
    apply (arr_value_out _ (fun x => option_map (fun v => path_out (fst v) (snd v)) (option_map (fun vs => (true, map (fmt1 fl) vs)) x))).
    intros [vs|] I; [|reflexivity]. rewrite Forall_forall in N. specialize (N _ I).
    assert (vs <> []) by (intros ->; now apply N). rewrite enc_pts_out by auto. cbn [option_map fst snd].
    rewrite path_elem_out. reflexivity. destruct vs; simpl; congruence.
    apply (reads_coords fl _ vs). now apply fmt1s_reads. }
  conjs; auto.
  - rewrite E. apply X. now apply path_texts_read.
  - intros ps vs R. specialize (X _ _ R). unfold path_array_out in X. rewrite map_map in X.
    rewrite <- X. do 3 f_equal. apply map_ext. intros [p|]; reflexivity.
Qed.

Lemma C16_empty_inner_refuted_proof : exists t u fl,
  PathArrayFrom fl (Some [Some []]) = Some t /\ array_in t = Some [Some (lit "]")]
  /\ PolygonArrayFrom fl (Some [Some []]) = Some u /\ array_in u = Some [Some (lit ")")].
Proof.
  exists (lit "{""]""}"), (lit "{"")""}"), zfloats. conjs; reflexivity.
Qed.

Lemma C16_null_fails_proof : forall fl old1 old2 old3,
  fparse fl [] = Err ->
  PointArrayTo fl (Some (array_out [None])) old1 = Err
  /\ LineArrayTo fl (Some (array_out [None])) old2 = Err
  /\ LsegArrayTo fl (Some (array_out [None])) old3 = Err.
Proof.
  intros fl o1 o2 o3 H. unfold PointArrayTo, LineArrayTo, LsegArrayTo, keep_scan, srcbytes.
  conjs; cbn -[parse_pt parse_line parse_lseg]; unfold parse_lseg, parse_pt, line0, lseg0; cbn; rewrite H; reflexivity.
Qed.

Lemma C16_box_array_proof : forall fl l old,
  floats_ok fl ->
  BoxArrayFrom fl (Some l) = Some (box_array_out (map (fun v => Some (fmt2 fl v)) l))
  /\ BoxArrayTo fl (BoxArrayFrom fl (Some l)) old = Ok (Some l)
  /\ forall ps vs, Forall2 (reads2 fl) ps vs ->
       BoxArrayTo fl (Some (box_array_out (map Some ps))) old = Ok (Some vs).
Proof.
  intros fl l old H.
  assert (X : forall ps vs, Forall2 (reads2 fl) ps vs ->
       BoxArrayTo fl (Some (box_array_out (map Some ps))) old = Ok (Some vs)).
  { intros ps vs R. unfold BoxArrayTo, arr_scan, srcbytes. rewrite parse_box_array by now apply (reads2_coords fl ps vs). cbn [bind].
    replace (quads fl (flat_map box_flat ps)) with (Ok vs : res (list (flseg fl))). reflexivity.
    induction R as [|p v ps vs H1 R IH]; auto. cbn [flat_map box_flat app quads].
    rewrite (parse_lseg_reads fl _ v). cbn [bind]. rewrite <- IH. reflexivity. destruct p as [[] []]. exact H1. }
  assert (E : BoxArrayFrom fl (Some l) = Some (box_array_out (map (fun v => Some (fmt2 fl v)) l))).
  { destruct l as [|v l]. reflexivity. unfold BoxArrayFrom. rewrite write_sep_join by discriminate.
    unfold box_array_out. rewrite map_map. do 3 f_equal. 
    assert (E : forall l, join [";"] (map (enc_box fl) l) = semis (map (fun x => let (p, q) := fmt2 fl x in box_out p q) l)).
    { induction l0 as [|x [|y l0] IH]; auto. cbn [map join semis] in *. rewrite IH. reflexivity. }
    apply E. }
  conjs; auto. rewrite E. rewrite <- (map_map (fmt2 fl) Some). apply X. now apply fmt2s_reads.
Qed.

Lemma C16_box_null_refuted_proof : exists fl old v t,
  BoxArrayTo fl (Some (box_array_out [Some t; None])) old = Ok (Some [v]).
Proof.
  exists zfloats, None, ((1, 2), (3, 4))%Z, ((lit "1", lit "2"), (lit "3", lit "4")). reflexivity.
Qed.

Lemma C17_box_scan_proof : forall fl old p w,
  reads2 fl p w -> BoxTo fl (Some (box_out (fst p) (snd p))) old = Ok w.
Proof.
  intros fl old p [v1 v2] [R1 R2]. unfold BoxTo, srcbytes. rewrite parse_box_out by (apply R1 || apply R2).
  cbn [bind parse_nth nth_error]. destruct R1 as (_ & A1 & A2), R2 as (_ & A3 & A4). unfold parse_nth. cbn [nth_error].
  rewrite A1. cbn [bind]. rewrite A2. cbn [bind]. rewrite A3. cbn [bind]. rewrite A4. destruct v1, v2. reflexivity.
Qed.

Lemma C17_box_own_literal_refuted_proof : forall fl v old,
  floats_ok fl ->
  BoxFrom fl v = Some ("(" :: box_out (fst (fmt2 fl v)) (snd (fmt2 fl v)) ++ [")"])
  /\ BoxTo fl (BoxFrom fl v) old = Panic.
Proof.
  intros fl v old H.
  assert (E : BoxFrom fl v = Some ("(" :: box_out (fst (fmt2 fl v)) (snd (fmt2 fl v)) ++ [")"])).
  { unfold BoxFrom, box_out, points_out. cbn [map commas]. rewrite !enc_pt_out, <- app_assoc. reflexivity. }
  split; auto. rewrite E. unfold BoxTo, srcbytes. destruct (fmt2_reads fl v H) as [[C1 _] [C2 _]].
  now rewrite parse_box_wrapped.
Qed.
