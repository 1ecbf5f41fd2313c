(** Proofs about the geometric codecs. *)
From Coq Require Import Ascii String ZArith NArith Bool List Lia.
From Verif Require Import GoBase Strconv StrconvProofs ConvertUtil ConvertProofs Codecs GeoCodecs
  PgSpec PgSpecProofs TextProofs SimpleProofs IntProofs BitProofs.
Import ListNotations.
Local Open Scope char_scope.

(** The text of a coordinate: non-empty and without the characters that
    delimit points, lists and array elements. *)
Definition delims : list ascii := [","; "("; ")"; "["; "]"; "{"; "}"; """"; "\"; ";"].
Definition coord (t : bytes) : Prop := t <> [] /\ Forall (fun c => ~ In c delims) t.
Definition coords (p : gpoint) : Prop := coord (fst p) /\ coord (snd p).

Lemma coord_nochar : forall d t, In d delims -> coord t -> nochar d t.
Proof. intros d t H [_ F] I. rewrite Forall_forall in F. exact (F d I H). Qed.

Ltac indel := unfold delims; simpl; tauto.
Ltac nodel := apply coord_nochar; [indel|assumption].

(** *** scalars *)
Lemma parse_point_out : forall p, coords p -> pgParsePoint (point_out p) = Ok p.
Proof.
  intros [x y] [Hx Hy]. unfold pgParsePoint, point_out. cbn [fst snd] in *.
  replace (x ++ "," :: y ++ [")"]) with ((x ++ "," :: y) ++ [")"]) by (rewrite <- app_assoc; reflexivity).
  rewrite drop_ends_wrap. cbn [bind]. rewrite cut_app by nodel. reflexivity.
Qed.

Lemma parse_line_out : forall x y z, coord x -> coord y -> coord z -> pgParseLine (line_out (x, y, z)) = Ok (x, y, z).
Proof.
  intros x y z Hx Hy Hz. unfold pgParseLine, line_out.
  replace (x ++ "," :: y ++ "," :: z ++ ["}"]) with ((x ++ "," :: y ++ "," :: z) ++ ["}"])
    by (rewrite <- app_assoc; cbn [app]; rewrite <- app_assoc; reflexivity).
  rewrite drop_ends_wrap. cbn [bind]. rewrite cut_app by nodel. rewrite cut_app by nodel. reflexivity.
Qed.

Definition closes (close : ascii -> bool) : Prop := close ")" = true /\ forall c, close c = true -> In c delims.

Lemma closes_rpar : closes rpar.
Proof. split; auto. intros c H. apply beq_eq in H. subst. indel. Qed.

Lemma closes_rpar_or : closes rpar_or_rbrack.
Proof.
  split; auto. intros c H. unfold rpar_or_rbrack in H. apply orb_true_iff in H.
  destruct H as [H|H]; apply beq_eq in H; subst; indel.
Qed.

Lemma pt_scan_coord : forall close e r p0 cur k ik, closes close -> Forall (fun c => ~ In c delims) e ->
  pt_scan close (e ++ r) p0 cur k ik = pt_scan close r p0 (cur ++ e) (k + List.length e) ik.
Proof.
  induction e as [|c e IH]; intros r p0 cur k ik C H.
  - cbn [app List.length]. rewrite app_nil_r, Nat.add_0_r. reflexivity.
  - inversion H as [|? ? H1 H2]; subst. cbn [app pt_scan].
    rewrite (proj2 (beq_neq c ",")). 2:{ intros ->. apply H1. indel. }
    destruct (close c) eqn:E. { exfalso. apply H1. now apply C. }
    rewrite IH by auto. rewrite <- app_assoc. cbn [app List.length]. f_equal. lia.
Qed.

Lemma pt_scan_out : forall close x y rest, closes close -> coord x -> coord y ->
  pt_scan close (x ++ "," :: y ++ ")" :: rest) [] [] 0 0
  = ((x, y), List.length (x ++ "," :: y ++ [")"])).
Proof.
  intros close x y rest C [_ Hx] [_ Hy].
  rewrite pt_scan_coord by auto. cbn [app pt_scan]. rewrite beq_refl. cbv iota.
  rewrite pt_scan_coord by auto. cbn [pt_scan]. change (beq ")" ",") with false. cbv iota.
  rewrite (proj1 C). cbv iota. cbn [app]. f_equal. rewrite !app_length. cbn [List.length]. rewrite !app_length. cbn [List.length]. lia.
Qed.

Lemma point_out_app : forall p rest,
  point_out p ++ rest = "(" :: fst p ++ "," :: snd p ++ ")" :: rest.
Proof. intros. unfold point_out. cbn [app]. rewrite <- app_assoc. cbn [app]. rewrite <- app_assoc. reflexivity. Qed.

Lemma ptlist_skip : forall s k, ptlist_loop s k = ptlist_loop (skipn k s) 0.
Proof. induction s as [|c s IH]; intros [|k]; auto. simpl. apply IH. Qed.

Lemma skipn_pt : forall (x y rest : bytes),
  skipn (List.length (x ++ "," :: y ++ [")"])) (x ++ "," :: y ++ ")" :: rest) = rest.
Proof.
  intros. replace (x ++ "," :: y ++ ")" :: rest) with ((x ++ "," :: y ++ [")"]) ++ rest)
    by (rewrite <- app_assoc; cbn [app]; rewrite <- app_assoc; reflexivity).
  apply skipn_length_app.
Qed.

Lemma ptlist_point : forall p rest, coords p -> ptlist_loop (point_out p ++ rest) 0 = p :: ptlist_loop rest 0.
Proof.
  intros [x y] rest [Hx Hy]. rewrite point_out_app. cbn [fst snd] in *. cbn [ptlist_loop].
  rewrite beq_refl. cbv iota. rewrite pt_scan_out by (auto using closes_rpar).
  f_equal. rewrite ptlist_skip, skipn_pt. reflexivity.
Qed.

Lemma parse_points : forall ps, Forall coords ps -> pgParsePointList (points_out ps) = ps.
Proof.
  unfold pgParsePointList, points_out. induction ps as [|p ps IH]; intros H; auto.
  inversion H; subst. destruct ps as [|q ps].
  - cbn [map commas]. rewrite <- (app_nil_r (point_out p)). rewrite ptlist_point by auto. reflexivity.
  - change (commas (map point_out (p :: q :: ps))) with (point_out p ++ "," :: commas (map point_out (q :: ps))).
    rewrite ptlist_point by auto. f_equal. cbn [ptlist_loop]. change (beq "," "(") with false. cbv iota. auto.
Qed.

Lemma parse_lseg_out : forall p q, coords p -> coords q -> pgParseLseg (lseg_out p q) = Ok (p, q).
Proof.
  intros. unfold pgParseLseg, lseg_out. rewrite drop_ends_wrap. cbn [bind].
  rewrite parse_points by (apply Forall_cons; [auto|apply Forall_cons; auto]). reflexivity.
Qed.

Lemma parse_path_out : forall c ps, Forall coords ps -> pgParsePath (path_out c ps) = Ok (ps, c).
Proof.
  intros c ps H. unfold pgParsePath, path_out. destruct c; rewrite drop_ends_wrap; cbn [bind]; rewrite parse_points by auto; reflexivity.
Qed.

Lemma parse_polygon_out : forall ps, Forall coords ps -> pgParsePolygon (polygon_out ps) = Ok ps.
Proof.
  intros ps H. unfold pgParsePolygon, polygon_out. rewrite drop_ends_wrap; cbn [bind]; rewrite parse_points by auto; reflexivity.
Qed.

(** *** box *)
Lemma box_loop_coord : forall e r cur st, coord e ->
  box_loop (e ++ r) 0 cur st = box_loop r 0 (cur ++ e) st.
Proof.
  intros e r cur st [_ H]. revert cur. induction e as [|c e IH]; intros cur.
  - now rewrite app_nil_r.
  - inversion H as [|? ? H1 H2]; subst. cbn [app box_loop].
    rewrite (proj2 (beq_neq c ",")). 2:{ intros ->. apply H1. indel. }
    rewrite (proj2 (beq_neq c ")")). 2:{ intros ->. apply H1. indel. }
    rewrite IH by auto. rewrite <- app_assoc. reflexivity.
Qed.

(** From inside a box, up to and excluding its last parenthesis. *)
Definition box_inner (p q : gpoint) (rest : bytes) : bytes :=
  fst p ++ "," :: snd p ++ ")" :: "," :: "(" :: fst q ++ "," :: snd q ++ rest.

Lemma box_inner_loop : forall p q st rest, coords p -> coords q ->
  box_loop (box_inner p q rest) 0 [] st
  = rmap (fun l => fst p :: snd p :: fst q :: l) (box_loop rest 0 (snd q) true).
Proof.
  intros [x1 y1] [x2 y2] st rest [H1 H2] [H3 H4]. unfold box_inner. cbn [fst snd] in *.
  rewrite box_loop_coord by auto. cbn [app box_loop]. rewrite beq_refl. cbv iota.
  rewrite box_loop_coord by auto. cbn [app box_loop]. change (beq ")" ",") with false. rewrite beq_refl. cbv iota.
  rewrite box_loop_coord by auto. cbn [app box_loop]. rewrite beq_refl. cbv iota.
  rewrite box_loop_coord by auto. cbn [app].
  destruct (box_loop rest 0 y2 true); reflexivity.
Qed.

Lemma box_out_inner : forall p q, box_out p q = "(" :: box_inner p q [")"].
Proof.
  intros [x1 y1] [x2 y2]. unfold box_out, points_out, point_out, box_inner. cbn [map commas fst snd app].
  rewrite <- !app_assoc. cbn [app]. rewrite <- !app_assoc. reflexivity.
Qed.

Lemma box_inner_app : forall p q a b, box_inner p q (a ++ b) = box_inner p q a ++ b.
Proof.
  intros. unfold box_inner. repeat (rewrite <- app_assoc; cbn [app]). reflexivity.
Qed.

Lemma parse_box_out : forall p q, coords p -> coords q ->
  pgParseBox (box_out p q) = Ok [fst p; snd p; fst q; snd q].
Proof.
  intros p q Hp Hq. unfold pgParseBox. rewrite box_out_inner.
  rewrite <- (app_nil_l [")"]), box_inner_app, drop_ends_wrap. cbn [bind]. rewrite box_inner_loop by auto. reflexivity.
Qed.

(** The literal of the Valuer has one more pair of parentheses. *)
Lemma parse_box_wrapped : forall p q, coords p -> coords q ->
  pgParseBox ("(" :: box_out p q ++ [")"]) = Panic.
Proof.
  intros p q Hp Hq. unfold pgParseBox. rewrite drop_ends_wrap. cbn [bind]. rewrite box_out_inner.
  change ("(" :: box_inner p q [")"]) with (box_inner ("(" :: fst p, snd p) q [")"]).
  destruct p as [x1 y1], q as [x2 y2], Hp as [H1 H2], Hq as [H3 H4]. unfold box_inner. cbn [fst snd] in *.
  cbn [app box_loop]. change (beq "(" ",") with false. change (beq "(" ")") with false. cbv iota. cbn [app].
  rewrite box_loop_coord by auto. cbn [app box_loop]. rewrite beq_refl. cbv iota.
  rewrite box_loop_coord by auto. cbn [app box_loop]. change (beq ")" ",") with false. rewrite beq_refl. cbv iota.
  rewrite box_loop_coord by auto. cbn [app box_loop]. rewrite beq_refl. cbv iota.
  rewrite box_loop_coord by auto. reflexivity.
Qed.

Definition bcoords (b : gpoint * gpoint) : Prop := coords (fst b) /\ coords (snd b).

(** Boxes separated by semicolons, seen from inside the first. *)
Fixpoint box_tail (b : gpoint * gpoint) (r : list (gpoint * gpoint)) (rest : bytes) : bytes :=
  match r with
  | [] => box_inner (fst b) (snd b) rest
  | b' :: r' => box_inner (fst b) (snd b) (")" :: ";" :: "(" :: box_tail b' r' rest)
  end.

Definition box_flat (b : gpoint * gpoint) : list bytes := [fst (fst b); snd (fst b); fst (snd b); snd (snd b)].

Lemma box_tail_loop : forall r b st, Forall bcoords (b :: r) ->
  box_loop (box_tail b r []) 0 [] st = Ok (flat_map box_flat (b :: r)).
Proof.
  induction r as [|b' r IH]; intros b st H; inversion H as [|? ? [H1 H2] H3]; subst.
  - cbn [box_tail]. rewrite box_inner_loop by auto. reflexivity.
  - cbn [box_tail]. rewrite box_inner_loop by auto. cbn [box_loop].
    change (beq ")" ",") with false. rewrite beq_refl. cbv iota. rewrite IH by auto. reflexivity.
Qed.

Lemma semis_tail : forall r b, semis (map (fun b => box_out (fst b) (snd b)) (b :: r)) = "(" :: box_tail b r [")"].
Proof.
  induction r as [|b' r IH]; intros b.
  - cbn [map semis box_tail]. apply box_out_inner.
  - change (semis (map (fun b => box_out (fst b) (snd b)) (b :: b' :: r)))
      with (box_out (fst b) (snd b) ++ ";" :: semis (map (fun b => box_out (fst b) (snd b)) (b' :: r))).
    rewrite IH. rewrite box_out_inner. cbn [app box_tail]. rewrite <- box_inner_app. reflexivity.
Qed.

Lemma box_tail_app : forall r b x y, box_tail b r (x ++ y) = box_tail b r x ++ y.
Proof.
  induction r as [|b' r IH]; intros; cbn [box_tail]. apply box_inner_app.
  rewrite IH. rewrite <- box_inner_app. reflexivity.
Qed.

Lemma parse_box_array : forall l, Forall bcoords l ->
  pgParseBoxArray (box_array_out (map Some l)) = Ok (flat_map box_flat l).
Proof.
  intros l H. unfold pgParseBoxArray, box_array_out. rewrite map_map.
  destruct l as [|b r]. reflexivity.
  replace (map _ (b :: r)) with (map (fun b => box_out (fst b) (snd b)) (b :: r)).
  2:{ apply map_ext. intros [p q]. reflexivity. }
  rewrite semis_tail. rewrite <- (app_nil_l [")"]), box_tail_app.
  replace (Nat.eqb (List.length _) 2) with false.
  2:{ symmetry. apply Nat.eqb_neq. cbn [app List.length]. rewrite app_length, app_length. cbn [List.length]. lia. }
  rewrite drop_ends_wrap. cbn [bind]. rewrite drop_ends_wrap. cbn [bind]. now apply box_tail_loop.
Qed.

(** *** point[] *)
Lemma pa_skip : forall s k, pa_loop s k = pa_loop (skipn k s) 0.
Proof. induction s as [|c s IH]; intros [|k]; auto. simpl. apply IH. Qed.

Lemma pa_scan_coord : forall c0 e r m p0 cur k ik, coord e ->
  pa_scan c0 (e ++ r) m p0 cur k ik = pa_scan c0 r m p0 (cur ++ e) (k + List.length e) ik.
Proof.
  intros c0 e r m p0 cur k ik [_ H]. revert cur k. induction e as [|c e IH]; intros cur k.
  - cbn [app List.length]. now rewrite app_nil_r, Nat.add_0_r.
  - inversion H as [|? ? H1 H2]; subst. cbn [app pa_scan].
    rewrite (proj2 (beq_neq c ",")). 2:{ intros ->. apply H1. indel. }
    rewrite (proj2 (beq_neq c ")")). 2:{ intros ->. apply H1. indel. }
    rewrite IH by auto. rewrite <- app_assoc. cbn [app List.length]. f_equal. lia.
Qed.

Lemma pa_elem : forall p rest, coords p ->
  pa_loop (dq :: point_out p ++ dq :: rest) 0 = rmap (cons p) (pa_loop (skipn 1 rest) 0).
Proof.
  intros [x y] rest [Hx Hy]. rewrite point_out_app. cbn [fst snd] in *.
  cbn [pa_loop]. change (beq dq dq) with true. cbv iota. cbn [firstn skipn].
  rewrite pa_scan_coord by auto. cbn [app pa_scan]. rewrite beq_refl. cbv iota.
  rewrite pa_scan_coord by auto. cbn [app pa_scan]. change (beq ")" ",") with false. rewrite beq_refl. cbv iota.
  cbn [bind]. f_equal.
  replace (1 + S (S (0 + List.length x) + List.length y) + 2)%nat
    with (1 + (List.length (x ++ "," :: y ++ [")"]) + 2))%nat
    by (rewrite !app_length; cbn [List.length]; rewrite !app_length; cbn [List.length]; lia).
  cbn [plus skipn].
  replace (x ++ "," :: y ++ ")" :: dq :: rest) with ((x ++ "," :: y ++ [")"]) ++ dq :: rest)
    by (rewrite <- app_assoc; cbn [app]; rewrite <- app_assoc; reflexivity).
  rewrite pa_skip, skipn_app_plus. reflexivity.
Qed.

(** *** line[] *)
Lemma la_skip : forall s k, la_loop s k = la_loop (skipn k s) 0.
Proof. induction s as [|c s IH]; intros [|k]; auto. simpl. apply IH. Qed.

Lemma la_scan_coord : forall e r n x y z cur k ik, coord e ->
  la_scan (e ++ r) n (x, y, z) cur k ik = la_scan r n (x, y, z) (cur ++ e) (k + List.length e) ik.
Proof.
  intros e r n x y z cur k ik [_ H]. revert cur k. induction e as [|c e IH]; intros cur k.
  - cbn [app List.length]. now rewrite app_nil_r, Nat.add_0_r.
  - inversion H as [|? ? H1 H2]; subst. cbn [app la_scan].
    rewrite (proj2 (beq_neq c ",")). 2:{ intros ->. apply H1. indel. }
    rewrite (proj2 (beq_neq c "}")). 2:{ intros ->. apply H1. indel. }
    rewrite IH by auto. rewrite <- app_assoc. cbn [app List.length]. f_equal. lia.
Qed.

Lemma line_out_app : forall x y z rest,
  line_out (x, y, z) ++ rest = "{" :: x ++ "," :: y ++ "," :: z ++ "}" :: rest.
Proof. intros. unfold line_out. repeat (cbn [app]; rewrite <- ?app_assoc). reflexivity. Qed.

Lemma la_elem : forall x y z rest, coord x -> coord y -> coord z ->
  la_loop (dq :: line_out (x, y, z) ++ dq :: rest) 0 = rmap (cons (x, y, z)) (la_loop (skipn 1 rest) 0).
Proof.
  intros x y z rest Hx Hy Hz. rewrite line_out_app.
  cbn [la_loop]. change (beq dq dq) with true. cbv iota. cbn [skipn]. unfold line0.
  rewrite la_scan_coord by auto. cbn [app la_scan]. rewrite beq_refl. cbv iota.
  rewrite la_scan_coord by auto. cbn [app la_scan]. rewrite beq_refl. cbv iota.
  rewrite la_scan_coord by auto. cbn [app la_scan]. change (beq "}" ",") with false. rewrite beq_refl. cbv iota.
  cbn [bind]. f_equal.
  replace (1 + (S (S (0 + List.length x) + List.length y) + List.length z) + 3)%nat
    with (1 + (List.length (x ++ "," :: y ++ "," :: z ++ ["}"]) + 2))%nat
    by (rewrite !app_length; cbn [List.length]; rewrite !app_length; cbn [List.length]; rewrite !app_length; cbn [List.length]; lia).
  cbn [plus skipn].
  replace (x ++ "," :: y ++ "," :: z ++ "}" :: dq :: rest) with ((x ++ "," :: y ++ "," :: z ++ ["}"]) ++ dq :: rest)
    by (repeat (cbn [app]; rewrite <- ?app_assoc); reflexivity).
  rewrite la_skip, skipn_app_plus. reflexivity.
Qed.

(** *** lseg[] *)
Lemma lsa_skip : forall s k, lsa_loop s k = lsa_loop (skipn k s) 0.
Proof. induction s as [|c s IH]; intros [|k]; auto. simpl. apply IH. Qed.

Lemma lsa_scan_coord : forall e r f l cur k ik, Forall (fun c => ~ In c delims) e ->
  lsa_scan (e ++ r) 0 f l cur k ik = lsa_scan r 0 f l (cur ++ e) (k + List.length e) ik.
Proof.
  intros e r f [[a b] [c' d]] cur k ik H. revert cur k. induction e as [|c e IH]; intros cur k.
  - cbn [app List.length]. now rewrite app_nil_r, Nat.add_0_r.
  - inversion H as [|? ? H1 H2]; subst. cbn [app lsa_scan].
    rewrite (proj2 (beq_neq c ",")). 2:{ intros ->. apply H1. indel. }
    rewrite (proj2 (beq_neq c ")")). 2:{ intros ->. apply H1. indel. }
    rewrite (proj2 (beq_neq c "]")). 2:{ intros ->. apply H1. indel. }
    rewrite IH by auto. rewrite <- app_assoc. cbn [app List.length]. f_equal. lia.
Qed.

Lemma lseg_out_app : forall p q rest,
  lseg_out p q ++ rest = "[" :: "(" :: box_inner p q (")" :: "]" :: rest).
Proof.
  intros p q rest. unfold lseg_out. change (points_out [p; q]) with (box_out p q). rewrite box_out_inner.
  cbn [app]. rewrite <- app_assoc, <- box_inner_app. reflexivity.
Qed.

Lemma lsa_elem : forall p q rest, coords p -> coords q ->
  lsa_loop (dq :: lseg_out p q ++ dq :: rest) 0 = (p, q) :: lsa_loop (skipn 1 rest) 0.
Proof.
  intros [x1 y1] [x2 y2] rest [H1 H2] [H3 H4]. rewrite lseg_out_app.
  cbn [lsa_loop]. change (beq dq dq) with true. cbv iota. cbn [skipn]. cbn [fst snd] in *.
  destruct x2 as [|c2 x2]. { destruct H3; congruence. }
  destruct H1 as [_ H1], H2 as [_ H2], H3 as [_ H3], H4 as [_ H4]. inversion H3 as [|? ? C2 X2]; subst.
  assert (E : lsa_scan (box_inner (x1, y1) (c2 :: x2, y2) (")" :: "]" :: dq :: rest)) 0 true lseg0 [] 0 0
    = ((x1, y1), (c2 :: x2, y2), List.length (box_inner (x1, y1) (c2 :: x2, y2) [")"]))).
  { unfold lseg0, box_inner. cbn [fst snd].
    rewrite lsa_scan_coord by auto. cbn [app lsa_scan]. change (beq "," ",") with true; change (beq ")" ")") with true. cbv iota.
    rewrite lsa_scan_coord by auto. cbn [app lsa_scan]. change (beq ")" ",") with false. change (beq "," ",") with true; change (beq ")" ")") with true. cbv iota.
    rewrite lsa_scan_coord by auto. cbn [app lsa_scan]. change (beq "," ",") with true; change (beq ")" ")") with true. cbv iota.
    rewrite lsa_scan_coord by auto. cbn [app].
    match goal with |- lsa_scan _ _ _ _ _ ?k _ = (?l, _) => transitivity (l, S k); [reflexivity|] end.
    f_equal. repeat (rewrite !app_length; cbn [List.length app]). lia. }
  unfold gpoint, pt, bytes, text in *. rewrite E. f_equal.
  replace (2 + List.length (box_inner (x1, y1) (c2 :: x2, y2) [")"]) + 3)%nat
    with (2 + (List.length (box_inner (x1, y1) (c2 :: x2, y2) [")"]) + 3))%nat by lia.
  cbn [plus]. rewrite lsa_skip. cbn [skipn]. change (")" :: "]" :: dq :: rest) with ([")"] ++ "]" :: dq :: rest).
  rewrite box_inner_app. unfold bytes, text in *. rewrite skipn_app_plus. reflexivity.
Qed.

(** *** path[] and polygon[] *)
Lemma pla_skip : forall o c s k, pla_loop o c s k = pla_loop o c (skipn k s) 0.
Proof. intros o c. induction s as [|d s IH]; intros [|k]; auto. simpl. apply IH. Qed.

Lemma pla_scan_skip : forall o c s k ps n, (k <= List.length s)%nat ->
  pla_scan o c s k ps n = pla_scan o c (skipn k s) 0 ps (n + k).
Proof.
  intros o c. induction s as [|d s IH]; intros k ps n H.
  - assert (k = O) as -> by (cbn [List.length] in H; lia). reflexivity.
  - destruct k as [|k]. { rewrite Nat.add_0_r. reflexivity. }
    cbn [pla_scan skipn]. cbn [List.length] in H. rewrite IH by lia. f_equal. lia.
Qed.

Definition opens (o : ascii -> bool) : Prop := o "(" = true /\ o "," = false /\ o dq = false /\ o ")" = false /\ o "]" = false.

Lemma pla_scan_point : forall o c p rest ps n, opens o -> closes c -> coords p ->
  pla_scan o c (point_out p ++ rest) 0 ps n = pla_scan o c rest 0 (ps ++ [p]) (n + List.length (point_out p)).
Proof.
  intros o c [x y] rest ps n O C [Hx Hy]. rewrite point_out_app. cbn [fst snd] in *. cbn [pla_scan].
  rewrite (proj1 O). rewrite pt_scan_out by auto.
  rewrite pla_scan_skip.
  2:{ rewrite !app_length; cbn [List.length]; rewrite !app_length; cbn [List.length]. lia. }
  rewrite skipn_pt. f_equal. unfold point_out. cbn [fst snd List.length]. lia.
Qed.

Lemma pla_scan_points : forall o c ps acc n rest, opens o -> closes c -> Forall coords ps ->
  pla_scan o c (points_out ps ++ rest) 0 acc n = pla_scan o c rest 0 (acc ++ ps) (n + List.length (points_out ps)).
Proof.
  intros o c. induction ps as [|p ps IH]; intros acc n rest O C H.
  - cbn. rewrite app_nil_r, Nat.add_0_r. reflexivity.
  - inversion H; subst. destruct ps as [|q ps].
    + unfold points_out. cbn [map commas]. now rewrite pla_scan_point.
    + change (points_out (p :: q :: ps)) with (point_out p ++ "," :: points_out (q :: ps)).
      rewrite <- app_assoc. rewrite pla_scan_point by auto. cbn [app pla_scan].
      rewrite (proj1 (proj2 O)). change (beq "," dq) with false. cbv iota.
      rewrite IH by auto. rewrite <- app_assoc. cbn [app]. f_equal. rewrite app_length. cbn [List.length]. lia.
Qed.

Lemma pla_elem : forall o c a z ps rest, opens o -> closes c -> ps <> [] -> Forall coords ps ->
  o z = false -> z <> dq ->
  pla_loop o c (dq :: (a :: points_out ps ++ [z]) ++ dq :: rest) 0 = Some ps :: pla_loop o c rest 0.
Proof.
  intros o c a z ps rest O C N H Z1 Z2. cbn [pla_loop]. change (beq dq dq) with true. cbv iota. cbn [app skipn].
  rewrite <- app_assoc, pla_scan_points by auto. cbn [app pla_scan]. rewrite Z1, (proj2 (beq_neq _ _) Z2).
  rewrite (proj1 (proj2 (proj2 O))). change (beq dq dq) with true. cbv iota.
  destruct ps as [|p ps']; [congruence|]. f_equal. rewrite pla_skip. f_equal.
  replace (1 + S (S (0 + List.length (points_out (p :: ps')))))%nat
    with (1 + (List.length (points_out (p :: ps')) + 2))%nat by lia. cbn [plus skipn].
  rewrite skipn_app_plus. reflexivity.
Qed.

Lemma opens_lpar : opens lpar.
Proof. unfold opens; conjs; reflexivity. Qed.

Lemma opens_lpar_or : opens lpar_or_lbrack.
Proof. unfold opens; conjs; reflexivity. Qed.

(** *** the server's array text: every geometric element is quoted *)
Lemma elem_out_geo : forall e, In "," e -> nochar dq e -> nochar bs e -> elem_out (Some e) = dq :: e ++ [dq].
Proof.
  intros e I H1 H2. unfold elem_out. replace (needs_quotes e) with true.
  - f_equal. f_equal. unfold pg_escape. clear I. induction e as [|c e IH]; auto.
    apply nochar_cons in H1, H2. destruct H1, H2. cbn [flat_map].
    destruct (in_dec ascii_dec c [""""; "\"]) as [[E|[E|[]]]|]; try (exfalso; unfold dq, bs in *; congruence).
    cbn [app]. f_equal. auto.
  - symmetry. unfold needs_quotes. destruct e; auto. apply orb_true_iff. right. apply existsb_exists.
    exists ",". split; auto.
Qed.

Lemma coords_clean : forall d p, In d [""""; "\"; ";"; "{"; "}"] -> coords p -> nochar d (point_out p).
Proof.
  intros d [x y] D [Hx Hy] I. unfold point_out in I. cbn [fst snd] in *.
  assert (In d delims) by (revert D; unfold delims; simpl; tauto).
  destruct I as [I|I]; [subst; simpl in D; intuition discriminate|].
  apply in_app_or in I. destruct I as [I|[I|I]]; [exact (coord_nochar d x H Hx I)|subst; simpl in D; intuition discriminate|].
  apply in_app_or in I. destruct I as [I|[I|[]]]; [exact (coord_nochar d y H Hy I)|subst; simpl in D; intuition discriminate].
Qed.

Lemma points_clean : forall d ps, In d [""""; "\"; ";"; "{"; "}"] -> Forall coords ps -> nochar d (points_out ps).
Proof.
  intros d ps D. unfold points_out. induction ps as [|p ps IH]; intros H. intros [].
  inversion H; subst. destruct ps as [|q ps]. cbn [map commas]. now apply coords_clean.
  change (commas (map point_out (p :: q :: ps))) with (point_out p ++ "," :: commas (map point_out (q :: ps))).
  apply nochar_app. split. now apply coords_clean. apply nochar_cons. split.
  - intros <-. simpl in D; intuition discriminate.
  - auto.
Qed.

Lemma points_comma : forall ps, ps <> [] -> In "," (points_out ps).
Proof.
  intros [|p ps] N; [congruence|].
  assert (X : In "," (point_out p)). { unfold point_out. right. apply in_or_app. right. now left. }
  unfold points_out. destruct ps. exact X. change (In "," (point_out p ++ "," :: commas (map point_out (g :: ps)))).
  apply in_or_app. now left.
Qed.

Lemma path_elem_out : forall c ps, ps <> [] -> Forall coords ps ->
  elem_out (Some (path_out c ps)) = dq :: path_out c ps ++ [dq].
Proof.
  intros c ps N H. assert (forall d, In d [""""; "\"] -> nochar d (path_out c ps)).
  { intros d D I. assert (In d [""""; "\"; ";"; "{"; "}"]) by (simpl in *; tauto).
    assert (X : In d (points_out ps) -> False) by now apply points_clean.
    unfold path_out in I. destruct c, I as [I|I].
    1,3: subst; simpl in D; intuition discriminate.
    all: apply in_app_or in I; destruct I as [I|[I|[]]]; [auto|subst; simpl in D; intuition discriminate]. }
  apply elem_out_geo.
  - unfold path_out. destruct c; right; apply in_or_app; left; now apply points_comma.
  - apply H0. now left.
  - apply H0. right; now left.
Qed.

Lemma polygon_path : forall ps, polygon_out ps = path_out true ps.
Proof. reflexivity. Qed.

Lemma lseg_path : forall p q, lseg_out p q = path_out false [p; q].
Proof. reflexivity. Qed.

Lemma point_elem_out : forall p, coords p -> elem_out (Some (point_out p)) = dq :: point_out p ++ [dq].
Proof.
  intros p H. apply elem_out_geo.
  - exact (points_comma [p] ltac:(discriminate)).
  - apply coords_clean; auto. now left.
  - apply coords_clean; auto. right; now left.
Qed.

Lemma line_elem_out : forall x y z, coord x -> coord y -> coord z ->
  elem_out (Some (line_out (x, y, z))) = dq :: line_out (x, y, z) ++ [dq].
Proof.
  intros x y z Hx Hy Hz.
  assert (X : forall d, In d [""""; "\"] -> nochar d (line_out (x, y, z))).
  { intros d D. assert (In d delims) by (revert D; unfold delims; simpl; tauto).
    assert (d <> "," /\ d <> "{" /\ d <> "}") as (?&?&?) by (simpl in D; intuition (subst; discriminate)).
    unfold line_out. apply nochar_cons. split; [congruence|].
    repeat (apply nochar_app; split; [now apply coord_nochar|apply nochar_cons; split; [congruence|]]).
    intros []. }
  apply elem_out_geo; try (apply X; simpl; tauto).
  right. apply in_or_app. right. now left.
Qed.

(** The loops over whole arrays. *)
Lemma pa_write : forall ps, Forall coords ps ->
  pgParsePointArray (array_out (map (fun p => Some (point_out p)) ps)) = Ok ps.
Proof.
  intros ps H. unfold pgParsePointArray, array_out. rewrite drop_ends_wrap. cbn [bind]. rewrite map_map.
  induction ps as [|p ps IH]; auto. inversion H; subst. destruct ps as [|q ps].
  - cbn [map commas]. rewrite point_elem_out, pa_elem by auto. reflexivity.
  - change (commas (map (fun p => elem_out (Some (point_out p))) (p :: q :: ps)))
      with (elem_out (Some (point_out p)) ++ "," :: commas (map (fun p => elem_out (Some (point_out p))) (q :: ps))).
    rewrite point_elem_out by auto. rewrite <- app_comm_cons, <- app_assoc. cbn [app]. rewrite pa_elem by auto.
    cbn [skipn]. rewrite IH by auto. reflexivity.
Qed.

Definition lcoord (l : text * text * text) : Prop := let '(x, y, z) := l in coord x /\ coord y /\ coord z.

Lemma la_write : forall ls, Forall lcoord ls ->
  pgParseLineArray (array_out (map (fun p => Some (line_out p)) ls)) = Ok ls.
Proof.
  intros ps H. unfold pgParseLineArray, array_out. rewrite drop_ends_wrap. cbn [bind]. rewrite map_map.
  induction ps as [|[[x y] z] ps IH]; auto. inversion H as [|? ? H0 H']; subst. destruct H0 as (Hx & Hy & Hz). destruct ps as [|q ps].
  - cbn [map commas]. rewrite line_elem_out, la_elem by auto. reflexivity.
  - change (commas (map (fun p => elem_out (Some (line_out p))) ((x, y, z) :: q :: ps)))
      with (elem_out (Some (line_out (x, y, z))) ++ "," :: commas (map (fun p => elem_out (Some (line_out p))) (q :: ps))).
    rewrite line_elem_out by auto. rewrite <- app_comm_cons, <- app_assoc. cbn [app]. rewrite la_elem by auto.
    cbn [skipn]. rewrite IH by auto. reflexivity.
Qed.

Lemma lseg_elem_out : forall p q, coords p -> coords q ->
  elem_out (Some (lseg_out p q)) = dq :: lseg_out p q ++ [dq].
Proof. intros. rewrite lseg_path. apply path_elem_out. discriminate. auto. Qed.

Lemma lsa_write : forall ls, Forall bcoords ls ->
  pgParseLsegArray (array_out (map (fun b => Some (lseg_out (fst b) (snd b))) ls)) = Ok ls.
Proof.
  intros ps H. unfold pgParseLsegArray, array_out. rewrite drop_ends_wrap. cbn [bind]. rewrite map_map. f_equal.
  induction ps as [|[p q] ps IH]; auto. inversion H as [|? ? (Hx & Hy) H']; subst. cbn [fst snd] in *. destruct ps as [|q' ps].
  - cbn [map commas fst snd]. rewrite lseg_elem_out, lsa_elem by auto. reflexivity.
  - change (commas (map (fun b => elem_out (Some (lseg_out (fst b) (snd b)))) ((p, q) :: q' :: ps)))
      with (elem_out (Some (lseg_out p q)) ++ "," :: commas (map (fun b => elem_out (Some (lseg_out (fst b) (snd b)))) (q' :: ps))).
    rewrite lseg_elem_out by auto. rewrite <- app_comm_cons, <- app_assoc. cbn [app]. rewrite lsa_elem by auto.
    cbn [skipn]. rewrite IH by auto. reflexivity.
Qed.

Definition ocoords {A} (o : option (A * list gpoint)) : Prop :=
  match o with Some (_, ps) => ps <> [] /\ Forall coords ps | None => True end.

Lemma pla_sep : forall o c r, opens o -> pla_loop o c ("," :: r) 0 = pla_loop o c r 0.
Proof. intros o c r O. reflexivity. Qed.

Lemma pla_write : forall o c, opens o -> closes c -> forall l, Forall ocoords l ->
  pla_loop o c (commas (map (fun x => elem_out (option_map (fun v => path_out (fst v) (snd v)) x)) l)) 0
  = map (option_map snd) l.
Proof.
  intros o c O C. induction l as [|x l IH]; intros H; auto. inversion H as [|? ? Hx H']; subst.
  assert (X : forall rest, sep_start rest -> pla_loop o c (elem_out (option_map (fun v => path_out (fst v) (snd v)) x) ++ rest) 0
     = option_map snd x :: pla_loop o c (skipn 1 rest) 0).
  { intros rest [->|[r ->]]; destruct x as [[k ps]|]; cbn [option_map fst snd ocoords] in *.
    - destruct Hx as [N F]. rewrite path_elem_out by auto. rewrite <- app_comm_cons, <- app_assoc. cbn [app].
      unfold path_out. destruct k; rewrite pla_elem; auto; try apply O; try discriminate; reflexivity.
    - reflexivity.
    - destruct Hx as [N F]. rewrite path_elem_out by auto. rewrite <- app_comm_cons, <- app_assoc. cbn [app].
      unfold path_out. destruct k; rewrite pla_elem; auto; try apply O; try discriminate; now rewrite pla_sep.
    - reflexivity. }
  destruct l as [|x' l].
  - cbn [map commas]. rewrite <- (app_nil_r (elem_out _)). rewrite X by now left. reflexivity.
  - cbn [map commas] in *. rewrite X by (right; eauto). cbn [skipn]. f_equal. apply IH. auto.
Qed.
