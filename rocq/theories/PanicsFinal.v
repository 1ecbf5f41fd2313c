(** Definitions and proofs used by PropsPanics.v. *)
From Coq Require Import Ascii String ZArith NArith Bool List Lia.
From Verif Require Import GoBase Strconv ConvertUtil Utf8 Codecs CharCodecs BitCodecs Hstore IntCodecs Floats IntFloats GeoCodecs MoneyCodecs Times TimeCodecs Net PgSpec ConvertProofs RestFinal.
Import ListNotations.
Local Open Scope char_scope.

(** Never panics. *)
Definition never_panics {A} (scan : src -> A -> res A) : Prop := forall s old, scan s old <> Panic.

(** A text without room for two delimiters. *)
Definition short (s : src) : Prop := exists d, s = Some d /\ List.length d < 2.

Definition panics_when_short {A} (scan : src -> A -> res A) : Prop := forall s old, scan s old = Panic <-> short s.

(** [e] is one of the texts between commas, within the first and last byte. *)
Definition element (s : src) (e : bytes) : Prop := exists o a b c,
  s = Some (o :: a ++ e ++ b ++ [c]) /\ a ++ e ++ b <> [] /\ ~ In "," e /\ (a = [] \/ exists a', a = a' ++ [","]) /\ (b = [] \/ exists b', b = "," :: b').

Lemma rmap_panic : forall {A B} (f : A -> B) r, rmap f r = Panic <-> r = Panic.
Proof. intros A B f [x| |]; cbn; split; congruence. Qed.

Lemma bind_panic : forall {A B} (r : res A) (f : A -> res B), bind r f = Panic <-> r = Panic \/ exists x, r = Ok x /\ f x = Panic.
Proof.
  intros A B [x| |] f; cbn; split.
  - intros H. right. eauto.
  - intros [H|(y & E & H)]; [discriminate|]. now injection E as <-.
  - discriminate.
  - intros [H|(y & E & _)]; discriminate.
  - now left.
  - reflexivity.
Qed.

Lemma mapM_panic : forall {A B} (f : A -> res B) l, mapM f l = Panic -> exists x, In x l /\ f x = Panic.
Proof.
  intros A B f. induction l as [|x l IH]; cbn; [discriminate|]. intros H. apply bind_panic in H as [H|(y & E & H)]; [eauto|].
  apply bind_panic in H as [H|(z & _ & H)]; [|discriminate]. destruct (IH H) as (u & I & P). eauto.
Qed.

Lemma drop_ends_panic : forall d, drop_ends d = Panic <-> List.length d < 2.
Proof. intros [|x [|y d]]; cbn; split; intros; try lia; try congruence. Qed.

Lemma comma_panic : forall d, pgParseCommaArray d = Panic <-> List.length d < 2.
Proof.
  intros d. unfold pgParseCommaArray. rewrite bind_panic, drop_ends_panic. split; [|now left]. intros [H|(x & _ & H)]; [exact H|discriminate].
Qed.

Lemma ends_of : forall d, 2 <= List.length d -> exists o m c, d = o :: m ++ [c] /\ drop_ends d = Ok m.
Proof.
  intros [|o d] L; cbn in L; [lia|]. destruct d as [|x d] using rev_ind; [cbn in L; lia|]. clear IHd. exists o, d, x. split; [reflexivity|].
  unfold drop_ends. destruct (d ++ [x]) as [|z r] eqn:E; [destruct d; discriminate|]. rewrite <- E. now rewrite removelast_last.
Qed.

(** *** Numbers *)
Lemma uint_np : forall b n s, parse_uint b n s <> Panic.
Proof. intros b n s. unfold parse_uint. repeat (match goal with |- context [match ?x with _ => _ end] => destruct x end; try discriminate). Qed.

Lemma int_np : forall b n s, parse_int b n s <> Panic.
Proof.
  intros b n s. unfold parse_int. destruct s as [|c s]; [discriminate|].
  assert (G : forall neg r, bind (parse_uint b n r) (fun n0 => if negb neg && (2 ^ (n - 1) <=? n0)%N then Err else if neg && (2 ^ (n - 1) <? n0)%N then Err else Ok (if neg then (- Z.of_N n0)%Z else Z.of_N n0)) <> Panic).
  { intros neg r H. apply bind_panic in H as [H|(x & _ & H)]; [now apply uint_np in H|]. revert H. repeat (match goal with |- context [if ?x then _ else _] => destruct x end; try discriminate). }
  destruct (Ascii.eqb c "+"); [apply (G false)|]. destruct (Ascii.eqb c "-"); [apply (G true)|apply (G false)].
Qed.

Lemma elem_np : forall c t s, scan_elem c t s <> Panic.
Proof. intros c t s H. unfold scan_elem in H. destruct (signed t); apply rmap_panic in H; [exact (int_np _ _ _ H)|exact (uint_np _ _ _ H)]. Qed.

Lemma felem_np : forall c t s, scan_float c t s <> Panic.
Proof. intros c t s H. unfold scan_float in H. apply rmap_panic in H. exact (int_np _ _ _ H). Qed.

Lemma hex_np : forall n s, List.length s < n -> hex_decode s <> Panic.
Proof.
  induction n as [|n IH]; intros s L; [lia|]. destruct s as [|x [|y s]]; cbn; try discriminate. cbn in L.
  destruct (hex_val x), (hex_val y); try discriminate. intros H; apply bind_panic in H as [H|(? & ? & H)]; [revert H; apply IH; lia|discriminate].
Qed.

Lemma parse_np : forall l v, Parse l v <> Panic.
Proof. intros l v. unfold Parse. repeat (match goal with |- context [match ?x with _ => _ end] => destruct x end; try discriminate). Qed.

Lemma mac_np : forall s, ParseMAC s <> Panic.
Proof. intros s. unfold ParseMAC. repeat (match goal with |- context [match ?x with _ => _ end] => destruct x end; try discriminate). Qed.

Lemma ufloat_np : forall s, parse_unsigned_float s <> Panic.
Proof. intros s. unfold parse_unsigned_float. repeat (match goal with |- context [match ?x with _ => _ end] => destruct x end; try discriminate). Qed.

Lemma mfloat_np : forall s, parse_float s <> Panic.
Proof.
  intros [|c s]; cbn [parse_float]; [discriminate|]. destruct (beq c "-"); [|destruct (beq c "+"); apply ufloat_np].
  intros H. apply rmap_panic in H. now apply ufloat_np in H.
Qed.

(** *** Shapes *)
Lemma arr_short : forall {A} (parse : bytes -> res (list A)), (forall d, parse d = Panic <-> List.length d < 2) -> panics_when_short (arr_scan parse).
Proof.
  intros A parse P s old. unfold arr_scan, srcbytes. destruct s as [d|].
  - rewrite rmap_panic, P. split; [intros H; now exists d|]. intros (d' & E & L). now injection E as <-.
  - split; [discriminate|]. intros (d' & E & L). discriminate.
Qed.

Lemma keep_short : forall {A} (f : bytes -> res A), (forall d, f d = Panic <-> List.length d < 2) ->
  panics_when_short (fun (s : src) old => match srcbytes s with None => Ok old | Some d => f d end).
Proof.
  intros A f P s old. unfold srcbytes. destruct s as [d|].
  - rewrite P. split; [intros H; now exists d|]. intros (d' & E & L). now injection E as <-.
  - split; [discriminate|]. intros (d' & E & L). discriminate.
Qed.

Lemma comma_map : forall {A} (f : bytes -> res A), (forall e, f e <> Panic) -> forall d, bind (pgParseCommaArray d) (mapM f) = Panic <-> List.length d < 2.
Proof.
  intros A f P d. rewrite bind_panic, comma_panic. split; [|now left]. intros [H|(x & _ & H)]; [exact H|]. apply mapM_panic in H as (e & _ & H). now apply P in H.
Qed.

Lemma comma_rmap : forall {A} (f : list bytes -> A) d, rmap f (pgParseCommaArray d) = Panic <-> List.length d < 2.
Proof. intros. now rewrite rmap_panic, comma_panic. Qed.

Lemma string_array_panic : forall d, pgParseStringArray d = Panic <-> List.length d < 2.
Proof. intros d. unfold pgParseStringArray. rewrite bind_panic, drop_ends_panic. split; [|now left]. intros [H|(x & _ & H)]; [exact H|discriminate]. Qed.

Lemma range_panic : forall d, pgParseRange d = Panic <-> List.length d < 2.
Proof. intros d. unfold pgParseRange. rewrite bind_panic, drop_ends_panic. split; [|now left]. intros [H|(x & _ & H)]; [exact H|]. revert H; destruct (ConvertUtil.cut "," x) as [[u v]|]; discriminate. Qed.

Lemma range_bounds : forall {A} (f : option bytes -> res A) {B} (g : A -> A -> B), (forall o, f o <> Panic) -> forall d,
  bind (pgParseRange d) (fun '(lo, hi) => bind (f lo) (fun l => bind (f hi) (fun h => Ok (g l h)))) = Panic <-> List.length d < 2.
Proof.
  intros A f Bt g P d. rewrite bind_panic, range_panic. split; [|now left]. intros [H|([lo hi] & _ & H)]; [exact H|].
  apply bind_panic in H as [H|(l & _ & H)]; [now apply P in H|]. apply bind_panic in H as [H|(h & _ & H)]; [now apply P in H|discriminate].
Qed.

Lemma C103_total_proof :
  never_panics VarBitToInt64 /\ never_panics VarBitToBoolSlice /\ never_panics VarBitToUint8Slice /\ never_panics TSVectorTo /\
  never_panics CharToByte /\ never_panics CharToRune /\ never_panics CIDRToIPNet /\ never_panics MACAddrToHardwareAddr /\
  (forall t, never_panics (Int2VectorTo t)) /\ (forall t, never_panics (Int2VectorToFloats t)).
Proof.
  unfold never_panics. repeat match goal with |- _ /\ _ => split end; [| | | | | | | |intros t|intros t]; intros s old.
  - unfold VarBitToInt64, srcbytes. destruct s; [apply int_np|discriminate].
  - discriminate.
  - discriminate.
  - discriminate.
  - destruct s as [[|c d]|]; discriminate.
  - destruct s as [[|c d]|]; discriminate.
  - unfold CIDRToIPNet. destruct s as [d|]; [destruct (ParseCIDR d)|]; discriminate.
  - unfold MACAddrToHardwareAddr. destruct s as [d|]; [|discriminate]. intros H. apply rmap_panic in H. exact (mac_np _ H).
  - unfold Int2VectorTo, arr_scan, srcbytes. destruct s as [d|]; [|discriminate]. intros H. apply rmap_panic in H. apply mapM_panic in H as (e & _ & H). exact (elem_np _ _ _ H).
  - unfold Int2VectorToFloats, arr_scan, srcbytes. destruct s as [d|]; [|discriminate]. intros H. apply rmap_panic in H. apply mapM_panic in H as (e & _ & H). exact (felem_np _ _ _ H).
Qed.

Lemma C103_short_proof :
  (panics_when_short TextArrayToStringSlice /\ panics_when_short TextArrayToByteSliceSlice /\
   panics_when_short TSQueryArrayToStringSlice /\ panics_when_short TSQueryArrayToByteSliceSlice) /\
  (panics_when_short UUIDArrayToStringSlice /\ panics_when_short UUIDArrayToByteSliceSlice) /\
  (panics_when_short VarBitArrayToBoolSliceSlice /\ panics_when_short VarBitArrayToUint8SliceSlice /\
   panics_when_short VarBitArrayToStringSlice /\ panics_when_short VarBitArrayToInt64Slice) /\
  (forall c t, panics_when_short (IntArrayTo c t) /\ panics_when_short (IntRangeTo c t)) /\
  (forall c t, panics_when_short (IntArrayToFloats c t) /\ panics_when_short (IntRangeToFloats c t)) /\
  (panics_when_short FloatArrayToFloat32Slice /\ panics_when_short FloatArrayToFloat64Slice) /\
  (panics_when_short DateArrayToTimeSlice /\ panics_when_short TimeArrayToTimeSlice /\ panics_when_short TimetzArrayToTimeSlice /\
   panics_when_short DateRangeToTimeArray2) /\
  (panics_when_short CIDRArrayToIPNetSlice /\ panics_when_short InetArrayToIPNetSlice /\ panics_when_short InetArrayToIPSlice /\
   panics_when_short MACAddrArrayToHardwareAddrSlice).
Proof.
  repeat match goal with |- _ /\ _ => split end; try (match goal with |- forall c t, _ => intros c t; split end).
  - apply arr_short. intros d. now rewrite rmap_panic, string_array_panic.
  - apply arr_short. exact string_array_panic.
  - apply arr_short. intros d. now rewrite rmap_panic, string_array_panic.
  - apply arr_short. intros d. now rewrite rmap_panic, string_array_panic.
  - apply arr_short. exact comma_panic.
  - apply arr_short. intros d. apply comma_rmap.
  - apply arr_short. intros d. apply comma_rmap.
  - apply arr_short. intros d. apply comma_rmap.
  - apply arr_short. intros d. apply comma_rmap.
  - apply arr_short. intros d. apply comma_map. intros e. apply int_np.
  - apply arr_short. intros d. apply comma_map. intros e. apply elem_np.
  - apply keep_short. intros d. apply (range_bounds (scan_bound c t) (fun l h => (l, h))). intros [[|x o]|]; cbn [scan_bound]; try discriminate. apply elem_np.
  - apply arr_short. intros d. apply comma_map. intros e. apply felem_np.
  - apply keep_short. intros d. apply (range_bounds (scanf_bound c t) (fun l h => (of_int t l, of_int t h))). intros [[|x o]|]; cbn [scanf_bound]; try discriminate. apply int_np.
  - apply arr_short. intros d. apply comma_map. intros e. apply C102_float_total_proof.
  - apply arr_short. intros d. apply comma_map. intros e. apply C102_float_total_proof.
  - apply arr_short. intros d. apply comma_map. intros e. apply parse_np.
  - apply arr_short. intros d. apply comma_map. intros e. apply parse_np.
  - apply arr_short. intros d. apply comma_map. intros e. apply parse_np.
  - apply keep_short. intros d. apply (range_bounds date_bound (fun l h => (l, h))). intros [[|x o]|]; cbn [date_bound]; try discriminate. apply parse_np.
  - apply arr_short. intros d. apply comma_map. intros e. destruct (ParseCIDR e); discriminate.
  - apply arr_short. intros d. apply comma_rmap.
  - apply arr_short. intros d. apply comma_rmap.
  - apply arr_short. intros d. apply comma_map. intros e H. apply rmap_panic in H. exact (mac_np _ H).
Qed.

Lemma C103_vector_array_proof : forall t s old, Int2VectorArrayTo t s old = Panic <-> exists c, s = Some [c].
Proof.
  intros t s old. unfold Int2VectorArrayTo, arr_scan, srcbytes. destruct s as [d|]; [|split; [discriminate|intros (c & E); discriminate]].
  rewrite rmap_panic, bind_panic. split.
  - intros [H|(l & _ & H)].
    + destruct d as [|c [|x d]]; [discriminate|eauto|]. cbn [pgParseVectorArray] in H. apply bind_panic in H as [H|(y & _ & H)]; [|discriminate].
      apply drop_ends_panic in H. cbn in H. lia.
    + apply mapM_panic in H as (o & _ & H). apply rmap_panic in H. apply mapM_panic in H as (e & _ & H). now apply elem_np in H.
  - intros (c & E). injection E as ->. now left.
Qed.

Lemma pt_np : forall fl, (forall e, fparse fl e <> Panic) -> forall p, parse_pt fl p <> Panic.
Proof.
  intros fl P [x y] H. unfold parse_pt in H. apply bind_panic in H as [H|(a & _ & H)]; [exact (P _ H)|]. apply bind_panic in H as [H|(b & _ & H)]; [exact (P _ H)|discriminate].
Qed.

Lemma pts_np : forall fl, (forall e, fparse fl e <> Panic) -> forall o, parse_pts fl o <> Panic.
Proof. intros fl P [l|] H; cbn in H; [|discriminate]. apply rmap_panic in H. apply mapM_panic in H as (e & _ & H). exact (pt_np fl P _ H). Qed.

Lemma C103_geo_proof : forall fl, (forall e, fparse fl e <> Panic) ->
  panics_when_short (PointTo fl) /\ panics_when_short (LineTo fl) /\ panics_when_short (PathTo fl) /\ panics_when_short (PolygonTo fl) /\
  panics_when_short (PathArrayTo fl) /\ panics_when_short (PolygonArrayTo fl).
Proof.
  intros fl P. repeat match goal with |- _ /\ _ => split end.
  - apply keep_short. intros d. unfold pgParsePoint. rewrite !bind_panic, drop_ends_panic. split; [|tauto].
    intros [[H|(x & _ & H)]|(x & _ & H)]; [exact H|discriminate|]. now apply pt_np in H.
  - apply keep_short. intros d. unfold pgParseLine. rewrite !bind_panic, drop_ends_panic. split; [|tauto].
    intros [[H|(x & _ & H)]|(x & _ & H)]; [exact H|discriminate|]. destruct x as [[a b] c]. unfold parse_line in H.
    apply bind_panic in H as [H|(u & _ & H)]; [now apply P in H|]. apply bind_panic in H as [H|(v & _ & H)]; [now apply P in H|]. apply bind_panic in H as [H|(w & _ & H)]; [now apply P in H|discriminate].
  - intros s old. unfold PathTo, srcbytes. destruct s as [d|]; [|split; [discriminate|intros (d & E & _); discriminate]].
    rewrite bind_panic. unfold pgParsePath. split.
    + intros [H|([ps b] & _ & H)].
      * exists d. split; [reflexivity|]. destruct d as [|c d]; [cbn; lia|]. apply bind_panic in H as [H|(x & _ & H)]; [now apply drop_ends_panic in H|discriminate].
      * apply rmap_panic in H. apply mapM_panic in H as (e & _ & H). now apply pt_np in H.
    + intros (d' & E & L). injection E as <-. left. destruct d as [|c d]; [reflexivity|]. apply bind_panic. left. now apply drop_ends_panic.
  - intros s old. unfold PolygonTo, srcbytes. destruct s as [d|]; [|split; [discriminate|intros (d & E & _); discriminate]].
    unfold pgParsePolygon. rewrite !bind_panic, drop_ends_panic. split.
    + intros [[H|(x & _ & H)]|(x & _ & H)]; [now exists d|discriminate|]. apply rmap_panic in H. apply mapM_panic in H as (e & _ & H). now apply pt_np in H.
    + intros (d' & E & L). injection E as <-. tauto.
  - apply arr_short. intros d. unfold pgParsePathArray. rewrite !bind_panic, drop_ends_panic. split; [|tauto].
    intros [[H|(x & _ & H)]|(x & _ & H)]; [exact H|discriminate|]. apply mapM_panic in H as (e & _ & H). now apply pts_np in H.
  - apply arr_short. intros d. unfold pgParsePolygonArray. rewrite !bind_panic, drop_ends_panic. split; [|tauto].
    intros [[H|(x & _ & H)]|(x & _ & H)]; [exact H|discriminate|]. apply mapM_panic in H as (e & _ & H). now apply pts_np in H.
Qed.

(** strconv.ParseFloat meets the hypothesis. *)
Definition go_floats : floats := MkFloats float (AppendFloat f64) (ParseFloat f64).

(** A line segment panics on a third point, a box on missing coordinates or a
    bracket at the end, arrays of points and lines on further commas. *)
Lemma ptlist_count : forall d n, List.length (ptlist_loop d n) <= count_occ ascii_dec d "(".
Proof.
  induction d as [|c d IH]; intros n; cbn [ptlist_loop List.length count_occ]; [lia|]. destruct n as [|n].
  - destruct (beq c "(") eqn:E.
    + destruct (pt_scan rpar d [] [] 0 0) as [p k]. cbn [List.length]. unfold beq in E. apply Ascii.eqb_eq in E. subst. specialize (IH k). destruct (ascii_dec "(" "("); [lia|congruence].
    + specialize (IH 0). destruct (ascii_dec c "("); lia.
  - specialize (IH n). destruct (ascii_dec c "("); lia.
Qed.

Lemma C103_lseg_proof : forall fl s old, (forall e, fparse fl e <> Panic) -> LsegTo fl s old = Panic ->
  exists d, s = Some d /\ (List.length d < 2 \/ 3 <= count_occ ascii_dec d "(").
Proof.
  intros fl s old P H. unfold LsegTo, srcbytes in H. destruct s as [d|]; [|discriminate]. exists d. split; [reflexivity|].
  apply bind_panic in H as [H|([p q] & _ & H)].
  - unfold pgParseLseg in H. apply bind_panic in H as [H|(x & E & H)]; [left; now apply drop_ends_panic|]. right.
    assert (C : count_occ ascii_dec x "(" <= count_occ ascii_dec d "(").
    { destruct (le_lt_dec 2 (List.length d)) as [L|L]; [|apply drop_ends_panic in L; congruence]. destruct (ends_of d L) as (o & m & c & -> & E'). rewrite E in E'. injection E' as ->.
      cbn [count_occ]. rewrite count_occ_app. destruct (ascii_dec o "("); lia. }
    pose proof (ptlist_count x 0) as K. unfold pgParsePointList in H. destruct (ptlist_loop x 0) as [|a [|b [|c l]]]; try discriminate. cbn in K. lia.
  - unfold parse_lseg in H. apply bind_panic in H as [H|(x & _ & H)]; [now apply pt_np in H|]. apply bind_panic in H as [H|(y & _ & H)]; [now apply pt_np in H|discriminate].
Qed.

Lemma C103_geo_refuted_proof : exists d1 d2 d3 d4 d5, Forall (fun d => 2 <= List.length d) [d1; d2; d3; d4; d5] /\
  LsegTo go_floats (Some d1) ((NaN, NaN), (NaN, NaN)) = Panic /\ BoxTo go_floats (Some d2) ((NaN, NaN), (NaN, NaN)) = Panic /\
  BoxArrayTo go_floats (Some d3) None = Panic /\ LineArrayTo go_floats (Some d4) None = Panic /\ PointArrayTo go_floats (Some d5) None = Panic.
Proof.
  exists (B "[(1,2),(3,4),(5,6)]"), (B "(1,2)"), (B "{(1)}}"), (B "{""{1,2,3,4,5}""}"), (B "{""(1,2,,3)""}").
  split; [repeat constructor; cbn; lia|]. repeat split; vm_compute; reflexivity.
Qed.

Lemma first_comma : forall cur a m r, ~ In "," cur -> cur ++ "," :: m = a ++ "," :: r ->
  (a = cur /\ m = r) \/ exists a', a = cur ++ "," :: a' /\ m = a' ++ "," :: r.
Proof.
  induction cur as [|x cur IH]; intros a m r N H.
  - destruct a as [|y a]; cbn in H; injection H; intros; subst; [left; auto|right; exists a; auto].
  - destruct a as [|y a]; cbn in H; injection H as -> H.
    + exfalso. apply N. now left.
    + destruct (IH a m r) as [[-> ->]|(a' & -> & ->)]; [intros I; apply N; now right|exact H|left; auto|right; exists a'; auto].
Qed.

Lemma split_in : forall m cur e, ~ In "," cur -> (In e (split_on "," cur m) <->
  exists a b, cur ++ m = a ++ e ++ b /\ ~ In "," e /\ (a = [] \/ exists a', a = a' ++ [","]) /\ (b = [] \/ exists b', b = "," :: b')).
Proof.
  induction m as [|c m IH]; intros cur e N; cbn [split_on].
  - rewrite app_nil_r. split.
    + intros [<-|[]]. exists [], []. rewrite app_nil_r. auto.
    + intros (a & b & E & _ & A & Bd). left. assert (a = []) as ->. { destruct A as [A|(a' & ->)]; [exact A|]. exfalso. apply N. rewrite E. apply in_or_app. left. apply in_or_app. right. now left. }
      assert (b = []) as ->. { destruct Bd as [Bd|(b' & ->)]; [exact Bd|]. exfalso. apply N. rewrite E. apply in_or_app. right. apply in_or_app. right. now left. }
      now rewrite app_nil_r in E.
  - destruct (beq c ",") eqn:E.
    + unfold beq in E. apply Ascii.eqb_eq in E. subst c. cbn [In]. rewrite IH by (intros []). cbn [app]. split.
      * intros [<-|(a & b & -> & NE & A & Bd)].
        -- exists [], ("," :: m). split; [reflexivity|]. split; [exact N|]. split; [now left|right; eauto].
        -- exists (cur ++ "," :: a), b. split; [now rewrite <- app_assoc|]. split; [exact NE|]. split; [|exact Bd]. right. destruct A as [->|(a' & ->)]; [now exists cur|]. exists (cur ++ "," :: a'). now rewrite <- app_assoc.
      * intros (a & b & H & NE & A & Bd). destruct A as [->|(a' & ->)].
        -- left. cbn [app] in H. destruct Bd as [->|(b' & ->)].
           ++ rewrite app_nil_r in H. exfalso. apply NE. rewrite <- H. apply in_or_app. right. now left.
           ++ destruct (first_comma _ _ _ _ N H) as [[-> _]|(a' & -> & _)]; [reflexivity|]. exfalso. apply NE. apply in_or_app. right. now left.
        -- right. rewrite <- app_assoc in H. cbn [app] in H. destruct (first_comma _ _ _ _ N H) as [[_ ->]|(a'' & _ & ->)].
           ++ exists [], b. auto.
           ++ exists (a'' ++ [","]), b. rewrite <- app_assoc. split; [reflexivity|]. split; [exact NE|]. split; [right; eauto|exact Bd].
    + rewrite IH.
      * now rewrite <- app_assoc.
      * intros I. apply in_app_or in I as [I|[->|[]]]; [now apply N|discriminate].
Qed.

Lemma comma_element : forall d l e, pgParseCommaArray d = Ok l -> (In e l <-> element (Some d) e).
Proof.
  intros d l e H. destruct (le_lt_dec 2 (List.length d)) as [L|L]; [|apply comma_panic in L; congruence]. destruct (ends_of d L) as (o & m & c & E & D). unfold pgParseCommaArray in H. rewrite D in H. cbn [bind] in H. injection H as <-.
  assert (K : element (Some d) e <-> exists a b, m = a ++ e ++ b /\ a ++ e ++ b <> [] /\ ~ In "," e /\ (a = [] \/ exists a', a = a' ++ [","]) /\ (b = [] \/ exists b', b = "," :: b')).
  { split.
    - intros (o' & a & b & c' & F & N & NE & A & Bd). injection F as F. rewrite E in F. injection F as <- F. rewrite !app_assoc in F. apply app_inj_tail in F as [F _]. rewrite <- app_assoc in F. eauto 9.
    - intros (a & b & -> & N & NE & A & Bd). exists o, a, b, c. rewrite <- !app_assoc in E. subst d. auto. }
  rewrite K. destruct m as [|x m].
  - split; [intros []|]. intros (a & b & F & N & _). congruence.
  - rewrite split_in by (intros []). cbn [app]. split.
    + intros (a & b & F & NE & A & Bd). exists a, b. split; [exact F|]. split; [congruence|auto].
    + intros (a & b & F & N & NE & A & Bd). exists a, b. auto.
Qed.

Lemma first_panic : forall c e, first_is c e = Panic <-> e = [].
Proof. intros c [|x e]; cbn; split; congruence. Qed.

Lemma mapM_sure : forall {A B} (f : A -> res B) (bad : A -> Prop), (forall x, f x = Panic <-> bad x) -> (forall x, f x <> Err) ->
  forall l, mapM f l = Panic <-> exists x, In x l /\ bad x.
Proof.
  intros A Bt f bad P N l. split.
  - intros H. apply mapM_panic in H as (x & I & H). exists x. split; [exact I|now apply P].
  - induction l as [|x l IH]; intros (y & I & H); [contradiction|]. cbn [mapM]. destruct (f x) as [b| |] eqn:E; [|now apply N in E|reflexivity]. cbn [bind].
    destruct I as [->|I]; [apply P in H; congruence|]. rewrite (IH (ex_intro _ y (conj I H))). reflexivity.
Qed.

Definition panics_on_empty {A} (scan : src -> A -> res A) : Prop := forall s old, scan s old = Panic <-> short s \/ element s [].

Lemma arr_empty : forall {A} (f : bytes -> res A), (forall e, f e = Panic <-> e = []) -> (forall e, f e <> Err) ->
  panics_on_empty (arr_scan (fun d => bind (pgParseCommaArray d) (mapM f))).
Proof.
  intros A f P N s old. unfold arr_scan, srcbytes. destruct s as [d|].
  - rewrite rmap_panic, bind_panic, comma_panic. split.
    + intros [H|(l & E & H)]; [left; now exists d|]. right. apply (mapM_sure f (fun e => e = []) P N) in H as (x & I & ->). now apply (comma_element _ _ _ E).
    + intros [(d' & E & L)|H]; [injection E as <-; now left|]. destruct (le_lt_dec 2 (List.length d)) as [L|L]; [|now left]. right.
      destruct (pgParseCommaArray d) as [l| |] eqn:E.
      * exists l. split; [reflexivity|]. apply (mapM_sure f (fun e => e = []) P N). exists []. split; [now apply (comma_element _ _ _ E)|reflexivity].
      * unfold pgParseCommaArray in E. destruct (drop_ends d) eqn:D; try discriminate. unfold drop_ends in D. destruct d as [|x [|y d]]; discriminate.
      * apply comma_panic in E. lia.
  - split; [discriminate|]. intros [(d & E & _)|(o & a & b & c & E & _)]; discriminate.
Qed.

Lemma C103_bits_proof : panics_on_empty BoolArrayToBoolSlice /\ panics_on_empty BitArrayToBoolSlice /\ panics_on_empty BitArrayToUintSlice.
Proof.
  repeat split; try (intros H; revert H); try apply arr_empty; try (intros e; apply first_panic); try (intros [|x e]; discriminate).
  all: try (intros e; rewrite rmap_panic; apply first_panic).
Qed.

Lemma C103_money_proof : (forall s old, MoneyToInt64 s old = Panic <-> s = Some []) /\
  forall s old, MoneyArrayToInt64Slice s old = Panic -> short s \/ element s [].
Proof.
  assert (D : forall d, dec_money d = Panic <-> d = []).
  { intros [|c d]; cbn; split; try congruence. intros H. apply rmap_panic in H. now apply mfloat_np in H. }
  split.
  - intros s old. unfold MoneyToInt64, srcbytes. destruct s as [d|]; [|split; discriminate]. rewrite D. split; [intros ->; reflexivity|intros Q; now injection Q].
  - intros s old H. unfold MoneyArrayToInt64Slice, arr_scan, srcbytes in H. destruct s as [d|]; [|discriminate]. apply rmap_panic in H. apply bind_panic in H as [H|(l & E & H)].
    + left. exists d. split; [reflexivity|now apply comma_panic].
    + right. apply mapM_panic in H as (e & I & H). apply D in H. subst. now apply (comma_element _ _ _ E).
Qed.

Lemma C103_stamps_proof : forall l s old, stamp_scan l s old = Panic -> short s \/
  exists e, element s e /\ List.length e < 2 /\ e <> ["N"].
Proof.
  intros l s old H. unfold stamp_scan, arr_scan, srcbytes in H. destruct s as [d|]; [|discriminate]. apply rmap_panic in H. apply bind_panic in H as [H|(es & E & H)].
  - left. exists d. split; [reflexivity|now apply comma_panic].
  - right. apply mapM_panic in H as (e & I & H). exists e. split; [now apply (comma_element _ _ _ E)|].
    assert (K : bind (drop_ends e) (Parse l) = Panic -> List.length e < 2).
    { intros K. apply bind_panic in K as [K|(x & _ & K)]; [now apply drop_ends_panic|now apply parse_np in K]. }
    destruct e as [|c e]; cbn [stamp_elem] in H; [split; [auto|discriminate]|]. destruct (beq c "N") eqn:F; [discriminate|]. split; [auto|]. intros J. injection J as -> ->. discriminate.
Qed.

Lemma C103_stamp_range_proof : forall l s old, stamprange_scan l s old = Panic -> short s \/
  exists o a b c, s = Some (o :: a ++ "," :: b ++ [c]) /\ (List.length a = 1 \/ List.length b = 1).
Proof.
  assert (CU : forall m a b, ConvertUtil.cut "," m = Some (a, b) -> m = a ++ "," :: b).
  { induction m as [|x m IH]; intros a b H; [discriminate|]. cbn in H. destruct (beq x ",") eqn:E.
    - unfold beq in E. apply Ascii.eqb_eq in E. subst. now injection H as <- <-.
    - destruct (ConvertUtil.cut "," m) as [[u v]|] eqn:F; [|discriminate]. injection H as <- <-. now rewrite (IH u v eq_refl). }
  assert (SB : forall l o, stamp_bound l o = Panic -> exists c, o = Some [c]).
  { intros l [[|c [|x o]]|] H; cbn in H; try discriminate; [eauto|]. now apply parse_np in H. }
  intros l s old H. unfold stamprange_scan, srcbytes in H. destruct s as [d|]; [|discriminate]. apply bind_panic in H as [H|([lo hi] & E & H)].
  - left. exists d. split; [reflexivity|now apply range_panic].
  - right. destruct (le_lt_dec 2 (List.length d)) as [L|L]; [|apply range_panic in L; congruence]. destruct (ends_of d L) as (o & m & c & -> & D).
    unfold pgParseRange in E. rewrite D in E. cbn [bind] in E. destruct (ConvertUtil.cut "," m) as [[a b]|] eqn:F; injection E as <- <-.
    + apply CU in F. subst m. exists o, a, b, c. split; [now rewrite <- app_assoc|]. apply bind_panic in H as [H|(x & _ & H)].
      * apply SB in H as (y & J). injection J as ->. now left.
      * apply bind_panic in H as [H|(z & _ & H)]; [|discriminate]. apply SB in H as (y & J). injection J as ->. now right.
    + discriminate.
Qed.

Lemma C103_uuid_proof : forall d old, List.length d = 36 -> UUIDToByteArray16 (Some d) old <> Panic.
Proof.
  intros d old L H. unfold UUIDToByteArray16, srcbytes, pgParseUUID in H.
  assert (SL : forall lo hi, subslice d lo hi = Panic -> lo <= hi <= 36 -> False).
  { intros lo hi K Q. unfold subslice in K. rewrite L in K. destruct (Nat.leb_spec lo hi); [|lia]. destruct (Nat.leb_spec hi 36); [|lia]. discriminate. }
  assert (HX : forall s, hex_decode s <> Panic) by (intros s; exact (hex_np (S (List.length s)) s (Nat.lt_succ_diag_r _))).
  repeat (apply bind_panic in H as [H|(? & ? & H)]; [solve [exfalso; first [now apply HX in H|eapply SL; [exact H|rewrite ?L; lia]]]|]).
  apply bind_panic in H as [H|(w0 & E0 & H)]; [|discriminate].
  unfold hex_decode_into in H.
  match goal with K : subslice d 24 (List.length d) = Ok ?s |- _ => assert (LS : List.length s = 12) end.
  { match goal with K : subslice d 24 (List.length d) = Ok _ |- _ => revert K end. unfold subslice. rewrite L. cbn [Nat.leb andb]. intros K. apply (f_equal (fun r => match r with Ok z => List.length z | _ => 0 end)) in K. rewrite firstn_length, skipn_length, L in K. cbn in K. lia. }
  rewrite LS in H. cbn [Nat.ltb Nat.leb Nat.mul Nat.add] in H. apply bind_panic in H as [H|(y & _ & H)]; [now apply HX in H|discriminate].
Qed.

Lemma C103_uuid_refuted_proof : exists d1 d2, UUIDToByteArray16 (Some d1) [] = Panic /\ UUIDToByteArray16 (Some d2) [] = Panic /\ List.length d1 < 36 < List.length d2.
Proof. exists (B "ab"), (B "00112233-4455-6677-8899-aabbccddeeff00"). repeat split; try (vm_compute; reflexivity); cbn; lia. Qed.

Lemma C103_hstore_proof : forall val d old, ~ In bs d -> HStoreTo val (Some d) old <> Panic.
Proof.
  assert (Q : forall d acc k, ~ In bs d -> hs_quoted d acc k <> Panic).
  { induction d as [|c d IH]; intros acc k N; cbn [hs_quoted]; [discriminate|]. destruct (beq c bs) eqn:E.
    - unfold beq in E. apply Ascii.eqb_eq in E. subst. exfalso. apply N. now left.
    - destruct (beq c dq); [discriminate|]. apply IH. intros I. apply N. now right. }
  assert (H : forall d n i p, ~ In bs d -> hs_loop d n i p <> Panic).
  { induction d as [|c d IH]; intros n i p N; cbn [hs_loop]; [discriminate|]. assert (N' : ~ In bs d) by (intros I; apply N; now right).
    destruct n as [|n]; [|now apply IH]. destruct (beq c dq).
    - intros K. apply bind_panic in K as [K|([str m] & _ & K)]; [now apply Q in K|]. destruct i; [apply rmap_panic in K|]; now apply IH in K.
    - destruct (beq c "N"); [intros K; apply rmap_panic in K; now apply IH in K|now apply IH]. }
  intros val d old N K. unfold HStoreTo, srcbytes in K. apply rmap_panic in K. unfold pgparsehstore in K. now apply H in K.
Qed.

Lemma C103_hstore_refuted_proof : exists d1 d2, HStoreToStringMap (Some d1) None = Panic /\ HStoreArrayToStringMapSlice (Some d2) None = Panic /\ 2 <= List.length d1 /\ 2 <= List.length d2.
Proof. exists (B """a\"), (B "{""\""\\}"). repeat split; try (vm_compute; reflexivity); cbn; lia. Qed.

Lemma C103_char_array_proof : forall d, 2 <= List.length d -> ~ In dq d ->
  (forall old, CharArrayToString (Some d) old <> Panic) /\ (forall old, CharArrayToByteSlice (Some d) old <> Panic).
Proof.
  assert (P : forall d, 2 <= List.length d -> ~ In dq d -> pgparsearray2 d <> Panic).
  { assert (H : forall d n, ~ In dq d -> array2_loop d n <> Panic).
    { induction d as [|c d IH]; intros n N; cbn [array2_loop]; [discriminate|]. assert (N' : ~ In dq d) by (intros I; apply N; now right).
      destruct n as [|n]; [|now apply IH]. destruct (beq c dq) eqn:E.
      - unfold beq in E. apply Ascii.eqb_eq in E. subst. exfalso. apply N. now left.
      - destruct (beq c ","); [now apply IH|]. intros K. apply rmap_panic in K. now apply IH in K. }
    intros d L N K. destruct (ends_of d L) as (o & m & c & -> & D). unfold pgparsearray2 in K. rewrite D in K. cbn [bind] in K. apply H in K; [exact K|].
    intros I. apply N. right. apply in_or_app. now left. }
  intros d L N. split; intros old K; unfold CharArrayToString, CharArrayToByteSlice, srcbytes in K; [|apply rmap_panic in K]; now apply P in K.
Qed.

Lemma C103_char_array_refuted_proof : exists d, 2 <= List.length d /\ CharArrayToString (Some d) [] = Panic /\ CharArrayToRuneSlice (Some d) None = Panic.
Proof. exists (B "{""}"). repeat split; try (vm_compute; reflexivity). cbn. lia. Qed.
