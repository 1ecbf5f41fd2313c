(** Definitions and proofs used by PropsFloatArrs.v. *)
From Coq Require Import Ascii String ZArith NArith Bool List Lia Eqdep_dec.
From Verif Require Import GoBase Strconv StrconvProofs ConvertUtil ConvertProofs Codecs PgSpec PgSpecProofs SimpleProofs IntProofs MoneyCodecs MoneyProofs GeoCodecs GeoProofs GeoFinal TimeSpec DatesFinal StampsFinal Floats FloatSpec FloatProofs.
Import ListNotations.
Local Open Scope char_scope.
Local Open Scope Z_scope.

(** The characters of the texts. *)
Definition fchar (c : ascii) : bool :=
  (match digit c with Some _ => true | None => false end || existsb (Ascii.eqb c) (B "+-.eENaIinfty"))%bool.

Lemma fchar_special : forall c, fchar c = true -> pg_special c = false.
Proof. intros [b0 b1 b2 b3 b4 b5 b6 b7]. destruct b0, b1, b2, b3, b4, b5, b6, b7; intros H; try reflexivity; discriminate H. Qed.

Lemma fchar_delims : forall c, fchar c = true -> ~ In c delims.
Proof. intros c H I. cbn [delims In] in I. repeat destruct I as [<-|I]; try discriminate H. destruct I. Qed.

Lemma fchar_upper : forall c, fchar c = true -> pg_upper c <> "U".
Proof. intros [b0 b1 b2 b3 b4 b5 b6 b7]. destruct b0, b1, b2, b3, b4, b5, b6, b7; intros H; try discriminate H; discriminate. Qed.

Lemma dnum_fchar : forall l acc n, dnum acc l = Some n -> forallb fchar l = true.
Proof.
  induction l as [|c l IH]; intros acc n H; auto. cbn [dnum] in H. destruct (digit c) as [d|] eqn:E; [|discriminate].
  cbn [forallb]. rewrite (IH _ _ H). unfold fchar. now rewrite E.
Qed.

Lemma numeral_fchar : forall t m x, numeral t m x -> forallb fchar t = true.
Proof.
  intros t m x (ip & fp & pt & ex & e & _ & DN & EX & PT & -> & _). apply dnum_fchar in DN. rewrite forallb_app in DN.
  apply andb_true_iff in DN. destruct DN as [D1 D2]. rewrite !forallb_app, D1. cbn [andb].
  replace (forallb fchar pt) with true by (destruct PT as [->|[_ ->]]; [cbn [forallb]; now rewrite D2|reflexivity]). cbn [andb].
  destruct EX as [[-> _]|(c & s & ds & n & C & _ & DS & _ & -> & SG)]; auto. cbn [forallb]. rewrite forallb_app, (dnum_fchar _ _ _ DS).
  replace (fchar c) with true by (destruct C; subst; reflexivity). destruct SG as [[[->| ->] _]|[-> _]]; reflexivity.
Qed.

Lemma text_fchar : forall ff b f, float_text ff b f -> b <> [] /\ forallb fchar b = true.
Proof.
  intros ff b [|neg|neg v] T; cbn [float_text] in T.
  - subst b. split; [discriminate|reflexivity].
  - destruct neg; cbn [In] in T; repeat destruct T as [T|T]; try tauto; subst b; (split; [discriminate|reflexivity]).
  - destruct T as (t & m & x & -> & NT & _). destruct (numeral_first _ _ _ NT) as (c & r & E & _). split.
    + rewrite E. destruct neg; discriminate.
    + rewrite forallb_app, (numeral_fchar _ _ _ NT). destruct neg; reflexivity.
Qed.

Lemma fchar_elem : forall b, b <> [] -> forallb fchar b = true -> elem_out (Some b) = b.
Proof.
  intros b NE H. apply elem_out_plain. unfold needs_quotes. destruct b as [|c b]; [congruence|].
  replace (is_null_word (c :: b)) with false.
  - cbn [orb]. apply (existsb_forall pg_special fchar); [apply fchar_special|]. apply Forall_forall. now apply forallb_forall.
  - symmetry. unfold is_null_word. destruct list_eq_dec as [E|]; auto. exfalso. destruct b as [|c2 b]; [discriminate E|]. cbn [map] in E. injection E as _ E _.
    cbn [forallb] in H. apply andb_true_iff in H. destruct H as [_ H]. apply andb_true_iff in H. destruct H as [H _]. now apply (fchar_upper c2).
Qed.

Lemma fchar_nocomma : forall b, forallb fchar b = true -> nochar "," b.
Proof. intros b H I. rewrite forallb_forall in H. apply H in I. discriminate. Qed.

Lemma C88_rounding_proof : forall ff m x, In ff [f32; f64] -> 0 <= m -> exists! v, rounds ff m x v.
Proof.
  intros ff m x I M. assert (O : okff ff) by (destruct I as [<-|[<-|[]]]; [apply ok32|apply ok64]).
  exists (dec_round ff m x). split; [now apply dec_rounds|]. intros v R. symmetry. now apply rounds_dec.
Qed.

Lemma C88_exact_proof : forall ff m, In ff [f32; f64] -> fits ff (m * 2 ^ expo ff) -> rounds ff m 0 (m * 2 ^ expo ff).
Proof.
  intros ff m I F. unfold rounds. cbn [Z.max Z.opp]. change (10 ^ 0) with 1. rewrite Z.mul_1_r.
  assert (G := nearest_exact ff (m * 2 ^ expo ff) 1 ltac:(lia) F). now rewrite Z.mul_1_r in G.
Qed.

(** float4arr.go, numericarr.go: every value is written as a text that denotes
    it; the array is the one the server writes for those texts. *)
Definition written (ff : fformat) (w : slice float -> dval) : Prop :=
  forall l, Forall (valid ff) l -> exists bs, Forall2 (float_text ff) bs l /\ w (Some l) = Some (array_out (map Some bs)).

Lemma written_append : forall ff, okff ff -> written ff (arr_value (AppendFloat ff)).
Proof.
  intros ff O l F. apply written_array. intros f I. rewrite Forall_forall in F. assert (T := append_text ff f O (F f I)).
  split; auto. destruct (text_fchar _ _ _ T). now apply fchar_elem.
Qed.

Lemma C88_write_proof :
  written f32 Float4ArrayFromFloat32Slice /\ written f32 NumericArrayFromFloat32Slice
  /\ written f64 Float4ArrayFromFloat64Slice /\ written f64 Float8ArrayFromFloat64Slice /\ written f64 NumericArrayFromFloat64Slice.
Proof. repeat split; (apply (written_append f32 ok32) || apply (written_append f64 ok64)). Qed.

(** Of the numerals that denote a finite float one with the fewest digits is
    written, and among those with its last place one closest to the float. *)
Definition denotes (t : text) (d j : Z) : Prop := 0 <= j /\ numeral t (d * 10 ^ j) 0 \/ j < 0 /\ numeral t d j.

Lemma C88_shortest_proof : forall ff neg v, In ff [f32; f64] -> fits ff v -> exists t d j,
  AppendFloat ff (Fin neg v) = sign neg ++ t /\ denotes t d j /\ rounds ff d j v
  /\ (forall m x n, 0 < m -> rounds ff m x v -> 0 <= n -> 10 ^ n <= d -> 10 ^ n <= m)
  /\ (forall m K, 0 <= m -> rounds ff m j v -> 0 <= K -> 0 <= j + K ->
       Z.abs (v * 10 ^ K - d * 10 ^ (j + K) * 2 ^ expo ff) <= Z.abs (v * 10 ^ K - m * 10 ^ (j + K) * 2 ^ expo ff)).
Proof.
  intros ff neg v I F. assert (O : okff ff) by (destruct I as [<-|[<-|[]]]; [apply ok32|apply ok64]).
  destruct (append_finite ff neg v O F) as (t & d & j & E & NT & R & D & FE & CL). exists t, d, j.
  split; [exact E|]. split; [exact NT|]. split; [exact R|]. split; [exact FE|exact CL].
Qed.

(** What an element is read as: NULL and numbers too large for the Go type are
    errors. *)
Definition elem_read (ff : fformat) (o : option text) (r : res float) : Prop :=
  match o with
  | None => r = Err
  | Some b => (exists f, float_text ff b f /\ r = Ok f) \/ too_large ff b /\ r = Err
  end.

Lemma elem_read_parse : forall ff o r, okff ff -> elem_read ff o r ->
  nochar "," (elem_out o) /\ elem_out o <> [] /\ ParseFloat ff (elem_out o) = r.
Proof.
  intros ff [b|] r O; cbn [elem_read].
  - intros H. assert (FC : b <> [] /\ forallb fchar b = true /\ ParseFloat ff b = r).
    { destruct H as [(f & T & ->)|[T ->]].
      - destruct (text_fchar _ _ _ T). split; auto. split; auto. now apply parse_text.
      - assert (PL := parse_large ff b O T). destruct T as (neg & t & m & x & v & -> & NT & _). destruct (numeral_first _ _ _ NT) as (c & r0 & E & _).
        split; [rewrite E; destruct neg; discriminate|]. split; auto. rewrite forallb_app, (numeral_fchar _ _ _ NT). destruct neg; reflexivity. }
    destruct FC as (N1 & N2 & P). assert (EE := fchar_elem b N1 N2). unfold text, bytes in *. rewrite EE. split; [now apply fchar_nocomma|auto].
  - intros ->. split; [intros [E|[E|[E|[E|[]]]]]; discriminate|]. split; [discriminate|reflexivity].
Qed.

Definition reader (ff : fformat) (rd : src -> slice float -> res (slice float)) : Prop :=
  (forall old, rd None old = Ok None) /\
  forall els rs old, Forall2 (elem_read ff) els rs -> rd (Some (array_out els)) old = rmap Some (mapM (fun r => r) rs).

Lemma reader_parse : forall ff, okff ff -> reader ff (arr_scan (fun d => bind (pgParseCommaArray d) (mapM (ParseFloat ff)))).
Proof.
  intros ff O. split; [reflexivity|]. intros els rs old F. unfold arr_scan. cbn [srcbytes]. f_equal.
  assert (E : pgParseCommaArray (array_out els) = Ok (map elem_out els)).
  { assert (G := array_out_comma (fun x : option bytes => x) els). rewrite map_id in G. apply G. clear G.
    intros o I. induction F as [|x y l l' Hxy F IH]; [destruct I|]. destruct I as [<-|I]; auto.
    destruct (elem_read_parse ff _ _ O Hxy) as (A & C & _). split; auto. }
  unfold text, bytes in *. rewrite E. cbn [bind]. clear E. induction F as [|o r els rs H F IH]; auto.
  cbn [map mapM]. destruct (elem_read_parse ff o r O H) as (_ & _ & P). unfold text, bytes in *. rewrite P, IH. reflexivity.
Qed.

Lemma C88_read_proof : reader f32 FloatArrayToFloat32Slice /\ reader f64 FloatArrayToFloat64Slice.
Proof. split; [apply (reader_parse f32 ok32)|apply (reader_parse f64 ok64)]. Qed.

(** A slice written and read with the same Go type is unchanged; this includes
    -0, the infinities and NaN. *)
Lemma mapM_ok : forall {A} (l : list A), mapM (fun r => r) (map Ok l) = Ok l.
Proof. induction l; cbn [map mapM bind]; auto. now rewrite IHl. Qed.

Lemma roundtrip : forall ff w rd, written ff w -> reader ff rd -> (w None = None) ->
  forall v old, match v with Some l => Forall (valid ff) l | None => True end -> rd (w v) old = Ok v.
Proof.
  intros ff w rd W [R0 R] WN [l|] old V; [|now rewrite WN]. destruct (W l V) as (bs & F & ->).
  rewrite (R (map Some bs) (map Ok l)). now rewrite mapM_ok.
  clear V. induction F as [|b f bs l T F IH]; cbn [map]; constructor; auto. left. exists f. auto.
Qed.

Lemma C88_roundtrip_proof : forall old,
  (forall v, match v with Some l => Forall (valid f32) l | None => True end -> FloatArrayToFloat32Slice (Float4ArrayFromFloat32Slice v) old = Ok v)
  /\ (forall v, match v with Some l => Forall (valid f64) l | None => True end -> FloatArrayToFloat64Slice (Float8ArrayFromFloat64Slice v) old = Ok v).
Proof.
  intros old. destruct C88_write_proof as (W1 & _ & _ & W2 & _). destruct C88_read_proof as [R1 R2]. split; intros v V.
  - now apply (roundtrip f32 _ _ W1 R1).
  - now apply (roundtrip f64 _ _ W2 R2).
Qed.

Lemma C88_unique_proof : forall ff b f g, In ff [f32; f64] -> float_text ff b f -> float_text ff b g -> f = g.
Proof.
  intros ff b f g I T1 T2. assert (O : okff ff) by (destruct I as [<-|[<-|[]]]; [apply ok32|apply ok64]).
  apply parse_text in T1, T2; auto. congruence.
Qed.

(** 0.1, -2.5 and 100 as float64 (times 2^1074), the infinities, NaN and -0. *)
Lemma valid_fin : forall ff neg m k, 0 <= m < 2 ^ prec ff -> 0 <= k -> (m * 2 ^ k <? 2 ^ (over ff + expo ff)) = true -> valid ff (Fin neg (m * 2 ^ k)).
Proof. intros ff neg m k M K L. split; [exists m, k; auto|now apply Z.ltb_lt]. Qed.

Lemma fits_widen : forall v, fits f32 v -> fits f64 (v * 2 ^ 925).
Proof.
  intros v (m & k & M & K & ->). exists m, (k + 925). cbn [prec f32 f64] in *. split; [lia|]. split; [lia|]. rewrite Z.pow_add_r by lia. ring.
Qed.

Lemma widen_valid : forall f, valid f32 f -> valid f64 (widen f).
Proof.
  intros [|neg|neg v] V; auto. destruct V as [F L]. cbn [widen valid]. change (expo f64 - expo f32) with 925. split; [now apply fits_widen|].
  change (over f32 + expo f32) with 277 in L. change (over f64 + expo f64) with 2098.
  apply Z.lt_le_trans with (2 ^ 277 * 2 ^ 925); [apply Z.mul_lt_mono_pos_r; [apply pow2_pos; lia|exact L]|]. rewrite <- Z.pow_add_r by lia. apply Z.pow_le_mono_r; lia.
Qed.

Lemma C89_float8_of_float32_proof : forall l, Forall (valid f32) l -> exists bs,
  Forall2 (float_text f64) bs (map widen l) /\ Float8ArrayFromFloat32Slice (Some l) = Some (array_out (map Some bs)).
Proof.
  intros l F. destruct (written_append f64 ok64 (map widen l)) as (bs & F2 & E).
  - induction F; constructor; auto. now apply widen_valid.
  - exists bs. split; auto. rewrite <- E. unfold Float8ArrayFromFloat32Slice, arr_value. destruct l; auto. cbn [map]. do 3 f_equal. now rewrite map_map.
Qed.

(** A decimal that rounds to a float32 as a float64 rounds to it as a float32. *)
Lemma between : forall v w, fits f32 v -> fits f32 w -> v < w -> exists u, fits f64 u /\ v * 2 ^ 925 < u < w * 2 ^ 925.
Proof.
  intros v w (m & k & M & K & ->) (n & l & N1 & L & ->) LT. cbn [prec f32] in *.
  assert (KP : 0 < 2 ^ k) by (apply pow2_pos; lia). assert (LP : 0 < 2 ^ l) by (apply pow2_pos; lia).
  assert (E : forall a, 0 <= a -> 2 ^ a * 2 ^ 925 = 2 * 2 ^ (a + 924)).
  { intros a A. rewrite <- Z.pow_add_r by lia. change 2 with (2 ^ 1) at 2. rewrite <- Z.pow_add_r by lia. f_equal. lia. }
  assert (H1 : 0 < 2 ^ (k + 924)) by (apply pow2_pos; lia). assert (H2 : 0 < 2 ^ (l + 924)) by (apply pow2_pos; lia).
  destruct (Z.le_gt_cases k l) as [KL|KL].
  - exists ((2 * m + 1) * 2 ^ (k + 924)). split; [exists (2 * m + 1), (k + 924); cbn [prec f64]; repeat split; lia|].
    assert (EL : 2 ^ l = 2 ^ (l - k) * 2 ^ k) by (rewrite <- Z.pow_add_r by lia; f_equal; lia). rewrite EL in LT.
    assert (m + 1 <= n * 2 ^ (l - k)) by nia. rewrite <- !Z.mul_assoc, !E by lia.
    replace (l + 924) with (l - k + (k + 924)) by lia. rewrite (Z.pow_add_r 2 (l - k)) by lia. set (p := 2 ^ (k + 924)) in *. set (q := 2 ^ (l - k)) in *. clearbody p q. split; [lia|].
    assert ((m + 1) * p <= n * q * p) by (apply Z.mul_le_mono_nonneg_r; lia). lia.
  - exists ((2 * n - 1) * 2 ^ (l + 924)). assert (1 <= n) by nia. split; [exists (2 * n - 1), (l + 924); cbn [prec f64]; repeat split; lia|].
    assert (EL : 2 ^ k = 2 ^ (k - l) * 2 ^ l) by (rewrite <- Z.pow_add_r by lia; f_equal; lia). rewrite EL in LT.
    assert (m * 2 ^ (k - l) + 1 <= n) by nia. rewrite <- !Z.mul_assoc, !E by lia.
    replace (k + 924) with (k - l + (l + 924)) by lia. rewrite (Z.pow_add_r 2 (k - l)) by lia. set (p := 2 ^ (l + 924)) in *. set (q := 2 ^ (k - l)) in *. clearbody p q. split; [|lia].
    assert ((m * q + 1) * p <= n * p) by (apply Z.mul_le_mono_nonneg_r; lia). lia.
Qed.

Lemma rounds_narrow : forall m x v, fits f32 v -> rounds f64 m x (v * 2 ^ 925) -> rounds f32 m x v.
Proof.
  unfold rounds. intros m x v F R. cbn [expo f32 f64] in *. set (q := 10 ^ Z.max (- x) 0) in *. assert (Q : 0 < q) by (apply p10; lia).
  rewrite (nearest_scale f32 _ _ (2 ^ 925)) by (apply pow2_pos; lia).
  replace (2 ^ 925 * (m * 10 ^ Z.max x 0 * 2 ^ 149)) with (m * 10 ^ Z.max x 0 * 2 ^ 1074) by (replace 1074 with (925 + 149) by lia; rewrite Z.pow_add_r by lia; ring).
  set (t := m * 10 ^ Z.max x 0 * 2 ^ 1074) in *. clearbody t. set (P := 2 ^ 925) in *. assert (PP : 0 < P) by (apply pow2_pos; lia).
  destruct R as [_ R]. split; auto. intros w W NE. replace (v * (P * q)) with (v * P * q) by ring. replace (w * (P * q)) with (w * P * q) by ring.
  destruct (Z.lt_ge_cases v w) as [LT|GE].
  - destruct (between v w F W LT) as (u & FU & U1 & U2). fold P in U1, U2. destruct (R u FU) as [H|[H _]]; [lia| |]; left; nia.
  - destruct (between w v W F ltac:(lia)) as (u & FU & U1 & U2). fold P in U1, U2. destruct (R u FU) as [H|[H _]]; [lia| |]; left; nia.
Qed.

Lemma C89_narrow_text_proof : forall b f, valid f32 f -> float_text f64 b (widen f) -> float_text f32 b f.
Proof.
  intros b [|neg|neg v] V T; auto. cbn [widen float_text] in *. destruct V as [F L]. destruct T as (t & m & x & -> & NT & R & _).
  exists t, m, x. split; auto. split; auto. split; auto. now apply rounds_narrow.
Qed.

Lemma C89_roundtrip_proof : forall v old, match v with Some l => Forall (valid f32) l | None => True end ->
  FloatArrayToFloat32Slice (Float8ArrayFromFloat32Slice v) old = Ok v.
Proof.
  intros [l|] old F; [|reflexivity]. destruct (C89_float8_of_float32_proof l F) as (bs & F2 & ->). destruct C88_read_proof as [[_ R] _].
  rewrite (R (map Some bs) (map Ok l)). now rewrite mapM_ok.
  revert bs F2. induction F as [|f l V F IH]; intros bs F2; inversion F2; subst; cbn [map]; constructor; auto.
  left. exists f. split; auto. now apply C89_narrow_text_proof.
Qed.

Lemma C89_float4_refuted_proof : exists b f old g, float_text f32 b f /\ valid f32 f
  /\ FloatArrayToFloat64Slice (Some (array_out [Some b])) old = Ok (Some [g]) /\ g <> widen f.
Proof.
  exists (B "0.1"), (Fin false (13421773 * 2 ^ 122)), None, (Fin false (3602879701896397 * 2 ^ 1019)). split; [|split; [|split]].
  - assert (E : AppendFloat f32 (Fin false (13421773 * 2 ^ 122)) = B "0.1") by (vm_compute; reflexivity). rewrite <- E. apply append_text; [apply ok32|].
    split; [|vm_compute; reflexivity]. exists 13421773, 122. cbn [prec f32]. lia.
  - split; [|vm_compute; reflexivity]. exists 13421773, 122. cbn [prec f32]. lia.
  - vm_compute. reflexivity.
  - vm_compute. discriminate.
Qed.

Lemma C89_float4_of_float64_proof : forall neg v, fits f64 v -> exists t m x w,
  AppendFloat f64 (Fin neg v) = sign neg ++ t /\ numeral t m x /\ rounds f64 m x v /\ rounds f32 m x w
  /\ (w < 2 ^ 277 -> float_text f32 (sign neg ++ t) (Fin neg w)) /\ (2 ^ 277 <= w -> too_large f32 (sign neg ++ t)).
Proof.
  intros neg v F. destruct (append_finite f64 neg v ok64 F) as (t & d & j & E & NT & R & D & _).
  assert (G : exists m x, numeral t m x /\ rounds f64 m x v).
  { destruct NT as [[J NT]|[J NT]]; [exists (d * 10 ^ j), 0|exists d, j]; split; auto. apply rounds_shift; auto. }
  destruct G as (m & x & NM & RM). exists t, m, x, (dec_round f32 m x). assert (R32 := dec_rounds f32 m x ok32 (numeral_nonneg _ _ _ NM)).
  split; auto. split; auto. split; auto. split; auto. split; intros L.
  - exists t, m, x. auto.
  - exists neg, t, m, x, (dec_round f32 m x). auto.
Qed.

(** Values of float64. *)
Definition validb (f : float) : bool :=
  match f with Fin _ v => (0 <=? v) && (round_to f64 v 1 =? v) && (v <? 2 ^ 2098) | _ => true end.

Lemma validb_iff : forall f, validb f = true <-> valid f64 f.
Proof.
  intros [|neg|neg v]; try (split; intros; exact Logic.I || reflexivity). cbn [validb valid]. change (over f64 + expo f64) with 2098.
  rewrite !andb_true_iff, Z.leb_le, Z.eqb_eq, Z.ltb_lt. split.
  - intros [[V E] L]. split; auto. rewrite <- E. apply round_fits; [apply ok64|auto|lia].
  - intros [F L]. split; auto. assert (V : 0 <= v). { destruct F as (m & k & M & K & ->). apply Z.mul_nonneg_nonneg; [lia|]. apply Z.pow_nonneg. lia. }
    split; auto. eapply (nearest_unique f64 v 1); [apply ok64|lia|apply round_nearest; [apply ok64|auto|lia]|].
    assert (G := nearest_exact f64 v 1 ltac:(lia) F). now rewrite Z.mul_1_r in G.
Qed.

Definition float64 : Type := { f : float | validb f = true }.

Lemma float64_eq : forall x y : float64, proj1_sig x = proj1_sig y -> x = y.
Proof. intros [x X] [y Y]. cbn [proj1_sig]. intros ->. f_equal. apply (UIP_dec bool_dec). Qed.

Definition as_float64 (f : float) : res float64 :=
  match bool_dec (validb f) true with left H => Ok (exist _ f H) | right _ => Err end.

(** AppendFloat and ParseFloat on the values of float64. *)
Definition go_floats : floats :=
  MkFloats float64 (fun f => AppendFloat f64 (proj1_sig f)) (fun b => bind (ParseFloat f64 b) as_float64).

Lemma as_float64_val : forall x : float64, as_float64 (proj1_sig x) = Ok x.
Proof. intros [f H]. unfold as_float64. cbn [proj1_sig]. destruct (bool_dec _ _) as [H2|]; [|congruence]. apply (f_equal Ok). now apply float64_eq. Qed.

Lemma C15_parse_float64_proof : forall b, fparse go_floats b = match ParseFloat f64 b with Ok f => as_float64 f | Err => Err | Panic => Panic end
  /\ (forall f, ParseFloat f64 b = Ok f -> valid f64 f).
Proof.
  intros b. split; [cbn [fparse go_floats]; now destruct (ParseFloat f64 b)|].
  assert (PA : forall neg t f, parse_abs f64 neg t = Ok f -> valid f64 f).
  { intros neg t f. unfold parse_abs. destruct (is_inf t); [now intros [= <-]|]. destruct (read_mant t false false 0 0) as [[[m frac] r]|] eqn:RM; [|discriminate].
    assert (M : 0 <= m).
    { assert (G : forall s dot saw a fr m fr2 r, 0 <= a -> read_mant s dot saw a fr = Some (m, fr2, r) -> 0 <= m).
      { induction s as [|c s IH]; intros dot saw a fr m0 fr2 r0 A H; cbn [read_mant] in H.
        - destruct saw; [injection H as <- _ _; auto|discriminate].
        - destruct (beq c "."). destruct dot; [destruct saw; [injection H as <- _ _; auto|discriminate]|eauto].
          destruct (dig c) as [d|] eqn:D; [|destruct saw; [injection H as <- _ _; auto|discriminate]].
          rewrite <- digit_dig in D. apply digit_range in D. eapply IH; [|exact H]. lia. }
      eapply G; [|exact RM]. lia. }
    destruct (exponent r) as [e|]; [|discriminate]. unfold finite. destruct (Z.ltb_spec (dec_round f64 m (e - frac)) (2 ^ (over f64 + expo f64))) as [L|]; [|discriminate].
    intros [= <-]. split; auto. apply (dec_rounds f64 m (e - frac) ok64 M). }
  intros f. unfold ParseFloat. destruct b as [|c r]; [discriminate|]. destruct (beq c "-"); [apply PA|]. destruct (beq c "+"); [apply PA|].
  destruct (is_nan _); [now intros [= <-]|apply PA].
Qed.

Lemma C15_float64_proof : floats_ok go_floats.
Proof.
  split.
  - intros x. cbn [ffmt fparse go_floats]. assert (V : valid f64 (proj1_sig x)) by (apply validb_iff, proj2_sig).
    rewrite (parse_text f64 _ (proj1_sig x) ok64 (append_text f64 _ ok64 V)). apply as_float64_val.
  - intros x. cbn [ffmt go_floats]. assert (V : valid f64 (proj1_sig x)) by (apply validb_iff, proj2_sig).
    destruct (text_fchar f64 _ _ (append_text f64 _ ok64 V)) as [N1 N2]. split; auto. apply Forall_forall. intros c I.
    rewrite forallb_forall in N2. now apply fchar_delims, N2.
Qed.

Lemma C15_coordinates_proof : forall b (x : F go_floats), float_text f64 b (proj1_sig x) -> coord b /\ fparse go_floats b = Ok x.
Proof.
  intros b x T. split.
  - destruct (text_fchar f64 _ _ T) as [N1 N2]. split; auto. apply Forall_forall. intros c I. rewrite forallb_forall in N2. now apply fchar_delims, N2.
  - cbn [fparse go_floats]. rewrite (parse_text f64 _ _ ok64 T). apply as_float64_val.
Qed.

Lemma C15_point_float64_proof : forall (x y : F go_floats) old, exists bx bhy,
  float_text f64 bx (proj1_sig x) /\ float_text f64 bhy (proj1_sig y)
  /\ PointFrom go_floats (x, y) = Some (point_out (bx, bhy)) /\ PointTo go_floats (PointFrom go_floats (x, y)) old = Ok (x, y).
Proof.
  intros x y old. exists (AppendFloat f64 (proj1_sig x)), (AppendFloat f64 (proj1_sig y)).
  split; [apply append_text; [apply ok64|apply validb_iff, proj2_sig]|]. split; [apply append_text; [apply ok64|apply validb_iff, proj2_sig]|].
  destruct (C15_point_proof go_floats (x, y) old C15_float64_proof) as (P1 & P2 & _). split; auto.
Qed.
