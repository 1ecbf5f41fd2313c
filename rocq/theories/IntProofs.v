(** Integer arrays, vectors, ranges and range arrays. *)
From Coq Require Import Ascii String ZArith NArith Bool List Lia.
From Verif Require Import GoBase Strconv StrconvProofs ConvertUtil ConvertProofs Codecs IntCodecs
  PgSpec PgSpecProofs TextProofs SimpleProofs DecimalLink.
Import ListNotations.
Local Open Scope char_scope.

(** Evaluate powers of two with closed exponents, then [lia]. *)
Ltac powlia :=
  repeat match goal with
  | H : context [Z.pow 2 ?e] |- _ =>
      let v := eval vm_compute in (Z.pow 2 e) in
      match v with Zpos _ => change (Z.pow 2 e) with v in H end
  | |- context [Z.pow 2 ?e] =>
      let v := eval vm_compute in (Z.pow 2 e) in
      match v with Zpos _ => change (Z.pow 2 e) with v end
  end; lia.

(** The values of a Go integer type. *)
Definition in_type (t : ity) (z : Z) : bool :=
  if signed t then fits (width t) z else ((0 <=? z) && (z <? 2 ^ width t))%Z.

(** What the scanner's strconv call accepts. *)
Definition readable (c : icol) (t : ity) (z : Z) : bool :=
  if signed t then fits (Z.of_N (scan_bits c t)) z
  else ((0 <=? z) && (z <? 2 ^ Z.of_N (scan_bits c t)))%Z.

Lemma scan_elem_enc : forall c t z,
  scan_elem c t (enc_int z) = if readable c t z then Ok (narrow t z) else Err.
Proof.
  intros c t z. unfold scan_elem, readable, enc_int. destruct (signed t) eqn:S.
  - rewrite parse_int_format; try lia.
    + unfold fits. replace (Z.of_N (scan_bits c t) - 1)%Z with (Z.of_N (scan_bits c t - 1)).
      destruct (_ && _); reflexivity.
      destruct c, t; reflexivity.
    + destruct c, t; simpl; lia.
  - rewrite parse_uint_format_int. destruct (_ && _) eqn:E; [|reflexivity].
    unfold rmap, bind. rewrite Z2N.id. reflexivity.
    apply andb_prop in E. destruct E as [E _]. lia.
Qed.

Lemma scan_elem_null : forall c t, scan_elem c t (B "NULL") = Err.
Proof. intros. destruct c, t; reflexivity. Qed.

Lemma scan_elem_empty : forall c t, scan_elem c t [] = Err.
Proof. intros. destruct c, t; reflexivity. Qed.

(** The conversion to the Go type picks the representative modulo 2^width. *)
Lemma width_pos : forall t, (0 < width t)%Z.
Proof. destruct t; reflexivity. Qed.

Lemma narrow_in_type : forall t z, in_type t (narrow t z) = true.
Proof.
  intros t z. unfold in_type, narrow, fits, wraps, wrapu. pose proof (width_pos t).
  assert (0 < 2 ^ width t)%Z by (apply Z.pow_pos_nonneg; lia).
  assert (P : (2 ^ width t = 2 * 2 ^ (width t - 1))%Z).
  { rewrite <- Z.pow_succ_r by lia. f_equal. lia. }
  destruct (signed t); apply andb_true_intro; split.
  - pose proof (Z.mod_pos_bound (z + 2 ^ (width t - 1)) (2 ^ width t)). lia.
  - pose proof (Z.mod_pos_bound (z + 2 ^ (width t - 1)) (2 ^ width t)). lia.
  - pose proof (Z.mod_pos_bound z (2 ^ width t)). lia.
  - pose proof (Z.mod_pos_bound z (2 ^ width t)). lia.
Qed.

Lemma narrow_cong : forall t z, exists k, narrow t z = (z + k * 2 ^ width t)%Z.
Proof.
  intros t z. pose proof (width_pos t). assert (0 < 2 ^ width t)%Z by (apply Z.pow_pos_nonneg; lia).
  unfold narrow, wraps, wrapu. destruct (signed t).
  - exists (- ((z + 2 ^ (width t - 1)) / 2 ^ width t))%Z.
    pose proof (Z.div_mod (z + 2 ^ (width t - 1)) (2 ^ width t)). lia.
  - exists (- (z / 2 ^ width t))%Z. pose proof (Z.div_mod z (2 ^ width t)). lia.
Qed.

Lemma narrow_id : forall t z, in_type t z = true -> narrow t z = z.
Proof.
  intros t z. unfold in_type, narrow, fits, wraps, wrapu. pose proof (width_pos t).
  assert (0 < 2 ^ width t)%Z by (apply Z.pow_pos_nonneg; lia).
  assert (P : (2 ^ width t = 2 * 2 ^ (width t - 1))%Z).
  { rewrite <- Z.pow_succ_r by lia. f_equal. lia. }
  destruct (signed t); intros E; apply andb_prop in E; destruct E; rewrite Z.mod_small; lia.
Qed.

Lemma narrow_fix : forall t z, narrow t z = z <-> in_type t z = true.
Proof.
  intros. split. intros <-. apply narrow_in_type. apply narrow_id.
Qed.

(** Except for numeric the accepted values are values of the Go type. *)
Lemma readable_in_type : forall c t z, c <> CNumericArr -> readable c t z = true -> in_type t z = true.
Proof.
  intros c t z N. unfold readable, in_type, fits.
  destruct c, t; cbn [signed scan_bits width]; try congruence; intros H; apply andb_prop in H;
    destruct H as [H1 H2]; apply andb_true_intro; split; powlia.
Qed.

Lemma scan_elem_enc' : forall c t z, c <> CNumericArr ->
  scan_elem c t (enc_int z) = if readable c t z then Ok z else Err.
Proof.
  intros. rewrite scan_elem_enc. destruct (readable c t z) eqn:E; auto.
  rewrite narrow_id. reflexivity. eapply readable_in_type; eauto.
Qed.

(** *** integer text has no special characters *)
Lemma numchar_plain : forall c, numchar c = true -> pg_special c = false.
Proof. intros [[] [] [] [] [] [] [] []] H; first [reflexivity | discriminate H]. Qed.

Lemma enc_int_chars : forall z, Forall (fun c => numchar c = true) (enc_int z).
Proof. apply format_int_numchar. Qed.

Lemma enc_int_nonempty : forall z, enc_int z <> [].
Proof. apply format_int_nonempty. Qed.

Lemma enc_int_nochar : forall z c, numchar c = false -> nochar c (enc_int z).
Proof. intros. eapply forall_nochar; [apply enc_int_chars|]. assumption. Qed.

Lemma num_not_null : forall e, Forall (fun c => numchar c = true) e -> is_null_word e = false.
Proof.
  intros e F. unfold is_null_word. destruct list_eq_dec as [E|]; auto.
  destruct e as [|c e]. discriminate. apply Forall_inv in F. injection E as E _.
  exfalso. destruct c as [[] [] [] [] [] [] [] []]; first [discriminate F | discriminate E].
Qed.

Lemma enc_int_unquoted : forall z, needs_quotes (enc_int z) = false.
Proof.
  intros z. pose proof (enc_int_chars z) as F. pose proof (enc_int_nonempty z).
  unfold needs_quotes. destruct (enc_int z) eqn:E; [congruence|].
  rewrite num_not_null by auto. apply (existsb_forall pg_special numchar); auto. apply numchar_plain.
Qed.

Lemma enc_int_out : forall z, enc_int z = int_out z.
Proof. apply format_int_spec. Qed.

Lemma elem_out_int : forall z, elem_out (Some (int_out z)) = enc_int z.
Proof. intros. rewrite <- enc_int_out. apply elem_out_plain, enc_int_unquoted. Qed.

(** *** arrays *)
Definition int_array_text (l : list (option Z)) : bytes := array_out (map (option_map int_out) l).

Lemma int_array_literal : forall l, IntArrayFrom (Some l) = Some (int_array_text (map Some l)).
Proof.
  intros. unfold int_array_text. rewrite map_map. apply (arr_value_out enc_int (fun z => Some (int_out z))).
  intros. apply elem_out_int.
Qed.

(** The server reads the literal as the integers written, if they fit the column. *)
Lemma int_array_server : forall bits l, Forall (fun z => fits bits z = true) l ->
  exists d, IntArrayFrom (Some l) = Some d /\ array_of (pg_int bits) d = Some (map Some l).
Proof.
  intros bits l F. eexists. split. apply int_array_literal.
  unfold array_of, int_array_text. rewrite array_in_out, map_map. cbn [option_map].
  apply elems_in_some. intros z I. unfold pg_int. rewrite int_in_out.
  rewrite Forall_forall in F. now rewrite F.
Qed.

Definition scan_opt (c : icol) (t : ity) (o : option Z) : res Z :=
  match o with Some z => if readable c t z then Ok (narrow t z) else Err | None => Err end.

Lemma int_array_scan_gen : forall c t l old,
  IntArrayTo c t (Some (int_array_text l)) old = rmap Some (mapM (scan_opt c t) l).
Proof.
  intros. unfold IntArrayTo, arr_scan, srcbytes, int_array_text. rewrite array_out_comma.
  - cbn [bind]. do 1 f_equal.
    induction l as [|o l IH]; auto. cbn [map mapM]. rewrite IH. f_equal.
    destruct o as [z|]; cbn [option_map].
    rewrite elem_out_int. apply scan_elem_enc. apply scan_elem_null.
  - intros [z|] _; cbn [option_map].
    + rewrite elem_out_int. split. now apply enc_int_nochar. apply enc_int_nonempty.
    + split. intros I; simpl in I; intuition discriminate. discriminate.
Qed.

Lemma mapM_check : forall {A C} (ok : A -> bool) (g : A -> C) (f : A -> res C) l,
  (forall x, f x = if ok x then Ok (g x) else Err) ->
  mapM f l = if forallb ok l then Ok (map g l) else Err.
Proof.
  intros A C ok g f l H. induction l as [|x l IH]; auto.
  cbn [mapM forallb]. rewrite H. destruct (ok x); auto. cbn [bind andb]. rewrite IH.
  destruct (forallb ok l); reflexivity.
Qed.

Definition opt_ok (ok : Z -> bool) (o : option Z) : bool := match o with Some z => ok z | None => false end.
Definition opt_get (o : option Z) : Z := match o with Some z => z | None => 0%Z end.

Lemma int_array_scan : forall c t l old,
  IntArrayTo c t (Some (int_array_text l)) old
  = if forallb (opt_ok (readable c t)) l then Ok (Some (map (fun o => narrow t (opt_get o)) l)) else Err.
Proof.
  intros. rewrite int_array_scan_gen.
  rewrite (mapM_check (opt_ok (readable c t)) (fun o => narrow t (opt_get o))).
  - destruct (forallb _ l); reflexivity.
  - intros [z|]; reflexivity.
Qed.

(** Column widths. *)
Definition col_bits (c : icol) : Z :=
  match c with CInt2Arr => 16 | CInt4Arr => 32 | _ => 64 end.

Lemma readable_col : forall c t z, In c [CInt2Arr; CInt4Arr; CInt8Arr] ->
  (c = CInt8Arr -> t <> TUint) -> fits (col_bits c) z = true ->
  readable c t z = in_type t z.
Proof.
  intros c t z I N H. unfold fits in H. apply andb_prop in H. destruct H as [H1 H2].
  unfold readable, in_type, fits. apply eq_true_iff_eq.
  destruct c; simpl in I; try (exfalso; intuition discriminate); destruct t;
    try (exfalso; apply N; reflexivity); cbn [signed scan_bits width col_bits] in *; rewrite !andb_true_iff; powlia.
Qed.

Lemma forallb_ext_in : forall {A} (f g : A -> bool) l,
  (forall x, In x l -> f x = g x) -> forallb f l = forallb g l.
Proof.
  induction l as [|x l IH]; intros H; auto. simpl. rewrite H by (simpl; auto).
  rewrite IH. reflexivity. intros; apply H; simpl; auto.
Qed.

Lemma map_opt_get_id : forall t l, forallb (opt_ok (in_type t)) l = true ->
  map (fun o => narrow t (opt_get o)) l = map opt_get l.
Proof.
  intros t l H. apply map_ext_in. intros o I. rewrite forallb_forall in H. apply H in I.
  destruct o; [|discriminate]. now apply narrow_id.
Qed.

Lemma int_array_scan_col : forall c t l old, In c [CInt2Arr; CInt4Arr; CInt8Arr] ->
  (c = CInt8Arr -> t <> TUint) ->
  Forall (fun o => match o with Some z => fits (col_bits c) z = true | None => True end) l ->
  IntArrayTo c t (Some (int_array_text l)) old
  = if forallb (opt_ok (in_type t)) l then Ok (Some (map opt_get l)) else Err.
Proof.
  intros c t l old I N F. rewrite int_array_scan.
  rewrite (forallb_ext_in _ (opt_ok (in_type t))).
  - destruct (forallb _ l) eqn:E; auto. now rewrite map_opt_get_id.
  - intros o Io. rewrite Forall_forall in F. specialize (F o Io). destruct o as [z|]; auto.
    simpl. now apply readable_col.
Qed.

Lemma int_array_roundtrip : forall c t v old, In c [CInt2Arr; CInt4Arr; CInt8Arr] ->
  (c = CInt8Arr -> t <> TUint) ->
  match v with
  | Some l => Forall (fun z => in_type t z = true /\ fits (col_bits c) z = true) l
  | None => True
  end ->
  IntArrayTo c t (IntArrayFrom v) old = Ok v.
Proof.
  intros c t [l|] old I N F; [|reflexivity].
  rewrite int_array_literal, int_array_scan_col; auto.
  - assert (forallb (opt_ok (in_type t)) (map Some l) = true) as ->.
    { apply forallb_forall. intros o Io. apply in_map_iff in Io. destruct Io as (z & <- & Iz).
      rewrite Forall_forall in F. apply F, Iz. }
    rewrite map_map. cbn [opt_get]. now rewrite map_id.
  - apply forall_map. intros z Iz. rewrite Forall_forall in F. apply F, Iz.
Qed.

(** int8[] into []uint *)
Lemma int8_uint_scan : forall l old,
  IntArrayTo CInt8Arr TUint (Some (int_array_text l)) old
  = if forallb (opt_ok (fun z => (0 <=? z) && (z <? 2 ^ 32))%Z) l then Ok (Some (map opt_get l)) else Err.
Proof.
  intros. rewrite int_array_scan.
  change (readable CInt8Arr TUint) with (fun z => (0 <=? z) && (z <? 2 ^ 32))%Z.
  destruct (forallb _ l) eqn:E; auto. rewrite map_opt_get_id; auto.
  rewrite forallb_forall in *. intros o I. apply E in I. destruct o as [z|]; auto. cbn [opt_ok] in *.
  unfold in_type. cbn [signed width]. apply andb_prop in I. destruct I. apply andb_true_intro. split; powlia.
Qed.

(** numeric[] *)
Lemma numeric_scan : forall t l old,
  IntArrayTo CNumericArr t (Some (int_array_text l)) old
  = if forallb (opt_ok (fun z => if signed t then fits 64 z else ((0 <=? z) && (z <? 2 ^ 64))%Z)) l
    then Ok (Some (map (fun o => narrow t (opt_get o)) l)) else Err.
Proof. intros. rewrite int_array_scan. destruct t; reflexivity. Qed.

(** *** ranges *)
Lemma enc_range_out : forall lo hi, enc_range (lo, hi) = range_out (RBounds (Some lo) (Some hi)).
Proof. intros. unfold enc_range, range_out, opt_int_out. cbn [fst snd]. now rewrite !enc_int_out. Qed.

Lemma before_app : forall c x r, nochar c x -> before c (x ++ c :: r) = Some (x, r).
Proof.
  induction x as [|y x IH]; intros r H; cbn [app before].
  - destruct ascii_dec; [auto|congruence].
  - apply nochar_cons in H. destruct H as [H1 H2]. destruct ascii_dec; [congruence|]. now rewrite IH.
Qed.

Lemma range_in_enc : forall lo hi, range_in (enc_range (lo, hi)) = range_of_bounds lo hi.
Proof.
  intros. unfold enc_range. cbn [fst snd range_in].
  rewrite before_app by now apply enc_int_nochar.
  rewrite before_app by now apply enc_int_nochar.
  now rewrite !enc_int_out, !int_in_out.
Qed.

Definition bound_ok (c : icol) (t : ity) (o : option Z) : bool :=
  match o with Some z => readable c t z | None => true end.

Lemma opt_int_enc : forall o, opt_int_out o = match o with Some z => enc_int z | None => [] end.
Proof. intros [z|]; auto. symmetry. apply enc_int_out. Qed.

Lemma scan_bound_out : forall c t o, c <> CNumericArr ->
  scan_bound c t (Some (opt_int_out o)) = if bound_ok c t o then Ok (opt_get o) else Err.
Proof.
  intros c t [z|] N; simpl; auto. rewrite <- enc_int_out. pose proof (enc_int_nonempty z).
  pose proof (scan_elem_enc' c t z N). destruct (enc_int z); [congruence|]. auto.
Qed.

(** Whatever the brackets. *)
Lemma scan_range_text : forall c t o cl lo hi, c <> CNumericArr ->
  scan_range c t (o :: opt_int_out lo ++ "," :: opt_int_out hi ++ [cl])
  = if bound_ok c t lo && bound_ok c t hi then Ok (opt_get lo, opt_get hi) else Err.
Proof.
  intros c t o cl lo hi N. unfold scan_range. rewrite range_parse.
  - cbn [bind]. rewrite !scan_bound_out by auto.
    destruct (bound_ok c t lo), (bound_ok c t hi); reflexivity.
  - rewrite opt_int_enc. destruct lo. now apply enc_int_nochar. intros [].
Qed.

Definition bounds_ok (c : icol) (t : ity) (r : prange) : bool :=
  match r with REmpty => true | RBounds lo hi => bound_ok c t lo && bound_ok c t hi end.

(** The pair of bounds a range is read as. *)
Definition bounds_of (r : prange) : Z * Z :=
  match r with REmpty => (0, 0)%Z | RBounds lo hi => (opt_get lo, opt_get hi) end.

Lemma scan_range_out : forall c t r, c <> CNumericArr ->
  scan_range c t (range_out r) = if bounds_ok c t r then Ok (bounds_of r) else Err.
Proof.
  intros c t [|lo hi] N. reflexivity. unfold range_out, bounds_ok, bounds_of. now apply scan_range_text.
Qed.

Definition is_range (c : icol) : bool :=
  match c with CInt4Range | CInt8Range | CNumRange | CInt4RangeArr | CInt8RangeArr | CNumRangeArr => true | _ => false end.

Lemma is_range_not_numeric : forall c, is_range c = true -> c <> CNumericArr.
Proof. intros c H ->. discriminate. Qed.

Definition range_bits (c : icol) : Z := match c with CInt4Range | CInt4RangeArr => 32 | _ => 64 end.

Lemma readable_range : forall c t z, is_range c = true ->
  fits (range_bits c) z = true -> readable c t z = in_type t z.
Proof.
  intros c t z I H. unfold fits in H. apply andb_prop in H. destruct H as [H1 H2].
  unfold readable, in_type, fits. apply eq_true_iff_eq.
  destruct c; try discriminate; destruct t; cbn [signed scan_bits width range_bits] in *; rewrite !andb_true_iff; powlia.
Qed.

(** *** range arrays *)
Lemma range_text_nochar : forall r c, In c [dq; bs] -> nochar c (range_out r).
Proof.
  intros [|lo hi] c I.
  - simpl in I. intros J. simpl in J. intuition (subst; discriminate).
  - unfold range_out. rewrite !opt_int_enc.
    assert (numchar c = false) as Nc by (simpl in I; intuition (subst; reflexivity)).
    apply nochar_cons. split. { destruct lo; simpl in I; intuition (subst; discriminate). }
    apply nochar_app. split. { destruct lo. now apply enc_int_nochar. intros []. }
    apply nochar_cons. split. { simpl in I; intuition (subst; discriminate). }
    apply nochar_app. split. { destruct hi. now apply enc_int_nochar. intros []. }
    intros J. simpl in I, J. intuition (subst; discriminate).
Qed.

Lemma esc_none : forall e, nochar dq e -> nochar bs e -> pg_escape e = e.
Proof.
  unfold pg_escape. induction e as [|c e IH]; intros H1 H2; auto.
  apply nochar_cons in H1, H2. cbn [flat_map]. destruct in_dec as [i|_].
  - exfalso. simpl in i. destruct H1, H2. destruct i as [E|[E|[]]]; unfold dq, bs in *; congruence.
  - cbn [app]. f_equal. apply IH; tauto.
Qed.

Lemma range_elem_out : forall lo hi,
  elem_out (Some (range_out (RBounds lo hi))) = dq :: range_out (RBounds lo hi) ++ [dq].
Proof.
  intros. unfold elem_out.
  assert (needs_quotes (range_out (RBounds lo hi)) = true) as ->.
  { unfold needs_quotes, range_out. apply orb_true_iff. right.
    apply existsb_exists. exists ",". split; [|reflexivity]. right. apply in_or_app. right. now left. }
  rewrite esc_none. reflexivity. all: apply range_text_nochar; simpl; auto.
Qed.

Lemma empty_elem_out : elem_out (Some (range_out REmpty)) = lit "empty".
Proof. reflexivity. Qed.

Definition range_array_text (l : list (option prange)) : bytes := array_out (map (option_map range_out) l).

(** The elements the parser finds: empty ranges vanish. *)
Definition visible (l : list (option prange)) : list (option prange) :=
  filter (fun o => match o with Some REmpty => false | _ => true end) l.

Lemma qsa_sep : forall rest, sep_start rest -> qsa_loop (skipn 1 rest) 0 = qsa_loop rest 0.
Proof. intros rest [-> | [r ->]]; reflexivity. Qed.

Lemma qsa_range_elem : forall o rest, sep_start rest ->
  qsa_loop (elem_out (option_map range_out o) ++ rest) 0
  = map (option_map range_out) (visible [o]) ++ qsa_loop rest 0.
Proof.
  intros [[|lo hi]|] rest S; cbn [option_map].
  - reflexivity.
  - rewrite range_elem_out, <- app_comm_cons, <- app_assoc. cbn [app].
    rewrite qsa_elem by (apply range_text_nochar; simpl; auto). rewrite qsa_sep by auto. reflexivity.
  - transitivity (None :: qsa_loop (skipn 1 rest) 0).
    + destruct S as [-> | [r ->]]; reflexivity.
    + now rewrite qsa_sep.
Qed.

Lemma qsa_range_array : forall l,
  qsa_loop (commas (map elem_out (map (option_map range_out) l))) 0
  = map (option_map range_out) (visible l).
Proof.
  induction l as [|o l IH]; auto. destruct l as [|o' l].
  - simpl map. simpl commas. rewrite <- (app_nil_r (elem_out _)). rewrite qsa_range_elem by now left.
    cbn [qsa_loop]. now rewrite app_nil_r.
  - change (commas (map elem_out (map (option_map range_out) (o :: o' :: l))))
      with (elem_out (option_map range_out o) ++ "," :: commas (map elem_out (map (option_map range_out) (o' :: l)))).
    rewrite qsa_range_elem by (right; eauto).
    change (qsa_loop ("," :: commas (map elem_out (map (option_map range_out) (o' :: l)))) 0)
      with (qsa_loop (commas (map elem_out (map (option_map range_out) (o' :: l)))) 0).
    rewrite IH, <- map_app. f_equal.
    change (o :: o' :: l) with ([o] ++ (o' :: l)). unfold visible. now rewrite filter_app.
Qed.

Definition scan_range_elem (c : icol) (t : ity) (o : option prange) : res (Z * Z) :=
  match o with
  | None => Panic
  | Some r => if bounds_ok c t r then Ok (bounds_of r) else Err
  end.

Lemma range_array_scan_gen : forall c t l old, is_range c = true ->
  IntRangeArrayTo c t (Some (range_array_text l)) old
  = rmap Some (mapM (scan_range_elem c t) (visible l)).
Proof.
  intros c t l old I. apply is_range_not_numeric in I.
  unfold IntRangeArrayTo, srcbytes, range_array_text, pgParseQuotedStringArray, array_out.
  rewrite drop_ends_wrap. cbn [bind]. rewrite qsa_range_array. f_equal.
  induction (visible l) as [|o v IH]; auto. cbn [map mapM]. rewrite IH. f_equal.
  destruct o as [r|]; cbn [option_map]; auto. now apply scan_range_out.
Qed.

Lemma range_array_scan : forall c t (rs : list prange) old, is_range c = true ->
  forallb (bounds_ok c t) rs = true ->
  IntRangeArrayTo c t (Some (range_array_text (map Some rs))) old
  = Ok (Some (map bounds_of (filter (fun r => match r with REmpty => false | _ => true end) rs))).
Proof.
  intros c t rs old I H. rewrite range_array_scan_gen by auto.
  assert (mapM (scan_range_elem c t) (visible (map Some rs))
          = Ok (map bounds_of (filter (fun r => match r with REmpty => false | _ => true end) rs))) as ->; [|reflexivity].
  induction rs as [|r rs IH]; auto. simpl in H. apply andb_prop in H. destruct H as [H1 H2].
  specialize (IH H2). unfold visible in *. destruct r as [|lo hi]; cbn [map filter] in *; auto.
  cbn [mapM]. unfold scan_range_elem at 1. rewrite H1. cbn [bind]. rewrite IH. reflexivity.
Qed.

Lemma range_array_null_panics : forall c t (rs : list prange) l old, is_range c = true ->
  forallb (bounds_ok c t) rs = true ->
  IntRangeArrayTo c t (Some (range_array_text (map Some rs ++ None :: l))) old = Panic.
Proof.
  intros c t rs l old I H. rewrite range_array_scan_gen by auto.
  unfold visible. rewrite filter_app. cbn [filter]. rewrite mapM_stop. reflexivity.
  - intros o Io. apply filter_In in Io. destruct Io as [Io _]. apply in_map_iff in Io.
    destruct Io as (r & <- & Ir). rewrite forallb_forall in H. apply H in Ir.
    exists (bounds_of r). simpl. now rewrite Ir.
  - intros z E. discriminate.
Qed.

Lemma range_array_literal : forall l,
  IntRangeArrayFrom (Some l)
  = Some (range_array_text (map (fun p => Some (RBounds (Some (fst p)) (Some (snd p)))) l)).
Proof.
  intros. unfold range_array_text. rewrite map_map. apply arr_value_out.
  intros [lo hi] _. cbn [option_map fst snd]. rewrite range_elem_out. now rewrite enc_range_out.
Qed.

Lemma range_array_roundtrip : forall c t v old, is_range c = true ->
  match v with
  | Some l => Forall (fun p => readable c t (fst p) = true /\ readable c t (snd p) = true) l
  | None => v = old
  end ->
  IntRangeArrayTo c t (IntRangeArrayFrom v) old = Ok v.
Proof.
  intros c t [l|] old I F; [|subst; reflexivity].
  rewrite range_array_literal.
  replace (map (fun p => Some (RBounds (Some (fst p)) (Some (snd p)))) l)
    with (map Some (map (fun p => RBounds (Some (fst p)) (Some (snd p))) l)) by (rewrite map_map; reflexivity).
  rewrite range_array_scan; auto.
  - do 2 f_equal. induction l as [|[lo hi] l IH]; auto. inversion F; subst. cbn [map filter]. f_equal. auto.
  - apply forallb_forall. intros r Ir. apply in_map_iff in Ir. destruct Ir as (p & <- & Ip).
    rewrite Forall_forall in F. destruct (F p Ip) as [A C]. simpl. now rewrite A, C.
Qed.

(** *** int2vector *)
Lemma blanks_join : forall l, join [" "] l = blanks l.
Proof. induction l as [|x [|y l] IH]; auto. simpl in *. now rewrite IH. Qed.

Lemma int2vector_literal : forall l, Int2VectorFrom (Some l) = Some (vector_out l).
Proof.
  intros [|z l]; auto. unfold Int2VectorFrom, vector_out.
  rewrite <- (map_map enc_int (fun e => e ++ [" "])).
  rewrite concat_sep_join by discriminate. rewrite removelast_last, blanks_join.
  do 2 f_equal. apply map_ext. apply enc_int_out.
Qed.

Lemma map_int_out : forall l, map int_out l = map enc_int l.
Proof. intros. apply map_ext. intros; symmetry; apply enc_int_out. Qed.

Lemma parse_vector_out : forall l, pgParseVector (vector_out l) = map enc_int l.
Proof.
  intros [|z l]. reflexivity. unfold vector_out. rewrite map_int_out, <- blanks_join.
  apply vector_join. discriminate.
  - intros E. injection E as E _. now apply enc_int_nonempty in E.
  - apply forall_map. intros. now apply enc_int_nochar.
Qed.

Lemma int2vector_scan : forall t l old,
  Int2VectorTo t (Some (vector_out l)) old
  = if forallb (readable CInt2Vec t) l then Ok (Some l) else Err.
Proof.
  intros. unfold Int2VectorTo, arr_scan, srcbytes. rewrite parse_vector_out.
  rewrite <- (map_id l) at 3.
  assert (mapM (scan_elem CInt2Vec t) (map enc_int l) = if forallb (readable CInt2Vec t) l then Ok (map (fun z => z) l) else Err) as ->.
  { rewrite <- (mapM_check (readable CInt2Vec t) (fun z => z) (fun z => scan_elem CInt2Vec t (enc_int z))).
    - induction l as [|z l IH]; auto. cbn [map mapM]. now rewrite IH.
    - intros. apply scan_elem_enc'. discriminate. }
  destruct (forallb _ l); reflexivity.
Qed.

Lemma readable_vec : forall c t z, In c [CInt2Vec; CInt2VecArr] -> fits 16 z = true ->
  readable c t z = in_type t z.
Proof.
  intros c t z I H. unfold fits in H. apply andb_prop in H. destruct H as [H1 H2].
  unfold readable, in_type, fits. apply eq_true_iff_eq.
  destruct c; simpl in I; try (exfalso; intuition discriminate); destruct t; cbn [signed scan_bits width] in *; rewrite !andb_true_iff; powlia.
Qed.

Lemma vector_out_nochar : forall c, In c [dq; bs] -> forall l, nochar c (vector_out l).
Proof.
  intros c I l. unfold vector_out. assert (N : numchar c = false) by (simpl in I; intuition (subst; reflexivity)).
  assert (Hb : c <> " ") by (intros ->; simpl in I; intuition discriminate).
  induction l as [|z [|z' l] IH].
  - intros [].
  - simpl. rewrite <- enc_int_out. now apply enc_int_nochar.
  - change (nochar c (int_out z ++ " " :: blanks (map int_out (z' :: l)))). apply nochar_app. split.
    + rewrite <- enc_int_out. now apply enc_int_nochar.
    + apply nochar_cons. auto.
Qed.

(** *** int2vector[] *)
Definition vec_array_text (l : list (option (list Z))) : bytes := array_out (map (option_map vector_out) l).

Lemma enc_vec_out : forall l, l <> [] -> enc_vec l = dq :: vector_out l ++ [dq].
Proof.
  intros l N. unfold enc_vec, vector_out.
  rewrite <- (map_map enc_int (fun e => e ++ [" "])).
  rewrite concat_sep_join by (destruct l; simpl; congruence).
  rewrite app_comm_cons, removelast_last, blanks_join, map_int_out. reflexivity.
Qed.

Lemma va_skip : forall s k, va_loop s k = va_loop (skipn k s) 0.
Proof. induction s as [|c s IH]; intros [|k]; auto. simpl. apply IH. Qed.

Ltac somelia :=
  match goal with |- (?a, Some ?x) = (?a, Some ?y) =>
    replace x with y by (cbn [List.length app]; lia); reflexivity end.

Lemma va_quoted_elem : forall e cur n rest, nochar dq e -> nochar " " e ->
  va_quoted (e ++ dq :: rest) cur n = ([cur ++ e], Some (S (n + List.length e))).
Proof.
  induction e as [|c e IH]; intros cur n rest H1 H2; cbn [app va_quoted].
  - rewrite beq_refl, app_nil_r. cbn [List.length]; rewrite Nat.add_0_r; reflexivity.
  - apply nochar_cons in H1, H2. destruct H1 as [A1 A2], H2 as [B1 B2].
    apply beq_neq in A1, B1. rewrite A1, B1, IH by auto. rewrite <- app_assoc. cbn [app List.length]. somelia.
Qed.

Lemma va_quoted_step : forall e cur n r, nochar dq e -> nochar " " e ->
  va_quoted (e ++ " " :: r) cur n
  = let '(es, o) := va_quoted r [] (S (n + List.length e)) in ((cur ++ e) :: es, o).
Proof.
  induction e as [|c e IH]; intros cur n r H1 H2; cbn [app va_quoted].
  - change (beq " " dq) with false. cbv iota. rewrite beq_refl, app_nil_r, Nat.add_0_r. reflexivity.
  - apply nochar_cons in H1, H2. destruct H1 as [A1 A2], H2 as [B1 B2].
    apply beq_neq in A1, B1. rewrite A1, B1, IH by auto. rewrite <- app_assoc. cbn [app List.length].
    replace (S n + List.length e)%nat with (n + S (List.length e))%nat by lia. reflexivity.
Qed.

Lemma va_quoted_blanks : forall es n rest, es <> [] ->
  Forall (fun e => nochar dq e /\ nochar " " e) es ->
  va_quoted (blanks es ++ dq :: rest) [] n = (es, Some (S (n + List.length (blanks es)))).
Proof.
  induction es as [|e es IH]; intros n rest N F. congruence.
  inversion F as [|? ? [H1 H2] F']; subst. destruct es as [|e' es].
  - cbn [blanks]. now rewrite va_quoted_elem.
  - change (blanks (e :: e' :: es)) with (e ++ " " :: blanks (e' :: es)).
    rewrite <- app_assoc, <- app_comm_cons. rewrite va_quoted_step by auto.
    rewrite IH by (auto; discriminate). cbn [app]. cbv zeta beta iota. rewrite app_length. f_equal. f_equal. cbn [List.length]. lia.
Qed.

Lemma va_quoted_vec : forall l rest, l <> [] -> sep_start rest ->
  va_loop ((dq :: vector_out l ++ [dq]) ++ rest) 0
  = Some (map enc_int l) :: va_loop (skipn 1 rest) 0.
Proof.
  intros l rest N S. rewrite <- app_comm_cons, <- app_assoc. cbn [app va_loop].
  change (beq dq dq) with true. cbv iota. unfold vector_out. rewrite map_int_out.
  rewrite va_quoted_blanks.
  - f_equal. rewrite va_skip. cbn [plus].
    replace (Datatypes.S (Datatypes.S (List.length (blanks (map enc_int l)))))
      with (List.length (blanks (map enc_int l)) + 2)%nat by lia.
    rewrite skipn_app_plus. reflexivity.
  - destruct l; simpl; congruence.
  - apply forall_map. intros. split; now apply enc_int_nochar.
Qed.

(** The literal of the Valuer (all vectors quoted). *)
Lemma va_write : forall l, Forall (fun v => v <> []) l ->
  va_loop (commas (map enc_vec l)) 0 = map (fun v => Some (map enc_int v)) l.
Proof.
  induction l as [|v l IH]; intros F; auto. inversion F; subst.
  destruct l as [|v' l].
  - simpl map. simpl commas. rewrite <- (app_nil_r (enc_vec v)), enc_vec_out by auto.
    rewrite va_quoted_vec by (auto; now left). reflexivity.
  - change (commas (map enc_vec (v :: v' :: l))) with (enc_vec v ++ "," :: commas (map enc_vec (v' :: l))).
    rewrite enc_vec_out by auto. rewrite va_quoted_vec by (auto; right; eauto).
    change (skipn 1 ("," :: commas (map enc_vec (v' :: l)))) with (commas (map enc_vec (v' :: l))).
    rewrite IH by auto. reflexivity.
Qed.

Lemma scan_vec : forall t l, forallb (readable CInt2VecArr t) l = true ->
  mapM (scan_elem CInt2VecArr t) (map enc_int l) = Ok l.
Proof.
  intros t l H. transitivity (Ok (map (fun z : Z => z) l)); [|now rewrite map_id]. apply mapM_map. intros z I. rewrite forallb_forall in H.
  rewrite scan_elem_enc' by discriminate. now rewrite H.
Qed.

Lemma int2vectorarr_roundtrip : forall t l old,
  Forall (fun v => v <> [] /\ forallb (readable CInt2VecArr t) v = true) l ->
  Int2VectorArrayTo t (Int2VectorArrayFrom (Some (map Some l))) old = Ok (Some (map Some l)).
Proof.
  intros t l old F. unfold Int2VectorArrayFrom. rewrite arr_value_commas, map_map.
  unfold Int2VectorArrayTo, arr_scan, srcbytes, pgParseVectorArray.
  rewrite drop_ends_wrap. cbn [bind]. rewrite va_write.
  - rewrite (mapM_map _ _ (fun v => Some v)). reflexivity.
    intros v I. rewrite Forall_forall in F. destruct (F v I) as [_ R]. rewrite scan_vec by auto. reflexivity.
  - eapply Forall_impl; [|exact F]. intros a [A _]. exact A.
Qed.

(** Which server renderings of int2vector[] are read correctly: no empty
    vector, NULL only at the end, and a one-number vector only if it is not
    last or is a single digit. *)
Fixpoint vec_good (l : list (option (list Z))) : bool :=
  match l with
  | [] => true
  | [None] => true
  | None :: _ => false
  | Some [] :: _ => false
  | [Some [z]] => ((0 <=? z) && (z <=? 9))%Z
  | Some _ :: r => vec_good r
  end.

Lemma blanks_quoted : forall z1 z2 l, elem_out (Some (vector_out (z1 :: z2 :: l))) = dq :: vector_out (z1 :: z2 :: l) ++ [dq].
Proof.
  intros. unfold elem_out.
  assert (X : vector_out (z1 :: z2 :: l) = enc_int z1 ++ " " :: vector_out (z2 :: l)).
  { unfold vector_out. rewrite enc_int_out. reflexivity. }
  assert (needs_quotes (vector_out (z1 :: z2 :: l)) = true) as ->.
  { rewrite X. unfold needs_quotes. destruct (enc_int z1) eqn:E. reflexivity.
    apply orb_true_iff. right. apply existsb_exists. exists " ". split; [|reflexivity].
    apply in_or_app. right. now left. }
  assert (Y : forall c, In c [dq; bs] -> forall l, nochar c (vector_out l)).
  { intros c Ic. assert (numchar c = false /\ c <> " ") as [C1 C2].
    { simpl in Ic. destruct Ic as [<-|[<-|[]]]; split; try reflexivity; discriminate. }
    intros l'. unfold vector_out. rewrite map_int_out. induction l' as [|z [|z' l'] IH].
    - intros [].
    - simpl. now apply enc_int_nochar.
    - change (blanks (map enc_int (z :: z' :: l'))) with (enc_int z ++ " " :: blanks (map enc_int (z' :: l'))).
      apply nochar_app. split. now apply enc_int_nochar. apply nochar_cons. split; auto. }
  rewrite esc_none. reflexivity. all: apply Y; simpl; auto.
Qed.

Lemma single_out : forall z, elem_out (Some (vector_out [z])) = enc_int z.
Proof. intros. apply elem_out_int. Qed.

Lemma numchar_facts : forall c, numchar c = true -> beq c dq = false /\ beq c "N" = false /\ beq c "," = false.
Proof. intros [[] [] [] [] [] [] [] []] H; first [discriminate H | auto]. Qed.

Lemma va_unq : forall z r, va_loop (enc_int z ++ "," :: r) 0 = Some [enc_int z] :: va_loop r 0.
Proof.
  intros z r. pose proof (enc_int_nonempty z). pose proof (enc_int_chars z) as F.
  assert (NC : nochar "," (enc_int z)) by now apply enc_int_nochar.
  destruct (enc_int z) as [|c e] eqn:E; [congruence|].
  apply Forall_inv in F. apply numchar_facts in F. destruct F as (A1 & A2 & A3).
  pose proof (upto_app "," (c :: e) r NC) as U. cbn [app] in U.
  cbn [app va_loop]. rewrite A1, A2, U. f_equal.
  assert (Nat.ltb (List.length (c :: e)) (List.length (c :: e ++ "," :: r)) = true) as ->.
  { apply Nat.ltb_lt. cbn [List.length]. rewrite app_length. simpl. lia. }
  rewrite va_skip. change (List.length (c :: e)) with (S (List.length e)).
  replace (S (List.length e)) with (List.length e + 1)%nat by lia. rewrite skipn_app_plus. reflexivity.
Qed.

Lemma va_good : forall l, vec_good l = true ->
  va_loop (commas (map elem_out (map (option_map vector_out) l))) 0 = map (option_map (map enc_int)) l.
Proof.
  induction l as [|o l IH]; intros H; auto.
  destruct o as [[|z1 [|z2 v]]|].
  - destruct l; discriminate.
  - destruct l as [|o' l].
    + simpl in H. cbn [map option_map commas]. rewrite single_out.
      apply andb_prop in H. destruct H as [H1 H2].
      assert (C : In z1 [0;1;2;3;4;5;6;7;8;9]%Z) by (simpl; lia).
      simpl in C. repeat (destruct C as [<-|C]; [reflexivity|]). contradiction.
    + change (commas (map elem_out (map (option_map vector_out) (Some [z1] :: o' :: l))))
        with (elem_out (Some (vector_out [z1])) ++ "," :: commas (map elem_out (map (option_map vector_out) (o' :: l)))).
      rewrite single_out, va_unq. rewrite IH by exact H. reflexivity.
  - destruct l as [|o' l].
    + cbn [map option_map commas]. rewrite <- (app_nil_r (elem_out _)), blanks_quoted.
      rewrite va_quoted_vec by (try discriminate; now left). reflexivity.
    + change (commas (map elem_out (map (option_map vector_out) (Some (z1 :: z2 :: v) :: o' :: l))))
        with (elem_out (Some (vector_out (z1 :: z2 :: v))) ++ "," :: commas (map elem_out (map (option_map vector_out) (o' :: l)))).
      rewrite blanks_quoted. rewrite va_quoted_vec by (try discriminate; right; eauto).
      change (skipn 1 ("," :: ?x)) with x. cbn [skipn]. rewrite IH by exact H. reflexivity.
  - destruct l; [reflexivity|discriminate].
Qed.

Lemma int2vectorarr_scan : forall t l old, vec_good l = true ->
  forallb (fun o => match o with Some v => forallb (readable CInt2VecArr t) v | None => true end) l = true ->
  Int2VectorArrayTo t (Some (vec_array_text l)) old
  = Ok (Some (map (fun o => Some (match o with Some v => v | None => [] end)) l)).
Proof.
  intros t l old G R. unfold Int2VectorArrayTo, arr_scan, srcbytes, pgParseVectorArray, vec_array_text, array_out.
  rewrite drop_ends_wrap. cbn [bind]. rewrite va_good by auto.
  rewrite (mapM_map _ _ (fun o => Some (match o with Some v => v | None => [] end))). reflexivity.
  intros o I. rewrite forallb_forall in R. apply R in I. destruct o as [v|]; cbn [option_map]; auto.
  rewrite scan_vec by auto. reflexivity.
Qed.
