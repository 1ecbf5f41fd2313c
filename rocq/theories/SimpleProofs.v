(** bool[], bit[], uuid, uuid[], bytea[] and tsquery[]. *)
From Coq Require Import Ascii String ZArith NArith Bool List Lia.
From Verif Require Import GoBase Strconv StrconvProofs ConvertUtil ConvertProofs Codecs PgSpec PgSpecProofs TextProofs.
Import ListNotations.
Local Open Scope char_scope.

(** *** general lemmas *)
Lemma comma_array_commas : forall ts, ts <> [[]] -> Forall (nochar ",") ts ->
  pgParseCommaArray ("{" :: commas ts ++ ["}"]) = Ok ts.
Proof.
  intros [|t ts] N F. reflexivity.
  rewrite <- join_commas, <- write_sep_join by discriminate.
  apply comma_array_write; auto. discriminate.
Qed.

Lemma mapM_map : forall {A C D} (g : A -> C) (f : C -> res D) (h : A -> D) l,
  (forall x, In x l -> f (g x) = Ok (h x)) -> mapM f (map g l) = Ok (map h l).
Proof.
  induction l as [|x l IH]; intros H. reflexivity.
  simpl. rewrite H by (simpl; auto). cbn [bind]. rewrite IH. reflexivity. intros; apply H; simpl; auto.
Qed.

Lemma mapM_ext : forall {A C} (f g : A -> res C) l,
  (forall x, In x l -> f x = g x) -> mapM f l = mapM g l.
Proof.
  induction l as [|x l IH]; intros H. reflexivity. simpl. rewrite H by (simpl; auto). rewrite IH.
  reflexivity. intros; apply H; simpl; auto.
Qed.

Lemma mapM_app : forall {A C} (f : A -> res C) l1 l2,
  mapM f (l1 ++ l2) = bind (mapM f l1) (fun a => bind (mapM f l2) (fun b => Ok (a ++ b))).
Proof.
  induction l1 as [|x l1 IH]; intros; simpl.
  - destruct (mapM f l2); reflexivity.
  - destruct (f x); simpl; auto. rewrite IH. destruct (mapM f l1); simpl; auto.
    destruct (mapM f l2); reflexivity.
Qed.

(** The first non-[Ok] element decides. *)
Lemma mapM_stop : forall {A C} (f : A -> res C) l1 x l2,
  (forall y, In y l1 -> exists z, f y = Ok z) -> (forall z, f x <> Ok z) ->
  mapM f (l1 ++ x :: l2) = match f x with Err => Err | _ => Panic end.
Proof.
  intros A C f l1 x l2 H Hx. induction l1 as [|y l1 IH]; simpl.
  - destruct (f x) eqn:E; try reflexivity. exfalso; eapply Hx; reflexivity.
  - destruct (H y) as [z ->]. simpl; auto. cbn [bind]. rewrite IH by (intros; apply H; simpl; auto).
    destruct (f x); reflexivity.
Qed.

Lemma forall_map : forall {A C} (P : C -> Prop) (f : A -> C) l,
  (forall x, In x l -> P (f x)) -> Forall P (map f l).
Proof. intros. apply Forall_forall. intros y I. apply in_map_iff in I. destruct I as (x & <- & I). auto. Qed.

(** A canonical element: the server renders it exactly as the Valuer writes it. *)
Lemma arr_value_out : forall {A} (enc : A -> bytes) (txt : A -> option bytes) l,
  (forall x, In x l -> elem_out (txt x) = enc x) ->
  arr_value enc (Some l) = Some (array_out (map txt l)).
Proof.
  intros. rewrite arr_value_commas. unfold array_out. rewrite map_map.
  do 2 f_equal. f_equal. f_equal. apply map_ext_in. intros. symmetry; auto.
Qed.

(** *** bool[] and bit[] *)
Definition bool_text (b : bool) : bytes := [if b then "t" else "f"].
Definition bit_text (b : bool) : bytes := [if b then "1" else "0"].

Lemma bool_literal : forall l,
  BoolArrayFromBoolSlice (Some l) = Some (array_out (map (fun b => Some (bool_text b)) l)).
Proof. intros. apply arr_value_out. intros [|] _; reflexivity. Qed.

Lemma bit_literal : forall l,
  BitArrayFromBoolSlice (Some l) = Some (array_out (map (fun b => Some (bit_text b)) l)).
Proof. intros. apply arr_value_out. intros [|] _; reflexivity. Qed.

Lemma bit_uint_literal : forall l,
  BitArrayFromUintSlice (Some l) = Some (array_out (map (fun n => Some (bit_text (negb (N.eqb n 0)))) l)).
Proof. intros. apply arr_value_out. intros n _. destruct (N.eqb n 0); reflexivity. Qed.

Lemma array_out_comma : forall {A} (txt : A -> option bytes) l,
  (forall x, In x l -> nochar "," (elem_out (txt x)) /\ elem_out (txt x) <> []) ->
  pgParseCommaArray (array_out (map txt l)) = Ok (map elem_out (map txt l)).
Proof.
  intros A txt l H. apply comma_array_commas.
  - destruct l as [|x [|y l]]; try discriminate. simpl. intros E. injection E as E.
    destruct (H x) as [_ ?]; simpl; auto.
  - rewrite map_map. apply forall_map. intros x Hx. apply H, Hx.
Qed.

Definition opt_text {A} (f : A -> bytes) (o : option A) : option bytes := option_map f o.

Lemma bool_scan : forall l old,
  BoolArrayToBoolSlice (Some (array_out (map (opt_text bool_text) l))) old
  = Ok (Some (map (fun o => match o with Some b => b | None => false end) l)).
Proof.
  intros. unfold BoolArrayToBoolSlice, arr_scan, srcbytes.
  rewrite array_out_comma.
  - cbn [bind]. rewrite map_map. erewrite mapM_map; [reflexivity|].
    intros [[|]|] _; reflexivity.
  - intros [[|]|] _; (split; [intros I; simpl in I; intuition discriminate|discriminate]).
Qed.

Lemma bit_scan : forall l old,
  BitArrayToBoolSlice (Some (array_out (map (opt_text bit_text) l))) old
  = Ok (Some (map (fun o => match o with Some b => b | None => false end) l)).
Proof.
  intros. unfold BitArrayToBoolSlice, arr_scan, srcbytes.
  rewrite array_out_comma.
  - cbn [bind]. rewrite map_map. erewrite mapM_map; [reflexivity|].
    intros [[|]|] _; reflexivity.
  - intros [[|]|] _; (split; [intros I; simpl in I; intuition discriminate|discriminate]).
Qed.

Lemma bit_uint_scan : forall l old,
  BitArrayToUintSlice (Some (array_out (map (opt_text bit_text) l))) old
  = Ok (Some (map (fun o => match o with Some true => 1%N | _ => 0%N end) l)).
Proof.
  intros. unfold BitArrayToUintSlice, arr_scan, srcbytes.
  rewrite array_out_comma.
  - cbn [bind]. rewrite map_map. erewrite mapM_map; [reflexivity|].
    intros [[|]|] _; reflexivity.
  - intros [[|]|] _; (split; [intros I; simpl in I; intuition discriminate|discriminate]).
Qed.

Lemma map_opt_some : forall {A C} (f : A -> C) l, map (fun x => Some (f x)) l = map (option_map f) (map Some l).
Proof. intros. rewrite map_map. reflexivity. Qed.

Lemma bool_roundtrip : forall v old, BoolArrayToBoolSlice (BoolArrayFromBoolSlice v) old = Ok v.
Proof.
  intros [l|] old; [|reflexivity]. rewrite bool_literal, map_opt_some.
  change (option_map bool_text) with (opt_text bool_text). rewrite bool_scan, map_map, map_id. reflexivity.
Qed.

Lemma bit_roundtrip : forall v old, BitArrayToBoolSlice (BitArrayFromBoolSlice v) old = Ok v.
Proof.
  intros [l|] old; [|reflexivity]. rewrite bit_literal, map_opt_some.
  change (option_map bit_text) with (opt_text bit_text). rewrite bit_scan, map_map, map_id. reflexivity.
Qed.

(** For integers: every non-zero value comes back as 1. *)
Lemma bit_uint_roundtrip : forall v old,
  BitArrayToUintSlice (BitArrayFromUintSlice v) old
  = Ok (option_map (map (fun n => if N.eqb n 0 then 0%N else 1%N)) v).
Proof.
  intros [l|] old; [|reflexivity]. rewrite bit_uint_literal.
  replace (map (fun n => Some (bit_text (negb (N.eqb n 0)))) l)
    with (map (opt_text bit_text) (map (fun n => Some (negb (N.eqb n 0))) l)) by (rewrite map_map; reflexivity).
  rewrite bit_uint_scan, map_map. simpl. do 2 f_equal. apply map_ext. intros n. destruct (N.eqb n 0); reflexivity.
Qed.

(** *** hexadecimal text has no special characters *)
Definition dashhex (c : ascii) : bool := beq c "-" || hexchar c.

Lemma dashhex_plain : forall c, dashhex c = true -> pg_special c = false.
Proof. intros [[] [] [] [] [] [] [] []] H; first [reflexivity | discriminate H]. Qed.

Lemma hexchar_dash : forall c, hexchar c = true -> dashhex c = true.
Proof. intros. unfold dashhex. rewrite H. apply orb_true_r. Qed.

Lemma forall_hex : forall l, Forall (fun c => dashhex c = true) (hex_encode l).
Proof.
  intros. eapply Forall_impl; [|apply hex_encode_chars]. intros; now apply hexchar_dash.
Qed.

Lemma uuid_chars : forall v, Forall (fun c => dashhex c = true) (pgFormatUUID v).
Proof.
  intros. unfold pgFormatUUID. cbv zeta.
  repeat (apply Forall_app; split; [apply forall_hex | constructor; [reflexivity|]]). apply forall_hex.
Qed.

Lemma list16 : forall (v : bytes), List.length v = 16%nat ->
  exists a b c d e f g h i j k l m n o p, v = [a;b;c;d;e;f;g;h;i;j;k;l;m;n;o;p].
Proof.
  intros v H. do 16 (destruct v as [|? v]; [discriminate|]). destruct v; [|discriminate].
  do 16 eexists. reflexivity.
Qed.

Lemma uuid_length : forall v, List.length v = 16%nat -> List.length (pgFormatUUID v) = 36%nat.
Proof.
  intros v H. destruct (list16 v H) as (a&b&c&d&e&f&g&h&i&j&k&l&m&n&o&p&->). reflexivity.
Qed.

Lemma uuid_dashes : forall v, List.length v = 16%nat -> forall i, (i < 36)%nat ->
  nth i (pgFormatUUID v) " " = "-" <-> In i [8; 13; 18; 23]%nat.
Proof.
  intros v H i Hi. split.
  - intros E.
    assert (X : forall x y, hexchar (digit_char (N_of_ascii x / 16)) = true /\ hexchar (digit_char (N_of_ascii y mod 16)) = true).
    { intros. split; apply hexchar_digit.
      - pose proof (N_ascii_bounded x). apply N.div_lt_upper_bound; lia.
      - apply N.mod_lt; lia. }
    assert (X1 : forall x, digit_char (N_of_ascii x / 16) <> "-").
    { intros x C. destruct (X x x) as [Y _]. rewrite C in Y. discriminate. }
    assert (X2 : forall x, digit_char (N_of_ascii x mod 16) <> "-").
    { intros x C. destruct (X x x) as [_ Y]. rewrite C in Y. discriminate. }
    destruct (list16 v H) as (a&b&c&d&e&f&g&h&i'&j&k&l&m&n&o&p&->).
    do 36 (destruct i as [|i]; [first [simpl; tauto | exfalso; (eapply X1 + eapply X2); exact E]|]). lia.
  - intros I. destruct (list16 v H) as (a&b&c&d&e&f&g&h&i'&j&k&l&m&n&o&p&->).
    simpl in I. intuition (subst; reflexivity).
Qed.

Lemma subslice_app : forall x y z, subslice (x ++ y ++ z) (List.length x) (List.length x + List.length y) = Ok y.
Proof.
  intros. unfold subslice.
  rewrite (proj2 (Nat.leb_le _ _)) by lia. rewrite (proj2 (Nat.leb_le _ _)) by (rewrite !app_length; lia).
  cbn [andb]. rewrite skipn_length_app. replace (List.length x + List.length y - List.length x)%nat with (List.length y) by lia.
  rewrite firstn_app, Nat.sub_diag, firstn_all, firstn_O, app_nil_r. reflexivity.
Qed.

Lemma uuid_parse_format : forall v, List.length v = 16%nat -> pgParseUUID (pgFormatUUID v) = Ok v.
Proof.
  intros v H. destruct (list16 v H) as (a&b&c&d&e&f&g&h&i&j&k&l&m&n&o&p&->).
  change (pgFormatUUID [a;b;c;d;e;f;g;h;i;j;k;l;m;n;o;p]) with
    (hex_encode [a;b;c;d] ++ "-" :: hex_encode [e;f] ++ "-" :: hex_encode [g;h]
      ++ "-" :: hex_encode [i;j] ++ "-" :: hex_encode [k;l;m;n;o;p]).
  pose proof (hex_roundtrip [a;b;c;d]) as R0. pose proof (hex_roundtrip [e;f]) as R1.
  pose proof (hex_roundtrip [g;h]) as R2. pose proof (hex_roundtrip [i;j]) as R3.
  pose proof (hex_roundtrip [k;l;m;n;o;p]) as R4.
  unfold pgParseUUID.
  change (subslice (hex_encode [a;b;c;d] ++ "-" :: hex_encode [e;f] ++ "-" :: hex_encode [g;h]
      ++ "-" :: hex_encode [i;j] ++ "-" :: hex_encode [k;l;m;n;o;p]) 0 8) with (Ok (hex_encode [a;b;c;d])).
  cbn [bind]. rewrite R0. cbn [bind].
  change (subslice (hex_encode [a;b;c;d] ++ "-" :: hex_encode [e;f] ++ "-" :: hex_encode [g;h]
      ++ "-" :: hex_encode [i;j] ++ "-" :: hex_encode [k;l;m;n;o;p]) 9 13) with (Ok (hex_encode [e;f])).
  cbn [bind]. rewrite R1. cbn [bind].
  change (subslice (hex_encode [a;b;c;d] ++ "-" :: hex_encode [e;f] ++ "-" :: hex_encode [g;h]
      ++ "-" :: hex_encode [i;j] ++ "-" :: hex_encode [k;l;m;n;o;p]) 14 18) with (Ok (hex_encode [g;h])).
  cbn [bind]. rewrite R2. cbn [bind].
  change (subslice (hex_encode [a;b;c;d] ++ "-" :: hex_encode [e;f] ++ "-" :: hex_encode [g;h]
      ++ "-" :: hex_encode [i;j] ++ "-" :: hex_encode [k;l;m;n;o;p]) 19 23) with (Ok (hex_encode [i;j])).
  cbn [bind]. rewrite R3. cbn [bind].
  match goal with |- context [subslice ?X 24 ?Y] =>
    change (subslice X 24 Y) with (Ok (hex_encode [k;l;m;n;o;p])) end.
  cbn [bind].
  assert (hex_decode_into 6 (hex_encode [k;l;m;n;o;p]) = Ok [k;l;m;n;o;p]) as ->.
  { unfold hex_decode_into. rewrite hex_encode_length. change (Nat.ltb _ _) with true. cbv iota.
    rewrite R4. reflexivity. }
  reflexivity.
Qed.

Lemma elem_out_plain : forall e, needs_quotes e = false -> elem_out (Some e) = e.
Proof. intros e H. simpl. now rewrite H. Qed.

Lemma existsb_forall : forall {A} (f g : A -> bool) l,
  (forall x, g x = true -> f x = false) -> Forall (fun x => g x = true) l -> existsb f l = false.
Proof. induction 2; simpl; auto. now rewrite IHForall, H. Qed.

Lemma not_null_word : forall e, List.length e <> 4%nat -> is_null_word e = false.
Proof.
  intros e H. unfold is_null_word. destruct list_eq_dec as [E|]; auto.
  apply (f_equal (@List.length _)) in E. rewrite map_length in E. simpl in E. congruence.
Qed.

Lemma uuid_unquoted : forall v, List.length v = 16%nat -> needs_quotes (pgFormatUUID v) = false.
Proof.
  intros v H. pose proof (uuid_length v H) as L. pose proof (uuid_chars v) as C.
  unfold needs_quotes. destruct (pgFormatUUID v) eqn:E. discriminate.
  rewrite not_null_word by (rewrite L; discriminate).
  apply (existsb_forall pg_special dashhex); auto. apply dashhex_plain.
Qed.

Lemma uuid_array_literal : forall l, Forall (fun v => List.length v = 16%nat) l ->
  UUIDArrayFromByteArray16Slice (Some l) = Some (array_out (map (fun v => Some (pgFormatUUID v)) l)).
Proof.
  intros l F. apply arr_value_out. intros v I. apply elem_out_plain, uuid_unquoted.
  rewrite Forall_forall in F. auto.
Qed.

Lemma dashhex_nocomma : forall e, Forall (fun c => dashhex c = true) e -> nochar "," e.
Proof. intros. eapply forall_nochar; eauto. Qed.

Lemma uuid_array_roundtrip : forall v old,
  match v with Some l => Forall (fun u => List.length u = 16%nat) l | None => True end ->
  UUIDArrayToByteArray16Slice (UUIDArrayFromByteArray16Slice v) old = Ok v.
Proof.
  intros [l|] old F; [|reflexivity]. unfold UUIDArrayFromByteArray16Slice.
  rewrite arr_value_commas. unfold UUIDArrayToByteArray16Slice, arr_scan, srcbytes.
  rewrite Forall_forall in F.
  rewrite comma_array_commas.
  - cbn [bind]. erewrite mapM_map; [rewrite map_id; reflexivity|].
    intros. apply uuid_parse_format; auto.
  - destruct l as [|u [|w l]]; try discriminate. intros E. injection E as E.
    pose proof (uuid_length u) as L. simpl in F. rewrite E in L. discriminate L. auto.
  - apply forall_map. intros. apply dashhex_nocomma, uuid_chars.
Qed.

(** *** bytea[] *)
Lemma bytea_elem : forall e, bind (bytea_trim (enc_bytea e)) hex_decode = Ok e.
Proof.
  intros. unfold bytea_trim, enc_bytea.
  pose proof (subslice_app [dq; bs; bs; "x"] (hex_encode e) [dq]) as H.
  replace (List.length ([dq; bs; bs; "x"] ++ hex_encode e ++ [dq]) - 1)%nat
    with (List.length [dq; bs; bs; "x"] + List.length (hex_encode e))%nat.
  - change 4%nat with (List.length [dq; bs; bs; "x"]) at 1. rewrite H. cbn [bind]. apply hex_roundtrip.
  - rewrite !app_length. cbn [List.length]. lia.
Qed.

Lemma bytea_nocomma : forall e, nochar "," (enc_bytea e).
Proof.
  intros. unfold enc_bytea. apply nochar_app. split. { intros I. simpl in I. intuition discriminate. }
  apply nochar_app. split. apply dashhex_nocomma, forall_hex.
  intros I. simpl in I. intuition discriminate.
Qed.

Lemma bytea_roundtrip : forall v old, ByteaArrayTo (ByteaArrayFrom v) old = Ok v.
Proof.
  intros [l|] old; [|reflexivity]. unfold ByteaArrayFrom. rewrite arr_value_commas.
  unfold ByteaArrayTo, arr_scan, srcbytes. rewrite comma_array_commas.
  - cbn [bind]. erewrite mapM_map; [rewrite map_id; reflexivity|]. intros. apply bytea_elem.
  - destruct l as [|u [|w l]]; discriminate.
  - apply forall_map. intros. apply bytea_nocomma.
Qed.

(** byteaout in hex format *)
Definition bytea_text (e : bytes) : bytes := bs :: "x" :: hex_encode e.

Lemma bytea_elem_out : forall e, elem_out (Some (bytea_text e)) = enc_bytea e.
Proof.
  intros. unfold elem_out.
  assert (X : needs_quotes (bytea_text e) = true).
  { unfold needs_quotes, bytea_text. rewrite orb_true_iff. right. reflexivity. }
  rewrite X. unfold enc_bytea, bytea_text. cbn [app].
  unfold pg_escape. cbn [flat_map].
  assert (Y : forall s, Forall (fun c => dashhex c = true) s -> pg_escape s = s).
  { induction 1; auto. unfold pg_escape. cbn [flat_map]. fold (pg_escape l). rewrite IHForall.
    apply dashhex_plain, special_false in H. destruct in_dec as [i|_]; auto.
    simpl in i. intuition congruence. }
  fold (pg_escape (hex_encode e)). rewrite Y by apply forall_hex. reflexivity.
Qed.

Lemma bytea_literal : forall l,
  ByteaArrayFrom (Some l) = Some (array_out (map (fun e => Some (bytea_text e)) l)).
Proof. intros. apply arr_value_out. intros. apply bytea_elem_out. Qed.

(** A NULL element panics (unless an earlier element is malformed). *)
Lemma bytea_null_panics : forall l1 l2 old,
  ByteaArrayTo (Some (array_out (map (opt_text bytea_text) (map Some l1 ++ None :: l2)))) old = Panic.
Proof.
  intros. unfold ByteaArrayTo, arr_scan, srcbytes.
  rewrite array_out_comma.
  - cbn [bind]. rewrite map_map, map_app. cbn [map].
    rewrite mapM_stop. { reflexivity. }
    + intros y I. apply in_map_iff in I. destruct I as (o & <- & I). apply in_map_iff in I.
      destruct I as (e & <- & _). exists e. unfold opt_text. simpl option_map.
      rewrite bytea_elem_out. apply bytea_elem.
    + intros z H. discriminate.
  - intros [e|] _.
    + unfold opt_text. simpl option_map. rewrite bytea_elem_out. split. apply bytea_nocomma. discriminate.
    + split. intros I; simpl in I; intuition discriminate. discriminate.
Qed.

(** *** tsquery[] *)
Lemma esc_by_none : forall e, nochar dq e -> nochar bs e -> e = esc_by (fun c => beq c dq || beq c bs) e.
Proof.
  unfold esc_by. induction e as [|c e IH]; intros H1 H2; auto. apply nochar_cons in H1, H2.
  destruct H1 as [A1 A2], H2 as [B1 B2]. cbn [flat_map].
  rewrite (proj2 (beq_neq _ _) A1), (proj2 (beq_neq _ _) B1). cbn [orb app]. f_equal; auto.
Qed.

(** A quoted element without quotes and backslashes is read as it stands. *)
Lemma elem_reads_raw : forall e, nochar dq e -> nochar bs e -> elem_reads (dq :: e ++ [dq]) (Some e).
Proof.
  intros e H1 H2. rewrite (esc_by_none e) at 1 by auto. now apply elem_reads_quo.
Qed.

Lemma sa_raw : forall e rest, nochar dq e -> nochar bs e ->
  sa_loop (dq :: e ++ dq :: rest) 0 = Some e :: sa_loop rest 0.
Proof.
  intros e rest H1 H2.
  assert (E : e = esc_by (fun c => beq c dq || beq c bs) e).
  { clear rest. unfold esc_by. induction e as [|c e IH]; auto. apply nochar_cons in H1, H2.
    destruct H1 as [A1 A2], H2 as [B1 B2]. cbn [flat_map].
    rewrite (proj2 (beq_neq _ _) A1), (proj2 (beq_neq _ _) B1). cbn [orb app]. f_equal; auto. }
  rewrite E at 1. now rewrite sa_quote_by.
Qed.

Definition tsq_ok (o : option bytes) : Prop :=
  match o with Some e => nochar dq e /\ nochar bs e | None => True end.

Lemma sa_tsq : forall l, Forall tsq_ok l ->
  sa_loop (commas (map (fun o => match o with None => B "NULL" | Some e => dq :: e ++ [dq] end) l)) 0 = l.
Proof.
  induction l as [|o l IH]; intros F. reflexivity.
  inversion F as [|? ? H F']; subst.
  assert (X : forall rest, sep_start rest ->
     sa_loop ((match o with None => B "NULL" | Some e => dq :: e ++ [dq] end) ++ rest) 0 = o :: sa_loop rest 0).
  { intros rest S. destruct o as [e|]. destruct H. rewrite <- app_comm_cons, <- app_assoc. now apply sa_raw.
    reflexivity. }
  destruct l as [|o' l].
  - simpl map. simpl commas. rewrite <- (app_nil_r (match o with Some _ => _ | None => _ end)).
    rewrite X by now left. reflexivity.
  - cbn [map commas]. rewrite X by (right; eauto). f_equal. apply IH; auto.
Qed.

Lemma tsquery_bytes_roundtrip : forall l old, Forall tsq_ok l ->
  TSQueryArrayToByteSliceSlice (TSQueryArrayFromByteSliceSlice (Some l)) old
  = Ok (Some (map (fun o => let e := str_of o in if looks_null e then None else Some e) l)).
Proof.
  intros l old F. unfold TSQueryArrayFromByteSliceSlice. rewrite arr_value_commas.
  unfold TSQueryArrayToByteSliceSlice, arr_scan, srcbytes, pgParseStringArray.
  rewrite drop_ends_wrap. cbn [bind rmap]. unfold rmap. cbn [bind]. now rewrite sa_tsq.
Qed.

Lemma tsquery_strings_roundtrip : forall l old, Forall (fun e => nochar dq e /\ nochar bs e) l ->
  TSQueryArrayToStringSlice (TSQueryArrayFromStringSlice (Some l)) old = Ok (Some l).
Proof.
  intros l old F. unfold TSQueryArrayFromStringSlice. rewrite arr_value_commas.
  unfold TSQueryArrayToStringSlice, TextArrayToStringSlice, arr_scan, srcbytes, pgParseStringArray.
  rewrite drop_ends_wrap. cbn [bind rmap]. unfold rmap. cbn [bind].
  pose proof (sa_tsq (map Some l)) as H. rewrite map_map in H. cbv beta iota in H.
  do 2 f_equal. rewrite <- (map_str_of_some l) at 2. f_equal. apply H.
  apply forall_map. intros e I. rewrite Forall_forall in F. exact (F e I).
Qed.
