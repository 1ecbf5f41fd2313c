(** Definitions and proofs used by PropsRest.v. *)
From Coq Require Import Ascii String ZArith NArith Bool List Lia.
From Verif Require Import GoBase Strconv ConvertUtil Utf8 Codecs CharCodecs Docs Floats Times Oids Compat Check Config AParse TagSpec AParseProofs AnalysisProofs Analysis GenOut PgSpec PgSpecProofs ConvertProofs TextProofs SimpleProofs CharProofs DatesFinal GenRFinal StampsFinal.
Import ListNotations.
Local Open Scope char_scope.
Local Open Scope list_scope.

(** uuid_in reads thirty-two hexadecimal digits, with a hyphen allowed after each
    group of four, and braces around the whole; without the braces: *)
Definition hexdash (c : ascii) : Prop := In c (list_ascii_of_string "0123456789abcdefABCDEF-").

Definition uuid_text (e : text) : Prop := (32 <= List.length e)%nat /\ Forall hexdash e.

Lemma hexdash_plain : forall c, hexdash c -> pg_special c = false /\ c <> ",".
Proof. intros c H. cbn in H. repeat (destruct H as [<-|H]; [split; [reflexivity|discriminate]|]). contradiction. Qed.

Lemma uuid_reads : forall e, uuid_text e -> elem_reads e (Some e).
Proof.
  intros e (L & F). assert (N : e <> []) by (destruct e; [cbn in L; lia|discriminate]).
  assert (P : plain e). { unfold plain. eapply Forall_impl; [|exact F]. intros c H. now destruct (hexdash_plain c H). }
  pose proof (elem_reads_unq e N P) as H. rewrite not_null_word in H by lia. exact H.
Qed.

Lemma uuid_comma : forall e, uuid_text e -> nochar "," e.
Proof.
  intros e (L & F) I. rewrite Forall_forall in F. specialize (F _ I). now destruct (hexdash_plain _ F).
Qed.

Lemma uuid_strings_main : forall l, Forall uuid_text l ->
  exists d, UUIDArrayFromStringSlice (Some l) = Some d /\ array_in d = Some (map Some l) /\
    forall old, UUIDArrayToStringSlice (Some d) old = Ok (Some l).
Proof.
  intros l F. unfold UUIDArrayFromStringSlice. rewrite arr_value_commas. eexists. split; [reflexivity|]. rewrite map_id. split.
  - apply array_in_commas. clear - F. induction F; cbn; constructor; auto using uuid_reads.
  - intros old. unfold UUIDArrayToStringSlice, arr_scan, srcbytes. rewrite comma_array_commas; [reflexivity| |].
    + intros E. subst. inversion F as [|? ? (L & _) _]; subst. cbn in L. lia.
    + eapply Forall_impl; [|exact F]. apply uuid_comma.
Qed.

Lemma C102_uuid_strings_proof : forall l, Forall uuid_text l ->
  exists d, UUIDArrayFromStringSlice (Some l) = Some d /\ array_in d = Some (map Some l) /\
    forall old, UUIDArrayToStringSlice (Some d) old = Ok (Some l).
Proof. exact uuid_strings_main. Qed.

Definition uuid_or_null (o : option text) : Prop := match o with Some e => uuid_text e | None => True end.

Lemma uuid_bytes_main : forall l, Forall uuid_or_null l ->
  exists d, UUIDArrayFromByteSliceSlice (Some l) = Some d /\ array_in d = Some l /\
    forall old, UUIDArrayToByteSliceSlice (Some d) old = Ok (Some l).
Proof.
  intros l F. unfold UUIDArrayFromByteSliceSlice. rewrite arr_value_commas. eexists. split; [reflexivity|]. split.
  - apply array_in_commas. clear - F. induction F as [|[e|] l H F IH]; cbn [map]; constructor; auto; [now apply uuid_reads|apply elem_reads_null].
  - intros old. unfold UUIDArrayToByteSliceSlice, arr_scan, srcbytes. rewrite comma_array_commas.
    + cbn [rmap bind]. do 2 f_equal. clear - F. induction F as [|[e|] l H F IH]; cbn [map]; f_equal; auto.
      destruct H as (L & _). unfold looks_null. destruct e as [|c e]; [reflexivity|]. replace (Nat.eqb (List.length (c :: e)) 4) with false; [reflexivity|].
      symmetry. apply Nat.eqb_neq. lia.
    + destruct l as [|[e|] [|? ?]]; try discriminate. intros E. injection E as ->. inversion F as [|? ? H _]; subst. destruct H as (L & _). cbn in L. lia.
    + clear - F. induction F as [|[e|] l H F IH]; cbn [map]; constructor; auto; [now apply uuid_comma|]. intros I. cbn in I. intuition discriminate.
Qed.

Lemma C102_uuid_bytes_proof : forall l, Forall uuid_or_null l ->
  exists d, UUIDArrayFromByteSliceSlice (Some l) = Some d /\ array_in d = Some l /\
    forall old, UUIDArrayToByteSliceSlice (Some d) old = Ok (Some l).
Proof. exact uuid_bytes_main. Qed.

Lemma C102_uuid_nil_proof : UUIDArrayFromStringSlice None = None /\ UUIDArrayFromByteSliceSlice None = None /\
  (forall old, UUIDArrayToStringSlice None old = Ok None) /\ (forall old, UUIDArrayToByteSliceSlice None old = Ok None).
Proof. repeat split. Qed.

(** The server also takes a uuid in braces; in an array it must then be quoted. *)
Lemma uuid_braces_main : exists e d, UUIDArrayFromStringSlice (Some [e]) = Some d /\ array_in d = None /\
  e = B "{a0eebc99-9c0b-4ef8-bb6d-6bb9bd380a11}".
Proof. eexists. eexists. split; [reflexivity|]. split; [|reflexivity]. vm_compute. reflexivity. Qed.

Lemma C102_uuid_braces_refuted_proof : exists e d, UUIDArrayFromStringSlice (Some [e]) = Some d /\ array_in d = None /\
  e = B "{a0eebc99-9c0b-4ef8-bb6d-6bb9bd380a11}".
Proof. exact uuid_braces_main. Qed.

(** A byte below 128 is a character; the server rejects the others, which are no
    text in UTF-8. *)
Lemma char_byte_main : forall b old, exists d, CharFromByte b = Some d /\ CharToByte (Some d) old = Ok b /\
  ((code b < 128)%N -> d = encode_scalar (code b)) /\
  ((128 <= code b)%N -> forall l, d <> List.concat (map encode_scalar l)).
Proof.
  intros b old. exists [b]. split; [reflexivity|]. split; [reflexivity|]. split.
  - intros L. unfold encode_scalar. replace (code b <? 128)%N with true by (symmetry; now apply N.ltb_lt). f_equal. symmetry. apply ascii_N_embedding.
  - intros L l E. assert (G : forall n, encode_scalar n <> [] /\ (forall c, encode_scalar n = [c] -> (code c < 128)%N)).
    { intros n. unfold encode_scalar. destruct (N.ltb_spec n 128); [|destruct (n <? 2048)%N; [|destruct (n <? 65536)%N]]; (split; [discriminate|]); intros c H'; try discriminate.
      injection H' as <-. unfold code, chr. rewrite N_ascii_embedding by lia. exact H. }
    destruct l as [|n l]; [discriminate|]. cbn [map List.concat] in E. destruct (G n) as (G1 & G2).
    destruct (encode_scalar n) as [|c [|? ?]] eqn:En; [congruence| |discriminate]. injection E as -> E. specialize (G2 c eq_refl). lia.
Qed.

Lemma C102_char_byte_proof : forall b old, exists d, CharFromByte b = Some d /\ CharToByte (Some d) old = Ok b /\
  ((code b < 128)%N -> d = encode_scalar (code b)) /\
  ((128 <= code b)%N -> forall l, d <> List.concat (map encode_scalar l)).
Proof. exact char_byte_main. Qed.

(** A rune is written as itself, one that is no character as U+FFFD. *)
Lemma char_rune_main : forall r old, exists d, CharFromRune r = Some d /\
  (scalar (Z.to_N r) = true -> (0 <= r)%Z -> d = encode_scalar (Z.to_N r) /\ CharToRune (Some d) old = Ok r) /\
  (scalar (Z.to_N r) = false \/ (r < 0)%Z -> CharToRune (Some d) old = Ok 65533%Z).
Proof.
  assert (D : forall n old, scalar n = true -> CharToRune (Some (encode_scalar n)) old = Ok (Z.of_N n)).
  { intros n old H. pose proof (decode_encode n [] H) as E. rewrite app_nil_r in E. unfold CharToRune.
    destruct (encode_scalar n) as [|c t] eqn:En; [|now rewrite E].
    exfalso. revert En. unfold encode_scalar. destruct (n <? 128)%N; [discriminate|]. destruct (n <? 2048)%N; [discriminate|]. destruct (n <? 65536)%N; discriminate. }
  intros r old. exists (encode_rune r). split; [reflexivity|]. unfold encode_rune. split.
  - intros S0 P. rewrite scalar_valid, Z2N.id in S0 by exact P. rewrite S0. split; [reflexivity|]. rewrite D.
    + now rewrite Z2N.id.
    + now rewrite scalar_valid, Z2N.id.
  - intros H. assert (V : valid_rune r = false).
    { destruct H as [H|H].
      - destruct (Z_lt_le_dec r 0) as [N|P]; [|now rewrite scalar_valid, Z2N.id in H].
        unfold valid_rune. destruct r; try lia. reflexivity.
      - unfold valid_rune. destruct r; try lia. reflexivity. }
    rewrite V. apply (D 65533%N). reflexivity.
Qed.

Lemma C102_char_rune_proof : forall r old, exists d, CharFromRune r = Some d /\
  (scalar (Z.to_N r) = true -> (0 <= r)%Z -> d = encode_scalar (Z.to_N r) /\ CharToRune (Some d) old = Ok r) /\
  (scalar (Z.to_N r) = false \/ (r < 0)%Z -> CharToRune (Some d) old = Ok 65533%Z).
Proof. exact char_rune_main. Qed.

Lemma C102_bit_proof : forall b, BitFromBool b = Some (lit (if b then "1" else "0")).
Proof. intros []; reflexivity. Qed.

(** Whatever encoder and decoder are inverse to each other. *)
Lemma document_main : forall (V : Type) (marshal : V -> res bytes) (unmarshal : bytes -> V -> res V) x old,
  (forall x old b, marshal x = Ok b -> unmarshal b old = Ok x) -> (exists b, marshal x = Ok b) ->
  exists b, DocValue marshal (Some x) = Ok (Some b) /\ DocScan unmarshal (DBytes b) old = Ok x /\ DocValue marshal None = Ok None.
Proof. intros V m u x old H (b & E). exists b. unfold DocValue. rewrite E. split; [reflexivity|]. split; [|reflexivity]. cbn. now apply H. Qed.

Lemma C102_document_proof : forall (V : Type) (marshal : V -> res bytes) (unmarshal : bytes -> V -> res V) x old,
  (forall x old b, marshal x = Ok b -> unmarshal b old = Ok x) -> (exists b, marshal x = Ok b) ->
  exists b, DocValue marshal (Some x) = Ok (Some b) /\ DocScan unmarshal (DBytes b) old = Ok x /\ DocValue marshal None = Ok None.
Proof. exact document_main. Qed.

(** A driver that returns the column as a string gets no value and no error, and
    NULL leaves the value of the row before. *)
Lemma document_lost : forall (V : Type) (unmarshal : bytes -> V -> res V) old b,
  DocScan unmarshal (DString b) old = Ok old /\ DocScan unmarshal DNil old = Ok old /\ DocScan unmarshal DOther old = Ok old.
Proof. repeat split. Qed.

Lemma C102_document_string_refuted_proof : exists (V : Type) (marshal : V -> res bytes) (unmarshal : bytes -> V -> res V) x old b,
  (forall x old b, marshal x = Ok b -> unmarshal b old = Ok x) /\ marshal x = Ok b /\
  DocScan unmarshal (DString b) old = Ok old /\ DocScan unmarshal DNil old = Ok old /\ old <> x.
Proof.
  exists bytes, (fun x => Ok x), (fun b _ => Ok b), (B "{}"), (B "null"), (B "{}").
  split; [intros x old b H; now injection H as ->|]. repeat split. discriminate.
Qed.

Lemma C102_document_nil_refuted_proof : exists (V : Type) (marshal : option V -> res bytes),
  marshal None = Ok (B "null") /\ DocValue marshal (Some None) = Ok (Some (B "null")).
Proof. exists bool, (fun o => match o with None => Ok (B "null") | Some true => Ok (B "true") | Some false => Ok (B "false") end). split; reflexivity. Qed.

Lemma C102_any_proof : forall s old, AnyScan s old = Ok s.
Proof. reflexivity. Qed.

Lemma finite_total : forall ff neg x, finite ff neg x <> Panic.
Proof. intros ff neg x. unfold finite. repeat match goal with |- context [match ?e with _ => _ end] => destruct e end; discriminate. Qed.

Lemma float_main : forall ff s, ParseFloat ff s <> Panic.
Proof.
  assert (P : forall ff neg s, parse_abs ff neg s <> Panic).
  { intros ff neg s. unfold parse_abs. destruct (is_inf s); [discriminate|]. destruct (read_mant _ _ _ _ _) as [[[m fr] r]|]; [|discriminate].
    destruct (exponent r); [apply finite_total|discriminate]. }
  intros ff [|c r]; unfold ParseFloat; [discriminate|]. destruct (beq c "-"); [exact (P _ _ _)|]. destruct (beq c "+"); [exact (P _ _ _)|].
  destruct (is_nan (c :: r)); [discriminate|exact (P _ _ _)].
Qed.

Lemma C102_float_total_proof : forall ff s, ParseFloat ff s <> Panic.
Proof. exact float_main. Qed.

(** A count beyond the range of the field's type is reduced modulo its size, as
    Go's conversion does. *)
Lemma wrap_main : forall k lo hi n, int_range k = Some (lo, hi) -> (- 2 ^ 63 <= n < 2 ^ 63)%Z ->
  (lo <= conv_int k n <= hi)%Z /\ exists q, (conv_int k n = n + q * (hi - lo + 1))%Z.
Proof.
  assert (M : forall p z, (0 < p)%Z -> (0 <= z mod p <= p - 1)%Z /\ exists q, (z mod p = z + q * (p - 1 - 0 + 1))%Z).
  { intros p z P. pose proof (Z.mod_pos_bound z p P). split; [lia|]. exists (- (z / p))%Z. rewrite (Z.mod_eq z p) by lia. ring. }
  assert (W : forall h z, (0 < h)%Z -> let w := ((z + h) mod (2 * h) - h)%Z in (- h <= w <= h - 1)%Z /\ exists q, (w = z + q * (h - 1 - - h + 1))%Z).
  { intros h z P. cbv zeta. pose proof (Z.mod_pos_bound (z + h) (2 * h) ltac:(lia)). split; [lia|]. exists (- ((z + h) / (2 * h)))%Z.
    rewrite (Z.mod_eq (z + h) (2 * h)) by lia. ring. }
  intros k lo hi n R B. destruct k as [ |b| | | | | | | | ]; try discriminate. destruct b; try discriminate; injection R as <- <-; cbn [conv_int]; unfold wrapS.
  - change (- 2 ^ 63)%Z with (-9223372036854775808)%Z in B. change (2 ^ 63)%Z with 9223372036854775808%Z in B. split; [lia|]. exists 0%Z. lia.
  - exact (W 128%Z n ltac:(lia)).
  - exact (W 32768%Z n ltac:(lia)).
  - exact (W 2147483648%Z n ltac:(lia)).
  - change (- 2 ^ 63)%Z with (-9223372036854775808)%Z in B. change (2 ^ 63)%Z with 9223372036854775808%Z in B. split; [lia|]. exists 0%Z. lia.
  - exact (M 18446744073709551616%Z n ltac:(lia)).
  - exact (M 256%Z n ltac:(lia)).
  - exact (M 65536%Z n ltac:(lia)).
  - exact (M 4294967296%Z n ltac:(lia)).
  - exact (M 18446744073709551616%Z n ltac:(lia)).
Qed.

Lemma C102_counts_wrap_proof : forall k lo hi n, int_range k = Some (lo, hi) -> (- 2 ^ 63 <= n < 2 ^ 63)%Z ->
  (lo <= conv_int k n <= hi)%Z /\ exists q, (conv_int k n = n + q * (hi - lo + 1))%Z.
Proof. exact wrap_main. Qed.

Definition seconds (t : time) : Z := (Z.of_N (tm_hour t) * 3600 + Z.of_N (tm_min t) * 60 + Z.of_N (tm_sec t))%Z.

Definition on_day (t : time) (y : Z) (m d : N) : Prop := tm_year t = y /\ tm_month t = m /\ tm_day t = d.

Lemma first_day : forall y m d, (1 <= y)%Z -> (1 <= m <= 12)%N -> (1 <= d)%N ->
  (0 <= day_number y m d)%Z /\ (day_number y m d = 0 -> y = 1 /\ m = 1%N /\ d = 1%N)%Z.
Proof.
  intros y m d Y M D. unfold day_number.
  assert (A : ((y - 1) / 100 <= (y - 1) / 4)%Z) by (apply Z.div_le_compat_l; lia).
  assert (C : (0 <= (y - 1) / 400)%Z) by (apply Z.div_pos; lia).
  assert (E : (0 <= daysBefore m)%Z /\ (daysBefore m = 0 -> m = 1%N)%Z).
  { pose proof (months m M) as I. cbn in I. repeat (destruct I as [<-|I]; [cbn; split; [lia|intros; first [reflexivity|lia]]|]). contradiction. }
  assert (F : (0 <= if (2 <? m)%N && isLeap y then 1 else 0)%Z) by (destruct (_ && _); lia).
  set (a := ((y - 1) / 4)%Z) in *. set (b := ((y - 1) / 100)%Z) in *. set (c := ((y - 1) / 400)%Z) in *. set (e := daysBefore m) in *.
  set (f := (if (2 <? m)%N && isLeap y then 1 else 0)%Z) in *. split; [lia|]. intros H. split; [lia|]. split; [apply E; lia|lia].
Qed.

Lemma zero_main : forall t, valid_date t -> valid_clock t -> valid_off t ->
  (IsZero t = true <-> on_day t 1 1 1 /\ seconds t = tm_off t /\ tm_nsec t = 0%N).
Proof.
  intros t ((M & D) & Y) (H & Mi & Se & Ns) O. unfold valid_off in O. cbn in M, D.
  destruct (first_day (tm_year t) (tm_month t) (tm_day t)) as (P & Q); [lia|lia|lia|].
  unfold IsZero, on_day, seconds. rewrite andb_true_iff, Z.eqb_eq, N.eqb_eq. unfold instant. split.
  - intros (I & N0). assert (Z0 : (day_number (tm_year t) (tm_month t) (tm_day t) = 0)%Z) by lia. rewrite Z0 in I. specialize (Q Z0).
    split; [exact Q|]. split; [lia|exact N0].
  - intros ((A & B0 & C) & I & N0). split; [|exact N0]. rewrite A, B0, C. change (day_number 1 1 1) with 0%Z. lia.
Qed.

Lemma C102_zero_time_proof : forall t, valid_date t -> valid_clock t -> valid_off t ->
  (IsZero t = true <-> on_day t 1 1 1 /\ seconds t = tm_off t /\ tm_nsec t = 0%N).
Proof. exact zero_main. Qed.

(** Types with a length, for which char(1) and bit(1) are told apart. *)
Definition sized : list N := [oid_Bit; oid_BitArr; oid_BPChar; oid_BPCharArr; oid_Char; oid_CharArr].

(** The OIDs of hstore are not constants (postgres.go looks them up); any type is read into interface{}. *)
Definition elsewhere : list string :=
  ["AnyToEmptyInterface"; "HStoreFromStringMap"; "HStoreToStringMap"; "HStoreFromStringPtrMap"; "HStoreToStringPtrMap";
   "HStoreFromNullStringMap"; "HStoreToNullStringMap"; "HStoreArrayFromStringMapSlice"; "HStoreArrayToStringMapSlice";
   "HStoreArrayFromStringPtrMapSlice"; "HStoreArrayToStringPtrMapSlice"; "HStoreArrayFromNullStringMapSlice"; "HStoreArrayToNullStringMapSlice"]%string.

Definition never : list string := ["InetArrayToIPNetSlice"; "InetArrayToIPSlice"]%string.

Definition named_by (f : gofunc) (e : compentry) : bool :=
  (gf_valuer f && bytes_eqb (ce_valuer e) (gf_name f)) || (gf_scanner f && bytes_eqb (ce_scanner e) (gf_name f)).

Definition reached (f : gofunc) : bool :=
  existsb (fun r => existsb (fun x => named_by f (snd x) &&
    match compat (fst (fst r)) (snd (fst r)) (fst x) with Some e => named_by f e | None => false end &&
    (negb (snd (fst r)) || existsb (N.eqb (fst (fst r))) sized)) (snd r)) oid2literal.

Lemma reached_all : forallb (fun f => reached f || existsb (bytes_eqb (gf_name f)) (map B (elsewhere ++ never))) pgsql_funcs = true.
Proof. vm_compute. reflexivity. Qed.

Lemma reachable_main : forall f, In f pgsql_funcs -> ~ In (gf_name f) (map B (elsewhere ++ never)) ->
  exists o one lit e, compat o one lit = Some e /\ (one = true -> In o sized) /\
    (gf_valuer f = true /\ ce_valuer e = gf_name f \/ gf_scanner f = true /\ ce_scanner e = gf_name f).
Proof.
  intros f I N. pose proof reached_all as H. rewrite forallb_forall in H. specialize (H f I). apply orb_true_iff in H as [H|H].
  - unfold reached in H. apply existsb_exists in H as ([[o one] l] & _ & H). apply existsb_exists in H as ([lit0 e0] & _ & H). cbn [fst snd] in H.
    apply andb_true_iff in H as [H H3]. apply andb_true_iff in H as [_ H2]. destruct (compat o one lit0) as [e|] eqn:E; [|discriminate].
    exists o, one, lit0, e. split; [exact E|]. split.
    + intros ->. cbn [negb orb] in H3. apply existsb_exists in H3 as (x & J & H3). apply N.eqb_eq in H3. now subst.
    + unfold named_by in H2. apply orb_true_iff in H2 as [H2|H2]; apply andb_true_iff in H2 as [H2 H4]; apply bytes_eqb_eq in H4; auto.
  - exfalso. apply N. apply existsb_exists in H as (x & J & H). apply bytes_eqb_eq in H. now subst.
Qed.

Lemma C68_reachable_proof : forall f, In f pgsql_funcs -> ~ In (gf_name f) (map B (elsewhere ++ never)) ->
  exists o one lit e, compat o one lit = Some e /\ (one = true -> In o sized) /\
    (gf_valuer f = true /\ ce_valuer e = gf_name f \/ gf_scanner f = true /\ ce_scanner e = gf_name f).
Proof. exact reachable_main. Qed.

(** The scanners of inet[] are exported and in no row. *)
Lemma never_bad : forall n, In n (map B never) -> (exists f, In f pgsql_funcs /\ gf_name f = n /\ gf_scanner f = true) /\
  forall r x, In r oid2literal -> In x (snd r) -> ce_scanner (snd x) <> n.
Proof.
  assert (C : forallb (fun n => existsb (fun f => bytes_eqb (gf_name f) n && gf_scanner f) pgsql_funcs &&
    forallb (fun r => forallb (fun x => negb (bytes_eqb (ce_scanner (snd x)) n)) (snd r)) oid2literal) (map B never) = true) by (vm_compute; reflexivity).
  intros n I. rewrite forallb_forall in C. specialize (C n I). apply andb_true_iff in C as [C1 C2]. split.
  - apply existsb_exists in C1 as (f & J & H). apply andb_true_iff in H as [H1 H2]. apply bytes_eqb_eq in H1. eauto.
  - intros r x R X E. rewrite forallb_forall in C2. specialize (C2 r R). rewrite forallb_forall in C2. specialize (C2 x X). subst. rewrite bytes_eqb_refl in C2. discriminate.
Qed.

Lemma C68_unreachable_refuted_proof : forall n, In n (map B never) -> (exists f, In f pgsql_funcs /\ gf_name f = n /\ gf_scanner f = true) /\
  forall r x, In r oid2literal -> In x (snd r) -> ce_scanner (snd x) <> n.
Proof. exact never_bad. Qed.

(** is_name: a letter or underscore, then letters, digits and underscores. *)
Lemma tag_main : forall s, (valid_tag s = true <-> s = [] \/ is_name s).
Proof.
  intros [|c s]; unfold valid_tag; [split; auto|]. rewrite ident_match. split; [auto|]. intros [H|H]; [discriminate|exact H].
Qed.

Lemma C45_tag_proof : forall s, (valid_tag s = true <-> s = [] \/ is_name s).
Proof. exact tag_main. Qed.

Lemma C45_separator_proof : forall s, (valid_sep s = true <-> s = [] \/ exists c, s = [c]).
Proof.
  intros [|c [|d s]]; cbn; (split; [|reflexivity]) || split; eauto; try discriminate. intros [H|(x & H)]; discriminate.
Qed.

Definition ex_uuid : text := B "a0eebc99-9c0b-4ef8-bb6d-6bb9bd380a11".
