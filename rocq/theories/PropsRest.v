(** C102: the converters of uuid[], char, bit, json and xml that no other
    property mentions, the zero time and overflow of row counts.
    C45: the checks of the options for filter column keys. *)
From Coq Require Import Ascii String ZArith NArith Bool List Lia.
From Verif Require Import GoBase Strconv ConvertUtil Utf8 Codecs CharCodecs Docs Floats Times Oids Compat Check Config AParse TagSpec AParseProofs AnalysisProofs Analysis GenOut PgSpec PgSpecProofs ConvertProofs TextProofs SimpleProofs CharProofs DatesFinal GenRFinal StampsFinal.
From Verif Require Import RestFinal.
Import ListNotations.
Local Open Scope char_scope.
Local Open Scope list_scope.

(** ** uuid[] as text *)

Theorem C102_uuid_strings : forall l, Forall uuid_text l ->
  exists d, UUIDArrayFromStringSlice (Some l) = Some d /\ array_in d = Some (map Some l) /\
    forall old, UUIDArrayToStringSlice (Some d) old = Ok (Some l).
Proof. exact C102_uuid_strings_proof. Qed.
Print Assumptions C102_uuid_strings.

Theorem C102_uuid_bytes : forall l, Forall uuid_or_null l ->
  exists d, UUIDArrayFromByteSliceSlice (Some l) = Some d /\ array_in d = Some l /\
    forall old, UUIDArrayToByteSliceSlice (Some d) old = Ok (Some l).
Proof. exact C102_uuid_bytes_proof. Qed.
Print Assumptions C102_uuid_bytes.

Theorem C102_uuid_nil : UUIDArrayFromStringSlice None = None /\ UUIDArrayFromByteSliceSlice None = None /\
  (forall old, UUIDArrayToStringSlice None old = Ok None) /\ (forall old, UUIDArrayToByteSliceSlice None old = Ok None).
Proof. exact C102_uuid_nil_proof. Qed.
Print Assumptions C102_uuid_nil.

Theorem C102_uuid_braces_refuted : exists e d, UUIDArrayFromStringSlice (Some [e]) = Some d /\ array_in d = None /\
  e = B "{a0eebc99-9c0b-4ef8-bb6d-6bb9bd380a11}".
Proof. exact C102_uuid_braces_refuted_proof. Qed.
Print Assumptions C102_uuid_braces_refuted.

(** ** char *)

Theorem C102_char_byte : forall b old, exists d, CharFromByte b = Some d /\ CharToByte (Some d) old = Ok b /\
  ((code b < 128)%N -> d = encode_scalar (code b)) /\
  ((128 <= code b)%N -> forall l, d <> List.concat (map encode_scalar l)).
Proof. exact C102_char_byte_proof. Qed.
Print Assumptions C102_char_byte.

Theorem C102_char_rune : forall r old, exists d, CharFromRune r = Some d /\
  (scalar (Z.to_N r) = true -> (0 <= r)%Z -> d = encode_scalar (Z.to_N r) /\ CharToRune (Some d) old = Ok r) /\
  (scalar (Z.to_N r) = false \/ (r < 0)%Z -> CharToRune (Some d) old = Ok 65533%Z).
Proof. exact C102_char_rune_proof. Qed.
Print Assumptions C102_char_rune.

(** ** bit, json, xml, any *)
Theorem C102_bit : forall b, BitFromBool b = Some (lit (if b then "1" else "0")).
Proof. exact C102_bit_proof. Qed.
Print Assumptions C102_bit.

Theorem C102_document : forall (V : Type) (marshal : V -> res bytes) (unmarshal : bytes -> V -> res V) x old,
  (forall x old b, marshal x = Ok b -> unmarshal b old = Ok x) -> (exists b, marshal x = Ok b) ->
  exists b, DocValue marshal (Some x) = Ok (Some b) /\ DocScan unmarshal (DBytes b) old = Ok x /\ DocValue marshal None = Ok None.
Proof. exact C102_document_proof. Qed.
Print Assumptions C102_document.

Theorem C102_document_string_refuted : exists (V : Type) (marshal : V -> res bytes) (unmarshal : bytes -> V -> res V) x old b,
  (forall x old b, marshal x = Ok b -> unmarshal b old = Ok x) /\ marshal x = Ok b /\
  DocScan unmarshal (DString b) old = Ok old /\ DocScan unmarshal DNil old = Ok old /\ old <> x.
Proof. exact C102_document_string_refuted_proof. Qed.
Print Assumptions C102_document_string_refuted.

(** A nil pointer is a value to json.Marshal: the column becomes the JSON null. *)
Theorem C102_document_nil_refuted : exists (V : Type) (marshal : option V -> res bytes),
  marshal None = Ok (B "null") /\ DocValue marshal (Some None) = Ok (Some (B "null")).
Proof. exact C102_document_nil_refuted_proof. Qed.
Print Assumptions C102_document_nil_refuted.

(** interface{} takes what the driver returns, whatever it held before. *)
Theorem C102_any : forall s old, AnyScan s old = Ok s.
Proof. exact C102_any_proof. Qed.
Print Assumptions C102_any.

(** ** Floats *)

Theorem C102_float_total : forall ff s, ParseFloat ff s <> Panic.
Proof. exact C102_float_total_proof. Qed.
Print Assumptions C102_float_total.

(** ** Row counts *)

Theorem C102_counts_wrap : forall k lo hi n, int_range k = Some (lo, hi) -> (- 2 ^ 63 <= n < 2 ^ 63)%Z ->
  (lo <= conv_int k n <= hi)%Z /\ exists q, (conv_int k n = n + q * (hi - lo + 1))%Z.
Proof. exact C102_counts_wrap_proof. Qed.
Print Assumptions C102_counts_wrap.

(** ** The zero time *)

(** The zero time, which stands for a missing bound of a range, is midnight of
    January 1, year 1 in UTC, in whatever zone it is shown. *)
Theorem C102_zero_time : forall t, valid_date t -> valid_clock t -> valid_off t ->
  (IsZero t = true <-> on_day t 1 1 1 /\ seconds t = tm_off t /\ tm_nsec t = 0%N).
Proof. exact C102_zero_time_proof. Qed.
Print Assumptions C102_zero_time.

(** ** The table of conversions names the converters *)

Theorem C68_reachable : forall f, In f pgsql_funcs -> ~ In (gf_name f) (map B (elsewhere ++ never)) ->
  exists o one lit e, compat o one lit = Some e /\ (one = true -> In o sized) /\
    (gf_valuer f = true /\ ce_valuer e = gf_name f \/ gf_scanner f = true /\ ce_scanner e = gf_name f).
Proof. exact C68_reachable_proof. Qed.
Print Assumptions C68_reachable.

Theorem C68_unreachable_refuted : forall n, In n (map B never) -> (exists f, In f pgsql_funcs /\ gf_name f = n /\ gf_scanner f = true) /\
  forall r x, In r oid2literal -> In x (snd r) -> ce_scanner (snd x) <> n.
Proof. exact C68_unreachable_refuted_proof. Qed.
Print Assumptions C68_unreachable_refuted.

Example C68_ex_reachable : In (MkGF (B "Int8ArrayFromIntSlice") (B "[]int") true false) pgsql_funcs /\
  ~ In (B "Int8ArrayFromIntSlice") (map B (elsewhere ++ never)).
Proof.
  split.
  - assert (H : existsb (fun f => bytes_eqb (gf_name f) (B "Int8ArrayFromIntSlice") && bytes_eqb (gf_param f) (B "[]int") && gf_valuer f && negb (gf_scanner f)) pgsql_funcs = true) by (vm_compute; reflexivity).
    apply existsb_exists in H as ([n p v s] & I & H). cbn in H. repeat (apply andb_true_iff in H as [H ?]). apply bytes_eqb_eq in H. apply bytes_eqb_eq in H2. destruct v, s; try discriminate. now subst.
  - intros H. cbn in H. repeat (destruct H as [H|H]; [discriminate H|]). contradiction.
Qed.

(** ** Options *)

Theorem C45_tag : forall s, (valid_tag s = true <-> s = [] \/ is_name s).
Proof. exact C45_tag_proof. Qed.
Print Assumptions C45_tag.

Theorem C45_separator : forall s, (valid_sep s = true <-> s = [] \/ exists c, s = [c]).
Proof. exact C45_separator_proof. Qed.
Print Assumptions C45_separator.

(** ** Examples *)

Example C102_ex_uuid : Forall uuid_or_null [Some ex_uuid; None] /\
  UUIDArrayFromByteSliceSlice (Some [Some ex_uuid; None]) = Some (B "{a0eebc99-9c0b-4ef8-bb6d-6bb9bd380a11,NULL}").
Proof.
  split; [|reflexivity]. constructor; [|constructor; [exact Logic.I|constructor]].
  assert (C : forallb (fun c => if in_dec ascii_dec c (list_ascii_of_string "0123456789abcdefABCDEF-") then true else false) ex_uuid = true) by (vm_compute; reflexivity).
  split; [vm_compute; lia|]. apply Forall_forall. intros c I. rewrite forallb_forall in C. specialize (C c I). unfold hexdash. destruct (in_dec _ _ _); [assumption|discriminate].
Qed.

Example C102_ex_rune : scalar (Z.to_N 8364) = true /\ CharFromRune 8364 = Some (map chr [226; 130; 172]%N) /\ CharToRune (CharFromRune (-1)) 0 = Ok 65533%Z.
Proof. repeat split. Qed.

Example C102_ex_wrap : conv_int (KBasic BInt8) 200 = (-56)%Z /\ conv_int (KBasic BUint16) 65537 = 1%Z.
Proof. split; reflexivity. Qed.

Example C102_ex_zero : let t := MkTime 1 1 1 1 0 0 0 3600 in valid_date t /\ valid_clock t /\ valid_off t /\ IsZero t = true.
Proof. cbv zeta. unfold valid_date, valid_clock, valid_off. repeat match goal with |- _ /\ _ => split end; vm_compute; try reflexivity; repeat split; try discriminate; reflexivity. Qed.

Example C45_ex_tag : valid_tag (B "json") = true /\ valid_tag (B "1x") = false /\ valid_sep (B ".") = true /\ valid_sep (B "::") = false.
Proof. repeat split; vm_compute; reflexivity. Qed.
