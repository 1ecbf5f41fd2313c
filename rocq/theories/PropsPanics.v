(** C103: on which source texts the scanners of package pgsql panic, whoever
    wrote the text.  Those of single values without delimiters never do; those
    that strip delimiters do exactly on texts of fewer than two bytes; a few
    index into elements. *)
From Coq Require Import Ascii String ZArith NArith Bool List Lia.
From Verif Require Import GoBase Strconv ConvertUtil Utf8 Codecs CharCodecs BitCodecs Hstore IntCodecs Floats IntFloats GeoCodecs MoneyCodecs Times TimeCodecs Net PgSpec ConvertProofs RestFinal.
From Verif Require Import PanicsFinal.
Import ListNotations.
Local Open Scope char_scope.

(** ** What is said of a scanner *)

(** ** Lemmas *)

(** ** Scanners that never panic *)
Theorem C103_total :
  never_panics VarBitToInt64 /\ never_panics VarBitToBoolSlice /\ never_panics VarBitToUint8Slice /\ never_panics TSVectorTo /\
  never_panics CharToByte /\ never_panics CharToRune /\ never_panics CIDRToIPNet /\ never_panics MACAddrToHardwareAddr /\
  (forall t, never_panics (Int2VectorTo t)) /\ (forall t, never_panics (Int2VectorToFloats t)).
Proof. exact C103_total_proof. Qed.
Print Assumptions C103_total.

(** hypotheses: none; a text that is no number is an error *)
Example C103_ex_total : VarBitToInt64 (Some (B "102")) 7 = Err /\ CIDRToIPNet (Some (B "1.2.3")) (MkNet None None) = Err /\
  Int2VectorTo TInt16 (Some (B "1 x")) None = Err.
Proof. repeat split; vm_compute; reflexivity. Qed.

(** ** Scanners that panic exactly on texts of fewer than two bytes *)
Theorem C103_short :
  (panics_when_short TextArrayToStringSlice /\ panics_when_short TextArrayToByteSliceSlice /\
   panics_when_short TSQueryArrayToStringSlice /\ panics_when_short TSQueryArrayToByteSliceSlice) /\
  (panics_when_short UUIDArrayToStringSlice /\ panics_when_short UUIDArrayToByteSliceSlice) /\
  (panics_when_short VarBitArrayToBoolSliceSlice /\ panics_when_short VarBitArrayToUint8SliceSlice /\
   panics_when_short VarBitArrayToStringSlice /\ panics_when_short VarBitArrayToInt64Slice) /\
  (forall c t, panics_when_short (IntArrayTo c t) /\ panics_when_short (IntRangeTo c t)) /\
  (forall c t, panics_when_short (IntArrayToFloats c t) /\ panics_when_short (IntRangeToFloats c t)) /\
  (panics_when_short FloatArrayToFloat32Slice /\ panics_when_short FloatArrayToFloat64Slice) /\
  (panics_when_short DateArrayToTimeSlice /\ panics_when_short TimeArrayToTimeSlice /\ panics_when_short TimetzArrayToTimeSlice /\
   panics_when_short DateRangeToTimeArray2) /\
  (panics_when_short CIDRArrayToIPNetSlice /\ panics_when_short InetArrayToIPNetSlice /\ panics_when_short InetArrayToIPSlice /\
   panics_when_short MACAddrArrayToHardwareAddrSlice).
Proof. exact C103_short_proof. Qed.
Print Assumptions C103_short.

Example C103_ex_short : IntArrayTo CInt4Arr TInt (Some (B "{")) None = Panic /\ IntArrayTo CInt4Arr TInt (Some (B "{,")) None = Ok (Some []) /\
  IntRangeTo CInt4Range TInt (Some []) (1, 2)%Z = Panic.
Proof. repeat split; vm_compute; reflexivity. Qed.

(** int2vector[]: the empty text is taken for an empty array. *)
Theorem C103_vector_array : forall t s old, Int2VectorArrayTo t s old = Panic <-> exists c, s = Some [c].
Proof. exact C103_vector_array_proof. Qed.
Print Assumptions C103_vector_array.

Example C103_ex_vector : Int2VectorArrayTo TInt16 (Some []) None = Ok (Some []) /\ Int2VectorArrayTo TInt16 (Some (B "x")) None = Panic.
Proof. split; vm_compute; reflexivity. Qed.

(** ** Geometric types *)

Theorem C103_geo : forall fl, (forall e, fparse fl e <> Panic) ->
  panics_when_short (PointTo fl) /\ panics_when_short (LineTo fl) /\ panics_when_short (PathTo fl) /\ panics_when_short (PolygonTo fl) /\
  panics_when_short (PathArrayTo fl) /\ panics_when_short (PolygonArrayTo fl).
Proof. exact C103_geo_proof. Qed.
Print Assumptions C103_geo.

Example C103_ex_geo : (forall e, fparse go_floats e <> Panic) /\ PointTo go_floats (Some (B "(1;2)")) (NaN, NaN) = Err.
Proof. split; [exact (C102_float_total_proof f64)|vm_compute; reflexivity]. Qed.

Theorem C103_lseg : forall fl s old, (forall e, fparse fl e <> Panic) -> LsegTo fl s old = Panic ->
  exists d, s = Some d /\ (List.length d < 2 \/ 3 <= count_occ ascii_dec d "(").
Proof. exact C103_lseg_proof. Qed.
Print Assumptions C103_lseg.

Theorem C103_geo_refuted : exists d1 d2 d3 d4 d5, Forall (fun d => 2 <= List.length d) [d1; d2; d3; d4; d5] /\
  LsegTo go_floats (Some d1) ((NaN, NaN), (NaN, NaN)) = Panic /\ BoxTo go_floats (Some d2) ((NaN, NaN), (NaN, NaN)) = Panic /\
  BoxArrayTo go_floats (Some d3) None = Panic /\ LineArrayTo go_floats (Some d4) None = Panic /\ PointArrayTo go_floats (Some d5) None = Panic.
Proof. exact C103_geo_refuted_proof. Qed.
Print Assumptions C103_geo_refuted.

(** ** Elements that are indexed *)

Theorem C103_bits : panics_on_empty BoolArrayToBoolSlice /\ panics_on_empty BitArrayToBoolSlice /\ panics_on_empty BitArrayToUintSlice.
Proof. exact C103_bits_proof. Qed.
Print Assumptions C103_bits.

Example C103_ex_bits : BoolArrayToBoolSlice (Some (B "{t,,f}")) None = Panic /\ element (Some (B "{t,,f}")) [] /\
  BoolArrayToBoolSlice (Some (B "{}")) None = Ok (Some []).
Proof.
  split; [vm_compute; reflexivity|]. split; [|vm_compute; reflexivity].
  exists "{", (B "t,"), (B ",f"), "}". split; [reflexivity|]. split; [discriminate|]. split; [intros []|]. split; right; [exists (B "t")|exists (B "f")]; reflexivity.
Qed.

(** Money: the currency symbol is stripped without a look. *)
Theorem C103_money : (forall s old, MoneyToInt64 s old = Panic <-> s = Some []) /\
  forall s old, MoneyArrayToInt64Slice s old = Panic -> short s \/ element s [].
Proof. exact C103_money_proof. Qed.
Print Assumptions C103_money.

Example C103_ex_money : MoneyToInt64 (Some []) 5 = Panic /\ MoneyToInt64 (Some (B "x")) 5 = Err /\ MoneyArrayToInt64Slice (Some (B "{$1.00,}")) None = Panic.
Proof. repeat split; vm_compute; reflexivity. Qed.

(** A timestamp array panics only if the text or an element has fewer than two bytes. *)
Theorem C103_stamps : forall l s old, stamp_scan l s old = Panic -> short s \/
  exists e, element s e /\ List.length e < 2 /\ e <> ["N"].
Proof. exact C103_stamps_proof. Qed.
Print Assumptions C103_stamps.

Example C103_ex_stamps : TimestampArrayToTimeSlice (Some (B "{x}")) None = Panic /\ TimestampArrayToTimeSlice (Some (B "{N}")) None = Ok (Some [zero_time]) /\ TimestampArrayToTimeSlice (Some (B "{xx}")) None = Err.
Proof. repeat split; vm_compute; reflexivity. Qed.

(** A range of timestamps panics only if the text or a bound has fewer than two bytes. *)
Theorem C103_stamp_range : forall l s old, stamprange_scan l s old = Panic -> short s \/
  exists o a b c, s = Some (o :: a ++ "," :: b ++ [c]) /\ (List.length a = 1 \/ List.length b = 1).
Proof. exact C103_stamp_range_proof. Qed.
Print Assumptions C103_stamp_range.

Example C103_ex_stamp_range : TsRangeToTimeArray2 (Some (B "[x,)")) (zero_time, zero_time) = Panic /\ TsRangeToTimeArray2 (Some (B "(,)")) (zero_time, zero_time) = Ok (zero_time, zero_time).
Proof. split; vm_compute; reflexivity. Qed.

(** ** uuid *)
(** A text of 36 bytes never makes the uuid scanner panic, whatever they are. *)
Theorem C103_uuid : forall d old, List.length d = 36 -> UUIDToByteArray16 (Some d) old <> Panic.
Proof. exact C103_uuid_proof. Qed.
Print Assumptions C103_uuid.

Theorem C103_uuid_refuted : exists d1 d2, UUIDToByteArray16 (Some d1) [] = Panic /\ UUIDToByteArray16 (Some d2) [] = Panic /\ List.length d1 < 36 < List.length d2.
Proof. exact C103_uuid_refuted_proof. Qed.
Print Assumptions C103_uuid_refuted.

(** ** hstore and char[] *)
(** A text without backslashes never makes the hstore scanners panic. *)
Theorem C103_hstore : forall val d old, ~ In bs d -> HStoreTo val (Some d) old <> Panic.
Proof. exact C103_hstore_proof. Qed.
Print Assumptions C103_hstore.

Theorem C103_hstore_refuted : exists d1 d2, HStoreToStringMap (Some d1) None = Panic /\ HStoreArrayToStringMapSlice (Some d2) None = Panic /\ 2 <= List.length d1 /\ 2 <= List.length d2.
Proof. exact C103_hstore_refuted_proof. Qed.
Print Assumptions C103_hstore_refuted.

Example C103_ex_hstore : ~ In bs (B """a""=>""b""") /\ HStoreToStringMap (Some (B """a""=>""b""")) None = Ok (Some [(B "a", Some (B "b"))]).
Proof. split; [cbn; intuition discriminate|vm_compute; reflexivity]. Qed.

(** A text of at least two bytes without quotation marks never makes the char[] scanners panic. *)
Theorem C103_char_array : forall d, 2 <= List.length d -> ~ In dq d ->
  (forall old, CharArrayToString (Some d) old <> Panic) /\ (forall old, CharArrayToByteSlice (Some d) old <> Panic).
Proof. exact C103_char_array_proof. Qed.
Print Assumptions C103_char_array.

Theorem C103_char_array_refuted : exists d, 2 <= List.length d /\ CharArrayToString (Some d) [] = Panic /\ CharArrayToRuneSlice (Some d) None = Panic.
Proof. exact C103_char_array_refuted_proof. Qed.
Print Assumptions C103_char_array_refuted.

Example C103_ex_char_array : 2 <= List.length (B "{a,b}") /\ ~ In dq (B "{a,b}").
Proof. split; [cbn; lia|cbn; intuition discriminate]. Qed.
