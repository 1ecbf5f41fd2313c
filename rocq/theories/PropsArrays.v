(** Properties C01-C12 and the int2vector part of C18: array, range and hstore
    codecs of package pgsql.

    The Valuer/Scanner functions are those of Codecs.v, IntCodecs.v and
    Hstore.v; the server's side ([array_in], [array_out], [range_in],
    [hstore_in], ...) is the specification PgSpec.v.  [old] is the content of
    the destination before Scan. *)
From Coq Require Import Ascii String ZArith NArith Bool List Lia Permutation.
From Verif Require Import GoBase Strconv ConvertUtil Codecs IntCodecs Hstore PgSpec.
From Verif Require Import ConvertProofs PgSpecProofs TextProofs SimpleProofs DecimalLink IntProofs HstoreProofs.
From Verif Require Import ArraysFinal.
Import ListNotations.
Local Open Scope char_scope.

(** ** C01 text[] *)
Theorem C01_text_roundtrip :
  (forall (v : slice bytes) old, TextArrayToStringSlice (TextArrayFromStringSlice v) old = Ok v) /\
  (forall (v : slice (option bytes)) old, TextArrayToByteSliceSlice (TextArrayFromByteSliceSlice v) old = Ok v).
Proof. exact C01_text_roundtrip_proof. Qed.
Print Assumptions C01_text_roundtrip.

Example C01_roundtrip_ex :
  TextArrayFromByteSliceSlice (Some [Some (B "a,b"); None; Some []; Some [dq; bs]; Some (B "NULL")])
  = Some (B "{" ++ [dq] ++ B "a,b" ++ [dq] ++ B ",NULL," ++ [dq; dq] ++ B "," ++ [dq; bs; dq; bs; bs; dq]
          ++ B "," ++ [dq] ++ B "NULL" ++ [dq] ++ B "}").
Proof. reflexivity. Qed.

(** nil is written as SQL NULL, a non-nil slice never is; and the server reads
    the literal as exactly the elements given (nil element = NULL). *)
Theorem C01_text_server_reads :
  (TextArrayFromStringSlice None = None /\ TextArrayFromByteSliceSlice None = None) /\
  (forall l, exists d, TextArrayFromStringSlice (Some l) = Some d /\ array_in d = Some (map Some l)) /\
  (forall l, exists d, TextArrayFromByteSliceSlice (Some l) = Some d /\ array_in d = Some l).
Proof. exact C01_text_server_reads_proof. Qed.
Print Assumptions C01_text_server_reads.

Example C01_server_ex :
  array_in (lit "{""a\,b"",NULL, x y ,""""}") = Some [Some (lit "a,b"); None; Some (lit "x y"); Some []].
Proof. reflexivity. Qed.

(** ** C02 the server's rendering *)

(** The literal the server renders is scanned into exactly the elements iff no
    element is unquoted and begins with NULL. *)
Theorem C02_text_server_rendered : forall l old old',
  (TextArrayToByteSliceSlice (Some (array_out l)) old = Ok (Some l) <-> ~ unquoted_NULL_prefix l) /\
  (TextArrayToStringSlice (Some (array_out l)) old'
     = Ok (Some (map (fun o => match o with Some e => e | None => [] end) l)) <-> ~ unquoted_NULL_prefix l).
Proof. exact C02_text_server_rendered_proof. Qed.
Print Assumptions C02_text_server_rendered.

Example C02_good_ex :
  ~ unquoted_NULL_prefix [Some (lit "plain"); None; Some (lit "NULL x"); Some (lit "nullable"); Some (lit "NULL")].
Proof. apply null_prefixed_iff. reflexivity. Qed.

(** The bug: NULLABLE becomes NULL and ABLE. *)
Theorem C02_text_prefix_refuted : exists l,
  TextArrayToByteSliceSlice (Some (array_out l)) None <> Ok (Some l).
Proof. exact C02_text_prefix_refuted_proof. Qed.
Print Assumptions C02_text_prefix_refuted.

Example C02_refuted_ex :
  TextArrayToByteSliceSlice (Some (array_out [Some (lit "NULLABLE")])) None
  = Ok (Some [None; Some (lit "ABLE")]).
Proof. reflexivity. Qed.

(** ** C03 integer arrays *)
(** The literal is the one the server itself would render, so it is read as
    the integers given when they fit the column; int2/int4/int8 have 16/32/64 bits. *)
Theorem C03_int_array_literal : forall l,
  IntArrayFrom (Some l) = Some (array_out (map (fun z => Some (int_out z)) l)) /\
  forall bits, Forall (fun z => fits bits z = true) l ->
    exists d, IntArrayFrom (Some l) = Some d /\ array_of (pg_int bits) d = Some (map Some l).
Proof. exact C03_int_array_literal_proof. Qed.
Print Assumptions C03_int_array_literal.

(** Scanning a column value (elements within the column's range, [None] = NULL
    element): the exact values if all elements are present and within the Go
    type's range, an error otherwise. *)
Theorem C03_int_array_scan : forall c t (l : list (option Z)) old,
  In c [CInt2Arr; CInt4Arr; CInt8Arr] -> (c = CInt8Arr -> t <> TUint) ->
  Forall (fun o => match o with Some z => fits (col_bits c) z = true | None => True end) l ->
  IntArrayTo c t (Some (array_out (map (option_map int_out) l))) old
  = if forallb (fun o => match o with Some z => in_type t z | None => false end) l
    then Ok (Some (map (fun o => match o with Some z => z | None => 0%Z end) l)) else Err.
Proof. exact C03_int_array_scan_proof. Qed.
Print Assumptions C03_int_array_scan.

Example C03_scan_ex :
  IntArrayTo CInt2Arr TInt8 (Some (B "{-128,127}")) None = Ok (Some [-128; 127]%Z) /\
  IntArrayTo CInt2Arr TInt8 (Some (B "{-128,128}")) None = Err /\
  IntArrayTo CInt4Arr TUint16 (Some (B "{65535}")) None = Ok (Some [65535]%Z) /\
  IntArrayTo CInt4Arr TUint16 (Some (B "{-1}")) None = Err /\
  IntArrayTo CInt8Arr TInt64 (Some (B "{-9223372036854775808,NULL}")) None = Err /\
  array_out (map (option_map int_out) [Some (-128)%Z; None]) = B "{-128,NULL}".
Proof. conjs; vm_compute; reflexivity. Qed.

Theorem C03_int_array_roundtrip : forall c t v old,
  In c [CInt2Arr; CInt4Arr; CInt8Arr] -> (c = CInt8Arr -> t <> TUint) ->
  match v with
  | Some l => Forall (fun z => in_type t z = true /\ fits (col_bits c) z = true) l
  | None => True
  end ->
  IntArrayTo c t (IntArrayFrom v) old = Ok v.
Proof. exact C03_int_array_roundtrip_proof. Qed.
Print Assumptions C03_int_array_roundtrip.

Example C03_roundtrip_ex :
  Forall (fun z => in_type TUint32 z = true /\ fits (col_bits CInt8Arr) z = true) [0; 4294967295]%Z.
Proof. repeat constructor. Qed.

(** ** C04 int8[] into []uint *)
Theorem C04_int8_uint : forall (l : list (option Z)) old,
  IntArrayTo CInt8Arr TUint (Some (array_out (map (option_map int_out) l))) old
  = if forallb (fun o => match o with Some z => (0 <=? z) && (z <? 2 ^ 32) | None => false end)%Z l
    then Ok (Some (map (fun o => match o with Some z => z | None => 0%Z end) l)) else Err.
Proof. exact C04_int8_uint_proof. Qed.
Print Assumptions C04_int8_uint.

(** Writing and reading back 2^32 fails although column and Go type hold it. *)
Theorem C04_int8_uint_refuted : exists z,
  in_type TUint z = true /\ fits 64 z = true /\ IntArrayTo CInt8Arr TUint (IntArrayFrom (Some [z])) None = Err.
Proof. exact C04_int8_uint_refuted_proof. Qed.
Print Assumptions C04_int8_uint_refuted.

(** ** C05 numeric[] into integer slices *)
Theorem C05_numeric : forall t (l : list (option Z)) old,
  IntArrayTo CNumericArr t (Some (array_out (map (option_map int_out) l))) old
  = if forallb (fun o => match o with
                         | Some z => if signed t then fits 64 z else ((0 <=? z) && (z <? 2 ^ 64))%Z
                         | None => false end) l
    then Ok (Some (map (fun o => narrow t (match o with Some z => z | None => 0%Z end)) l)) else Err.
Proof. exact C05_numeric_proof. Qed.
Print Assumptions C05_numeric.

(** [narrow] is reduction modulo 2^width into the Go type, so it is exact iff
    the value fits the type. *)
Theorem C05_narrow_is_reduction : forall t z,
  in_type t (narrow t z) = true /\
  (exists k, narrow t z = z + k * 2 ^ width t)%Z /\
  (narrow t z = z <-> in_type t z = true).
Proof. exact C05_narrow_is_reduction_proof. Qed.
Print Assumptions C05_narrow_is_reduction.

Example C05_numeric_ex :
  IntArrayTo CNumericArr TInt8 (Some (B "{128,255,256}")) None = Ok (Some [-128; -1; 0]%Z) /\
  IntArrayTo CNumericArr TUint16 (Some (B "{65537}")) None = Ok (Some [1]%Z).
Proof. split; vm_compute; reflexivity. Qed.

(** ** C06 integer ranges *)
(** The literal is [[lo,hi)]; the server rejects it if lo > hi, stores the
    empty range if lo = hi. *)
Theorem C06_range_literal : forall lo hi,
  exists d, IntRangeFrom (lo, hi) = Some d /\ d = range_out (RBounds (Some lo) (Some hi))
    /\ range_in d = range_of_bounds lo hi.
Proof. exact C06_range_literal_proof. Qed.
Print Assumptions C06_range_literal.

(** Scanning a server range: missing bounds and the empty range read as zeros,
    the kind of bracket is ignored, a bound outside the Go type is an error. *)
Theorem C06_range_scan : forall c t r old, is_range c = true ->
  Forall (fun z => fits (range_bits c) z = true)
    (match r with RBounds lo hi => match lo with Some z => [z] | None => [] end ++ match hi with Some z => [z] | None => [] end
                | REmpty => [] end) ->
  IntRangeTo c t (Some (range_out r)) old
  = match r with
    | REmpty => Ok (0, 0)%Z
    | RBounds lo hi =>
        if (match lo with Some z => in_type t z | None => true end
            && match hi with Some z => in_type t z | None => true end)%bool
        then Ok (match lo with Some z => z | None => 0%Z end, match hi with Some z => z | None => 0%Z end)
        else Err
    end.
Proof. exact C06_range_scan_proof. Qed.
Print Assumptions C06_range_scan.

Theorem C06_range_brackets_ignored : forall c t o1 c1 o2 c2 body old,
  IntRangeTo c t (Some (o1 :: body ++ [c1])) old = IntRangeTo c t (Some (o2 :: body ++ [c2])) old.
Proof. exact C06_range_brackets_ignored_proof. Qed.
Print Assumptions C06_range_brackets_ignored.

(** What comes back from the server after storing (lo,hi). *)
Theorem C06_range_store_fetch : forall c t lo hi old, is_range c = true ->
  in_type t lo = true -> in_type t hi = true ->
  fits (range_bits c) lo = true -> fits (range_bits c) hi = true ->
  forall d, IntRangeFrom (lo, hi) = Some d ->
  option_map (fun r => IntRangeTo c t (Some (range_out r)) old) (range_in d)
  = if (hi <? lo)%Z then None else Some (Ok (if (lo <? hi)%Z then (lo, hi) else (0, 0)%Z)).
Proof. exact C06_range_store_fetch_proof. Qed.
Print Assumptions C06_range_store_fetch.

Example C06_ex :
  IntRangeFrom (-5, 10)%Z = Some (B "[-5,10)") /\
  IntRangeTo CInt4Range TInt8 (Some (B "[-5,)")) (7, 7)%Z = Ok (-5, 0)%Z /\
  IntRangeTo CInt4Range TInt8 (Some (B "empty")) (7, 7)%Z = Ok (0, 0)%Z /\
  IntRangeTo CInt4Range TInt8 (Some (B "[-5,128)")) (7, 7)%Z = Err.
Proof. conjs; vm_compute; reflexivity. Qed.

(** ** C07 integer range arrays *)
Theorem C07_range_array_roundtrip : forall c t l old, is_range c = true ->
  Forall (fun p => in_type t (fst p) = true /\ in_type t (snd p) = true /\
                   fits (range_bits c) (fst p) = true /\ fits (range_bits c) (snd p) = true) l ->
  IntRangeArrayTo c t (IntRangeArrayFrom (Some l)) old = Ok (Some l).
Proof. exact C07_range_array_roundtrip_proof. Qed.
Print Assumptions C07_range_array_roundtrip.

Theorem C07_range_array_literal : forall l,
  IntRangeArrayFrom (Some l)
  = Some (array_out (map (fun p => Some (range_out (RBounds (Some (fst p)) (Some (snd p))))) l)).
Proof. exact C07_range_array_literal_proof. Qed.
Print Assumptions C07_range_array_literal.

(** A server array without NULL elements: the empty ranges are lost (the
    result is shorter), missing bounds read as zero. *)
Theorem C07_range_array_scan : forall c t (rs : list prange) old, is_range c = true ->
  Forall (bounds_in c t) rs ->
  IntRangeArrayTo c t (Some (array_out (map (fun r => Some (range_out r)) rs))) old
  = Ok (Some (map bounds_of (filter (fun r => match r with REmpty => false | _ => true end) rs))).
Proof. exact C07_range_array_scan_proof. Qed.
Print Assumptions C07_range_array_scan.

(** A NULL element after readable elements panics. *)
Theorem C07_range_array_null_panics : forall c t (rs : list prange) (l : list (option prange)) old,
  is_range c = true -> Forall (bounds_in c t) rs ->
  IntRangeArrayTo c t (Some (array_out (map (option_map range_out) (map Some rs ++ None :: l)))) old = Panic.
Proof. exact C07_range_array_null_panics_proof. Qed.
Print Assumptions C07_range_array_null_panics.

Example C07_ex :
  IntRangeArrayTo CInt4RangeArr TInt
    (Some (array_out [Some (lit "[1,2)"); Some (lit "empty"); Some (lit "(,3)")])) None = Ok (Some [(1, 2); (0, 3)]%Z) /\
  IntRangeArrayTo CInt4RangeArr TInt (Some (B "{NULL}")) None = Panic /\
  bounds_in CInt4RangeArr TInt (RBounds None (Some 3%Z)).
Proof. split; [vm_compute; reflexivity|]. split; [vm_compute; reflexivity|].
  intros z [H|H]; [discriminate|]. injection H as <-. split; reflexivity. Qed.

(** ** C08 hstore *)
(** The server reads the literal as exactly the pairs of the map, whatever the
    iteration order. *)
Theorem C08_hstore_server_reads : HStoreFrom None = None /\
  forall m : list (bytes * option bytes), exists d, HStoreFrom (Some m) = Some d /\ hstore_in d = Some m.
Proof. exact C08_hstore_server_reads_proof. Qed.
Print Assumptions C08_hstore_server_reads.

(** Scanning what the server renders for a map, and scanning the Valuer's own
    literal: every key and value comes back, in whatever order they are
    rendered. *)
Theorem C08_hstore_scan : forall (m order : list (bytes * option bytes)) old,
  NoDup (map fst m) -> Permutation m order ->
  forall s, s = Some (hstore_out order) \/ s = HStoreFrom (Some order) ->
  (exists m', HStoreToStringPtrMap s old = Ok (Some m') /\
     Permutation m' (map (fun p => (fst p, nullable_read (snd p))) m)) /\
  (exists m', HStoreToNullStringMap s old = Ok (Some m') /\
     Permutation m' (map (fun p => (fst p, nullable_read (snd p))) m)) /\
  (exists m', HStoreToStringMap s old = Ok (Some m') /\
     Permutation m' (map (fun p => (fst p, plain_read (snd p))) m)).
Proof. exact C08_hstore_scan_proof. Qed.
Print Assumptions C08_hstore_scan.

Example C08_ex :
  let m := [(B "k", Some (B "v""")); (B "e", Some []); (B "n", None)] in
  NoDup (map fst m) /\
  HStoreFrom (Some m) = Some (B """k""=>""v\"""",""e""=>"""",""n""=>NULL") /\
  HStoreToStringPtrMap (HStoreFrom (Some m)) None
    = Ok (Some [(B "k", Some (B "v""")); (B "e", None); (B "n", None)]) /\
  hstore_out m = lit """k""=>""v\"""", ""e""=>"""", ""n""=>NULL".
Proof.
  conjs; try (vm_compute; reflexivity).
  repeat constructor; simpl; intuition discriminate.
Qed.

(** ** C09 hstore[] *)
Theorem C09_hstorearr_server_reads : HStoreArrayFrom None = None /\
  forall l : list (option (list (bytes * option bytes))),
  exists d, HStoreArrayFrom (Some l) = Some d /\ array_of hstore_in d = Some l.
Proof. exact C09_hstorearr_server_reads_proof. Qed.
Print Assumptions C09_hstorearr_server_reads.

(** Scanning the server's rendering or the Valuer's own literal. *)
Theorem C09_hstorearr_scan : forall (l : list (option (list (bytes * option bytes)))) old s,
  Forall (fun o => match o with Some m => NoDup (map fst m) | None => True end) l ->
  s = Some (array_out (map (option_map hstore_out) l)) \/ s = HStoreArrayFrom (Some l) ->
  HStoreArrayToStringPtrMapSlice s old
    = Ok (Some (map (option_map (map (fun p => (fst p, nullable_read (snd p))))) l)) /\
  HStoreArrayToNullStringMapSlice s old
    = Ok (Some (map (option_map (map (fun p => (fst p, nullable_read (snd p))))) l)) /\
  HStoreArrayToStringMapSlice s old
    = Ok (Some (map (option_map (map (fun p => (fst p, plain_read (snd p))))) l)).
Proof. exact C09_hstorearr_scan_proof. Qed.
Print Assumptions C09_hstorearr_scan.

Example C09_ex :
  let l := [Some [(B "a", Some (B "1"))]; None; Some []; Some [(B "b", None); (B "q""", Some (B "\"))]] in
  HStoreArrayToStringPtrMapSlice (HStoreArrayFrom (Some l)) None = Ok (Some l) /\
  HStoreArrayFrom (Some l) = Some (B "{""\""a\""=>\""1\"""",NULL,"""",""\""b\""=>NULL,\""q\\\""\""=>\""\\\\\""""}").
Proof. split; vm_compute; reflexivity. Qed.

(** ** C10 bytea[] *)
Theorem C10_bytea_roundtrip : forall (v : slice bytes) old, ByteaArrayTo (ByteaArrayFrom v) old = Ok v.
Proof. exact C10_bytea_roundtrip_proof. Qed.
Print Assumptions C10_bytea_roundtrip.

(** The literal is the server's own rendering (hex format, doubled backslash),
    and is read by it as the hex texts of the elements. *)
Theorem C10_bytea_literal : forall l,
  exists d, ByteaArrayFrom (Some l) = Some d /\
    d = array_out (map (fun e => Some (lit "\x" ++ hex_encode e)) l) /\
    array_in d = Some (map (fun e => Some (lit "\x" ++ hex_encode e)) l).
Proof. exact C10_bytea_literal_proof. Qed.
Print Assumptions C10_bytea_literal.

Theorem C10_bytea_null_panics : forall (l1 : list bytes) (l2 : list (option bytes)) old,
  ByteaArrayTo (Some (array_out (map (option_map (fun e => lit "\x" ++ hex_encode e)) (map Some l1 ++ None :: l2)))) old
  = Panic.
Proof. exact C10_bytea_null_panics_proof. Qed.
Print Assumptions C10_bytea_null_panics.

Example C10_ex :
  ByteaArrayFrom (Some [B "az"; []]) = Some (B "{""\\x617a"",""\\x""}") /\
  ByteaArrayTo (Some (B "{NULL}")) None = Panic.
Proof. split; vm_compute; reflexivity. Qed.

(** ** C11 uuid *)
Theorem C11_uuid_roundtrip : forall v old, List.length v = 16%nat ->
  UUIDToByteArray16 (UUIDFromByteArray16 v) old = Ok v.
Proof. exact C11_uuid_roundtrip_proof. Qed.
Print Assumptions C11_uuid_roundtrip.

Theorem C11_uuid_shape : forall v, List.length v = 16%nat ->
  exists d, UUIDFromByteArray16 v = Some d /\ List.length d = 36%nat /\
  forall i, (i < 36)%nat -> (nth i d " " = "-" <-> In i [8; 13; 18; 23]%nat).
Proof. exact C11_uuid_shape_proof. Qed.
Print Assumptions C11_uuid_shape.

Theorem C11_uuid_array_roundtrip : forall v old,
  match v with Some l => Forall (fun u => List.length u = 16%nat) l | None => True end ->
  UUIDArrayToByteArray16Slice (UUIDArrayFromByteArray16Slice v) old = Ok v.
Proof. exact C11_uuid_array_roundtrip_proof. Qed.
Print Assumptions C11_uuid_array_roundtrip.

(** The array literal is the server's own rendering. *)
Theorem C11_uuid_array_literal : forall l, Forall (fun v => List.length v = 16%nat) l ->
  exists d, UUIDArrayFromByteArray16Slice (Some l) = Some d /\
    d = array_out (map UUIDFromByteArray16 l) /\ array_in d = Some (map UUIDFromByteArray16 l).
Proof. exact C11_uuid_array_literal_proof. Qed.
Print Assumptions C11_uuid_array_literal.

Example C11_ex :
  UUIDFromByteArray16 (map chr [0;17;34;51;68;85;102;119;136;153;170;187;204;221;238;255]%N)
  = Some (B "00112233-4455-6677-8899-aabbccddeeff").
Proof. vm_compute. reflexivity. Qed.

(** ** C12 bool[] and bit[] *)
Theorem C12_bool_bit_roundtrip :
  (forall v old, BoolArrayToBoolSlice (BoolArrayFromBoolSlice v) old = Ok v) /\
  (forall v old, BitArrayToBoolSlice (BitArrayFromBoolSlice v) old = Ok v) /\
  (forall v old, match v with Some l => Forall (fun n => n = 0%N \/ n = 1%N) l | None => True end ->
     BitArrayToUintSlice (BitArrayFromUintSlice v) old = Ok v).
Proof. exact C12_bool_bit_roundtrip_proof. Qed.
Print Assumptions C12_bool_bit_roundtrip.

(** Any other integer becomes 1. *)
Theorem C12_bit_uint_normalises : forall v old,
  BitArrayToUintSlice (BitArrayFromUintSlice v) old
  = Ok (option_map (map (fun n => if N.eqb n 0 then 0%N else 1%N)) v).
Proof. exact C12_bit_uint_normalises_proof. Qed.
Print Assumptions C12_bit_uint_normalises.

(** The server's rendering is the same literal; NULL elements read as false/0. *)
Theorem C12_bool_bit_server :
  (forall l, BoolArrayFromBoolSlice (Some l)
     = Some (array_out (map (fun b : bool => Some (lit (if b then "t" else "f"))) l))) /\
  (forall l, BitArrayFromBoolSlice (Some l)
     = Some (array_out (map (fun b : bool => Some (lit (if b then "1" else "0"))) l))) /\
  (forall (l : list (option bool)) old,
     BoolArrayToBoolSlice (Some (array_out (map (option_map (fun b : bool => lit (if b then "t" else "f"))) l))) old
     = Ok (Some (map (fun o => match o with Some b => b | None => false end) l))) /\
  (forall (l : list (option bool)) old,
     BitArrayToBoolSlice (Some (array_out (map (option_map (fun b : bool => lit (if b then "1" else "0"))) l))) old
     = Ok (Some (map (fun o => match o with Some b => b | None => false end) l))) /\
  (forall (l : list (option bool)) old,
     BitArrayToUintSlice (Some (array_out (map (option_map (fun b : bool => lit (if b then "1" else "0"))) l))) old
     = Ok (Some (map (fun o => match o with Some true => 1%N | _ => 0%N end) l))).
Proof. exact C12_bool_bit_server_proof. Qed.
Print Assumptions C12_bool_bit_server.

Example C12_ex :
  BoolArrayFromBoolSlice (Some [true; false]) = Some (B "{t,f}") /\
  BoolArrayToBoolSlice (Some (B "{t,NULL,f}")) None = Ok (Some [true; false; false]).
Proof. split; reflexivity. Qed.

(** ** C18 int2vector and int2vector[] *)
(** The literal is the server's rendering. *)
Theorem C18_int2vector : forall t (l : list Z) old, Forall (fun z => fits 16 z = true) l ->
  Int2VectorFrom (Some l) = Some (vector_out l) /\
  Int2VectorTo t (Some (vector_out l)) old = if forallb (in_type t) l then Ok (Some l) else Err.
Proof. exact C18_int2vector_proof. Qed.
Print Assumptions C18_int2vector.

Theorem C18_int2vectorarr_roundtrip : forall t (l : list (list Z)) old,
  Forall (fun v => v <> [] /\ Forall (fun z => fits 16 z = true /\ in_type t z = true) v) l ->
  Int2VectorArrayTo t (Int2VectorArrayFrom (Some (map Some l))) old = Ok (Some (map Some l)).
Proof. exact C18_int2vectorarr_roundtrip_proof. Qed.
Print Assumptions C18_int2vectorarr_roundtrip.

(** The server's rendering is read correctly when there is no empty vector,
    NULL occurs only as the last element, and the last vector is not a single
    number of more than one character ([vec_good]). *)
Theorem C18_int2vectorarr_server : forall t (l : list (option (list Z))) old, vec_good l = true ->
  Forall (fun o => match o with Some v => Forall (fun z => fits 16 z = true /\ in_type t z = true) v | None => True end) l ->
  Int2VectorArrayTo t (Some (array_out (map (option_map vector_out) l))) old
  = Ok (Some (map (fun o => Some (match o with Some v => v | None => [] end)) l)).
Proof. exact C18_int2vectorarr_server_proof. Qed.
Print Assumptions C18_int2vectorarr_server.

Example C18_good_ex :
  vec_good [Some [1; 2]%Z; Some [300]%Z; Some [4; 5]%Z; None] = true /\
  array_out (map (option_map vector_out) [Some [1; 2]%Z; Some [300]%Z; None]) = B "{""1 2"",300,NULL}".
Proof. split; vm_compute; reflexivity. Qed.

(** Each restriction is needed: a last vector [12] gains an element, a NULL or
    an empty vector in front makes the scan fail. *)
Theorem C18_int2vectorarr_refuted :
  Int2VectorArrayTo TInt (Some (array_out [Some (vector_out [12]%Z)])) None = Ok (Some [Some [12]; Some [2]]%Z) /\
  Int2VectorArrayTo TInt (Some (array_out [None; Some (vector_out [1; 2]%Z)])) None = Err /\
  Int2VectorArrayTo TInt (Some (array_out [Some (vector_out [])])) None = Err.
Proof. exact C18_int2vectorarr_refuted_proof. Qed.
Print Assumptions C18_int2vectorarr_refuted.

(** Vectors without elements aside, the server reads the literal as the given
    vectors. *)
Theorem C18_int2vectorarr_server_reads : forall l, Forall (fun v => v <> []) l ->
  exists d, Int2VectorArrayFrom (Some (map Some l)) = Some d /\
    array_in d = Some (map (fun v => Some (vector_out v)) l).
Proof. exact C18_int2vectorarr_server_reads_proof. Qed.
Print Assumptions C18_int2vectorarr_server_reads.

Theorem C18_empty_vector_refuted : exists l d,
  Int2VectorArrayFrom (Some l) = Some d /\ array_in d = None.
Proof. exact C18_empty_vector_refuted_proof. Qed.
Print Assumptions C18_empty_vector_refuted.
