(** C90: floats as integer arrays, int2vectors and ranges. *)
From Coq Require Import Ascii String ZArith NArith Bool List Lia.
From Verif Require Import GoBase Strconv StrconvProofs ConvertUtil ConvertProofs Codecs PgSpec PgSpecProofs SimpleProofs IntCodecs IntProofs ArraysFinal MoneyCodecs MoneyProofs Floats FloatSpec FloatProofs IntFloats.
From Verif Require Import IntFloatArrsFinal.
Import ListNotations.
Local Open Scope char_scope.
Local Open Scope Z_scope.

(** Every float within int64 has such an integer. *)
Theorem C90_cut : forall t neg v, 0 <= v -> v < 2 ^ 63 * 2 ^ expo (fmt_of t) -> exists! z, cut (fmt_of t) (Fin neg v) z.
Proof. exact C90_cut_proof. Qed.
Print Assumptions C90_cut.

(** An integer of at most prec bits is a float itself. *)
Theorem C90_exact : forall t z, Z.abs z < 2 ^ prec (fmt_of t) ->
  of_int t z = Fin (z <? 0) (Z.abs z * 2 ^ expo (fmt_of t)) /\ (Z.abs z < 2 ^ 63 -> cut (fmt_of t) (of_int t z) z).
Proof. exact C90_exact_proof. Qed.
Print Assumptions C90_exact.

(** ** Arrays *)
(** Written is the server's array of the integers that remain of the floats. *)
Theorem C90_array_write : forall t l zs, Forall2 (cut (fmt_of t)) l zs ->
  IntArrayFromFloats t (Some l) = Some (array_out (map (fun z => Some (int_out z)) zs)) /\ IntArrayFromFloats t None = None.
Proof. exact C90_array_write_proof. Qed.
Print Assumptions C90_array_write.

(** An array of the server without NULLs is read as the floats nearest to its
    integers; a NULL is an error. *)
Theorem C90_array_read : forall c t (l : list (option Z)) old, In c [CInt2Arr; CInt4Arr; CInt8Arr] ->
  Forall (fun o => match o with Some z => PgSpec.fits (col_bits c) z = true | None => True end) l ->
  (forall zs, l = map Some zs -> exists fs, Forall2 (int_float (fmt_of t)) zs fs
     /\ IntArrayToFloats c t (Some (array_out (map (option_map int_out) l))) old = Ok (Some fs))
  /\ (In None l -> IntArrayToFloats c t (Some (array_out (map (option_map int_out) l))) old = Err).
Proof. exact C90_array_read_proof. Qed.
Print Assumptions C90_array_read.

(** Floats with integer values come back unchanged, except that -0 comes back as
    0; a fraction is lost. *)
Theorem C90_array_roundtrip : forall c t zs old, In c [CInt2Arr; CInt4Arr; CInt8Arr] ->
  Forall (fun z => PgSpec.fits (col_bits c) z = true /\ Z.abs z < 2 ^ prec (fmt_of t)) zs ->
  IntArrayToFloats c t (IntArrayFromFloats t (Some (map (of_int t) zs))) old = Ok (Some (map (of_int t) zs)).
Proof. exact C90_array_roundtrip_proof. Qed.
Print Assumptions C90_array_roundtrip.

(** An int8 of 54 bits is not read exactly. *)
Theorem C90_int8_refuted : exists z, PgSpec.fits 64 z = true /\ forall old,
  IntArrayToFloats CInt8Arr F64 (Some (array_out [Some (int_out z)])) old = IntArrayToFloats CInt8Arr F64 (Some (array_out [Some (int_out (z - 1))])) old
  /\ exists f, IntArrayToFloats CInt8Arr F64 (Some (array_out [Some (int_out z)])) old = Ok (Some [f]).
Proof. exact C90_int8_refuted_proof. Qed.
Print Assumptions C90_int8_refuted.

(** ** int2vector *)
Theorem C90_vector : forall t l zs old, Forall2 (cut (fmt_of t)) l zs -> Forall (fun z => PgSpec.fits 16 z = true) zs ->
  Int2VectorFromFloats t (Some l) = Some (vector_out zs)
  /\ exists fs, Forall2 (int_float (fmt_of t)) zs fs /\ Int2VectorToFloats t (Some (vector_out zs)) old = Ok (Some fs).
Proof. exact C90_vector_proof. Qed.
Print Assumptions C90_vector.

(** ** Ranges *)

(** Written is the range of the integers that remain of the bounds; for numrange
    too. *)
Theorem C90_range_write : forall t x y lo hi, cut (fmt_of t) x lo -> cut (fmt_of t) y hi ->
  IntRangeFromFloats t (x, y) = Some (range_out (RBounds (Some lo) (Some hi))).
Proof. exact C90_range_write_proof. Qed.
Print Assumptions C90_range_write.

Theorem C90_range_read : forall c t r old, In c [CInt4Range; CInt8Range; CNumRange] ->
  (forall z, In z (match r with RBounds lo hi => match lo with Some z => [z] | None => [] end ++ match hi with Some z => [z] | None => [] end | REmpty => [] end) ->
     PgSpec.fits (range_bits c) z = true) ->
  IntRangeToFloats c t (Some (range_out r)) old = Ok (of_int t (fst (bounds_of r)), of_int t (snd (bounds_of r))).
Proof. exact C90_range_read_proof. Qed.
Print Assumptions C90_range_read.

(** A numrange's fractions: cut off when written, an error when read. *)
Theorem C90_numrange_refuted :
  (exists x y, cut f64 x 1 /\ cut f64 y 2 /\ ~ cut f64 x 2 /\ AppendFloat f64 x = B "1.5" /\ AppendFloat f64 y = B "2.5"
     /\ IntRangeFromFloats F64 (x, y) = Some (B "[1,2)"))
  /\ forall old, IntRangeToFloats CNumRange F64 (Some (B "[1.5,2.5)")) old = Err.
Proof. exact C90_numrange_refuted_proof. Qed.
Print Assumptions C90_numrange_refuted.

(** int8range[] and numrange[] into float32: bounds beyond int32 are errors,
    although a single int8range with them is read. *)
Theorem C90_range_array_refuted : exists r, range_out r = B "[2147483648,2147483649)"
  /\ (forall old, IntRangeArrayToFloats CInt8RangeArr F32 (Some (array_out [Some (range_out r)])) old = Err)
  /\ (forall old, IntRangeArrayToFloats CNumRangeArr F32 (Some (array_out [Some (range_out r)])) old = Err)
  /\ (forall old, exists p, IntRangeToFloats CInt8Range F32 (Some (range_out r)) old = Ok p).
Proof. exact C90_range_array_refuted_proof. Qed.
Print Assumptions C90_range_array_refuted.

Theorem C90_range_array : forall c t rs old, In c [CInt4RangeArr; CInt8RangeArr; CNumRangeArr] ->
  Forall (bounds_in c (as_ity c t)) rs ->
  IntRangeArrayToFloats c t (Some (array_out (map (fun r => Some (range_out r)) rs))) old
  = Ok (Some (map (fun r => (of_int t (fst (bounds_of r)), of_int t (snd (bounds_of r)))) (filter (fun r => match r with REmpty => false | _ => true end) rs))).
Proof. exact C90_range_array_proof. Qed.
Print Assumptions C90_range_array.

Theorem C90_range_array_write : forall t (l : list (float * float)) zs,
  Forall2 (fun p q => cut (fmt_of t) (fst p) (fst q) /\ cut (fmt_of t) (snd p) (snd q)) l zs ->
  IntRangeArrayFromFloats t (Some l) = Some (array_out (map (fun q => Some (range_out (RBounds (Some (fst q)) (Some (snd q))))) zs)).
Proof. exact C90_range_array_write_proof. Qed.
Print Assumptions C90_range_array_write.

Example C90_ex :
  IntArrayFromFloats F64 (Some [Fin true (5 * 2 ^ 1073); Fin false (3 * 2 ^ 1074)]) = Some (B "{-2,3}")
  /\ cut f64 (Fin true (5 * 2 ^ 1073)) (-2)
  /\ IntArrayToFloats CInt4Arr F32 (Some (B "{16777217,-1}")) None = Ok (Some [Fin false (2 ^ 24 * 2 ^ 149); Fin true (2 ^ 149)]).
Proof.
  split; [vm_compute; reflexivity|]. split; [|vm_compute; reflexivity]. exists true, (5 * 2 ^ 1073). split; auto. cbn [expo f64 Z.abs].
  assert (E : 2 ^ 1074 = 2 * 2 ^ 1073) by (change 2 with (2 ^ 1) at 2; rewrite <- Z.pow_add_r by lia; f_equal). rewrite E.
  assert (P : 0 < 2 ^ 1073) by (apply pow2_pos; lia). set (p := 2 ^ 1073) in *. clearbody p. lia.
Qed.
