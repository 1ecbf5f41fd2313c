(** SQL NULL and the previous content of the destination. *)
From Coq Require Import Ascii String ZArith NArith Bool List Lia.
From Verif Require Import GoBase Strconv ConvertUtil Codecs BitCodecs CharCodecs IntCodecs MoneyCodecs GeoCodecs Hstore Times TimeCodecs Net.
From Verif Require Import NullsFinal.
Import ListNotations.
Local Open Scope char_scope.

(** ** The scanners of slices *)
Theorem C20_resets :
  independent TextArrayToStringSlice /\ independent TextArrayToByteSliceSlice
  /\ independent TSQueryArrayToStringSlice /\ independent TSQueryArrayToByteSliceSlice
  /\ independent ByteaArrayTo /\ independent BoolArrayToBoolSlice
  /\ independent BitArrayToBoolSlice /\ independent BitArrayToUintSlice
  /\ independent UUIDArrayToByteArray16Slice /\ independent UUIDArrayToStringSlice /\ independent UUIDArrayToByteSliceSlice
  /\ independent VarBitToBoolSlice /\ independent VarBitToUint8Slice
  /\ independent VarBitArrayToBoolSliceSlice /\ independent VarBitArrayToUint8SliceSlice
  /\ independent VarBitArrayToStringSlice /\ independent VarBitArrayToInt64Slice
  /\ independent TSVectorTo /\ independent TSVectorArrayTo
  /\ independent CharArrayToByteSlice /\ independent CharArrayToRuneSlice /\ independent CharArrayToStringSlice
  /\ (forall c t, independent (IntArrayTo c t)) /\ (forall t, independent (Int2VectorTo t)) /\ (forall t, independent (Int2VectorArrayTo t))
  /\ independent MoneyArrayToInt64Slice
  /\ (forall fl, independent (PathTo fl)) /\ (forall fl, independent (PolygonTo fl)) /\ (forall fl, independent (PathArrayTo fl)) /\ (forall fl, independent (PolygonArrayTo fl)) /\ (forall fl, independent (BoxArrayTo fl))
  /\ independent DateArrayToTimeSlice /\ independent TimeArrayToTimeSlice /\ independent TimetzArrayToTimeSlice
  /\ independent TimestampArrayToTimeSlice /\ independent TimestamptzArrayToTimeSlice
  /\ independent TsRangeArrayToTimeArray2Slice /\ independent TstzRangeArrayToTimeArray2Slice
  /\ independent CIDRArrayToIPNetSlice /\ independent InetArrayToIPNetSlice /\ independent InetArrayToIPSlice
  /\ independent MACAddrArrayToHardwareAddrSlice.
Proof. exact C20_resets_proof. Qed.
Print Assumptions C20_resets.

(** ** The other scanners *)
Theorem C20_keeps :
  stale UUIDToByteArray16 /\ stale VarBitToInt64 /\ stale CharArrayToString /\ stale MoneyToInt64
  /\ (forall fl, stale (PointTo fl)) /\ (forall fl, stale (LineTo fl)) /\ (forall fl, stale (LsegTo fl)) /\ (forall fl, stale (BoxTo fl))
  /\ (forall fl, stale (PointArrayTo fl)) /\ (forall fl, stale (LineArrayTo fl)) /\ (forall fl, stale (LsegArrayTo fl))
  /\ stale HStoreToStringMap /\ stale HStoreToStringPtrMap /\ stale HStoreToNullStringMap
  /\ stale HStoreArrayToStringMapSlice /\ stale HStoreArrayToStringPtrMapSlice /\ stale HStoreArrayToNullStringMapSlice
  /\ (forall c t, stale (IntRangeTo c t)) /\ (forall c t, stale (IntRangeArrayTo c t))
  /\ stale DateRangeToTimeArray2 /\ stale DateRangeArrayToTimeArray2Slice
  /\ stale TsRangeToTimeArray2 /\ stale TstzRangeToTimeArray2
  /\ stale CIDRToIPNet /\ stale (fun s old => Ok (InetToIPNet s old)) /\ stale (fun s old => Ok (InetToIP s old))
  /\ stale MACAddrToHardwareAddr.
Proof. exact C20_keeps_proof. Qed.
Print Assumptions C20_keeps.

(** A char is kept also by a text that is empty. *)
Theorem C20_char :
  (forall rows old vs s, s = None \/ s = Some [] -> seen CharToByte old rows = Ok vs ->
     seen CharToByte old (rows ++ [s]) = Ok (vs ++ [last vs old]))
  /\ (forall rows old vs s, s = None \/ s = Some [] -> seen CharToRune old rows = Ok vs ->
     seen CharToRune old (rows ++ [s]) = Ok (vs ++ [last vs old])).
Proof. exact C20_char_proof. Qed.
Print Assumptions C20_char.

(** That is to say: the second row below is NULL, and shows the hstore of the
    first; as an array it shows nil. *)
Theorem C20_stale_refuted : exists rows m, rows = [Some (B """a""=>""1"""); None]
  /\ seen HStoreToStringMap None rows = Ok [Some m; Some m] /\ m <> [].
Proof. exact C20_stale_refuted_proof. Qed.
Print Assumptions C20_stale_refuted.

Example C20_ex : seen TextArrayToStringSlice None [Some (B "{a,b}"); None; Some (B "{}")] = Ok [Some [B "a"; B "b"]; None; Some []]
  /\ seen (IntRangeTo CInt8Range TInt64) (0, 0)%Z [Some (B "[1,3)"); None] = Ok [(1, 3); (1, 3)]%Z.
Proof. vm_compute. repeat split. Qed.
