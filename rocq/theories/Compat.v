(** The compatibility table of internal/postgres/compatibility.go and the
    signatures of the functions of the package pgsql, both transcribed from the
    sources by a script. *)
From Coq Require Import Ascii String ZArith NArith Bool List.
From Verif Require Import GoBase Oids.
Import ListNotations.
Local Open Scope string_scope.
Local Open Scope list_scope.

(** compatibility.go:8-16: compkey and compentry *)
Record compentry := MkCE { ce_valuer : bytes; ce_scanner : bytes }.

(** compatibility.go:61-727: for an OID and whether the length is 1, the Go
    types and the names of the functions that convert them. *)
Definition compat_text : list (N * bool * list (string * string * string)) :=
  [
   (oid_Bit, true, [("bool", "BitFromBool", ""); ("uint", "", ""); ("uint8", "", ""); ("string", "", ""); ("[]byte", "", "")]);
   (oid_BitArr, true, [("[]bool", "BitArrayFromBoolSlice", "BitArrayToBoolSlice"); ("[]uint", "BitArrayFromUintSlice", "BitArrayToUintSlice"); ("[]uint8", "BitArrayFromUint8Slice", "BitArrayToUint8Slice"); ("string", "", ""); ("[]byte", "", "")]);
   (oid_BPChar, true, [("byte", "BPCharFromByte", "BPCharToByte"); ("rune", "BPCharFromRune", "BPCharToRune"); ("string", "", ""); ("[]byte", "", "")]);
   (oid_BPCharArr, true, [("[]rune", "BPCharArrayFromRuneSlice", "BPCharArrayToRuneSlice"); ("[]string", "BPCharArrayFromStringSlice", "BPCharArrayToStringSlice"); ("string", "BPCharArrayFromString", "BPCharArrayToString"); ("[]byte", "BPCharArrayFromByteSlice", "BPCharArrayToByteSlice")]);
   (oid_Char, true, [("byte", "CharFromByte", "CharToByte"); ("rune", "CharFromRune", "CharToRune"); ("string", "", ""); ("[]byte", "", "")]);
   (oid_CharArr, true, [("[]rune", "CharArrayFromRuneSlice", "CharArrayToRuneSlice"); ("[]string", "CharArrayFromStringSlice", "CharArrayToStringSlice"); ("string", "CharArrayFromString", "CharArrayToString"); ("[]byte", "CharArrayFromByteSlice", "CharArrayToByteSlice")]);
   (oid_Bool, false, [("bool", "", ""); ("string", "", ""); ("[]byte", "", "")]);
   (oid_BoolArr, false, [("[]bool", "BoolArrayFromBoolSlice", "BoolArrayToBoolSlice"); ("string", "", ""); ("[]byte", "", "")]);
   (oid_Box, false, [("[2][2]float64", "BoxFromFloat64Array2Array2", "BoxToFloat64Array2Array2"); ("string", "", ""); ("[]byte", "", "")]);
   (oid_BoxArr, false, [("[][2][2]float64", "BoxArrayFromFloat64Array2Array2Slice", "BoxArrayToFloat64Array2Array2Slice"); ("string", "", ""); ("[]byte", "", "")]);
   (oid_Bytea, false, [("string", "", ""); ("[]byte", "", "")]);
   (oid_ByteaArr, false, [("[]string", "ByteaArrayFromStringSlice", "ByteaArrayToStringSlice"); ("[][]byte", "ByteaArrayFromByteSliceSlice", "ByteaArrayToByteSliceSlice"); ("string", "", ""); ("[]byte", "", "")]);
   (oid_CIDR, false, [("net.IPNet", "CIDRFromIPNet", "CIDRToIPNet"); ("string", "", ""); ("[]byte", "", "")]);
   (oid_CIDRArr, false, [("[]net.IPNet", "CIDRArrayFromIPNetSlice", "CIDRArrayToIPNetSlice"); ("string", "", ""); ("[]byte", "", "")]);
   (oid_Circle, false, [("string", "", ""); ("[]byte", "", "")]);
   (oid_CircleArr, false, [("string", "", ""); ("[]byte", "", "")]);
   (oid_Date, false, [("time.Time", "", "DateToTime"); ("string", "", "DateToString"); ("[]byte", "", "DateToByteSlice")]);
   (oid_DateArr, false, [("[]time.Time", "DateArrayFromTimeSlice", "DateArrayToTimeSlice"); ("string", "", ""); ("[]byte", "", "")]);
   (oid_DateRange, false, [("[2]time.Time", "DateRangeFromTimeArray2", "DateRangeToTimeArray2"); ("string", "", ""); ("[]byte", "", "")]);
   (oid_DateRangeArr, false, [("[][2]time.Time", "DateRangeArrayFromTimeArray2Slice", "DateRangeArrayToTimeArray2Slice"); ("string", "", ""); ("[]byte", "", "")]);
   (oid_Float4, false, [("float32", "", ""); ("float64", "", ""); ("string", "", ""); ("[]byte", "", "")]);
   (oid_Float4Arr, false, [("[]float32", "Float4ArrayFromFloat32Slice", "Float4ArrayToFloat32Slice"); ("[]float64", "Float4ArrayFromFloat64Slice", "Float4ArrayToFloat64Slice"); ("string", "", ""); ("[]byte", "", "")]);
   (oid_Float8, false, [("float32", "", ""); ("float64", "", ""); ("string", "", ""); ("[]byte", "", "")]);
   (oid_Float8Arr, false, [("[]float32", "Float8ArrayFromFloat32Slice", "Float8ArrayToFloat32Slice"); ("[]float64", "Float8ArrayFromFloat64Slice", "Float8ArrayToFloat64Slice"); ("string", "", ""); ("[]byte", "", "")]);
   (oid_Inet, false, [("net.IP", "InetFromIP", "InetToIP"); ("net.IPNet", "InetFromIPNet", "InetToIPNet"); ("string", "", ""); ("[]byte", "", "")]);
   (oid_InetArr, false, [("[]net.IP", "InetArrayFromIPSlice", "InetArrayFromIPSlice"); ("[]net.IPNet", "InetArrayFromIPNetSlice", "InetArrayFromIPNetSlice"); ("string", "", ""); ("[]byte", "", "")]);
   (oid_Int2, false, [("int", "", ""); ("int8", "", ""); ("int16", "", ""); ("int32", "", ""); ("int64", "", ""); ("uint", "", ""); ("uint8", "", ""); ("uint16", "", ""); ("uint32", "", ""); ("uint64", "", ""); ("float32", "", ""); ("float64", "", ""); ("string", "", ""); ("[]byte", "", "")]);
   (oid_Int2Arr, false, [("[]int", "Int2ArrayFromIntSlice", "Int2ArrayToIntSlice"); ("[]int8", "Int2ArrayFromInt8Slice", "Int2ArrayToInt8Slice"); ("[]int16", "Int2ArrayFromInt16Slice", "Int2ArrayToInt16Slice"); ("[]int32", "Int2ArrayFromInt32Slice", "Int2ArrayToInt32Slice"); ("[]int64", "Int2ArrayFromInt64Slice", "Int2ArrayToInt64Slice"); ("[]uint", "Int2ArrayFromUintSlice", "Int2ArrayToUintSlice"); ("[]uint8", "Int2ArrayFromUint8Slice", "Int2ArrayToUint8Slice"); ("[]uint16", "Int2ArrayFromUint16Slice", "Int2ArrayToUint16Slice"); ("[]uint32", "Int2ArrayFromUint32Slice", "Int2ArrayToUint32Slice"); ("[]uint64", "Int2ArrayFromUint64Slice", "Int2ArrayToUint64Slice"); ("[]float32", "Int2ArrayFromFloat32Slice", "Int2ArrayToFloat32Slice"); ("[]float64", "Int2ArrayFromFloat64Slice", "Int2ArrayToFloat64Slice"); ("string", "", ""); ("[]byte", "", "")]);
   (oid_Int2Vector, false, [("[]int", "Int2VectorFromIntSlice", "Int2VectorToIntSlice"); ("[]int8", "Int2VectorFromInt8Slice", "Int2VectorToInt8Slice"); ("[]int16", "Int2VectorFromInt16Slice", "Int2VectorToInt16Slice"); ("[]int32", "Int2VectorFromInt32Slice", "Int2VectorToInt32Slice"); ("[]int64", "Int2VectorFromInt64Slice", "Int2VectorToInt64Slice"); ("[]uint", "Int2VectorFromUintSlice", "Int2VectorToUintSlice"); ("[]uint8", "Int2VectorFromUint8Slice", "Int2VectorToUint8Slice"); ("[]uint16", "Int2VectorFromUint16Slice", "Int2VectorToUint16Slice"); ("[]uint32", "Int2VectorFromUint32Slice", "Int2VectorToUint32Slice"); ("[]uint64", "Int2VectorFromUint64Slice", "Int2VectorToUint64Slice"); ("[]float32", "Int2VectorFromFloat32Slice", "Int2VectorToFloat32Slice"); ("[]float64", "Int2VectorFromFloat64Slice", "Int2VectorToFloat64Slice"); ("string", "", ""); ("[]byte", "", "")]);
   (oid_Int2VectorArr, false, [("[][]int", "Int2VectorArrayFromIntSliceSlice", "Int2VectorArrayToIntSliceSlice"); ("[][]int8", "Int2VectorArrayFromInt8SliceSlice", "Int2VectorArrayToInt8SliceSlice"); ("[][]int16", "Int2VectorArrayFromInt16SliceSlice", "Int2VectorArrayToInt16SliceSlice"); ("[][]int32", "Int2VectorArrayFromInt32SliceSlice", "Int2VectorArrayToInt32SliceSlice"); ("[][]int64", "Int2VectorArrayFromInt64SliceSlice", "Int2VectorArrayToInt64SliceSlice"); ("[][]uint", "Int2VectorArrayFromUintSliceSlice", "Int2VectorArrayToUintSliceSlice"); ("[][]uint8", "Int2VectorArrayFromUint8SliceSlice", "Int2VectorArrayToUint8SliceSlice"); ("[][]uint16", "Int2VectorArrayFromUint16SliceSlice", "Int2VectorArrayToUint16SliceSlice"); ("[][]uint32", "Int2VectorArrayFromUint32SliceSlice", "Int2VectorArrayToUint32SliceSlice"); ("[][]uint64", "Int2VectorArrayFromUint64SliceSlice", "Int2VectorArrayToUint64SliceSlice"); ("[][]float32", "Int2VectorArrayFromFloat32SliceSlice", "Int2VectorArrayToFloat32SliceSlice"); ("[][]float64", "Int2VectorArrayFromFloat64SliceSlice", "Int2VectorArrayToFloat64SliceSlice"); ("string", "", ""); ("[]byte", "", "")]);
   (oid_Int4, false, [("int", "", ""); ("int8", "", ""); ("int16", "", ""); ("int32", "", ""); ("int64", "", ""); ("uint", "", ""); ("uint8", "", ""); ("uint16", "", ""); ("uint32", "", ""); ("uint64", "", ""); ("float32", "", ""); ("float64", "", ""); ("string", "", ""); ("[]byte", "", "")]);
   (oid_Int4Arr, false, [("[]int", "Int4ArrayFromIntSlice", "Int4ArrayToIntSlice"); ("[]int8", "Int4ArrayFromInt8Slice", "Int4ArrayToInt8Slice"); ("[]int16", "Int4ArrayFromInt16Slice", "Int4ArrayToInt16Slice"); ("[]int32", "Int4ArrayFromInt32Slice", "Int4ArrayToInt32Slice"); ("[]int64", "Int4ArrayFromInt64Slice", "Int4ArrayToInt64Slice"); ("[]uint", "Int4ArrayFromUintSlice", "Int4ArrayToUintSlice"); ("[]uint8", "Int4ArrayFromUint8Slice", "Int4ArrayToUint8Slice"); ("[]uint16", "Int4ArrayFromUint16Slice", "Int4ArrayToUint16Slice"); ("[]uint32", "Int4ArrayFromUint32Slice", "Int4ArrayToUint32Slice"); ("[]uint64", "Int4ArrayFromUint64Slice", "Int4ArrayToUint64Slice"); ("[]float32", "Int4ArrayFromFloat32Slice", "Int4ArrayToFloat32Slice"); ("[]float64", "Int4ArrayFromFloat64Slice", "Int4ArrayToFloat64Slice"); ("string", "", ""); ("[]byte", "", "")]);
   (oid_Int4Range, false, [("[2]int", "Int4RangeFromIntArray2", "Int4RangeToIntArray2"); ("[2]int8", "Int4RangeFromInt8Array2", "Int4RangeToInt8Array2"); ("[2]int16", "Int4RangeFromInt16Array2", "Int4RangeToInt16Array2"); ("[2]int32", "Int4RangeFromInt32Array2", "Int4RangeToInt32Array2"); ("[2]int64", "Int4RangeFromInt64Array2", "Int4RangeToInt64Array2"); ("[2]uint", "Int4RangeFromUintArray2", "Int4RangeToUintArray2"); ("[2]uint8", "Int4RangeFromUint8Array2", "Int4RangeToUint8Array2"); ("[2]uint16", "Int4RangeFromUint16Array2", "Int4RangeToUint16Array2"); ("[2]uint32", "Int4RangeFromUint32Array2", "Int4RangeToUint32Array2"); ("[2]uint64", "Int4RangeFromUint64Array2", "Int4RangeToUint64Array2"); ("[2]float32", "Int4RangeFromFloat32Array2", "Int4RangeToFloat32Array2"); ("[2]float64", "Int4RangeFromFloat64Array2", "Int4RangeToFloat64Array2"); ("string", "", ""); ("[]byte", "", "")]);
   (oid_Int4RangeArr, false, [("[][2]int", "Int4RangeArrayFromIntArray2Slice", "Int4RangeArrayToIntArray2Slice"); ("[][2]int8", "Int4RangeArrayFromInt8Array2Slice", "Int4RangeArrayToInt8Array2Slice"); ("[][2]int16", "Int4RangeArrayFromInt16Array2Slice", "Int4RangeArrayToInt16Array2Slice"); ("[][2]int32", "Int4RangeArrayFromInt32Array2Slice", "Int4RangeArrayToInt32Array2Slice"); ("[][2]int64", "Int4RangeArrayFromInt64Array2Slice", "Int4RangeArrayToInt64Array2Slice"); ("[][2]uint", "Int4RangeArrayFromUintArray2Slice", "Int4RangeArrayToUintArray2Slice"); ("[][2]uint8", "Int4RangeArrayFromUint8Array2Slice", "Int4RangeArrayToUint8Array2Slice"); ("[][2]uint16", "Int4RangeArrayFromUint16Array2Slice", "Int4RangeArrayToUint16Array2Slice"); ("[][2]uint32", "Int4RangeArrayFromUint32Array2Slice", "Int4RangeArrayToUint32Array2Slice"); ("[][2]uint64", "Int4RangeArrayFromUint64Array2Slice", "Int4RangeArrayToUint64Array2Slice"); ("[][2]float32", "Int4RangeArrayFromFloat32Array2Slice", "Int4RangeArrayToFloat32Array2Slice"); ("[][2]float64", "Int4RangeArrayFromFloat64Array2Slice", "Int4RangeArrayToFloat64Array2Slice"); ("string", "", ""); ("[]byte", "", "")]);
   (oid_Int8, false, [("int", "", ""); ("int8", "", ""); ("int16", "", ""); ("int32", "", ""); ("int64", "", ""); ("uint", "", ""); ("uint8", "", ""); ("uint16", "", ""); ("uint32", "", ""); ("uint64", "", ""); ("float32", "", ""); ("float64", "", ""); ("string", "", ""); ("[]byte", "", "")]);
   (oid_Int8Arr, false, [("[]int", "Int8ArrayFromIntSlice", "Int8ArrayToIntSlice"); ("[]int8", "Int8ArrayFromInt8Slice", "Int8ArrayToInt8Slice"); ("[]int16", "Int8ArrayFromInt16Slice", "Int8ArrayToInt16Slice"); ("[]int32", "Int8ArrayFromInt32Slice", "Int8ArrayToInt32Slice"); ("[]int64", "Int8ArrayFromInt64Slice", "Int8ArrayToInt64Slice"); ("[]uint", "Int8ArrayFromUintSlice", "Int8ArrayToUintSlice"); ("[]uint8", "Int8ArrayFromUint8Slice", "Int8ArrayToUint8Slice"); ("[]uint16", "Int8ArrayFromUint16Slice", "Int8ArrayToUint16Slice"); ("[]uint32", "Int8ArrayFromUint32Slice", "Int8ArrayToUint32Slice"); ("[]uint64", "Int8ArrayFromUint64Slice", "Int8ArrayToUint64Slice"); ("[]float32", "Int8ArrayFromFloat32Slice", "Int8ArrayToFloat32Slice"); ("[]float64", "Int8ArrayFromFloat64Slice", "Int8ArrayToFloat64Slice"); ("string", "", ""); ("[]byte", "", "")]);
   (oid_Int8Range, false, [("[2]int", "Int8RangeFromIntArray2", "Int8RangeToIntArray2"); ("[2]int8", "Int8RangeFromInt8Array2", "Int8RangeToInt8Array2"); ("[2]int16", "Int8RangeFromInt16Array2", "Int8RangeToInt16Array2"); ("[2]int32", "Int8RangeFromInt32Array2", "Int8RangeToInt32Array2"); ("[2]int64", "Int8RangeFromInt64Array2", "Int8RangeToInt64Array2"); ("[2]uint", "Int8RangeFromUintArray2", "Int8RangeToUintArray2"); ("[2]uint8", "Int8RangeFromUint8Array2", "Int8RangeToUint8Array2"); ("[2]uint16", "Int8RangeFromUint16Array2", "Int8RangeToUint16Array2"); ("[2]uint32", "Int8RangeFromUint32Array2", "Int8RangeToUint32Array2"); ("[2]uint64", "Int8RangeFromUint64Array2", "Int8RangeToUint64Array2"); ("[2]float32", "Int8RangeFromFloat32Array2", "Int8RangeToFloat32Array2"); ("[2]float64", "Int8RangeFromFloat64Array2", "Int8RangeToFloat64Array2"); ("string", "", ""); ("[]byte", "", "")]);
   (oid_Int8RangeArr, false, [("[][2]int", "Int8RangeArrayFromIntArray2Slice", "Int8RangeArrayToIntArray2Slice"); ("[][2]int8", "Int8RangeArrayFromInt8Array2Slice", "Int8RangeArrayToInt8Array2Slice"); ("[][2]int16", "Int8RangeArrayFromInt16Array2Slice", "Int8RangeArrayToInt16Array2Slice"); ("[][2]int32", "Int8RangeArrayFromInt32Array2Slice", "Int8RangeArrayToInt32Array2Slice"); ("[][2]int64", "Int8RangeArrayFromInt64Array2Slice", "Int8RangeArrayToInt64Array2Slice"); ("[][2]uint", "Int8RangeArrayFromUintArray2Slice", "Int8RangeArrayToUintArray2Slice"); ("[][2]uint8", "Int8RangeArrayFromUint8Array2Slice", "Int8RangeArrayToUint8Array2Slice"); ("[][2]uint16", "Int8RangeArrayFromUint16Array2Slice", "Int8RangeArrayToUint16Array2Slice"); ("[][2]uint32", "Int8RangeArrayFromUint32Array2Slice", "Int8RangeArrayToUint32Array2Slice"); ("[][2]uint64", "Int8RangeArrayFromUint64Array2Slice", "Int8RangeArrayToUint64Array2Slice"); ("[][2]float32", "Int8RangeArrayFromFloat32Array2Slice", "Int8RangeArrayToFloat32Array2Slice"); ("[][2]float64", "Int8RangeArrayFromFloat64Array2Slice", "Int8RangeArrayToFloat64Array2Slice"); ("string", "", ""); ("[]byte", "", "")]);
   (oid_Interval, false, [("string", "", ""); ("[]byte", "", "")]);
   (oid_IntervalArr, false, [("string", "", ""); ("[]byte", "", "")]);
   (oid_JSON, false, [("interface{}", "JSON", "JSON"); ("string", "", ""); ("[]byte", "", "")]);
   (oid_JSONArr, false, [("[][]byte", "JSONArrayFromByteSliceSlice", "JSONArrayToByteSliceSlice"); ("string", "", ""); ("[]byte", "", "")]);
   (oid_JSONB, false, [("interface{}", "JSON", "JSON"); ("string", "", ""); ("[]byte", "", "")]);
   (oid_JSONBArr, false, [("[][]byte", "JSONArrayFromByteSliceSlice", "JSONArrayToByteSliceSlice"); ("string", "", ""); ("[]byte", "", "")]);
   (oid_Line, false, [("[3]float64", "LineFromFloat64Array3", "LineToFloat64Array3"); ("string", "", ""); ("[]byte", "", "")]);
   (oid_LineArr, false, [("[][3]float64", "LineArrayFromFloat64Array3Slice", "LineArrayToFloat64Array3Slice"); ("string", "", ""); ("[]byte", "", "")]);
   (oid_LSeg, false, [("[2][2]float64", "LsegFromFloat64Array2Array2", "LsegToFloat64Array2Array2"); ("string", "", ""); ("[]byte", "", "")]);
   (oid_LSegArr, false, [("[][2][2]float64", "LsegArrayFromFloat64Array2Array2Slice", "LsegArrayToFloat64Array2Array2Slice"); ("string", "", ""); ("[]byte", "", "")]);
   (oid_MACAddr, false, [("net.HardwareAddr", "MACAddrFromHardwareAddr", "MACAddrToHardwareAddr"); ("string", "", ""); ("[]byte", "", "")]);
   (oid_MACAddrArr, false, [("[]net.HardwareAddr", "MACAddrArrayFromHardwareAddrSlice", "MACAddrArrayToHardwareAddrSlice"); ("string", "", ""); ("[]byte", "", "")]);
   (oid_MACAddr8, false, [("net.HardwareAddr", "MACAddr8FromHardwareAddr", "MACAddr8ToHardwareAddr"); ("string", "", ""); ("[]byte", "", "")]);
   (oid_MACAddr8Arr, false, [("[]net.HardwareAddr", "MACAddr8ArrayFromHardwareAddrSlice", "MACAddr8ArrayToHardwareAddrSlice"); ("string", "", ""); ("[]byte", "", "")]);
   (oid_Money, false, [("int64", "MoneyFromInt64", "MoneyToInt64"); ("string", "", ""); ("[]byte", "", "")]);
   (oid_MoneyArr, false, [("[]int64", "MoneyArrayFromInt64Slice", "MoneyArrayToInt64Slice"); ("string", "", ""); ("[]byte", "", "")]);
   (oid_Numeric, false, [("int", "", ""); ("int8", "", ""); ("int16", "", ""); ("int32", "", ""); ("int64", "", ""); ("uint", "", ""); ("uint8", "", ""); ("uint16", "", ""); ("uint32", "", ""); ("uint64", "", ""); ("float32", "", ""); ("float64", "", ""); ("string", "", ""); ("[]byte", "", "")]);
   (oid_NumericArr, false, [("[]int", "NumericArrayFromIntSlice", "NumericArrayToIntSlice"); ("[]int8", "NumericArrayFromInt8Slice", "NumericArrayToInt8Slice"); ("[]int16", "NumericArrayFromInt16Slice", "NumericArrayToInt16Slice"); ("[]int32", "NumericArrayFromInt32Slice", "NumericArrayToInt32Slice"); ("[]int64", "NumericArrayFromInt64Slice", "NumericArrayToInt64Slice"); ("[]uint", "NumericArrayFromUintSlice", "NumericArrayToUintSlice"); ("[]uint8", "NumericArrayFromUint8Slice", "NumericArrayToUint8Slice"); ("[]uint16", "NumericArrayFromUint16Slice", "NumericArrayToUint16Slice"); ("[]uint32", "NumericArrayFromUint32Slice", "NumericArrayToUint32Slice"); ("[]uint64", "NumericArrayFromUint64Slice", "NumericArrayToUint64Slice"); ("[]float32", "NumericArrayFromFloat32Slice", "NumericArrayToFloat32Slice"); ("[]float64", "NumericArrayFromFloat64Slice", "NumericArrayToFloat64Slice"); ("string", "", ""); ("[]byte", "", "")]);
   (oid_NumRange, false, [("[2]int", "NumRangeFromIntArray2", "NumRangeToIntArray2"); ("[2]int8", "NumRangeFromInt8Array2", "NumRangeToInt8Array2"); ("[2]int16", "NumRangeFromInt16Array2", "NumRangeToInt16Array2"); ("[2]int32", "NumRangeFromInt32Array2", "NumRangeToInt32Array2"); ("[2]int64", "NumRangeFromInt64Array2", "NumRangeToInt64Array2"); ("[2]uint", "NumRangeFromUintArray2", "NumRangeToUintArray2"); ("[2]uint8", "NumRangeFromUint8Array2", "NumRangeToUint8Array2"); ("[2]uint16", "NumRangeFromUint16Array2", "NumRangeToUint16Array2"); ("[2]uint32", "NumRangeFromUint32Array2", "NumRangeToUint32Array2"); ("[2]uint64", "NumRangeFromUint64Array2", "NumRangeToUint64Array2"); ("[2]float32", "NumRangeFromFloat32Array2", "NumRangeToFloat32Array2"); ("[2]float64", "NumRangeFromFloat64Array2", "NumRangeToFloat64Array2"); ("string", "", ""); ("[]byte", "", "")]);
   (oid_NumRangeArr, false, [("[][2]int", "NumRangeArrayFromIntArray2Slice", "NumRangeArrayToIntArray2Slice"); ("[][2]int8", "NumRangeArrayFromInt8Array2Slice", "NumRangeArrayToInt8Array2Slice"); ("[][2]int16", "NumRangeArrayFromInt16Array2Slice", "NumRangeArrayToInt16Array2Slice"); ("[][2]int32", "NumRangeArrayFromInt32Array2Slice", "NumRangeArrayToInt32Array2Slice"); ("[][2]int64", "NumRangeArrayFromInt64Array2Slice", "NumRangeArrayToInt64Array2Slice"); ("[][2]uint", "NumRangeArrayFromUintArray2Slice", "NumRangeArrayToUintArray2Slice"); ("[][2]uint8", "NumRangeArrayFromUint8Array2Slice", "NumRangeArrayToUint8Array2Slice"); ("[][2]uint16", "NumRangeArrayFromUint16Array2Slice", "NumRangeArrayToUint16Array2Slice"); ("[][2]uint32", "NumRangeArrayFromUint32Array2Slice", "NumRangeArrayToUint32Array2Slice"); ("[][2]uint64", "NumRangeArrayFromUint64Array2Slice", "NumRangeArrayToUint64Array2Slice"); ("[][2]float32", "NumRangeArrayFromFloat32Array2Slice", "NumRangeArrayToFloat32Array2Slice"); ("[][2]float64", "NumRangeArrayFromFloat64Array2Slice", "NumRangeArrayToFloat64Array2Slice"); ("string", "", ""); ("[]byte", "", "")]);
   (oid_Path, false, [("[][2]float64", "PathFromFloat64Array2Slice", "PathToFloat64Array2Slice"); ("string", "", ""); ("[]byte", "", "")]);
   (oid_PathArr, false, [("[][][2]float64", "PathArrayFromFloat64Array2SliceSlice", "PathArrayToFloat64Array2SliceSlice"); ("string", "", ""); ("[]byte", "", "")]);
   (oid_Point, false, [("[2]float64", "PointFromFloat64Array2", "PointToFloat64Array2"); ("string", "", ""); ("[]byte", "", "")]);
   (oid_PointArr, false, [("[][2]float64", "PointArrayFromFloat64Array2Slice", "PointArrayToFloat64Array2Slice"); ("string", "", ""); ("[]byte", "", "")]);
   (oid_Polygon, false, [("[][2]float64", "PolygonFromFloat64Array2Slice", "PolygonToFloat64Array2Slice"); ("string", "", ""); ("[]byte", "", "")]);
   (oid_PolygonArr, false, [("[][][2]float64", "PolygonArrayFromFloat64Array2SliceSlice", "PolygonArrayToFloat64Array2SliceSlice"); ("string", "", ""); ("[]byte", "", "")]);
   (oid_Text, false, [("string", "", ""); ("[]byte", "", "")]);
   (oid_TextArr, false, [("[]string", "TextArrayFromStringSlice", "TextArrayToStringSlice"); ("[][]byte", "TextArrayFromByteSliceSlice", "TextArrayToByteSliceSlice"); ("string", "", ""); ("[]byte", "", "")]);
   (oid_Time, false, [("time.Time", "", ""); ("string", "", "TimeToString"); ("[]byte", "", "TimeToByteSlice")]);
   (oid_TimeArr, false, [("[]time.Time", "TimeArrayFromTimeSlice", "TimeArrayToTimeSlice"); ("string", "", ""); ("[]byte", "", "")]);
   (oid_Timestamp, false, [("time.Time", "", ""); ("string", "", ""); ("[]byte", "", "")]);
   (oid_TimestampArr, false, [("[]time.Time", "TimestampArrayFromTimeSlice", "TimestampArrayToTimeSlice"); ("string", "", ""); ("[]byte", "", "")]);
   (oid_Timestamptz, false, [("time.Time", "", ""); ("string", "", ""); ("[]byte", "", "")]);
   (oid_TimestamptzArr, false, [("[]time.Time", "TimestamptzArrayFromTimeSlice", "TimestamptzArrayToTimeSlice"); ("string", "", ""); ("[]byte", "", "")]);
   (oid_Timetz, false, [("time.Time", "", ""); ("string", "", "TimetzToString"); ("[]byte", "", "TimetzToByteSlice")]);
   (oid_TimetzArr, false, [("[]time.Time", "TimetzArrayFromTimeSlice", "TimetzArrayToTimeSlice"); ("string", "", ""); ("[]byte", "", "")]);
   (oid_TSQuery, false, [("string", "", ""); ("[]byte", "", "")]);
   (oid_TSQueryArr, false, [("[]string", "TSQueryArrayFromStringSlice", "TSQueryArrayToStringSlice"); ("[][]byte", "TSQueryArrayFromByteSliceSlice", "TSQueryArrayToByteSliceSlice"); ("string", "", ""); ("[]byte", "", "")]);
   (oid_TsRange, false, [("[2]time.Time", "TsRangeFromTimeArray2", "TsRangeToTimeArray2"); ("string", "", ""); ("[]byte", "", "")]);
   (oid_TsRangeArr, false, [("[][2]time.Time", "TsRangeArrayFromTimeArray2Slice", "TsRangeArrayToTimeArray2Slice"); ("string", "", ""); ("[]byte", "", "")]);
   (oid_TsTzRange, false, [("[2]time.Time", "TstzRangeFromTimeArray2", "TstzRangeToTimeArray2"); ("string", "", ""); ("[]byte", "", "")]);
   (oid_TsTzRangeArr, false, [("[][2]time.Time", "TstzRangeArrayFromTimeArray2Slice", "TstzRangeArrayToTimeArray2Slice"); ("string", "", ""); ("[]byte", "", "")]);
   (oid_TSVector, false, [("[]string", "TSVectorFromStringSlice", "TSVectorToStringSlice"); ("[][]byte", "TSVectorFromByteSliceSlice", "TSVectorToByteSliceSlice"); ("string", "", ""); ("[]byte", "", "")]);
   (oid_TSVectorArr, false, [("[][]string", "TSVectorArrayFromStringSliceSlice", "TSVectorArrayToStringSliceSlice"); ("[][][]byte", "TSVectorArrayFromByteSliceSliceSlice", "TSVectorArrayToByteSliceSliceSlice"); ("string", "", ""); ("[]byte", "", "")]);
   (oid_UUID, false, [("[16]byte", "UUIDFromByteArray16", "UUIDToByteArray16"); ("string", "", ""); ("[]byte", "", "")]);
   (oid_UUIDArr, false, [("[][16]byte", "UUIDArrayFromByteArray16Slice", "UUIDArrayToByteArray16Slice"); ("[]string", "UUIDArrayFromStringSlice", "UUIDArrayToStringSlice"); ("[][]byte", "UUIDArrayFromByteSliceSlice", "UUIDArrayToByteSliceSlice"); ("string", "", ""); ("[]byte", "", "")]);
   (oid_VarBit, false, [("int64", "VarBitFromInt64", "VarBitToInt64"); ("[]bool", "VarBitFromBoolSlice", "VarBitToBoolSlice"); ("[]uint8", "VarBitFromUint8Slice", "VarBitToUint8Slice"); ("string", "", ""); ("[]byte", "", "")]);
   (oid_VarBitArr, false, [("[]int64", "VarBitArrayFromInt64Slice", "VarBitArrayToInt64Slice"); ("[][]bool", "VarBitArrayFromBoolSliceSlice", "VarBitArrayToBoolSliceSlice"); ("[][]uint8", "VarBitArrayFromUint8SliceSlice", "VarBitArrayToUint8SliceSlice"); ("[]string", "VarBitArrayFromStringSlice", "VarBitArrayToStringSlice"); ("string", "", ""); ("[]byte", "", "")]);
   (oid_VarChar, false, [("string", "", ""); ("[]byte", "", "")]);
   (oid_VarCharArr, false, [("[]string", "VarCharArrayFromStringSlice", "VarCharArrayToStringSlice"); ("[][]byte", "VarCharArrayFromByteSliceSlice", "VarCharArrayToByteSliceSlice"); ("string", "", ""); ("[]byte", "", "")]);
   (oid_XML, false, [("interface{}", "XML", "XML"); ("string", "", ""); ("[]byte", "", "")]);
   (oid_XMLArr, false, [("[][]byte", "XMLArrayFromByteSliceSlice", "XMLArrayToByteSliceSlice"); ("string", "", ""); ("[]byte", "", "")])].

Definition oid2literal : list (N * bool * list (bytes * compentry)) :=
  map (fun r => (fst r, map (fun e => (B (fst (fst e)), MkCE (B (snd (fst e))) (B (snd e)))) (snd r))) compat_text.

(** The exported functions of pgsql/*.go that take one argument and return a
    driver.Valuer or a sql.Scanner: name, type of the parameter, whether the
    result is a Valuer, whether it is a Scanner. *)
Record gofunc := MkGF { gf_name : bytes; gf_param : bytes; gf_valuer : bool; gf_scanner : bool }.
Definition pgsql_text : list (string * string * bool * bool) :=
  [
   ("AnyToEmptyInterface", "*interface{}", false, true);
   ("BitFromBool", "bool", true, false);
   ("BitArrayFromBoolSlice", "[]bool", true, false);
   ("BitArrayToBoolSlice", "*[]bool", false, true);
   ("BitArrayFromUint8Slice", "[]uint8", true, false);
   ("BitArrayToUint8Slice", "*[]uint8", false, true);
   ("BitArrayFromUintSlice", "[]uint", true, false);
   ("BitArrayToUintSlice", "*[]uint", false, true);
   ("BoolArrayFromBoolSlice", "[]bool", true, false);
   ("BoolArrayToBoolSlice", "*[]bool", false, true);
   ("BoxFromFloat64Array2Array2", "[2][2]float64", true, false);
   ("BoxToFloat64Array2Array2", "*[2][2]float64", false, true);
   ("BoxArrayFromFloat64Array2Array2Slice", "[][2][2]float64", true, false);
   ("BoxArrayToFloat64Array2Array2Slice", "*[][2][2]float64", false, true);
   ("BPCharFromByte", "byte", true, false);
   ("BPCharToByte", "*byte", false, true);
   ("BPCharFromRune", "rune", true, false);
   ("BPCharToRune", "*rune", false, true);
   ("BPCharArrayFromString", "string", true, false);
   ("BPCharArrayToString", "*string", false, true);
   ("BPCharArrayFromByteSlice", "[]byte", true, false);
   ("BPCharArrayToByteSlice", "*[]byte", false, true);
   ("BPCharArrayFromRuneSlice", "[]rune", true, false);
   ("BPCharArrayToRuneSlice", "*[]rune", false, true);
   ("BPCharArrayFromStringSlice", "[]string", true, false);
   ("BPCharArrayToStringSlice", "*[]string", false, true);
   ("ByteaArrayFromByteSliceSlice", "[][]byte", true, false);
   ("ByteaArrayToByteSliceSlice", "*[][]byte", false, true);
   ("ByteaArrayFromStringSlice", "[]string", true, false);
   ("ByteaArrayToStringSlice", "*[]string", false, true);
   ("CharFromByte", "byte", true, false);
   ("CharToByte", "*byte", false, true);
   ("CharFromRune", "rune", true, false);
   ("CharToRune", "*rune", false, true);
   ("CharArrayFromString", "string", true, false);
   ("CharArrayToString", "*string", false, true);
   ("CharArrayFromByteSlice", "[]byte", true, false);
   ("CharArrayToByteSlice", "*[]byte", false, true);
   ("CharArrayFromRuneSlice", "[]rune", true, false);
   ("CharArrayToRuneSlice", "*[]rune", false, true);
   ("CharArrayFromStringSlice", "[]string", true, false);
   ("CharArrayToStringSlice", "*[]string", false, true);
   ("CIDRFromIPNet", "net.IPNet", true, false);
   ("CIDRToIPNet", "*net.IPNet", false, true);
   ("CIDRArrayFromIPNetSlice", "[]net.IPNet", true, false);
   ("CIDRArrayToIPNetSlice", "*[]net.IPNet", false, true);
   ("DateToTime", "*time.Time", false, true);
   ("DateToString", "*string", false, true);
   ("DateToByteSlice", "*[]byte", false, true);
   ("DateArrayFromTimeSlice", "[]time.Time", true, false);
   ("DateArrayToTimeSlice", "*[]time.Time", false, true);
   ("DateRangeFromTimeArray2", "[2]time.Time", true, false);
   ("DateRangeToTimeArray2", "*[2]time.Time", false, true);
   ("DateRangeArrayFromTimeArray2Slice", "[][2]time.Time", true, false);
   ("DateRangeArrayToTimeArray2Slice", "*[][2]time.Time", false, true);
   ("Float4ArrayFromFloat32Slice", "[]float32", true, false);
   ("Float4ArrayToFloat32Slice", "*[]float32", false, true);
   ("Float4ArrayFromFloat64Slice", "[]float64", true, false);
   ("Float4ArrayToFloat64Slice", "*[]float64", false, true);
   ("Float8ArrayFromFloat32Slice", "[]float32", true, false);
   ("Float8ArrayToFloat32Slice", "*[]float32", false, true);
   ("Float8ArrayFromFloat64Slice", "[]float64", true, false);
   ("Float8ArrayToFloat64Slice", "*[]float64", false, true);
   ("HStoreFromStringMap", "map[string]string", true, false);
   ("HStoreToStringMap", "*map[string]string", false, true);
   ("HStoreFromStringPtrMap", "map[string]*string", true, false);
   ("HStoreToStringPtrMap", "*map[string]*string", false, true);
   ("HStoreFromNullStringMap", "map[string]sql.NullString", true, false);
   ("HStoreToNullStringMap", "*map[string]sql.NullString", false, true);
   ("HStoreArrayFromStringMapSlice", "[]map[string]string", true, false);
   ("HStoreArrayToStringMapSlice", "*[]map[string]string", false, true);
   ("HStoreArrayFromStringPtrMapSlice", "[]map[string]*string", true, false);
   ("HStoreArrayToStringPtrMapSlice", "*[]map[string]*string", false, true);
   ("HStoreArrayFromNullStringMapSlice", "[]map[string]sql.NullString", true, false);
   ("HStoreArrayToNullStringMapSlice", "*[]map[string]sql.NullString", false, true);
   ("InetFromIPNet", "net.IPNet", true, false);
   ("InetToIPNet", "*net.IPNet", false, true);
   ("InetFromIP", "net.IP", true, false);
   ("InetToIP", "*net.IP", false, true);
   ("InetArrayFromIPNetSlice", "[]net.IPNet", true, false);
   ("InetArrayToIPNetSlice", "*[]net.IPNet", false, true);
   ("InetArrayFromIPSlice", "[]net.IP", true, false);
   ("InetArrayToIPSlice", "*[]net.IP", false, true);
   ("Int2ArrayFromIntSlice", "[]int", true, false);
   ("Int2ArrayToIntSlice", "*[]int", false, true);
   ("Int2ArrayFromInt8Slice", "[]int8", true, false);
   ("Int2ArrayToInt8Slice", "*[]int8", false, true);
   ("Int2ArrayFromInt16Slice", "[]int16", true, false);
   ("Int2ArrayToInt16Slice", "*[]int16", false, true);
   ("Int2ArrayFromInt32Slice", "[]int32", true, false);
   ("Int2ArrayToInt32Slice", "*[]int32", false, true);
   ("Int2ArrayFromInt64Slice", "[]int64", true, false);
   ("Int2ArrayToInt64Slice", "*[]int64", false, true);
   ("Int2ArrayFromUintSlice", "[]uint", true, false);
   ("Int2ArrayToUintSlice", "*[]uint", false, true);
   ("Int2ArrayFromUint8Slice", "[]uint8", true, false);
   ("Int2ArrayToUint8Slice", "*[]uint8", false, true);
   ("Int2ArrayFromUint16Slice", "[]uint16", true, false);
   ("Int2ArrayToUint16Slice", "*[]uint16", false, true);
   ("Int2ArrayFromUint32Slice", "[]uint32", true, false);
   ("Int2ArrayToUint32Slice", "*[]uint32", false, true);
   ("Int2ArrayFromUint64Slice", "[]uint64", true, false);
   ("Int2ArrayToUint64Slice", "*[]uint64", false, true);
   ("Int2ArrayFromFloat32Slice", "[]float32", true, false);
   ("Int2ArrayToFloat32Slice", "*[]float32", false, true);
   ("Int2ArrayFromFloat64Slice", "[]float64", true, false);
   ("Int2ArrayToFloat64Slice", "*[]float64", false, true);
   ("Int2VectorFromIntSlice", "[]int", true, false);
   ("Int2VectorToIntSlice", "*[]int", false, true);
   ("Int2VectorFromInt8Slice", "[]int8", true, false);
   ("Int2VectorToInt8Slice", "*[]int8", false, true);
   ("Int2VectorFromInt16Slice", "[]int16", true, false);
   ("Int2VectorToInt16Slice", "*[]int16", false, true);
   ("Int2VectorFromInt32Slice", "[]int32", true, false);
   ("Int2VectorToInt32Slice", "*[]int32", false, true);
   ("Int2VectorFromInt64Slice", "[]int64", true, false);
   ("Int2VectorToInt64Slice", "*[]int64", false, true);
   ("Int2VectorFromUintSlice", "[]uint", true, false);
   ("Int2VectorToUintSlice", "*[]uint", false, true);
   ("Int2VectorFromUint8Slice", "[]uint8", true, false);
   ("Int2VectorToUint8Slice", "*[]uint8", false, true);
   ("Int2VectorFromUint16Slice", "[]uint16", true, false);
   ("Int2VectorToUint16Slice", "*[]uint16", false, true);
   ("Int2VectorFromUint32Slice", "[]uint32", true, false);
   ("Int2VectorToUint32Slice", "*[]uint32", false, true);
   ("Int2VectorFromUint64Slice", "[]uint64", true, false);
   ("Int2VectorToUint64Slice", "*[]uint64", false, true);
   ("Int2VectorFromFloat32Slice", "[]float32", true, false);
   ("Int2VectorToFloat32Slice", "*[]float32", false, true);
   ("Int2VectorFromFloat64Slice", "[]float64", true, false);
   ("Int2VectorToFloat64Slice", "*[]float64", false, true);
   ("Int2VectorArrayFromIntSliceSlice", "[][]int", true, false);
   ("Int2VectorArrayToIntSliceSlice", "*[][]int", false, true);
   ("Int2VectorArrayFromInt8SliceSlice", "[][]int8", true, false);
   ("Int2VectorArrayToInt8SliceSlice", "*[][]int8", false, true);
   ("Int2VectorArrayFromInt16SliceSlice", "[][]int16", true, false);
   ("Int2VectorArrayToInt16SliceSlice", "*[][]int16", false, true);
   ("Int2VectorArrayFromInt32SliceSlice", "[][]int32", true, false);
   ("Int2VectorArrayToInt32SliceSlice", "*[][]int32", false, true);
   ("Int2VectorArrayFromInt64SliceSlice", "[][]int64", true, false);
   ("Int2VectorArrayToInt64SliceSlice", "*[][]int64", false, true);
   ("Int2VectorArrayFromUintSliceSlice", "[][]uint", true, false);
   ("Int2VectorArrayToUintSliceSlice", "*[][]uint", false, true);
   ("Int2VectorArrayFromUint8SliceSlice", "[][]uint8", true, false);
   ("Int2VectorArrayToUint8SliceSlice", "*[][]uint8", false, true);
   ("Int2VectorArrayFromUint16SliceSlice", "[][]uint16", true, false);
   ("Int2VectorArrayToUint16SliceSlice", "*[][]uint16", false, true);
   ("Int2VectorArrayFromUint32SliceSlice", "[][]uint32", true, false);
   ("Int2VectorArrayToUint32SliceSlice", "*[][]uint32", false, true);
   ("Int2VectorArrayFromUint64SliceSlice", "[][]uint64", true, false);
   ("Int2VectorArrayToUint64SliceSlice", "*[][]uint64", false, true);
   ("Int2VectorArrayFromFloat32SliceSlice", "[][]float32", true, false);
   ("Int2VectorArrayToFloat32SliceSlice", "*[][]float32", false, true);
   ("Int2VectorArrayFromFloat64SliceSlice", "[][]float64", true, false);
   ("Int2VectorArrayToFloat64SliceSlice", "*[][]float64", false, true);
   ("Int4ArrayFromIntSlice", "[]int", true, false);
   ("Int4ArrayToIntSlice", "*[]int", false, true);
   ("Int4ArrayFromInt8Slice", "[]int8", true, false);
   ("Int4ArrayToInt8Slice", "*[]int8", false, true);
   ("Int4ArrayFromInt16Slice", "[]int16", true, false);
   ("Int4ArrayToInt16Slice", "*[]int16", false, true);
   ("Int4ArrayFromInt32Slice", "[]int32", true, false);
   ("Int4ArrayToInt32Slice", "*[]int32", false, true);
   ("Int4ArrayFromInt64Slice", "[]int64", true, false);
   ("Int4ArrayToInt64Slice", "*[]int64", false, true);
   ("Int4ArrayFromUintSlice", "[]uint", true, false);
   ("Int4ArrayToUintSlice", "*[]uint", false, true);
   ("Int4ArrayFromUint8Slice", "[]uint8", true, false);
   ("Int4ArrayToUint8Slice", "*[]uint8", false, true);
   ("Int4ArrayFromUint16Slice", "[]uint16", true, false);
   ("Int4ArrayToUint16Slice", "*[]uint16", false, true);
   ("Int4ArrayFromUint32Slice", "[]uint32", true, false);
   ("Int4ArrayToUint32Slice", "*[]uint32", false, true);
   ("Int4ArrayFromUint64Slice", "[]uint64", true, false);
   ("Int4ArrayToUint64Slice", "*[]uint64", false, true);
   ("Int4ArrayFromFloat32Slice", "[]float32", true, false);
   ("Int4ArrayToFloat32Slice", "*[]float32", false, true);
   ("Int4ArrayFromFloat64Slice", "[]float64", true, false);
   ("Int4ArrayToFloat64Slice", "*[]float64", false, true);
   ("Int4RangeFromIntArray2", "[2]int", true, false);
   ("Int4RangeToIntArray2", "*[2]int", false, true);
   ("Int4RangeFromInt8Array2", "[2]int8", true, false);
   ("Int4RangeToInt8Array2", "*[2]int8", false, true);
   ("Int4RangeFromInt16Array2", "[2]int16", true, false);
   ("Int4RangeToInt16Array2", "*[2]int16", false, true);
   ("Int4RangeFromInt32Array2", "[2]int32", true, false);
   ("Int4RangeToInt32Array2", "*[2]int32", false, true);
   ("Int4RangeFromInt64Array2", "[2]int64", true, false);
   ("Int4RangeToInt64Array2", "*[2]int64", false, true);
   ("Int4RangeFromUintArray2", "[2]uint", true, false);
   ("Int4RangeToUintArray2", "*[2]uint", false, true);
   ("Int4RangeFromUint8Array2", "[2]uint8", true, false);
   ("Int4RangeToUint8Array2", "*[2]uint8", false, true);
   ("Int4RangeFromUint16Array2", "[2]uint16", true, false);
   ("Int4RangeToUint16Array2", "*[2]uint16", false, true);
   ("Int4RangeFromUint32Array2", "[2]uint32", true, false);
   ("Int4RangeToUint32Array2", "*[2]uint32", false, true);
   ("Int4RangeFromUint64Array2", "[2]uint64", true, false);
   ("Int4RangeToUint64Array2", "*[2]uint64", false, true);
   ("Int4RangeFromFloat32Array2", "[2]float32", true, false);
   ("Int4RangeToFloat32Array2", "*[2]float32", false, true);
   ("Int4RangeFromFloat64Array2", "[2]float64", true, false);
   ("Int4RangeToFloat64Array2", "*[2]float64", false, true);
   ("Int4RangeArrayFromIntArray2Slice", "[][2]int", true, false);
   ("Int4RangeArrayToIntArray2Slice", "*[][2]int", false, true);
   ("Int4RangeArrayFromInt8Array2Slice", "[][2]int8", true, false);
   ("Int4RangeArrayToInt8Array2Slice", "*[][2]int8", false, true);
   ("Int4RangeArrayFromInt16Array2Slice", "[][2]int16", true, false);
   ("Int4RangeArrayToInt16Array2Slice", "*[][2]int16", false, true);
   ("Int4RangeArrayFromInt32Array2Slice", "[][2]int32", true, false);
   ("Int4RangeArrayToInt32Array2Slice", "*[][2]int32", false, true);
   ("Int4RangeArrayFromInt64Array2Slice", "[][2]int64", true, false);
   ("Int4RangeArrayToInt64Array2Slice", "*[][2]int64", false, true);
   ("Int4RangeArrayFromUintArray2Slice", "[][2]uint", true, false);
   ("Int4RangeArrayToUintArray2Slice", "*[][2]uint", false, true);
   ("Int4RangeArrayFromUint8Array2Slice", "[][2]uint8", true, false);
   ("Int4RangeArrayToUint8Array2Slice", "*[][2]uint8", false, true);
   ("Int4RangeArrayFromUint16Array2Slice", "[][2]uint16", true, false);
   ("Int4RangeArrayToUint16Array2Slice", "*[][2]uint16", false, true);
   ("Int4RangeArrayFromUint32Array2Slice", "[][2]uint32", true, false);
   ("Int4RangeArrayToUint32Array2Slice", "*[][2]uint32", false, true);
   ("Int4RangeArrayFromUint64Array2Slice", "[][2]uint64", true, false);
   ("Int4RangeArrayToUint64Array2Slice", "*[][2]uint64", false, true);
   ("Int4RangeArrayFromFloat32Array2Slice", "[][2]float32", true, false);
   ("Int4RangeArrayToFloat32Array2Slice", "*[][2]float32", false, true);
   ("Int4RangeArrayFromFloat64Array2Slice", "[][2]float64", true, false);
   ("Int4RangeArrayToFloat64Array2Slice", "*[][2]float64", false, true);
   ("Int8ArrayFromIntSlice", "[]int", true, false);
   ("Int8ArrayToIntSlice", "*[]int", false, true);
   ("Int8ArrayFromInt8Slice", "[]int8", true, false);
   ("Int8ArrayToInt8Slice", "*[]int8", false, true);
   ("Int8ArrayFromInt16Slice", "[]int16", true, false);
   ("Int8ArrayToInt16Slice", "*[]int16", false, true);
   ("Int8ArrayFromInt32Slice", "[]int32", true, false);
   ("Int8ArrayToInt32Slice", "*[]int32", false, true);
   ("Int8ArrayFromInt64Slice", "[]int64", true, false);
   ("Int8ArrayToInt64Slice", "*[]int64", false, true);
   ("Int8ArrayFromUintSlice", "[]uint", true, false);
   ("Int8ArrayToUintSlice", "*[]uint", false, true);
   ("Int8ArrayFromUint8Slice", "[]uint8", true, false);
   ("Int8ArrayToUint8Slice", "*[]uint8", false, true);
   ("Int8ArrayFromUint16Slice", "[]uint16", true, false);
   ("Int8ArrayToUint16Slice", "*[]uint16", false, true);
   ("Int8ArrayFromUint32Slice", "[]uint32", true, false);
   ("Int8ArrayToUint32Slice", "*[]uint32", false, true);
   ("Int8ArrayFromUint64Slice", "[]uint64", true, false);
   ("Int8ArrayToUint64Slice", "*[]uint64", false, true);
   ("Int8ArrayFromFloat32Slice", "[]float32", true, false);
   ("Int8ArrayToFloat32Slice", "*[]float32", false, true);
   ("Int8ArrayFromFloat64Slice", "[]float64", true, false);
   ("Int8ArrayToFloat64Slice", "*[]float64", false, true);
   ("Int8RangeFromIntArray2", "[2]int", true, false);
   ("Int8RangeToIntArray2", "*[2]int", false, true);
   ("Int8RangeFromInt8Array2", "[2]int8", true, false);
   ("Int8RangeToInt8Array2", "*[2]int8", false, true);
   ("Int8RangeFromInt16Array2", "[2]int16", true, false);
   ("Int8RangeToInt16Array2", "*[2]int16", false, true);
   ("Int8RangeFromInt32Array2", "[2]int32", true, false);
   ("Int8RangeToInt32Array2", "*[2]int32", false, true);
   ("Int8RangeFromInt64Array2", "[2]int64", true, false);
   ("Int8RangeToInt64Array2", "*[2]int64", false, true);
   ("Int8RangeFromUintArray2", "[2]uint", true, false);
   ("Int8RangeToUintArray2", "*[2]uint", false, true);
   ("Int8RangeFromUint8Array2", "[2]uint8", true, false);
   ("Int8RangeToUint8Array2", "*[2]uint8", false, true);
   ("Int8RangeFromUint16Array2", "[2]uint16", true, false);
   ("Int8RangeToUint16Array2", "*[2]uint16", false, true);
   ("Int8RangeFromUint32Array2", "[2]uint32", true, false);
   ("Int8RangeToUint32Array2", "*[2]uint32", false, true);
   ("Int8RangeFromUint64Array2", "[2]uint64", true, false);
   ("Int8RangeToUint64Array2", "*[2]uint64", false, true);
   ("Int8RangeFromFloat32Array2", "[2]float32", true, false);
   ("Int8RangeToFloat32Array2", "*[2]float32", false, true);
   ("Int8RangeFromFloat64Array2", "[2]float64", true, false);
   ("Int8RangeToFloat64Array2", "*[2]float64", false, true);
   ("Int8RangeArrayFromIntArray2Slice", "[][2]int", true, false);
   ("Int8RangeArrayToIntArray2Slice", "*[][2]int", false, true);
   ("Int8RangeArrayFromInt8Array2Slice", "[][2]int8", true, false);
   ("Int8RangeArrayToInt8Array2Slice", "*[][2]int8", false, true);
   ("Int8RangeArrayFromInt16Array2Slice", "[][2]int16", true, false);
   ("Int8RangeArrayToInt16Array2Slice", "*[][2]int16", false, true);
   ("Int8RangeArrayFromInt32Array2Slice", "[][2]int32", true, false);
   ("Int8RangeArrayToInt32Array2Slice", "*[][2]int32", false, true);
   ("Int8RangeArrayFromInt64Array2Slice", "[][2]int64", true, false);
   ("Int8RangeArrayToInt64Array2Slice", "*[][2]int64", false, true);
   ("Int8RangeArrayFromUintArray2Slice", "[][2]uint", true, false);
   ("Int8RangeArrayToUintArray2Slice", "*[][2]uint", false, true);
   ("Int8RangeArrayFromUint8Array2Slice", "[][2]uint8", true, false);
   ("Int8RangeArrayToUint8Array2Slice", "*[][2]uint8", false, true);
   ("Int8RangeArrayFromUint16Array2Slice", "[][2]uint16", true, false);
   ("Int8RangeArrayToUint16Array2Slice", "*[][2]uint16", false, true);
   ("Int8RangeArrayFromUint32Array2Slice", "[][2]uint32", true, false);
   ("Int8RangeArrayToUint32Array2Slice", "*[][2]uint32", false, true);
   ("Int8RangeArrayFromUint64Array2Slice", "[][2]uint64", true, false);
   ("Int8RangeArrayToUint64Array2Slice", "*[][2]uint64", false, true);
   ("Int8RangeArrayFromFloat32Array2Slice", "[][2]float32", true, false);
   ("Int8RangeArrayToFloat32Array2Slice", "*[][2]float32", false, true);
   ("Int8RangeArrayFromFloat64Array2Slice", "[][2]float64", true, false);
   ("Int8RangeArrayToFloat64Array2Slice", "*[][2]float64", false, true);
   ("JSON", "interface{}", true, true);
   ("JSONArrayFromByteSliceSlice", "[][]byte", true, false);
   ("JSONArrayToByteSliceSlice", "*[][]byte", false, true);
   ("LineFromFloat64Array3", "[3]float64", true, false);
   ("LineToFloat64Array3", "*[3]float64", false, true);
   ("LineArrayFromFloat64Array3Slice", "[][3]float64", true, false);
   ("LineArrayToFloat64Array3Slice", "*[][3]float64", false, true);
   ("LsegFromFloat64Array2Array2", "[2][2]float64", true, false);
   ("LsegToFloat64Array2Array2", "*[2][2]float64", false, true);
   ("LsegArrayFromFloat64Array2Array2Slice", "[][2][2]float64", true, false);
   ("LsegArrayToFloat64Array2Array2Slice", "*[][2][2]float64", false, true);
   ("MACAddrFromHardwareAddr", "net.HardwareAddr", true, false);
   ("MACAddrToHardwareAddr", "*net.HardwareAddr", false, true);
   ("MACAddr8FromHardwareAddr", "net.HardwareAddr", true, false);
   ("MACAddr8ToHardwareAddr", "*net.HardwareAddr", false, true);
   ("MACAddr8ArrayFromHardwareAddrSlice", "[]net.HardwareAddr", true, false);
   ("MACAddr8ArrayToHardwareAddrSlice", "*[]net.HardwareAddr", false, true);
   ("MACAddrArrayFromHardwareAddrSlice", "[]net.HardwareAddr", true, false);
   ("MACAddrArrayToHardwareAddrSlice", "*[]net.HardwareAddr", false, true);
   ("MoneyFromInt64", "int64", true, false);
   ("MoneyToInt64", "*int64", false, true);
   ("MoneyArrayFromInt64Slice", "[]int64", true, false);
   ("MoneyArrayToInt64Slice", "*[]int64", false, true);
   ("NumericArrayFromIntSlice", "[]int", true, false);
   ("NumericArrayToIntSlice", "*[]int", false, true);
   ("NumericArrayFromInt8Slice", "[]int8", true, false);
   ("NumericArrayToInt8Slice", "*[]int8", false, true);
   ("NumericArrayFromInt16Slice", "[]int16", true, false);
   ("NumericArrayToInt16Slice", "*[]int16", false, true);
   ("NumericArrayFromInt32Slice", "[]int32", true, false);
   ("NumericArrayToInt32Slice", "*[]int32", false, true);
   ("NumericArrayFromInt64Slice", "[]int64", true, false);
   ("NumericArrayToInt64Slice", "*[]int64", false, true);
   ("NumericArrayFromUintSlice", "[]uint", true, false);
   ("NumericArrayToUintSlice", "*[]uint", false, true);
   ("NumericArrayFromUint8Slice", "[]uint8", true, false);
   ("NumericArrayToUint8Slice", "*[]uint8", false, true);
   ("NumericArrayFromUint16Slice", "[]uint16", true, false);
   ("NumericArrayToUint16Slice", "*[]uint16", false, true);
   ("NumericArrayFromUint32Slice", "[]uint32", true, false);
   ("NumericArrayToUint32Slice", "*[]uint32", false, true);
   ("NumericArrayFromUint64Slice", "[]uint64", true, false);
   ("NumericArrayToUint64Slice", "*[]uint64", false, true);
   ("NumericArrayFromFloat32Slice", "[]float32", true, false);
   ("NumericArrayToFloat32Slice", "*[]float32", false, true);
   ("NumericArrayFromFloat64Slice", "[]float64", true, false);
   ("NumericArrayToFloat64Slice", "*[]float64", false, true);
   ("NumRangeFromIntArray2", "[2]int", true, false);
   ("NumRangeToIntArray2", "*[2]int", false, true);
   ("NumRangeFromInt8Array2", "[2]int8", true, false);
   ("NumRangeToInt8Array2", "*[2]int8", false, true);
   ("NumRangeFromInt16Array2", "[2]int16", true, false);
   ("NumRangeToInt16Array2", "*[2]int16", false, true);
   ("NumRangeFromInt32Array2", "[2]int32", true, false);
   ("NumRangeToInt32Array2", "*[2]int32", false, true);
   ("NumRangeFromInt64Array2", "[2]int64", true, false);
   ("NumRangeToInt64Array2", "*[2]int64", false, true);
   ("NumRangeFromUintArray2", "[2]uint", true, false);
   ("NumRangeToUintArray2", "*[2]uint", false, true);
   ("NumRangeFromUint8Array2", "[2]uint8", true, false);
   ("NumRangeToUint8Array2", "*[2]uint8", false, true);
   ("NumRangeFromUint16Array2", "[2]uint16", true, false);
   ("NumRangeToUint16Array2", "*[2]uint16", false, true);
   ("NumRangeFromUint32Array2", "[2]uint32", true, false);
   ("NumRangeToUint32Array2", "*[2]uint32", false, true);
   ("NumRangeFromUint64Array2", "[2]uint64", true, false);
   ("NumRangeToUint64Array2", "*[2]uint64", false, true);
   ("NumRangeFromFloat32Array2", "[2]float32", true, false);
   ("NumRangeToFloat32Array2", "*[2]float32", false, true);
   ("NumRangeFromFloat64Array2", "[2]float64", true, false);
   ("NumRangeToFloat64Array2", "*[2]float64", false, true);
   ("NumRangeArrayFromIntArray2Slice", "[][2]int", true, false);
   ("NumRangeArrayToIntArray2Slice", "*[][2]int", false, true);
   ("NumRangeArrayFromInt8Array2Slice", "[][2]int8", true, false);
   ("NumRangeArrayToInt8Array2Slice", "*[][2]int8", false, true);
   ("NumRangeArrayFromInt16Array2Slice", "[][2]int16", true, false);
   ("NumRangeArrayToInt16Array2Slice", "*[][2]int16", false, true);
   ("NumRangeArrayFromInt32Array2Slice", "[][2]int32", true, false);
   ("NumRangeArrayToInt32Array2Slice", "*[][2]int32", false, true);
   ("NumRangeArrayFromInt64Array2Slice", "[][2]int64", true, false);
   ("NumRangeArrayToInt64Array2Slice", "*[][2]int64", false, true);
   ("NumRangeArrayFromUintArray2Slice", "[][2]uint", true, false);
   ("NumRangeArrayToUintArray2Slice", "*[][2]uint", false, true);
   ("NumRangeArrayFromUint8Array2Slice", "[][2]uint8", true, false);
   ("NumRangeArrayToUint8Array2Slice", "*[][2]uint8", false, true);
   ("NumRangeArrayFromUint16Array2Slice", "[][2]uint16", true, false);
   ("NumRangeArrayToUint16Array2Slice", "*[][2]uint16", false, true);
   ("NumRangeArrayFromUint32Array2Slice", "[][2]uint32", true, false);
   ("NumRangeArrayToUint32Array2Slice", "*[][2]uint32", false, true);
   ("NumRangeArrayFromUint64Array2Slice", "[][2]uint64", true, false);
   ("NumRangeArrayToUint64Array2Slice", "*[][2]uint64", false, true);
   ("NumRangeArrayFromFloat32Array2Slice", "[][2]float32", true, false);
   ("NumRangeArrayToFloat32Array2Slice", "*[][2]float32", false, true);
   ("NumRangeArrayFromFloat64Array2Slice", "[][2]float64", true, false);
   ("NumRangeArrayToFloat64Array2Slice", "*[][2]float64", false, true);
   ("PathFromFloat64Array2Slice", "[][2]float64", true, false);
   ("PathToFloat64Array2Slice", "*[][2]float64", false, true);
   ("PathArrayFromFloat64Array2SliceSlice", "[][][2]float64", true, false);
   ("PathArrayToFloat64Array2SliceSlice", "*[][][2]float64", false, true);
   ("PointFromFloat64Array2", "[2]float64", true, false);
   ("PointToFloat64Array2", "*[2]float64", false, true);
   ("PointArrayFromFloat64Array2Slice", "[][2]float64", true, false);
   ("PointArrayToFloat64Array2Slice", "*[][2]float64", false, true);
   ("PolygonFromFloat64Array2Slice", "[][2]float64", true, false);
   ("PolygonToFloat64Array2Slice", "*[][2]float64", false, true);
   ("PolygonArrayFromFloat64Array2SliceSlice", "[][][2]float64", true, false);
   ("PolygonArrayToFloat64Array2SliceSlice", "*[][][2]float64", false, true);
   ("TextArrayFromStringSlice", "[]string", true, false);
   ("TextArrayToStringSlice", "*[]string", false, true);
   ("TextArrayFromByteSliceSlice", "[][]byte", true, false);
   ("TextArrayToByteSliceSlice", "*[][]byte", false, true);
   ("TimeToString", "*string", false, true);
   ("TimeToByteSlice", "*[]byte", false, true);
   ("TimeArrayFromTimeSlice", "[]time.Time", true, false);
   ("TimeArrayToTimeSlice", "*[]time.Time", false, true);
   ("TimestampArrayFromTimeSlice", "[]time.Time", true, false);
   ("TimestampArrayToTimeSlice", "*[]time.Time", false, true);
   ("TimestamptzArrayFromTimeSlice", "[]time.Time", true, false);
   ("TimestamptzArrayToTimeSlice", "*[]time.Time", false, true);
   ("TimetzToString", "*string", false, true);
   ("TimetzToByteSlice", "*[]byte", false, true);
   ("TimetzArrayFromTimeSlice", "[]time.Time", true, false);
   ("TimetzArrayToTimeSlice", "*[]time.Time", false, true);
   ("TSQueryArrayFromStringSlice", "[]string", true, false);
   ("TSQueryArrayToStringSlice", "*[]string", false, true);
   ("TSQueryArrayFromByteSliceSlice", "[][]byte", true, false);
   ("TSQueryArrayToByteSliceSlice", "*[][]byte", false, true);
   ("TsRangeFromTimeArray2", "[2]time.Time", true, false);
   ("TsRangeToTimeArray2", "*[2]time.Time", false, true);
   ("TsRangeArrayFromTimeArray2Slice", "[][2]time.Time", true, false);
   ("TsRangeArrayToTimeArray2Slice", "*[][2]time.Time", false, true);
   ("TstzRangeFromTimeArray2", "[2]time.Time", true, false);
   ("TstzRangeToTimeArray2", "*[2]time.Time", false, true);
   ("TstzRangeArrayFromTimeArray2Slice", "[][2]time.Time", true, false);
   ("TstzRangeArrayToTimeArray2Slice", "*[][2]time.Time", false, true);
   ("TSVectorFromStringSlice", "[]string", true, false);
   ("TSVectorToStringSlice", "*[]string", false, true);
   ("TSVectorFromByteSliceSlice", "[][]byte", true, false);
   ("TSVectorToByteSliceSlice", "*[][]byte", false, true);
   ("TSVectorArrayFromStringSliceSlice", "[][]string", true, false);
   ("TSVectorArrayToStringSliceSlice", "*[][]string", false, true);
   ("TSVectorArrayFromByteSliceSliceSlice", "[][][]byte", true, false);
   ("TSVectorArrayToByteSliceSliceSlice", "*[][][]byte", false, true);
   ("UUIDFromByteArray16", "[16]byte", true, false);
   ("UUIDToByteArray16", "*[16]byte", false, true);
   ("UUIDArrayFromByteArray16Slice", "[][16]byte", true, false);
   ("UUIDArrayToByteArray16Slice", "*[][16]byte", false, true);
   ("UUIDArrayFromStringSlice", "[]string", true, false);
   ("UUIDArrayToStringSlice", "*[]string", false, true);
   ("UUIDArrayFromByteSliceSlice", "[][]byte", true, false);
   ("UUIDArrayToByteSliceSlice", "*[][]byte", false, true);
   ("VarBitFromInt64", "int64", true, false);
   ("VarBitToInt64", "*int64", false, true);
   ("VarBitFromBoolSlice", "[]bool", true, false);
   ("VarBitToBoolSlice", "*[]bool", false, true);
   ("VarBitFromUint8Slice", "[]uint8", true, false);
   ("VarBitToUint8Slice", "*[]uint8", false, true);
   ("VarBitArrayFromBoolSliceSlice", "[][]bool", true, false);
   ("VarBitArrayToBoolSliceSlice", "*[][]bool", false, true);
   ("VarBitArrayFromUint8SliceSlice", "[][]uint8", true, false);
   ("VarBitArrayToUint8SliceSlice", "*[][]uint8", false, true);
   ("VarBitArrayFromStringSlice", "[]string", true, false);
   ("VarBitArrayToStringSlice", "*[]string", false, true);
   ("VarBitArrayFromInt64Slice", "[]int64", true, false);
   ("VarBitArrayToInt64Slice", "*[]int64", false, true);
   ("VarCharArrayFromStringSlice", "[]string", true, false);
   ("VarCharArrayToStringSlice", "*[]string", false, true);
   ("VarCharArrayFromByteSliceSlice", "[][]byte", true, false);
   ("VarCharArrayToByteSliceSlice", "*[][]byte", false, true);
   ("XML", "interface{}", true, true);
   ("XMLArrayFromByteSliceSlice", "[][]byte", true, false);
   ("XMLArrayToByteSliceSlice", "*[][]byte", false, true)].

Definition pgsql_funcs : list gofunc :=
  map (fun r => MkGF (B (fst (fst (fst r)))) (B (snd (fst (fst r)))) (snd (fst r)) (snd r)) pgsql_text.
