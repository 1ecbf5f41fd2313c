(** The tables of internal/postgres/oid/types.go. *)
From Coq Require Import Ascii String ZArith NArith Bool List.
From Verif Require Import GoBase.
Import ListNotations.
Local Open Scope string_scope.
Local Open Scope list_scope.
Local Open Scope N_scope.

(** types.go:3-99: the object identifiers. *)
Definition oid_Any : N := 2276.
Definition oid_Bit : N := 1560.
Definition oid_BitArr : N := 1561.
Definition oid_Bool : N := 16.
Definition oid_BoolArr : N := 1000.
Definition oid_Box : N := 603.
Definition oid_BoxArr : N := 1020.
Definition oid_BPChar : N := 1042.
Definition oid_BPCharArr : N := 1014.
Definition oid_Bytea : N := 17.
Definition oid_ByteaArr : N := 1001.
Definition oid_Char : N := 18.
Definition oid_CharArr : N := 1002.
Definition oid_CIDR : N := 650.
Definition oid_CIDRArr : N := 651.
Definition oid_Circle : N := 718.
Definition oid_CircleArr : N := 719.
Definition oid_Date : N := 1082.
Definition oid_DateArr : N := 1182.
Definition oid_DateRange : N := 3912.
Definition oid_DateRangeArr : N := 3913.
Definition oid_Float4 : N := 700.
Definition oid_Float4Arr : N := 1021.
Definition oid_Float8 : N := 701.
Definition oid_Float8Arr : N := 1022.
Definition oid_Inet : N := 869.
Definition oid_InetArr : N := 1041.
Definition oid_Int2 : N := 21.
Definition oid_Int2Arr : N := 1005.
Definition oid_Int2Vector : N := 22.
Definition oid_Int2VectorArr : N := 1006.
Definition oid_Int4 : N := 23.
Definition oid_Int4Arr : N := 1007.
Definition oid_Int4Range : N := 3904.
Definition oid_Int4RangeArr : N := 3905.
Definition oid_Int8 : N := 20.
Definition oid_Int8Arr : N := 1016.
Definition oid_Int8Range : N := 3926.
Definition oid_Int8RangeArr : N := 3927.
Definition oid_Interval : N := 1186.
Definition oid_IntervalArr : N := 1187.
Definition oid_JSON : N := 114.
Definition oid_JSONArr : N := 199.
Definition oid_JSONB : N := 3802.
Definition oid_JSONBArr : N := 3807.
Definition oid_Line : N := 628.
Definition oid_LineArr : N := 629.
Definition oid_LSeg : N := 601.
Definition oid_LSegArr : N := 1018.
Definition oid_MACAddr : N := 829.
Definition oid_MACAddrArr : N := 1040.
Definition oid_MACAddr8 : N := 774.
Definition oid_MACAddr8Arr : N := 775.
Definition oid_Money : N := 790.
Definition oid_MoneyArr : N := 791.
Definition oid_Numeric : N := 1700.
Definition oid_NumericArr : N := 1231.
Definition oid_NumRange : N := 3906.
Definition oid_NumRangeArr : N := 3907.
Definition oid_OIDVector : N := 30.
Definition oid_Path : N := 602.
Definition oid_PathArr : N := 1019.
Definition oid_Point : N := 600.
Definition oid_PointArr : N := 1017.
Definition oid_Polygon : N := 604.
Definition oid_PolygonArr : N := 1027.
Definition oid_Text : N := 25.
Definition oid_TextArr : N := 1009.
Definition oid_Time : N := 1083.
Definition oid_TimeArr : N := 1183.
Definition oid_Timestamp : N := 1114.
Definition oid_TimestampArr : N := 1115.
Definition oid_Timestamptz : N := 1184.
Definition oid_TimestamptzArr : N := 1185.
Definition oid_Timetz : N := 1266.
Definition oid_TimetzArr : N := 1270.
Definition oid_TSQuery : N := 3615.
Definition oid_TSQueryArr : N := 3645.
Definition oid_TsRange : N := 3908.
Definition oid_TsRangeArr : N := 3909.
Definition oid_TsTzRange : N := 3910.
Definition oid_TsTzRangeArr : N := 3911.
Definition oid_TSVector : N := 3614.
Definition oid_TSVectorArr : N := 3643.
Definition oid_UUID : N := 2950.
Definition oid_UUIDArr : N := 2951.
Definition oid_Unknown : N := 705.
Definition oid_VarBit : N := 1562.
Definition oid_VarBitArr : N := 1563.
Definition oid_VarChar : N := 1043.
Definition oid_VarCharArr : N := 1015.
Definition oid_XML : N := 142.
Definition oid_XMLArr : N := 143.

(** types.go:104-151 *)
Definition TypeToArray : list (N * N) :=
  [(oid_Bit, oid_BitArr);
   (oid_Bool, oid_BoolArr);
   (oid_Box, oid_BoxArr);
   (oid_BPChar, oid_BPCharArr);
   (oid_Bytea, oid_ByteaArr);
   (oid_Char, oid_CharArr);
   (oid_CIDR, oid_CIDRArr);
   (oid_Circle, oid_CircleArr);
   (oid_Date, oid_DateArr);
   (oid_DateRange, oid_DateRangeArr);
   (oid_Float4, oid_Float4Arr);
   (oid_Float8, oid_Float8Arr);
   (oid_Inet, oid_InetArr);
   (oid_Int2, oid_Int2Arr);
   (oid_Int2Vector, oid_Int2VectorArr);
   (oid_Int4, oid_Int4Arr);
   (oid_Int4Range, oid_Int4RangeArr);
   (oid_Int8, oid_Int8Arr);
   (oid_Int8Range, oid_Int8RangeArr);
   (oid_Interval, oid_IntervalArr);
   (oid_JSON, oid_JSONArr);
   (oid_JSONB, oid_JSONBArr);
   (oid_Line, oid_LineArr);
   (oid_LSeg, oid_LSegArr);
   (oid_MACAddr, oid_MACAddrArr);
   (oid_MACAddr8, oid_MACAddr8Arr);
   (oid_Money, oid_MoneyArr);
   (oid_Numeric, oid_NumericArr);
   (oid_NumRange, oid_NumRangeArr);
   (oid_Path, oid_PathArr);
   (oid_Point, oid_PointArr);
   (oid_Polygon, oid_PolygonArr);
   (oid_Text, oid_TextArr);
   (oid_Time, oid_TimeArr);
   (oid_Timestamp, oid_TimestampArr);
   (oid_Timestamptz, oid_TimestamptzArr);
   (oid_Timetz, oid_TimetzArr);
   (oid_TSQuery, oid_TSQueryArr);
   (oid_TsRange, oid_TsRangeArr);
   (oid_TsTzRange, oid_TsTzRangeArr);
   (oid_TSVector, oid_TSVectorArr);
   (oid_UUID, oid_UUIDArr);
   (oid_VarBit, oid_VarBitArr);
   (oid_VarChar, oid_VarCharArr);
   (oid_XML, oid_XMLArr)].

(** types.go:153-200 *)
Definition ArrayToElem : list (N * N) :=
  [(oid_BitArr, oid_Bit);
   (oid_BoolArr, oid_Bool);
   (oid_BoxArr, oid_Box);
   (oid_BPCharArr, oid_BPChar);
   (oid_ByteaArr, oid_Bytea);
   (oid_CharArr, oid_Char);
   (oid_CIDRArr, oid_CIDR);
   (oid_CircleArr, oid_Circle);
   (oid_DateArr, oid_Date);
   (oid_DateRangeArr, oid_DateRange);
   (oid_Float4Arr, oid_Float4);
   (oid_Float8Arr, oid_Float8);
   (oid_InetArr, oid_Inet);
   (oid_Int2Arr, oid_Int2);
   (oid_Int2VectorArr, oid_Int2Vector);
   (oid_Int4Arr, oid_Int4);
   (oid_Int4RangeArr, oid_Int4Range);
   (oid_Int8Arr, oid_Int8);
   (oid_Int8RangeArr, oid_Int8Range);
   (oid_IntervalArr, oid_Interval);
   (oid_JSONArr, oid_JSON);
   (oid_JSONBArr, oid_JSONB);
   (oid_LineArr, oid_Line);
   (oid_LSegArr, oid_LSeg);
   (oid_MACAddrArr, oid_MACAddr);
   (oid_MACAddr8Arr, oid_MACAddr8);
   (oid_MoneyArr, oid_Money);
   (oid_NumericArr, oid_Numeric);
   (oid_NumRangeArr, oid_NumRange);
   (oid_PathArr, oid_Path);
   (oid_PointArr, oid_Point);
   (oid_PolygonArr, oid_Polygon);
   (oid_TextArr, oid_Text);
   (oid_TimeArr, oid_Time);
   (oid_TimestampArr, oid_Timestamp);
   (oid_TimestamptzArr, oid_Timestamptz);
   (oid_TimetzArr, oid_Timetz);
   (oid_TSQueryArr, oid_TSQuery);
   (oid_TsRangeArr, oid_TsRange);
   (oid_TsTzRangeArr, oid_TsTzRange);
   (oid_TSVectorArr, oid_TSVector);
   (oid_UUIDArr, oid_UUID);
   (oid_VarBitArr, oid_VarBit);
   (oid_VarCharArr, oid_VarChar);
   (oid_XMLArr, oid_XML)].

(** types.go:202-296 *)
Definition TypeToZeroValue : list (N * bytes) :=
  [(oid_Bit, B "'0'");
   (oid_BitArr, B "'{}'");
   (oid_Bool, B "false");
   (oid_BoolArr, B "'{}'");
   (oid_Box, B "'(0,0),(0,0)'");
   (oid_BoxArr, B "'{}'");
   (oid_BPChar, B "''");
   (oid_BPCharArr, B "'{}'");
   (oid_Bytea, B "'\x'");
   (oid_ByteaArr, B "'{}'");
   (oid_Char, B "''");
   (oid_CharArr, B "'{}'");
   (oid_CIDR, B "'0.0.0.0/0'");
   (oid_CIDRArr, B "'{}'");
   (oid_Circle, B "'<(0,0),0>'");
   (oid_CircleArr, B "'{}'");
   (oid_Date, B "'0001-01-01'");
   (oid_DateArr, B "'{}'");
   (oid_DateRange, B "'(,)'");
   (oid_DateRangeArr, B "'{}'");
   (oid_Float4, B "0");
   (oid_Float4Arr, B "'{}'");
   (oid_Float8, B "0");
   (oid_Float8Arr, B "'{}'");
   (oid_Inet, B "'0.0.0.0'");
   (oid_InetArr, B "'{}'");
   (oid_Int2, B "0");
   (oid_Int2Arr, B "'{}'");
   (oid_Int2Vector, B "''");
   (oid_Int2VectorArr, B "'{}'");
   (oid_Int4, B "0");
   (oid_Int4Arr, B "'{}'");
   (oid_Int4Range, B "'(,)'");
   (oid_Int4RangeArr, B "'{}'");
   (oid_Int8, B "0");
   (oid_Int8Arr, B "'{}'");
   (oid_Int8Range, B "'(,)'");
   (oid_Int8RangeArr, B "'{}'");
   (oid_Interval, B "'00:00:00'");
   (oid_IntervalArr, B "'{}'");
   (oid_JSON, B "'null'");
   (oid_JSONArr, B "'{}'");
   (oid_JSONB, B "'null'");
   (oid_JSONBArr, B "'{}'");
   (oid_LineArr, B "'{}'");
   (oid_LSeg, B "[(0,0),(0,0)]");
   (oid_LSegArr, B "'{}'");
   (oid_MACAddr, B "'00:00:00:00:00:00'");
   (oid_MACAddrArr, B "'{}'");
   (oid_MACAddr8, B "'00:00:00:00:00:00:00:00'");
   (oid_MACAddr8Arr, B "'{}'");
   (oid_Money, B "0");
   (oid_MoneyArr, B "'{}'");
   (oid_Numeric, B "0");
   (oid_NumericArr, B "'{}'");
   (oid_NumRange, B "'(,)'");
   (oid_NumRangeArr, B "'{}'");
   (oid_OIDVector, B "''");
   (oid_Path, B "'((0,0))'");
   (oid_PathArr, B "'{}'");
   (oid_Point, B "'(0,0)'");
   (oid_PointArr, B "'{}'");
   (oid_Polygon, B "'((0,0))'");
   (oid_PolygonArr, B "'{}'");
   (oid_Text, B "''");
   (oid_TextArr, B "'{}'");
   (oid_Time, B "'00:00:00'");
   (oid_TimeArr, B "'{}'");
   (oid_Timestamp, B "'0001-01-01 00:00:00'");
   (oid_TimestampArr, B "'{}'");
   (oid_Timestamptz, B "'0001-01-01 00:00:00'");
   (oid_TimestamptzArr, B "'{}'");
   (oid_Timetz, B "'00:00:00+00'");
   (oid_TimetzArr, B "'{}'");
   (oid_TSQuery, B "''");
   (oid_TSQueryArr, B "'{}'");
   (oid_TsRange, B "'(,)'");
   (oid_TsRangeArr, B "'{}'");
   (oid_TsTzRange, B "'(,)'");
   (oid_TsTzRangeArr, B "'{}'");
   (oid_TSVector, B "''");
   (oid_TSVectorArr, B "'{}'");
   (oid_UUID, B "'00000000-0000-0000-0000-000000000000'");
   (oid_UUIDArr, B "'{}'");
   (oid_VarBit, B "''");
   (oid_VarBitArr, B "'{}'");
   (oid_VarChar, B "''");
   (oid_VarCharArr, B "'{}'");
   (oid_XML, B "''");
   (oid_XMLArr, B "'{}'")].

(** The Go map lookup. *)
Fixpoint find_oid {A} (k : N) (l : list (N * A)) : option A :=
  match l with [] => None | (x, a) :: r => if k =? x then Some a else find_oid k r end.
