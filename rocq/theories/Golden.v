(** The model run on the test data of the generator: each example takes the
    struct in /repo/internal/testdata/generator/<dir>/<name>_in.go and finds the
    code in <name>_out.go, up to white space and the types of allocated values.
    The database is that of /repo/internal/postgres/testing.go:32-290; of the
    system catalogs it has the rows that matter here.  The file was written by
    a script from these sources. *)
From Coq Require Import Ascii String ZArith NArith Bool List.
From Verif Require Import GoBase AParse Analysis Oids Compat Gen GenOut Check GoldenPrint.
Import ListNotations.
Local Open Scope string_scope.
Local Open Scope list_scope.

Definition golden_types : list pgtype :=
  [MkTy oid_Bit (B "bit") false CatBitstring 0;
   MkTy oid_BitArr (B "bit[]") false CatArray oid_Bit;
   MkTy oid_Bool (B "boolean") false CatOther 0;
   MkTy oid_BoolArr (B "boolean[]") false CatArray oid_Bool;
   MkTy oid_Box (B "box") false CatOther 0;
   MkTy oid_BoxArr (B "box[]") false CatArray oid_Box;
   MkTy oid_BPChar (B "character") false CatString 0;
   MkTy oid_BPCharArr (B "character[]") false CatArray oid_BPChar;
   MkTy oid_Bytea (B "bytea") false CatOther 0;
   MkTy oid_ByteaArr (B "bytea[]") false CatArray oid_Bytea;
   MkTy oid_CIDR (B "cidr") false CatOther 0;
   MkTy oid_CIDRArr (B "cidr[]") false CatArray oid_CIDR;
   MkTy oid_Circle (B "circle") false CatOther 0;
   MkTy oid_CircleArr (B "circle[]") false CatArray oid_Circle;
   MkTy 90001 (B "color_enum") true CatOther 0;
   MkTy 90002 (B "css_styles") false CatOther 0;
   MkTy oid_Date (B "date") false CatOther 0;
   MkTy oid_DateArr (B "date[]") false CatArray oid_Date;
   MkTy oid_DateRange (B "daterange") false CatOther 0;
   MkTy oid_DateRangeArr (B "daterange[]") false CatArray oid_DateRange;
   MkTy oid_Float4 (B "real") false CatOther 0;
   MkTy oid_Float4Arr (B "real[]") false CatArray oid_Float4;
   MkTy oid_Float8 (B "double precision") false CatOther 0;
   MkTy oid_Float8Arr (B "double precision[]") false CatArray oid_Float8;
   MkTy oid_Inet (B "inet") false CatOther 0;
   MkTy oid_InetArr (B "inet[]") false CatArray oid_Inet;
   MkTy oid_Int2 (B "smallint") false CatOther 0;
   MkTy oid_Int2Arr (B "smallint[]") false CatArray oid_Int2;
   MkTy oid_Int2Vector (B "int2vector") false CatArray oid_Int2;
   MkTy oid_Int2VectorArr (B "int2vector[]") false CatArray oid_Int2Vector;
   MkTy oid_Int4 (B "integer") false CatOther 0;
   MkTy oid_Int4Arr (B "integer[]") false CatArray oid_Int4;
   MkTy oid_Int4Range (B "int4range") false CatOther 0;
   MkTy oid_Int4RangeArr (B "int4range[]") false CatArray oid_Int4Range;
   MkTy oid_Int8 (B "bigint") false CatOther 0;
   MkTy oid_Int8Arr (B "bigint[]") false CatArray oid_Int8;
   MkTy oid_Int8Range (B "int8range") false CatOther 0;
   MkTy oid_Int8RangeArr (B "int8range[]") false CatArray oid_Int8Range;
   MkTy oid_Interval (B "interval") false CatOther 0;
   MkTy oid_IntervalArr (B "interval[]") false CatArray oid_Interval;
   MkTy oid_JSON (B "json") false CatOther 0;
   MkTy oid_JSONArr (B "json[]") false CatArray oid_JSON;
   MkTy oid_JSONB (B "jsonb") false CatOther 0;
   MkTy oid_JSONBArr (B "jsonb[]") false CatArray oid_JSONB;
   MkTy oid_Line (B "line") false CatOther 0;
   MkTy oid_LineArr (B "line[]") false CatArray oid_Line;
   MkTy oid_LSeg (B "lseg") false CatOther 0;
   MkTy oid_LSegArr (B "lseg[]") false CatArray oid_LSeg;
   MkTy oid_MACAddr (B "macaddr") false CatOther 0;
   MkTy oid_MACAddr8 (B "macaddr8") false CatOther 0;
   MkTy oid_MACAddr8Arr (B "macaddr8[]") false CatArray oid_MACAddr8;
   MkTy oid_MACAddrArr (B "macaddr[]") false CatArray oid_MACAddr;
   MkTy oid_Money (B "money") false CatOther 0;
   MkTy oid_MoneyArr (B "money[]") false CatArray oid_Money;
   MkTy oid_Numeric (B "numeric") false CatOther 0;
   MkTy oid_NumericArr (B "numeric[]") false CatArray oid_Numeric;
   MkTy oid_NumRange (B "numrange") false CatOther 0;
   MkTy oid_NumRangeArr (B "numrange[]") false CatArray oid_NumRange;
   MkTy oid_Path (B "path") false CatOther 0;
   MkTy oid_PathArr (B "path[]") false CatArray oid_Path;
   MkTy oid_Point (B "point") false CatOther 0;
   MkTy oid_PointArr (B "point[]") false CatArray oid_Point;
   MkTy oid_Polygon (B "polygon") false CatOther 0;
   MkTy oid_PolygonArr (B "polygon[]") false CatArray oid_Polygon;
   MkTy oid_Text (B "text") false CatString 0;
   MkTy oid_TextArr (B "text[]") false CatArray oid_Text;
   MkTy oid_Time (B "time without time zone") false CatOther 0;
   MkTy oid_TimeArr (B "time without time zone[]") false CatArray oid_Time;
   MkTy oid_Timestamp (B "timestamp without time zone") false CatOther 0;
   MkTy oid_TimestampArr (B "timestamp without time zone[]") false CatArray oid_Timestamp;
   MkTy oid_Timestamptz (B "timestamp with time zone") false CatOther 0;
   MkTy oid_TimestamptzArr (B "timestamp with time zone[]") false CatArray oid_Timestamptz;
   MkTy oid_Timetz (B "time with time zone") false CatOther 0;
   MkTy oid_TimetzArr (B "time with time zone[]") false CatArray oid_Timetz;
   MkTy oid_TSQuery (B "tsquery") false CatOther 0;
   MkTy oid_TSQueryArr (B "tsquery[]") false CatArray oid_TSQuery;
   MkTy oid_TsRange (B "tsrange") false CatOther 0;
   MkTy oid_TsRangeArr (B "tsrange[]") false CatArray oid_TsRange;
   MkTy oid_TsTzRange (B "tstzrange") false CatOther 0;
   MkTy oid_TsTzRangeArr (B "tstzrange[]") false CatArray oid_TsTzRange;
   MkTy oid_TSVector (B "tsvector") false CatOther 0;
   MkTy oid_TSVectorArr (B "tsvector[]") false CatArray oid_TSVector;
   MkTy oid_Unknown (B "unknown") false CatOther 0;
   MkTy oid_UUID (B "uuid") false CatOther 0;
   MkTy oid_UUIDArr (B "uuid[]") false CatArray oid_UUID;
   MkTy oid_VarBit (B "bit varying") false CatBitstring 0;
   MkTy oid_VarBitArr (B "bit varying[]") false CatArray oid_VarBit;
   MkTy oid_VarChar (B "character varying") false CatString 0;
   MkTy oid_VarCharArr (B "character varying[]") false CatArray oid_VarChar;
   MkTy oid_XML (B "xml") false CatOther 0;
   MkTy oid_XMLArr (B "xml[]") false CatArray oid_XML].
Definition golden_ops : list (bytes * N * N) :=
  [(B "=", oid_Int2, oid_Int2);
   (B "<>", oid_Int2, oid_Int2);
   (B "<", oid_Int2, oid_Int2);
   (B ">", oid_Int2, oid_Int2);
   (B "<=", oid_Int2, oid_Int2);
   (B ">=", oid_Int2, oid_Int2);
   (B "=", oid_Int4, oid_Int4);
   (B "<>", oid_Int4, oid_Int4);
   (B "<", oid_Int4, oid_Int4);
   (B ">", oid_Int4, oid_Int4);
   (B "<=", oid_Int4, oid_Int4);
   (B ">=", oid_Int4, oid_Int4);
   (B "=", oid_Int8, oid_Int8);
   (B "<>", oid_Int8, oid_Int8);
   (B "<", oid_Int8, oid_Int8);
   (B ">", oid_Int8, oid_Int8);
   (B "<=", oid_Int8, oid_Int8);
   (B ">=", oid_Int8, oid_Int8);
   (B "=", oid_Text, oid_Text);
   (B "<>", oid_Text, oid_Text);
   (B "<", oid_Text, oid_Text);
   (B ">", oid_Text, oid_Text);
   (B "<=", oid_Text, oid_Text);
   (B ">=", oid_Text, oid_Text);
   (B "=", oid_Bool, oid_Bool);
   (B "<>", oid_Bool, oid_Bool);
   (B "<", oid_Bool, oid_Bool);
   (B ">", oid_Bool, oid_Bool);
   (B "<=", oid_Bool, oid_Bool);
   (B ">=", oid_Bool, oid_Bool);
   (B "=", oid_Float4, oid_Float4);
   (B "<>", oid_Float4, oid_Float4);
   (B "<", oid_Float4, oid_Float4);
   (B ">", oid_Float4, oid_Float4);
   (B "<=", oid_Float4, oid_Float4);
   (B ">=", oid_Float4, oid_Float4);
   (B "=", oid_Float8, oid_Float8);
   (B "<>", oid_Float8, oid_Float8);
   (B "<", oid_Float8, oid_Float8);
   (B ">", oid_Float8, oid_Float8);
   (B "<=", oid_Float8, oid_Float8);
   (B ">=", oid_Float8, oid_Float8);
   (B "=", oid_Timestamp, oid_Timestamp);
   (B "<>", oid_Timestamp, oid_Timestamp);
   (B "<", oid_Timestamp, oid_Timestamp);
   (B ">", oid_Timestamp, oid_Timestamp);
   (B "<=", oid_Timestamp, oid_Timestamp);
   (B ">=", oid_Timestamp, oid_Timestamp);
   (B "=", oid_Timestamptz, oid_Timestamptz);
   (B "<>", oid_Timestamptz, oid_Timestamptz);
   (B "<", oid_Timestamptz, oid_Timestamptz);
   (B ">", oid_Timestamptz, oid_Timestamptz);
   (B "<=", oid_Timestamptz, oid_Timestamptz);
   (B ">=", oid_Timestamptz, oid_Timestamptz);
   (B "=", oid_Date, oid_Date);
   (B "<>", oid_Date, oid_Date);
   (B "<", oid_Date, oid_Date);
   (B ">", oid_Date, oid_Date);
   (B "<=", oid_Date, oid_Date);
   (B ">=", oid_Date, oid_Date);
   (B "=", oid_Numeric, oid_Numeric);
   (B "<>", oid_Numeric, oid_Numeric);
   (B "<", oid_Numeric, oid_Numeric);
   (B ">", oid_Numeric, oid_Numeric);
   (B "<=", oid_Numeric, oid_Numeric);
   (B ">=", oid_Numeric, oid_Numeric);
   (B "=", oid_Bytea, oid_Bytea);
   (B "<>", oid_Bytea, oid_Bytea);
   (B "<", oid_Bytea, oid_Bytea);
   (B ">", oid_Bytea, oid_Bytea);
   (B "<=", oid_Bytea, oid_Bytea);
   (B ">=", oid_Bytea, oid_Bytea);
   (B "=", oid_UUID, oid_UUID);
   (B "<>", oid_UUID, oid_UUID);
   (B "<", oid_UUID, oid_UUID);
   (B ">", oid_UUID, oid_UUID);
   (B "<=", oid_UUID, oid_UUID);
   (B ">=", oid_UUID, oid_UUID);
   (B "=", oid_BPChar, oid_BPChar);
   (B "<>", oid_BPChar, oid_BPChar);
   (B "<", oid_BPChar, oid_BPChar);
   (B ">", oid_BPChar, oid_BPChar);
   (B "<=", oid_BPChar, oid_BPChar);
   (B ">=", oid_BPChar, oid_BPChar);
   (B "=", oid_Int2, oid_Int4);
   (B "<>", oid_Int2, oid_Int4);
   (B "<", oid_Int2, oid_Int4);
   (B ">", oid_Int2, oid_Int4);
   (B "<=", oid_Int2, oid_Int4);
   (B ">=", oid_Int2, oid_Int4);
   (B "=", oid_Int2, oid_Int8);
   (B "<>", oid_Int2, oid_Int8);
   (B "<", oid_Int2, oid_Int8);
   (B ">", oid_Int2, oid_Int8);
   (B "<=", oid_Int2, oid_Int8);
   (B ">=", oid_Int2, oid_Int8);
   (B "=", oid_Int4, oid_Int2);
   (B "<>", oid_Int4, oid_Int2);
   (B "<", oid_Int4, oid_Int2);
   (B ">", oid_Int4, oid_Int2);
   (B "<=", oid_Int4, oid_Int2);
   (B ">=", oid_Int4, oid_Int2);
   (B "=", oid_Int4, oid_Int8);
   (B "<>", oid_Int4, oid_Int8);
   (B "<", oid_Int4, oid_Int8);
   (B ">", oid_Int4, oid_Int8);
   (B "<=", oid_Int4, oid_Int8);
   (B ">=", oid_Int4, oid_Int8);
   (B "=", oid_Int8, oid_Int2);
   (B "<>", oid_Int8, oid_Int2);
   (B "<", oid_Int8, oid_Int2);
   (B ">", oid_Int8, oid_Int2);
   (B "<=", oid_Int8, oid_Int2);
   (B ">=", oid_Int8, oid_Int2);
   (B "=", oid_Int8, oid_Int4);
   (B "<>", oid_Int8, oid_Int4);
   (B "<", oid_Int8, oid_Int4);
   (B ">", oid_Int8, oid_Int4);
   (B "<=", oid_Int8, oid_Int4);
   (B ">=", oid_Int8, oid_Int4);
   (B "=", oid_Float4, oid_Float8);
   (B "<>", oid_Float4, oid_Float8);
   (B "<", oid_Float4, oid_Float8);
   (B ">", oid_Float4, oid_Float8);
   (B "<=", oid_Float4, oid_Float8);
   (B ">=", oid_Float4, oid_Float8);
   (B "=", oid_Float8, oid_Float4);
   (B "<>", oid_Float8, oid_Float4);
   (B "<", oid_Float8, oid_Float4);
   (B ">", oid_Float8, oid_Float4);
   (B "<=", oid_Float8, oid_Float4);
   (B ">=", oid_Float8, oid_Float4);
   (B "=", oid_Date, oid_Timestamp);
   (B "<>", oid_Date, oid_Timestamp);
   (B "<", oid_Date, oid_Timestamp);
   (B ">", oid_Date, oid_Timestamp);
   (B "<=", oid_Date, oid_Timestamp);
   (B ">=", oid_Date, oid_Timestamp);
   (B "=", oid_Date, oid_Timestamptz);
   (B "<>", oid_Date, oid_Timestamptz);
   (B "<", oid_Date, oid_Timestamptz);
   (B ">", oid_Date, oid_Timestamptz);
   (B "<=", oid_Date, oid_Timestamptz);
   (B ">=", oid_Date, oid_Timestamptz);
   (B "=", oid_Timestamp, oid_Date);
   (B "<>", oid_Timestamp, oid_Date);
   (B "<", oid_Timestamp, oid_Date);
   (B ">", oid_Timestamp, oid_Date);
   (B "<=", oid_Timestamp, oid_Date);
   (B ">=", oid_Timestamp, oid_Date);
   (B "=", oid_Timestamp, oid_Timestamptz);
   (B "<>", oid_Timestamp, oid_Timestamptz);
   (B "<", oid_Timestamp, oid_Timestamptz);
   (B ">", oid_Timestamp, oid_Timestamptz);
   (B "<=", oid_Timestamp, oid_Timestamptz);
   (B ">=", oid_Timestamp, oid_Timestamptz);
   (B "=", oid_Timestamptz, oid_Date);
   (B "<>", oid_Timestamptz, oid_Date);
   (B "<", oid_Timestamptz, oid_Date);
   (B ">", oid_Timestamptz, oid_Date);
   (B "<=", oid_Timestamptz, oid_Date);
   (B ">=", oid_Timestamptz, oid_Date);
   (B "=", oid_Timestamptz, oid_Timestamp);
   (B "<>", oid_Timestamptz, oid_Timestamp);
   (B "<", oid_Timestamptz, oid_Timestamp);
   (B ">", oid_Timestamptz, oid_Timestamp);
   (B "<=", oid_Timestamptz, oid_Timestamp);
   (B ">=", oid_Timestamptz, oid_Timestamp);
   (B "~~", oid_Text, oid_Text);
   (B "!~~", oid_Text, oid_Text);
   (B "~~*", oid_Text, oid_Text);
   (B "!~~*", oid_Text, oid_Text);
   (B "~", oid_Text, oid_Text);
   (B "~*", oid_Text, oid_Text);
   (B "!~", oid_Text, oid_Text);
   (B "!~*", oid_Text, oid_Text)].
Definition golden_casts : list (N * N * castctx) :=
  [(oid_Int2, oid_Int8, CastAssignment);
   (oid_Int4, oid_Int8, CastAssignment);
   (oid_Float4, oid_Int8, CastImplicit);
   (oid_Float8, oid_Int8, CastImplicit);
   (oid_Numeric, oid_Int8, CastImplicit);
   (oid_Int8, oid_Int2, CastImplicit);
   (oid_Int4, oid_Int2, CastImplicit);
   (oid_Float4, oid_Int2, CastImplicit);
   (oid_Float8, oid_Int2, CastImplicit);
   (oid_Numeric, oid_Int2, CastImplicit);
   (oid_Int8, oid_Int4, CastImplicit);
   (oid_Int2, oid_Int4, CastAssignment);
   (oid_Float4, oid_Int4, CastImplicit);
   (oid_Float8, oid_Int4, CastImplicit);
   (oid_Numeric, oid_Int4, CastImplicit);
   (oid_Int8, oid_Float4, CastAssignment);
   (oid_Int2, oid_Float4, CastAssignment);
   (oid_Int4, oid_Float4, CastAssignment);
   (oid_Float8, oid_Float4, CastImplicit);
   (oid_Numeric, oid_Float4, CastAssignment);
   (oid_Int8, oid_Float8, CastAssignment);
   (oid_Int2, oid_Float8, CastAssignment);
   (oid_Int4, oid_Float8, CastAssignment);
   (oid_Float4, oid_Float8, CastAssignment);
   (oid_Numeric, oid_Float8, CastAssignment);
   (oid_Int8, oid_Numeric, CastAssignment);
   (oid_Int2, oid_Numeric, CastAssignment);
   (oid_Int4, oid_Numeric, CastAssignment);
   (oid_Float4, oid_Numeric, CastImplicit);
   (oid_Float8, oid_Numeric, CastImplicit);
   (oid_VarChar, oid_Text, CastImplicit);
   (oid_BPChar, oid_Text, CastImplicit);
   (oid_Text, oid_VarChar, CastImplicit);
   (oid_BPChar, oid_VarChar, CastImplicit);
   (oid_Text, oid_BPChar, CastImplicit);
   (oid_VarChar, oid_BPChar, CastImplicit);
   (oid_Timestamptz, oid_Timestamp, CastImplicit);
   (oid_Timestamp, oid_Timestamptz, CastAssignment);
   (oid_Timestamp, oid_Date, CastImplicit);
   (oid_Timestamptz, oid_Date, CastImplicit);
   (oid_Date, oid_Timestamp, CastAssignment);
   (oid_Date, oid_Timestamptz, CastAssignment);
   (oid_JSONB, oid_JSON, CastAssignment);
   (oid_JSON, oid_JSONB, CastAssignment)].
Definition rel_relation_test : relrow := MkRelRow 70001 true
  [MkColRow 1 (B "col_stub") (5) false false false oid_BPChar]
  []
  [].
Definition rel_column_tests_1 : relrow := MkRelRow 70002 true
  [MkColRow 1 (B "col_a") (-1) true true true oid_Int4;
   MkColRow 2 (B "col_b") (-1) true false false oid_Text;
   MkColRow 3 (B "col_c") (-1) false false false oid_Bool;
   MkColRow 4 (B "col_d") (-1) false true false oid_Float8;
   MkColRow 5 (B "col_e") (-1) true true false oid_Timestamp]
  [(B "column_tests_1_pkey", ConPKey); (B "column_tests_1_col_b_key", ConUnique)]
  [MkIxRow (B "column_tests_1_pkey") true true [1]%Z (B "CREATE UNIQUE INDEX column_tests_1_pkey ON public.column_tests_1 USING btree (col_a)") (B "");
   MkIxRow (B "column_tests_1_col_b_key") true false [2]%Z (B "CREATE UNIQUE INDEX column_tests_1_col_b_key ON public.column_tests_1 USING btree (col_b)") (B "")].
Definition rel_column_tests_2 : relrow := MkRelRow 70003 true
  [MkColRow 1 (B "col_text_search_ok") (-1) false false false oid_TSVector;
   MkColRow 2 (B "col_text_search_bad") (-1) false false false oid_Text;
   MkColRow 3 (B "col_orderby_a") (-1) false false false oid_Text;
   MkColRow 4 (B "col_orderby_b") (-1) false false false oid_Int4;
   MkColRow 5 (B "col_foo") (-1) false true false oid_Int4;
   MkColRow 6 (B "col_bar") (-1) false true false oid_Text;
   MkColRow 7 (B "col_baz") (-1) true true false oid_Bool;
   MkColRow 8 (B "col_indkey1") (-1) false false false oid_Text;
   MkColRow 9 (B "col_indkey2") (-1) false false false oid_Int4;
   MkColRow 10 (B "col_indkey3") (-1) false false false oid_Int4;
   MkColRow 11 (B "col_conkey1") (-1) false false false oid_Text;
   MkColRow 12 (B "col_conkey2") (-1) false false false oid_Int4]
  [(B "column_tests_2_unique_constraint", ConUnique); (B "column_tests_2_nonunique_constraint", ConFKey)]
  [MkIxRow (B "column_tests_2_unique_index") true false [9; 8]%Z (B "CREATE UNIQUE INDEX column_tests_2_unique_index ON public.column_tests_2 USING btree (col_indkey2, col_indkey1)") (B "");
   MkIxRow (B "column_tests_2_nonunique_index") false false [10; 9; 8]%Z (B "CREATE INDEX column_tests_2_nonunique_index ON public.column_tests_2 USING btree (col_indkey3, col_indkey2, col_indkey1)") (B "");
   MkIxRow (B "column_tests_2_unique_constraint") true false [11; 12]%Z (B "CREATE UNIQUE INDEX column_tests_2_unique_constraint ON public.column_tests_2 USING btree (col_conkey1, col_conkey2)") (B "")].
Definition rel_column_tests_3 : relrow := MkRelRow 70004 true
  [MkColRow 1 (B "color_text") (-1) false false false oid_Text;
   MkColRow 2 (B "color_enum") (-1) false false false 90001;
   MkColRow 3 (B "some_time") (-1) true false false oid_Timestamp]
  []
  [].
Definition rel_column_tests_4 : relrow := MkRelRow 70005 true
  [MkColRow 1 (B "color_text") (-1) false false false oid_Text;
   MkColRow 2 (B "color_enum") (-1) false false false 90001;
   MkColRow 3 (B "h1_styles") (-1) false false false 90002;
   MkColRow 4 (B "some_time") (-1) true false false oid_Timestamp]
  []
  [].
Definition rel_column_type_tests : relrow := MkRelRow 70006 true
  [MkColRow 1 (B "col_bool") (-1) false false false oid_Bool;
   MkColRow 2 (B "col_boola") (-1) false false false oid_BoolArr;
   MkColRow 3 (B "col_float4") (-1) false false false oid_Float4;
   MkColRow 4 (B "col_float4a") (-1) false false false oid_Float4Arr;
   MkColRow 5 (B "col_float8") (-1) false false false oid_Float8;
   MkColRow 6 (B "col_float8a") (-1) false false false oid_Float8Arr;
   MkColRow 7 (B "col_int2") (-1) false false false oid_Int2;
   MkColRow 8 (B "col_int2a") (-1) false false false oid_Int2Arr;
   MkColRow 9 (B "col_int4") (-1) false false false oid_Int4;
   MkColRow 10 (B "col_int4a") (-1) false false false oid_Int4Arr;
   MkColRow 11 (B "col_int8") (-1) false false false oid_Int8;
   MkColRow 12 (B "col_int8a") (-1) false false false oid_Int8Arr;
   MkColRow 13 (B "col_text") (-1) false false false oid_Text;
   MkColRow 14 (B "col_texta") (-1) false false false oid_TextArr]
  []
  [].
Definition rel_test_user : relrow := MkRelRow 70007 true
  [MkColRow 1 (B "id") (-1) true true true oid_Int4;
   MkColRow 2 (B "email") (-1) true false false oid_Text;
   MkColRow 3 (B "full_name") (-1) true false false oid_Text;
   MkColRow 4 (B "password") (-1) true true false oid_Bytea;
   MkColRow 5 (B "is_active") (-1) true true false oid_Bool;
   MkColRow 6 (B "metadata1") (-1) true true false oid_JSON;
   MkColRow 7 (B "metadata2") (-1) false false false oid_JSONB;
   MkColRow 8 (B "envelope") (-1) false false false oid_XML;
   MkColRow 9 (B "_search_document") (-1) false false false oid_TSVector;
   MkColRow 10 (B "created_at") (-1) true false false oid_Timestamptz;
   MkColRow 11 (B "updated_at") (-1) true true false oid_Timestamptz]
  [(B "test_user_pkey", ConPKey)]
  [MkIxRow (B "test_user_pkey") true true [1]%Z (B "CREATE UNIQUE INDEX test_user_pkey ON public.test_user USING btree (id)") (B "")].
Definition rel_test_user_with_defaults : relrow := MkRelRow 70008 true
  [MkColRow 1 (B "id") (-1) true true true oid_Int4;
   MkColRow 2 (B "email") (-1) true true false oid_Text;
   MkColRow 3 (B "full_name") (-1) true true false oid_Text;
   MkColRow 4 (B "is_active") (-1) true true false oid_Bool;
   MkColRow 5 (B "created_at") (-1) true true false oid_Timestamptz;
   MkColRow 6 (B "updated_at") (-1) true true false oid_Timestamptz]
  [(B "test_user_with_defaults_pkey", ConPKey)]
  [MkIxRow (B "test_user_with_defaults_pkey") true true [1]%Z (B "CREATE UNIQUE INDEX test_user_with_defaults_pkey ON public.test_user_with_defaults USING btree (id)") (B "")].
Definition rel_test_post : relrow := MkRelRow 70009 true
  [MkColRow 1 (B "id") (-1) true true true oid_Int4;
   MkColRow 2 (B "user_id") (-1) true false false oid_Int4;
   MkColRow 3 (B "content") (-1) true false false oid_Text;
   MkColRow 4 (B "is_spam") (-1) true false false oid_Bool;
   MkColRow 5 (B "created_at") (-1) true false false oid_Timestamptz]
  [(B "test_post_pkey", ConPKey)]
  [MkIxRow (B "test_post_pkey") true true [1]%Z (B "CREATE UNIQUE INDEX test_post_pkey ON public.test_post USING btree (id)") (B "")].
Definition rel_test_nested : relrow := MkRelRow 70010 true
  [MkColRow 1 (B "foo_bar_baz_val") (-1) true true false oid_Text;
   MkColRow 2 (B "foo_baz_val") (-1) true true false oid_Text;
   MkColRow 3 (B "foo2_bar_baz_val") (-1) true true false oid_Text;
   MkColRow 4 (B "foo2_baz_val") (-1) true true false oid_Text]
  []
  [].
Definition rel_test_join1 : relrow := MkRelRow 70011 true
  [MkColRow 1 (B "id") (-1) true true true oid_Int4;
   MkColRow 2 (B "post_id") (-1) true false false oid_Int4]
  [(B "test_join1_pkey", ConPKey)]
  [MkIxRow (B "test_join1_pkey") true true [1]%Z (B "CREATE UNIQUE INDEX test_join1_pkey ON public.test_join1 USING btree (id)") (B "")].
Definition rel_test_join2 : relrow := MkRelRow 70012 true
  [MkColRow 1 (B "id") (-1) true true true oid_Int4;
   MkColRow 2 (B "join1_id") (-1) true false false oid_Int4]
  [(B "test_join2_pkey", ConPKey)]
  [MkIxRow (B "test_join2_pkey") true true [1]%Z (B "CREATE UNIQUE INDEX test_join2_pkey ON public.test_join2 USING btree (id)") (B "")].
Definition rel_test_join3 : relrow := MkRelRow 70013 true
  [MkColRow 1 (B "id") (-1) true true true oid_Int4;
   MkColRow 2 (B "join2_id") (-1) true false false oid_Int4]
  [(B "test_join3_pkey", ConPKey)]
  [MkIxRow (B "test_join3_pkey") true true [1]%Z (B "CREATE UNIQUE INDEX test_join3_pkey ON public.test_join3 USING btree (id)") (B "")].
Definition rel_test_join4 : relrow := MkRelRow 70014 true
  [MkColRow 1 (B "id") (-1) true true true oid_Int4;
   MkColRow 2 (B "join3_id") (-1) true false false oid_Int4]
  [(B "test_join4_pkey", ConPKey)]
  [MkIxRow (B "test_join4_pkey") true true [1]%Z (B "CREATE UNIQUE INDEX test_join4_pkey ON public.test_join4 USING btree (id)") (B "")].
Definition rel_test_coalesce : relrow := MkRelRow 70015 true
  [MkColRow 1 (B "col_a") (-1) false false false oid_Text;
   MkColRow 2 (B "col_b") (-1) true false false oid_Text;
   MkColRow 3 (B "col_c") (-1) false false false oid_Int4;
   MkColRow 4 (B "col_d") (-1) false false false oid_Timestamp;
   MkColRow 5 (B "col_e") (-1) false false false 90001]
  []
  [].
Definition rel_test_onconflict : relrow := MkRelRow 70016 true
  [MkColRow 1 (B "id") (-1) true true true oid_Int4;
   MkColRow 2 (B "key") (-1) false false false oid_Int4;
   MkColRow 3 (B "name") (-1) false false false oid_Text;
   MkColRow 4 (B "fruit") (-1) false false false oid_Text;
   MkColRow 5 (B "value") (-1) false false false oid_Float8]
  [(B "test_onconflict_pkey", ConPKey); (B "test_onconflict_key_value_key", ConUnique)]
  [MkIxRow (B "test_onconflict_pkey") true true [1]%Z (B "CREATE UNIQUE INDEX test_onconflict_pkey ON public.test_onconflict USING btree (id)") (B "");
   MkIxRow (B "test_onconflict_key_idx") true false [2]%Z (B "CREATE UNIQUE INDEX test_onconflict_key_idx ON public.test_onconflict USING btree (key)") (B "");
   MkIxRow (B "test_onconflict_key_name_idx") true false [2; 3]%Z (B "CREATE UNIQUE INDEX test_onconflict_key_name_idx ON public.test_onconflict USING btree (key, name)") (B "");
   MkIxRow (B "test_onconflict_name_fruit_idx") true false [0; 0]%Z (B "CREATE UNIQUE INDEX test_onconflict_name_fruit_idx ON public.test_onconflict USING btree (lower(name), upper(fruit) COLLATE ""C"" text_pattern_ops)") (B "");
   MkIxRow (B "test_onconflict_fruit_key_name_idx") true false [0; 2; 0]%Z (B "CREATE UNIQUE INDEX test_onconflict_fruit_key_name_idx ON public.test_onconflict USING btree (lower(fruit), key, upper(name)) WHERE (key < 5)") (B "key < 5");
   MkIxRow (B "test_onconflict_key_value_key") true false [2; 5]%Z (B "CREATE UNIQUE INDEX test_onconflict_key_value_key ON public.test_onconflict USING btree (key, value)") (B "")].
Definition rel_test_composite_pkey : relrow := MkRelRow 70017 true
  [MkColRow 1 (B "id") (-1) true true true oid_Int4;
   MkColRow 2 (B "key") (-1) true false true oid_Int4;
   MkColRow 3 (B "name") (-1) true false true oid_Text;
   MkColRow 4 (B "fruit") (-1) false false false oid_Text;
   MkColRow 5 (B "value") (-1) false false false oid_Float8]
  [(B "test_composite_pkey_pkey", ConPKey)]
  [MkIxRow (B "test_composite_pkey_pkey") true true [1; 2; 3]%Z (B "CREATE UNIQUE INDEX test_composite_pkey_pkey ON public.test_composite_pkey USING btree (id, key, name)") (B "")].
Definition rel_pgsql_test : relrow := MkRelRow 70018 true
  [MkColRow 1 (B "id") (-1) true true true oid_Int4;
   MkColRow 2 (B "col_bit") (1) false false false oid_Bit;
   MkColRow 3 (B "col_bool") (-1) false false false oid_Bool;
   MkColRow 4 (B "col_bpchar") (5) false false false oid_BPChar;
   MkColRow 5 (B "col_bpchar3") (7) false false false oid_BPChar;
   MkColRow 6 (B "col_char") (5) false false false oid_BPChar;
   MkColRow 7 (B "col_char3") (7) false false false oid_BPChar;
   MkColRow 8 (B "col_cidr") (-1) false false false oid_CIDR;
   MkColRow 9 (B "col_date") (-1) false false false oid_Date;
   MkColRow 10 (B "col_inet") (-1) false false false oid_Inet;
   MkColRow 11 (B "col_interval") (-1) false false false oid_Interval;
   MkColRow 12 (B "col_macaddr") (-1) false false false oid_MACAddr;
   MkColRow 13 (B "col_macaddr8") (-1) false false false oid_MACAddr8;
   MkColRow 14 (B "col_money") (-1) false false false oid_Money;
   MkColRow 15 (B "col_numeric") (-1) false false false oid_Numeric;
   MkColRow 16 (B "col_text") (-1) false false false oid_Text;
   MkColRow 17 (B "col_time") (-1) false false false oid_Time;
   MkColRow 18 (B "col_timestamp") (-1) false false false oid_Timestamp;
   MkColRow 19 (B "col_timestamptz") (-1) false false false oid_Timestamptz;
   MkColRow 20 (B "col_timetz") (-1) false false false oid_Timetz;
   MkColRow 21 (B "col_tsquery") (-1) false false false oid_TSQuery;
   MkColRow 22 (B "col_tsvector") (-1) false false false oid_TSVector;
   MkColRow 23 (B "col_uuid") (-1) false false false oid_UUID;
   MkColRow 24 (B "col_varbit") (-1) false false false oid_VarBit;
   MkColRow 25 (B "col_varbit1") (1) false false false oid_VarBit;
   MkColRow 26 (B "col_varchar") (-1) false false false oid_VarChar;
   MkColRow 27 (B "col_varchar1") (5) false false false oid_VarChar;
   MkColRow 28 (B "col_bitarr") (1) false true false oid_BitArr;
   MkColRow 29 (B "col_boolarr") (-1) false true false oid_BoolArr;
   MkColRow 30 (B "col_boxarr") (-1) false true false oid_BoxArr;
   MkColRow 31 (B "col_bpchararr") (5) false true false oid_BPCharArr;
   MkColRow 32 (B "col_bpchar3arr") (7) false true false oid_BPCharArr;
   MkColRow 33 (B "col_bytea") (-1) false true false oid_Bytea;
   MkColRow 34 (B "col_byteaarr") (-1) false true false oid_ByteaArr;
   MkColRow 35 (B "col_chararr") (5) false true false oid_BPCharArr;
   MkColRow 36 (B "col_char3arr") (7) false true false oid_BPCharArr;
   MkColRow 37 (B "col_cidrarr") (-1) false true false oid_CIDRArr;
   MkColRow 38 (B "col_circlearr") (-1) false true false oid_CircleArr;
   MkColRow 39 (B "col_datearr") (-1) false true false oid_DateArr;
   MkColRow 40 (B "col_daterangearr") (-1) false true false oid_DateRangeArr;
   MkColRow 41 (B "col_float4arr") (-1) false true false oid_Float4Arr;
   MkColRow 42 (B "col_float8arr") (-1) false true false oid_Float8Arr;
   MkColRow 43 (B "col_inetarr") (-1) false true false oid_InetArr;
   MkColRow 44 (B "col_int2arr") (-1) false true false oid_Int2Arr;
   MkColRow 45 (B "col_int2vector") (-1) false true false oid_Int2Vector;
   MkColRow 46 (B "col_int2vectorarr") (-1) false true false oid_Int2VectorArr;
   MkColRow 47 (B "col_int4arr") (-1) false true false oid_Int4Arr;
   MkColRow 48 (B "col_int4rangearr") (-1) false true false oid_Int4RangeArr;
   MkColRow 49 (B "col_int8arr") (-1) false true false oid_Int8Arr;
   MkColRow 50 (B "col_int8rangearr") (-1) false true false oid_Int8RangeArr;
   MkColRow 51 (B "col_intervalarr") (-1) false true false oid_IntervalArr;
   MkColRow 52 (B "col_jsonarr") (-1) false true false oid_JSONArr;
   MkColRow 53 (B "col_jsonbarr") (-1) false true false oid_JSONBArr;
   MkColRow 54 (B "col_linearr") (-1) false true false oid_LineArr;
   MkColRow 55 (B "col_lsegarr") (-1) false true false oid_LSegArr;
   MkColRow 56 (B "col_macaddrarr") (-1) false true false oid_MACAddrArr;
   MkColRow 57 (B "col_macaddr8arr") (-1) false true false oid_MACAddr8Arr;
   MkColRow 58 (B "col_moneyarr") (-1) false true false oid_MoneyArr;
   MkColRow 59 (B "col_numericarr") (-1) false true false oid_NumericArr;
   MkColRow 60 (B "col_numrangearr") (-1) false true false oid_NumRangeArr;
   MkColRow 61 (B "col_patharr") (-1) false true false oid_PathArr;
   MkColRow 62 (B "col_pointarr") (-1) false true false oid_PointArr;
   MkColRow 63 (B "col_polygonarr") (-1) false true false oid_PolygonArr;
   MkColRow 64 (B "col_textarr") (-1) false true false oid_TextArr;
   MkColRow 65 (B "col_timearr") (-1) false true false oid_TimeArr;
   MkColRow 66 (B "col_timestamparr") (-1) false true false oid_TimestampArr;
   MkColRow 67 (B "col_timestamptzarr") (-1) false true false oid_TimestamptzArr;
   MkColRow 68 (B "col_timetzarr") (-1) false true false oid_TimetzArr;
   MkColRow 69 (B "col_tsqueryarr") (-1) false true false oid_TSQueryArr;
   MkColRow 70 (B "col_tsrangearr") (-1) false true false oid_TsRangeArr;
   MkColRow 71 (B "col_tstzrangearr") (-1) false true false oid_TsTzRangeArr;
   MkColRow 72 (B "col_tsvectorarr") (-1) false true false oid_TSVectorArr;
   MkColRow 73 (B "col_uuidarr") (-1) false true false oid_UUIDArr;
   MkColRow 74 (B "col_varbitarr") (-1) false true false oid_VarBitArr;
   MkColRow 75 (B "col_varbit1arr") (1) false true false oid_VarBitArr;
   MkColRow 76 (B "col_varchararr") (-1) false true false oid_VarCharArr;
   MkColRow 77 (B "col_varchar1arr") (5) false true false oid_VarCharArr;
   MkColRow 78 (B "col_xmlarr") (-1) false true false oid_XMLArr;
   MkColRow 79 (B "col_box") (-1) false true false oid_Box;
   MkColRow 80 (B "col_circle") (-1) false true false oid_Circle;
   MkColRow 81 (B "col_line") (-1) false true false oid_Line;
   MkColRow 82 (B "col_lseg") (-1) false true false oid_LSeg;
   MkColRow 83 (B "col_path") (-1) false true false oid_Path;
   MkColRow 84 (B "col_point") (-1) false true false oid_Point;
   MkColRow 85 (B "col_polygon") (-1) false true false oid_Polygon;
   MkColRow 86 (B "col_daterange") (-1) false true false oid_DateRange;
   MkColRow 87 (B "col_int4range") (-1) false true false oid_Int4Range;
   MkColRow 88 (B "col_int8range") (-1) false true false oid_Int8Range;
   MkColRow 89 (B "col_numrange") (-1) false true false oid_NumRange;
   MkColRow 90 (B "col_tsrange") (-1) false true false oid_TsRange;
   MkColRow 91 (B "col_tstzrange") (-1) false true false oid_TsTzRange;
   MkColRow 92 (B "col_json") (-1) false true false oid_JSON;
   MkColRow 93 (B "col_jsonb") (-1) false true false oid_JSONB;
   MkColRow 94 (B "col_xml") (-1) false true false oid_XML]
  [(B "pgsql_test_pkey", ConPKey)]
  [MkIxRow (B "pgsql_test_pkey") true true [1]%Z (B "CREATE UNIQUE INDEX pgsql_test_pkey ON public.pgsql_test USING btree (id)") (B "")].
Definition rel_view_test : relrow := MkRelRow 70019 false
  [MkColRow 1 (B "col_a") (-1) false false false oid_Int4;
   MkColRow 2 (B "col_b") (-1) false false false oid_Text;
   MkColRow 3 (B "col_c") (-1) false false false oid_Bool;
   MkColRow 4 (B "col_d") (-1) false false false oid_Float8;
   MkColRow 5 (B "col_e") (-1) false false false oid_Timestamp;
   MkColRow 6 (B "col_z") (-1) false false false oid_Bool]
  []
  [].
Definition golden_rels : list (bytes * relrow) :=
  [(B "relation_test", rel_relation_test);
   (B "column_tests_1", rel_column_tests_1);
   (B "column_tests_2", rel_column_tests_2);
   (B "column_tests_3", rel_column_tests_3);
   (B "column_tests_4", rel_column_tests_4);
   (B "column_type_tests", rel_column_type_tests);
   (B "test_user", rel_test_user);
   (B "test_user_with_defaults", rel_test_user_with_defaults);
   (B "test_post", rel_test_post);
   (B "test_nested", rel_test_nested);
   (B "test_join1", rel_test_join1);
   (B "test_join2", rel_test_join2);
   (B "test_join3", rel_test_join3);
   (B "test_join4", rel_test_join4);
   (B "test_coalesce", rel_test_coalesce);
   (B "test_onconflict", rel_test_onconflict);
   (B "test_composite_pkey", rel_test_composite_pkey);
   (B "pgsql_test", rel_pgsql_test);
   (B "view_test", rel_view_test)].
Definition golden_procs : list (bytes * list (N * N)) :=
  [(B "lower", [(oid_Text, oid_Text)]); (B "upper", [(oid_Text, oid_Text)]); (B "increment", [(oid_Int4, oid_Int4)])].
Definition golden_db : database := MkDB (MkCat golden_types golden_ops golden_casts golden_procs)
  (fun n => match find (fun r => bytes_eqb (fst r) n) golden_rels with Some r => Some (snd r) | None => None end)
  (fun l => match filter (fun c => Ascii.eqb c "'"%char) l, l, rev l with
            | [_; _], c :: _, d :: _ => if (Ascii.eqb c "'" && Ascii.eqb d "'")%char then Some oid_Unknown else None
            | _, _, _ => None
            end).

(** The Go types *)

Definition g_gosql_Relation : gtype := TNamed (MkName (B "Relation") (Some (B "github.com/frk/gosql", B "gosql")) (MkFlags false false false false false false) false false false false) (TStruct [(MkVar (B "_isdir") false false [], TStruct [])]).
Definition g_gosql_All : gtype := TNamed (MkName (B "All") (Some (B "github.com/frk/gosql", B "gosql")) (MkFlags false false false false false false) false false false false) (TStruct [(MkVar (B "_isdir") false false [], TStruct [])]).
Definition g_time_Time : gtype := TNamed (MkName (B "Time") (Some (B "time", B "time")) (MkFlags false false true true false false) false false false false) (TStruct [(MkVar (B "wall") false false [], TBasic BUint64 false false); (MkVar (B "ext") false false [], TBasic BInt64 false false); (MkVar (B "loc") false false [], TPtr (TStruct []))]).
Definition g_common_User : gtype := TNamed (MkName (B "User") (Some (B "github.com/frk/gosql/internal/testdata/common", B "common")) (MkFlags false false false false false false) false false false false) (TStruct [(MkVar (B "Id") true false [(B "sql", [B "id"])], (TBasic BInt false false)); (MkVar (B "Email") true false [(B "sql", [B "email"])], (TBasic BString false false)); (MkVar (B "FullName") true false [(B "sql", [B "full_name"])], (TBasic BString false false)); (MkVar (B "CreatedAt") true false [(B "sql", [B "created_at"])], g_time_Time)]).
Definition g_gosql_Filter : gtype := TNamed (MkName (B "Filter") (Some (B "github.com/frk/gosql", B "gosql")) (MkFlags false false false false false false) false false false false) (TIface [(B "ToSQL", true, ([TBasic BInt false false], [TBasic BString false false; TSlice (TIface [] true false false)]))] false false false).
Definition g_common_User2 : gtype := TNamed (MkName (B "User2") (Some (B "github.com/frk/gosql/internal/testdata/common", B "common")) (MkFlags false false false false false false) true false false false) (TStruct [(MkVar (B "Id") true false [(B "sql", [B "id"]); (B "json", [B "id"])], (TBasic BInt false false)); (MkVar (B "Email") true false [(B "sql", [B "email"]); (B "json", [B "email"])], (TBasic BString false false)); (MkVar (B "FullName") true false [(B "sql", [B "full_name"]); (B "json", [B "fullName"])], (TBasic BString false false)); (MkVar (B "CreatedAt") true false [(B "sql", [B "created_at"]); (B "json", [B "createdAt"])], g_time_Time)]).
Definition g_error : gtype := TNamed (MkName (B "error") None (MkFlags false false false false false false) false false false false) (TIface [(B "Error", true, ([], [TBasic BString false false]))] false false false).
Definition g_common_User2Iterator : gtype := TNamed (MkName (B "User2Iterator") (Some (B "github.com/frk/gosql/internal/testdata/common", B "common")) (MkFlags false false false false false false) false false false false) (TIface [(B "NextUser", true, ([(TPtr g_common_User2)], [g_error]))] false false false).
Definition g_common_ErrorHandler : gtype := TNamed (MkName (B "ErrorHandler") (Some (B "github.com/frk/gosql/internal/testdata/common", B "common")) (MkFlags false false false false false false) false true false false) (TStruct []).
Definition g_common_ErrorInfoHandler : gtype := TNamed (MkName (B "ErrorInfoHandler") (Some (B "github.com/frk/gosql/internal/testdata/common", B "common")) (MkFlags false false false false false false) false false true false) (TStruct []).
Definition g_common_UserIterator : gtype := TNamed (MkName (B "UserIterator") (Some (B "github.com/frk/gosql/internal/testdata/common", B "common")) (MkFlags false false false false false false) false false false false) (TIface [(B "NextUser", true, ([(TPtr g_common_User)], [g_error]))] false false false).
Definition g_gosql_Return : gtype := TNamed (MkName (B "Return") (Some (B "github.com/frk/gosql", B "gosql")) (MkFlags false false false false false false) false false false false) (TStruct [(MkVar (B "_isdir") false false [], TStruct [])]).
Definition g_context_Context : gtype := TNamed (MkName (B "Context") (Some (B "context", B "context")) (MkFlags false false false false false false) false false false false) (TIface [(B "Done", true, ([], [TChan (TStruct [])]))] false false false).
Definition g_gosql_Column : gtype := TNamed (MkName (B "Column") (Some (B "github.com/frk/gosql", B "gosql")) (MkFlags false false false false false false) false false false false) (TStruct [(MkVar (B "_isdir") false false [], TStruct [])]).
Definition g_gosql_LeftJoin : gtype := TNamed (MkName (B "LeftJoin") (Some (B "github.com/frk/gosql", B "gosql")) (MkFlags false false false false false false) false false false false) (TStruct [(MkVar (B "_isdir") false false [], TStruct [])]).
Definition g_gosql_RightJoin : gtype := TNamed (MkName (B "RightJoin") (Some (B "github.com/frk/gosql", B "gosql")) (MkFlags false false false false false false) false false false false) (TStruct [(MkVar (B "_isdir") false false [], TStruct [])]).
Definition g_gosql_FullJoin : gtype := TNamed (MkName (B "FullJoin") (Some (B "github.com/frk/gosql", B "gosql")) (MkFlags false false false false false false) false false false false) (TStruct [(MkVar (B "_isdir") false false [], TStruct [])]).
Definition g_gosql_CrossJoin : gtype := TNamed (MkName (B "CrossJoin") (Some (B "github.com/frk/gosql", B "gosql")) (MkFlags false false false false false false) false false false false) (TStruct [(MkVar (B "_isdir") false false [], TStruct [])]).
Definition g_gosql_InnerJoin : gtype := TNamed (MkName (B "InnerJoin") (Some (B "github.com/frk/gosql", B "gosql")) (MkFlags false false false false false false) false false false false) (TStruct [(MkVar (B "_isdir") false false [], TStruct [])]).
Definition g_gosql_Limit : gtype := TNamed (MkName (B "Limit") (Some (B "github.com/frk/gosql", B "gosql")) (MkFlags false false false false false false) false false false false) (TStruct [(MkVar (B "_isdir") false false [], TStruct [])]).
Definition g_gosql_Offset : gtype := TNamed (MkName (B "Offset") (Some (B "github.com/frk/gosql", B "gosql")) (MkFlags false false false false false false) false false false false) (TStruct [(MkVar (B "_isdir") false false [], TStruct [])]).
Definition g_gosql_OrderBy : gtype := TNamed (MkName (B "OrderBy") (Some (B "github.com/frk/gosql", B "gosql")) (MkFlags false false false false false false) false false false false) (TStruct [(MkVar (B "_isdir") false false [], TStruct [])]).
Definition g_common_Baz : gtype := TNamed (MkName (B "Baz") (Some (B "github.com/frk/gosql/internal/testdata/common", B "common")) (MkFlags false false false false false false) false false false false) (TStruct [(MkVar (B "Val") true false [(B "sql", [B "val"])], (TBasic BString false false))]).
Definition g_common_Bar : gtype := TNamed (MkName (B "Bar") (Some (B "github.com/frk/gosql/internal/testdata/common", B "common")) (MkFlags false false false false false false) false false false false) (TStruct [(MkVar (B "Baz") true true [(B "sql", [B ">baz_"])], g_common_Baz)]).
Definition g_common_Foo : gtype := TNamed (MkName (B "Foo") (Some (B "github.com/frk/gosql/internal/testdata/common", B "common")) (MkFlags false false false false false false) false false false false) (TStruct [(MkVar (B "Bar") true false [(B "sql", [B ">bar_"])], g_common_Bar); (MkVar (B "Baz") true false [(B "sql", [B ">baz_"])], (TPtr g_common_Baz))]).
Definition g_common_Nested : gtype := TNamed (MkName (B "Nested") (Some (B "github.com/frk/gosql/internal/testdata/common", B "common")) (MkFlags false false false false false false) false false false false) (TStruct [(MkVar (B "FOO") true false [(B "sql", [B ">foo_"])], (TPtr g_common_Foo)); (MkVar (B "Foo") true true [(B "sql", [B ">foo2_"])], g_common_Foo)]).
Definition g_testdata_COLOR_ENUM : gtype := TNamed (MkName (B "COLOR_ENUM") (Some (B "github.com/frk/gosql/internal/testdata", B "testdata")) (MkFlags false false false false false false) false false false false) (TBasic BString false false).
Definition g_common_MyTime : gtype := TNamed (MkName (B "MyTime") (Some (B "github.com/frk/gosql/internal/testdata/common", B "common")) (MkFlags true true true true false false) false false false false) (TStruct [(MkVar (B "Time") true true [], g_time_Time)]).
Definition g_testdata_CT3b : gtype := TNamed (MkName (B "CT3b") (Some (B "github.com/frk/gosql/internal/testdata", B "testdata")) (MkFlags false false false false false false) false false false false) (TStruct [(MkVar (B "ColorText") true false [(B "sql", [B "color_text"])], (TBasic BString false false)); (MkVar (B "ColorEnum") true false [(B "sql", [B "color_enum"])], g_testdata_COLOR_ENUM); (MkVar (B "SomeTime") true false [(B "sql", [B "some_time"])], (TPtr g_common_MyTime))]).
Definition g_insert_basic_single_User : gtype := TNamed (MkName (B "User") (Some (B "github.com/frk/gosql/internal/testdata/generator/insert", B "testdata")) (MkFlags false false false false false false) false false false false) (TStruct [(MkVar (B "Id") true false [(B "sql", [B "id"])], (TBasic BInt false false)); (MkVar (B "Email") true false [(B "sql", [B "email"])], (TBasic BString false false)); (MkVar (B "FullName") true false [(B "sql", [B "full_name"])], (TBasic BString false false)); (MkVar (B "CreatedAt") true false [(B "sql", [B "created_at"])], g_time_Time)]).
Definition g_insert_basic_slice_User : gtype := TNamed (MkName (B "User") (Some (B "github.com/frk/gosql/internal/testdata/generator/insert", B "testdata")) (MkFlags false false false false false false) false false false false) (TStruct [(MkVar (B "Id") true false [(B "sql", [B "id"])], (TBasic BInt false false)); (MkVar (B "Email") true false [(B "sql", [B "email"])], (TBasic BString false false)); (MkVar (B "FullName") true false [(B "sql", [B "full_name"])], (TBasic BString false false)); (MkVar (B "CreatedAt") true false [(B "sql", [B "created_at"])], g_time_Time)]).
Definition g_common_User4 : gtype := TNamed (MkName (B "User4") (Some (B "github.com/frk/gosql/internal/testdata/common", B "common")) (MkFlags false false false false false false) false false false false) (TStruct [(MkVar (B "Id") true false [(B "sql", [B "id"; B "ro"])], (TBasic BInt false false)); (MkVar (B "Email") true false [(B "sql", [B "email"])], (TBasic BString false false)); (MkVar (B "FullName") true false [(B "sql", [B "full_name"])], (TBasic BString false false)); (MkVar (B "IsActive") true false [(B "sql", [B "is_active"])], (TBasic BBool false false)); (MkVar (B "CreatedAt") true false [(B "sql", [B "created_at"])], g_time_Time); (MkVar (B "UpdatedAt") true false [(B "sql", [B "updated_at"])], g_time_Time)]).
Definition g_gosql_Default : gtype := TNamed (MkName (B "Default") (Some (B "github.com/frk/gosql", B "gosql")) (MkFlags false false false false false false) false false false false) (TStruct [(MkVar (B "_isdir") false false [], TStruct [])]).
Definition g_common_User3 : gtype := TNamed (MkName (B "User3") (Some (B "github.com/frk/gosql/internal/testdata/common", B "common")) (MkFlags false false false false false false) false false false false) (TStruct [(MkVar (B "Id") true false [(B "sql", [B "id"; B "pk"; B "ro"])], (TBasic BInt false false)); (MkVar (B "Email") true false [(B "sql", [B "email"])], (TBasic BString false false)); (MkVar (B "Password") true false [(B "sql", [B "password"; B "wo"; B "xf"])], (TSlice (TBasic BUint8 true false))); (MkVar (B "CreatedAt") true false [(B "sql", [B "created_at"])], g_time_Time); (MkVar (B "UpdatedAt") true false [(B "sql", [B "updated_at"])], g_time_Time)]).
Definition g_common_ArbitraryStruct : gtype := TNamed (MkName (B "ArbitraryStruct") (Some (B "github.com/frk/gosql/internal/testdata/common", B "common")) (MkFlags false false false false false false) false false false false) (TStruct []).
Definition g_common_User5 : gtype := TNamed (MkName (B "User5") (Some (B "github.com/frk/gosql/internal/testdata/common", B "common")) (MkFlags false false false false false false) false false false false) (TStruct [(MkVar (B "Id") true false [(B "sql", [B "id"; B "ro"])], (TBasic BInt false false)); (MkVar (B "Email") true false [(B "sql", [B "email"])], (TBasic BString false false)); (MkVar (B "FullName") true false [(B "sql", [B "full_name"])], (TBasic BString false false)); (MkVar (B "IsActive") true false [(B "sql", [B "is_active"])], (TBasic BBool false false)); (MkVar (B "Metadata1") true false [(B "sql", [B "metadata1"; B "json"])], (TMap (TBasic BString false false) (TIface [] true false false))); (MkVar (B "Metadata2") true false [(B "sql", [B "metadata2"; B "json"])], g_common_ArbitraryStruct); (MkVar (B "CreatedAt") true false [(B "sql", [B "created_at"])], g_time_Time); (MkVar (B "UpdatedAt") true false [(B "sql", [B "updated_at"])], g_time_Time)]).
Definition g_common_ConflictData : gtype := TNamed (MkName (B "ConflictData") (Some (B "github.com/frk/gosql/internal/testdata/common", B "common")) (MkFlags false false false false false false) false false false false) (TStruct [(MkVar (B "Id") true false [(B "sql", [B "id"; B "ro"])], (TBasic BInt false false)); (MkVar (B "Key") true false [(B "sql", [B "key"])], (TBasic BInt false false)); (MkVar (B "Name") true false [(B "sql", [B "name"])], (TBasic BString false false)); (MkVar (B "Fruit") true false [(B "sql", [B "fruit"])], (TBasic BString false false)); (MkVar (B "Value") true false [(B "sql", [B "value"])], (TBasic BFloat64 false false))]).
Definition g_gosql_Ignore : gtype := TNamed (MkName (B "Ignore") (Some (B "github.com/frk/gosql", B "gosql")) (MkFlags false false false false false false) false false false false) (TStruct [(MkVar (B "_isdir") false false [], TStruct [])]).
Definition g_gosql_Update : gtype := TNamed (MkName (B "Update") (Some (B "github.com/frk/gosql", B "gosql")) (MkFlags false false false false false false) false false false false) (TStruct [(MkVar (B "_isdir") false false [], TStruct [])]).
Definition g_gosql_Constraint : gtype := TNamed (MkName (B "Constraint") (Some (B "github.com/frk/gosql", B "gosql")) (MkFlags false false false false false false) false false false false) (TStruct [(MkVar (B "_isdir") false false [], TStruct [])]).
Definition g_gosql_Index : gtype := TNamed (MkName (B "Index") (Some (B "github.com/frk/gosql", B "gosql")) (MkFlags false false false false false false) false false false false) (TStruct [(MkVar (B "_isdir") false false [], TStruct [])]).
Definition g_common_FilterMaker : gtype := TNamed (MkName (B "FilterMaker") (Some (B "github.com/frk/gosql/internal/testdata/common", B "common")) (MkFlags false false false false false false) false false false true) (TStruct []).
Definition g_common_User6 : gtype := TNamed (MkName (B "User6") (Some (B "github.com/frk/gosql/internal/testdata/common", B "common")) (MkFlags false false false false false false) false false false false) (TStruct [(MkVar (B "Id") true false [(B "sql", [B "id"; B "ro"]); (B "json", [B "id"])], (TBasic BInt false false)); (MkVar (B "Email") true false [(B "sql", [B "email"]); (B "json", [B "email"])], (TBasic BString false false)); (MkVar (B "FullName") true false [(B "sql", [B "full_name"]); (B "json", [B "fullName"])], (TBasic BString false false)); (MkVar (B "IsActive") true false [(B "sql", [B "is_active"]); (B "json", [B "isActive"])], (TBasic BBool false false)); (MkVar (B "Metadata1") true false [(B "sql", [B "metadata1"; B "json"]); (B "json", [B "-"])], g_common_ArbitraryStruct); (MkVar (B "Metadata2") true false [(B "sql", [B "metadata2"; B "json"]); (B "json", [B ""])], g_common_ArbitraryStruct); (MkVar (B "CreatedAt") true false [(B "sql", [B "created_at"]); (B "json", [B "createdAt"])], g_time_Time); (MkVar (B "UpdatedAt") true false [(B "sql", [B "updated_at"]); (B "json", [B "updatedAt"])], g_time_Time)]).
Definition g_common_EBaz : gtype := TNamed (MkName (B "EBaz") (Some (B "github.com/frk/gosql/internal/testdata/common", B "common")) (MkFlags false false false false false false) false false false false) (TStruct [(MkVar (B "Val") true false [(B "json", [B "value"]); (B "sql", [B "val"])], (TBasic BString false false))]).
Definition g_common_EBar : gtype := TNamed (MkName (B "EBar") (Some (B "github.com/frk/gosql/internal/testdata/common", B "common")) (MkFlags false false false false false false) false false false false) (TStruct [(MkVar (B "EBaz") true true [(B "sql", [B ">baz_"])], g_common_EBaz)]).
Definition g_common_EFoo : gtype := TNamed (MkName (B "EFoo") (Some (B "github.com/frk/gosql/internal/testdata/common", B "common")) (MkFlags false false false false false false) false false false false) (TStruct [(MkVar (B "Bar") true false [(B "json", [B "barField"]); (B "sql", [B ">bar_"])], g_common_EBar); (MkVar (B "Baz") true false [(B "json", [B "bazField"]); (B "sql", [B ">baz_"])], (TPtr g_common_EBaz))]).
Definition g_common_Embedded : gtype := TNamed (MkName (B "Embedded") (Some (B "github.com/frk/gosql/internal/testdata/common", B "common")) (MkFlags false false false false false false) false false false false) (TStruct [(MkVar (B "FOO") true false [(B "json", [B "fooField"]); (B "sql", [B ">foo_"])], (TPtr g_common_EFoo)); (MkVar (B "EFoo") true true [(B "sql", [B ">foo2_"])], g_common_EFoo)]).
Definition g_testdata_CT1 : gtype := TNamed (MkName (B "CT1") (Some (B "github.com/frk/gosql/internal/testdata", B "testdata")) (MkFlags false false false false false false) false false false false) (TStruct [(MkVar (B "A") true false [(B "sql", [B "col_a"])], (TBasic BInt false false)); (MkVar (B "B") true false [(B "sql", [B "col_b"; B "nn"])], (TBasic BString false false)); (MkVar (B "C") true false [(B "sql", [B "col_c"])], (TBasic BBool false false)); (MkVar (B "D") true false [(B "sql", [B "col_d"; B "nn"])], (TBasic BFloat64 false false)); (MkVar (B "E") true false [(B "sql", [B "col_e"])], g_time_Time)]).
Definition g_gosql_TextSearch : gtype := TNamed (MkName (B "TextSearch") (Some (B "github.com/frk/gosql", B "gosql")) (MkFlags false false false false false false) false false false false) (TStruct [(MkVar (B "_isdir") false false [], TStruct [])]).
Definition g_net_IP : gtype := TNamed (MkName (B "IP") (Some (B "net", B "net")) (MkFlags false false false false false false) false false false false) (TSlice (TBasic BUint8 true false)).
Definition g_net_IPMask : gtype := TNamed (MkName (B "IPMask") (Some (B "net", B "net")) (MkFlags false false false false false false) false false false false) (TSlice (TBasic BUint8 true false)).
Definition g_net_IPNet : gtype := TNamed (MkName (B "IPNet") (Some (B "net", B "net")) (MkFlags false false false false false false) false false false false) (TStruct [(MkVar (B "IP") true false [], g_net_IP); (MkVar (B "Mask") true false [], g_net_IPMask)]).
Definition g_net_HardwareAddr : gtype := TNamed (MkName (B "HardwareAddr") (Some (B "net", B "net")) (MkFlags false false false false false false) false false false false) (TSlice (TBasic BUint8 true false)).
Definition g_pgsql_type2 : gtype := TNamed (MkName (B "type2") (Some (B "github.com/frk/gosql/internal/testdata/generator/pgsql", B "testdata")) (MkFlags false false false false false false) false false false false) (TStruct [(MkVar (B "bitarr") false false [(B "sql", [B "col_bitarr"])], (TSlice (TBasic BUint8 false false))); (MkVar (B "boolarr") false false [(B "sql", [B "col_boolarr"])], (TSlice (TBasic BBool false false))); (MkVar (B "boxarr") false false [(B "sql", [B "col_boxarr"])], (TSlice (TArray 2 (TArray 2 (TBasic BFloat64 false false))))); (MkVar (B "bpchararr") false false [(B "sql", [B "col_bpchararr"])], (TSlice (TBasic BInt32 false true))); (MkVar (B "byteaarr") false false [(B "sql", [B "col_byteaarr"])], (TSlice (TSlice (TBasic BUint8 true false)))); (MkVar (B "chararr") false false [(B "sql", [B "col_chararr"])], (TSlice (TBasic BUint8 true false))); (MkVar (B "cidrarr") false false [(B "sql", [B "col_cidrarr"])], (TSlice g_net_IPNet)); (MkVar (B "datearr") false false [(B "sql", [B "col_datearr"])], (TSlice g_time_Time)); (MkVar (B "daterangearr") false false [(B "sql", [B "col_daterangearr"])], (TSlice (TArray 2 g_time_Time))); (MkVar (B "float4arr") false false [(B "sql", [B "col_float4arr"])], (TSlice (TBasic BFloat32 false false))); (MkVar (B "float8arr") false false [(B "sql", [B "col_float8arr"])], (TSlice (TBasic BFloat64 false false))); (MkVar (B "inetarr") false false [(B "sql", [B "col_inetarr"])], (TSlice g_net_IP)); (MkVar (B "int2arr") false false [(B "sql", [B "col_int2arr"])], (TSlice (TBasic BInt16 false false))); (MkVar (B "int2vector") false false [(B "sql", [B "col_int2vector"])], (TSlice (TBasic BInt16 false false))); (MkVar (B "int2vectorarr") false false [(B "sql", [B "col_int2vectorarr"])], (TSlice (TSlice (TBasic BInt16 false false)))); (MkVar (B "int4arr") false false [(B "sql", [B "col_int4arr"])], (TSlice (TBasic BInt32 false false))); (MkVar (B "int4rangearr") false false [(B "sql", [B "col_int4rangearr"])], (TSlice (TArray 2 (TBasic BInt32 false false)))); (MkVar (B "int8arr") false false [(B "sql", [B "col_int8arr"])], (TSlice (TBasic BInt64 false false))); (MkVar (B "int8rangearr") false false [(B "sql", [B "col_int8rangearr"])], (TSlice (TArray 2 (TBasic BInt64 false false)))); (MkVar (B "jsonarr") false false [(B "sql", [B "col_jsonarr"])], (TSlice (TSlice (TBasic BUint8 true false)))); (MkVar (B "jsonbarr") false false [(B "sql", [B "col_jsonbarr"])], (TSlice (TSlice (TBasic BUint8 true false)))); (MkVar (B "linearr") false false [(B "sql", [B "col_linearr"])], (TSlice (TArray 3 (TBasic BFloat64 false false)))); (MkVar (B "lsegarr") false false [(B "sql", [B "col_lsegarr"])], (TSlice (TArray 2 (TArray 2 (TBasic BFloat64 false false))))); (MkVar (B "macaddrarr") false false [(B "sql", [B "col_macaddrarr"])], (TSlice g_net_HardwareAddr)); (MkVar (B "macaddr8arr") false false [(B "sql", [B "col_macaddr8arr"])], (TSlice g_net_HardwareAddr)); (MkVar (B "moneyarr") false false [(B "sql", [B "col_moneyarr"])], (TSlice (TBasic BInt64 false false))); (MkVar (B "numericarr") false false [(B "sql", [B "col_numericarr"])], (TSlice (TBasic BInt64 false false))); (MkVar (B "numrangearr") false false [(B "sql", [B "col_numrangearr"])], (TSlice (TArray 2 (TBasic BFloat64 false false)))); (MkVar (B "patharr") false false [(B "sql", [B "col_patharr"])], (TSlice (TSlice (TArray 2 (TBasic BFloat64 false false))))); (MkVar (B "pointarr") false false [(B "sql", [B "col_pointarr"])], (TSlice (TArray 2 (TBasic BFloat64 false false)))); (MkVar (B "polygonarr") false false [(B "sql", [B "col_polygonarr"])], (TSlice (TSlice (TArray 2 (TBasic BFloat64 false false))))); (MkVar (B "textarr") false false [(B "sql", [B "col_textarr"])], (TSlice (TBasic BString false false))); (MkVar (B "timearr") false false [(B "sql", [B "col_timearr"])], (TSlice g_time_Time)); (MkVar (B "timestamparr") false false [(B "sql", [B "col_timestamparr"])], (TSlice g_time_Time)); (MkVar (B "timestamptzarr") false false [(B "sql", [B "col_timestamptzarr"])], (TSlice g_time_Time)); (MkVar (B "timetzarr") false false [(B "sql", [B "col_timetzarr"])], (TSlice g_time_Time)); (MkVar (B "tsqueryarr") false false [(B "sql", [B "col_tsqueryarr"])], (TSlice (TBasic BString false false))); (MkVar (B "tsrangearr") false false [(B "sql", [B "col_tsrangearr"])], (TSlice (TArray 2 g_time_Time))); (MkVar (B "tstzrangearr") false false [(B "sql", [B "col_tstzrangearr"])], (TSlice (TArray 2 g_time_Time))); (MkVar (B "tsvectorarr") false false [(B "sql", [B "col_tsvectorarr"])], (TSlice (TSlice (TBasic BString false false)))); (MkVar (B "uuidarr") false false [(B "sql", [B "col_uuidarr"])], (TSlice (TArray 16 (TBasic BUint8 true false)))); (MkVar (B "varbitarr") false false [(B "sql", [B "col_varbitarr"])], (TSlice (TSlice (TBasic BBool false false)))); (MkVar (B "varchararr") false false [(B "sql", [B "col_varchararr"])], (TSlice (TBasic BString false false))); (MkVar (B "xmlarr") false false [(B "sql", [B "col_xmlarr"])], (TSlice (TSlice (TBasic BUint8 true false))))]).
Definition g_pgsql_type1 : gtype := TNamed (MkName (B "type1") (Some (B "github.com/frk/gosql/internal/testdata/generator/pgsql", B "testdata")) (MkFlags false false false false false false) false false false false) (TStruct [(MkVar (B "bit") false false [(B "sql", [B "col_bit"])], (TBasic BBool false false)); (MkVar (B "bpchar") false false [(B "sql", [B "col_bpchar"])], (TBasic BUint8 true false)); (MkVar (B "char") false false [(B "sql", [B "col_char"])], (TBasic BInt32 false true)); (MkVar (B "cidr") false false [(B "sql", [B "col_cidr"])], g_net_IPNet); (MkVar (B "inet") false false [(B "sql", [B "col_inet"])], g_net_IP); (MkVar (B "macaddr") false false [(B "sql", [B "col_macaddr"])], g_net_HardwareAddr); (MkVar (B "macaddr8") false false [(B "sql", [B "col_macaddr8"])], g_net_HardwareAddr); (MkVar (B "money") false false [(B "sql", [B "col_money"])], (TBasic BInt64 false false)); (MkVar (B "tsvector") false false [(B "sql", [B "col_tsvector"])], (TSlice (TBasic BString false false))); (MkVar (B "uuid") false false [(B "sql", [B "col_uuid"])], (TArray 16 (TBasic BUint8 true false))); (MkVar (B "varbit") false false [(B "sql", [B "col_varbit"])], (TSlice (TBasic BBool false false)))]).

Example golden_delete_all_directive :
  golden_query golden_db (Analysis.MkEnv (B "github.com/frk/gosql/internal/testdata/generator/delete") (B "") (B ".") false) false (B "DeleteWithAllDirectiveQuery") [(MkVar (B "_") false false [(B "rel", [B "test_user"])], g_gosql_Relation); (MkVar (B "_") false false [], g_gosql_All)]
  = Some (B "constqueryString=`DELETEFROM""test_user""`_,err:=c.Exec(queryString)returnerr").
Proof. vm_compute. reflexivity. Qed.
Example golden_delete_datatype_1 :
  golden_query golden_db (Analysis.MkEnv (B "github.com/frk/gosql/internal/testdata/generator/delete") (B "") (B ".") false) false (B "DeleteWithDatatype1Query") [(MkVar (B "User") true false [(B "rel", [B "test_user:u"])], (TPtr g_common_User)); (MkVar (B "Where") true false [], (TStruct [(MkVar (B "Id") true false [(B "sql", [B "u.id"])], (TBasic BInt false false))]))]
  = Some (B "constqueryString=`DELETEFROM""test_user""ASuWHEREu.""id""=$1`_,err:=c.Exec(queryString,q.Where.Id)returnerr").
Proof. vm_compute. reflexivity. Qed.
Example golden_delete_datatype_2 :
  golden_query golden_db (Analysis.MkEnv (B "github.com/frk/gosql/internal/testdata/generator/delete") (B "") (B ".") false) false (B "DeleteWithDatatype2Query") [(MkVar (B "_") false false [(B "rel", [B "test_user:u"])], (TPtr g_common_User)); (MkVar (B "Where") true false [], (TStruct [(MkVar (B "Id") true false [(B "sql", [B "u.id"])], (TBasic BInt false false))]))]
  = Some (B "constqueryString=`DELETEFROM""test_user""ASuWHEREu.""id""=$1`_,err:=c.Exec(queryString,q.Where.Id)returnerr").
Proof. vm_compute. reflexivity. Qed.
Example golden_delete_filter :
  golden_query golden_db (Analysis.MkEnv (B "github.com/frk/gosql/internal/testdata/generator/delete") (B "") (B ".") false) false (B "DeleteWithFilterQuery") [(MkVar (B "_") false false [(B "rel", [B "test_user"])], g_gosql_Relation); (MkVar (B "Filter") true true [], g_gosql_Filter)]
  = Some (B "varqueryString=`DELETEFROM""test_user""`filterString,params:=q.Filter.ToSQL(0)queryString+=filterString_,err:=c.Exec(queryString,params...)returnerr").
Proof. vm_compute. reflexivity. Qed.
Example golden_delete_result_iterator_afterscan :
  golden_query golden_db (Analysis.MkEnv (B "github.com/frk/gosql/internal/testdata/generator/delete") (B "") (B ".") false) false (B "DeleteWithResultIteratorAfterScanQuery") [(MkVar (B "_") false false [(B "rel", [B "test_user:u"])], g_gosql_Relation); (MkVar (B "Where") true false [], (TStruct [(MkVar (B "CreatedBefore") true false [(B "sql", [B "u.created_at <"])], g_time_Time)])); (MkVar (B "Result") true false [], g_common_User2Iterator)]
  = Some (B "constqueryString=`DELETEFROM""test_user""ASuWHEREu.""created_at""<$1RETURNINGu.""id"",u.""email"",u.""full_name"",u.""created_at""`rows,err:=c.Query(queryString,q.Where.CreatedBefore)iferr!=nil{returnerr}deferrows.Close()forrows.Next(){v:=new(T)err:=rows.Scan(&v.Id,&v.Email,&v.FullName,&v.CreatedAt)iferr!=nil{returnerr}v.AfterScan()iferr:=q.Result.NextUser(v);err!=nil{returnerr}}returnrows.Err()").
Proof. vm_compute. reflexivity. Qed.
Example golden_delete_result_iterator_errorhandler :
  golden_query golden_db (Analysis.MkEnv (B "github.com/frk/gosql/internal/testdata/generator/delete") (B "") (B ".") false) false (B "DeleteWithResultIteratorErrorHandlerQuery") [(MkVar (B "_") false false [(B "rel", [B "test_user:u"])], g_gosql_Relation); (MkVar (B "Where") true false [], (TStruct [(MkVar (B "CreatedBefore") true false [(B "sql", [B "u.created_at <"])], g_time_Time)])); (MkVar (B "Result") true false [], g_common_User2Iterator); (MkVar (B "errhandler") false false [], g_common_ErrorHandler)]
  = Some (B "constqueryString=`DELETEFROM""test_user""ASuWHEREu.""created_at""<$1RETURNINGu.""id"",u.""email"",u.""full_name"",u.""created_at""`rows,err:=c.Query(queryString,q.Where.CreatedBefore)iferr!=nil{returnq.errhandler.HandleError(err)}deferrows.Close()forrows.Next(){v:=new(T)err:=rows.Scan(&v.Id,&v.Email,&v.FullName,&v.CreatedAt)iferr!=nil{returnq.errhandler.HandleError(err)}v.AfterScan()iferr:=q.Result.NextUser(v);err!=nil{returnq.errhandler.HandleError(err)}}returnq.errhandler.HandleError(rows.Err())").
Proof. vm_compute. reflexivity. Qed.
Example golden_delete_result_iterator_errorinfohandler :
  golden_query golden_db (Analysis.MkEnv (B "github.com/frk/gosql/internal/testdata/generator/delete") (B "") (B ".") false) false (B "DeleteWithResultIteratorErrorInfoHandlerQuery") [(MkVar (B "_") false false [(B "rel", [B "test_user:u"])], g_gosql_Relation); (MkVar (B "Where") true false [], (TStruct [(MkVar (B "CreatedBefore") true false [(B "sql", [B "u.created_at <"])], g_time_Time)])); (MkVar (B "Result") true false [], g_common_User2Iterator); (MkVar (B "errhandler") false false [], g_common_ErrorInfoHandler)]
  = Some (B "constqueryString=`DELETEFROM""test_user""ASuWHEREu.""created_at""<$1RETURNINGu.""id"",u.""email"",u.""full_name"",u.""created_at""`rows,err:=c.Query(queryString,q.Where.CreatedBefore)iferr!=nil{returnq.errhandler.HandleErrorInfo(&gosql.ErrorInfo{Error:err,QueryString:queryString,QueryKind:""Delete"",QueryName:""DeleteWithResultIteratorErrorInfoHandlerQuery"",QueryValue:q})}deferrows.Close()forrows.Next(){v:=new(T)err:=rows.Scan(&v.Id,&v.Email,&v.FullName,&v.CreatedAt)iferr!=nil{returnq.errhandler.HandleErrorInfo(&gosql.ErrorInfo{Error:err,QueryString:queryString,QueryKind:""Delete"",QueryName:""DeleteWithResultIteratorErrorInfoHandlerQuery"",QueryValue:q})}v.AfterScan()iferr:=q.Result.NextUser(v);err!=nil{returnq.errhandler.HandleErrorInfo(&gosql.ErrorInfo{Error:err,QueryString:queryString,QueryKind:""Delete"",QueryName:""DeleteWithResultIteratorErrorInfoHandlerQuery"",QueryValue:q})}}iferr:=rows.Err();err!=nil{returnq.errhandler.HandleErrorInfo(&gosql.ErrorInfo{Error:err,QueryString:queryString,QueryKind:""Delete"",QueryName:""DeleteWithResultIteratorErrorInfoHandlerQuery"",QueryValue:q})}returnnil").
Proof. vm_compute. reflexivity. Qed.
Example golden_delete_result_iterator :
  golden_query golden_db (Analysis.MkEnv (B "github.com/frk/gosql/internal/testdata/generator/delete") (B "") (B ".") false) false (B "DeleteWithResultIteratorQuery") [(MkVar (B "_") false false [(B "rel", [B "test_user:u"])], g_gosql_Relation); (MkVar (B "Where") true false [], (TStruct [(MkVar (B "CreatedBefore") true false [(B "sql", [B "u.created_at <"])], g_time_Time)])); (MkVar (B "Result") true false [], g_common_UserIterator)]
  = Some (B "constqueryString=`DELETEFROM""test_user""ASuWHEREu.""created_at""<$1RETURNINGu.""id"",u.""email"",u.""full_name"",u.""created_at""`rows,err:=c.Query(queryString,q.Where.CreatedBefore)iferr!=nil{returnerr}deferrows.Close()forrows.Next(){v:=new(T)err:=rows.Scan(&v.Id,&v.Email,&v.FullName,&v.CreatedAt)iferr!=nil{returnerr}iferr:=q.Result.NextUser(v);err!=nil{returnerr}}returnrows.Err()").
Proof. vm_compute. reflexivity. Qed.
Example golden_delete_result_single_afterscan :
  golden_query golden_db (Analysis.MkEnv (B "github.com/frk/gosql/internal/testdata/generator/delete") (B "") (B ".") false) false (B "DeleteWithResultSingleAfterScanQuery") [(MkVar (B "_") false false [(B "rel", [B "test_user:u"])], g_gosql_Relation); (MkVar (B "Where") true false [], (TStruct [(MkVar (B "Id") true false [(B "sql", [B "u.id"])], (TBasic BInt false false))])); (MkVar (B "Result") true false [], (TPtr g_common_User2))]
  = Some (B "constqueryString=`DELETEFROM""test_user""ASuWHEREu.""id""=$1RETURNINGu.""id"",u.""email"",u.""full_name"",u.""created_at""`row:=c.QueryRow(queryString,q.Where.Id)q.Result=new(T)err:=row.Scan(&q.Result.Id,&q.Result.Email,&q.Result.FullName,&q.Result.CreatedAt)iferr!=nil{returnerr}q.Result.AfterScan()returnnil").
Proof. vm_compute. reflexivity. Qed.
Example golden_delete_result_single_errorhandler :
  golden_query golden_db (Analysis.MkEnv (B "github.com/frk/gosql/internal/testdata/generator/delete") (B "") (B ".") false) false (B "DeleteWithResultSingleErrorHandlerQuery") [(MkVar (B "_") false false [(B "rel", [B "test_user:u"])], g_gosql_Relation); (MkVar (B "Where") true false [], (TStruct [(MkVar (B "Id") true false [(B "sql", [B "u.id"])], (TBasic BInt false false))])); (MkVar (B "Result") true false [], (TPtr g_common_User)); (MkVar (B "eh") false false [], g_common_ErrorHandler)]
  = Some (B "constqueryString=`DELETEFROM""test_user""ASuWHEREu.""id""=$1RETURNINGu.""id"",u.""email"",u.""full_name"",u.""created_at""`row:=c.QueryRow(queryString,q.Where.Id)q.Result=new(T)returnq.eh.HandleError(row.Scan(&q.Result.Id,&q.Result.Email,&q.Result.FullName,&q.Result.CreatedAt))").
Proof. vm_compute. reflexivity. Qed.
Example golden_delete_result_single_errorinfohandler :
  golden_query golden_db (Analysis.MkEnv (B "github.com/frk/gosql/internal/testdata/generator/delete") (B "") (B ".") false) false (B "DeleteWithResultSingleErrorInfoHandlerQuery") [(MkVar (B "_") false false [(B "rel", [B "test_user:u"])], g_gosql_Relation); (MkVar (B "Where") true false [], (TStruct [(MkVar (B "Id") true false [(B "sql", [B "u.id"])], (TBasic BInt false false))])); (MkVar (B "Result") true false [], (TPtr g_common_User)); (MkVar (B "eh") false false [], g_common_ErrorInfoHandler)]
  = Some (B "constqueryString=`DELETEFROM""test_user""ASuWHEREu.""id""=$1RETURNINGu.""id"",u.""email"",u.""full_name"",u.""created_at""`row:=c.QueryRow(queryString,q.Where.Id)q.Result=new(T)err:=row.Scan(&q.Result.Id,&q.Result.Email,&q.Result.FullName,&q.Result.CreatedAt)iferr!=nil{returnq.eh.HandleErrorInfo(&gosql.ErrorInfo{Error:err,QueryString:queryString,QueryKind:""Delete"",QueryName:""DeleteWithResultSingleErrorInfoHandlerQuery"",QueryValue:q})}returnnil").
Proof. vm_compute. reflexivity. Qed.
Example golden_delete_result_single :
  golden_query golden_db (Analysis.MkEnv (B "github.com/frk/gosql/internal/testdata/generator/delete") (B "") (B ".") false) false (B "DeleteWithResultSingleQuery") [(MkVar (B "_") false false [(B "rel", [B "test_user:u"])], g_gosql_Relation); (MkVar (B "Where") true false [], (TStruct [(MkVar (B "Id") true false [(B "sql", [B "u.id"])], (TBasic BInt false false))])); (MkVar (B "Result") true false [], (TPtr g_common_User))]
  = Some (B "constqueryString=`DELETEFROM""test_user""ASuWHEREu.""id""=$1RETURNINGu.""id"",u.""email"",u.""full_name"",u.""created_at""`row:=c.QueryRow(queryString,q.Where.Id)q.Result=new(T)returnrow.Scan(&q.Result.Id,&q.Result.Email,&q.Result.FullName,&q.Result.CreatedAt)").
Proof. vm_compute. reflexivity. Qed.
Example golden_delete_result_slice_afterscan :
  golden_query golden_db (Analysis.MkEnv (B "github.com/frk/gosql/internal/testdata/generator/delete") (B "") (B ".") false) false (B "DeleteWithResultSliceAfterScanQuery") [(MkVar (B "_") false false [(B "rel", [B "test_user:u"])], g_gosql_Relation); (MkVar (B "Where") true false [], (TStruct [(MkVar (B "CreatedBefore") true false [(B "sql", [B "u.created_at <"])], g_time_Time)])); (MkVar (B "Result") true false [], (TSlice (TPtr g_common_User2)))]
  = Some (B "constqueryString=`DELETEFROM""test_user""ASuWHEREu.""created_at""<$1RETURNINGu.""id"",u.""email"",u.""full_name"",u.""created_at""`rows,err:=c.Query(queryString,q.Where.CreatedBefore)iferr!=nil{returnerr}deferrows.Close()forrows.Next(){v:=new(T)err:=rows.Scan(&v.Id,&v.Email,&v.FullName,&v.CreatedAt)iferr!=nil{returnerr}v.AfterScan()q.Result=append(q.Result,v)}returnrows.Err()").
Proof. vm_compute. reflexivity. Qed.
Example golden_delete_result_slice :
  golden_query golden_db (Analysis.MkEnv (B "github.com/frk/gosql/internal/testdata/generator/delete") (B "") (B ".") false) false (B "DeleteWithResultSliceQuery") [(MkVar (B "_") false false [(B "rel", [B "test_user:u"])], g_gosql_Relation); (MkVar (B "Where") true false [], (TStruct [(MkVar (B "CreatedBefore") true false [(B "sql", [B "u.created_at <"])], g_time_Time)])); (MkVar (B "Result") true false [], (TSlice (TPtr g_common_User)))]
  = Some (B "constqueryString=`DELETEFROM""test_user""ASuWHEREu.""created_at""<$1RETURNINGu.""id"",u.""email"",u.""full_name"",u.""created_at""`rows,err:=c.Query(queryString,q.Where.CreatedBefore)iferr!=nil{returnerr}deferrows.Close()forrows.Next(){v:=new(T)err:=rows.Scan(&v.Id,&v.Email,&v.FullName,&v.CreatedAt)iferr!=nil{returnerr}q.Result=append(q.Result,v)}returnrows.Err()").
Proof. vm_compute. reflexivity. Qed.
Example golden_delete_returning_iterator_afterscan :
  golden_query golden_db (Analysis.MkEnv (B "github.com/frk/gosql/internal/testdata/generator/delete") (B "") (B ".") false) false (B "DeleteWithReturningIteratorAfterScanQuery") [(MkVar (B "Iter") true false [(B "rel", [B "test_user:u"])], g_common_User2Iterator); (MkVar (B "Where") true false [], (TStruct [(MkVar (B "CreatedBefore") true false [(B "sql", [B "u.created_at <"])], g_time_Time)])); (MkVar (B "_") false false [(B "sql", [B "*"])], g_gosql_Return)]
  = Some (B "constqueryString=`DELETEFROM""test_user""ASuWHEREu.""created_at""<$1RETURNINGu.""id"",u.""email"",u.""full_name"",u.""created_at""`rows,err:=c.Query(queryString,q.Where.CreatedBefore)iferr!=nil{returnerr}deferrows.Close()forrows.Next(){v:=new(T)err:=rows.Scan(&v.Id,&v.Email,&v.FullName,&v.CreatedAt)iferr!=nil{returnerr}v.AfterScan()iferr:=q.Iter.NextUser(v);err!=nil{returnerr}}returnrows.Err()").
Proof. vm_compute. reflexivity. Qed.
Example golden_delete_returning_iterator :
  golden_query golden_db (Analysis.MkEnv (B "github.com/frk/gosql/internal/testdata/generator/delete") (B "") (B ".") false) false (B "DeleteWithReturningIteratorQuery") [(MkVar (B "Iter") true false [(B "rel", [B "test_user:u"])], g_common_UserIterator); (MkVar (B "Where") true false [], (TStruct [(MkVar (B "CreatedBefore") true false [(B "sql", [B "u.created_at <"])], g_time_Time)])); (MkVar (B "_") false false [(B "sql", [B "*"])], g_gosql_Return)]
  = Some (B "constqueryString=`DELETEFROM""test_user""ASuWHEREu.""created_at""<$1RETURNINGu.""id"",u.""email"",u.""full_name"",u.""created_at""`rows,err:=c.Query(queryString,q.Where.CreatedBefore)iferr!=nil{returnerr}deferrows.Close()forrows.Next(){v:=new(T)err:=rows.Scan(&v.Id,&v.Email,&v.FullName,&v.CreatedAt)iferr!=nil{returnerr}iferr:=q.Iter.NextUser(v);err!=nil{returnerr}}returnrows.Err()").
Proof. vm_compute. reflexivity. Qed.
Example golden_delete_returning_single_afterscan :
  golden_query golden_db (Analysis.MkEnv (B "github.com/frk/gosql/internal/testdata/generator/delete") (B "") (B ".") false) false (B "DeleteWithReturningSingleAfterScanQuery") [(MkVar (B "User") true false [(B "rel", [B "test_user:u"])], (TPtr g_common_User2)); (MkVar (B "Where") true false [], (TStruct [(MkVar (B "Id") true false [(B "sql", [B "u.id"])], (TBasic BInt false false))])); (MkVar (B "_") false false [(B "sql", [B "*"])], g_gosql_Return)]
  = Some (B "constqueryString=`DELETEFROM""test_user""ASuWHEREu.""id""=$1RETURNINGu.""id"",u.""email"",u.""full_name"",u.""created_at""`row:=c.QueryRow(queryString,q.Where.Id)q.User=new(T)err:=row.Scan(&q.User.Id,&q.User.Email,&q.User.FullName,&q.User.CreatedAt)iferr!=nil{returnerr}q.User.AfterScan()returnnil").
Proof. vm_compute. reflexivity. Qed.
Example golden_delete_returning_single_all :
  golden_query golden_db (Analysis.MkEnv (B "github.com/frk/gosql/internal/testdata/generator/delete") (B "") (B ".") false) false (B "DeleteWithReturningSingleAllQuery") [(MkVar (B "User") true false [(B "rel", [B "test_user:u"])], (TPtr g_common_User)); (MkVar (B "Where") true false [], (TStruct [(MkVar (B "Id") true false [(B "sql", [B "u.id"])], (TBasic BInt false false))])); (MkVar (B "_") false false [(B "sql", [B "*"])], g_gosql_Return)]
  = Some (B "constqueryString=`DELETEFROM""test_user""ASuWHEREu.""id""=$1RETURNINGu.""id"",u.""email"",u.""full_name"",u.""created_at""`row:=c.QueryRow(queryString,q.Where.Id)q.User=new(T)returnrow.Scan(&q.User.Id,&q.User.Email,&q.User.FullName,&q.User.CreatedAt)").
Proof. vm_compute. reflexivity. Qed.
Example golden_delete_returning_single_collist :
  golden_query golden_db (Analysis.MkEnv (B "github.com/frk/gosql/internal/testdata/generator/delete") (B "") (B ".") false) false (B "DeleteWithReturningSingleCollistQuery") [(MkVar (B "User") true false [(B "rel", [B "test_user:u"])], (TStruct [(MkVar (B "Email") true false [(B "sql", [B "email"])], (TBasic BString false false)); (MkVar (B "FullName") true false [(B "sql", [B "full_name"])], (TBasic BString false false))])); (MkVar (B "Where") true false [], (TStruct [(MkVar (B "Id") true false [(B "sql", [B "u.id"])], (TBasic BInt false false))])); (MkVar (B "_") false false [(B "sql", [B "u.email"; B "u.full_name"])], g_gosql_Return)]
  = Some (B "constqueryString=`DELETEFROM""test_user""ASuWHEREu.""id""=$1RETURNINGu.""email"",u.""full_name""`row:=c.QueryRow(queryString,q.Where.Id)returnrow.Scan(&q.User.Email,&q.User.FullName)").
Proof. vm_compute. reflexivity. Qed.
Example golden_delete_returning_slice_afterscan :
  golden_query golden_db (Analysis.MkEnv (B "github.com/frk/gosql/internal/testdata/generator/delete") (B "") (B ".") false) false (B "DeleteWithReturningSliceAfterScanQuery") [(MkVar (B "Users") true false [(B "rel", [B "test_user:u"])], (TSlice (TPtr g_common_User2))); (MkVar (B "Where") true false [], (TStruct [(MkVar (B "CreatedBefore") true false [(B "sql", [B "u.created_at <"])], g_time_Time)])); (MkVar (B "_") false false [(B "sql", [B "*"])], g_gosql_Return)]
  = Some (B "constqueryString=`DELETEFROM""test_user""ASuWHEREu.""created_at""<$1RETURNINGu.""id"",u.""email"",u.""full_name"",u.""created_at""`rows,err:=c.Query(queryString,q.Where.CreatedBefore)iferr!=nil{returnerr}deferrows.Close()forrows.Next(){v:=new(T)err:=rows.Scan(&v.Id,&v.Email,&v.FullName,&v.CreatedAt)iferr!=nil{returnerr}v.AfterScan()q.Users=append(q.Users,v)}returnrows.Err()").
Proof. vm_compute. reflexivity. Qed.
Example golden_delete_returning_slice_all :
  golden_query golden_db (Analysis.MkEnv (B "github.com/frk/gosql/internal/testdata/generator/delete") (B "") (B ".") false) false (B "DeleteWithReturningSliceAllQuery") [(MkVar (B "Users") true false [(B "rel", [B "test_user:u"])], (TSlice (TPtr g_common_User))); (MkVar (B "Where") true false [], (TStruct [(MkVar (B "CreatedBefore") true false [(B "sql", [B "u.created_at <"])], g_time_Time)])); (MkVar (B "_") false false [(B "sql", [B "*"])], g_gosql_Return)]
  = Some (B "constqueryString=`DELETEFROM""test_user""ASuWHEREu.""created_at""<$1RETURNINGu.""id"",u.""email"",u.""full_name"",u.""created_at""`rows,err:=c.Query(queryString,q.Where.CreatedBefore)iferr!=nil{returnerr}deferrows.Close()forrows.Next(){v:=new(T)err:=rows.Scan(&v.Id,&v.Email,&v.FullName,&v.CreatedAt)iferr!=nil{returnerr}q.Users=append(q.Users,v)}returnrows.Err()").
Proof. vm_compute. reflexivity. Qed.
Example golden_delete_returning_slice_collist :
  golden_query golden_db (Analysis.MkEnv (B "github.com/frk/gosql/internal/testdata/generator/delete") (B "") (B ".") false) false (B "DeleteWithReturningSliceCollistQuery") [(MkVar (B "Users") true false [(B "rel", [B "test_user:u"])], (TSlice g_common_User)); (MkVar (B "Where") true false [], (TStruct [(MkVar (B "CreatedBefore") true false [(B "sql", [B "u.created_at <"])], g_time_Time)])); (MkVar (B "_") false false [(B "sql", [B "u.email"; B "u.full_name"])], g_gosql_Return)]
  = Some (B "constqueryString=`DELETEFROM""test_user""ASuWHEREu.""created_at""<$1RETURNINGu.""email"",u.""full_name""`rows,err:=c.Query(queryString,q.Where.CreatedBefore)iferr!=nil{returnerr}deferrows.Close()forrows.Next(){varvTerr:=rows.Scan(&v.Email,&v.FullName)iferr!=nil{returnerr}q.Users=append(q.Users,v)}returnrows.Err()").
Proof. vm_compute. reflexivity. Qed.
Example golden_delete_returning_slice_context :
  golden_query golden_db (Analysis.MkEnv (B "github.com/frk/gosql/internal/testdata/generator/delete") (B "") (B ".") false) false (B "DeleteWithReturningSliceContextQuery") [(MkVar (B "Context") true true [], g_context_Context); (MkVar (B "Users") true false [(B "rel", [B "test_user:u"])], (TSlice (TPtr g_common_User))); (MkVar (B "Where") true false [], (TStruct [(MkVar (B "CreatedBefore") true false [(B "sql", [B "u.created_at <"])], g_time_Time)])); (MkVar (B "_") false false [(B "sql", [B "*"])], g_gosql_Return)]
  = Some (B "constqueryString=`DELETEFROM""test_user""ASuWHEREu.""created_at""<$1RETURNINGu.""id"",u.""email"",u.""full_name"",u.""created_at""`rows,err:=c.QueryContext(q.Context,queryString,q.Where.CreatedBefore)iferr!=nil{returnerr}deferrows.Close()forrows.Next(){v:=new(T)err:=rows.Scan(&v.Id,&v.Email,&v.FullName,&v.CreatedAt)iferr!=nil{returnerr}q.Users=append(q.Users,v)}returnrows.Err()").
Proof. vm_compute. reflexivity. Qed.
Example golden_delete_returning_slice_errorhandler :
  golden_query golden_db (Analysis.MkEnv (B "github.com/frk/gosql/internal/testdata/generator/delete") (B "") (B ".") false) false (B "DeleteWithReturningSliceErrorHandlerQuery") [(MkVar (B "Users") true false [(B "rel", [B "test_user:u"])], (TSlice (TPtr g_common_User))); (MkVar (B "Where") true false [], (TStruct [(MkVar (B "CreatedBefore") true false [(B "sql", [B "u.created_at <"])], g_time_Time)])); (MkVar (B "_") false false [(B "sql", [B "*"])], g_gosql_Return); (MkVar (B "eh") false false [], g_common_ErrorHandler)]
  = Some (B "constqueryString=`DELETEFROM""test_user""ASuWHEREu.""created_at""<$1RETURNINGu.""id"",u.""email"",u.""full_name"",u.""created_at""`rows,err:=c.Query(queryString,q.Where.CreatedBefore)iferr!=nil{returnq.eh.HandleError(err)}deferrows.Close()forrows.Next(){v:=new(T)err:=rows.Scan(&v.Id,&v.Email,&v.FullName,&v.CreatedAt)iferr!=nil{returnq.eh.HandleError(err)}q.Users=append(q.Users,v)}returnq.eh.HandleError(rows.Err())").
Proof. vm_compute. reflexivity. Qed.
Example golden_delete_returning_slice_errorinfohandler :
  golden_query golden_db (Analysis.MkEnv (B "github.com/frk/gosql/internal/testdata/generator/delete") (B "") (B ".") false) false (B "DeleteWithReturningSliceErrorInfoHandlerQuery") [(MkVar (B "Users") true false [(B "rel", [B "test_user:u"])], (TSlice (TPtr g_common_User))); (MkVar (B "Where") true false [], (TStruct [(MkVar (B "CreatedBefore") true false [(B "sql", [B "u.created_at <"])], g_time_Time)])); (MkVar (B "_") false false [(B "sql", [B "*"])], g_gosql_Return); (MkVar (B "eh") false false [], g_common_ErrorInfoHandler)]
  = Some (B "constqueryString=`DELETEFROM""test_user""ASuWHEREu.""created_at""<$1RETURNINGu.""id"",u.""email"",u.""full_name"",u.""created_at""`rows,err:=c.Query(queryString,q.Where.CreatedBefore)iferr!=nil{returnq.eh.HandleErrorInfo(&gosql.ErrorInfo{Error:err,QueryString:queryString,QueryKind:""Delete"",QueryName:""DeleteWithReturningSliceErrorInfoHandlerQuery"",QueryValue:q})}deferrows.Close()forrows.Next(){v:=new(T)err:=rows.Scan(&v.Id,&v.Email,&v.FullName,&v.CreatedAt)iferr!=nil{returnq.eh.HandleErrorInfo(&gosql.ErrorInfo{Error:err,QueryString:queryString,QueryKind:""Delete"",QueryName:""DeleteWithReturningSliceErrorInfoHandlerQuery"",QueryValue:q})}q.Users=append(q.Users,v)}iferr:=rows.Err();err!=nil{returnq.eh.HandleErrorInfo(&gosql.ErrorInfo{Error:err,QueryString:queryString,QueryKind:""Delete"",QueryName:""DeleteWithReturningSliceErrorInfoHandlerQuery"",QueryValue:q})}returnnil").
Proof. vm_compute. reflexivity. Qed.
Example golden_delete_rowsaffected_errorhandler :
  golden_query golden_db (Analysis.MkEnv (B "github.com/frk/gosql/internal/testdata/generator/delete") (B "") (B ".") false) false (B "DeleteWithRowsAffectedErrorHandlerQuery") [(MkVar (B "_") false false [(B "rel", [B "test_user:u"])], g_gosql_Relation); (MkVar (B "Where") true false [], (TStruct [(MkVar (B "CreatedBefore") true false [(B "sql", [B "u.created_at <"])], g_time_Time)])); (MkVar (B "RowsAffected") true false [], (TBasic BInt false false)); (MkVar (B "ErrorHandler") true true [], g_common_ErrorHandler)]
  = Some (B "constqueryString=`DELETEFROM""test_user""ASuWHEREu.""created_at""<$1`res,err:=c.Exec(queryString,q.Where.CreatedBefore)iferr!=nil{returnq.ErrorHandler.HandleError(err)}i64,err:=res.RowsAffected()iferr!=nil{returnq.ErrorHandler.HandleError(err)}q.RowsAffected=int(i64)returnnil").
Proof. vm_compute. reflexivity. Qed.
Example golden_delete_rowsaffected_errorinfohandler :
  golden_query golden_db (Analysis.MkEnv (B "github.com/frk/gosql/internal/testdata/generator/delete") (B "") (B ".") false) false (B "DeleteWithRowsAffectedErrorInfoHandlerQuery") [(MkVar (B "_") false false [(B "rel", [B "test_user:u"])], g_gosql_Relation); (MkVar (B "Where") true false [], (TStruct [(MkVar (B "CreatedBefore") true false [(B "sql", [B "u.created_at <"])], g_time_Time)])); (MkVar (B "RowsAffected") true false [], (TBasic BInt false false)); (MkVar (B "ErrorInfoHandler") true true [], g_common_ErrorInfoHandler)]
  = Some (B "constqueryString=`DELETEFROM""test_user""ASuWHEREu.""created_at""<$1`res,err:=c.Exec(queryString,q.Where.CreatedBefore)iferr!=nil{returnq.ErrorInfoHandler.HandleErrorInfo(&gosql.ErrorInfo{Error:err,QueryString:queryString,QueryKind:""Delete"",QueryName:""DeleteWithRowsAffectedErrorInfoHandlerQuery"",QueryValue:q})}i64,err:=res.RowsAffected()iferr!=nil{returnq.ErrorInfoHandler.HandleErrorInfo(&gosql.ErrorInfo{Error:err,QueryString:queryString,QueryKind:""Delete"",QueryName:""DeleteWithRowsAffectedErrorInfoHandlerQuery"",QueryValue:q})}q.RowsAffected=int(i64)returnnil").
Proof. vm_compute. reflexivity. Qed.
Example golden_delete_rowsaffected :
  golden_query golden_db (Analysis.MkEnv (B "github.com/frk/gosql/internal/testdata/generator/delete") (B "") (B ".") false) false (B "DeleteWithRowsAffectedQuery") [(MkVar (B "_") false false [(B "rel", [B "test_user:u"])], g_gosql_Relation); (MkVar (B "Where") true false [], (TStruct [(MkVar (B "CreatedBefore") true false [(B "sql", [B "u.created_at <"])], g_time_Time)])); (MkVar (B "RowsAffected") true false [], (TBasic BInt false false))]
  = Some (B "constqueryString=`DELETEFROM""test_user""ASuWHEREu.""created_at""<$1`res,err:=c.Exec(queryString,q.Where.CreatedBefore)iferr!=nil{returnerr}i64,err:=res.RowsAffected()iferr!=nil{returnerr}q.RowsAffected=int(i64)returnnil").
Proof. vm_compute. reflexivity. Qed.
Example golden_delete_using_join_block_1 :
  golden_query golden_db (Analysis.MkEnv (B "github.com/frk/gosql/internal/testdata/generator/delete") (B "") (B ".") false) false (B "DeleteWithUsingJoinBlock1Query") [(MkVar (B "_") false false [(B "rel", [B "test_user:u"])], g_gosql_Relation); (MkVar (B "Using") true false [], (TStruct [(MkVar (B "_") false false [(B "sql", [B "test_post:p"])], g_gosql_Relation)])); (MkVar (B "Where") true false [], (TStruct [(MkVar (B "_") false false [(B "sql", [B "u.id=p.user_id"])], g_gosql_Column); (MkVar (B "_") false false [(B "sql", [B "p.is_spam"])], g_gosql_Column)]))]
  = Some (B "constqueryString=`DELETEFROM""test_user""ASuUSING""test_post""ASpWHEREu.""id""=p.""user_id""ANDp.""is_spam""ISTRUE`_,err:=c.Exec(queryString)returnerr").
Proof. vm_compute. reflexivity. Qed.
Example golden_delete_using_join_block_2 :
  golden_query golden_db (Analysis.MkEnv (B "github.com/frk/gosql/internal/testdata/generator/delete") (B "") (B ".") false) false (B "DeleteWithUsingJoinBlock2Query") [(MkVar (B "_") false false [(B "rel", [B "test_user:u"])], g_gosql_Relation); (MkVar (B "Using") true false [], (TStruct [(MkVar (B "_") false false [(B "sql", [B "test_post:p"])], g_gosql_Relation); (MkVar (B "_") false false [(B "sql", [B "test_join1:j1"; B "j1.post_id = p.id"])], g_gosql_LeftJoin); (MkVar (B "_") false false [(B "sql", [B "test_join2:j2"; B "j2.join1_id = j1.id"])], g_gosql_RightJoin); (MkVar (B "_") false false [(B "sql", [B "test_join3:j3"; B "j3.join2_id = j2.id"])], g_gosql_FullJoin); (MkVar (B "_") false false [(B "sql", [B "test_join4:j4"])], g_gosql_CrossJoin)])); (MkVar (B "Where") true false [], (TStruct [(MkVar (B "_") false false [(B "sql", [B "u.id=p.user_id"])], g_gosql_Column); (MkVar (B "_") false false [(B "sql", [B "p.is_spam"])], g_gosql_Column)]))]
  = Some (B "constqueryString=`DELETEFROM""test_user""ASuUSING""test_post""ASpLEFTJOIN""test_join1""ASj1ONj1.""post_id""=p.""id""RIGHTJOIN""test_join2""ASj2ONj2.""join1_id""=j1.""id""FULLJOIN""test_join3""ASj3ONj3.""join2_id""=j2.""id""CROSSJOIN""test_join4""ASj4WHEREu.""id""=p.""user_id""ANDp.""is_spam""ISTRUE`_,err:=c.Exec(queryString)returnerr").
Proof. vm_compute. reflexivity. Qed.
Example golden_delete_where_block_1 :
  golden_query golden_db (Analysis.MkEnv (B "github.com/frk/gosql/internal/testdata/generator/delete") (B "") (B ".") false) false (B "DeleteWithWhereBlock1Query") [(MkVar (B "_") false false [(B "rel", [B "test_user"])], g_gosql_Relation); (MkVar (B "Where") true false [], (TStruct [(MkVar (B "Id") true false [(B "sql", [B "id"])], (TBasic BInt false false))]))]
  = Some (B "constqueryString=`DELETEFROM""test_user""WHERE""id""=$1`_,err:=c.Exec(queryString,q.Where.Id)returnerr").
Proof. vm_compute. reflexivity. Qed.
Example golden_delete_where_block_2 :
  golden_query golden_db (Analysis.MkEnv (B "github.com/frk/gosql/internal/testdata/generator/delete") (B "") (B ".") false) false (B "DeleteWithWhereBlock2Query") [(MkVar (B "_") false false [(B "rel", [B "test_user"])], g_gosql_Relation); (MkVar (B "Where") true false [], (TStruct [(MkVar (B "CreatedAfter") true false [(B "sql", [B "created_at >"])], g_time_Time); (MkVar (B "CreatedBefore") true false [(B "sql", [B "created_at <"])], g_time_Time); (MkVar (B "FullName") true false [(B "sql", [B ">"])], (TStruct [(MkVar (B "_") false false [(B "sql", [B "full_name = 'John Doe'"])], g_gosql_Column); (MkVar (B "_") false false [(B "sql", [B "full_name = 'Jane Doe'"]); (B "bool", [B "or"])], g_gosql_Column)]))]))]
  = Some (B "constqueryString=`DELETEFROM""test_user""WHERE""created_at"">$1AND""created_at""<$2AND(""full_name""='JohnDoe'OR""full_name""='JaneDoe')`_,err:=c.Exec(queryString,q.Where.CreatedAfter,q.Where.CreatedBefore)returnerr").
Proof. vm_compute. reflexivity. Qed.
Example golden_select_afterscan_single :
  golden_query golden_db (Analysis.MkEnv (B "github.com/frk/gosql/internal/testdata/generator/select") (B "") (B ".") false) false (B "SelectWithAfterScanSingleQuery") [(MkVar (B "User") true false [(B "rel", [B "test_user:u"])], (TPtr g_common_User2))]
  = Some (B "constqueryString=`SELECTu.""id"",u.""email"",u.""full_name"",u.""created_at""FROM""test_user""ASuLIMIT1`row:=c.QueryRow(queryString)q.User=new(T)err:=row.Scan(&q.User.Id,&q.User.Email,&q.User.FullName,&q.User.CreatedAt)iferr!=nil{returnerr}q.User.AfterScan()returnnil").
Proof. vm_compute. reflexivity. Qed.
Example golden_select_afterscan_slice :
  golden_query golden_db (Analysis.MkEnv (B "github.com/frk/gosql/internal/testdata/generator/select") (B "") (B ".") false) false (B "SelectWithAfterScanSliceQuery") [(MkVar (B "Users") true false [(B "rel", [B "test_user:u"])], (TSlice (TPtr g_common_User2)))]
  = Some (B "constqueryString=`SELECTu.""id"",u.""email"",u.""full_name"",u.""created_at""FROM""test_user""ASu`rows,err:=c.Query(queryString)iferr!=nil{returnerr}deferrows.Close()forrows.Next(){v:=new(T)err:=rows.Scan(&v.Id,&v.Email,&v.FullName,&v.CreatedAt)iferr!=nil{returnerr}v.AfterScan()q.Users=append(q.Users,v)}returnrows.Err()").
Proof. vm_compute. reflexivity. Qed.
Example golden_select_coalesce_table :
  golden_query golden_db (Analysis.MkEnv (B "github.com/frk/gosql/internal/testdata/generator/select") (B "") (B ".") false) false (B "SelectCoalesceTableQuery") [(MkVar (B "Columns") true false [(B "rel", [B "test_coalesce:c"])], (TStruct [(MkVar (B "A") true false [(B "sql", [B "col_a"])], (TBasic BString false false)); (MkVar (B "B") true false [(B "sql", [B "col_b"])], (TBasic BString false false)); (MkVar (B "C") true false [(B "sql", [B "col_c"])], (TBasic BInt false false)); (MkVar (B "D") true false [(B "sql", [B "col_d"])], g_time_Time); (MkVar (B "E") true false [(B "sql", [B "col_e"])], (TBasic BString false false)); (MkVar (B "A2") true false [(B "sql", [B "col_a"; B "coalesce('foo')"])], (TBasic BString false false)); (MkVar (B "B2") true false [(B "sql", [B "col_b"; B "coalesce"])], (TBasic BString false false)); (MkVar (B "E2") true false [(B "sql", [B "col_e"; B "coalesce('red')"])], (TBasic BString false false))]))]
  = Some (B "constqueryString=`SELECTCOALESCE(c.""col_a"",''::text),c.""col_b"",COALESCE(c.""col_c"",0::integer),COALESCE(c.""col_d"",'0001-01-0100:00:00'::timestampwithouttimezone),c.""col_e"",COALESCE(c.""col_a"",'foo'::text),COALESCE(c.""col_b"",''::text),COALESCE(c.""col_e"",'red'::color_enum)FROM""test_coalesce""AScLIMIT1`row:=c.QueryRow(queryString)returnrow.Scan(&q.Columns.A,&q.Columns.B,&q.Columns.C,&q.Columns.D,&q.Columns.E,&q.Columns.A2,&q.Columns.B2,&q.Columns.E2)").
Proof. vm_compute. reflexivity. Qed.
Example golden_select_count_basic :
  golden_query golden_db (Analysis.MkEnv (B "github.com/frk/gosql/internal/testdata/generator/select") (B "") (B ".") false) false (B "SelectCountQuery") [(MkVar (B "Count") true false [(B "rel", [B "test_user:u"])], (TBasic BInt false false))]
  = Some (B "constqueryString=`SELECTCOUNT(*)FROM""test_user""ASu`row:=c.QueryRow(queryString)returnrow.Scan(&q.Count)").
Proof. vm_compute. reflexivity. Qed.
Example golden_select_count_filter :
  golden_query golden_db (Analysis.MkEnv (B "github.com/frk/gosql/internal/testdata/generator/select") (B "") (B ".") false) true (B "SelectCountWithFilterQuery") [(MkVar (B "Count") true false [(B "rel", [B "test_user:u"])], (TBasic BInt false false)); (MkVar (B "Filter") true true [], g_gosql_Filter)]
  = Some (B "varqueryString=`SELECTCOUNT(*)FROM""test_user""ASu`filterString,params:=q.Filter.ToSQL(0)queryString+=filterStringrow:=c.QueryRowContext(ctx,queryString,params...)returnrow.Scan(&q.Count)").
Proof. vm_compute. reflexivity. Qed.
Example golden_select_count_where :
  golden_query golden_db (Analysis.MkEnv (B "github.com/frk/gosql/internal/testdata/generator/select") (B "") (B ".") false) false (B "SelectCountWithWhereBlockQuery") [(MkVar (B "Count") true false [(B "rel", [B "test_user:u"])], (TBasic BInt false false)); (MkVar (B "Where") true false [], (TStruct [(MkVar (B "FullName") true false [(B "sql", [B "u.full_name islike"])], (TBasic BString false false))]))]
  = Some (B "constqueryString=`SELECTCOUNT(*)FROM""test_user""ASuWHEREu.""full_name""LIKE$1`row:=c.QueryRow(queryString,q.Where.FullName)returnrow.Scan(&q.Count)").
Proof. vm_compute. reflexivity. Qed.
Example golden_select_exists_filter :
  golden_query golden_db (Analysis.MkEnv (B "github.com/frk/gosql/internal/testdata/generator/select") (B "") (B ".") false) false (B "SelectExistsWithFilterQuery") [(MkVar (B "Exists") true false [(B "rel", [B "test_user:u"])], (TBasic BBool false false)); (MkVar (B "Filter") true true [], g_gosql_Filter)]
  = Some (B "varqueryString=`SELECTEXISTS(SELECT1FROM""test_user""ASu`filterString,params:=q.Filter.ToSQL(0)queryString+=filterString+`)`row:=c.QueryRow(queryString,params...)returnrow.Scan(&q.Exists)").
Proof. vm_compute. reflexivity. Qed.
Example golden_select_exists_where :
  golden_query golden_db (Analysis.MkEnv (B "github.com/frk/gosql/internal/testdata/generator/select") (B "") (B ".") false) false (B "SelectExistsWithWhereBlockQuery") [(MkVar (B "Exists") true false [(B "rel", [B "test_user:u"])], (TBasic BBool false false)); (MkVar (B "Where") true false [], (TStruct [(MkVar (B "Email") true false [(B "sql", [B "u.email"; B "@lower"])], (TBasic BString false false))]))]
  = Some (B "constqueryString=`SELECTEXISTS(SELECT1FROM""test_user""ASuWHERElower(u.""email"")=lower($1)LIMIT1)`row:=c.QueryRow(queryString,q.Where.Email)returnrow.Scan(&q.Exists)").
Proof. vm_compute. reflexivity. Qed.
Example golden_select_filter_iterator :
  golden_query golden_db (Analysis.MkEnv (B "github.com/frk/gosql/internal/testdata/generator/select") (B "") (B ".") false) false (B "SelectWithFilterIteratorQuery") [(MkVar (B "Iter") true false [(B "rel", [B "test_user:u"])], g_common_User2Iterator); (MkVar (B "Filter") true true [], g_gosql_Filter)]
  = Some (B "varqueryString=`SELECTu.""id"",u.""email"",u.""full_name"",u.""created_at""FROM""test_user""ASu`filterString,params:=q.Filter.ToSQL(0)queryString+=filterStringrows,err:=c.Query(queryString,params...)iferr!=nil{returnerr}deferrows.Close()forrows.Next(){v:=new(T)err:=rows.Scan(&v.Id,&v.Email,&v.FullName,&v.CreatedAt)iferr!=nil{returnerr}v.AfterScan()iferr:=q.Iter.NextUser(v);err!=nil{returnerr}}returnrows.Err()").
Proof. vm_compute. reflexivity. Qed.
Example golden_select_filter_slice :
  golden_query golden_db (Analysis.MkEnv (B "github.com/frk/gosql/internal/testdata/generator/select") (B "") (B ".") false) false (B "SelectWithFilterSliceQuery") [(MkVar (B "Users") true false [(B "rel", [B "test_user:u"])], (TSlice (TPtr g_common_User2))); (MkVar (B "Filter") true true [], g_gosql_Filter)]
  = Some (B "varqueryString=`SELECTu.""id"",u.""email"",u.""full_name"",u.""created_at""FROM""test_user""ASu`filterString,params:=q.Filter.ToSQL(0)queryString+=filterStringrows,err:=c.Query(queryString,params...)iferr!=nil{returnerr}deferrows.Close()forrows.Next(){v:=new(T)err:=rows.Scan(&v.Id,&v.Email,&v.FullName,&v.CreatedAt)iferr!=nil{returnerr}v.AfterScan()q.Users=append(q.Users,v)}returnrows.Err()").
Proof. vm_compute. reflexivity. Qed.
Example golden_select_iterator_func_errorhandler :
  golden_query golden_db (Analysis.MkEnv (B "github.com/frk/gosql/internal/testdata/generator/select") (B "") (B ".") false) false (B "SelectWithIteratorFuncErrorHandlerQuery") [(MkVar (B "next") false false [(B "rel", [B "test_user:u"])], (TFunc [(TPtr g_common_User)] [g_error])); (MkVar (B "where") false false [], (TStruct [(MkVar (B "createdafter") false false [(B "sql", [B "u.created_at >"])], g_time_Time)])); (MkVar (B "limit") false false [], (TBasic BInt false false)); (MkVar (B "offset") false false [], (TBasic BInt false false)); (MkVar (B "erh") false false [], g_common_ErrorHandler)]
  = Some (B "constqueryString=`SELECTu.""id"",u.""email"",u.""full_name"",u.""created_at""FROM""test_user""ASuWHEREu.""created_at"">$1LIMIT$2OFFSET$3`rows,err:=c.Query(queryString,q.where.createdafter,q.limit,q.offset)iferr!=nil{returnq.erh.HandleError(err)}deferrows.Close()forrows.Next(){v:=new(T)err:=rows.Scan(&v.Id,&v.Email,&v.FullName,&v.CreatedAt)iferr!=nil{returnq.erh.HandleError(err)}iferr:=q.next(v);err!=nil{returnq.erh.HandleError(err)}}returnq.erh.HandleError(rows.Err())").
Proof. vm_compute. reflexivity. Qed.
Example golden_select_iterator_func :
  golden_query golden_db (Analysis.MkEnv (B "github.com/frk/gosql/internal/testdata/generator/select") (B "") (B ".") false) false (B "SelectWithIteratorFuncQuery") [(MkVar (B "next") false false [(B "rel", [B "test_user:u"])], (TFunc [(TPtr g_common_User)] [g_error])); (MkVar (B "where") false false [], (TStruct [(MkVar (B "createdafter") false false [(B "sql", [B "u.created_at >"])], g_time_Time)])); (MkVar (B "limit") false false [], (TBasic BInt false false)); (MkVar (B "offset") false false [], (TBasic BInt false false))]
  = Some (B "constqueryString=`SELECTu.""id"",u.""email"",u.""full_name"",u.""created_at""FROM""test_user""ASuWHEREu.""created_at"">$1LIMIT$2OFFSET$3`rows,err:=c.Query(queryString,q.where.createdafter,q.limit,q.offset)iferr!=nil{returnerr}deferrows.Close()forrows.Next(){v:=new(T)err:=rows.Scan(&v.Id,&v.Email,&v.FullName,&v.CreatedAt)iferr!=nil{returnerr}iferr:=q.next(v);err!=nil{returnerr}}returnrows.Err()").
Proof. vm_compute. reflexivity. Qed.
Example golden_select_iterator_iface :
  golden_query golden_db (Analysis.MkEnv (B "github.com/frk/gosql/internal/testdata/generator/select") (B "") (B ".") false) false (B "SelectWithIteratorIfaceQuery") [(MkVar (B "iter") false false [(B "rel", [B "test_user:u"])], g_common_UserIterator); (MkVar (B "where") false false [], (TStruct [(MkVar (B "createdafter") false false [(B "sql", [B "u.created_at >"])], g_time_Time)])); (MkVar (B "limit") false false [], (TBasic BInt false false)); (MkVar (B "offset") false false [], (TBasic BInt false false))]
  = Some (B "constqueryString=`SELECTu.""id"",u.""email"",u.""full_name"",u.""created_at""FROM""test_user""ASuWHEREu.""created_at"">$1LIMIT$2OFFSET$3`rows,err:=c.Query(queryString,q.where.createdafter,q.limit,q.offset)iferr!=nil{returnerr}deferrows.Close()forrows.Next(){v:=new(T)err:=rows.Scan(&v.Id,&v.Email,&v.FullName,&v.CreatedAt)iferr!=nil{returnerr}iferr:=q.iter.NextUser(v);err!=nil{returnerr}}returnrows.Err()").
Proof. vm_compute. reflexivity. Qed.
Example golden_select_joinblock_slice :
  golden_query golden_db (Analysis.MkEnv (B "github.com/frk/gosql/internal/testdata/generator/select") (B "") (B ".") false) false (B "SelectWithJoinBlockSliceQuery") [(MkVar (B "Users") true false [(B "rel", [B "test_user:u"])], (TSlice (TPtr g_common_User))); (MkVar (B "Join") true false [], (TStruct [(MkVar (B "_") false false [(B "sql", [B "test_post:p"; B "p.user_id = u.id"])], g_gosql_InnerJoin); (MkVar (B "_") false false [(B "sql", [B "test_join1:j1"; B "j1.post_id = p.id"])], g_gosql_LeftJoin); (MkVar (B "_") false false [(B "sql", [B "test_join2:j2"; B "j2.join1_id = j1.id"])], g_gosql_RightJoin); (MkVar (B "_") false false [(B "sql", [B "test_join3:j3"; B "j3.join2_id = j2.id"])], g_gosql_FullJoin); (MkVar (B "_") false false [(B "sql", [B "test_join4:j4"])], g_gosql_CrossJoin)])); (MkVar (B "Where") true false [], (TStruct [(MkVar (B "_") false false [(B "sql", [B "p.is_spam"])], g_gosql_Column)]))]
  = Some (B "constqueryString=`SELECTu.""id"",u.""email"",u.""full_name"",u.""created_at""FROM""test_user""ASuINNERJOIN""test_post""ASpONp.""user_id""=u.""id""LEFTJOIN""test_join1""ASj1ONj1.""post_id""=p.""id""RIGHTJOIN""test_join2""ASj2ONj2.""join1_id""=j1.""id""FULLJOIN""test_join3""ASj3ONj3.""join2_id""=j2.""id""CROSSJOIN""test_join4""ASj4WHEREp.""is_spam""ISTRUE`rows,err:=c.Query(queryString)iferr!=nil{returnerr}deferrows.Close()forrows.Next(){v:=new(T)err:=rows.Scan(&v.Id,&v.Email,&v.FullName,&v.CreatedAt)iferr!=nil{returnerr}q.Users=append(q.Users,v)}returnrows.Err()").
Proof. vm_compute. reflexivity. Qed.
Example golden_select_limit_directive :
  golden_query golden_db (Analysis.MkEnv (B "github.com/frk/gosql/internal/testdata/generator/select") (B "") (B ".") false) false (B "SelectWithLimitDirectiveQuery") [(MkVar (B "Users") true false [(B "rel", [B "test_user:u"])], (TSlice (TPtr g_common_User))); (MkVar (B "_") false false [(B "sql", [B "25"])], g_gosql_Limit)]
  = Some (B "constqueryString=`SELECTu.""id"",u.""email"",u.""full_name"",u.""created_at""FROM""test_user""ASuLIMIT25`rows,err:=c.Query(queryString)iferr!=nil{returnerr}deferrows.Close()forrows.Next(){v:=new(T)err:=rows.Scan(&v.Id,&v.Email,&v.FullName,&v.CreatedAt)iferr!=nil{returnerr}q.Users=append(q.Users,v)}returnrows.Err()").
Proof. vm_compute. reflexivity. Qed.
Example golden_select_limit_field_default :
  golden_query golden_db (Analysis.MkEnv (B "github.com/frk/gosql/internal/testdata/generator/select") (B "") (B ".") false) false (B "SelectWithLimitFieldDefaultQuery") [(MkVar (B "Users") true false [(B "rel", [B "test_user:u"])], (TSlice (TPtr g_common_User))); (MkVar (B "Where") true false [], (TStruct [(MkVar (B "CreatedAfter") true false [(B "sql", [B "u.created_at >"])], g_time_Time)])); (MkVar (B "Limit") true false [(B "sql", [B "50"])], (TBasic BInt false false))]
  = Some (B "constqueryString=`SELECTu.""id"",u.""email"",u.""full_name"",u.""created_at""FROM""test_user""ASuWHEREu.""created_at"">$1LIMIT$2`ifq.Limit==0{q.Limit=50}rows,err:=c.Query(queryString,q.Where.CreatedAfter,q.Limit)iferr!=nil{returnerr}deferrows.Close()forrows.Next(){v:=new(T)err:=rows.Scan(&v.Id,&v.Email,&v.FullName,&v.CreatedAt)iferr!=nil{returnerr}q.Users=append(q.Users,v)}returnrows.Err()").
Proof. vm_compute. reflexivity. Qed.
Example golden_select_limit_field :
  golden_query golden_db (Analysis.MkEnv (B "github.com/frk/gosql/internal/testdata/generator/select") (B "") (B ".") false) false (B "SelectWithLimitFieldQuery") [(MkVar (B "Users") true false [(B "rel", [B "test_user:u"])], (TSlice (TPtr g_common_User))); (MkVar (B "Limit") true false [], (TBasic BInt false false))]
  = Some (B "constqueryString=`SELECTu.""id"",u.""email"",u.""full_name"",u.""created_at""FROM""test_user""ASuLIMIT$1`rows,err:=c.Query(queryString,q.Limit)iferr!=nil{returnerr}deferrows.Close()forrows.Next(){v:=new(T)err:=rows.Scan(&v.Id,&v.Email,&v.FullName,&v.CreatedAt)iferr!=nil{returnerr}q.Users=append(q.Users,v)}returnrows.Err()").
Proof. vm_compute. reflexivity. Qed.
Example golden_select_notexists_filter :
  golden_query golden_db (Analysis.MkEnv (B "github.com/frk/gosql/internal/testdata/generator/select") (B "") (B ".") false) false (B "SelectNotExistsWithFilterQuery") [(MkVar (B "NotExists") true false [(B "rel", [B "test_user:u"])], (TBasic BBool false false)); (MkVar (B "Filter") true true [], g_gosql_Filter)]
  = Some (B "varqueryString=`SELECTNOTEXISTS(SELECT1FROM""test_user""ASu`filterString,params:=q.Filter.ToSQL(0)queryString+=filterString+`)`row:=c.QueryRow(queryString,params...)returnrow.Scan(&q.NotExists)").
Proof. vm_compute. reflexivity. Qed.
Example golden_select_notexists_where :
  golden_query golden_db (Analysis.MkEnv (B "github.com/frk/gosql/internal/testdata/generator/select") (B "") (B ".") false) false (B "SelectNotExistsWithWhereBlockQuery") [(MkVar (B "NotExists") true false [(B "rel", [B "test_user:u"])], (TBasic BBool false false)); (MkVar (B "Where") true false [], (TStruct [(MkVar (B "Email") true false [(B "sql", [B "u.email"; B "@lower"])], (TBasic BString false false))]))]
  = Some (B "constqueryString=`SELECTNOTEXISTS(SELECT1FROM""test_user""ASuWHERElower(u.""email"")=lower($1)LIMIT1)`row:=c.QueryRow(queryString,q.Where.Email)returnrow.Scan(&q.NotExists)").
Proof. vm_compute. reflexivity. Qed.
Example golden_select_offset_directive :
  golden_query golden_db (Analysis.MkEnv (B "github.com/frk/gosql/internal/testdata/generator/select") (B "") (B ".") false) false (B "SelectWithOffsetDirectiveQuery") [(MkVar (B "Users") true false [(B "rel", [B "test_user:u"])], (TSlice (TPtr g_common_User))); (MkVar (B "_") false false [(B "sql", [B "25"])], g_gosql_Offset)]
  = Some (B "constqueryString=`SELECTu.""id"",u.""email"",u.""full_name"",u.""created_at""FROM""test_user""ASuOFFSET25`rows,err:=c.Query(queryString)iferr!=nil{returnerr}deferrows.Close()forrows.Next(){v:=new(T)err:=rows.Scan(&v.Id,&v.Email,&v.FullName,&v.CreatedAt)iferr!=nil{returnerr}q.Users=append(q.Users,v)}returnrows.Err()").
Proof. vm_compute. reflexivity. Qed.
Example golden_select_offset_field_default :
  golden_query golden_db (Analysis.MkEnv (B "github.com/frk/gosql/internal/testdata/generator/select") (B "") (B ".") false) false (B "SelectWithOffsetFieldDefaultQuery") [(MkVar (B "Users") true false [(B "rel", [B "test_user:u"])], (TSlice (TPtr g_common_User))); (MkVar (B "Where") true false [], (TStruct [(MkVar (B "CreatedAfter") true false [(B "sql", [B "u.created_at >"])], g_time_Time)])); (MkVar (B "Offset") true false [(B "sql", [B "50"])], (TBasic BInt false false))]
  = Some (B "constqueryString=`SELECTu.""id"",u.""email"",u.""full_name"",u.""created_at""FROM""test_user""ASuWHEREu.""created_at"">$1OFFSET$2`ifq.Offset==0{q.Offset=50}rows,err:=c.Query(queryString,q.Where.CreatedAfter,q.Offset)iferr!=nil{returnerr}deferrows.Close()forrows.Next(){v:=new(T)err:=rows.Scan(&v.Id,&v.Email,&v.FullName,&v.CreatedAt)iferr!=nil{returnerr}q.Users=append(q.Users,v)}returnrows.Err()").
Proof. vm_compute. reflexivity. Qed.
Example golden_select_offset_field :
  golden_query golden_db (Analysis.MkEnv (B "github.com/frk/gosql/internal/testdata/generator/select") (B "") (B ".") false) false (B "SelectWithOffsetFieldQuery") [(MkVar (B "Users") true false [(B "rel", [B "test_user:u"])], (TSlice (TPtr g_common_User))); (MkVar (B "Offset") true false [], (TBasic BInt false false))]
  = Some (B "constqueryString=`SELECTu.""id"",u.""email"",u.""full_name"",u.""created_at""FROM""test_user""ASuOFFSET$1`rows,err:=c.Query(queryString,q.Offset)iferr!=nil{returnerr}deferrows.Close()forrows.Next(){v:=new(T)err:=rows.Scan(&v.Id,&v.Email,&v.FullName,&v.CreatedAt)iferr!=nil{returnerr}q.Users=append(q.Users,v)}returnrows.Err()").
Proof. vm_compute. reflexivity. Qed.
Example golden_select_orderby_directive :
  golden_query golden_db (Analysis.MkEnv (B "github.com/frk/gosql/internal/testdata/generator/select") (B "") (B ".") false) false (B "SelectWithOrderByDirectiveQuery") [(MkVar (B "Users") true false [(B "rel", [B "test_user:u"])], (TSlice (TPtr g_common_User))); (MkVar (B "_") false false [(B "sql", [B "-u.created_at"])], g_gosql_OrderBy)]
  = Some (B "constqueryString=`SELECTu.""id"",u.""email"",u.""full_name"",u.""created_at""FROM""test_user""ASuORDERBYu.""created_at""DESCNULLSLAST`rows,err:=c.Query(queryString)iferr!=nil{returnerr}deferrows.Close()forrows.Next(){v:=new(T)err:=rows.Scan(&v.Id,&v.Email,&v.FullName,&v.CreatedAt)iferr!=nil{returnerr}q.Users=append(q.Users,v)}returnrows.Err()").
Proof. vm_compute. reflexivity. Qed.
Example golden_select_record_nested_single :
  golden_query golden_db (Analysis.MkEnv (B "github.com/frk/gosql/internal/testdata/generator/select") (B "") (B ".") false) false (B "SelectWithRecordNestedSingleQuery") [(MkVar (B "Nested") true false [(B "rel", [B "test_nested:n"])], (TPtr g_common_Nested))]
  = Some (B "constqueryString=`SELECTn.""foo_bar_baz_val"",n.""foo_baz_val"",n.""foo2_bar_baz_val"",n.""foo2_baz_val""FROM""test_nested""ASnLIMIT1`row:=c.QueryRow(queryString)q.Nested=new(T)q.Nested.FOO=new(T)q.Nested.FOO.Baz=new(T)q.Nested.Foo.Baz=new(T)returnrow.Scan(&q.Nested.FOO.Bar.Baz.Val,&q.Nested.FOO.Baz.Val,&q.Nested.Foo.Bar.Baz.Val,&q.Nested.Foo.Baz.Val)").
Proof. vm_compute. reflexivity. Qed.
Example golden_select_record_nested_slice :
  golden_query golden_db (Analysis.MkEnv (B "github.com/frk/gosql/internal/testdata/generator/select") (B "") (B ".") false) false (B "SelectWithRecordNestedSliceQuery") [(MkVar (B "Nesteds") true false [(B "rel", [B "test_nested:n"])], (TSlice (TPtr g_common_Nested)))]
  = Some (B "constqueryString=`SELECTn.""foo_bar_baz_val"",n.""foo_baz_val"",n.""foo2_bar_baz_val"",n.""foo2_baz_val""FROM""test_nested""ASn`rows,err:=c.Query(queryString)iferr!=nil{returnerr}deferrows.Close()forrows.Next(){v:=new(T)v.FOO=new(T)v.FOO.Baz=new(T)v.Foo.Baz=new(T)err:=rows.Scan(&v.FOO.Bar.Baz.Val,&v.FOO.Baz.Val,&v.Foo.Bar.Baz.Val,&v.Foo.Baz.Val)iferr!=nil{returnerr}q.Nesteds=append(q.Nesteds,v)}returnrows.Err()").
Proof. vm_compute. reflexivity. Qed.
Example golden_select_whereblock_array_comparison1 :
  golden_query golden_db (Analysis.MkEnv (B "github.com/frk/gosql/internal/testdata/generator/select") (B "") (B ".") false) false (B "SelectWithWhereBlockArrayComparisonPredicate1Query") [(MkVar (B "Users") true false [(B "rel", [B "test_user:u"])], (TSlice (TPtr g_common_User))); (MkVar (B "Where") true false [], (TStruct [(MkVar (B "IDs") true false [(B "sql", [B "u.id = any"])], (TSlice (TBasic BInt false false)))]))]
  = Some (B "constqueryString=`SELECTu.""id"",u.""email"",u.""full_name"",u.""created_at""FROM""test_user""ASuWHEREu.""id""=ANY($1::integer[])`rows,err:=c.Query(queryString,pgsql.Int4ArrayFromIntSlice(q.Where.IDs))iferr!=nil{returnerr}deferrows.Close()forrows.Next(){v:=new(T)err:=rows.Scan(&v.Id,&v.Email,&v.FullName,&v.CreatedAt)iferr!=nil{returnerr}q.Users=append(q.Users,v)}returnrows.Err()").
Proof. vm_compute. reflexivity. Qed.
Example golden_select_whereblock_array_comparison2 :
  golden_query golden_db (Analysis.MkEnv (B "github.com/frk/gosql/internal/testdata/generator/select") (B "") (B ".") false) false (B "SelectWithWhereBlockArrayComparisonPredicate2Query") [(MkVar (B "Users") true false [(B "rel", [B "test_user:u"])], (TSlice (TPtr g_common_User))); (MkVar (B "Where") true false [], (TStruct [(MkVar (B "CreatedAt") true false [(B "sql", [B "u.created_at isbetween"])], (TStruct [(MkVar (B "After") true false [(B "sql", [B "x"])], g_time_Time); (MkVar (B "Before") true false [(B "sql", [B "y"])], g_time_Time)])); (MkVar (B "Or") true false [(B "sql", [B ">"]); (B "bool", [B "or"])], (TStruct [(MkVar (B "IDs") true false [(B "sql", [B "u.id = any"])], (TSlice (TBasic BInt false false))); (MkVar (B "CreatedBefore") true false [(B "sql", [B "u.created_at <"])], g_time_Time)]))]))]
  = Some (B "constqueryString=`SELECTu.""id"",u.""email"",u.""full_name"",u.""created_at""FROM""test_user""ASuWHEREu.""created_at""BETWEEN$1AND$2OR(u.""id""=ANY($3::integer[])ANDu.""created_at""<$4)`rows,err:=c.Query(queryString,q.Where.CreatedAt.After,q.Where.CreatedAt.Before,pgsql.Int4ArrayFromIntSlice(q.Where.Or.IDs),q.Where.Or.CreatedBefore)iferr!=nil{returnerr}deferrows.Close()forrows.Next(){v:=new(T)err:=rows.Scan(&v.Id,&v.Email,&v.FullName,&v.CreatedAt)iferr!=nil{returnerr}q.Users=append(q.Users,v)}returnrows.Err()").
Proof. vm_compute. reflexivity. Qed.
Example golden_select_whereblock_array_comparison3 :
  golden_query golden_db (Analysis.MkEnv (B "github.com/frk/gosql/internal/testdata/generator/select") (B "") (B ".") false) false (B "SelectWithWhereBlockArrayComparisonPredicate3Query") [(MkVar (B "Users") true false [(B "rel", [B "test_user:u"])], (TSlice (TPtr g_common_User))); (MkVar (B "Where") true false [], (TStruct [(MkVar (B "IDs") true false [(B "sql", [B "u.id = any"])], (TSlice (TBasic BInt false false))); (MkVar (B "CreatedAt") true false [(B "sql", [B "u.created_at isbetween"])], (TStruct [(MkVar (B "After") true false [(B "sql", [B "x"])], g_time_Time); (MkVar (B "Before") true false [(B "sql", [B "y"])], g_time_Time)])); (MkVar (B "Or") true false [(B "sql", [B ">"]); (B "bool", [B "or"])], (TStruct [(MkVar (B "IDs") true false [(B "sql", [B "u.id = any"])], (TSlice (TBasic BInt false false))); (MkVar (B "CreatedBefore") true false [(B "sql", [B "u.created_at <"])], g_time_Time)])); (MkVar (B "Emails") true false [(B "sql", [B "u.email = some"]); (B "bool", [B "or"])], (TSlice (TBasic BString false false))); (MkVar (B "FullNames") true false [(B "sql", [B "u.full_name = some"])], (TSlice (TBasic BString false false))); (MkVar (B "IsActive") true false [(B "sql", [B "u.is_active"])], (TBasic BBool false false))]))]
  = Some (B "constqueryString=`SELECTu.""id"",u.""email"",u.""full_name"",u.""created_at""FROM""test_user""ASuWHEREu.""id""=ANY($1::integer[])ANDu.""created_at""BETWEEN$2AND$3OR(u.""id""=ANY($4::integer[])ANDu.""created_at""<$5)ORu.""email""=SOME($6::text[])ANDu.""full_name""=SOME($7::text[])ANDu.""is_active""=$8`rows,err:=c.Query(queryString,pgsql.Int4ArrayFromIntSlice(q.Where.IDs),q.Where.CreatedAt.After,q.Where.CreatedAt.Before,pgsql.Int4ArrayFromIntSlice(q.Where.Or.IDs),q.Where.Or.CreatedBefore,pgsql.TextArrayFromStringSlice(q.Where.Emails),pgsql.TextArrayFromStringSlice(q.Where.FullNames),q.Where.IsActive)iferr!=nil{returnerr}deferrows.Close()forrows.Next(){v:=new(T)err:=rows.Scan(&v.Id,&v.Email,&v.FullName,&v.CreatedAt)iferr!=nil{returnerr}q.Users=append(q.Users,v)}returnrows.Err()").
Proof. vm_compute. reflexivity. Qed.
Example golden_select_whereblock_between :
  golden_query golden_db (Analysis.MkEnv (B "github.com/frk/gosql/internal/testdata/generator/select") (B "") (B ".") false) false (B "SelectWithWhereBlockBetweenQuery") [(MkVar (B "Users") true false [(B "rel", [B "test_user:u"])], (TSlice (TPtr g_common_User))); (MkVar (B "Where") true false [], (TStruct [(MkVar (B "CreatedAt") true false [(B "sql", [B "u.created_at isbetween"])], (TStruct [(MkVar (B "After") true false [(B "sql", [B "x"])], g_time_Time); (MkVar (B "Before") true false [(B "sql", [B "y"])], g_time_Time)]))]))]
  = Some (B "constqueryString=`SELECTu.""id"",u.""email"",u.""full_name"",u.""created_at""FROM""test_user""ASuWHEREu.""created_at""BETWEEN$1AND$2`rows,err:=c.Query(queryString,q.Where.CreatedAt.After,q.Where.CreatedAt.Before)iferr!=nil{returnerr}deferrows.Close()forrows.Next(){v:=new(T)err:=rows.Scan(&v.Id,&v.Email,&v.FullName,&v.CreatedAt)iferr!=nil{returnerr}q.Users=append(q.Users,v)}returnrows.Err()").
Proof. vm_compute. reflexivity. Qed.
Example golden_select_whereblock_isin2 :
  golden_query golden_db (Analysis.MkEnv (B "github.com/frk/gosql/internal/testdata/generator/select") (B "") (B ".") false) false (B "SelectWithWhereBlockInPredicate2Query") [(MkVar (B "Users") true false [(B "rel", [B "test_user:u"])], (TSlice (TPtr g_common_User))); (MkVar (B "Where") true false [], (TStruct [(MkVar (B "CreatedAt") true false [(B "sql", [B "u.created_at isbetween"])], (TStruct [(MkVar (B "After") true false [(B "sql", [B "x"])], g_time_Time); (MkVar (B "Before") true false [(B "sql", [B "y"])], g_time_Time)])); (MkVar (B "Or") true false [(B "sql", [B ">"]); (B "bool", [B "or"])], (TStruct [(MkVar (B "IDs") true false [(B "sql", [B "u.id isin"])], (TSlice (TBasic BInt false false))); (MkVar (B "CreatedBefore") true false [(B "sql", [B "u.created_at <"])], g_time_Time)]))]))]
  = Some (B "var(nstatic=3len1=len(q.Where.Or.IDs)pos1=nstatic)varqueryString=`SELECTu.""id"",u.""email"",u.""full_name"",u.""created_at""FROM""test_user""ASuWHEREu.""created_at""BETWEEN$1AND$2OR(u.""id""IN(`+gosql.InValueList(len1,pos1)+`)ANDu.""created_at""<$3)`params:=make([]interface{},nstatic+len1)params[0]=q.Where.CreatedAt.Afterparams[1]=q.Where.CreatedAt.Beforeparams[2]=q.Where.Or.CreatedBeforefori:=0;i<len1;i++{params[pos1+i]=q.Where.Or.IDs[i]}rows,err:=c.Query(queryString,params...)iferr!=nil{returnerr}deferrows.Close()forrows.Next(){v:=new(T)err:=rows.Scan(&v.Id,&v.Email,&v.FullName,&v.CreatedAt)iferr!=nil{returnerr}q.Users=append(q.Users,v)}returnrows.Err()").
Proof. vm_compute. reflexivity. Qed.
Example golden_select_whereblock_isin3 :
  golden_query golden_db (Analysis.MkEnv (B "github.com/frk/gosql/internal/testdata/generator/select") (B "") (B ".") false) false (B "SelectWithWhereBlockInPredicate3Query") [(MkVar (B "Users") true false [(B "rel", [B "test_user:u"])], (TSlice (TPtr g_common_User))); (MkVar (B "Where") true false [], (TStruct [(MkVar (B "IDs") true false [(B "sql", [B "u.id isin"])], (TSlice (TBasic BInt false false))); (MkVar (B "CreatedAt") true false [(B "sql", [B "u.created_at isbetween"])], (TStruct [(MkVar (B "After") true false [(B "sql", [B "x"])], g_time_Time); (MkVar (B "Before") true false [(B "sql", [B "y"])], g_time_Time)])); (MkVar (B "Or") true false [(B "sql", [B ">"]); (B "bool", [B "or"])], (TStruct [(MkVar (B "IDs") true false [(B "sql", [B "u.id isin"])], (TSlice (TBasic BInt false false))); (MkVar (B "CreatedBefore") true false [(B "sql", [B "u.created_at <"])], g_time_Time)])); (MkVar (B "Emails") true false [(B "sql", [B "u.email isin"]); (B "bool", [B "or"])], (TSlice (TBasic BString false false))); (MkVar (B "FullNames") true false [(B "sql", [B "u.full_name isin"])], (TSlice (TBasic BString false false))); (MkVar (B "IsActive") true false [(B "sql", [B "u.is_active"])], (TBasic BBool false false))]))]
  = Some (B "var(nstatic=4len1=len(q.Where.IDs)pos1=nstaticlen2=len(q.Where.Or.IDs)pos2=pos1+len1len3=len(q.Where.Emails)pos3=pos2+len2len4=len(q.Where.FullNames)pos4=pos3+len3)varqueryString=`SELECTu.""id"",u.""email"",u.""full_name"",u.""created_at""FROM""test_user""ASuWHEREu.""id""IN(`+gosql.InValueList(len1,pos1)+`)ANDu.""created_at""BETWEEN$1AND$2OR(u.""id""IN(`+gosql.InValueList(len2,pos2)+`)ANDu.""created_at""<$3)ORu.""email""IN(`+gosql.InValueList(len3,pos3)+`)ANDu.""full_name""IN(`+gosql.InValueList(len4,pos4)+`)ANDu.""is_active""=$4`params:=make([]interface{},nstatic+len1+len2+len3+len4)params[0]=q.Where.CreatedAt.Afterparams[1]=q.Where.CreatedAt.Beforeparams[2]=q.Where.Or.CreatedBeforeparams[3]=q.Where.IsActivefori:=0;i<len1;i++{params[pos1+i]=q.Where.IDs[i]}fori:=0;i<len2;i++{params[pos2+i]=q.Where.Or.IDs[i]}fori:=0;i<len3;i++{params[pos3+i]=q.Where.Emails[i]}fori:=0;i<len4;i++{params[pos4+i]=q.Where.FullNames[i]}rows,err:=c.Query(queryString,params...)iferr!=nil{returnerr}deferrows.Close()forrows.Next(){v:=new(T)err:=rows.Scan(&v.Id,&v.Email,&v.FullName,&v.CreatedAt)iferr!=nil{returnerr}q.Users=append(q.Users,v)}returnrows.Err()").
Proof. vm_compute. reflexivity. Qed.
Example golden_select_whereblock_isin :
  golden_query golden_db (Analysis.MkEnv (B "github.com/frk/gosql/internal/testdata/generator/select") (B "") (B ".") false) false (B "SelectWithWhereBlockInPredicateQuery") [(MkVar (B "Users") true false [(B "rel", [B "test_user:u"])], (TSlice (TPtr g_common_User))); (MkVar (B "Where") true false [], (TStruct [(MkVar (B "IDs") true false [(B "sql", [B "u.id isin"])], (TSlice (TBasic BInt false false)))]))]
  = Some (B "var(nstatic=0len1=len(q.Where.IDs)pos1=nstatic)varqueryString=`SELECTu.""id"",u.""email"",u.""full_name"",u.""created_at""FROM""test_user""ASuWHEREu.""id""IN(`+gosql.InValueList(len1,pos1)+`)`params:=make([]interface{},nstatic+len1)fori:=0;i<len1;i++{params[pos1+i]=q.Where.IDs[i]}rows,err:=c.Query(queryString,params...)iferr!=nil{returnerr}deferrows.Close()forrows.Next(){v:=new(T)err:=rows.Scan(&v.Id,&v.Email,&v.FullName,&v.CreatedAt)iferr!=nil{returnerr}q.Users=append(q.Users,v)}returnrows.Err()").
Proof. vm_compute. reflexivity. Qed.
Example golden_select_whereblock_modifierfunc_single :
  golden_query golden_db (Analysis.MkEnv (B "github.com/frk/gosql/internal/testdata/generator/select") (B "") (B ".") false) false (B "SelectWithWhereBlockModifierFuncSingleQuery") [(MkVar (B "User") true false [(B "rel", [B "test_user:u"])], (TPtr g_common_User)); (MkVar (B "Where") true false [], (TStruct [(MkVar (B "Email") true false [(B "sql", [B "u.email"; B "@lower"])], (TBasic BString false false))]))]
  = Some (B "constqueryString=`SELECTu.""id"",u.""email"",u.""full_name"",u.""created_at""FROM""test_user""ASuWHERElower(u.""email"")=lower($1)LIMIT1`row:=c.QueryRow(queryString,q.Where.Email)q.User=new(T)returnrow.Scan(&q.User.Id,&q.User.Email,&q.User.FullName,&q.User.CreatedAt)").
Proof. vm_compute. reflexivity. Qed.
Example golden_select_whereblock_nested :
  golden_query golden_db (Analysis.MkEnv (B "github.com/frk/gosql/internal/testdata/generator/select") (B "") (B ".") false) false (B "SelectWithWhereBlockNestedQuery") [(MkVar (B "Users") true false [(B "rel", [B "test_user:u"])], (TSlice (TPtr g_common_User))); (MkVar (B "Where") true false [], (TStruct [(MkVar (B "FullName") true false [(B "sql", [B "u.full_name islike"])], (TBasic BString false false)); (MkVar (B "CreatedAfter") true false [(B "sql", [B "u.created_at >"])], g_time_Time); (MkVar (B "Or") true false [(B "sql", [B ">"]); (B "bool", [B "or"])], (TStruct [(MkVar (B "FullName") true false [(B "sql", [B "u.full_name islike"])], (TBasic BString false false)); (MkVar (B "CreatedBefore") true false [(B "sql", [B "u.created_at <"])], g_time_Time)]))]))]
  = Some (B "constqueryString=`SELECTu.""id"",u.""email"",u.""full_name"",u.""created_at""FROM""test_user""ASuWHEREu.""full_name""LIKE$1ANDu.""created_at"">$2OR(u.""full_name""LIKE$3ANDu.""created_at""<$4)`rows,err:=c.Query(queryString,q.Where.FullName,q.Where.CreatedAfter,q.Where.Or.FullName,q.Where.Or.CreatedBefore)iferr!=nil{returnerr}deferrows.Close()forrows.Next(){v:=new(T)err:=rows.Scan(&v.Id,&v.Email,&v.FullName,&v.CreatedAt)iferr!=nil{returnerr}q.Users=append(q.Users,v)}returnrows.Err()").
Proof. vm_compute. reflexivity. Qed.
Example golden_select_whereblock_single2 :
  golden_query golden_db (Analysis.MkEnv (B "github.com/frk/gosql/internal/testdata/generator/select") (B "") (B ".") false) false (B "SelectWithWhereBlockSingle2Query") [(MkVar (B "Rel") true false [(B "rel", [B "column_tests_3"])], (TPtr g_testdata_CT3b)); (MkVar (B "Where") true false [], (TStruct [(MkVar (B "SomeTime") true false [(B "sql", [B "some_time <"])], g_common_MyTime)]))]
  = Some (B "constqueryString=`SELECTCOALESCE(""color_text"",''::text),""color_enum"",""some_time""FROM""column_tests_3""WHERE""some_time""<$1LIMIT1`row:=c.QueryRow(queryString,q.Where.SomeTime)q.Rel=new(T)returnrow.Scan(&q.Rel.ColorText,&q.Rel.ColorEnum,&q.Rel.SomeTime)").
Proof. vm_compute. reflexivity. Qed.
Example golden_select_whereblock_single :
  golden_query golden_db (Analysis.MkEnv (B "github.com/frk/gosql/internal/testdata/generator/select") (B "") (B ".") false) false (B "SelectWithWhereBlockSingleQuery") [(MkVar (B "User") true false [(B "rel", [B "test_user:u"])], (TPtr g_common_User)); (MkVar (B "Where") true false [], (TStruct [(MkVar (B "Id") true false [(B "sql", [B "u.id"])], (TBasic BInt false false))]))]
  = Some (B "constqueryString=`SELECTu.""id"",u.""email"",u.""full_name"",u.""created_at""FROM""test_user""ASuWHEREu.""id""=$1LIMIT1`row:=c.QueryRow(queryString,q.Where.Id)q.User=new(T)returnrow.Scan(&q.User.Id,&q.User.Email,&q.User.FullName,&q.User.CreatedAt)").
Proof. vm_compute. reflexivity. Qed.
Example golden_select_whereblock_slice :
  golden_query golden_db (Analysis.MkEnv (B "github.com/frk/gosql/internal/testdata/generator/select") (B "") (B ".") false) false (B "SelectWithWhereBlockSliceQuery") [(MkVar (B "Users") true false [(B "rel", [B "test_user:u"])], (TSlice (TPtr g_common_User))); (MkVar (B "Where") true false [], (TStruct [(MkVar (B "CreatedAfter") true false [(B "sql", [B "u.created_at >"])], g_time_Time)]))]
  = Some (B "constqueryString=`SELECTu.""id"",u.""email"",u.""full_name"",u.""created_at""FROM""test_user""ASuWHEREu.""created_at"">$1`rows,err:=c.Query(queryString,q.Where.CreatedAfter)iferr!=nil{returnerr}deferrows.Close()forrows.Next(){v:=new(T)err:=rows.Scan(&v.Id,&v.Email,&v.FullName,&v.CreatedAt)iferr!=nil{returnerr}q.Users=append(q.Users,v)}returnrows.Err()").
Proof. vm_compute. reflexivity. Qed.
Example golden_insert_basic_single2 :
  golden_query golden_db (Analysis.MkEnv (B "github.com/frk/gosql/internal/testdata/generator/insert") (B "") (B ".") false) false (B "InsertBasicSingle2Query") [(MkVar (B "Rel") true false [(B "rel", [B "column_tests_3"])], (TPtr g_testdata_CT3b))]
  = Some (B "constqueryString=`INSERTINTO""column_tests_3""(""color_text"",""color_enum"",""some_time"")VALUES(NULLIF($1,'')::text,$2,$3)`_,err:=c.Exec(queryString,q.Rel.ColorText,q.Rel.ColorEnum,q.Rel.SomeTime)returnerr").
Proof. vm_compute. reflexivity. Qed.
Example golden_insert_basic_single :
  golden_query golden_db (Analysis.MkEnv (B "github.com/frk/gosql/internal/testdata/generator/insert") (B "") (B ".") false) false (B "InsertBasicSingleQuery") [(MkVar (B "User") true false [(B "rel", [B "test_user:u"])], (TPtr g_insert_basic_single_User))]
  = Some (B "constqueryString=`INSERTINTO""test_user""ASu(""id"",""email"",""full_name"",""created_at"")VALUES($1,$2,$3,$4)`_,err:=c.Exec(queryString,q.User.Id,q.User.Email,q.User.FullName,q.User.CreatedAt)returnerr").
Proof. vm_compute. reflexivity. Qed.
Example golden_insert_basic_slice :
  golden_query golden_db (Analysis.MkEnv (B "github.com/frk/gosql/internal/testdata/generator/insert") (B "") (B ".") false) false (B "InsertBasicSliceQuery") [(MkVar (B "Users") true false [(B "rel", [B "test_user:u"])], (TSlice (TPtr g_insert_basic_slice_User)))]
  = Some (B "varqueryString=`INSERTINTO""test_user""ASu(""id"",""email"",""full_name"",""created_at"")VALUES`params:=make([]interface{},len(q.Users)*4)fori,v:=rangeq.Users{pos:=i*4params[pos+0]=v.Idparams[pos+1]=v.Emailparams[pos+2]=v.FullNameparams[pos+3]=v.CreatedAtqueryString+=`(`+gosql.OrdinalParameters[pos+0]+`,`+gosql.OrdinalParameters[pos+1]+`,`+gosql.OrdinalParameters[pos+2]+`,`+gosql.OrdinalParameters[pos+3]+`),`}queryString=queryString[:len(queryString)-1]_,err:=c.Exec(queryString,params...)returnerr").
Proof. vm_compute. reflexivity. Qed.
Example golden_insert_default_all_returning_single :
  golden_query golden_db (Analysis.MkEnv (B "github.com/frk/gosql/internal/testdata/generator/insert") (B "") (B ".") false) false (B "InsertDefaultAllReturningSingleQuery") [(MkVar (B "User") true false [(B "rel", [B "test_user_with_defaults:u"])], (TPtr g_common_User4)); (MkVar (B "_") false false [(B "sql", [B "*"])], g_gosql_Default); (MkVar (B "_") false false [(B "sql", [B "*"])], g_gosql_Return)]
  = Some (B "constqueryString=`INSERTINTO""test_user_with_defaults""ASu(""email"",""full_name"",""is_active"",""created_at"",""updated_at"")VALUES(DEFAULT,DEFAULT,DEFAULT,DEFAULT,DEFAULT)RETURNINGu.""id"",u.""email"",u.""full_name"",u.""is_active"",u.""created_at"",u.""updated_at""`row:=c.QueryRow(queryString)returnrow.Scan(&q.User.Id,&q.User.Email,&q.User.FullName,&q.User.IsActive,&q.User.CreatedAt,&q.User.UpdatedAt)").
Proof. vm_compute. reflexivity. Qed.
Example golden_insert_default_all_returning_slice :
  golden_query golden_db (Analysis.MkEnv (B "github.com/frk/gosql/internal/testdata/generator/insert") (B "") (B ".") false) false (B "InsertDefaultAllReturningSliceQuery") [(MkVar (B "Users") true false [(B "rel", [B "test_user_with_defaults:u"])], (TSlice (TPtr g_common_User4))); (MkVar (B "_") false false [(B "sql", [B "*"])], g_gosql_Default); (MkVar (B "_") false false [(B "sql", [B "*"])], g_gosql_Return)]
  = Some (B "varqueryString=`INSERTINTO""test_user_with_defaults""ASu(""email"",""full_name"",""is_active"",""created_at"",""updated_at"")VALUES`for_,_=rangeq.Users{queryString+=`(DEFAULT,DEFAULT,DEFAULT,DEFAULT,DEFAULT),`}queryString=queryString[:len(queryString)-1]queryString+=`RETURNINGu.""id"",u.""email"",u.""full_name"",u.""is_active"",u.""created_at"",u.""updated_at""`rows,err:=c.Query(queryString)iferr!=nil{returnerr}deferrows.Close()i:=0forrows.Next(){err:=rows.Scan(&q.Users[i].Id,&q.Users[i].Email,&q.Users[i].FullName,&q.Users[i].IsActive,&q.Users[i].CreatedAt,&q.Users[i].UpdatedAt)iferr!=nil{returnerr}i+=1}returnrows.Err()").
Proof. vm_compute. reflexivity. Qed.
Example golden_insert_default_all_single :
  golden_query golden_db (Analysis.MkEnv (B "github.com/frk/gosql/internal/testdata/generator/insert") (B "") (B ".") false) false (B "InsertDefaultAllSingleQuery") [(MkVar (B "User") true false [(B "rel", [B "test_user_with_defaults:u"])], (TPtr g_common_User4)); (MkVar (B "_") false false [(B "sql", [B "*"])], g_gosql_Default)]
  = Some (B "constqueryString=`INSERTINTO""test_user_with_defaults""ASu(""email"",""full_name"",""is_active"",""created_at"",""updated_at"")VALUES(DEFAULT,DEFAULT,DEFAULT,DEFAULT,DEFAULT)`_,err:=c.Exec(queryString)returnerr").
Proof. vm_compute. reflexivity. Qed.
Example golden_insert_default_all_slice :
  golden_query golden_db (Analysis.MkEnv (B "github.com/frk/gosql/internal/testdata/generator/insert") (B "") (B ".") false) false (B "InsertDefaultAllSliceQuery") [(MkVar (B "Users") true false [(B "rel", [B "test_user_with_defaults:u"])], (TSlice (TPtr g_common_User4))); (MkVar (B "_") false false [(B "sql", [B "*"])], g_gosql_Default)]
  = Some (B "varqueryString=`INSERTINTO""test_user_with_defaults""ASu(""email"",""full_name"",""is_active"",""created_at"",""updated_at"")VALUES`for_,_=rangeq.Users{queryString+=`(DEFAULT,DEFAULT,DEFAULT,DEFAULT,DEFAULT),`}queryString=queryString[:len(queryString)-1]_,err:=c.Exec(queryString)returnerr").
Proof. vm_compute. reflexivity. Qed.
Example golden_insert_default_single :
  golden_query golden_db (Analysis.MkEnv (B "github.com/frk/gosql/internal/testdata/generator/insert") (B "") (B ".") false) false (B "InsertDefaultSingleQuery") [(MkVar (B "User") true false [(B "rel", [B "test_user:u"])], (TPtr g_common_User3)); (MkVar (B "_") false false [(B "sql", [B "u.password"])], g_gosql_Default)]
  = Some (B "constqueryString=`INSERTINTO""test_user""ASu(""email"",""password"",""created_at"",""updated_at"")VALUES($1,DEFAULT,$2,$3)`_,err:=c.Exec(queryString,q.User.Email,q.User.CreatedAt,q.User.UpdatedAt)returnerr").
Proof. vm_compute. reflexivity. Qed.
Example golden_insert_default_slice :
  golden_query golden_db (Analysis.MkEnv (B "github.com/frk/gosql/internal/testdata/generator/insert") (B "") (B ".") false) false (B "InsertDefaultSliceQuery") [(MkVar (B "Users") true false [(B "rel", [B "test_user_with_defaults:u"])], (TSlice (TPtr g_common_User4))); (MkVar (B "_") false false [(B "sql", [B "u.full_name"; B "u.created_at"])], g_gosql_Default)]
  = Some (B "varqueryString=`INSERTINTO""test_user_with_defaults""ASu(""email"",""full_name"",""is_active"",""created_at"",""updated_at"")VALUES`params:=make([]interface{},len(q.Users)*3)fori,v:=rangeq.Users{pos:=i*3params[pos+0]=v.Emailparams[pos+1]=v.IsActiveparams[pos+2]=v.UpdatedAtqueryString+=`(`+gosql.OrdinalParameters[pos+0]+`,DEFAULT,`+gosql.OrdinalParameters[pos+1]+`,DEFAULT,`+gosql.OrdinalParameters[pos+2]+`),`}queryString=queryString[:len(queryString)-1]_,err:=c.Exec(queryString,params...)returnerr").
Proof. vm_compute. reflexivity. Qed.
Example golden_insert_json_single :
  golden_query golden_db (Analysis.MkEnv (B "github.com/frk/gosql/internal/testdata/generator/insert") (B "") (B ".") false) false (B "InsertJSONSingleQuery") [(MkVar (B "User") true false [(B "rel", [B "test_user:u"])], (TPtr g_common_User5))]
  = Some (B "constqueryString=`INSERTINTO""test_user""ASu(""email"",""full_name"",""is_active"",""metadata1"",""metadata2"",""created_at"",""updated_at"")VALUES($1,$2,$3,$4,$5,$6,$7)`_,err:=c.Exec(queryString,q.User.Email,q.User.FullName,q.User.IsActive,pgsql.JSON(q.User.Metadata1),pgsql.JSON(q.User.Metadata2),q.User.CreatedAt,q.User.UpdatedAt)returnerr").
Proof. vm_compute. reflexivity. Qed.
Example golden_insert_json_slice :
  golden_query golden_db (Analysis.MkEnv (B "github.com/frk/gosql/internal/testdata/generator/insert") (B "") (B ".") false) false (B "InsertJSONSliceQuery") [(MkVar (B "Users") true false [(B "rel", [B "test_user:u"])], (TSlice (TPtr g_common_User5)))]
  = Some (B "varqueryString=`INSERTINTO""test_user""ASu(""email"",""full_name"",""is_active"",""metadata1"",""metadata2"",""created_at"",""updated_at"")VALUES`params:=make([]interface{},len(q.Users)*7)fori,v:=rangeq.Users{pos:=i*7params[pos+0]=v.Emailparams[pos+1]=v.FullNameparams[pos+2]=v.IsActiveparams[pos+3]=pgsql.JSON(v.Metadata1)params[pos+4]=pgsql.JSON(v.Metadata2)params[pos+5]=v.CreatedAtparams[pos+6]=v.UpdatedAtqueryString+=`(`+gosql.OrdinalParameters[pos+0]+`,`+gosql.OrdinalParameters[pos+1]+`,`+gosql.OrdinalParameters[pos+2]+`,`+gosql.OrdinalParameters[pos+3]+`,`+gosql.OrdinalParameters[pos+4]+`,`+gosql.OrdinalParameters[pos+5]+`,`+gosql.OrdinalParameters[pos+6]+`),`}queryString=queryString[:len(queryString)-1]_,err:=c.Exec(queryString,params...)returnerr").
Proof. vm_compute. reflexivity. Qed.
Example golden_insert_onconflict_column_ignore_single_1 :
  golden_query golden_db (Analysis.MkEnv (B "github.com/frk/gosql/internal/testdata/generator/insert") (B "") (B ".") false) false (B "InsertOnConflictColumnIgnoreSingle1Query") [(MkVar (B "Data") true false [(B "rel", [B "test_onconflict:k"])], (TPtr g_common_ConflictData)); (MkVar (B "OnConflict") true false [], (TStruct [(MkVar (B "_") false false [(B "sql", [B "key"])], g_gosql_Column); (MkVar (B "_") false false [], g_gosql_Ignore)]))]
  = Some (B "constqueryString=`INSERTINTO""test_onconflict""ASk(""key"",""name"",""fruit"",""value"")VALUES(NULLIF($1,0)::integer,NULLIF($2,'')::text,NULLIF($3,'')::text,NULLIF($4,0)::doubleprecision)ONCONFLICT(key)DONOTHING`_,err:=c.Exec(queryString,q.Data.Key,q.Data.Name,q.Data.Fruit,q.Data.Value)returnerr").
Proof. vm_compute. reflexivity. Qed.
Example golden_insert_onconflict_column_ignore_single_2 :
  golden_query golden_db (Analysis.MkEnv (B "github.com/frk/gosql/internal/testdata/generator/insert") (B "") (B ".") false) false (B "InsertOnConflictColumnIgnoreSingle2Query") [(MkVar (B "Data") true false [(B "rel", [B "test_onconflict:k"])], (TPtr g_common_ConflictData)); (MkVar (B "OnConflict") true false [], (TStruct [(MkVar (B "_") false false [(B "sql", [B "key"; B "name"])], g_gosql_Column); (MkVar (B "_") false false [], g_gosql_Ignore)]))]
  = Some (B "constqueryString=`INSERTINTO""test_onconflict""ASk(""key"",""name"",""fruit"",""value"")VALUES(NULLIF($1,0)::integer,NULLIF($2,'')::text,NULLIF($3,'')::text,NULLIF($4,0)::doubleprecision)ONCONFLICT(key,name)DONOTHING`_,err:=c.Exec(queryString,q.Data.Key,q.Data.Name,q.Data.Fruit,q.Data.Value)returnerr").
Proof. vm_compute. reflexivity. Qed.
Example golden_insert_onconflict_column_update_returning_slice :
  golden_query golden_db (Analysis.MkEnv (B "github.com/frk/gosql/internal/testdata/generator/insert") (B "") (B ".") false) false (B "InsertOnConflictColumnUpdateReturningSliceQuery") [(MkVar (B "Data") true false [(B "rel", [B "test_onconflict:k"])], (TSlice (TPtr g_common_ConflictData))); (MkVar (B "OnConflict") true false [], (TStruct [(MkVar (B "_") false false [(B "sql", [B "key"])], g_gosql_Column); (MkVar (B "_") false false [(B "sql", [B "fruit"])], g_gosql_Update)])); (MkVar (B "_") false false [(B "sql", [B "*"])], g_gosql_Return)]
  = Some (B "varqueryString=`INSERTINTO""test_onconflict""ASk(""key"",""name"",""fruit"",""value"")VALUES`params:=make([]interface{},len(q.Data)*4)fori,v:=rangeq.Data{pos:=i*4params[pos+0]=v.Keyparams[pos+1]=v.Nameparams[pos+2]=v.Fruitparams[pos+3]=v.ValuequeryString+=`(NULLIF(`+gosql.OrdinalParameters[pos+0]+`,0)::integer,NULLIF(`+gosql.OrdinalParameters[pos+1]+`,'')::text,NULLIF(`+gosql.OrdinalParameters[pos+2]+`,'')::text,NULLIF(`+gosql.OrdinalParameters[pos+3]+`,0)::doubleprecision),`}queryString=queryString[:len(queryString)-1]queryString+=`ONCONFLICT(key)DOUPDATESET""fruit""=EXCLUDED.""fruit""RETURNINGk.""id"",COALESCE(k.""key"",0::integer),COALESCE(k.""name"",''::text),COALESCE(k.""fruit"",''::text),COALESCE(k.""value"",0::doubleprecision)`rows,err:=c.Query(queryString,params...)iferr!=nil{returnerr}deferrows.Close()i:=0forrows.Next(){err:=rows.Scan(&q.Data[i].Id,&q.Data[i].Key,&q.Data[i].Name,&q.Data[i].Fruit,&q.Data[i].Value)iferr!=nil{returnerr}i+=1}returnrows.Err()").
Proof. vm_compute. reflexivity. Qed.
Example golden_insert_onconflict_column_update_single_1 :
  golden_query golden_db (Analysis.MkEnv (B "github.com/frk/gosql/internal/testdata/generator/insert") (B "") (B ".") false) false (B "InsertOnConflictColumnUpdateSingle1Query") [(MkVar (B "Data") true false [(B "rel", [B "test_onconflict:k"])], (TPtr g_common_ConflictData)); (MkVar (B "OnConflict") true false [], (TStruct [(MkVar (B "_") false false [(B "sql", [B "key"])], g_gosql_Column); (MkVar (B "_") false false [(B "sql", [B "fruit"])], g_gosql_Update)]))]
  = Some (B "constqueryString=`INSERTINTO""test_onconflict""ASk(""key"",""name"",""fruit"",""value"")VALUES(NULLIF($1,0)::integer,NULLIF($2,'')::text,NULLIF($3,'')::text,NULLIF($4,0)::doubleprecision)ONCONFLICT(key)DOUPDATESET""fruit""=EXCLUDED.""fruit""`_,err:=c.Exec(queryString,q.Data.Key,q.Data.Name,q.Data.Fruit,q.Data.Value)returnerr").
Proof. vm_compute. reflexivity. Qed.
Example golden_insert_onconflict_constraint_ignore_single_1 :
  golden_query golden_db (Analysis.MkEnv (B "github.com/frk/gosql/internal/testdata/generator/insert") (B "") (B ".") false) false (B "InsertOnConflictConstraintIgnoreSingle1Query") [(MkVar (B "Data") true false [(B "rel", [B "test_onconflict:k"])], (TPtr g_common_ConflictData)); (MkVar (B "OnConflict") true false [], (TStruct [(MkVar (B "_") false false [(B "sql", [B "test_onconflict_key_value_key"])], g_gosql_Constraint); (MkVar (B "_") false false [], g_gosql_Ignore)]))]
  = Some (B "constqueryString=`INSERTINTO""test_onconflict""ASk(""key"",""name"",""fruit"",""value"")VALUES(NULLIF($1,0)::integer,NULLIF($2,'')::text,NULLIF($3,'')::text,NULLIF($4,0)::doubleprecision)ONCONFLICTONCONSTRAINT""test_onconflict_key_value_key""DONOTHING`_,err:=c.Exec(queryString,q.Data.Key,q.Data.Name,q.Data.Fruit,q.Data.Value)returnerr").
Proof. vm_compute. reflexivity. Qed.
Example golden_insert_onconflict_ignore_single :
  golden_query golden_db (Analysis.MkEnv (B "github.com/frk/gosql/internal/testdata/generator/insert") (B "") (B ".") false) false (B "InsertOnConflictIgnoreSingleQuery") [(MkVar (B "Data") true false [(B "rel", [B "test_onconflict:k"])], (TPtr g_common_ConflictData)); (MkVar (B "OnConflict") true false [], (TStruct [(MkVar (B "_") false false [], g_gosql_Ignore)]))]
  = Some (B "constqueryString=`INSERTINTO""test_onconflict""ASk(""key"",""name"",""fruit"",""value"")VALUES(NULLIF($1,0)::integer,NULLIF($2,'')::text,NULLIF($3,'')::text,NULLIF($4,0)::doubleprecision)ONCONFLICTDONOTHING`_,err:=c.Exec(queryString,q.Data.Key,q.Data.Name,q.Data.Fruit,q.Data.Value)returnerr").
Proof. vm_compute. reflexivity. Qed.
Example golden_insert_onconflict_ignore_slice :
  golden_query golden_db (Analysis.MkEnv (B "github.com/frk/gosql/internal/testdata/generator/insert") (B "") (B ".") false) false (B "InsertOnConflictIgnoreSliceQuery") [(MkVar (B "Data") true false [(B "rel", [B "test_onconflict:k"])], (TSlice (TPtr g_common_ConflictData))); (MkVar (B "OnConflict") true false [], (TStruct [(MkVar (B "_") false false [], g_gosql_Ignore)]))]
  = Some (B "varqueryString=`INSERTINTO""test_onconflict""ASk(""key"",""name"",""fruit"",""value"")VALUES`params:=make([]interface{},len(q.Data)*4)fori,v:=rangeq.Data{pos:=i*4params[pos+0]=v.Keyparams[pos+1]=v.Nameparams[pos+2]=v.Fruitparams[pos+3]=v.ValuequeryString+=`(NULLIF(`+gosql.OrdinalParameters[pos+0]+`,0)::integer,NULLIF(`+gosql.OrdinalParameters[pos+1]+`,'')::text,NULLIF(`+gosql.OrdinalParameters[pos+2]+`,'')::text,NULLIF(`+gosql.OrdinalParameters[pos+3]+`,0)::doubleprecision),`}queryString=queryString[:len(queryString)-1]queryString+=`ONCONFLICTDONOTHING`_,err:=c.Exec(queryString,params...)returnerr").
Proof. vm_compute. reflexivity. Qed.
Example golden_insert_onconflict_index_ignore_single_1 :
  golden_query golden_db (Analysis.MkEnv (B "github.com/frk/gosql/internal/testdata/generator/insert") (B "") (B ".") false) false (B "InsertOnConflictIndexIgnoreSingle1Query") [(MkVar (B "Data") true false [(B "rel", [B "test_onconflict:k"])], (TPtr g_common_ConflictData)); (MkVar (B "OnConflict") true false [], (TStruct [(MkVar (B "_") false false [(B "sql", [B "test_onconflict_name_fruit_idx"])], g_gosql_Index); (MkVar (B "_") false false [], g_gosql_Ignore)]))]
  = Some (B "constqueryString=`INSERTINTO""test_onconflict""ASk(""key"",""name"",""fruit"",""value"")VALUES(NULLIF($1,0)::integer,NULLIF($2,'')::text,NULLIF($3,'')::text,NULLIF($4,0)::doubleprecision)ONCONFLICT(lower(name),upper(fruit)COLLATE""C""text_pattern_ops)DONOTHING`_,err:=c.Exec(queryString,q.Data.Key,q.Data.Name,q.Data.Fruit,q.Data.Value)returnerr").
Proof. vm_compute. reflexivity. Qed.
Example golden_insert_onconflict_index_ignore_single_2 :
  golden_query golden_db (Analysis.MkEnv (B "github.com/frk/gosql/internal/testdata/generator/insert") (B "") (B ".") false) false (B "InsertOnConflictIndexIgnoreSingle2Query") [(MkVar (B "Data") true false [(B "rel", [B "test_onconflict:k"])], (TPtr g_common_ConflictData)); (MkVar (B "OnConflict") true false [], (TStruct [(MkVar (B "_") false false [(B "sql", [B "test_onconflict_fruit_key_name_idx"])], g_gosql_Index); (MkVar (B "_") false false [], g_gosql_Ignore)]))]
  = Some (B "constqueryString=`INSERTINTO""test_onconflict""ASk(""key"",""name"",""fruit"",""value"")VALUES(NULLIF($1,0)::integer,NULLIF($2,'')::text,NULLIF($3,'')::text,NULLIF($4,0)::doubleprecision)ONCONFLICT(lower(fruit),key,upper(name))WHEREkey<5DONOTHING`_,err:=c.Exec(queryString,q.Data.Key,q.Data.Name,q.Data.Fruit,q.Data.Value)returnerr").
Proof. vm_compute. reflexivity. Qed.
Example golden_insert_onconflict_index_update_returning_slice :
  golden_query golden_db (Analysis.MkEnv (B "github.com/frk/gosql/internal/testdata/generator/insert") (B "") (B ".") false) false (B "InsertOnConflictIndexUpdateSliceQuery") [(MkVar (B "Data") true false [(B "rel", [B "test_onconflict:k"])], (TSlice (TPtr g_common_ConflictData))); (MkVar (B "OnConflict") true false [], (TStruct [(MkVar (B "_") false false [(B "sql", [B "test_onconflict_fruit_key_name_idx"])], g_gosql_Index); (MkVar (B "_") false false [(B "sql", [B "*"])], g_gosql_Update)])); (MkVar (B "_") false false [(B "sql", [B "*"])], g_gosql_Return)]
  = Some (B "varqueryString=`INSERTINTO""test_onconflict""ASk(""key"",""name"",""fruit"",""value"")VALUES`params:=make([]interface{},len(q.Data)*4)fori,v:=rangeq.Data{pos:=i*4params[pos+0]=v.Keyparams[pos+1]=v.Nameparams[pos+2]=v.Fruitparams[pos+3]=v.ValuequeryString+=`(NULLIF(`+gosql.OrdinalParameters[pos+0]+`,0)::integer,NULLIF(`+gosql.OrdinalParameters[pos+1]+`,'')::text,NULLIF(`+gosql.OrdinalParameters[pos+2]+`,'')::text,NULLIF(`+gosql.OrdinalParameters[pos+3]+`,0)::doubleprecision),`}queryString=queryString[:len(queryString)-1]queryString+=`ONCONFLICT(lower(fruit),key,upper(name))WHEREkey<5DOUPDATESET""key""=EXCLUDED.""key"",""name""=EXCLUDED.""name"",""fruit""=EXCLUDED.""fruit"",""value""=EXCLUDED.""value""RETURNINGk.""id"",COALESCE(k.""key"",0::integer),COALESCE(k.""name"",''::text),COALESCE(k.""fruit"",''::text),COALESCE(k.""value"",0::doubleprecision)`rows,err:=c.Query(queryString,params...)iferr!=nil{returnerr}deferrows.Close()i:=0forrows.Next(){err:=rows.Scan(&q.Data[i].Id,&q.Data[i].Key,&q.Data[i].Name,&q.Data[i].Fruit,&q.Data[i].Value)iferr!=nil{returnerr}i+=1}returnrows.Err()").
Proof. vm_compute. reflexivity. Qed.
Example golden_insert_onconflict_index_update_single_1 :
  golden_query golden_db (Analysis.MkEnv (B "github.com/frk/gosql/internal/testdata/generator/insert") (B "") (B ".") false) false (B "InsertOnConflictIndexUpdateSingle1Query") [(MkVar (B "Data") true false [(B "rel", [B "test_onconflict:k"])], (TPtr g_common_ConflictData)); (MkVar (B "OnConflict") true false [], (TStruct [(MkVar (B "_") false false [(B "sql", [B "test_onconflict_name_fruit_idx"])], g_gosql_Index); (MkVar (B "_") false false [(B "sql", [B "*"])], g_gosql_Update)]))]
  = Some (B "constqueryString=`INSERTINTO""test_onconflict""ASk(""key"",""name"",""fruit"",""value"")VALUES(NULLIF($1,0)::integer,NULLIF($2,'')::text,NULLIF($3,'')::text,NULLIF($4,0)::doubleprecision)ONCONFLICT(lower(name),upper(fruit)COLLATE""C""text_pattern_ops)DOUPDATESET""key""=EXCLUDED.""key"",""name""=EXCLUDED.""name"",""fruit""=EXCLUDED.""fruit"",""value""=EXCLUDED.""value""`_,err:=c.Exec(queryString,q.Data.Key,q.Data.Name,q.Data.Fruit,q.Data.Value)returnerr").
Proof. vm_compute. reflexivity. Qed.
Example golden_insert_result_afterscan_iterator :
  golden_query golden_db (Analysis.MkEnv (B "github.com/frk/gosql/internal/testdata/generator/insert") (B "") (B ".") false) false (B "InsertResultAfterScanIteratorQuery") [(MkVar (B "Users") true false [(B "rel", [B "test_user:u"])], (TSlice (TPtr g_common_User))); (MkVar (B "Result") true false [], g_common_User2Iterator)]
  = Some (B "varqueryString=`INSERTINTO""test_user""ASu(""id"",""email"",""full_name"",""created_at"")VALUES`params:=make([]interface{},len(q.Users)*4)fori,v:=rangeq.Users{pos:=i*4params[pos+0]=v.Idparams[pos+1]=v.Emailparams[pos+2]=v.FullNameparams[pos+3]=v.CreatedAtqueryString+=`(`+gosql.OrdinalParameters[pos+0]+`,`+gosql.OrdinalParameters[pos+1]+`,`+gosql.OrdinalParameters[pos+2]+`,`+gosql.OrdinalParameters[pos+3]+`),`}queryString=queryString[:len(queryString)-1]queryString+=`RETURNINGu.""id"",u.""email"",u.""full_name"",u.""created_at""`rows,err:=c.Query(queryString,params...)iferr!=nil{returnerr}deferrows.Close()forrows.Next(){v:=new(T)err:=rows.Scan(&v.Id,&v.Email,&v.FullName,&v.CreatedAt)iferr!=nil{returnerr}v.AfterScan()iferr:=q.Result.NextUser(v);err!=nil{returnerr}}returnrows.Err()").
Proof. vm_compute. reflexivity. Qed.
Example golden_insert_result_afterscan_single :
  golden_query golden_db (Analysis.MkEnv (B "github.com/frk/gosql/internal/testdata/generator/insert") (B "") (B ".") false) false (B "InsertResultAfterScanSingleQuery") [(MkVar (B "User") true false [(B "rel", [B "test_user:u"])], (TPtr g_common_User2)); (MkVar (B "result") false false [], (TPtr g_common_User2))]
  = Some (B "constqueryString=`INSERTINTO""test_user""ASu(""id"",""email"",""full_name"",""created_at"")VALUES($1,$2,$3,$4)RETURNINGu.""id"",u.""email"",u.""full_name"",u.""created_at""`row:=c.QueryRow(queryString,q.User.Id,q.User.Email,q.User.FullName,q.User.CreatedAt)q.result=new(T)err:=row.Scan(&q.result.Id,&q.result.Email,&q.result.FullName,&q.result.CreatedAt)iferr!=nil{returnerr}q.result.AfterScan()returnnil").
Proof. vm_compute. reflexivity. Qed.
Example golden_insert_result_afterscan_slice :
  golden_query golden_db (Analysis.MkEnv (B "github.com/frk/gosql/internal/testdata/generator/insert") (B "") (B ".") false) false (B "InsertResultAfterScanSliceQuery") [(MkVar (B "Users") true false [(B "rel", [B "test_user:u"])], (TSlice (TPtr g_common_User))); (MkVar (B "Result") true false [], (TSlice (TPtr g_common_User2)))]
  = Some (B "varqueryString=`INSERTINTO""test_user""ASu(""id"",""email"",""full_name"",""created_at"")VALUES`params:=make([]interface{},len(q.Users)*4)fori,v:=rangeq.Users{pos:=i*4params[pos+0]=v.Idparams[pos+1]=v.Emailparams[pos+2]=v.FullNameparams[pos+3]=v.CreatedAtqueryString+=`(`+gosql.OrdinalParameters[pos+0]+`,`+gosql.OrdinalParameters[pos+1]+`,`+gosql.OrdinalParameters[pos+2]+`,`+gosql.OrdinalParameters[pos+3]+`),`}queryString=queryString[:len(queryString)-1]queryString+=`RETURNINGu.""id"",u.""email"",u.""full_name"",u.""created_at""`rows,err:=c.Query(queryString,params...)iferr!=nil{returnerr}deferrows.Close()forrows.Next(){v:=new(T)err:=rows.Scan(&v.Id,&v.Email,&v.FullName,&v.CreatedAt)iferr!=nil{returnerr}v.AfterScan()q.Result=append(q.Result,v)}returnrows.Err()").
Proof. vm_compute. reflexivity. Qed.
Example golden_insert_result_basic_iterator :
  golden_query golden_db (Analysis.MkEnv (B "github.com/frk/gosql/internal/testdata/generator/insert") (B "") (B ".") false) false (B "InsertResultBasicIteratorQuery") [(MkVar (B "Users") true false [(B "rel", [B "test_user:u"])], (TSlice (TPtr g_common_User))); (MkVar (B "Result") true false [], g_common_UserIterator)]
  = Some (B "varqueryString=`INSERTINTO""test_user""ASu(""id"",""email"",""full_name"",""created_at"")VALUES`params:=make([]interface{},len(q.Users)*4)fori,v:=rangeq.Users{pos:=i*4params[pos+0]=v.Idparams[pos+1]=v.Emailparams[pos+2]=v.FullNameparams[pos+3]=v.CreatedAtqueryString+=`(`+gosql.OrdinalParameters[pos+0]+`,`+gosql.OrdinalParameters[pos+1]+`,`+gosql.OrdinalParameters[pos+2]+`,`+gosql.OrdinalParameters[pos+3]+`),`}queryString=queryString[:len(queryString)-1]queryString+=`RETURNINGu.""id"",u.""email"",u.""full_name"",u.""created_at""`rows,err:=c.Query(queryString,params...)iferr!=nil{returnerr}deferrows.Close()forrows.Next(){v:=new(T)err:=rows.Scan(&v.Id,&v.Email,&v.FullName,&v.CreatedAt)iferr!=nil{returnerr}iferr:=q.Result.NextUser(v);err!=nil{returnerr}}returnrows.Err()").
Proof. vm_compute. reflexivity. Qed.
Example golden_insert_result_basic_single :
  golden_query golden_db (Analysis.MkEnv (B "github.com/frk/gosql/internal/testdata/generator/insert") (B "") (B ".") false) false (B "InsertResultBasicSingleQuery") [(MkVar (B "User") true false [(B "rel", [B "test_user:u"])], (TPtr g_common_User3)); (MkVar (B "Result") true false [], (TStruct [(MkVar (B "Id") true false [(B "sql", [B "id"])], (TBasic BInt false false))]))]
  = Some (B "constqueryString=`INSERTINTO""test_user""ASu(""email"",""password"",""created_at"",""updated_at"")VALUES($1,$2,$3,$4)RETURNINGu.""id""`row:=c.QueryRow(queryString,q.User.Email,q.User.Password,q.User.CreatedAt,q.User.UpdatedAt)returnrow.Scan(&q.Result.Id)").
Proof. vm_compute. reflexivity. Qed.
Example golden_insert_result_basic_slice :
  golden_query golden_db (Analysis.MkEnv (B "github.com/frk/gosql/internal/testdata/generator/insert") (B "") (B ".") false) false (B "InsertResultBasicSliceQuery") [(MkVar (B "Users") true false [(B "rel", [B "test_user:u"])], (TSlice (TPtr g_common_User))); (MkVar (B "Result") true false [], (TSlice (TPtr g_common_User)))]
  = Some (B "varqueryString=`INSERTINTO""test_user""ASu(""id"",""email"",""full_name"",""created_at"")VALUES`params:=make([]interface{},len(q.Users)*4)fori,v:=rangeq.Users{pos:=i*4params[pos+0]=v.Idparams[pos+1]=v.Emailparams[pos+2]=v.FullNameparams[pos+3]=v.CreatedAtqueryString+=`(`+gosql.OrdinalParameters[pos+0]+`,`+gosql.OrdinalParameters[pos+1]+`,`+gosql.OrdinalParameters[pos+2]+`,`+gosql.OrdinalParameters[pos+3]+`),`}queryString=queryString[:len(queryString)-1]queryString+=`RETURNINGu.""id"",u.""email"",u.""full_name"",u.""created_at""`rows,err:=c.Query(queryString,params...)iferr!=nil{returnerr}deferrows.Close()forrows.Next(){v:=new(T)err:=rows.Scan(&v.Id,&v.Email,&v.FullName,&v.CreatedAt)iferr!=nil{returnerr}q.Result=append(q.Result,v)}returnrows.Err()").
Proof. vm_compute. reflexivity. Qed.
Example golden_insert_result_errorhandler_iterator :
  golden_query golden_db (Analysis.MkEnv (B "github.com/frk/gosql/internal/testdata/generator/insert") (B "") (B ".") false) false (B "InsertResultErrorHandlerIteratorQuery") [(MkVar (B "Users") true false [(B "rel", [B "test_user:u"])], (TSlice (TPtr g_common_User))); (MkVar (B "result") false false [], g_common_User2Iterator); (MkVar (B "erh") false false [], g_common_ErrorHandler)]
  = Some (B "varqueryString=`INSERTINTO""test_user""ASu(""id"",""email"",""full_name"",""created_at"")VALUES`params:=make([]interface{},len(q.Users)*4)fori,v:=rangeq.Users{pos:=i*4params[pos+0]=v.Idparams[pos+1]=v.Emailparams[pos+2]=v.FullNameparams[pos+3]=v.CreatedAtqueryString+=`(`+gosql.OrdinalParameters[pos+0]+`,`+gosql.OrdinalParameters[pos+1]+`,`+gosql.OrdinalParameters[pos+2]+`,`+gosql.OrdinalParameters[pos+3]+`),`}queryString=queryString[:len(queryString)-1]queryString+=`RETURNINGu.""id"",u.""email"",u.""full_name"",u.""created_at""`rows,err:=c.Query(queryString,params...)iferr!=nil{returnq.erh.HandleError(err)}deferrows.Close()forrows.Next(){v:=new(T)err:=rows.Scan(&v.Id,&v.Email,&v.FullName,&v.CreatedAt)iferr!=nil{returnq.erh.HandleError(err)}v.AfterScan()iferr:=q.result.NextUser(v);err!=nil{returnq.erh.HandleError(err)}}returnq.erh.HandleError(rows.Err())").
Proof. vm_compute. reflexivity. Qed.
Example golden_insert_result_errorhandler_single :
  golden_query golden_db (Analysis.MkEnv (B "github.com/frk/gosql/internal/testdata/generator/insert") (B "") (B ".") false) false (B "InsertResultErrorHandlerSingleQuery") [(MkVar (B "User") true false [(B "rel", [B "test_user:u"])], (TPtr g_common_User)); (MkVar (B "result") false false [], (TPtr g_common_User)); (MkVar (B "erh") false false [], g_common_ErrorHandler)]
  = Some (B "constqueryString=`INSERTINTO""test_user""ASu(""id"",""email"",""full_name"",""created_at"")VALUES($1,$2,$3,$4)RETURNINGu.""id"",u.""email"",u.""full_name"",u.""created_at""`row:=c.QueryRow(queryString,q.User.Id,q.User.Email,q.User.FullName,q.User.CreatedAt)q.result=new(T)returnq.erh.HandleError(row.Scan(&q.result.Id,&q.result.Email,&q.result.FullName,&q.result.CreatedAt))").
Proof. vm_compute. reflexivity. Qed.
Example golden_insert_result_errorinfohandler_iterator :
  golden_query golden_db (Analysis.MkEnv (B "github.com/frk/gosql/internal/testdata/generator/insert") (B "") (B ".") false) false (B "InsertResultErrorInfoHandlerIteratorQuery") [(MkVar (B "Users") true false [(B "rel", [B "test_user:u"])], (TSlice (TPtr g_common_User))); (MkVar (B "result") false false [], g_common_User2Iterator); (MkVar (B "erh") false false [], g_common_ErrorInfoHandler)]
  = Some (B "varqueryString=`INSERTINTO""test_user""ASu(""id"",""email"",""full_name"",""created_at"")VALUES`params:=make([]interface{},len(q.Users)*4)fori,v:=rangeq.Users{pos:=i*4params[pos+0]=v.Idparams[pos+1]=v.Emailparams[pos+2]=v.FullNameparams[pos+3]=v.CreatedAtqueryString+=`(`+gosql.OrdinalParameters[pos+0]+`,`+gosql.OrdinalParameters[pos+1]+`,`+gosql.OrdinalParameters[pos+2]+`,`+gosql.OrdinalParameters[pos+3]+`),`}queryString=queryString[:len(queryString)-1]queryString+=`RETURNINGu.""id"",u.""email"",u.""full_name"",u.""created_at""`rows,err:=c.Query(queryString,params...)iferr!=nil{returnq.erh.HandleErrorInfo(&gosql.ErrorInfo{Error:err,QueryString:queryString,QueryKind:""Insert"",QueryName:""InsertResultErrorInfoHandlerIteratorQuery"",QueryValue:q})}deferrows.Close()forrows.Next(){v:=new(T)err:=rows.Scan(&v.Id,&v.Email,&v.FullName,&v.CreatedAt)iferr!=nil{returnq.erh.HandleErrorInfo(&gosql.ErrorInfo{Error:err,QueryString:queryString,QueryKind:""Insert"",QueryName:""InsertResultErrorInfoHandlerIteratorQuery"",QueryValue:q})}v.AfterScan()iferr:=q.result.NextUser(v);err!=nil{returnq.erh.HandleErrorInfo(&gosql.ErrorInfo{Error:err,QueryString:queryString,QueryKind:""Insert"",QueryName:""InsertResultErrorInfoHandlerIteratorQuery"",QueryValue:q})}}iferr:=rows.Err();err!=nil{returnq.erh.HandleErrorInfo(&gosql.ErrorInfo{Error:err,QueryString:queryString,QueryKind:""Insert"",QueryName:""InsertResultErrorInfoHandlerIteratorQuery"",QueryValue:q})}returnnil").
Proof. vm_compute. reflexivity. Qed.
Example golden_insert_result_errorinfohandler_single :
  golden_query golden_db (Analysis.MkEnv (B "github.com/frk/gosql/internal/testdata/generator/insert") (B "") (B ".") false) false (B "InsertResultErrorInfoHandlerSingleQuery") [(MkVar (B "User") true false [(B "rel", [B "test_user:u"])], (TPtr g_common_User2)); (MkVar (B "Result") true false [], (TPtr g_common_User2)); (MkVar (B "erh") false false [], g_common_ErrorInfoHandler)]
  = Some (B "constqueryString=`INSERTINTO""test_user""ASu(""id"",""email"",""full_name"",""created_at"")VALUES($1,$2,$3,$4)RETURNINGu.""id"",u.""email"",u.""full_name"",u.""created_at""`row:=c.QueryRow(queryString,q.User.Id,q.User.Email,q.User.FullName,q.User.CreatedAt)q.Result=new(T)err:=row.Scan(&q.Result.Id,&q.Result.Email,&q.Result.FullName,&q.Result.CreatedAt)iferr!=nil{returnq.erh.HandleErrorInfo(&gosql.ErrorInfo{Error:err,QueryString:queryString,QueryKind:""Insert"",QueryName:""InsertResultErrorInfoHandlerSingleQuery"",QueryValue:q})}q.Result.AfterScan()returnnil").
Proof. vm_compute. reflexivity. Qed.
Example golden_insert_result_json_single :
  golden_query golden_db (Analysis.MkEnv (B "github.com/frk/gosql/internal/testdata/generator/insert") (B "") (B ".") false) false (B "InsertResultJSONSingleQuery") [(MkVar (B "User") true false [(B "rel", [B "test_user:u"])], (TPtr g_common_User5)); (MkVar (B "Result") true false [], (TPtr g_common_User5))]
  = Some (B "constqueryString=`INSERTINTO""test_user""ASu(""email"",""full_name"",""is_active"",""metadata1"",""metadata2"",""created_at"",""updated_at"")VALUES($1,$2,$3,$4,$5,$6,$7)RETURNINGu.""id"",u.""email"",u.""full_name"",u.""is_active"",u.""metadata1"",u.""metadata2"",u.""created_at"",u.""updated_at""`row:=c.QueryRow(queryString,q.User.Email,q.User.FullName,q.User.IsActive,pgsql.JSON(q.User.Metadata1),pgsql.JSON(q.User.Metadata2),q.User.CreatedAt,q.User.UpdatedAt)q.Result=new(T)returnrow.Scan(&q.Result.Id,&q.Result.Email,&q.Result.FullName,&q.Result.IsActive,pgsql.JSON(&q.Result.Metadata1),pgsql.JSON(&q.Result.Metadata2),&q.Result.CreatedAt,&q.Result.UpdatedAt)").
Proof. vm_compute. reflexivity. Qed.
Example golden_insert_result_json_slice :
  golden_query golden_db (Analysis.MkEnv (B "github.com/frk/gosql/internal/testdata/generator/insert") (B "") (B ".") false) false (B "InsertResultJSONSliceQuery") [(MkVar (B "Users") true false [(B "rel", [B "test_user:u"])], (TSlice (TPtr g_common_User5))); (MkVar (B "Result") true false [], (TSlice (TPtr g_common_User5)))]
  = Some (B "varqueryString=`INSERTINTO""test_user""ASu(""email"",""full_name"",""is_active"",""metadata1"",""metadata2"",""created_at"",""updated_at"")VALUES`params:=make([]interface{},len(q.Users)*7)fori,v:=rangeq.Users{pos:=i*7params[pos+0]=v.Emailparams[pos+1]=v.FullNameparams[pos+2]=v.IsActiveparams[pos+3]=pgsql.JSON(v.Metadata1)params[pos+4]=pgsql.JSON(v.Metadata2)params[pos+5]=v.CreatedAtparams[pos+6]=v.UpdatedAtqueryString+=`(`+gosql.OrdinalParameters[pos+0]+`,`+gosql.OrdinalParameters[pos+1]+`,`+gosql.OrdinalParameters[pos+2]+`,`+gosql.OrdinalParameters[pos+3]+`,`+gosql.OrdinalParameters[pos+4]+`,`+gosql.OrdinalParameters[pos+5]+`,`+gosql.OrdinalParameters[pos+6]+`),`}queryString=queryString[:len(queryString)-1]queryString+=`RETURNINGu.""id"",u.""email"",u.""full_name"",u.""is_active"",u.""metadata1"",u.""metadata2"",u.""created_at"",u.""updated_at""`rows,err:=c.Query(queryString,params...)iferr!=nil{returnerr}deferrows.Close()forrows.Next(){v:=new(T)err:=rows.Scan(&v.Id,&v.Email,&v.FullName,&v.IsActive,pgsql.JSON(&v.Metadata1),pgsql.JSON(&v.Metadata2),&v.CreatedAt,&v.UpdatedAt)iferr!=nil{returnerr}q.Result=append(q.Result,v)}returnrows.Err()").
Proof. vm_compute. reflexivity. Qed.
Example golden_insert_returning_afterscan_single :
  golden_query golden_db (Analysis.MkEnv (B "github.com/frk/gosql/internal/testdata/generator/insert") (B "") (B ".") false) false (B "InsertReturningAfterScanSingleQuery") [(MkVar (B "User") true false [(B "rel", [B "test_user:u"])], (TPtr g_common_User2)); (MkVar (B "_") false false [(B "sql", [B "*"])], g_gosql_Return)]
  = Some (B "constqueryString=`INSERTINTO""test_user""ASu(""id"",""email"",""full_name"",""created_at"")VALUES($1,$2,$3,$4)RETURNINGu.""id"",u.""email"",u.""full_name"",u.""created_at""`row:=c.QueryRow(queryString,q.User.Id,q.User.Email,q.User.FullName,q.User.CreatedAt)err:=row.Scan(&q.User.Id,&q.User.Email,&q.User.FullName,&q.User.CreatedAt)iferr!=nil{returnerr}q.User.AfterScan()returnnil").
Proof. vm_compute. reflexivity. Qed.
Example golden_insert_returning_afterscan_slice :
  golden_query golden_db (Analysis.MkEnv (B "github.com/frk/gosql/internal/testdata/generator/insert") (B "") (B ".") false) false (B "InsertReturningAfterScanSliceQuery") [(MkVar (B "Users") true false [(B "rel", [B "test_user:u"])], (TSlice (TPtr g_common_User2))); (MkVar (B "_") false false [(B "sql", [B "*"])], g_gosql_Return)]
  = Some (B "varqueryString=`INSERTINTO""test_user""ASu(""id"",""email"",""full_name"",""created_at"")VALUES`params:=make([]interface{},len(q.Users)*4)fori,v:=rangeq.Users{pos:=i*4params[pos+0]=v.Idparams[pos+1]=v.Emailparams[pos+2]=v.FullNameparams[pos+3]=v.CreatedAtqueryString+=`(`+gosql.OrdinalParameters[pos+0]+`,`+gosql.OrdinalParameters[pos+1]+`,`+gosql.OrdinalParameters[pos+2]+`,`+gosql.OrdinalParameters[pos+3]+`),`}queryString=queryString[:len(queryString)-1]queryString+=`RETURNINGu.""id"",u.""email"",u.""full_name"",u.""created_at""`rows,err:=c.Query(queryString,params...)iferr!=nil{returnerr}deferrows.Close()i:=0forrows.Next(){err:=rows.Scan(&q.Users[i].Id,&q.Users[i].Email,&q.Users[i].FullName,&q.Users[i].CreatedAt)iferr!=nil{returnerr}q.Users[i].AfterScan()i+=1}returnrows.Err()").
Proof. vm_compute. reflexivity. Qed.
Example golden_insert_returning_all_json_single :
  golden_query golden_db (Analysis.MkEnv (B "github.com/frk/gosql/internal/testdata/generator/insert") (B "") (B ".") false) false (B "InsertReturningAllJSONSingleQuery") [(MkVar (B "User") true false [(B "rel", [B "test_user:u"])], (TPtr g_common_User5)); (MkVar (B "_") false false [(B "sql", [B "*"])], g_gosql_Return)]
  = Some (B "constqueryString=`INSERTINTO""test_user""ASu(""email"",""full_name"",""is_active"",""metadata1"",""metadata2"",""created_at"",""updated_at"")VALUES($1,$2,$3,$4,$5,$6,$7)RETURNINGu.""id"",u.""email"",u.""full_name"",u.""is_active"",u.""metadata1"",u.""metadata2"",u.""created_at"",u.""updated_at""`row:=c.QueryRow(queryString,q.User.Email,q.User.FullName,q.User.IsActive,pgsql.JSON(q.User.Metadata1),pgsql.JSON(q.User.Metadata2),q.User.CreatedAt,q.User.UpdatedAt)returnrow.Scan(&q.User.Id,&q.User.Email,&q.User.FullName,&q.User.IsActive,pgsql.JSON(&q.User.Metadata1),pgsql.JSON(&q.User.Metadata2),&q.User.CreatedAt,&q.User.UpdatedAt)").
Proof. vm_compute. reflexivity. Qed.
Example golden_insert_returning_all_json_slice :
  golden_query golden_db (Analysis.MkEnv (B "github.com/frk/gosql/internal/testdata/generator/insert") (B "") (B ".") false) false (B "InsertReturningAllJSONSliceQuery") [(MkVar (B "Users") true false [(B "rel", [B "test_user:u"])], (TSlice (TPtr g_common_User5))); (MkVar (B "_") false false [(B "sql", [B "*"])], g_gosql_Return)]
  = Some (B "varqueryString=`INSERTINTO""test_user""ASu(""email"",""full_name"",""is_active"",""metadata1"",""metadata2"",""created_at"",""updated_at"")VALUES`params:=make([]interface{},len(q.Users)*7)fori,v:=rangeq.Users{pos:=i*7params[pos+0]=v.Emailparams[pos+1]=v.FullNameparams[pos+2]=v.IsActiveparams[pos+3]=pgsql.JSON(v.Metadata1)params[pos+4]=pgsql.JSON(v.Metadata2)params[pos+5]=v.CreatedAtparams[pos+6]=v.UpdatedAtqueryString+=`(`+gosql.OrdinalParameters[pos+0]+`,`+gosql.OrdinalParameters[pos+1]+`,`+gosql.OrdinalParameters[pos+2]+`,`+gosql.OrdinalParameters[pos+3]+`,`+gosql.OrdinalParameters[pos+4]+`,`+gosql.OrdinalParameters[pos+5]+`,`+gosql.OrdinalParameters[pos+6]+`),`}queryString=queryString[:len(queryString)-1]queryString+=`RETURNINGu.""id"",u.""email"",u.""full_name"",u.""is_active"",u.""metadata1"",u.""metadata2"",u.""created_at"",u.""updated_at""`rows,err:=c.Query(queryString,params...)iferr!=nil{returnerr}deferrows.Close()i:=0forrows.Next(){err:=rows.Scan(&q.Users[i].Id,&q.Users[i].Email,&q.Users[i].FullName,&q.Users[i].IsActive,pgsql.JSON(&q.Users[i].Metadata1),pgsql.JSON(&q.Users[i].Metadata2),&q.Users[i].CreatedAt,&q.Users[i].UpdatedAt)iferr!=nil{returnerr}i+=1}returnrows.Err()").
Proof. vm_compute. reflexivity. Qed.
Example golden_insert_returning_all_single :
  golden_query golden_db (Analysis.MkEnv (B "github.com/frk/gosql/internal/testdata/generator/insert") (B "") (B ".") false) false (B "InsertReturningAllSingleQuery") [(MkVar (B "User") true false [(B "rel", [B "test_user:u"])], (TPtr g_common_User3)); (MkVar (B "_") false false [(B "sql", [B "*"])], g_gosql_Return)]
  = Some (B "constqueryString=`INSERTINTO""test_user""ASu(""email"",""password"",""created_at"",""updated_at"")VALUES($1,$2,$3,$4)RETURNINGu.""id"",u.""email"",u.""created_at"",u.""updated_at""`row:=c.QueryRow(queryString,q.User.Email,q.User.Password,q.User.CreatedAt,q.User.UpdatedAt)returnrow.Scan(&q.User.Id,&q.User.Email,&q.User.CreatedAt,&q.User.UpdatedAt)").
Proof. vm_compute. reflexivity. Qed.
Example golden_insert_returning_all_slice :
  golden_query golden_db (Analysis.MkEnv (B "github.com/frk/gosql/internal/testdata/generator/insert") (B "") (B ".") false) false (B "InsertReturningAllSliceQuery") [(MkVar (B "Users") true false [(B "rel", [B "test_user:u"])], (TSlice (TPtr g_common_User))); (MkVar (B "_") false false [(B "sql", [B "*"])], g_gosql_Return)]
  = Some (B "varqueryString=`INSERTINTO""test_user""ASu(""id"",""email"",""full_name"",""created_at"")VALUES`params:=make([]interface{},len(q.Users)*4)fori,v:=rangeq.Users{pos:=i*4params[pos+0]=v.Idparams[pos+1]=v.Emailparams[pos+2]=v.FullNameparams[pos+3]=v.CreatedAtqueryString+=`(`+gosql.OrdinalParameters[pos+0]+`,`+gosql.OrdinalParameters[pos+1]+`,`+gosql.OrdinalParameters[pos+2]+`,`+gosql.OrdinalParameters[pos+3]+`),`}queryString=queryString[:len(queryString)-1]queryString+=`RETURNINGu.""id"",u.""email"",u.""full_name"",u.""created_at""`rows,err:=c.Query(queryString,params...)iferr!=nil{returnerr}deferrows.Close()i:=0forrows.Next(){err:=rows.Scan(&q.Users[i].Id,&q.Users[i].Email,&q.Users[i].FullName,&q.Users[i].CreatedAt)iferr!=nil{returnerr}i+=1}returnrows.Err()").
Proof. vm_compute. reflexivity. Qed.
Example golden_insert_returning_collist_single :
  golden_query golden_db (Analysis.MkEnv (B "github.com/frk/gosql/internal/testdata/generator/insert") (B "") (B ".") false) false (B "InsertReturningCollistSingleQuery") [(MkVar (B "User") true false [(B "rel", [B "test_user:u"])], (TPtr g_common_User3)); (MkVar (B "_") false false [(B "sql", [B "u.id"; B "u.created_at"])], g_gosql_Return)]
  = Some (B "constqueryString=`INSERTINTO""test_user""ASu(""email"",""password"",""created_at"",""updated_at"")VALUES($1,$2,$3,$4)RETURNINGu.""id"",u.""created_at""`row:=c.QueryRow(queryString,q.User.Email,q.User.Password,q.User.CreatedAt,q.User.UpdatedAt)returnrow.Scan(&q.User.Id,&q.User.CreatedAt)").
Proof. vm_compute. reflexivity. Qed.
Example golden_insert_returning_collist_slice :
  golden_query golden_db (Analysis.MkEnv (B "github.com/frk/gosql/internal/testdata/generator/insert") (B "") (B ".") false) false (B "InsertReturningCollistSliceQuery") [(MkVar (B "Users") true false [(B "rel", [B "test_user:u"])], (TSlice (TPtr g_common_User))); (MkVar (B "_") false false [(B "sql", [B "u.id"])], g_gosql_Return)]
  = Some (B "varqueryString=`INSERTINTO""test_user""ASu(""id"",""email"",""full_name"",""created_at"")VALUES`params:=make([]interface{},len(q.Users)*4)fori,v:=rangeq.Users{pos:=i*4params[pos+0]=v.Idparams[pos+1]=v.Emailparams[pos+2]=v.FullNameparams[pos+3]=v.CreatedAtqueryString+=`(`+gosql.OrdinalParameters[pos+0]+`,`+gosql.OrdinalParameters[pos+1]+`,`+gosql.OrdinalParameters[pos+2]+`,`+gosql.OrdinalParameters[pos+3]+`),`}queryString=queryString[:len(queryString)-1]queryString+=`RETURNINGu.""id""`rows,err:=c.Query(queryString,params...)iferr!=nil{returnerr}deferrows.Close()i:=0forrows.Next(){err:=rows.Scan(&q.Users[i].Id)iferr!=nil{returnerr}i+=1}returnrows.Err()").
Proof. vm_compute. reflexivity. Qed.
Example golden_insert_returning_context_single :
  golden_query golden_db (Analysis.MkEnv (B "github.com/frk/gosql/internal/testdata/generator/insert") (B "") (B ".") false) false (B "InsertReturningContextSingleQuery") [(MkVar (B "User") true false [(B "rel", [B "test_user:u"])], (TPtr g_common_User3)); (MkVar (B "_") false false [(B "sql", [B "*"])], g_gosql_Return); (MkVar (B "ctx") false false [], g_context_Context)]
  = Some (B "constqueryString=`INSERTINTO""test_user""ASu(""email"",""password"",""created_at"",""updated_at"")VALUES($1,$2,$3,$4)RETURNINGu.""id"",u.""email"",u.""created_at"",u.""updated_at""`row:=c.QueryRowContext(q.ctx,queryString,q.User.Email,q.User.Password,q.User.CreatedAt,q.User.UpdatedAt)returnrow.Scan(&q.User.Id,&q.User.Email,&q.User.CreatedAt,&q.User.UpdatedAt)").
Proof. vm_compute. reflexivity. Qed.
Example golden_insert_returning_context_slice :
  golden_query golden_db (Analysis.MkEnv (B "github.com/frk/gosql/internal/testdata/generator/insert") (B "") (B ".") false) false (B "InsertReturningContextSliceQuery") [(MkVar (B "Users") true false [(B "rel", [B "test_user:u"])], (TSlice (TPtr g_common_User))); (MkVar (B "_") false false [(B "sql", [B "*"])], g_gosql_Return); (MkVar (B "ctx") false false [], g_context_Context)]
  = Some (B "varqueryString=`INSERTINTO""test_user""ASu(""id"",""email"",""full_name"",""created_at"")VALUES`params:=make([]interface{},len(q.Users)*4)fori,v:=rangeq.Users{pos:=i*4params[pos+0]=v.Idparams[pos+1]=v.Emailparams[pos+2]=v.FullNameparams[pos+3]=v.CreatedAtqueryString+=`(`+gosql.OrdinalParameters[pos+0]+`,`+gosql.OrdinalParameters[pos+1]+`,`+gosql.OrdinalParameters[pos+2]+`,`+gosql.OrdinalParameters[pos+3]+`),`}queryString=queryString[:len(queryString)-1]queryString+=`RETURNINGu.""id"",u.""email"",u.""full_name"",u.""created_at""`rows,err:=c.QueryContext(q.ctx,queryString,params...)iferr!=nil{returnerr}deferrows.Close()i:=0forrows.Next(){err:=rows.Scan(&q.Users[i].Id,&q.Users[i].Email,&q.Users[i].FullName,&q.Users[i].CreatedAt)iferr!=nil{returnerr}i+=1}returnrows.Err()").
Proof. vm_compute. reflexivity. Qed.
Example golden_insert_returning_errorhandler_slice :
  golden_query golden_db (Analysis.MkEnv (B "github.com/frk/gosql/internal/testdata/generator/insert") (B "") (B ".") false) false (B "InsertReturningErrorHandlerSliceQuery") [(MkVar (B "Users") true false [(B "rel", [B "test_user:u"])], (TSlice (TPtr g_common_User3))); (MkVar (B "_") false false [(B "sql", [B "u.id"])], g_gosql_Return); (MkVar (B "erh") false false [], g_common_ErrorHandler)]
  = Some (B "varqueryString=`INSERTINTO""test_user""ASu(""email"",""password"",""created_at"",""updated_at"")VALUES`params:=make([]interface{},len(q.Users)*4)fori,v:=rangeq.Users{pos:=i*4params[pos+0]=v.Emailparams[pos+1]=v.Passwordparams[pos+2]=v.CreatedAtparams[pos+3]=v.UpdatedAtqueryString+=`(`+gosql.OrdinalParameters[pos+0]+`,`+gosql.OrdinalParameters[pos+1]+`,`+gosql.OrdinalParameters[pos+2]+`,`+gosql.OrdinalParameters[pos+3]+`),`}queryString=queryString[:len(queryString)-1]queryString+=`RETURNINGu.""id""`rows,err:=c.Query(queryString,params...)iferr!=nil{returnq.erh.HandleError(err)}deferrows.Close()i:=0forrows.Next(){err:=rows.Scan(&q.Users[i].Id)iferr!=nil{returnq.erh.HandleError(err)}i+=1}returnq.erh.HandleError(rows.Err())").
Proof. vm_compute. reflexivity. Qed.
Example golden_insert_returning_errorinfohandler_slice :
  golden_query golden_db (Analysis.MkEnv (B "github.com/frk/gosql/internal/testdata/generator/insert") (B "") (B ".") false) false (B "InsertReturningErrorInfoHandlerSliceQuery") [(MkVar (B "Users") true false [(B "rel", [B "test_user:u"])], (TSlice (TPtr g_common_User3))); (MkVar (B "_") false false [(B "sql", [B "u.id"])], g_gosql_Return); (MkVar (B "erh") false false [], g_common_ErrorInfoHandler)]
  = Some (B "varqueryString=`INSERTINTO""test_user""ASu(""email"",""password"",""created_at"",""updated_at"")VALUES`params:=make([]interface{},len(q.Users)*4)fori,v:=rangeq.Users{pos:=i*4params[pos+0]=v.Emailparams[pos+1]=v.Passwordparams[pos+2]=v.CreatedAtparams[pos+3]=v.UpdatedAtqueryString+=`(`+gosql.OrdinalParameters[pos+0]+`,`+gosql.OrdinalParameters[pos+1]+`,`+gosql.OrdinalParameters[pos+2]+`,`+gosql.OrdinalParameters[pos+3]+`),`}queryString=queryString[:len(queryString)-1]queryString+=`RETURNINGu.""id""`rows,err:=c.Query(queryString,params...)iferr!=nil{returnq.erh.HandleErrorInfo(&gosql.ErrorInfo{Error:err,QueryString:queryString,QueryKind:""Insert"",QueryName:""InsertReturningErrorInfoHandlerSliceQuery"",QueryValue:q})}deferrows.Close()i:=0forrows.Next(){err:=rows.Scan(&q.Users[i].Id)iferr!=nil{returnq.erh.HandleErrorInfo(&gosql.ErrorInfo{Error:err,QueryString:queryString,QueryKind:""Insert"",QueryName:""InsertReturningErrorInfoHandlerSliceQuery"",QueryValue:q})}i+=1}iferr:=rows.Err();err!=nil{returnq.erh.HandleErrorInfo(&gosql.ErrorInfo{Error:err,QueryString:queryString,QueryKind:""Insert"",QueryName:""InsertReturningErrorInfoHandlerSliceQuery"",QueryValue:q})}returnnil").
Proof. vm_compute. reflexivity. Qed.
Example golden_insert_rowsaffected_errorhandler_single :
  golden_query golden_db (Analysis.MkEnv (B "github.com/frk/gosql/internal/testdata/generator/insert") (B "") (B ".") false) false (B "InsertRowsAffectedErrorHandlerSingleQuery") [(MkVar (B "User") true false [(B "rel", [B "test_user:u"])], (TPtr g_common_User3)); (MkVar (B "RowsAffected") true false [], (TBasic BInt false false)); (MkVar (B "ErrorHandler") true true [], g_common_ErrorHandler)]
  = Some (B "constqueryString=`INSERTINTO""test_user""ASu(""email"",""password"",""created_at"",""updated_at"")VALUES($1,$2,$3,$4)`res,err:=c.Exec(queryString,q.User.Email,q.User.Password,q.User.CreatedAt,q.User.UpdatedAt)iferr!=nil{returnq.ErrorHandler.HandleError(err)}i64,err:=res.RowsAffected()iferr!=nil{returnq.ErrorHandler.HandleError(err)}q.RowsAffected=int(i64)returnnil").
Proof. vm_compute. reflexivity. Qed.
Example golden_insert_rowsaffected_errorinfohandler_single :
  golden_query golden_db (Analysis.MkEnv (B "github.com/frk/gosql/internal/testdata/generator/insert") (B "") (B ".") false) false (B "InsertRowsAffectedErrorInfoHandlerSingleQuery") [(MkVar (B "User") true false [(B "rel", [B "test_user:u"])], (TPtr g_common_User3)); (MkVar (B "RowsAffected") true false [], (TBasic BInt false false)); (MkVar (B "ErrorInfoHandler") true true [], g_common_ErrorInfoHandler)]
  = Some (B "constqueryString=`INSERTINTO""test_user""ASu(""email"",""password"",""created_at"",""updated_at"")VALUES($1,$2,$3,$4)`res,err:=c.Exec(queryString,q.User.Email,q.User.Password,q.User.CreatedAt,q.User.UpdatedAt)iferr!=nil{returnq.ErrorInfoHandler.HandleErrorInfo(&gosql.ErrorInfo{Error:err,QueryString:queryString,QueryKind:""Insert"",QueryName:""InsertRowsAffectedErrorInfoHandlerSingleQuery"",QueryValue:q})}i64,err:=res.RowsAffected()iferr!=nil{returnq.ErrorInfoHandler.HandleErrorInfo(&gosql.ErrorInfo{Error:err,QueryString:queryString,QueryKind:""Insert"",QueryName:""InsertRowsAffectedErrorInfoHandlerSingleQuery"",QueryValue:q})}q.RowsAffected=int(i64)returnnil").
Proof. vm_compute. reflexivity. Qed.
Example golden_insert_rowsaffected_single :
  golden_query golden_db (Analysis.MkEnv (B "github.com/frk/gosql/internal/testdata/generator/insert") (B "") (B ".") false) false (B "InsertRowsAffectedSingleQuery") [(MkVar (B "User") true false [(B "rel", [B "test_user:u"])], (TPtr g_common_User3)); (MkVar (B "RowsAffected") true false [], (TBasic BInt false false))]
  = Some (B "constqueryString=`INSERTINTO""test_user""ASu(""email"",""password"",""created_at"",""updated_at"")VALUES($1,$2,$3,$4)`res,err:=c.Exec(queryString,q.User.Email,q.User.Password,q.User.CreatedAt,q.User.UpdatedAt)iferr!=nil{returnerr}i64,err:=res.RowsAffected()iferr!=nil{returnerr}q.RowsAffected=int(i64)returnnil").
Proof. vm_compute. reflexivity. Qed.
Example golden_update_all_single :
  golden_query golden_db (Analysis.MkEnv (B "github.com/frk/gosql/internal/testdata/generator/update") (B "") (B ".") false) false (B "UpdateAllSingleQuery") [(MkVar (B "User") true false [(B "rel", [B "test_user"])], (TPtr g_common_User4)); (MkVar (B "_") false false [], g_gosql_All)]
  = Some (B "constqueryString=`UPDATE""test_user""SET(""email"",""full_name"",""is_active"",""created_at"",""updated_at"")=($1,$2,$3,$4,$5)`_,err:=c.Exec(queryString,q.User.Email,q.User.FullName,q.User.IsActive,q.User.CreatedAt,q.User.UpdatedAt)returnerr").
Proof. vm_compute. reflexivity. Qed.
Example golden_update_filter_result_slice :
  golden_query golden_db (Analysis.MkEnv (B "github.com/frk/gosql/internal/testdata/generator/update") (B "") (B ".") false) false (B "UpdateFilterResultSliceQuery") [(MkVar (B "User") true false [(B "rel", [B "test_user:u"])], (TPtr g_common_User4)); (MkVar (B "Filter") true true [], g_gosql_Filter); (MkVar (B "Result") true false [], (TSlice (TPtr g_common_User4)))]
  = Some (B "varqueryString=`UPDATE""test_user""ASuSET(""email"",""full_name"",""is_active"",""created_at"",""updated_at"")=($1,$2,$3,$4,$5)`filterString,params:=q.Filter.ToSQL(5)queryString+=filterStringqueryString+=`RETURNINGu.""id"",u.""email"",u.""full_name"",u.""is_active"",u.""created_at"",u.""updated_at""`params=append([]interface{}{q.User.Email,q.User.FullName,q.User.IsActive,q.User.CreatedAt,q.User.UpdatedAt},params...)rows,err:=c.Query(queryString,params...)iferr!=nil{returnerr}deferrows.Close()forrows.Next(){v:=new(T)err:=rows.Scan(&v.Id,&v.Email,&v.FullName,&v.IsActive,&v.CreatedAt,&v.UpdatedAt)iferr!=nil{returnerr}q.Result=append(q.Result,v)}returnrows.Err()").
Proof. vm_compute. reflexivity. Qed.
Example golden_update_filter_single :
  golden_query golden_db (Analysis.MkEnv (B "github.com/frk/gosql/internal/testdata/generator/update") (B "") (B ".") false) false (B "UpdateFilterSingleQuery") [(MkVar (B "User") true false [(B "rel", [B "test_user:u"])], (TPtr g_common_User4)); (MkVar (B "Filter") true true [], g_gosql_Filter)]
  = Some (B "varqueryString=`UPDATE""test_user""ASuSET(""email"",""full_name"",""is_active"",""created_at"",""updated_at"")=($1,$2,$3,$4,$5)`filterString,params:=q.Filter.ToSQL(5)queryString+=filterStringparams=append([]interface{}{q.User.Email,q.User.FullName,q.User.IsActive,q.User.CreatedAt,q.User.UpdatedAt},params...)_,err:=c.Exec(queryString,params...)returnerr").
Proof. vm_compute. reflexivity. Qed.
Example golden_update_fromblock_basic_single :
  golden_query golden_db (Analysis.MkEnv (B "github.com/frk/gosql/internal/testdata/generator/update") (B "") (B ".") false) false (B "UpdateFromblockBasicSingleQuery") [(MkVar (B "User") true false [(B "rel", [B "test_user:u"])], (TPtr g_common_User4)); (MkVar (B "From") true false [], (TStruct [(MkVar (B "_") false false [(B "sql", [B "test_post:p"])], g_gosql_Relation)])); (MkVar (B "Where") true false [], (TStruct [(MkVar (B "_") false false [(B "sql", [B "u.id=p.user_id"])], g_gosql_Column); (MkVar (B "_") false false [(B "sql", [B "p.is_spam"])], g_gosql_Column)]))]
  = Some (B "constqueryString=`UPDATE""test_user""ASuSET(""email"",""full_name"",""is_active"",""created_at"",""updated_at"")=($1,$2,$3,$4,$5)FROM""test_post""ASpWHEREu.""id""=p.""user_id""ANDp.""is_spam""ISTRUE`_,err:=c.Exec(queryString,q.User.Email,q.User.FullName,q.User.IsActive,q.User.CreatedAt,q.User.UpdatedAt)returnerr").
Proof. vm_compute. reflexivity. Qed.
Example golden_update_fromblock_join_single :
  golden_query golden_db (Analysis.MkEnv (B "github.com/frk/gosql/internal/testdata/generator/update") (B "") (B ".") false) false (B "UpdateFromblockJoinSingleQuery") [(MkVar (B "User") true false [(B "rel", [B "test_user:u"])], (TPtr g_common_User4)); (MkVar (B "From") true false [], (TStruct [(MkVar (B "_") false false [(B "sql", [B "test_post:p"])], g_gosql_Relation); (MkVar (B "_") false false [(B "sql", [B "test_join1:j1"; B "j1.post_id = p.id"])], g_gosql_LeftJoin); (MkVar (B "_") false false [(B "sql", [B "test_join2:j2"; B "j2.join1_id = j1.id"])], g_gosql_RightJoin); (MkVar (B "_") false false [(B "sql", [B "test_join3:j3"; B "j3.join2_id = j2.id"])], g_gosql_FullJoin); (MkVar (B "_") false false [(B "sql", [B "test_join4:j4"])], g_gosql_CrossJoin)])); (MkVar (B "Where") true false [], (TStruct [(MkVar (B "_") false false [(B "sql", [B "u.id=p.user_id"])], g_gosql_Column); (MkVar (B "_") false false [(B "sql", [B "p.is_spam"])], g_gosql_Column)]))]
  = Some (B "constqueryString=`UPDATE""test_user""ASuSET(""email"",""full_name"",""is_active"",""created_at"",""updated_at"")=($1,$2,$3,$4,$5)FROM""test_post""ASpLEFTJOIN""test_join1""ASj1ONj1.""post_id""=p.""id""RIGHTJOIN""test_join2""ASj2ONj2.""join1_id""=j1.""id""FULLJOIN""test_join3""ASj3ONj3.""join2_id""=j2.""id""CROSSJOIN""test_join4""ASj4WHEREu.""id""=p.""user_id""ANDp.""is_spam""ISTRUE`_,err:=c.Exec(queryString,q.User.Email,q.User.FullName,q.User.IsActive,q.User.CreatedAt,q.User.UpdatedAt)returnerr").
Proof. vm_compute. reflexivity. Qed.
Example golden_update_nullif_slice :
  golden_query golden_db (Analysis.MkEnv (B "github.com/frk/gosql/internal/testdata/generator/update") (B "") (B ".") false) false (B "UpdateNullIfSliceQuery") [(MkVar (B "Data") true false [(B "rel", [B "test_onconflict:k"])], (TSlice (TPtr g_common_ConflictData)))]
  = Some (B "varqueryString=`UPDATE""test_onconflict""ASkSET(""key"",""name"",""fruit"",""value"")=(x.""key"",x.""name"",x.""fruit"",x.""value"")FROM(VALUES`params:=make([]interface{},len(q.Data)*5)fori,v:=rangeq.Data{pos:=i*5params[pos+0]=v.Keyparams[pos+1]=v.Nameparams[pos+2]=v.Fruitparams[pos+3]=v.Valueparams[pos+4]=v.IdqueryString+=`(NULLIF(`+gosql.OrdinalParameters[pos+0]+`,0)::integer,NULLIF(`+gosql.OrdinalParameters[pos+1]+`,'')::text,NULLIF(`+gosql.OrdinalParameters[pos+2]+`,'')::text,NULLIF(`+gosql.OrdinalParameters[pos+3]+`,0)::doubleprecision,`+gosql.OrdinalParameters[pos+4]+`),`}queryString=queryString[:len(queryString)-1]queryString+=`)ASx(""key"",""name"",""fruit"",""value"",""id"")WHEREk.""id""=x.""id""::integer`_,err:=c.Exec(queryString,params...)returnerr").
Proof. vm_compute. reflexivity. Qed.
Example golden_update_pkey_composite_single :
  golden_query golden_db (Analysis.MkEnv (B "github.com/frk/gosql/internal/testdata/generator/update") (B "") (B ".") false) false (B "UpdatePKeyCompositeSingleQuery") [(MkVar (B "Data") true false [(B "rel", [B "test_composite_pkey:p"])], (TPtr g_common_ConflictData))]
  = Some (B "constqueryString=`UPDATE""test_composite_pkey""ASpSET(""key"",""name"",""fruit"",""value"")=($1,$2,NULLIF($3,'')::text,NULLIF($4,0)::doubleprecision)WHEREp.""id""=$5ANDp.""key""=$1ANDp.""name""=$2`_,err:=c.Exec(queryString,q.Data.Key,q.Data.Name,q.Data.Fruit,q.Data.Value,q.Data.Id)returnerr").
Proof. vm_compute. reflexivity. Qed.
Example golden_update_pkey_composite_slice :
  golden_query golden_db (Analysis.MkEnv (B "github.com/frk/gosql/internal/testdata/generator/update") (B "") (B ".") false) false (B "UpdatePKeyCompositeSliceQuery") [(MkVar (B "Data") true false [(B "rel", [B "test_composite_pkey:p"])], (TSlice (TPtr g_common_ConflictData)))]
  = Some (B "varqueryString=`UPDATE""test_composite_pkey""ASpSET(""key"",""name"",""fruit"",""value"")=(x.""key"",x.""name"",x.""fruit"",x.""value"")FROM(VALUES`params:=make([]interface{},len(q.Data)*5)fori,v:=rangeq.Data{pos:=i*5params[pos+0]=v.Keyparams[pos+1]=v.Nameparams[pos+2]=v.Fruitparams[pos+3]=v.Valueparams[pos+4]=v.IdqueryString+=`(`+gosql.OrdinalParameters[pos+0]+`::integer,`+gosql.OrdinalParameters[pos+1]+`::text,NULLIF(`+gosql.OrdinalParameters[pos+2]+`,'')::text,NULLIF(`+gosql.OrdinalParameters[pos+3]+`,0)::doubleprecision,`+gosql.OrdinalParameters[pos+4]+`),`}queryString=queryString[:len(queryString)-1]queryString+=`)ASx(""key"",""name"",""fruit"",""value"",""id"")WHEREp.""id""=x.""id""::integerANDp.""key""=x.""key""::integerANDp.""name""=x.""name""::text`_,err:=c.Exec(queryString,params...)returnerr").
Proof. vm_compute. reflexivity. Qed.
Example golden_update_pkey_returning_all_single :
  golden_query golden_db (Analysis.MkEnv (B "github.com/frk/gosql/internal/testdata/generator/update") (B "") (B ".") false) false (B "UpdatePKeyReturningAllSingleQuery") [(MkVar (B "User") true false [(B "rel", [B "test_user"])], (TPtr g_common_User3)); (MkVar (B "_") false false [(B "sql", [B "*"])], g_gosql_Return)]
  = Some (B "constqueryString=`UPDATE""test_user""SET(""email"",""password"",""created_at"",""updated_at"")=($1,$2,$3,$4)WHERE""id""=$5RETURNING""id"",""email"",""created_at"",""updated_at""`row:=c.QueryRow(queryString,q.User.Email,q.User.Password,q.User.CreatedAt,q.User.UpdatedAt,q.User.Id)returnrow.Scan(&q.User.Id,&q.User.Email,&q.User.CreatedAt,&q.User.UpdatedAt)").
Proof. vm_compute. reflexivity. Qed.
Example golden_update_pkey_single :
  golden_query golden_db (Analysis.MkEnv (B "github.com/frk/gosql/internal/testdata/generator/update") (B "") (B ".") false) false (B "UpdatePKeySingleQuery") [(MkVar (B "User") true false [(B "rel", [B "test_user"])], (TPtr g_common_User3))]
  = Some (B "constqueryString=`UPDATE""test_user""SET(""email"",""password"",""created_at"",""updated_at"")=($1,$2,$3,$4)WHERE""id""=$5`_,err:=c.Exec(queryString,q.User.Email,q.User.Password,q.User.CreatedAt,q.User.UpdatedAt,q.User.Id)returnerr").
Proof. vm_compute. reflexivity. Qed.
Example golden_update_pkey_slice :
  golden_query golden_db (Analysis.MkEnv (B "github.com/frk/gosql/internal/testdata/generator/update") (B "") (B ".") false) false (B "UpdatePKeySliceQuery") [(MkVar (B "Users") true false [(B "rel", [B "test_user:u"])], (TSlice (TPtr g_common_User3)))]
  = Some (B "varqueryString=`UPDATE""test_user""ASuSET(""email"",""password"",""created_at"",""updated_at"")=(x.""email"",x.""password"",x.""created_at"",x.""updated_at"")FROM(VALUES`params:=make([]interface{},len(q.Users)*5)fori,v:=rangeq.Users{pos:=i*5params[pos+0]=v.Emailparams[pos+1]=v.Passwordparams[pos+2]=v.CreatedAtparams[pos+3]=v.UpdatedAtparams[pos+4]=v.IdqueryString+=`(`+gosql.OrdinalParameters[pos+0]+`::text,`+gosql.OrdinalParameters[pos+1]+`::bytea,`+gosql.OrdinalParameters[pos+2]+`::timestampwithtimezone,`+gosql.OrdinalParameters[pos+3]+`::timestampwithtimezone,`+gosql.OrdinalParameters[pos+4]+`),`}queryString=queryString[:len(queryString)-1]queryString+=`)ASx(""email"",""password"",""created_at"",""updated_at"",""id"")WHEREu.""id""=x.""id""::integer`_,err:=c.Exec(queryString,params...)returnerr").
Proof. vm_compute. reflexivity. Qed.
Example golden_update_whereblock_basic_single_1 :
  golden_query golden_db (Analysis.MkEnv (B "github.com/frk/gosql/internal/testdata/generator/update") (B "") (B ".") false) false (B "UpdateWhereblockBasicSingle1Query") [(MkVar (B "User") true false [(B "rel", [B "test_user"])], (TPtr g_common_User4)); (MkVar (B "Where") true false [], (TStruct [(MkVar (B "Id") true false [(B "sql", [B "id"])], (TBasic BInt false false))]))]
  = Some (B "constqueryString=`UPDATE""test_user""SET(""email"",""full_name"",""is_active"",""created_at"",""updated_at"")=($1,$2,$3,$4,$5)WHERE""id""=$6`_,err:=c.Exec(queryString,q.User.Email,q.User.FullName,q.User.IsActive,q.User.CreatedAt,q.User.UpdatedAt,q.Where.Id)returnerr").
Proof. vm_compute. reflexivity. Qed.
Example golden_update_whereblock_basic_single_2 :
  golden_query golden_db (Analysis.MkEnv (B "github.com/frk/gosql/internal/testdata/generator/update") (B "") (B ".") false) false (B "UpdateWhereblockBasicSingle2Query") [(MkVar (B "User") true false [(B "rel", [B "test_user:u"])], (TPtr g_common_User4)); (MkVar (B "Where") true false [], (TStruct [(MkVar (B "CreatedAfter") true false [(B "sql", [B "u.created_at >"])], g_time_Time); (MkVar (B "CreatedBefore") true false [(B "sql", [B "u.created_at <"])], g_time_Time); (MkVar (B "FullName") true false [(B "sql", [B ">"])], (TStruct [(MkVar (B "_") false false [(B "sql", [B "u.full_name = 'John Doe'"])], g_gosql_Column); (MkVar (B "_") false false [(B "sql", [B "u.full_name = 'Jane Doe'"]); (B "bool", [B "or"])], g_gosql_Column)]))]))]
  = Some (B "constqueryString=`UPDATE""test_user""ASuSET(""email"",""full_name"",""is_active"",""created_at"",""updated_at"")=($1,$2,$3,$4,$5)WHEREu.""created_at"">$6ANDu.""created_at""<$7AND(u.""full_name""='JohnDoe'ORu.""full_name""='JaneDoe')`_,err:=c.Exec(queryString,q.User.Email,q.User.FullName,q.User.IsActive,q.User.CreatedAt,q.User.UpdatedAt,q.Where.CreatedAfter,q.Where.CreatedBefore)returnerr").
Proof. vm_compute. reflexivity. Qed.
Example golden_update_whereblock_result_slice :
  golden_query golden_db (Analysis.MkEnv (B "github.com/frk/gosql/internal/testdata/generator/update") (B "") (B ".") false) false (B "UpdateWhereblockResultSliceQuery") [(MkVar (B "User") true false [(B "rel", [B "test_user:u"])], (TPtr g_common_User4)); (MkVar (B "Where") true false [], (TStruct [(MkVar (B "CreatedAfter") true false [(B "sql", [B "u.created_at >"])], g_time_Time); (MkVar (B "CreatedBefore") true false [(B "sql", [B "u.created_at <"])], g_time_Time)])); (MkVar (B "Result") true false [], (TSlice (TPtr g_common_User4)))]
  = Some (B "constqueryString=`UPDATE""test_user""ASuSET(""email"",""full_name"",""is_active"",""created_at"",""updated_at"")=($1,$2,$3,$4,$5)WHEREu.""created_at"">$6ANDu.""created_at""<$7RETURNINGu.""id"",u.""email"",u.""full_name"",u.""is_active"",u.""created_at"",u.""updated_at""`rows,err:=c.Query(queryString,q.User.Email,q.User.FullName,q.User.IsActive,q.User.CreatedAt,q.User.UpdatedAt,q.Where.CreatedAfter,q.Where.CreatedBefore)iferr!=nil{returnerr}deferrows.Close()forrows.Next(){v:=new(T)err:=rows.Scan(&v.Id,&v.Email,&v.FullName,&v.IsActive,&v.CreatedAt,&v.UpdatedAt)iferr!=nil{returnerr}q.Result=append(q.Result,v)}returnrows.Err()").
Proof. vm_compute. reflexivity. Qed.
Example golden_update_whereblock_returning_all_single :
  golden_query golden_db (Analysis.MkEnv (B "github.com/frk/gosql/internal/testdata/generator/update") (B "") (B ".") false) false (B "UpdateWhereblockReturningAllSingleQuery") [(MkVar (B "User") true false [(B "rel", [B "test_user:u"])], (TPtr g_common_User4)); (MkVar (B "Where") true false [], (TStruct [(MkVar (B "Id") true false [(B "sql", [B "u.id"])], (TBasic BInt false false))])); (MkVar (B "_") false false [(B "sql", [B "*"])], g_gosql_Return)]
  = Some (B "constqueryString=`UPDATE""test_user""ASuSET(""email"",""full_name"",""is_active"",""created_at"",""updated_at"")=($1,$2,$3,$4,$5)WHEREu.""id""=$6RETURNINGu.""id"",u.""email"",u.""full_name"",u.""is_active"",u.""created_at"",u.""updated_at""`row:=c.QueryRow(queryString,q.User.Email,q.User.FullName,q.User.IsActive,q.User.CreatedAt,q.User.UpdatedAt,q.Where.Id)returnrow.Scan(&q.User.Id,&q.User.Email,&q.User.FullName,&q.User.IsActive,&q.User.CreatedAt,&q.User.UpdatedAt)").
Proof. vm_compute. reflexivity. Qed.
Example golden_filter_alias :
  golden_filter golden_db (Analysis.MkEnv (B "github.com/frk/gosql/internal/testdata/generator/filter") (B "") (B ".") false) (B "FilterBasicAliasRecords") [(MkVar (B "User") true false [(B "rel", [B "test_user:u"])], (TPtr g_common_User2)); (MkVar (B "FilterMaker") true true [], g_common_FilterMaker)]
  = Some (B "var_FilterBasicAliasRecords_colmap=map[string]string{""Id"":`u.""id""`,""Email"":`u.""email""`,""FullName"":`u.""full_name""`,""CreatedAt"":`u.""created_at""`}func(f*FilterBasicAliasRecords)Init(){f.FilterMaker.Init(_FilterBasicAliasRecords_colmap,"""")}func(f*FilterBasicAliasRecords)Id(opstring,valint)*FilterBasicAliasRecords{f.FilterMaker.Col(`u.""id""`,op,val)returnf}func(f*FilterBasicAliasRecords)Email(opstring,valstring)*FilterBasicAliasRecords{f.FilterMaker.Col(`u.""email""`,op,val)returnf}func(f*FilterBasicAliasRecords)FullName(opstring,valstring)*FilterBasicAliasRecords{f.FilterMaker.Col(`u.""full_name""`,op,val)returnf}func(f*FilterBasicAliasRecords)CreatedAt(opstring,valtime.Time)*FilterBasicAliasRecords{f.FilterMaker.Col(`u.""created_at""`,op,val)returnf}func(f*FilterBasicAliasRecords)And(nestfunc(*FilterBasicAliasRecords))*FilterBasicAliasRecords{ifnest==nil{f.FilterMaker.And(nil)returnf}f.FilterMaker.And(func(){nest(f)})returnf}func(f*FilterBasicAliasRecords)Or(nestfunc(*FilterBasicAliasRecords))*FilterBasicAliasRecords{ifnest==nil{f.FilterMaker.Or(nil)returnf}f.FilterMaker.Or(func(){nest(f)})returnf}").
Proof. vm_compute. reflexivity. Qed.
Example golden_filter_basic2 :
  golden_filter golden_db (Analysis.MkEnv (B "github.com/frk/gosql/internal/testdata/generator/filter") (B "json") (B ".") false) (B "FilterBasic2Records") [(MkVar (B "User") true false [(B "rel", [B "test_user"])], (TPtr g_common_User6)); (MkVar (B "Filter") true false [], g_common_FilterMaker)]
  = Some (B "var_FilterBasic2Records_colmap=map[string]string{""id"":`""id""`,""email"":`""email""`,""fullName"":`""full_name""`,""isActive"":`""is_active""`,""createdAt"":`""created_at""`,""updatedAt"":`""updated_at""`}func(f*FilterBasic2Records)Init(){f.Filter.Init(_FilterBasic2Records_colmap,"""")}func(f*FilterBasic2Records)Id(opstring,valint)*FilterBasic2Records{f.Filter.Col(`""id""`,op,val)returnf}func(f*FilterBasic2Records)Email(opstring,valstring)*FilterBasic2Records{f.Filter.Col(`""email""`,op,val)returnf}func(f*FilterBasic2Records)FullName(opstring,valstring)*FilterBasic2Records{f.Filter.Col(`""full_name""`,op,val)returnf}func(f*FilterBasic2Records)IsActive(opstring,valbool)*FilterBasic2Records{f.Filter.Col(`""is_active""`,op,val)returnf}func(f*FilterBasic2Records)Metadata1(opstring,valcommon.ArbitraryStruct)*FilterBasic2Records{f.Filter.Col(`""metadata1""`,op,val)returnf}func(f*FilterBasic2Records)Metadata2(opstring,valcommon.ArbitraryStruct)*FilterBasic2Records{f.Filter.Col(`""metadata2""`,op,val)returnf}func(f*FilterBasic2Records)CreatedAt(opstring,valtime.Time)*FilterBasic2Records{f.Filter.Col(`""created_at""`,op,val)returnf}func(f*FilterBasic2Records)UpdatedAt(opstring,valtime.Time)*FilterBasic2Records{f.Filter.Col(`""updated_at""`,op,val)returnf}func(f*FilterBasic2Records)And(nestfunc(*FilterBasic2Records))*FilterBasic2Records{ifnest==nil{f.Filter.And(nil)returnf}f.Filter.And(func(){nest(f)})returnf}func(f*FilterBasic2Records)Or(nestfunc(*FilterBasic2Records))*FilterBasic2Records{ifnest==nil{f.Filter.Or(nil)returnf}f.Filter.Or(func(){nest(f)})returnf}").
Proof. vm_compute. reflexivity. Qed.
Example golden_filter_basic :
  golden_filter golden_db (Analysis.MkEnv (B "github.com/frk/gosql/internal/testdata/generator/filter") (B "") (B ".") false) (B "FilterBasicRecords") [(MkVar (B "User") true false [(B "rel", [B "test_user"])], (TPtr g_common_User2)); (MkVar (B "Filter") true false [], g_common_FilterMaker)]
  = Some (B "var_FilterBasicRecords_colmap=map[string]string{""Id"":`""id""`,""Email"":`""email""`,""FullName"":`""full_name""`,""CreatedAt"":`""created_at""`}func(f*FilterBasicRecords)Init(){f.Filter.Init(_FilterBasicRecords_colmap,"""")}func(f*FilterBasicRecords)Id(opstring,valint)*FilterBasicRecords{f.Filter.Col(`""id""`,op,val)returnf}func(f*FilterBasicRecords)Email(opstring,valstring)*FilterBasicRecords{f.Filter.Col(`""email""`,op,val)returnf}func(f*FilterBasicRecords)FullName(opstring,valstring)*FilterBasicRecords{f.Filter.Col(`""full_name""`,op,val)returnf}func(f*FilterBasicRecords)CreatedAt(opstring,valtime.Time)*FilterBasicRecords{f.Filter.Col(`""created_at""`,op,val)returnf}func(f*FilterBasicRecords)And(nestfunc(*FilterBasicRecords))*FilterBasicRecords{ifnest==nil{f.Filter.And(nil)returnf}f.Filter.And(func(){nest(f)})returnf}func(f*FilterBasicRecords)Or(nestfunc(*FilterBasicRecords))*FilterBasicRecords{ifnest==nil{f.Filter.Or(nil)returnf}f.Filter.Or(func(){nest(f)})returnf}").
Proof. vm_compute. reflexivity. Qed.
Example golden_filter_embedded :
  golden_filter golden_db (Analysis.MkEnv (B "github.com/frk/gosql/internal/testdata/generator/filter") (B "json") (B ".") false) (B "FilterEmbeddedRecords") [(MkVar (B "_") false false [(B "rel", [B "test_nested:n"])], (TPtr g_common_Embedded)); (MkVar (B "FilterMaker") true true [], g_common_FilterMaker)]
  = Some (B "var_FilterEmbeddedRecords_colmap=map[string]string{""fooField.barField.value"":`n.""foo_bar_baz_val""`,""fooField.bazField.value"":`n.""foo_baz_val""`,""barField.value"":`n.""foo2_bar_baz_val""`,""bazField.value"":`n.""foo2_baz_val""`}func(f*FilterEmbeddedRecords)Init(){f.FilterMaker.Init(_FilterEmbeddedRecords_colmap,"""")}func(f*FilterEmbeddedRecords)FOOBarEBazVal(opstring,valstring)*FilterEmbeddedRecords{f.FilterMaker.Col(`n.""foo_bar_baz_val""`,op,val)returnf}func(f*FilterEmbeddedRecords)FOOBazVal(opstring,valstring)*FilterEmbeddedRecords{f.FilterMaker.Col(`n.""foo_baz_val""`,op,val)returnf}func(f*FilterEmbeddedRecords)EFooBarEBazVal(opstring,valstring)*FilterEmbeddedRecords{f.FilterMaker.Col(`n.""foo2_bar_baz_val""`,op,val)returnf}func(f*FilterEmbeddedRecords)EFooBazVal(opstring,valstring)*FilterEmbeddedRecords{f.FilterMaker.Col(`n.""foo2_baz_val""`,op,val)returnf}func(f*FilterEmbeddedRecords)And(nestfunc(*FilterEmbeddedRecords))*FilterEmbeddedRecords{ifnest==nil{f.FilterMaker.And(nil)returnf}f.FilterMaker.And(func(){nest(f)})returnf}func(f*FilterEmbeddedRecords)Or(nestfunc(*FilterEmbeddedRecords))*FilterEmbeddedRecords{ifnest==nil{f.FilterMaker.Or(nil)returnf}f.FilterMaker.Or(func(){nest(f)})returnf}").
Proof. vm_compute. reflexivity. Qed.
Example golden_filter_exclude :
  golden_filter golden_db (Analysis.MkEnv (B "github.com/frk/gosql/internal/testdata/generator/filter") (B "") (B ".") false) (B "FilterWithExcludeRecords") [(MkVar (B "User") true false [(B "rel", [B "test_user"])], (TPtr g_common_User3)); (MkVar (B "Filter") true false [], g_common_FilterMaker)]
  = Some (B "var_FilterWithExcludeRecords_colmap=map[string]string{""Id"":`""id""`,""Email"":`""email""`,""CreatedAt"":`""created_at""`,""UpdatedAt"":`""updated_at""`}func(f*FilterWithExcludeRecords)Init(){f.Filter.Init(_FilterWithExcludeRecords_colmap,"""")}func(f*FilterWithExcludeRecords)Id(opstring,valint)*FilterWithExcludeRecords{f.Filter.Col(`""id""`,op,val)returnf}func(f*FilterWithExcludeRecords)Email(opstring,valstring)*FilterWithExcludeRecords{f.Filter.Col(`""email""`,op,val)returnf}func(f*FilterWithExcludeRecords)CreatedAt(opstring,valtime.Time)*FilterWithExcludeRecords{f.Filter.Col(`""created_at""`,op,val)returnf}func(f*FilterWithExcludeRecords)UpdatedAt(opstring,valtime.Time)*FilterWithExcludeRecords{f.Filter.Col(`""updated_at""`,op,val)returnf}func(f*FilterWithExcludeRecords)And(nestfunc(*FilterWithExcludeRecords))*FilterWithExcludeRecords{ifnest==nil{f.Filter.And(nil)returnf}f.Filter.And(func(){nest(f)})returnf}func(f*FilterWithExcludeRecords)Or(nestfunc(*FilterWithExcludeRecords))*FilterWithExcludeRecords{ifnest==nil{f.Filter.Or(nil)returnf}f.Filter.Or(func(){nest(f)})returnf}").
Proof. vm_compute. reflexivity. Qed.
Example golden_filter_nested :
  golden_filter golden_db (Analysis.MkEnv (B "github.com/frk/gosql/internal/testdata/generator/filter") (B "") (B ".") false) (B "FilterNestedRecords") [(MkVar (B "_") false false [(B "rel", [B "test_nested:n"])], (TPtr g_common_Nested)); (MkVar (B "FilterMaker") true true [], g_common_FilterMaker)]
  = Some (B "var_FilterNestedRecords_colmap=map[string]string{""FOO.Bar.Baz.Val"":`n.""foo_bar_baz_val""`,""FOO.Baz.Val"":`n.""foo_baz_val""`,""Foo.Bar.Baz.Val"":`n.""foo2_bar_baz_val""`,""Foo.Baz.Val"":`n.""foo2_baz_val""`}func(f*FilterNestedRecords)Init(){f.FilterMaker.Init(_FilterNestedRecords_colmap,"""")}func(f*FilterNestedRecords)FOOBarBazVal(opstring,valstring)*FilterNestedRecords{f.FilterMaker.Col(`n.""foo_bar_baz_val""`,op,val)returnf}func(f*FilterNestedRecords)FOOBazVal(opstring,valstring)*FilterNestedRecords{f.FilterMaker.Col(`n.""foo_baz_val""`,op,val)returnf}func(f*FilterNestedRecords)FooBarBazVal(opstring,valstring)*FilterNestedRecords{f.FilterMaker.Col(`n.""foo2_bar_baz_val""`,op,val)returnf}func(f*FilterNestedRecords)FooBazVal(opstring,valstring)*FilterNestedRecords{f.FilterMaker.Col(`n.""foo2_baz_val""`,op,val)returnf}func(f*FilterNestedRecords)And(nestfunc(*FilterNestedRecords))*FilterNestedRecords{ifnest==nil{f.FilterMaker.And(nil)returnf}f.FilterMaker.And(func(){nest(f)})returnf}func(f*FilterNestedRecords)Or(nestfunc(*FilterNestedRecords))*FilterNestedRecords{ifnest==nil{f.FilterMaker.Or(nil)returnf}f.FilterMaker.Or(func(){nest(f)})returnf}").
Proof. vm_compute. reflexivity. Qed.
Example golden_filter_notnull :
  golden_filter golden_db (Analysis.MkEnv (B "github.com/frk/gosql/internal/testdata/generator/filter") (B "") (B ".") false) (B "FilterNotNULLRecords") [(MkVar (B "CT1") true false [(B "rel", [B "view_test:v"])], (TPtr g_testdata_CT1)); (MkVar (B "FilterMaker") true true [(B "filter", [B "v2"])], g_common_FilterMaker)]
  = Some (B "var_FilterNotNULLRecords_colmap=map[string]filter.Column{""A"":{Name:`v.""col_a""`,IsNULLable:true},""B"":{Name:`v.""col_b""`},""C"":{Name:`v.""col_c""`,IsNULLable:true},""D"":{Name:`v.""col_d""`},""E"":{Name:`v.""col_e""`,IsNULLable:true}}func(f*FilterNotNULLRecords)Init(){f.FilterMaker.InitV2(_FilterNotNULLRecords_colmap,"""")}func(f*FilterNotNULLRecords)A(opstring,valint)*FilterNotNULLRecords{f.FilterMaker.Col(`v.""col_a""`,op,val)returnf}func(f*FilterNotNULLRecords)B(opstring,valstring)*FilterNotNULLRecords{f.FilterMaker.Col(`v.""col_b""`,op,val)returnf}func(f*FilterNotNULLRecords)C(opstring,valbool)*FilterNotNULLRecords{f.FilterMaker.Col(`v.""col_c""`,op,val)returnf}func(f*FilterNotNULLRecords)D(opstring,valfloat64)*FilterNotNULLRecords{f.FilterMaker.Col(`v.""col_d""`,op,val)returnf}func(f*FilterNotNULLRecords)E(opstring,valtime.Time)*FilterNotNULLRecords{f.FilterMaker.Col(`v.""col_e""`,op,val)returnf}func(f*FilterNotNULLRecords)And(nestfunc(*FilterNotNULLRecords))*FilterNotNULLRecords{ifnest==nil{f.FilterMaker.And(nil)returnf}f.FilterMaker.And(func(){nest(f)})returnf}func(f*FilterNotNULLRecords)Or(nestfunc(*FilterNotNULLRecords))*FilterNotNULLRecords{ifnest==nil{f.FilterMaker.Or(nil)returnf}f.FilterMaker.Or(func(){nest(f)})returnf}").
Proof. vm_compute. reflexivity. Qed.
Example golden_filter_textsearch :
  golden_filter golden_db (Analysis.MkEnv (B "github.com/frk/gosql/internal/testdata/generator/filter") (B "") (B ".") false) (B "FilterTextSearchRecords") [(MkVar (B "User") true false [(B "rel", [B "test_user:u"])], (TPtr g_common_User2)); (MkVar (B "_") false false [(B "sql", [B "u._search_document"])], g_gosql_TextSearch); (MkVar (B "FilterMaker") true true [], g_common_FilterMaker)]
  = Some (B "var_FilterTextSearchRecords_colmap=map[string]string{""Id"":`u.""id""`,""Email"":`u.""email""`,""FullName"":`u.""full_name""`,""CreatedAt"":`u.""created_at""`}func(f*FilterTextSearchRecords)Init(){f.FilterMaker.Init(_FilterTextSearchRecords_colmap,`u.""_search_document""`)}func(f*FilterTextSearchRecords)Id(opstring,valint)*FilterTextSearchRecords{f.FilterMaker.Col(`u.""id""`,op,val)returnf}func(f*FilterTextSearchRecords)Email(opstring,valstring)*FilterTextSearchRecords{f.FilterMaker.Col(`u.""email""`,op,val)returnf}func(f*FilterTextSearchRecords)FullName(opstring,valstring)*FilterTextSearchRecords{f.FilterMaker.Col(`u.""full_name""`,op,val)returnf}func(f*FilterTextSearchRecords)CreatedAt(opstring,valtime.Time)*FilterTextSearchRecords{f.FilterMaker.Col(`u.""created_at""`,op,val)returnf}func(f*FilterTextSearchRecords)And(nestfunc(*FilterTextSearchRecords))*FilterTextSearchRecords{ifnest==nil{f.FilterMaker.And(nil)returnf}f.FilterMaker.And(func(){nest(f)})returnf}func(f*FilterTextSearchRecords)Or(nestfunc(*FilterTextSearchRecords))*FilterTextSearchRecords{ifnest==nil{f.FilterMaker.Or(nil)returnf}f.FilterMaker.Or(func(){nest(f)})returnf}").
Proof. vm_compute. reflexivity. Qed.
Example golden_pgsql_insert_array :
  golden_query golden_db (Analysis.MkEnv (B "github.com/frk/gosql/internal/testdata/generator/pgsql") (B "") (B ".") false) false (B "insertarrayquery") [(MkVar (B "data") false false [(B "rel", [B "pgsql_test"])], (TPtr g_pgsql_type2))]
  = Some (B "constqueryString=`INSERTINTO""pgsql_test""(""col_bitarr"",""col_boolarr"",""col_boxarr"",""col_bpchararr"",""col_byteaarr"",""col_chararr"",""col_cidrarr"",""col_datearr"",""col_daterangearr"",""col_float4arr"",""col_float8arr"",""col_inetarr"",""col_int2arr"",""col_int2vector"",""col_int2vectorarr"",""col_int4arr"",""col_int4rangearr"",""col_int8arr"",""col_int8rangearr"",""col_jsonarr"",""col_jsonbarr"",""col_linearr"",""col_lsegarr"",""col_macaddrarr"",""col_macaddr8arr"",""col_moneyarr"",""col_numericarr"",""col_numrangearr"",""col_patharr"",""col_pointarr"",""col_polygonarr"",""col_textarr"",""col_timearr"",""col_timestamparr"",""col_timestamptzarr"",""col_timetzarr"",""col_tsqueryarr"",""col_tsrangearr"",""col_tstzrangearr"",""col_tsvectorarr"",""col_uuidarr"",""col_varbitarr"",""col_varchararr"",""col_xmlarr"")VALUES($1,$2,$3,$4,$5,$6,$7,$8,$9,$10,$11,$12,$13,$14,$15,$16,$17,$18,$19,$20,$21,$22,$23,$24,$25,$26,$27,$28,$29,$30,$31,$32,$33,$34,$35,$36,$37,$38,$39,$40,$41,$42,$43,$44)`_,err:=c.Exec(queryString,pgsql.BitArrayFromUint8Slice(q.data.bitarr),pgsql.BoolArrayFromBoolSlice(q.data.boolarr),pgsql.BoxArrayFromFloat64Array2Array2Slice(q.data.boxarr),pgsql.BPCharArrayFromRuneSlice(q.data.bpchararr),pgsql.ByteaArrayFromByteSliceSlice(q.data.byteaarr),pgsql.BPCharArrayFromByteSlice(q.data.chararr),pgsql.CIDRArrayFromIPNetSlice(q.data.cidrarr),pgsql.DateArrayFromTimeSlice(q.data.datearr),pgsql.DateRangeArrayFromTimeArray2Slice(q.data.daterangearr),pgsql.Float4ArrayFromFloat32Slice(q.data.float4arr),pgsql.Float8ArrayFromFloat64Slice(q.data.float8arr),pgsql.InetArrayFromIPSlice(q.data.inetarr),pgsql.Int2ArrayFromInt16Slice(q.data.int2arr),pgsql.Int2VectorFromInt16Slice(q.data.int2vector),pgsql.Int2VectorArrayFromInt16SliceSlice(q.data.int2vectorarr),pgsql.Int4ArrayFromInt32Slice(q.data.int4arr),pgsql.Int4RangeArrayFromInt32Array2Slice(q.data.int4rangearr),pgsql.Int8ArrayFromInt64Slice(q.data.int8arr),pgsql.Int8RangeArrayFromInt64Array2Slice(q.data.int8rangearr),pgsql.JSONArrayFromByteSliceSlice(q.data.jsonarr),pgsql.JSONArrayFromByteSliceSlice(q.data.jsonbarr),pgsql.LineArrayFromFloat64Array3Slice(q.data.linearr),pgsql.LsegArrayFromFloat64Array2Array2Slice(q.data.lsegarr),pgsql.MACAddrArrayFromHardwareAddrSlice(q.data.macaddrarr),pgsql.MACAddr8ArrayFromHardwareAddrSlice(q.data.macaddr8arr),pgsql.MoneyArrayFromInt64Slice(q.data.moneyarr),pgsql.NumericArrayFromInt64Slice(q.data.numericarr),pgsql.NumRangeArrayFromFloat64Array2Slice(q.data.numrangearr),pgsql.PathArrayFromFloat64Array2SliceSlice(q.data.patharr),pgsql.PointArrayFromFloat64Array2Slice(q.data.pointarr),pgsql.PolygonArrayFromFloat64Array2SliceSlice(q.data.polygonarr),pgsql.TextArrayFromStringSlice(q.data.textarr),pgsql.TimeArrayFromTimeSlice(q.data.timearr),pgsql.TimestampArrayFromTimeSlice(q.data.timestamparr),pgsql.TimestamptzArrayFromTimeSlice(q.data.timestamptzarr),pgsql.TimetzArrayFromTimeSlice(q.data.timetzarr),pgsql.TSQueryArrayFromStringSlice(q.data.tsqueryarr),pgsql.TsRangeArrayFromTimeArray2Slice(q.data.tsrangearr),pgsql.TstzRangeArrayFromTimeArray2Slice(q.data.tstzrangearr),pgsql.TSVectorArrayFromStringSliceSlice(q.data.tsvectorarr),pgsql.UUIDArrayFromByteArray16Slice(q.data.uuidarr),pgsql.VarBitArrayFromBoolSliceSlice(q.data.varbitarr),pgsql.VarCharArrayFromStringSlice(q.data.varchararr),pgsql.XMLArrayFromByteSliceSlice(q.data.xmlarr))returnerr").
Proof. vm_compute. reflexivity. Qed.
Example golden_pgsql_insert_basic :
  golden_query golden_db (Analysis.MkEnv (B "github.com/frk/gosql/internal/testdata/generator/pgsql") (B "") (B ".") false) false (B "insertbasicquery") [(MkVar (B "data") false false [(B "rel", [B "pgsql_test"])], (TPtr g_pgsql_type1))]
  = Some (B "constqueryString=`INSERTINTO""pgsql_test""(""col_bit"",""col_bpchar"",""col_char"",""col_cidr"",""col_inet"",""col_macaddr"",""col_macaddr8"",""col_money"",""col_tsvector"",""col_uuid"",""col_varbit"")VALUES($1,$2,$3,$4,$5,$6,$7,$8,$9,$10,$11)`_,err:=c.Exec(queryString,pgsql.BitFromBool(q.data.bit),pgsql.BPCharFromByte(q.data.bpchar),pgsql.BPCharFromRune(q.data.char),pgsql.CIDRFromIPNet(q.data.cidr),pgsql.InetFromIP(q.data.inet),pgsql.MACAddrFromHardwareAddr(q.data.macaddr),pgsql.MACAddr8FromHardwareAddr(q.data.macaddr8),pgsql.MoneyFromInt64(q.data.money),pgsql.TSVectorFromStringSlice(q.data.tsvector),pgsql.UUIDFromByteArray16(q.data.uuid),pgsql.VarBitFromBoolSlice(q.data.varbit))returnerr").
Proof. vm_compute. reflexivity. Qed.
