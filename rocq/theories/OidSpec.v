(** What PostgreSQL calls its types and operators, and the constants of SQL;
    written down from PostgreSQL's catalogs and grammar, not from the tool. *)
From Coq Require Import Ascii String ZArith NArith Bool List.
From Verif Require Import GoBase PgSpec TagSpec.
Import ListNotations.
Local Open Scope string_scope.
Local Open Scope list_scope.
Local Open Scope N_scope.

(** pg_type: name, object identifier, object identifier of the array type. *)
Definition pg_types : list (string * N * N) :=
  [("bool", 16, 1000); ("bytea", 17, 1001); ("char", 18, 1002); ("name", 19, 1003); ("int8", 20, 1016); ("int2", 21, 1005);
   ("int2vector", 22, 1006); ("int4", 23, 1007); ("text", 25, 1009); ("oid", 26, 1028); ("oidvector", 30, 1013);
   ("json", 114, 199); ("xml", 142, 143); ("point", 600, 1017); ("lseg", 601, 1018); ("path", 602, 1019); ("box", 603, 1020);
   ("polygon", 604, 1027); ("line", 628, 629); ("cidr", 650, 651); ("float4", 700, 1021); ("float8", 701, 1022);
   ("circle", 718, 719); ("macaddr8", 774, 775); ("money", 790, 791); ("macaddr", 829, 1040); ("inet", 869, 1041);
   ("bpchar", 1042, 1014); ("varchar", 1043, 1015); ("date", 1082, 1182); ("time", 1083, 1183); ("timestamp", 1114, 1115);
   ("timestamptz", 1184, 1185); ("interval", 1186, 1187); ("timetz", 1266, 1270); ("bit", 1560, 1561); ("varbit", 1562, 1563);
   ("numeric", 1700, 1231); ("uuid", 2950, 2951); ("tsvector", 3614, 3643); ("tsquery", 3615, 3645); ("jsonb", 3802, 3807);
   ("int4range", 3904, 3905); ("numrange", 3906, 3907); ("tsrange", 3908, 3909); ("tstzrange", 3910, 3911);
   ("daterange", 3912, 3913); ("int8range", 3926, 3927)].

(** The functions of pgsql are named after the type: its name, Array for arrays
    of it, and From or To with the Go type, or nothing if they take any; jsonb
    has those of json. *)
Definition family (name : string) : string := if String.eqb name "jsonb" then "json" else name.
Definition named_for (o : N) (f : text) : Prop := exists name t a suffix rest,
  In (name, t, a) pg_types /\ ((o = t /\ suffix = "") \/ (o = a /\ suffix = "array"))
  /\ map lower_char f = lit (family name) ++ lit suffix ++ rest
  /\ (rest = [] \/ (exists g, rest = lit "from" ++ g) \/ exists g, rest = lit "to" ++ g).

(** The grammar: what is written between two operands, and the operator whose
    function is called. *)
Definition pg_operators : list (string * string) :=
  [("=", "="); ("<>", "<>"); ("!=", "<>"); ("<", "<"); (">", ">"); ("<=", "<="); (">=", ">=");
   ("~", "~"); ("~*", "~*"); ("!~", "!~"); ("!~*", "!~*"); ("LIKE", "~~"); ("NOT LIKE", "!~~"); ("ILIKE", "~~*"); ("NOT ILIKE", "!~~*");
   ("SIMILAR TO", "~"); ("NOT SIMILAR TO", "!~"); ("IS DISTINCT FROM", "="); ("IS NOT DISTINCT FROM", "=");
   ("IN", "="); ("NOT IN", "<>")].

(** Constants: a text between quotes, a number or a keyword. *)
Inductive sql_constant : text -> text -> Prop :=
| sc_quoted : forall s, ~ In "'"%char s -> sql_constant ("'"%char :: s ++ ["'"%char]) s
| sc_bare : forall s, In s [lit "true"; lit "false"; lit "0"] -> sql_constant s s.

(** The texts of the zero values of Go types, as the server is given them. *)
Definition integers : list string := ["int"; "int8"; "int16"; "int32"; "int64"; "uint"; "uint8"; "uint16"; "uint32"; "uint64"].
Definition zeros : list (string * string) :=
  [("bool", "false"); ("string", ""); ("[]byte", ""); ("float32", "0"); ("float64", "0"); ("time.Time", "0001-01-01 00:00:00")]
  ++ map (fun g => (g, "0")) integers.
(** The Go types whose values are the values of a type of PostgreSQL; of the
    others, the texts of the type are read and written. *)
Definition native : list (string * list string) :=
  [("bool", ["bool"]); ("int2", ["float32"; "float64"] ++ integers); ("int4", ["float32"; "float64"] ++ integers);
   ("int8", ["float32"; "float64"] ++ integers); ("numeric", ["float32"; "float64"] ++ integers);
   ("float4", ["float32"; "float64"]); ("float8", ["float32"; "float64"]); ("bit", ["uint"; "uint8"]);
   ("timestamp", ["time.Time"]); ("timestamptz", ["time.Time"]);
   ("text", ["string"; "[]byte"]); ("varchar", ["string"; "[]byte"]); ("bpchar", ["string"; "[]byte"]); ("char", ["string"; "[]byte"]);
   ("varbit", ["string"; "[]byte"]); ("tsvector", ["string"; "[]byte"]); ("tsquery", ["string"; "[]byte"]); ("int2vector", ["string"; "[]byte"]);
   ("xml", ["string"; "[]byte"])].
