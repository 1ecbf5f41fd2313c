# Formal model of frk/gosql

The model is written in Coq 8.16.1 (`rocq/theories`, logical name `Verif`) and built with
`coq_makefile -f _CoqProject -o Makefile && make -j4` in `rocq`.
`/repo` is read as text only. Each definition of the model cites the Go file and lines it models.

## Layers

| kind of file | content |
|---|---|
| model | Gallina transcription of Go functions, no proofs (`GoBase`, `Strconv`, `Utf8`, `ConvertUtil`, `Codecs`, `IntCodecs`, `Hstore`, `CharCodecs`, `BitCodecs`, `GeoCodecs`, `MoneyCodecs`, `Times`, `TimeCodecs`, `Net`, `Floats`, `IntFloats`, `Filter`, `AParse`, `Analysis`, `Oids`, `Compat`, `Check`, `Gen`, `GenOut`, `FilterCode`, `Imports`, `Config`, `Command`, …) |
| specification | what the code is compared with, written without the model's helpers: `PgSpec`, `TimeSpec`, `NetSpec`, `FloatSpec` (the server's types and texts, from PostgreSQL's documentation), `SqlSpec`, `TagSpec`, `AnalysisSpec`, `QuerySpec`, `FieldSpec` (what structs and tags mean), `CheckSpec` (the database as catalog rows), `GenSpec`, `GenRowsSpec`, `GenFilterSpec`, `GenOutSpec`, `FilterCodeSpec` (the statement a query struct describes and what is done with its rows), `ConfigSpec`, `CommandSpec`, `ScopeSpec` (Go's scoping rules) |
| interpreter | `GenRun`, second halves of `GenOut` and `FilterCode`: what the generated Go statements do when they run; `GoNames`: which names they mention |
| lemmas | `*Proofs*.v`, `Analysis/Query*` lemma files, `GenExec*`, `GenRows*`, `GenOutTree`, `GenOutRun`, `Accepted`, `*Final.v` |
| comparison with the repository's tests | `GoldenPrint` (a printer of the modelled statements, used by no theorem), `Golden`, `GoldenErr`, `GoldenOk`, `GoldenFilter`, `GoldenPreds`: Examples only |
| properties | `Props*.v`: each theorem closed by `exact`, `Print Assumptions` beneath it, examples of the hypotheses beside it |

## Conventions

- Go strings and `[]byte` are `list ascii` (one `ascii` is one byte). A nil slice is `None` where the code can tell.
- `res A` is `Ok a | Err | Panic`: a Go error is `Err`, an index, slice or nil panic is `Panic`. The analysis and the checker have their own result types with error codes (`ares`, `cres`).
- A loop over the bytes of a slice is a structural recursion on the rest of the slice; a read past the end is `Panic`.
- A scanner is a function from the source (`None` is SQL NULL) and the old destination to the new destination. A valuer is a function to an optional text.
- Machine integers are `Z` or `N` with explicit ranges and reductions.
- Names: a theorem `Cnn_…` belongs to property `Cnn`. `…_refuted` states that the expected property is false of the code, with a witness; it is listed under the property beside the exact condition under which the property holds. `…_partial` would mark a weakened claim; there is none at present.

## Trusted base

1. Coq's kernel (8.16.1), including `vm_compute`, which the examples and witnesses use. `native_compute` is not used.
2. Axioms: none. `Print Assumptions` prints `Closed under the global context` for every theorem of every `Props*.v` (the theorems are listed at the end of this file). No `Axiom`, `Parameter`, section-less `Variable` or `Hypothesis`, `Admitted`, functor, module type, or changed kernel flag occurs in `rocq/theories`.
3. The model is a faithful transcription of `/repo`. It was made by hand, except for the tables in `Compat.v` and `Oids.v`, which a script copied from the sources. The Go code was not run. The model was run by `vm_compute` on the repository's own test data, with these results, kept as Examples that the build re-checks:
   - `Golden`: all 143 pairs `internal/testdata/generator/*/*_in.go` and `*_out.go`. The printed output of the model is the expected file, up to white space, comments, the joining of adjacent literals, trailing commas, and the type names in `new(T)` and `var v T`. The test database of `internal/postgres/testing.go` is transcribed as `golden_db`.
   - `GoldenErr`: for 252 structs named in `analysis_test.go` and `postgres_test.go`, the error code, or none; and the type literals of `TestTypeinfo_string`.
   - `GoldenOk`: for the 57 structs of `analysis_test.go` that are to be accepted, the whole expected `QueryStruct` or `FilterStruct`, field by field (without `Info`).
   - `GoldenFilter`: the 40 cases of `filter/filter_test.go`.
   - `GoldenPreds`: 68 cases of `typesutil/predicates_test.go`.
   No disagreement was found. The Examples were written from the sources by scripts that transcribe Go types, tags and literals; an error there would show as a failing Example or hide one, so these files raise confidence in the model but no theorem rests on them.
4. Go's standard library behaves as modelled: `strconv` (integers, floats, `Quote`-free subset), `encoding/hex`, `unicode/utf8`, `strings` (the functions used), `time` (Format and Parse with the five layouts in use), `net` (ParseIP, ParseCIDR, ParseMAC and String methods), `flag.FlagSet.Parse`, `go/types` as a tree of types. Written from documentation and source of Go 1.23.
5. The specifications of the server (`PgSpec`, `TimeSpec`, `NetSpec`, `FloatSpec`) describe PostgreSQL. They cover text input and output of the listed types with `datestyle ISO` and the default `extra_float_digits`.
6. The interpreters of generated code (`GenRun`, `GenOut`, `FilterCode`) give those Go statements their meaning, and `ScopeSpec` states Go's scoping rules.
7. The printer `github.com/frk/ast` (not part of the repository) prints SQL and Go syntax trees as the trees say (item 3 compares the result with the expected files). Theorems on generated SQL are about the text the interpreter makes of that tree.

## What is modelled

| code | model | properties |
|---|---|---|
| `gosql.go`: OrdinalParameters, InValueList | `Filter`, `GenRun` | C21 |
| `filter/filter.go`, `filter/convenience.go`: Constructor, ToSQL, count filter, UnmarshalSort, UnmarshalFQL on parsed tokens, text search | `Filter` | C22–C28, C48 |
| `pgsql/convert_util.go`: all parsers and writers | `ConvertUtil` | C01–C20 |
| `pgsql`: bit, bool, bytea, char, varbit, text, uuid, tsquery, tsvector, hstore and their arrays | `Codecs`, `CharCodecs`, `BitCodecs`, `Hstore` | C01, C02, C08–C14, C18, C20, C47 |
| `pgsql`: int2, int4, int8, numeric arrays, int2vector(arr), int and num ranges and their arrays, all integer and float element types | `IntCodecs`, `Floats`, `IntFloats`, `VecFloats` | C03–C07, C18, C88–C90 |
| `pgsql`: point, line, lseg, path, polygon, box and their arrays | `GeoCodecs` (float text as a parameter), instantiated in `FloatArrsFinal` | C15–C17, C88 |
| `pgsql`: money, moneyarr | `MoneyCodecs` | C19 |
| `pgsql`: date, time, timetz, timestamp, timestamptz, their ranges and arrays | `Times`, `TimeCodecs` | C77–C83 |
| `pgsql`: json, xml, any, bit from bool (encoding/json and encoding/xml as parameters) | `Docs` | C102 |
| `pgsql`: inet, cidr, macaddr(8) and their arrays | `Net` | C84–C87 |
| `internal/analysis`: Run, query and filter structs, all directives, fields, tags, field modes | `AParse`, `Analysis` | C29–C35, C49–C54, C75, C91, C92, C98 |
| `internal/postgres`: Check for queries and filters, compatibility table, operators, casts, index matching | `Compat`, `Check`, `Oids` | C36–C38, C62–C72, C96, C99, C100 |
| `internal/generator`: SQL text, arguments, call, results, error handling, imports, nested pointers | `Gen`, `GenOut`, `Imports`, `GoNames` | C39–C44, C55–C61, C63, C93–C95 |
| `internal/generator`: code for filter types | `FilterCode` | C97 |
| `internal/typesutil`: predicates (except IsTime, which is unused) | `TypePreds` | C101 |
| `internal/analysis`: the cache of record types, and the loop over the structs in `internal/command` that shares it | `RelCache` | C104 |
| `internal/postgres`: the cache of relations | `RelLoad` | C105 |
| `internal/analysis`: `analyzeTypeInfo`, `analyzeFieldInfoList` on recursive types | `RecTypes` | C106 |
| `internal/config` | `Config` | C45, C46, C73 |
| `internal/config`, `internal/analysis`: filter_value_converters | `Converters` | C107 |
| `internal/postgres/errors.go`, `checker.dbError` | `ErrText` | C108 |
| `internal/search`, `internal/command`, `cmd/gosql` | `Command` | C74–C76 |

## What is not modelled, and simplifications

- `pgsql`: `bpchar*.go`, which consists of constructors that return the types of `char*.go`.
- `filter`: the FQL tokenizer (`github.com/frk/fql`); its result, a list of nodes, is the input.
- Analysis: positions, `FieldMap`, error texts (only codes); `relTypeCache` is left out of `Analysis` (each record type is analysed anew) and is in `RelCache`, with which C104 compares it. Types are finite trees, so a type that mentions itself cannot be expressed in `Analysis`; `RecTypes` has the analysis of record types on declarations that may be recursive (with fuel, `None` being that it is used up), and C106 says that it is that of `Analysis` on trees.
- Checker: the connection, logging, locking; `Check` has error codes only, and `ErrText` has contents and texts, by a list of the places where errors are made (with the conditions of `Check` left out, apart from that of a missing column); of text/template it has the actions that occur, and the results of github.com/frk/tagutil are inputs there; what the catalog queries return is the input. `Check` loads each relation anew and compares relations by identifier; `RelLoad` has the cache and the pointers, and C105 says that they come to the same.
- Generator: comments and line breaks of the output, the text of method signatures. For filter types: a constructor other than `filter.Constructor`. For a select of rows without any readable column the code leaves `g.outputRoot` nil; the model writes an append of the root there, and C93 excludes the case by hypothesis.
- `GenRun` runs the generated statements on an abstract store of field values; conversion of an argument by `database/sql` is left out: an argument is the field or its wrapper.
- Config: JSON syntax, opening the database, loading packages, regular expressions, path resolution.
- Command: `packages.Load`, `go/format` and the operating system are inputs.
- `internal/typesutil`: in `Analysis.v` the results of the Implements functions are flags of a type name; C101 says what the functions report, on types that are looked up by name (`TypePreds`), and the two models are not linked. `internal/postgres/types.go` SQL queries are inputs.
- Maps: a Go map is an association list; theorems quantify over all orders where the code ranges over a map.
- Concurrency does not occur in the modelled code.

## How each property is stated and proved

- **C01, C02** text-like arrays (text, varchar, bpchar, json, xml) — writer and parser on byte lists; the server's `array_in`/`array_out` specified independently; a quoted element is consumed exactly, then induction on the list. The server's rendering is read back iff no unquoted element starts with NULL (refuted by `NULLABLE`).
- **C03–C07** integer arrays, numeric arrays, ranges, range arrays — `strconv` on decimal digits linked to the standard library's `Decimal`; the comma splitter inverts the join; one table gives the bit size the code passes per Go type.
- **C08, C09** hstore, hstore[] — the byte state machine; induction over pairs; maps are association lists in any order; the server's hstore text specified independently.
- **C10–C14** bytea[], uuid, bool[], bit[], char[], varbit — hex and binary codecs, `utf8`, direct inductions; the texts the scanners mishandle are characterised or refuted.
- **C15–C17** geometric types — float text is a parameter with a hypothesis (`floats_ok`), which `C88` discharges for the model of `strconv`.
- **C18, C47** int2vector, tsvector, tsquery[] and arrays.
- **C19** money — binary64 rounding modelled on integers scaled by 2^1074 and proved to be rounding to nearest even.
- **C20** NULL — every scanner takes the previous destination; theorems say for each modelled scanner whether NULL clears or keeps it.
- **C21–C28, C48** package filter — the constructor is a state machine over call trees; SQL is compared with an inductive grammar and a tokenizer for ordinal parameters.
- **C29, C30, C34** tag parsers — byte-level models compared with inductive grammars of identifiers and conditions and a last-writer specification of options.
- **C31–C33, C35, C49–C54, C91, C92** analysis — monadic transcription over type trees; invariants of the field loop (`AnalysisRoles`, `QuerySlots`); the explicit stack of `analyzeFieldInfoList` is compared with a recursive listing.
- **C36–C38, C62–C72** checker — transcription over a database given as catalog rows; theorems relate accepted queries to those rows.
- **C39–C42, C55** generated queries — the generator writes statements, the interpreter runs them, and the text and argument list are compared with the statement the struct describes (`GenSpec`), which has no parameter numbers.
- **C43** imports, **C44** nested pointers — invariants and refuting witnesses.
- **C56–C61** results — the interpreter runs the second half of the method on rows; compared with what is expected of rows (`GenOutSpec`).
- **C63** — a checked query meets the preconditions that C39–C42 and C55–C61 assume.
- **C45, C46, C73–C76** configuration and command — transcription over an abstract file system.
- **C77–C83** dates and times — civil-calendar model of `time`, compared with the server's encoding functions.
- **C84–C87** network addresses — addresses as numbers; RFC 4291 texts; compared with the server's texts.
- **C88–C90** floats — shortest-digits printing and correctly rounded parsing, with proofs that parsing rounds to nearest even and printing round-trips.
- **C93** scoping — the generated method is translated to the names it declares and mentions; an inductive description of Go's rules; induction over the statement list.
- **C94** whole queries — from the acceptance of a struct by the analysis and by the check the description of a statement is constructed, clause by clause; then C39–C41 and C55 apply.
- **C95** outputs — the shape of a record type is described by a relation on its fields; the loop of the analysis keeps its selectors inside the shape (invariant over the stack of structs), paths differ by induction on the columns; then C56–C59 apply to every accepted query.
- **C96** faults — `FaultSpec` says for each error code what is wrong, over the rows of the catalogs; both directions by cases over the places where the checker stops; with C71 this decides acceptance.
- **C97** filter types — the generated declarations are a small syntax tree, run by an interpreter on the model of `filter.Constructor`; call trees of the client are related to calls of the constructor and compared by induction.
- **C98** faults of structs — `AFaultSpec` says for each error code of the analysis what is wrong with the struct; both directions by cases over the places where the analysis stops, the state at each field described by the roles of the earlier fields; a regular struct never panics (structural recursion, the stack of structs shrinks), which decides acceptance.
- **C99, C100** tables — `OidSpec` writes down pg_type, the operators behind SQL's infix words and the zero values of Go, from PostgreSQL and Go; the tables of the tool are compared with them by computation, and the results are composed with C65 (accepted conditions) and with the statements of C39–C41.
- **C101** interfaces — `GoTypeSpec` defines type identity, method selection through embedded fields at any depth and implementation after the Go specification; each predicate is shown equivalent to having the methods at depth zero (`directly`), which implies implementation.
- **C102** remaining conversions — uuid arrays, char from byte and rune, bit, json and xml over any marshaller, any; and the library functions they use: no panic in ParseFloat, wrapping of counts, the zero time. `C68_reachable` runs the table backwards: every converter is named by a row that the checker selects.
- **C103** panics of scanners — for every scanner of `pgsql` except those of bytea[], uuid[] into byte arrays and range arrays (C07, C10, C78, C82 show texts on which those panic): it never panics, or panics exactly on texts of fewer than two bytes, or on elements that are too short; stated on arbitrary texts.
- **C104** cache of record types — a run over several structs, which share `relTypeCache`, gives for each what it gives on its own, if no struct comes twice, record types are used in one package, and those with qualified columns by one struct; a run on one struct always does. Refuted without these conditions, and for calls of the analysis after a failed one.
- **C105** cache of relations — pointers are positions in a list of loaded relations; a load gives what the first successful load of that identifier read, failures are not kept, and pointers are equal exactly if the identifiers are, for any sequence of loads and of states of the database.
- **C106** recursive record types — declared types are names that are looked up; the analysis ends if elements and nesting do (by induction on the derivation of that, over the stack), gives fields only then (by induction on the fuel), and agrees with `Analysis` on trees (a simulation of the two loops).
- **C107** filter value converters — the expression of `ObjectIdent.Set` by derivatives, against a description of the texts; reading entries key by key; the table, in which the last entry of a type counts, by splitting keys at the last dot.
- **C108** texts of errors — templates as data with an evaluator in which a missing field, a nil embedded pointer or an argument that is not a text is an error; each place where the checker makes an error is a constructor, and texts are computed for symbolic contents.

## Mutation tests

`seeded/LOG.jsonl` has one line per wrong program: the definition edited, the edit, the claim it breaks, the theorems that no longer compile, and the theorems that were added or tightened because a wrong program went unnoticed.

## Findings

Behaviour of the code that differs from what its documentation or a user would expect. Those with a property in parentheses are theorems (mostly `…_refuted`); the others were seen while transcribing.

### pgsql

- text[]: an unquoted element beginning with NULL (`NULLABLE`) is split in two (C02). tsquery[]: `N` at an element's start consumes four bytes (C47).
- hstore: an empty value is read as NULL (C08). Integer range arrays: a NULL element panics (C07). bool[] and bit[]: NULL elements become false and 0 (C12).
- int8[] into `[]uint` accepts 32-bit values only (C04). numeric[] into narrow integers wraps (C05).
- money: 0.29 is written as 28 cents; amounts of $1000 and more and negative amounts cannot be scanned; above 2^53 cents values change (C19).
- box: the scalar writer's literal is not a box (C17).
- uuid: texts of the wrong length panic or are accepted (C11).
- Floats: float4 text read into a float64 is not the float4's value; fractions are truncated when floats are written as integers or numranges, and such numranges cannot be read back; int8 beyond 2^53 is inexact (C88–C90).
- inet, cidr: host bits dropped; a nil IP or unrepresentable mask is written as `<nil>`; inet with a mask scanned into an IP yields nil; IPv4-mapped IPv6 changes family; nil hardware addresses in slices give `{}` or `{,}` (C84–C87).
- Dates and times: microseconds lost on write; the layout `-07` drops offset minutes and rejects `+05:30`; timetz[] wants `-07:00` where the server prints `-08`; 24:00:00 rejected; unbounded or NULL elements of ts(tz)range[] panic, `empty` elements vanish; date 0001-01-01 in a range means unbounded; `empty` is read as unbounded (C77–C83).
- SQL NULL leaves the previous value in the destination for scalars, hstore, ranges, points, lines and segments (C20).
- time and timetz scanners into `[]byte` alias the driver's memory (`time.go:43`, `timetz.go:43`).
- json and xml: a source of type string is ignored without error (`json.go:31`, `xml.go:23`).
- int2vector[]: an empty inner slice gives unbalanced quotes.

### filter

- A nil or bool value with an operator other than =, a trailing And/Or with nil, an empty nest, `IN ()`, and unknown FQL keys in non-strict mode leave ungrammatical SQL (C26). Page before Limit is lost; offsets wrap at 2^63 (C27).

### analysis

- `betweenasym` cannot be parsed; a lone `!` is accepted; `parsePredicateExpr` panics on `İİ x` (lower-casing changes the length) (C29).
- Join conditions take the wrong side by operator precedence; a Where struct may end in a dangling and/or; OnConflict without action is accepted; an empty field option panics (C33, C34, C49, C50).
- Fields of type `error` panic; unexported fields of foreign structs reached through pointers are not skipped; duplicate directives silently overwrite each other; Where before Join cannot use the join's qualifiers; directives compare column names without qualifiers; the join type is case-sensitive.
- `relTypeCache` is keyed by the type's text only (C104). If the command is run on two packages that use one record type, the second gets the `IsImported` flag and the fields of the first: code without a package qualifier that reads unexported fields, or, in the other order, missing columns. The check that column qualifiers are known relations is skipped for a type that is already there. A type is stored before its fields are analysed, so that a second `analysis.Run` accepts, incompletely, what the first refused; the command stops at the first error.
- Nothing looks for cycles in the analysis of record types (C106): a struct `Node` with a field `Parent` of type `*Node` and the tag `sql:">parent_"` makes `analyzeFieldInfoList` (analysis.go:520-641) run until memory is used up, and a field of type `type T []T` makes `analyzeTypeInfo` (647-698) recurse until the stack is (`C106_record_refuted`, `C106_type_refuted`).

### postgres checker

- The scanners table for inet[] names a function of the wrong type; converters are ill-typed for pointers and named basic types (C68). varchar(1), bit(n) and "char" accept nothing or the wrong things (C72).
- Read-only nested structs are still written: only a field's own mode is looked at (C36).
- `parseIndexExpr` mis-splits some expressions (C37); `matchNumbers` ignores duplicates (C38).
- Equal types are accepted without looking for an operator (C65). Literals of pseudo-types and arrays with a missing element type dereference nil (C71). Return, Default and OnConflict ignore qualifiers. Filter fields without column are dropped silently (C70).
- `oid`: the zero literal of lseg is unquoted; line has none.
- All errors about the database itself panic when printed (C108): the templates use `.Error.Error`, but `dbError` has a field `Err` and its method `Error` belongs to the pointer, whereas the value is passed; `.Col.TypeOID` is a number where a text is needed. `fmt` recovers from the panic, so that the user sees a message about the template instead of the cause. For a field with an array predicate or quantifier the text shows an empty predicate and the type `<nil>`; for a field that cannot be compared it shows the operands in the wrong order. Types are cut at the last slash, which drops pointers and slices.

### generator

- Count with limit, default with primary key, IN with limit or default, slice updates with defaults, returning or no rows, filters with single rows, order, returning or limit give wrong statements (witnesses in C39–C42, C55).
- The constant for lseg is not quoted, so COALESCE and NULLIF on nullable lseg columns are no SQL; NULL in a column whose text is read (box into string) becomes the text of a zero box, not the empty string (C100). SIMILAR TO is checked with the operator of LIKE, IS DISTINCT FROM with <> (C99).
- Methods promoted from embedded fields are not seen (a struct that embeds sql.NullString is no scanner), nor parameter types behind an alias; a field whose type is the interface gosql.ErrorHandler, gosql.ErrorInfoHandler or AfterScanner is not taken for one; the interface gosql.FilterConstructor does not satisfy ImplementsGosqlFilterConstructor; a method such as MarshalXML(*error, …) makes the analysis panic (C101).
- JSON and XML scanners ignore a source that is a string and keep the previous value on NULL; a nil pointer is stored as the JSON null, not as NULL; a uuid written in braces breaks a uuid[] literal; CharFromByte of a byte above 127 is not UTF-8 (C102). InetArrayToIPSlice and InetArrayToIPNetSlice are exported and used by no row (C68).
- Scanners panic, instead of returning an error, on texts that PostgreSQL would not send: shorter than two bytes for everything with delimiters, empty elements of bool[], bit[] and money[], one-byte bounds of tsrange, a third point of lseg, further commas in point[] and line[], a backslash at the end of a quoted hstore string, uuids of other than 36 bytes (C103).
- Negated and symmetric between are written as plain BETWEEN (C42). `NULLS LAST` is printed whenever NullsFirst is not set.
- Initialisation keys of nested pointers collide (`A.BC` and `AB.C`) (C44); import names collide (C43).
- ErrorInfoHandler is called with a nil error (C61); a single pointer output is set although no row came (C59); more returned rows than records panic (C58); RowsAffected wraps (C60).
- An array as output, a record type named like a generated variable (`type row struct`), and a slice update whose join says `isin` do not compile (C93).
- Primary-key arguments never use a Valuer; identifiers `pgsql` and `gosql` are hard-coded even if the import is renamed; an update without primary keys and conditions has no WHERE; OnConflict Update with nothing to write says DO NOTHING; a slice insert with no columns writes only `),`; From and Using without Relation dereference nil.
- Generated filter methods collide: fields And, Or, Init (the reserved names are spelled AND, OR), `A.BC` and `AB.C`, a field named like the constructor field; a field ToSQL hides the method that queries call; of several fields with one key only the first is known to FQL (C97).

### config, search, command

- `-argtype` cannot be taken back; MethodName has no flag; options set by flags are not type-checked in the file; the root directory is never searched for a config; both `.gosql` and `.gosql.json`: the listing order decides (C45, C73).
- `rxObjId` (config/types.go:235) has `[\w\.-/]`, where `\.-/` is a range: paths with a hyphen cannot be given in `filter_value_converters`. Entries are not validated (config.go:296 is a TODO): one without a type is used for all fields of types that are not declared, because its key is the single dot that those have, too; one without a function gives code that does not compile. The package of a converter is imported under the last part of its path, which for `gopkg.in/guregu/null.v4` is not an identifier (C107).
- Formats `%s`, `%s.go`, empty and `.go` overwrite the source; two inputs can share an output; an output can be another input (C46, C76). A failed formatting deletes the previous good output (C76).
- A field whose type is the predeclared `error` panics in the analysis (its package is nil), so does an empty option in an sql tag and a query name that begins with none of the four words (C98); a predicate can only panic if it is not ASCII (C29, C98).
- A non-struct type named Select… panics in the analysis; names with U+017F match the keyword regexp (C74, C75).

## Theorems and their assumptions

`Print Assumptions` prints `Closed under the global context` for each of the following.

- C01: `C01_text_roundtrip`, `C01_text_server_reads`
- C02: `C02_text_server_rendered`, `C02_text_prefix_refuted`
- C03: `C03_int_array_literal`, `C03_int_array_scan`, `C03_int_array_roundtrip`
- C04: `C04_int8_uint`, `C04_int8_uint_refuted`
- C05: `C05_numeric`, `C05_narrow_is_reduction`
- C06: `C06_range_literal`, `C06_range_scan`, `C06_range_brackets_ignored`, `C06_range_store_fetch`
- C07: `C07_range_array_roundtrip`, `C07_range_array_literal`, `C07_range_array_scan`, `C07_range_array_null_panics`
- C08: `C08_hstore_server_reads`, `C08_hstore_scan`, `C08_hstore_last`
- C09: `C09_hstorearr_server_reads`, `C09_hstorearr_scan`, `C09_hstorearr_last`
- C10: `C10_bytea_roundtrip`, `C10_bytea_literal`, `C10_bytea_null_panics`
- C11: `C11_uuid_roundtrip`, `C11_uuid_shape`, `C11_uuid_array_roundtrip`, `C11_uuid_array_literal`
- C12: `C12_bool_bit_roundtrip`, `C12_bit_uint_normalises`, `C12_bool_bit_server`
- C13: `C13_bytes`, `C13_bytes_dropped`, `C13_all_dropped`, `C13_runes`, `C13_string`, `C13_strings`, `C13_empty_string_refuted`, `C13_server_scan`, `C13_server_reads`, `C13_brace_refuted`
- C14: `C14_int`, `C14_int_negative_refuted`, `C14_int_scan`, `C14_bools`, `C14_uint8s`, `C14_bool_arrays`, `C14_uint8_arrays`, `C14_string_arrays`, `C14_string_null_refuted`, `C14_int_arrays`
- C15: `C15_parse_float64`, `C15_float64`, `C15_coordinates`, `C15_point_float64`, `C15_point`, `C15_line`, `C15_lseg`, `C15_path`, `C15_closed_path_refuted`, `C15_polygon`, `C15_empty_is_null`
- C16: `C16_point_array`, `C16_line_array`, `C16_lseg_array`, `C16_path_array`, `C16_polygon_array`, `C16_empty_inner_refuted`, `C16_null_fails`, `C16_box_array`, `C16_box_null_refuted`
- C17: `C17_box_scan`, `C17_box_own_literal_refuted`
- C18: `C18_int2vector`, `C18_int2vectorarr_roundtrip`, `C18_int2vectorarr_server`, `C18_int2vectorarr_refuted`, `C18_int2vectorarr_server_reads`, `C18_empty_vector_refuted`, `C18_tsvector`, `C18_tsvectorarr`, `C18_tsvectorarr_null_refuted`, `C18_tsvectorarr_server_reads`, `C18_tsvectorarr_server_refuted`
- C19: `C19_rounding_model`, `C19_server_reads`, `C19_large_refuted`, `C19_roundtrip`, `C19_roundtrip_refuted`, `C19_scan_small`, `C19_scan_large_refuted`, `C19_scan_negative_refuted`, `C19_arrays`, `C19_array_scan_refuted`
- C20: `C20_resets`, `C20_keeps`, `C20_char`, `C20_stale_refuted`
- C21: `C21_in_value_list`, `C21_in_value_list_placeholders`
- C22: `C22_placeholders`, `C22_parameters_are_the_given_values`, `C22_each_value_at_its_predicate`
- C23: `C23_panics_exactly_beyond_the_limit`
- C24: `C24_count_filter`, `C24_position_only_renumbers`
- C25: `C25_where_is_a_condition`, `C25_exactly_proper_sequences`, `C25_parentheses_always_match`, `C25_fql_condition`
- C26: `C26_broken_where_clauses`
- C27: `C27_limit_offset_page`, `C27_page_can_be_lost`
- C28: `C28_sort_lenient`, `C28_sort_strict`, `C28_every_text_has_items`
- C29: `C29_condition_read_back`, `C29_column_alone`, `C29_result_is_in_the_text`, `C29_asymmetric_between_is_never_read`, `C29_operators_are_told_apart`, `C29_non_ascii_panics_refuted`
- C30: `C30_column_identifiers`, `C30_unknown_qualifier`, `C30_identifier_alphabet`, `C30_relation_identifiers`, `C30_column_lists`
- C31: `C31_namespace`
- C32: `C32_exclusive`, `C32_present`, `C32_repetition_refuted`
- C33: `C33_on_conflict`, `C33_some_action_refuted`
- C34: `C34_last_option_wins`, `C34_no_options`, `C34_empty_option_panics`, `C34_read_only_write_only`
- C35: `C35_relation`, `C35_result`, `C35_complete`, `C35_accessible_refuted`
- C36: `C36_written`, `C36_keys`, `C36_nested_refuted`
- C37: `C37_expression`, `C37_no_using`, `C37_string_end_refuted`, `C37_quoted_name_refuted`, `C37_panic_refuted`
- C38: `C38_columns`, `C38_repeated_refuted`
- C39: `C39_arguments_match_placeholders`, `C39_call_is_made`, `C39_count_limit_refuted`, `C39_default_key_refuted`
- C40: `C40_in_lists`, `C40_limit_default_refuted`
- C41: `C41_rows`, `C41_update_default_refuted`, `C41_update_return_refuted`, `C41_empty_slice_is_cut`
- C42: `C42_between_kind_ignored`
- C43: `C43_one_name_per_path`, `C43_equal_paths`, `C43_distinct_names`, `C43_collision_refuted`, `C43_declared`, `C43_default_name`
- C44: `C44_allocated_once`, `C44_collision_refuted`
- C45: `C45_cmdline`, `C45_precedence`, `C45_flags_checked`, `C45_accepted`, `C45_argtype_refuted`, `C45_tag`, `C45_separator`
- C46: `C46_format`, `C46_name`, `C46_injective`, `C46_injective_refuted`, `C46_not_self`, `C46_self_refuted`, `C46_other_refuted`
- C47: `C47_strings`, `C47_bytes`, `C47_bytes_refuted`, `C47_unescaped_refuted`
- C48: `C48_text_search_query`
- C49: `C49_where`, `C49_alternating_refuted`
- C50: `C50_joins`, `C50_unqualified_refuted`
- C51: `C51_order_by`, `C51_order_by_tag`
- C52: `C52_limit`, `C52_offset`, `C52_value`
- C53: `C53_column_lists`
- C54: `C54_filter`, `C54_text_search`
- C55: `C55_filter`, `C55_single_refuted`, `C55_order_refuted`, `C55_returning_refuted`, `C55_limit_refuted`
- C56: `C56_rows_collected`
- C57: `C57_rows_iterated`
- C58: `C58_rows_returned`, `C58_too_many_rows`
- C59: `C59_row_scanned`, `C59_row_returned`, `C59_no_row`, `C59_count`, `C59_no_row_untouched_refuted`
- C60: `C60_rows_affected`, `C60_in_range`, `C60_overflow_refuted`
- C61: `C61_call_error`, `C61_count_error`, `C61_exec_success`, `C61_info_handler_refuted`
- C62: `C62_read`
- C63: `C63_checked`, `C63_accepted`
- C64: `C64_where`, `C64_directives`, `C64_joins`, `C64_return_refuted`, `C64_default_refuted`
- C65: `C65_operator_refuted`, `C65_where`, `C65_bounds`
- C66: `C66_sound`, `C66_complete`, `C66_order`, `C66_converter_refuted`
- C67: `C67_target`, `C67_update`
- C68: `C68_table`, `C68_inet_array_refuted`, `C68_direct`, `C68_pointer_refuted`, `C68_named_refuted`, `C68_reachable`, `C68_unreachable_refuted`
- C69: `C69_written`, `C69_read`
- C70: `C70_filters`
- C71: `C71_no_panic`, `C71_array_refuted`, `C71_literal_refuted`
- C72: `C72_string`, `C72_length_one`, `C72_bit`
- C73: `C73_found`, `C73_none`, `C73_search`, `C73_both_refuted`
- C74: `C74_search`, `C74_files`, `C74_filter`
- C75: `C75_kind`, `C75_nonstruct_refuted`, `C75_alias_refuted`, `C75_long_s_refuted`
- C76: `C76_done`, `C76_untouched`, `C76_failed`, `C76_lost_refuted`, `C76_each_file`
- C77: `C77_write`, `C77_read`, `C77_roundtrip`
- C78: `C78_read`, `C78_write`, `C78_roundtrip`, `C78_empty_refuted`, `C78_first_day_refuted`, `C78_array_read`, `C78_array_write`, `C78_array_roundtrip`
- C79: `C79_read`, `C79_timetz_read`, `C79_write`, `C79_timetz_write`, `C79_roundtrip`, `C79_micros_refuted`, `C79_hours_refuted`
- C80: `C80_read`, `C80_tz_read`, `C80_write`, `C80_tz_write`, `C80_roundtrip`, `C80_tz_roundtrip`, `C80_tz_exact`, `C80_instant_refuted`, `C80_utc_refuted`
- C81: `C81_read`, `C81_tz_read`, `C81_write`, `C81_tz_write`, `C81_roundtrip`, `C81_tz_roundtrip`, `C81_unbounded_refuted`, `C81_inclusive_refuted`
- C82: `C82_read`, `C82_tz_read`, `C82_write`, `C82_tz_write`, `C82_roundtrip`, `C82_panic_refuted`
- C83: `C83_date_time`, `C83_other`, `C83_date_text`, `C83_timetz_text`, `C83_time_text`
- C84: `C84_read`, `C84_write`, `C84_array_read`, `C84_array_write`, `C84_roundtrip`, `C84_nil_refuted`
- C85: `C85_read`, `C85_write`, `C85_roundtrip`, `C85_array_read`, `C85_array_write`, `C85_mapped_refuted`
- C86: `C86_read`, `C86_write`, `C86_host_refuted`, `C86_single_refuted`, `C86_array_read`
- C87: `C87_read`, `C87_write`, `C87_roundtrip`, `C87_array_read`, `C87_array_write`, `C87_nil_refuted`, `C87_mapped_refuted`
- C88: `C88_rounding`, `C88_exact`, `C88_write`, `C88_shortest`, `C88_read`, `C88_roundtrip`, `C88_unique`
- C89: `C89_float8_of_float32`, `C89_narrow_text`, `C89_roundtrip`, `C89_float4_refuted`, `C89_float4_of_float64`
- C90: `C90_cut`, `C90_exact`, `C90_array_write`, `C90_array_read`, `C90_array_roundtrip`, `C90_int8_refuted`, `C90_vector`, `C90_range_write`, `C90_range_read`, `C90_numrange_refuted`, `C90_range_array_refuted`, `C90_range_array`, `C90_range_array_write`, `C90_vecarr_write`, `C90_vecarr_read`, `C90_vecarr_roundtrip`, `C90_vecarr_refuted`
- C91: `C91_field`, `C91_key_unique`
- C92: `C92_kind`, `C92_override`, `C92_rows`, `C92_filter`, `C92_context`, `C92_handler`
- C93: `C93_scope`, `C93_array_refuted`, `C93_name_refuted`, `C93_list_refuted`
- C94: `C94_described`, `C94_executed`, `C94_rows`, `C94_filter`
- C95: `C95_record`, `C95_shape`, `C95_output`, `C95_one_source`, `C95_collected`, `C95_iterated`, `C95_returned`, `C95_single`, `C95_returned_twice_refuted`
- C96: `C96_fault`, `C96_rejected`, `C96_filter_fault`, `C96_filter_rejected`, `C96_decided`
- C97: `C97_built`, `C97_methods`, `C97_calls`, `C97_init`, `C97_fql`, `C97_sort`, `C97_names_refuted`, `C97_hides_refuted`, `C97_field_refuted`
- C98: `C98_rejected`, `C98_accepted`, `C98_decided`, `C98_ends_refuted`, `C98_filter_rejected`, `C98_filter_accepted`, `C98_filter_decided`
- C99: `C99_arrays`, `C99_elements`, `C99_converters`, `C99_operators`, `C99_lists`, `C99_similar_refuted`, `C99_distinct_refuted`, `C99_where`
- C100: `C100_constants`, `C100_lseg_refuted`, `C100_read`, `C100_written`, `C100_text_refuted`
- C101: `C101_column`, `C101_handlers`, `C101_conn`, `C101_constructor`, `C101_sound`, `C101_promoted_refuted`, `C101_alias_refuted`, `C101_interface`, `C101_interface_refuted`, `C101_constructor_refuted`, `C101_variadic_refuted`, `C101_path_refuted`, `C101_total`, `C101_panic_refuted`
- C102: `C102_uuid_strings`, `C102_uuid_bytes`, `C102_uuid_nil`, `C102_uuid_braces_refuted`, `C102_char_byte`, `C102_char_rune`, `C102_bit`, `C102_document`, `C102_document_string_refuted`, `C102_document_nil_refuted`, `C102_any`, `C102_float_total`, `C102_counts_wrap`, `C102_zero_time`
- C103: `C103_total`, `C103_short`, `C103_vector_array`, `C103_geo`, `C103_lseg`, `C103_geo_refuted`, `C103_bits`, `C103_money`, `C103_stamps`, `C103_stamp_range`, `C103_uuid`, `C103_uuid_refuted`, `C103_hstore`, `C103_hstore_refuted`, `C103_char_array`, `C103_char_array_refuted`
- C104: `C104_transparent`, `C104_single`, `C104_once`, `C104_stays`, `C104_key`, `C104_packages_refuted`, `C104_qualifier_refuted`, `C104_failure_refuted`
- C105: `C105_loaded`, `C105_total`, `C105_same_database`, `C105_pointers`
- C106: `C106_terminates`, `C106_needs`, `C106_same`, `C106_fuel`, `C106_record_refuted`, `C106_type_refuted`
- C107: `C107_accepts`, `C107_text`, `C107_entry`, `C107_wrong`, `C107_read`, `C107_field`, `C107_unnamed`, `C107_path_refuted`, `C107_type_refuted`, `C107_func_refuted`, `C107_reference`, `C107_import_refuted`
- C108: `C108_text`, `C108_place`, `C108_column`, `C108_found`, `C108_qualifier`, `C108_relation`, `C108_compare`, `C108_field`, `C108_operand`, `C108_own`, `C108_other`, `C108_panics`, `C108_predicate_refuted`, `C108_pointer_refuted`
