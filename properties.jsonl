{"id": "C01", "title": "text[] write/read round trip", "statement": "Writing a []string (or [][]byte) as a PostgreSQL text array and reading the produced literal back with the matching scanner yields the same slice, for any byte content including quotes, backslashes, commas, braces, control characters, the word NULL and empty strings; a nil slice is written as SQL NULL and a nil []byte element as an array NULL.", "quantifier": "all finite lists of arbitrary byte strings", "why_tests_cant": "Escaping bugs live in particular byte combinations; the domain is infinite and the tests list about ten strings.", "anchors": ["pgsql/textarr.go:TextArrayFromStringSlice", "pgsql/textarr.go:TextArrayToStringSlice", "pgsql/textarr.go:TextArrayFromByteSliceSlice", "pgsql/textarr.go:TextArrayToByteSliceSlice", "pgsql/convert_util.go:pgAppendQuote1", "pgsql/convert_util.go:pgParseStringArray"]}
{"id": "C02", "title": "text[] literals rendered by the server are parsed correctly", "statement": "For every list of text elements the literal that a PostgreSQL server renders for it (elements unquoted unless they are empty, equal NULL case-insensitively, or contain special characters) is scanned into exactly those elements, unless some unquoted element begins with the four letters NULL, in which case the result is wrong: that element is split in two.", "quantifier": "all finite lists of optional byte strings", "why_tests_cant": "The server chooses when to quote; tests only exercise literals picked by hand and never an unquoted element that starts with NULL.", "anchors": ["pgsql/convert_util.go:pgParseStringArray", "pgsql/textarr.go:TextArrayToStringSlice"]}
{"id": "C03", "title": "integer arrays round trip without loss or wraparound", "statement": "For int2[], int4[] and int8[] and every Go integer slice type, writing a slice and scanning it back with the same Go type restores it whenever every value fits the column's range, and scanning a literal containing a value outside the Go type's range returns an error rather than a wrapped value.", "quantifier": "all finite lists of integers; all Go integer widths", "why_tests_cant": "2^64 values per element and unbounded lengths; tests check the extreme values only.", "anchors": ["pgsql/int2arr.go", "pgsql/int4arr.go", "pgsql/int8arr.go", "pgsql/convert_util.go:pgParseCommaArray"]}
{"id": "C04", "title": "int8[] into []uint accepts exactly 32-bit values", "statement": "Scanning an int8 array into []uint succeeds with the exact values when all of them are below 2^32 and returns an error as soon as one is 2^32 or larger, although such values are valid for both the column and the Go type; in particular Int8ArrayFromUintSlice followed by Int8ArrayToUintSlice is not the identity.", "quantifier": "all finite lists of unsigned integers", "why_tests_cant": "Requires a value between 2^32 and 2^63, which no test uses.", "anchors": ["pgsql/int8arr.go:Int8ArrayToUintSlice", "pgsql/int8arr.go:Int8ArrayFromUintSlice"]}
{"id": "C05", "title": "numeric[] into narrow integer slices reduces modulo the width", "statement": "Scanning a numeric array into []int8/[]int16/[]int32/[]uint8/[]uint16/[]uint32 never reports an out-of-range element that fits 64 bits: the stored element is the value reduced modulo the width, so the result equals the column's value iff it fits the Go type.", "quantifier": "all finite lists of 64-bit integers; each of the narrow widths", "why_tests_cant": "Needs exploring values outside the Go type's range for every width.", "anchors": ["pgsql/numericarr.go"]}
{"id": "C06", "title": "integer ranges round trip", "statement": "Writing a two-element Go integer array as an int4range/int8range/numrange and scanning the literal back yields the same two bounds; scanning a range literal whose lower or upper bound is missing yields zero for that bound.", "quantifier": "all pairs of integers of the Go type", "why_tests_cant": "Pairs of 64-bit integers cannot be enumerated; formatting and parsing must be inverse on all of them.", "anchors": ["pgsql/int4range.go", "pgsql/int8range.go", "pgsql/numrange.go", "pgsql/convert_util.go:pgParseRange"]}
{"id": "C07", "title": "integer range arrays round trip; NULL element panics", "statement": "Writing a slice of integer pairs as an int4range[]/int8range[]/numrange[] and scanning it back yields the same slice. A literal that contains an array NULL element makes the scanner panic.", "quantifier": "all finite lists of integer pairs", "why_tests_cant": "Unbounded lists of unbounded bounds; the quoting, separators and index arithmetic must agree for every length.", "anchors": ["pgsql/int4rangearr.go", "pgsql/int8rangearr.go", "pgsql/numrangearr.go", "pgsql/convert_util.go:pgParseQuotedStringArray"]}
{"id": "C08", "title": "hstore round trip", "statement": "Writing a Go string map as hstore and scanning it back restores every key and every non-empty value for arbitrary byte content; for the maps with nullable values a present-but-empty value is read back as NULL, and this is the only loss. If a text repeats a key, the scanned map has one entry for it, with the last value.", "quantifier": "all finite maps from byte strings to optional byte strings, every map iteration order", "why_tests_cant": "Map iteration order is unspecified and content is arbitrary bytes.", "anchors": ["pgsql/hstore.go", "pgsql/convert_util.go:pgparsehstore", "pgsql/convert_util.go:pgAppendQuote1"]}
{"id": "C09", "title": "hstore[] round trip", "statement": "Writing a slice of Go string maps as hstore[] and scanning it back restores every map (nil maps as NULL elements), for arbitrary key and value bytes, with the same empty-value exception as hstore. If a text repeats a key, the scanned map has one entry for it, with the last value.", "quantifier": "all finite lists of finite maps with arbitrary byte content", "why_tests_cant": "Two nested levels of quoting (four escape layers) over arbitrary bytes.", "anchors": ["pgsql/hstorearr.go", "pgsql/convert_util.go:pgparsehstorearr", "pgsql/convert_util.go:pgAppendQuote2"]}
{"id": "C10", "title": "bytea[] round trip", "statement": "Writing [][]byte or []string as bytea[] and scanning it back yields the same elements for arbitrary bytes; a literal with a NULL element makes the scanner panic.", "quantifier": "all finite lists of byte strings", "why_tests_cant": "All 256 byte values in all positions; element lengths unbounded.", "anchors": ["pgsql/byteaarr.go", "pgsql/convert_util.go:pgParseCommaArray"]}
{"id": "C11", "title": "uuid and uuid[] round trip", "statement": "Formatting any 16-byte array as a uuid and parsing the text back yields the same bytes, the text is always 36 characters with dashes at positions 8, 13, 18 and 23, and the same holds elementwise for uuid[].", "quantifier": "all 2^128 uuids; all finite lists", "why_tests_cant": "2^128 inputs.", "anchors": ["pgsql/uuid.go", "pgsql/uuidarr.go", "pgsql/convert_util.go:pgParseUUID", "pgsql/convert_util.go:pgFormatUUID"]}
{"id": "C12", "title": "bool[] and bit[] round trip", "statement": "Writing []bool as bool[] or bit[], and writing []uint8/[]uint of zeros and ones as bit[], and scanning it back yields the same slice.", "quantifier": "all finite lists", "why_tests_cant": "Unbounded list length; separators computed from indices.", "anchors": ["pgsql/boolarr.go", "pgsql/bitarr.go"]}
{"id": "C13", "title": "char[] round trip", "statement": "Writing []byte, []rune, []string or string as char[] and scanning back yields the same characters iff no character is BEL or BS; the characters BEL and BS are silently dropped.", "quantifier": "all finite lists of bytes", "why_tests_cant": "All 256 byte values with escapes at every position.", "anchors": ["pgsql/chararr.go", "pgsql/convert_util.go:pgparsearray2", "pgsql/convert_util.go:pgparsearray3"]}
{"id": "C14", "title": "varbit and varbit[] round trip", "statement": "Writing an int64, []bool or []uint8 as varbit and scanning it back yields the same value for non-negative integers (bools/0-1 lists always); a negative int64 is written as text that is not a bit string.", "quantifier": "all 64-bit integers; all finite bit lists", "why_tests_cant": "2^64 integers and unbounded lists.", "anchors": ["pgsql/varbit.go", "pgsql/varbitarr.go"]}
{"id": "C15", "title": "geometric scalars round trip", "statement": "Writing a point, line, lseg, path or polygon and scanning it back yields the same coordinates for any number of points, given that the float formatter/parser pair is inverse and emits no delimiter characters. That this holds of strconv's formatting and parsing of float64 is proved for every float64, including -0, the infinities and NaN, so the theorems about geometric types apply to float64 coordinates.", "quantifier": "all coordinate values, all point-list lengths, closed and open paths", "why_tests_cant": "Unbounded point lists with index-based parsing; 2^64 coordinates.", "anchors": ["pgsql/point.go", "pgsql/line.go", "pgsql/lseg.go", "pgsql/path.go", "pgsql/polygon.go", "pgsql/convert_util.go"]}
{"id": "C16", "title": "geometric arrays round trip", "statement": "Writing slices of points, lines, lsegs, boxes, paths and polygons and scanning back yields the same slice for any lengths, provided inner path/polygon lists are non-empty; an empty inner list produces a malformed literal.", "quantifier": "all finite lists of finite point lists", "why_tests_cant": "Nested unbounded structures with hand-written index arithmetic.", "anchors": ["pgsql/pointarr.go", "pgsql/linearr.go", "pgsql/lsegarr.go", "pgsql/boxarr.go", "pgsql/patharr.go", "pgsql/polygonarr.go"]}
{"id": "C17", "title": "box scalar literal", "statement": "The box writer's literal is not readable by the box scanner, which reads exactly the literal the server renders, `(x1,y1),(x2,y2)`.", "quantifier": "all box coordinates", "why_tests_cant": "The tests pass the literal through a server, which normalises it; the direct inverse is never checked.", "anchors": ["pgsql/box.go", "pgsql/convert_util.go:pgParseBox"]}
{"id": "C18", "title": "int2vector, tsvector and their arrays", "statement": "Writing a Go integer slice as int2vector (or a slice of such slices as int2vector[]) and scanning it back yields the same value for non-empty inner vectors; the parser of vector arrays yields spurious elements for an unquoted multi-character last element and after NULL.", "quantifier": "all finite lists of finite lists of integers", "why_tests_cant": "Nested unbounded lists.", "anchors": ["pgsql/int2vector.go", "pgsql/int2vectorarr.go", "pgsql/tsvector.go", "pgsql/tsvectorarr.go", "pgsql/convert_util.go:pgParseVectorArray"]}
{"id": "C19", "title": "money conversion", "statement": "Writing an int64 number of cents as money produces the text with exactly the right dollars and cents; scanning the text back truncates the binary floating point product, and there are cent amounts (for example 29) that come back one cent short.", "quantifier": "all int64 amounts", "why_tests_cant": "Only a few amounts are hit by truncation and tests use amounts that survive.", "anchors": ["pgsql/money.go", "pgsql/moneyarr.go"]}
{"id": "C20", "title": "SQL NULL source handling per scanner family", "statement": "When rows are scanned one after the other into one destination, the scanners of element arrays, bit strings, vectors, paths and polygons show for each row its own value and nil for SQL NULL, whatever was there before. The scanners of scalars, hstores, ranges, arrays of ranges, of hstores, of points, lines and line segments show for SQL NULL what the row before it showed; a single char does so for an empty text too.", "quantifier": "all sequences of rows, all previous destination contents; every modelled scanner", "why_tests_cant": "Depends on the previous content of the destination, tests always use a fresh zero value.", "anchors": ["pgsql/textarr.go", "pgsql/hstore.go", "pgsql/hstorearr.go", "pgsql/int4range.go", "pgsql/int4rangearr.go", "pgsql/pointarr.go", "pgsql/uuid.go", "pgsql/cidr.go"]}
{"id": "C21", "title": "ordinal parameters and IN lists", "statement": "InValueList(num,pos) is the comma separated list $pos+1,...,$pos+num of exactly num placeholders (empty for num<=0) and panics exactly when a needed index lies outside 0..65534.", "quantifier": "all integers num and pos", "why_tests_cant": "Unbounded arguments; the doc comment's off-by-one cannot be caught by example tests that use the same convention.", "anchors": ["gosql.go:InValueList", "gosql.go:OrdinalParameters"]}
{"id": "C22", "title": "filter placeholders match filter parameters", "statement": "For any sequence of filter-building calls whose column and operator texts hold no dollar sign, the SQL text produced by ToSQL(p) contains exactly the placeholders $p+1,...,$p+n, each once, in ascending order from left to right, where n is the number of returned parameters; the returned parameters are the values handed to the calls (list elements one by one, arrays as one driver value, nil and booleans none), in call order; and replacing each placeholder by its parameter puts every value next to the column and operator it was given with.", "quantifier": "all finite sequences of constructor method calls with arbitrary arguments, all starting positions", "why_tests_cant": "Sequences of calls are unbounded and nested.", "anchors": ["filter/filter.go:ToSQL", "filter/filter.go:Constructor"]}
{"id": "C23", "title": "filter SQL panics exactly beyond the parameter limit", "statement": "ToSQL(p) of a filter built from calls that were handed n values panics exactly if n>0 and (p<0 or p+n>65535), and otherwise returns normally.", "quantifier": "all filters, all p", "why_tests_cant": "Needs more than 65535 parameters.", "anchors": ["filter/filter.go", "gosql.go:OrdinalParameters"]}
{"id": "C24", "title": "count filter and starting position", "statement": "For every filter state the count filter yields the same WHERE clause and the same parameters as ToSQL, without ORDER BY, LIMIT and OFFSET; starting at another parameter position changes nothing but the numbers of the placeholders, all by the same amount.", "quantifier": "all filter states, all positions", "why_tests_cant": "Aliasing and state mutation depend on call sequences.", "anchors": ["filter/filter.go:ToSQL", "filter/filter.go:countFilter"]}
{"id": "C25", "title": "filter WHERE clause is grammatical", "statement": "For call sequences without FQL the WHERE clause is a well-formed boolean condition exactly if no IN list is empty and the sequence as well as every nested group ends (among the calls that concern the WHERE clause) with a call that adds a predicate or group. An FQL condition all of whose rules have known keys, convertible values and a supported operator adds a well-formed condition, joined by AND where needed. Parentheses match for every call sequence without FQL, even improper ones.", "quantifier": "all finite call sequences and nestings; all FQL token sequences that form a condition", "why_tests_cant": "The language of call sequences is infinite.", "anchors": ["filter/filter.go:Constructor"]}
{"id": "C26", "title": "filter clauses that break the SQL", "statement": "There are call sequences accepted without error which yield ungrammatical SQL: Col with a nil/bool value and an operator other than = or <>, a trailing And/Or, an empty nested group, an empty IN list, and an FQL rule with an unknown key in non-strict mode.", "quantifier": "existential, with witnesses", "why_tests_cant": "Needs an independent notion of grammatical output.", "anchors": ["filter/filter.go:Constructor"]}
{"id": "C27", "title": "limit, offset and page", "statement": "The limit in force is the last positive one given, also inside nested groups; the offset is that of the last Offset or Page call with a positive argument, Page(n) giving (n-1) times the limit in force at that moment, modulo 2^64 as an int64; hence Page before Limit, and products that overflow, lose the page.", "quantifier": "all int64 limits and pages, any call order", "why_tests_cant": "Overflow and order of calls.", "anchors": ["filter/filter.go:Page", "filter/filter.go:Limit", "filter/filter.go:Offset"]}
{"id": "C28", "title": "sort specification", "statement": "UnmarshalSort emits exactly the known keys of the comma-separated list, in order, DESC iff prefixed with '-', skips unknown keys unless strict, and in strict mode fails on the first unknown key.", "quantifier": "all byte strings and column maps", "why_tests_cant": "Arbitrary user input strings.", "anchors": ["filter/filter.go:UnmarshalSort"]}
{"id": "C29", "title": "predicate expression parsing", "statement": "Parsing the textual form of a where/join condition recovers column, operator, quantifier and right-hand side exactly for every operator in the documented table, except that the operators isbetweenasym and notbetweenasym are never recognised.", "quantifier": "all identifiers, all operators, all spacing variants", "why_tests_cant": "Combinatorial grammar with greedy scanning.", "anchors": ["internal/analysis/analysis.go:parsePredicateExpr", "internal/analysis/enums.go:predicates"]}
{"id": "C30", "title": "identifier validation", "statement": "A column or relation identifier is accepted iff it is a well-formed optionally qualified identifier; accepted identifiers print back to the input, so no characters outside the identifier alphabet can reach the generated SQL through identifiers.", "quantifier": "all byte strings", "why_tests_cant": "Injection safety is a statement about all strings.", "anchors": ["internal/analysis/analysis.go:parseColIdent", "internal/analysis/analysis.go:parseRelIdent"]}
{"id": "C31", "title": "relation namespace is collision free", "statement": "In every accepted query struct the names under which its relation and the relations of its join, from and using structs can be referred to are pairwise distinct, and every qualifier of a column anywhere in the result (record fields, where and join conditions, order by, conflict target and column lists) is one of them.", "quantifier": "all sequences of relation declarations", "why_tests_cant": "Arbitrary numbers of joins.", "anchors": ["internal/analysis/analysis.go:addToRelSpace", "internal/analysis/analysis.go:analyzeQueryStruct"]}
{"id": "C32", "title": "conflicting directives are rejected in any order", "statement": "In every accepted query struct at most one of where/filter/all is present, at most one of return/result/rowsaffected is present, and the relation, limit, offset, error handler and context occur at most once each, regardless of field order; every field's role is legal for the kind of query; a component of the result is present iff some field asks for it. The other directives may be repeated, and the last one wins.", "quantifier": "all field sequences", "why_tests_cant": "Order-insensitive invariant over unbounded field lists.", "anchors": ["internal/analysis/analysis.go:analyzeQueryStruct"]}
{"id": "C33", "title": "on-conflict block constraints", "statement": "An accepted on_conflict block, allowed only in an insert, has at most one target and at most one action, and an update action has a target; the result holds exactly the column list, index, constraint, ignore flag and update list its directives name. Blocks without any action are also accepted although the documentation demands exactly one.", "quantifier": "all field sequences", "why_tests_cant": "Invariant over all field sequences.", "anchors": ["internal/analysis/analysis.go:analyzeOnConflictStruct"]}
{"id": "C34", "title": "field mode options", "statement": "After parsing any option list, the permission of each kind (select, filter, insert, update) is the one set by the last option that mentions it, default allowed; an empty option string panics.", "quantifier": "all option lists", "why_tests_cant": "Unbounded option lists with interacting flags.", "anchors": ["internal/analysis/fieldmode.go"]}
{"id": "C35", "title": "nested field traversal", "statement": "The column list derived from a record type contains each eligible leaf field exactly once, in declaration order, with the concatenated prefixes of its ancestors, for arbitrary nesting; and every record type whose tags are well formed is accepted. Unexported fields of a struct of another package are left out unless the struct is reached through a pointer.", "quantifier": "all finite trees of struct fields", "why_tests_cant": "Unbounded nesting; an explicit-stack DFS replaces recursion.", "anchors": ["internal/analysis/analysis.go:analyzeFieldInfoList"]}
{"id": "C36", "title": "read-only nested structs are still written", "statement": "A field is written by INSERT/UPDATE iff its own options allow it (or it is forced); options on an enclosing struct field do not prevent writing.", "quantifier": "all nestings of field modes", "why_tests_cant": "Interaction of mode bits across nesting levels.", "anchors": ["internal/postgres/postgres.go:skipFieldInsert", "internal/analysis/types.go:IsReadOnly"]}
{"id": "C37", "title": "index expression matching", "statement": "From an index definition the text between the parentheses after the access method is extracted, for any nesting of parentheses and any quoted strings, so long as no string ends with a doubled quote and no quoted identifier contains parentheses, apostrophes or the word USING; each of these provisos is needed (witnesses: too much or too little text is taken, and an apostrophe at the very end panics).", "quantifier": "all balanced expressions", "why_tests_cant": "Arbitrary nesting depth.", "anchors": ["internal/postgres/postgres.go:parseIndexExpr"]}
{"id": "C38", "title": "conflict column matching", "statement": "The conflict-target columns match an index iff they are a permutation of the index's columns, provided the index's columns are distinct; an index on the same column twice is matched by that column together with any other.", "quantifier": "all integer lists", "why_tests_cant": "Arbitrary lists.", "anchors": ["internal/postgres/postgres.go:matchNumbers"]}
{"id": "C39", "title": "generated query arguments match placeholders", "statement": "In the code generated for a select/insert/update/delete query that writes no slice of records and has no filter field, the call's arguments are such that the server, replacing each $i by the i-th argument, executes exactly the statement the query struct describes with the values of its fields; the placeholders are exactly $1..$n for n arguments; the call is made whenever the fields exist and there are at most 65535 values. Two kinds of query are excluded because they violate this (witnesses are proved): a count with a limit field, and an update whose primary key is set to its default.", "quantifier": "all accepted query structs (any number of written fields, where conditions with nesting and between, primary keys, limit, offset)", "why_tests_cant": "Program generator: the property quantifies over all programs.", "anchors": ["internal/generator/generator.go:buildQueryInput", "internal/generator/generator.go:makeParamSpec", "internal/generator/generator.go:makeSQLBoolValueExprList"]}
{"id": "C40", "title": "generated slice parameters", "statement": "For where fields that are slices under IN, the arguments are the fixed ones followed by the members of the slices, each IN list has as many placeholders as its slice has members, and these numbers run consecutively after the fixed ones; the executed statement is the described one. The limit's default is not applied in this form (witness).", "quantifier": "all numbers of slices and lengths", "why_tests_cant": "Run-time lengths are unbounded.", "anchors": ["internal/generator/generator.go:buildQueryStringForSliceArgs"]}
{"id": "C41", "title": "multi-row insert placeholders", "statement": "For a slice of n records with k columns of which d use DEFAULT the generated loop emits n parenthesised rows each with k values, placeholder numbers run consecutively and match the flattened arguments, and the rest of the statement is the described one, for inserts and for updates by primary key. Witnesses: an update with a defaulted column has fewer values than columns, an update's RETURNING is dropped, and for an empty slice the statement itself is cut.", "quantifier": "all n, k and default subsets", "why_tests_cant": "Run-time loop over unbounded n.", "anchors": ["internal/generator/generator.go:buildQueryStringForSliceInsert"]}
{"id": "C42", "title": "negated and symmetric BETWEEN are emitted as plain BETWEEN", "statement": "The generated code does not depend on the kind of a between condition: notbetween, isbetweensym, notbetweensym conditions at any depth give the code of isbetween.", "quantifier": "all between conditions", "why_tests_cant": "No test generates code for the other predicates.", "anchors": ["internal/generator/generator.go:makeSQLBetweenPredicate"]}
{"id": "C43", "title": "import names", "statement": "Each import path gets exactly one entry and every request for the path is given that entry's name; the names are pairwise distinct provided no name asked for is another one followed by digits (otherwise there are requests that produce duplicates); the import declaration lists every path once, in some order, and binds it to that name; the default name is what follows the last slash.", "quantifier": "all sequences of import requests", "why_tests_cant": "Arbitrary sets of packages.", "anchors": ["internal/generator/generator.go:addimport"]}
{"id": "C44", "title": "nested pointer initialisation", "statement": "Every nested struct held by pointer on the path to a selected field is allocated exactly once, and after that all scan destinations can be written, unless two different paths concatenate to the same string, in which case the second stays nil and the method panics.", "quantifier": "all lists of field paths", "why_tests_cant": "Arbitrary sets of paths.", "anchors": ["internal/generator/generator.go:buildQueryOutputInitFields"]}
{"id": "C45", "title": "flags take precedence over the config file, the file over the defaults", "statement": "For every option of the command the value in effect is what the command line gives (the last text, or all texts for a list; an empty text counts only for textual options), otherwise the first value that the config file gives (null, an empty list and an empty type text give none), otherwise the documented default. Every malformed flag text ends the program, and well-formed flags and files are accepted. For the method argument type this holds when the flag is given at most once: a star given earlier is never taken back. A column tag is accepted exactly when it is empty or a Go identifier, a separator exactly when it has at most one byte.", "quantifier": "all argument lists, config files and directory trees", "why_tests_cant": "Combinations over all options, repetitions and values; the precedence is spread over four types with IsSet state.", "anchors": ["internal/config/config.go:ParseFlags", "internal/config/config.go:ParseFile", "internal/config/types.go:Set", "internal/config/types.go:UnmarshalJSON", "cmd/gosql/main.go:main"]}
{"id": "C46", "title": "output file naming", "statement": "A format passes validation iff it has no percent sign (then the name comes first) or exactly one, followed by s. The output lies in the directory of the input, its name is the input's name without .go inside the format, with .go appended unless already there. Different Go files get different outputs when what follows the name is none of the empty string, o and go (refuted for the empty string), and an input is never its own output when the format adds something that is not three bytes long; the formats %s and %s.go overwrite the source, and an output can be another input file.", "quantifier": "all paths and formats", "why_tests_cant": "All strings; the collisions need unusual names.", "anchors": ["internal/command/command.go:outFilePath", "internal/config/config.go:Validate"]}
{"id": "C47", "title": "tsquery[] strings", "statement": "Writing a []string or [][]byte as tsquery[]: when no element holds a double quote or backslash the server reads the same elements and the []string scanner returns them; the [][]byte scanner returns every element unchanged except that four-byte elements beginning with N become nil and nil becomes an empty slice.", "quantifier": "all finite lists of byte strings", "why_tests_cant": "Unbounded strings; the element that triggers the NULL confusion has to be guessed.", "anchors": ["pgsql/tsqueryarr.go:32-171"]}
{"id": "C48", "title": "text search query", "statement": "TextSearch(v) sends the blank-separated words of v, each with the prefix-match suffix :*, joined by ' & ', ignoring surrounding white space and repeated blanks.", "quantifier": "all byte strings", "why_tests_cant": "unbounded strings with arbitrary white space", "anchors": ["filter/filter.go:toTSQuery"]}
{"id": "C49", "title": "where structs", "statement": "The conditions of an accepted query struct's where struct are, in declaration order and with the same nesting, the conditions its tagged fields spell; neighbouring conditions are joined by exactly the connective the bool tag of the second names, and there is no leading connective. If every field named _ is a Column directive, conditions and connectives alternate; otherwise a connective without a condition after it is possible.", "quantifier": "all where structs of any length and nesting", "why_tests_cant": "Recursion over nested structs; the dangling connective needs a particular odd field.", "anchors": ["internal/analysis/analysis.go:analyzeWhereStruct"]}
{"id": "C50", "title": "join structs", "statement": "The joins of an accepted query struct are those its join, from or using struct declares, in order, each with its type, relation and conditions, where every condition refers to relations declared up to there; a bare relation is allowed only in from and using. A condition whose left column is unqualified is rejected exactly if the joined relation has no alias.", "quantifier": "all join structs and condition lists", "why_tests_cant": "Scope rules over an unbounded list of joins.", "anchors": ["internal/analysis/analysis.go:analyzeJoinStruct"]}
{"id": "C51", "title": "order by lists", "statement": "The order by items of an accepted query are those the tag spells: an optional minus for descending, a column in scope, an optional nullsfirst or nullslast; and every well-formed tag is understood.", "quantifier": "all tags", "why_tests_cant": "Unbounded lists; both directions.", "anchors": ["internal/analysis/analysis.go:analyzeOrderByDirective"]}
{"id": "C52", "title": "limit and offset", "statement": "A limit or offset directive needs a decimal unsigned 64-bit number and yields exactly its value; a limit or offset field needs an integer type, and takes its default from the tag if there is one.", "quantifier": "all tags and types", "why_tests_cant": "All decimal numerals, including those out of range.", "anchors": ["internal/analysis/analysis.go:analyzeLimitFieldOrDirective", "internal/analysis/analysis.go:analyzeOffsetFieldOrDirective"]}
{"id": "C53", "title": "column lists", "statement": "The return, force, optional and default lists of an accepted query are the columns in scope their tags spell, or all columns for *; each column of a return, force or optional list is a column of the query's record type.", "quantifier": "all tags and record types", "why_tests_cant": "Relates two unbounded lists.", "anchors": ["internal/analysis/analysis.go:analyzeReturnDirective", "internal/analysis/analysis.go:analyzeForceDirective", "internal/analysis/analysis.go:analyzeOptionalDirective", "internal/analysis/analysis.go:analyzeDefaultDirective"]}
{"id": "C54", "title": "filter structs", "statement": "An accepted filter struct has exactly one relation field, whose record type is analysed as for queries and is no iterator, and exactly one filter constructor field; every directive in it is a text search directive, the last of which gives the search column, which may be qualified only if the relation field precedes it.", "quantifier": "all field sequences", "why_tests_cant": "Exactly-once and order conditions over unbounded field lists.", "anchors": ["internal/analysis/analysis.go:analyzeFilterStruct"]}
{"id": "C55", "title": "generated queries with a filter", "statement": "The text of a query with a filter field is the statement without condition followed by the filter's text, each of the filter's placeholders stands for the value the filter gives for it, and the statement's own placeholders count the arguments that precede the filter's values. Not so (witnesses) for the order, limit and single-record limit of selects and the RETURNING of deletes, which come before the filter's WHERE, and for limit fields, whose argument is missing.", "quantifier": "all queries with a filter field, all filters and field values", "why_tests_cant": "Alignment of two independently built lists of any length, for every combination of clauses.", "anchors": ["internal/generator/generator.go:buildQueryStringForFilter", "internal/generator/generator.go:buildQueryInput"]}
{"id": "C56", "title": "rows collected in a slice", "statement": "When a query's output is a slice, the generated method appends one new record per row to the slice, in the order of the rows, after what the slice held: each record has the row's columns in its read fields in order, each through its converter, and nothing else. It stops at the first row that cannot be scanned and answers that error, or the error of the rows. The rows are closed, and no other field of the query changes.", "quantifier": "all result sets, record shapes and sets of selected fields", "why_tests_cant": "Needs induction over the rows, and arbitrary nesting of record types.", "anchors": ["internal/generator/generator.go:buildQueryResultRowsScan", "internal/generator/generator.go:buildQueryOutputInitRoot"]}
{"id": "C57", "title": "rows handed to an iterator", "statement": "When a query's output is an iterator, it is called once for each row, in order, with a new record holding the row's columns, until it answers with an error; then the loop ends and that error is answered.", "quantifier": "all result sets, iterators and record shapes", "why_tests_cant": "Iterators are arbitrary functions of what they have seen.", "anchors": ["internal/generator/generator.go:buildQueryResultRowsScan"]}
{"id": "C58", "title": "rows returned by slice inserts and updates", "statement": "The i-th row returned by an insert or update of a slice is written into the i-th record of the slice, changing only the fields read; records beyond the rows stay as they are. With more rows than records the method panics.", "quantifier": "all result sets and slices", "why_tests_cant": "Relates two unbounded lists by position.", "anchors": ["internal/generator/generator.go:buildQueryResultRowsScan", "internal/generator/generator.go:buildQueryOutputRoot"]}
{"id": "C59", "title": "single rows", "statement": "The row of a query with a single record, count or truth value as its output is stored in it, and no other field of the query changes; without a row the error is answered (but a pointer to the record is set all the same).", "quantifier": "all rows, records and record shapes", "why_tests_cant": "Arbitrary record shapes and contents.", "anchors": ["internal/generator/generator.go:buildQueryResultRowScan"]}
{"id": "C60", "title": "rows affected", "statement": "The rows affected field gets the number of rows converted to the field's type: the number itself when it is in the type's range, another one otherwise.", "quantifier": "all counts and integer types", "why_tests_cant": "All numbers and the boundaries of all types.", "anchors": ["internal/generator/generator.go:buildQueryResultRowsAffected"]}
{"id": "C61", "title": "error handlers", "statement": "An error of the call or of RowsAffected is returned, or handed to the query's error handler, and the query is not changed. On success a query without result answers nil, or what the handler makes of nil, except that a handler of ErrorInfo values is called with a nil error.", "quantifier": "all queries and errors", "why_tests_cant": "All combinations of handlers, results and errors.", "anchors": ["internal/generator/generator.go:makeErrorReturnStmt", "internal/generator/generator.go:makeErrorIfStmt"]}
{"id": "C62", "title": "columns read", "statement": "For an analysed and checked query the fields read are exactly those the query asks for: the returned columns for a return directive, every readable field for a select or a returning-all, none otherwise; each is connected to the row of the target relation that has its name, with the relation's alias as qualifier.", "quantifier": "all structs, databases and queries", "why_tests_cant": "All combinations of directives, record types and databases.", "anchors": ["internal/postgres/postgres.go:typeCheckQueryReturnDirective", "internal/postgres/postgres.go:typeCheckQueryResultField", "internal/postgres/postgres.go:typeCheckQueryRelField", "internal/postgres/postgres.go:typeCheckFieldRead"]}
{"id": "C63", "title": "checked queries meet the generator's preconditions", "statement": "Whatever passes analysis and the database check meets the conditions under which the properties of the generated code hold.", "quantifier": "all structs and databases", "why_tests_cant": "Links three stages for all inputs.", "anchors": ["internal/postgres/postgres.go:Check", "internal/postgres/postgres.go:typeCheckQueryStruct", "internal/generator/generator.go"]}
{"id": "C64", "title": "columns named by a query exist", "statement": "In a checked query every column named in the where struct, the join directives, order by, force and default directives denotes a row of a relation the query names, and defaulted columns have a default. Return and default directives ignore the qualifier, so a column of another alias is accepted and taken from the target.", "quantifier": "all databases and queries", "why_tests_cant": "All nestings of conditions and all databases.", "anchors": ["internal/postgres/postgres.go:typeCheckWhereItem", "internal/postgres/postgres.go:typeCheckQueryJoinStruct", "internal/postgres/postgres.go:findColumn", "internal/postgres/postgres.go:typeCheckQueryReturnDirective", "internal/postgres/postgres.go:typeCheckQueryDefaultDirective"]}
{"id": "C65", "title": "column comparisons are typed", "statement": "A column comparison of a checked query, also as a bound of a between, has operands the database can compare: the operator exists for the types or for types they can be cast to, IS predicates have boolean columns, and null tests have nullable columns or columns of other relations. Refuted for equal types: these are accepted even if the database has no such operator.", "quantifier": "all databases, queries and conditions at any nesting", "why_tests_cant": "All type and operator catalogs.", "anchors": ["internal/postgres/postgres.go:typeCheckColumnConditional", "internal/postgres/postgres.go:typeCheckComparison", "internal/postgres/postgres.go:typeCheckWhereBetweenStruct"]}
{"id": "C66", "title": "field conditions are typed", "statement": "A field condition is accepted if and only if the field's Go type fits, by the table of compatible types, the column's type or a type the operator accepts with it; acceptance does not depend on the order of the catalog. Which converter is used does.", "quantifier": "all catalogs with unique type OIDs and all field conditions", "why_tests_cant": "Catalogs are unbounded; the order of Go maps is random.", "anchors": ["internal/postgres/postgres.go:typeCheckFieldConditional", "internal/postgres/postgres.go:typeCompatibility", "internal/postgres/compatibility.go"]}
{"id": "C67", "title": "on-conflict targets exist", "statement": "The target of an on-conflict clause of a checked query is a unique or primary-key constraint of the target relation, or a unique index of it with that index's expression and predicate; for a column target the index key is exactly the set of listed columns. The updated columns are the listed columns of the relation, or the written ones.", "quantifier": "all databases and queries", "why_tests_cant": "All index and constraint catalogs.", "anchors": ["internal/postgres/postgres.go:typeCheckQueryOnConflictStruct", "internal/postgres/postgres.go:matchNumbers"]}
{"id": "C68", "title": "converters exist and take the field's type", "statement": "Every converter named by the table of compatible types is a function of package pgsql that takes the Go type it is named for and returns a Valuer, or takes a pointer to it and returns a Scanner; so a field whose type is neither a pointer nor a named basic type is passed to a function that accepts it. Refuted for inet arrays (scanners), for pointers and for named basic types. Conversely every exported converter, except those of hstore and interface{}, is the one that the checker finds for some column type and Go type (a length of one matters only for bit and char types); refuted for the two scanners of inet arrays.", "quantifier": "all entries and all Go types", "why_tests_cant": "Go types are unbounded; the generated code is not compiled by the tests for all entries.", "anchors": ["internal/postgres/compatibility.go", "internal/analysis/analysis.go:GenericLiteral"]}
{"id": "C69", "title": "fields fit their columns", "statement": "Each field a checked query writes to, or reads from, a column has its own Valuer or Scanner, or the column is a document, or the table has an entry for the field's type and the column's type, whose converter is used.", "quantifier": "all databases and queries", "why_tests_cant": "All catalogs and record types.", "anchors": ["internal/postgres/postgres.go:typeCheckFieldRead", "internal/postgres/postgres.go:typeCheckFieldWrite", "internal/postgres/postgres.go:typeCompatibility"]}
{"id": "C70", "title": "filter columns", "statement": "The columns of a checked filter are exactly the fields not excluded whose columns exist, each connected with its row and a fitting converter, and the text search column exists and is a tsvector.", "quantifier": "all databases and filters", "why_tests_cant": "All databases and record types.", "anchors": ["internal/postgres/postgres.go:typeCheckFilterStruct", "internal/postgres/postgres.go:typeCheckFieldFilter", "internal/postgres/postgres.go:typeCheckFilterTextSearchDirective"]}
{"id": "C71", "title": "the check does not panic", "statement": "The check of an analysed query does not panic if the catalog has the element types of its array types and the types of literals and index definitions can be read. It does panic otherwise, for instance for a literal of a pseudo-type.", "quantifier": "all structs and databases", "why_tests_cant": "All inputs and all catalogs.", "anchors": ["internal/postgres/postgres.go:Check", "internal/postgres/postgres.go:typeCheckComparison", "internal/postgres/postgres.go:typeOfLiteral"]}
{"id": "C72", "title": "columns of length one", "statement": "A string field can be written to and read from any column of a string type whose length is not 1. varchar(1) columns and bit(n) columns with n other than 1 are rejected for every Go type without methods of its own.", "quantifier": "all catalogs, columns and fields", "why_tests_cant": "All lengths and types.", "anchors": ["internal/postgres/postgres.go:isLength1Type", "internal/postgres/compatibility.go"]}
{"id": "C73", "title": "which config file is found", "statement": "Without -config, the file used is .gosql or .gosql.json in the innermost git root at or above the working directory (the file system's root excepted); no file is used only if there is no git root or the innermost one has neither; the search fails only if a directory cannot be read. With both files present the listing order decides (refuted that the result is a function of the directory's contents).", "quantifier": "all directory trees and working directories", "why_tests_cant": "All trees; depends on listing order.", "anchors": ["internal/config/config.go:ParseFile", "internal/config/config.go:examineDir"]}
{"id": "C74", "title": "exactly the declared targets are found", "statement": "A type is handed to the generator iff a file that passes the filter declares it, in a type declaration and a spec without a gosql:ignore comment, under a name that begins with select, insert, update, delete or filter in any letter case. Files and packages without targets are left out and no file occurs twice. The filter passes a file iff it is listed or matches an expression, or there is neither list nor expression.", "quantifier": "all packages, files, declarations and filters", "why_tests_cant": "Both directions over all declarations.", "anchors": ["internal/search/search.go:Search", "internal/search/search.go:hasIgnoreDirective", "internal/config/config.go:FileFilterFunc"]}
{"id": "C75", "title": "found types and the analysis agree on the kind of target", "statement": "A struct type whose name begins with one of the five words in ASCII letters is analysed as that kind of target. Refuted for what else the search finds: for a type that is no struct, for an alias of a struct with another name, and for a name spelled with U+017F, the analysis panics.", "quantifier": "all names and struct types", "why_tests_cant": "The search and the analysis decide by different means (a case-folding expression, a lower-cased prefix); tests use well-named structs.", "anchors": ["internal/search/search.go:Search", "internal/analysis/analysis.go:Run", "internal/analysis/analysis.go:analyzeQueryStruct"]}
{"id": "C76", "title": "what a run leaves on disk", "statement": "If the run succeeds, every file found has its formatted output on disk and nothing else changed; with a format as in C46 each output holds what was generated for its own file. If a target fails in analysis, check or generation, or the program panics, the disk is untouched. If writing fails at a file, the files before it are written, that file is gone (unless it could not be created), the rest is as before; so a good output of an earlier run can be lost.", "quantifier": "all packages, disks, generators, and answers of the operating system and of go/format", "why_tests_cant": "All failure points and all previous contents of the disk.", "anchors": ["internal/command/command.go:Run", "internal/command/command.go:writeOutFile"]}
{"id": "C77", "title": "date[] and Go time slices", "statement": "Writing a slice of times (years 1-9999) gives the server's array of their calendar days. Reading any date[] the server prints gives midnight UTC of each day; a NULL element, a date before year 1 or after 9999, or an infinity is an error, never another day. Written and read back, the days are the same.", "quantifier": "all time slices; all arrays of dates with NULLs and infinities", "why_tests_cant": "Every day of the calendar, every zone offset and every text the server can print; tests use a few dates.", "anchors": ["pgsql/datearr.go:DateArrayFromTimeSlice", "pgsql/datearr.go:DateArrayToTimeSlice"]}
{"id": "C78", "title": "daterange and daterange[]", "statement": "A daterange is written with inclusive lower and exclusive upper bound, a zero time as a missing bound, and read as its bounds, missing ones as the zero time; arrays elementwise, empty elements left out and NULL a panic. Values that are not the zero time survive the round trip. Refuted: an empty range comes back as the unbounded one, and the real date 0001-01-01 is written as no bound.", "quantifier": "all pairs of times and all dateranges with any inclusivity, missing bounds, infinities, and arrays of them", "why_tests_cant": "All combinations of bounds; the sentinel collision needs the one date nobody tests.", "anchors": ["pgsql/daterange.go:DateRangeFromTimeArray2", "pgsql/daterange.go:DateRangeToTimeArray2", "pgsql/daterangearr.go:DateRangeArrayFromTimeArray2Slice", "pgsql/daterangearr.go:DateRangeArrayToTimeArray2Slice"]}
{"id": "C79", "title": "time[] and timetz[]", "statement": "Writing gives the server's array of the times of day cut to milliseconds, for timetz with the zone in hours and minutes. Every time[] the server prints is read to the digit; 24:00:00 and NULL elements are errors. Refuted: written microseconds are lost, and a timetz[] whose zone the server prints in whole hours cannot be read.", "quantifier": "all times of day with all fractions, all zones, all arrays with NULLs", "why_tests_cant": "Fractions of one to six digits and three printed forms of a zone; tests use round times.", "anchors": ["pgsql/timearr.go:TimeArrayFromTimeSlice", "pgsql/timearr.go:TimeArrayToTimeSlice", "pgsql/timetzarr.go:TimetzArrayFromTimeSlice", "pgsql/timetzarr.go:TimetzArrayToTimeSlice"]}
{"id": "C80", "title": "timestamp[] and timestamptz[]", "statement": "Writing gives the server's array of the timestamps cut to milliseconds, with the zone cut to hours for timestamptz; reading gives what the server printed with UTC or the printed offset; BC, years after 9999, infinities and zones with minutes are errors, NULL elements the zero time. A timestamptz at millisecond precision in a whole-hour zone round-trips to the same instant. Refuted: with a half-hour zone another instant is stored, and a timestamp in a zone other than UTC comes back as another instant.", "quantifier": "all times, zones, arrays with NULLs and infinities", "why_tests_cant": "All zone offsets and fractions; tests run in UTC or whole hours.", "anchors": ["pgsql/timestamparr.go:TimestampArrayFromTimeSlice", "pgsql/timestamparr.go:TimestampArrayToTimeSlice", "pgsql/timestamptzarr.go:TimestamptzArrayFromTimeSlice", "pgsql/timestamptzarr.go:TimestamptzArrayToTimeSlice"]}
{"id": "C81", "title": "tsrange and tstzrange", "statement": "Written is always the range from the first time (included) to the second (excluded). Read are the two bounds whatever their inclusivity, a missing bound and an empty range as zero times. A written range is read back as its times to the millisecond. Refuted: a range without an end is written back as one that ends in year 1, one that includes its end without it.", "quantifier": "all pairs of times; all ranges with any inclusivity, missing bounds and infinities", "why_tests_cant": "All combinations of bounds and inclusivities.", "anchors": ["pgsql/tsrange.go:TsRangeFromTimeArray2", "pgsql/tsrange.go:TsRangeToTimeArray2", "pgsql/tstzrange.go:TstzRangeFromTimeArray2", "pgsql/tstzrange.go:TstzRangeToTimeArray2"]}
{"id": "C82", "title": "tsrange[] and tstzrange[]", "statement": "Arrays of pairs of times are written as the server's array of ranges, first time included, second excluded, and read back to the millisecond. Arrays of bounded ranges are read elementwise, empty elements left out, infinities an error. Refuted as total: a missing bound or a NULL element makes the reader panic.", "quantifier": "all slices of pairs; all arrays of ranges with NULLs, empties, missing bounds and infinities", "why_tests_cant": "All element combinations under two levels of quoting.", "anchors": ["pgsql/tsrangearr.go:TsRangeArrayFromTimeArray2Slice", "pgsql/tsrangearr.go:TsRangeArrayToTimeArray2Slice", "pgsql/tstzrangearr.go:TstzRangeArrayFromTimeArray2Slice", "pgsql/tstzrangearr.go:TstzRangeArrayToTimeArray2Slice"]}
{"id": "C83", "title": "single dates and times", "statement": "A scanned date keeps its instant and is told in UTC with valid fields; as text it is the server's text of the day in the time's own zone; any source that is no time, NULL included, empties the destination. time and timetz are scanned into text as the server's input form to the millisecond and to the zone's minutes, text is kept as it is, and any other source leaves the destination.", "quantifier": "all times with valid days and all offsets; all sources", "why_tests_cant": "Conversion to UTC crosses days, months, leap days and years.", "anchors": ["pgsql/date.go:DateToTime", "pgsql/date.go:DateToString", "pgsql/date.go:DateToByteSlice", "pgsql/time.go:TimeToString", "pgsql/timetz.go:TimetzToString"]}
{"id": "C84", "title": "macaddr, macaddr8 and their arrays", "statement": "Every text of a six- or eight-byte hardware address is read as these bytes, and such an address is written as a text of it; arrays likewise and they round-trip; a NULL element is an error. Refuted: a slice holding a nil address is written as the empty array, two of them as text that is no array.", "quantifier": "all addresses, all spellings with colons, all arrays with NULLs", "why_tests_cant": "2^48 and 2^64 addresses, in both letter cases.", "anchors": ["pgsql/macaddr.go:MACAddrFromHardwareAddr", "pgsql/macaddr.go:MACAddrToHardwareAddr", "pgsql/macaddrarr.go:MACAddrArrayFromHardwareAddrSlice", "pgsql/macaddrarr.go:MACAddrArrayToHardwareAddrSlice"]}
{"id": "C85", "title": "cidr and cidr[]", "statement": "A cidr in any spelling, IPv4 or IPv6, with or without double colon, is read as its network: address with the bits beyond the prefix cleared, and the mask of the prefix. A network with such a mask is written as a text of the same address and prefix length, and networks in the form net gives them round-trip. Arrays likewise; a NULL element is an error. Refuted: a network of IPv4-mapped IPv6 addresses comes back as an IPv4 network with another prefix length.", "quantifier": "all addresses, prefix lengths and spellings; all arrays with NULLs", "why_tests_cant": "2^128 addresses, 129 prefix lengths and all positions of the double colon.", "anchors": ["pgsql/cidr.go:CIDRFromIPNet", "pgsql/cidr.go:CIDRToIPNet", "pgsql/cidrarr.go:CIDRArrayFromIPNetSlice", "pgsql/cidrarr.go:CIDRArrayToIPNetSlice"]}
{"id": "C86", "title": "inet as net.IPNet", "statement": "An inet with a prefix is read as its network, one without as its address with no mask; NULL elements of arrays are zero networks. A network with a mask is written as a text of it. Refuted: the host part of an inet with a prefix is lost, and any inet without a prefix is written back as <nil>, which is the text of no inet.", "quantifier": "all addresses, prefix lengths and spellings; all arrays with NULLs", "why_tests_cant": "2^128 addresses and all spellings; tests never write back what was read.", "anchors": ["pgsql/inet.go:InetFromIPNet", "pgsql/inet.go:InetToIPNet", "pgsql/inetarr.go:InetArrayFromIPNetSlice", "pgsql/inetarr.go:InetArrayToIPNetSlice"]}
{"id": "C87", "title": "inet as net.IP", "statement": "An inet without a prefix is read as its address in sixteen bytes; one with a prefix is silently read as nil, which is written as NULL. An address of four or sixteen bytes is written as a text of it and sixteen-byte addresses round-trip; arrays likewise, with NULL elements read as nil. Refuted: nil in a slice is written as <nil>, which is the text of no inet; an IPv4-mapped IPv6 address becomes an IPv4 address.", "quantifier": "all addresses, prefix lengths and spellings; all arrays with NULLs", "why_tests_cant": "2^128 addresses and all spellings.", "anchors": ["pgsql/inet.go:InetFromIP", "pgsql/inet.go:InetToIP", "pgsql/inetarr.go:InetArrayFromIPSlice", "pgsql/inetarr.go:InetArrayToIPSlice"]}
{"id": "C88", "title": "slices of floats as float4[], float8[] and numeric[]", "statement": "Every float is written as a text that rounds to it (to nearest, ties to even), with the fewest digits any such text has; the array is the one the server writes for these texts. Any array of the server's numerals, infinities and NaN is read as the floats these denote; a NULL or a number too large for the Go type is an error. A slice written and read with the same Go type is unchanged, including -0, the infinities and NaN.", "quantifier": "all values of float32 and float64, all numerals (any number of digits, exponents), all slices", "why_tests_cant": "2^64 values and infinitely many numerals; correct rounding fails only near half-way points.", "anchors": ["pgsql/float4arr.go:33-125", "pgsql/float8arr.go:33-125", "pgsql/numericarr.go:Float32Slice", "pgsql/numericarr.go:Float64Slice"]}
{"id": "C89", "title": "floats in columns of the other width", "statement": "A float32 in a float8[] is stored as its own value and read back unchanged; every text that denotes it as a float8 denotes it as a float4. A float64 written to a float4[] is the float4 its shortest text rounds to, or an error of the server if that is too large. Refuted: the server's text of a float4 read into a float64 is in general not the float4's value.", "quantifier": "all float32 and float64 values, all slices", "why_tests_cant": "Double rounding errors occur for few of the 2^64 values.", "anchors": ["pgsql/float8arr.go:33-76", "pgsql/float4arr.go:82-125"]}
{"id": "C90", "title": "floats as integers and integer ranges", "statement": "A float in a value for an integer array, an int2vector, an int2vector[] or a range is written as the integer that remains when the fraction is cut off; integers are read as the nearest float, which is exact below 2^24 (2^53). NULL elements of arrays are errors, missing bounds read as 0, empty ranges in arrays are dropped. Refuted: int8 values of 54 bits are not read exactly; a numrange loses its fractions when written and cannot be read if it has any; int8range[] and numrange[] into float32 reject bounds beyond int32 although int8range accepts them. An int2vector[] of a single number of two digits is read as two vectors, as for the integer types (C18).", "quantifier": "all floats within int64, all integers of the columns, all slices and ranges", "why_tests_cant": "All floats and integers; tests use small integers.", "anchors": ["pgsql/int2arr.go:625-718", "pgsql/int4arr.go:625-718", "pgsql/int8arr.go:623-716", "pgsql/int2vector.go:623-716", "pgsql/int4range.go:563-643", "pgsql/int8range.go:563-643", "pgsql/numrange.go:563-643", "pgsql/int4rangearr.go:763-883", "pgsql/int8rangearr.go:763-883", "pgsql/numrangearr.go:763-883", "pgsql/int2vectorarr.go:709-823"]}
{"id": "C91", "title": "field information and filter column keys", "statement": "Every field listed for a record type carries exactly what its own declaration and tags, and those of the embedded and nested structs on the way to it, say: its name and tags, the nodes of its selector, its column, its modes (including those inherited from containing structs), its nullempty, default, add and coalesce settings, and its filter column key, which is built from the nearest fck settings (tag name, separator, base) falling back to the configuration, and is unique for a field.", "quantifier": "all record types, all paths of nested fields, all tags and all configured fck defaults", "why_tests_cant": "Nesting depth, tag contents and inheritance of settings are unbounded; tests list a handful of structs.", "anchors": ["internal/analysis/analysis.go:520-640", "internal/analysis/analysis.go:2015-2095"]}
{"id": "C92", "title": "the relation field decides the query kind; override, rows affected, filter, context and handler fields", "statement": "An accepted query struct has exactly one field tagged rel; its name and type decide whether a select is an ordinary, count, exists or not-exists query, and directives, iterators and count fields are accepted only in queries of the right kind. The overriding clause is what the override directive spells; the rows-affected field is an integer field of that name; the filter, context and error handler fields are recorded under the names of the fields which play those roles, and a handler is recorded as an info handler exactly when its type only implements the info interface.", "quantifier": "all query structs accepted by the analysis", "why_tests_cant": "All accepted structs with fields in any order and with any tags; tests check individual fixtures.", "anchors": ["internal/analysis/analysis.go:306-400", "internal/analysis/analysis.go:1461-1560", "internal/analysis/analysis.go:1605-1630"]}
{"id": "C93", "title": "the names of a generated method obey Go's rules", "statement": "For every query struct the analysis accepts and the database check passes, the Exec method written for it declares every name before use, in scope where it is used, declares no name twice in a block, leaves no declared variable unused, assigns only to variables that exist, and never shadows a type or package it needs later; provided the record types are not named like the generator's own variables, a select of several rows reads a column into something other than an array, and the join of a slice write has no IN between columns. Each proviso is needed: the same method breaks the rules for an array output, for a record type named row, and for a slice update whose join says isin.", "quantifier": "all accepted and checked query structs, all import names, with and without a context parameter", "why_tests_cant": "Which statements are emitted depends on the combination of dozens of query features; golden files compile only the combinations someone wrote down.", "anchors": ["internal/generator/generator.go:180-251", "internal/generator/generator.go:442-624", "internal/generator/generator.go:1430-2041", "internal/generator/generator.go:2138-2224"]}
{"id": "C94", "title": "every accepted query has a statement, and its method executes it", "statement": "For every query struct the analysis accepts and the database check passes, there is an SQL statement that the struct describes, and the Exec method written for the struct executes exactly that statement with the values of the struct's fields bound to its placeholders, calls the database method fitting the query, and passes the context along. The same holds for writing a slice of records, where each record adds one row, and for queries with a filter field, where the filter's text and values follow the fixed part. Required: the conditions alternate with connectives, the operands of every condition make sense for its operator, a directive From or Using names a relation, no key in the condition is set to its default, and updates of slices return nothing.", "quantifier": "all accepted and checked query structs, all values of their fields on which the method does not fail", "why_tests_cant": "Composes the analysis, the type checker and the generator over all structs, databases and values; tests compare generated text for a list of fixtures.", "anchors": ["internal/analysis/analysis.go", "internal/postgres/postgres.go:171-291", "internal/generator/generator.go"]}
{"id": "C95", "title": "every accepted query stores the rows it receives", "statement": "For every query struct the analysis accepts and the database check passes, the fields the rows are read into are values inside the record type of exactly one field of the struct, at different places, and each struct on the way is recorded as a pointer exactly if it is one. So the Exec method decodes every row into a record of its own: appended to the slice, handed to the iterator, written to the record given, or stored in the single record, in the order of the rows; it leaves all other fields of the query alone, closes the rows, and answers with the first error. Required: the struct types have distinct field names as Go demands, no column is returned twice, and no two pointer paths spell the same string.", "quantifier": "all accepted and checked query structs, all record types, all rows, errors and values held before", "why_tests_cant": "Joins the analysis of nested record types with the behaviour of the generated code on all results; the tests compare generated text and never run it.", "anchors": ["internal/analysis/analysis.go:520-641", "internal/postgres/postgres.go:360-474", "internal/generator/generator.go:1430-2041"]}
{"id": "C96", "title": "a query is rejected exactly when something is wrong with it, and the error names it", "statement": "If the database check rejects a query or filter with an error code, the query has a fault of that code: an unknown relation, qualifier, column or column type; a null or truth test on a column that does not allow it; a literal the server does not know; a quantified operand that is no array; operands for which the catalog has no operator, also after an implicit cast; a field for which no parameter type and valuer or function exists; a field type that the column's values cannot be read into or taken from; a missing default; an unsuitable index or constraint. Conversely no query with such a fault is accepted. Hence an analysed query on a complete catalog is accepted if and only if it has none of the faults.", "quantifier": "all databases whose catalogs have one row per key, all queries and filters", "why_tests_cant": "A checker that is too strict, or that reports another code, passes any test with accepted queries; the space of databases, conditions and nestings is unbounded.", "anchors": ["internal/postgres/postgres.go:Check", "internal/postgres/postgres.go:typeCheckComparison", "internal/postgres/postgres.go:typeCheckFieldConditional", "internal/postgres/postgres.go:typeCheckFieldRead", "internal/postgres/postgres.go:typeCheckFieldWrite", "internal/postgres/postgres.go:typeCheckQueryOnConflictStruct"]}
{"id": "C97", "title": "The code generated for filter types", "statement": "For every filter type the tool accepts, the generated Init hands the constructor a map in which each key belongs to the first filterable field that has it (with its column, converter and nullability), every filterable field whose name is not reserved gets a method, and if no two methods share a name then any tree of calls of the generated methods does to the constructor exactly the conditions on the fields' columns, with And and Or as connectives and parentheses; FQL rules and sort keys after Init refer to the same columns. Names can collide: a field named And, ToSQL or like the constructor field breaks the generated code.", "quantifier": "all analysed filter types, databases, configs, call trees, FQL rules and sort keys", "why_tests_cant": "Field lists, key collisions and call trees are unbounded; the golden files cover a few filter types.", "anchors": ["internal/generator/generator.go:buildFilterCode", "internal/generator/generator.go:buildFilterColumnMap", "internal/generator/generator.go:buildFilterMethodsForColumns", "filter/filter.go"]}
{"id": "C98", "title": "Query and filter structs are rejected exactly for their faults", "statement": "For every error code of the analysis there is a description of what is wrong with the struct (no or two relation fields, an unnamed or taken relation, a record type that is none, an unknown directive, a field that its kind of query does not allow or that comes twice, a condition without operands or with illegal operators, an unknown qualifier, a number that is none, a column without a field, and so on). A query struct or filter struct that is rejected has the fault its error names; one that is accepted has no fault; and a struct whose name begins with one of the four words, without predeclared named types and without empty or non-ASCII tag options, is either accepted or rejected, never a panic. A field of type error does panic.", "quantifier": "all structs with plain field and type names, all packages, all tags", "why_tests_cant": "Structs, tags, nested conditions and record types are unbounded, and the tests try each error on a handful of structs; that nothing else is rejected cannot be tested.", "anchors": ["internal/analysis/analysis.go:Run", "internal/analysis/analysis.go:analyzeQueryStruct", "internal/analysis/analysis.go:analyzeFilterStruct", "internal/analysis/error.go"]}
{"id": "C99", "title": "Types, converters and operators are those of PostgreSQL", "statement": "The tool's table of array types is the one of PostgreSQL's catalog (for every type but name, oid and oidvector) and its inverse is exactly inverse; every converter chosen for a column belongs to the column's type; and a comparison is checked with the operator that PostgreSQL uses for the words written in the statement, so in every accepted where condition either both operands have one type (or are an untyped literal for a string) or that operator exists for them, if need be after an implicit cast. Not so for SIMILAR TO (checked as LIKE) and IS DISTINCT FROM (checked as <>).", "quantifier": "all types, converters, predicates, databases and accepted queries", "why_tests_cant": "The tests use a handful of types and operators against one database; a wrong row of a table only shows for the type it is about.", "anchors": ["internal/postgres/oid/types.go", "internal/postgres/compatibility.go", "internal/postgres/enums.go:predicateToOprname", "internal/postgres/postgres.go:typeCheckComparison"]}
{"id": "C100", "title": "NULL and the zero values of Go", "statement": "The constants by which the generated statements replace NULL (COALESCE) and are replaced by NULL (NULLIF) are SQL constants, except the one for lseg; and whenever the values of the field's Go type are the values of the column's type (numbers, booleans, timestamps, texts), the constant is the zero value of the Go type, so NULL is read as zero and zero is written as NULL. For fields that hold the text of other types (a string for a box) NULL is not read as the empty string.", "quantifier": "all columns, all field types, all queries", "why_tests_cant": "The table has some ninety rows, and the tests run the statements for few of them; whether a constant is the zero value of each Go type is a relation between two tables.", "anchors": ["internal/postgres/oid/types.go:TypeToZeroValue", "internal/generator/generator.go:addCoalesceCallExpr", "internal/generator/generator.go:addNULLIFCallExpr"]}
{"id": "C101", "title": "Which types implement which interfaces", "statement": "A named type is taken for a sql.Scanner, driver.Valuer, json or xml marshaler or unmarshaler, gosql.Conn, filter constructor, after-scanner or error handler exactly if it declares (or, being an interface, lists) all methods of the interface with identical types spelled without aliases other than any. Such a type implements the interface. The converse fails: methods promoted from embedded fields, parameter types named by an alias, interface types as after-scanners and error handlers, and gosql.FilterConstructor itself (InitV2 is asked for as well) are missed. A variadic UnmarshalJSON and packages whose path merely ends in github.com/frk/gosql are taken wrongly. The predicates return for every type whose xml, HandleErrorInfo and InitV2 methods take no predeclared named type, and panic for some others.", "quantifier": "all type declarations of a compiled package, including recursive ones and embedding to any depth", "why_tests_cant": "The tests run the predicates on some twenty types; method sets depend on arbitrary declarations, embedding and aliases.", "anchors": ["internal/typesutil/predicates.go:ImplementsScanner", "internal/typesutil/predicates.go:ImplementsGosqlConn", "internal/typesutil/predicates.go:ImplementsGosqlFilterConstructor", "internal/typesutil/predicates.go:ImplementsErrorInfoHandler", "gosql.go:Conn"]}
{"id": "C102", "title": "uuid arrays, single characters, documents and the zero time", "statement": "The literal written for a list of uuids is the array of those uuids (nil and empty lists apart); CharFromByte and CharFromRune store a byte or rune that the scanners read back; BitFromBool stores 1 or 0; JSON and XML values are stored as the text of the marshaller and read back from bytes by the unmarshaller, errors passed on; AnyToEmptyInterface gives the source. ParseFloat never panics, a count stored in a smaller integer field is taken modulo its range, and a time is zero exactly at the first instant of year 1 in UTC. Refuted: uuids in braces, document sources that are strings or NULL, nil pointers.", "quantifier": "all lists, bytes, runes, marshallers, texts, counts and times", "why_tests_cant": "Unbounded inputs and arbitrary marshalling functions.", "anchors": ["pgsql/uuidarr.go", "pgsql/char.go", "pgsql/bit.go", "pgsql/json.go", "pgsql/xml.go", "pgsql/any.go"]}
{"id": "C103", "title": "on which texts scanners panic", "statement": "Scanning varbit, tsvector, int2vector, char, cidr and macaddr values never panics, whatever the source text. Scanning arrays of text, tsquery, uuid (as text), varbit, integers, floats, dates, times and network addresses, ranges of integers and dates, points, lines, paths, polygons and arrays of the last two panics exactly when the text has fewer than two bytes; bool[] and bit[] also when an element has no bytes; money exactly on the empty text. timestamp[] and tsrange panic only on texts, elements or bounds of fewer than two bytes, money[] only on such texts or empty elements, lseg only with three opening brackets. Texts of 36 bytes never make uuid panic, texts without backslashes never hstore, texts without quotation marks never char[]. Refuted without those conditions, and for box, box[], line[], point[] and hstore[].", "quantifier": "all source texts and destinations", "why_tests_cant": "Arbitrary malformed texts; the tests only scan what PostgreSQL outputs.", "anchors": ["pgsql/convert_util.go", "pgsql/boolarr.go", "pgsql/money.go", "pgsql/timestamparr.go", "pgsql/hstore.go"]}
{"id": "C104", "title": "the cache of record types", "statement": "A run of the command analyses its structs one after the other with a shared cache of record types. It reports for every struct what the struct's analysis on its own reports, if no struct comes twice, types of the same text are the same type, a record type is used in one package only, and one with qualified columns by one struct only; a run on a single struct always does. The key tells declared types and pointers, slices and arrays of them apart by package path, name and length. What is stored answers for the type from then on whatever the package and relations. Refuted without the conditions: for two packages (the imported flag and the unexported fields are those of the first), for qualified columns (acceptance depends on the order), and for analyses after a failed one (a bad record type is accepted with missing columns).", "quantifier": "all configurations and lists of structs", "why_tests_cant": "The effect depends on the sequence of structs and packages in one process; the tests analyse each struct for itself.", "anchors": ["internal/analysis/analysis.go:423", "internal/analysis/analysis.go:505", "internal/analysis/analysis.go:2350", "internal/command/command.go:64"]}
{"id": "C105", "title": "the cache of relations", "statement": "Relations loaded one after the other through Catalog.Relations: every load is answered; a load that succeeds gives a pointer to what the first successful load of the same identifier read; a load fails only if no earlier load of the identifier succeeded, and with the error it gives alone, so that failures are not remembered; while the database does not change every load gives what it gives alone; two pointers are equal if and only if name, alias and schema of the identifiers are, which is what the checker's comparison of relations relies on.", "quantifier": "all sequences of loads and states of the database", "why_tests_cant": "The tests load a handful of relations from one database; the claim is about every sequence of identifiers, of failures and of changes between loads.", "anchors": ["internal/postgres/postgres.go:1806", "internal/postgres/postgres.go:1982", "internal/postgres/postgres.go:908", "internal/analysis/types.go:588"]}
{"id": "C106", "title": "record types that mention themselves", "statement": "The analysis of a record type ends if the elements of the types of its columns come to an end and nesting (tags that start with >) does not come back to a struct it is in; it gives fields only then, so that other record types fail or do not end. For types which mention themselves nowhere it gives what the analysis of the written-out types gives. Types can mention themselves in a column that is a pointer to a struct. It is false that the analysis always ends: with type Node struct { Parent *Node `sql:\">parent_\"` } it runs forever, as it does for a field of type T []T.", "quantifier": "all systems of type declarations, recursive ones included, and all record types", "why_tests_cant": "No test has a recursive record type; a test of one that does not end never finishes, and termination for all the others is a statement about all declarations.", "anchors": ["internal/analysis/analysis.go:520", "internal/analysis/analysis.go:577", "internal/analysis/analysis.go:647"]}
{"id": "C107", "title": "filter value converters", "statement": "An entry of filter_value_converters names a type and a function by texts path.Name: accepted are exactly the texts whose path has at least two characters, letters, digits and underscores at its ends and also dots and slashes between, and whose name is an identifier; they are printed as given. An entry gets the first text that is given for each key and fails only on a value that is neither null nor such a text; a value of another kind is an error unless a text for its key came before it, and an error in one entry is an error of all. A field of a filter gets the function of the last entry for its type; fields of types that are not declared (string, pointers, slices) get none. The generated code refers to it by its name in its own package and otherwise by the name under which its package is imported. Refuted: that this name is always an identifier (it is the last part of the path, such as null.v4); that paths with a hyphen are accepted (the expression has the range from dot to slash instead), or those of one letter; that an entry without a type is harmless: it is used for every field of a type that is not declared; that an entry without a function is rejected: the generated code refers to a function without a name.", "quantifier": "all texts, all lists of entries, all fields and types", "why_tests_cant": "Tests configure one converter with one well-formed path; which of all texts match an expression, and which fields a table of entries affects, are statements about all of them.", "anchors": ["internal/config/types.go:213-268", "internal/config/config.go:98-111", "internal/config/config.go:296", "internal/analysis/analysis.go:2357", "internal/analysis/types.go:703", "internal/generator/generator.go:750", "internal/generator/generator.go:2062"]}
{"id": "C108", "title": "texts of the checker's errors", "statement": "Every error that a check of a query or filter against the database ends in has a text, which begins with file and line of the field at fault. For an unknown column it gives the reference, the field's definition and the relation in which the column was looked for, whose columns do not include it; for an unknown relation or qualifier it gives that name; for columns that cannot be compared, the operator with the columns' types in order. For each kind of failure the text has a headline of that kind followed by a sentence with the columns, types, predicate, literal, index or function concerned. Types are shown by name in the query's package and otherwise with the last part of the package's path; the fields of a struct are left out. Refuted: that errors about the database itself (no connection, failing catalog queries, unknown column types) can be printed: the method panics for all of them, because the template names a field that is not there or passes a number for a text; that an error about a predicate shows it (for fields the shown predicate is empty and the operand's type is <nil>); that the order of operands is kept (for fields the operator is shown with the field's type first, although the column is on the left); that pointers and slices are shown as such.", "quantifier": "all databases, relations, columns, fields, predicates and checks that fail", "why_tests_cant": "Tests compare the contents of some errors and rarely print them; which errors have a text at all is a statement about every template and all contents.", "anchors": ["internal/postgres/errors.go:72-128", "internal/postgres/errors.go:152-240", "internal/postgres/errors.go:264-679", "internal/postgres/postgres.go:115-166", "internal/postgres/postgres.go:862-948"]}
