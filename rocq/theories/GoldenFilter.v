(** The model run on the cases of /repo/filter/filter_test.go: the calls of each
    case give the text and the parameters which the test expects.  The tokens of
    package fql are written out; a value of another type is a number: 1 a
    float64, 2 a time, 3 the myString of the test.  The file was written by a
    script from filter_test.go. *)
From Coq Require Import Ascii String ZArith NArith Bool List.
From Verif Require Import GoBase ConvertUtil Filter.
Import ListNotations.
Local Open Scope string_scope.
Local Open Scope list_scope.
Local Open Scope Z_scope.

Definition to_mystring (v : gval) : res gval := match v with GString _ => Ok (GOther 3) | _ => Ok v end.
Definition start : cst :=
  {| f_where := []; f_orderby := []; f_limit := 0; f_offset := 0;
     s_colmap := [(B "a", {| c_name := B "col_a"; c_conv := None; c_nullable := true |}); (B "b", {| c_name := B "col_b"; c_conv := None; c_nullable := false |}); (B "c", {| c_name := B "col_c"; c_conv := None; c_nullable := false |}); (B "d", {| c_name := B "col_d"; c_conv := None; c_nullable := false |}); (B "e", {| c_name := B "col_e"; c_conv := Some to_mystring; c_nullable := false |}); (B "f", {| c_name := B "col_f"; c_conv := None; c_nullable := false |}); (B "g", {| c_name := B "col_g"; c_conv := None; c_nullable := false |}); (B "h", {| c_name := B "col_h"; c_conv := None; c_nullable := false |}); (B "i", {| c_name := B "col_i"; c_conv := None; c_nullable := false |}); (B "j", {| c_name := B "col_j"; c_conv := None; c_nullable := false |})];
     s_tscol := B "t.""tsvec"""; s_strict := true |}.

Example filter_test_fql_1 :
  ToSQL (runs [KFQL [TRule (B "a") (B "=") (GBool true)] false] start) 0
  = Ok (B " WHERE col_a IS TRUE", []).
Proof. vm_compute. reflexivity. Qed.
Example filter_test_fql_2 :
  ToSQL (runs [KFQL [TRule (B "b") (B "<>") (GBool true)] false] start) 0
  = Ok (B " WHERE col_b IS NOT TRUE", []).
Proof. vm_compute. reflexivity. Qed.
Example filter_test_fql_3 :
  ToSQL (runs [KFQL [TRule (B "c") (B "<>") (GBool false); TAnd; TRule (B "d") (B "=") (GBool false)] false] start) 0
  = Ok (B " WHERE col_c IS NOT FALSE AND col_d IS FALSE", []).
Proof. vm_compute. reflexivity. Qed.
Example filter_test_fql_4 :
  ToSQL (runs [KFQL [TRule (B "a") (B "=") (GNil); TAnd; TRule (B "b") (B "<>") (GNil)] false] start) 0
  = Ok (B " WHERE col_a IS NULL AND col_b IS NOT NULL", []).
Proof. vm_compute. reflexivity. Qed.
Example filter_test_fql_5 :
  ToSQL (runs [KFQL [TRule (B "a") (B ">") (GInt64 (18))] false] start) 0
  = Ok (B " WHERE col_a > $1", [GInt64 (18)]).
Proof. vm_compute. reflexivity. Qed.
Example filter_test_fql_6 :
  ToSQL (runs [KFQL [TRule (B "b") (B ">=") (GInt64 (-90))] false] start) 0
  = Ok (B " WHERE col_b >= $1", [GInt64 (-90)]).
Proof. vm_compute. reflexivity. Qed.
Example filter_test_fql_7 :
  ToSQL (runs [KFQL [TRule (B "c") (B "<") (GOther 1)] false] start) 0
  = Ok (B " WHERE col_c < $1", [GOther 1]).
Proof. vm_compute. reflexivity. Qed.
Example filter_test_fql_8 :
  ToSQL (runs [KFQL [TRule (B "d") (B "<=") (GOther 2)] false] start) 0
  = Ok (B " WHERE col_d <= $1", [GOther 2]).
Proof. vm_compute. reflexivity. Qed.
Example filter_test_fql_9 :
  ToSQL (runs [KFQL [TRule (B "e") (B "<>") (GString (B "John Doe"))] false] start) 0
  = Ok (B " WHERE col_e <> $1", [GOther 3]).
Proof. vm_compute. reflexivity. Qed.
Example filter_test_fql_10 :
  ToSQL (runs [KFQL [TLParen; TRule (B "a") (B "=") (GInt64 (123)); TRParen] false] start) 0
  = Ok (B " WHERE (col_a = $1)", [GInt64 (123)]).
Proof. vm_compute. reflexivity. Qed.
Example filter_test_fql_11 :
  ToSQL (runs [KFQL [TLParen; TRule (B "a") (B "=") (GInt64 (123)); TRParen; TOr; TRule (B "b") (B "=") (GInt64 (456))] false] start) 0
  = Ok (B " WHERE (col_a = $1) OR col_b = $2", [GInt64 (123); GInt64 (456)]).
Proof. vm_compute. reflexivity. Qed.
Example filter_test_fql_12 :
  ToSQL (runs [KFQL [TRule (B "a") (B "=") (GInt64 (123)); TAnd; TLParen; TRule (B "b") (B "=") (GInt64 (456)); TOr; TRule (B "c") (B "=") (GInt64 (789)); TRParen] false] start) 0
  = Ok (B " WHERE col_a = $1 AND (col_b = $2 OR col_c = $3)", [GInt64 (123); GInt64 (456); GInt64 (789)]).
Proof. vm_compute. reflexivity. Qed.
Example filter_test_fql_13 :
  ToSQL (runs [KFQL [TRule (B "a") (B "=") (GInt64 (123)); TAnd; TLParen; TRule (B "b") (B "=") (GInt64 (456)); TOr; TRule (B "c") (B "=") (GInt64 (789)); TRParen] false] start) 24
  = Ok (B " WHERE col_a = $25 AND (col_b = $26 OR col_c = $27)", [GInt64 (123); GInt64 (456); GInt64 (789)]).
Proof. vm_compute. reflexivity. Qed.
Example filter_test_fql_14 :
  ToSQL (runs [KFQL [TRule (B "a") (B "=") (GInt64 (1)); TAnd; TLParen; TRule (B "b") (B "=") (GInt64 (2)); TOr; TLParen; TRule (B "c") (B "=") (GInt64 (3)); TAnd; TRule (B "d") (B "=") (GInt64 (4)); TAnd; TLParen; TRule (B "e") (B "=") (GInt64 (5)); TOr; TRule (B "f") (B "=") (GInt64 (6)); TRParen; TRParen; TOr; TLParen; TRule (B "g") (B "=") (GInt64 (7)); TAnd; TRule (B "h") (B "=") (GInt64 (8)); TRParen; TRParen; TAnd; TLParen; TRule (B "i") (B "=") (GInt64 (9)); TOr; TRule (B "j") (B "=") (GInt64 (0)); TRParen] false] start) 0
  = Ok (B " WHERE col_a = $1 AND (col_b = $2 OR (col_c = $3 AND col_d = $4 AND (col_e = $5 OR col_f = $6)) OR (col_g = $7 AND col_h = $8)) AND (col_i = $9 OR col_j = $10)", [GInt64 (1); GInt64 (2); GInt64 (3); GInt64 (4); GInt64 (5); GInt64 (6); GInt64 (7); GInt64 (8); GInt64 (9); GInt64 (0)]).
Proof. vm_compute. reflexivity. Qed.
Example filter_test_fql_15 :
  ToSQL (runs [KFQL [TRule (B "a") (B "=") (GInt64 (1)); TAnd; TLParen; TRule (B "b") (B "=") (GInt64 (2)); TOr; TLParen; TRule (B "c") (B "=") (GInt64 (3)); TAnd; TRule (B "d") (B "=") (GInt64 (4)); TAnd; TLParen; TRule (B "e") (B "=") (GInt64 (5)); TOr; TRule (B "f") (B "=") (GInt64 (6)); TRParen; TRParen; TOr; TLParen; TRule (B "g") (B "=") (GInt64 (7)); TAnd; TRule (B "h") (B "=") (GInt64 (8)); TRParen; TRParen; TAnd; TLParen; TRule (B "i") (B "=") (GInt64 (9)); TOr; TRule (B "j") (B "=") (GInt64 (0)); TRParen] false] start) 10
  = Ok (B " WHERE col_a = $11 AND (col_b = $12 OR (col_c = $13 AND col_d = $14 AND (col_e = $15 OR col_f = $16)) OR (col_g = $17 AND col_h = $18)) AND (col_i = $19 OR col_j = $20)", [GInt64 (1); GInt64 (2); GInt64 (3); GInt64 (4); GInt64 (5); GInt64 (6); GInt64 (7); GInt64 (8); GInt64 (9); GInt64 (0)]).
Proof. vm_compute. reflexivity. Qed.
Example filter_test_fql_error_1 : snd (UnmarshalFQL [TRule (B "foo") (B "=") (GInt64 (1))] false start) = true.
Proof. vm_compute. reflexivity. Qed.
Example filter_test_fql_error_2 : snd (UnmarshalFQL [TRule (B "a") (B "=") (GInt64 (123)); TAnd; TLParen; TRule (B "b") (B "=") (GInt64 (456)); TOr; TRule (B "x") (B "=") (GInt64 (789)); TRParen] false start) = true.
Proof. vm_compute. reflexivity. Qed.
Example filter_test_sort_1 :
  ToSQL (runs [KSort (B "-a")] start) 0
  = Ok (B " ORDER BY col_a DESC NULLS LAST", []).
Proof. vm_compute. reflexivity. Qed.
Example filter_test_sort_2 :
  ToSQL (runs [KSort (B "a,b,-c")] start) 0
  = Ok (B " ORDER BY col_a ASC NULLS LAST, col_b ASC, col_c DESC", []).
Proof. vm_compute. reflexivity. Qed.
Example filter_test_sort_3 :
  ToSQL (runs [KSort (B "-c,b,a")] start) 0
  = Ok (B " ORDER BY col_c DESC, col_b ASC, col_a ASC NULLS LAST", []).
Proof. vm_compute. reflexivity. Qed.
Example filter_test_sort_error_1 : snd (UnmarshalSort (B "-c,b,x") start) = true.
Proof. vm_compute. reflexivity. Qed.
Example filter_test_sort_error_2 : snd (UnmarshalSort (B "foo") start) = true.
Proof. vm_compute. reflexivity. Qed.
Example filter_test_text_search_1 :
  ToSQL (runs [KTextSearch (B "foo bar")] start) 0
  = Ok (B " WHERE t.""tsvec"" @@ to_tsquery('simple', $1)", [GString (B "foo:* & bar:*")]).
Proof. vm_compute. reflexivity. Qed.
Example filter_test_text_search_2 :
  ToSQL (runs [KTextSearch (B "foo"); KOr None; KTextSearch (B "bar")] start) 0
  = Ok (B " WHERE t.""tsvec"" @@ to_tsquery('simple', $1) OR t.""tsvec"" @@ to_tsquery('simple', $2)", [GString (B "foo:*"); GString (B "bar:*")]).
Proof. vm_compute. reflexivity. Qed.
Example filter_test_text_search_3 :
  ToSQL (runs [KTextSearch (B "foo bar"); KFQL [TLParen; TRule (B "a") (B ">") (GInt64 (123)); TAnd; TRule (B "b") (B "<>") (GNil); TRParen] false] start) 0
  = Ok (B " WHERE t.""tsvec"" @@ to_tsquery('simple', $1) AND (col_a > $2 AND col_b IS NOT NULL)", [GString (B "foo:* & bar:*"); GInt64 (123)]).
Proof. vm_compute. reflexivity. Qed.
Example filter_test_and :
  ToSQL (runs [KCol (B "col_a") (B "=") (GInt (123)); KAnd (Some [KCol (B "col_b") (B "=") (GInt (123)); KAnd (Some [KCol (B "col_c") (B "=") (GInt (123))]); KCol (B "col_d") (B "=") (GInt (123))]); KCol (B "col_e") (B "=") (GInt (123))] start) 0
  = Ok (B " WHERE col_a = $1 AND (col_b = $2 AND (col_c = $3) AND col_d = $4) AND col_e = $5", [GInt (123); GInt (123); GInt (123); GInt (123); GInt (123)]).
Proof. vm_compute. reflexivity. Qed.
Example filter_test_and_2 :
  ToSQL (runs [KAnd (Some [KCol (B "col_a") (B "=") (GInt (123)); KOr None; KCol (B "col_a") (B "=") (GInt (0))]); KAnd (Some [KCol (B "col_b") (B "=") (GInt (876)); KOr None; KCol (B "col_b") (B "=") (GInt (0))])] start) 0
  = Ok (B " WHERE (col_a = $1 OR col_a = $2) AND (col_b = $3 OR col_b = $4)", [GInt (123); GInt (0); GInt (876); GInt (0)]).
Proof. vm_compute. reflexivity. Qed.
Example filter_test_or :
  ToSQL (runs [KCol (B "col_a") (B "=") (GInt (123)); KOr (Some [KCol (B "col_b") (B "=") (GInt (123)); KOr (Some [KCol (B "col_c") (B "=") (GInt (123)); KCol (B "col_d") (B "=") (GInt (123))])]); KCol (B "col_e") (B "=") (GInt (123))] start) 0
  = Ok (B " WHERE col_a = $1 OR (col_b = $2 OR (col_c = $3 AND col_d = $4)) AND col_e = $5", [GInt (123); GInt (123); GInt (123); GInt (123); GInt (123)]).
Proof. vm_compute. reflexivity. Qed.
Example filter_test_order_by_1 :
  ToSQL (runs [KOrderBy (B "col_a") true true] start) 0
  = Ok (B " ORDER BY col_a DESC NULLS FIRST", []).
Proof. vm_compute. reflexivity. Qed.
Example filter_test_order_by_2 :
  ToSQL (runs [KOrderBy (B "col_b") false true] start) 0
  = Ok (B " ORDER BY col_b ASC NULLS FIRST", []).
Proof. vm_compute. reflexivity. Qed.
Example filter_test_order_by_3 :
  ToSQL (runs [KOrderBy (B "col_c") true false] start) 0
  = Ok (B " ORDER BY col_c DESC NULLS LAST", []).
Proof. vm_compute. reflexivity. Qed.
Example filter_test_order_by_4 :
  ToSQL (runs [KOrderBy (B "col_d") false false] start) 0
  = Ok (B " ORDER BY col_d ASC NULLS LAST", []).
Proof. vm_compute. reflexivity. Qed.
Example filter_test_order_by_5 :
  ToSQL (runs [KOrderBy (B "col_a") true true; KOrderBy (B "col_b") false true; KOrderBy (B "col_c") true false; KOrderBy (B "col_d") false false] start) 0
  = Ok (B " ORDER BY col_a DESC NULLS FIRST, col_b ASC NULLS FIRST, col_c DESC NULLS LAST, col_d ASC NULLS LAST", []).
Proof. vm_compute. reflexivity. Qed.
Example filter_test_full :
  ToSQL (runs [KFQL [TRule (B "a") (B ">") (GInt64 (123)); TAnd; TRule (B "b") (B "<>") (GNil)] false; KSort (B "-c"); KCol (B "col_d") (B "<=") (GInt (123)); KOr (Some [KCol (B "col_e") (B ">") (GInt (10)); KCol (B "col_e") (B "<") (GInt (20))]); KOr None; KTextSearch (B "foo bar baz"); KLimit 5; KOffset 10] start) 0
  = Ok (B " WHERE col_a > $1 AND col_b IS NOT NULL AND col_d <= $2 OR (col_e > $3 AND col_e < $4) OR t.""tsvec"" @@ to_tsquery('simple', $5) ORDER BY col_c DESC LIMIT 5 OFFSET 10", [GInt64 (123); GInt (123); GInt (10); GInt (20); GString (B "foo:* & bar:* & baz:*")]).
Proof. vm_compute. reflexivity. Qed.
Example filter_test__any :
  ToSQL (runs [KFQL [TRule (B "a") (B ">") (GInt64 (123)); TAnd; TRule (B "b") (B "<>") (GNil)] false; KSort (B "-c"); KAnd (Some [KCol (B "col_d") (B "any") (GInts (Some [123; 3543; 920348; 28])); KOr None; KCol (B "col_e") (B "any") (GInts (Some [123; 3543; 920348; 28])); KOr None; KCol (B "col_f") (B "in") (GStrings (Some [B "foo"; B "bar"; B "baz"]))]); KLimit 5; KOffset 10] start) 0
  = Ok (B " WHERE col_a > $1 AND col_b IS NOT NULL AND (col_d = ANY($2::int4[]) OR col_e = ANY($3::int4[]) OR col_f IN ($4,$5,$6)) ORDER BY col_c DESC LIMIT 5 OFFSET 10", [GInt64 (123); GValuer (Some (B "{123,3543,920348,28}")); GValuer (Some (B "{123,3543,920348,28}")); GString (B "foo"); GString (B "bar"); GString (B "baz")]).
Proof. vm_compute. reflexivity. Qed.
Example tsquery_35 : toTSQuery (B "") = B "".
Proof. vm_compute. reflexivity. Qed.
Example tsquery_36 : toTSQuery (B "foo") = B "foo:*".
Proof. vm_compute. reflexivity. Qed.
Example tsquery_37 : toTSQuery (B "foo bar") = B "foo:* & bar:*".
Proof. vm_compute. reflexivity. Qed.
Example tsquery_38 : toTSQuery (B " foo   bar   ") = B "foo:* & bar:*".
Proof. vm_compute. reflexivity. Qed.
Example tsquery_39 : toTSQuery (B " foo   bar   baz") = B "foo:* & bar:* & baz:*".
Proof. vm_compute. reflexivity. Qed.
