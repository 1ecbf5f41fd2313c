(** The model of the analysis run on the structs of
    /repo/internal/testdata/analysis_ok.go and compared with the whole
    QueryStruct or FilterStruct which analysis_test.go expects.  The relation
    space of Info ([q_sp], [fs_sp]), which these tests do not look at, is left
    open.  The file was written by a script from these sources. *)
From Coq Require Import Ascii String ZArith NArith Bool List.
From Verif Require Import GoBase AParse Analysis Golden GoldenErr.
Import ListNotations.
Local Open Scope string_scope.
Local Open Scope list_scope.

Definition query_of (r : ares (qstate + fstate)) (f : relspace -> qstate) : Prop :=
  match r with AOk (inl q) => q = f (q_sp q) | _ => False end.
Definition filter_of (r : ares (qstate + fstate)) (f : relspace -> fstate) : Prop :=
  match r with AOk (inr q) => q = f (fs_sp q) | _ => False end.

Example ok_InsertAnalysisTestOK1 :
  query_of (Run (Analysis.MkEnv (B "path/to/test") [] [] false) (B "InsertAnalysisTestOK1") (TStruct [(MkVar (B "UserRec") true false [(B "rel", [B "users_table"])], (TPtr g_common_User))])) (MkQ KInsert (Some (MkRelF (B "UserRec") (MkRel (B "users_table") [] []) (MkRT (MkTI (B "User") KStruct (B "github.com/frk/gosql/internal/testdata/common") (B "common") true (MkFlags false false false false false false) false false false 0 None None) true false false 0 false [] false [(MkFI (B "Id") (MkTI [] (KBasic BInt) [] [] false (MkFlags false false false false false false) false false false 0 None None) [] false true [(B "sql", [B "id"])] (MkCol [] (B "id")) (B "Id") (MkMode true true true true false) false false false false []); (MkFI (B "Email") (MkTI [] (KBasic BString) [] [] false (MkFlags false false false false false false) false false false 0 None None) [] false true [(B "sql", [B "email"])] (MkCol [] (B "email")) (B "Email") (MkMode true true true true false) false false false false []); (MkFI (B "FullName") (MkTI [] (KBasic BString) [] [] false (MkFlags false false false false false false) false false false 0 None None) [] false true [(B "sql", [B "full_name"])] (MkCol [] (B "full_name")) (B "FullName") (MkMode true true true true false) false false false false []); (MkFI (B "CreatedAt") (MkTI (B "Time") KStruct (B "time") (B "time") true (MkFlags false false true true false false) false false false 0 None None) [] false true [(B "sql", [B "created_at"])] (MkCol [] (B "created_at")) (B "CreatedAt") (MkMode true true true true false) false false false false [])]) false)) None None None None None None None None None None None None None None None None false).
Proof. vm_compute. reflexivity. Qed.
Example ok_InsertAnalysisTestOK2 :
  query_of (Run (Analysis.MkEnv (B "path/to/test") [] [] false) (B "InsertAnalysisTestOK2") (TStruct [(MkVar (B "UserRec") true false [(B "rel", [B "users_table"])], (TStruct [(MkVar (B "_") false false [(B "sql", [B "name"])], (TBasic BString false false)); (MkVar (B "Name") true false [(B "sql", [B "-"])], (TBasic BString false false)); (MkVar (B "Name2") true false [], (TBasic BString false false)); (MkVar (B "Name3") true false [(B "sql", [B "name"])], (TBasic BString false false))]))])) (MkQ KInsert (Some (MkRelF (B "UserRec") (MkRel (B "users_table") [] []) (MkRT (MkTI [] KStruct [] [] false (MkFlags false false false false false false) false false false 0 None None) false false false 0 false [] false [(MkFI (B "Name3") (MkTI [] (KBasic BString) [] [] false (MkFlags false false false false false false) false false false 0 None None) [] false true [(B "sql", [B "name"])] (MkCol [] (B "name")) (B "Name3") (MkMode true true true true false) false false false false [])]) false)) None None None None None None None None None None None None None None None None false).
Proof. vm_compute. reflexivity. Qed.
Example ok_SelectAnalysisTestOK3 :
  query_of (Run (Analysis.MkEnv (B "path/to/test") [] [] false) (B "SelectAnalysisTestOK3") (TStruct [(MkVar (B "User") true false [(B "rel", [B "users_table"])], (TFunc [(TPtr g_common_User)] [g_error]))])) (MkQ KSelect (Some (MkRelF (B "User") (MkRel (B "users_table") [] []) (MkRT (MkTI (B "User") KStruct (B "github.com/frk/gosql/internal/testdata/common") (B "common") true (MkFlags false false false false false false) false false false 0 None None) true false false 0 true [] false [(MkFI (B "Id") (MkTI [] (KBasic BInt) [] [] false (MkFlags false false false false false false) false false false 0 None None) [] false true [(B "sql", [B "id"])] (MkCol [] (B "id")) (B "Id") (MkMode true true true true false) false false false false []); (MkFI (B "Email") (MkTI [] (KBasic BString) [] [] false (MkFlags false false false false false false) false false false 0 None None) [] false true [(B "sql", [B "email"])] (MkCol [] (B "email")) (B "Email") (MkMode true true true true false) false false false false []); (MkFI (B "FullName") (MkTI [] (KBasic BString) [] [] false (MkFlags false false false false false false) false false false 0 None None) [] false true [(B "sql", [B "full_name"])] (MkCol [] (B "full_name")) (B "FullName") (MkMode true true true true false) false false false false []); (MkFI (B "CreatedAt") (MkTI (B "Time") KStruct (B "time") (B "time") true (MkFlags false false true true false false) false false false 0 None None) [] false true [(B "sql", [B "created_at"])] (MkCol [] (B "created_at")) (B "CreatedAt") (MkMode true true true true false) false false false false [])]) false)) None None None None None None None None None None None None None None None None false).
Proof. vm_compute. reflexivity. Qed.
Example ok_SelectAnalysisTestOK4 :
  query_of (Run (Analysis.MkEnv (B "path/to/test") [] [] false) (B "SelectAnalysisTestOK4") (TStruct [(MkVar (B "User") true false [(B "rel", [B "users_table"])], g_test_namedIteratorFunc)])) (MkQ KSelect (Some (MkRelF (B "User") (MkRel (B "users_table") [] []) (MkRT (MkTI (B "User") KStruct (B "github.com/frk/gosql/internal/testdata/common") (B "common") true (MkFlags false false false false false false) false false false 0 None None) true false false 0 true [] false [(MkFI (B "Id") (MkTI [] (KBasic BInt) [] [] false (MkFlags false false false false false false) false false false 0 None None) [] false true [(B "sql", [B "id"])] (MkCol [] (B "id")) (B "Id") (MkMode true true true true false) false false false false []); (MkFI (B "Email") (MkTI [] (KBasic BString) [] [] false (MkFlags false false false false false false) false false false 0 None None) [] false true [(B "sql", [B "email"])] (MkCol [] (B "email")) (B "Email") (MkMode true true true true false) false false false false []); (MkFI (B "FullName") (MkTI [] (KBasic BString) [] [] false (MkFlags false false false false false false) false false false 0 None None) [] false true [(B "sql", [B "full_name"])] (MkCol [] (B "full_name")) (B "FullName") (MkMode true true true true false) false false false false []); (MkFI (B "CreatedAt") (MkTI (B "Time") KStruct (B "time") (B "time") true (MkFlags false false true true false false) false false false 0 None None) [] false true [(B "sql", [B "created_at"])] (MkCol [] (B "created_at")) (B "CreatedAt") (MkMode true true true true false) false false false false [])]) false)) None None None None None None None None None None None None None None None None false).
Proof. vm_compute. reflexivity. Qed.
Example ok_SelectAnalysisTestOK5 :
  query_of (Run (Analysis.MkEnv (B "path/to/test") [] [] false) (B "SelectAnalysisTestOK5") (TStruct [(MkVar (B "User") true false [(B "rel", [B "users_table"])], (TIface [(B "Fn", true, ([(TPtr g_common_User)], [g_error]))] false false false))])) (MkQ KSelect (Some (MkRelF (B "User") (MkRel (B "users_table") [] []) (MkRT (MkTI (B "User") KStruct (B "github.com/frk/gosql/internal/testdata/common") (B "common") true (MkFlags false false false false false false) false false false 0 None None) true false false 0 true (B "Fn") false [(MkFI (B "Id") (MkTI [] (KBasic BInt) [] [] false (MkFlags false false false false false false) false false false 0 None None) [] false true [(B "sql", [B "id"])] (MkCol [] (B "id")) (B "Id") (MkMode true true true true false) false false false false []); (MkFI (B "Email") (MkTI [] (KBasic BString) [] [] false (MkFlags false false false false false false) false false false 0 None None) [] false true [(B "sql", [B "email"])] (MkCol [] (B "email")) (B "Email") (MkMode true true true true false) false false false false []); (MkFI (B "FullName") (MkTI [] (KBasic BString) [] [] false (MkFlags false false false false false false) false false false 0 None None) [] false true [(B "sql", [B "full_name"])] (MkCol [] (B "full_name")) (B "FullName") (MkMode true true true true false) false false false false []); (MkFI (B "CreatedAt") (MkTI (B "Time") KStruct (B "time") (B "time") true (MkFlags false false true true false false) false false false 0 None None) [] false true [(B "sql", [B "created_at"])] (MkCol [] (B "created_at")) (B "CreatedAt") (MkMode true true true true false) false false false false [])]) false)) None None None None None None None None None None None None None None None None false).
Proof. vm_compute. reflexivity. Qed.
Example ok_SelectAnalysisTestOK6 :
  query_of (Run (Analysis.MkEnv (B "path/to/test") [] [] false) (B "SelectAnalysisTestOK6") (TStruct [(MkVar (B "User") true false [(B "rel", [B "users_table"])], g_test_namedIterator)])) (MkQ KSelect (Some (MkRelF (B "User") (MkRel (B "users_table") [] []) (MkRT (MkTI (B "User") KStruct (B "github.com/frk/gosql/internal/testdata/common") (B "common") true (MkFlags false false false false false false) false false false 0 None None) true false false 0 true (B "Fn") false [(MkFI (B "Id") (MkTI [] (KBasic BInt) [] [] false (MkFlags false false false false false false) false false false 0 None None) [] false true [(B "sql", [B "id"])] (MkCol [] (B "id")) (B "Id") (MkMode true true true true false) false false false false []); (MkFI (B "Email") (MkTI [] (KBasic BString) [] [] false (MkFlags false false false false false false) false false false 0 None None) [] false true [(B "sql", [B "email"])] (MkCol [] (B "email")) (B "Email") (MkMode true true true true false) false false false false []); (MkFI (B "FullName") (MkTI [] (KBasic BString) [] [] false (MkFlags false false false false false false) false false false 0 None None) [] false true [(B "sql", [B "full_name"])] (MkCol [] (B "full_name")) (B "FullName") (MkMode true true true true false) false false false false []); (MkFI (B "CreatedAt") (MkTI (B "Time") KStruct (B "time") (B "time") true (MkFlags false false true true false false) false false false 0 None None) [] false true [(B "sql", [B "created_at"])] (MkCol [] (B "created_at")) (B "CreatedAt") (MkMode true true true true false) false false false false [])]) false)) None None None None None None None None None None None None None None None None false).
Proof. vm_compute. reflexivity. Qed.
Example ok_SelectAnalysisTestOK7 :
  query_of (Run (Analysis.MkEnv (B "path/to/test") [] [] false) (B "SelectAnalysisTestOK7") (TStruct [(MkVar (B "Rel") true false [(B "rel", [B "relation_a"])], (TStruct [(MkVar (B "a") false false [(B "sql", [B "a"; B "pk"])], (TBasic BInt false false)); (MkVar (B "b") false false [(B "sql", [B "b"; B "nullempty"])], (TBasic BInt false false)); (MkVar (B "c") false false [(B "sql", [B "c"; B "ro"; B "json"])], (TBasic BInt false false)); (MkVar (B "d") false false [(B "sql", [B "d"; B "wo"])], (TBasic BInt false false)); (MkVar (B "e") false false [(B "sql", [B "e"; B "add"])], (TBasic BInt false false)); (MkVar (B "f") false false [(B "sql", [B "f"; B "coalesce"])], (TBasic BInt false false)); (MkVar (B "g") false false [(B "sql", [B "g"; B "coalesce(-1)"])], (TBasic BInt false false))]))])) (MkQ KSelect (Some (MkRelF (B "Rel") (MkRel (B "relation_a") [] []) (MkRT (MkTI [] KStruct [] [] false (MkFlags false false false false false false) false false false 0 None None) false false false 0 false [] false [(MkFI (B "a") (MkTI [] (KBasic BInt) [] [] false (MkFlags false false false false false false) false false false 0 None None) [] false false [(B "sql", [B "a"; B "pk"])] (MkCol [] (B "a")) (B "a") (MkMode true true true true false) false false false false []); (MkFI (B "b") (MkTI [] (KBasic BInt) [] [] false (MkFlags false false false false false false) false false false 0 None None) [] false false [(B "sql", [B "b"; B "nullempty"])] (MkCol [] (B "b")) (B "b") (MkMode true true true true false) true false false false []); (MkFI (B "c") (MkTI [] (KBasic BInt) [] [] false (MkFlags false false false false false false) false false false 0 None None) [] false false [(B "sql", [B "c"; B "ro"; B "json"])] (MkCol [] (B "c")) (B "c") (MkMode true true false false false) false false false false []); (MkFI (B "d") (MkTI [] (KBasic BInt) [] [] false (MkFlags false false false false false false) false false false 0 None None) [] false false [(B "sql", [B "d"; B "wo"])] (MkCol [] (B "d")) (B "d") (MkMode false false true true false) false false false false []); (MkFI (B "e") (MkTI [] (KBasic BInt) [] [] false (MkFlags false false false false false false) false false false 0 None None) [] false false [(B "sql", [B "e"; B "add"])] (MkCol [] (B "e")) (B "e") (MkMode true true true true false) false false true false []); (MkFI (B "f") (MkTI [] (KBasic BInt) [] [] false (MkFlags false false false false false false) false false false 0 None None) [] false false [(B "sql", [B "f"; B "coalesce"])] (MkCol [] (B "f")) (B "f") (MkMode true true true true false) false false false true []); (MkFI (B "g") (MkTI [] (KBasic BInt) [] [] false (MkFlags false false false false false false) false false false 0 None None) [] false false [(B "sql", [B "g"; B "coalesce(-1)"])] (MkCol [] (B "g")) (B "g") (MkMode true true true true false) false false false true (B "-1"))]) false)) None None None None None None None None None None None None None None None None false).
Proof. vm_compute. reflexivity. Qed.
Example ok_InsertAnalysisTestOK8 :
  query_of (Run (Analysis.MkEnv (B "path/to/test") [] [] false) (B "InsertAnalysisTestOK8") (TStruct [(MkVar (B "Rel") true false [(B "rel", [B "relation_a"])], (TStruct [(MkVar (B "Foobar") true false [(B "sql", [B ">foo_"])], g_common_Foo)]))])) (MkQ KInsert (Some (MkRelF (B "Rel") (MkRel (B "relation_a") [] []) (MkRT (MkTI [] KStruct [] [] false (MkFlags false false false false false false) false false false 0 None None) false false false 0 false [] false [(MkFI (B "Val") (MkTI [] (KBasic BString) [] [] false (MkFlags false false false false false false) false false false 0 None None) [(MkSel (B "Foobar") [(B "sql", [B ">foo_"])] (B "Foo") (B "github.com/frk/gosql/internal/testdata/common") (B "common") true false true false (MkMode true true true true false)); (MkSel (B "Bar") [(B "sql", [B ">bar_"])] (B "Bar") (B "github.com/frk/gosql/internal/testdata/common") (B "common") true false true false (MkMode true true true true false)); (MkSel (B "Baz") [(B "sql", [B ">baz_"])] (B "Baz") (B "github.com/frk/gosql/internal/testdata/common") (B "common") true true true false (MkMode true true true true false))] false true [(B "sql", [B "val"])] (MkCol [] (B "foo_bar_baz_val")) (B "FoobarBarBazVal") (MkMode true true true true false) false false false false []); (MkFI (B "Val") (MkTI [] (KBasic BString) [] [] false (MkFlags false false false false false false) false false false 0 None None) [(MkSel (B "Foobar") [(B "sql", [B ">foo_"])] (B "Foo") (B "github.com/frk/gosql/internal/testdata/common") (B "common") true false true false (MkMode true true true true false)); (MkSel (B "Baz") [(B "sql", [B ">baz_"])] (B "Baz") (B "github.com/frk/gosql/internal/testdata/common") (B "common") true false true true (MkMode true true true true false))] false true [(B "sql", [B "val"])] (MkCol [] (B "foo_baz_val")) (B "FoobarBazVal") (MkMode true true true true false) false false false false [])]) false)) None None None None None None None None None None None None None None None None false).
Proof. vm_compute. reflexivity. Qed.
Example ok_DeleteAnalysisTestOK9 :
  query_of (Run (Analysis.MkEnv (B "path/to/test") [] [] false) (B "DeleteAnalysisTestOK9") (TStruct [(MkVar (B "Rel") true false [(B "rel", [B "relation_a"])], (TStruct [])); (MkVar (B "Where") true false [], (TStruct [(MkVar (B "ID") true false [(B "sql", [B "id"])], (TBasic BInt false false))]))])) (MkQ KDelete (Some (MkRelF (B "Rel") (MkRel (B "relation_a") [] []) (MkRT (MkTI [] KStruct [] [] false (MkFlags false false false false false false) false false false 0 None None) false false false 0 false [] false []) false)) None (Some (MkWhere (B "Where") [(WField (B "ID") (MkTI [] (KBasic BInt) [] [] false (MkFlags false false false false false false) false false false 0 None None) (MkCol [] (B "id")) IsEQ QNone [])])) None None None None None None None None None None None None None None false).
Proof. vm_compute. reflexivity. Qed.
Example ok_DeleteAnalysisTestOK10 :
  query_of (Run (Analysis.MkEnv (B "path/to/test") [] [] false) (B "DeleteAnalysisTestOK10") (TStruct [(MkVar (B "Rel") true false [(B "rel", [B "relation_a"])], (TStruct [])); (MkVar (B "Where") true false [], (TStruct [(MkVar (B "_") false false [(B "sql", [B "column_a notnull"])], g_gosql_Column); (MkVar (B "_") false false [(B "sql", [B "column_b isnull"]); (B "bool", [B "and"])], g_gosql_Column); (MkVar (B "_") false false [(B "sql", [B "column_c nottrue"]); (B "bool", [B "or"])], g_gosql_Column); (MkVar (B "_") false false [(B "sql", [B "column_d istrue"])], g_gosql_Column); (MkVar (B "_") false false [(B "sql", [B "column_e notfalse"]); (B "bool", [B "or"])], g_gosql_Column); (MkVar (B "_") false false [(B "sql", [B "column_f isfalse"]); (B "bool", [B "or"])], g_gosql_Column); (MkVar (B "_") false false [(B "sql", [B "column_g notunknown"])], g_gosql_Column); (MkVar (B "_") false false [(B "sql", [B "column_h isunknown"])], g_gosql_Column); (MkVar (B "_") false false [(B "sql", [B "column_i"])], g_gosql_Column)]))])) (MkQ KDelete (Some (MkRelF (B "Rel") (MkRel (B "relation_a") [] []) (MkRT (MkTI [] KStruct [] [] false (MkFlags false false false false false false) false false false 0 None None) false false false 0 false [] false []) false)) None (Some (MkWhere (B "Where") [(WColumn (MkCond (MkCol [] (B "column_a")) (MkCol [] []) [] NotNull QNone)); (WBool BoolAnd); (WColumn (MkCond (MkCol [] (B "column_b")) (MkCol [] []) [] IsNull QNone)); (WBool BoolOr); (WColumn (MkCond (MkCol [] (B "column_c")) (MkCol [] []) [] NotTrue QNone)); (WBool BoolAnd); (WColumn (MkCond (MkCol [] (B "column_d")) (MkCol [] []) [] IsTrue QNone)); (WBool BoolOr); (WColumn (MkCond (MkCol [] (B "column_e")) (MkCol [] []) [] NotFalse QNone)); (WBool BoolOr); (WColumn (MkCond (MkCol [] (B "column_f")) (MkCol [] []) [] IsFalse QNone)); (WBool BoolAnd); (WColumn (MkCond (MkCol [] (B "column_g")) (MkCol [] []) [] NotUnknown QNone)); (WBool BoolAnd); (WColumn (MkCond (MkCol [] (B "column_h")) (MkCol [] []) [] IsUnknown QNone)); (WBool BoolAnd); (WColumn (MkCond (MkCol [] (B "column_i")) (MkCol [] []) [] IsTrue QNone))])) None None None None None None None None None None None None None None false).
Proof. vm_compute. reflexivity. Qed.
Example ok_DeleteAnalysisTestOK11 :
  query_of (Run (Analysis.MkEnv (B "path/to/test") [] [] false) (B "DeleteAnalysisTestOK11") (TStruct [(MkVar (B "Rel") true false [(B "rel", [B "relation_a"])], (TStruct [])); (MkVar (B "Where") true false [], (TStruct [(MkVar (B "x") false false [(B "sql", [B ">"])], (TStruct [(MkVar (B "foo") false false [(B "sql", [B "column_foo"])], (TBasic BInt false false)); (MkVar (B "_") false false [(B "sql", [B "column_a isnull"])], g_gosql_Column)])); (MkVar (B "y") false false [(B "sql", [B ">"]); (B "bool", [B "or"])], (TStruct [(MkVar (B "_") false false [(B "sql", [B "column_b nottrue"])], g_gosql_Column); (MkVar (B "bar") false false [(B "sql", [B "column_bar"]); (B "bool", [B "or"])], (TBasic BString false false)); (MkVar (B "z") false false [(B "sql", [B ">"])], (TStruct [(MkVar (B "baz") false false [(B "sql", [B "column_baz"])], (TBasic BBool false false)); (MkVar (B "quux") false false [(B "sql", [B "column_quux"])], (TBasic BString false false)); (MkVar (B "_") false false [(B "sql", [B "column_c istrue"]); (B "bool", [B "or"])], g_gosql_Column)]))])); (MkVar (B "_") false false [(B "sql", [B "column_d notfalse"]); (B "bool", [B "or"])], g_gosql_Column); (MkVar (B "_") false false [(B "sql", [B "column_e isfalse"])], g_gosql_Column); (MkVar (B "foo") false false [(B "sql", [B "column_foo"])], (TBasic BInt false false))]))])) (MkQ KDelete (Some (MkRelF (B "Rel") (MkRel (B "relation_a") [] []) (MkRT (MkTI [] KStruct [] [] false (MkFlags false false false false false false) false false false 0 None None) false false false 0 false [] false []) false)) None (Some (MkWhere (B "Where") [(WNested (B "x") [(WField (B "foo") (MkTI [] (KBasic BInt) [] [] false (MkFlags false false false false false false) false false false 0 None None) (MkCol [] (B "column_foo")) IsEQ QNone []); (WBool BoolAnd); (WColumn (MkCond (MkCol [] (B "column_a")) (MkCol [] []) [] IsNull QNone))]); (WBool BoolOr); (WNested (B "y") [(WColumn (MkCond (MkCol [] (B "column_b")) (MkCol [] []) [] NotTrue QNone)); (WBool BoolOr); (WField (B "bar") (MkTI [] (KBasic BString) [] [] false (MkFlags false false false false false false) false false false 0 None None) (MkCol [] (B "column_bar")) IsEQ QNone []); (WBool BoolAnd); (WNested (B "z") [(WField (B "baz") (MkTI [] (KBasic BBool) [] [] false (MkFlags false false false false false false) false false false 0 None None) (MkCol [] (B "column_baz")) IsEQ QNone []); (WBool BoolAnd); (WField (B "quux") (MkTI [] (KBasic BString) [] [] false (MkFlags false false false false false false) false false false 0 None None) (MkCol [] (B "column_quux")) IsEQ QNone []); (WBool BoolOr); (WColumn (MkCond (MkCol [] (B "column_c")) (MkCol [] []) [] IsTrue QNone))])]); (WBool BoolOr); (WColumn (MkCond (MkCol [] (B "column_d")) (MkCol [] []) [] NotFalse QNone)); (WBool BoolAnd); (WColumn (MkCond (MkCol [] (B "column_e")) (MkCol [] []) [] IsFalse QNone)); (WBool BoolAnd); (WField (B "foo") (MkTI [] (KBasic BInt) [] [] false (MkFlags false false false false false false) false false false 0 None None) (MkCol [] (B "column_foo")) IsEQ QNone [])])) None None None None None None None None None None None None None None false).
Proof. vm_compute. reflexivity. Qed.
Example ok_DeleteAnalysisTestOK12 :
  query_of (Run (Analysis.MkEnv (B "path/to/test") [] [] false) (B "DeleteAnalysisTestOK12") (TStruct [(MkVar (B "Rel") true false [(B "rel", [B "relation_a"])], (TStruct [])); (MkVar (B "Where") true false [], (TStruct [(MkVar (B "a") false false [(B "sql", [B "column_a <"])], (TBasic BInt false false)); (MkVar (B "b") false false [(B "sql", [B "column_b >"])], (TBasic BInt false false)); (MkVar (B "c") false false [(B "sql", [B "column_c <="])], (TBasic BInt false false)); (MkVar (B "d") false false [(B "sql", [B "column_d >="])], (TBasic BInt false false)); (MkVar (B "e") false false [(B "sql", [B "column_e ="])], (TBasic BInt false false)); (MkVar (B "f") false false [(B "sql", [B "column_f <>"])], (TBasic BInt false false)); (MkVar (B "g") false false [(B "sql", [B "column_g"])], (TBasic BInt false false))]))])) (MkQ KDelete (Some (MkRelF (B "Rel") (MkRel (B "relation_a") [] []) (MkRT (MkTI [] KStruct [] [] false (MkFlags false false false false false false) false false false 0 None None) false false false 0 false [] false []) false)) None (Some (MkWhere (B "Where") [(WField (B "a") (MkTI [] (KBasic BInt) [] [] false (MkFlags false false false false false false) false false false 0 None None) (MkCol [] (B "column_a")) IsLT QNone []); (WBool BoolAnd); (WField (B "b") (MkTI [] (KBasic BInt) [] [] false (MkFlags false false false false false false) false false false 0 None None) (MkCol [] (B "column_b")) IsGT QNone []); (WBool BoolAnd); (WField (B "c") (MkTI [] (KBasic BInt) [] [] false (MkFlags false false false false false false) false false false 0 None None) (MkCol [] (B "column_c")) IsLTE QNone []); (WBool BoolAnd); (WField (B "d") (MkTI [] (KBasic BInt) [] [] false (MkFlags false false false false false false) false false false 0 None None) (MkCol [] (B "column_d")) IsGTE QNone []); (WBool BoolAnd); (WField (B "e") (MkTI [] (KBasic BInt) [] [] false (MkFlags false false false false false false) false false false 0 None None) (MkCol [] (B "column_e")) IsEQ QNone []); (WBool BoolAnd); (WField (B "f") (MkTI [] (KBasic BInt) [] [] false (MkFlags false false false false false false) false false false 0 None None) (MkCol [] (B "column_f")) NotEQ QNone []); (WBool BoolAnd); (WField (B "g") (MkTI [] (KBasic BInt) [] [] false (MkFlags false false false false false false) false false false 0 None None) (MkCol [] (B "column_g")) IsEQ QNone [])])) None None None None None None None None None None None None None None false).
Proof. vm_compute. reflexivity. Qed.
Example ok_DeleteAnalysisTestOK13 :
  query_of (Run (Analysis.MkEnv (B "path/to/test") [] [] false) (B "DeleteAnalysisTestOK13") (TStruct [(MkVar (B "Rel") true false [(B "rel", [B "relation_a"])], (TStruct [])); (MkVar (B "Where") true false [], (TStruct [(MkVar (B "_") false false [(B "sql", [B "column_a <> column_b"])], g_gosql_Column); (MkVar (B "_") false false [(B "sql", [B "column_c=column_d"])], g_gosql_Column); (MkVar (B "_") false false [(B "sql", [B "column_e>123"])], g_gosql_Column); (MkVar (B "_") false false [(B "sql", [B "column_f = 'active'"])], g_gosql_Column); (MkVar (B "_") false false [(B "sql", [B "column_g <> true"])], g_gosql_Column)]))])) (MkQ KDelete (Some (MkRelF (B "Rel") (MkRel (B "relation_a") [] []) (MkRT (MkTI [] KStruct [] [] false (MkFlags false false false false false false) false false false 0 None None) false false false 0 false [] false []) false)) None (Some (MkWhere (B "Where") [(WColumn (MkCond (MkCol [] (B "column_a")) (MkCol [] (B "column_b")) [] NotEQ QNone)); (WBool BoolAnd); (WColumn (MkCond (MkCol [] (B "column_c")) (MkCol [] (B "column_d")) [] IsEQ QNone)); (WBool BoolAnd); (WColumn (MkCond (MkCol [] (B "column_e")) (MkCol [] []) (B "123") IsGT QNone)); (WBool BoolAnd); (WColumn (MkCond (MkCol [] (B "column_f")) (MkCol [] []) (B "'active'") IsEQ QNone)); (WBool BoolAnd); (WColumn (MkCond (MkCol [] (B "column_g")) (MkCol [] []) (B "true") NotEQ QNone))])) None None None None None None None None None None None None None None false).
Proof. vm_compute. reflexivity. Qed.
Example ok_DeleteAnalysisTestOK14 :
  query_of (Run (Analysis.MkEnv (B "path/to/test") [] [] false) (B "DeleteAnalysisTestOK14") (TStruct [(MkVar (B "Rel") true false [(B "rel", [B "relation_a"])], (TStruct [])); (MkVar (B "Where") true false [], (TStruct [(MkVar (B "a") false false [(B "sql", [B "column_a isbetween"])], (TStruct [(MkVar (B "x") false false [(B "sql", [B "x"])], (TBasic BInt false false)); (MkVar (B "y") false false [(B "sql", [B "y"])], (TBasic BInt false false))])); (MkVar (B "b") false false [(B "sql", [B "column_b isbetweensym"])], (TStruct [(MkVar (B "_") false false [(B "sql", [B "column_x"; B "X"])], g_gosql_Column); (MkVar (B "_") false false [(B "sql", [B "column_y"; B "Y"])], g_gosql_Column)])); (MkVar (B "c") false false [(B "sql", [B "column_c notbetweensym"])], (TStruct [(MkVar (B "_") false false [(B "sql", [B "column_z"; B "x"])], g_gosql_Column); (MkVar (B "z") false false [(B "sql", [B "y"])], (TBasic BInt false false))])); (MkVar (B "d") false false [(B "sql", [B "column_d notbetween"])], (TStruct [(MkVar (B "z") false false [(B "sql", [B "x"])], (TBasic BInt false false)); (MkVar (B "_") false false [(B "sql", [B "column_z"; B "y"])], g_gosql_Column)])); (MkVar (B "d2") false false [(B "sql", [B "column_d notbetween"])], (TStruct [(MkVar (B "z") false false [(B "sql", [B "lower"])], (TBasic BInt false false)); (MkVar (B "_") false false [(B "sql", [B "column_z"; B "upper"])], g_gosql_Column)]))]))])) (MkQ KDelete (Some (MkRelF (B "Rel") (MkRel (B "relation_a") [] []) (MkRT (MkTI [] KStruct [] [] false (MkFlags false false false false false false) false false false 0 None None) false false false 0 false [] false []) false)) None (Some (MkWhere (B "Where") [(WBetween (B "a") (MkCol [] (B "column_a")) IsBetween (BoundField (B "x") (MkTI [] (KBasic BInt) [] [] false (MkFlags false false false false false false) false false false 0 None None)) (BoundField (B "y") (MkTI [] (KBasic BInt) [] [] false (MkFlags false false false false false false) false false false 0 None None))); (WBool BoolAnd); (WBetween (B "b") (MkCol [] (B "column_b")) IsBetweenSym (BoundColumn (MkCol [] (B "column_x"))) (BoundColumn (MkCol [] (B "column_y")))); (WBool BoolAnd); (WBetween (B "c") (MkCol [] (B "column_c")) NotBetweenSym (BoundColumn (MkCol [] (B "column_z"))) (BoundField (B "z") (MkTI [] (KBasic BInt) [] [] false (MkFlags false false false false false false) false false false 0 None None))); (WBool BoolAnd); (WBetween (B "d") (MkCol [] (B "column_d")) NotBetween (BoundField (B "z") (MkTI [] (KBasic BInt) [] [] false (MkFlags false false false false false false) false false false 0 None None)) (BoundColumn (MkCol [] (B "column_z")))); (WBool BoolAnd); (WBetween (B "d2") (MkCol [] (B "column_d")) NotBetween (BoundField (B "z") (MkTI [] (KBasic BInt) [] [] false (MkFlags false false false false false false) false false false 0 None None)) (BoundColumn (MkCol [] (B "column_z"))))])) None None None None None None None None None None None None None None false).
Proof. vm_compute. reflexivity. Qed.
Example ok_DeleteAnalysisTestOK_DistinctFrom :
  query_of (Run (Analysis.MkEnv (B "path/to/test") [] [] false) (B "DeleteAnalysisTestOK_DistinctFrom") (TStruct [(MkVar (B "Rel") true false [(B "rel", [B "relation_a"])], (TStruct [])); (MkVar (B "Where") true false [], (TStruct [(MkVar (B "a") false false [(B "sql", [B "column_a isdistinct"])], (TBasic BInt false false)); (MkVar (B "b") false false [(B "sql", [B "column_b notdistinct"])], (TBasic BInt false false)); (MkVar (B "_") false false [(B "sql", [B "column_c isdistinct column_x"])], g_gosql_Column); (MkVar (B "_") false false [(B "sql", [B "column_d notdistinct column_y"])], g_gosql_Column)]))])) (MkQ KDelete (Some (MkRelF (B "Rel") (MkRel (B "relation_a") [] []) (MkRT (MkTI [] KStruct [] [] false (MkFlags false false false false false false) false false false 0 None None) false false false 0 false [] false []) false)) None (Some (MkWhere (B "Where") [(WField (B "a") (MkTI [] (KBasic BInt) [] [] false (MkFlags false false false false false false) false false false 0 None None) (MkCol [] (B "column_a")) IsDistinct QNone []); (WBool BoolAnd); (WField (B "b") (MkTI [] (KBasic BInt) [] [] false (MkFlags false false false false false false) false false false 0 None None) (MkCol [] (B "column_b")) NotDistinct QNone []); (WBool BoolAnd); (WColumn (MkCond (MkCol [] (B "column_c")) (MkCol [] (B "column_x")) [] IsDistinct QNone)); (WBool BoolAnd); (WColumn (MkCond (MkCol [] (B "column_d")) (MkCol [] (B "column_y")) [] NotDistinct QNone))])) None None None None None None None None None None None None None None false).
Proof. vm_compute. reflexivity. Qed.
Example ok_DeleteAnalysisTestOK_ArrayPredicate :
  query_of (Run (Analysis.MkEnv (B "path/to/test") [] [] false) (B "DeleteAnalysisTestOK_ArrayPredicate") (TStruct [(MkVar (B "Rel") true false [(B "rel", [B "relation_a"])], (TStruct [])); (MkVar (B "Where") true false [], (TStruct [(MkVar (B "a") false false [(B "sql", [B "column_a isin"])], (TSlice (TBasic BInt false false))); (MkVar (B "b") false false [(B "sql", [B "column_b notin"])], (TArray 5 (TBasic BInt false false))); (MkVar (B "c") false false [(B "sql", [B "column_c=any"])], (TSlice (TBasic BInt false false))); (MkVar (B "d") false false [(B "sql", [B "column_d >some"])], (TArray 10 (TBasic BInt false false))); (MkVar (B "e") false false [(B "sql", [B "column_e <= all"])], (TSlice (TBasic BInt false false)))]))])) (MkQ KDelete (Some (MkRelF (B "Rel") (MkRel (B "relation_a") [] []) (MkRT (MkTI [] KStruct [] [] false (MkFlags false false false false false false) false false false 0 None None) false false false 0 false [] false []) false)) None (Some (MkWhere (B "Where") [(WField (B "a") (MkTI [] KSlice [] [] false (MkFlags false false false false false false) false false false 0 None (Some (MkTI [] (KBasic BInt) [] [] false (MkFlags false false false false false false) false false false 0 None None))) (MkCol [] (B "column_a")) IsIn QNone []); (WBool BoolAnd); (WField (B "b") (MkTI [] KArray [] [] false (MkFlags false false false false false false) false false false 5 None (Some (MkTI [] (KBasic BInt) [] [] false (MkFlags false false false false false false) false false false 0 None None))) (MkCol [] (B "column_b")) NotIn QNone []); (WBool BoolAnd); (WField (B "c") (MkTI [] KSlice [] [] false (MkFlags false false false false false false) false false false 0 None (Some (MkTI [] (KBasic BInt) [] [] false (MkFlags false false false false false false) false false false 0 None None))) (MkCol [] (B "column_c")) IsEQ QuantAny []); (WBool BoolAnd); (WField (B "d") (MkTI [] KArray [] [] false (MkFlags false false false false false false) false false false 10 None (Some (MkTI [] (KBasic BInt) [] [] false (MkFlags false false false false false false) false false false 0 None None))) (MkCol [] (B "column_d")) IsGT QuantSome []); (WBool BoolAnd); (WField (B "e") (MkTI [] KSlice [] [] false (MkFlags false false false false false false) false false false 0 None (Some (MkTI [] (KBasic BInt) [] [] false (MkFlags false false false false false false) false false false 0 None None))) (MkCol [] (B "column_e")) IsLTE QuantAll [])])) None None None None None None None None None None None None None None false).
Proof. vm_compute. reflexivity. Qed.
Example ok_DeleteAnalysisTestOK_PatternMatching :
  query_of (Run (Analysis.MkEnv (B "path/to/test") [] [] false) (B "DeleteAnalysisTestOK_PatternMatching") (TStruct [(MkVar (B "Rel") true false [(B "rel", [B "relation_a"])], (TStruct [])); (MkVar (B "Where") true false [], (TStruct [(MkVar (B "a") false false [(B "sql", [B "column_a islike"])], (TBasic BString false false)); (MkVar (B "b") false false [(B "sql", [B "column_b notlike"])], (TBasic BString false false)); (MkVar (B "c") false false [(B "sql", [B "column_c issimilar"])], (TBasic BString false false)); (MkVar (B "d") false false [(B "sql", [B "column_d notsimilar"])], (TBasic BString false false)); (MkVar (B "e") false false [(B "sql", [B "column_e ~"])], (TBasic BString false false)); (MkVar (B "f") false false [(B "sql", [B "column_f~*"])], (TBasic BString false false)); (MkVar (B "g") false false [(B "sql", [B "column_g!~"])], (TBasic BString false false)); (MkVar (B "h") false false [(B "sql", [B "column_h !~*"])], (TBasic BString false false))]))])) (MkQ KDelete (Some (MkRelF (B "Rel") (MkRel (B "relation_a") [] []) (MkRT (MkTI [] KStruct [] [] false (MkFlags false false false false false false) false false false 0 None None) false false false 0 false [] false []) false)) None (Some (MkWhere (B "Where") [(WField (B "a") (MkTI [] (KBasic BString) [] [] false (MkFlags false false false false false false) false false false 0 None None) (MkCol [] (B "column_a")) IsLike QNone []); (WBool BoolAnd); (WField (B "b") (MkTI [] (KBasic BString) [] [] false (MkFlags false false false false false false) false false false 0 None None) (MkCol [] (B "column_b")) NotLike QNone []); (WBool BoolAnd); (WField (B "c") (MkTI [] (KBasic BString) [] [] false (MkFlags false false false false false false) false false false 0 None None) (MkCol [] (B "column_c")) IsSimilar QNone []); (WBool BoolAnd); (WField (B "d") (MkTI [] (KBasic BString) [] [] false (MkFlags false false false false false false) false false false 0 None None) (MkCol [] (B "column_d")) NotSimilar QNone []); (WBool BoolAnd); (WField (B "e") (MkTI [] (KBasic BString) [] [] false (MkFlags false false false false false false) false false false 0 None None) (MkCol [] (B "column_e")) IsMatch QNone []); (WBool BoolAnd); (WField (B "f") (MkTI [] (KBasic BString) [] [] false (MkFlags false false false false false false) false false false 0 None None) (MkCol [] (B "column_f")) IsMatchi QNone []); (WBool BoolAnd); (WField (B "g") (MkTI [] (KBasic BString) [] [] false (MkFlags false false false false false false) false false false 0 None None) (MkCol [] (B "column_g")) NotMatch QNone []); (WBool BoolAnd); (WField (B "h") (MkTI [] (KBasic BString) [] [] false (MkFlags false false false false false false) false false false 0 None None) (MkCol [] (B "column_h")) NotMatchi QNone [])])) None None None None None None None None None None None None None None false).
Proof. vm_compute. reflexivity. Qed.
Example ok_DeleteAnalysisTestOK_Using :
  query_of (Run (Analysis.MkEnv (B "path/to/test") [] [] false) (B "DeleteAnalysisTestOK_Using") (TStruct [(MkVar (B "Rel") true false [(B "rel", [B "relation_a:a"])], (TStruct [])); (MkVar (B "Using") true false [], (TStruct [(MkVar (B "_") false false [(B "sql", [B "relation_b:b"])], g_gosql_Relation); (MkVar (B "_") false false [(B "sql", [B "relation_c:c"; B "c.b_id = b.id"])], g_gosql_LeftJoin); (MkVar (B "_") false false [(B "sql", [B "relation_d:d"; B "d.c_id = c.id;d.num > b.num"])], g_gosql_RightJoin); (MkVar (B "_") false false [(B "sql", [B "relation_e:e"; B "e.d_id = d.id"; B "e.is_foo isfalse"])], g_gosql_FullJoin); (MkVar (B "_") false false [(B "sql", [B "relation_f:f"])], g_gosql_CrossJoin)])); (MkVar (B "Where") true false [], (TStruct [(MkVar (B "_") false false [(B "sql", [B "a.id = d.a_id"])], g_gosql_Column)]))])) (MkQ KDelete (Some (MkRelF (B "Rel") (MkRel (B "relation_a") (B "a") []) (MkRT (MkTI [] KStruct [] [] false (MkFlags false false false false false false) false false false 0 None None) false false false 0 false [] false []) false)) None (Some (MkWhere (B "Where") [(WColumn (MkCond (MkCol (B "a") (B "id")) (MkCol (B "d") (B "a_id")) [] IsEQ QNone))])) (Some (MkJoin (B "Using") (Some (MkRel (B "relation_b") (B "b") [])) [(MkJD JLeft (MkRel (B "relation_c") (B "c") []) [(JCond (MkCond (MkCol (B "c") (B "b_id")) (MkCol (B "b") (B "id")) [] IsEQ QNone))]); (MkJD JRight (MkRel (B "relation_d") (B "d") []) [(JCond (MkCond (MkCol (B "d") (B "c_id")) (MkCol (B "c") (B "id")) [] IsEQ QNone)); (JBool BoolOr); (JCond (MkCond (MkCol (B "d") (B "num")) (MkCol (B "b") (B "num")) [] IsGT QNone))]); (MkJD JFull (MkRel (B "relation_e") (B "e") []) [(JCond (MkCond (MkCol (B "e") (B "d_id")) (MkCol (B "d") (B "id")) [] IsEQ QNone)); (JBool BoolAnd); (JCond (MkCond (MkCol (B "e") (B "is_foo")) (MkCol [] []) [] IsFalse QNone))]); (MkJD JCross (MkRel (B "relation_f") (B "f") []) [])])) None None None None None None None None None None None None None false).
Proof. vm_compute. reflexivity. Qed.
Example ok_UpdateAnalysisTestOK_From :
  query_of (Run (Analysis.MkEnv (B "path/to/test") [] [] false) (B "UpdateAnalysisTestOK_From") (TStruct [(MkVar (B "Rel") true false [(B "rel", [B "relation_a:a"])], (TStruct [])); (MkVar (B "From") true false [], (TStruct [(MkVar (B "_") false false [(B "sql", [B "relation_b:b"])], g_gosql_Relation); (MkVar (B "_") false false [(B "sql", [B "relation_c:c"; B "c.b_id = b.id"])], g_gosql_LeftJoin); (MkVar (B "_") false false [(B "sql", [B "relation_d:d"; B "d.c_id = c.id;d.num > b.num"])], g_gosql_RightJoin); (MkVar (B "_") false false [(B "sql", [B "relation_e:e"; B "e.d_id = d.id"; B "e.is_foo isfalse"])], g_gosql_FullJoin); (MkVar (B "_") false false [(B "sql", [B "relation_f:f"])], g_gosql_CrossJoin)])); (MkVar (B "Where") true false [], (TStruct [(MkVar (B "_") false false [(B "sql", [B "a.id = d.a_id"])], g_gosql_Column)]))])) (MkQ KUpdate (Some (MkRelF (B "Rel") (MkRel (B "relation_a") (B "a") []) (MkRT (MkTI [] KStruct [] [] false (MkFlags false false false false false false) false false false 0 None None) false false false 0 false [] false []) false)) None (Some (MkWhere (B "Where") [(WColumn (MkCond (MkCol (B "a") (B "id")) (MkCol (B "d") (B "a_id")) [] IsEQ QNone))])) (Some (MkJoin (B "From") (Some (MkRel (B "relation_b") (B "b") [])) [(MkJD JLeft (MkRel (B "relation_c") (B "c") []) [(JCond (MkCond (MkCol (B "c") (B "b_id")) (MkCol (B "b") (B "id")) [] IsEQ QNone))]); (MkJD JRight (MkRel (B "relation_d") (B "d") []) [(JCond (MkCond (MkCol (B "d") (B "c_id")) (MkCol (B "c") (B "id")) [] IsEQ QNone)); (JBool BoolOr); (JCond (MkCond (MkCol (B "d") (B "num")) (MkCol (B "b") (B "num")) [] IsGT QNone))]); (MkJD JFull (MkRel (B "relation_e") (B "e") []) [(JCond (MkCond (MkCol (B "e") (B "d_id")) (MkCol (B "d") (B "id")) [] IsEQ QNone)); (JBool BoolAnd); (JCond (MkCond (MkCol (B "e") (B "is_foo")) (MkCol [] []) [] IsFalse QNone))]); (MkJD JCross (MkRel (B "relation_f") (B "f") []) [])])) None None None None None None None None None None None None None false).
Proof. vm_compute. reflexivity. Qed.
Example ok_SelectAnalysisTestOK_Join :
  query_of (Run (Analysis.MkEnv (B "path/to/test") [] [] false) (B "SelectAnalysisTestOK_Join") (TStruct [(MkVar (B "Rel") true false [(B "rel", [B "relation_a:a"])], (TStruct [])); (MkVar (B "Join") true false [], (TStruct [(MkVar (B "_") false false [(B "sql", [B "relation_b:b"; B "b.a_id = a.id"])], g_gosql_LeftJoin); (MkVar (B "_") false false [(B "sql", [B "relation_c:c"; B "c.b_id = b.id"])], g_gosql_LeftJoin); (MkVar (B "_") false false [(B "sql", [B "relation_d:d"; B "d.c_id = c.id;d.num > b.num"])], g_gosql_RightJoin); (MkVar (B "_") false false [(B "sql", [B "relation_e:e"; B "e.d_id = d.id"; B "e.is_foo isfalse"])], g_gosql_FullJoin); (MkVar (B "_") false false [(B "sql", [B "relation_f:f"])], g_gosql_CrossJoin)])); (MkVar (B "Where") true false [], (TStruct [(MkVar (B "_") false false [(B "sql", [B "a.id = d.a_id"])], g_gosql_Column)]))])) (MkQ KSelect (Some (MkRelF (B "Rel") (MkRel (B "relation_a") (B "a") []) (MkRT (MkTI [] KStruct [] [] false (MkFlags false false false false false false) false false false 0 None None) false false false 0 false [] false []) false)) None (Some (MkWhere (B "Where") [(WColumn (MkCond (MkCol (B "a") (B "id")) (MkCol (B "d") (B "a_id")) [] IsEQ QNone))])) (Some (MkJoin (B "Join") None [(MkJD JLeft (MkRel (B "relation_b") (B "b") []) [(JCond (MkCond (MkCol (B "b") (B "a_id")) (MkCol (B "a") (B "id")) [] IsEQ QNone))]); (MkJD JLeft (MkRel (B "relation_c") (B "c") []) [(JCond (MkCond (MkCol (B "c") (B "b_id")) (MkCol (B "b") (B "id")) [] IsEQ QNone))]); (MkJD JRight (MkRel (B "relation_d") (B "d") []) [(JCond (MkCond (MkCol (B "d") (B "c_id")) (MkCol (B "c") (B "id")) [] IsEQ QNone)); (JBool BoolOr); (JCond (MkCond (MkCol (B "d") (B "num")) (MkCol (B "b") (B "num")) [] IsGT QNone))]); (MkJD JFull (MkRel (B "relation_e") (B "e") []) [(JCond (MkCond (MkCol (B "e") (B "d_id")) (MkCol (B "d") (B "id")) [] IsEQ QNone)); (JBool BoolAnd); (JCond (MkCond (MkCol (B "e") (B "is_foo")) (MkCol [] []) [] IsFalse QNone))]); (MkJD JCross (MkRel (B "relation_f") (B "f") []) [])])) None None None None None None None None None None None None None false).
Proof. vm_compute. reflexivity. Qed.
Example ok_UpdateAnalysisTestOK_All :
  query_of (Run (Analysis.MkEnv (B "path/to/test") [] [] false) (B "UpdateAnalysisTestOK_All") (TStruct [(MkVar (B "Rel") true false [(B "rel", [B "relation_a:a"])], (TStruct [])); (MkVar (B "_") false false [], g_gosql_All)])) (MkQ KUpdate (Some (MkRelF (B "Rel") (MkRel (B "relation_a") (B "a") []) (MkRT (MkTI [] KStruct [] [] false (MkFlags false false false false false false) false false false 0 None None) false false false 0 false [] false []) false)) None None None None None None None None None None None None None None None None true).
Proof. vm_compute. reflexivity. Qed.
Example ok_DeleteAnalysisTestOK_All :
  query_of (Run (Analysis.MkEnv (B "path/to/test") [] [] false) (B "DeleteAnalysisTestOK_All") (TStruct [(MkVar (B "Rel") true false [(B "rel", [B "relation_a:a"])], (TStruct [])); (MkVar (B "_") false false [], g_gosql_All)])) (MkQ KDelete (Some (MkRelF (B "Rel") (MkRel (B "relation_a") (B "a") []) (MkRT (MkTI [] KStruct [] [] false (MkFlags false false false false false false) false false false 0 None None) false false false 0 false [] false []) false)) None None None None None None None None None None None None None None None None true).
Proof. vm_compute. reflexivity. Qed.
Example ok_DeleteAnalysisTestOK_Return :
  query_of (Run (Analysis.MkEnv (B "path/to/test") [] [] false) (B "DeleteAnalysisTestOK_Return") (TStruct [(MkVar (B "Rel") true false [(B "rel", [B "relation_a:a"])], g_test_T); (MkVar (B "_") false false [(B "sql", [B "*"])], g_gosql_Return)])) (MkQ KDelete (Some (MkRelF (B "Rel") (MkRel (B "relation_a") (B "a") []) (MkRT (MkTI (B "T") KStruct (B "path/to/test") (B "testdata") false (MkFlags false false false false false false) false false false 0 None None) false false false 0 false [] false [(MkFI (B "F") (MkTI [] (KBasic BString) [] [] false (MkFlags false false false false false false) false false false 0 None None) [] false true [(B "sql", [B "f"])] (MkCol [] (B "f")) (B "F") (MkMode true true true true false) false false false false [])]) false)) None None None None None None None None None None None (Some (MkColList true [])) None None None None false).
Proof. vm_compute. reflexivity. Qed.
Example ok_InsertAnalysisTestOK_Return :
  query_of (Run (Analysis.MkEnv (B "path/to/test") [] [] false) (B "InsertAnalysisTestOK_Return") (TStruct [(MkVar (B "Rel") true false [(B "rel", [B "relation_a:a"])], g_test_T2); (MkVar (B "_") false false [(B "sql", [B "a.foo"; B "a.bar"; B "a.baz"])], g_gosql_Return)])) (MkQ KInsert (Some (MkRelF (B "Rel") (MkRel (B "relation_a") (B "a") []) (MkRT (MkTI (B "T2") KStruct (B "path/to/test") (B "testdata") false (MkFlags false false false false false false) false false false 0 None None) false false false 0 false [] false [(MkFI (B "Foo") (MkTI [] (KBasic BInt) [] [] false (MkFlags false false false false false false) false false false 0 None None) [] false true [(B "sql", [B "foo"])] (MkCol [] (B "foo")) (B "Foo") (MkMode true true true true false) false false false false []); (MkFI (B "Bar") (MkTI [] (KBasic BString) [] [] false (MkFlags false false false false false false) false false false 0 None None) [] false true [(B "sql", [B "bar"])] (MkCol [] (B "bar")) (B "Bar") (MkMode true true true true false) false false false false []); (MkFI (B "Baz") (MkTI [] (KBasic BBool) [] [] false (MkFlags false false false false false false) false false false 0 None None) [] false true [(B "sql", [B "baz"])] (MkCol [] (B "baz")) (B "Baz") (MkMode true true true true false) false false false false [])]) false)) None None None None None None None None None None None (Some (MkColList false [(MkCol (B "a") (B "foo")); (MkCol (B "a") (B "bar")); (MkCol (B "a") (B "baz"))])) None None None None false).
Proof. vm_compute. reflexivity. Qed.
Example ok_UpdateAnalysisTestOK_Return :
  query_of (Run (Analysis.MkEnv (B "path/to/test") [] [] false) (B "UpdateAnalysisTestOK_Return") (TStruct [(MkVar (B "Rel") true false [(B "rel", [B "relation_a:a"])], g_test_T2); (MkVar (B "_") false false [(B "sql", [B "a.foo"; B "a.bar"; B "a.baz"])], g_gosql_Return)])) (MkQ KUpdate (Some (MkRelF (B "Rel") (MkRel (B "relation_a") (B "a") []) (MkRT (MkTI (B "T2") KStruct (B "path/to/test") (B "testdata") false (MkFlags false false false false false false) false false false 0 None None) false false false 0 false [] false [(MkFI (B "Foo") (MkTI [] (KBasic BInt) [] [] false (MkFlags false false false false false false) false false false 0 None None) [] false true [(B "sql", [B "foo"])] (MkCol [] (B "foo")) (B "Foo") (MkMode true true true true false) false false false false []); (MkFI (B "Bar") (MkTI [] (KBasic BString) [] [] false (MkFlags false false false false false false) false false false 0 None None) [] false true [(B "sql", [B "bar"])] (MkCol [] (B "bar")) (B "Bar") (MkMode true true true true false) false false false false []); (MkFI (B "Baz") (MkTI [] (KBasic BBool) [] [] false (MkFlags false false false false false false) false false false 0 None None) [] false true [(B "sql", [B "baz"])] (MkCol [] (B "baz")) (B "Baz") (MkMode true true true true false) false false false false [])]) false)) None None None None None None None None None None None (Some (MkColList false [(MkCol (B "a") (B "foo")); (MkCol (B "a") (B "bar")); (MkCol (B "a") (B "baz"))])) None None None None false).
Proof. vm_compute. reflexivity. Qed.
Example ok_InsertAnalysisTestOK_Default :
  query_of (Run (Analysis.MkEnv (B "path/to/test") [] [] false) (B "InsertAnalysisTestOK_Default") (TStruct [(MkVar (B "Rel") true false [(B "rel", [B "relation_a:a"])], (TStruct [])); (MkVar (B "_") false false [(B "sql", [B "*"])], g_gosql_Default)])) (MkQ KInsert (Some (MkRelF (B "Rel") (MkRel (B "relation_a") (B "a") []) (MkRT (MkTI [] KStruct [] [] false (MkFlags false false false false false false) false false false 0 None None) false false false 0 false [] false []) false)) None None None None None None None None None None (Some (MkColList true [])) None None None None None false).
Proof. vm_compute. reflexivity. Qed.
Example ok_UpdateAnalysisTestOK_Default :
  query_of (Run (Analysis.MkEnv (B "path/to/test") [] [] false) (B "UpdateAnalysisTestOK_Default") (TStruct [(MkVar (B "Rel") true false [(B "rel", [B "relation_a:a"])], (TStruct [])); (MkVar (B "_") false false [(B "sql", [B "a.foo"; B "a.bar"; B "a.baz"])], g_gosql_Default)])) (MkQ KUpdate (Some (MkRelF (B "Rel") (MkRel (B "relation_a") (B "a") []) (MkRT (MkTI [] KStruct [] [] false (MkFlags false false false false false false) false false false 0 None None) false false false 0 false [] false []) false)) None None None None None None None None None None (Some (MkColList false [(MkCol (B "a") (B "foo")); (MkCol (B "a") (B "bar")); (MkCol (B "a") (B "baz"))])) None None None None None false).
Proof. vm_compute. reflexivity. Qed.
Example ok_InsertAnalysisTestOK_Force :
  query_of (Run (Analysis.MkEnv (B "path/to/test") [] [] false) (B "InsertAnalysisTestOK_Force") (TStruct [(MkVar (B "Rel") true false [(B "rel", [B "relation_a:a"])], (TStruct [])); (MkVar (B "_") false false [(B "sql", [B "*"])], g_gosql_Force)])) (MkQ KInsert (Some (MkRelF (B "Rel") (MkRel (B "relation_a") (B "a") []) (MkRT (MkTI [] KStruct [] [] false (MkFlags false false false false false false) false false false 0 None None) false false false 0 false [] false []) false)) None None None None None None None None (Some (MkColList true [])) None None None None None None None false).
Proof. vm_compute. reflexivity. Qed.
Example ok_UpdateAnalysisTestOK_Force :
  query_of (Run (Analysis.MkEnv (B "path/to/test") [] [] false) (B "UpdateAnalysisTestOK_Force") (TStruct [(MkVar (B "Rel") true false [(B "rel", [B "relation_a:a"])], g_test_T2); (MkVar (B "_") false false [(B "sql", [B "a.foo"; B "a.bar"; B "a.baz"])], g_gosql_Force)])) (MkQ KUpdate (Some (MkRelF (B "Rel") (MkRel (B "relation_a") (B "a") []) (MkRT (MkTI (B "T2") KStruct (B "path/to/test") (B "testdata") false (MkFlags false false false false false false) false false false 0 None None) false false false 0 false [] false [(MkFI (B "Foo") (MkTI [] (KBasic BInt) [] [] false (MkFlags false false false false false false) false false false 0 None None) [] false true [(B "sql", [B "foo"])] (MkCol [] (B "foo")) (B "Foo") (MkMode true true true true false) false false false false []); (MkFI (B "Bar") (MkTI [] (KBasic BString) [] [] false (MkFlags false false false false false false) false false false 0 None None) [] false true [(B "sql", [B "bar"])] (MkCol [] (B "bar")) (B "Bar") (MkMode true true true true false) false false false false []); (MkFI (B "Baz") (MkTI [] (KBasic BBool) [] [] false (MkFlags false false false false false false) false false false 0 None None) [] false true [(B "sql", [B "baz"])] (MkCol [] (B "baz")) (B "Baz") (MkMode true true true true false) false false false false [])]) false)) None None None None None None None None (Some (MkColList false [(MkCol (B "a") (B "foo")); (MkCol (B "a") (B "bar")); (MkCol (B "a") (B "baz"))])) None None None None None None None false).
Proof. vm_compute. reflexivity. Qed.
Example ok_SelectAnalysisTestOK_ErrorHandler :
  query_of (Run (Analysis.MkEnv (B "path/to/test") [] [] false) (B "SelectAnalysisTestOK_ErrorHandler") (TStruct [(MkVar (B "Rel") true false [(B "rel", [B "relation_a:a"])], (TStruct [])); (MkVar (B "eh") false false [], g_test_myerrorhandler)])) (MkQ KSelect (Some (MkRelF (B "Rel") (MkRel (B "relation_a") (B "a") []) (MkRT (MkTI [] KStruct [] [] false (MkFlags false false false false false false) false false false 0 None None) false false false 0 false [] false []) false)) None None None None None None None None None None None None None (Some (MkErrH (B "eh") false)) None None false).
Proof. vm_compute. reflexivity. Qed.
Example ok_InsertAnalysisTestOK_ErrorHandler :
  query_of (Run (Analysis.MkEnv (B "path/to/test") [] [] false) (B "InsertAnalysisTestOK_ErrorHandler") (TStruct [(MkVar (B "Rel") true false [(B "rel", [B "relation_a:a"])], (TStruct [])); (MkVar (B "myerrorhandler") false true [], g_test_myerrorhandler)])) (MkQ KInsert (Some (MkRelF (B "Rel") (MkRel (B "relation_a") (B "a") []) (MkRT (MkTI [] KStruct [] [] false (MkFlags false false false false false false) false false false 0 None None) false false false 0 false [] false []) false)) None None None None None None None None None None None None None (Some (MkErrH (B "myerrorhandler") false)) None None false).
Proof. vm_compute. reflexivity. Qed.
Example ok_SelectAnalysisTestOK_ErrorInfoHandler :
  query_of (Run (Analysis.MkEnv (B "path/to/test") [] [] false) (B "SelectAnalysisTestOK_ErrorInfoHandler") (TStruct [(MkVar (B "Rel") true false [(B "rel", [B "relation_a:a"])], (TStruct [])); (MkVar (B "eh") false false [], g_test_myerrorinfohandler)])) (MkQ KSelect (Some (MkRelF (B "Rel") (MkRel (B "relation_a") (B "a") []) (MkRT (MkTI [] KStruct [] [] false (MkFlags false false false false false false) false false false 0 None None) false false false 0 false [] false []) false)) None None None None None None None None None None None None None (Some (MkErrH (B "eh") true)) None None false).
Proof. vm_compute. reflexivity. Qed.
Example ok_InsertAnalysisTestOK_ErrorInfoHandler :
  query_of (Run (Analysis.MkEnv (B "path/to/test") [] [] false) (B "InsertAnalysisTestOK_ErrorInfoHandler") (TStruct [(MkVar (B "Rel") true false [(B "rel", [B "relation_a:a"])], (TStruct [])); (MkVar (B "myerrorinfohandler") false true [], g_test_myerrorinfohandler)])) (MkQ KInsert (Some (MkRelF (B "Rel") (MkRel (B "relation_a") (B "a") []) (MkRT (MkTI [] KStruct [] [] false (MkFlags false false false false false false) false false false 0 None None) false false false 0 false [] false []) false)) None None None None None None None None None None None None None (Some (MkErrH (B "myerrorinfohandler") true)) None None false).
Proof. vm_compute. reflexivity. Qed.
Example ok_SelectAnalysisTestOK_Count :
  query_of (Run (Analysis.MkEnv (B "path/to/test") [] [] false) (B "SelectAnalysisTestOK_Count") (TStruct [(MkVar (B "Count") true false [(B "rel", [B "relation_a:a"])], (TBasic BInt false false))])) (MkQ KSelectCount (Some (MkRelF (B "Count") (MkRel (B "relation_a") (B "a") []) zero_rt false)) None None None None None None None None None None None None None None None None false).
Proof. vm_compute. reflexivity. Qed.
Example ok_SelectAnalysisTestOK_Exists :
  query_of (Run (Analysis.MkEnv (B "path/to/test") [] [] false) (B "SelectAnalysisTestOK_Exists") (TStruct [(MkVar (B "Exists") true false [(B "rel", [B "relation_a:a"])], (TBasic BBool false false))])) (MkQ KSelectExists (Some (MkRelF (B "Exists") (MkRel (B "relation_a") (B "a") []) zero_rt false)) None None None None None None None None None None None None None None None None false).
Proof. vm_compute. reflexivity. Qed.
Example ok_SelectAnalysisTestOK_NotExists :
  query_of (Run (Analysis.MkEnv (B "path/to/test") [] [] false) (B "SelectAnalysisTestOK_NotExists") (TStruct [(MkVar (B "NotExists") true false [(B "rel", [B "relation_a:a"])], (TBasic BBool false false))])) (MkQ KSelectNotExists (Some (MkRelF (B "NotExists") (MkRel (B "relation_a") (B "a") []) zero_rt false)) None None None None None None None None None None None None None None None None false).
Proof. vm_compute. reflexivity. Qed.
Example ok_DeleteAnalysisTestOK_Relation :
  query_of (Run (Analysis.MkEnv (B "path/to/test") [] [] false) (B "DeleteAnalysisTestOK_Relation") (TStruct [(MkVar (B "_") false false [(B "rel", [B "relation_a:a"])], g_gosql_Relation)])) (MkQ KDelete (Some (MkRelF (B "_") (MkRel (B "relation_a") (B "a") []) zero_rt true)) None None None None None None None None None None None None None None None None false).
Proof. vm_compute. reflexivity. Qed.
Example ok_SelectAnalysisTestOK_LimitDirective :
  query_of (Run (Analysis.MkEnv (B "path/to/test") [] [] false) (B "SelectAnalysisTestOK_LimitDirective") (TStruct [(MkVar (B "Rel") true false [(B "rel", [B "relation_a:a"])], (TSlice g_test_T)); (MkVar (B "_") false false [(B "sql", [B "25"])], g_gosql_Limit)])) (MkQ KSelect (Some (MkRelF (B "Rel") (MkRel (B "relation_a") (B "a") []) (MkRT (MkTI (B "T") KStruct (B "path/to/test") (B "testdata") false (MkFlags false false false false false false) false false false 0 None None) false true false 0 false [] false [(MkFI (B "F") (MkTI [] (KBasic BString) [] [] false (MkFlags false false false false false false) false false false 0 None None) [] false true [(B "sql", [B "f"])] (MkCol [] (B "f")) (B "F") (MkMode true true true true false) false false false false [])]) false)) None None None None None (Some (MkLimit [] 25%N)) None None None None None None None None None None false).
Proof. vm_compute. reflexivity. Qed.
Example ok_SelectAnalysisTestOK_LimitField :
  query_of (Run (Analysis.MkEnv (B "path/to/test") [] [] false) (B "SelectAnalysisTestOK_LimitField") (TStruct [(MkVar (B "Rel") true false [(B "rel", [B "relation_a:a"])], (TSlice g_test_T)); (MkVar (B "Limit") true false [(B "sql", [B "10"])], (TBasic BInt false false))])) (MkQ KSelect (Some (MkRelF (B "Rel") (MkRel (B "relation_a") (B "a") []) (MkRT (MkTI (B "T") KStruct (B "path/to/test") (B "testdata") false (MkFlags false false false false false false) false false false 0 None None) false true false 0 false [] false [(MkFI (B "F") (MkTI [] (KBasic BString) [] [] false (MkFlags false false false false false false) false false false 0 None None) [] false true [(B "sql", [B "f"])] (MkCol [] (B "f")) (B "F") (MkMode true true true true false) false false false false [])]) false)) None None None None None (Some (MkLimit (B "Limit") 10%N)) None None None None None None None None None None false).
Proof. vm_compute. reflexivity. Qed.
Example ok_SelectAnalysisTestOK_OffsetDirective :
  query_of (Run (Analysis.MkEnv (B "path/to/test") [] [] false) (B "SelectAnalysisTestOK_OffsetDirective") (TStruct [(MkVar (B "Rel") true false [(B "rel", [B "relation_a:a"])], (TSlice g_test_T)); (MkVar (B "_") false false [(B "sql", [B "25"])], g_gosql_Offset)])) (MkQ KSelect (Some (MkRelF (B "Rel") (MkRel (B "relation_a") (B "a") []) (MkRT (MkTI (B "T") KStruct (B "path/to/test") (B "testdata") false (MkFlags false false false false false false) false false false 0 None None) false true false 0 false [] false [(MkFI (B "F") (MkTI [] (KBasic BString) [] [] false (MkFlags false false false false false false) false false false 0 None None) [] false true [(B "sql", [B "f"])] (MkCol [] (B "f")) (B "F") (MkMode true true true true false) false false false false [])]) false)) None None None None None None (Some (MkLimit [] 25%N)) None None None None None None None None None false).
Proof. vm_compute. reflexivity. Qed.
Example ok_SelectAnalysisTestOK_OffsetField :
  query_of (Run (Analysis.MkEnv (B "path/to/test") [] [] false) (B "SelectAnalysisTestOK_OffsetField") (TStruct [(MkVar (B "Rel") true false [(B "rel", [B "relation_a:a"])], (TSlice g_test_T)); (MkVar (B "Offset") true false [(B "sql", [B "10"])], (TBasic BInt false false))])) (MkQ KSelect (Some (MkRelF (B "Rel") (MkRel (B "relation_a") (B "a") []) (MkRT (MkTI (B "T") KStruct (B "path/to/test") (B "testdata") false (MkFlags false false false false false false) false false false 0 None None) false true false 0 false [] false [(MkFI (B "F") (MkTI [] (KBasic BString) [] [] false (MkFlags false false false false false false) false false false 0 None None) [] false true [(B "sql", [B "f"])] (MkCol [] (B "f")) (B "F") (MkMode true true true true false) false false false false [])]) false)) None None None None None None (Some (MkLimit (B "Offset") 10%N)) None None None None None None None None None false).
Proof. vm_compute. reflexivity. Qed.
Example ok_SelectAnalysisTestOK_OrderByDirective :
  query_of (Run (Analysis.MkEnv (B "path/to/test") [] [] false) (B "SelectAnalysisTestOK_OrderByDirective") (TStruct [(MkVar (B "Rel") true false [(B "rel", [B "relation_a:a"])], (TSlice g_test_T)); (MkVar (B "_") false false [(B "sql", [B "a.foo:nullsfirst"; B "-a.bar:nullsfirst"; B "-a.baz"; B "a.quux:nullslast"])], g_gosql_OrderBy)])) (MkQ KSelect (Some (MkRelF (B "Rel") (MkRel (B "relation_a") (B "a") []) (MkRT (MkTI (B "T") KStruct (B "path/to/test") (B "testdata") false (MkFlags false false false false false false) false false false 0 None None) false true false 0 false [] false [(MkFI (B "F") (MkTI [] (KBasic BString) [] [] false (MkFlags false false false false false false) false false false 0 None None) [] false true [(B "sql", [B "f"])] (MkCol [] (B "f")) (B "F") (MkMode true true true true false) false false false false [])]) false)) None None None None (Some [(MkOrder (MkCol (B "a") (B "foo")) false NullsFirst); (MkOrder (MkCol (B "a") (B "bar")) true NullsFirst); (MkOrder (MkCol (B "a") (B "baz")) true NullsDefault); (MkOrder (MkCol (B "a") (B "quux")) false NullsLast)]) None None None None None None None None None None None false).
Proof. vm_compute. reflexivity. Qed.
Example ok_InsertAnalysisTestOK_OverrideDirective :
  query_of (Run (Analysis.MkEnv (B "path/to/test") [] [] false) (B "InsertAnalysisTestOK_OverrideDirective") (TStruct [(MkVar (B "Rel") true false [(B "rel", [B "relation_a:a"])], (TSlice g_test_T)); (MkVar (B "_") false false [(B "sql", [B "system"])], g_gosql_Override)])) (MkQ KInsert (Some (MkRelF (B "Rel") (MkRel (B "relation_a") (B "a") []) (MkRT (MkTI (B "T") KStruct (B "path/to/test") (B "testdata") false (MkFlags false false false false false false) false false false 0 None None) false true false 0 false [] false [(MkFI (B "F") (MkTI [] (KBasic BString) [] [] false (MkFlags false false false false false false) false false false 0 None None) [] false true [(B "sql", [B "f"])] (MkCol [] (B "f")) (B "F") (MkMode true true true true false) false false false false [])]) false)) None None None None None None None None None None None None (Some OverridingSystem) None None None false).
Proof. vm_compute. reflexivity. Qed.
Example ok_InsertAnalysisTestOK_OnConflict :
  query_of (Run (Analysis.MkEnv (B "path/to/test") [] [] false) (B "InsertAnalysisTestOK_OnConflict") (TStruct [(MkVar (B "Rel") true false [(B "rel", [B "relation_a:a"])], (TSlice g_test_T)); (MkVar (B "OnConflict") true false [], (TStruct [(MkVar (B "_") false false [], g_gosql_Ignore)]))])) (MkQ KInsert (Some (MkRelF (B "Rel") (MkRel (B "relation_a") (B "a") []) (MkRT (MkTI (B "T") KStruct (B "path/to/test") (B "testdata") false (MkFlags false false false false false false) false false false 0 None None) false true false 0 false [] false [(MkFI (B "F") (MkTI [] (KBasic BString) [] [] false (MkFlags false false false false false false) false false false 0 None None) [] false true [(B "sql", [B "f"])] (MkCol [] (B "f")) (B "F") (MkMode true true true true false) false false false false [])]) false)) None None None (Some (MkOC (B "OnConflict") None None None true None)) None None None None None None None None None None None None false).
Proof. vm_compute. reflexivity. Qed.
Example ok_InsertAnalysisTestOK_OnConflictColumn :
  query_of (Run (Analysis.MkEnv (B "path/to/test") [] [] false) (B "InsertAnalysisTestOK_OnConflictColumn") (TStruct [(MkVar (B "Rel") true false [(B "rel", [B "relation_a:a"])], (TSlice g_test_T)); (MkVar (B "OnConflict") true false [], (TStruct [(MkVar (B "_") false false [(B "sql", [B "a.id"])], g_gosql_Column); (MkVar (B "_") false false [], g_gosql_Ignore)]))])) (MkQ KInsert (Some (MkRelF (B "Rel") (MkRel (B "relation_a") (B "a") []) (MkRT (MkTI (B "T") KStruct (B "path/to/test") (B "testdata") false (MkFlags false false false false false false) false false false 0 None None) false true false 0 false [] false [(MkFI (B "F") (MkTI [] (KBasic BString) [] [] false (MkFlags false false false false false false) false false false 0 None None) [] false true [(B "sql", [B "f"])] (MkCol [] (B "f")) (B "F") (MkMode true true true true false) false false false false [])]) false)) None None None (Some (MkOC (B "OnConflict") (Some [(MkCol (B "a") (B "id"))]) None None true None)) None None None None None None None None None None None None false).
Proof. vm_compute. reflexivity. Qed.
Example ok_InsertAnalysisTestOK_OnConflictConstraint :
  query_of (Run (Analysis.MkEnv (B "path/to/test") [] [] false) (B "InsertAnalysisTestOK_OnConflictConstraint") (TStruct [(MkVar (B "Rel") true false [(B "rel", [B "relation_a:a"])], (TSlice g_test_T)); (MkVar (B "OnConflict") true false [], (TStruct [(MkVar (B "_") false false [(B "sql", [B "relation_constraint_xyz"])], g_gosql_Constraint); (MkVar (B "_") false false [(B "sql", [B "a.foo"; B "a.bar"; B "a.baz"])], g_gosql_Update)]))])) (MkQ KInsert (Some (MkRelF (B "Rel") (MkRel (B "relation_a") (B "a") []) (MkRT (MkTI (B "T") KStruct (B "path/to/test") (B "testdata") false (MkFlags false false false false false false) false false false 0 None None) false true false 0 false [] false [(MkFI (B "F") (MkTI [] (KBasic BString) [] [] false (MkFlags false false false false false false) false false false 0 None None) [] false true [(B "sql", [B "f"])] (MkCol [] (B "f")) (B "F") (MkMode true true true true false) false false false false [])]) false)) None None None (Some (MkOC (B "OnConflict") None None (Some (B "relation_constraint_xyz")) false (Some (MkColList false [(MkCol (B "a") (B "foo")); (MkCol (B "a") (B "bar")); (MkCol (B "a") (B "baz"))])))) None None None None None None None None None None None None false).
Proof. vm_compute. reflexivity. Qed.
Example ok_InsertAnalysisTestOK_OnConflictIndex :
  query_of (Run (Analysis.MkEnv (B "path/to/test") [] [] false) (B "InsertAnalysisTestOK_OnConflictIndex") (TStruct [(MkVar (B "Rel") true false [(B "rel", [B "relation_a:a"])], (TSlice g_test_T)); (MkVar (B "OnConflict") true false [], (TStruct [(MkVar (B "_") false false [(B "sql", [B "relation_index_xyz"])], g_gosql_Index); (MkVar (B "_") false false [(B "sql", [B "*"])], g_gosql_Update)]))])) (MkQ KInsert (Some (MkRelF (B "Rel") (MkRel (B "relation_a") (B "a") []) (MkRT (MkTI (B "T") KStruct (B "path/to/test") (B "testdata") false (MkFlags false false false false false false) false false false 0 None None) false true false 0 false [] false [(MkFI (B "F") (MkTI [] (KBasic BString) [] [] false (MkFlags false false false false false false) false false false 0 None None) [] false true [(B "sql", [B "f"])] (MkCol [] (B "f")) (B "F") (MkMode true true true true false) false false false false [])]) false)) None None None (Some (MkOC (B "OnConflict") None (Some (B "relation_index_xyz")) None false (Some (MkColList true [])))) None None None None None None None None None None None None false).
Proof. vm_compute. reflexivity. Qed.
Example ok_DeleteAnalysisTestOK_ResultField :
  query_of (Run (Analysis.MkEnv (B "path/to/test") [] [] false) (B "DeleteAnalysisTestOK_ResultField") (TStruct [(MkVar (B "_") false false [(B "rel", [B "relation_a:a"])], g_gosql_Relation); (MkVar (B "Where") true false [], (TStruct [(MkVar (B "_") false false [(B "sql", [B "a.is_inactive istrue"])], g_gosql_Column)])); (MkVar (B "Result") true false [], (TSlice g_test_T))])) (MkQ KDelete (Some (MkRelF (B "_") (MkRel (B "relation_a") (B "a") []) zero_rt true)) (Some (MkResult (B "Result") (MkRT (MkTI (B "T") KStruct (B "path/to/test") (B "testdata") false (MkFlags false false false false false false) false false false 0 None None) false true false 0 false [] false [(MkFI (B "F") (MkTI [] (KBasic BString) [] [] false (MkFlags false false false false false false) false false false 0 None None) [] false true [(B "sql", [B "f"])] (MkCol [] (B "f")) (B "F") (MkMode true true true true false) false false false false [])]))) (Some (MkWhere (B "Where") [(WColumn (MkCond (MkCol (B "a") (B "is_inactive")) (MkCol [] []) [] IsTrue QNone))])) None None None None None None None None None None None None None None false).
Proof. vm_compute. reflexivity. Qed.
Example ok_DeleteAnalysisTestOK_RowsAffected :
  query_of (Run (Analysis.MkEnv (B "path/to/test") [] [] false) (B "DeleteAnalysisTestOK_RowsAffected") (TStruct [(MkVar (B "_") false false [(B "rel", [B "relation_a:a"])], g_gosql_Relation); (MkVar (B "Where") true false [], (TStruct [(MkVar (B "_") false false [(B "sql", [B "a.is_inactive istrue"])], g_gosql_Column)])); (MkVar (B "RowsAffected") true false [], (TBasic BInt false false))])) (MkQ KDelete (Some (MkRelF (B "_") (MkRel (B "relation_a") (B "a") []) zero_rt true)) None (Some (MkWhere (B "Where") [(WColumn (MkCond (MkCol (B "a") (B "is_inactive")) (MkCol [] []) [] IsTrue QNone))])) None None None None None (Some (MkRows (B "RowsAffected") (KBasic BInt))) None None None None None None None None false).
Proof. vm_compute. reflexivity. Qed.
Example ok_SelectAnalysisTestOK_FilterField :
  query_of (Run (Analysis.MkEnv (B "path/to/test") [] [] false) (B "SelectAnalysisTestOK_FilterField") (TStruct [(MkVar (B "Rel") true false [(B "rel", [B "relation_a:a"])], (TSlice g_test_T)); (MkVar (B "Filter") true false [], g_gosql_Filter)])) (MkQ KSelect (Some (MkRelF (B "Rel") (MkRel (B "relation_a") (B "a") []) (MkRT (MkTI (B "T") KStruct (B "path/to/test") (B "testdata") false (MkFlags false false false false false false) false false false 0 None None) false true false 0 false [] false [(MkFI (B "F") (MkTI [] (KBasic BString) [] [] false (MkFlags false false false false false false) false false false 0 None None) [] false true [(B "sql", [B "f"])] (MkCol [] (B "f")) (B "F") (MkMode true true true true false) false false false false [])]) false)) None None None None None None None None None None None None None None (Some (B "Filter")) None false).
Proof. vm_compute. reflexivity. Qed.
Example ok_SelectAnalysisTestOK_FieldTypesBasic :
  query_of (Run (Analysis.MkEnv (B "path/to/test") [] [] false) (B "SelectAnalysisTestOK_FieldTypesBasic") (TStruct [(MkVar (B "Rel") true false [(B "rel", [B "relation_a:a"])], (TStruct [(MkVar (B "f1") false false [(B "sql", [B "c1"])], (TBasic BBool false false)); (MkVar (B "f2") false false [(B "sql", [B "c2"])], (TBasic BUint8 true false)); (MkVar (B "f3") false false [(B "sql", [B "c3"])], (TBasic BInt32 false true)); (MkVar (B "f4") false false [(B "sql", [B "c4"])], (TBasic BInt8 false false)); (MkVar (B "f5") false false [(B "sql", [B "c5"])], (TBasic BInt16 false false)); (MkVar (B "f6") false false [(B "sql", [B "c6"])], (TBasic BInt32 false false)); (MkVar (B "f7") false false [(B "sql", [B "c7"])], (TBasic BInt64 false false)); (MkVar (B "f8") false false [(B "sql", [B "c8"])], (TBasic BInt false false)); (MkVar (B "f9") false false [(B "sql", [B "c9"])], (TBasic BUint8 false false)); (MkVar (B "f10") false false [(B "sql", [B "c10"])], (TBasic BUint16 false false)); (MkVar (B "f11") false false [(B "sql", [B "c11"])], (TBasic BUint32 false false)); (MkVar (B "f12") false false [(B "sql", [B "c12"])], (TBasic BUint64 false false)); (MkVar (B "f13") false false [(B "sql", [B "c13"])], (TBasic BUint false false)); (MkVar (B "f14") false false [(B "sql", [B "c14"])], (TBasic BUintptr false false)); (MkVar (B "f15") false false [(B "sql", [B "c15"])], (TBasic BFloat32 false false)); (MkVar (B "f16") false false [(B "sql", [B "c16"])], (TBasic BFloat64 false false)); (MkVar (B "f17") false false [(B "sql", [B "c17"])], (TBasic BComplex64 false false)); (MkVar (B "f18") false false [(B "sql", [B "c18"])], (TBasic BComplex128 false false)); (MkVar (B "f19") false false [(B "sql", [B "c19"])], (TBasic BString false false))]))])) (MkQ KSelect (Some (MkRelF (B "Rel") (MkRel (B "relation_a") (B "a") []) (MkRT (MkTI [] KStruct [] [] false (MkFlags false false false false false false) false false false 0 None None) false false false 0 false [] false [(MkFI (B "f1") (MkTI [] (KBasic BBool) [] [] false (MkFlags false false false false false false) false false false 0 None None) [] false false [(B "sql", [B "c1"])] (MkCol [] (B "c1")) (B "f1") (MkMode true true true true false) false false false false []); (MkFI (B "f2") (MkTI [] (KBasic BUint8) [] [] false (MkFlags false false false false false false) false true false 0 None None) [] false false [(B "sql", [B "c2"])] (MkCol [] (B "c2")) (B "f2") (MkMode true true true true false) false false false false []); (MkFI (B "f3") (MkTI [] (KBasic BInt32) [] [] false (MkFlags false false false false false false) false false true 0 None None) [] false false [(B "sql", [B "c3"])] (MkCol [] (B "c3")) (B "f3") (MkMode true true true true false) false false false false []); (MkFI (B "f4") (MkTI [] (KBasic BInt8) [] [] false (MkFlags false false false false false false) false false false 0 None None) [] false false [(B "sql", [B "c4"])] (MkCol [] (B "c4")) (B "f4") (MkMode true true true true false) false false false false []); (MkFI (B "f5") (MkTI [] (KBasic BInt16) [] [] false (MkFlags false false false false false false) false false false 0 None None) [] false false [(B "sql", [B "c5"])] (MkCol [] (B "c5")) (B "f5") (MkMode true true true true false) false false false false []); (MkFI (B "f6") (MkTI [] (KBasic BInt32) [] [] false (MkFlags false false false false false false) false false false 0 None None) [] false false [(B "sql", [B "c6"])] (MkCol [] (B "c6")) (B "f6") (MkMode true true true true false) false false false false []); (MkFI (B "f7") (MkTI [] (KBasic BInt64) [] [] false (MkFlags false false false false false false) false false false 0 None None) [] false false [(B "sql", [B "c7"])] (MkCol [] (B "c7")) (B "f7") (MkMode true true true true false) false false false false []); (MkFI (B "f8") (MkTI [] (KBasic BInt) [] [] false (MkFlags false false false false false false) false false false 0 None None) [] false false [(B "sql", [B "c8"])] (MkCol [] (B "c8")) (B "f8") (MkMode true true true true false) false false false false []); (MkFI (B "f9") (MkTI [] (KBasic BUint8) [] [] false (MkFlags false false false false false false) false false false 0 None None) [] false false [(B "sql", [B "c9"])] (MkCol [] (B "c9")) (B "f9") (MkMode true true true true false) false false false false []); (MkFI (B "f10") (MkTI [] (KBasic BUint16) [] [] false (MkFlags false false false false false false) false false false 0 None None) [] false false [(B "sql", [B "c10"])] (MkCol [] (B "c10")) (B "f10") (MkMode true true true true false) false false false false []); (MkFI (B "f11") (MkTI [] (KBasic BUint32) [] [] false (MkFlags false false false false false false) false false false 0 None None) [] false false [(B "sql", [B "c11"])] (MkCol [] (B "c11")) (B "f11") (MkMode true true true true false) false false false false []); (MkFI (B "f12") (MkTI [] (KBasic BUint64) [] [] false (MkFlags false false false false false false) false false false 0 None None) [] false false [(B "sql", [B "c12"])] (MkCol [] (B "c12")) (B "f12") (MkMode true true true true false) false false false false []); (MkFI (B "f13") (MkTI [] (KBasic BUint) [] [] false (MkFlags false false false false false false) false false false 0 None None) [] false false [(B "sql", [B "c13"])] (MkCol [] (B "c13")) (B "f13") (MkMode true true true true false) false false false false []); (MkFI (B "f14") (MkTI [] (KBasic BUintptr) [] [] false (MkFlags false false false false false false) false false false 0 None None) [] false false [(B "sql", [B "c14"])] (MkCol [] (B "c14")) (B "f14") (MkMode true true true true false) false false false false []); (MkFI (B "f15") (MkTI [] (KBasic BFloat32) [] [] false (MkFlags false false false false false false) false false false 0 None None) [] false false [(B "sql", [B "c15"])] (MkCol [] (B "c15")) (B "f15") (MkMode true true true true false) false false false false []); (MkFI (B "f16") (MkTI [] (KBasic BFloat64) [] [] false (MkFlags false false false false false false) false false false 0 None None) [] false false [(B "sql", [B "c16"])] (MkCol [] (B "c16")) (B "f16") (MkMode true true true true false) false false false false []); (MkFI (B "f17") (MkTI [] (KBasic BComplex64) [] [] false (MkFlags false false false false false false) false false false 0 None None) [] false false [(B "sql", [B "c17"])] (MkCol [] (B "c17")) (B "f17") (MkMode true true true true false) false false false false []); (MkFI (B "f18") (MkTI [] (KBasic BComplex128) [] [] false (MkFlags false false false false false false) false false false 0 None None) [] false false [(B "sql", [B "c18"])] (MkCol [] (B "c18")) (B "f18") (MkMode true true true true false) false false false false []); (MkFI (B "f19") (MkTI [] (KBasic BString) [] [] false (MkFlags false false false false false false) false false false 0 None None) [] false false [(B "sql", [B "c19"])] (MkCol [] (B "c19")) (B "f19") (MkMode true true true true false) false false false false [])]) false)) None None None None None None None None None None None None None None None None false).
Proof. vm_compute. reflexivity. Qed.
Example ok_SelectAnalysisTestOK_FieldTypesSlices :
  query_of (Run (Analysis.MkEnv (B "path/to/test") [] [] false) (B "SelectAnalysisTestOK_FieldTypesSlices") (TStruct [(MkVar (B "Rel") true false [(B "rel", [B "relation_a:a"])], (TStruct [(MkVar (B "f1") false false [(B "sql", [B "c1"])], (TSlice (TBasic BBool false false))); (MkVar (B "f2") false false [(B "sql", [B "c2"])], (TSlice (TBasic BUint8 true false))); (MkVar (B "f3") false false [(B "sql", [B "c3"])], (TSlice (TBasic BInt32 false true))); (MkVar (B "f4") false false [(B "sql", [B "c4"])], g_net_HardwareAddr); (MkVar (B "f5") false false [(B "sql", [B "c5"])], g_json_RawMessage); (MkVar (B "f6") false false [(B "sql", [B "c6"])], (TSlice g_json_Marshaler)); (MkVar (B "f7") false false [(B "sql", [B "c7"])], (TSlice g_json_RawMessage)); (MkVar (B "f8") false false [(B "sql", [B "c8"])], (TSlice (TSlice (TBasic BUint8 true false)))); (MkVar (B "f9") false false [(B "sql", [B "c9"])], (TSlice (TArray 2 (TArray 2 (TBasic BFloat64 false false))))); (MkVar (B "f10") false false [(B "sql", [B "c10"])], (TSlice (TSlice (TArray 2 (TBasic BFloat64 false false))))); (MkVar (B "f11") false false [(B "sql", [B "c11"])], (TMap (TBasic BString false false) g_sql_NullString)); (MkVar (B "f12") false false [(B "sql", [B "c12"])], (TSlice (TMap (TBasic BString false false) (TPtr (TBasic BString false false))))); (MkVar (B "f13") false false [(B "sql", [B "c13"])], (TSlice (TArray 2 (TPtr g_big_Int))))]))])) (MkQ KSelect (Some (MkRelF (B "Rel") (MkRel (B "relation_a") (B "a") []) (MkRT (MkTI [] KStruct [] [] false (MkFlags false false false false false false) false false false 0 None None) false false false 0 false [] false [(MkFI (B "f1") (MkTI [] KSlice [] [] false (MkFlags false false false false false false) false false false 0 None (Some (MkTI [] (KBasic BBool) [] [] false (MkFlags false false false false false false) false false false 0 None None))) [] false false [(B "sql", [B "c1"])] (MkCol [] (B "c1")) (B "f1") (MkMode true true true true false) false false false false []); (MkFI (B "f2") (MkTI [] KSlice [] [] false (MkFlags false false false false false false) false false false 0 None (Some (MkTI [] (KBasic BUint8) [] [] false (MkFlags false false false false false false) false true false 0 None None))) [] false false [(B "sql", [B "c2"])] (MkCol [] (B "c2")) (B "f2") (MkMode true true true true false) false false false false []); (MkFI (B "f3") (MkTI [] KSlice [] [] false (MkFlags false false false false false false) false false false 0 None (Some (MkTI [] (KBasic BInt32) [] [] false (MkFlags false false false false false false) false false true 0 None None))) [] false false [(B "sql", [B "c3"])] (MkCol [] (B "c3")) (B "f3") (MkMode true true true true false) false false false false []); (MkFI (B "f4") (MkTI (B "HardwareAddr") KSlice (B "net") (B "net") true (MkFlags false false false false false false) false false false 0 None (Some (MkTI [] (KBasic BUint8) [] [] false (MkFlags false false false false false false) false true false 0 None None))) [] false false [(B "sql", [B "c4"])] (MkCol [] (B "c4")) (B "f4") (MkMode true true true true false) false false false false []); (MkFI (B "f5") (MkTI (B "RawMessage") KSlice (B "encoding/json") (B "json") true (MkFlags false false true true false false) false false false 0 None (Some (MkTI [] (KBasic BUint8) [] [] false (MkFlags false false false false false false) false true false 0 None None))) [] false false [(B "sql", [B "c5"])] (MkCol [] (B "c5")) (B "f5") (MkMode true true true true false) false false false false []); (MkFI (B "f6") (MkTI [] KSlice [] [] false (MkFlags false false false false false false) false false false 0 None (Some (MkTI (B "Marshaler") KInterface (B "encoding/json") (B "json") true (MkFlags false false true false false false) false false false 0 None None))) [] false false [(B "sql", [B "c6"])] (MkCol [] (B "c6")) (B "f6") (MkMode true true true true false) false false false false []); (MkFI (B "f7") (MkTI [] KSlice [] [] false (MkFlags false false false false false false) false false false 0 None (Some (MkTI (B "RawMessage") KSlice (B "encoding/json") (B "json") true (MkFlags false false true true false false) false false false 0 None (Some (MkTI [] (KBasic BUint8) [] [] false (MkFlags false false false false false false) false true false 0 None None))))) [] false false [(B "sql", [B "c7"])] (MkCol [] (B "c7")) (B "f7") (MkMode true true true true false) false false false false []); (MkFI (B "f8") (MkTI [] KSlice [] [] false (MkFlags false false false false false false) false false false 0 None (Some (MkTI [] KSlice [] [] false (MkFlags false false false false false false) false false false 0 None (Some (MkTI [] (KBasic BUint8) [] [] false (MkFlags false false false false false false) false true false 0 None None))))) [] false false [(B "sql", [B "c8"])] (MkCol [] (B "c8")) (B "f8") (MkMode true true true true false) false false false false []); (MkFI (B "f9") (MkTI [] KSlice [] [] false (MkFlags false false false false false false) false false false 0 None (Some (MkTI [] KArray [] [] false (MkFlags false false false false false false) false false false 2 None (Some (MkTI [] KArray [] [] false (MkFlags false false false false false false) false false false 2 None (Some (MkTI [] (KBasic BFloat64) [] [] false (MkFlags false false false false false false) false false false 0 None None))))))) [] false false [(B "sql", [B "c9"])] (MkCol [] (B "c9")) (B "f9") (MkMode true true true true false) false false false false []); (MkFI (B "f10") (MkTI [] KSlice [] [] false (MkFlags false false false false false false) false false false 0 None (Some (MkTI [] KSlice [] [] false (MkFlags false false false false false false) false false false 0 None (Some (MkTI [] KArray [] [] false (MkFlags false false false false false false) false false false 2 None (Some (MkTI [] (KBasic BFloat64) [] [] false (MkFlags false false false false false false) false false false 0 None None))))))) [] false false [(B "sql", [B "c10"])] (MkCol [] (B "c10")) (B "f10") (MkMode true true true true false) false false false false []); (MkFI (B "f11") (MkTI [] KMap [] [] false (MkFlags false false false false false false) false false false 0 (Some (MkTI [] (KBasic BString) [] [] false (MkFlags false false false false false false) false false false 0 None None)) (Some (MkTI (B "NullString") KStruct (B "database/sql") (B "sql") true (MkFlags true true false false false false) false false false 0 None None))) [] false false [(B "sql", [B "c11"])] (MkCol [] (B "c11")) (B "f11") (MkMode true true true true false) false false false false []); (MkFI (B "f12") (MkTI [] KSlice [] [] false (MkFlags false false false false false false) false false false 0 None (Some (MkTI [] KMap [] [] false (MkFlags false false false false false false) false false false 0 (Some (MkTI [] (KBasic BString) [] [] false (MkFlags false false false false false false) false false false 0 None None)) (Some (MkTI [] KPtr [] [] false (MkFlags false false false false false false) false false false 0 None (Some (MkTI [] (KBasic BString) [] [] false (MkFlags false false false false false false) false false false 0 None None))))))) [] false false [(B "sql", [B "c12"])] (MkCol [] (B "c12")) (B "f12") (MkMode true true true true false) false false false false []); (MkFI (B "f13") (MkTI [] KSlice [] [] false (MkFlags false false false false false false) false false false 0 None (Some (MkTI [] KArray [] [] false (MkFlags false false false false false false) false false false 2 None (Some (MkTI [] KPtr [] [] false (MkFlags false false false false false false) false false false 0 None (Some (MkTI (B "Int") KStruct (B "math/big") (B "big") true (MkFlags false false true true false false) false false false 0 None None))))))) [] false false [(B "sql", [B "c13"])] (MkCol [] (B "c13")) (B "f13") (MkMode true true true true false) false false false false [])]) false)) None None None None None None None None None None None None None None None None false).
Proof. vm_compute. reflexivity. Qed.
Example ok_SelectAnalysisTestOK_FieldTypesInterfaces :
  query_of (Run (Analysis.MkEnv (B "path/to/test") [] [] false) (B "SelectAnalysisTestOK_FieldTypesInterfaces") (TStruct [(MkVar (B "Rel") true false [(B "rel", [B "relation_a:a"])], (TStruct [(MkVar (B "f1") false false [(B "sql", [B "c1"])], g_json_Marshaler); (MkVar (B "f2") false false [(B "sql", [B "c2"])], g_json_Unmarshaler); (MkVar (B "f3") false false [(B "sql", [B "c3"])], (TIface [(B "MarshalJSON", true, ([], [(TSlice (TBasic BUint8 true false)); g_error])); (B "UnmarshalJSON", true, ([(TSlice (TBasic BUint8 true false))], [g_error]))] false false false))]))])) (MkQ KSelect (Some (MkRelF (B "Rel") (MkRel (B "relation_a") (B "a") []) (MkRT (MkTI [] KStruct [] [] false (MkFlags false false false false false false) false false false 0 None None) false false false 0 false [] false [(MkFI (B "f1") (MkTI (B "Marshaler") KInterface (B "encoding/json") (B "json") true (MkFlags false false true false false false) false false false 0 None None) [] false false [(B "sql", [B "c1"])] (MkCol [] (B "c1")) (B "f1") (MkMode true true true true false) false false false false []); (MkFI (B "f2") (MkTI (B "Unmarshaler") KInterface (B "encoding/json") (B "json") true (MkFlags false false false true false false) false false false 0 None None) [] false false [(B "sql", [B "c2"])] (MkCol [] (B "c2")) (B "f2") (MkMode true true true true false) false false false false []); (MkFI (B "f3") (MkTI [] KInterface [] [] false (MkFlags false false false false false false) false false false 0 None None) [] false false [(B "sql", [B "c3"])] (MkCol [] (B "c3")) (B "f3") (MkMode true true true true false) false false false false [])]) false)) None None None None None None None None None None None None None None None None false).
Proof. vm_compute. reflexivity. Qed.
Example ok_SelectAnalysisTestOK_FieldTypesEmptyInterfaces :
  query_of (Run (Analysis.MkEnv (B "path/to/test") [] [] false) (B "SelectAnalysisTestOK_FieldTypesEmptyInterfaces") (TStruct [(MkVar (B "Rel") true false [(B "rel", [B "relation_a:a"])], (TStruct [(MkVar (B "f1") false false [(B "sql", [B "c1"])], (TIface [] true false false)); (MkVar (B "f2") false false [(B "sql", [B "c2"])], (TPtr (TIface [] true false false))); (MkVar (B "f3") false false [(B "sql", [B "c3"])], g_test_donothing); (MkVar (B "f4") false false [(B "sql", [B "c4"])], (TPtr g_test_donothing))]))])) (MkQ KSelect (Some (MkRelF (B "Rel") (MkRel (B "relation_a") (B "a") []) (MkRT (MkTI [] KStruct [] [] false (MkFlags false false false false false false) false false false 0 None None) false false false 0 false [] false [(MkFI (B "f1") (MkTI [] KInterface [] [] false (MkFlags false false false false false false) true false false 0 None None) [] false false [(B "sql", [B "c1"])] (MkCol [] (B "c1")) (B "f1") (MkMode true true true true false) false false false false []); (MkFI (B "f2") (MkTI [] KPtr [] [] false (MkFlags false false false false false false) false false false 0 None (Some (MkTI [] KInterface [] [] false (MkFlags false false false false false false) true false false 0 None None))) [] false false [(B "sql", [B "c2"])] (MkCol [] (B "c2")) (B "f2") (MkMode true true true true false) false false false false []); (MkFI (B "f3") (MkTI (B "donothing") KInterface (B "path/to/test") (B "testdata") false (MkFlags false false false false false false) true false false 0 None None) [] false false [(B "sql", [B "c3"])] (MkCol [] (B "c3")) (B "f3") (MkMode true true true true false) false false false false []); (MkFI (B "f4") (MkTI [] KPtr [] [] false (MkFlags false false false false false false) false false false 0 None (Some (MkTI (B "donothing") KInterface (B "path/to/test") (B "testdata") false (MkFlags false false false false false false) true false false 0 None None))) [] false false [(B "sql", [B "c4"])] (MkCol [] (B "c4")) (B "f4") (MkMode true true true true false) false false false false [])]) false)) None None None None None None None None None None None None None None None None false).
Proof. vm_compute. reflexivity. Qed.
Example ok_SelectAnalysisTestOK_WithContext :
  query_of (Run (Analysis.MkEnv (B "path/to/test") [] [] false) (B "SelectAnalysisTestOK_WithContext") (TStruct [(MkVar (B "Context") true true [], g_context_Context); (MkVar (B "UserRec") true false [(B "rel", [B "users_table"])], (TPtr g_common_User))])) (MkQ KSelect (Some (MkRelF (B "UserRec") (MkRel (B "users_table") [] []) (MkRT (MkTI (B "User") KStruct (B "github.com/frk/gosql/internal/testdata/common") (B "common") true (MkFlags false false false false false false) false false false 0 None None) true false false 0 false [] false [(MkFI (B "Id") (MkTI [] (KBasic BInt) [] [] false (MkFlags false false false false false false) false false false 0 None None) [] false true [(B "sql", [B "id"])] (MkCol [] (B "id")) (B "Id") (MkMode true true true true false) false false false false []); (MkFI (B "Email") (MkTI [] (KBasic BString) [] [] false (MkFlags false false false false false false) false false false 0 None None) [] false true [(B "sql", [B "email"])] (MkCol [] (B "email")) (B "Email") (MkMode true true true true false) false false false false []); (MkFI (B "FullName") (MkTI [] (KBasic BString) [] [] false (MkFlags false false false false false false) false false false 0 None None) [] false true [(B "sql", [B "full_name"])] (MkCol [] (B "full_name")) (B "FullName") (MkMode true true true true false) false false false false []); (MkFI (B "CreatedAt") (MkTI (B "Time") KStruct (B "time") (B "time") true (MkFlags false false true true false false) false false false 0 None None) [] false true [(B "sql", [B "created_at"])] (MkCol [] (B "created_at")) (B "CreatedAt") (MkMode true true true true false) false false false false [])]) false)) None None None None None None None None None None None None None None None (Some (B "Context")) false).
Proof. vm_compute. reflexivity. Qed.
Example ok_SelectAnalysisTestOK_WithContextNamed :
  query_of (Run (Analysis.MkEnv (B "path/to/test") [] [] false) (B "SelectAnalysisTestOK_WithContextNamed") (TStruct [(MkVar (B "Ctx") true false [], g_context_Context); (MkVar (B "UserRec") true false [(B "rel", [B "users_table"])], (TPtr g_common_User))])) (MkQ KSelect (Some (MkRelF (B "UserRec") (MkRel (B "users_table") [] []) (MkRT (MkTI (B "User") KStruct (B "github.com/frk/gosql/internal/testdata/common") (B "common") true (MkFlags false false false false false false) false false false 0 None None) true false false 0 false [] false [(MkFI (B "Id") (MkTI [] (KBasic BInt) [] [] false (MkFlags false false false false false false) false false false 0 None None) [] false true [(B "sql", [B "id"])] (MkCol [] (B "id")) (B "Id") (MkMode true true true true false) false false false false []); (MkFI (B "Email") (MkTI [] (KBasic BString) [] [] false (MkFlags false false false false false false) false false false 0 None None) [] false true [(B "sql", [B "email"])] (MkCol [] (B "email")) (B "Email") (MkMode true true true true false) false false false false []); (MkFI (B "FullName") (MkTI [] (KBasic BString) [] [] false (MkFlags false false false false false false) false false false 0 None None) [] false true [(B "sql", [B "full_name"])] (MkCol [] (B "full_name")) (B "FullName") (MkMode true true true true false) false false false false []); (MkFI (B "CreatedAt") (MkTI (B "Time") KStruct (B "time") (B "time") true (MkFlags false false true true false false) false false false 0 None None) [] false true [(B "sql", [B "created_at"])] (MkCol [] (B "created_at")) (B "CreatedAt") (MkMode true true true true false) false false false false [])]) false)) None None None None None None None None None None None None None None None (Some (B "Ctx")) false).
Proof. vm_compute. reflexivity. Qed.
Example ok_FilterAnalysisTestOK_TextSearchDirective :
  filter_of (Run (Analysis.MkEnv (B "path/to/test") [] [] false) (B "FilterAnalysisTestOK_TextSearchDirective") (TStruct [(MkVar (B "_") false false [(B "rel", [B "relation_a:a"])], g_test_T); (MkVar (B "_") false false [(B "sql", [B "a.ts_document"])], g_gosql_TextSearch); (MkVar (B "FilterMaker") true true [(B "filter", [B "v2"])], g_common_FilterMaker)])) (MkF (Some (MkRelF (B "_") (MkRel (B "relation_a") (B "a") []) (MkRT (MkTI (B "T") KStruct (B "path/to/test") (B "testdata") false (MkFlags false false false false false false) false false false 0 None None) false false false 0 false [] false [(MkFI (B "F") (MkTI [] (KBasic BString) [] [] false (MkFlags false false false false false false) false false false 0 None None) [] false true [(B "sql", [B "f"])] (MkCol [] (B "f")) (B "F") (MkMode true true true true false) false false false false [])]) false)) (Some (MkCol (B "a") (B "ts_document"))) (Some (B "FilterMaker", true))).
Proof. vm_compute. reflexivity. Qed.
