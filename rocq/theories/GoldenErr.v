(** The model run on the test data of the analysis and of the type checker:
    for each struct of /repo/internal/testdata that analysis_test.go or
    postgres_test.go names, the error code which the test expects, or none; and the literals of
    TestTypeinfo_string.
    The file was written by a script from these sources. *)
From Coq Require Import Ascii String ZArith NArith Bool List.
From Verif Require Import GoBase AParse Analysis Oids Compat Gen Check Golden.
Import ListNotations.
Local Open Scope string_scope.
Local Open Scope list_scope.

Definition an_err (r : ares (qstate + fstate)) : option errc :=
  match r with AErr e => Some e | AOk _ => None | APanic => Some EBadFieldTypeInt end.
Definition db_err (r : ares (qstate + fstate)) : cres unit :=
  match r with
  | AOk (inl q) => match check_query golden_db q with COk _ => COk tt | CErr e => CErr e | CPanic => CPanic end
  | AOk (inr s) => match check_filter golden_db s with COk _ => COk tt | CErr e => CErr e | CPanic => CPanic end
  | _ => CPanic
  end.

Definition g_error : gtype := TNamed (MkName (B "error") None (MkFlags false false false false false false) false false false false) (TIface [(B "Error", true, ([], [TBasic BString false false]))] false false false).
Definition g_time_Time : gtype := TNamed (MkName (B "Time") (Some (B "time", B "time")) (MkFlags false false true true false false) false false false false) (TStruct [(MkVar (B "wall") false false [], TBasic BUint64 false false); (MkVar (B "ext") false false [], TBasic BInt64 false false); (MkVar (B "loc") false false [], TPtr (TStruct []))]).
Definition g_common_User : gtype := TNamed (MkName (B "User") (Some (B "github.com/frk/gosql/internal/testdata/common", B "common")) (MkFlags false false false false false false) false false false false) (TStruct [(MkVar (B "Id") true false [(B "sql", [B "id"])], (TBasic BInt false false)); (MkVar (B "Email") true false [(B "sql", [B "email"])], (TBasic BString false false)); (MkVar (B "FullName") true false [(B "sql", [B "full_name"])], (TBasic BString false false)); (MkVar (B "CreatedAt") true false [(B "sql", [B "created_at"])], g_time_Time)]).
Definition g_test_T : gtype := TNamed (MkName (B "T") (Some (B "path/to/test", B "testdata")) (MkFlags false false false false false false) false false false false) (TStruct [(MkVar (B "F") true false [(B "sql", [B "f"])], (TBasic BString false false))]).
Definition g_gosql_Relation : gtype := TNamed (MkName (B "Relation") (Some (B "github.com/frk/gosql", B "gosql")) (MkFlags false false false false false false) false false false false) (TStruct [(MkVar (B "_isdir") false false [], TStruct [])]).
Definition g_gosql_All : gtype := TNamed (MkName (B "All") (Some (B "github.com/frk/gosql", B "gosql")) (MkFlags false false false false false false) false false false false) (TStruct [(MkVar (B "_isdir") false false [], TStruct [])]).
Definition g_gosql_Default : gtype := TNamed (MkName (B "Default") (Some (B "github.com/frk/gosql", B "gosql")) (MkFlags false false false false false false) false false false false) (TStruct [(MkVar (B "_isdir") false false [], TStruct [])]).
Definition g_gosql_Force : gtype := TNamed (MkName (B "Force") (Some (B "github.com/frk/gosql", B "gosql")) (MkFlags false false false false false false) false false false false) (TStruct [(MkVar (B "_isdir") false false [], TStruct [])]).
Definition g_gosql_Return : gtype := TNamed (MkName (B "Return") (Some (B "github.com/frk/gosql", B "gosql")) (MkFlags false false false false false false) false false false false) (TStruct [(MkVar (B "_isdir") false false [], TStruct [])]).
Definition g_gosql_Limit : gtype := TNamed (MkName (B "Limit") (Some (B "github.com/frk/gosql", B "gosql")) (MkFlags false false false false false false) false false false false) (TStruct [(MkVar (B "_isdir") false false [], TStruct [])]).
Definition g_gosql_Offset : gtype := TNamed (MkName (B "Offset") (Some (B "github.com/frk/gosql", B "gosql")) (MkFlags false false false false false false) false false false false) (TStruct [(MkVar (B "_isdir") false false [], TStruct [])]).
Definition g_gosql_OrderBy : gtype := TNamed (MkName (B "OrderBy") (Some (B "github.com/frk/gosql", B "gosql")) (MkFlags false false false false false false) false false false false) (TStruct [(MkVar (B "_isdir") false false [], TStruct [])]).
Definition g_gosql_Override : gtype := TNamed (MkName (B "Override") (Some (B "github.com/frk/gosql", B "gosql")) (MkFlags false false false false false false) false false false false) (TStruct [(MkVar (B "_isdir") false false [], TStruct [])]).
Definition g_gosql_TextSearch : gtype := TNamed (MkName (B "TextSearch") (Some (B "github.com/frk/gosql", B "gosql")) (MkFlags false false false false false false) false false false false) (TStruct [(MkVar (B "_isdir") false false [], TStruct [])]).
Definition g_gosql_Column : gtype := TNamed (MkName (B "Column") (Some (B "github.com/frk/gosql", B "gosql")) (MkFlags false false false false false false) false false false false) (TStruct [(MkVar (B "_isdir") false false [], TStruct [])]).
Definition g_gosql_Filter : gtype := TNamed (MkName (B "Filter") (Some (B "github.com/frk/gosql", B "gosql")) (MkFlags false false false false false false) false false false false) (TIface [(B "ToSQL", true, ([TBasic BInt false false], [TBasic BString false false; TSlice (TIface [] true false false)]))] false false false).
Definition g_test_myerrorhandler : gtype := TNamed (MkName (B "myerrorhandler") (Some (B "path/to/test", B "testdata")) (MkFlags false false false false false false) false true false false) (TStruct []).
Definition g_test_badIterator : gtype := TNamed (MkName (B "badIterator") (Some (B "path/to/test", B "testdata")) (MkFlags false false false false false false) false false false false) (TIface [(B "Fn1", true, ([(TPtr g_common_User)], [g_error])); (B "Fn2", true, ([(TPtr g_common_User)], [g_error]))] false false false).
Definition g_test_badIterator2 : gtype := TNamed (MkName (B "badIterator2") (Some (B "path/to/test", B "testdata")) (MkFlags false false false false false false) false false false false) (TIface [(B "Fn", true, ([(TPtr g_common_User)], [(TBasic BInt false false)]))] false false false).
Definition g_common_BadIterator : gtype := TNamed (MkName (B "BadIterator") (Some (B "github.com/frk/gosql/internal/testdata/common", B "common")) (MkFlags false false false false false false) false false false false) (TIface [(B "fn", false, ([(TPtr g_common_User)], [g_error]))] false false false).
Definition g_test_notstruct : gtype := TNamed (MkName (B "notstruct") (Some (B "path/to/test", B "testdata")) (MkFlags false false false false false false) false false false false) (TBasic BString false false).
Definition g_gosql_LeftJoin : gtype := TNamed (MkName (B "LeftJoin") (Some (B "github.com/frk/gosql", B "gosql")) (MkFlags false false false false false false) false false false false) (TStruct [(MkVar (B "_isdir") false false [], TStruct [])]).
Definition g_gosql_Index : gtype := TNamed (MkName (B "Index") (Some (B "github.com/frk/gosql", B "gosql")) (MkFlags false false false false false false) false false false false) (TStruct [(MkVar (B "_isdir") false false [], TStruct [])]).
Definition g_gosql_Constraint : gtype := TNamed (MkName (B "Constraint") (Some (B "github.com/frk/gosql", B "gosql")) (MkFlags false false false false false false) false false false false) (TStruct [(MkVar (B "_isdir") false false [], TStruct [])]).
Definition g_gosql_Update : gtype := TNamed (MkName (B "Update") (Some (B "github.com/frk/gosql", B "gosql")) (MkFlags false false false false false false) false false false false) (TStruct [(MkVar (B "_isdir") false false [], TStruct [])]).
Definition g_gosql_Ignore : gtype := TNamed (MkName (B "Ignore") (Some (B "github.com/frk/gosql", B "gosql")) (MkFlags false false false false false false) false false false false) (TStruct [(MkVar (B "_isdir") false false [], TStruct [])]).
Definition g_test_CT1 : gtype := TNamed (MkName (B "CT1") (Some (B "path/to/test", B "testdata")) (MkFlags false false false false false false) false false false false) (TStruct [(MkVar (B "A") true false [(B "sql", [B "col_a"])], (TBasic BInt false false)); (MkVar (B "B") true false [(B "sql", [B "col_b"; B "nn"])], (TBasic BString false false)); (MkVar (B "C") true false [(B "sql", [B "col_c"])], (TBasic BBool false false)); (MkVar (B "D") true false [(B "sql", [B "col_d"; B "nn"])], (TBasic BFloat64 false false)); (MkVar (B "E") true false [(B "sql", [B "col_e"])], g_time_Time)]).
Definition g_test_T2 : gtype := TNamed (MkName (B "T2") (Some (B "path/to/test", B "testdata")) (MkFlags false false false false false false) false false false false) (TStruct [(MkVar (B "Foo") true false [(B "sql", [B "foo"])], (TBasic BInt false false)); (MkVar (B "Bar") true false [(B "sql", [B "bar"])], (TBasic BString false false)); (MkVar (B "Baz") true false [(B "sql", [B "baz"])], (TBasic BBool false false))]).
Definition g_context_Context : gtype := TNamed (MkName (B "Context") (Some (B "context", B "context")) (MkFlags false false false false false false) false false false false) (TIface [(B "Done", true, ([], [TChan (TStruct [])]))] false false false).
Definition g_test_namedIteratorFunc : gtype := TNamed (MkName (B "namedIteratorFunc") (Some (B "path/to/test", B "testdata")) (MkFlags false false false false false false) false false false false) (TFunc [(TPtr g_common_User)] [g_error]).
Definition g_test_namedIterator : gtype := TNamed (MkName (B "namedIterator") (Some (B "path/to/test", B "testdata")) (MkFlags false false false false false false) false false false false) (TIface [(B "Fn", true, ([(TPtr g_common_User)], [g_error]))] false false false).
Definition g_common_Baz : gtype := TNamed (MkName (B "Baz") (Some (B "github.com/frk/gosql/internal/testdata/common", B "common")) (MkFlags false false false false false false) false false false false) (TStruct [(MkVar (B "Val") true false [(B "sql", [B "val"])], (TBasic BString false false))]).
Definition g_common_Bar : gtype := TNamed (MkName (B "Bar") (Some (B "github.com/frk/gosql/internal/testdata/common", B "common")) (MkFlags false false false false false false) false false false false) (TStruct [(MkVar (B "Baz") true true [(B "sql", [B ">baz_"])], g_common_Baz)]).
Definition g_common_Foo : gtype := TNamed (MkName (B "Foo") (Some (B "github.com/frk/gosql/internal/testdata/common", B "common")) (MkFlags false false false false false false) false false false false) (TStruct [(MkVar (B "Bar") true false [(B "sql", [B ">bar_"])], g_common_Bar); (MkVar (B "Baz") true false [(B "sql", [B ">baz_"])], (TPtr g_common_Baz))]).
Definition g_gosql_RightJoin : gtype := TNamed (MkName (B "RightJoin") (Some (B "github.com/frk/gosql", B "gosql")) (MkFlags false false false false false false) false false false false) (TStruct [(MkVar (B "_isdir") false false [], TStruct [])]).
Definition g_gosql_FullJoin : gtype := TNamed (MkName (B "FullJoin") (Some (B "github.com/frk/gosql", B "gosql")) (MkFlags false false false false false false) false false false false) (TStruct [(MkVar (B "_isdir") false false [], TStruct [])]).
Definition g_gosql_CrossJoin : gtype := TNamed (MkName (B "CrossJoin") (Some (B "github.com/frk/gosql", B "gosql")) (MkFlags false false false false false false) false false false false) (TStruct [(MkVar (B "_isdir") false false [], TStruct [])]).
Definition g_test_myerrorinfohandler : gtype := TNamed (MkName (B "myerrorinfohandler") (Some (B "path/to/test", B "testdata")) (MkFlags false false false false false false) false false true false) (TStruct []).
Definition g_net_HardwareAddr : gtype := TNamed (MkName (B "HardwareAddr") (Some (B "net", B "net")) (MkFlags false false false false false false) false false false false) (TSlice (TBasic BUint8 true false)).
Definition g_json_RawMessage : gtype := TNamed (MkName (B "RawMessage") (Some (B "encoding/json", B "json")) (MkFlags false false true true false false) false false false false) (TSlice (TBasic BUint8 true false)).
Definition g_json_Marshaler : gtype := TNamed (MkName (B "Marshaler") (Some (B "encoding/json", B "json")) (MkFlags false false true false false false) false false false false) (TIface [(B "MarshalJSON", true, ([], [(TSlice (TBasic BUint8 true false)); g_error]))] false false false).
Definition g_sql_NullString : gtype := TNamed (MkName (B "NullString") (Some (B "database/sql", B "sql")) (MkFlags true true false false false false) false false false false) (TStruct [(MkVar (B "String") true false [], TBasic BString false false); (MkVar (B "Valid") true false [], TBasic BBool false false)]).
Definition g_big_Int : gtype := TNamed (MkName (B "Int") (Some (B "math/big", B "big")) (MkFlags false false true true false false) false false false false) (TStruct [(MkVar (B "neg") false false [], TBasic BBool false false); (MkVar (B "abs") false false [], TSlice (TBasic BUint false false))]).
Definition g_json_Unmarshaler : gtype := TNamed (MkName (B "Unmarshaler") (Some (B "encoding/json", B "json")) (MkFlags false false false true false false) false false false false) (TIface [(B "UnmarshalJSON", true, ([(TSlice (TBasic BUint8 true false))], [g_error]))] false false false).
Definition g_test_donothing : gtype := TNamed (MkName (B "donothing") (Some (B "path/to/test", B "testdata")) (MkFlags false false false false false false) false false false false) (TIface [] true false false).
Definition g_common_FilterMaker : gtype := TNamed (MkName (B "FilterMaker") (Some (B "github.com/frk/gosql/internal/testdata/common", B "common")) (MkFlags false false false false false false) false false false true) (TStruct []).
Definition g_test_COLOR_ENUM : gtype := TNamed (MkName (B "COLOR_ENUM") (Some (B "path/to/test", B "testdata")) (MkFlags false false false false false false) false false false false) (TBasic BString false false).
Definition g_common_MyTime : gtype := TNamed (MkName (B "MyTime") (Some (B "github.com/frk/gosql/internal/testdata/common", B "common")) (MkFlags true true true true false false) false false false false) (TStruct [(MkVar (B "Time") true true [], g_time_Time)]).
Definition g_test_CT3 : gtype := TNamed (MkName (B "CT3") (Some (B "path/to/test", B "testdata")) (MkFlags false false false false false false) false false false false) (TStruct [(MkVar (B "ColorText") true false [(B "sql", [B "color_text"])], (TBasic BString false false)); (MkVar (B "ColorEnum") true false [(B "sql", [B "color_enum"])], g_test_COLOR_ENUM); (MkVar (B "SomeTime") true false [(B "sql", [B "some_time"])], g_common_MyTime)]).
Definition g_test_CT3b : gtype := TNamed (MkName (B "CT3b") (Some (B "path/to/test", B "testdata")) (MkFlags false false false false false false) false false false false) (TStruct [(MkVar (B "ColorText") true false [(B "sql", [B "color_text"])], (TBasic BString false false)); (MkVar (B "ColorEnum") true false [(B "sql", [B "color_enum"])], g_test_COLOR_ENUM); (MkVar (B "SomeTime") true false [(B "sql", [B "some_time"])], (TPtr g_common_MyTime))]).
Definition g_test_cssStyles : gtype := TNamed (MkName (B "cssStyles") (Some (B "path/to/test", B "testdata")) (MkFlags true true false false false false) false false false false) (TStruct []).
Definition g_test_CT4 : gtype := TNamed (MkName (B "CT4") (Some (B "path/to/test", B "testdata")) (MkFlags false false false false false false) false false false false) (TStruct [(MkVar (B "ColorText") true false [(B "sql", [B "color_text"])], (TBasic BString false false)); (MkVar (B "ColorEnum") true false [(B "sql", [B "color_enum"])], g_test_COLOR_ENUM); (MkVar (B "H1Styles") true false [(B "sql", [B "h1_styles"])], g_test_cssStyles); (MkVar (B "SomeTime") true false [(B "sql", [B "some_time"])], g_common_MyTime)]).
Definition g_test_CT2 : gtype := TNamed (MkName (B "CT2") (Some (B "path/to/test", B "testdata")) (MkFlags false false false false false false) false false false false) (TStruct [(MkVar (B "Foo") true false [(B "sql", [B "col_foo"])], (TBasic BInt false false)); (MkVar (B "Bar") true false [(B "sql", [B "col_bar"])], (TBasic BString false false)); (MkVar (B "Baz") true false [(B "sql", [B "col_baz"])], (TBasic BBool false false))]).
Definition g_test_CT1_bad : gtype := TNamed (MkName (B "CT1_bad") (Some (B "path/to/test", B "testdata")) (MkFlags false false false false false false) false false false false) (TStruct [(MkVar (B "XYZ") true false [(B "sql", [B "col_xyz"])], (TBasic BString false false))]).
Definition g_net_IP : gtype := TNamed (MkName (B "IP") (Some (B "net", B "net")) (MkFlags false false false false false false) false false false false) (TSlice (TBasic BUint8 true false)).
Definition g_net_IPMask : gtype := TNamed (MkName (B "IPMask") (Some (B "net", B "net")) (MkFlags false false false false false false) false false false false) (TSlice (TBasic BUint8 true false)).
Definition g_net_IPNet : gtype := TNamed (MkName (B "IPNet") (Some (B "net", B "net")) (MkFlags false false false false false false) false false false false) (TStruct [(MkVar (B "IP") true false [], g_net_IP); (MkVar (B "Mask") true false [], g_net_IPMask)]).

Example an_InsertAnalysisTestBAD_NoDataField :
  an_err (Run (Analysis.MkEnv (B "path/to/test") [] [] false) (B "InsertAnalysisTestBAD_NoDataField") (TStruct [(MkVar (B "User") true false [], (TPtr g_common_User))])) = Some (EMissingRelField).
Proof. vm_compute. reflexivity. Qed.
Example an_InsertAnalysisTestBAD3 :
  an_err (Run (Analysis.MkEnv (B "path/to/test") [] [] false) (B "InsertAnalysisTestBAD3") (TStruct [(MkVar (B "User") true false [(B "rel", [B "users_table"])], (TBasic BString false false))])) = Some (EBadRelType).
Proof. vm_compute. reflexivity. Qed.
Example an_DeleteAnalysisTestBAD_BadRelId :
  an_err (Run (Analysis.MkEnv (B "path/to/test") [] [] false) (B "DeleteAnalysisTestBAD_BadRelId") (TStruct [(MkVar (B "Rel") true false [(B "rel", [B "foo.123:bar"])], g_test_T)])) = Some (EC EBadRelId).
Proof. vm_compute. reflexivity. Qed.
Example an_SelectAnalysisTestBAD_MultipleRelTags :
  an_err (Run (Analysis.MkEnv (B "path/to/test") [] [] false) (B "SelectAnalysisTestBAD_MultipleRelTags") (TStruct [(MkVar (B "Rel1") true false [(B "rel", [B "relation_a:a"])], g_test_T); (MkVar (B "Rel2") true false [(B "rel", [B ""])], g_test_T)])) = Some (EConflictingRelTag).
Proof. vm_compute. reflexivity. Qed.
Example an_DeleteAnalysisTestBAD_IllegalCountField :
  an_err (Run (Analysis.MkEnv (B "path/to/test") [] [] false) (B "DeleteAnalysisTestBAD_IllegalCountField") (TStruct [(MkVar (B "Count") true false [(B "rel", [B "relation_a:a"])], (TBasic BInt false false))])) = Some (EIllegalQueryField).
Proof. vm_compute. reflexivity. Qed.
Example an_UpdateAnalysisTestBAD_IllegalExistsField :
  an_err (Run (Analysis.MkEnv (B "path/to/test") [] [] false) (B "UpdateAnalysisTestBAD_IllegalExistsField") (TStruct [(MkVar (B "Exists") true false [(B "rel", [B "relation_a:a"])], (TBasic BBool false false))])) = Some (EIllegalQueryField).
Proof. vm_compute. reflexivity. Qed.
Example an_InsertAnalysisTestBAD_IllegalNotExistsField :
  an_err (Run (Analysis.MkEnv (B "path/to/test") [] [] false) (B "InsertAnalysisTestBAD_IllegalNotExistsField") (TStruct [(MkVar (B "NotExists") true false [(B "rel", [B "relation_a:a"])], (TBasic BBool false false))])) = Some (EIllegalQueryField).
Proof. vm_compute. reflexivity. Qed.
Example an_SelectAnalysisTestBAD_IllegalRelationDirective :
  an_err (Run (Analysis.MkEnv (B "path/to/test") [] [] false) (B "SelectAnalysisTestBAD_IllegalRelationDirective") (TStruct [(MkVar (B "_") false false [(B "rel", [B "relation_a:a"])], g_gosql_Relation)])) = Some (EIllegalQueryField).
Proof. vm_compute. reflexivity. Qed.
Example an_SelectAnalysisTestBAD_UnnamedBaseStructType :
  an_err (Run (Analysis.MkEnv (B "path/to/test") [] [] false) (B "SelectAnalysisTestBAD_UnnamedBaseStructType") (TStruct [(MkVar (B "Rel") true false [(B "rel", [B "relation_a:a"])], (TSlice (TPtr (TStruct []))))])) = Some (EBadRelType).
Proof. vm_compute. reflexivity. Qed.
Example an_SelectAnalysisTestBAD_IllegalAllDirective :
  an_err (Run (Analysis.MkEnv (B "path/to/test") [] [] false) (B "SelectAnalysisTestBAD_IllegalAllDirective") (TStruct [(MkVar (B "Rel") true false [(B "rel", [B "relation_a:a"])], (TSlice g_test_T)); (MkVar (B "_") false false [], g_gosql_All)])) = Some (EIllegalQueryField).
Proof. vm_compute. reflexivity. Qed.
Example an_InsertAnalysisTestBAD_IllegalAllDirective :
  an_err (Run (Analysis.MkEnv (B "path/to/test") [] [] false) (B "InsertAnalysisTestBAD_IllegalAllDirective") (TStruct [(MkVar (B "Rel") true false [(B "rel", [B "relation_a:a"])], g_test_T); (MkVar (B "_") false false [], g_gosql_All)])) = Some (EIllegalQueryField).
Proof. vm_compute. reflexivity. Qed.
Example an_UpdateAnalysisTestBAD_ConflictWhereProducer :
  an_err (Run (Analysis.MkEnv (B "path/to/test") [] [] false) (B "UpdateAnalysisTestBAD_ConflictWhereProducer") (TStruct [(MkVar (B "Rel") true false [(B "rel", [B "relation_a:a"])], g_test_T); (MkVar (B "Where") true false [], (TStruct [(MkVar (B "Id") true false [(B "sql", [B "a.id"])], (TBasic BInt false false))])); (MkVar (B "_") false false [], g_gosql_All)])) = Some (EConflictingWhere).
Proof. vm_compute. reflexivity. Qed.
Example an_DeleteAnalysisTestBAD_IllegalDefaultDirective :
  an_err (Run (Analysis.MkEnv (B "path/to/test") [] [] false) (B "DeleteAnalysisTestBAD_IllegalDefaultDirective") (TStruct [(MkVar (B "Rel") true false [(B "rel", [B "relation_a:a"])], g_test_T); (MkVar (B "_") false false [(B "sql", [B "*"])], g_gosql_Default)])) = Some (EIllegalQueryField).
Proof. vm_compute. reflexivity. Qed.
Example an_UpdateAnalysisTestBAD_EmptyDefaultDirectiveCollist :
  an_err (Run (Analysis.MkEnv (B "path/to/test") [] [] false) (B "UpdateAnalysisTestBAD_EmptyDefaultDirectiveCollist") (TStruct [(MkVar (B "Rel") true false [(B "rel", [B "relation_a:a"])], g_test_T); (MkVar (B "_") false false [], g_gosql_Default)])) = Some (EC EMissingColumnList).
Proof. vm_compute. reflexivity. Qed.
Example an_SelectAnalysisTestBAD_IllegalForceDirective :
  an_err (Run (Analysis.MkEnv (B "path/to/test") [] [] false) (B "SelectAnalysisTestBAD_IllegalForceDirective") (TStruct [(MkVar (B "Rel") true false [(B "rel", [B "relation_a:a"])], g_test_T); (MkVar (B "_") false false [(B "sql", [B "*"])], g_gosql_Force)])) = Some (EIllegalQueryField).
Proof. vm_compute. reflexivity. Qed.
Example an_UpdateAnalysisTestBAD_BadForceDirectiveColId :
  an_err (Run (Analysis.MkEnv (B "path/to/test") [] [] false) (B "UpdateAnalysisTestBAD_BadForceDirectiveColId") (TStruct [(MkVar (B "Rel") true false [(B "rel", [B "relation_a:a"])], g_test_T); (MkVar (B "_") false false [(B "sql", [B "a.id"; B "1234"])], g_gosql_Force)])) = Some (EC EBadColId).
Proof. vm_compute. reflexivity. Qed.
Example an_DeleteAnalysisTestBAD_ConflictResultProducer :
  an_err (Run (Analysis.MkEnv (B "path/to/test") [] [] false) (B "DeleteAnalysisTestBAD_ConflictResultProducer") (TStruct [(MkVar (B "Rel") true false [(B "rel", [B "relation_a:a"])], g_test_T); (MkVar (B "_") false false [(B "sql", [B "*"])], g_gosql_Return); (MkVar (B "_") false false [(B "sql", [B "a.id"])], g_gosql_Return)])) = Some (EConflictingResultTarget).
Proof. vm_compute. reflexivity. Qed.
Example an_UpdateAnalysisTestBAD_EmptyReturnDirectiveCollist :
  an_err (Run (Analysis.MkEnv (B "path/to/test") [] [] false) (B "UpdateAnalysisTestBAD_EmptyReturnDirectiveCollist") (TStruct [(MkVar (B "Rel") true false [(B "rel", [B "relation_a:a"])], g_test_T); (MkVar (B "_") false false [], g_gosql_Return)])) = Some (EC EMissingColumnList).
Proof. vm_compute. reflexivity. Qed.
Example an_InsertAnalysisTestBAD_IllegalLimitField :
  an_err (Run (Analysis.MkEnv (B "path/to/test") [] [] false) (B "InsertAnalysisTestBAD_IllegalLimitField") (TStruct [(MkVar (B "Rel") true false [(B "rel", [B "relation_a:a"])], g_test_T); (MkVar (B "_") false false [(B "sql", [B "10"])], g_gosql_Limit)])) = Some (EIllegalQueryField).
Proof. vm_compute. reflexivity. Qed.
Example an_UpdateAnalysisTestBAD_IllegalOffsetField :
  an_err (Run (Analysis.MkEnv (B "path/to/test") [] [] false) (B "UpdateAnalysisTestBAD_IllegalOffsetField") (TStruct [(MkVar (B "Rel") true false [(B "rel", [B "relation_a:a"])], g_test_T); (MkVar (B "_") false false [(B "sql", [B "2"])], g_gosql_Offset)])) = Some (EIllegalQueryField).
Proof. vm_compute. reflexivity. Qed.
Example an_InsertAnalysisTestBAD_IllegalOrderByDirective :
  an_err (Run (Analysis.MkEnv (B "path/to/test") [] [] false) (B "InsertAnalysisTestBAD_IllegalOrderByDirective") (TStruct [(MkVar (B "Rel") true false [(B "rel", [B "relation_a:a"])], g_test_T); (MkVar (B "_") false false [(B "sql", [B "a.id"])], g_gosql_OrderBy)])) = Some (EIllegalQueryField).
Proof. vm_compute. reflexivity. Qed.
Example an_DeleteAnalysisTestBAD_IllegalOverrideDirective :
  an_err (Run (Analysis.MkEnv (B "path/to/test") [] [] false) (B "DeleteAnalysisTestBAD_IllegalOverrideDirective") (TStruct [(MkVar (B "Rel") true false [(B "rel", [B "relation_a:a"])], g_test_T); (MkVar (B "_") false false [(B "sql", [B "user"])], g_gosql_Override)])) = Some (EIllegalQueryField).
Proof. vm_compute. reflexivity. Qed.
Example an_SelectAnalysisTestBAD_IllegalTextSearchDirective :
  an_err (Run (Analysis.MkEnv (B "path/to/test") [] [] false) (B "SelectAnalysisTestBAD_IllegalTextSearchDirective") (TStruct [(MkVar (B "Rel") true false [(B "rel", [B "relation_a:a"])], g_test_T); (MkVar (B "_") false false [(B "sql", [B "a._document"])], g_gosql_TextSearch)])) = Some (EIllegalQueryField).
Proof. vm_compute. reflexivity. Qed.
Example an_SelectAnalysisTestBAD_IllegalColumnDirective :
  an_err (Run (Analysis.MkEnv (B "path/to/test") [] [] false) (B "SelectAnalysisTestBAD_IllegalColumnDirective") (TStruct [(MkVar (B "Rel") true false [(B "rel", [B "relation_a:a"])], g_test_T); (MkVar (B "_") false false [(B "sql", [B "a.id"])], g_gosql_Column)])) = Some (EIllegalQueryField).
Proof. vm_compute. reflexivity. Qed.
Example an_InsertAnalysisTestBAD_IllegalWhereBlock :
  an_err (Run (Analysis.MkEnv (B "path/to/test") [] [] false) (B "InsertAnalysisTestBAD_IllegalWhereBlock") (TStruct [(MkVar (B "Rel") true false [(B "rel", [B "relation_a:a"])], g_test_T); (MkVar (B "Where") true false [], (TStruct [(MkVar (B "Id") true false [(B "sql", [B "id"])], (TBasic BInt false false))]))])) = Some (EIllegalQueryField).
Proof. vm_compute. reflexivity. Qed.
Example an_UpdateAnalysisTestBAD_IllegalJoinBlock :
  an_err (Run (Analysis.MkEnv (B "path/to/test") [] [] false) (B "UpdateAnalysisTestBAD_IllegalJoinBlock") (TStruct [(MkVar (B "Rel") true false [(B "rel", [B "relation_a:a"])], g_test_T); (MkVar (B "Join") true false [], (TStruct [(MkVar (B "_") false false [], g_gosql_Relation)]))])) = Some (EIllegalQueryField).
Proof. vm_compute. reflexivity. Qed.
Example an_DeleteAnalysisTestBAD_IllegalFromBlock :
  an_err (Run (Analysis.MkEnv (B "path/to/test") [] [] false) (B "DeleteAnalysisTestBAD_IllegalFromBlock") (TStruct [(MkVar (B "Rel") true false [(B "rel", [B "relation_a:a"])], g_test_T); (MkVar (B "From") true false [], (TStruct [(MkVar (B "_") false false [], g_gosql_Relation)]))])) = Some (EIllegalQueryField).
Proof. vm_compute. reflexivity. Qed.
Example an_SelectAnalysisTestBAD_IllegalUsingBlock :
  an_err (Run (Analysis.MkEnv (B "path/to/test") [] [] false) (B "SelectAnalysisTestBAD_IllegalUsingBlock") (TStruct [(MkVar (B "Rel") true false [(B "rel", [B "relation_a:a"])], g_test_T); (MkVar (B "Using") true false [], (TStruct [(MkVar (B "_") false false [], g_gosql_Relation)]))])) = Some (EIllegalQueryField).
Proof. vm_compute. reflexivity. Qed.
Example an_UpdateAnalysisTestBAD_IllegalOnConflictBlock :
  an_err (Run (Analysis.MkEnv (B "path/to/test") [] [] false) (B "UpdateAnalysisTestBAD_IllegalOnConflictBlock") (TStruct [(MkVar (B "Rel") true false [(B "rel", [B "relation_a:a"])], g_test_T); (MkVar (B "OnConflict") true false [], (TStruct []))])) = Some (EIllegalQueryField).
Proof. vm_compute. reflexivity. Qed.
Example an_SelectAnalysisTestBAD_IllegalResultField :
  an_err (Run (Analysis.MkEnv (B "path/to/test") [] [] false) (B "SelectAnalysisTestBAD_IllegalResultField") (TStruct [(MkVar (B "Rel") true false [(B "rel", [B "relation_a:a"])], g_test_T); (MkVar (B "Result") true false [], g_test_T)])) = Some (EIllegalQueryField).
Proof. vm_compute. reflexivity. Qed.
Example an_SelectAnalysisTestBAD_ConflictLimitProducer :
  an_err (Run (Analysis.MkEnv (B "path/to/test") [] [] false) (B "SelectAnalysisTestBAD_ConflictLimitProducer") (TStruct [(MkVar (B "Rel") true false [(B "rel", [B "relation_a:a"])], (TSlice g_test_T)); (MkVar (B "_") false false [(B "sql", [B "10"])], g_gosql_Limit); (MkVar (B "Limit") true false [], (TBasic BInt false false))])) = Some (EConflictingFieldOrDirective).
Proof. vm_compute. reflexivity. Qed.
Example an_SelectAnalysisTestBAD_ConflictOffsetProducer :
  an_err (Run (Analysis.MkEnv (B "path/to/test") [] [] false) (B "SelectAnalysisTestBAD_ConflictOffsetProducer") (TStruct [(MkVar (B "Rel") true false [(B "rel", [B "relation_a:a"])], (TSlice g_test_T)); (MkVar (B "Offset") true false [], (TBasic BInt false false)); (MkVar (B "_") false false [(B "sql", [B "2"])], g_gosql_Offset)])) = Some (EConflictingFieldOrDirective).
Proof. vm_compute. reflexivity. Qed.
Example an_SelectAnalysisTestBAD_IllegalRowsAffectedField :
  an_err (Run (Analysis.MkEnv (B "path/to/test") [] [] false) (B "SelectAnalysisTestBAD_IllegalRowsAffectedField") (TStruct [(MkVar (B "Rel") true false [(B "rel", [B "relation_a:a"])], (TSlice g_test_T)); (MkVar (B "RowsAffected") true false [], (TBasic BInt false false))])) = Some (EIllegalQueryField).
Proof. vm_compute. reflexivity. Qed.
Example an_InsertAnalysisTestBAD_IllegalFilterField :
  an_err (Run (Analysis.MkEnv (B "path/to/test") [] [] false) (B "InsertAnalysisTestBAD_IllegalFilterField") (TStruct [(MkVar (B "Rel") true false [(B "rel", [B "relation_a:a"])], (TSlice g_test_T)); (MkVar (B "F") true false [], g_gosql_Filter)])) = Some (EIllegalQueryField).
Proof. vm_compute. reflexivity. Qed.
Example an_SelectAnalysisTestBAD_ConflictWhereProducer :
  an_err (Run (Analysis.MkEnv (B "path/to/test") [] [] false) (B "SelectAnalysisTestBAD_ConflictWhereProducer") (TStruct [(MkVar (B "Rel") true false [(B "rel", [B "relation_a:a"])], (TSlice g_test_T)); (MkVar (B "Where") true false [], (TStruct [(MkVar (B "Id") true false [(B "sql", [B "id"])], (TBasic BInt false false))])); (MkVar (B "F") true false [], g_gosql_Filter)])) = Some (EConflictingWhere).
Proof. vm_compute. reflexivity. Qed.
Example an_DeleteAnalysisTestBAD_ConflictErrorHandler :
  an_err (Run (Analysis.MkEnv (B "path/to/test") [] [] false) (B "DeleteAnalysisTestBAD_ConflictErrorHandler") (TStruct [(MkVar (B "Rel") true false [(B "rel", [B "relation_a:a"])], g_test_T); (MkVar (B "ErrorHandler") true false [], g_test_myerrorhandler); (MkVar (B "erh") false false [], g_test_myerrorhandler)])) = Some (EConflictingFieldOrDirective).
Proof. vm_compute. reflexivity. Qed.
Example an_SelectAnalysisTestBAD_IteratorWithTooManyMethods :
  an_err (Run (Analysis.MkEnv (B "path/to/test") [] [] false) (B "SelectAnalysisTestBAD_IteratorWithTooManyMethods") (TStruct [(MkVar (B "Rel") true false [(B "rel", [B "relation_a:a"])], g_test_badIterator)])) = Some (EBadIterTypeInterface).
Proof. vm_compute. reflexivity. Qed.
Example an_SelectAnalysisTestBAD_IteratorWithBadSignature :
  an_err (Run (Analysis.MkEnv (B "path/to/test") [] [] false) (B "SelectAnalysisTestBAD_IteratorWithBadSignature") (TStruct [(MkVar (B "Rel") true false [(B "rel", [B "relation_a:a"])], (TFunc [(TPtr g_common_User)] [(TBasic BInt false false)]))])) = Some (EBadIterTypeFunc).
Proof. vm_compute. reflexivity. Qed.
Example an_SelectAnalysisTestBAD_IteratorWithBadSignatureIface :
  an_err (Run (Analysis.MkEnv (B "path/to/test") [] [] false) (B "SelectAnalysisTestBAD_IteratorWithBadSignatureIface") (TStruct [(MkVar (B "Rel") true false [(B "rel", [B "relation_a:a"])], g_test_badIterator2)])) = Some (EBadIterTypeInterface).
Proof. vm_compute. reflexivity. Qed.
Example an_SelectAnalysisTestBAD_IteratorWithUnexportedMethod :
  an_err (Run (Analysis.MkEnv (B "path/to/test") [] [] false) (B "SelectAnalysisTestBAD_IteratorWithUnexportedMethod") (TStruct [(MkVar (B "Rel") true false [(B "rel", [B "relation_a:a"])], g_common_BadIterator)])) = Some (EBadIterTypeInterface).
Proof. vm_compute. reflexivity. Qed.
Example an_SelectAnalysisTestBAD_IteratorWithUnnamedArgument :
  an_err (Run (Analysis.MkEnv (B "path/to/test") [] [] false) (B "SelectAnalysisTestBAD_IteratorWithUnnamedArgument") (TStruct [(MkVar (B "Rel") true false [(B "rel", [B "relation_a:a"])], (TFunc [(TPtr (TStruct []))] [g_error]))])) = Some (EBadIterTypeFunc).
Proof. vm_compute. reflexivity. Qed.
Example an_SelectAnalysisTestBAD_IteratorWithNonStructArgument :
  an_err (Run (Analysis.MkEnv (B "path/to/test") [] [] false) (B "SelectAnalysisTestBAD_IteratorWithNonStructArgument") (TStruct [(MkVar (B "Rel") true false [(B "rel", [B "relation_a:a"])], (TFunc [(TPtr g_test_notstruct)] [g_error]))])) = Some (EBadIterTypeFunc).
Proof. vm_compute. reflexivity. Qed.
Example an_InsertAnalysisTestBAD_BadRelfiedlStructBaseType :
  an_err (Run (Analysis.MkEnv (B "path/to/test") [] [] false) (B "InsertAnalysisTestBAD_BadRelfiedlStructBaseType") (TStruct [(MkVar (B "Rel") true false [(B "rel", [B "relation_a:a"])], (TSlice (TPtr g_test_notstruct)))])) = Some (EBadRelType).
Proof. vm_compute. reflexivity. Qed.
Example an_UpdateAnalysisTestBAD_BadRelTypeFieldColId :
  an_err (Run (Analysis.MkEnv (B "path/to/test") [] [] false) (B "UpdateAnalysisTestBAD_BadRelTypeFieldColId") (TStruct [(MkVar (B "Rel") true false [(B "rel", [B "relation_a:a"])], (TStruct [(MkVar (B "Foo") true false [(B "sql", [B "1234"])], (TBasic BString false false))]))])) = Some (EC EBadColId).
Proof. vm_compute. reflexivity. Qed.
Example an_UpdateAnalysisTestBAD_ConflictWhereProducer2 :
  an_err (Run (Analysis.MkEnv (B "path/to/test") [] [] false) (B "UpdateAnalysisTestBAD_ConflictWhereProducer2") (TStruct [(MkVar (B "Rel") true false [(B "rel", [B "relation_a:a"])], g_test_T); (MkVar (B "_") false false [], g_gosql_All); (MkVar (B "Where") true false [], (TStruct [(MkVar (B "Id") true false [(B "sql", [B "id"])], (TBasic BInt false false))]))])) = Some (EConflictingWhere).
Proof. vm_compute. reflexivity. Qed.
Example an_DeleteAnalysisTestBAD_BadWhereBlockType :
  an_err (Run (Analysis.MkEnv (B "path/to/test") [] [] false) (B "DeleteAnalysisTestBAD_BadWhereBlockType") (TStruct [(MkVar (B "Rel") true false [(B "rel", [B "relation_a:a"])], g_test_T); (MkVar (B "Where") true false [], (TSlice (TBasic BString false false)))])) = Some (EBadFieldTypeStruct).
Proof. vm_compute. reflexivity. Qed.
Example an_SelectAnalysisTestBAD_BadBoolTagValue :
  an_err (Run (Analysis.MkEnv (B "path/to/test") [] [] false) (B "SelectAnalysisTestBAD_BadBoolTagValue") (TStruct [(MkVar (B "Rel") true false [(B "rel", [B "relation_a:a"])], g_test_T); (MkVar (B "Where") true false [], (TStruct [(MkVar (B "Id") true false [(B "sql", [B "id"])], (TBasic BInt false false)); (MkVar (B "Name") true false [(B "sql", [B "name"]); (B "bool", [B "abc"])], (TBasic BString false false))]))])) = Some (EBadBoolTagValue).
Proof. vm_compute. reflexivity. Qed.
Example an_SelectAnalysisTestBAD_BadNestedWhereBlockType :
  an_err (Run (Analysis.MkEnv (B "path/to/test") [] [] false) (B "SelectAnalysisTestBAD_BadNestedWhereBlockType") (TStruct [(MkVar (B "Rel") true false [(B "rel", [B "relation_a:a"])], g_test_T); (MkVar (B "Where") true false [], (TStruct [(MkVar (B "Id") true false [(B "sql", [B "id"])], (TBasic BInt false false)); (MkVar (B "X") true false [(B "sql", [B ">"])], g_test_notstruct)]))])) = Some (EBadFieldTypeStruct).
Proof. vm_compute. reflexivity. Qed.
Example an_SelectAnalysisTestBAD_BadColumnExpressionLHS :
  an_err (Run (Analysis.MkEnv (B "path/to/test") [] [] false) (B "SelectAnalysisTestBAD_BadColumnExpressionLHS") (TStruct [(MkVar (B "Rel") true false [(B "rel", [B "relation_a:a"])], g_test_T); (MkVar (B "Where") true false [], (TStruct [(MkVar (B "_") false false [(B "sql", [B "123 = x"])], g_gosql_Column)]))])) = Some (EC EBadColId).
Proof. vm_compute. reflexivity. Qed.
Example an_SelectAnalysisTestBAD_BadColumnPredicateCombo :
  an_err (Run (Analysis.MkEnv (B "path/to/test") [] [] false) (B "SelectAnalysisTestBAD_BadColumnPredicateCombo") (TStruct [(MkVar (B "Rel") true false [(B "rel", [B "relation_a:a"])], g_test_T); (MkVar (B "Where") true false [], (TStruct [(MkVar (B "_") false false [(B "sql", [B "x isin any y"])], g_gosql_Column)]))])) = Some (EIllegalPredicateQuantifier).
Proof. vm_compute. reflexivity. Qed.
Example an_DeleteAnalysisTestBAD_BadColumnExpressionLHS :
  an_err (Run (Analysis.MkEnv (B "path/to/test") [] [] false) (B "DeleteAnalysisTestBAD_BadColumnExpressionLHS") (TStruct [(MkVar (B "Rel") true false [(B "rel", [B "relation_a:a"])], g_test_T); (MkVar (B "Where") true false [], (TStruct [(MkVar (B "_") false false [(B "sql", [B "123 isnull"])], g_gosql_Column)]))])) = Some (EC EBadColId).
Proof. vm_compute. reflexivity. Qed.
Example an_UpdateAnalysisTestBAD_BadUnaryOp :
  an_err (Run (Analysis.MkEnv (B "path/to/test") [] [] false) (B "UpdateAnalysisTestBAD_BadUnaryOp") (TStruct [(MkVar (B "Rel") true false [(B "rel", [B "relation_a:a"])], g_test_T); (MkVar (B "Where") true false [], (TStruct [(MkVar (B "_") false false [(B "sql", [B "x <="])], g_gosql_Column)]))])) = Some (EBadDirectiveBooleanExpr).
Proof. vm_compute. reflexivity. Qed.
Example an_UpdateAnalysisTestBAD_ExtraQuantifier :
  an_err (Run (Analysis.MkEnv (B "path/to/test") [] [] false) (B "UpdateAnalysisTestBAD_ExtraQuantifier") (TStruct [(MkVar (B "Rel") true false [(B "rel", [B "relation_a:a"])], g_test_T); (MkVar (B "Where") true false [], (TStruct [(MkVar (B "_") false false [(B "sql", [B "x isnull any"])], g_gosql_Column)]))])) = Some (EIllegalPredicateQuantifier).
Proof. vm_compute. reflexivity. Qed.
Example an_SelectAnalysisTestBAD_BadBetweenFieldType :
  an_err (Run (Analysis.MkEnv (B "path/to/test") [] [] false) (B "SelectAnalysisTestBAD_BadBetweenFieldType") (TStruct [(MkVar (B "Rel") true false [(B "rel", [B "relation_a:a"])], g_test_T); (MkVar (B "Where") true false [], (TStruct [(MkVar (B "between") false false [(B "sql", [B "a.foo isbetween"])], g_test_notstruct)]))])) = Some (EBadBetweenPredicate).
Proof. vm_compute. reflexivity. Qed.
Example an_SelectAnalysisTestBAD_BadBetweenFieldType2 :
  an_err (Run (Analysis.MkEnv (B "path/to/test") [] [] false) (B "SelectAnalysisTestBAD_BadBetweenFieldType2") (TStruct [(MkVar (B "Rel") true false [(B "rel", [B "relation_a:a"])], g_test_T); (MkVar (B "Where") true false [], (TStruct [(MkVar (B "between") false false [(B "sql", [B "a.foo isbetween"])], (TStruct [(MkVar (B "x") false false [], (TBasic BInt false false)); (MkVar (B "y") false false [], (TBasic BInt false false)); (MkVar (B "z") false false [], (TBasic BInt false false))]))]))])) = Some (EBadBetweenPredicate).
Proof. vm_compute. reflexivity. Qed.
Example an_SelectAnalysisTestBAD_BadBetweenArgColId :
  an_err (Run (Analysis.MkEnv (B "path/to/test") [] [] false) (B "SelectAnalysisTestBAD_BadBetweenArgColId") (TStruct [(MkVar (B "Rel") true false [(B "rel", [B "relation_a:a"])], g_test_T); (MkVar (B "Where") true false [], (TStruct [(MkVar (B "between") false false [(B "sql", [B "a.foo isbetween"])], (TStruct [(MkVar (B "_") false false [(B "sql", [B "a.bar"; B "x"])], g_gosql_Column); (MkVar (B "_") false false [(B "sql", [B "123"; B "y"])], g_gosql_Column)]))]))])) = Some (EC EBadColId).
Proof. vm_compute. reflexivity. Qed.
Example an_SelectAnalysisTestBAD_NoBetweenXYArg :
  an_err (Run (Analysis.MkEnv (B "path/to/test") [] [] false) (B "SelectAnalysisTestBAD_NoBetweenXYArg") (TStruct [(MkVar (B "Rel") true false [(B "rel", [B "relation_a:a"])], g_test_T); (MkVar (B "Where") true false [], (TStruct [(MkVar (B "between") false false [(B "sql", [B "a.foo isbetween"])], (TStruct [(MkVar (B "_") false false [(B "sql", [B "a.bar"])], g_gosql_Column); (MkVar (B "_") false false [(B "sql", [B "a.baz"; B "y"])], g_gosql_Column)]))]))])) = Some (EBadBetweenPredicate).
Proof. vm_compute. reflexivity. Qed.
Example an_SelectAnalysisTestBAD_BadBetweenColId :
  an_err (Run (Analysis.MkEnv (B "path/to/test") [] [] false) (B "SelectAnalysisTestBAD_BadBetweenColId") (TStruct [(MkVar (B "Rel") true false [(B "rel", [B "relation_a:a"])], g_test_T); (MkVar (B "Where") true false [], (TStruct [(MkVar (B "between") false false [(B "sql", [B "123 isbetween"])], (TStruct [(MkVar (B "_") false false [(B "sql", [B "a.bar"; B "x"])], g_gosql_Column); (MkVar (B "_") false false [(B "sql", [B "a.baz"; B "y"])], g_gosql_Column)]))]))])) = Some (EC EBadColId).
Proof. vm_compute. reflexivity. Qed.
Example an_DeleteAnalysisTestBAD_BadWhereFieldColId :
  an_err (Run (Analysis.MkEnv (B "path/to/test") [] [] false) (B "DeleteAnalysisTestBAD_BadWhereFieldColId") (TStruct [(MkVar (B "Rel") true false [(B "rel", [B "relation_a:a"])], g_test_T); (MkVar (B "Where") true false [], (TStruct [(MkVar (B "Id") true false [(B "sql", [B "123"])], (TBasic BInt false false))]))])) = Some (EC EBadColId).
Proof. vm_compute. reflexivity. Qed.
Example an_DeleteAnalysisTestBAD_BadWhereFieldPredicateCombo :
  an_err (Run (Analysis.MkEnv (B "path/to/test") [] [] false) (B "DeleteAnalysisTestBAD_BadWhereFieldPredicateCombo") (TStruct [(MkVar (B "Rel") true false [(B "rel", [B "relation_a:a"])], g_test_T); (MkVar (B "Where") true false [], (TStruct [(MkVar (B "Id") true false [(B "sql", [B "a.id notin any"])], (TSlice (TBasic BInt false false)))]))])) = Some (EIllegalPredicateQuantifier).
Proof. vm_compute. reflexivity. Qed.
Example an_DeleteAnalysisTestBAD_IllegalWhereFieldUnaryPredicate :
  an_err (Run (Analysis.MkEnv (B "path/to/test") [] [] false) (B "DeleteAnalysisTestBAD_IllegalWhereFieldUnaryPredicate") (TStruct [(MkVar (B "Rel") true false [(B "rel", [B "relation_a:a"])], g_test_T); (MkVar (B "Where") true false [], (TStruct [(MkVar (B "Id") true false [(B "sql", [B "a.id istrue"])], (TBasic BInt false false))]))])) = Some (EIllegalUnaryPredicate).
Proof. vm_compute. reflexivity. Qed.
Example an_UpdateAnalysisTestBAD_BadWhereFieldTypeForQuantifier :
  an_err (Run (Analysis.MkEnv (B "path/to/test") [] [] false) (B "UpdateAnalysisTestBAD_BadWhereFieldTypeForQuantifier") (TStruct [(MkVar (B "Rel") true false [(B "rel", [B "relation_a:a"])], g_test_T); (MkVar (B "Where") true false [], (TStruct [(MkVar (B "Id") true false [(B "sql", [B "a.id = any"])], (TBasic BInt false false))]))])) = Some (EIllegalFieldQuantifier).
Proof. vm_compute. reflexivity. Qed.
Example an_SelectAnalysisTestBAD_BadJoinBlockType :
  an_err (Run (Analysis.MkEnv (B "path/to/test") [] [] false) (B "SelectAnalysisTestBAD_BadJoinBlockType") (TStruct [(MkVar (B "Rel") true false [(B "rel", [B "relation_a:a"])], g_test_T); (MkVar (B "Join") true false [], g_test_notstruct)])) = Some (EBadFieldTypeStruct).
Proof. vm_compute. reflexivity. Qed.
Example an_SelectAnalysisTestBAD_IllegalJoinBlockRelationDirective :
  an_err (Run (Analysis.MkEnv (B "path/to/test") [] [] false) (B "SelectAnalysisTestBAD_IllegalJoinBlockRelationDirective") (TStruct [(MkVar (B "Rel") true false [(B "rel", [B "relation_a:a"])], g_test_T); (MkVar (B "Join") true false [], (TStruct [(MkVar (B "_") false false [(B "sql", [B "foobar"])], g_gosql_Relation)]))])) = Some (EIllegalStructDirective).
Proof. vm_compute. reflexivity. Qed.
Example an_DeleteAnalysisTestBAD_ConflictRelationDirective :
  an_err (Run (Analysis.MkEnv (B "path/to/test") [] [] false) (B "DeleteAnalysisTestBAD_ConflictRelationDirective") (TStruct [(MkVar (B "Rel") true false [(B "rel", [B "relation_a:a"])], g_test_T); (MkVar (B "Using") true false [], (TStruct [(MkVar (B "_") false false [(B "sql", [B "foo"])], g_gosql_Relation); (MkVar (B "_") false false [(B "sql", [B "bar"])], g_gosql_Relation)]))])) = Some (EConflictingRelationDirective).
Proof. vm_compute. reflexivity. Qed.
Example an_UpdateAnalysisTestBAD_BadFromRelationRelId :
  an_err (Run (Analysis.MkEnv (B "path/to/test") [] [] false) (B "UpdateAnalysisTestBAD_BadFromRelationRelId") (TStruct [(MkVar (B "Rel") true false [(B "rel", [B "relation_a:a"])], g_test_T); (MkVar (B "From") true false [], (TStruct [(MkVar (B "_") false false [(B "sql", [B "123"])], g_gosql_Relation)]))])) = Some (EC EBadRelId).
Proof. vm_compute. reflexivity. Qed.
Example an_SelectAnalysisTestBAD_BadJoinDirectiveRelId :
  an_err (Run (Analysis.MkEnv (B "path/to/test") [] [] false) (B "SelectAnalysisTestBAD_BadJoinDirectiveRelId") (TStruct [(MkVar (B "Rel") true false [(B "rel", [B "relation_a:a"])], g_test_T); (MkVar (B "Join") true false [], (TStruct [(MkVar (B "_") false false [(B "sql", [B "123"])], g_gosql_LeftJoin)]))])) = Some (EC EBadRelId).
Proof. vm_compute. reflexivity. Qed.
Example an_SelectAnalysisTestBAD_BadJoinDirectiveExpressionColId :
  an_err (Run (Analysis.MkEnv (B "path/to/test") [] [] false) (B "SelectAnalysisTestBAD_BadJoinDirectiveExpressionColId") (TStruct [(MkVar (B "Rel") true false [(B "rel", [B "relation_a:a"])], g_test_T); (MkVar (B "Join") true false [], (TStruct [(MkVar (B "_") false false [(B "sql", [B "relation_b:b"; B "123 = b.foo"])], g_gosql_LeftJoin)]))])) = Some (EC EBadColId).
Proof. vm_compute. reflexivity. Qed.
Example an_SelectAnalysisTestBAD_BadJoinDirectiveExpressionPredicate :
  an_err (Run (Analysis.MkEnv (B "path/to/test") [] [] false) (B "SelectAnalysisTestBAD_BadJoinDirectiveExpressionPredicate") (TStruct [(MkVar (B "Rel") true false [(B "rel", [B "relation_a:a"])], g_test_T); (MkVar (B "Join") true false [], (TStruct [(MkVar (B "_") false false [(B "sql", [B "relation_b:b"; B "b.foo ="])], g_gosql_LeftJoin)]))])) = Some (EBadDirectiveBooleanExpr).
Proof. vm_compute. reflexivity. Qed.
Example an_SelectAnalysisTestBAD_BadJoinDirectiveExpressionExtraQuantifier :
  an_err (Run (Analysis.MkEnv (B "path/to/test") [] [] false) (B "SelectAnalysisTestBAD_BadJoinDirectiveExpressionExtraQuantifier") (TStruct [(MkVar (B "Rel") true false [(B "rel", [B "relation_a:a"])], g_test_T); (MkVar (B "Join") true false [], (TStruct [(MkVar (B "_") false false [(B "sql", [B "relation_b:b"; B "b.foo isnull any"])], g_gosql_LeftJoin)]))])) = Some (EIllegalPredicateQuantifier).
Proof. vm_compute. reflexivity. Qed.
Example an_SelectAnalysisTestBAD_BadJoinDirectiveExpressionPredicateCombo :
  an_err (Run (Analysis.MkEnv (B "path/to/test") [] [] false) (B "SelectAnalysisTestBAD_BadJoinDirectiveExpressionPredicateCombo") (TStruct [(MkVar (B "Rel") true false [(B "rel", [B "relation_a:a"])], g_test_T); (MkVar (B "Join") true false [], (TStruct [(MkVar (B "_") false false [(B "sql", [B "relation_b:b"; B "b.foo isin any a.bar"])], g_gosql_LeftJoin)]))])) = Some (EIllegalPredicateQuantifier).
Proof. vm_compute. reflexivity. Qed.
Example an_DeleteAnalysisTestBAD_IllegalJoinBlockDirective :
  an_err (Run (Analysis.MkEnv (B "path/to/test") [] [] false) (B "DeleteAnalysisTestBAD_IllegalJoinBlockDirective") (TStruct [(MkVar (B "Rel") true false [(B "rel", [B "relation_a:a"])], g_test_T); (MkVar (B "Using") true false [], (TStruct [(MkVar (B "_") false false [(B "sql", [B "a.foo"])], g_gosql_Column)]))])) = Some (EIllegalStructDirective).
Proof. vm_compute. reflexivity. Qed.
Example an_InsertAnalysisTestBAD_BadOnConflictBlockType :
  an_err (Run (Analysis.MkEnv (B "path/to/test") [] [] false) (B "InsertAnalysisTestBAD_BadOnConflictBlockType") (TStruct [(MkVar (B "Rel") true false [(B "rel", [B "relation_a:a"])], g_test_T); (MkVar (B "OnConflict") true false [], g_test_notstruct)])) = Some (EBadFieldTypeStruct).
Proof. vm_compute. reflexivity. Qed.
Example an_InsertAnalysisTestBAD_ConflictOnConflictBlockTargetProducer :
  an_err (Run (Analysis.MkEnv (B "path/to/test") [] [] false) (B "InsertAnalysisTestBAD_ConflictOnConflictBlockTargetProducer") (TStruct [(MkVar (B "Rel") true false [(B "rel", [B "relation_a:a"])], g_test_T); (MkVar (B "OnConflict") true false [], (TStruct [(MkVar (B "_") false false [(B "sql", [B "some_index"])], g_gosql_Index); (MkVar (B "_") false false [(B "sql", [B "a.id"])], g_gosql_Column)]))])) = Some (EConflictingOnConflictTarget).
Proof. vm_compute. reflexivity. Qed.
Example an_InsertAnalysisTestBAD_ConflictOnConflictBlockTargetProducer2 :
  an_err (Run (Analysis.MkEnv (B "path/to/test") [] [] false) (B "InsertAnalysisTestBAD_ConflictOnConflictBlockTargetProducer2") (TStruct [(MkVar (B "Rel") true false [(B "rel", [B "relation_a:a"])], g_test_T); (MkVar (B "OnConflict") true false [], (TStruct [(MkVar (B "_") false false [(B "sql", [B "a.id"])], g_gosql_Column); (MkVar (B "_") false false [(B "sql", [B "some_index"])], g_gosql_Index)]))])) = Some (EConflictingOnConflictTarget).
Proof. vm_compute. reflexivity. Qed.
Example an_InsertAnalysisTestBAD_ConflictOnConflictBlockTargetProducer3 :
  an_err (Run (Analysis.MkEnv (B "path/to/test") [] [] false) (B "InsertAnalysisTestBAD_ConflictOnConflictBlockTargetProducer3") (TStruct [(MkVar (B "Rel") true false [(B "rel", [B "relation_a:a"])], g_test_T); (MkVar (B "OnConflict") true false [], (TStruct [(MkVar (B "_") false false [(B "sql", [B "some_index"])], g_gosql_Index); (MkVar (B "_") false false [(B "sql", [B "some_constraint"])], g_gosql_Constraint)]))])) = Some (EConflictingOnConflictTarget).
Proof. vm_compute. reflexivity. Qed.
Example an_InsertAnalysisTestBAD_ConflictOnConflictBlockActionProducer :
  an_err (Run (Analysis.MkEnv (B "path/to/test") [] [] false) (B "InsertAnalysisTestBAD_ConflictOnConflictBlockActionProducer") (TStruct [(MkVar (B "Rel") true false [(B "rel", [B "relation_a:a"])], g_test_T); (MkVar (B "OnConflict") true false [], (TStruct [(MkVar (B "_") false false [(B "sql", [B "a.id"])], g_gosql_Column); (MkVar (B "_") false false [(B "sql", [B "a.foo"])], g_gosql_Update); (MkVar (B "_") false false [], g_gosql_Ignore)]))])) = Some (EConflictingOnConflictAction).
Proof. vm_compute. reflexivity. Qed.
Example an_InsertAnalysisTestBAD_ConflictOnConflictBlockActionProducer2 :
  an_err (Run (Analysis.MkEnv (B "path/to/test") [] [] false) (B "InsertAnalysisTestBAD_ConflictOnConflictBlockActionProducer2") (TStruct [(MkVar (B "Rel") true false [(B "rel", [B "relation_a:a"])], g_test_T); (MkVar (B "OnConflict") true false [], (TStruct [(MkVar (B "_") false false [(B "sql", [B "a.id"])], g_gosql_Column); (MkVar (B "_") false false [], g_gosql_Ignore); (MkVar (B "_") false false [(B "sql", [B "a.foo"])], g_gosql_Update)]))])) = Some (EConflictingOnConflictAction).
Proof. vm_compute. reflexivity. Qed.
Example an_InsertAnalysisTestBAD_BadOnConflictColumnTargetValue :
  an_err (Run (Analysis.MkEnv (B "path/to/test") [] [] false) (B "InsertAnalysisTestBAD_BadOnConflictColumnTargetValue") (TStruct [(MkVar (B "Rel") true false [(B "rel", [B "relation_a:a"])], g_test_T); (MkVar (B "OnConflict") true false [], (TStruct [(MkVar (B "_") false false [(B "sql", [B "a.id"; B "a.1234"])], g_gosql_Column)]))])) = Some (EC EBadColId).
Proof. vm_compute. reflexivity. Qed.
Example an_InsertAnalysisTestBAD_BadOnConflictIndexTargetIdent :
  an_err (Run (Analysis.MkEnv (B "path/to/test") [] [] false) (B "InsertAnalysisTestBAD_BadOnConflictIndexTargetIdent") (TStruct [(MkVar (B "Rel") true false [(B "rel", [B "relation_a:a"])], g_test_T); (MkVar (B "OnConflict") true false [], (TStruct [(MkVar (B "_") false false [(B "sql", [B "1234"])], g_gosql_Index)]))])) = Some (EBadIdentTagValue).
Proof. vm_compute. reflexivity. Qed.
Example an_InsertAnalysisTestBAD_BadOnConflictConstraintTargetIdent :
  an_err (Run (Analysis.MkEnv (B "path/to/test") [] [] false) (B "InsertAnalysisTestBAD_BadOnConflictConstraintTargetIdent") (TStruct [(MkVar (B "Rel") true false [(B "rel", [B "relation_a:a"])], g_test_T); (MkVar (B "OnConflict") true false [], (TStruct [(MkVar (B "_") false false [(B "sql", [B "1234"])], g_gosql_Constraint)]))])) = Some (EBadIdentTagValue).
Proof. vm_compute. reflexivity. Qed.
Example an_InsertAnalysisTestBAD_BadOnConflictUpdateActionCollist :
  an_err (Run (Analysis.MkEnv (B "path/to/test") [] [] false) (B "InsertAnalysisTestBAD_BadOnConflictUpdateActionCollist") (TStruct [(MkVar (B "Rel") true false [(B "rel", [B "relation_a:a"])], g_test_T); (MkVar (B "OnConflict") true false [], (TStruct [(MkVar (B "_") false false [(B "sql", [B "a.id"])], g_gosql_Column); (MkVar (B "_") false false [(B "sql", [B "a.id"; B "a.1234"])], g_gosql_Update)]))])) = Some (EC EBadColId).
Proof. vm_compute. reflexivity. Qed.
Example an_InsertAnalysisTestBAD_IllegalOnConflictDirective :
  an_err (Run (Analysis.MkEnv (B "path/to/test") [] [] false) (B "InsertAnalysisTestBAD_IllegalOnConflictDirective") (TStruct [(MkVar (B "Rel") true false [(B "rel", [B "relation_a:a"])], g_test_T); (MkVar (B "OnConflict") true false [], (TStruct [(MkVar (B "_") false false [(B "sql", [B "relation_b:b"; B "b.id=a.id"])], g_gosql_LeftJoin)]))])) = Some (EIllegalStructDirective).
Proof. vm_compute. reflexivity. Qed.
Example an_InsertAnalysisTestBAD_NoOnConflictTarget :
  an_err (Run (Analysis.MkEnv (B "path/to/test") [] [] false) (B "InsertAnalysisTestBAD_NoOnConflictTarget") (TStruct [(MkVar (B "Rel") true false [(B "rel", [B "relation_a:a"])], g_test_T); (MkVar (B "OnConflict") true false [], (TStruct [(MkVar (B "_") false false [(B "sql", [B "a.foo"; B "a.bar"])], g_gosql_Update)]))])) = Some (EMissingOnConflictTarget).
Proof. vm_compute. reflexivity. Qed.
Example an_SelectAnalysisTestBAD_BadLimitFieldType :
  an_err (Run (Analysis.MkEnv (B "path/to/test") [] [] false) (B "SelectAnalysisTestBAD_BadLimitFieldType") (TStruct [(MkVar (B "Rel") true false [(B "rel", [B "relation_a:a"])], (TSlice g_test_T)); (MkVar (B "Limit") true false [(B "sql", [B "123"])], (TBasic BString false false))])) = Some (EBadFieldTypeInt).
Proof. vm_compute. reflexivity. Qed.
Example an_SelectAnalysisTestBAD_NoLimitDirectiveValue :
  an_err (Run (Analysis.MkEnv (B "path/to/test") [] [] false) (B "SelectAnalysisTestBAD_NoLimitDirectiveValue") (TStruct [(MkVar (B "Rel") true false [(B "rel", [B "relation_a:a"])], (TSlice g_test_T)); (MkVar (B "_") false false [(B "sql", [B ""])], g_gosql_Limit)])) = Some (EMissingTagValue).
Proof. vm_compute. reflexivity. Qed.
Example an_SelectAnalysisTestBAD_BadLimitDirectiveValue :
  an_err (Run (Analysis.MkEnv (B "path/to/test") [] [] false) (B "SelectAnalysisTestBAD_BadLimitDirectiveValue") (TStruct [(MkVar (B "Rel") true false [(B "rel", [B "relation_a:a"])], (TSlice g_test_T)); (MkVar (B "_") false false [(B "sql", [B "abc"])], g_gosql_Limit)])) = Some (EBadUIntegerTagValue).
Proof. vm_compute. reflexivity. Qed.
Example an_SelectAnalysisTestBAD_BadOffsetFieldType :
  an_err (Run (Analysis.MkEnv (B "path/to/test") [] [] false) (B "SelectAnalysisTestBAD_BadOffsetFieldType") (TStruct [(MkVar (B "Rel") true false [(B "rel", [B "relation_a:a"])], (TSlice g_test_T)); (MkVar (B "Offset") true false [(B "sql", [B "123"])], (TBasic BString false false))])) = Some (EBadFieldTypeInt).
Proof. vm_compute. reflexivity. Qed.
Example an_SelectAnalysisTestBAD_NoOffsetDirectiveValue :
  an_err (Run (Analysis.MkEnv (B "path/to/test") [] [] false) (B "SelectAnalysisTestBAD_NoOffsetDirectiveValue") (TStruct [(MkVar (B "Rel") true false [(B "rel", [B "relation_a:a"])], (TSlice g_test_T)); (MkVar (B "_") false false [(B "sql", [B ""])], g_gosql_Offset)])) = Some (EMissingTagValue).
Proof. vm_compute. reflexivity. Qed.
Example an_SelectAnalysisTestBAD_BadOffsetDirectiveValue :
  an_err (Run (Analysis.MkEnv (B "path/to/test") [] [] false) (B "SelectAnalysisTestBAD_BadOffsetDirectiveValue") (TStruct [(MkVar (B "Rel") true false [(B "rel", [B "relation_a:a"])], (TSlice g_test_T)); (MkVar (B "_") false false [(B "sql", [B "abc"])], g_gosql_Offset)])) = Some (EBadUIntegerTagValue).
Proof. vm_compute. reflexivity. Qed.
Example an_SelectAnalysisTestBAD_EmptyOrderByDirectiveCollist :
  an_err (Run (Analysis.MkEnv (B "path/to/test") [] [] false) (B "SelectAnalysisTestBAD_EmptyOrderByDirectiveCollist") (TStruct [(MkVar (B "Rel") true false [(B "rel", [B "relation_a:a"])], (TSlice g_test_T)); (MkVar (B "_") false false [], g_gosql_OrderBy)])) = Some (EC EMissingColumnList).
Proof. vm_compute. reflexivity. Qed.
Example an_SelectAnalysisTestBAD_BadOrderByDirectiveNullsOrderValue :
  an_err (Run (Analysis.MkEnv (B "path/to/test") [] [] false) (B "SelectAnalysisTestBAD_BadOrderByDirectiveNullsOrderValue") (TStruct [(MkVar (B "Rel") true false [(B "rel", [B "relation_a:a"])], (TSlice g_test_T)); (MkVar (B "_") false false [(B "sql", [B "a.id:nullsthird"])], g_gosql_OrderBy)])) = Some (EBadNullsOrderTagValue).
Proof. vm_compute. reflexivity. Qed.
Example an_SelectAnalysisTestBAD_BadOrderByDirectiveCollist :
  an_err (Run (Analysis.MkEnv (B "path/to/test") [] [] false) (B "SelectAnalysisTestBAD_BadOrderByDirectiveCollist") (TStruct [(MkVar (B "Rel") true false [(B "rel", [B "relation_a:a"])], (TSlice g_test_T)); (MkVar (B "_") false false [(B "sql", [B "-a.id:nullsfirst"; B "a.1234"])], g_gosql_OrderBy)])) = Some (EC EBadColId).
Proof. vm_compute. reflexivity. Qed.
Example an_InsertAnalysisTestBAD_BadOverrideDirectiveKindValue :
  an_err (Run (Analysis.MkEnv (B "path/to/test") [] [] false) (B "InsertAnalysisTestBAD_BadOverrideDirectiveKindValue") (TStruct [(MkVar (B "Rel") true false [(B "rel", [B "relation_a:a"])], (TSlice g_test_T)); (MkVar (B "_") false false [(B "sql", [B "foo"])], g_gosql_Override)])) = Some (EBadOverrideTagValue).
Proof. vm_compute. reflexivity. Qed.
Example an_UpdateAnalysisTestBAD_ConflictResultProducer :
  an_err (Run (Analysis.MkEnv (B "path/to/test") [] [] false) (B "UpdateAnalysisTestBAD_ConflictResultProducer") (TStruct [(MkVar (B "Rel") true false [(B "rel", [B "relation_a:a"])], g_test_T); (MkVar (B "_") false false [(B "sql", [B "*"])], g_gosql_Return); (MkVar (B "Result") true false [], (TSlice g_test_T))])) = Some (EConflictingResultTarget).
Proof. vm_compute. reflexivity. Qed.
Example an_UpdateAnalysisTestBAD_BadResultFieldType :
  an_err (Run (Analysis.MkEnv (B "path/to/test") [] [] false) (B "UpdateAnalysisTestBAD_BadResultFieldType") (TStruct [(MkVar (B "Rel") true false [(B "rel", [B "relation_a:a"])], g_test_T); (MkVar (B "Result") true false [], (TSlice g_test_notstruct))])) = Some (EBadRelType).
Proof. vm_compute. reflexivity. Qed.
Example an_DeleteAnalysisTestBAD_ConflictResultProducer2 :
  an_err (Run (Analysis.MkEnv (B "path/to/test") [] [] false) (B "DeleteAnalysisTestBAD_ConflictResultProducer2") (TStruct [(MkVar (B "Rel") true false [(B "rel", [B "relation_a:a"])], g_test_T); (MkVar (B "Result") true false [], (TSlice g_test_T)); (MkVar (B "RowsAffected") true false [], (TBasic BInt false false))])) = Some (EConflictingResultTarget).
Proof. vm_compute. reflexivity. Qed.
Example an_DeleteAnalysisTestBAD_BadRowsAffecteFieldType :
  an_err (Run (Analysis.MkEnv (B "path/to/test") [] [] false) (B "DeleteAnalysisTestBAD_BadRowsAffecteFieldType") (TStruct [(MkVar (B "Rel") true false [(B "rel", [B "relation_a:a"])], g_test_T); (MkVar (B "RowsAffected") true false [], (TBasic BString false false))])) = Some (EBadFieldTypeInt).
Proof. vm_compute. reflexivity. Qed.
Example an_UpdateAnalysisTestBAD_IllegalAllDirective :
  an_err (Run (Analysis.MkEnv (B "path/to/test") [] [] false) (B "UpdateAnalysisTestBAD_IllegalAllDirective") (TStruct [(MkVar (B "Rel") true false [(B "rel", [B "relation_a:a"])], (TSlice g_test_T)); (MkVar (B "_") false false [], g_gosql_All)])) = Some (EIllegalSliceUpdateModifier).
Proof. vm_compute. reflexivity. Qed.
Example an_UpdateAnalysisTestBAD_IllegalWhereStruct :
  an_err (Run (Analysis.MkEnv (B "path/to/test") [] [] false) (B "UpdateAnalysisTestBAD_IllegalWhereStruct") (TStruct [(MkVar (B "Rel") true false [(B "rel", [B "relation_a:a"])], (TSlice g_test_T)); (MkVar (B "Where") true false [], (TStruct [(MkVar (B "Name") true false [(B "sql", [B "name"])], (TBasic BString false false))]))])) = Some (EIllegalSliceUpdateModifier).
Proof. vm_compute. reflexivity. Qed.
Example an_UpdateAnalysisTestBAD_IllegalFilterField :
  an_err (Run (Analysis.MkEnv (B "path/to/test") [] [] false) (B "UpdateAnalysisTestBAD_IllegalFilterField") (TStruct [(MkVar (B "Rel") true false [(B "rel", [B "relation_a:a"])], (TSlice g_test_T)); (MkVar (B "F") true false [], g_gosql_Filter)])) = Some (EIllegalSliceUpdateModifier).
Proof. vm_compute. reflexivity. Qed.
Example an_DeleteAnalysisTestBAD_IllegalUnaryPredicateInExpression :
  an_err (Run (Analysis.MkEnv (B "path/to/test") [] [] false) (B "DeleteAnalysisTestBAD_IllegalUnaryPredicateInExpression") (TStruct [(MkVar (B "Rel") true false [(B "rel", [B "relation_a:a"])], g_test_T); (MkVar (B "Where") true false [], (TStruct [(MkVar (B "_") false false [(B "sql", [B "a.id isfalse a.foo"])], g_gosql_Column)]))])) = Some (EIllegalUnaryPredicate).
Proof. vm_compute. reflexivity. Qed.
Example an_SelectAnalysisTestBAD_IllegalUnaryPredicateInJoinDirectiveExpression :
  an_err (Run (Analysis.MkEnv (B "path/to/test") [] [] false) (B "SelectAnalysisTestBAD_IllegalUnaryPredicateInJoinDirectiveExpression") (TStruct [(MkVar (B "Rel") true false [(B "rel", [B "relation_a:a"])], g_test_T); (MkVar (B "Join") true false [], (TStruct [(MkVar (B "_") false false [(B "sql", [B "relation_b:b"; B "b.foo istrue a.bar"])], g_gosql_LeftJoin)]))])) = Some (EIllegalUnaryPredicate).
Proof. vm_compute. reflexivity. Qed.
Example an_DeleteAnalysisTestBAD_ListPredicate :
  an_err (Run (Analysis.MkEnv (B "path/to/test") [] [] false) (B "DeleteAnalysisTestBAD_ListPredicate") (TStruct [(MkVar (B "Rel") true false [(B "rel", [B "relation_a"])], g_test_T); (MkVar (B "Where") true false [], (TStruct [(MkVar (B "a") false false [(B "sql", [B "column_a isin"])], (TBasic BInt false false))]))])) = Some (EIllegalListPredicate).
Proof. vm_compute. reflexivity. Qed.
Example an_DeleteAnalysisTestBAD_ConflictingRelationName :
  an_err (Run (Analysis.MkEnv (B "path/to/test") [] [] false) (B "DeleteAnalysisTestBAD_ConflictingRelationName") (TStruct [(MkVar (B "Rel") true false [(B "rel", [B "relation_a"])], g_test_T); (MkVar (B "Using") true false [], (TStruct [(MkVar (B "_") false false [(B "sql", [B "relation_d:d"])], g_gosql_Relation); (MkVar (B "_") false false [(B "sql", [B "relation_a"; B "id = d.a_id"])], g_gosql_LeftJoin)])); (MkVar (B "Where") true false [], (TStruct [(MkVar (B "_") false false [(B "sql", [B "a.id = d.a_id"])], g_gosql_Column)]))])) = Some (EC EConflictingRelName).
Proof. vm_compute. reflexivity. Qed.
Example an_DeleteAnalysisTestBAD_ConflictingRelationAlias :
  an_err (Run (Analysis.MkEnv (B "path/to/test") [] [] false) (B "DeleteAnalysisTestBAD_ConflictingRelationAlias") (TStruct [(MkVar (B "Rel") true false [(B "rel", [B "relation_a:a"])], g_test_T); (MkVar (B "Using") true false [], (TStruct [(MkVar (B "_") false false [(B "sql", [B "relation_b:b"])], g_gosql_Relation); (MkVar (B "_") false false [(B "sql", [B "relation_c:a"; B "a.id = b.c_id"])], g_gosql_LeftJoin)])); (MkVar (B "Where") true false [], (TStruct [(MkVar (B "_") false false [(B "sql", [B "a.id = b.a_id"])], g_gosql_Column)]))])) = Some (EC EConflictingRelAlias).
Proof. vm_compute. reflexivity. Qed.
Example an_SelectAnalysisTestBAD_ConflictingRelName :
  an_err (Run (Analysis.MkEnv (B "path/to/test") [] [] false) (B "SelectAnalysisTestBAD_ConflictingRelName") (TStruct [(MkVar (B "Join") true false [], (TStruct [(MkVar (B "_") false false [(B "sql", [B "relation_a"; B "relation_a.foo istrue"])], g_gosql_LeftJoin)])); (MkVar (B "Rel") true false [(B "rel", [B "relation_a"])], g_test_T)])) = Some (EC EConflictingRelName).
Proof. vm_compute. reflexivity. Qed.
Example an_SelectAnalysisTestBAD_ConflictingRelAlias :
  an_err (Run (Analysis.MkEnv (B "path/to/test") [] [] false) (B "SelectAnalysisTestBAD_ConflictingRelAlias") (TStruct [(MkVar (B "Join") true false [], (TStruct [(MkVar (B "_") false false [(B "sql", [B "relation_b:a"; B "a.foo istrue"])], g_gosql_LeftJoin)])); (MkVar (B "Rel") true false [(B "rel", [B "relation_a:a"])], g_test_T)])) = Some (EC EConflictingRelAlias).
Proof. vm_compute. reflexivity. Qed.
Example an_UpdateAnalysisTestBAD_ConflictingRelationName :
  an_err (Run (Analysis.MkEnv (B "path/to/test") [] [] false) (B "UpdateAnalysisTestBAD_ConflictingRelationName") (TStruct [(MkVar (B "Rel") true false [(B "rel", [B "relation_a"])], g_test_T); (MkVar (B "From") true false [], (TStruct [(MkVar (B "_") false false [(B "sql", [B "relation_a"])], g_gosql_Relation); (MkVar (B "_") false false [(B "sql", [B "relation_d:d"; B "d.id = relation_a.d_id"])], g_gosql_LeftJoin)])); (MkVar (B "Where") true false [], (TStruct [(MkVar (B "Value") true false [(B "sql", [B "d.col_value"])], (TBasic BString false false))]))])) = Some (EC EConflictingRelName).
Proof. vm_compute. reflexivity. Qed.
Example an_UpdateAnalysisTestBAD_ConflictingRelationAlias :
  an_err (Run (Analysis.MkEnv (B "path/to/test") [] [] false) (B "UpdateAnalysisTestBAD_ConflictingRelationAlias") (TStruct [(MkVar (B "Rel") true false [(B "rel", [B "relation_a:a"])], g_test_T); (MkVar (B "From") true false [], (TStruct [(MkVar (B "_") false false [(B "sql", [B "relation_b:a"])], g_gosql_Relation); (MkVar (B "_") false false [(B "sql", [B "relation_c:c"; B "c.id = a.c_id"])], g_gosql_LeftJoin)])); (MkVar (B "Where") true false [], (TStruct [(MkVar (B "Value") true false [(B "sql", [B "c.col_value"])], (TBasic BString false false))]))])) = Some (EC EConflictingRelAlias).
Proof. vm_compute. reflexivity. Qed.
Example an_SelectAnalysisTestBAD_UnknownColumnQualifier :
  an_err (Run (Analysis.MkEnv (B "path/to/test") [] [] false) (B "SelectAnalysisTestBAD_UnknownColumnQualifier") (TStruct [(MkVar (B "Rel") true false [(B "rel", [B "relation_a:a"])], g_test_T); (MkVar (B "Join") true false [], (TStruct [(MkVar (B "_") false false [(B "sql", [B "relation_b:b"; B "b.id = c.b_id"])], g_gosql_LeftJoin)]))])) = Some (EC EUnknownQualifier).
Proof. vm_compute. reflexivity. Qed.
Example an_SelectAnalysisTestBAD_UnknownColumnQualifier2 :
  an_err (Run (Analysis.MkEnv (B "path/to/test") [] [] false) (B "SelectAnalysisTestBAD_UnknownColumnQualifier2") (TStruct [(MkVar (B "Rel") true false [(B "rel", [B "relation_a"])], g_test_T); (MkVar (B "Join") true false [], (TStruct [(MkVar (B "_") false false [(B "sql", [B "relation_b"; B "relation_b.id = relation_c.b_id"])], g_gosql_LeftJoin)]))])) = Some (EC EUnknownQualifier).
Proof. vm_compute. reflexivity. Qed.
Example an_UpdateAnalysisTestBAD_UnknownColumnQualifierInReturn :
  an_err (Run (Analysis.MkEnv (B "path/to/test") [] [] false) (B "UpdateAnalysisTestBAD_UnknownColumnQualifierInReturn") (TStruct [(MkVar (B "Rel") true false [(B "rel", [B "column_tests_1:c"])], g_test_CT1); (MkVar (B "_") false false [(B "sql", [B "x.col_a"])], g_gosql_Return)])) = Some (EC EUnknownQualifier).
Proof. vm_compute. reflexivity. Qed.
Example an_SelectAnalysisTestBAD_UnknownColumnQualifierInJoin :
  an_err (Run (Analysis.MkEnv (B "path/to/test") [] [] false) (B "SelectAnalysisTestBAD_UnknownColumnQualifierInJoin") (TStruct [(MkVar (B "Columns") true false [(B "rel", [B "column_tests_1:a"])], g_test_CT1); (MkVar (B "Join") true false [], (TStruct [(MkVar (B "_") false false [(B "sql", [B "column_tests_2:b"; B "x.col_foo = a.col_a"])], g_gosql_LeftJoin)]))])) = Some (EC EUnknownQualifier).
Proof. vm_compute. reflexivity. Qed.
Example an_SelectAnalysisTestBAD_UnknownColumnQualifierInJoin2 :
  an_err (Run (Analysis.MkEnv (B "path/to/test") [] [] false) (B "SelectAnalysisTestBAD_UnknownColumnQualifierInJoin2") (TStruct [(MkVar (B "Columns") true false [(B "rel", [B "column_tests_1:a"])], g_test_CT1); (MkVar (B "Join") true false [], (TStruct [(MkVar (B "_") false false [(B "sql", [B "column_tests_2:b"; B "b.col_foo = x.col_a"])], g_gosql_LeftJoin)]))])) = Some (EC EUnknownQualifier).
Proof. vm_compute. reflexivity. Qed.
Example an_InsertAnalysisTestBAD_UnknownColumnQualifierInForce :
  an_err (Run (Analysis.MkEnv (B "path/to/test") [] [] false) (B "InsertAnalysisTestBAD_UnknownColumnQualifierInForce") (TStruct [(MkVar (B "Rel") true false [(B "rel", [B "column_tests_1:c"])], g_test_CT1); (MkVar (B "_") false false [(B "sql", [B "x.col_a"])], g_gosql_Force)])) = Some (EC EUnknownQualifier).
Proof. vm_compute. reflexivity. Qed.
Example an_SelectAnalysisTestBAD_UnknownColumnQualifierInWhereField :
  an_err (Run (Analysis.MkEnv (B "path/to/test") [] [] false) (B "SelectAnalysisTestBAD_UnknownColumnQualifierInWhereField") (TStruct [(MkVar (B "Rel") true false [(B "rel", [B "column_tests_1:c"])], g_test_CT1); (MkVar (B "Where") true false [], (TStruct [(MkVar (B "Id") true false [(B "sql", [B "x.id"])], (TBasic BInt false false))]))])) = Some (EC EUnknownQualifier).
Proof. vm_compute. reflexivity. Qed.
Example an_SelectAnalysisTestBAD_UnknownColumnQualifierInWhereColumn :
  an_err (Run (Analysis.MkEnv (B "path/to/test") [] [] false) (B "SelectAnalysisTestBAD_UnknownColumnQualifierInWhereColumn") (TStruct [(MkVar (B "Rel") true false [(B "rel", [B "column_tests_1:c"])], g_test_CT1); (MkVar (B "Where") true false [], (TStruct [(MkVar (B "_") false false [(B "sql", [B "x.col_a = 123"])], g_gosql_Column)]))])) = Some (EC EUnknownQualifier).
Proof. vm_compute. reflexivity. Qed.
Example an_SelectAnalysisTestBAD_UnknownColumnQualifierInWhereColumn2 :
  an_err (Run (Analysis.MkEnv (B "path/to/test") [] [] false) (B "SelectAnalysisTestBAD_UnknownColumnQualifierInWhereColumn2") (TStruct [(MkVar (B "Rel") true false [(B "rel", [B "column_tests_1:c"])], g_test_CT1); (MkVar (B "Where") true false [], (TStruct [(MkVar (B "_") false false [(B "sql", [B "c.col_a = x.col_a"])], g_gosql_Column)]))])) = Some (EC EUnknownQualifier).
Proof. vm_compute. reflexivity. Qed.
Example an_SelectAnalysisTestBAD_UnknownColumnQualifierInOrderBy :
  an_err (Run (Analysis.MkEnv (B "path/to/test") [] [] false) (B "SelectAnalysisTestBAD_UnknownColumnQualifierInOrderBy") (TStruct [(MkVar (B "Rel") true false [(B "rel", [B "column_tests_1:c"])], g_test_CT1); (MkVar (B "_") false false [(B "sql", [B "x.col_a"])], g_gosql_OrderBy)])) = Some (EC EUnknownQualifier).
Proof. vm_compute. reflexivity. Qed.
Example an_SelectAnalysisTestBAD_UnknownColumnQualifierInBetween :
  an_err (Run (Analysis.MkEnv (B "path/to/test") [] [] false) (B "SelectAnalysisTestBAD_UnknownColumnQualifierInBetween") (TStruct [(MkVar (B "Rel") true false [(B "rel", [B "column_tests_1:c"])], g_test_CT1); (MkVar (B "Where") true false [], (TStruct [(MkVar (B "a") false false [(B "sql", [B "x.col_a isbetween"])], (TStruct [(MkVar (B "_") false false [(B "sql", [B "c.col_b"; B "x"])], g_gosql_Column); (MkVar (B "_") false false [(B "sql", [B "c.col_c"; B "y"])], g_gosql_Column)]))]))])) = Some (EC EUnknownQualifier).
Proof. vm_compute. reflexivity. Qed.
Example an_SelectAnalysisTestBAD_UnknownColumnQualifierInBetweenColumn :
  an_err (Run (Analysis.MkEnv (B "path/to/test") [] [] false) (B "SelectAnalysisTestBAD_UnknownColumnQualifierInBetweenColumn") (TStruct [(MkVar (B "Rel") true false [(B "rel", [B "column_tests_1:c"])], g_test_CT1); (MkVar (B "Where") true false [], (TStruct [(MkVar (B "a") false false [(B "sql", [B "c.col_a isbetween"])], (TStruct [(MkVar (B "_") false false [(B "sql", [B "x.col_b"; B "x"])], g_gosql_Column); (MkVar (B "_") false false [(B "sql", [B "c.col_c"; B "y"])], g_gosql_Column)]))]))])) = Some (EC EUnknownQualifier).
Proof. vm_compute. reflexivity. Qed.
Example an_InsertAnalysisTestBAD_UnknownColumnQualifierInDefault :
  an_err (Run (Analysis.MkEnv (B "path/to/test") [] [] false) (B "InsertAnalysisTestBAD_UnknownColumnQualifierInDefault") (TStruct [(MkVar (B "Rel") true false [(B "rel", [B "column_tests_1:c"])], g_test_CT1); (MkVar (B "_") false false [(B "sql", [B "x.col_b"])], g_gosql_Default)])) = Some (EC EUnknownQualifier).
Proof. vm_compute. reflexivity. Qed.
Example an_SelectAnalysisTestBAD_JoinConditionalLHSOperand :
  an_err (Run (Analysis.MkEnv (B "path/to/test") [] [] false) (B "SelectAnalysisTestBAD_JoinConditionalLHSOperand") (TStruct [(MkVar (B "Columns") true false [(B "rel", [B "column_tests_1:a"])], g_test_CT1); (MkVar (B "Join") true false [], (TStruct [(MkVar (B "_") false false [(B "sql", [B "column_tests_2:b"; B "a.col_b = b.col_bar"])], g_gosql_LeftJoin)]))])) = Some (EBadJoinConditionLHS).
Proof. vm_compute. reflexivity. Qed.
Example an_InsertAnalysisTestBAD_ReturnColumnNoField :
  an_err (Run (Analysis.MkEnv (B "path/to/test") [] [] false) (B "InsertAnalysisTestBAD_ReturnColumnNoField") (TStruct [(MkVar (B "Rel") true false [(B "rel", [B "relation_a:a"])], g_test_T2); (MkVar (B "_") false false [(B "sql", [B "a.foo"; B "a.bar"; B "a.baz"; B "a.quux"])], g_gosql_Return)])) = Some (EColumnFieldUnknown).
Proof. vm_compute. reflexivity. Qed.
Example an_UpdateAnalysisTestBAD_ForceColumnNoField :
  an_err (Run (Analysis.MkEnv (B "path/to/test") [] [] false) (B "UpdateAnalysisTestBAD_ForceColumnNoField") (TStruct [(MkVar (B "Rel") true false [(B "rel", [B "relation_a:a"])], g_test_T2); (MkVar (B "_") false false [(B "sql", [B "a.foo"; B "a.bar"; B "a.baz"; B "a.quux"])], g_gosql_Force)])) = Some (EColumnFieldUnknown).
Proof. vm_compute. reflexivity. Qed.
Example an_InsertAnalysisTestBAD_WithContextConflict :
  an_err (Run (Analysis.MkEnv (B "path/to/test") [] [] false) (B "InsertAnalysisTestBAD_WithContextConflict") (TStruct [(MkVar (B "Context") true true [], g_context_Context); (MkVar (B "Rel") true false [(B "rel", [B "relation_a:a"])], (TSlice g_test_T)); (MkVar (B "ctx") false false [], g_context_Context)])) = Some (EConflictingFieldOrDirective).
Proof. vm_compute. reflexivity. Qed.
Example an_InsertAnalysisTestOK1 :
  an_err (Run (Analysis.MkEnv (B "path/to/test") [] [] false) (B "InsertAnalysisTestOK1") (TStruct [(MkVar (B "UserRec") true false [(B "rel", [B "users_table"])], (TPtr g_common_User))])) = None.
Proof. vm_compute. reflexivity. Qed.
Example an_InsertAnalysisTestOK2 :
  an_err (Run (Analysis.MkEnv (B "path/to/test") [] [] false) (B "InsertAnalysisTestOK2") (TStruct [(MkVar (B "UserRec") true false [(B "rel", [B "users_table"])], (TStruct [(MkVar (B "_") false false [(B "sql", [B "name"])], (TBasic BString false false)); (MkVar (B "Name") true false [(B "sql", [B "-"])], (TBasic BString false false)); (MkVar (B "Name2") true false [], (TBasic BString false false)); (MkVar (B "Name3") true false [(B "sql", [B "name"])], (TBasic BString false false))]))])) = None.
Proof. vm_compute. reflexivity. Qed.
Example an_SelectAnalysisTestOK3 :
  an_err (Run (Analysis.MkEnv (B "path/to/test") [] [] false) (B "SelectAnalysisTestOK3") (TStruct [(MkVar (B "User") true false [(B "rel", [B "users_table"])], (TFunc [(TPtr g_common_User)] [g_error]))])) = None.
Proof. vm_compute. reflexivity. Qed.
Example an_SelectAnalysisTestOK4 :
  an_err (Run (Analysis.MkEnv (B "path/to/test") [] [] false) (B "SelectAnalysisTestOK4") (TStruct [(MkVar (B "User") true false [(B "rel", [B "users_table"])], g_test_namedIteratorFunc)])) = None.
Proof. vm_compute. reflexivity. Qed.
Example an_SelectAnalysisTestOK5 :
  an_err (Run (Analysis.MkEnv (B "path/to/test") [] [] false) (B "SelectAnalysisTestOK5") (TStruct [(MkVar (B "User") true false [(B "rel", [B "users_table"])], (TIface [(B "Fn", true, ([(TPtr g_common_User)], [g_error]))] false false false))])) = None.
Proof. vm_compute. reflexivity. Qed.
Example an_SelectAnalysisTestOK6 :
  an_err (Run (Analysis.MkEnv (B "path/to/test") [] [] false) (B "SelectAnalysisTestOK6") (TStruct [(MkVar (B "User") true false [(B "rel", [B "users_table"])], g_test_namedIterator)])) = None.
Proof. vm_compute. reflexivity. Qed.
Example an_SelectAnalysisTestOK7 :
  an_err (Run (Analysis.MkEnv (B "path/to/test") [] [] false) (B "SelectAnalysisTestOK7") (TStruct [(MkVar (B "Rel") true false [(B "rel", [B "relation_a"])], (TStruct [(MkVar (B "a") false false [(B "sql", [B "a"; B "pk"])], (TBasic BInt false false)); (MkVar (B "b") false false [(B "sql", [B "b"; B "nullempty"])], (TBasic BInt false false)); (MkVar (B "c") false false [(B "sql", [B "c"; B "ro"; B "json"])], (TBasic BInt false false)); (MkVar (B "d") false false [(B "sql", [B "d"; B "wo"])], (TBasic BInt false false)); (MkVar (B "e") false false [(B "sql", [B "e"; B "add"])], (TBasic BInt false false)); (MkVar (B "f") false false [(B "sql", [B "f"; B "coalesce"])], (TBasic BInt false false)); (MkVar (B "g") false false [(B "sql", [B "g"; B "coalesce(-1)"])], (TBasic BInt false false))]))])) = None.
Proof. vm_compute. reflexivity. Qed.
Example an_InsertAnalysisTestOK8 :
  an_err (Run (Analysis.MkEnv (B "path/to/test") [] [] false) (B "InsertAnalysisTestOK8") (TStruct [(MkVar (B "Rel") true false [(B "rel", [B "relation_a"])], (TStruct [(MkVar (B "Foobar") true false [(B "sql", [B ">foo_"])], g_common_Foo)]))])) = None.
Proof. vm_compute. reflexivity. Qed.
Example an_DeleteAnalysisTestOK9 :
  an_err (Run (Analysis.MkEnv (B "path/to/test") [] [] false) (B "DeleteAnalysisTestOK9") (TStruct [(MkVar (B "Rel") true false [(B "rel", [B "relation_a"])], (TStruct [])); (MkVar (B "Where") true false [], (TStruct [(MkVar (B "ID") true false [(B "sql", [B "id"])], (TBasic BInt false false))]))])) = None.
Proof. vm_compute. reflexivity. Qed.
Example an_DeleteAnalysisTestOK10 :
  an_err (Run (Analysis.MkEnv (B "path/to/test") [] [] false) (B "DeleteAnalysisTestOK10") (TStruct [(MkVar (B "Rel") true false [(B "rel", [B "relation_a"])], (TStruct [])); (MkVar (B "Where") true false [], (TStruct [(MkVar (B "_") false false [(B "sql", [B "column_a notnull"])], g_gosql_Column); (MkVar (B "_") false false [(B "sql", [B "column_b isnull"]); (B "bool", [B "and"])], g_gosql_Column); (MkVar (B "_") false false [(B "sql", [B "column_c nottrue"]); (B "bool", [B "or"])], g_gosql_Column); (MkVar (B "_") false false [(B "sql", [B "column_d istrue"])], g_gosql_Column); (MkVar (B "_") false false [(B "sql", [B "column_e notfalse"]); (B "bool", [B "or"])], g_gosql_Column); (MkVar (B "_") false false [(B "sql", [B "column_f isfalse"]); (B "bool", [B "or"])], g_gosql_Column); (MkVar (B "_") false false [(B "sql", [B "column_g notunknown"])], g_gosql_Column); (MkVar (B "_") false false [(B "sql", [B "column_h isunknown"])], g_gosql_Column); (MkVar (B "_") false false [(B "sql", [B "column_i"])], g_gosql_Column)]))])) = None.
Proof. vm_compute. reflexivity. Qed.
Example an_DeleteAnalysisTestOK11 :
  an_err (Run (Analysis.MkEnv (B "path/to/test") [] [] false) (B "DeleteAnalysisTestOK11") (TStruct [(MkVar (B "Rel") true false [(B "rel", [B "relation_a"])], (TStruct [])); (MkVar (B "Where") true false [], (TStruct [(MkVar (B "x") false false [(B "sql", [B ">"])], (TStruct [(MkVar (B "foo") false false [(B "sql", [B "column_foo"])], (TBasic BInt false false)); (MkVar (B "_") false false [(B "sql", [B "column_a isnull"])], g_gosql_Column)])); (MkVar (B "y") false false [(B "sql", [B ">"]); (B "bool", [B "or"])], (TStruct [(MkVar (B "_") false false [(B "sql", [B "column_b nottrue"])], g_gosql_Column); (MkVar (B "bar") false false [(B "sql", [B "column_bar"]); (B "bool", [B "or"])], (TBasic BString false false)); (MkVar (B "z") false false [(B "sql", [B ">"])], (TStruct [(MkVar (B "baz") false false [(B "sql", [B "column_baz"])], (TBasic BBool false false)); (MkVar (B "quux") false false [(B "sql", [B "column_quux"])], (TBasic BString false false)); (MkVar (B "_") false false [(B "sql", [B "column_c istrue"]); (B "bool", [B "or"])], g_gosql_Column)]))])); (MkVar (B "_") false false [(B "sql", [B "column_d notfalse"]); (B "bool", [B "or"])], g_gosql_Column); (MkVar (B "_") false false [(B "sql", [B "column_e isfalse"])], g_gosql_Column); (MkVar (B "foo") false false [(B "sql", [B "column_foo"])], (TBasic BInt false false))]))])) = None.
Proof. vm_compute. reflexivity. Qed.
Example an_DeleteAnalysisTestOK12 :
  an_err (Run (Analysis.MkEnv (B "path/to/test") [] [] false) (B "DeleteAnalysisTestOK12") (TStruct [(MkVar (B "Rel") true false [(B "rel", [B "relation_a"])], (TStruct [])); (MkVar (B "Where") true false [], (TStruct [(MkVar (B "a") false false [(B "sql", [B "column_a <"])], (TBasic BInt false false)); (MkVar (B "b") false false [(B "sql", [B "column_b >"])], (TBasic BInt false false)); (MkVar (B "c") false false [(B "sql", [B "column_c <="])], (TBasic BInt false false)); (MkVar (B "d") false false [(B "sql", [B "column_d >="])], (TBasic BInt false false)); (MkVar (B "e") false false [(B "sql", [B "column_e ="])], (TBasic BInt false false)); (MkVar (B "f") false false [(B "sql", [B "column_f <>"])], (TBasic BInt false false)); (MkVar (B "g") false false [(B "sql", [B "column_g"])], (TBasic BInt false false))]))])) = None.
Proof. vm_compute. reflexivity. Qed.
Example an_DeleteAnalysisTestOK13 :
  an_err (Run (Analysis.MkEnv (B "path/to/test") [] [] false) (B "DeleteAnalysisTestOK13") (TStruct [(MkVar (B "Rel") true false [(B "rel", [B "relation_a"])], (TStruct [])); (MkVar (B "Where") true false [], (TStruct [(MkVar (B "_") false false [(B "sql", [B "column_a <> column_b"])], g_gosql_Column); (MkVar (B "_") false false [(B "sql", [B "column_c=column_d"])], g_gosql_Column); (MkVar (B "_") false false [(B "sql", [B "column_e>123"])], g_gosql_Column); (MkVar (B "_") false false [(B "sql", [B "column_f = 'active'"])], g_gosql_Column); (MkVar (B "_") false false [(B "sql", [B "column_g <> true"])], g_gosql_Column)]))])) = None.
Proof. vm_compute. reflexivity. Qed.
Example an_DeleteAnalysisTestOK14 :
  an_err (Run (Analysis.MkEnv (B "path/to/test") [] [] false) (B "DeleteAnalysisTestOK14") (TStruct [(MkVar (B "Rel") true false [(B "rel", [B "relation_a"])], (TStruct [])); (MkVar (B "Where") true false [], (TStruct [(MkVar (B "a") false false [(B "sql", [B "column_a isbetween"])], (TStruct [(MkVar (B "x") false false [(B "sql", [B "x"])], (TBasic BInt false false)); (MkVar (B "y") false false [(B "sql", [B "y"])], (TBasic BInt false false))])); (MkVar (B "b") false false [(B "sql", [B "column_b isbetweensym"])], (TStruct [(MkVar (B "_") false false [(B "sql", [B "column_x"; B "X"])], g_gosql_Column); (MkVar (B "_") false false [(B "sql", [B "column_y"; B "Y"])], g_gosql_Column)])); (MkVar (B "c") false false [(B "sql", [B "column_c notbetweensym"])], (TStruct [(MkVar (B "_") false false [(B "sql", [B "column_z"; B "x"])], g_gosql_Column); (MkVar (B "z") false false [(B "sql", [B "y"])], (TBasic BInt false false))])); (MkVar (B "d") false false [(B "sql", [B "column_d notbetween"])], (TStruct [(MkVar (B "z") false false [(B "sql", [B "x"])], (TBasic BInt false false)); (MkVar (B "_") false false [(B "sql", [B "column_z"; B "y"])], g_gosql_Column)])); (MkVar (B "d2") false false [(B "sql", [B "column_d notbetween"])], (TStruct [(MkVar (B "z") false false [(B "sql", [B "lower"])], (TBasic BInt false false)); (MkVar (B "_") false false [(B "sql", [B "column_z"; B "upper"])], g_gosql_Column)]))]))])) = None.
Proof. vm_compute. reflexivity. Qed.
Example an_DeleteAnalysisTestOK_DistinctFrom :
  an_err (Run (Analysis.MkEnv (B "path/to/test") [] [] false) (B "DeleteAnalysisTestOK_DistinctFrom") (TStruct [(MkVar (B "Rel") true false [(B "rel", [B "relation_a"])], (TStruct [])); (MkVar (B "Where") true false [], (TStruct [(MkVar (B "a") false false [(B "sql", [B "column_a isdistinct"])], (TBasic BInt false false)); (MkVar (B "b") false false [(B "sql", [B "column_b notdistinct"])], (TBasic BInt false false)); (MkVar (B "_") false false [(B "sql", [B "column_c isdistinct column_x"])], g_gosql_Column); (MkVar (B "_") false false [(B "sql", [B "column_d notdistinct column_y"])], g_gosql_Column)]))])) = None.
Proof. vm_compute. reflexivity. Qed.
Example an_DeleteAnalysisTestOK_ArrayPredicate :
  an_err (Run (Analysis.MkEnv (B "path/to/test") [] [] false) (B "DeleteAnalysisTestOK_ArrayPredicate") (TStruct [(MkVar (B "Rel") true false [(B "rel", [B "relation_a"])], (TStruct [])); (MkVar (B "Where") true false [], (TStruct [(MkVar (B "a") false false [(B "sql", [B "column_a isin"])], (TSlice (TBasic BInt false false))); (MkVar (B "b") false false [(B "sql", [B "column_b notin"])], (TArray 5 (TBasic BInt false false))); (MkVar (B "c") false false [(B "sql", [B "column_c=any"])], (TSlice (TBasic BInt false false))); (MkVar (B "d") false false [(B "sql", [B "column_d >some"])], (TArray 10 (TBasic BInt false false))); (MkVar (B "e") false false [(B "sql", [B "column_e <= all"])], (TSlice (TBasic BInt false false)))]))])) = None.
Proof. vm_compute. reflexivity. Qed.
Example an_DeleteAnalysisTestOK_PatternMatching :
  an_err (Run (Analysis.MkEnv (B "path/to/test") [] [] false) (B "DeleteAnalysisTestOK_PatternMatching") (TStruct [(MkVar (B "Rel") true false [(B "rel", [B "relation_a"])], (TStruct [])); (MkVar (B "Where") true false [], (TStruct [(MkVar (B "a") false false [(B "sql", [B "column_a islike"])], (TBasic BString false false)); (MkVar (B "b") false false [(B "sql", [B "column_b notlike"])], (TBasic BString false false)); (MkVar (B "c") false false [(B "sql", [B "column_c issimilar"])], (TBasic BString false false)); (MkVar (B "d") false false [(B "sql", [B "column_d notsimilar"])], (TBasic BString false false)); (MkVar (B "e") false false [(B "sql", [B "column_e ~"])], (TBasic BString false false)); (MkVar (B "f") false false [(B "sql", [B "column_f~*"])], (TBasic BString false false)); (MkVar (B "g") false false [(B "sql", [B "column_g!~"])], (TBasic BString false false)); (MkVar (B "h") false false [(B "sql", [B "column_h !~*"])], (TBasic BString false false))]))])) = None.
Proof. vm_compute. reflexivity. Qed.
Example an_DeleteAnalysisTestOK_Using :
  an_err (Run (Analysis.MkEnv (B "path/to/test") [] [] false) (B "DeleteAnalysisTestOK_Using") (TStruct [(MkVar (B "Rel") true false [(B "rel", [B "relation_a:a"])], (TStruct [])); (MkVar (B "Using") true false [], (TStruct [(MkVar (B "_") false false [(B "sql", [B "relation_b:b"])], g_gosql_Relation); (MkVar (B "_") false false [(B "sql", [B "relation_c:c"; B "c.b_id = b.id"])], g_gosql_LeftJoin); (MkVar (B "_") false false [(B "sql", [B "relation_d:d"; B "d.c_id = c.id;d.num > b.num"])], g_gosql_RightJoin); (MkVar (B "_") false false [(B "sql", [B "relation_e:e"; B "e.d_id = d.id"; B "e.is_foo isfalse"])], g_gosql_FullJoin); (MkVar (B "_") false false [(B "sql", [B "relation_f:f"])], g_gosql_CrossJoin)])); (MkVar (B "Where") true false [], (TStruct [(MkVar (B "_") false false [(B "sql", [B "a.id = d.a_id"])], g_gosql_Column)]))])) = None.
Proof. vm_compute. reflexivity. Qed.
Example an_UpdateAnalysisTestOK_From :
  an_err (Run (Analysis.MkEnv (B "path/to/test") [] [] false) (B "UpdateAnalysisTestOK_From") (TStruct [(MkVar (B "Rel") true false [(B "rel", [B "relation_a:a"])], (TStruct [])); (MkVar (B "From") true false [], (TStruct [(MkVar (B "_") false false [(B "sql", [B "relation_b:b"])], g_gosql_Relation); (MkVar (B "_") false false [(B "sql", [B "relation_c:c"; B "c.b_id = b.id"])], g_gosql_LeftJoin); (MkVar (B "_") false false [(B "sql", [B "relation_d:d"; B "d.c_id = c.id;d.num > b.num"])], g_gosql_RightJoin); (MkVar (B "_") false false [(B "sql", [B "relation_e:e"; B "e.d_id = d.id"; B "e.is_foo isfalse"])], g_gosql_FullJoin); (MkVar (B "_") false false [(B "sql", [B "relation_f:f"])], g_gosql_CrossJoin)])); (MkVar (B "Where") true false [], (TStruct [(MkVar (B "_") false false [(B "sql", [B "a.id = d.a_id"])], g_gosql_Column)]))])) = None.
Proof. vm_compute. reflexivity. Qed.
Example an_SelectAnalysisTestOK_Join :
  an_err (Run (Analysis.MkEnv (B "path/to/test") [] [] false) (B "SelectAnalysisTestOK_Join") (TStruct [(MkVar (B "Rel") true false [(B "rel", [B "relation_a:a"])], (TStruct [])); (MkVar (B "Join") true false [], (TStruct [(MkVar (B "_") false false [(B "sql", [B "relation_b:b"; B "b.a_id = a.id"])], g_gosql_LeftJoin); (MkVar (B "_") false false [(B "sql", [B "relation_c:c"; B "c.b_id = b.id"])], g_gosql_LeftJoin); (MkVar (B "_") false false [(B "sql", [B "relation_d:d"; B "d.c_id = c.id;d.num > b.num"])], g_gosql_RightJoin); (MkVar (B "_") false false [(B "sql", [B "relation_e:e"; B "e.d_id = d.id"; B "e.is_foo isfalse"])], g_gosql_FullJoin); (MkVar (B "_") false false [(B "sql", [B "relation_f:f"])], g_gosql_CrossJoin)])); (MkVar (B "Where") true false [], (TStruct [(MkVar (B "_") false false [(B "sql", [B "a.id = d.a_id"])], g_gosql_Column)]))])) = None.
Proof. vm_compute. reflexivity. Qed.
Example an_UpdateAnalysisTestOK_All :
  an_err (Run (Analysis.MkEnv (B "path/to/test") [] [] false) (B "UpdateAnalysisTestOK_All") (TStruct [(MkVar (B "Rel") true false [(B "rel", [B "relation_a:a"])], (TStruct [])); (MkVar (B "_") false false [], g_gosql_All)])) = None.
Proof. vm_compute. reflexivity. Qed.
Example an_DeleteAnalysisTestOK_All :
  an_err (Run (Analysis.MkEnv (B "path/to/test") [] [] false) (B "DeleteAnalysisTestOK_All") (TStruct [(MkVar (B "Rel") true false [(B "rel", [B "relation_a:a"])], (TStruct [])); (MkVar (B "_") false false [], g_gosql_All)])) = None.
Proof. vm_compute. reflexivity. Qed.
Example an_DeleteAnalysisTestOK_Return :
  an_err (Run (Analysis.MkEnv (B "path/to/test") [] [] false) (B "DeleteAnalysisTestOK_Return") (TStruct [(MkVar (B "Rel") true false [(B "rel", [B "relation_a:a"])], g_test_T); (MkVar (B "_") false false [(B "sql", [B "*"])], g_gosql_Return)])) = None.
Proof. vm_compute. reflexivity. Qed.
Example an_InsertAnalysisTestOK_Return :
  an_err (Run (Analysis.MkEnv (B "path/to/test") [] [] false) (B "InsertAnalysisTestOK_Return") (TStruct [(MkVar (B "Rel") true false [(B "rel", [B "relation_a:a"])], g_test_T2); (MkVar (B "_") false false [(B "sql", [B "a.foo"; B "a.bar"; B "a.baz"])], g_gosql_Return)])) = None.
Proof. vm_compute. reflexivity. Qed.
Example an_UpdateAnalysisTestOK_Return :
  an_err (Run (Analysis.MkEnv (B "path/to/test") [] [] false) (B "UpdateAnalysisTestOK_Return") (TStruct [(MkVar (B "Rel") true false [(B "rel", [B "relation_a:a"])], g_test_T2); (MkVar (B "_") false false [(B "sql", [B "a.foo"; B "a.bar"; B "a.baz"])], g_gosql_Return)])) = None.
Proof. vm_compute. reflexivity. Qed.
Example an_InsertAnalysisTestOK_Default :
  an_err (Run (Analysis.MkEnv (B "path/to/test") [] [] false) (B "InsertAnalysisTestOK_Default") (TStruct [(MkVar (B "Rel") true false [(B "rel", [B "relation_a:a"])], (TStruct [])); (MkVar (B "_") false false [(B "sql", [B "*"])], g_gosql_Default)])) = None.
Proof. vm_compute. reflexivity. Qed.
Example an_UpdateAnalysisTestOK_Default :
  an_err (Run (Analysis.MkEnv (B "path/to/test") [] [] false) (B "UpdateAnalysisTestOK_Default") (TStruct [(MkVar (B "Rel") true false [(B "rel", [B "relation_a:a"])], (TStruct [])); (MkVar (B "_") false false [(B "sql", [B "a.foo"; B "a.bar"; B "a.baz"])], g_gosql_Default)])) = None.
Proof. vm_compute. reflexivity. Qed.
Example an_InsertAnalysisTestOK_Force :
  an_err (Run (Analysis.MkEnv (B "path/to/test") [] [] false) (B "InsertAnalysisTestOK_Force") (TStruct [(MkVar (B "Rel") true false [(B "rel", [B "relation_a:a"])], (TStruct [])); (MkVar (B "_") false false [(B "sql", [B "*"])], g_gosql_Force)])) = None.
Proof. vm_compute. reflexivity. Qed.
Example an_UpdateAnalysisTestOK_Force :
  an_err (Run (Analysis.MkEnv (B "path/to/test") [] [] false) (B "UpdateAnalysisTestOK_Force") (TStruct [(MkVar (B "Rel") true false [(B "rel", [B "relation_a:a"])], g_test_T2); (MkVar (B "_") false false [(B "sql", [B "a.foo"; B "a.bar"; B "a.baz"])], g_gosql_Force)])) = None.
Proof. vm_compute. reflexivity. Qed.
Example an_SelectAnalysisTestOK_ErrorHandler :
  an_err (Run (Analysis.MkEnv (B "path/to/test") [] [] false) (B "SelectAnalysisTestOK_ErrorHandler") (TStruct [(MkVar (B "Rel") true false [(B "rel", [B "relation_a:a"])], (TStruct [])); (MkVar (B "eh") false false [], g_test_myerrorhandler)])) = None.
Proof. vm_compute. reflexivity. Qed.
Example an_InsertAnalysisTestOK_ErrorHandler :
  an_err (Run (Analysis.MkEnv (B "path/to/test") [] [] false) (B "InsertAnalysisTestOK_ErrorHandler") (TStruct [(MkVar (B "Rel") true false [(B "rel", [B "relation_a:a"])], (TStruct [])); (MkVar (B "myerrorhandler") false true [], g_test_myerrorhandler)])) = None.
Proof. vm_compute. reflexivity. Qed.
Example an_SelectAnalysisTestOK_ErrorInfoHandler :
  an_err (Run (Analysis.MkEnv (B "path/to/test") [] [] false) (B "SelectAnalysisTestOK_ErrorInfoHandler") (TStruct [(MkVar (B "Rel") true false [(B "rel", [B "relation_a:a"])], (TStruct [])); (MkVar (B "eh") false false [], g_test_myerrorinfohandler)])) = None.
Proof. vm_compute. reflexivity. Qed.
Example an_InsertAnalysisTestOK_ErrorInfoHandler :
  an_err (Run (Analysis.MkEnv (B "path/to/test") [] [] false) (B "InsertAnalysisTestOK_ErrorInfoHandler") (TStruct [(MkVar (B "Rel") true false [(B "rel", [B "relation_a:a"])], (TStruct [])); (MkVar (B "myerrorinfohandler") false true [], g_test_myerrorinfohandler)])) = None.
Proof. vm_compute. reflexivity. Qed.
Example an_SelectAnalysisTestOK_Count :
  an_err (Run (Analysis.MkEnv (B "path/to/test") [] [] false) (B "SelectAnalysisTestOK_Count") (TStruct [(MkVar (B "Count") true false [(B "rel", [B "relation_a:a"])], (TBasic BInt false false))])) = None.
Proof. vm_compute. reflexivity. Qed.
Example an_SelectAnalysisTestOK_Exists :
  an_err (Run (Analysis.MkEnv (B "path/to/test") [] [] false) (B "SelectAnalysisTestOK_Exists") (TStruct [(MkVar (B "Exists") true false [(B "rel", [B "relation_a:a"])], (TBasic BBool false false))])) = None.
Proof. vm_compute. reflexivity. Qed.
Example an_SelectAnalysisTestOK_NotExists :
  an_err (Run (Analysis.MkEnv (B "path/to/test") [] [] false) (B "SelectAnalysisTestOK_NotExists") (TStruct [(MkVar (B "NotExists") true false [(B "rel", [B "relation_a:a"])], (TBasic BBool false false))])) = None.
Proof. vm_compute. reflexivity. Qed.
Example an_DeleteAnalysisTestOK_Relation :
  an_err (Run (Analysis.MkEnv (B "path/to/test") [] [] false) (B "DeleteAnalysisTestOK_Relation") (TStruct [(MkVar (B "_") false false [(B "rel", [B "relation_a:a"])], g_gosql_Relation)])) = None.
Proof. vm_compute. reflexivity. Qed.
Example an_SelectAnalysisTestOK_LimitDirective :
  an_err (Run (Analysis.MkEnv (B "path/to/test") [] [] false) (B "SelectAnalysisTestOK_LimitDirective") (TStruct [(MkVar (B "Rel") true false [(B "rel", [B "relation_a:a"])], (TSlice g_test_T)); (MkVar (B "_") false false [(B "sql", [B "25"])], g_gosql_Limit)])) = None.
Proof. vm_compute. reflexivity. Qed.
Example an_SelectAnalysisTestOK_LimitField :
  an_err (Run (Analysis.MkEnv (B "path/to/test") [] [] false) (B "SelectAnalysisTestOK_LimitField") (TStruct [(MkVar (B "Rel") true false [(B "rel", [B "relation_a:a"])], (TSlice g_test_T)); (MkVar (B "Limit") true false [(B "sql", [B "10"])], (TBasic BInt false false))])) = None.
Proof. vm_compute. reflexivity. Qed.
Example an_SelectAnalysisTestOK_OffsetDirective :
  an_err (Run (Analysis.MkEnv (B "path/to/test") [] [] false) (B "SelectAnalysisTestOK_OffsetDirective") (TStruct [(MkVar (B "Rel") true false [(B "rel", [B "relation_a:a"])], (TSlice g_test_T)); (MkVar (B "_") false false [(B "sql", [B "25"])], g_gosql_Offset)])) = None.
Proof. vm_compute. reflexivity. Qed.
Example an_SelectAnalysisTestOK_OffsetField :
  an_err (Run (Analysis.MkEnv (B "path/to/test") [] [] false) (B "SelectAnalysisTestOK_OffsetField") (TStruct [(MkVar (B "Rel") true false [(B "rel", [B "relation_a:a"])], (TSlice g_test_T)); (MkVar (B "Offset") true false [(B "sql", [B "10"])], (TBasic BInt false false))])) = None.
Proof. vm_compute. reflexivity. Qed.
Example an_SelectAnalysisTestOK_OrderByDirective :
  an_err (Run (Analysis.MkEnv (B "path/to/test") [] [] false) (B "SelectAnalysisTestOK_OrderByDirective") (TStruct [(MkVar (B "Rel") true false [(B "rel", [B "relation_a:a"])], (TSlice g_test_T)); (MkVar (B "_") false false [(B "sql", [B "a.foo:nullsfirst"; B "-a.bar:nullsfirst"; B "-a.baz"; B "a.quux:nullslast"])], g_gosql_OrderBy)])) = None.
Proof. vm_compute. reflexivity. Qed.
Example an_InsertAnalysisTestOK_OverrideDirective :
  an_err (Run (Analysis.MkEnv (B "path/to/test") [] [] false) (B "InsertAnalysisTestOK_OverrideDirective") (TStruct [(MkVar (B "Rel") true false [(B "rel", [B "relation_a:a"])], (TSlice g_test_T)); (MkVar (B "_") false false [(B "sql", [B "system"])], g_gosql_Override)])) = None.
Proof. vm_compute. reflexivity. Qed.
Example an_InsertAnalysisTestOK_OnConflict :
  an_err (Run (Analysis.MkEnv (B "path/to/test") [] [] false) (B "InsertAnalysisTestOK_OnConflict") (TStruct [(MkVar (B "Rel") true false [(B "rel", [B "relation_a:a"])], (TSlice g_test_T)); (MkVar (B "OnConflict") true false [], (TStruct [(MkVar (B "_") false false [], g_gosql_Ignore)]))])) = None.
Proof. vm_compute. reflexivity. Qed.
Example an_InsertAnalysisTestOK_OnConflictColumn :
  an_err (Run (Analysis.MkEnv (B "path/to/test") [] [] false) (B "InsertAnalysisTestOK_OnConflictColumn") (TStruct [(MkVar (B "Rel") true false [(B "rel", [B "relation_a:a"])], (TSlice g_test_T)); (MkVar (B "OnConflict") true false [], (TStruct [(MkVar (B "_") false false [(B "sql", [B "a.id"])], g_gosql_Column); (MkVar (B "_") false false [], g_gosql_Ignore)]))])) = None.
Proof. vm_compute. reflexivity. Qed.
Example an_InsertAnalysisTestOK_OnConflictConstraint :
  an_err (Run (Analysis.MkEnv (B "path/to/test") [] [] false) (B "InsertAnalysisTestOK_OnConflictConstraint") (TStruct [(MkVar (B "Rel") true false [(B "rel", [B "relation_a:a"])], (TSlice g_test_T)); (MkVar (B "OnConflict") true false [], (TStruct [(MkVar (B "_") false false [(B "sql", [B "relation_constraint_xyz"])], g_gosql_Constraint); (MkVar (B "_") false false [(B "sql", [B "a.foo"; B "a.bar"; B "a.baz"])], g_gosql_Update)]))])) = None.
Proof. vm_compute. reflexivity. Qed.
Example an_InsertAnalysisTestOK_OnConflictIndex :
  an_err (Run (Analysis.MkEnv (B "path/to/test") [] [] false) (B "InsertAnalysisTestOK_OnConflictIndex") (TStruct [(MkVar (B "Rel") true false [(B "rel", [B "relation_a:a"])], (TSlice g_test_T)); (MkVar (B "OnConflict") true false [], (TStruct [(MkVar (B "_") false false [(B "sql", [B "relation_index_xyz"])], g_gosql_Index); (MkVar (B "_") false false [(B "sql", [B "*"])], g_gosql_Update)]))])) = None.
Proof. vm_compute. reflexivity. Qed.
Example an_DeleteAnalysisTestOK_ResultField :
  an_err (Run (Analysis.MkEnv (B "path/to/test") [] [] false) (B "DeleteAnalysisTestOK_ResultField") (TStruct [(MkVar (B "_") false false [(B "rel", [B "relation_a:a"])], g_gosql_Relation); (MkVar (B "Where") true false [], (TStruct [(MkVar (B "_") false false [(B "sql", [B "a.is_inactive istrue"])], g_gosql_Column)])); (MkVar (B "Result") true false [], (TSlice g_test_T))])) = None.
Proof. vm_compute. reflexivity. Qed.
Example an_DeleteAnalysisTestOK_RowsAffected :
  an_err (Run (Analysis.MkEnv (B "path/to/test") [] [] false) (B "DeleteAnalysisTestOK_RowsAffected") (TStruct [(MkVar (B "_") false false [(B "rel", [B "relation_a:a"])], g_gosql_Relation); (MkVar (B "Where") true false [], (TStruct [(MkVar (B "_") false false [(B "sql", [B "a.is_inactive istrue"])], g_gosql_Column)])); (MkVar (B "RowsAffected") true false [], (TBasic BInt false false))])) = None.
Proof. vm_compute. reflexivity. Qed.
Example an_SelectAnalysisTestOK_FilterField :
  an_err (Run (Analysis.MkEnv (B "path/to/test") [] [] false) (B "SelectAnalysisTestOK_FilterField") (TStruct [(MkVar (B "Rel") true false [(B "rel", [B "relation_a:a"])], (TSlice g_test_T)); (MkVar (B "Filter") true false [], g_gosql_Filter)])) = None.
Proof. vm_compute. reflexivity. Qed.
Example an_SelectAnalysisTestOK_FieldTypesBasic :
  an_err (Run (Analysis.MkEnv (B "path/to/test") [] [] false) (B "SelectAnalysisTestOK_FieldTypesBasic") (TStruct [(MkVar (B "Rel") true false [(B "rel", [B "relation_a:a"])], (TStruct [(MkVar (B "f1") false false [(B "sql", [B "c1"])], (TBasic BBool false false)); (MkVar (B "f2") false false [(B "sql", [B "c2"])], (TBasic BUint8 true false)); (MkVar (B "f3") false false [(B "sql", [B "c3"])], (TBasic BInt32 false true)); (MkVar (B "f4") false false [(B "sql", [B "c4"])], (TBasic BInt8 false false)); (MkVar (B "f5") false false [(B "sql", [B "c5"])], (TBasic BInt16 false false)); (MkVar (B "f6") false false [(B "sql", [B "c6"])], (TBasic BInt32 false false)); (MkVar (B "f7") false false [(B "sql", [B "c7"])], (TBasic BInt64 false false)); (MkVar (B "f8") false false [(B "sql", [B "c8"])], (TBasic BInt false false)); (MkVar (B "f9") false false [(B "sql", [B "c9"])], (TBasic BUint8 false false)); (MkVar (B "f10") false false [(B "sql", [B "c10"])], (TBasic BUint16 false false)); (MkVar (B "f11") false false [(B "sql", [B "c11"])], (TBasic BUint32 false false)); (MkVar (B "f12") false false [(B "sql", [B "c12"])], (TBasic BUint64 false false)); (MkVar (B "f13") false false [(B "sql", [B "c13"])], (TBasic BUint false false)); (MkVar (B "f14") false false [(B "sql", [B "c14"])], (TBasic BUintptr false false)); (MkVar (B "f15") false false [(B "sql", [B "c15"])], (TBasic BFloat32 false false)); (MkVar (B "f16") false false [(B "sql", [B "c16"])], (TBasic BFloat64 false false)); (MkVar (B "f17") false false [(B "sql", [B "c17"])], (TBasic BComplex64 false false)); (MkVar (B "f18") false false [(B "sql", [B "c18"])], (TBasic BComplex128 false false)); (MkVar (B "f19") false false [(B "sql", [B "c19"])], (TBasic BString false false))]))])) = None.
Proof. vm_compute. reflexivity. Qed.
Example an_SelectAnalysisTestOK_FieldTypesSlices :
  an_err (Run (Analysis.MkEnv (B "path/to/test") [] [] false) (B "SelectAnalysisTestOK_FieldTypesSlices") (TStruct [(MkVar (B "Rel") true false [(B "rel", [B "relation_a:a"])], (TStruct [(MkVar (B "f1") false false [(B "sql", [B "c1"])], (TSlice (TBasic BBool false false))); (MkVar (B "f2") false false [(B "sql", [B "c2"])], (TSlice (TBasic BUint8 true false))); (MkVar (B "f3") false false [(B "sql", [B "c3"])], (TSlice (TBasic BInt32 false true))); (MkVar (B "f4") false false [(B "sql", [B "c4"])], g_net_HardwareAddr); (MkVar (B "f5") false false [(B "sql", [B "c5"])], g_json_RawMessage); (MkVar (B "f6") false false [(B "sql", [B "c6"])], (TSlice g_json_Marshaler)); (MkVar (B "f7") false false [(B "sql", [B "c7"])], (TSlice g_json_RawMessage)); (MkVar (B "f8") false false [(B "sql", [B "c8"])], (TSlice (TSlice (TBasic BUint8 true false)))); (MkVar (B "f9") false false [(B "sql", [B "c9"])], (TSlice (TArray 2 (TArray 2 (TBasic BFloat64 false false))))); (MkVar (B "f10") false false [(B "sql", [B "c10"])], (TSlice (TSlice (TArray 2 (TBasic BFloat64 false false))))); (MkVar (B "f11") false false [(B "sql", [B "c11"])], (TMap (TBasic BString false false) g_sql_NullString)); (MkVar (B "f12") false false [(B "sql", [B "c12"])], (TSlice (TMap (TBasic BString false false) (TPtr (TBasic BString false false))))); (MkVar (B "f13") false false [(B "sql", [B "c13"])], (TSlice (TArray 2 (TPtr g_big_Int))))]))])) = None.
Proof. vm_compute. reflexivity. Qed.
Example an_SelectAnalysisTestOK_FieldTypesInterfaces :
  an_err (Run (Analysis.MkEnv (B "path/to/test") [] [] false) (B "SelectAnalysisTestOK_FieldTypesInterfaces") (TStruct [(MkVar (B "Rel") true false [(B "rel", [B "relation_a:a"])], (TStruct [(MkVar (B "f1") false false [(B "sql", [B "c1"])], g_json_Marshaler); (MkVar (B "f2") false false [(B "sql", [B "c2"])], g_json_Unmarshaler); (MkVar (B "f3") false false [(B "sql", [B "c3"])], (TIface [(B "MarshalJSON", true, ([], [(TSlice (TBasic BUint8 true false)); g_error])); (B "UnmarshalJSON", true, ([(TSlice (TBasic BUint8 true false))], [g_error]))] false false false))]))])) = None.
Proof. vm_compute. reflexivity. Qed.
Example an_SelectAnalysisTestOK_FieldTypesEmptyInterfaces :
  an_err (Run (Analysis.MkEnv (B "path/to/test") [] [] false) (B "SelectAnalysisTestOK_FieldTypesEmptyInterfaces") (TStruct [(MkVar (B "Rel") true false [(B "rel", [B "relation_a:a"])], (TStruct [(MkVar (B "f1") false false [(B "sql", [B "c1"])], (TIface [] true false false)); (MkVar (B "f2") false false [(B "sql", [B "c2"])], (TPtr (TIface [] true false false))); (MkVar (B "f3") false false [(B "sql", [B "c3"])], g_test_donothing); (MkVar (B "f4") false false [(B "sql", [B "c4"])], (TPtr g_test_donothing))]))])) = None.
Proof. vm_compute. reflexivity. Qed.
Example an_SelectAnalysisTestOK_WithContext :
  an_err (Run (Analysis.MkEnv (B "path/to/test") [] [] false) (B "SelectAnalysisTestOK_WithContext") (TStruct [(MkVar (B "Context") true true [], g_context_Context); (MkVar (B "UserRec") true false [(B "rel", [B "users_table"])], (TPtr g_common_User))])) = None.
Proof. vm_compute. reflexivity. Qed.
Example an_SelectAnalysisTestOK_WithContextNamed :
  an_err (Run (Analysis.MkEnv (B "path/to/test") [] [] false) (B "SelectAnalysisTestOK_WithContextNamed") (TStruct [(MkVar (B "Ctx") true false [], g_context_Context); (MkVar (B "UserRec") true false [(B "rel", [B "users_table"])], (TPtr g_common_User))])) = None.
Proof. vm_compute. reflexivity. Qed.
Example an_FilterAnalysisTestBAD_IllegalReturnDirective :
  an_err (Run (Analysis.MkEnv (B "path/to/test") [] [] false) (B "FilterAnalysisTestBAD_IllegalReturnDirective") (TStruct [(MkVar (B "Rel") true false [(B "rel", [B "relation_a:a"])], g_test_T); (MkVar (B "_") false false [(B "sql", [B "*"])], g_gosql_Return)])) = Some (EIllegalQueryField).
Proof. vm_compute. reflexivity. Qed.
Example an_FilterAnalysisTestBAD_BadTextSearchDirectiveColId :
  an_err (Run (Analysis.MkEnv (B "path/to/test") [] [] false) (B "FilterAnalysisTestBAD_BadTextSearchDirectiveColId") (TStruct [(MkVar (B "Rel") true false [(B "rel", [B "relation_a:a"])], g_test_T); (MkVar (B "_") false false [(B "sql", [B "123"])], g_gosql_TextSearch)])) = Some (EC EBadColId).
Proof. vm_compute. reflexivity. Qed.
Example an_FilterAnalysisTestBAD_ConflictingRelTag :
  an_err (Run (Analysis.MkEnv (B "path/to/test") [] [] false) (B "FilterAnalysisTestBAD_ConflictingRelTag") (TStruct [(MkVar (B "_") false false [(B "rel", [B "relation_a:a"])], g_test_T); (MkVar (B "_") false false [(B "rel", [B "a.ts_document"])], g_gosql_TextSearch)])) = Some (EConflictingRelTag).
Proof. vm_compute. reflexivity. Qed.
Example an_FilterAnalysisTestBAD_IllegalIteratorType :
  an_err (Run (Analysis.MkEnv (B "path/to/test") [] [] false) (B "FilterAnalysisTestBAD_IllegalIteratorType") (TStruct [(MkVar (B "_") false false [(B "rel", [B "relation_a:a"])], (TFunc [(TPtr g_test_T)] [g_error])); (MkVar (B "_") false false [(B "sql", [B "a.ts_document"])], g_gosql_TextSearch)])) = Some (EIllegalIteratorField).
Proof. vm_compute. reflexivity. Qed.
Example an_FilterAnalysisTestBAD_UnknownColumnQualifierInTextSearch :
  an_err (Run (Analysis.MkEnv (B "path/to/test") [] [] false) (B "FilterAnalysisTestBAD_UnknownColumnQualifierInTextSearch") (TStruct [(MkVar (B "_") false false [(B "rel", [B "column_tests_1:c"])], g_test_CT1); (MkVar (B "_") false false [(B "sql", [B "x.col_b"])], g_gosql_TextSearch)])) = Some (EC EUnknownQualifier).
Proof. vm_compute. reflexivity. Qed.
Example an_FilterAnalysisTestBAD_NoFilterConstructor :
  an_err (Run (Analysis.MkEnv (B "path/to/test") [] [] false) (B "FilterAnalysisTestBAD_NoFilterConstructor") (TStruct [(MkVar (B "_") false false [(B "rel", [B "relation_a:a"])], g_test_T); (MkVar (B "_") false false [(B "sql", [B "a.ts_document"])], g_gosql_TextSearch)])) = Some (EMissingFilterConstructor).
Proof. vm_compute. reflexivity. Qed.
Example an_FilterAnalysisTestBAD_ConflictingFilterConstructor :
  an_err (Run (Analysis.MkEnv (B "path/to/test") [] [] false) (B "FilterAnalysisTestBAD_ConflictingFilterConstructor") (TStruct [(MkVar (B "_") false false [(B "rel", [B "relation_a:a"])], g_test_T); (MkVar (B "_") false false [(B "sql", [B "a.ts_document"])], g_gosql_TextSearch); (MkVar (B "FilterMaker") true true [], g_common_FilterMaker); (MkVar (B "maker") false false [], g_common_FilterMaker)])) = Some (EConflictingFilterConstructor).
Proof. vm_compute. reflexivity. Qed.
Example an_FilterAnalysisTestOK_TextSearchDirective :
  an_err (Run (Analysis.MkEnv (B "path/to/test") [] [] false) (B "FilterAnalysisTestOK_TextSearchDirective") (TStruct [(MkVar (B "_") false false [(B "rel", [B "relation_a:a"])], g_test_T); (MkVar (B "_") false false [(B "sql", [B "a.ts_document"])], g_gosql_TextSearch); (MkVar (B "FilterMaker") true true [(B "filter", [B "v2"])], g_common_FilterMaker)])) = None.
Proof. vm_compute. reflexivity. Qed.
Example db_SelectPostgresTestOK_Simple :
  db_err (Run (Analysis.MkEnv (B "path/to/test") [] [] false) (B "SelectPostgresTestOK_Simple") (TStruct [(MkVar (B "Columns") true false [(B "rel", [B "column_tests_1"])], (TStruct [(MkVar (B "A") true false [(B "sql", [B "col_a"])], (TBasic BInt false false)); (MkVar (B "B") true false [(B "sql", [B "col_b"])], (TBasic BString false false)); (MkVar (B "C") true false [(B "sql", [B "col_c"])], (TBasic BBool false false)); (MkVar (B "D") true false [(B "sql", [B "col_d"])], (TBasic BFloat64 false false)); (MkVar (B "E") true false [(B "sql", [B "col_e"])], g_time_Time)]))])) = COk tt.
Proof. vm_compute. reflexivity. Qed.
Example db_SelectPostgresTestOK_Enums :
  db_err (Run (Analysis.MkEnv (B "path/to/test") [] [] false) (B "SelectPostgresTestOK_Enums") (TStruct [(MkVar (B "Rel") true false [(B "rel", [B "column_tests_3"])], g_test_CT3); (MkVar (B "Where") true false [], (TStruct [(MkVar (B "SomeTime") true false [(B "sql", [B "some_time <"])], g_common_MyTime)]))])) = COk tt.
Proof. vm_compute. reflexivity. Qed.
Example db_InsertPostgresTestOK_Enums :
  db_err (Run (Analysis.MkEnv (B "path/to/test") [] [] false) (B "InsertPostgresTestOK_Enums") (TStruct [(MkVar (B "Rel") true false [(B "rel", [B "column_tests_3"])], (TSlice (TPtr g_test_CT3)))])) = COk tt.
Proof. vm_compute. reflexivity. Qed.
Example db_SelectPostgresTestOK_CustomTypePointer :
  db_err (Run (Analysis.MkEnv (B "path/to/test") [] [] false) (B "SelectPostgresTestOK_CustomTypePointer") (TStruct [(MkVar (B "Rel") true false [(B "rel", [B "column_tests_3"])], g_test_CT3b); (MkVar (B "Where") true false [], (TStruct [(MkVar (B "SomeTime") true false [(B "sql", [B "some_time <"])], g_common_MyTime)]))])) = COk tt.
Proof. vm_compute. reflexivity. Qed.
Example db_InsertPostgresTestOK_CustomTypePointer :
  db_err (Run (Analysis.MkEnv (B "path/to/test") [] [] false) (B "InsertPostgresTestOK_CustomTypePointer") (TStruct [(MkVar (B "Rel") true false [(B "rel", [B "column_tests_3"])], (TSlice (TPtr g_test_CT3b)))])) = COk tt.
Proof. vm_compute. reflexivity. Qed.
Example db_SelectPostgresTestOK_CompositeType :
  db_err (Run (Analysis.MkEnv (B "path/to/test") [] [] false) (B "SelectPostgresTestOK_CompositeType") (TStruct [(MkVar (B "Rel") true false [(B "rel", [B "column_tests_4"])], g_test_CT4)])) = COk tt.
Proof. vm_compute. reflexivity. Qed.
Example db_SelectPostgresTestOK_CompositeTypePointer :
  db_err (Run (Analysis.MkEnv (B "path/to/test") [] [] false) (B "SelectPostgresTestOK_CompositeTypePointer") (TStruct [(MkVar (B "Rel") true false [(B "rel", [B "column_tests_4"])], (TPtr g_test_CT4))])) = COk tt.
Proof. vm_compute. reflexivity. Qed.
Example db_InsertPostgresTestOK_CompositeTypeSlice :
  db_err (Run (Analysis.MkEnv (B "path/to/test") [] [] false) (B "InsertPostgresTestOK_CompositeTypeSlice") (TStruct [(MkVar (B "Rel") true false [(B "rel", [B "column_tests_4"])], (TSlice (TPtr g_test_CT4)))])) = COk tt.
Proof. vm_compute. reflexivity. Qed.
Example db_SelectPostgresTestOK_WhereJoinedUnaryNullColumn :
  db_err (Run (Analysis.MkEnv (B "path/to/test") [] [] false) (B "SelectPostgresTestOK_WhereJoinedUnaryNullColumn") (TStruct [(MkVar (B "Columns") true false [(B "rel", [B "column_tests_1:a"])], g_test_CT1); (MkVar (B "Join") true false [], (TStruct [(MkVar (B "_") false false [(B "sql", [B "column_tests_2:b"])], g_gosql_LeftJoin)])); (MkVar (B "Where") true false [], (TStruct [(MkVar (B "_") false false [(B "sql", [B "b.col_baz isnull"])], g_gosql_Column)]))])) = COk tt.
Proof. vm_compute. reflexivity. Qed.
Example db_SelectPostgresTestBAD_NoRelation :
  db_err (Run (Analysis.MkEnv (B "path/to/test") [] [] false) (B "SelectPostgresTestBAD_NoRelation") (TStruct [(MkVar (B "Columns") true false [(B "rel", [B "norel"])], g_test_CT1)])) = CErr DRelationUnknown.
Proof. vm_compute. reflexivity. Qed.
Example db_DeletePostgresTestBAD_JoinNoRelation :
  db_err (Run (Analysis.MkEnv (B "path/to/test") [] [] false) (B "DeletePostgresTestBAD_JoinNoRelation") (TStruct [(MkVar (B "Rel") true false [(B "rel", [B "column_tests_1:a"])], g_test_CT1); (MkVar (B "Using") true false [], (TStruct [(MkVar (B "_") false false [(B "sql", [B "norel:b"])], g_gosql_Relation)])); (MkVar (B "Where") true false [], (TStruct [(MkVar (B "_") false false [(B "sql", [B "a.col_a = b.col_a"])], g_gosql_Column)]))])) = CErr DRelationUnknown.
Proof. vm_compute. reflexivity. Qed.
Example db_DeletePostgresTestBAD_JoinNoRelation2 :
  db_err (Run (Analysis.MkEnv (B "path/to/test") [] [] false) (B "DeletePostgresTestBAD_JoinNoRelation2") (TStruct [(MkVar (B "Rel") true false [(B "rel", [B "column_tests_1:a"])], g_test_CT1); (MkVar (B "Using") true false [], (TStruct [(MkVar (B "_") false false [(B "sql", [B "column_tests_2:b"])], g_gosql_Relation); (MkVar (B "_") false false [(B "sql", [B "norel:c"; B "c.b_id = b.id"])], g_gosql_LeftJoin)])); (MkVar (B "Where") true false [], (TStruct [(MkVar (B "_") false false [(B "sql", [B "a.col_a = b.col_foo"])], g_gosql_Column)]))])) = CErr DRelationUnknown.
Proof. vm_compute. reflexivity. Qed.
Example db_SelectPostgresTestBAD_JoinNoColumn :
  db_err (Run (Analysis.MkEnv (B "path/to/test") [] [] false) (B "SelectPostgresTestBAD_JoinNoColumn") (TStruct [(MkVar (B "Columns") true false [(B "rel", [B "column_tests_1:a"])], g_test_CT1); (MkVar (B "Join") true false [], (TStruct [(MkVar (B "_") false false [(B "sql", [B "column_tests_2:b"; B "b.nocol = a.nocol"])], g_gosql_LeftJoin)]))])) = CErr DColumnUnknown.
Proof. vm_compute. reflexivity. Qed.
Example db_SelectPostgresTestBAD_JoinNoColumn2 :
  db_err (Run (Analysis.MkEnv (B "path/to/test") [] [] false) (B "SelectPostgresTestBAD_JoinNoColumn2") (TStruct [(MkVar (B "Columns") true false [(B "rel", [B "column_tests_1:a"])], g_test_CT1); (MkVar (B "Join") true false [], (TStruct [(MkVar (B "_") false false [(B "sql", [B "column_tests_2:b"; B "b.col_foo = a.nocol"])], g_gosql_LeftJoin)]))])) = CErr DColumnUnknown.
Proof. vm_compute. reflexivity. Qed.
Example db_SelectPostgresTestBAD_JoinBadUnaryBoolColumn :
  db_err (Run (Analysis.MkEnv (B "path/to/test") [] [] false) (B "SelectPostgresTestBAD_JoinBadUnaryBoolColumn") (TStruct [(MkVar (B "Columns") true false [(B "rel", [B "column_tests_1:a"])], g_test_CT1); (MkVar (B "Join") true false [], (TStruct [(MkVar (B "_") false false [(B "sql", [B "column_tests_2:b"; B "b.col_foo istrue"])], g_gosql_LeftJoin)]))])) = CErr DPredicateOperandBool.
Proof. vm_compute. reflexivity. Qed.
Example db_SelectPostgresTestBAD_JoinBadUnaryNullColumn :
  db_err (Run (Analysis.MkEnv (B "path/to/test") [] [] false) (B "SelectPostgresTestBAD_JoinBadUnaryNullColumn") (TStruct [(MkVar (B "Columns") true false [(B "rel", [B "column_tests_1:a"])], g_test_CT1); (MkVar (B "Join") true false [], (TStruct [(MkVar (B "_") false false [(B "sql", [B "column_tests_2:b"; B "b.col_baz isnull"])], g_gosql_LeftJoin)]))])) = CErr DPredicateOperandNull.
Proof. vm_compute. reflexivity. Qed.
Example db_SelectPostgresTestBAD_JoinBadLiteralExpression :
  db_err (Run (Analysis.MkEnv (B "path/to/test") [] [] false) (B "SelectPostgresTestBAD_JoinBadLiteralExpression") (TStruct [(MkVar (B "Columns") true false [(B "rel", [B "column_tests_1:a"])], g_test_CT1); (MkVar (B "Join") true false [], (TStruct [(MkVar (B "_") false false [(B "sql", [B "column_tests_2:b"; B "b.col_baz = 'foo'bar "])], g_gosql_LeftJoin)]))])) = CErr DPredicateLiteralExpr.
Proof. vm_compute. reflexivity. Qed.
Example db_SelectPostgresTestBAD_JoinBadQuantifierColumnType :
  db_err (Run (Analysis.MkEnv (B "path/to/test") [] [] false) (B "SelectPostgresTestBAD_JoinBadQuantifierColumnType") (TStruct [(MkVar (B "Columns") true false [(B "rel", [B "column_tests_1:a"])], g_test_CT1); (MkVar (B "Join") true false [], (TStruct [(MkVar (B "_") false false [(B "sql", [B "column_tests_2:b"; B "b.col_foo >any a.col_a"])], g_gosql_LeftJoin)]))])) = CErr DPredicateOperandQuantifier.
Proof. vm_compute. reflexivity. Qed.
Example db_SelectPostgresTestBAD_JoinBadComparisonOperandType :
  db_err (Run (Analysis.MkEnv (B "path/to/test") [] [] false) (B "SelectPostgresTestBAD_JoinBadComparisonOperandType") (TStruct [(MkVar (B "Columns") true false [(B "rel", [B "column_tests_1:a"])], g_test_CT1); (MkVar (B "Join") true false [], (TStruct [(MkVar (B "_") false false [(B "sql", [B "column_tests_2:b"; B "b.col_baz < 'baz'"])], g_gosql_LeftJoin)]))])) = CErr DColumnComparison.
Proof. vm_compute. reflexivity. Qed.
Example db_InsertPostgresTestBAD_OnConflictNoColumn :
  db_err (Run (Analysis.MkEnv (B "path/to/test") [] [] false) (B "InsertPostgresTestBAD_OnConflictNoColumn") (TStruct [(MkVar (B "Rel") true false [(B "rel", [B "column_tests_1:c"])], g_test_CT1); (MkVar (B "OnConflict") true false [], (TStruct [(MkVar (B "_") false false [(B "sql", [B "c.col_xyz"])], g_gosql_Column)]))])) = CErr DColumnUnknown.
Proof. vm_compute. reflexivity. Qed.
Example db_InsertPostgresTestBAD_OnConflictColumnNoIndexMatch :
  db_err (Run (Analysis.MkEnv (B "path/to/test") [] [] false) (B "InsertPostgresTestBAD_OnConflictColumnNoIndexMatch") (TStruct [(MkVar (B "Rel") true false [(B "rel", [B "column_tests_1:c"])], g_test_CT1); (MkVar (B "OnConflict") true false [], (TStruct [(MkVar (B "_") false false [(B "sql", [B "c.col_a"; B "c.col_b"])], g_gosql_Column)]))])) = CErr DIndexColumnsUnknown.
Proof. vm_compute. reflexivity. Qed.
Example db_InsertPostgresTestBAD_OnConflictNoIndex :
  db_err (Run (Analysis.MkEnv (B "path/to/test") [] [] false) (B "InsertPostgresTestBAD_OnConflictNoIndex") (TStruct [(MkVar (B "Rel") true false [(B "rel", [B "column_tests_1:c"])], g_test_CT1); (MkVar (B "OnConflict") true false [], (TStruct [(MkVar (B "_") false false [(B "sql", [B "some_index"])], g_gosql_Index)]))])) = CErr DIndexUnknown.
Proof. vm_compute. reflexivity. Qed.
Example db_InsertPostgresTestBAD_OnConflictNoUniqueIndex :
  db_err (Run (Analysis.MkEnv (B "path/to/test") [] [] false) (B "InsertPostgresTestBAD_OnConflictNoUniqueIndex") (TStruct [(MkVar (B "Rel") true false [(B "rel", [B "column_tests_2:c"])], g_test_CT2); (MkVar (B "OnConflict") true false [], (TStruct [(MkVar (B "_") false false [(B "sql", [B "column_tests_2_nonunique_index"])], g_gosql_Index)]))])) = CErr DIndexNotUnique.
Proof. vm_compute. reflexivity. Qed.
Example db_InsertPostgresTestBAD_OnConflictNoConstraint :
  db_err (Run (Analysis.MkEnv (B "path/to/test") [] [] false) (B "InsertPostgresTestBAD_OnConflictNoConstraint") (TStruct [(MkVar (B "Rel") true false [(B "rel", [B "column_tests_1:c"])], g_test_CT1); (MkVar (B "OnConflict") true false [], (TStruct [(MkVar (B "_") false false [(B "sql", [B "some_constraint"])], g_gosql_Constraint)]))])) = CErr DConstraintUnknown.
Proof. vm_compute. reflexivity. Qed.
Example db_InsertPostgresTestBAD_OnConflictNoUniqueConstraint :
  db_err (Run (Analysis.MkEnv (B "path/to/test") [] [] false) (B "InsertPostgresTestBAD_OnConflictNoUniqueConstraint") (TStruct [(MkVar (B "Rel") true false [(B "rel", [B "column_tests_2:c"])], g_test_CT2); (MkVar (B "OnConflict") true false [], (TStruct [(MkVar (B "_") false false [(B "sql", [B "column_tests_2_nonunique_constraint"])], g_gosql_Constraint)]))])) = CErr DConstraintNotUnique.
Proof. vm_compute. reflexivity. Qed.
Example db_InsertPostgresTestBAD_OnConflictUpdateColumnNotFound :
  db_err (Run (Analysis.MkEnv (B "path/to/test") [] [] false) (B "InsertPostgresTestBAD_OnConflictUpdateColumnNotFound") (TStruct [(MkVar (B "Rel") true false [(B "rel", [B "column_tests_2:c"])], g_test_CT2); (MkVar (B "OnConflict") true false [], (TStruct [(MkVar (B "_") false false [(B "sql", [B "column_tests_2_unique_constraint"])], g_gosql_Constraint); (MkVar (B "_") false false [(B "sql", [B "c.col_a"; B "c.col_b"; B "c.col_xyz"])], g_gosql_Update)]))])) = CErr DColumnUnknown.
Proof. vm_compute. reflexivity. Qed.
Example db_SelectPostgresTestBAD_WhereFieldColumnNotFound :
  db_err (Run (Analysis.MkEnv (B "path/to/test") [] [] false) (B "SelectPostgresTestBAD_WhereFieldColumnNotFound") (TStruct [(MkVar (B "Rel") true false [(B "rel", [B "column_tests_1:c"])], g_test_CT1); (MkVar (B "Where") true false [], (TStruct [(MkVar (B "Id") true false [(B "sql", [B "c.id"])], (TBasic BInt false false))]))])) = CErr DColumnUnknown.
Proof. vm_compute. reflexivity. Qed.
Example db_SelectPostgresTestBAD_WhereCannotCompareTypes :
  db_err (Run (Analysis.MkEnv (B "path/to/test") [] [] false) (B "SelectPostgresTestBAD_WhereCannotCompareTypes") (TStruct [(MkVar (B "Rel") true false [(B "rel", [B "column_tests_1:c"])], g_test_CT1); (MkVar (B "Where") true false [], (TStruct [(MkVar (B "D") true false [(B "sql", [B "c.col_e ~"])], (TBasic BFloat64 false false))]))])) = CErr DColumnFieldComparison.
Proof. vm_compute. reflexivity. Qed.
Example db_SelectPostgresTestBAD_WhereColumnTypeForFuncname :
  db_err (Run (Analysis.MkEnv (B "path/to/test") [] [] false) (B "SelectPostgresTestBAD_WhereColumnTypeForFuncname") (TStruct [(MkVar (B "Rel") true false [(B "rel", [B "column_tests_1:c"])], g_test_CT1); (MkVar (B "Where") true false [], (TStruct [(MkVar (B "D") true false [(B "sql", [B "c.col_d"; B "@lower"])], (TBasic BFloat64 false false))]))])) = CErr DProcedureUnknown.
Proof. vm_compute. reflexivity. Qed.
Example db_SelectPostgresTestBAD_WhereColumnNotFound :
  db_err (Run (Analysis.MkEnv (B "path/to/test") [] [] false) (B "SelectPostgresTestBAD_WhereColumnNotFound") (TStruct [(MkVar (B "Rel") true false [(B "rel", [B "column_tests_1:c"])], g_test_CT1); (MkVar (B "Where") true false [], (TStruct [(MkVar (B "_") false false [(B "sql", [B "c.col_xyz istrue"])], g_gosql_Column)]))])) = CErr DColumnUnknown.
Proof. vm_compute. reflexivity. Qed.
Example db_SelectPostgresTestBAD_WhereColumnBadBoolOp :
  db_err (Run (Analysis.MkEnv (B "path/to/test") [] [] false) (B "SelectPostgresTestBAD_WhereColumnBadBoolOp") (TStruct [(MkVar (B "Rel") true false [(B "rel", [B "column_tests_1:c"])], g_test_CT1); (MkVar (B "Where") true false [], (TStruct [(MkVar (B "_") false false [(B "sql", [B "c.col_a istrue"])], g_gosql_Column)]))])) = CErr DPredicateOperandBool.
Proof. vm_compute. reflexivity. Qed.
Example db_SelectPostgresTestBAD_WhereColumnNotFoundRHS :
  db_err (Run (Analysis.MkEnv (B "path/to/test") [] [] false) (B "SelectPostgresTestBAD_WhereColumnNotFoundRHS") (TStruct [(MkVar (B "Rel") true false [(B "rel", [B "column_tests_1:c"])], g_test_CT1); (MkVar (B "Where") true false [], (TStruct [(MkVar (B "_") false false [(B "sql", [B "c.col_a = c.col_xyz"])], g_gosql_Column)]))])) = CErr DColumnUnknown.
Proof. vm_compute. reflexivity. Qed.
Example db_SelectPostgresTestBAD_WhereColumnBadLiteralExpression :
  db_err (Run (Analysis.MkEnv (B "path/to/test") [] [] false) (B "SelectPostgresTestBAD_WhereColumnBadLiteralExpression") (TStruct [(MkVar (B "Rel") true false [(B "rel", [B "column_tests_1:c"])], g_test_CT1); (MkVar (B "Where") true false [], (TStruct [(MkVar (B "_") false false [(B "sql", [B "c.col_a = 123abc"])], g_gosql_Column)]))])) = CErr DPredicateLiteralExpr.
Proof. vm_compute. reflexivity. Qed.
Example db_SelectPostgresTestBAD_WhereColumnBadTypeForQuantifier :
  db_err (Run (Analysis.MkEnv (B "path/to/test") [] [] false) (B "SelectPostgresTestBAD_WhereColumnBadTypeForQuantifier") (TStruct [(MkVar (B "Rel") true false [(B "rel", [B "column_tests_1:c"])], g_test_CT1); (MkVar (B "Where") true false [], (TStruct [(MkVar (B "_") false false [(B "sql", [B "c.col_a isin c.col_b"])], g_gosql_Column)]))])) = CErr DPredicateOperandArray.
Proof. vm_compute. reflexivity. Qed.
Example db_SelectPostgresTestBAD_WhereColumnBadTypeComparison :
  db_err (Run (Analysis.MkEnv (B "path/to/test") [] [] false) (B "SelectPostgresTestBAD_WhereColumnBadTypeComparison") (TStruct [(MkVar (B "Rel") true false [(B "rel", [B "column_tests_1:c"])], g_test_CT1); (MkVar (B "Where") true false [], (TStruct [(MkVar (B "_") false false [(B "sql", [B "c.col_a = c.col_b"])], g_gosql_Column)]))])) = CErr DColumnComparison.
Proof. vm_compute. reflexivity. Qed.
Example db_SelectPostgresTestBAD_WhereBetweenColumnNotFound :
  db_err (Run (Analysis.MkEnv (B "path/to/test") [] [] false) (B "SelectPostgresTestBAD_WhereBetweenColumnNotFound") (TStruct [(MkVar (B "Rel") true false [(B "rel", [B "column_tests_1:c"])], g_test_CT1); (MkVar (B "Where") true false [], (TStruct [(MkVar (B "a") false false [(B "sql", [B "c.col_xyz isbetween"])], (TStruct [(MkVar (B "_") false false [(B "sql", [B "c.col_a"; B "x"])], g_gosql_Column); (MkVar (B "_") false false [(B "sql", [B "c.col_c"; B "y"])], g_gosql_Column)]))]))])) = CErr DColumnUnknown.
Proof. vm_compute. reflexivity. Qed.
Example db_SelectPostgresTestBAD_WhereBetweenArgColumnNotFound :
  db_err (Run (Analysis.MkEnv (B "path/to/test") [] [] false) (B "SelectPostgresTestBAD_WhereBetweenArgColumnNotFound") (TStruct [(MkVar (B "Rel") true false [(B "rel", [B "column_tests_1:c"])], g_test_CT1); (MkVar (B "Where") true false [], (TStruct [(MkVar (B "a") false false [(B "sql", [B "c.col_a isbetween"])], (TStruct [(MkVar (B "_") false false [(B "sql", [B "c.col_xyz"; B "x"])], g_gosql_Column); (MkVar (B "_") false false [(B "sql", [B "c.col_c"; B "y"])], g_gosql_Column)]))]))])) = CErr DColumnUnknown.
Proof. vm_compute. reflexivity. Qed.
Example db_SelectPostgresTestBAD_WhereBetweenComparisonBadArgType :
  db_err (Run (Analysis.MkEnv (B "path/to/test") [] [] false) (B "SelectPostgresTestBAD_WhereBetweenComparisonBadArgType") (TStruct [(MkVar (B "Rel") true false [(B "rel", [B "column_tests_1:c"])], g_test_CT1); (MkVar (B "Where") true false [], (TStruct [(MkVar (B "a") false false [(B "sql", [B "c.col_a isbetween"])], (TStruct [(MkVar (B "x") false false [(B "sql", [B "x"])], (TBasic BInt false false)); (MkVar (B "y") false false [(B "sql", [B "y"])], (TBasic BBool false false))]))]))])) = CErr DBetweenFieldComparison.
Proof. vm_compute. reflexivity. Qed.
Example db_SelectPostgresTestBAD_OrderByColumnNotFound :
  db_err (Run (Analysis.MkEnv (B "path/to/test") [] [] false) (B "SelectPostgresTestBAD_OrderByColumnNotFound") (TStruct [(MkVar (B "Rel") true false [(B "rel", [B "column_tests_1:c"])], g_test_CT1); (MkVar (B "_") false false [(B "sql", [B "c.col_a"; B "c.col_xyz"])], g_gosql_OrderBy)])) = CErr DColumnUnknown.
Proof. vm_compute. reflexivity. Qed.
Example db_InsertPostgresTestBAD_DefaultColumnNotFound :
  db_err (Run (Analysis.MkEnv (B "path/to/test") [] [] false) (B "InsertPostgresTestBAD_DefaultColumnNotFound") (TStruct [(MkVar (B "Rel") true false [(B "rel", [B "column_tests_1:c"])], g_test_CT1); (MkVar (B "_") false false [(B "sql", [B "c.col_xyz"])], g_gosql_Default)])) = CErr DColumnUnknown.
Proof. vm_compute. reflexivity. Qed.
Example db_InsertPostgresTestBAD_DefaultNotSet :
  db_err (Run (Analysis.MkEnv (B "path/to/test") [] [] false) (B "InsertPostgresTestBAD_DefaultNotSet") (TStruct [(MkVar (B "Rel") true false [(B "rel", [B "column_tests_1:c"])], g_test_CT1); (MkVar (B "_") false false [(B "sql", [B "c.col_b"])], g_gosql_Default)])) = CErr DColumnDefaultUnset.
Proof. vm_compute. reflexivity. Qed.
Example db_UpdatePostgresTestBAD_ReturnColumnNotFound :
  db_err (Run (Analysis.MkEnv (B "path/to/test") [] [] false) (B "UpdatePostgresTestBAD_ReturnColumnNotFound") (TStruct [(MkVar (B "Rel") true false [(B "rel", [B "column_tests_1:c"])], g_test_CT1_bad); (MkVar (B "_") false false [(B "sql", [B "c.col_xyz"])], g_gosql_Return)])) = CErr DColumnUnknown.
Proof. vm_compute. reflexivity. Qed.
Example db_FilterPostgresTestBAD_TextSearchColumnNotFound :
  db_err (Run (Analysis.MkEnv (B "path/to/test") [] [] false) (B "FilterPostgresTestBAD_TextSearchColumnNotFound") (TStruct [(MkVar (B "_") false false [(B "rel", [B "column_tests_1:c"])], g_test_CT1); (MkVar (B "_") false false [(B "sql", [B "c.col_xyz"])], g_gosql_TextSearch); (MkVar (B "FilterMaker") true true [], g_common_FilterMaker)])) = CErr DColumnUnknown.
Proof. vm_compute. reflexivity. Qed.
Example db_FilterPostgresTestBAD_TextSearchBadColumnType :
  db_err (Run (Analysis.MkEnv (B "path/to/test") [] [] false) (B "FilterPostgresTestBAD_TextSearchBadColumnType") (TStruct [(MkVar (B "_") false false [(B "rel", [B "column_tests_1:c"])], g_test_CT1); (MkVar (B "_") false false [(B "sql", [B "c.col_b"])], g_gosql_TextSearch); (MkVar (B "FilterMaker") true true [], g_common_FilterMaker)])) = CErr DColumnTextSearchType.
Proof. vm_compute. reflexivity. Qed.
Example db_SelectPostgresTestBAD_RelationColumnNotFound :
  db_err (Run (Analysis.MkEnv (B "path/to/test") [] [] false) (B "SelectPostgresTestBAD_RelationColumnNotFound") (TStruct [(MkVar (B "Rel") true false [(B "rel", [B "column_tests_1:c"])], (TStruct [(MkVar (B "Xyz") true false [(B "sql", [B "col_xyz"])], (TBasic BString false false))]))])) = CErr DColumnUnknown.
Proof. vm_compute. reflexivity. Qed.
Example db_InsertPostgresTestBAD_RelationColumnNotFound :
  db_err (Run (Analysis.MkEnv (B "path/to/test") [] [] false) (B "InsertPostgresTestBAD_RelationColumnNotFound") (TStruct [(MkVar (B "Rel") true false [(B "rel", [B "column_tests_1:c"])], (TStruct [(MkVar (B "XYZ") true false [(B "sql", [B "col_xyz"])], (TBasic BString false false))]))])) = CErr DColumnUnknown.
Proof. vm_compute. reflexivity. Qed.
Example db_InsertPostgresTestBAD_BadFieldToColumnType :
  db_err (Run (Analysis.MkEnv (B "path/to/test") [] [] false) (B "InsertPostgresTestBAD_BadFieldToColumnType") (TStruct [(MkVar (B "Rel") true false [(B "rel", [B "column_tests_1:c"])], (TStruct [(MkVar (B "B") true false [(B "sql", [B "col_c"])], (TBasic BInt false false))]))])) = CErr DColumnFieldTypeWrite.
Proof. vm_compute. reflexivity. Qed.
Example db_InsertPostgresTestBAD_ResultColumnNotFound :
  db_err (Run (Analysis.MkEnv (B "path/to/test") [] [] false) (B "InsertPostgresTestBAD_ResultColumnNotFound") (TStruct [(MkVar (B "Rel") true false [(B "rel", [B "column_tests_1:c"])], g_test_CT1); (MkVar (B "Result") true false [], (TStruct [(MkVar (B "A") true false [(B "sql", [B "col_xyz"])], (TBasic BInt false false))]))])) = CErr DColumnUnknown.
Proof. vm_compute. reflexivity. Qed.
Example db_SelectPostgresTestBAD_NoSchema :
  db_err (Run (Analysis.MkEnv (B "path/to/test") [] [] false) (B "SelectPostgresTestBAD_NoSchema") (TStruct [(MkVar (B "Columns") true false [(B "rel", [B "noschema.column_tests_1:c"])], g_test_CT1)])) = CErr DRelationUnknown.
Proof. vm_compute. reflexivity. Qed.
Example db_SelectPostgresTestBAD_RelationColumnNotFound2 :
  db_err (Run (Analysis.MkEnv (B "path/to/test") [] [] false) (B "SelectPostgresTestBAD_RelationColumnNotFound2") (TStruct [(MkVar (B "Rel") true false [(B "rel", [B "column_tests_1:c"])], g_test_CT1_bad)])) = CErr DColumnUnknown.
Proof. vm_compute. reflexivity. Qed.
Example db_FilterPostgresTestBAD_BadFieldWriteType :
  db_err (Run (Analysis.MkEnv (B "path/to/test") [] [] false) (B "FilterPostgresTestBAD_BadFieldWriteType") (TStruct [(MkVar (B "_") false false [(B "rel", [B "test_user:c"])], (TStruct [(MkVar (B "Metadata") true false [(B "sql", [B "metadata2"])], (TFunc [] []))])); (MkVar (B "FilterMaker") true true [], g_common_FilterMaker)])) = CErr DColumnFieldTypeWrite.
Proof. vm_compute. reflexivity. Qed.
Example db_FilterPostgresTestBAD_BadFieldWriteType2 :
  db_err (Run (Analysis.MkEnv (B "path/to/test") [] [] false) (B "FilterPostgresTestBAD_BadFieldWriteType2") (TStruct [(MkVar (B "_") false false [(B "rel", [B "test_user:c"])], (TStruct [(MkVar (B "Envelope") true false [(B "sql", [B "envelope"])], (TChan (TStruct [])))])); (MkVar (B "FilterMaker") true true [], g_common_FilterMaker)])) = CErr DColumnFieldTypeWrite.
Proof. vm_compute. reflexivity. Qed.
Example db_FilterPostgresTestBAD_BadFieldWriteType3 :
  db_err (Run (Analysis.MkEnv (B "path/to/test") [] [] false) (B "FilterPostgresTestBAD_BadFieldWriteType3") (TStruct [(MkVar (B "_") false false [(B "rel", [B "pgsql_test:t"])], (TStruct [(MkVar (B "Lines") true false [(B "sql", [B "col_linearr"])], (TBasic BFloat64 false false))])); (MkVar (B "FilterMaker") true true [], g_common_FilterMaker)])) = CErr DColumnFieldTypeWrite.
Proof. vm_compute. reflexivity. Qed.
Example db_SelectPostgresTestBAD_WhereLiteralBadTypeForQuantifier :
  db_err (Run (Analysis.MkEnv (B "path/to/test") [] [] false) (B "SelectPostgresTestBAD_WhereLiteralBadTypeForQuantifier") (TStruct [(MkVar (B "Rel") true false [(B "rel", [B "column_tests_1:c"])], g_test_CT1); (MkVar (B "Where") true false [], (TStruct [(MkVar (B "_") false false [(B "sql", [B "c.col_a notin 'foo bar'"])], g_gosql_Column)]))])) = CErr DPredicateOperandArray.
Proof. vm_compute. reflexivity. Qed.
Example db_SelectPostgresTestBAD_WhereUnknownFunc :
  db_err (Run (Analysis.MkEnv (B "path/to/test") [] [] false) (B "SelectPostgresTestBAD_WhereUnknownFunc") (TStruct [(MkVar (B "Rel") true false [(B "rel", [B "column_tests_1:c"])], g_test_CT1); (MkVar (B "Where") true false [], (TStruct [(MkVar (B "D") true false [(B "sql", [B "c.col_d"; B "@unknown_func"])], (TBasic BFloat64 false false))]))])) = CErr DProcedureUnknown.
Proof. vm_compute. reflexivity. Qed.
Example db_InsertPostgresTestBAD_DefaultOption :
  db_err (Run (Analysis.MkEnv (B "path/to/test") [] [] false) (B "InsertPostgresTestBAD_DefaultOption") (TStruct [(MkVar (B "Rel") true false [(B "rel", [B "column_tests_1:c"])], (TStruct [(MkVar (B "B") true false [(B "sql", [B "col_b"; B "default"])], (TBasic BString false false))]))])) = CErr DColumnDefaultUnset.
Proof. vm_compute. reflexivity. Qed.
Example db_SelectPostgresTestBAD_ColumnTypeToBadField :
  db_err (Run (Analysis.MkEnv (B "path/to/test") [] [] false) (B "SelectPostgresTestBAD_ColumnTypeToBadField") (TStruct [(MkVar (B "Rel") true false [(B "rel", [B "column_tests_1:c"])], (TStruct [(MkVar (B "B") true false [(B "sql", [B "col_c"])], (TBasic BInt false false))]))])) = CErr DColumnFieldTypeRead.
Proof. vm_compute. reflexivity. Qed.
Example db_SelectPostgresTestBAD_ColumnTypeToBadField2 :
  db_err (Run (Analysis.MkEnv (B "path/to/test") [] [] false) (B "SelectPostgresTestBAD_ColumnTypeToBadField2") (TStruct [(MkVar (B "Rel") true false [(B "rel", [B "test_user:c"])], (TStruct [(MkVar (B "Envelope") true false [(B "sql", [B "envelope"])], (TChan (TStruct [])))]))])) = CErr DColumnFieldTypeRead.
Proof. vm_compute. reflexivity. Qed.
Example db_SelectPostgresTestBAD_ColumnTypeToBadField3 :
  db_err (Run (Analysis.MkEnv (B "path/to/test") [] [] false) (B "SelectPostgresTestBAD_ColumnTypeToBadField3") (TStruct [(MkVar (B "Rel") true false [(B "rel", [B "pgsql_test:t"])], (TStruct [(MkVar (B "Lines") true false [(B "sql", [B "col_linearr"])], (TBasic BFloat64 false false))]))])) = CErr DColumnFieldTypeRead.
Proof. vm_compute. reflexivity. Qed.
Example db_SelectPostgresTestBAD_BadBetweenColumnComparison :
  db_err (Run (Analysis.MkEnv (B "path/to/test") [] [] false) (B "SelectPostgresTestBAD_BadBetweenColumnComparison") (TStruct [(MkVar (B "Rel") true false [(B "rel", [B "column_tests_1:c"])], g_test_CT1); (MkVar (B "Where") true false [], (TStruct [(MkVar (B "a") false false [(B "sql", [B "c.col_a isbetween"])], (TStruct [(MkVar (B "_") false false [(B "sql", [B "c.col_d"; B "x"])], g_gosql_Column); (MkVar (B "_") false false [(B "sql", [B "c.col_c"; B "y"])], g_gosql_Column)]))]))])) = CErr DBetweenColumnComparison.
Proof. vm_compute. reflexivity. Qed.
Example db_InsertPostgresTestBAD_OnConflictIndexColumnsNotUnique :
  db_err (Run (Analysis.MkEnv (B "path/to/test") [] [] false) (B "InsertPostgresTestBAD_OnConflictIndexColumnsNotUnique") (TStruct [(MkVar (B "Rel") true false [(B "rel", [B "column_tests_2:c"])], g_test_CT2); (MkVar (B "OnConflict") true false [], (TStruct [(MkVar (B "_") false false [(B "sql", [B "c.col_indkey1"; B "c.col_indkey2"; B "c.col_indkey3"])], g_gosql_Column)]))])) = CErr DIndexColumnsNotUnique.
Proof. vm_compute. reflexivity. Qed.
Example an_literals :
  match Run (Analysis.MkEnv (B "path/to/test") [] [] false) (B "SelectAnalysisTestOK_typeinfo_string") (TStruct [(MkVar (B "Rel") true false [(B "rel", [B "relation_a:a"])], (TStruct [(MkVar (B "f01") false false [(B "sql", [B "c01"])], (TBasic BBool false false)); (MkVar (B "f02") false false [(B "sql", [B "c02"])], (TPtr (TBasic BBool false false))); (MkVar (B "f03") false false [(B "sql", [B "c03"])], (TSlice (TBasic BBool false false))); (MkVar (B "f04") false false [(B "sql", [B "c04"])], (TBasic BString false false)); (MkVar (B "f05") false false [(B "sql", [B "c05"])], (TPtr (TBasic BString false false))); (MkVar (B "f06") false false [(B "sql", [B "c06"])], (TSlice (TBasic BString false false))); (MkVar (B "f07") false false [(B "sql", [B "c07"])], (TSlice (TSlice (TBasic BString false false)))); (MkVar (B "f08") false false [(B "sql", [B "c08"])], (TMap (TBasic BString false false) (TBasic BString false false))); (MkVar (B "f09") false false [(B "sql", [B "c09"])], (TMap (TBasic BString false false) (TPtr (TBasic BString false false)))); (MkVar (B "f10") false false [(B "sql", [B "c10"])], (TSlice (TMap (TBasic BString false false) (TBasic BString false false)))); (MkVar (B "f11") false false [(B "sql", [B "c11"])], (TSlice (TMap (TBasic BString false false) (TPtr (TBasic BString false false))))); (MkVar (B "f12") false false [(B "sql", [B "c12"])], (TBasic BUint8 true false)); (MkVar (B "f13") false false [(B "sql", [B "c13"])], (TPtr (TBasic BUint8 true false))); (MkVar (B "f14") false false [(B "sql", [B "c14"])], (TSlice (TBasic BUint8 true false))); (MkVar (B "f15") false false [(B "sql", [B "c15"])], (TSlice (TSlice (TBasic BUint8 true false)))); (MkVar (B "f16") false false [(B "sql", [B "c16"])], (TArray 16 (TBasic BUint8 true false))); (MkVar (B "f17") false false [(B "sql", [B "c17"])], (TSlice (TArray 16 (TBasic BUint8 true false)))); (MkVar (B "f18") false false [(B "sql", [B "c18"])], (TBasic BInt32 false true)); (MkVar (B "f19") false false [(B "sql", [B "c19"])], (TPtr (TBasic BInt32 false true))); (MkVar (B "f20") false false [(B "sql", [B "c20"])], (TSlice (TBasic BInt32 false true))); (MkVar (B "f21") false false [(B "sql", [B "c21"])], (TSlice (TSlice (TBasic BInt32 false true)))); (MkVar (B "f22") false false [(B "sql", [B "c22"])], (TBasic BInt8 false false)); (MkVar (B "f23") false false [(B "sql", [B "c23"])], (TPtr (TBasic BInt8 false false))); (MkVar (B "f24") false false [(B "sql", [B "c24"])], (TSlice (TBasic BInt8 false false))); (MkVar (B "f25") false false [(B "sql", [B "c25"])], (TSlice (TSlice (TBasic BInt8 false false)))); (MkVar (B "f26") false false [(B "sql", [B "c26"])], (TBasic BInt16 false false)); (MkVar (B "f27") false false [(B "sql", [B "c27"])], (TPtr (TBasic BInt16 false false))); (MkVar (B "f28") false false [(B "sql", [B "c28"])], (TSlice (TBasic BInt16 false false))); (MkVar (B "f29") false false [(B "sql", [B "c29"])], (TSlice (TSlice (TBasic BInt16 false false)))); (MkVar (B "f30") false false [(B "sql", [B "c30"])], (TBasic BInt32 false false)); (MkVar (B "f31") false false [(B "sql", [B "c31"])], (TPtr (TBasic BInt32 false false))); (MkVar (B "f32") false false [(B "sql", [B "c32"])], (TSlice (TBasic BInt32 false false))); (MkVar (B "f33") false false [(B "sql", [B "c33"])], (TArray 2 (TBasic BInt32 false false))); (MkVar (B "f34") false false [(B "sql", [B "c34"])], (TSlice (TArray 2 (TBasic BInt32 false false)))); (MkVar (B "f35") false false [(B "sql", [B "c35"])], (TBasic BInt64 false false)); (MkVar (B "f36") false false [(B "sql", [B "c36"])], (TPtr (TBasic BInt64 false false))); (MkVar (B "f37") false false [(B "sql", [B "c37"])], (TSlice (TBasic BInt64 false false))); (MkVar (B "f38") false false [(B "sql", [B "c38"])], (TArray 2 (TBasic BInt64 false false))); (MkVar (B "f39") false false [(B "sql", [B "c39"])], (TSlice (TArray 2 (TBasic BInt64 false false)))); (MkVar (B "f40") false false [(B "sql", [B "c40"])], (TBasic BFloat32 false false)); (MkVar (B "f41") false false [(B "sql", [B "c41"])], (TPtr (TBasic BFloat32 false false))); (MkVar (B "f42") false false [(B "sql", [B "c42"])], (TSlice (TBasic BFloat32 false false))); (MkVar (B "f43") false false [(B "sql", [B "c43"])], (TBasic BFloat64 false false)); (MkVar (B "f44") false false [(B "sql", [B "c44"])], (TPtr (TBasic BFloat64 false false))); (MkVar (B "f45") false false [(B "sql", [B "c45"])], (TSlice (TBasic BFloat64 false false))); (MkVar (B "f46") false false [(B "sql", [B "c46"])], (TArray 2 (TBasic BFloat64 false false))); (MkVar (B "f47") false false [(B "sql", [B "c47"])], (TSlice (TArray 2 (TBasic BFloat64 false false)))); (MkVar (B "f48") false false [(B "sql", [B "c48"])], (TSlice (TSlice (TArray 2 (TBasic BFloat64 false false))))); (MkVar (B "f49") false false [(B "sql", [B "c49"])], (TArray 2 (TArray 2 (TBasic BFloat64 false false)))); (MkVar (B "f50") false false [(B "sql", [B "c50"])], (TSlice (TArray 2 (TArray 2 (TBasic BFloat64 false false))))); (MkVar (B "f51") false false [(B "sql", [B "c51"])], (TArray 3 (TBasic BFloat64 false false))); (MkVar (B "f52") false false [(B "sql", [B "c52"])], (TSlice (TArray 3 (TBasic BFloat64 false false)))); (MkVar (B "f53") false false [(B "sql", [B "c53"])], (TPtr g_net_IPNet)); (MkVar (B "f54") false false [(B "sql", [B "c54"])], (TSlice (TPtr g_net_IPNet))); (MkVar (B "f55") false false [(B "sql", [B "c55"])], g_time_Time); (MkVar (B "f56") false false [(B "sql", [B "c56"])], (TPtr g_time_Time)); (MkVar (B "f57") false false [(B "sql", [B "c57"])], (TSlice g_time_Time)); (MkVar (B "f58") false false [(B "sql", [B "c58"])], (TSlice (TPtr g_time_Time))); (MkVar (B "f59") false false [(B "sql", [B "c59"])], (TArray 2 g_time_Time)); (MkVar (B "f60") false false [(B "sql", [B "c60"])], (TSlice (TArray 2 g_time_Time))); (MkVar (B "f61") false false [(B "sql", [B "c61"])], g_net_HardwareAddr); (MkVar (B "f62") false false [(B "sql", [B "c62"])], (TSlice g_net_HardwareAddr)); (MkVar (B "f63") false false [(B "sql", [B "c63"])], g_big_Int); (MkVar (B "f64") false false [(B "sql", [B "c64"])], (TPtr g_big_Int)); (MkVar (B "f65") false false [(B "sql", [B "c65"])], (TSlice g_big_Int)); (MkVar (B "f66") false false [(B "sql", [B "c66"])], (TSlice (TPtr g_big_Int))); (MkVar (B "f67") false false [(B "sql", [B "c67"])], (TArray 2 g_big_Int)); (MkVar (B "f68") false false [(B "sql", [B "c68"])], (TArray 2 (TPtr g_big_Int))); (MkVar (B "f69") false false [(B "sql", [B "c69"])], (TSlice (TArray 2 (TPtr g_big_Int)))); (MkVar (B "f70") false false [(B "sql", [B "c70"])], (TMap (TBasic BString false false) g_sql_NullString)); (MkVar (B "f71") false false [(B "sql", [B "c71"])], (TSlice (TMap (TBasic BString false false) g_sql_NullString))); (MkVar (B "f72") false false [(B "sql", [B "c72"])], g_json_RawMessage); (MkVar (B "f73") false false [(B "sql", [B "c73"])], (TSlice g_json_RawMessage))]))]) with AOk (inl q) => map (fun f => literal true (fi_type f)) (rt_fields (q_rtype q)) | _ => [] end = [B "bool"; B "bool"; B "[]bool"; B "string"; B "string"; B "[]string"; B "[][]string"; B "map[string]string"; B "map[string]*string"; B "[]map[string]string"; B "[]map[string]*string"; B "byte"; B "byte"; B "[]byte"; B "[][]byte"; B "[16]byte"; B "[][16]byte"; B "rune"; B "rune"; B "[]rune"; B "[][]rune"; B "int8"; B "int8"; B "[]int8"; B "[][]int8"; B "int16"; B "int16"; B "[]int16"; B "[][]int16"; B "int32"; B "int32"; B "[]int32"; B "[2]int32"; B "[][2]int32"; B "int64"; B "int64"; B "[]int64"; B "[2]int64"; B "[][2]int64"; B "float32"; B "float32"; B "[]float32"; B "float64"; B "float64"; B "[]float64"; B "[2]float64"; B "[][2]float64"; B "[][][2]float64"; B "[2][2]float64"; B "[][2][2]float64"; B "[3]float64"; B "[][3]float64"; B "net.IPNet"; B "[]*net.IPNet"; B "time.Time"; B "time.Time"; B "[]time.Time"; B "[]*time.Time"; B "[2]time.Time"; B "[][2]time.Time"; B "net.HardwareAddr"; B "[]net.HardwareAddr"; B "big.Int"; B "big.Int"; B "[]big.Int"; B "[]*big.Int"; B "[2]big.Int"; B "[2]*big.Int"; B "[][2]*big.Int"; B "map[string]sql.NullString"; B "[]map[string]sql.NullString"; B "json.RawMessage"; B "[]json.RawMessage"].
Proof. vm_compute. reflexivity. Qed.
