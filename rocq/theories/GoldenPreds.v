(** The predicates on types run on the cases of
    /repo/internal/typesutil/predicates_test.go (all but IsTime and
    IsDirective).  The file was written by a script from the test and
    its test data. *)
From Coq Require Import Ascii String ZArith NArith Bool List.
From Verif Require Import GoBase TypePreds.
Import ListNotations.
Local Open Scope string_scope.
Local Open Scope list_scope.

Example golden_IsErrorTest1 : IsErrorType (YBasic KString) = false.
Proof. vm_compute. reflexivity. Qed.
Example golden_IsErrorTest2 : IsErrorType (YSlice (YName (None, B "error"))) = false.
Proof. vm_compute. reflexivity. Qed.
Example golden_IsErrorTest3 : IsErrorType (YName (None, B "error")) = true.
Proof. vm_compute. reflexivity. Qed.
Example golden_IsStringTest1 : IsString (YName (None, B "error")) = false.
Proof. vm_compute. reflexivity. Qed.
Example golden_IsStringTest2 : IsString (YSlice (YBasic KString)) = false.
Proof. vm_compute. reflexivity. Qed.
Example golden_IsStringTest3 : IsString (YBasic KString) = true.
Proof. vm_compute. reflexivity. Qed.
Example golden_IsEmptyInterfaceTest1 : IsEmptyInterface (YBasic KString) = false.
Proof. vm_compute. reflexivity. Qed.
Example golden_IsEmptyInterfaceTest2 : IsEmptyInterface (YSlice (YIface [])) = false.
Proof. vm_compute. reflexivity. Qed.
Example golden_IsEmptyInterfaceTest3 : IsEmptyInterface (YIface [(B "M", ([], [], false))]) = false.
Proof. vm_compute. reflexivity. Qed.
Example golden_IsEmptyInterfaceTest4 : IsEmptyInterface (YIface []) = true.
Proof. vm_compute. reflexivity. Qed.
Example golden_IsSqlDriverValueTest1 : IsSqlDriverValue (YBasic KString) = false.
Proof. vm_compute. reflexivity. Qed.
Example golden_IsSqlDriverValueTest2 : IsSqlDriverValue (YSlice (YName (Some (B "database/sql/driver"), B "Value"))) = false.
Proof. vm_compute. reflexivity. Qed.
Example golden_IsSqlDriverValueTest3 : IsSqlDriverValue (YName (Some (B "database/sql/driver"), B "Value")) = true.
Proof. vm_compute. reflexivity. Qed.
Example golden_ImplementsScannerTest1 : ImplementsScanner (MkDecl (YStruct []) []) = Ok false.
Proof. vm_compute. reflexivity. Qed.
Example golden_ImplementsScannerTest2 : ImplementsScanner (MkDecl (YStruct []) [(B "Scan", ([], [], false))]) = Ok false.
Proof. vm_compute. reflexivity. Qed.
Example golden_ImplementsScannerTest3 : ImplementsScanner (MkDecl (YStruct []) [(B "Scan", ([YIface []], [YName (None, B "error"); YName (None, B "error")], false))]) = Ok false.
Proof. vm_compute. reflexivity. Qed.
Example golden_ImplementsScannerTest4 : ImplementsScanner (MkDecl (YStruct []) [(B "Scan", ([YSlice (YIface [])], [YName (None, B "error")], true))]) = Ok false.
Proof. vm_compute. reflexivity. Qed.
Example golden_ImplementsScannerTest5 : ImplementsScanner (MkDecl (YStruct []) [(B "Scan", ([YIface []], [YName (None, B "error")], false))]) = Ok true.
Proof. vm_compute. reflexivity. Qed.
Example golden_ImplementsValuerTest1 : ImplementsValuer (MkDecl (YStruct []) []) = Ok false.
Proof. vm_compute. reflexivity. Qed.
Example golden_ImplementsValuerTest2 : ImplementsValuer (MkDecl (YStruct []) [(B "Value", ([], [], false))]) = Ok false.
Proof. vm_compute. reflexivity. Qed.
Example golden_ImplementsValuerTest3 : ImplementsValuer (MkDecl (YStruct []) [(B "Value", ([YIface []], [YName (Some (B "database/sql/driver"), B "Value"); YName (None, B "error")], false))]) = Ok false.
Proof. vm_compute. reflexivity. Qed.
Example golden_ImplementsValuerTest4 : ImplementsValuer (MkDecl (YStruct []) [(B "Value", ([], [YName (Some (B "database/sql/driver"), B "Value")], false))]) = Ok false.
Proof. vm_compute. reflexivity. Qed.
Example golden_ImplementsValuerTest5 : ImplementsValuer (MkDecl (YStruct []) [(B "Value", ([], [YName (None, B "error")], false))]) = Ok false.
Proof. vm_compute. reflexivity. Qed.
Example golden_ImplementsValuerTest6 : ImplementsValuer (MkDecl (YStruct []) [(B "Value", ([], [YName (None, B "error"); YName (Some (B "database/sql/driver"), B "Value")], false))]) = Ok false.
Proof. vm_compute. reflexivity. Qed.
Example golden_ImplementsValuerTest7 : ImplementsValuer (MkDecl (YStruct []) [(B "Value", ([], [YName (Some (B "database/sql/driver"), B "Value"); YName (None, B "error")], false))]) = Ok true.
Proof. vm_compute. reflexivity. Qed.
Example golden_ImplementsAfterScannerTest1 : ImplementsAfterScanner (MkDecl (YStruct []) []) = Ok false.
Proof. vm_compute. reflexivity. Qed.
Example golden_ImplementsAfterScannerTest2 : ImplementsAfterScanner (MkDecl (YStruct []) [(B "AfterScan", ([], [YName (None, B "error")], false))]) = Ok false.
Proof. vm_compute. reflexivity. Qed.
Example golden_ImplementsAfterScannerTest3 : ImplementsAfterScanner (MkDecl (YStruct []) [(B "AfterScan", ([YIface []], [], false))]) = Ok false.
Proof. vm_compute. reflexivity. Qed.
Example golden_ImplementsAfterScannerTest4 : ImplementsAfterScanner (MkDecl (YStruct []) [(B "AfterScan", ([], [], false))]) = Ok true.
Proof. vm_compute. reflexivity. Qed.
Example golden_ImplementsErrorHandlerTest1 : ImplementsErrorHandler (MkDecl (YStruct []) []) = Ok false.
Proof. vm_compute. reflexivity. Qed.
Example golden_ImplementsErrorHandlerTest2 : ImplementsErrorHandler (MkDecl (YStruct []) [(B "HandleError", ([], [YName (None, B "error")], false))]) = Ok false.
Proof. vm_compute. reflexivity. Qed.
Example golden_ImplementsErrorHandlerTest3 : ImplementsErrorHandler (MkDecl (YStruct []) [(B "HandleError", ([YName (None, B "error")], [], false))]) = Ok false.
Proof. vm_compute. reflexivity. Qed.
Example golden_ImplementsErrorHandlerTest4 : ImplementsErrorHandler (MkDecl (YStruct []) [(B "HandleError", ([YIface []], [YName (None, B "error")], false))]) = Ok false.
Proof. vm_compute. reflexivity. Qed.
Example golden_ImplementsErrorHandlerTest5 : ImplementsErrorHandler (MkDecl (YStruct []) [(B "HandleError", ([YName (None, B "error")], [YIface []], false))]) = Ok false.
Proof. vm_compute. reflexivity. Qed.
Example golden_ImplementsErrorHandlerTest6 : ImplementsErrorHandler (MkDecl (YStruct []) [(B "HandleError", ([YName (None, B "error")], [YName (None, B "error")], false))]) = Ok true.
Proof. vm_compute. reflexivity. Qed.
Example golden_ImplementsErrorInfoHandlerTest1 : ImplementsErrorInfoHandler (MkDecl (YStruct []) []) = Ok false.
Proof. vm_compute. reflexivity. Qed.
Example golden_ImplementsErrorInfoHandlerTest2 : ImplementsErrorInfoHandler (MkDecl (YStruct []) [(B "HandleErrorInfo", ([], [YName (None, B "error")], false))]) = Ok false.
Proof. vm_compute. reflexivity. Qed.
Example golden_ImplementsErrorInfoHandlerTest3 : ImplementsErrorInfoHandler (MkDecl (YStruct []) [(B "HandleErrorInfo", ([YName (None, B "error")], [], false))]) = Ok false.
Proof. vm_compute. reflexivity. Qed.
Example golden_ImplementsErrorInfoHandlerTest4 : ImplementsErrorInfoHandler (MkDecl (YStruct []) [(B "HandleErrorInfo", ([YIface []], [YName (None, B "error")], false))]) = Ok false.
Proof. vm_compute. reflexivity. Qed.
Example golden_ImplementsErrorInfoHandlerTest5 : ImplementsErrorInfoHandler (MkDecl (YStruct []) [(B "HandleErrorInfo", ([YName (None, B "error")], [YIface []], false))]) = Ok false.
Proof. vm_compute. reflexivity. Qed.
Example golden_ImplementsErrorInfoHandlerTest6 : ImplementsErrorInfoHandler (MkDecl (YStruct []) [(B "HandleErrorInfo", ([YName (None, B "error")], [YName (None, B "error")], false))]) = Ok false.
Proof. vm_compute. reflexivity. Qed.
Example golden_ImplementsErrorInfoHandlerTest7 : ImplementsErrorInfoHandler (MkDecl (YStruct []) [(B "HandleErrorInfo", ([YPtr (YName (Some (B "github.com/frk/gosql"), B "ErrorInfo"))], [YName (None, B "error")], false))]) = Ok true.
Proof. vm_compute. reflexivity. Qed.
Example golden_ImplementsJSONMarshalerTest1 : ImplementsJSONMarshaler (MkDecl (YStruct []) []) = Ok false.
Proof. vm_compute. reflexivity. Qed.
Example golden_ImplementsJSONMarshalerTest2 : ImplementsJSONMarshaler (MkDecl (YStruct []) [(B "UnmarshalJSON", ([YSlice (YBasic KUint8)], [YName (None, B "error")], false))]) = Ok false.
Proof. vm_compute. reflexivity. Qed.
Example golden_ImplementsJSONMarshalerTest3 : ImplementsJSONMarshaler (MkDecl (YStruct []) [(B "MarshalJSON", ([], [YSlice (YBasic KUint8); YName (None, B "error")], false))]) = Ok true.
Proof. vm_compute. reflexivity. Qed.
Example golden_ImplementsJSONUnmarshalerTest1 : ImplementsJSONUnmarshaler (MkDecl (YStruct []) []) = Ok false.
Proof. vm_compute. reflexivity. Qed.
Example golden_ImplementsJSONUnmarshalerTest2 : ImplementsJSONUnmarshaler (MkDecl (YStruct []) [(B "MarshalJSON", ([], [YSlice (YBasic KUint8); YName (None, B "error")], false))]) = Ok false.
Proof. vm_compute. reflexivity. Qed.
Example golden_ImplementsJSONUnmarshalerTest3 : ImplementsJSONUnmarshaler (MkDecl (YStruct []) [(B "UnmarshalJSON", ([YSlice (YBasic KUint8)], [YName (None, B "error")], false))]) = Ok true.
Proof. vm_compute. reflexivity. Qed.
Example golden_ImplementsXMLMarshalerTest1 : ImplementsXMLMarshaler (MkDecl (YStruct []) []) = Ok false.
Proof. vm_compute. reflexivity. Qed.
Example golden_ImplementsXMLMarshalerTest2 : ImplementsXMLMarshaler (MkDecl (YStruct []) [(B "UnmarshalXML", ([YPtr (YName (Some (B "encoding/xml"), B "Decoder")); YName (Some (B "encoding/xml"), B "StartElement")], [YName (None, B "error")], false))]) = Ok false.
Proof. vm_compute. reflexivity. Qed.
Example golden_ImplementsXMLMarshalerTest3 : ImplementsXMLMarshaler (MkDecl (YStruct []) [(B "MarshalXML", ([YPtr (YName (Some (B "encoding/xml"), B "Encoder")); YName (Some (B "encoding/xml"), B "StartElement")], [YName (None, B "error")], false))]) = Ok true.
Proof. vm_compute. reflexivity. Qed.
Example golden_ImplementsXMLUnmarshalerTest1 : ImplementsXMLUnmarshaler (MkDecl (YStruct []) []) = Ok false.
Proof. vm_compute. reflexivity. Qed.
Example golden_ImplementsXMLUnmarshalerTest2 : ImplementsXMLUnmarshaler (MkDecl (YStruct []) [(B "MarshalXML", ([YPtr (YName (Some (B "encoding/xml"), B "Encoder")); YName (Some (B "encoding/xml"), B "StartElement")], [YName (None, B "error")], false))]) = Ok false.
Proof. vm_compute. reflexivity. Qed.
Example golden_ImplementsXMLUnmarshalerTest3 : ImplementsXMLUnmarshaler (MkDecl (YStruct []) [(B "UnmarshalXML", ([YPtr (YName (Some (B "encoding/xml"), B "Decoder")); YName (Some (B "encoding/xml"), B "StartElement")], [YName (None, B "error")], false))]) = Ok true.
Proof. vm_compute. reflexivity. Qed.
Example golden_IsContextTest1 : IsContextType (YBasic KString) = false.
Proof. vm_compute. reflexivity. Qed.
Example golden_IsContextTest2 : IsContextType (YSlice (YName (None, B "error"))) = false.
Proof. vm_compute. reflexivity. Qed.
Example golden_IsContextTest3 : IsContextType (YName (Some (B "context"), B "Context")) = true.
Proof. vm_compute. reflexivity. Qed.
Example golden_IsStringMapTest1 : IsStringMap (YBasic KString) = false.
Proof. vm_compute. reflexivity. Qed.
Example golden_IsStringMapTest2 : IsStringMap (YMap (YBasic (KBasicOther 1)) (YBasic KString)) = false.
Proof. vm_compute. reflexivity. Qed.
Example golden_IsStringMapTest3 : IsStringMap (YMap (YBasic KString) (YBasic (KBasicOther 1))) = false.
Proof. vm_compute. reflexivity. Qed.
Example golden_IsStringMapTest4 : IsStringMap (YSlice (YMap (YBasic KString) (YBasic KString))) = false.
Proof. vm_compute. reflexivity. Qed.
Example golden_IsStringMapTest5 : IsStringMap (YMap (YBasic KString) (YBasic KString)) = true.
Proof. vm_compute. reflexivity. Qed.
Example golden_IsNiladicFuncTest1 : IsNiladicFunc (YFunc [] [YName (None, B "error")] false) = false.
Proof. vm_compute. reflexivity. Qed.
Example golden_IsNiladicFuncTest2 : IsNiladicFunc (YFunc [YBasic (KBasicOther 1)] [] false) = false.
Proof. vm_compute. reflexivity. Qed.
Example golden_IsNiladicFuncTest3 : IsNiladicFunc (YFunc [YSlice (YIface [])] [] true) = false.
Proof. vm_compute. reflexivity. Qed.
Example golden_IsNiladicFuncTest4 : IsNiladicFunc (YSlice (YFunc [] [] false)) = false.
Proof. vm_compute. reflexivity. Qed.
Example golden_IsNiladicFuncTest5 : IsNiladicFunc (YFunc [] [] false) = true.
Proof. vm_compute. reflexivity. Qed.
Example golden_ImplementsGosqlConnTest1 : ImplementsGosqlConn (MkDecl (YStruct []) [(B "Exec", ([YBasic KString; YSlice (YIface [])], [YName (Some (B "database/sql"), B "Result"); YName (None, B "error")], true)); (B "ExecContext", ([YName (Some (B "context"), B "Context"); YBasic KString; YSlice (YIface [])], [YName (Some (B "database/sql"), B "Result"); YName (None, B "error")], true)); (B "Query", ([YBasic KString; YSlice (YIface [])], [YPtr (YName (Some (B "database/sql"), B "Rows")); YName (None, B "error")], true)); (B "QueryContext", ([YName (Some (B "context"), B "Context"); YBasic KString; YSlice (YIface [])], [YPtr (YName (Some (B "database/sql"), B "Rows")); YName (None, B "error")], true)); (B "QueryRow", ([YBasic KString; YSlice (YIface [])], [YPtr (YName (Some (B "database/sql"), B "Row"))], true)); (B "QueryRowContext", ([YName (Some (B "context"), B "Context"); YBasic KString; YSlice (YIface [])], [YPtr (YName (Some (B "database/sql"), B "Row"))], true))]) = Ok true.
Proof. vm_compute. reflexivity. Qed.
