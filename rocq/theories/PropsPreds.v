(** C101: the types that are taken for implementations of the interfaces known to
    gosql are those that declare the methods themselves, with the types spelled out. *)
From Coq Require Import Ascii String ZArith NArith Bool List Lia.
From Verif Require Import GoBase TypePreds GoTypeSpec.
From Verif Require Import PredsFinal.
Import ListNotations.
Local Open Scope string_scope.
Local Open Scope list_scope.

(** ** Lists of names *)

(** ** Aliases *)

(** ** Tests of types *)

(** ** Methods at depth zero *)

(** ** Signatures *)

(** ** Tests of several methods *)

(** ** The theorems *)

Theorem C101_column : forall w n d, w n = Some d -> legal_decl d ->
  (ImplementsScanner d = Ok true <-> directly w (YName n) Scanner) /\
  (ImplementsValuer d = Ok true <-> directly w (YName n) Valuer) /\
  (ImplementsJSONMarshaler d = Ok true <-> directly w (YName n) JSONMarshaler) /\
  (ImplementsJSONUnmarshaler d = Ok true <->
     directly w (YName n) JSONUnmarshaler \/ directly w (YName n) [(B "UnmarshalJSON", ([bytes_t], [error_t], true))]) /\
  (ImplementsXMLMarshaler d = Ok true <-> directly w (YName n) XMLMarshaler) /\
  (ImplementsXMLUnmarshaler d = Ok true <-> directly w (YName n) XMLUnmarshaler).
Proof. exact C101_column_proof. Qed.
Print Assumptions C101_column.

Theorem C101_handlers : forall w n d, w n = Some d -> legal_decl d -> no_interface d ->
  (ImplementsAfterScanner d = Ok true <-> directly w (YName n) AfterScanner) /\
  (ImplementsErrorHandler d = Ok true <-> directly w (YName n) ErrorHandler) /\
  (ImplementsErrorInfoHandler d = Ok true <->
     exists p, vendored "github.com/frk/gosql" p /\ directly w (YName n) (ErrorInfoHandler p)).
Proof. exact C101_handlers_proof. Qed.
Print Assumptions C101_handlers.

Theorem C101_conn : forall w n d, w n = Some d -> legal_decl d ->
  (ImplementsGosqlConn d = Ok true <-> directly w (YName n) Conn).
Proof. exact C101_conn_proof. Qed.
Print Assumptions C101_conn.

Theorem C101_constructor : forall w n d, w n = Some d -> legal_decl d ->
  (ImplementsGosqlFilterConstructor d = Ok true <->
   exists p, vendored "github.com/frk/gosql/filter" p /\ directly w (YName n) (FilterConstructor ++ InitV2 p)).
Proof. exact C101_constructor_proof. Qed.
Print Assumptions C101_constructor.

Theorem C101_sound : forall w t i, directly w t i -> implements w t i.
Proof. exact C101_sound_proof. Qed.
Print Assumptions C101_sound.

(** ** What is missed *)

Theorem C101_promoted_refuted : exists w n d, w n = Some d /\ legal_decl d /\
  implements w (YName n) Scanner /\ ImplementsScanner d = Ok false /\
  implements w (YName n) Valuer /\ ImplementsValuer d = Ok false /\
  implements w (YName n) AfterScanner /\ ImplementsAfterScanner d = Ok false /\
  implements w (YName n) Conn /\ ImplementsGosqlConn d = Ok false.
Proof. exact C101_promoted_refuted_proof. Qed.
Print Assumptions C101_promoted_refuted.

Theorem C101_alias_refuted : exists w n d, w n = Some d /\ legal_decl d /\
  implements w (YName n) Scanner /\ ImplementsScanner d = Ok false.
Proof. exact C101_alias_refuted_proof. Qed.
Print Assumptions C101_alias_refuted.

Theorem C101_interface : forall (w : world) n ms d, w n = Some d -> legal_decl d -> d_under d = YIface ms ->
  ImplementsAfterScanner d = Ok false /\ ImplementsErrorHandler d = Ok false /\ ImplementsErrorInfoHandler d = Ok false.
Proof. exact C101_interface_proof. Qed.
Print Assumptions C101_interface.

Theorem C101_interface_refuted : exists w d, w (at_path "github.com/frk/gosql" "ErrorHandler") = Some d /\ legal_decl d /\
  implements w (named_t "github.com/frk/gosql" "ErrorHandler") ErrorHandler /\ ImplementsErrorHandler d = Ok false.
Proof. exact C101_interface_refuted_proof. Qed.
Print Assumptions C101_interface_refuted.

Theorem C101_constructor_refuted : exists w d, w (at_path "github.com/frk/gosql" "FilterConstructor") = Some d /\ legal_decl d /\
  implements w (named_t "github.com/frk/gosql" "FilterConstructor") FilterConstructor /\ ImplementsGosqlFilterConstructor d = Ok false.
Proof. exact C101_constructor_refuted_proof. Qed.
Print Assumptions C101_constructor_refuted.

(** ** What is taken wrongly *)

Theorem C101_variadic_refuted : exists w n d, w n = Some d /\ legal_decl d /\
  ImplementsJSONUnmarshaler d = Ok true /\ ~ implements w (YName n) JSONUnmarshaler.
Proof. exact C101_variadic_refuted_proof. Qed.
Print Assumptions C101_variadic_refuted.

Theorem C101_path_refuted : exists w n d, w n = Some d /\ legal_decl d /\ ImplementsErrorInfoHandler d = Ok true /\
  forall p, p = B "github.com/frk/gosql" \/ (exists pre, p = pre ++ B "/vendor/github.com/frk/gosql") -> ~ implements w (YName n) (ErrorInfoHandler p).
Proof. exact C101_path_refuted_proof. Qed.
Print Assumptions C101_path_refuted.

(** ** Panics *)

Theorem C101_total : forall w n d, w n = Some d -> legal_decl d ->
  (forall m s, In m [B "MarshalXML"; B "UnmarshalXML"; B "HandleErrorInfo"; B "InitV2"] ->
     entries w (YName n) 0 m = [EMethod s] -> forallb packaged (sparams s) = true) ->
  forall f, In f [ImplementsScanner; ImplementsValuer; ImplementsJSONMarshaler; ImplementsJSONUnmarshaler; ImplementsXMLMarshaler;
    ImplementsXMLUnmarshaler; ImplementsAfterScanner; ImplementsErrorHandler; ImplementsErrorInfoHandler; ImplementsGosqlConn;
    ImplementsGosqlFilterConstructor] -> exists b, f d = Ok b.
Proof. exact C101_total_proof. Qed.
Print Assumptions C101_total.

Theorem C101_panic_refuted : exists d1 d2 d3 d4, legal_decl d1 /\ legal_decl d2 /\ legal_decl d3 /\ legal_decl d4 /\
  ImplementsXMLMarshaler d1 = Panic /\ ImplementsXMLUnmarshaler d2 = Panic /\
  ImplementsErrorInfoHandler d3 = Panic /\ ImplementsGosqlFilterConstructor d4 = Panic.
Proof. exact C101_panic_refuted_proof. Qed.
Print Assumptions C101_panic_refuted.

(** ** Examples *)
Example ex_null_string : ex_world (at_path "database/sql" "NullString") = Some null_string /\ legal_decl null_string /\
  ImplementsScanner null_string = Ok true /\ ImplementsValuer null_string = Ok true /\ ImplementsJSONMarshaler null_string = Ok false /\
  directly ex_world (named_t "database/sql" "NullString") Scanner.
Proof.
  assert (L : legal_decl null_string) by legal_tac.
  repeat match goal with |- _ /\ _ => split end; try reflexivity; [exact L|]. apply (column_main ex_world (at_path "database/sql" "NullString") null_string eq_refl L). reflexivity.
Qed.

Example ex_db : legal_decl sql_db /\ ImplementsGosqlConn sql_db = Ok true /\
  ImplementsGosqlConn (MkDecl (YStruct []) (tl Conn)) = Ok false.
Proof. split; [legal_tac|split; reflexivity]. Qed.

Example ex_after : legal_decl after /\ no_interface after /\ ImplementsAfterScanner after = Ok true.
Proof. split; [legal_tac|]. split; [intros ms H; discriminate H|reflexivity]. Qed.

(** github.com/frk/gosql/filter.Constructor: its methods in the order of the source *)
Example ex_constructor : ImplementsGosqlFilterConstructor (MkDecl (YStruct [])
  ((B "ToSQL", ([YBasic (KBasicOther 2)], [string_t; anys], false)) :: FilterConstructor ++ InitV2 (B "v/vendor/github.com/frk/gosql/filter"))) = Ok true.
Proof. reflexivity. Qed.

Example ex_any : ImplementsScanner (MkDecl (YStruct []) [(B "Scan", ([YAlias (None, B "any") any_t], [error_t], false))]) = Ok true.
Proof. reflexivity. Qed.

Example ex_total : forall m s, In m [B "MarshalXML"; B "UnmarshalXML"; B "HandleErrorInfo"; B "InitV2"] ->
  entries ex_world (named_t "database/sql" "NullString") 0 m = [EMethod s] -> forallb packaged (sparams s) = true.
Proof. intros m s I E. cbn [In] in I. repeat (destruct I as [<-|I]; [vm_compute in E; discriminate E|]). contradiction. Qed.
