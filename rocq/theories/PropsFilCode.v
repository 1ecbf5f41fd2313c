(** C97: the code generated for filter types: the map of columns, the methods of
    the fields, And, Or and Init, run on the model of the constructor. *)
From Coq Require Import Ascii String ZArith NArith Bool List Lia.
From Verif Require Filter.
From Verif Require Import GoBase Strconv AParse Analysis AnalysisSpec QuerySpec AnalysisProofs AnalysisRoles QueryFinal PropsQuery Oids Compat Gen GenSpec Check ConvertProofs CheckSpec CheckProofs CheckEx ColsFinal ConflFinal FilterCode FilterCodeSpec.
From Verif Require Import FilCodeFinal.
Import ListNotations.
Local Open Scope string_scope.
Local Open Scope list_scope.

(** ** Lists *)

(** ** Names *)

(** ** The map of columns *)

(** ** Calls *)

(** ** The map after Init *)

(** ** C97 *)
(** An analysed filter type that the checker accepts has its table and its
    constructor, and code is generated for it. *)
Theorem C97_built : forall q convs typ e fs s db t, analyzeFilterStruct e fs = AOk s -> check_filter db s = COk t ->
  exists rf tr ctor v2 code, made q convs typ db s t rf tr ctor v2 code.
Proof. exact C97_built_proof. Qed.
Print Assumptions C97_built.

Example C97_built_ex : exists fs t, analyzeFilterStruct ex_env fs = AOk ex_filters /\ check_filter db_ex ex_filters = COk t.
Proof.
  exists [(ex_var "_" (ex_tag "rel" ["user:u"]), TNamed (ex_name "User") (TStruct [(ex_var "Id" (ex_tag "sql" ["id"]), ex_int); (ex_var "None" (ex_tag "sql" ["none"]), ex_int);
      (ex_var "Email" (ex_tag "sql" ["email"; "xf"]), ex_str); (ex_var "Login" (ex_tag "sql" ["login"]), ex_str)]));
   (ex_var "_" (ex_tag "sql" ["u.ts"]), ex_dir "TextSearch"); ex_ctor "F" []].
  eexists. split; vm_compute; reflexivity.
Qed.

(** The methods: Init, one for each usable field whose name is not reserved, And
    and Or. *)
Theorem C97_methods : forall q convs typ db s t rf tr ctor v2 code, made q convs typ db s t rf tr ctor v2 code ->
  exists l, picked (fun f => usable tr f /\ ~ reserved (path_name f)) (rt_fields (rf_type rf)) l /\ method_names code = B "Init" :: map path_name l ++ [B "And"; B "Or"].
Proof. exact C97_methods_proof. Qed.
Print Assumptions C97_methods.

(** If no two of them have the same name, a client's calls do to the constructor
    what they mean: conditions on the columns of the fields, and parentheses. *)
Theorem C97_calls : forall conv q convs typ db s t rf tr ctor v2 code us ks c, made q convs typ db s t rf tr ctor v2 code -> NoDup (method_names code) ->
  all_mean q rf tr us ks -> uruns conv code ctor us c = Ok (Filter.runs ks c).
Proof. exact C97_calls_proof. Qed.
Print Assumptions C97_calls.

(** Init hands over the map, in which a key belongs to the first usable field that
    has it, and the column of the text search. *)
Theorem C97_init : forall conv q convs typ db s t rf tr ctor v2 code, made q convs typ db s t rf tr ctor v2 code -> NoDup (method_names code) ->
  exists m, (forall c, invoke conv code ctor (B "Init") [] c
      = Ok (Filter.InitV2 m (match fs_ts s with Some id => written q (c_qual id) (c_col id) | None => [] end) c))
    /\ NoDup (map fst m)
    /\ forall k col, Filter.lookup k m = Some col <-> exists f, first_with_key tr (rt_fields (rf_type rf)) k f /\ column_for conv q convs v2 rf tr f col.
Proof. exact C97_init_proof. Qed.
Print Assumptions C97_init.

(** After Init, a rule of an FQL text is a condition on the column of the first
    field with its key; a rule with another key is dropped, or an error. *)
Theorem C97_fql : forall conv q convs typ db s t rf tr ctor v2 code c c' k cmp v, made q convs typ db s t rf tr ctor v2 code -> NoDup (method_names code) ->
  invoke conv code ctor (B "Init") [] c = Ok c' ->
  (forall f, first_with_key tr (rt_fields (rf_type rf)) k f -> exists id, (if v2 then converter convs f id else id = None)
     /\ Filter.UnmarshalFQL [Filter.TRule k cmp v] false c'
        = match (match id with Some i => conv i v | None => Ok v end) with
          | Ok w => (Filter.Col (written q (r_alias (rf_id rf)) (field_name f)) cmp w c', false)
          | _ => (c', true)
          end)
  /\ ((forall f, ~ first_with_key tr (rt_fields (rf_type rf)) k f) -> Filter.UnmarshalFQL [Filter.TRule k cmp v] false c' = (c', Filter.s_strict c)).
Proof. exact C97_fql_proof. Qed.
Print Assumptions C97_fql.

(** A key in a sort text orders by that column. *)
Theorem C97_sort : forall conv q convs typ db s t rf tr ctor v2 code c c' (d : bool) k f, made q convs typ db s t rf tr ctor v2 code -> NoDup (method_names code) ->
  invoke conv code ctor (B "Init") [] c = Ok c' -> first_with_key tr (rt_fields (rf_type rf)) k f -> ~ In ","%char k -> (d = true \/ hd_error k <> Some "-"%char) ->
  exists col, column_for conv q convs v2 rf tr f col
    /\ Filter.UnmarshalSort ((if d then B "-" else []) ++ k) c' = (Filter.OrderByV2 (Filter.c_name col) d (Filter.c_nullable col) false c', false).
Proof. exact C97_sort_proof. Qed.
Print Assumptions C97_sort.

Example C97_methods_ex : exists code, made true convs97 (B "FilterUser") db_ex (filters97 "Login") (t97 "Login") (rel97 "Login") db_user (B "F") true code
  /\ method_names code = [B "Init"; B "Id"; B "Login"; B "And"; B "Or"].
Proof. exists (code97 "Login"). split; [exact made97|vm_compute; reflexivity]. Qed.

Example C97_calls_ex : let us := [UField (B "Id") (B "<") (Filter.GInt 7); UOr (Some [UField (B "Login") (B "=") Filter.GNil; UAnd None; UField (B "Id") (B ">") (Filter.GInt 9)])] in
  exists ks, all_mean true (rel97 "Login") db_user us ks
    /\ bind (uruns (fun _ => @Ok _) (code97 "Login") (B "F") us Filter.zero_cst) (fun c => Filter.ToSQL c 0)
       = Ok (B " WHERE u.""id"" < $1 OR (u.""login"" IS NULL AND u.""id"" > $2)", [Filter.GInt 7; Filter.GInt 9]).
Proof.
  cbv zeta. eexists. split; [|vm_compute; reflexivity].
  apply am_cons; [|apply am_cons; [|apply am_nil]].
  - exact (m_field true _ _ (f97 0) (B "<") (Filter.GInt 7) (proj1 f97_0) (usable97 _ (proj1 f97_0) (proj2 f97_0)) ltac:(vm_compute; intuition discriminate)).
  - apply m_or. apply am_cons; [|apply am_cons; [|apply am_cons; [|apply am_nil]]].
    + exact (m_field true _ _ (f97 2) (B "=") Filter.GNil (proj1 f97_2) (usable97 _ (proj1 f97_2) (proj2 f97_2)) ltac:(vm_compute; intuition discriminate)).
    + apply m_and_nil.
    + exact (m_field true _ _ (f97 0) (B ">") (Filter.GInt 9) (proj1 f97_0) (usable97 _ (proj1 f97_0) (proj2 f97_0)) ltac:(vm_compute; intuition discriminate)).
Qed.

Example C97_fql_ex : made true convs97 (B "FilterUser") db_ex (filters97 "Login") (t97 "Login") (rel97 "Login") db_user (B "F") true (code97 "Login")
  /\ NoDup (method_names (code97 "Login")) /\ first_with_key db_user (rt_fields (rf_type (rel97 "Login"))) (B "Login") (f97 2)
  /\ bind (invoke (fun id v => if bytes_eqb (snd id) (B "ToText") then Ok Filter.GNil else Panic) (code97 "Login") (B "F") (B "Init") [] Filter.zero_cst)
       (fun c => Filter.ToSQL (fst (Filter.UnmarshalSort (B "-Login") (fst (Filter.UnmarshalFQL [Filter.TRule (B "Login") (B "=") (Filter.GInt 1); Filter.TRule (B "x") (B "=") Filter.GNil] false c)))) 0)
     = Ok (B " WHERE u.""login"" IS NULL ORDER BY u.""login"" DESC NULLS LAST", []).
Proof. split; [exact made97|]. split; [exact names97|]. split; [exact key97|]. vm_compute. reflexivity. Qed.

(** Methods can have the same name: a field named And takes a name of the
    generated methods, although a field named AND is refused one. *)
Theorem C97_names_refuted : exists q convs typ db s t rf tr ctor v2 code, made q convs typ db s t rf tr ctor v2 code /\ ~ NoDup (method_names code).
Proof. exact C97_names_refuted_proof. Qed.
Print Assumptions C97_names_refuted.

(** A field can take the name of the method ToSQL that the queries call on the
    filter. *)
Theorem C97_hides_refuted : exists q convs typ db s t rf tr ctor v2 code, made q convs typ db s t rf tr ctor v2 code /\ NoDup (method_names code) /\ In (B "ToSQL") (method_names code).
Proof. exact C97_hides_refuted_proof. Qed.
Print Assumptions C97_hides_refuted.

(** A method can have the name of the field that is the constructor. *)
Theorem C97_field_refuted : exists q convs typ db s t rf tr ctor v2 code, made q convs typ db s t rf tr ctor v2 code /\ NoDup (method_names code) /\ In ctor (method_names code).
Proof. exact C97_field_refuted_proof. Qed.
Print Assumptions C97_field_refuted.
