(** A small database and queries for the examples on the type checker. *)
From Coq Require Import Ascii String ZArith NArith Bool List.
From Verif Require Import GoBase AParse Analysis QueryFinal Oids Compat Gen Check CheckSpec.
Import ListNotations.
Local Open Scope string_scope.
Local Open Scope list_scope.

Definition db_types : list pgtype :=
  [MkTy oid_Int4 (B "integer") false CatOther 0; MkTy oid_Int8 (B "bigint") false CatOther 0;
   MkTy oid_Text (B "text") false CatString 0; MkTy oid_VarChar (B "character varying") false CatString 0;
   MkTy oid_Bool (B "boolean") false CatOther 0; MkTy oid_Int4Arr (B "integer[]") false CatArray oid_Int4;
   MkTy oid_TextArr (B "text[]") false CatArray oid_Text; MkTy oid_JSON (B "json") false CatOther 0;
   MkTy oid_TSVector (B "tsvector") false CatOther 0; MkTy oid_Timestamptz (B "timestamp with time zone") false CatOther 0;
   MkTy oid_Unknown (B "unknown") false CatOther 0; MkTy 90001 (B "mood") true CatOther 0].
Definition db_cats : catalog := MkCat db_types
  [(B "=", oid_Int4, oid_Int4); (B "<>", oid_Int4, oid_Int4); (B "<", oid_Int4, oid_Int4); (B ">", oid_Int4, oid_Int4);
   (B "=", oid_Int8, oid_Int8); (B "=", oid_Int4, oid_Int8); (B "=", oid_Text, oid_Text); (B "=", oid_Bool, oid_Bool);
   (B "<=", oid_Int4, oid_Int4); (B ">=", oid_Int4, oid_Int4); (B "~~", oid_Text, oid_Text)]
  [(oid_Int8, oid_Int4, CastImplicit); (oid_Int4, oid_Int8, CastAssignment); (oid_Text, oid_VarChar, CastImplicit)]
  [(B "lower", [(oid_Text, oid_Text)])].
Definition db_col (num : Z) (name : string) (notnull hasdef primary : bool) (ty : N) : colrow :=
  MkColRow num (B name) (-1) notnull hasdef primary ty.
Definition db_user : relrow := MkRelRow 7001 true
  [db_col 1 "id" true true true oid_Int4; db_col 2 "email" true false false oid_Text; db_col 3 "login" false false false oid_VarChar;
   db_col 4 "active" true true false oid_Bool; db_col 5 "ts" true false false oid_TSVector; db_col 6 "tags" false false false oid_TextArr;
   db_col 7 "data" false false false oid_JSON; db_col 8 "city" false true false oid_Text]
  [(B "user_pkey", ConPKey); (B "user_email_key", ConUnique); (B "user_check", ConCheck)]
  [MkIxRow (B "user_pkey") true true [1]%Z (B "CREATE UNIQUE INDEX user_pkey ON public.user USING btree (id)") [];
   MkIxRow (B "user_email_key") true false [2; 3]%Z (B "CREATE UNIQUE INDEX user_email_key ON public.user USING btree (email, login)") [];
   MkIxRow (B "user_login") false false [3]%Z (B "CREATE INDEX user_login ON public.user USING btree (login)") []].
Definition db_post : relrow := MkRelRow 7002 true
  [db_col 1 "id" true true true oid_Int4; db_col 2 "user_id" true false false oid_Int4; db_col 3 "hidden" true true false oid_Bool;
   db_col 4 "date" false false false oid_Timestamptz; db_col 5 "views" false true false oid_Int8]
  [(B "post_pkey", ConPKey)] [].
Definition db_ex : database := MkDB db_cats
  (fun n => if bytes_eqb n (B "user") then Some db_user else if bytes_eqb n (B "post") then Some db_post else None)
  (fun l => if bytes_eqb l (B "'x'") then Some oid_Unknown else if bytes_eqb l (B "1") then Some oid_Int4 else None).

(** The analysed struct of the given name and fields. *)
Definition ex_analysed (name : string) (fs : fields) : qstate :=
  match analyzeQueryStruct ex_env (B name) fs with AOk q => q | _ => new_query KSelect end.
Definition ex_one (t : gtype) : fvar * gtype := (ex_var "Rel" (ex_tag "rel" ["user:u"]), TPtr t).
