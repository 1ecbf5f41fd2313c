(** What the theorems on the type checker (Check.v) are stated with: the
    database as the rows of its catalogs, and the parts of queries. *)
From Coq Require Import Ascii String ZArith NArith Bool List Permutation.
From Verif Require Import GoBase AParse Analysis Oids Compat Gen Check.
Import ListNotations.
Local Open Scope string_scope.
Local Open Scope list_scope.

(** ** Texts of index definitions *)

Local Open Scope char_scope.
(** A word USING between two white-space characters.  The long s (U+017F) is
    another form of s. *)
Definition blank (c : ascii) : Prop := In c [" "; "009"; "010"; "012"; "013"].
Definition using_word (x : bytes) : Prop :=
  exists b1 u s i n g b2, x = b1 :: u :: s ++ [i; n; g; b2] /\ blank b1 /\ blank b2
    /\ In u ["u"; "U"] /\ (In s [["s"]; ["S"]] \/ s = ["197"; "191"]) /\ In i ["i"; "I"] /\ In n ["n"; "N"] /\ In g ["g"; "G"].
(** [u] is the first such word of [pre ++ u ++ post]. *)
Definition first_using (pre u post : bytes) : Prop :=
  using_word u /\ forall a x b, a ++ x ++ b = pre ++ u ++ post -> using_word x -> List.length pre <= List.length a.

Fixpoint times (n : nat) (x : bytes) : bytes := match n with O => [] | S k => x ++ times k x end.
(** The inside of a quoted string: quotes are doubled, and it does not end
    with one. *)
Inductive string_body : bytes -> Prop :=
| sb_nil : string_body []
| sb_char : forall n c r, c <> "'" -> string_body r -> string_body (times n ["'"; "'"] ++ c :: r).
(** Balanced text; parentheses inside strings do not count. *)
Inductive balanced : bytes -> Prop :=
| ba_nil : balanced []
| ba_char : forall c r, c <> "(" -> c <> ")" -> c <> "'" -> balanced r -> balanced (c :: r)
| ba_paren : forall a r, balanced a -> balanced r -> balanced ("(" :: a ++ ")" :: r)
| ba_string : forall s r, string_body s -> balanced r -> (forall r', r <> "'" :: r') -> balanced ("'" :: s ++ "'" :: r).
Local Open Scope list_scope.

(** ** Relations and their columns *)

(** The elements of a list that satisfy [P], in order. *)
Inductive picked {A} (P : A -> Prop) : list A -> list A -> Prop :=
| pk_nil : picked P [] []
| pk_keep : forall a l r, P a -> picked P l r -> picked P (a :: l) (a :: r)
| pk_drop : forall a l r, ~ P a -> picked P l r -> picked P (a :: l) r.

(** A name as it is handed to the server. *)
Definition dotted (id : RelIdent) : bytes := match r_qual id with [] => r_name id | q => q ++ B "." ++ r_name id end.
(** The first row of the given name. *)
Definition row_named (t : relrow) (name : bytes) (r : colrow) : Prop :=
  exists l1 l2, rr_cols t = l1 ++ r :: l2 /\ cr_name r = name /\ ~ In name (map cr_name l1).
Definition has_row (t : relrow) (name : bytes) : Prop := In name (map cr_name (rr_cols t)).
(** [c] describes the row [r] of the relation [t]. *)
Definition describes (k : catalog) (t : relrow) (r : colrow) (c : column) : Prop :=
  co_num c = cr_num r /\ co_name c = cr_name r /\ co_typmod c = cr_typmod r /\ co_notnull c = cr_notnull r
  /\ co_hasdef c = cr_hasdef r /\ co_primary c = cr_primary r /\ co_table c = rr_table t /\ co_rel c = rr_oid t
  /\ ty_oid (co_type c) = cr_type r /\ In (co_type c) (cat_types k).

(** The target relation of a query *)
Definition target (db : database) (q : qstate) (rf : RelField) (t : relrow) : Prop :=
  q_rel q = Some rf /\ db_rels db (dotted (rf_id rf)) = Some t.
(** The column of a field *)
Definition field_name (f : FieldInfo) : bytes := c_col (fi_col f).
(** A list of columns, as in the directives Force and Optional, names a column. *)
Definition named_in (o : option ColIdentList) (name : bytes) : Prop :=
  exists l, o = Some l /\ (l_all l = true \/ exists id, In id (l_items l) /\ c_col id = name).

(** What the options of a field and of the structs around it say. *)
Definition own_write (k : qkind) (f : FieldInfo) : Prop :=
  match k with KInsert => m_insert (fi_mode f) = true | KUpdate => m_update (fi_mode f) = true | _ => False end.
Definition modes (f : FieldInfo) : list FieldMode := fi_mode f :: map sn_mode (fi_sel f).
Definition read_only (f : FieldInfo) : Prop :=
  exists m, In m (modes f) /\ m_select m = true /\ m_insert m = false /\ m_update m = false.
Definition write_only (f : FieldInfo) : Prop :=
  exists m, In m (modes f) /\ m_select m = false /\ (m_insert m = true \/ m_update m = true).

(** The field is connected with the column of its name in the target [t]. *)
Definition connected (k : catalog) (rf : RelField) (t : relrow) (f : FieldInfo) (c : column) (id : ColIdent) : Prop :=
  (exists r, row_named t (field_name f) r /\ describes k t r c) /\ id = MkCol (r_alias (rf_id rf)) (field_name f).

(** ** Scopes *)

(** The relations of a query: the target, and then those of the join struct. *)
Definition ref_name (id : RelIdent) : bytes := match r_alias id with [] => r_name id | a => a end.
Definition joined (j : option JoinStruct) : list RelIdent :=
  match j with
  | None => []
  | Some j => match j_relation j with Some id => [id] | None => [] end ++ map j_rel (j_dirs j)
  end.
(** The names of relations: without a qualifier the target is meant. *)
Definition bindings (rf : RelField) (l : list RelIdent) : list (bytes * RelIdent) :=
  ([], rf_id rf) :: map (fun id => (ref_name id, id)) (rf_id rf :: l).
(** [x] stands for the relation bound last. *)
Definition stands_for (l : list (bytes * RelIdent)) (x : bytes) (id : RelIdent) : Prop :=
  exists l1 l2, l = l1 ++ (x, id) :: l2 /\ ~ In x (map fst l2).
(** The column identifier denotes the row [r] of the relation [rid]. *)
Definition denotes (db : database) (l : list (bytes * RelIdent)) (id : ColIdent) (rid : RelIdent) (t : relrow) (r : colrow) : Prop :=
  stands_for l (c_qual id) rid /\ db_rels db (dotted rid) = Some t /\ row_named t (c_col id) r.

(** The conditions and columns of a where struct, at any depth. *)
Inductive within (x : witem) : list witem -> Prop :=
| wi_here : forall l, In x l -> within x l
| wi_deep : forall n l l', In (WNested n l) l' -> within x l -> within x l'.
Definition where_of (q : qstate) : list witem := match q_where q with Some w => w_items w | None => [] end.

(** ** Comparisons *)

(** There is an operator [op] for the two types, if need be after an implicit
    cast of one to the other; casts are listed by target and source. *)
Definition operator (k : catalog) (op : bytes) (l r : N) : Prop :=
  In (op, l, r) (cat_ops k)
  \/ (In (r, l, CastImplicit) (cat_casts k) /\ In (op, r, r) (cat_ops k))
  \/ (In (l, r, CastImplicit) (cat_casts k) /\ In (op, l, l) (cat_ops k)).
Definition type_of (k : catalog) (o : N) (t : pgtype) : Prop := In t (cat_types k) /\ ty_oid t = o.
(** What is compared with the left operand: the right one, or its elements. *)
Definition compared (k : catalog) (p : predicate) (qu : quantifier) (r e : pgtype) : Prop :=
  if p_array p || quant_set qu then ty_cat r = CatArray /\ type_of k (ty_elem r) e else e = r.
Definition comparable (k : catalog) (p : predicate) (l e : pgtype) : Prop :=
  ty_oid l = ty_oid e
  \/ ((ty_cat l = CatString \/ ty_enum l = true) /\ ty_oid e = oid_Unknown)
  \/ operator k (oprname p) (ty_oid l) (ty_oid e).

(** The right operand of a condition has the type [t]. *)
Definition operand (db : database) (l : list (bytes * RelIdent)) (d : cond) (t : pgtype) : Prop :=
  match c_col (c_rhs d), c_lit d with
  | _ :: _, _ => exists rid tr r, denotes db l (c_rhs d) rid tr r /\ type_of (db_cat db) (cr_type r) t
  | [], _ :: _ => exists o, db_lit db (c_lit d) = Some o /\ type_of (db_cat db) o t
  | [], [] => False
  end.
(** A condition whose left column is the row [r].  [outer]: the column may be
    null although it is declared not to be. *)
Definition sound_cond (db : database) (l : list (bytes * RelIdent)) (d : cond) (r : colrow) (outer : Prop) : Prop :=
  match c_pred d with
  | IsTrue | NotTrue | IsFalse | NotFalse | IsUnknown | NotUnknown => cr_type r = oid_Bool
  | IsNull | NotNull => cr_notnull r = false \/ outer
  | p => exists lt rt e, type_of (db_cat db) (cr_type r) lt /\ operand db l d rt
           /\ compared (db_cat db) p (c_quant d) rt e /\ comparable (db_cat db) p lt e
  end.

(** ** Fields and columns *)

(** The table has the entry [e] for the type [lit] and columns of type [o]. *)
Definition entry (o : N) (len1 : bool) (lit : bytes) (e : compentry) : Prop :=
  exists rows, In (o, len1, rows) oid2literal /\ In (lit, e) rows.
(** Enums are treated like text, and so are types of the string category that
    have no entry of their own, also in arrays. *)
Definition stored (t : pgtype) : N := if ty_enum t then oid_Text else ty_oid t.
Definition fits (k : catalog) (t : pgtype) (len1 : bool) (lit : bytes) (e : compentry) : Prop :=
  entry (stored t) len1 lit e
  \/ (ty_cat t = CatString /\ entry oid_Text len1 lit e)
  \/ (ty_cat t = CatArray /\ exists et, type_of k (ty_elem t) et /\ ty_cat et = CatString /\ entry oid_TextArr len1 lit e).
(** Whether the column's length is 1: bit(1), char(1) and arrays of them. *)
Definition length1 (k : catalog) (c : column) (b : bool) : Prop :=
  exists t, (if is_array (co_type c) then type_of k (ty_elem (co_type c)) t else t = co_type c)
    /\ (b = true <-> match ty_cat t with CatBitstring => co_typmod c = 1%Z | CatString => co_typmod c = 5%Z | _ => False end).
(** The value of a field that implements driver.Valuer is taken to be text. *)
Definition value_type (t : TypeInfo) : bytes :=
  match t_kind t with
  | KBasic _ => GenericLiteral t
  | _ => if f_valuer (t_flags t) then B "string" else GenericLiteral t
  end.
(** The parameter to which the value of a field is compared with a column: of
    the column's own type, for lists of its array type, or of the right operand
    of an operator for the column's type. *)
Definition field_sound (k : catalog) (f : fcond) : Prop :=
  let ct := co_type (fc_col f) in
  let op := oprname (fc_pred f) in
  match fc_func f with
  | [] =>
      exists e, fc_valuer f = ce_valuer e /\
        ((exists len1 pt, length1 k (fc_col f) len1 /\ In (op, stored ct, stored ct) (cat_ops k)
            /\ (if p_array (fc_pred f) || quant_set (fc_quant f)
                then exists a, In (ty_oid ct, a) TypeToArray /\ type_of k a pt else pt = ct)
            /\ fits k pt len1 (value_type (fc_type f)) e)
         \/ exists r rt, In (op, stored ct, r) (cat_ops k) /\ type_of k r rt /\ fits k rt false (value_type (fc_type f)) e)
  | fn =>
      exists procs la lr ra rr, In (fn, procs) (cat_procs k) /\ In (la, lr) procs /\ In (ra, rr) procs
        /\ (exists lt rt et, type_of k lr lt /\ type_of k rr rt /\ compared k (fc_pred f) (fc_quant f) rt et /\ comparable k (fc_pred f) lt et)
        /\ (exists t, type_of k la t)
        /\ (la = ty_oid ct \/ la = oid_Any \/ ty_oid ct = oid_Unknown
            \/ exists c, In (la, ty_oid ct, c) (cat_casts k) /\ c <> CastExplicit)
        /\ exists pt e, type_of k ra pt /\ fits k pt false (value_type (fc_type f)) e /\ fc_valuer f = ce_valuer e
  end.

(** ** What the checker makes of a where struct *)

Definition bound_conforms (db : database) (l : list (bytes * RelIdent)) (id : ColIdent) (tr : relrow) (r : colrow) (p : predicate)
    (b : bound) (rb : rbound) : Prop :=
  match b, rb with
  | BoundColumn id', RBColumn d => d = MkCond id id' [] p QNone /\ sound_cond db l d r False
  | BoundField n t, RBField f =>
      fc_name f = n /\ fc_type f = t /\ fc_ident f = id /\ fc_pred f = p /\ fc_quant f = QNone /\ fc_func f = []
      /\ describes (db_cat db) tr r (fc_col f) /\ field_sound (db_cat db) f
  | _, _ => False
  end.
Inductive conforms (db : database) (target : RelIdent) (l : list (bytes * RelIdent)) : witem -> wcond -> Prop :=
| cf_bool : forall b, conforms db target l (WBool b) (WCBool b)
| cf_column : forall d rid tr r, denotes db l (c_lhs d) rid tr r -> sound_cond db l d r (rid <> target) ->
    conforms db target l (WColumn d) (WCColumn d)
| cf_field : forall n t id p q fn v col rid tr r, denotes db l id rid tr r -> describes (db_cat db) tr r col ->
    field_sound (db_cat db) (MkFC n t id col p q fn v) ->
    conforms db target l (WField n t id p q fn) (WCField (MkFC n t id col p q fn v))
| cf_between : forall n id p lo hi lo' hi' rid tr r, denotes db l id rid tr r ->
    bound_conforms db l id tr r (match p with NotBetween | NotBetweenSym | NotBetweenAsym => IsLT | _ => IsGTE end) lo lo' ->
    bound_conforms db l id tr r (match p with NotBetween | NotBetweenSym | NotBetweenAsym => IsGT | _ => IsLTE end) hi hi' ->
    conforms db target l (WBetween n id p lo hi) (WCBetween n id p lo' hi')
| cf_nested : forall n is cs, Forall2 (conforms db target l) is cs -> conforms db target l (WNested n is) (WCNested n cs).
