(** Model of package filter (filter/filter.go, filter/convenience.go) and of
    the ordinal parameters in gosql.go. *)
From Coq Require Import Ascii String ZArith NArith Bool List.
From Verif Require Import GoBase Strconv ConvertUtil Codecs IntCodecs.
Import ListNotations.
Local Open Scope char_scope.

(** gosql.go:401-406: OrdinalParameters[i]; indexing the array outside
    0..65534 panics. *)
Definition ordinal (i : Z) : res bytes :=
  if ((0 <=? i) && (i <? 65535))%Z then Ok ("$" :: format_int 10 (i + 1)) else Panic.

(** gosql.go:411-426 *)
Fixpoint in_rest (n : nat) (i : Z) : res bytes :=
  match n with
  | O => Ok []
  | S m => bind (ordinal i) (fun o => bind (in_rest m (i + 1)) (fun r => Ok ("," :: o ++ r)))
  end.
Definition InValueList (num pos : Z) : res bytes :=
  if (0 <? num)%Z
  then bind (ordinal pos) (fun o => bind (in_rest (Z.to_nat (num - 1)) (pos + 1)) (fun r => Ok (o ++ r)))
  else Ok [].

(** The dynamic values that reach the package as interface{}: nil, booleans,
    the four supported slice types, values of their element types, the
    driver.Valuer of package pgsql (represented by the driver value it
    produces), the string made by toTSQuery, and anything else. *)
Inductive gval :=
| GNil
| GBool (b : bool)
| GInt64s (l : slice Z) | GInts (l : slice Z) | GInt16s (l : slice Z) | GStrings (l : slice bytes)
| GInt64 (z : Z) | GInt (z : Z) | GInt16 (z : Z) | GString (s : bytes)
| GValuer (d : dval)
| GOther (n : N).

(** filter.go:21-107, convenience.go:8-90: the sqlNode types. *)
Inductive node :=
| NBinary (col op : bytes) (v : gval)
| NUnary (col pred : bytes)
| NText (col : bytes) (v : bytes)
| NAnd | NOr | NLParen | NRParen
| NIn (col : bytes) (vals : list gval)
| NAny (col : bytes) (v : gval) (cast : bytes).

(** The canAndOr methods. *)
Definition node_canAndOr (n : node) : bool :=
  match n with NAnd | NOr | NLParen => false | _ => true end.

(** strings.TrimSpace, for ASCII white space only (not modelled: other Unicode
    white space), and strings.Split at blanks. *)
Definition is_space (c : ascii) : bool :=
  existsb (N.eqb (code c)) [9; 10; 11; 12; 13; 32]%N.
Fixpoint trim_left (s : bytes) : bytes :=
  match s with
  | [] => []
  | c :: r => if is_space c then trim_left r else s
  end.
Definition trim_space (s : bytes) : bytes := rev (trim_left (rev (trim_left s))).
Fixpoint split_at (sep : ascii) (s : bytes) : list bytes :=
  match s with
  | [] => [[]]
  | c :: r => if beq c sep then [] :: split_at sep r
              else match split_at sep r with
                   | x :: l => (c :: x) :: l
                   | [] => [[c]]
                   end
  end.

(** filter.go:540-555 *)
Definition toTSQuery (s : bytes) : bytes :=
  match split_at " " (trim_space s) with
  | [] => []
  | x :: l =>
      let first := match x with [] => [] | _ => x ++ B ":*" end in
      fold_left (fun out str => match str with [] => out | _ => out ++ B " & " ++ str ++ B ":*" end) l first
  end.

(** filter.go:12-19: sqlWriter *)
Record writer := { w_out : bytes; w_p : Z; w_params : list gval }.
Definition wstr (s : bytes) (w : writer) : writer :=
  {| w_out := w_out w ++ s; w_p := w_p w; w_params := w_params w |}.
(** WriteString(OrdinalParameters[w.p] + suffix); params = append(params, v); p += 1.
    (In the code other text may be written between the first and the second
    step; the order is not observable.) *)
Definition wparam (suffix : bytes) (v : gval) (w : writer) : res writer :=
  rmap (fun o => {| w_out := w_out w ++ o ++ suffix; w_p := (w_p w + 1)%Z; w_params := w_params w ++ [v] |})
       (ordinal (w_p w)).

(** convenience.go:19-26 *)
Fixpoint write_in (first : bool) (vals : list gval) (w : writer) : res writer :=
  match vals with
  | [] => Ok w
  | v :: r => bind (wparam [] v (if first then w else wstr (B ",") w)) (write_in false r)
  end.

(** The write methods. *)
Definition write (n : node) (w : writer) : res writer :=
  match n with
  | NBinary col op v => wparam [] v (wstr (col ++ B " " ++ op ++ B " ") w)
  | NUnary col pred => Ok (wstr (col ++ B " " ++ pred) w)
  | NText col v => wparam (B ")") (GString (toTSQuery v)) (wstr (col ++ B " @@ to_tsquery('simple', ") w)
  | NAnd => Ok (wstr (B " AND ") w)
  | NOr => Ok (wstr (B " OR ") w)
  | NLParen => Ok (wstr (B "(") w)
  | NRParen => Ok (wstr (B ")") w)
  | NIn col vals => rmap (wstr (B ")")) (write_in true vals (wstr (col ++ B " IN (") w))
  | NAny col v cast => wparam (cast ++ B ")") v (wstr (col ++ B " = ANY(") w)
  end.

Fixpoint write_all (l : list node) (w : writer) : res writer :=
  match l with
  | [] => Ok w
  | n :: r => bind (write n w) (write_all r)
  end.

(** filter.go:126-134: a column of the colmap; the conversion may fail. *)
Record column := { c_name : bytes; c_conv : option (gval -> res gval); c_nullable : bool }.

(** filter.go:112-123, 456-465: the Constructor and its filter.  The colmap is
    a list searched from the front. *)
Record cst := {
  f_where : list node; f_orderby : bytes; f_limit : Z; f_offset : Z;
  s_colmap : list (bytes * column); s_tscol : bytes; s_strict : bool }.

Definition zero_cst : cst :=
  {| f_where := []; f_orderby := []; f_limit := 0; f_offset := 0; s_colmap := []; s_tscol := []; s_strict := false |}.

Definition set_where (w : list node) (s : cst) : cst :=
  {| f_where := w; f_orderby := f_orderby s; f_limit := f_limit s; f_offset := f_offset s;
     s_colmap := s_colmap s; s_tscol := s_tscol s; s_strict := s_strict s |}.
Definition set_orderby (o : bytes) (s : cst) : cst :=
  {| f_where := f_where s; f_orderby := o; f_limit := f_limit s; f_offset := f_offset s;
     s_colmap := s_colmap s; s_tscol := s_tscol s; s_strict := s_strict s |}.
Definition set_limits (l o : Z) (s : cst) : cst :=
  {| f_where := f_where s; f_orderby := f_orderby s; f_limit := l; f_offset := o;
     s_colmap := s_colmap s; s_tscol := s_tscol s; s_strict := s_strict s |}.

(** filter.go:143-145 *)
Definition canAndOr (s : cst) : bool :=
  match rev (f_where s) with [] => false | n :: _ => node_canAndOr n end.

Definition push (n : node) (s : cst) : cst := set_where (f_where s ++ [n]) s.
(** [if c.canAndOr() { append sqlAnd{} }] *)
Definition conn (n : node) (s : cst) : cst := if canAndOr s then push n s else s.
Definition pred (n : node) (s : cst) : cst := push n (conn NAnd s).

(** filter.go:148-167 *)
Definition StrictSwitch (s : cst) : cst :=
  {| f_where := f_where s; f_orderby := f_orderby s; f_limit := f_limit s; f_offset := f_offset s;
     s_colmap := s_colmap s; s_tscol := s_tscol s; s_strict := negb (s_strict s) |}.
Definition InitV2 (m : list (bytes * column)) (ts : bytes) (s : cst) : cst :=
  {| f_where := f_where s; f_orderby := f_orderby s; f_limit := f_limit s; f_offset := f_offset s;
     s_colmap := m; s_tscol := ts; s_strict := s_strict s |}.
Definition Init (m : list (bytes * bytes)) (ts : bytes) : cst -> cst :=
  InitV2 (map (fun kv => (fst kv, {| c_name := snd kv; c_conv := None; c_nullable := false |})) m) ts.

(** strings.ToUpper, for comparison with ASCII words: besides the ASCII
    letters, the only characters whose upper case is an ASCII letter are
    U+0131 (I) and U+017F (S). *)
Definition up (c : ascii) : ascii :=
  let n := code c in if ((97 <=? n) && (n <=? 122))%N then chr (n - 32) else c.
Fixpoint toupper (s : bytes) : bytes :=
  match s with
  | [] => []
  | c :: r =>
      match r with
      | d :: r' =>
          if ((code c =? 196) && (code d =? 177))%N then "I" :: toupper r'
          else if ((code c =? 197) && (code d =? 191))%N then "S" :: toupper r'
          else up c :: toupper r
      | [] => [up c]
      end
  end.

(** convenience.go:31-69 and 92-134 *)
Definition ColIn (f : Z -> gval) (col : bytes) (l : slice Z) : cst -> cst :=
  pred (NIn col (map f (match l with Some v => v | None => [] end))).
Definition ColInInt64s := ColIn GInt64.
Definition ColInInts := ColIn GInt.
Definition ColInInt16s := ColIn GInt16.
Definition ColInStrings (col : bytes) (l : slice bytes) : cst -> cst :=
  pred (NIn col (map GString (match l with Some v => v | None => [] end))).
Definition ColAnyInt64s (col : bytes) (l : slice Z) : cst -> cst :=
  pred (NAny col (GValuer (IntArrayFrom l)) (B "::int8[]")).
Definition ColAnyInts (col : bytes) (l : slice Z) : cst -> cst :=
  pred (NAny col (GValuer (IntArrayFrom l)) (B "::int4[]")).
Definition ColAnyInt16s (col : bytes) (l : slice Z) : cst -> cst :=
  pred (NAny col (GValuer (IntArrayFrom l)) (B "::int2[]")).
Definition ColAnyStrings (col : bytes) (l : slice bytes) : cst -> cst :=
  pred (NAny col (GValuer (TextArrayFromStringSlice l)) (B "::text[]")).

(** filter.go:206-234: the word for nil, true, false, or none *)
Definition unary (op col is isnot : bytes) (s : cst) : cst :=
  if bytes_eqb op (B "=") then push (NUnary col is) s
  else if bytes_eqb op (B "<>") then push (NUnary col isnot) s
  else s.

(** filter.go:173-236 *)
Definition Col (col op : bytes) (v : gval) (s : cst) : cst :=
  if bytes_eqb (toupper op) (B "ANY") then
    match v with
    | GInt64s l => ColAnyInt64s col l s
    | GInts l => ColAnyInts col l s
    | GInt16s l => ColAnyInt16s col l s
    | GStrings l => ColAnyStrings col l s
    | _ => s
    end
  else if bytes_eqb (toupper op) (B "IN") then
    match v with
    | GInt64s l => ColInInt64s col l s
    | GInts l => ColInInts col l s
    | GInt16s l => ColInInt16s col l s
    | GStrings l => ColInStrings col l s
    | _ => s
    end
  else
    let s' := conn NAnd s in
    match v with
    | GNil => unary op col (B "IS NULL") (B "IS NOT NULL") s'
    | GBool true => unary op col (B "IS TRUE") (B "IS NOT TRUE") s'
    | GBool false => unary op col (B "IS FALSE") (B "IS NOT FALSE") s'
    | _ => push (NBinary col op v) s'
    end.

(** filter.go:239-246 *)
Definition TextSearch (v : bytes) (s : cst) : cst :=
  match s_tscol s with [] => s | ts => pred (NText ts v) s end.

(** filter.go:285-326 *)
Definition order_item (col : bytes) (desc : bool) (nulls : bytes) : bytes :=
  col ++ (if desc then B " DESC" else B " ASC") ++ nulls.
Definition nulls_text (first : bool) : bytes := if first then B " NULLS FIRST" else B " NULLS LAST".
Definition add_order (item : bytes) (s : cst) : cst :=
  set_orderby (match f_orderby s with [] => item | o => o ++ B ", " ++ item end) s.
Definition OrderBy (col : bytes) (desc nullsfirst : bool) : cst -> cst :=
  add_order (order_item col desc (nulls_text nullsfirst)).
Definition OrderByV2 (col : bytes) (desc nullable nullsfirst : bool) : cst -> cst :=
  add_order (order_item col desc (if nullable then nulls_text nullsfirst else [])).

(** int64 multiplication and subtraction wrap around. *)
Definition wrap64 (z : Z) : Z := ((z + 2 ^ 63) mod 2 ^ 64 - 2 ^ 63)%Z.

(** filter.go:329-347 *)
Definition Limit (n : Z) (s : cst) : cst := if (0 <? n)%Z then set_limits n (f_offset s) s else s.
Definition Offset (n : Z) (s : cst) : cst := if (0 <? n)%Z then set_limits (f_limit s) n s else s.
Definition Page (n : Z) (s : cst) : cst :=
  if ((0 <? n) && (0 <=? f_limit s))%Z then set_limits (f_limit s) (wrap64 (f_limit s * (n - 1))) s else s.

Fixpoint lookup {A} (k : bytes) (m : list (bytes * A)) : option A :=
  match m with
  | [] => None
  | (k', v) :: r => if bytes_eqb k k' then Some v else lookup k r
  end.

(** The token stream of package fql (an external dependency, not modelled):
    the tokens up to the end of the text or up to a tokenizer error. *)
Inductive fqltok :=
| TLParen | TRParen | TAnd | TOr
| TRule (key : bytes) (cmp : bytes) (v : gval).

(** filter.go:353-401; [cmp] is cmpop2string[rule.Cmp] and a fql.Null value is
    GNil; the result is the state and whether an error was returned. *)
Fixpoint fql_loop (toks : list fqltok) (bad : bool) (s : cst) : cst * bool :=
  match toks with
  | [] => (s, bad)
  | TLParen :: r => fql_loop r bad (push NLParen (conn NAnd s))
  | TRParen :: r => fql_loop r bad (push NRParen s)
  | TAnd :: r => fql_loop r bad (push NAnd s)
  | TOr :: r => fql_loop r bad (push NOr s)
  | TRule k cmp v :: r =>
      match lookup k (s_colmap s) with
      | Some c =>
          match (match c_conv c with Some f => f v | None => Ok v end) with
          | Ok v' => fql_loop r bad (Col (c_name c) cmp v' s)
          | _ => (s, true)
          end
      | None => if s_strict s then (s, true) else fql_loop r bad s
      end
  end.
Definition UnmarshalFQL := fql_loop.

(** filter.go:413-436.  [sort_key c key] is the body for one key; [sort_loop]
    walks over the bytes: [start] tells whether the current byte is the first
    of its item, [desc] and [key] are what was collected of the item so far. *)
Definition sort_key (desc : bool) (key : bytes) (s : cst) : cst * bool :=
  match key with
  | [] => (s, false)
  | _ => match lookup key (s_colmap s) with
         | Some c => (OrderByV2 (c_name c) desc (c_nullable c) false s, false)
         | None => (s, s_strict s)
         end
  end.
Fixpoint sort_loop (str : bytes) (start desc : bool) (key : bytes) (s : cst) : cst * bool :=
  match str with
  | [] => sort_key desc key s
  | c :: r =>
      if beq c "," then
        let '(s', e) := sort_key desc key s in
        if e then (s', true) else sort_loop r true false [] s'
      else if start && beq c "-" then sort_loop r false true [] s
      else sort_loop r false desc (key ++ [c]) s
  end.
Definition UnmarshalSort (str : bytes) (s : cst) : cst * bool := sort_loop str true false [] s.

(** A client of the Constructor: the sequence of its calls.  The nest functions
    of And and Or are sequences of calls, too.  Errors are ignored by the
    sequence; [UnmarshalFQL] and [UnmarshalSort] report them. *)
Inductive call :=
| KCol (col op : bytes) (v : gval)
| KInInt64s (col : bytes) (l : slice Z) | KInInts (col : bytes) (l : slice Z)
| KInInt16s (col : bytes) (l : slice Z) | KInStrings (col : bytes) (l : slice bytes)
| KAnyInt64s (col : bytes) (l : slice Z) | KAnyInts (col : bytes) (l : slice Z)
| KAnyInt16s (col : bytes) (l : slice Z) | KAnyStrings (col : bytes) (l : slice bytes)
| KTextSearch (v : bytes)
| KAnd (nest : option (list call)) | KOr (nest : option (list call))
| KOrderBy (col : bytes) (desc nullsfirst : bool)
| KOrderByV2 (col : bytes) (desc nullable nullsfirst : bool)
| KLimit (n : Z) | KOffset (n : Z) | KPage (n : Z)
| KFQL (toks : list fqltok) (bad : bool)
| KSort (str : bytes)
| KStrictSwitch
| KInit (m : list (bytes * column)) (ts : bytes).

Fixpoint run (k : call) (s : cst) : cst :=
  match k with
  | KCol c o v => Col c o v s
  | KInInt64s c l => ColInInt64s c l s
  | KInInts c l => ColInInts c l s
  | KInInt16s c l => ColInInt16s c l s
  | KInStrings c l => ColInStrings c l s
  | KAnyInt64s c l => ColAnyInt64s c l s
  | KAnyInts c l => ColAnyInts c l s
  | KAnyInt16s c l => ColAnyInt16s c l s
  | KAnyStrings c l => ColAnyStrings c l s
  | KTextSearch v => TextSearch v s
  (* filter.go:253-263 *)
  | KAnd None => conn NAnd s
  | KAnd (Some l) => push NRParen (fold_left (fun s k => run k s) l (push NLParen (conn NAnd s)))
  (* filter.go:270-280 *)
  | KOr None => conn NOr s
  | KOr (Some l) => push NRParen (fold_left (fun s k => run k s) l (push NLParen (conn NOr s)))
  | KOrderBy c d n => OrderBy c d n s
  | KOrderByV2 c d u n => OrderByV2 c d u n s
  | KLimit n => Limit n s
  | KOffset n => Offset n s
  | KPage n => Page n s
  | KFQL t b => fst (UnmarshalFQL t b s)
  | KSort str => fst (UnmarshalSort str s)
  | KStrictSwitch => StrictSwitch s
  | KInit m ts => InitV2 m ts s
  end.
Definition runs (l : list call) (s : cst) : cst := fold_left (fun s k => run k s) l s.

(** filter.go:478-501 and 513-523 *)
Definition where_sql (s : cst) (ppos : Z) : res writer :=
  let w := {| w_out := []; w_p := ppos; w_params := [] |} in
  match f_where s with
  | [] => Ok w
  | l => write_all l (wstr (B " WHERE ") w)
  end.
Definition tail_sql (s : cst) : bytes :=
  (match f_orderby s with [] => [] | o => B " ORDER BY " ++ o end)
  ++ (if (0 <? f_limit s)%Z then B " LIMIT " ++ format_int 10 (f_limit s) else [])
  ++ (if (0 <? f_offset s)%Z then B " OFFSET " ++ format_int 10 (f_offset s) else []).
Definition ToSQL (s : cst) (ppos : Z) : res (bytes * list gval) :=
  rmap (fun w => (w_out w ++ tail_sql s, w_params w)) (where_sql s ppos).
Definition CountToSQL (s : cst) (ppos : Z) : res (bytes * list gval) :=
  rmap (fun w => (w_out w, w_params w)) (where_sql s ppos).
