(** Model of the parsers of internal/analysis/analysis.go (predicate
    expressions, identifiers, tag options) and of the tables of
    internal/analysis/enums.go they use. *)
From Coq Require Import Ascii String ZArith NArith Bool List.
From Verif Require Import GoBase Strconv ConvertUtil Filter.
Import ListNotations.
Local Open Scope char_scope.

(** ** Regular expressions *)

(** The operators that occur in analysis.go:21-46, matched by derivatives. *)
Inductive rx :=
| RNone
| REps
| RCls (p : ascii -> bool)
| RSeq (a b : rx)
| RAlt (a b : rx)
| RStar (a : rx).

Fixpoint rx_null (r : rx) : bool :=
  match r with
  | RNone | RCls _ => false
  | REps | RStar _ => true
  | RSeq a b => rx_null a && rx_null b
  | RAlt a b => rx_null a || rx_null b
  end.

Fixpoint rx_deriv (c : ascii) (r : rx) : rx :=
  match r with
  | RNone | REps => RNone
  | RCls p => if p c then REps else RNone
  | RSeq a b =>
      if rx_null a then RAlt (RSeq (rx_deriv c a) b) (rx_deriv c b) else RSeq (rx_deriv c a) b
  | RAlt a b => RAlt (rx_deriv c a) (rx_deriv c b)
  | RStar a => RSeq (rx_deriv c a) (RStar a)
  end.

(** MatchString of an expression anchored with ^ and $. *)
Fixpoint rx_match (r : rx) (s : bytes) : bool :=
  match s with
  | [] => rx_null r
  | c :: t => rx_match (rx_deriv c r) t
  end.

Definition RChr (c : ascii) : rx := RCls (fun x => beq x c).
Definition ROpt (r : rx) : rx := RAlt REps r.
Fixpoint RStr (s : bytes) : rx := match s with [] => REps | c :: t => RSeq (RChr c) (RStr t) end.

(** strings.ToLower.  Besides the ASCII letters, the only characters whose
    lower case is an ASCII letter are U+0130 (C4 B0, lower case i) and U+212A
    (E2 84 AA, lower case k); both get shorter.  Not modelled: the lower case
    of other non-ASCII letters, and the replacement of malformed UTF-8. *)
Definition low (c : ascii) : ascii :=
  let n := code c in if ((65 <=? n) && (n <=? 90))%N then chr (n + 32) else c.
Fixpoint lower (s : bytes) : bytes :=
  match s with
  | [] => []
  | c :: r =>
      match r with
      | [] => [low c]
      | d :: r' =>
          if ((code c =? 196) && (code d =? 176))%N then "i" :: lower r'
          else match r' with
               | [] => low c :: lower r
               | e :: r'' =>
                   if ((code c =? 226) && (code d =? 132) && (code e =? 170))%N then "k" :: lower r''
                   else low c :: lower r
               end
      end
  end.

(** analysis.go:2201-2203 *)
Definition tolower (s : bytes) : bytes := lower (trim_space s).

Definition in_range (lo hi : N) (c : ascii) : bool := ((lo <=? code c) && (code c <=? hi))%N.
(** [A-Za-z_] and \w *)
Definition rx_head : rx := RCls (fun c => in_range 65 90 c || in_range 97 122 c || beq c "_").
Definition rx_word : rx :=
  RCls (fun c => in_range 48 57 c || in_range 65 90 c || beq c "_" || in_range 97 122 c).
Definition rx_name : rx := RSeq rx_head (RStar rx_word).

(** analysis.go:26 *)
Definition rxIdent : rx := rx_name.
(** analysis.go:30 *)
Definition rxRelIdent : rx :=
  RSeq (ROpt (RSeq rx_name (RChr "."))) (RSeq rx_name (ROpt (RSeq (RChr ":") rx_name))).
(** analysis.go:34 *)
Definition rxColIdent : rx := RSeq (ROpt (RSeq rx_name (RChr "."))) rx_name.

(** analysis.go:37-41; matched without regard to case.  (Go also folds U+017F
    to s and U+212A to k; [isColIdent] excludes those characters.) *)
Definition reserved : list bytes :=
  [B "true"; B "false"; B "current_date"; B "current_time"; B "current_timestamp";
   B "current_role"; B "current_schema"; B "current_user"; B "localtime"; B "localtimestamp";
   B "session_user"].
Definition rxReserved (s : bytes) : bool := existsb (bytes_eqb (map low s)) reserved.

(** analysis.go:2195-2197 *)
Definition isColIdent (v : bytes) : bool := rx_match rxColIdent v && negb (rxReserved v).

(** ** Identifiers *)

Record RelIdent := MkRel { r_name : bytes; r_alias : bytes; r_qual : bytes }.
Record ColIdent := MkCol { c_qual : bytes; c_col : bytes }.

(** The error codes that the callers distinguish. *)
Inductive ecode := EBadRelId | EBadColId | EUnknownQualifier | EMissingColumnList
                 | EConflictingRelAlias | EConflictingRelName.

(** strings.LastIndexByte followed by the two slicings: the parts before and
    after the last [sep]. *)
Fixpoint cut_last (sep : ascii) (s : bytes) : option (bytes * bytes) :=
  match s with
  | [] => None
  | c :: r =>
      match cut_last sep r with
      | Some (a, b) => Some (c :: a, b)
      | None => if beq c sep then Some ([], r) else None
      end
  end.

(** analysis.go:1916-1930 *)
Definition parseRelIdent (v : bytes) : RelIdent + ecode :=
  if negb (rx_match rxRelIdent v) then inr EBadRelId
  else
    let '(q, v) := match cut_last "." v with Some (a, b) => (a, b) | None => ([], v) end in
    let '(n, al) := match cut_last ":" v with Some (a, b) => (a, b) | None => (v, []) end in
    inl (MkRel n al q).

(** Info.RelSpace: relation names and aliases in scope. *)
Definition relspace := list (bytes * RelIdent).

(** analysis.go:1757-1773 *)
Definition addToRelSpace (sp : relspace) (id : RelIdent) : relspace + ecode :=
  match r_alias id with
  | _ :: _ => match lookup (r_alias id) sp with
              | Some _ => inr EConflictingRelAlias
              | None => inl ((r_alias id, id) :: sp)
              end
  | [] => match lookup (r_name id) sp with
          | Some _ => inr EConflictingRelName
          | None => inl ((r_name id, id) :: sp)
          end
  end.

(** analysis.go:1935-1948 *)
Definition parseColIdent (sp : relspace) (v : bytes) : ColIdent + ecode :=
  if negb (isColIdent v) then inr EBadColId
  else match cut_last "." v with
       | Some (q, n) =>
           match lookup q sp with
           | Some _ => inl (MkCol q n)
           | None => inr EUnknownQualifier
           end
       | None => inl (MkCol [] v)
       end.

(** analysis.go:1958-1967 *)
Fixpoint colIdents (sp : relspace) (tag : list bytes) : list ColIdent + ecode :=
  match tag with
  | [] => inl []
  | v :: r =>
      match parseColIdent sp v with
      | inr e => inr e
      | inl id => match colIdents sp r with inl ids => inl (id :: ids) | inr e => inr e end
      end
  end.
(** analysis.go:1954-1969 *)
Definition parseColIdents (sp : relspace) (tag : list bytes) : list ColIdent + ecode :=
  match tag with [] => inr EMissingColumnList | _ => colIdents sp tag end.

(** types.go, ColIdentList *)
Record ColIdentList := MkColList { l_all : bool; l_items : list ColIdent }.

(** analysis.go:1975-1987 *)
Definition parseColIdentList (sp : relspace) (tag : list bytes) : ColIdentList + ecode :=
  match tag with
  | [x] => if bytes_eqb x (B "*") then inl (MkColList true [])
           else match parseColIdents sp tag with inl l => inl (MkColList false l) | inr e => inr e end
  | _ => match parseColIdents sp tag with inl l => inl (MkColList false l) | inr e => inr e end
  end.

(** analysis.go:2111-2122: only the names are compared. *)
Definition Contains (l : ColIdentList) (id : ColIdent) : bool :=
  l_all l || existsb (fun x => bytes_eqb (c_col x) (c_col id)) (l_items l).

(** ** Predicates *)

(** enums.go:254-310 *)
Inductive predicate :=
| PNone
| IsEQ | NotEQ | NotEQ2 | IsLT | IsGT | IsLTE | IsGTE | IsDistinct | NotDistinct
| IsMatch | IsMatchi | NotMatch | NotMatchi | IsLike | NotLike | IsILike | NotILike | IsSimilar | NotSimilar
| IsIn | NotIn
| IsBetween | NotBetween | IsBetweenSym | NotBetweenSym | IsBetweenAsym | NotBetweenAsym
| IsNull | NotNull
| IsTrue | NotTrue | IsFalse | NotFalse | IsUnknown | NotUnknown.

(** enums.go:312-352 *)
Definition predicates : list (bytes * predicate) :=
  [(B "=", IsEQ); (B "<>", NotEQ); (B "!=", NotEQ2); (B "<", IsLT); (B ">", IsGT);
   (B "<=", IsLTE); (B ">=", IsGTE); (B "isdistinct", IsDistinct); (B "notdistinct", NotDistinct);
   (B "~", IsMatch); (B "~*", IsMatchi); (B "!~", NotMatch); (B "!~*", NotMatchi);
   (B "islike", IsLike); (B "notlike", NotLike); (B "isilike", IsILike); (B "notilike", NotILike);
   (B "issimilar", IsSimilar); (B "notsimilar", NotSimilar);
   (B "isin", IsIn); (B "notin", NotIn);
   (B "isbetween", IsBetween); (B "notbetween", NotBetween);
   (B "isbetweensym", IsBetweenSym); (B "notbetweensym", NotBetweenSym);
   (B "isbetweenasym", IsBetweenAsym); (B "notbetweenasym", NotBetweenAsym);
   (B "isnull", IsNull); (B "notnull", NotNull);
   (B "istrue", IsTrue); (B "nottrue", NotTrue); (B "isfalse", IsFalse); (B "notfalse", NotFalse);
   (B "isunknown", IsUnknown); (B "notunknown", NotUnknown)].

(** enums.go:407-417: a string that is not in the map gives 0. *)
Definition stringToPredicate (s : bytes) : predicate :=
  match lookup s predicates with Some p => p | None => PNone end.

(** enums.go:354-367 *)
Definition predicateAdjectives : list bytes :=
  [B "between"; B "betweensym"; B "distinct"; B "false"; B "ilike"; B "in"; B "like"; B "null";
   B "similar"; B "true"; B "unknown"].

(** enums.go:373-394 *)
Definition p_binary (p : predicate) : bool :=
  match p with
  | IsEQ | NotEQ | NotEQ2 | IsLT | IsGT | IsLTE | IsGTE | IsDistinct | NotDistinct => true
  | _ => false
  end.
Definition p_pattern (p : predicate) : bool :=
  match p with
  | IsMatch | IsMatchi | NotMatch | NotMatchi | IsLike | NotLike | IsILike | NotILike
  | IsSimilar | NotSimilar => true
  | _ => false
  end.
Definition p_array (p : predicate) : bool := match p with IsIn | NotIn => true | _ => false end.
Definition p_range (p : predicate) : bool :=
  match p with
  | IsBetween | NotBetween | IsBetweenSym | NotBetweenSym | IsBetweenAsym | NotBetweenAsym => true
  | _ => false
  end.
Definition p_unary (p : predicate) : bool :=
  match p with
  | IsNull | NotNull | IsTrue | NotTrue | IsFalse | NotFalse | IsUnknown | NotUnknown => true
  | _ => false
  end.
Definition CanQuantify (p : predicate) : bool := p_binary p || p_pattern p.

(** enums.go:229-251 *)
Inductive quantifier := QNone | QuantAny | QuantSome | QuantAll.
Definition stringToQuantifier (s : bytes) : quantifier :=
  if bytes_eqb s (B "any") then QuantAny
  else if bytes_eqb s (B "some") then QuantSome
  else if bytes_eqb s (B "all") then QuantAll
  else QNone.

(** ** Predicate expressions *)

(** analysis.go:1817-1843: the symbolic operator at the head of [s]: [None]
    when the byte is none of = ! < > ~, [Some 0] for a ! that begins no
    operator (the loop ends there), otherwise the operator's length. *)
Definition sym_len (s : bytes) : option nat :=
  match s with
  | [] => None
  | c :: r =>
      if beq c "=" then Some 1
      else if beq c "!" then
        match r with
        | d :: r' =>
            if beq d "~" && (match r' with e :: _ => beq e "*" | [] => false end) then Some 3
            else if beq d "=" || beq d "~" then Some 2
            else Some 0
        | [] => Some 0
        end
      else if beq c "<" then
        match r with d :: _ => if beq d "=" || beq d ">" then Some 2 else Some 1 | [] => Some 1 end
      else if beq c ">" then
        match r with d :: _ => if beq d "=" then Some 2 else Some 1 | [] => Some 1 end
      else if beq c "~" then
        match r with d :: _ => if beq d "*" then Some 2 else Some 1 | [] => Some 1 end
      else None
  end%nat.

(** analysis.go:1862: the adjective [adj] at the head of [s], ended by a blank
    or by the end. *)
Definition word_at (adj s : bytes) : bool :=
  has_prefix adj s &&
  match skipn (List.length adj) s with [] => true | c :: _ => beq c " " end.

(** analysis.go:1852-1870 on x[j:]: the operator made of not or is and an
    adjective. *)
Definition word_op (x : bytes) : option bytes :=
  let '(p1, p2) :=
    if Nat.ltb 3 (List.length x) && has_prefix (B "not") x then (B "not", skipn 3 x)
    else if Nat.ltb 2 (List.length x) && has_prefix (B "is") x then (B "is", skipn 2 x)
    else ([], []) in
  match p2 with
  | [] => None
  | _ => match find (fun adj => word_at adj p2) predicateAdjectives with
         | Some adj => Some (p1 ++ adj)
         | None => None
         end
  end.

(** analysis.go:1816-1879: [pre] = expr[:i], [s] = expr[i:], [x] is the lower
    case of expr. *)
Fixpoint pred_loop (x pre s : bytes) : res (bytes * bytes * bytes) :=
  match s with
  | [] => Ok ([], [], [])
  | c :: r =>
      match sym_len s with
      | Some O => Ok ([], [], [])
      | Some n => Ok (pre, firstn n s, skipn n s)
      | None =>
          if beq c " " then
            let j := S (List.length pre) in
            if Nat.ltb (List.length x) j then Panic                (* x[j:] *)
            else match word_op (skipn j x) with
                 | Some cop => Ok (pre, cop, skipn (List.length cop) r)
                 | None => pred_loop x (pre ++ [c]) r
                 end
          else pred_loop x (pre ++ [c]) r
      end
  end.

(** analysis.go:1885-1904: a quantifier at the head of the right-hand side. *)
Definition quant_split (rhs : bytes) : bytes * bytes :=
  let x := lower rhs in
  if word_at (B "any") x then (B "any", trim_space (skipn 3 rhs))
  else if word_at (B "all") x then (B "all", trim_space (skipn 3 rhs))
  else if word_at (B "some") x then (B "some", trim_space (skipn 4 rhs))
  else ([], rhs).

(** analysis.go:1813-1911 *)
Definition parsePredicateExpr (expr : bytes) : res (bytes * bytes * bytes * bytes) :=
  let expr := trim_space expr in
  bind (pred_loop (lower expr) [] expr) (fun '(lhs, cop, rhs) =>
    let lhs := trim_space lhs in
    let '(qua, rhs) := quant_split (trim_space rhs) in
    match lhs with
    | [] => Ok (expr, [], [], [])
    | _ => Ok (lhs, cop, qua, rhs)
    end).

(** ** Tag options *)

(** A parsed struct tag (tagutil.Tag): key to list of values.  The tag parser
    is an external package; tags are inputs of the model. *)
Definition tag := list (bytes * list bytes).
Definition tag_get (t : tag) (k : bytes) : list bytes := match lookup k t with Some l => l | None => [] end.
Definition tag_has (t : tag) (k : bytes) : bool := match lookup k t with Some _ => true | None => false end.
Definition tag_first (t : tag) (k : bytes) : bytes := match tag_get t k with x :: _ => x | [] => [] end.
Definition tag_second (t : tag) (k : bytes) : bytes := match tag_get t k with _ :: x :: _ => x | _ => [] end.
Definition tag_opt (t : tag) (k o : bytes) : bool :=
  match tag_get t k with _ :: l => existsb (bytes_eqb o) l | [] => false end.

(** analysis.go:1990-2003 with the expression of l.45: the text between the
    parentheses of coalesce(...), which must not hold a line break. *)
Definition coalesce_arg (opt : bytes) : bytes :=
  match skipn 8 opt with
  | c :: r =>
      match rev r with
      | d :: ir =>
          if beq c "(" && beq d ")" && negb (existsb (fun x => (code x =? 10)%N) ir)
          then rev ir else []
      | [] => []
      end
  | [] => []
  end.
Definition parseCoalesceInfo (t : tag) : bool * bytes :=
  match tag_get t (B "sql") with
  | _ :: opts => match find (has_prefix (B "coalesce")) opts with
                 | Some o => (true, coalesce_arg o)
                 | None => (false, [])
                 end
  | [] => (false, [])
  end.

(** analysis.go:2005-2012 *)
Fixpoint parseFuncName (vals : list bytes) : bytes :=
  match vals with
  | [] => []
  | (c :: r) :: t => if beq c "@" then lower r else parseFuncName t
  | [] :: t => parseFuncName t
  end.

(** ** Field modes *)

(** fieldmode.go:7-19: a FieldMode is a set of five permissions. *)
Record FieldMode := MkMode { m_select : bool; m_filter : bool; m_insert : bool; m_update : bool; m_notnull : bool }.
Definition mode_default : FieldMode := MkMode true true true true false.

Definition set_read (v : bool) (m : FieldMode) := MkMode v v (m_insert m) (m_update m) (m_notnull m).
Definition set_write (v : bool) (m : FieldMode) := MkMode (m_select m) (m_filter m) v v (m_notnull m).
Definition set_select (v : bool) (m : FieldMode) := MkMode v (m_filter m) (m_insert m) (m_update m) (m_notnull m).
Definition set_filter (v : bool) (m : FieldMode) := MkMode (m_select m) v (m_insert m) (m_update m) (m_notnull m).
Definition set_insert (v : bool) (m : FieldMode) := MkMode (m_select m) (m_filter m) v (m_update m) (m_notnull m).
Definition set_update (v : bool) (m : FieldMode) := MkMode (m_select m) (m_filter m) (m_insert m) v (m_notnull m).
Definition set_notnull (v : bool) (m : FieldMode) := MkMode (m_select m) (m_filter m) (m_insert m) (m_update m) v.

(** fieldmode.go:34-47: the deprecated options. *)
Definition old_option (opt : bytes) (m : FieldMode) : FieldMode :=
  if bytes_eqb opt (B "ro") then set_write false m
  else if bytes_eqb opt (B "wo") then set_read false m
  else if bytes_eqb opt (B "xf") then set_filter false m
  else if bytes_eqb opt (B "nn") then set_notnull true m
  else m.

(** fieldmode.go:53-90: one letter after - ([v] = false) or + ([v] = true). *)
Definition letter (v : bool) (c : ascii) (m : FieldMode) : FieldMode :=
  if beq c "r" then set_read v m
  else if beq c "w" then set_write v m
  else if beq c "s" then set_select v m
  else if beq c "f" then set_filter v m
  else if beq c "i" then set_insert v m
  else if beq c "u" then set_update v m
  else if beq c "N" then set_notnull (negb v) m
  else m.

(** fieldmode.go:31-91; [opt[0]] panics on an empty option. *)
Definition mode_option (opt : bytes) (m : FieldMode) : res FieldMode :=
  let m := old_option opt m in
  match opt with
  | [] => Panic
  | c :: r =>
      if beq c "-" then Ok (fold_left (fun m c => letter false c m) r m)
      else if beq c "+" then Ok (fold_left (fun m c => letter true c m) r m)
      else Ok m
  end.
Fixpoint mode_options (opts : list bytes) (m : FieldMode) : res FieldMode :=
  match opts with
  | [] => Ok m
  | o :: r => bind (mode_option o m) (mode_options r)
  end.

(** fieldmode.go:25-93 *)
Definition parseFieldMode (t : tag) : res FieldMode :=
  match tag_get t (B "sql") with
  | _ :: opts => mode_options opts mode_default
  | [] => Ok mode_default
  end.

(** fieldmode.go:99-125 *)
Definition mode_IsReadOnly (m : FieldMode) : bool := m_select m && negb (m_insert m) && negb (m_update m).
Definition mode_IsWriteOnly (m : FieldMode) : bool := (m_insert m || m_update m) && negb (m_select m).
