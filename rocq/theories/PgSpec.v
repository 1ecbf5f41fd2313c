(** What the PostgreSQL server does with the text literals that package pgsql
    exchanges with it.  This file is specification: it is written from the
    PostgreSQL documentation (8.15.2, 8.15.6 for arrays, 8.17.5 for ranges,
    F.16 for hstore) and from array_in/array_out in
    src/backend/utils/adt/arrayfuncs.c, and does not refer to the model of the
    Go code. *)
From Coq Require Import Decimal DecimalString.
From Coq Require Import Ascii String ZArith NArith Bool List.
Import ListNotations.
Local Open Scope char_scope.

Definition text := list ascii.
Definition lit (s : string) : text := list_ascii_of_string s.

(** The blanks of array_isspace: space, TAB, NL, CR, VT, FF. *)
Definition pg_space (c : ascii) : bool :=
  let n := N_of_ascii c in (N.eqb n 32 || (N.leb 9 n && N.leb n 13))%bool.

Definition pg_upper (c : ascii) : ascii :=
  let n := N_of_ascii c in
  if (N.leb 97 n && N.leb n 122)%bool then ascii_of_N (n - 32) else c.

Definition is_null_word (e : text) : bool :=
  if list_eq_dec ascii_dec (map pg_upper e) (lit "NULL") then true else false.

(** Characters that force an element to be quoted by array_out. *)
Definition pg_special (c : ascii) : bool :=
  if in_dec ascii_dec c ["""" ; "\"; "{"; "}"; ","] then true else pg_space c.

(** array_out quotes an element iff it is empty, spells NULL, or contains a
    special character or a blank. *)
Definition needs_quotes (e : text) : bool :=
  match e with [] => true | _ => is_null_word e || existsb pg_special e end.

Definition pg_escape (e : text) : text :=
  flat_map (fun c => if in_dec ascii_dec c [""""; "\"] then ["\"; c] else [c]) e.

Definition elem_out (o : option text) : text :=
  match o with
  | None => lit "NULL"
  | Some e => if needs_quotes e then """" :: pg_escape e ++ [""""] else e
  end.

Fixpoint commas (l : list text) : text :=
  match l with
  | [] => []
  | [x] => x
  | x :: r => x ++ "," :: commas r
  end.

(** array_out of a one-dimensional array whose elements' output texts are
    given ([None] = NULL element). *)
Definition array_out (l : list (option text)) : text :=
  "{" :: commas (map elem_out l) ++ ["}"].

(** *** array_in, one dimension

    A state machine over the characters after the opening brace. *)
Inductive ain :=
| AStart (first : bool)                  (* before an element *)
| AUnq (acc : text) (esc : bool)         (* in an unquoted element; esc: a backslash was seen *)
| AQuo (acc : text)                      (* between double quotes *)
| AAfter (e : text)                      (* after the closing quote *)
| AEnd.                                  (* after the closing brace *)

Fixpoint drop_while (f : ascii -> bool) (s : text) : text :=
  match s with
  | c :: r => if f c then drop_while f r else s
  | [] => []
  end.

Definition rtrim (s : text) : text := rev (drop_while pg_space (rev s)).

Definition unq_elem (acc : text) (esc : bool) : option text :=
  let e := rtrim acc in
  if negb esc && is_null_word e then None else Some e.

(** The result is the list of elements in reverse, [None] = malformed literal.
    [pend] is set when the previous character was an (active) backslash. *)
Fixpoint ain_go (st : ain) (pend : bool) (done : list (option text)) (s : text)
  : option (list (option text)) :=
  match s with
  | [] => match st, pend with AEnd, false => Some (rev done) | _, _ => None end
  | c :: r =>
      if pend then
        match st with
        | AStart _ => ain_go (AUnq [c] true) false done r
        | AUnq acc _ => ain_go (AUnq (acc ++ [c]) true) false done r
        | AQuo acc => ain_go (AQuo (acc ++ [c])) false done r
        | _ => None
        end
      else
        match st with
        | AStart first =>
            if pg_space c then ain_go (AStart first) false done r
            else if ascii_dec c """" then ain_go (AQuo []) false done r
            else if ascii_dec c "\" then ain_go st true done r
            else if ascii_dec c "}" then (if first then ain_go AEnd false done r else None)
            else if in_dec ascii_dec c [","; "{"] then None
            else ain_go (AUnq [c] false) false done r
        | AUnq acc esc =>
            if ascii_dec c "\" then ain_go st true done r
            else if ascii_dec c "," then ain_go (AStart false) false (unq_elem acc esc :: done) r
            else if ascii_dec c "}" then ain_go AEnd false (unq_elem acc esc :: done) r
            else if in_dec ascii_dec c [""""; "{"] then None
            else ain_go (AUnq (acc ++ [c]) esc) false done r
        | AQuo acc =>
            if ascii_dec c "\" then ain_go st true done r
            else if ascii_dec c """" then ain_go (AAfter acc) false done r
            else ain_go (AQuo (acc ++ [c])) false done r
        | AAfter e =>
            if pg_space c then ain_go st false done r
            else if ascii_dec c "," then ain_go (AStart false) false (Some e :: done) r
            else if ascii_dec c "}" then ain_go AEnd false (Some e :: done) r
            else None
        | AEnd => if pg_space c then ain_go st false done r else None
        end
  end.

(** The elements of a one-dimensional array literal, [None] when the server
    rejects it.  (Nested braces and explicit bounds are rejected here: no
    codec of the package writes them.) *)
Definition array_in (s : text) : option (list (option text)) :=
  match drop_while pg_space s with
  | "{" :: r => ain_go (AStart true) false [] r
  | _ => None
  end.

(** *** integers: int2out/int4out/int8out and numeric_out of an integer render
    canonical decimal; the input functions accept surrounding blanks and a
    sign (only the forms without blanks are needed here). *)
Definition int_out (z : Z) : text := lit (NilZero.string_of_int (Z.to_int z)).

Definition int_in (s : text) : option Z :=
  match s with
  | "+" :: r => option_map (fun u => Z.of_uint u) (NilZero.uint_of_string (string_of_list_ascii r))
  | _ => option_map Z.of_int (NilZero.int_of_string (string_of_list_ascii s))
  end.

(** All elements present (not NULL) and readable by [f]. *)
Fixpoint all_some {A C} (f : A -> option C) (l : list A) : option (list C) :=
  match l with
  | [] => Some []
  | x :: r =>
      match f x, all_some f r with
      | Some y, Some ys => Some (y :: ys)
      | _, _ => None
      end
  end.

(** Like [all_some], for array elements that may be NULL. *)
Definition elems_in {A} (f : text -> option A) (l : list (option text)) : option (list (option A)) :=
  all_some (fun o => match o with
                     | None => Some None
                     | Some e => option_map Some (f e)
                     end) l.

Definition array_of {A} (f : text -> option A) (s : text) : option (list (option A)) :=
  match array_in s with Some l => elems_in f l | None => None end.

(** The server's range check for int2, int4 and int8. *)
Definition fits (bits : Z) (z : Z) : bool :=
  (Z.leb (- 2 ^ (bits - 1)) z && Z.ltb z (2 ^ (bits - 1)))%Z.

Definition pg_int (bits : Z) (s : text) : option Z :=
  match int_in s with
  | Some z => if fits bits z then Some z else None
  | None => None
  end.

(** *** ranges over integers (8.17.5, 8.17.7)

    [RBounds lo hi] contains lo <= x < hi; a missing bound is infinite. *)
Inductive prange := REmpty | RBounds (lo hi : option Z).

(** range_out in the canonical form of the discrete types. *)
Definition opt_int_out (o : option Z) : text := match o with Some z => int_out z | None => [] end.

Definition range_out (r : prange) : text :=
  match r with
  | REmpty => lit "empty"
  | RBounds lo hi =>
      (match lo with Some _ => "[" | None => "(" end) :: opt_int_out lo ++ "," :: opt_int_out hi ++ [")"]
  end.

(** range_in of the literals [[lo,hi)] with both bounds given (the only form
    the package writes): rejected when lo > hi, empty when lo = hi. *)
Definition range_of_bounds (lo hi : Z) : option prange :=
  match Z.compare lo hi with
  | Lt => Some (RBounds (Some lo) (Some hi))
  | Eq => Some REmpty
  | Gt => None
  end.

(** Reading [[a,b)]. *)
Fixpoint before (c : ascii) (s : text) : option (text * text) :=
  match s with
  | [] => None
  | x :: r => if ascii_dec x c then Some ([], r)
              else match before c r with Some (a, b) => Some (x :: a, b) | None => None end
  end.

Definition range_in (s : text) : option prange :=
  match s with
  | "[" :: r =>
      match before "," r with
      | Some (a, r') =>
          match before ")" r' with
          | Some (b, []) =>
              match int_in a, int_in b with
              | Some lo, Some hi => range_of_bounds lo hi
              | _, _ => None
              end
          | _ => None
          end
      | None => None
      end
  | _ => None
  end.

(** *** int2vector: numbers separated by single blanks *)
Fixpoint blanks (l : list text) : text :=
  match l with
  | [] => []
  | [x] => x
  | x :: r => x ++ " " :: blanks r
  end.

Definition vector_out (l : list Z) : text := blanks (map int_out l).

(** *** hstore (F.16): pairs "key"=>"value" or "key"=>NULL, quotes and
    backslashes escaped by a backslash *)
Definition hstore := list (text * option text).

Definition hquote (e : text) : text := """" :: pg_escape e ++ [""""].

Definition hpair_out (p : text * option text) : text :=
  hquote (fst p) ++ ["="; ">"] ++ match snd p with Some v => hquote v | None => lit "NULL" end.

(** hstore_out separates the pairs by comma and blank. *)
Fixpoint hstore_out (m : hstore) : text :=
  match m with
  | [] => []
  | [p] => hpair_out p
  | p :: r => hpair_out p ++ [","; " "] ++ hstore_out r
  end.

(** hstore_in, for quoted keys and values and the unquoted word NULL (the only
    forms the package writes): a state machine over the characters. *)
Inductive hin :=
| HKey (first : bool)            (* before a key *)
| HKeyQ (acc : text)             (* in a key *)
| HEq (k : text)                 (* after a key *)
| HGt (k : text)                 (* after = *)
| HVal (k : text)                (* before a value *)
| HValQ (k acc : text)           (* in a quoted value *)
| HValU (k acc : text)           (* in an unquoted word *)
| HEnd (p : text * option text). (* after a pair *)

Fixpoint hin_go (st : hin) (pend : bool) (done : hstore) (s : text) : option hstore :=
  match s with
  | [] =>
      match st, pend with
      | HKey true, false => Some []
      | HEnd p, false => Some (rev (p :: done))
      | HValU k acc, false => if is_null_word acc then Some (rev ((k, None) :: done)) else None
      | _, _ => None
      end
  | c :: r =>
      if pend then
        match st with
        | HKeyQ acc => hin_go (HKeyQ (acc ++ [c])) false done r
        | HValQ k acc => hin_go (HValQ k (acc ++ [c])) false done r
        | _ => None
        end
      else
        match st with
        | HKey first =>
            if pg_space c then hin_go st false done r
            else if ascii_dec c """" then hin_go (HKeyQ []) false done r else None
        | HKeyQ acc =>
            if ascii_dec c "\" then hin_go st true done r
            else if ascii_dec c """" then hin_go (HEq acc) false done r
            else hin_go (HKeyQ (acc ++ [c])) false done r
        | HEq k =>
            if pg_space c then hin_go st false done r
            else if ascii_dec c "=" then hin_go (HGt k) false done r else None
        | HGt k => if ascii_dec c ">" then hin_go (HVal k) false done r else None
        | HVal k =>
            if pg_space c then hin_go st false done r
            else if ascii_dec c """" then hin_go (HValQ k []) false done r
            else hin_go (HValU k [c]) false done r
        | HValQ k acc =>
            if ascii_dec c "\" then hin_go st true done r
            else if ascii_dec c """" then hin_go (HEnd (k, Some acc)) false done r
            else hin_go (HValQ k (acc ++ [c])) false done r
        | HValU k acc =>
            if ascii_dec c "," then
              (if is_null_word acc then hin_go (HKey false) false ((k, None) :: done) r else None)
            else hin_go (HValU k (acc ++ [c])) false done r
        | HEnd p =>
            if pg_space c then hin_go st false done r
            else if ascii_dec c "," then hin_go (HKey false) false (p :: done) r else None
        end
  end.

Definition hstore_in (s : text) : option hstore := hin_go (HKey true) false [] s.

(** ** bit strings: one digit per bit. *)
Definition varbit_out (b : list bool) : text := map (fun x : bool => if x then "1" else "0") b.

Fixpoint varbit_in (s : text) : option (list bool) :=
  match s with
  | [] => Some []
  | c :: r =>
      match varbit_in r with
      | None => None
      | Some b => if ascii_dec c "1" then Some (true :: b)
                  else if ascii_dec c "0" then Some (false :: b) else None
      end
  end.

(** The number a bit string denotes, most significant bit first. *)
Definition bits_value (b : list bool) : N := fold_left (fun n x => N.double n + N.b2n x)%N b 0%N.

(** ** geometric types (8.8), coordinates being given as their texts. *)
Definition gpoint := (text * text)%type.
Definition point_out (p : gpoint) : text := "(" :: fst p ++ "," :: snd p ++ [")"].
Definition line_out (l : text * text * text) : text :=
  let '(a, b, c) := l in "{" :: a ++ "," :: b ++ "," :: c ++ ["}"].
Definition points_out (ps : list gpoint) : text := commas (map point_out ps).
Definition lseg_out (p q : gpoint) : text := "[" :: points_out [p; q] ++ ["]"].
Definition path_out (closed : bool) (ps : list gpoint) : text :=
  if closed then "(" :: points_out ps ++ [")"] else "[" :: points_out ps ++ ["]"].
Definition polygon_out (ps : list gpoint) : text := "(" :: points_out ps ++ [")"].
Definition box_out (p q : gpoint) : text := points_out [p; q].

(** The delimiter of box arrays is the semicolon. *)
Fixpoint semis (l : list text) : text :=
  match l with
  | [] => []
  | [x] => x
  | x :: r => x ++ ";" :: semis r
  end.
Definition box_array_out (l : list (option (gpoint * gpoint))) : text :=
  "{" :: semis (map (fun o => match o with Some (p, q) => box_out p q | None => lit "NULL" end) l) ++ ["}"].

(** ** money (8.2), in the en_US and C locales: the amount in cents. *)
Definition dec_digit (d : Z) : ascii := ascii_of_N (48 + Z.to_N d).
Definition digit_of (c : ascii) : option Z :=
  let n := N_of_ascii c in
  if (N.leb 48 n && N.leb n 57)%bool then Some (Z.of_N n - 48)%Z else None.

(** Groups of three digits, given least significant first. *)
Fixpoint group3 (n : nat) (r : text) : text :=
  match r with
  | [] => []
  | c :: r' => match n with
               | O => c :: "," :: group3 2 r'
               | S m => c :: group3 m r'
               end
  end.
Definition thousands (d : text) : text :=
  let g := group3 2 (rev d) in
  rev (match rev g with "," :: t => rev t | _ => g end).

(** cash_out: sign, currency symbol, grouped dollars, point, two digits. *)
Definition money_out (v : Z) : text :=
  let a := Z.abs v in
  (if (v <? 0)%Z then ["-"] else []) ++ "$" :: thousands (int_out (a / 100))
    ++ ["."; dec_digit (a / 10 mod 10); dec_digit (a mod 10)].

(** cash_in for amounts with exactly two decimals: an optional currency symbol,
    an optional minus sign, again an optional symbol, digits among which commas
    are ignored, a point and two digits. *)
Fixpoint money_digits (acc : Z) (some : bool) (s : text) : option Z :=
  match s with
  | [] => None
  | c :: r =>
      if ascii_dec c "." then
        match r with
        | [d; e] => match digit_of d, digit_of e with
                    | Some x, Some y => if some then Some (acc * 100 + x * 10 + y)%Z else None
                    | _, _ => None
                    end
        | _ => None
        end
      else if ascii_dec c "," then money_digits acc some r
      else match digit_of c with
           | Some x => money_digits (acc * 10 + x)%Z true r
           | None => None
           end
  end.
Definition skip_char (c : ascii) (s : text) : text * bool :=
  match s with
  | d :: r => if ascii_dec d c then (r, true) else (s, false)
  | [] => (s, false)
  end.
Definition money_in (s : text) : option Z :=
  let s1 := fst (skip_char "$" s) in
  let '(s2, neg) := skip_char "-" s1 in
  let s3 := fst (skip_char "$" s2) in
  option_map (fun v => if neg then (- v)%Z else v) (money_digits 0 false s3).
