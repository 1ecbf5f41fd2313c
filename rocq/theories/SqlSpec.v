(** Independent description of the SQL fragments the package writes: ordinal
    parameters inside a text, and boolean conditions. *)
From Coq Require Import Ascii String ZArith NArith Bool List.
From Verif Require Import PgSpec.
Import ListNotations.
Local Open Scope char_scope.

(** *** ordinal parameters
    A text is a sequence of characters and of parameters $n, where n is the
    longest run of digits after the dollar sign. *)
Inductive stok := Ch (c : ascii) | Ph (n : Z).

Definition flush (st : option (option Z)) : list stok :=
  match st with
  | None => []
  | Some None => [Ch "$"]
  | Some (Some n) => [Ph n]
  end.
(** [st]: outside a parameter; after the dollar sign; after some digits. *)
Fixpoint lex (st : option (option Z)) (s : text) : list stok :=
  match s with
  | [] => flush st
  | c :: r =>
      match st, digit_of c with
      | Some x, Some d => lex (Some (Some (match x with Some n => n * 10 + d | None => d end)%Z)) r
      | _, _ => flush st ++ (if ascii_dec c "$" then lex (Some None) r else Ch c :: lex None r)
      end
  end.
Definition tokens (s : text) : list stok := lex None s.

(** The parameters from left to right. *)
Definition placeholders (s : text) : list Z :=
  flat_map (fun t => match t with Ph n => [n] | Ch _ => [] end) (tokens s).

(** The text with every parameter $n replaced by [f n]. *)
Definition instantiate (f : Z -> text) (s : text) : text :=
  flat_map (fun t => match t with Ph n => f n | Ch c => [c] end) (tokens s).

(** *** conditions *)
(** $n, for some n *)
Definition is_param (t : text) : Prop := exists n, t = "$" :: int_out n.

(** A column name or a word of an operator. *)
Definition word (s : text) : Prop := s <> [] /\ Forall (fun c => c <> " " /\ c <> "(" /\ c <> ")") s.
Definition is_operator (s : text) : Prop := exists ws, ws <> [] /\ Forall word ws /\ s = blanks ws.

(** Predicates: comparison, IS test, IN, ANY, text search. *)
Inductive is_predicate : text -> Prop :=
| pr_cmp : forall col op p, word col -> is_operator op -> is_param p -> is_predicate (col ++ " " :: op ++ " " :: p)
| pr_is : forall col w, word col -> In w (map lit ["NULL"; "NOT NULL"; "TRUE"; "NOT TRUE"; "FALSE"; "NOT FALSE"]%string) ->
    is_predicate (col ++ lit " IS " ++ w)
| pr_in : forall col ps, word col -> ps <> [] -> Forall is_param ps -> is_predicate (col ++ lit " IN (" ++ commas ps ++ lit ")")
| pr_any : forall col p ty, word col -> is_param p -> In ty (map lit ["int8"; "int4"; "int2"; "text"]%string) ->
    is_predicate (col ++ lit " = ANY(" ++ p ++ lit "::" ++ ty ++ lit "[])")
| pr_ts : forall col p, word col -> is_param p -> is_predicate (col ++ lit " @@ to_tsquery('simple', " ++ p ++ lit ")").

(** Boolean conditions over them. *)
Inductive is_condition : text -> Prop :=
| cd_pred : forall t, is_predicate t -> is_condition t
| cd_group : forall t, is_condition t -> is_condition (lit "(" ++ t ++ lit ")")
| cd_and : forall a b, is_condition a -> is_condition b -> is_condition (a ++ lit " AND " ++ b)
| cd_or : forall a b, is_condition a -> is_condition b -> is_condition (a ++ lit " OR " ++ b).

(** *** parentheses: the number of open ones after a text, if they never close
    more than was opened *)
Fixpoint level (s : text) (d : Z) : option Z :=
  match s with
  | [] => Some d
  | c :: r => if ascii_dec c "(" then level r (d + 1)%Z
              else if ascii_dec c ")" then (if (0 <? d)%Z then level r (d - 1)%Z else None)
              else level r d
  end.
Definition balanced (s : text) : Prop := level s 0 = Some 0%Z.

(** *** joining with a separator *)
Fixpoint joined (sep : text) (l : list text) : text :=
  match l with
  | [] => []
  | [x] => x
  | x :: r => x ++ sep ++ joined sep r
  end.
(** A text is the pieces joined by the separator, no piece holding it. *)
Definition pieces (sep : ascii) (l : list text) (s : text) : Prop :=
  l <> [] /\ Forall (fun x => ~ In sep x) l /\ s = joined [sep] l.
