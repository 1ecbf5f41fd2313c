(** Independent description of what may be written in the struct tags:
    identifiers, conditions, and field options. *)
From Coq Require Import Ascii String ZArith NArith Bool List.
From Verif Require Import PgSpec.
Import ListNotations.
Local Open Scope char_scope.

(** *** identifiers *)
Definition between (lo c hi : ascii) : Prop := (N_of_ascii lo <= N_of_ascii c <= N_of_ascii hi)%N.
Definition name_start (c : ascii) : Prop := between "A" c "Z" \/ between "a" c "z" \/ c = "_".
Definition name_char (c : ascii) : Prop := name_start c \/ between "0" c "9".
Definition is_name (s : text) : Prop :=
  exists c r, s = c :: r /\ name_start c /\ Forall name_char r.

(** Equality without regard to the case of A-Z. *)
Definition lower_char (c : ascii) : ascii :=
  if ((N_of_ascii "A" <=? N_of_ascii c) && (N_of_ascii c <=? N_of_ascii "Z"))%N
  then ascii_of_N (N_of_ascii c + 32) else c.
Definition spelled (s w : text) : Prop := map lower_char s = w.

(** The words that SQL reads as values, not as columns. *)
Definition value_words : list text :=
  map lit ["true"; "false"; "current_date"; "current_time"; "current_timestamp"; "current_role";
           "current_schema"; "current_user"; "localtime"; "localtimestamp"; "session_user"]%string.
Definition is_value_word (s : text) : Prop := exists w, In w value_words /\ spelled s w.

(** qualifier.name, or name when the qualifier is empty *)
Definition qualified (q n : text) : text := match q with [] => n | _ => q ++ "." :: n end.
(** name:alias, or name when the alias is empty *)
Definition aliased (n a : text) : text := match a with [] => n | _ => n ++ ":" :: a end.

(** *** conditions *)
Definition space (c : ascii) : Prop :=
  In (N_of_ascii c) [9; 10; 11; 12; 13; 32]%N.
Definition spaces (s : text) : Prop := Forall space s.
(** No white space at either end. *)
Definition trimmed (s : text) : Prop :=
  (forall c r, s = c :: r -> ~ space c) /\ (forall r c, s = r ++ [c] -> ~ space c).
Definition ascii7 (s : text) : Prop := Forall (fun c => (N_of_ascii c < 128)%N) s.

Definition symbols : list text := map lit ["="; "<>"; "!="; "<"; ">"; "<="; ">="; "~"; "~*"; "!~"; "!~*"]%string.
Definition op_words : list text :=
  map lit ["isdistinct"; "notdistinct"; "islike"; "notlike"; "isilike"; "notilike"; "issimilar"; "notsimilar";
           "isin"; "notin"; "isbetween"; "notbetween"; "isbetweensym"; "notbetweensym";
           "isnull"; "notnull"; "istrue"; "nottrue"; "isfalse"; "notfalse"; "isunknown"; "notunknown"]%string.
Definition quant_words : list text := map lit ["any"; "some"; "all"]%string.

Definition symbol_char (c : ascii) : Prop := In c ["="; "!"; "<"; ">"; "~"].
Definition prefix_of (a s : text) : Prop := exists t, s = a ++ t.

(** A word ends at a blank or at the end of the text. *)
Definition word_ends (t : text) : Prop := t = [] \/ exists r, t = " " :: r.

(** An operator: [op_at w o t op] reads: after a column, white space [w] and
    the characters [o], followed by [t], denote the operator [op].  A symbol is
    read as long as possible; a word needs a blank before it and may be written
    in any case. *)
Inductive op_at : text -> text -> text -> text -> Prop :=
| op_symbol : forall w op t, spaces w -> In op symbols ->
    (forall op', In op' symbols -> prefix_of op' (op ++ t) -> (List.length op' <= List.length op)%nat) ->
    op_at w op t op
| op_word : forall w o t op, spaces w -> In op op_words -> spelled o op -> word_ends t ->
    op_at (w ++ [" "]) o t op.

(** The text [t] after an operator holds the quantifier [q] (or none: empty)
    and the operand [r]. *)
Definition starts_with_quantifier (r : text) : Prop :=
  exists q o t, In q quant_words /\ spelled o q /\ r = o ++ t /\ word_ends t.
Inductive operand : text -> text -> text -> Prop :=
| opd_plain : forall w r w', spaces w -> spaces w' -> trimmed r -> ~ starts_with_quantifier r ->
    operand (w ++ r ++ w') [] r
| opd_quant : forall w o q t w1 r w2, spaces w -> In q quant_words -> spelled o q -> word_ends t ->
    t = w1 ++ r ++ w2 -> spaces w1 -> spaces w2 -> trimmed r ->
    operand (w ++ o ++ t) q r.

(** *** field options *)
(** What may be done with a field; [PNull]: it may be treated as holding NULL. *)
Inductive permission := PSelect | PFilter | PInsert | PUpdate | PNull.

(** What an option says: the list of (permission, granted) in reading order. *)
Definition letter_says (granted : bool) (c : ascii) : list (permission * bool) :=
  match c with
  | "r" => [(PSelect, granted); (PFilter, granted)]
  | "w" => [(PInsert, granted); (PUpdate, granted)]
  | "s" => [(PSelect, granted)]
  | "f" => [(PFilter, granted)]
  | "i" => [(PInsert, granted)]
  | "u" => [(PUpdate, granted)]
  | "N" => [(PNull, granted)]
  | _ => []
  end%char.
Definition option_says (o : text) : list (permission * bool) :=
  match o with
  | ["r"; "o"] => [(PInsert, false); (PUpdate, false)]
  | ["w"; "o"] => [(PSelect, false); (PFilter, false)]
  | ["x"; "f"] => [(PFilter, false)]
  | ["n"; "n"] => [(PNull, false)]
  | "-" :: l => flat_map (letter_says false) l
  | "+" :: l => flat_map (letter_says true) l
  | _ => []
  end%char.
(** The last word on a permission; everything is granted by default. *)
Definition last_word (p : permission) (l : list (permission * bool)) (b : bool) : Prop :=
  (exists l1 l2, l = l1 ++ (p, b) :: l2 /\ forall b', ~ In (p, b') l2)
  \/ (b = true /\ forall b', ~ In (p, b') l).
