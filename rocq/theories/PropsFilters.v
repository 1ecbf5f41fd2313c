(** Properties of package filter and of ordinal parameters. *)
From Coq Require Import Ascii String ZArith NArith Bool List Lia.
From Verif Require Import GoBase Strconv StrconvProofs ConvertUtil ConvertProofs Codecs IntCodecs Filter PgSpec PgSpecProofs TextProofs DecimalLink MoneyProofs SqlSpec FilterProofs FilterRun FilterGram.
From Verif Require Import FiltersFinal.
Import ListNotations.
Local Open Scope char_scope.

(** C21: the list for an IN predicate. *)
Theorem C21_in_value_list : forall num pos,
  ((num <= 0)%Z -> InValueList num pos = Ok [])
  /\ ((0 < num)%Z -> (0 <= pos)%Z -> (pos + num <= 65535)%Z ->
        InValueList num pos = Ok (commas (map dollar (counted pos (Z.to_nat num)))))
  /\ (InValueList num pos = Panic <-> (0 < num /\ (pos < 0 \/ 65535 < pos + num))%Z).
Proof. exact C21_in_value_list_proof. Qed.
Print Assumptions C21_in_value_list.

Example C21_ex : InValueList 3 9 = Ok (B "$10,$11,$12") /\ InValueList 2 65533 = Ok (B "$65534,$65535") /\ InValueList 2 65534 = Panic
  /\ InValueList 1 (-1) = Panic /\ InValueList 0 70000 = Ok [].
Proof. conjs; reflexivity. Qed.

(** The parameters of the list, read back. *)
Theorem C21_in_value_list_placeholders : forall num pos s, InValueList num pos = Ok s ->
  placeholders s = counted pos (Z.to_nat num).
Proof. exact C21_in_value_list_placeholders_proof. Qed.
Print Assumptions C21_in_value_list_placeholders.

Example C21_placeholders_ex : placeholders (B "$10,$11,$12") = [10; 11; 12]%Z.
Proof. reflexivity. Qed.

(** The placeholders run from p+1 upwards, one for each parameter. *)
Theorem C22_placeholders : forall cs p sql params, Forall dollar_free cs -> (0 <= p)%Z ->
  ToSQL (runs cs zero_cst) p = Ok (sql, params) -> placeholders sql = counted p (List.length params).
Proof. exact C22_placeholders_proof. Qed.
Print Assumptions C22_placeholders.

Example C22_ex : Forall dollar_free demo /\ ToSQL (runs demo zero_cst) 7 = Ok (demo_sql, demo_params)
  /\ placeholders demo_sql = [8; 9; 10; 11; 12; 13; 14]%Z.
Proof. split; [exact demo_dollar_free|]. split; vm_compute; reflexivity. Qed.

Theorem C22_parameters_are_the_given_values : forall cs p sql params,
  ToSQL (runs cs zero_cst) p = Ok (sql, params) -> params = snd (givens cs no_env).
Proof. exact C22_parameters_are_the_given_values_proof. Qed.
Print Assumptions C22_parameters_are_the_given_values.

Example C22_given_ex : snd (givens demo no_env) = demo_params.
Proof. reflexivity. Qed.

(** Replacing $n by the n-p-th parameter puts every value next to its column
    and operator. *)
Theorem C22_each_value_at_its_predicate : forall (show : gval -> text) cs p sql params, Forall dollar_free cs -> (0 <= p)%Z ->
  CountToSQL (runs cs zero_cst) p = Ok (sql, params) ->
  instantiate (fun n => show (nth (Z.to_nat (n - p - 1)) params GNil)) sql
  = match f_where (runs cs zero_cst) with [] => [] | l => lit " WHERE " ++ flat_map (shown show) l end.
Proof. exact C22_each_value_at_its_predicate_proof. Qed.
Print Assumptions C22_each_value_at_its_predicate.

Example C22_shown_ex : flat_map (shown demo_show) (f_where (runs demo zero_cst))
  = lit "u.id > 5 AND u.gone IS NOT NULL OR (u.kind IN (a,b) AND u.lvl = ANY({1,2}::int4[]) AND u.doc @@ to_tsquery('simple', big:* & dog:*)) AND (u.age < 9 OR u.name = x)".
Proof. reflexivity. Qed.

(** C23 *)
Theorem C23_panics_exactly_beyond_the_limit : forall cs p, let n := Z.of_nat (List.length (snd (givens cs no_env))) in
  (ToSQL (runs cs zero_cst) p = Panic <-> (0 < n /\ (p < 0 \/ 65535 < p + n))%Z)
  /\ (ToSQL (runs cs zero_cst) p <> Panic -> exists sql params, ToSQL (runs cs zero_cst) p = Ok (sql, params)).
Proof. exact C23_panics_exactly_beyond_the_limit_proof. Qed.
Print Assumptions C23_panics_exactly_beyond_the_limit.

Example C23_ex : ToSQL (runs demo zero_cst) 65529 = Panic /\ is_ok (ToSQL (runs demo zero_cst) 65528) = true
  /\ is_ok (ToSQL (runs [KLimit 3] zero_cst) (-5)) = true.
Proof. conjs; vm_compute; reflexivity. Qed.

(** C24: the count filter is the same without ORDER BY, LIMIT and OFFSET. *)
Theorem C24_count_filter : forall s p,
  CountToSQL s p = Panic /\ ToSQL s p = Panic
  \/ exists sql params, CountToSQL s p = Ok (sql, params)
     /\ ToSQL s p = Ok (sql ++ (match f_orderby s with [] => [] | o => lit " ORDER BY " ++ o end)
                            ++ (if (0 <? f_limit s)%Z then lit " LIMIT " ++ int_out (f_limit s) else [])
                            ++ (if (0 <? f_offset s)%Z then lit " OFFSET " ++ int_out (f_offset s) else []), params)
     /\ (f_where s = [] -> sql = [] /\ params = [])
     /\ (f_where s <> [] -> exists cond, sql = lit " WHERE " ++ cond).
Proof. exact C24_count_filter_proof. Qed.
Print Assumptions C24_count_filter.

Example C24_ex : CountToSQL (runs demo zero_cst) 7 = Ok (demo_count, demo_params)
  /\ demo_sql = demo_count ++ B " ORDER BY u.name DESC NULLS LAST, u.age ASC LIMIT 20 OFFSET 40".
Proof. split; vm_compute; reflexivity. Qed.

Theorem C24_position_only_renumbers : forall cs p d sql sql' params params', Forall dollar_free cs -> (0 <= p)%Z -> (0 <= d)%Z ->
  ToSQL (runs cs zero_cst) p = Ok (sql, params) -> ToSQL (runs cs zero_cst) (p + d) = Ok (sql', params') ->
  params' = params /\ tokens sql' = map (renumber d) (tokens sql).
Proof. exact C24_position_only_renumbers_proof. Qed.
Print Assumptions C24_position_only_renumbers.

Example C24_renumber_ex : ToSQL (runs demo zero_cst) 7 = Ok (demo_sql, demo_params)
  /\ rmap (fun r => (placeholders (fst r), snd r)) (ToSQL (runs demo zero_cst) (7 + 92)) = Ok ([100; 101; 102; 103; 104; 105; 106]%Z, demo_params).
Proof. split; vm_compute; reflexivity. Qed.

(** If no list of an IN predicate is empty, every nested group and the whole
    sequence end with a call that adds a predicate or a group, then the WHERE
    clause is a condition. *)
Theorem C25_where_is_a_condition : forall m ts cs p sql params, forallb plain cs = true ->
  (ts <> [] -> word ts) -> Forall worded (flat_map leaves cs) ->
  forallb (proper (ts_given ts)) cs = true -> ends_with_pred (ts_given ts) cs = true ->
  CountToSQL (runs (KInit m ts :: cs) zero_cst) p = Ok (sql, params) ->
  exists c, sql = lit " WHERE " ++ c /\ is_condition c.
Proof. exact C25_where_is_a_condition_proof. Qed.
Print Assumptions C25_where_is_a_condition.

Example C25_ex : forallb plain good = true /\ Forall worded (flat_map leaves good) /\ word (B "doc")
  /\ forallb (proper true) good = true /\ ends_with_pred true good = true
  /\ rmap fst (CountToSQL (runs (KInit [] (B "doc") :: good) zero_cst) 0)
     = Ok (lit " WHERE a = $1 OR b not like $2 AND (c IN ($3,$4) OR (d IS NOT TRUE OR doc @@ to_tsquery('simple', $5)))").
Proof.
  conjs; try reflexivity; try (vm_compute; reflexivity).
  - repeat (apply Forall_cons || apply Forall_nil); cbn [worded]; auto.
    + split; [apply word_lit; [discriminate|reflexivity]|]. exists [lit "="]. split; [discriminate|]. split; [|reflexivity].
      apply Forall_cons; [apply word_lit; [discriminate|reflexivity]|constructor].
    + split; [apply word_lit; [discriminate|reflexivity]|]. exists [lit "not"; lit "like"]. split; [discriminate|]. split; [|reflexivity].
      apply Forall_cons; [apply word_lit; [discriminate|reflexivity]|]. apply Forall_cons; [apply word_lit; [discriminate|reflexivity]|constructor].
    + apply word_lit; [discriminate|reflexivity].
    + split; [apply word_lit; [discriminate|reflexivity]|]. exists [lit "<>"]. split; [discriminate|]. split; [|reflexivity].
      apply Forall_cons; [apply word_lit; [discriminate|reflexivity]|constructor].
  - apply word_lit; [discriminate|reflexivity].
Qed.

(** These conditions are also necessary: the sequence of nodes has the
    structure of a condition exactly then. *)
Theorem C25_exactly_proper_sequences : forall m ts cs, forallb plain cs = true ->
  (cond (f_where (runs (KInit m ts :: cs) zero_cst))
   <-> forallb (proper (ts_given ts)) cs = true /\ ends_with_pred (ts_given ts) cs = true).
Proof. exact C25_exactly_proper_sequences_proof. Qed.
Print Assumptions C25_exactly_proper_sequences.

Example C25_iff_ex : forallb (proper false) (good ++ [KAnd None]) = false /\ ends_with_pred true (good ++ [KAnd None]) = false.
Proof. split; reflexivity. Qed.

Theorem C25_parentheses_always_match : forall m ts cs p sql params, forallb plain cs = true ->
  unbracketed ts -> Forall bracket_free (flat_map leaves cs) ->
  CountToSQL (runs (KInit m ts :: cs) zero_cst) p = Ok (sql, params) -> balanced sql.
Proof. exact C25_parentheses_always_match_proof. Qed.
Print Assumptions C25_parentheses_always_match.

Example C25_parentheses_ex : forallb plain sloppy = true /\ Forall bracket_free (flat_map leaves sloppy)
  /\ rmap fst (CountToSQL (runs (KInit [] [] :: sloppy) zero_cst) 0) = Ok (lit " WHERE () OR (() AND a IN () OR )").
Proof.
  conjs; try (vm_compute; reflexivity). assert (forall s, existsb (fun c => Ascii.eqb c "(" || Ascii.eqb c ")") (lit s) = false -> unbracketed (lit s)) by apply unb_lit.
  repeat (apply Forall_cons || apply Forall_nil); cbn [bracket_free]; auto.
Qed.
