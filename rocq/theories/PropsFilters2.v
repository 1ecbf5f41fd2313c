(** Properties of package filter: FQL, broken clauses, paging, sorting, text search. *)
From Coq Require Import Ascii String ZArith NArith Bool List Lia.
From Verif Require Import GoBase Strconv StrconvProofs ConvertUtil ConvertProofs Codecs IntCodecs Filter PgSpec PgSpecProofs TextProofs DecimalLink MoneyProofs SqlSpec FilterProofs FilterRun FilterGram FiltersFinal.
From Verif Require Import Filters2Final.
Import ListNotations.
Local Open Scope char_scope.

(** An FQL condition whose rules are all usable becomes a condition, joined to
    what was there by AND if need be, and nothing else of the filter changes. *)
Theorem C25_fql_condition : forall toks s, fql_cond (s_colmap s) toks ->
  exists g, UnmarshalFQL toks false s
      = (set_where (f_where s ++ (match rev (f_where s) with [] => [] | n :: _ => if node_canAndOr n then [NAnd] else [] end) ++ g) s, false)
    /\ cond g.
Proof. exact C25_fql_condition_proof. Qed.
Print Assumptions C25_fql_condition.

Example C25_fql_ex : fql_cond demo_map fql_demo
  /\ rmap fst (CountToSQL (fst (UnmarshalFQL fql_demo false (InitV2 demo_map [] zero_cst))) 0)
     = Ok (lit " WHERE u.age < $1 OR (u.name IS NULL AND u.age > $2)").
Proof. split; [exact fql_demo_cond|vm_compute; reflexivity]. Qed.

(** C26: a comparison of nil with another operator, a trailing And or Or, an
    empty group, an empty list, and an FQL rule with an unknown key (in the
    default mode, without any error) leave the clause broken. *)
Theorem C26_broken_where_clauses :
  breaks [KCol (B "a") (B "=") (GInt 1); KCol (B "b") (B ">") GNil] "a = $1 AND "
  /\ breaks [KCol (B "a") (B "=") (GInt 1); KCol (B "b") (B "!=") (GBool true)] "a = $1 AND "
  /\ breaks [KCol (B "a") (B "=") (GInt 1); KOr None] "a = $1 OR "
  /\ breaks [KAnd (Some [])] "()"
  /\ breaks [KInInts (B "a") (Some [])] "a IN ()"
  /\ breaks [KCol (B "a") (B "in") (GStrings None)] "a IN ()"
  /\ breaks [KInit demo_map []; KFQL [TRule (B "age") (B "<") (GInt64 9); TAnd; TRule (B "nosuch") (B "=") (GInt64 1)] false] "u.age < $1 AND "
  /\ snd (UnmarshalFQL [TRule (B "age") (B "<") (GInt64 9); TAnd; TRule (B "nosuch") (B "=") (GInt64 1)] false (InitV2 demo_map [] zero_cst)) = false.
Proof. exact C26_broken_where_clauses_proof. Qed.
Print Assumptions C26_broken_where_clauses.

Example C26_ex : is_condition (lit "a = $1").
Proof.
  apply cd_pred. apply (pr_cmp (lit "a") (lit "=") (lit "$1")).
  - apply word_lit; [discriminate|reflexivity].
  - exists [lit "="]. split; [discriminate|]. split; [|reflexivity]. apply Forall_cons; [apply word_lit; [discriminate|reflexivity]|constructor].
  - exists 1%Z. reflexivity.
Qed.

(** The limit in force is the last positive one given; the offset is that of
    the last effective Offset or Page call, a page counting the limit in force
    when Page was called (up to wrapping around of int64). *)
Theorem C27_limit_offset_page : forall cs, let s := runs cs zero_cst in let l := flat_map leaves cs in
  f_limit s = last_limit l
  /\ (forallb (fun k => negb (is_paging k)) l = true -> f_offset s = 0%Z)
  /\ (forall pre n post, l = pre ++ KOffset n :: post -> (0 < n)%Z -> forallb (fun k => negb (is_paging k)) post = true -> f_offset s = n)
  /\ (forall pre n post, l = pre ++ KPage n :: post -> (0 < n)%Z -> forallb (fun k => negb (is_paging k)) post = true ->
        (-2 ^ 63 <= f_offset s < 2 ^ 63)%Z /\ ((f_offset s - last_limit pre * (n - 1)) mod 2 ^ 64 = 0)%Z
        /\ ((last_limit pre * (n - 1) < 2 ^ 63)%Z -> f_offset s = (last_limit pre * (n - 1))%Z)).
Proof. exact C27_limit_offset_page_proof. Qed.
Print Assumptions C27_limit_offset_page.

Example C27_ex : f_offset (runs [KPage 2; KAnd (Some [KLimit 25]); KOffset 3; KLimit (-1); KPage 5; KOffset 0] zero_cst) = 100%Z
  /\ f_limit (runs [KPage 2; KAnd (Some [KLimit 25]); KOffset 3; KLimit (-1); KPage 5; KOffset 0] zero_cst) = 25%Z
  /\ rmap fst (ToSQL (runs [KLimit 20; KPage 3] zero_cst) 0) = Ok (lit " LIMIT 20 OFFSET 40").
Proof. conjs; vm_compute; reflexivity. Qed.

(** The page can be lost: when Page is called before Limit, and when the
    product exceeds int64. *)
Theorem C27_page_can_be_lost :
  rmap fst (ToSQL (runs [KPage 3; KLimit 20] zero_cst) 0) = Ok (lit " LIMIT 20")
  /\ rmap fst (ToSQL (runs [KLimit (2 ^ 62); KPage 5] zero_cst) 0) = Ok (lit " LIMIT 4611686018427387904")
  /\ rmap fst (ToSQL (runs [KLimit (2 ^ 62); KPage 3] zero_cst) 0) = Ok (lit " LIMIT 4611686018427387904").
Proof. exact C27_page_can_be_lost_proof. Qed.
Print Assumptions C27_page_can_be_lost.

(** C28 *)
Theorem C28_sort_lenient : forall str items s, pieces "," items str -> s_strict s = false ->
  UnmarshalSort str s = (set_orderby (extended (f_orderby s) (flat_map (known (s_colmap s)) (sort_keys items))) s, false).
Proof. exact C28_sort_lenient_proof. Qed.
Print Assumptions C28_sort_lenient.

Theorem C28_sort_strict : forall str items s, pieces "," items str -> s_strict s = true ->
  UnmarshalSort str s = (set_orderby (extended (f_orderby s) (flat_map (known (s_colmap s)) (known_prefix (s_colmap s) (sort_keys items)))) s,
                         negb (forallb (is_known (s_colmap s)) (sort_keys items))).
Proof. exact C28_sort_strict_proof. Qed.
Print Assumptions C28_sort_strict.

Theorem C28_every_text_has_items : forall str, exists items, pieces "," items str.
Proof. exact C28_every_text_has_items_proof. Qed.
Print Assumptions C28_every_text_has_items.

Example C28_ex : pieces "," [lit "-name"; []; lit "nosuch"; lit "-"; lit "age"] (lit "-name,,nosuch,-,age")
  /\ f_orderby (fst (UnmarshalSort (lit "-name,,nosuch,-,age") (InitV2 demo_map [] zero_cst))) = lit "u.name DESC NULLS LAST, u.age ASC"
  /\ f_orderby (fst (UnmarshalSort (lit "-name,,nosuch,-,age") (StrictSwitch (InitV2 demo_map [] zero_cst)))) = lit "u.name DESC NULLS LAST"
  /\ snd (UnmarshalSort (lit "-name,,nosuch,-,age") (StrictSwitch (InitV2 demo_map [] zero_cst))) = true.
Proof.
  conjs; try reflexivity. split; [discriminate|]. split; [|reflexivity].
  repeat (apply Forall_cons || apply Forall_nil); cbn; intuition discriminate.
Qed.

(** The words of the text between blanks, each marked for prefix matching,
    joined by &. *)
Theorem C48_text_search_query : forall a t b words, Forall blank a -> Forall blank b -> trimmed t -> pieces " " words t ->
  toTSQuery (a ++ t ++ b) = joined (lit " & ") (map (fun w => w ++ lit ":*") (filter filled words)).
Proof. exact C48_text_search_query_proof. Qed.
Print Assumptions C48_text_search_query.

Example C48_ex : Forall blank (lit " ") /\ trimmed (lit "big  dog") /\ pieces " " [lit "big"; []; lit "dog"] (lit "big  dog")
  /\ toTSQuery (lit " big  dog") = lit "big:* & dog:*".
Proof.
  conjs; try reflexivity.
  - apply Forall_cons; [cbn; tauto|constructor].
  - split; cbn; intuition discriminate.
  - split; [discriminate|]. split; [|reflexivity]. repeat (apply Forall_cons || apply Forall_nil); cbn; intuition discriminate.
Qed.
