(** Definitions and proofs used by PropsFilters.v. *)
From Coq Require Import Ascii String ZArith NArith Bool List Lia.
From Verif Require Import GoBase Strconv StrconvProofs ConvertUtil ConvertProofs Codecs IntCodecs Filter PgSpec PgSpecProofs TextProofs DecimalLink MoneyProofs SqlSpec FilterProofs FilterRun FilterGram.
Import ListNotations.
Local Open Scope char_scope.

(** The numbers from+1, ..., from+n. *)
Definition counted (from : Z) (n : nat) : list Z := map (fun i => (from + Z.of_nat i)%Z) (seq 1 n).

(** $n *)
Definition dollar (n : Z) : text := "$" :: int_out n.

Lemma counted_zrange : forall p n, counted p n = map (fun i => (i + 1)%Z) (zrange p n).
Proof.
  intros. unfold counted, zrange. rewrite map_map, <- seq_shift, map_map. apply map_ext. intros. lia.
Qed.

Lemma par_dollar : forall p n, map par (zrange p n) = map dollar (counted p n).
Proof. intros. rewrite counted_zrange, map_map. apply map_ext. intros i. unfold par, dollar. f_equal. apply format_int_spec. Qed.

Lemma C21_in_value_list_proof : forall num pos,
  ((num <= 0)%Z -> InValueList num pos = Ok [])
  /\ ((0 < num)%Z -> (0 <= pos)%Z -> (pos + num <= 65535)%Z ->
        InValueList num pos = Ok (commas (map dollar (counted pos (Z.to_nat num)))))
  /\ (InValueList num pos = Panic <-> (0 < num /\ (pos < 0 \/ 65535 < pos + num))%Z).
Proof.
  intros num pos. rewrite InValueList_spec. conjs.
  - intros H. apply Z.leb_le in H. now rewrite H.
  - intros A C D. destruct (Z.leb_spec num 0); [lia|].
    replace ((0 <=? pos) && (pos + num <=? 65535))%Z with true by (symmetry; apply andb_true_iff; rewrite !Z.leb_le; auto).
    now rewrite par_dollar.
  - destruct (Z.leb_spec num 0). { split; [discriminate|lia]. }
    destruct (Z.leb_spec 0 pos), (Z.leb_spec (pos + num) 65535); cbn [andb]; split; intros; try lia; try discriminate; reflexivity.
Qed.

Lemma C21_in_value_list_placeholders_proof : forall num pos s, InValueList num pos = Ok s ->
  placeholders s = counted pos (Z.to_nat num).
Proof.
  intros num pos s H. rewrite InValueList_spec in H. destruct (Z.leb_spec num 0) as [L|L].
  - injection H as <-. replace (Z.to_nat num) with 0%nat by lia. reflexivity.
  - destruct (Z.leb_spec 0 pos) as [P|P]; [|discriminate]. cbn [andb] in H. destruct (pos + num <=? 65535)%Z; [|discriminate]. injection H as <-.
    unfold placeholders, tokens. replace (Z.to_nat num) with (S (Z.to_nat num - 1)) by lia.
    pose proof (all_text_toks [NIn [] (repeat GNil (S (Z.to_nat num - 1)))] pos [] P eq_refl) as E.
    assert (Forall node_nodollar [NIn [] (repeat GNil (S (Z.to_nat num - 1)))]) as F by (constructor; [intros []|constructor]).
    specialize (E F I). pose proof (all_toks_ph [NIn [] (repeat GNil (S (Z.to_nat num - 1)))] pos) as Q.
    rewrite zrange_S. cbn [map]. rewrite commas_concat.
    assert (forall m q, (0 <= q)%Z -> lex None (List.concat (map (cons ",") (map par (zrange q m)))) = List.concat (map (cons (Ch ",")) (phs q m))) as LC.
    { induction m as [|m IH]; intros q Q0. reflexivity. unfold phs. rewrite zrange_S. cbn [map List.concat app].
      cbn [lex flush app]. destruct (ascii_dec "," "$"); [discriminate|].
      rewrite lex_par; auto. cbn [app]. do 2 f_equal. apply IH. lia. destruct m; reflexivity. }
    rewrite lex_par; auto. 2:{ destruct (Z.to_nat num - 1)%nat; reflexivity. }
    rewrite LC by lia. cbn [flat_map app]. rewrite counted_zrange, zrange_S. cbn [map]. f_equal.
    unfold phs. clear. generalize (zrange (pos + 1) (Z.to_nat num - 1)). induction l as [|x l IH]; auto. cbn [map List.concat app flat_map]. now rewrite IH.
Qed.

(** *** C22: placeholders and parameters *)
Lemma tail_clean : forall s, inv s -> nodollar (tail_sql s).
Proof.
  intros s I. unfold tail_sql.
  assert (forall z, (0 < z)%Z -> nodollar (format_int 10 z)) as NI.
  { intros z Z0 H. rewrite format_int_dec in H by lia. pose proof (format_dec (Z.to_N z)) as F.
    rewrite Forall_forall in F. destruct (F _ H) as (d & V & D). cbn in V. discriminate. }
  apply nodollar_app.
  - pose proof (inv_order _ I) as O. destruct (f_orderby s). apply nodollar_nil. apply nodollar_app; auto. apply nodollar_lit; reflexivity.
  - apply nodollar_app.
    + destruct (Z.ltb_spec 0 (f_limit s)). apply nodollar_app; auto. apply nodollar_lit; reflexivity. apply nodollar_nil.
    + destruct (Z.ltb_spec 0 (f_offset s)). apply nodollar_app; auto. apply nodollar_lit; reflexivity. apply nodollar_nil.
Qed.

Lemma tail_start : forall s, starts_nondigit (tail_sql s).
Proof.
  intros s. unfold tail_sql. destruct (f_orderby s). 2: reflexivity. cbn [app].
  destruct (0 <? f_limit s)%Z. reflexivity. cbn [app]. destruct (0 <? f_offset s)%Z; reflexivity || exact I.
Qed.

Lemma where_toks : forall s p rest, inv s -> (0 <= p)%Z -> starts_nondigit rest ->
  lex None (where_text (f_where s) p ++ rest)
  = (match f_where s with [] => [] | _ => map Ch (lit " WHERE ") end) ++ all_toks (f_where s) p ++ lex None rest.
Proof.
  intros s p rest I P S. unfold where_text. destruct (f_where s) as [|n l] eqn:E; [reflexivity|].
  rewrite <- app_assoc, lex_plain by (apply nodollar_lit; reflexivity). f_equal.
  rewrite <- E. apply all_text_toks; auto; apply I.
Qed.

Lemma plain_toks_ph : forall s, flat_map (fun t => match t with Ph n => [n] | Ch _ => [] end) (map Ch s) = [].
Proof. induction s; auto. Qed.

Lemma plain_toks_inst : forall f s, flat_map (fun t => match t with Ph n => f n | Ch c => [c] end) (map Ch s) = s.
Proof. intros f. induction s as [|c s IH]; auto. cbn [map flat_map app]. now rewrite IH. Qed.

Lemma lex_clean : forall s, nodollar s -> lex None s = map Ch s.
Proof. intros s N. rewrite <- (app_nil_r s) at 1. rewrite lex_plain by auto. cbn [lex flush]. now rewrite app_nil_r. Qed.

Lemma ToSQL_ph : forall s p sql params, inv s -> (0 <= p)%Z -> ToSQL s p = Ok (sql, params) ->
  placeholders sql = counted p (List.length params).
Proof.
  intros s p sql params I P H. rewrite ToSQL_spec in H. destruct (fits_at _ _); [|discriminate]. injection H as <- <-.
  unfold placeholders, tokens. rewrite where_toks; auto using tail_start. rewrite !flat_map_app, all_toks_ph.
  rewrite (lex_clean _ (tail_clean s I)), plain_toks_ph, app_nil_r, counted_zrange.
  destruct (f_where s); rewrite ?plain_toks_ph; reflexivity.
Qed.

Lemma C22_placeholders_proof : forall cs p sql params, Forall dollar_free cs -> (0 <= p)%Z ->
  ToSQL (runs cs zero_cst) p = Ok (sql, params) -> placeholders sql = counted p (List.length params).
Proof. intros cs p sql params D. apply ToSQL_ph. apply inv_runs; auto. apply inv_zero. Qed.

Definition demo_map : list (bytes * column) :=
  [(B "name", {| c_name := B "u.name"; c_conv := None; c_nullable := true |});
   (B "age", {| c_name := B "u.age"; c_conv := Some (fun v => match v with GOther _ => Err | _ => Ok v end); c_nullable := false |})].

Definition demo : list call :=
  [KInit demo_map (B "u.doc"); KCol (B "u.id") (B ">") (GInt64 5); KCol (B "u.gone") (B "<>") GNil;
   KOr (Some [KInStrings (B "u.kind") (Some [B "a"; B "b"]); KAnyInts (B "u.lvl") (Some [1; 2]%Z); KTextSearch (B " big  dog ")]);
   KFQL [TLParen; TRule (B "age") (B "<") (GInt64 9); TOr; TRule (B "name") (B "=") (GString (B "x")); TRParen] false;
   KSort (B "-name,,age"); KLimit 20; KPage 3].

Definition demo_sql : bytes := B " WHERE u.id > $8 AND u.gone IS NOT NULL OR (u.kind IN ($9,$10) AND u.lvl = ANY($11::int4[]) AND u.doc @@ to_tsquery('simple', $12)) AND (u.age < $13 OR u.name = $14) ORDER BY u.name DESC NULLS LAST, u.age ASC LIMIT 20 OFFSET 40".

Definition demo_params : list gval :=
  [GInt64 5; GString (B "a"); GString (B "b"); GValuer (Some (B "{1,2}")); GString (B "big:* & dog:*"); GInt64 9; GString (B "x")].

Lemma demo_dollar_free : Forall dollar_free demo.
Proof.
  assert (forall s, existsb (fun c => Ascii.eqb c "$") (lit s) = false -> nodollar (lit s)) as N by apply nodollar_lit.
  unfold demo. repeat (apply Forall_cons || apply Forall_nil); cbn [dollar_free]; auto.
  split; [|apply N; reflexivity]. repeat (apply Forall_cons || apply Forall_nil); apply N; reflexivity.
Qed.

(** The values handed to the calls, in the order of the calls.  The colmap,
    text-search column and mode in force are threaded through. *)
Record genv := { g_map : list (bytes * column); g_ts : bytes; g_strict : bool }.

Definition elems {A} (l : slice A) : list A := match l with Some v => v | None => [] end.

Definition col_given (op : bytes) (v : gval) : list gval :=
  if bytes_eqb (toupper op) (B "ANY") then
    match v with
    | GInt64s l | GInts l | GInt16s l => [GValuer (IntArrayFrom l)]
    | GStrings l => [GValuer (TextArrayFromStringSlice l)]
    | _ => []
    end
  else if bytes_eqb (toupper op) (B "IN") then
    match v with
    | GInt64s l => map GInt64 (elems l)
    | GInts l => map GInt (elems l)
    | GInt16s l => map GInt16 (elems l)
    | GStrings l => map GString (elems l)
    | _ => []
    end
  else match v with GNil | GBool _ => [] | _ => [v] end.

Fixpoint fql_given (e : genv) (toks : list fqltok) : list gval :=
  match toks with
  | [] => []
  | TRule k cmp v :: r =>
      match lookup k (g_map e) with
      | Some c => match c_conv c with
                  | None => col_given cmp v ++ fql_given e r
                  | Some f => match f v with Ok v' => col_given cmp v' ++ fql_given e r | _ => [] end
                  end
      | None => if g_strict e then [] else fql_given e r
      end
  | _ :: r => fql_given e r
  end.

Fixpoint given (k : call) (e : genv) : genv * list gval :=
  match k with
  | KCol _ op v => (e, col_given op v)
  | KInInt64s _ l => (e, map GInt64 (elems l))
  | KInInts _ l => (e, map GInt (elems l))
  | KInInt16s _ l => (e, map GInt16 (elems l))
  | KInStrings _ l => (e, map GString (elems l))
  | KAnyInt64s _ l | KAnyInts _ l | KAnyInt16s _ l => (e, [GValuer (IntArrayFrom l)])
  | KAnyStrings _ l => (e, [GValuer (TextArrayFromStringSlice l)])
  | KTextSearch v => (e, match g_ts e with [] => [] | _ => [GString (toTSQuery v)] end)
  | KAnd (Some l) | KOr (Some l) =>
      fold_left (fun acc k => let '(e', vs) := given k (fst acc) in (e', snd acc ++ vs)) l (e, [])
  | KFQL toks _ => (e, fql_given e toks)
  | KStrictSwitch => ({| g_map := g_map e; g_ts := g_ts e; g_strict := negb (g_strict e) |}, [])
  | KInit m ts => ({| g_map := m; g_ts := ts; g_strict := g_strict e |}, [])
  | _ => (e, [])
  end.

Definition givens (l : list call) (e : genv) : genv * list gval :=
  fold_left (fun acc k => let '(e', vs) := given k (fst acc) in (e', snd acc ++ vs)) l (e, []).

Definition no_env : genv := {| g_map := []; g_ts := []; g_strict := false |}.

Definition env_of (s : cst) : genv := {| g_map := s_colmap s; g_ts := s_tscol s; g_strict := s_strict s |}.

Lemma all_vals_app : forall a b, all_vals (a ++ b) = all_vals a ++ all_vals b.
Proof. intros. unfold all_vals. apply flat_map_app. Qed.

Lemma conn_vals : forall n s, (n = NAnd \/ n = NOr) -> all_vals (f_where (conn n s)) = all_vals (f_where s) /\ env_of (conn n s) = env_of s.
Proof.
  intros n s C. rewrite where_conn, all_vals_app. unfold conn. split. 2: destruct (canAndOr s); reflexivity.
  destruct (lastc (f_where s)); destruct C; subst; cbn [all_vals flat_map node_vals app]; now rewrite app_nil_r.
Qed.

Definition act_vals (a : colact) : list gval := match a with APred n => node_vals n | _ => [] end.

Lemma act_all_vals : forall a s, all_vals (f_where (act a s)) = all_vals (f_where s) ++ act_vals a /\ env_of (act a s) = env_of s.
Proof.
  intros a s. split. 2:{ destruct (act_rest a s) as (A & C & D & _). unfold env_of. now rewrite A, C, D. }
  destruct a as [| |n]; cbn [act act_vals].
  - now rewrite app_nil_r.
  - rewrite app_nil_r. apply conn_vals. auto.
  - rewrite where_pred, !all_vals_app. f_equal. destruct (lastc _); cbn [all_vals flat_map node_vals app]; now rewrite ?app_nil_r.
Qed.

Lemma col_act_vals : forall c o v, act_vals (col_act c o v) = col_given o v.
Proof.
  intros. unfold col_act, col_given. destruct (bytes_eqb (toupper o) (B "ANY")). { destruct v; reflexivity. }
  destruct (bytes_eqb (toupper o) (B "IN")). { destruct v; reflexivity. }
  destruct v as [|[]| | | | | | | | | |]; try reflexivity;
  destruct (bytes_eqb o (B "=")); try reflexivity; destruct (bytes_eqb o (B "<>")); reflexivity.
Qed.

Lemma push_vals : forall n s, node_vals n = [] -> all_vals (f_where (push n s)) = all_vals (f_where s) /\ env_of (push n s) = env_of s.
Proof. intros n s H. rewrite push_where, all_vals_app. cbn [all_vals flat_map]. rewrite H. cbn [app]. rewrite app_nil_r. split; reflexivity. Qed.

Lemma fql_vals : forall toks bad s,
  all_vals (f_where (fst (fql_loop toks bad s))) = all_vals (f_where s) ++ fql_given (env_of s) toks
  /\ env_of (fst (fql_loop toks bad s)) = env_of s.
Proof.
  induction toks as [|t toks IH]; intros bad s. { cbn [fql_loop fst fql_given]. rewrite app_nil_r. auto. }
  destruct t as [| | | |k cmp v]; cbn [fql_loop fql_given].
  - destruct (IH bad (push NLParen (conn NAnd s))) as [A C]. destruct (push_vals NLParen (conn NAnd s) eq_refl) as [D E].
    destruct (conn_vals NAnd s (or_introl eq_refl)) as [F G]. rewrite A, C, D, E, F, G. auto.
  - destruct (IH bad (push NRParen s)) as [A C]. destruct (push_vals NRParen s eq_refl) as [D E]. rewrite A, C, D, E. auto.
  - destruct (IH bad (push NAnd s)) as [A C]. destruct (push_vals NAnd s eq_refl) as [D E]. rewrite A, C, D, E. auto.
  - destruct (IH bad (push NOr s)) as [A C]. destruct (push_vals NOr s eq_refl) as [D E]. rewrite A, C, D, E. auto.
  - change (g_map (env_of s)) with (s_colmap s). change (g_strict (env_of s)) with (s_strict s).
    destruct (lookup k (s_colmap s)) as [c|].
    + assert (forall v', all_vals (f_where (fst (fql_loop toks bad (Col (c_name c) cmp v' s)))) = all_vals (f_where s) ++ col_given cmp v' ++ fql_given (env_of s) toks
        /\ env_of (fst (fql_loop toks bad (Col (c_name c) cmp v' s))) = env_of s) as ST.
      { intros v'. destruct (IH bad (Col (c_name c) cmp v' s)) as [A C]. rewrite A, C, Col_act.
        destruct (act_all_vals (col_act (c_name c) cmp v') s) as [D E]. rewrite D, E, col_act_vals, <- app_assoc. auto. }
      destruct (c_conv c) as [f|]; [|apply ST]. destruct (f v); [apply ST| |]; cbn [fst]; rewrite app_nil_r; auto.
    + destruct (s_strict s). { cbn [fst]. rewrite app_nil_r. auto. } apply IH.
Qed.

Definition run_vals (k : call) : Prop := forall s,
  all_vals (f_where (run k s)) = all_vals (f_where s) ++ snd (given k (env_of s)) /\ env_of (run k s) = fst (given k (env_of s)).

Lemma givens_acc : forall l e acc,
  fold_left (fun acc k => let '(e', vs) := given k (fst acc) in (e', snd acc ++ vs)) l (e, acc)
  = (fst (givens l e), acc ++ snd (givens l e)).
Proof.
  unfold givens. induction l as [|k l IH]; intros e acc. cbn [fold_left fst snd]. now rewrite app_nil_r.
  cbn [fold_left fst snd]. destruct (given k e) as [e' vs]. rewrite (IH e' (acc ++ vs)), (IH e' ([] ++ vs)). cbn [fst snd]. now rewrite <- app_assoc.
Qed.

Lemma givens_cons : forall k l e,
  givens (k :: l) e = (fst (givens l (fst (given k e))), snd (given k e) ++ snd (givens l (fst (given k e)))).
Proof. intros k l e. unfold givens at 1. cbn [fold_left fst snd]. destruct (given k e) as [e' vs]. rewrite givens_acc. reflexivity. Qed.

Lemma runs_vals : forall l, Forall run_vals l -> forall s,
  all_vals (f_where (fold_left (fun s k => run k s) l s)) = all_vals (f_where s) ++ snd (givens l (env_of s))
  /\ env_of (fold_left (fun s k => run k s) l s) = fst (givens l (env_of s)).
Proof.
  induction l as [|k l IH]; intros F s. { cbn. rewrite app_nil_r. auto. }
  inversion F as [|? ? F1 F2]; subst. cbn [fold_left]. destruct (IH F2 (run k s)) as [A C]. rewrite A, C. destruct (F1 s) as [D E]. rewrite D, E.
  rewrite givens_cons. cbn [fst snd]. now rewrite <- app_assoc.
Qed.

Lemma nest_vals : forall l c s, Forall run_vals l -> (c = NAnd \/ c = NOr) ->
  all_vals (f_where (push NRParen (fold_left (fun s k => run k s) l (push NLParen (conn c s))))) = all_vals (f_where s) ++ snd (givens l (env_of s))
  /\ env_of (push NRParen (fold_left (fun s k => run k s) l (push NLParen (conn c s)))) = fst (givens l (env_of s)).
Proof.
  intros l c s F C. destruct (push_vals NRParen (fold_left (fun s k => run k s) l (push NLParen (conn c s))) eq_refl) as [A D]. rewrite A, D.
  destruct (runs_vals l F (push NLParen (conn c s))) as [E G]. rewrite E, G.
  destruct (push_vals NLParen (conn c s) eq_refl) as [H J]. rewrite H, J. destruct (conn_vals c s C) as [K L]. now rewrite K, L.
Qed.

Lemma run_vals_all : forall k, run_vals k.
Proof.
  intros k. induction k as [o IH|o IH|k L] using call_nest_ind; intros s.
  - destruct o as [l|]; cbn [run given nest_ok] in *. now apply nest_vals; auto.
    cbn [fst snd]. rewrite app_nil_r. apply conn_vals; auto.
  - destruct o as [l|]; cbn [run given nest_ok] in *. now apply nest_vals; auto.
    cbn [fst snd]. rewrite app_nil_r. apply conn_vals; auto.
  - destruct k; try contradiction; cbn [run given fst snd]; try (rewrite app_nil_r; split; reflexivity).
    + rewrite Col_act, <- col_act_vals with (c := col). apply act_all_vals.
    + apply (act_all_vals (APred (NIn _ _))).
    + apply (act_all_vals (APred (NIn _ _))).
    + apply (act_all_vals (APred (NIn _ _))).
    + apply (act_all_vals (APred (NIn _ _))).
    + apply (act_all_vals (APred (NAny _ (GValuer _) _))).
    + apply (act_all_vals (APred (NAny _ (GValuer _) _))).
    + apply (act_all_vals (APred (NAny _ (GValuer _) _))).
    + apply (act_all_vals (APred (NAny _ (GValuer _) _))).
    + unfold TextSearch. change (g_ts (env_of s)) with (s_tscol s). destruct (s_tscol s) as [|c ts] eqn:E.
      rewrite app_nil_r. auto. apply (act_all_vals (APred (NText (c :: ts) v))).
    + rewrite app_nil_r. unfold Limit. destruct (0 <? n)%Z; split; reflexivity.
    + rewrite app_nil_r. unfold Offset. destruct (0 <? n)%Z; split; reflexivity.
    + rewrite app_nil_r. unfold Page. destruct ((0 <? n) && (0 <=? f_limit s))%Z; split; reflexivity.
    + apply fql_vals.
    + rewrite app_nil_r. unfold UnmarshalSort. destruct (sort_loop_where str true false [] s) as (A & C & D & E & _).
      unfold env_of. now rewrite A, C, D, E.
Qed.

Lemma C22_parameters_are_the_given_values_proof : forall cs p sql params,
  ToSQL (runs cs zero_cst) p = Ok (sql, params) -> params = snd (givens cs no_env).
Proof.
  intros cs p sql params H. rewrite ToSQL_spec in H. destruct (fits_at _ _); [|discriminate]. injection H as <- <-.
  apply (runs_vals cs). apply Forall_forall. intros k _. apply run_vals_all.
Qed.

(** The text of a node with its values shown in place. *)
Definition shown (show : gval -> text) (n : node) : text :=
  match n with
  | NBinary col op v => col ++ lit " " ++ op ++ lit " " ++ show v
  | NUnary col w => col ++ lit " " ++ w
  | NText col v => col ++ lit " @@ to_tsquery('simple', " ++ show (GString (toTSQuery v)) ++ lit ")"
  | NAnd => lit " AND "
  | NOr => lit " OR "
  | NLParen => lit "("
  | NRParen => lit ")"
  | NIn col vals => col ++ lit " IN (" ++ commas (map show vals) ++ lit ")"
  | NAny col v cast => col ++ lit " = ANY(" ++ show v ++ cast ++ lit ")"
  end.

Lemma shown_inline : forall show n, inline show n = shown show n.
Proof. intros show [] ; unfold inline; cbn [node_text node_vals shown map List.concat]; rewrite ?app_nil_r; reflexivity. Qed.

Lemma C22_each_value_at_its_predicate_proof : forall (show : gval -> text) cs p sql params, Forall dollar_free cs -> (0 <= p)%Z ->
  CountToSQL (runs cs zero_cst) p = Ok (sql, params) ->
  instantiate (fun n => show (nth (Z.to_nat (n - p - 1)) params GNil)) sql
  = match f_where (runs cs zero_cst) with [] => [] | l => lit " WHERE " ++ flat_map (shown show) l end.
Proof.
  intros show cs p sql params D P H. pose proof (inv_runs cs zero_cst D inv_zero) as I. set (s := runs cs zero_cst) in *.
  unfold CountToSQL in H. rewrite where_sql_spec in H. destruct (fits_at _ _); [|discriminate]. cbn [rmap bind w_out w_params] in H. injection H as <- <-.
  unfold instantiate, tokens. rewrite <- (app_nil_r (where_text (f_where s) p)). rewrite where_toks; auto. 2: exact Logic.I.
  cbn [lex flush]. rewrite app_nil_r, flat_map_app.
  pose proof (all_toks_instantiate show (f_where s) [] [] p (fun n => show (nth (Z.to_nat (n - p - 1)) (all_vals (f_where s)) GNil))) as A.
  cbn [List.length app] in A. rewrite app_nil_r in A. replace (p + Z.of_nat 0)%Z with p in A by lia. rewrite A.
  - rewrite (flat_map_ext _ _ (shown_inline show)). destruct (f_where s) as [|n l]; [reflexivity|]. now rewrite plain_toks_inst.
  - intros i L. do 2 f_equal. lia.
Qed.

Definition demo_show (v : gval) : text := match v with GInt64 z => int_out z | GString s => s | GValuer (Some s) => s | _ => lit "?" end.

Lemma C23_panics_exactly_beyond_the_limit_proof : forall cs p, let n := Z.of_nat (List.length (snd (givens cs no_env))) in
  (ToSQL (runs cs zero_cst) p = Panic <-> (0 < n /\ (p < 0 \/ 65535 < p + n))%Z)
  /\ (ToSQL (runs cs zero_cst) p <> Panic -> exists sql params, ToSQL (runs cs zero_cst) p = Ok (sql, params)).
Proof.
  intros cs p n. subst n.
  destruct (runs_vals cs) with (s := zero_cst) as [A _]. { apply Forall_forall. intros k _. apply run_vals_all. }
  cbn [zero_cst f_where all_vals flat_map app] in A. change (env_of zero_cst) with no_env in A. rewrite <- A.
  fold zero_cst. fold (runs cs zero_cst). rewrite ToSQL_spec. set (l := all_vals (f_where (runs cs zero_cst))).
  unfold fits_at. split.
  - destruct (Nat.eqb_spec (List.length l) 0) as [E|E]; cbn [orb]. { split; [discriminate|lia]. }
    destruct (Z.leb_spec 0 p), (Z.leb_spec (p + Z.of_nat (List.length l)) 65535); cbn [andb]; split; intros; try lia; try discriminate; reflexivity.
  - intros H. destruct (Nat.eqb _ _ || _); [eauto|congruence].
Qed.

Definition is_ok {A} (r : res A) : bool := match r with Ok _ => true | _ => false end.

Lemma C24_count_filter_proof : forall s p,
  CountToSQL s p = Panic /\ ToSQL s p = Panic
  \/ exists sql params, CountToSQL s p = Ok (sql, params)
     /\ ToSQL s p = Ok (sql ++ (match f_orderby s with [] => [] | o => lit " ORDER BY " ++ o end)
                            ++ (if (0 <? f_limit s)%Z then lit " LIMIT " ++ int_out (f_limit s) else [])
                            ++ (if (0 <? f_offset s)%Z then lit " OFFSET " ++ int_out (f_offset s) else []), params)
     /\ (f_where s = [] -> sql = [] /\ params = [])
     /\ (f_where s <> [] -> exists cond, sql = lit " WHERE " ++ cond).
Proof.
  intros s p. unfold CountToSQL, ToSQL. rewrite where_sql_spec. destruct (fits_at _ _); [right|left; split; reflexivity].
  cbn [rmap bind w_out w_params]. eexists _, _. conjs; try reflexivity.
  - unfold rmap. cbn [bind w_out w_params]. unfold tail_sql. rewrite !format_int_spec. reflexivity.
  - intros ->. auto.
  - intros N. unfold where_text. destruct (f_where s); [congruence|]. eauto.
Qed.

Definition demo_count : bytes := B " WHERE u.id > $8 AND u.gone IS NOT NULL OR (u.kind IN ($9,$10) AND u.lvl = ANY($11::int4[]) AND u.doc @@ to_tsquery('simple', $12)) AND (u.age < $13 OR u.name = $14)".

(** Starting at another position only renumbers the placeholders. *)
Definition renumber (d : Z) (t : stok) : stok := match t with Ph n => Ph (n + d) | Ch c => Ch c end.

Lemma all_toks_shift : forall l p d, all_toks l (p + d) = map (renumber d) (all_toks l p).
Proof.
  assert (forall n p d m, node_form Ch n (phs (p + d) m) = map (renumber d) (node_form Ch n (phs p m))) as N.
  { intros n p d m. pose proof (node_form_flat (fun t => [renumber d t]) Ch Ch n (phs p m) (fun c => eq_refl)) as F.
    assert (forall l, flat_map (fun t => [renumber d t]) l = map (renumber d) l) as FM by (induction l as [|x l IH]; auto; cbn [flat_map map app]; now rewrite IH).
    rewrite FM in F. rewrite F. f_equal. unfold phs, zrange. rewrite !map_map. apply map_ext. intros i. cbn [flat_map app renumber]. do 2 f_equal. lia. }
  induction l as [|n l IH]; intros p d. reflexivity.
  cbn [all_toks]. rewrite map_app, N. f_equal. rewrite <- IH. f_equal. lia.
Qed.

Lemma C24_position_only_renumbers_proof : forall cs p d sql sql' params params', Forall dollar_free cs -> (0 <= p)%Z -> (0 <= d)%Z ->
  ToSQL (runs cs zero_cst) p = Ok (sql, params) -> ToSQL (runs cs zero_cst) (p + d) = Ok (sql', params') ->
  params' = params /\ tokens sql' = map (renumber d) (tokens sql).
Proof.
  intros cs p d sql sql' params params' D P D0 H H'. pose proof (inv_runs cs zero_cst D inv_zero) as I. set (s := runs cs zero_cst) in *.
  rewrite ToSQL_spec in H, H'. destruct (fits_at p _); [|discriminate]. destruct (fits_at (p + d) _); [|discriminate].
  injection H as <- <-. injection H' as <- <-. split; auto. unfold tokens. rewrite !where_toks; auto using tail_start; try lia.
  rewrite !map_app, all_toks_shift. f_equal.
  - destruct (f_where s); auto.
  - f_equal. rewrite (lex_clean _ (tail_clean s I)). rewrite map_map. reflexivity.
Qed.

(** *** C25: the WHERE clause as a condition *)
Fixpoint leaves (k : call) : list call :=
  match k with
  | KAnd (Some l) | KOr (Some l) => flat_map leaves l
  | KAnd None | KOr None => []
  | k => [k]
  end.

Lemma conn_nodes : forall (Q : node -> Prop) c s, Q c -> Forall Q (f_where s) -> Forall Q (f_where (conn c s)).
Proof. intros Q c s C F. rewrite where_conn. apply Forall_app. split; auto. destruct (lastc _); auto. Qed.

Lemma act_nodes : forall (Q : node -> Prop) a s, Q NAnd -> (match a with APred n => Q n | _ => True end) ->
  Forall Q (f_where s) -> Forall Q (f_where (act a s)).
Proof.
  intros Q [| |n] s C A F; cbn [act]; auto. now apply conn_nodes.
  rewrite where_pred. apply Forall_app. split; auto. apply Forall_app. split; auto. destruct (lastc _); auto.
Qed.

Lemma run_nodes : forall (Q : node -> Prop) ts, Q NAnd -> Q NOr -> Q NLParen -> Q NRParen ->
  forall k s, plain k = true -> s_tscol s = ts ->
  (forall x, In x (leaves k) -> match leaf_act ts x with APred n => Q n | _ => True end) ->
  Forall Q (f_where s) -> Forall Q (f_where (run k s)).
Proof.
  intros Q ts QA QO QL QR.
  assert (forall l, Forall (fun k => forall s, plain k = true -> s_tscol s = ts ->
    (forall x, In x (leaves k) -> match leaf_act ts x with APred n => Q n | _ => True end) ->
    Forall Q (f_where s) -> Forall Q (f_where (run k s))) l -> forall s, forallb plain l = true -> s_tscol s = ts ->
    (forall x, In x (flat_map leaves l) -> match leaf_act ts x with APred n => Q n | _ => True end) ->
    Forall Q (f_where s) -> Forall Q (f_where (fold_left (fun s k => run k s) l s))) as FL.
  { induction l as [|k l IH]; intros F s P T H W. exact W.
    inversion F as [|? ? F1 F2]; subst. cbn [forallb] in P. apply andb_prop in P. destruct P as [P1 P2]. cbn [fold_left]. apply IH; auto.
    - now apply ts_run.
    - intros x X. apply H. cbn [flat_map]. apply in_or_app. auto.
    - apply F1; auto. intros x X. apply H. cbn [flat_map]. apply in_or_app. auto. }
  assert (forall l c s, Q c -> Forall (fun k => forall s, plain k = true -> s_tscol s = ts ->
    (forall x, In x (leaves k) -> match leaf_act ts x with APred n => Q n | _ => True end) ->
    Forall Q (f_where s) -> Forall Q (f_where (run k s))) l -> forallb plain l = true -> s_tscol s = ts ->
    (forall x, In x (flat_map leaves l) -> match leaf_act ts x with APred n => Q n | _ => True end) ->
    Forall Q (f_where s) -> Forall Q (f_where (push NRParen (fold_left (fun s k => run k s) l (push NLParen (conn c s)))))) as NE.
  { intros l c s C F P T H W. rewrite push_where. apply Forall_app. split; auto. apply FL; auto.
    - cbn [push set_where s_tscol]. now rewrite conn_ts.
    - rewrite push_where. apply Forall_app. split; auto. now apply conn_nodes. }
  intros k. induction k as [o IH|o IH|k L] using call_nest_ind; intros s P T H W.
  - destruct o as [l|]; cbn [run plain nest_ok leaves] in *. now apply NE. now apply conn_nodes.
  - destruct o as [l|]; cbn [run plain nest_ok leaves] in *. now apply NE. now apply conn_nodes.
  - destruct (leaf_where k s P L) as [A _]. rewrite A. apply act_nodes; auto. rewrite T. apply H. destruct k; try contradiction; cbn [leaves In]; auto.
Qed.

Lemma runs_nodes : forall (Q : node -> Prop) ts, Q NAnd -> Q NOr -> Q NLParen -> Q NRParen ->
  forall l s, forallb plain l = true -> s_tscol s = ts ->
  (forall x, In x (flat_map leaves l) -> match leaf_act ts x with APred n => Q n | _ => True end) ->
  Forall Q (f_where s) -> Forall Q (f_where (runs l s)).
Proof.
  intros Q ts QA QO QL QR. induction l as [|k l IH]; intros s P T H W. exact W.
  cbn [forallb] in P. apply andb_prop in P. destruct P as [P1 P2]. unfold runs. cbn [fold_left]. apply IH; auto.
  - now rewrite ts_run.
  - intros x X. apply H. cbn [flat_map]. apply in_or_app. auto.
  - apply (run_nodes Q ts); auto. intros x X. apply H. cbn [flat_map]. apply in_or_app. auto.
Qed.

(** Columns and operators are words. *)
Definition worded (k : call) : Prop :=
  match k with
  | KCol c o _ => word c /\ is_operator o
  | KInInt64s c _ | KInInts c _ | KInInt16s c _ | KInStrings c _
  | KAnyInt64s c _ | KAnyInts c _ | KAnyInt16s c _ | KAnyStrings c _ => word c
  | _ => True
  end.

Lemma leaf_words : forall ts k, worded k -> (ts <> [] -> word ts) -> match leaf_act ts k with APred n => node_words n | _ => True end.
Proof.
  intros ts k W T. destruct k; cbn [leaf_act worded] in *; auto.
  - destruct W as [W1 W2]. unfold col_act. destruct (bytes_eqb (toupper op) (B "ANY")). { destruct v; cbn [node_words]; auto. }
    destruct (bytes_eqb (toupper op) (B "IN")). { destruct v; cbn [node_words]; auto. }
    destruct v as [|[]| | | | | | | | | |]; cbn [node_words]; auto;
    destruct (bytes_eqb op (B "=")); cbn [node_words]; auto; destruct (bytes_eqb op (B "<>")); cbn [node_words]; auto.
  - destruct ts; auto. cbn [node_words]. apply T. discriminate.
Qed.

Definition ts_given (ts : bytes) : bool := match ts with [] => false | _ => true end.

Lemma C25_where_is_a_condition_proof : forall m ts cs p sql params, forallb plain cs = true ->
  (ts <> [] -> word ts) -> Forall worded (flat_map leaves cs) ->
  forallb (proper (ts_given ts)) cs = true -> ends_with_pred (ts_given ts) cs = true ->
  CountToSQL (runs (KInit m ts :: cs) zero_cst) p = Ok (sql, params) ->
  exists c, sql = lit " WHERE " ++ c /\ is_condition c.
Proof.
  intros m ts cs p sql params P T W Q E H. unfold CountToSQL in H. rewrite where_sql_spec in H.
  destruct (fits_at _ _); [|discriminate]. cbn [rmap bind w_out w_params] in H. injection H as <- <-.
  unfold runs. cbn [fold_left run]. set (s0 := InitV2 m ts zero_cst).
  destruct (runs_cond cs) with (s := s0) (w := @nil node) (ext := @nil node) (r := RNone) as (ext & W' & S); auto; try reflexivity.
  { apply Forall_forall. intros k _. apply run_cond_all. }
  cbn [app] in W'. change (has_ts s0) with (ts_given ts) in S. unfold ends_with_pred, last_role in E.
  destruct (fold_left (step (ts_given ts)) cs RNone); try discriminate. cbn [shape] in S.
  assert (Forall node_words ext) as NW.
  { rewrite <- W'. apply (runs_nodes node_words ts); auto; try exact I.
    intros x X. apply leaf_words; auto. rewrite Forall_forall in W. auto. constructor. }
  rewrite W'. exists (all_text ext p). split. 2: now apply cond_text.
  unfold where_text. destruct ext; auto. apply cond_chk with (d := 0%nat) in S. discriminate.
Qed.

Definition good : list call :=
  [KCol (B "a") (B "=") (GInt 1); KOr None; KCol (B "b") (B "not like") (GString (B "x")); KLimit 5;
   KAnd (Some [KInInts (B "c") (Some [1; 2]%Z); KOr (Some [KCol (B "d") (B "<>") (GBool true); KOr None; KTextSearch (B "q")])])].

Lemma word_lit : forall s, lit s <> [] -> forallb (fun c => negb (Ascii.eqb c " " || Ascii.eqb c "(" || Ascii.eqb c ")")) (lit s) = true -> word (lit s).
Proof.
  intros s N F. split; auto. apply Forall_forall. intros c I. rewrite forallb_forall in F. specialize (F c I).
  conjs; intros ->; discriminate.
Qed.

Lemma C25_exactly_proper_sequences_proof : forall m ts cs, forallb plain cs = true ->
  (cond (f_where (runs (KInit m ts :: cs) zero_cst))
   <-> forallb (proper (ts_given ts)) cs = true /\ ends_with_pred (ts_given ts) cs = true).
Proof.
  intros m ts cs P. unfold runs. cbn [fold_left run]. set (s0 := InitV2 m ts zero_cst). split.
  - intros C. apply cond_chk with (d := 0%nat) in C.
    pose proof (runs_chk cs (proj2 (Forall_forall _ _) (fun k _ => run_chk_all k)) s0 0%nat RNone true P eq_refl) as R.
    unfold start in R. rewrite C in R. change (has_ts s0) with (ts_given ts) in R.
    destruct (forallb (proper (ts_given ts)) cs); [|discriminate]. split; auto. unfold ends_with_pred, last_role.
    destruct (fold_left (step (ts_given ts)) cs RNone); try discriminate. reflexivity.
  - intros [Q E].
    destruct (runs_cond cs) with (s := s0) (w := @nil node) (ext := @nil node) (r := RNone) as (ext & W' & S); auto; try reflexivity.
    { apply Forall_forall. intros k _. apply run_cond_all. }
    cbn [app] in W'. change (has_ts s0) with (ts_given ts) in S. unfold ends_with_pred, last_role in E.
    destruct (fold_left (step (ts_given ts)) cs RNone); try discriminate. rewrite W'. exact S.
Qed.

(** Parentheses match for all sequences of such calls. *)
Definition unbracketed (s : text) : Prop := ~ In "(" s /\ ~ In ")" s.

Definition bracket_free (k : call) : Prop :=
  match k with
  | KCol c o _ => unbracketed c /\ unbracketed o
  | KInInt64s c _ | KInInts c _ | KInInt16s c _ | KInStrings c _
  | KAnyInt64s c _ | KAnyInts c _ | KAnyInt16s c _ | KAnyStrings c _ => unbracketed c
  | _ => True
  end.

Lemma level_app : forall a b d, level (a ++ b) d = match level a d with Some x => level b x | None => None end.
Proof.
  induction a as [|c a IH]; intros b d. reflexivity. cbn [app level].
  destruct (ascii_dec c "("); auto. destruct (ascii_dec c ")"); auto. destruct (0 <? d)%Z; auto.
Qed.

Lemma level_free : forall s d, unbracketed s -> level s d = Some d.
Proof.
  induction s as [|c s IH]; intros d [A C]. reflexivity. cbn [level]. cbn [In] in A, C.
  destruct (ascii_dec c "("); [subst; tauto|]. destruct (ascii_dec c ")"); [subst; tauto|]. apply IH. split; tauto.
Qed.

Lemma unb_app : forall a b, unbracketed a -> unbracketed b -> unbracketed (a ++ b).
Proof. intros a b [A1 A2] [B1 B2]. split; intros H; apply in_app_or in H; tauto. Qed.

Lemma unb_lit : forall s, existsb (fun c => Ascii.eqb c "(" || Ascii.eqb c ")") (lit s) = false -> unbracketed (lit s).
Proof.
  intros s E. split; intros I; enough (existsb (fun c => Ascii.eqb c "(" || Ascii.eqb c ")") (lit s) = true) by congruence;
  apply existsb_exists; eexists; split; eauto; reflexivity.
Qed.

Lemma numchar_clean : forall c, numchar c = true -> c <> " " /\ c <> "(" /\ c <> ")".
Proof. intros c H. conjs; intros ->; discriminate. Qed.

Lemma par_word : forall i, word (par i).
Proof.
  intros i. split; [discriminate|]. constructor. { conjs; discriminate. }
  eapply Forall_impl; [|apply format_int_numchar]. intros c. apply numchar_clean.
Qed.

Lemma word_unb : forall s, word s -> unbracketed s.
Proof. intros s [_ F]. rewrite Forall_forall in F. split; intros I; destruct (F _ I) as (_ & A & C); congruence. Qed.

Lemma commas_unb : forall l, Forall unbracketed l -> unbracketed (commas l).
Proof.
  induction l as [|x l IH]; intros F. { split; intros []. } inversion F as [|? ? F1 F2]; subst.
  destruct l as [|y l]; [exact F1|]. change (commas (x :: y :: l)) with (x ++ "," :: commas (y :: l)). apply unb_app; auto.
  apply (unb_app [","]). { split; intros [|[]]; discriminate. } auto.
Qed.

Definition node_free (n : node) : Prop :=
  match n with
  | NBinary col op _ => unbracketed col /\ unbracketed op
  | NUnary col w => unbracketed col /\ unbracketed w
  | NText col _ | NIn col _ => unbracketed col
  | NAny col _ cast => unbracketed col /\ unbracketed cast
  | _ => True
  end.

Lemma level_paren : forall a b d, unbracketed a -> unbracketed b -> (0 <= d)%Z -> level (a ++ "(" :: b ++ [")"]) d = Some d.
Proof.
  intros a b d A C D. rewrite level_app, level_free by auto. cbn [level]. destruct (ascii_dec "(" "("); [|congruence].
  rewrite level_app, level_free by auto. cbn [level]. destruct (ascii_dec ")" "("); [discriminate|]. destruct (ascii_dec ")" ")"); [|congruence].
  destruct (Z.ltb_spec 0 (d + 1)); [f_equal; lia|lia].
Qed.

Lemma node_level : forall n p d, node_free n -> (0 <= d)%Z ->
  level (node_text n (map par (zrange p (List.length (node_vals n))))) d = depth [n] d.
Proof.
  intros n p d F D.
  destruct n as [col op v|col pred|col v| | | | |col vals|col v cast]; cbn [node_free node_text node_vals List.length depth] in *; rewrite ?concat_zrange1; try reflexivity.
  - destruct F. apply level_free. apply unb_app; auto. apply (unb_app [" "]). { split; intros [|[]]; discriminate. } apply unb_app; auto.
    apply (unb_app [" "]). { split; intros [|[]]; discriminate. } apply word_unb, par_word.
  - destruct F. apply level_free. apply unb_app; auto. apply (unb_app [" "]). { split; intros [|[]]; discriminate. } auto.
  - change (lit " @@ to_tsquery('simple', ") with (lit " @@ to_tsquery" ++ "(" :: lit "'simple', ").
    replace (col ++ (lit " @@ to_tsquery" ++ "(" :: lit "'simple', ") ++ par p ++ [")"])
      with ((col ++ lit " @@ to_tsquery") ++ "(" :: (lit "'simple', " ++ par p) ++ [")"]) by (rewrite <- !app_assoc; reflexivity).
    apply level_paren; auto. apply unb_app; auto. apply unb_lit; reflexivity. apply unb_app. apply unb_lit; reflexivity. apply word_unb, par_word.
  - change (lit " IN (") with (lit " IN " ++ ["("]).
    replace (col ++ (lit " IN " ++ ["("]) ++ commas (map par (zrange p (List.length vals))) ++ [")"])
      with ((col ++ lit " IN ") ++ "(" :: commas (map par (zrange p (List.length vals))) ++ [")"]) by (rewrite <- !app_assoc; reflexivity).
    apply level_paren; auto. apply unb_app; auto. apply unb_lit; reflexivity. apply commas_unb.
    apply Forall_forall. intros x I. apply in_map_iff in I. destruct I as (i & <- & _). apply word_unb, par_word.
  - destruct F. change (lit " = ANY(") with (lit " = ANY" ++ ["("]).
    replace (col ++ (lit " = ANY" ++ ["("]) ++ par p ++ cast ++ [")"])
      with ((col ++ lit " = ANY") ++ "(" :: (par p ++ cast) ++ [")"]) by (rewrite <- !app_assoc; reflexivity).
    apply level_paren; auto. apply unb_app; auto. apply unb_lit; reflexivity. apply unb_app; auto. apply word_unb, par_word.
Qed.

Lemma depth_nonneg : forall l d x, (0 <= d)%Z -> depth l d = Some x -> (0 <= x)%Z.
Proof.
  induction l as [|n l IH]; intros d x D H. injection H as <-. lia. cbn [depth] in H.
  destruct n; eauto. apply (IH (d + 1)%Z); auto; lia. destruct (Z.ltb_spec 0 d); [|discriminate]. apply (IH (d - 1)%Z); auto; lia.
Qed.

Lemma all_level : forall l p d, Forall node_free l -> (0 <= d)%Z -> level (all_text l p) d = depth l d.
Proof.
  induction l as [|n l IH]; intros p d F D. reflexivity. inversion F as [|? ? F1 F2]; subst.
  cbn [all_text]. rewrite level_app, node_level by auto. change (n :: l) with ([n] ++ l). rewrite depth_app.
  destruct (depth [n] d) eqn:E; auto. apply IH; auto. eapply depth_nonneg; eauto.
Qed.

Lemma act_depth : forall a s d, (match a with APred NLParen | APred NRParen => False | _ => True end) ->
  depth (f_where s) 0 = Some d -> depth (f_where (act a s)) 0 = Some d.
Proof.
  intros a s d N H. destruct a as [| |n]; cbn [act]; auto.
  - rewrite where_conn, depth_app, H. destruct (lastc _); reflexivity.
  - rewrite where_pred, !depth_app, H. destruct (lastc _); cbn [depth]; destruct n; try contradiction; reflexivity.
Qed.

Lemma leaf_act_nodes : forall ts k, match leaf_act ts k with APred NLParen | APred NRParen => False | _ => True end.
Proof.
  intros ts k. destruct k; cbn [leaf_act]; auto. 2: destruct ts; exact I.
  unfold col_act. destruct (bytes_eqb (toupper op) (B "ANY")). { destruct v; exact I. }
  destruct (bytes_eqb (toupper op) (B "IN")). { destruct v; exact I. }
  destruct v as [|[]| | | | | | | | | |]; try exact I; destruct (bytes_eqb op (B "=")); try exact I; destruct (bytes_eqb op (B "<>")); exact I.
Qed.

Lemma run_depth : forall k s d, plain k = true -> (0 <= d)%Z -> depth (f_where s) 0 = Some d -> depth (f_where (run k s)) 0 = Some d.
Proof.
  assert (forall l, Forall (fun k => forall s d, plain k = true -> (0 <= d)%Z -> depth (f_where s) 0 = Some d -> depth (f_where (run k s)) 0 = Some d) l ->
    forall s d, forallb plain l = true -> (0 <= d)%Z -> depth (f_where s) 0 = Some d -> depth (f_where (fold_left (fun s k => run k s) l s)) 0 = Some d) as FL.
  { induction l as [|k l IH]; intros F s d P D H. exact H. inversion F as [|? ? F1 F2]; subst. cbn [forallb] in P. apply andb_prop in P. destruct P.
    cbn [fold_left]. apply IH; auto. }
  assert (forall l c s d, Forall (fun k => forall s d, plain k = true -> (0 <= d)%Z -> depth (f_where s) 0 = Some d -> depth (f_where (run k s)) 0 = Some d) l ->
    (c = NAnd \/ c = NOr) -> forallb plain l = true -> (0 <= d)%Z -> depth (f_where s) 0 = Some d ->
    depth (f_where (push NRParen (fold_left (fun s k => run k s) l (push NLParen (conn c s))))) 0 = Some d) as NE.
  { intros l c s d F C P D H. rewrite push_where, depth_app. rewrite (FL l F _ (d + 1)%Z); auto; try lia.
    - cbn [depth]. destruct (Z.ltb_spec 0 (d + 1)); [f_equal; lia|lia].
    - rewrite push_where, where_conn, !depth_app, H. destruct (lastc _); destruct C; subst; reflexivity. }
  intros k. induction k as [o IH|o IH|k L] using call_nest_ind; intros s d P D H.
  - destruct o as [l|]; cbn [run plain nest_ok] in *. now apply NE; auto. rewrite where_conn, depth_app, H. destruct (lastc _); reflexivity.
  - destruct o as [l|]; cbn [run plain nest_ok] in *. now apply NE; auto. rewrite where_conn, depth_app, H. destruct (lastc _); reflexivity.
  - destruct (leaf_where k s P L) as [A _]. rewrite A. apply act_depth; auto. apply leaf_act_nodes.
Qed.

Lemma leaf_free : forall ts k, bracket_free k -> unbracketed ts -> match leaf_act ts k with APred n => node_free n | _ => True end.
Proof.
  intros ts k W T.
  assert (forall c s, unbracketed c -> existsb (fun c => Ascii.eqb c "(" || Ascii.eqb c ")") (lit s) = false -> unbracketed c /\ unbracketed (B s)) as L.
  { intros c s C E. split; auto. now apply unb_lit. }
  destruct k; cbn [leaf_act bracket_free node_free] in *; auto.
  - destruct W as [W1 W2]. unfold col_act. destruct (bytes_eqb (toupper op) (B "ANY")). { destruct v; cbn [node_free]; auto. }
    destruct (bytes_eqb (toupper op) (B "IN")). { destruct v; cbn [node_free]; auto. }
    destruct v as [|[]| | | | | | | | | |]; cbn [node_free]; auto;
    destruct (bytes_eqb op (B "=")); cbn [node_free]; auto; destruct (bytes_eqb op (B "<>")); cbn [node_free]; auto.
  - destruct ts; auto.
Qed.

Lemma C25_parentheses_always_match_proof : forall m ts cs p sql params, forallb plain cs = true ->
  unbracketed ts -> Forall bracket_free (flat_map leaves cs) ->
  CountToSQL (runs (KInit m ts :: cs) zero_cst) p = Ok (sql, params) -> balanced sql.
Proof.
  intros m ts cs p sql params P T W H. unfold CountToSQL in H. rewrite where_sql_spec in H.
  destruct (fits_at _ _); [|discriminate]. cbn [rmap bind w_out w_params] in H. injection H as <- <-.
  unfold runs. cbn [fold_left run]. set (s0 := InitV2 m ts zero_cst).
  assert (Forall node_free (f_where (runs cs s0))) as NF.
  { apply (runs_nodes node_free ts); auto; try exact I. intros x X. apply leaf_free; auto. rewrite Forall_forall in W. auto. constructor. }
  assert (depth (f_where (runs cs s0)) 0 = Some 0%Z) as DP.
  { assert (forall l s, forallb plain l = true -> depth (f_where s) 0 = Some 0%Z -> depth (f_where (runs l s)) 0 = Some 0%Z) as R.
    { induction l as [|k l IH]; intros s Q D. exact D. cbn [forallb] in Q. apply andb_prop in Q. destruct Q. unfold runs. cbn [fold_left]. apply IH; auto.
      apply run_depth; auto. lia. }
    apply R; auto. }
  unfold balanced. unfold runs in *. unfold where_text. destruct (f_where (fold_left (fun s k => run k s) cs s0)) as [|n l]; [reflexivity|].
  rewrite level_app, level_free by (apply unb_lit; reflexivity). rewrite all_level; auto. lia.
Qed.

Definition sloppy : list call :=
  [KAnd None; KAnd (Some []); KOr None; KOr (Some [KAnd (Some [KAnd None]); KInInts (B "a") None; KOr None; KCol (B "b") (B ">") GNil])].
