(** Proofs about package filter. *)
From Coq Require Import Ascii String ZArith NArith Bool List Lia.
From Verif Require Import GoBase Strconv StrconvProofs ConvertUtil ConvertProofs Codecs IntCodecs Filter PgSpec PgSpecProofs TextProofs DecimalLink MoneyProofs SqlSpec.
Import ListNotations.
Local Open Scope char_scope.

(** *** ordinal parameters *)
Definition par (i : Z) : bytes := "$" :: format_int 10 (i + 1).

Lemma ordinal_spec : forall i, ordinal i = if ((0 <=? i) && (i <? 65535))%Z then Ok (par i) else Panic.
Proof. reflexivity. Qed.

Lemma format_int_dec : forall z, (0 <= z)%Z -> format_int 10 z = format_uint 10 (Z.to_N z).
Proof. intros z H. unfold format_int. destruct (Z.ltb_spec z 0); [lia|]. reflexivity. Qed.

Definition zrange (p : Z) (n : nat) : list Z := map (fun i => (p + Z.of_nat i)%Z) (seq 0 n).

Lemma zrange_S : forall p n, zrange p (S n) = p :: zrange (p + 1) n.
Proof.
  intros. unfold zrange. cbn [seq map]. f_equal. lia. rewrite <- seq_shift, map_map. apply map_ext. intros. lia.
Qed.

Lemma zrange_app : forall p n m, zrange p (n + m) = zrange p n ++ zrange (p + Z.of_nat n) m.
Proof.
  intros p n m. revert p. induction n as [|n IH]; intros p. cbn [plus]. change (zrange p 0) with (@nil Z). cbn [app]. f_equal. lia.
  cbn [plus]. rewrite !zrange_S. cbn [app]. f_equal. rewrite IH. do 2 f_equal. lia.
Qed.

Lemma zrange_length : forall p n, List.length (zrange p n) = n.
Proof. intros. unfold zrange. now rewrite map_length, seq_length. Qed.

Lemma in_rest_spec : forall n i, (0 <= i)%Z ->
  in_rest n i = if (Nat.eqb n 0 || (i + Z.of_nat n <=? 65535))%Z
                then Ok (List.concat (map (fun j => "," :: par j) (zrange i n))) else Panic.
Proof.
  induction n as [|n IH]; intros i I. reflexivity. cbn [in_rest Nat.eqb orb]. rewrite ordinal_spec, IH by lia.
  destruct (Z.leb_spec (i + Z.of_nat (S n)) 65535).
  - replace ((0 <=? i) && (i <? 65535))%Z with true by (symmetry; apply andb_true_iff; split; [apply Z.leb_le|apply Z.ltb_lt]; lia).
    cbn [bind]. replace (Nat.eqb n 0 || (i + 1 + Z.of_nat n <=? 65535))%Z with true.
    2:{ symmetry. apply orb_true_iff. right. apply Z.leb_le. lia. }
    cbn [bind]. rewrite zrange_S. reflexivity.
  - destruct (Z.ltb_spec i 65535) as [L|L].
    + replace (0 <=? i)%Z with true by (symmetry; apply Z.leb_le; lia). cbn [andb bind].
      replace (Nat.eqb n 0) with false by (symmetry; apply Nat.eqb_neq; lia).
      replace (i + 1 + Z.of_nat n <=? 65535)%Z with false by (symmetry; apply Z.leb_gt; lia). reflexivity.
    + rewrite andb_false_r. reflexivity.
Qed.

Lemma commas_concat : forall x l, commas (x :: l) = x ++ List.concat (map (fun y => "," :: y) l).
Proof.
  intros x l. revert x. induction l as [|y l IH]; intros x. simpl. now rewrite app_nil_r.
  change (commas (x :: y :: l)) with (x ++ "," :: commas (y :: l)). rewrite IH. reflexivity.
Qed.

Lemma InValueList_spec : forall num pos,
  InValueList num pos =
  if (num <=? 0)%Z then Ok []
  else if ((0 <=? pos) && (pos + num <=? 65535))%Z then Ok (commas (map par (zrange pos (Z.to_nat num)))) else Panic.
Proof.
  intros num pos. unfold InValueList. rewrite Z.ltb_antisym. destruct (Z.leb_spec num 0) as [L|L]; [reflexivity|]. cbn [negb].
  rewrite ordinal_spec. destruct (Z.leb_spec 0 pos) as [P|P]; [|reflexivity]. cbn [andb].
  destruct (Z.ltb_spec pos 65535) as [Q|Q].
  - cbn [bind]. rewrite in_rest_spec by lia.
    replace (Z.to_nat num) with (S (Z.to_nat (num - 1))) by lia. rewrite zrange_S. cbn [map].
    rewrite commas_concat, map_map.
    destruct (Z.leb_spec (pos + num) 65535) as [R|R].
    + replace (Nat.eqb (Z.to_nat (num - 1)) 0 || (pos + 1 + Z.of_nat (Z.to_nat (num - 1)) <=? 65535))%Z with true.
      2:{ symmetry. apply orb_true_iff. right. apply Z.leb_le. lia. } reflexivity.
    + replace (Nat.eqb (Z.to_nat (num - 1)) 0 || (pos + 1 + Z.of_nat (Z.to_nat (num - 1)) <=? 65535))%Z with false.
      2:{ symmetry. apply orb_false_iff. split; [apply Nat.eqb_neq; lia|apply Z.leb_gt; lia]. } reflexivity.
  - cbn [bind]. replace (pos + num <=? 65535)%Z with false by (symmetry; apply Z.leb_gt; lia). reflexivity.
Qed.

(** *** what a node writes *)
Definition node_vals (n : node) : list gval :=
  match n with
  | NBinary _ _ v => [v]
  | NText _ v => [GString (toTSQuery v)]
  | NIn _ vals => vals
  | NAny _ v _ => [v]
  | _ => []
  end.

(** The text of a node when parameters are written by [f], given its values. *)
Definition node_text (n : node) (ps : list bytes) : bytes :=
  match n with
  | NBinary col op _ => col ++ " " :: op ++ " " :: List.concat ps
  | NUnary col pred => col ++ " " :: pred
  | NText col _ => col ++ lit " @@ to_tsquery('simple', " ++ List.concat ps ++ [")"]
  | NAnd => lit " AND "
  | NOr => lit " OR "
  | NLParen => ["("]
  | NRParen => [")"]
  | NIn col _ => col ++ lit " IN (" ++ commas ps ++ [")"]
  | NAny col _ cast => col ++ lit " = ANY(" ++ List.concat ps ++ cast ++ [")"]
  end.

Definition fits_at (p : Z) (n : nat) : bool := (Nat.eqb n 0 || (0 <=? p) && (p + Z.of_nat n <=? 65535))%Z.

Lemma fits_app : forall p n m, fits_at p (n + m) = fits_at p n && fits_at (p + Z.of_nat n) m.
Proof.
  intros p n m. unfold fits_at. destruct n as [|n].
  - cbn [plus Nat.eqb orb andb]. replace (p + Z.of_nat 0)%Z with p by lia. reflexivity.
  - cbn [plus Nat.eqb orb]. destruct m as [|m]. { rewrite Nat.add_0_r. cbn [Nat.eqb orb]. now rewrite andb_true_r. }
    destruct (Z.leb_spec 0 p) as [P|P]; [|reflexivity].
    replace (0 <=? p + Z.of_nat (S n))%Z with true by (symmetry; apply Z.leb_le; lia). cbn [andb Nat.eqb orb].
    destruct (Z.leb_spec (p + Z.of_nat (S (n + S m))) 65535), (Z.leb_spec (p + Z.of_nat (S n)) 65535), (Z.leb_spec (p + Z.of_nat (S n) + Z.of_nat (S m)) 65535); auto; lia.
Qed.

Definition bump (w : writer) (t : bytes) (vs : list gval) : writer :=
  {| w_out := w_out w ++ t; w_p := (w_p w + Z.of_nat (List.length vs))%Z; w_params := w_params w ++ vs |}.

Lemma bump_bump : forall w a b u v, bump (bump w a u) b v = bump w (a ++ b) (u ++ v).
Proof. intros. unfold bump. cbn [w_out w_p w_params]. rewrite app_length, !app_assoc. f_equal. lia. Qed.

Lemma wstr_bump : forall s w, wstr s w = bump w s [].
Proof. intros. unfold wstr, bump. rewrite app_nil_r. f_equal. cbn [List.length]. lia. Qed.

Lemma bump_nil : forall w, bump w [] [] = w.
Proof. intros [o p l]. unfold bump. cbn [w_out w_p w_params List.length]. rewrite !app_nil_r. f_equal. lia. Qed.

Lemma wparam_bump : forall suf v w, wparam suf v w = if fits_at (w_p w) 1 then Ok (bump w (par (w_p w) ++ suf) [v]) else Panic.
Proof.
  intros. unfold wparam. rewrite ordinal_spec. unfold fits_at. cbn [Nat.eqb orb].
  replace (w_p w + Z.of_nat 1 <=? 65535)%Z with (w_p w <? 65535)%Z.
  2:{ apply eq_true_iff_eq. rewrite Z.ltb_lt, Z.leb_le. lia. }
  destruct (_ && _)%bool; reflexivity.
Qed.

Lemma write_in_bump : forall vals first w,
  write_in first vals w =
  if fits_at (w_p w) (List.length vals)
  then Ok (bump w (let ps := map par (zrange (w_p w) (List.length vals)) in
                   if first then commas ps else List.concat (map (fun y => "," :: y) ps)) vals)
  else Panic.
Proof.
  induction vals as [|v vals IH]; intros first w.
  - cbn [write_in List.length]. unfold fits_at. cbn [Nat.eqb orb zrange seq map]. destruct first; cbn [commas List.concat map]; now rewrite bump_nil.
  - cbn [write_in]. cbn [List.length]. change (S (List.length vals)) with (1 + List.length vals)%nat. rewrite fits_app.
    rewrite zrange_app. change (zrange (w_p w) 1) with [(w_p w + Z.of_nat 0)%Z]. replace (w_p w + Z.of_nat 0)%Z with (w_p w) by lia.
    cbn [app map]. rewrite commas_concat.
    set (w' := if first then w else wstr (B ",") w).
    assert (w_p w' = w_p w) as WP by (unfold w'; destruct first; reflexivity).
    rewrite wparam_bump, WP. destruct (fits_at (w_p w) 1); [|reflexivity]. cbn [bind andb].
    rewrite IH.
    cbn [w_p bump List.length]. rewrite WP. replace (w_p w + Z.of_nat 1)%Z with (w_p w + 1)%Z by lia.
    destruct (fits_at (w_p w + 1) (List.length vals)); [|reflexivity]. f_equal.
    unfold w'. destruct first.
    + rewrite bump_bump, app_nil_r. reflexivity.
    + rewrite wstr_bump, !bump_bump. f_equal. rewrite app_nil_r. cbn [map List.concat B list_ascii_of_string app]. reflexivity.
Qed.

Lemma write_spec : forall n w,
  write n w = if fits_at (w_p w) (List.length (node_vals n))
              then Ok (bump w (node_text n (map par (zrange (w_p w) (List.length (node_vals n))))) (node_vals n))
              else Panic.
Proof.
  intros n w.
  assert (forall s, map par (zrange (w_p (wstr s w)) 1) = [par (w_p w)]) as Z1.
  { intros s. change (w_p (wstr s w)) with (w_p w). unfold zrange. cbn [seq map]. do 2 f_equal. lia. }
  assert (map par (zrange (w_p w) 1) = [par (w_p w)]) as Z2 by (apply (Z1 [])).
  destruct n as [col op v|col pred|col v| | | | |col vals|col v cast]; cbn [write node_vals node_text List.length];
    try (unfold fits_at; cbn [Nat.eqb orb]; rewrite wstr_bump; reflexivity).
  - rewrite wparam_bump. change (w_p (wstr (col ++ B " " ++ op ++ B " ") w)) with (w_p w). destruct (fits_at (w_p w) 1); [|reflexivity].
    f_equal. rewrite wstr_bump, bump_bump, Z2. f_equal. cbn [B list_ascii_of_string List.concat app]. rewrite !app_nil_r, <- !app_assoc. cbn [app]. now rewrite <- app_assoc.
  - rewrite wparam_bump. change (w_p (wstr (col ++ B " @@ to_tsquery('simple', ") w)) with (w_p w). destruct (fits_at (w_p w) 1); [|reflexivity].
    f_equal. rewrite wstr_bump, bump_bump, Z2. f_equal. cbn [List.concat]. rewrite app_nil_r, <- !app_assoc. reflexivity.
  - rewrite write_in_bump. change (w_p (wstr (col ++ B " IN (") w)) with (w_p w).
    destruct (fits_at _ _); [|reflexivity]. cbn [rmap bind]. unfold rmap. cbn [bind]. f_equal. rewrite !wstr_bump, !bump_bump.
    rewrite app_nil_r. f_equal. rewrite <- !app_assoc. reflexivity.
  - rewrite wparam_bump. change (w_p (wstr (col ++ B " = ANY(") w)) with (w_p w). destruct (fits_at (w_p w) 1); [|reflexivity].
    f_equal. rewrite wstr_bump, bump_bump, Z2. f_equal. cbn [List.concat]. rewrite app_nil_r, <- !app_assoc. reflexivity.
Qed.

Definition all_vals (l : list node) : list gval := flat_map node_vals l.

(** The text of a list of nodes, the first parameter being number p. *)
Fixpoint all_text (l : list node) (p : Z) : bytes :=
  match l with
  | [] => []
  | n :: r => node_text n (map par (zrange p (List.length (node_vals n)))) ++ all_text r (p + Z.of_nat (List.length (node_vals n)))
  end.

Lemma write_all_spec : forall l w,
  write_all l w = if fits_at (w_p w) (List.length (all_vals l))
                  then Ok (bump w (all_text l (w_p w)) (all_vals l)) else Panic.
Proof.
  induction l as [|n l IH]; intros w. cbn [write_all all_vals flat_map all_text List.length]. unfold fits_at. cbn [Nat.eqb orb]. now rewrite bump_nil.
  cbn [write_all all_text]. change (all_vals (n :: l)) with (node_vals n ++ all_vals l). rewrite app_length, fits_app.
  rewrite write_spec. destruct (fits_at (w_p w) (List.length (node_vals n))); [|reflexivity]. cbn [bind andb].
  rewrite IH. cbn [w_p bump].
  destruct (fits_at _ _); [|reflexivity]. now rewrite bump_bump.
Qed.

Definition where_text (l : list node) (p : Z) : bytes := match l with [] => [] | _ => lit " WHERE " ++ all_text l p end.

Lemma where_sql_spec : forall s p,
  where_sql s p = if fits_at p (List.length (all_vals (f_where s)))
    then Ok {| w_out := where_text (f_where s) p; w_p := p + Z.of_nat (List.length (all_vals (f_where s)));
               w_params := all_vals (f_where s) |}
    else Panic.
Proof.
  intros s p. unfold where_sql, where_text. destruct (f_where s) as [|n l].
  - cbn [all_vals flat_map List.length]. unfold fits_at. cbn [Nat.eqb orb]. do 2 f_equal. lia.
  - rewrite write_all_spec. reflexivity.
Qed.

Lemma ToSQL_spec : forall s p,
  ToSQL s p = if fits_at p (List.length (all_vals (f_where s)))
    then Ok (where_text (f_where s) p ++ tail_sql s, all_vals (f_where s)) else Panic.
Proof. intros s p. unfold ToSQL. rewrite where_sql_spec. destruct (fits_at _ _); reflexivity. Qed.

(** *** reading the parameters back *)
Definition nodollar (s : bytes) : Prop := nochar "$" s.

Definition starts_nondigit (s : bytes) : Prop := match s with [] => True | c :: _ => digit_of c = None end.

Lemma lex_plain : forall s rest, nodollar s -> lex None (s ++ rest) = map Ch s ++ lex None rest.
Proof.
  induction s as [|c s IH]; intros rest N; auto. apply nochar_cons in N. destruct N as [N1 N2].
  cbn [app lex map flush]. destruct (ascii_dec c "$"); [congruence|]. cbn [app]. f_equal. now apply IH.
Qed.

Lemma lex_flush : forall st rest, starts_nondigit rest -> lex st rest = flush st ++ lex None rest.
Proof.
  intros st [|c r] N. cbn [lex flush]. now rewrite app_nil_r. cbn [lex flush app]. cbn [starts_nondigit] in N. rewrite N. destruct st; reflexivity.
Qed.

Lemma lex_digits : forall s a rest n, Forall dec_char s -> (0 <= a)%Z -> parse_digits 10 (Z.to_N a) s = Some n ->
  lex (Some (Some a)) (s ++ rest) = lex (Some (Some (Z.of_N n))) rest.
Proof.
  induction s as [|c s IH]; intros a rest n F A E; cbn [app parse_digits] in *.
  - injection E as <-. rewrite Z2N.id by lia. reflexivity.
  - inversion F as [|? ? (d & V & D) F']; subst. rewrite V in E. pose proof D as D'. apply N.ltb_lt in D'. rewrite D' in E.
    destruct (dec_char_spec c d V D) as (S1 & _). cbn [lex]. rewrite S1. apply IH; auto; try lia.
    replace (Z.to_N (a * 10 + Z.of_N d)) with (Z.to_N a * 10 + d)%N by lia. exact E.
Qed.

Lemma lex_par : forall i rest, (0 <= i)%Z -> starts_nondigit rest -> lex None (par i ++ rest) = Ph (i + 1) :: lex None rest.
Proof.
  intros i rest I N. unfold par. rewrite format_int_dec by lia.
  pose proof (format_uint_value 10 (Z.to_N (i + 1)) ltac:(lia) ltac:(lia)) as E.
  pose proof (format_dec (Z.to_N (i + 1))) as F. pose proof (format_uint_nonempty 10 (Z.to_N (i + 1))) as NE.
  destruct (format_uint 10 (Z.to_N (i + 1))) as [|c s]; [congruence|].
  cbn [app]. cbn [lex digit_of flush app]. change (ascii_dec "$" "$") with (left (A := "$" = "$") (B := "$" <> "$") eq_refl).
  replace (match ascii_dec "$" "$" with left _ => lex (Some None) (c :: s ++ rest) | right _ => Ch "$" :: lex None (c :: s ++ rest) end)
    with (lex (Some None) (c :: s ++ rest)) by (destruct (ascii_dec "$" "$"); congruence).
  inversion F as [|? ? (d & V & D) F']; subst. cbn [parse_digits] in E. rewrite V in E. pose proof D as D'. apply N.ltb_lt in D'. rewrite D' in E.
  destruct (dec_char_spec c d V D) as (S1 & _). cbn [lex]. rewrite S1.
  rewrite (lex_digits s (Z.of_N d) rest (Z.to_N (i + 1))); auto; try lia.
  2:{ rewrite N2Z.id. exact E. }
  rewrite lex_flush by auto. cbn [flush app]. f_equal. f_equal. lia.
Qed.

(** The form of a node's text over any alphabet into which characters embed. *)
Definition node_form {A} (i : ascii -> A) (n : node) (ps : list (list A)) : list A :=
  match n with
  | NBinary col op _ => map i (col ++ " " :: op ++ [" "]) ++ List.concat ps
  | NUnary col pred => map i (col ++ " " :: pred)
  | NText col _ => map i (col ++ lit " @@ to_tsquery('simple', ") ++ List.concat ps ++ [i ")"]
  | NAnd => map i (lit " AND ")
  | NOr => map i (lit " OR ")
  | NLParen => [i "("]
  | NRParen => [i ")"]
  | NIn col _ => map i (col ++ lit " IN (")
       ++ (match ps with [] => [] | x :: l => x ++ List.concat (map (cons (i ",")) l) end) ++ [i ")"]
  | NAny col _ cast => map i (col ++ lit " = ANY(") ++ List.concat ps ++ map i (cast ++ [")"])
  end.

Lemma node_form_text : forall n ps, node_form (fun c => c) n ps = node_text n ps.
Proof.
  intros n ps. destruct n; cbn [node_form node_text]; rewrite ?map_id; auto; rewrite <- ?app_assoc; auto.
  - cbn [app]. now rewrite <- app_assoc.
  - do 2 f_equal. destruct ps as [|x l]; auto. rewrite commas_concat. reflexivity.
Qed.

Lemma node_form_flat : forall {A C} (g : A -> list C) (i : ascii -> A) (j : ascii -> C) n ps,
  (forall c, g (i c) = [j c]) -> flat_map g (node_form i n ps) = node_form j n (map (flat_map g) ps).
Proof.
  intros A C g i j n ps H.
  assert (forall s, flat_map g (map i s) = map j s) as M.
  { induction s as [|c s IH]; auto. cbn [map flat_map]. rewrite H, IH. reflexivity. }
  assert (forall l, flat_map g (List.concat l) = List.concat (map (flat_map g) l)) as CC.
  { induction l as [|x l IH]; auto. cbn [List.concat map]. now rewrite flat_map_app, IH. }
  destruct n; cbn [node_form]; rewrite ?flat_map_app, ?M, ?CC; cbn [flat_map]; rewrite ?H; auto.
  do 2 f_equal. destruct ps as [|x l]; auto. cbn [map]. rewrite flat_map_app, CC. do 2 f_equal.
  rewrite !map_map. apply map_ext. intros a. cbn [flat_map]. rewrite H. reflexivity.
Qed.

Definition follower (n : node) : bool := match n with NAnd | NOr | NRParen => true | _ => false end.

Fixpoint adj (l : list node) : bool :=
  match l with
  | x :: r => (match r with y :: _ => negb (node_canAndOr x) || follower y | [] => true end) && adj r
  | [] => true
  end.

Definition node_nodollar (n : node) : Prop :=
  match n with
  | NBinary col op _ => nodollar col /\ nodollar op
  | NUnary col pred => nodollar col /\ nodollar pred
  | NText col _ => nodollar col
  | NIn col _ => nodollar col
  | NAny col _ cast => nodollar col /\ nodollar cast /\ starts_nondigit cast
  | _ => True
  end.

Lemma nodollar_app : forall a b, nodollar a -> nodollar b -> nodollar (a ++ b).
Proof. intros a b A C I. apply in_app_or in I. destruct I; auto. Qed.

Lemma nodollar_lit : forall s, existsb (fun c => Ascii.eqb c "$") (lit s) = false -> nodollar (lit s).
Proof.
  intros s E I. assert (existsb (fun c => Ascii.eqb c "$") (lit s) = true); [|congruence].
  apply existsb_exists. exists "$". auto.
Qed.

Definition phs (p : Z) (n : nat) : list (list stok) := map (fun i => [Ph (i + 1)]) (zrange p n).

Lemma lex_commas : forall n p rest, (0 <= p)%Z ->
  lex None (List.concat (map (cons ",") (map par (zrange p n))) ++ ")" :: rest)
  = List.concat (map (cons (Ch ",")) (phs p n)) ++ Ch ")" :: lex None rest.
Proof.
  induction n as [|n IH]; intros p rest P.
  - reflexivity.
  - unfold phs. rewrite zrange_S. cbn [map List.concat app]. fold (phs (p + 1) n).
    cbn [lex flush app]. destruct (ascii_dec "," "$"); [discriminate|].
    rewrite <- app_assoc. rewrite lex_par; auto.
    + cbn [app]. do 2 f_equal. apply IH. lia.
    + destruct n; reflexivity.
Qed.

Lemma node_toks : forall n p rest, (0 <= p)%Z -> node_nodollar n -> (node_canAndOr n = true -> starts_nondigit rest) ->
  lex None (node_text n (map par (zrange p (List.length (node_vals n)))) ++ rest)
  = node_form Ch n (phs p (List.length (node_vals n))) ++ lex None rest.
Proof.
  intros n p rest P C N.
  assert (forall A (f : Z -> A), map f (zrange p 1) = [f p]) as Z1.
  { intros A f. unfold zrange. cbn [seq map]. do 2 f_equal. lia. }
  destruct n as [col op v|col pred|col v| | | | |col vals|col v cast]; cbn [node_vals List.length node_text node_form node_nodollar] in *;
    unfold phs; rewrite ?Z1; cbn [List.concat]; rewrite ?app_nil_r.
  - destruct C as [C1 C2]. specialize (N eq_refl).
    replace ((col ++ " " :: op ++ " " :: par p) ++ rest) with ((col ++ " " :: op ++ [" "]) ++ par p ++ rest).
    2:{ rewrite <- !app_assoc. cbn [app]. rewrite <- !app_assoc. reflexivity. }
    rewrite lex_plain. rewrite lex_par by auto. now rewrite <- app_assoc.
    apply nodollar_app; auto. apply (nodollar_app [" "]). intros [|[]]; discriminate. apply nodollar_app; auto. intros [|[]]; discriminate.
  - destruct C as [C1 C2]. apply lex_plain. apply nodollar_app; auto. apply (nodollar_app [" "]); auto. intros [|[]]; discriminate.
  - replace ((col ++ lit " @@ to_tsquery('simple', " ++ par p ++ [")"]) ++ rest)
      with ((col ++ lit " @@ to_tsquery('simple', ") ++ par p ++ ")" :: rest) by (rewrite <- !app_assoc; reflexivity).
    rewrite lex_plain. 2:{ apply nodollar_app; auto. apply nodollar_lit. reflexivity. }
    rewrite lex_par; auto. 2: reflexivity.
    rewrite <- !app_assoc. reflexivity.
  - apply lex_plain. apply nodollar_lit. reflexivity.
  - apply lex_plain. apply nodollar_lit. reflexivity.
  - reflexivity.
  - reflexivity.
  - replace ((col ++ lit " IN (" ++ commas (map par (zrange p (List.length vals))) ++ [")"]) ++ rest)
      with ((col ++ lit " IN (") ++ commas (map par (zrange p (List.length vals))) ++ ")" :: rest) by (rewrite <- !app_assoc; reflexivity).
    rewrite lex_plain. 2:{ apply nodollar_app; auto. apply nodollar_lit. reflexivity. }
    rewrite <- !app_assoc. f_equal. destruct vals as [|v vals]. reflexivity.
    cbn [List.length]. rewrite zrange_S. cbn [map]. rewrite commas_concat, <- app_assoc. rewrite lex_par; auto.
    + cbn [app]. f_equal. rewrite lex_commas by lia. reflexivity.
    + destruct vals; reflexivity.
  - destruct C as (C1 & C2 & C3).
    replace ((col ++ lit " = ANY(" ++ par p ++ cast ++ [")"]) ++ rest)
      with ((col ++ lit " = ANY(") ++ par p ++ (cast ++ [")"]) ++ rest) by (rewrite <- !app_assoc; reflexivity).
    rewrite lex_plain. 2:{ apply nodollar_app; auto. apply nodollar_lit. reflexivity. }
    rewrite <- !app_assoc. f_equal.
    assert (nodollar (cast ++ [")"])) as CD by (apply nodollar_app; auto; intros [|[]]; discriminate).
    rewrite lex_par; auto.
    + cbn [app]. f_equal. transitivity (lex None ((cast ++ [")"]) ++ rest)). now rewrite <- app_assoc. now apply lex_plain.
    + destruct cast as [|c cast]; [reflexivity|exact C3].
Qed.

Fixpoint all_toks (l : list node) (p : Z) : list stok :=
  match l with
  | [] => []
  | n :: r => node_form Ch n (phs p (List.length (node_vals n))) ++ all_toks r (p + Z.of_nat (List.length (node_vals n)))
  end.

Lemma follower_start : forall n p rest, follower n = true -> starts_nondigit (node_text n p ++ rest).
Proof. intros [] p rest F; try discriminate; reflexivity. Qed.

Lemma all_text_toks : forall l p rest, (0 <= p)%Z -> adj l = true -> Forall node_nodollar l -> starts_nondigit rest ->
  lex None (all_text l p ++ rest) = all_toks l p ++ lex None rest.
Proof.
  induction l as [|n l IH]; intros p rest P A F S. reflexivity.
  inversion F as [|? ? F1 F2]; subst. cbn [adj] in A. apply andb_prop in A. destruct A as [A1 A2].
  cbn [all_text all_toks]. rewrite <- !app_assoc. rewrite node_toks; auto.
  - f_equal. apply IH; auto. lia.
  - intros CA. destruct l as [|y l]; [exact S|]. rewrite CA in A1. cbn [negb orb] in A1.
    cbn [all_text]. rewrite <- app_assoc. now apply follower_start.
Qed.

(** Reference texts: parameters shown by their values. *)
Definition inline (show : gval -> text) (n : node) : text := node_text n (map show (node_vals n)).

Lemma all_toks_instantiate : forall (show : gval -> text) l pre post p (f : Z -> text),
  (forall i, (i < List.length (pre ++ all_vals l ++ post))%nat ->
      f (p + Z.of_nat i + 1)%Z = show (nth i (pre ++ all_vals l ++ post) GNil)) ->
  flat_map (fun t => match t with Ph n => f n | Ch c => [c] end) (all_toks l (p + Z.of_nat (List.length pre)))
  = flat_map (inline show) l.
Proof.
  intros show. induction l as [|n l IH]; intros pre post p f H. reflexivity.
  cbn [all_toks flat_map]. rewrite flat_map_app. f_equal.
  - rewrite (node_form_flat _ Ch (fun c => c)) by reflexivity. rewrite node_form_text. unfold inline. f_equal.
    unfold phs, zrange. rewrite !map_map. cbn [flat_map].
    change (all_vals (n :: l)) with (node_vals n ++ all_vals l) in H.
    transitivity (map (fun i => show (nth i (node_vals n) GNil)) (seq 0 (List.length (node_vals n)))).
    + apply map_ext_in. intros i I. apply in_seq in I. rewrite app_nil_r.
      specialize (H (List.length pre + i)%nat). rewrite <- app_assoc in H. rewrite app_length in H.
      replace (p + Z.of_nat (List.length pre) + Z.of_nat i + 1)%Z with (p + Z.of_nat (List.length pre + i) + 1)%Z by lia.
      rewrite H by (rewrite app_length; lia). rewrite app_nth2_plus, app_nth1 by lia. reflexivity.
    + clear. generalize (node_vals n). intros vs. induction vs as [|v vs IH]; auto.
      cbn [List.length seq map nth]. f_equal. rewrite <- seq_shift, map_map. exact IH.
  - specialize (IH (pre ++ node_vals n) post p f). rewrite (app_length pre (node_vals n)) in IH.
    replace (p + Z.of_nat (List.length pre) + Z.of_nat (List.length (node_vals n)))%Z
      with (p + Z.of_nat (List.length pre + List.length (node_vals n)))%Z by lia.
    apply IH. intros i I. change (all_vals (n :: l)) with (node_vals n ++ all_vals l) in H.
    replace ((pre ++ node_vals n) ++ all_vals l ++ post) with (pre ++ (node_vals n ++ all_vals l) ++ post) in *
      by (rewrite <- !app_assoc; reflexivity). now apply H.
Qed.

Lemma all_toks_ph : forall l p,
  flat_map (fun t => match t with Ph n => [n] | Ch _ => [] end) (all_toks l p)
  = map (fun i => (i + 1)%Z) (zrange p (List.length (all_vals l))).
Proof.
  assert (forall n ps, flat_map (fun t => match t with Ph n => [n] | Ch _ => [] end) (node_form Ch n (map (fun i => [Ph (i + 1)]) ps))
     = match n with NBinary _ _ _ | NText _ _ | NIn _ _ | NAny _ _ _ => map (fun i => (i + 1)%Z) ps | _ => [] end) as E.
  { intros n ps.
    assert (forall s, flat_map (fun t => match t with Ph n => [n] | Ch _ => @nil Z end) (map Ch s) = []) as M by (induction s; auto).
    assert (forall l, flat_map (fun t => match t with Ph n => [n] | Ch _ => @nil Z end) (List.concat (map (fun i => [Ph (i + 1)]) l)) = map (fun i => (i + 1)%Z) l) as CC.
    { induction l as [|x l IH]; auto. cbn [List.concat map app flat_map]. now rewrite IH. }
    destruct n; cbn [node_form]; rewrite ?flat_map_app, ?M, ?CC; cbn [flat_map app]; rewrite ?app_nil_r; auto.
    destruct ps as [|x ps]; auto. cbn [map]. rewrite flat_map_app. cbn [flat_map app]. f_equal.
    induction ps as [|y ps IH]; auto. cbn [map List.concat app flat_map]. f_equal. exact IH. }
  induction l as [|n l IH]; intros p. reflexivity.
  cbn [all_toks]. change (all_vals (n :: l)) with (node_vals n ++ all_vals l).
  rewrite flat_map_app, IH, app_length, zrange_app, map_app. f_equal.
  unfold phs. rewrite E. destruct n; reflexivity.
Qed.
