(** Proofs about the varbit, varbit[], tsvector and tsvector[] codecs. *)
From Coq Require Import Decimal DecimalString.
From Coq Require Import Ascii String ZArith NArith Bool List Lia.
From Verif Require Import GoBase Strconv StrconvProofs ConvertUtil ConvertProofs Codecs BitCodecs
  PgSpec PgSpecProofs TextProofs SimpleProofs IntProofs.
Import ListNotations.
Local Open Scope char_scope.

Lemma ok_some : forall {A} (x y : A), x = y -> Ok (Some x) = Ok (Some y).
Proof. intros; now subst. Qed.

(** *** bit strings *)
Definition is_bit (c : ascii) : Prop := c = "0" \/ c = "1".

Lemma varbit_out_bits : forall b, Forall is_bit (varbit_out b).
Proof. induction b as [|[|] b IH]; constructor; auto; [right|left]; auto. Qed.

Lemma varbit_in_out : forall b, varbit_in (varbit_out b) = Some b.
Proof. induction b as [|[|] b IH]; auto; cbn [varbit_out map varbit_in]; fold (varbit_out b); rewrite IH; reflexivity. Qed.

Lemma varbit_in_iff : forall s b, varbit_in s = Some b <-> s = varbit_out b.
Proof.
  induction s as [|c s IH]; intros b; cbn [varbit_in].
  - split. intros E. now injection E as <-. destruct b as [|[|] b]; auto; discriminate.
  - split.
    + destruct (varbit_in s) as [b'|]; [|discriminate]. pose proof (proj1 (IH b') eq_refl) as ->.
      destruct (ascii_dec c "1"); [intros E; injection E as <-; now subst|].
      destruct (ascii_dec c "0"); [intros E; injection E as <-; now subst|discriminate].
    + destruct b as [|x b]; [discriminate|]. intros E. injection E as -> E2.
      apply IH in E2. rewrite E2. destruct x; reflexivity.
Qed.

Lemma is_bit_in : forall s, Forall is_bit s -> exists b, varbit_in s = Some b.
Proof.
  induction 1 as [|c s H F [b IH]]. exists []; auto.
  cbn [varbit_in]. rewrite IH. destruct H as [->| ->]; eexists; reflexivity.
Qed.

Lemma varbit_in_bits : forall s b, varbit_in s = Some b -> Forall is_bit s.
Proof. intros s b H. apply varbit_in_iff in H. subst. apply varbit_out_bits. Qed.

Lemma format_bits : forall n, Forall is_bit (format_uint 2 n).
Proof.
  intros. apply format_uint_chars. lia. intros d H.
  assert (d = 0 \/ d = 1)%N as [->| ->] by lia; [left|right]; reflexivity.
Qed.

Lemma parse_bits : forall b acc,
  parse_digits 2 acc (varbit_out b) = Some (fold_left (fun n x => N.double n + N.b2n x)%N b acc).
Proof.
  induction b as [|x b IH]; intros acc; auto.
  cbn [varbit_out map]. fold (varbit_out b). cbn [fold_left]. rewrite <- IH.
  assert (H1 : (N.double acc + N.b2n true = acc * 2 + 1)%N) by (rewrite N.double_spec; cbn [N.b2n]; lia).
  assert (H0 : (N.double acc + N.b2n false = acc * 2 + 0)%N) by (rewrite N.double_spec; cbn [N.b2n]; lia).
  destruct x; [rewrite H1|rewrite H0]; reflexivity.
Qed.

Lemma format_bits_value : forall n, exists b,
  format_uint 2 n = varbit_out b /\ bits_value b = n.
Proof.
  intros n. destruct (is_bit_in _ (format_bits n)) as [b E]. apply varbit_in_iff in E.
  exists b. split; auto. pose proof (format_uint_value 2 n ltac:(lia) ltac:(lia)) as V.
  rewrite E, parse_bits in V. now injection V.
Qed.

Lemma varbit_int_literal : forall v, (0 <= v)%Z ->
  exists b, VarBitFromInt64 v = Some (varbit_out b) /\ Z.of_N (bits_value b) = v.
Proof.
  intros v H. unfold VarBitFromInt64, format_int. replace (v <? 0)%Z with false by (symmetry; apply Z.ltb_ge; lia).
  destruct (format_bits_value (Z.to_N v)) as (b & E & V). exists b. rewrite E. split; auto. rewrite V. lia.
Qed.

Lemma varbit_int_negative : forall v, (v < 0)%Z ->
  exists t, VarBitFromInt64 v = Some t /\ varbit_in t = None.
Proof.
  intros v H. unfold VarBitFromInt64, format_int. replace (v <? 0)%Z with true by (symmetry; apply Z.ltb_lt; lia).
  eexists. split. reflexivity. cbn [varbit_in]. destruct (varbit_in _); reflexivity.
Qed.

Lemma varbit_int_roundtrip : forall v old,
  VarBitToInt64 (VarBitFromInt64 v) old
  = if ((- 2 ^ 63 <=? v) && (v <? 2 ^ 63))%Z then Ok v else Err.
Proof. intros. unfold VarBitToInt64, VarBitFromInt64, srcbytes. rewrite parse_int_format by lia. reflexivity. Qed.

Lemma parse_int_bits : forall b,
  parse_int 2 64 (varbit_out b)
  = if negb (Nat.eqb (List.length b) 0) && (bits_value b <? 2 ^ 63)%N then Ok (Z.of_N (bits_value b)) else Err.
Proof.
  intros [|x b]. reflexivity.
  assert (X : parse_uint 2 64 (varbit_out (x :: b))
     = if (bits_value (x :: b) <? 2 ^ 64)%N then Ok (bits_value (x :: b)) else Err).
  { unfold parse_uint. rewrite parse_bits. reflexivity. }
  unfold parse_int.
  replace (match varbit_out (x :: b) with [] => Err | c :: r => _ end)
    with (bind (parse_uint 2 64 (varbit_out (x :: b))) (fun n =>
      if negb false && (2 ^ (64 - 1) <=? n)%N then Err
      else if false && (2 ^ (64 - 1) <? n)%N then Err else Ok (Z.of_N n))).
  2:{ cbn [varbit_out map]. destruct x; reflexivity. }
  rewrite X. change (64 - 1)%N with 63%N. cbn [negb andb List.length Nat.eqb].
  set (n := bits_value (x :: b)) in *. clearbody n. change (2 ^ 64)%N with (2 * 2 ^ 63)%N.
  generalize (2 ^ 63)%N. intros p.
  destruct (N.ltb_spec n (2 * p)), (N.ltb_spec n p); cbn [bind]; try lia; destruct (N.leb_spec p n); auto; lia.
Qed.

Lemma varbit_int_scan : forall b old,
  VarBitToInt64 (Some (varbit_out b)) old
  = if negb (Nat.eqb (List.length b) 0) && (bits_value b <? 2 ^ 63)%N then Ok (Z.of_N (bits_value b)) else Err.
Proof. intros. apply parse_int_bits. Qed.

Lemma varbit_bools : forall v old,
  VarBitFromBoolSlice v = option_map varbit_out v
  /\ VarBitToBoolSlice (option_map varbit_out v) old = Ok v.
Proof.
  intros [l|] old; split; auto. unfold VarBitToBoolSlice, srcbytes. simpl. unfold varbit_out. rewrite map_map.
  apply ok_some. rewrite <- (map_id l) at 2. apply map_ext. intros [|]; reflexivity.
Qed.

Lemma varbit_uint8s : forall v old,
  VarBitFromUint8Slice v = option_map varbit_out (option_map (map (fun n => N.eqb n 1)) v)
  /\ VarBitToUint8Slice (option_map varbit_out (option_map (map (fun n => N.eqb n 1)) v)) old
     = Ok (option_map (map (fun n => if N.eqb n 1 then 1%N else 0%N)) v).
Proof.
  intros [l|] old; split; auto; unfold VarBitFromUint8Slice, VarBitToUint8Slice, srcbytes; simpl; unfold varbit_out; rewrite ?map_map; auto.
  apply ok_some. apply map_ext. intros n. destruct (N.eqb n 1); reflexivity.
Qed.

(** *** arrays of bit strings *)
Definition varbit_text (o : option (list bool)) : option text := option_map varbit_out o.

Lemma bits_plain : forall s, Forall is_bit s -> Forall (fun c => pg_special c = false) s.
Proof. intros s F. eapply Forall_impl; [|exact F]. intros c [->| ->]; reflexivity. Qed.

Lemma bits_needs : forall s, Forall is_bit s -> s <> [] -> needs_quotes s = false.
Proof.
  intros s F N. unfold needs_quotes. destruct s as [|c s]; [congruence|].
  apply orb_false_iff. split.
  - unfold is_null_word. destruct (list_eq_dec _ _ _) as [E|]; auto.
    inversion F as [|? ? [->| ->]]; subst; cbn [map] in E; injection E; discriminate.
  - apply bits_plain in F. apply not_true_is_false. intros E. apply existsb_exists in E.
    destruct E as (d & I & Hd). rewrite Forall_forall in F. rewrite (F d I) in Hd. discriminate.
Qed.

Lemma varbit_elem_out : forall o, elem_out (varbit_text o) = enc_bits (fun x : bool => if x then "1" else "0") o.
Proof.
  intros [b|]; [|reflexivity]. destruct b as [|x b]; [reflexivity|].
  cbn [varbit_text option_map]. rewrite elem_out_plain. reflexivity.
  apply bits_needs. apply varbit_out_bits. discriminate.
Qed.

Lemma varbit_array_literal : forall l,
  VarBitArrayFromBoolSliceSlice (Some l) = Some (array_out (map varbit_text l)).
Proof.
  intros. apply arr_value_out. intros x _. now rewrite varbit_elem_out.
Qed.

Lemma varbit_uint8_literal : forall l,
  VarBitArrayFromUint8SliceSlice (Some l)
  = Some (array_out (map varbit_text (map (option_map (map (fun n => N.eqb n 1))) l))).
Proof.
  intros. rewrite map_map.
  apply (arr_value_out _ (fun o => varbit_text (option_map (map (fun n => N.eqb n 1)) o))).
  intros [[|n b]|] _; auto. rewrite varbit_elem_out. cbn [option_map enc_bits map]. rewrite map_map. reflexivity.
Qed.

Lemma bits_nochar : forall c s, c <> "0" -> c <> "1" -> Forall is_bit s -> nochar c s.
Proof. intros c s H0 H1 F I. rewrite Forall_forall in F. apply F in I. destruct I; congruence. Qed.

Lemma varbit_elem_nocomma : forall o,
  nochar "," (elem_out (varbit_text o)) /\ elem_out (varbit_text o) <> [].
Proof.
  intros o. rewrite varbit_elem_out. destruct o as [[|x b]|].
  - split; [intros I; simpl in I; intuition discriminate|discriminate].
  - split; [|discriminate]. change (enc_bits _ (Some (x :: b))) with (varbit_out (x :: b)).
    apply bits_nochar; try discriminate. apply varbit_out_bits.
  - split; [intros I; simpl in I; intuition discriminate|discriminate].
Qed.

Lemma varbit_comma : forall l,
  pgParseCommaArray (array_out (map varbit_text l)) = Ok (map elem_out (map varbit_text l)).
Proof. intros. apply array_out_comma. intros. apply varbit_elem_nocomma. Qed.

Lemma dec_bits_elem : forall {A} (f : ascii -> A) o,
  dec_bits f (elem_out (varbit_text o)) = option_map (map (fun b : bool => f (if b then "1" else "0"))) o.
Proof.
  intros A f o. rewrite varbit_elem_out. destruct o as [[|x b]|]; auto.
  cbn [enc_bits]. cbn [map]. unfold dec_bits.
  replace (looks_null _) with false. replace (looks_empty _) with false.
  - cbn [option_map map]. rewrite map_map. reflexivity.
  - destruct x; unfold looks_empty; rewrite andb_false_r; reflexivity.
  - destruct x; unfold looks_null; rewrite andb_false_r; reflexivity.
Qed.

Lemma varbit_array_scan : forall l old,
  VarBitArrayToBoolSliceSlice (Some (array_out (map varbit_text l))) old = Ok (Some l).
Proof.
  intros. unfold VarBitArrayToBoolSliceSlice, arr_scan, srcbytes. rewrite varbit_comma.
  unfold rmap. cbn [bind]. apply ok_some. rewrite !map_map. rewrite <- (map_id l) at 2. apply map_ext.
  intros o. rewrite dec_bits_elem. destruct o as [b|]; auto. simpl. f_equal.
  rewrite <- (map_id b) at 2. apply map_ext. intros [|]; reflexivity.
Qed.

Lemma varbit_array_uint8_scan : forall l old,
  VarBitArrayToUint8SliceSlice (Some (array_out (map varbit_text l))) old
  = Ok (Some (map (option_map (map N.b2n)) l)).
Proof.
  intros. unfold VarBitArrayToUint8SliceSlice, arr_scan, srcbytes. rewrite varbit_comma.
  unfold rmap. cbn [bind]. apply ok_some. rewrite !map_map. apply map_ext.
  intros o. rewrite dec_bits_elem. destruct o as [b|]; auto. simpl. f_equal.
  apply map_ext. intros [|]; reflexivity.
Qed.

(** *** []string *)
Lemma varbit_string_literal : forall l, 
  VarBitArrayFromStringSlice (Some (map varbit_out l)) = Some (array_out (map varbit_text (map Some l))).
Proof.
  intros. unfold VarBitArrayFromStringSlice. rewrite arr_value_commas. unfold array_out.
  do 3 f_equal. rewrite !map_map. f_equal. apply map_ext. intros b. rewrite varbit_elem_out. destruct b; reflexivity.
Qed.

Lemma varbit_string_scan : forall l old,
  VarBitArrayToStringSlice (Some (array_out (map varbit_text l))) old
  = Ok (Some (map (fun o => match o with Some b => varbit_out b | None => lit "NULL" end) l)).
Proof.
  intros. unfold VarBitArrayToStringSlice, arr_scan, srcbytes. rewrite varbit_comma.
  unfold rmap. cbn [bind]. apply ok_some. rewrite !map_map. apply map_ext.
  intros o. rewrite varbit_elem_out. destruct o as [[|x b]|]; auto.
  cbn [enc_bits map]. destruct x; unfold looks_empty; rewrite andb_false_r; reflexivity.
Qed.

(** *** []int64 *)
Lemma varbit_ints_roundtrip : forall l old, Forall (fun v => - 2 ^ 63 <= v < 2 ^ 63)%Z l ->
  VarBitArrayToInt64Slice (VarBitArrayFromInt64Slice (Some l)) old = Ok (Some l).
Proof.
  intros l old F. unfold VarBitArrayFromInt64Slice. rewrite arr_value_commas.
  unfold VarBitArrayToInt64Slice, arr_scan, srcbytes.
  rewrite comma_array_commas.
  - cbn [bind]. rewrite (mapM_map _ _ (fun z => z)). now rewrite map_id.
    intros z I. rewrite Forall_forall in F. specialize (F z I). rewrite parse_int_format by lia.
    change (Z.of_N (64 - 1)) with 63%Z.
    replace ((- 2 ^ 63 <=? z)%Z && (z <? 2 ^ 63)%Z) with true; auto. symmetry. apply andb_true_iff. lia.
  - destruct l as [|z [|]]; try discriminate. simpl. intros E. injection E. apply format_int_nonempty.
  - apply forall_map. intros z _. unfold format_int.
    assert (nochar "," (format_uint 2 (Z.to_N (-z))) /\ nochar "," (format_uint 2 (Z.to_N z))) as [A1 A2]
      by (split; apply bits_nochar; try discriminate; apply format_bits).
    destruct (z <? 0)%Z; auto. apply nochar_cons. split; auto. discriminate.
Qed.

Lemma varbit_ints_literal : forall l, Forall (fun v => 0 <= v)%Z l ->
  exists bs, VarBitArrayFromInt64Slice (Some l) = Some (array_out (map varbit_text (map Some bs)))
    /\ map (fun b => Z.of_N (bits_value b)) bs = l.
Proof.
  intros l F.
  assert (X : exists bs, map (format_int 2) l = map varbit_out bs /\ map (fun b => Z.of_N (bits_value b)) bs = l
     /\ Forall (fun b => b <> []) bs).
  { induction F as [|z l H F (bs & E & V & NE)]. exists []; auto.
    destruct (varbit_int_literal z H) as (b & E1 & V1). injection E1 as E1.
    exists (b :: bs). cbn [map]. rewrite E1, E, V1, V. conjs; auto. constructor; auto.
    intros ->. apply format_int_nonempty in E1. auto. }
  destruct X as (bs & E & V & NE). exists bs. split; auto.
  unfold VarBitArrayFromInt64Slice. rewrite arr_value_commas, E. unfold array_out. do 3 f_equal.
  rewrite !map_map. f_equal. apply map_ext_in. intros b I. rewrite Forall_forall in NE. specialize (NE b I).
  rewrite varbit_elem_out. destruct b; [congruence|reflexivity].
Qed.

Definition bits_int64 (o : option (list bool)) : bool :=
  match o with
  | Some b => negb (Nat.eqb (List.length b) 0) && (bits_value b <? 2 ^ 63)%N
  | None => false
  end.

Lemma varbit_ints_scan : forall l old,
  VarBitArrayToInt64Slice (Some (array_out (map varbit_text l))) old
  = if forallb bits_int64 l
    then Ok (Some (map (fun o => match o with Some b => Z.of_N (bits_value b) | None => 0%Z end) l)) else Err.
Proof.
  intros. unfold VarBitArrayToInt64Slice, arr_scan, srcbytes. rewrite varbit_comma. cbn [bind].
  rewrite map_map.
  assert (X : forall o, parse_int 2 64 (elem_out (varbit_text o))
     = if bits_int64 o then Ok (match o with Some b => Z.of_N (bits_value b) | None => 0%Z end) else Err).
  { intros o. rewrite varbit_elem_out. destruct o as [[|x b]|]; auto.
    change (enc_bits _ (Some (x :: b))) with (varbit_out (x :: b)). apply parse_int_bits. }
  assert (Y : mapM (parse_int 2 64) (map (fun o => elem_out (varbit_text o)) l)
     = if forallb bits_int64 l then Ok (map (fun o => match o with Some b => Z.of_N (bits_value b) | None => 0%Z end) l) else Err).
  { induction l as [|o l IH]; auto. cbn [map mapM forallb]. rewrite X. destruct (bits_int64 o); cbn [bind andb]; auto.
    rewrite IH. destruct (forallb bits_int64 l); reflexivity. }
  unfold bytes, text in *. rewrite Y. destruct (forallb bits_int64 l); reflexivity.
Qed.

(** *** tsvector *)
Fixpoint count (c : ascii) (s : bytes) : nat :=
  match s with [] => 0 | d :: r => (if beq d c then 1 else 0) + count c r end.

Lemma split_on_length : forall sep s cur, List.length (split_on sep cur s) = S (count sep s).
Proof.
  induction s as [|c s IH]; intros cur; auto. cbn [split_on count].
  destruct (beq c sep); cbn [List.length]; rewrite IH; reflexivity.
Qed.

Lemma count_app : forall c s t, count c (s ++ t) = count c s + count c t.
Proof. induction s as [|d s IH]; intros; auto. cbn [app count]. rewrite IH. lia. Qed.

Lemma count_zero : forall c s, count c s = 0 -> nochar c s.
Proof.
  induction s as [|d s IH]; intros H I; auto. cbn [count] in H. destruct I as [->|I].
  - rewrite beq_refl in H. discriminate.
  - apply IH; auto. lia.
Qed.

Lemma count_blanks : forall l, l <> [] ->
  count " " (blanks l) = (List.length l - 1) + list_sum (map (count " ") l).
Proof.
  induction l as [|x [|y l] IH]; intros N. congruence.
  - cbn. lia.
  - change (blanks (x :: y :: l)) with (x ++ " " :: blanks (y :: l)). rewrite count_app.
    cbn [count]. rewrite beq_refl, IH by discriminate. unfold list_sum. cbn [map List.length fold_right]. lia.
Qed.

Lemma list_sum_zero : forall l, list_sum l = 0 -> Forall (fun n => n = 0) l.
Proof. induction l as [|n l IH]; unfold list_sum in *; cbn [fold_right]; intros H; constructor; [lia|apply IH; lia]. Qed.

(** The text of a list of words read as a vector. *)
Lemma tsvector_roundtrip : forall v old,
  TSVectorTo (TSVectorFrom v) old = Ok v <->
  match v with None => True | Some l => l <> [[]] /\ Forall (nochar " ") l end.
Proof.
  intros [l|] old; [|split; auto]. unfold TSVectorTo, TSVectorFrom, srcbytes. cbn [option_map].
  rewrite blanks_join. split.
  - intros E. injection E as E. split. intros ->. discriminate.
    destruct l as [|x l]; [constructor|].
    assert (blanks (x :: l) <> []) as NE.
    { intros Z. rewrite Z in E. discriminate. }
    assert (L : List.length (pgParseVector (blanks (x :: l))) = List.length (x :: l)) by (rewrite E; reflexivity).
    unfold pgParseVector in L. destruct (blanks (x :: l)) as [|c r] eqn:B0; [congruence|].
    rewrite split_on_length, <- B0, count_blanks in L by discriminate. cbn [List.length] in L.
    match type of L with context [list_sum ?t] => assert (Z : list_sum t = 0) by (revert L; generalize (list_sum t); intros n L; unfold text, bytes in *; lia) end.
    apply list_sum_zero in Z. rewrite Forall_map in Z. eapply Forall_impl; [|exact Z].
    intros e H. now apply count_zero.
  - intros [N F]. apply ok_some. destruct l as [|x l]; auto. rewrite <- blanks_join. apply vector_join; auto. discriminate.
Qed.

Lemma tsvector_literal : forall v, TSVectorFrom v = option_map blanks v.
Proof. intros [l|]; auto. unfold TSVectorFrom. simpl. now rewrite blanks_join. Qed.

(** *** tsvector[] *)
Lemma enc_tsv_out : forall l, enc_tsv (Some l) = dq :: blanks l ++ [dq].
Proof.
  intros [|x l]. reflexivity. unfold enc_tsv.
  rewrite concat_sep_join by discriminate. rewrite app_comm_cons, removelast_last, blanks_join. reflexivity.
Qed.

(** What the scanner makes of the Valuer's literal: a vector [""] and an empty
    vector are both written as two quotes; a NULL that is not last is followed
    by a spurious empty vector. *)
Fixpoint tsv_read (l : list (option (list bytes))) : list (option (list bytes)) :=
  match l with
  | [] => []
  | [None] => [None]
  | None :: r => None :: Some [] :: tsv_read r
  | Some [[]] :: r => Some [] :: tsv_read r
  | v :: r => v :: tsv_read r
  end.

Definition tsv_words (o : option (list bytes)) : Prop :=
  match o with Some l => Forall (fun e => nochar dq e /\ nochar " " e) l | None => True end.

Lemma va_tsv : forall l rest, Forall (fun e => nochar dq e /\ nochar " " e) l ->
  va_loop (dq :: blanks l ++ dq :: rest) 0
  = Some (match l with [] => [[]] | _ => l end) :: va_loop (skipn 1 rest) 0.
Proof.
  intros l rest F. cbn [va_loop]. change (beq dq dq) with true. cbv iota.
  destruct l as [|x l].
  - cbn [blanks app va_quoted]. rewrite beq_refl. cbv iota beta. f_equal. rewrite va_skip. reflexivity.
  - rewrite va_quoted_blanks by (auto; discriminate). cbv iota beta. f_equal. rewrite va_skip. cbn [plus].
    replace (S (S (List.length (blanks (x :: l))))) with (List.length (blanks (x :: l)) + 2)%nat by lia.
    rewrite skipn_app_plus. reflexivity.
Qed.

Lemma dec_tsv_word : forall l,
  dec_tsv (Some (match l with [] => [[]] | _ => l end)) = Some (match l with [[]] => [] | _ => l end).
Proof. intros [|[|] [|]]; reflexivity. Qed.

Lemma tsv_read_some : forall l r, tsv_read (Some l :: r) = Some (match l with [[]] => [] | _ => l end) :: tsv_read r.
Proof. intros [|[|] [|]] [|]; reflexivity. Qed.

Lemma va_tsv_write : forall l, Forall tsv_words l ->
  map dec_tsv (va_loop (commas (map enc_tsv l)) 0) = tsv_read l.
Proof.
  induction l as [|o l IH]; intros F; auto. inversion F as [|? ? H F']; subst. specialize (IH F').
  destruct o as [v|].
  - rewrite tsv_read_some. destruct l as [|o' l].
    + cbn [map commas]. rewrite enc_tsv_out. rewrite va_tsv by auto. cbn [skipn va_loop map]. now rewrite dec_tsv_word.
    + change (commas (map enc_tsv (Some v :: o' :: l))) with (enc_tsv (Some v) ++ "," :: commas (map enc_tsv (o' :: l))).
      rewrite enc_tsv_out, <- app_comm_cons, <- app_assoc. cbn [app]. rewrite va_tsv by auto.
      cbn [skipn map]. rewrite dec_tsv_word. f_equal. exact IH.
  - destruct l as [|o' l]. reflexivity.
    change (commas (map enc_tsv (None :: o' :: l))) with (B "NULL" ++ "," :: commas (map enc_tsv (o' :: l))).
    transitivity (None :: Some [] :: map dec_tsv (va_loop (commas (map enc_tsv (o' :: l))) 0)).
    2:{ rewrite IH. destruct o'; reflexivity. }
    set (r := commas (map enc_tsv (o' :: l))). clearbody r.
    transitivity (None :: map dec_tsv (va_loop ("," :: r) 0)). { reflexivity. }
    reflexivity.
Qed.

Lemma tsv_array_read : forall l old, Forall tsv_words l ->
  TSVectorArrayTo (TSVectorArrayFrom (Some l)) old = Ok (Some (tsv_read l)).
Proof.
  intros l old F. unfold TSVectorArrayFrom. rewrite arr_value_commas.
  unfold TSVectorArrayTo, arr_scan, srcbytes, pgParseVectorArray.
  rewrite drop_ends_wrap. unfold rmap. cbn [bind]. now rewrite va_tsv_write.
Qed.

(** When this is the list that was written. *)
Fixpoint tsv_clean (l : list (option (list bytes))) : Prop :=
  match l with
  | [] => True
  | None :: r => r = []
  | Some v :: r => v <> [[]] /\ tsv_clean r
  end.

Lemma tsv_read_length : forall l, List.length l <= List.length (tsv_read l).
Proof.
  induction l as [|[v|] l IH]; auto. rewrite tsv_read_some. cbn [List.length]. lia.
  destruct l as [|o l]; auto. change (tsv_read (None :: o :: l)) with (None :: Some [] :: tsv_read (o :: l)).
  cbn [List.length] in *. lia.
Qed.

Lemma tsv_read_iff : forall l, tsv_read l = l <-> tsv_clean l.
Proof.
  induction l as [|[v|] l IH]. split; reflexivity.
  - rewrite tsv_read_some. cbn [tsv_clean]. split.
    + intros E. injection E as E1 E2. split; [|now apply IH]. intros ->. discriminate.
    + intros [N C]. apply IH in C. rewrite C. do 2 f_equal. destruct v as [|[|] [|]]; auto; exfalso; now apply N.
  - cbn [tsv_clean]. destruct l as [|o l]. split; auto.
    change (tsv_read (None :: o :: l)) with (None :: Some [] :: tsv_read (o :: l)). split; [|discriminate].
    intros E. apply (f_equal (@List.length _)) in E. pose proof (tsv_read_length (o :: l)). cbn [List.length] in *. lia.
Qed.

(** The server's view of the literal, as array of texts. *)
Lemma tsv_array_server : forall l,
  Forall (fun o => match o with Some v => Forall (fun e => nochar dq e /\ nochar bs e) v | None => True end) l ->
  exists t, TSVectorArrayFrom (Some l) = Some t /\ array_in t = Some (map (option_map blanks) l).
Proof.
  intros l F. unfold TSVectorArrayFrom. rewrite arr_value_commas. eexists. split. reflexivity.
  apply array_in_commas. induction F as [|o l H F IH]; cbn [map]; constructor; auto.
  destruct o as [v|]; [|apply elem_reads_null]. rewrite enc_tsv_out.
  apply elem_reads_raw.
  - clear IH F. induction v as [|x [|y v] IHv]; intros I. destruct I.
    + inversion H as [|? ? [A _]]; subst. exact (A I).
    + change (blanks (x :: y :: v)) with (x ++ " " :: blanks (y :: v)) in I. inversion H as [|? ? [A _] H']; subst.
      apply in_app_or in I. destruct I as [I|[I|I]]; [exact (A I)|discriminate|]. exact (IHv H' I).
  - clear IH F. induction v as [|x [|y v] IHv]; intros I. destruct I.
    + inversion H as [|? ? [_ A]]; subst. exact (A I).
    + change (blanks (x :: y :: v)) with (x ++ " " :: blanks (y :: v)) in I. inversion H as [|? ? [_ A] H']; subst.
      apply in_app_or in I. destruct I as [I|[I|I]]; [exact (A I)|discriminate|]. exact (IHv H' I).
Qed.
