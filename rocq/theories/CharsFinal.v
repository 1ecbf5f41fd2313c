(** Definitions and proofs used by PropsChars.v. *)
From Coq Require Import Ascii String ZArith NArith Bool List Lia.
From Verif Require Import GoBase Strconv ConvertUtil ConvertProofs Codecs Utf8 CharCodecs BitCodecs PgSpec PgSpecProofs TextProofs SimpleProofs DecimalLink IntProofs CharProofs BitProofs.
Import ListNotations.
Local Open Scope char_scope.

Lemma Forall_iff : forall {A} (P Q : A -> Prop) l, (forall x, P x <-> Q x) -> (Forall P l <-> Forall Q l).
Proof. intros A P Q l H. rewrite !Forall_forall. split; intros F x I; apply H; auto. Qed.

Lemma survive_id : forall {A C} (keep : A -> bool) (f : list A -> C) l,
  (forall x y, f x = f y -> x = y) ->
  survive keep f l = Ok (f l) <-> Forall (fun x => keep x = true) l.
Proof.
  intros A C keep f l I. destruct l as [|x l].
  - split; auto.
  - rewrite survive_ne by discriminate. split.
    + intros E. assert (filter keep (x :: l) = x :: l) as E'.
      { destruct (filter keep (x :: l)) eqn:Q. discriminate. injection E as E. now apply I in E. }
      rewrite Forall_forall. intros y Y. rewrite <- E' in Y. now apply filter_In in Y.
    + intros F. assert (filter keep (x :: l) = x :: l) as E'.
      { clear I. induction F as [|y l0 H F IH]; auto. simpl. rewrite H. now f_equal. }
      rewrite E'. reflexivity.
Qed.

Lemma kept_iff : forall r, kept_rune r = true <-> r <> 7%Z /\ r <> 8%Z.
Proof. intros. unfold kept_rune. rewrite andb_true_iff, !negb_true_iff, !Z.eqb_neq. tauto. Qed.

Lemma C13_bytes_proof : forall (l : list ascii) old,
  CharArrayToByteSlice (CharArrayFromByteSlice (Some l)) old = Ok (Some l)
  <-> Forall (fun c => code c <> 7%N /\ code c <> 8%N) l.
Proof.
  intros l old. rewrite char_bytes_roundtrip, survive_id by congruence.
  apply Forall_iff. intros c. rewrite kept_iff. lia.
Qed.

Lemma C13_bytes_dropped_proof : forall (l : list ascii) old,
  Exists (fun c => code c <> 7%N /\ code c <> 8%N) l ->
  CharArrayToByteSlice (CharArrayFromByteSlice (Some l)) old
  = Ok (Some (filter (fun c => negb (N.eqb (code c) 7) && negb (N.eqb (code c) 8)) l)).
Proof.
  intros l old H. rewrite char_bytes_roundtrip.
  assert (filter (fun c => kept_rune (Z.of_N (code c))) l = filter (fun c => negb (N.eqb (code c) 7) && negb (N.eqb (code c) 8)) l) as E.
  { apply filter_ext'. intros c. apply eq_true_iff_eq. rewrite kept_iff, andb_true_iff, !negb_true_iff, !N.eqb_neq. lia. }
  rewrite <- E. destruct l as [|x l]. inversion H.
  rewrite survive_ne by discriminate. destruct (filter _ (x :: l)) eqn:Q; auto. exfalso.
  apply Exists_exists in H. destruct H as (c & I & H1).
  assert (In c []) as []. unfold bytes in *. rewrite <- Q. apply filter_In. split; auto. apply kept_iff. lia.
Qed.

Lemma C13_all_dropped_proof : forall (l : list ascii) old, l <> [] ->
  Forall (fun c => code c = 7%N \/ code c = 8%N) l ->
  CharArrayFromByteSlice (Some l) = Some ["}"] /\
  CharArrayToByteSlice (CharArrayFromByteSlice (Some l)) old = Panic.
Proof.
  intros l old N F. split.
  - unfold CharArrayFromByteSlice. rewrite char_slice_ne by auto. f_equal.
    unfold char_array.
    assert (forall f : ascii -> bytes, (forall b, code b = 7%N \/ code b = 8%N -> f b = []) -> List.concat (map f l) = []) as E.
    { intros f Z. clear N. induction F as [|c l H F IH]; auto. cbn [map List.concat]. now rewrite IH, app_nil_r, Z. }
    rewrite E. reflexivity. intros b H. unfold char_elem. destruct H as [-> | ->]; reflexivity.
  - rewrite char_bytes_roundtrip. rewrite survive_ne by auto.
    destruct (filter _ l) as [|c r] eqn:Q; auto. exfalso.
    assert (In c l /\ kept_rune (Z.of_N (code c)) = true) as [I K]. { apply (filter_In (fun c => kept_rune (Z.of_N (code c)))). unfold bytes in *. rewrite Q. now left. }
    apply kept_iff in K. rewrite Forall_forall in F. apply F in I. lia.
Qed.

Lemma C13_runes_proof : forall (l : list Z) old, Forall (fun r => valid_rune r = true) l ->
  CharArrayToRuneSlice (CharArrayFromRuneSlice (Some l)) old = Ok (Some l)
  <-> Forall (fun r => r <> 7%Z /\ r <> 8%Z) l.
Proof.
  intros l old V. rewrite char_runes_roundtrip, survive_id by (auto; congruence).
  apply Forall_iff. apply kept_iff.
Qed.

Lemma utf8_inj : forall a b, forallb scalar a = true -> forallb scalar b = true -> utf8 a = utf8 b -> a = b.
Proof. intros a b A C E. rewrite <- (runes_utf8 a), <- (runes_utf8 b) by auto. now f_equal. Qed.

Lemma C13_string_proof : forall (ns : list N) old, forallb scalar ns = true ->
  CharArrayToString (CharArrayFromString (utf8 ns)) old = Ok (utf8 ns)
  <-> Forall (fun n => n <> 7%N /\ n <> 8%N) ns.
Proof.
  intros ns old S. rewrite char_string_roundtrip by auto.
  assert (forall l, Forall (fun n => kept_rune (Z.of_N n) = true) l <-> Forall (fun n => n <> 7%N /\ n <> 8%N) l) as K.
  { intros l. apply Forall_iff. intros n. rewrite kept_iff. lia. }
  rewrite <- K. split.
  - intros E. destruct ns as [|n ns]; [constructor|]. rewrite survive_ne in E by discriminate.
    rewrite Forall_forall. intros x I.
    assert (filter (fun n => kept_rune (Z.of_N n)) (n :: ns) = n :: ns) as E'.
    { destruct (filter _ (n :: ns)) as [|y ks] eqn:Q. discriminate. injection E as E.
      apply utf8_inj; auto. rewrite <- Q. now apply forallb_filter. }
    rewrite <- E' in I. now apply filter_In in I.
  - intros F. destruct ns as [|n ns]; [reflexivity|]. rewrite survive_ne by discriminate.
    replace (filter (fun n => kept_rune (Z.of_N n)) (n :: ns)) with (n :: ns). reflexivity.
    clear S. induction F as [|y l0 H F IH]; auto. cbn [filter]. rewrite H. now f_equal.
Qed.

Lemma C13_strings_proof : forall (l : list (N * bytes)) old,
  forallb (fun x => scalar (fst x)) l = true -> Forall (fun x => fst x <> 7%N /\ fst x <> 8%N) l ->
  CharArrayToStringSlice (CharArrayFromStringSlice (Some (map (fun x => encode_scalar (fst x) ++ snd x) l))) old
  = Ok (Some (map (fun x => encode_scalar (fst x)) l)).
Proof.
  intros l old S F. rewrite char_strings_roundtrip by auto. destruct l as [|x l]; [reflexivity|].
  rewrite survive_ne by discriminate.
  replace (filter (fun x0 => kept_rune (Z.of_N (fst x0))) (x :: l)) with (x :: l). reflexivity.
  clear S. induction F as [|y l0 H F IH]; auto. cbn [filter].
  replace (kept_rune (Z.of_N (fst y))) with true. now f_equal. symmetry. apply kept_iff. lia.
Qed.

Lemma C13_empty_string_refuted_proof :
  CharArrayFromStringSlice (Some [[]]) = Some ["{"; chr 253; "}"] /\
  CharArrayToStringSlice (CharArrayFromStringSlice (Some [[]])) None <> Ok (Some [[]]).
Proof. split. reflexivity. vm_compute. discriminate. Qed.

Lemma C13_server_scan_proof : forall (l : list (option N)) old old',
  forallb (fun o => match o with Some n => scalar n | None => true end) l = true ->
  let cs := flat_map (fun o => match o with Some n => [n] | None => [78; 85; 76; 76]%N end) l in
  CharArrayToRuneSlice (Some (array_out (map (option_map encode_scalar) l))) old = Ok (Some (map Z.of_N cs)) /\
  CharArrayToString (Some (array_out (map (option_map encode_scalar) l))) old' = Ok (utf8 cs).
Proof.
  intros l old old' S cs.
  assert (forallb opt_scalar l = true) as S' by exact S.
  split.
  - unfold CharArrayToRuneSlice, srcbytes. fold (char_out l).
    rewrite char_out_runes by exact S'. reflexivity.
  - unfold CharArrayToString, srcbytes. fold (char_out l).
    rewrite char_out_bytes by exact S'. reflexivity.
Qed.

Lemma C13_server_reads_proof : forall ns, forallb scalar ns = true -> ns <> [] ->
  Forall (fun n => n <> 7%N /\ n <> 8%N /\ n <> 123%N /\ n <> 125%N) ns ->
  exists d, CharArrayFromString (utf8 ns) = Some d /\ array_in d = Some (map (fun n => Some (encode_scalar n)) ns).
Proof.
  intros ns S N F. apply char_string_server; auto.
  - clear S N. induction F as [|y l0 H F IH]; auto. cbn [filter].
    replace (kept_rune (Z.of_N y)) with true. now f_equal. symmetry. apply kept_iff. lia.
  - intros I. rewrite Forall_forall in F. apply F in I. tauto.
  - intros I. rewrite Forall_forall in F. apply F in I. tauto.
Qed.

Lemma C13_brace_refuted_proof : exists d, CharArrayFromString (B "{") = Some d /\ array_in d = None.
Proof. exact char_brace_malformed. Qed.

Lemma C14_int_proof : forall v, (0 <= v < 2 ^ 63)%Z ->
  (exists b, VarBitFromInt64 v = Some (varbit_out b) /\ Z.of_N (bits_value b) = v) /\
  forall old, VarBitToInt64 (VarBitFromInt64 v) old = Ok v.
Proof.
  intros v H. split. apply varbit_int_literal. lia. intros old. rewrite varbit_int_roundtrip.
  destruct (Z.leb_spec (- 2 ^ 63) v), (Z.ltb_spec v (2 ^ 63)); try lia. reflexivity.
Qed.

Lemma C14_int_negative_refuted_proof : forall v, (- 2 ^ 63 <= v < 0)%Z ->
  (exists t, VarBitFromInt64 v = Some t /\ varbit_in t = None) /\
  forall old, VarBitToInt64 (VarBitFromInt64 v) old = Ok v.
Proof.
  intros v H. split. apply varbit_int_negative. lia. intros old. rewrite varbit_int_roundtrip.
  destruct (Z.leb_spec (- 2 ^ 63) v), (Z.ltb_spec v (2 ^ 63)); try lia. reflexivity.
Qed.

Lemma C14_int_scan_proof : forall b old,
  VarBitToInt64 (Some (varbit_out b)) old
  = if negb (Nat.eqb (List.length b) 0) && (bits_value b <? 2 ^ 63)%N then Ok (Z.of_N (bits_value b)) else Err.
Proof. exact varbit_int_scan. Qed.

Lemma C14_bools_proof : forall v old,
  VarBitFromBoolSlice v = option_map varbit_out v /\
  VarBitToBoolSlice (option_map varbit_out v) old = Ok v.
Proof. exact varbit_bools. Qed.

Lemma C14_uint8s_proof : forall v old,
  VarBitFromUint8Slice v = option_map varbit_out (option_map (map (fun n => N.eqb n 1)) v) /\
  VarBitToUint8Slice (VarBitFromUint8Slice v) old = Ok (option_map (map (fun n => if N.eqb n 1 then 1%N else 0%N)) v).
Proof. intros v old. destruct (varbit_uint8s v old) as [E1 E2]. split; auto. now rewrite E1. Qed.

Lemma C14_bool_arrays_proof : forall (l : list (option (list bool))) old,
  VarBitArrayFromBoolSliceSlice (Some l) = Some (array_out (map (option_map varbit_out) l)) /\
  VarBitArrayToBoolSliceSlice (Some (array_out (map (option_map varbit_out) l))) old = Ok (Some l).
Proof. intros l old. split. apply varbit_array_literal. apply varbit_array_scan. Qed.

Lemma C14_uint8_arrays_proof : forall (l : list (option (list N))) old,
  let bit := fun n => N.eqb n 1 in
  VarBitArrayFromUint8SliceSlice (Some l) = Some (array_out (map (option_map varbit_out) (map (option_map (map bit)) l))) /\
  VarBitArrayToUint8SliceSlice (VarBitArrayFromUint8SliceSlice (Some l)) old
  = Ok (Some (map (option_map (map (fun n => N.b2n (bit n)))) l)).
Proof.
  intros l old bit. rewrite varbit_uint8_literal. split. reflexivity.
  rewrite varbit_array_uint8_scan. apply ok_some. rewrite map_map. apply map_ext. intros [v|]; auto. cbn [option_map]. now rewrite map_map.
Qed.

Lemma C14_string_arrays_proof : forall l old,
  VarBitArrayFromStringSlice (Some (map varbit_out l)) = Some (array_out (map (option_map varbit_out) (map Some l))) /\
  VarBitArrayToStringSlice (VarBitArrayFromStringSlice (Some (map varbit_out l))) old = Ok (Some (map varbit_out l)).
Proof.
  intros l old. split. apply varbit_string_literal. rewrite varbit_string_literal, varbit_string_scan. apply ok_some.
  now rewrite map_map.
Qed.

Lemma C14_string_null_refuted_proof : exists l,
  VarBitArrayToStringSlice (Some (array_out (map (option_map varbit_out) l))) None = Ok (Some [B "NULL"]) /\ In None l.
Proof. exists [None]. split. reflexivity. now left. Qed.

Lemma C14_int_arrays_proof : forall l, Forall (fun v => 0 <= v < 2 ^ 63)%Z l ->
  (exists bs, VarBitArrayFromInt64Slice (Some l) = Some (array_out (map (option_map varbit_out) (map Some bs)))
     /\ map (fun b => Z.of_N (bits_value b)) bs = l) /\
  forall old, VarBitArrayToInt64Slice (VarBitArrayFromInt64Slice (Some l)) old = Ok (Some l).
Proof.
  intros l F. split. apply varbit_ints_literal. eapply Forall_impl; [|exact F]. cbv beta. lia.
  intros old. apply varbit_ints_roundtrip. eapply Forall_impl; [|exact F]. cbv beta. lia.
Qed.

Lemma C18_tsvector_proof : forall v old,
  TSVectorFrom v = option_map blanks v /\
  (TSVectorTo (TSVectorFrom v) old = Ok v <->
   match v with None => True | Some l => l <> [[]] /\ Forall (nochar " ") l end).
Proof. intros v old. split. apply tsvector_literal. apply tsvector_roundtrip. Qed.

Lemma C18_tsvectorarr_proof : forall (l : list (option (list bytes))) old,
  Forall (fun o => match o with Some l => Forall (fun e => nochar dq e /\ nochar " " e) l | None => True end) l ->
  (TSVectorArrayTo (TSVectorArrayFrom (Some l)) old = Ok (Some l)
   <-> ~ In (Some [[]]) l /\ ~ In None (removelast l)).
Proof.
  intros l old F. rewrite tsv_array_read by exact F.
  assert (Ok (Some (tsv_read l)) = Ok (Some l) <-> tsv_read l = l) as E. { split. congruence. now intros ->. }
  rewrite E, tsv_read_iff. clear.
  induction l as [|[v|] l IH]; cbn [tsv_clean].
  - simpl. tauto.
  - rewrite IH. destruct l as [|o l].
    + cbn [removelast In]. split; [intros [A _]; split; [intros [B|[]]; congruence|auto]|].
      intros [A _]. split; [intros ->; apply A; now left|]. split; auto.
    + cbn [removelast In]. split; [intros (A & H1 & H2); split; [intros [B|B]; [congruence|tauto]|intros [B|B]; [discriminate|tauto]]|].
      intros [A C]. split; [intros ->; apply A; now left|]. split; [tauto|tauto].
  - split. intros ->. split; simpl; [intros [|]; [discriminate|auto]|tauto].
    intros [_ A]. destruct l; auto. exfalso. apply A. now left.
Qed.

Lemma C18_tsvectorarr_null_refuted_proof :
  TSVectorArrayTo (TSVectorArrayFrom (Some [None; Some [B "a"]])) None = Ok (Some [None; Some []; Some [B "a"]]).
Proof. reflexivity. Qed.

Lemma C18_tsvectorarr_server_reads_proof : forall l,
  Forall (fun o => match o with Some v => Forall (fun e => nochar dq e /\ nochar bs e) v | None => True end) l ->
  exists t, TSVectorArrayFrom (Some l) = Some t /\ array_in t = Some (map (option_map blanks) l).
Proof. exact tsv_array_server. Qed.

Lemma C18_tsvectorarr_server_refuted_proof :
  TSVectorArrayTo (Some (array_out [Some (B "'ab'")])) None
  = Ok (Some [Some [B "'ab'"]; Some [B "ab'"]; Some [B "b'"]; Some [B "'"]]).
Proof. vm_compute. reflexivity. Qed.

Lemma C47_strings_proof : forall l old, Forall (fun e => nochar dq e /\ nochar bs e) l ->
  (exists d, TSQueryArrayFromStringSlice (Some l) = Some d /\ array_in d = Some (map Some l)) /\
  TSQueryArrayToStringSlice (TSQueryArrayFromStringSlice (Some l)) old = Ok (Some l).
Proof.
  intros l old F. split; [|now apply tsquery_strings_roundtrip].
  unfold TSQueryArrayFromStringSlice. rewrite arr_value_commas. eexists. split. reflexivity.
  apply array_in_commas. induction F as [|e l [H1 H2] F IH]; cbn [map]; constructor; auto.
  now apply elem_reads_raw.
Qed.

Lemma C47_bytes_proof : forall (l : list (option bytes)) old,
  Forall (fun o => match o with Some e => nochar dq e /\ nochar bs e | None => True end) l ->
  TSQueryArrayToByteSliceSlice (TSQueryArrayFromByteSliceSlice (Some l)) old
  = Ok (Some (map (fun o => match o with
                            | None => Some []
                            | Some e => match e with
                                        | ["N"; _; _; _] => None
                                        | _ => Some e
                                        end
                            end) l)).
Proof.
  intros l old F. rewrite tsquery_bytes_roundtrip by exact F. apply ok_some. apply map_ext.
  intros [e|]; [|reflexivity]. cbn [str_of]. unfold looks_null.
  destruct e as [|c1 [|c2 [|c3 [|c4 [|c5 e]]]]]; cbn [List.length Nat.eqb andb]; auto;
    try (destruct c1 as [[] [] [] [] [] [] [] []]; reflexivity).
Qed.

Lemma C47_bytes_refuted_proof :
  TSQueryArrayToByteSliceSlice (TSQueryArrayFromByteSliceSlice (Some [Some (B "Nope"); None])) None
  = Ok (Some [None; Some []]).
Proof. reflexivity. Qed.

Lemma C47_unescaped_refuted_proof : exists e d,
  TSQueryArrayFromStringSlice (Some [e]) = Some d /\ array_in d <> Some [Some e].
Proof. exists (B "'a""b'"). eexists. split. reflexivity. vm_compute. discriminate. Qed.
