(** Definitions and proofs used by PropsArrays.v. *)
From Coq Require Import Ascii String ZArith NArith Bool List Lia Permutation.
From Verif Require Import GoBase Strconv ConvertUtil Codecs IntCodecs Hstore PgSpec.
From Verif Require Import ConvertProofs PgSpecProofs TextProofs SimpleProofs DecimalLink IntProofs HstoreProofs.
Import ListNotations.
Local Open Scope char_scope.

Lemma C01_text_roundtrip_proof :
  (forall (v : slice bytes) old, TextArrayToStringSlice (TextArrayFromStringSlice v) old = Ok v) /\
  (forall (v : slice (option bytes)) old, TextArrayToByteSliceSlice (TextArrayFromByteSliceSlice v) old = Ok v).
Proof. exact (conj text_strings_roundtrip text_bytes_roundtrip). Qed.

Lemma C01_text_server_reads_proof :
  (TextArrayFromStringSlice None = None /\ TextArrayFromByteSliceSlice None = None) /\
  (forall l, exists d, TextArrayFromStringSlice (Some l) = Some d /\ array_in d = Some (map Some l)) /\
  (forall l, exists d, TextArrayFromByteSliceSlice (Some l) = Some d /\ array_in d = Some l).
Proof. exact (conj (conj eq_refl eq_refl) (conj text_strings_server text_bytes_server)). Qed.

(** An element that the server leaves unquoted and that begins with NULL. *)
Definition unquoted_NULL_prefix (l : list (option text)) : Prop :=
  exists e r, In (Some e) l /\ needs_quotes e = false /\ e = lit "NULL" ++ r.

Lemma has_prefix_iff : forall p e, has_prefix p e = true <-> exists r, e = p ++ r.
Proof.
  induction p as [|x p IH]; intros e; simpl.
  - split; eauto.
  - destruct e as [|y e].
    + split; [discriminate|]. intros [r H]; discriminate.
    + rewrite andb_true_iff, Ascii.eqb_eq, IH. split.
      * intros [-> [r ->]]. eauto.
      * intros [r H]. injection H as -> ->. eauto.
Qed.

Lemma null_prefixed_iff : forall l, existsb null_prefixed l = false <-> ~ unquoted_NULL_prefix l.
Proof.
  intros l. split.
  - intros H (e & r & I & Q & E). assert (existsb null_prefixed l = true); [|congruence].
    apply existsb_exists. exists (Some e). split; auto. unfold null_prefixed. rewrite Q. cbn [negb andb].
    apply has_prefix_iff. eauto.
  - intros H. destruct (existsb null_prefixed l) eqn:E; auto. exfalso. apply H.
    apply existsb_exists in E. destruct E as ([e|] & I & P); [|discriminate].
    unfold null_prefixed in P. apply andb_prop in P. destruct P as [P1 P2]. apply has_prefix_iff in P2. destruct P2 as [r E].
    exists e, r. apply negb_true_iff in P1. auto.
Qed.

Lemma C02_text_server_rendered_proof : forall l old old',
  (TextArrayToByteSliceSlice (Some (array_out l)) old = Ok (Some l) <-> ~ unquoted_NULL_prefix l) /\
  (TextArrayToStringSlice (Some (array_out l)) old'
     = Ok (Some (map (fun o => match o with Some e => e | None => [] end) l)) <-> ~ unquoted_NULL_prefix l).
Proof.
  intros l old old'. rewrite <- null_prefixed_iff.
  exact (conj (text_bytes_scan_server l old) (text_strings_scan_server l old')).
Qed.

Lemma C02_text_prefix_refuted_proof : exists l,
  TextArrayToByteSliceSlice (Some (array_out l)) None <> Ok (Some l).
Proof. exists [Some (lit "NULLABLE")]. vm_compute. discriminate. Qed.

Lemma C03_int_array_literal_proof : forall l,
  IntArrayFrom (Some l) = Some (array_out (map (fun z => Some (int_out z)) l)) /\
  forall bits, Forall (fun z => fits bits z = true) l ->
    exists d, IntArrayFrom (Some l) = Some d /\ array_of (pg_int bits) d = Some (map Some l).
Proof.
  intros l. split.
  - rewrite int_array_literal. unfold int_array_text. rewrite map_map. reflexivity.
  - intros bits. apply int_array_server.
Qed.

Lemma C03_int_array_scan_proof : forall c t (l : list (option Z)) old,
  In c [CInt2Arr; CInt4Arr; CInt8Arr] -> (c = CInt8Arr -> t <> TUint) ->
  Forall (fun o => match o with Some z => fits (col_bits c) z = true | None => True end) l ->
  IntArrayTo c t (Some (array_out (map (option_map int_out) l))) old
  = if forallb (fun o => match o with Some z => in_type t z | None => false end) l
    then Ok (Some (map (fun o => match o with Some z => z | None => 0%Z end) l)) else Err.
Proof. exact int_array_scan_col. Qed.

Lemma C03_int_array_roundtrip_proof : forall c t v old,
  In c [CInt2Arr; CInt4Arr; CInt8Arr] -> (c = CInt8Arr -> t <> TUint) ->
  match v with
  | Some l => Forall (fun z => in_type t z = true /\ fits (col_bits c) z = true) l
  | None => True
  end ->
  IntArrayTo c t (IntArrayFrom v) old = Ok v.
Proof. exact int_array_roundtrip. Qed.

Lemma C04_int8_uint_proof : forall (l : list (option Z)) old,
  IntArrayTo CInt8Arr TUint (Some (array_out (map (option_map int_out) l))) old
  = if forallb (fun o => match o with Some z => (0 <=? z) && (z <? 2 ^ 32) | None => false end)%Z l
    then Ok (Some (map (fun o => match o with Some z => z | None => 0%Z end) l)) else Err.
Proof. exact int8_uint_scan. Qed.

Lemma C04_int8_uint_refuted_proof : exists z,
  in_type TUint z = true /\ fits 64 z = true /\ IntArrayTo CInt8Arr TUint (IntArrayFrom (Some [z])) None = Err.
Proof. exists 4294967296%Z. vm_compute. auto. Qed.

Lemma C05_numeric_proof : forall t (l : list (option Z)) old,
  IntArrayTo CNumericArr t (Some (array_out (map (option_map int_out) l))) old
  = if forallb (fun o => match o with
                         | Some z => if signed t then fits 64 z else ((0 <=? z) && (z <? 2 ^ 64))%Z
                         | None => false end) l
    then Ok (Some (map (fun o => narrow t (match o with Some z => z | None => 0%Z end)) l)) else Err.
Proof. exact numeric_scan. Qed.

Lemma C05_narrow_is_reduction_proof : forall t z,
  in_type t (narrow t z) = true /\
  (exists k, narrow t z = z + k * 2 ^ width t)%Z /\
  (narrow t z = z <-> in_type t z = true).
Proof. intros. exact (conj (narrow_in_type t z) (conj (narrow_cong t z) (narrow_fix t z))). Qed.

Lemma C06_range_literal_proof : forall lo hi,
  exists d, IntRangeFrom (lo, hi) = Some d /\ d = range_out (RBounds (Some lo) (Some hi))
    /\ range_in d = range_of_bounds lo hi.
Proof. intros. eexists. exact (conj eq_refl (conj (enc_range_out lo hi) (range_in_enc lo hi))). Qed.

Lemma C06_range_scan_proof : forall c t r old, is_range c = true ->
  Forall (fun z => fits (range_bits c) z = true)
    (match r with RBounds lo hi => match lo with Some z => [z] | None => [] end ++ match hi with Some z => [z] | None => [] end
                | REmpty => [] end) ->
  IntRangeTo c t (Some (range_out r)) old
  = match r with
    | REmpty => Ok (0, 0)%Z
    | RBounds lo hi =>
        if (match lo with Some z => in_type t z | None => true end
            && match hi with Some z => in_type t z | None => true end)%bool
        then Ok (match lo with Some z => z | None => 0%Z end, match hi with Some z => z | None => 0%Z end)
        else Err
    end.
Proof.
  intros c t r old I F. unfold IntRangeTo, srcbytes. rewrite scan_range_out by now apply is_range_not_numeric.
  destruct r as [|lo hi]; [reflexivity|]. unfold bounds_ok, bound_ok, bounds_of, opt_get.
  rewrite Forall_app in F. destruct F as [F1 F2].
  assert (A : forall o, Forall (fun z => fits (range_bits c) z = true) (match o with Some z => [z] | None => [] end) ->
    match o with Some z => readable c t z | None => true end = match o with Some z => in_type t z | None => true end).
  { intros [z|] Fz; auto. apply Forall_inv in Fz. now apply readable_range. }
  now rewrite (A lo F1), (A hi F2).
Qed.

Lemma C06_range_brackets_ignored_proof : forall c t o1 c1 o2 c2 body old,
  IntRangeTo c t (Some (o1 :: body ++ [c1])) old = IntRangeTo c t (Some (o2 :: body ++ [c2])) old.
Proof.
  intros. unfold IntRangeTo, srcbytes, scan_range, pgParseRange. now rewrite !drop_ends_wrap.
Qed.

Lemma C06_range_store_fetch_proof : forall c t lo hi old, is_range c = true ->
  in_type t lo = true -> in_type t hi = true ->
  fits (range_bits c) lo = true -> fits (range_bits c) hi = true ->
  forall d, IntRangeFrom (lo, hi) = Some d ->
  option_map (fun r => IntRangeTo c t (Some (range_out r)) old) (range_in d)
  = if (hi <? lo)%Z then None else Some (Ok (if (lo <? hi)%Z then (lo, hi) else (0, 0)%Z)).
Proof.
  intros c t lo hi old I T1 T2 F1 F2 d E. injection E as <-. rewrite range_in_enc. unfold range_of_bounds.
  destruct (Z.compare_spec lo hi) as [->|L|L]; cbn [option_map].
  - rewrite Z.ltb_irrefl. now rewrite C06_range_scan_proof by (auto; constructor).
  - rewrite (proj2 (Z.ltb_ge hi lo)) by lia. rewrite (proj2 (Z.ltb_lt lo hi)) by lia.
    rewrite C06_range_scan_proof; auto. now rewrite T1, T2. repeat constructor; auto.
  - now rewrite (proj2 (Z.ltb_lt hi lo)) by lia.
Qed.

Lemma C07_range_array_roundtrip_proof : forall c t l old, is_range c = true ->
  Forall (fun p => in_type t (fst p) = true /\ in_type t (snd p) = true /\
                   fits (range_bits c) (fst p) = true /\ fits (range_bits c) (snd p) = true) l ->
  IntRangeArrayTo c t (IntRangeArrayFrom (Some l)) old = Ok (Some l).
Proof.
  intros c t l old I F. apply range_array_roundtrip; auto.
  eapply Forall_impl; [|exact F]. intros [lo hi] (A & Bb & C & D). cbn [fst snd] in *.
  now rewrite !readable_range.
Qed.

Lemma C07_range_array_literal_proof : forall l,
  IntRangeArrayFrom (Some l)
  = Some (array_out (map (fun p => Some (range_out (RBounds (Some (fst p)) (Some (snd p))))) l)).
Proof. intros. rewrite range_array_literal. unfold range_array_text. now rewrite map_map. Qed.

Definition bounds_in (c : icol) (t : ity) (r : prange) : Prop :=
  match r with
  | REmpty => True
  | RBounds lo hi => forall z, lo = Some z \/ hi = Some z -> in_type t z = true /\ fits (range_bits c) z = true
  end.

Lemma bounds_in_ok : forall c t rs, is_range c = true -> Forall (bounds_in c t) rs ->
  forallb (bounds_ok c t) rs = true.
Proof.
  intros c t rs I F. apply forallb_forall. intros r Ir. rewrite Forall_forall in F. specialize (F r Ir).
  destruct r as [|lo hi]; auto. simpl in *. apply andb_true_intro. split.
  - destruct lo as [z|]; auto. destruct (F z) as [A C]; auto. simpl. now rewrite readable_range.
  - destruct hi as [z|]; auto. destruct (F z) as [A C]; auto. simpl. now rewrite readable_range.
Qed.

Lemma C07_range_array_scan_proof : forall c t (rs : list prange) old, is_range c = true ->
  Forall (bounds_in c t) rs ->
  IntRangeArrayTo c t (Some (array_out (map (fun r => Some (range_out r)) rs))) old
  = Ok (Some (map bounds_of (filter (fun r => match r with REmpty => false | _ => true end) rs))).
Proof.
  intros c t rs old I F. rewrite <- range_array_scan with (c := c) (t := t) (old := old); auto.
  - unfold range_array_text. now rewrite map_map.
  - now apply bounds_in_ok.
Qed.

Lemma C07_range_array_null_panics_proof : forall c t (rs : list prange) (l : list (option prange)) old,
  is_range c = true -> Forall (bounds_in c t) rs ->
  IntRangeArrayTo c t (Some (array_out (map (option_map range_out) (map Some rs ++ None :: l)))) old = Panic.
Proof. intros. apply range_array_null_panics; auto. now apply bounds_in_ok. Qed.

Lemma C08_hstore_server_reads_proof : HStoreFrom None = None /\
  forall m : list (bytes * option bytes), exists d, HStoreFrom (Some m) = Some d /\ hstore_in d = Some m.
Proof. exact (conj eq_refl hstore_server). Qed.

(** Reading a value: for maps with nullable values an empty string reads as
    NULL; for plain string maps NULL reads as the empty string. *)
Definition nullable_read (o : option bytes) : option bytes :=
  match o with Some [] => None | x => x end.

Definition plain_read (o : option bytes) : option bytes :=
  match o with Some v => Some v | None => Some [] end.

Lemma val_opt_read : forall o, val_opt (str_of o) = nullable_read o.
Proof. intros [[|]|]; reflexivity. Qed.

Lemma val_str_read : forall o, val_str (str_of o) = plain_read o.
Proof. intros [|]; reflexivity. Qed.

Lemma C08_hstore_scan_proof : forall (m order : list (bytes * option bytes)) old,
  NoDup (map fst m) -> Permutation m order ->
  forall s, s = Some (hstore_out order) \/ s = HStoreFrom (Some order) ->
  (exists m', HStoreToStringPtrMap s old = Ok (Some m') /\
     Permutation m' (map (fun p => (fst p, nullable_read (snd p))) m)) /\
  (exists m', HStoreToNullStringMap s old = Ok (Some m') /\
     Permutation m' (map (fun p => (fst p, nullable_read (snd p))) m)) /\
  (exists m', HStoreToStringMap s old = Ok (Some m') /\
     Permutation m' (map (fun p => (fst p, plain_read (snd p))) m)).
Proof.
  intros m order old N P s S.
  assert (N' : NoDup (map fst order)) by (eapply Permutation_NoDup; [apply Permutation_map, P|exact N]).
  assert (X : forall val f, (forall o, val (str_of o) = f o) ->
    exists m', HStoreTo val s old = Ok (Some m') /\ Permutation m' (map (fun p => (fst p, f (snd p))) m)).
  { intros val f E. exists (map (fun p => (fst p, f (snd p))) order). split.
    - replace (map (fun p => (fst p, f (snd p))) order)
        with (map (fun x => (fst x, val (str_of (snd x)))) order)
        by (apply map_ext; intros; now rewrite E).
      destruct S as [-> | ->]. now apply hstore_scan_server. now apply hstore_scan_own.
    - apply Permutation_map. now apply Permutation_sym. }
  exact (conj (X _ _ val_opt_read) (conj (X _ _ val_opt_read) (X _ _ val_str_read))).
Qed.

Lemma C09_hstorearr_server_reads_proof : HStoreArrayFrom None = None /\
  forall l : list (option (list (bytes * option bytes))),
  exists d, HStoreArrayFrom (Some l) = Some d /\ array_of hstore_in d = Some l.
Proof. exact (conj eq_refl hstorearr_server). Qed.

Lemma C09_hstorearr_scan_proof : forall (l : list (option (list (bytes * option bytes)))) old s,
  Forall (fun o => match o with Some m => NoDup (map fst m) | None => True end) l ->
  s = Some (array_out (map (option_map hstore_out) l)) \/ s = HStoreArrayFrom (Some l) ->
  HStoreArrayToStringPtrMapSlice s old
    = Ok (Some (map (option_map (map (fun p => (fst p, nullable_read (snd p))))) l)) /\
  HStoreArrayToNullStringMapSlice s old
    = Ok (Some (map (option_map (map (fun p => (fst p, nullable_read (snd p))))) l)) /\
  HStoreArrayToStringMapSlice s old
    = Ok (Some (map (option_map (map (fun p => (fst p, plain_read (snd p))))) l)).
Proof.
  intros l old s F S.
  assert (X : forall val f, (forall o, val (str_of o) = f o) ->
    HStoreArrayTo val s old = Ok (Some (map (option_map (map (fun p => (fst p, f (snd p))))) l))).
  { intros val f E.
    replace (map (option_map (map (fun p => (fst p, f (snd p))))) l) with (map (option_map (read_map val)) l).
    - destruct S as [-> | ->]. now apply hstorearr_scan_server. now apply hstorearr_scan_own.
    - apply map_ext. intros [m|]; auto. simpl. f_equal. apply map_ext. intros; now rewrite E. }
  exact (conj (X _ _ val_opt_read) (conj (X _ _ val_opt_read) (X _ _ val_str_read))).
Qed.

Lemma C10_bytea_roundtrip_proof : forall (v : slice bytes) old, ByteaArrayTo (ByteaArrayFrom v) old = Ok v.
Proof. exact bytea_roundtrip. Qed.

Lemma C10_bytea_literal_proof : forall l,
  exists d, ByteaArrayFrom (Some l) = Some d /\
    d = array_out (map (fun e => Some (lit "\x" ++ hex_encode e)) l) /\
    array_in d = Some (map (fun e => Some (lit "\x" ++ hex_encode e)) l).
Proof.
  intros. eexists. split. apply bytea_literal. split. reflexivity. apply array_in_out.
Qed.

Lemma C10_bytea_null_panics_proof : forall (l1 : list bytes) (l2 : list (option bytes)) old,
  ByteaArrayTo (Some (array_out (map (option_map (fun e => lit "\x" ++ hex_encode e)) (map Some l1 ++ None :: l2)))) old
  = Panic.
Proof. exact bytea_null_panics. Qed.

Lemma C11_uuid_roundtrip_proof : forall v old, List.length v = 16%nat ->
  UUIDToByteArray16 (UUIDFromByteArray16 v) old = Ok v.
Proof. intros. apply uuid_parse_format. assumption. Qed.

Lemma C11_uuid_shape_proof : forall v, List.length v = 16%nat ->
  exists d, UUIDFromByteArray16 v = Some d /\ List.length d = 36%nat /\
  forall i, (i < 36)%nat -> (nth i d " " = "-" <-> In i [8; 13; 18; 23]%nat).
Proof. intros. eexists. exact (conj eq_refl (conj (uuid_length v H) (uuid_dashes v H))). Qed.

Lemma C11_uuid_array_roundtrip_proof : forall v old,
  match v with Some l => Forall (fun u => List.length u = 16%nat) l | None => True end ->
  UUIDArrayToByteArray16Slice (UUIDArrayFromByteArray16Slice v) old = Ok v.
Proof. exact uuid_array_roundtrip. Qed.

Lemma C11_uuid_array_literal_proof : forall l, Forall (fun v => List.length v = 16%nat) l ->
  exists d, UUIDArrayFromByteArray16Slice (Some l) = Some d /\
    d = array_out (map UUIDFromByteArray16 l) /\ array_in d = Some (map UUIDFromByteArray16 l).
Proof.
  intros l F. eexists. split. now apply uuid_array_literal. split. reflexivity. apply array_in_out.
Qed.

Lemma C12_bool_bit_roundtrip_proof :
  (forall v old, BoolArrayToBoolSlice (BoolArrayFromBoolSlice v) old = Ok v) /\
  (forall v old, BitArrayToBoolSlice (BitArrayFromBoolSlice v) old = Ok v) /\
  (forall v old, match v with Some l => Forall (fun n => n = 0%N \/ n = 1%N) l | None => True end ->
     BitArrayToUintSlice (BitArrayFromUintSlice v) old = Ok v).
Proof.
  refine (conj bool_roundtrip (conj bit_roundtrip _)). intros v old F. rewrite bit_uint_roundtrip.
  destruct v as [l|]; auto. simpl. do 2 f_equal. induction F; auto. simpl. rewrite IHF.
  destruct H; subst; reflexivity.
Qed.

Lemma C12_bit_uint_normalises_proof : forall v old,
  BitArrayToUintSlice (BitArrayFromUintSlice v) old
  = Ok (option_map (map (fun n => if N.eqb n 0 then 0%N else 1%N)) v).
Proof. exact bit_uint_roundtrip. Qed.

Lemma C12_bool_bit_server_proof :
  (forall l, BoolArrayFromBoolSlice (Some l)
     = Some (array_out (map (fun b : bool => Some (lit (if b then "t" else "f"))) l))) /\
  (forall l, BitArrayFromBoolSlice (Some l)
     = Some (array_out (map (fun b : bool => Some (lit (if b then "1" else "0"))) l))) /\
  (forall (l : list (option bool)) old,
     BoolArrayToBoolSlice (Some (array_out (map (option_map (fun b : bool => lit (if b then "t" else "f"))) l))) old
     = Ok (Some (map (fun o => match o with Some b => b | None => false end) l))) /\
  (forall (l : list (option bool)) old,
     BitArrayToBoolSlice (Some (array_out (map (option_map (fun b : bool => lit (if b then "1" else "0"))) l))) old
     = Ok (Some (map (fun o => match o with Some b => b | None => false end) l))) /\
  (forall (l : list (option bool)) old,
     BitArrayToUintSlice (Some (array_out (map (option_map (fun b : bool => lit (if b then "1" else "0"))) l))) old
     = Ok (Some (map (fun o => match o with Some true => 1%N | _ => 0%N end) l))).
Proof.
  assert (E1 : forall b : bool, lit (if b then "t" else "f") = bool_text b) by (intros []; reflexivity).
  assert (E2 : forall b : bool, lit (if b then "1" else "0") = bit_text b) by (intros []; reflexivity).
  assert (O1 : forall o, option_map (fun b : bool => lit (if b then "t" else "f")) o = opt_text bool_text o)
    by (intros [[]|]; reflexivity).
  assert (O2 : forall o, option_map (fun b : bool => lit (if b then "1" else "0")) o = opt_text bit_text o)
    by (intros [[]|]; reflexivity).
  conjs; intros.
  - rewrite bool_literal. do 2 f_equal. apply map_ext. intros; now rewrite E1.
  - rewrite bit_literal. do 2 f_equal. apply map_ext. intros; now rewrite E2.
  - rewrite (map_ext _ _ O1). apply bool_scan.
  - rewrite (map_ext _ _ O2). apply bit_scan.
  - rewrite (map_ext _ _ O2). apply bit_uint_scan.
Qed.

Lemma C18_int2vector_proof : forall t (l : list Z) old, Forall (fun z => fits 16 z = true) l ->
  Int2VectorFrom (Some l) = Some (vector_out l) /\
  Int2VectorTo t (Some (vector_out l)) old = if forallb (in_type t) l then Ok (Some l) else Err.
Proof.
  intros t l old F. split. apply int2vector_literal. rewrite int2vector_scan.
  rewrite (forallb_ext_in _ (in_type t)). reflexivity.
  intros z I. rewrite Forall_forall in F. apply readable_vec; simpl; auto.
Qed.

Lemma C18_int2vectorarr_roundtrip_proof : forall t (l : list (list Z)) old,
  Forall (fun v => v <> [] /\ Forall (fun z => fits 16 z = true /\ in_type t z = true) v) l ->
  Int2VectorArrayTo t (Int2VectorArrayFrom (Some (map Some l))) old = Ok (Some (map Some l)).
Proof.
  intros t l old F. apply int2vectorarr_roundtrip. eapply Forall_impl; [|exact F].
  intros v [A C]. split; auto. apply forallb_forall. intros z I. rewrite Forall_forall in C.
  destruct (C z I). rewrite readable_vec; simpl; auto.
Qed.

Lemma C18_int2vectorarr_server_proof : forall t (l : list (option (list Z))) old, vec_good l = true ->
  Forall (fun o => match o with Some v => Forall (fun z => fits 16 z = true /\ in_type t z = true) v | None => True end) l ->
  Int2VectorArrayTo t (Some (array_out (map (option_map vector_out) l))) old
  = Ok (Some (map (fun o => Some (match o with Some v => v | None => [] end)) l)).
Proof.
  intros t l old G F. apply int2vectorarr_scan; auto. apply forallb_forall. intros o I.
  rewrite Forall_forall in F. specialize (F o I). destruct o as [v|]; auto. apply forallb_forall. intros z Iz.
  rewrite Forall_forall in F. destruct (F z Iz). rewrite readable_vec; simpl; auto.
Qed.

Lemma C18_int2vectorarr_refuted_proof :
  Int2VectorArrayTo TInt (Some (array_out [Some (vector_out [12]%Z)])) None = Ok (Some [Some [12]; Some [2]]%Z) /\
  Int2VectorArrayTo TInt (Some (array_out [None; Some (vector_out [1; 2]%Z)])) None = Err /\
  Int2VectorArrayTo TInt (Some (array_out [Some (vector_out [])])) None = Err.
Proof. conjs; vm_compute; reflexivity. Qed.

Lemma C18_int2vectorarr_server_reads_proof : forall l, Forall (fun v => v <> []) l ->
  exists d, Int2VectorArrayFrom (Some (map Some l)) = Some d /\
    array_in d = Some (map (fun v => Some (vector_out v)) l).
Proof.
  intros l F. rewrite Forall_forall in F.
  destruct (arr_value_in (fun o => enc_vec (match o with Some v => v | None => [] end))
              (fun o => option_map vector_out o) (map Some l)) as (d & H1 & H2).
  - intros o I. apply in_map_iff in I. destruct I as (v & <- & I). rewrite enc_vec_out by auto.
    apply elem_reads_raw; apply vector_out_nochar; simpl; auto.
  - exists d. split. exact H1. rewrite H2, map_map. reflexivity.
Qed.

Lemma C18_empty_vector_refuted_proof : exists l d,
  Int2VectorArrayFrom (Some l) = Some d /\ array_in d = None.
Proof. exists [Some []]. eexists. split; reflexivity. Qed.
