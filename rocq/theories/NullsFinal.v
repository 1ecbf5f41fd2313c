(** Definitions and proofs used by PropsNulls.v. *)
From Coq Require Import Ascii String ZArith NArith Bool List Lia.
From Verif Require Import GoBase Strconv ConvertUtil Codecs BitCodecs CharCodecs IntCodecs MoneyCodecs GeoCodecs Hstore Times TimeCodecs Net.
Import ListNotations.
Local Open Scope char_scope.

(** The destination after each of the rows that are scanned into it one after
    the other. *)
Fixpoint seen {A} (f : src -> A -> res A) (old : A) (rows : list src) : res (list A) :=
  match rows with
  | [] => Ok []
  | s :: r => bind (f s old) (fun v => rmap (cons v) (seen f v r))
  end.

(** What a row shows depends on that row alone, and NULL shows as nil. *)
Definition independent {A} (f : src -> slice A -> res (slice A)) : Prop :=
  (forall rows old fresh, seen f old rows = mapM (fun s => f s fresh) rows)
  /\ forall old, f None old = Ok None.

(** A row that is not NULL shows itself, a NULL what the row before it showed. *)
Definition stale {A} (f : src -> A -> res A) : Prop :=
  (forall rows old vs b, seen f old rows = Ok vs ->
     forall fresh, seen f old (rows ++ [Some b]) = rmap (fun v => vs ++ [v]) (f (Some b) fresh))
  /\ (forall rows old vs, seen f old rows = Ok vs -> seen f old (rows ++ [None]) = Ok (vs ++ [last vs old])).

Lemma independent_of : forall {A} (f : src -> slice A -> res (slice A)),
  (forall s old fresh, f s old = f s fresh) -> (forall old, f None old = Ok None) -> independent f.
Proof.
  intros A f F N. split; auto. induction rows as [|s rows IH]; intros old fresh; auto.
  cbn [seen mapM]. rewrite (F s old fresh). destruct (f s fresh) as [v| |]; auto. cbn [bind].
  rewrite (IH v fresh). destruct (mapM _ rows); reflexivity.
Qed.

Lemma seen_snoc : forall {A} (f : src -> A -> res A) rows s old vs, seen f old rows = Ok vs ->
  seen f old (rows ++ [s]) = rmap (fun v => vs ++ [v]) (f s (last vs old)).
Proof.
  intros A f. induction rows as [|r rows IH]; intros s old vs H.
  - injection H as <-. cbn [seen app last]. destruct (f s old); reflexivity.
  - cbn [seen app] in *. destruct (f r old) as [v| |]; try discriminate. cbn [bind] in *.
    destruct (seen f v rows) as [l| |] eqn:E; try discriminate. injection H as <-. rewrite (IH s v l E).
    replace (last (v :: l) old) with (last l v).
    + destruct (f s (last l v)); reflexivity.
    + clear. destruct l as [|x l]; auto. revert x. induction l; intros x; auto. exact (IHl a).
Qed.

Lemma stale_of : forall {A} (f : src -> A -> res A),
  (forall b old fresh, f (Some b) old = f (Some b) fresh) -> (forall old, f None old = Ok old) -> stale f.
Proof.
  intros A f F N. split.
  - intros rows old vs b H fresh. etransitivity; [exact (seen_snoc f rows (Some b) old vs H)|]. now rewrite (F b _ fresh).
  - intros rows old vs H. etransitivity; [exact (seen_snoc f rows None old vs H)|]. now rewrite N.
Qed.

Lemma C20_resets_proof :
  independent TextArrayToStringSlice /\ independent TextArrayToByteSliceSlice
  /\ independent TSQueryArrayToStringSlice /\ independent TSQueryArrayToByteSliceSlice
  /\ independent ByteaArrayTo /\ independent BoolArrayToBoolSlice
  /\ independent BitArrayToBoolSlice /\ independent BitArrayToUintSlice
  /\ independent UUIDArrayToByteArray16Slice /\ independent UUIDArrayToStringSlice /\ independent UUIDArrayToByteSliceSlice
  /\ independent VarBitToBoolSlice /\ independent VarBitToUint8Slice
  /\ independent VarBitArrayToBoolSliceSlice /\ independent VarBitArrayToUint8SliceSlice
  /\ independent VarBitArrayToStringSlice /\ independent VarBitArrayToInt64Slice
  /\ independent TSVectorTo /\ independent TSVectorArrayTo
  /\ independent CharArrayToByteSlice /\ independent CharArrayToRuneSlice /\ independent CharArrayToStringSlice
  /\ (forall c t, independent (IntArrayTo c t)) /\ (forall t, independent (Int2VectorTo t)) /\ (forall t, independent (Int2VectorArrayTo t))
  /\ independent MoneyArrayToInt64Slice
  /\ (forall fl, independent (PathTo fl)) /\ (forall fl, independent (PolygonTo fl)) /\ (forall fl, independent (PathArrayTo fl)) /\ (forall fl, independent (PolygonArrayTo fl)) /\ (forall fl, independent (BoxArrayTo fl))
  /\ independent DateArrayToTimeSlice /\ independent TimeArrayToTimeSlice /\ independent TimetzArrayToTimeSlice
  /\ independent TimestampArrayToTimeSlice /\ independent TimestamptzArrayToTimeSlice
  /\ independent TsRangeArrayToTimeArray2Slice /\ independent TstzRangeArrayToTimeArray2Slice
  /\ independent CIDRArrayToIPNetSlice /\ independent InetArrayToIPNetSlice /\ independent InetArrayToIPSlice
  /\ independent MACAddrArrayToHardwareAddrSlice.
Proof. repeat match goal with |- _ /\ _ => split | |- forall _, _ => intro end; apply independent_of; try reflexivity; intros [b|] old fresh; reflexivity. Qed.

Lemma C20_keeps_proof :
  stale UUIDToByteArray16 /\ stale VarBitToInt64 /\ stale CharArrayToString /\ stale MoneyToInt64
  /\ (forall fl, stale (PointTo fl)) /\ (forall fl, stale (LineTo fl)) /\ (forall fl, stale (LsegTo fl)) /\ (forall fl, stale (BoxTo fl))
  /\ (forall fl, stale (PointArrayTo fl)) /\ (forall fl, stale (LineArrayTo fl)) /\ (forall fl, stale (LsegArrayTo fl))
  /\ stale HStoreToStringMap /\ stale HStoreToStringPtrMap /\ stale HStoreToNullStringMap
  /\ stale HStoreArrayToStringMapSlice /\ stale HStoreArrayToStringPtrMapSlice /\ stale HStoreArrayToNullStringMapSlice
  /\ (forall c t, stale (IntRangeTo c t)) /\ (forall c t, stale (IntRangeArrayTo c t))
  /\ stale DateRangeToTimeArray2 /\ stale DateRangeArrayToTimeArray2Slice
  /\ stale TsRangeToTimeArray2 /\ stale TstzRangeToTimeArray2
  /\ stale CIDRToIPNet /\ stale (fun s old => Ok (InetToIPNet s old)) /\ stale (fun s old => Ok (InetToIP s old))
  /\ stale MACAddrToHardwareAddr.
Proof. repeat match goal with |- _ /\ _ => split | |- forall _, _ => intro end; apply stale_of; try reflexivity; intros b old fresh; reflexivity. Qed.

Lemma C20_char_proof :
  (forall rows old vs s, s = None \/ s = Some [] -> seen CharToByte old rows = Ok vs ->
     seen CharToByte old (rows ++ [s]) = Ok (vs ++ [last vs old]))
  /\ (forall rows old vs s, s = None \/ s = Some [] -> seen CharToRune old rows = Ok vs ->
     seen CharToRune old (rows ++ [s]) = Ok (vs ++ [last vs old])).
Proof.
  split; intros rows old vs s [-> | ->] H; rewrite (seen_snoc _ _ _ _ _ H); reflexivity.
Qed.

Lemma C20_stale_refuted_proof : exists rows m, rows = [Some (B """a""=>""1"""); None]
  /\ seen HStoreToStringMap None rows = Ok [Some m; Some m] /\ m <> [].
Proof. eexists _, _. split; [reflexivity|]. split; [vm_compute; reflexivity|]. discriminate. Qed.
