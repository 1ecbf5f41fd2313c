(** Definitions and proofs used by PropsIntFloatArrs.v. *)
From Coq Require Import Ascii String ZArith NArith Bool List Lia.
From Verif Require Import GoBase Strconv StrconvProofs ConvertUtil ConvertProofs Codecs PgSpec PgSpecProofs SimpleProofs IntCodecs IntProofs ArraysFinal MoneyCodecs MoneyProofs Floats FloatSpec FloatProofs IntFloats.
Import ListNotations.
Local Open Scope char_scope.
Local Open Scope Z_scope.

(** The integer that remains of a float within int64 when its fraction is cut
    off. *)
Definition cut (ff : fformat) (f : float) (z : Z) : Prop :=
  exists neg v, f = Fin neg v /\ Z.abs z * 2 ^ expo ff <= v < (Z.abs z + 1) * 2 ^ expo ff
    /\ (if neg : bool then z <= 0 else 0 <= z) /\ - 2 ^ 63 <= z < 2 ^ 63.

(** The float of the format nearest to an integer. *)
Definition int_float (ff : fformat) (z : Z) (f : float) : Prop :=
  exists v, f = Fin (z <? 0) v /\ nearest ff (Z.abs z * 2 ^ expo ff) 1 v.

Lemma ok_fmt : forall t, okff (fmt_of t).
Proof. intros []; [apply ok32|apply ok64]. Qed.

Lemma expo_pos : forall t, 0 < 2 ^ expo (fmt_of t).
Proof. intros t. apply pow2_pos. pose proof (ok_fmt t) as (_ & ? & _). lia. Qed.

Lemma cut_int64 : forall t f z, cut (fmt_of t) f z -> int64_of t f = z.
Proof.
  intros t f z (neg & v & -> & V & SG & R). cbn [int64_of]. pose proof (expo_pos t) as P.
  assert (E : v / 2 ^ expo (fmt_of t) = Z.abs z) by (symmetry; apply (Z.div_unique_pos _ _ _ (v - Z.abs z * 2 ^ expo (fmt_of t))); lia).
  rewrite E. replace (if neg then - Z.abs z else Z.abs z) with z by (destruct neg; lia).
  rewrite (proj2 (Z.leb_le _ _)), (proj2 (Z.ltb_lt _ _)) by lia. reflexivity.
Qed.

Lemma of_int_float : forall t z, int_float (fmt_of t) z (of_int t z).
Proof.
  intros t z. eexists. split; [reflexivity|]. pose proof (expo_pos t). apply round_nearest; [apply ok_fmt| |lia]. nia.
Qed.

Lemma C90_cut_proof : forall t neg v, 0 <= v -> v < 2 ^ 63 * 2 ^ expo (fmt_of t) -> exists! z, cut (fmt_of t) (Fin neg v) z.
Proof.
  intros t neg v V L. pose proof (expo_pos t) as P. set (E := 2 ^ expo (fmt_of t)) in *. pose proof (Z.div_mod v E ltac:(lia)). pose proof (Z.mod_pos_bound v E P).
  assert (D0 : 0 <= v / E) by (apply Z.div_pos; lia). assert (D1 : v / E < 2 ^ 63) by (apply Z.div_lt_upper_bound; lia).
  assert (C : cut (fmt_of t) (Fin neg v) (if neg then - (v / E) else v / E)).
  { exists neg, v. fold E. split; auto. replace (Z.abs (if neg then - (v / E) else v / E)) with (v / E) by (destruct neg; lia).
    split; [lia|]. destruct neg; lia. }
  exists (if neg then - (v / E) else v / E). split; auto. intros z C2. apply cut_int64 in C, C2. congruence.
Qed.

Lemma C90_exact_proof : forall t z, Z.abs z < 2 ^ prec (fmt_of t) ->
  of_int t z = Fin (z <? 0) (Z.abs z * 2 ^ expo (fmt_of t)) /\ (Z.abs z < 2 ^ 63 -> cut (fmt_of t) (of_int t z) z).
Proof.
  intros t z L. destruct (of_int_float t z) as (v & E & NV). pose proof (expo_pos t) as P. set (X := 2 ^ expo (fmt_of t)) in *.
  assert (EV : v = Z.abs z * X).
  { eapply nearest_unique; [apply (ok_fmt t)| |exact NV|]; [lia|]. assert (F : fits (fmt_of t) (Z.abs z * X)).
    { exists (Z.abs z), (expo (fmt_of t)). split; [lia|]. split; [|reflexivity]. pose proof (ok_fmt t) as (_ & ? & _). lia. }
    assert (G := nearest_exact _ _ 1 ltac:(lia) F). now rewrite Z.mul_1_r in G. }
  rewrite E, EV. split; auto. intros L2. exists (z <? 0), (Z.abs z * X). split; auto. fold X. split; [lia|].
  destruct (Z.ltb_spec z 0); lia.
Qed.

Definition as_ity (c : icol) (t : fty) : ity :=
  match float_bits c t with 16%N => TInt16 | 32%N => TInt32 | _ => TInt64 end.

Lemma parse_int_fits : forall bits s z, In bits [16%N; 32%N; 64%N] -> parse_int 10 bits s = Ok z -> PgSpec.fits (Z.of_N bits) z = true.
Proof.
  intros bits s z I. unfold parse_int.
  assert (G : forall neg r, bind (parse_uint 10 bits r) (fun n => let cutoff := (2 ^ (bits - 1))%N in
      if (negb neg && (cutoff <=? n)%N)%bool then Err else if (neg && (cutoff <? n)%N)%bool then Err
      else Ok (if neg then (- Z.of_N n)%Z else Z.of_N n)) = Ok z -> PgSpec.fits (Z.of_N bits) z = true).
  { intros neg r. destruct (parse_uint 10 bits r) as [n| |]; try discriminate. cbn [bind]. cbv zeta. unfold PgSpec.fits. intros H. apply andb_true_iff.
    assert (E : Z.of_N (2 ^ (bits - 1)) = 2 ^ (Z.of_N bits - 1)) by (destruct I as [<-|[<-|[<-|[]]]]; reflexivity).
    destruct neg; cbn [negb andb] in H.
    - destruct (N.ltb_spec (2 ^ (bits - 1)) n); [discriminate|]. injection H as <-. rewrite Z.leb_le, Z.ltb_lt. rewrite <- E.
      assert (0 < Z.of_N (2 ^ (bits - 1))) by (destruct I as [<-|[<-|[<-|[]]]]; reflexivity). lia.
    - destruct (N.leb_spec (2 ^ (bits - 1)) n); [discriminate|]. injection H as <-. rewrite Z.leb_le, Z.ltb_lt. rewrite <- E. lia. }
  destruct s as [|c r]; [discriminate|]. destruct (Ascii.eqb c "+"); [apply G|]. destruct (Ascii.eqb c "-"); apply G.
Qed.

Lemma float_bits_cases : forall c t, In (float_bits c t) [16%N; 32%N; 64%N].
Proof. intros [] []; cbn; auto. Qed.

Lemma scan_as : forall c t e, c <> CNumericArr -> scan_elem c (as_ity c t) e = parse_int 10 (float_bits c t) e.
Proof.
  intros c t e NN. unfold scan_elem. replace (signed (as_ity c t)) with true by (destruct c, t; reflexivity).
  replace (scan_bits c (as_ity c t)) with (float_bits c t) by (destruct c, t; reflexivity).
  destruct (parse_int 10 (float_bits c t) e) as [z| |] eqn:E; auto. cbn [rmap bind]. f_equal. apply narrow_id.
  apply parse_int_fits in E; [|apply float_bits_cases]. destruct c, t; exact E.
Qed.

Lemma mapM_rmap : forall {A C D} (g : C -> D) (f : A -> res C) l, mapM (fun x => rmap g (f x)) l = rmap (map g) (mapM f l).
Proof.
  intros A C D g f l. induction l as [|x l IH]; auto. cbn [mapM]. rewrite IH. destruct (f x); cbn [rmap bind]; auto. destruct (mapM f l); auto.
Qed.

Lemma mapM_ext2 : forall {A C} (f g : A -> res C) l, (forall x, f x = g x) -> mapM f l = mapM g l.
Proof. intros A C f g l H. induction l; cbn [mapM]; auto. now rewrite H, IHl. Qed.

Lemma array_as : forall c t s old, c <> CNumericArr ->
  IntArrayToFloats c t s old = rmap (option_map (map (of_int t))) (IntArrayTo c (as_ity c t) s None).
Proof.
  intros c t s old NN. unfold IntArrayToFloats, IntArrayTo, arr_scan. destruct (srcbytes s) as [d|]; auto.
  destruct (pgParseCommaArray d) as [es| |]; auto. cbn [bind]. unfold scan_float.
  rewrite (mapM_ext2 (scan_elem c (as_ity c t)) _ es (fun e => scan_as c t e NN)). rewrite mapM_rmap.
  destruct (mapM (parse_int 10 (float_bits c t)) es); reflexivity.
Qed.

Lemma C90_array_write_proof : forall t l zs, Forall2 (cut (fmt_of t)) l zs ->
  IntArrayFromFloats t (Some l) = Some (array_out (map (fun z => Some (int_out z)) zs)) /\ IntArrayFromFloats t None = None.
Proof.
  intros t l zs F. split; auto. destruct (C03_int_array_literal_proof zs) as [E _]. rewrite <- E. unfold IntArrayFromFloats, IntArrayFrom, arr_value.
  assert (G : map (enc_float t) l = map enc_int zs) by (clear E; induction F as [|f z l zs C F IH]; auto; cbn [map]; unfold enc_float at 1; now rewrite (cut_int64 t f z C), IH).
  rewrite G. destruct F; reflexivity.
Qed.

Lemma C90_array_read_proof : forall c t (l : list (option Z)) old, In c [CInt2Arr; CInt4Arr; CInt8Arr] ->
  Forall (fun o => match o with Some z => PgSpec.fits (col_bits c) z = true | None => True end) l ->
  (forall zs, l = map Some zs -> exists fs, Forall2 (int_float (fmt_of t)) zs fs
     /\ IntArrayToFloats c t (Some (array_out (map (option_map int_out) l))) old = Ok (Some fs))
  /\ (In None l -> IntArrayToFloats c t (Some (array_out (map (option_map int_out) l))) old = Err).
Proof.
  intros c t l old I F. assert (NN : c <> CNumericArr) by (intros ->; cbn in I; repeat destruct I as [I|I]; try discriminate I; destruct I).
  rewrite (array_as c t _ old NN). assert (NU : c = CInt8Arr -> as_ity c t <> TUint) by (intros ->; destruct t; discriminate).
  rewrite (C03_int_array_scan_proof c (as_ity c t) l None I NU F). split.
  - intros zs ->. exists (map (of_int t) zs). split; [clear; induction zs; constructor; auto; apply of_int_float|].
    replace (forallb _ (map Some zs)) with true.
    + cbn [rmap bind option_map]. do 2 f_equal. rewrite !map_map. reflexivity.
    + symmetry. apply forallb_forall. intros o Io. apply in_map_iff in Io. destruct Io as (z & <- & Iz).
      rewrite Forall_forall in F. specialize (F (Some z) (in_map Some _ _ Iz)). cbn beta iota in F.
      destruct I as [<-|[<-|[<-|[]]]], t; exact F.
  - intros IN. replace (forallb _ l) with false; [reflexivity|]. symmetry. apply not_true_iff_false. intros H. rewrite forallb_forall in H. now specialize (H None IN).
Qed.

Lemma C90_array_roundtrip_proof : forall c t zs old, In c [CInt2Arr; CInt4Arr; CInt8Arr] ->
  Forall (fun z => PgSpec.fits (col_bits c) z = true /\ Z.abs z < 2 ^ prec (fmt_of t)) zs ->
  IntArrayToFloats c t (IntArrayFromFloats t (Some (map (of_int t) zs))) old = Ok (Some (map (of_int t) zs)).
Proof.
  intros c t zs old I F. assert (NN : c <> CNumericArr) by (intros ->; cbn in I; repeat destruct I as [I|I]; try discriminate I; destruct I).
  destruct (C90_array_write_proof t (map (of_int t) zs) zs) as [W _].
  { induction F as [|z zs [H1 H2] F IH]; cbn [map]; constructor; auto. apply C90_exact_proof; auto.
    unfold PgSpec.fits in H1. apply andb_true_iff in H1. destruct H1 as [H1 H3]. apply Z.leb_le in H1. apply Z.ltb_lt in H3.
    destruct t; cbn [fmt_of prec f32 f64] in H2; lia. }
  rewrite W. assert (EE : map (fun z => Some (int_out z)) zs = map (option_map int_out) (map Some zs)) by (now rewrite map_map).
  rewrite EE. clear W EE. rewrite (array_as c t _ old NN).
  assert (NU : c = CInt8Arr -> as_ity c t <> TUint) by (intros ->; destruct t; discriminate).
  rewrite (C03_int_array_scan_proof c (as_ity c t) (map Some zs) None I NU).
  - replace (forallb _ (map Some zs)) with true. cbn [rmap bind option_map]. now rewrite !map_map.
    symmetry. apply forallb_forall. intros o Io. apply in_map_iff in Io. destruct Io as (z & <- & Iz).
    rewrite Forall_forall in F. destruct (F z Iz) as [H _]. destruct I as [<-|[<-|[<-|[]]]], t; exact H.
  - apply Forall_forall. intros o Io. apply in_map_iff in Io. destruct Io as (z & <- & Iz). rewrite Forall_forall in F. now destruct (F z Iz).
Qed.

Lemma C90_int8_refuted_proof : exists z, PgSpec.fits 64 z = true /\ forall old,
  IntArrayToFloats CInt8Arr F64 (Some (array_out [Some (int_out z)])) old = IntArrayToFloats CInt8Arr F64 (Some (array_out [Some (int_out (z - 1))])) old
  /\ exists f, IntArrayToFloats CInt8Arr F64 (Some (array_out [Some (int_out z)])) old = Ok (Some [f]).
Proof.
  exists (2 ^ 53 + 1). split; [reflexivity|]. intros old. split; [vm_compute; reflexivity|]. eexists. vm_compute. reflexivity.
Qed.

Lemma C90_vector_proof : forall t l zs old, Forall2 (cut (fmt_of t)) l zs -> Forall (fun z => PgSpec.fits 16 z = true) zs ->
  Int2VectorFromFloats t (Some l) = Some (vector_out zs)
  /\ exists fs, Forall2 (int_float (fmt_of t)) zs fs /\ Int2VectorToFloats t (Some (vector_out zs)) old = Ok (Some fs).
Proof.
  intros t l zs old F R. destruct (C18_int2vector_proof (as_ity CInt2Vec t) zs None R) as [W RD]. split.
  - rewrite <- W. unfold Int2VectorFromFloats, Int2VectorFrom.
    assert (G : map (fun f => enc_float t f ++ [" "]) l = map (fun z => enc_int z ++ [" "]) zs).
    { clear W RD R. induction F as [|f z l zs C F IH]; auto. cbn [map]. unfold enc_float at 1. now rewrite (cut_int64 t f z C), IH. }
    rewrite G. destruct F; reflexivity.
  - exists (map (of_int t) zs). split; [clear; induction zs; constructor; auto; apply of_int_float|].
    replace (forallb (in_type (as_ity CInt2Vec t)) zs) with true in RD.
    2:{ symmetry. apply forallb_forall. intros z I. rewrite Forall_forall in R. specialize (R z I). destruct t; exact R. }
    unfold Int2VectorToFloats, Int2VectorTo, arr_scan in *. cbn [srcbytes] in *. unfold scan_float. rewrite mapM_rmap.
    assert (NN : CInt2Vec <> CNumericArr) by discriminate.
    rewrite <- (mapM_ext2 (scan_elem CInt2Vec (as_ity CInt2Vec t)) _ (pgParseVector (vector_out zs)) (fun e => scan_as CInt2Vec t e NN)).
    destruct (mapM (scan_elem CInt2Vec (as_ity CInt2Vec t)) (pgParseVector (vector_out zs))) as [x| |]; try discriminate RD.
    cbn [rmap bind] in *. injection RD as ->. reflexivity.
Qed.

Lemma range_as : forall c t d, c <> CNumericArr ->
  scanf_range c t d = rmap (fun p => (of_int t (fst p), of_int t (snd p))) (scan_range c (as_ity c t) d).
Proof.
  intros c t d NN. unfold scanf_range, scan_range. destruct (pgParseRange d) as [[lo hi]| |]; auto. cbn [bind].
  assert (B1 : forall o, scanf_bound c t o = scan_bound c (as_ity c t) o).
  { intros [[|x r]|]; auto. cbn [scanf_bound scan_bound]. now rewrite (scan_as c t _ NN). }
  rewrite !B1. destruct (scan_bound c (as_ity c t) lo); auto. cbn [bind]. destruct (scan_bound c (as_ity c t) hi); auto.
Qed.

Lemma C90_range_write_proof : forall t x y lo hi, cut (fmt_of t) x lo -> cut (fmt_of t) y hi ->
  IntRangeFromFloats t (x, y) = Some (range_out (RBounds (Some lo) (Some hi))).
Proof.
  intros t x y lo hi C1 C2. destruct (C06_range_literal_proof lo hi) as (d & E & D & _). transitivity (Some d); [|now rewrite D]. rewrite <- E. unfold IntRangeFromFloats, IntRangeFrom, encf_range, enc_range, enc_float.
  cbn [fst snd]. now rewrite (cut_int64 t x lo C1), (cut_int64 t y hi C2).
Qed.

Lemma C90_range_read_proof : forall c t r old, In c [CInt4Range; CInt8Range; CNumRange] ->
  (forall z, In z (match r with RBounds lo hi => match lo with Some z => [z] | None => [] end ++ match hi with Some z => [z] | None => [] end | REmpty => [] end) ->
     PgSpec.fits (range_bits c) z = true) ->
  IntRangeToFloats c t (Some (range_out r)) old = Ok (of_int t (fst (bounds_of r)), of_int t (snd (bounds_of r))).
Proof.
  intros c t r old I F. assert (NN : c <> CNumericArr) by (intros ->; cbn in I; repeat destruct I as [I|I]; try discriminate I; destruct I).
  unfold IntRangeToFloats. cbn [srcbytes]. rewrite (range_as c t _ NN). rewrite (scan_range_out c (as_ity c t) r NN).
  replace (bounds_ok c (as_ity c t) r) with true; [reflexivity|]. symmetry.
  assert (RD : forall z, PgSpec.fits (range_bits c) z = true -> readable c (as_ity c t) z = true).
  { intros z H. destruct I as [<-|[<-|[<-|[]]]], t; exact H. }
  unfold bounds_ok. destruct r as [|[lo|] [hi|]]; auto; rewrite ?andb_true_iff; try split; try (apply RD, F; cbn; auto); auto.
Qed.

Lemma C90_numrange_refuted_proof :
  (exists x y, cut f64 x 1 /\ cut f64 y 2 /\ ~ cut f64 x 2 /\ AppendFloat f64 x = B "1.5" /\ AppendFloat f64 y = B "2.5"
     /\ IntRangeFromFloats F64 (x, y) = Some (B "[1,2)"))
  /\ forall old, IntRangeToFloats CNumRange F64 (Some (B "[1.5,2.5)")) old = Err.
Proof.
  split; [|reflexivity]. exists (Fin false (3 * 2 ^ 1073)), (Fin false (5 * 2 ^ 1073)).
  assert (E : 2 ^ 1074 = 2 * 2 ^ 1073) by (change 2 with (2 ^ 1) at 2; rewrite <- Z.pow_add_r by lia; f_equal).
  assert (P : 0 < 2 ^ 1073) by (apply pow2_pos; lia).
  assert (CX : cut f64 (Fin false (3 * 2 ^ 1073)) 1).
  { exists false, (3 * 2 ^ 1073). split; auto. cbn [expo f64 Z.abs]. rewrite E. set (p := 2 ^ 1073) in *. clearbody p. lia. }
  assert (CY : cut f64 (Fin false (5 * 2 ^ 1073)) 2).
  { exists false, (5 * 2 ^ 1073). split; auto. cbn [expo f64 Z.abs]. rewrite E. set (p := 2 ^ 1073) in *. clearbody p. lia. }
  split; auto. split; auto. split.
  - intros C. apply (cut_int64 F64) in CX. apply (cut_int64 F64) in C. congruence.
  - split; [vm_compute; reflexivity|]. split; [vm_compute; reflexivity|]. vm_compute. reflexivity.
Qed.

Lemma C90_range_array_refuted_proof : exists r, range_out r = B "[2147483648,2147483649)"
  /\ (forall old, IntRangeArrayToFloats CInt8RangeArr F32 (Some (array_out [Some (range_out r)])) old = Err)
  /\ (forall old, IntRangeArrayToFloats CNumRangeArr F32 (Some (array_out [Some (range_out r)])) old = Err)
  /\ (forall old, exists p, IntRangeToFloats CInt8Range F32 (Some (range_out r)) old = Ok p).
Proof.
  exists (RBounds (Some 2147483648) (Some 2147483649)). split; [reflexivity|]. split; [reflexivity|]. split; [reflexivity|].
  intros old. eexists. vm_compute. reflexivity.
Qed.

Lemma C90_range_array_proof : forall c t rs old, In c [CInt4RangeArr; CInt8RangeArr; CNumRangeArr] ->
  Forall (bounds_in c (as_ity c t)) rs ->
  IntRangeArrayToFloats c t (Some (array_out (map (fun r => Some (range_out r)) rs))) old
  = Ok (Some (map (fun r => (of_int t (fst (bounds_of r)), of_int t (snd (bounds_of r)))) (filter (fun r => match r with REmpty => false | _ => true end) rs))).
Proof.
  intros c t rs old I F. assert (NN : c <> CNumericArr) by (intros ->; cbn in I; repeat destruct I as [I|I]; try discriminate I; destruct I).
  assert (IR : is_range c = true) by (destruct I as [<-|[<-|[<-|[]]]]; reflexivity).
  assert (G := C07_range_array_scan_proof c (as_ity c t) rs None IR F). unfold IntRangeArrayToFloats, IntRangeArrayTo in *. cbn [srcbytes] in *.
  destruct (pgParseQuotedStringArray (array_out (map (fun r => Some (range_out r)) rs))) as [els| |]; try discriminate G. cbn [bind] in *.
  rewrite (mapM_ext2 _ (fun o => rmap (fun p => (of_int t (fst p), of_int t (snd p))) (match o with None => Panic | Some e => scan_range c (as_ity c t) e end))).
  2:{ intros [e|]; auto. apply range_as; auto. }
  rewrite mapM_rmap. destruct (mapM _ els) as [ps| |]; try discriminate G. cbn [rmap bind] in *. injection G as ->. now rewrite map_map.
Qed.

Lemma arr_value_map : forall {A C} (f : A -> bytes) (g : C -> bytes) l zs, map f l = map g zs -> arr_value f (Some l) = arr_value g (Some zs).
Proof. intros A C f g l zs E. unfold arr_value. destruct l, zs; try discriminate E; auto. now rewrite E. Qed.

Lemma C90_range_array_write_proof : forall t (l : list (float * float)) zs,
  Forall2 (fun p q => cut (fmt_of t) (fst p) (fst q) /\ cut (fmt_of t) (snd p) (snd q)) l zs ->
  IntRangeArrayFromFloats t (Some l) = Some (array_out (map (fun q => Some (range_out (RBounds (Some (fst q)) (Some (snd q))))) zs)).
Proof.
  intros t l zs F. assert (G := C07_range_array_literal_proof zs). rewrite <- G. apply arr_value_map. clear G.
  induction F as [|p q l zs [C1 C2] F IH]; auto. cbn [map]. rewrite IH. unfold encf_range, enc_range, enc_float.
  now rewrite (cut_int64 t _ _ C1), (cut_int64 t _ _ C2).
Qed.
