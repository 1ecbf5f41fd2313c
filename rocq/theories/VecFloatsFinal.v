(** Definitions and proofs used by PropsVecFloats.v. *)
From Coq Require Import Ascii String ZArith NArith Bool List Lia.
From Verif Require Import GoBase Strconv StrconvProofs ConvertUtil ConvertProofs Codecs PgSpec PgSpecProofs SimpleProofs IntCodecs IntProofs ArraysFinal MoneyCodecs MoneyProofs Floats FloatSpec FloatProofs IntFloats IntFloatArrsFinal VecFloats.
Import ListNotations.
Local Open Scope char_scope.
Local Open Scope Z_scope.

Lemma encf_cut : forall t l zs, Forall2 (cut (fmt_of t)) l zs -> encf_vec t l = enc_vec zs.
Proof.
  intros t l zs H. unfold encf_vec, enc_vec. do 4 f_equal. induction H as [|f z l zs C H IH]; [reflexivity|]. cbn [map].
  rewrite IH. unfold enc_float. rewrite (cut_int64 _ _ _ C). reflexivity.
Qed.

Lemma vecarr_as : forall t ls zss, Forall2 (Forall2 (cut (fmt_of t))) ls zss ->
  Int2VectorArrayFromFloats t (Some (map Some ls)) = Int2VectorArrayFrom (Some (map Some zss)).
Proof.
  intros t ls zss H. unfold Int2VectorArrayFromFloats, Int2VectorArrayFrom. apply arr_value_map. rewrite !map_map.
  induction H as [|l zs ls zss C H IH]; [reflexivity|]. cbn [map]. rewrite IH, (encf_cut t l zs C). reflexivity.
Qed.

Lemma C90_vecarr_write_lemma : forall t ls zss, Forall2 (Forall2 (cut (fmt_of t))) ls zss -> Forall (fun l => l <> []) ls ->
  exists d, Int2VectorArrayFromFloats t (Some (map Some ls)) = Some d /\ array_in d = Some (map (fun v => Some (vector_out v)) zss).
Proof.
  intros t ls zss H N. rewrite (vecarr_as t ls zss H). apply C18_int2vectorarr_server_reads_proof.
  clear -H N. induction H as [|l zs ls zss C H IH]; constructor; inversion N; subst; auto. intros ->. inversion C; subst. congruence.
Qed.

Lemma scan_rmap : forall t s, Int2VectorArrayToFloats t s None =
  rmap (option_map (map (option_map (map (of_int t))))) (Int2VectorArrayTo (as_ity CInt2VecArr t) s None).
Proof.
  intros t s. unfold Int2VectorArrayToFloats, Int2VectorArrayTo, arr_scan. destruct (srcbytes s) as [d|]; [|reflexivity].
  destruct (pgParseVectorArray d) as [es| |]; cbn [bind rmap]; try reflexivity.
  rewrite (mapM_ext2 _ (fun o => rmap (option_map (map (of_int t))) (rmap Some (mapM (scan_elem CInt2VecArr (as_ity CInt2VecArr t)) (match o with Some es => es | None => [] end))))).
  - rewrite mapM_rmap. destruct (mapM _ es); reflexivity.
  - intros o. unfold scan_float. rewrite mapM_rmap.
    rewrite (mapM_ext2 (scan_elem CInt2VecArr (as_ity CInt2VecArr t)) (parse_int 10 (float_bits CInt2VecArr t))).
    + destruct (mapM _ _); reflexivity.
    + intros e. apply scan_as. discriminate.
Qed.

Lemma old_vec : forall t s old, Int2VectorArrayToFloats t s old = Int2VectorArrayToFloats t s None.
Proof. reflexivity. Qed.

Lemma in_as : forall t z, PgSpec.fits 16 z = true -> in_type (as_ity CInt2VecArr t) z = true.
Proof. intros t z. destruct t; unfold as_ity, in_type, PgSpec.fits; cbn; intros H; apply andb_prop in H; destruct H; lia. Qed.

Lemma C90_vecarr_read_lemma : forall t (l : list (option (list Z))) old, vec_good l = true ->
  Forall (fun o => match o with Some v => Forall (fun z => PgSpec.fits 16 z = true) v | None => True end) l ->
  exists fss, Int2VectorArrayToFloats t (Some (array_out (map (option_map vector_out) l))) old = Ok (Some (map Some fss))
    /\ Forall2 (fun o fs => Forall2 (int_float (fmt_of t)) (match o with Some v => v | None => [] end) fs) l fss.
Proof.
  intros t l old G F. exists (map (fun o => map (of_int t) (match o with Some v => v | None => [] end)) l). split.
  - rewrite old_vec, scan_rmap. rewrite (C18_int2vectorarr_server_proof (as_ity CInt2VecArr t) l None G).
    + match goal with |- rmap ?g (Ok ?x) = _ => change (rmap g (Ok x)) with (Ok (g x)) end. cbn [option_map]. rewrite !map_map. reflexivity.
    + eapply Forall_impl; [|exact F]. intros [v|] H; [|exact Logic.I]. eapply Forall_impl; [|exact H]. intros z Hz. split; [exact Hz|apply in_as, Hz].
  - clear F G. induction l as [|o l IH]; cbn [map]; constructor; auto. destruct o as [v|]; [|constructor].
    induction v as [|z v IHv]; cbn [map]; constructor; auto. apply of_int_float.
Qed.

Lemma C90_vecarr_roundtrip_lemma : forall t (zss : list (list Z)) old,
  Forall (fun v => v <> [] /\ Forall (fun z => PgSpec.fits 16 z = true) v) zss ->
  Int2VectorArrayToFloats t (Int2VectorArrayFromFloats t (Some (map (fun v => Some (map (of_int t) v)) zss))) old
  = Ok (Some (map (fun v => Some (map (of_int t) v)) zss)).
Proof.
  intros t zss old F. rewrite <- (map_map (map (of_int t)) Some).
  rewrite (vecarr_as t (map (map (of_int t)) zss) zss).
  - rewrite old_vec, scan_rmap, (C18_int2vectorarr_roundtrip_proof (as_ity CInt2VecArr t) zss None).
    + match goal with |- rmap ?g (Ok ?x) = _ => change (rmap g (Ok x)) with (Ok (g x)) end. cbn [option_map]. rewrite !map_map. reflexivity.
    + eapply Forall_impl; [|exact F]. intros v [N H]. split; [exact N|]. eapply Forall_impl; [|exact H]. intros z Hz. split; [exact Hz|apply in_as, Hz].
  - induction F as [|v zss [_ H] F IH]; cbn [map]; constructor; auto. clear -H. induction H as [|z v Hz H IH]; cbn [map]; constructor; auto.
    assert (A : Z.abs z < 2 ^ 16) by (unfold PgSpec.fits in Hz; cbn in Hz; apply andb_prop in Hz; destruct Hz; lia).
    apply C90_exact_proof; destruct t; cbn [fmt_of]; cbn; lia.
Qed.

Lemma C90_vecarr_refuted_lemma : exists z, PgSpec.fits 16 z = true /\ forall t old, exists f g,
  Int2VectorArrayToFloats t (Some (array_out [Some (vector_out [z])])) old = Ok (Some [Some [f]; Some [g]]).
Proof. exists 12. split; [reflexivity|]. intros t old. destruct t; do 2 eexists; vm_compute; reflexivity. Qed.

Lemma C90_vecarr_write_proof : forall t ls zss, Forall2 (Forall2 (cut (fmt_of t))) ls zss -> Forall (fun l => l <> []) ls ->
  exists d, Int2VectorArrayFromFloats t (Some (map Some ls)) = Some d /\ array_in d = Some (map (fun v => Some (vector_out v)) zss).
Proof. exact C90_vecarr_write_lemma. Qed.

Lemma C90_vecarr_read_proof : forall t (l : list (option (list Z))) old, vec_good l = true ->
  Forall (fun o => match o with Some v => Forall (fun z => PgSpec.fits 16 z = true) v | None => True end) l ->
  exists fss, Int2VectorArrayToFloats t (Some (array_out (map (option_map vector_out) l))) old = Ok (Some (map Some fss))
    /\ Forall2 (fun o fs => Forall2 (int_float (fmt_of t)) (match o with Some v => v | None => [] end) fs) l fss.
Proof. exact C90_vecarr_read_lemma. Qed.

Lemma C90_vecarr_roundtrip_proof : forall t (zss : list (list Z)) old,
  Forall (fun v => v <> [] /\ Forall (fun z => PgSpec.fits 16 z = true) v) zss ->
  Int2VectorArrayToFloats t (Int2VectorArrayFromFloats t (Some (map (fun v => Some (map (of_int t) v)) zss))) old
  = Ok (Some (map (fun v => Some (map (of_int t) v)) zss)).
Proof. exact C90_vecarr_roundtrip_lemma. Qed.

Lemma C90_vecarr_refuted_proof : exists z, PgSpec.fits 16 z = true /\ forall t old, exists f g,
  Int2VectorArrayToFloats t (Some (array_out [Some (vector_out [z])])) old = Ok (Some [Some [f]; Some [g]]).
Proof. exact C90_vecarr_refuted_lemma. Qed.
