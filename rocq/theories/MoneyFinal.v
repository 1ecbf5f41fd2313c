(** Definitions and proofs used by PropsMoney.v. *)
From Coq Require Import Ascii String ZArith NArith Bool List Lia.
From Verif Require Import GoBase Strconv StrconvProofs ConvertUtil ConvertProofs Codecs MoneyCodecs PgSpec PgSpecProofs TextProofs SimpleProofs DecimalLink IntProofs BitProofs MoneyProofs.
Import ListNotations.
Local Open Scope Z_scope.

Lemma C19_rounding_model_proof : forall p q, 0 <= p -> 0 < q ->
  (exists m e, 0 <= e /\ Z.abs m < 2 ^ 53 /\ rn p q = m * 2 ^ e) /\
  forall m e, 0 <= e -> Z.abs m < 2 ^ 53 ->
    Z.abs (rn p q * q - p * scale) <= Z.abs (m * 2 ^ e * q - p * scale).
Proof.
  intros p q P Q. split. now apply rn_representable. intros m e E M. apply rn_nearest; auto. exists m, e. auto.
Qed.

Lemma C19_server_reads_proof : forall v, Z.abs v < 2 ^ 52 ->
  exists t, MoneyFromInt64 v = Some t /\ money_in t = Some v.
Proof. intros v V. eexists. split. reflexivity. now apply money_in_enc. Qed.

Lemma C19_large_refuted_proof : exists v t, - 2 ^ 63 <= v < 2 ^ 63 /\
  MoneyFromInt64 v = Some t /\ money_in t = Some (v - 1).
Proof. exists (2 ^ 53 + 1). eexists. split. lia. split. reflexivity. vm_compute. reflexivity. Qed.

Lemma C19_roundtrip_proof : forall v old, Z.abs v < 2 ^ 52 ->
  exists r, MoneyToInt64 (MoneyFromInt64 v) old = Ok r /\ (r = v \/ v <> 0 /\ r = v - Z.sgn v).
Proof. intros v old V. exact (dec_enc_money v V). Qed.

Lemma C19_roundtrip_refuted_proof : forall old,
  MoneyToInt64 (MoneyFromInt64 29) old = Ok 28 /\ MoneyToInt64 (MoneyFromInt64 (-29)) old = Ok (-28).
Proof. intros old. split; vm_compute; reflexivity. Qed.

Lemma C19_scan_small_proof : forall v old, 0 <= v < 100000 ->
  exists r, MoneyToInt64 (Some (money_out v)) old = Ok r /\ (r = v \/ v <> 0 /\ r = v - 1).
Proof.
  intros v old V. rewrite money_out_small by auto.
  destruct (dec_cents "$" v ltac:(lia)) as (r & E & H).
  replace (v <? 0) with false in E by (symmetry; apply Z.ltb_ge; lia). rewrite Z.abs_eq in E by lia.
  exists r. split. exact E. destruct H as [->|[N ->]]; auto. right. split; auto. rewrite Z.sgn_pos by lia. reflexivity.
Qed.

Lemma C19_scan_large_refuted_proof : forall v old, 100000 <= v -> MoneyToInt64 (Some (money_out v)) old = Err.
Proof.
  intros v old V. destruct (money_out_large v V) as (t & -> & I). unfold MoneyToInt64, srcbytes, dec_money.
  rewrite (parse_float_bad t ","%char) by (auto; discriminate || reflexivity). reflexivity.
Qed.

Lemma C19_scan_negative_refuted_proof : forall v old, v < 0 -> MoneyToInt64 (Some (money_out v)) old = Err.
Proof.
  intros v old V. destruct (money_out_negative v V) as (t & ->). unfold MoneyToInt64, srcbytes, dec_money.
  rewrite (parse_float_bad ("$"%char :: t) "$"%char) by (now left || discriminate || reflexivity). reflexivity.
Qed.

Lemma fmt_cents_chars : forall neg r c, 0 <= r -> In c (fmt_cents neg r) -> dec_char c \/ c = "-"%char \/ c = "."%char.
Proof.
  intros neg r c R I. rewrite fmt_cents_text in I. apply in_app_or in I. destruct I as [I|I].
  - destruct neg; [|destruct I]. destruct I as [<-|[]]. auto.
  - unfold cents_text in I. apply in_app_or in I. destruct I as [I|I].
    + left. pose proof (format_dec (Z.to_N (r / 100))) as F. rewrite Forall_forall in F. now apply F.
    + pose proof (Z.mod_pos_bound (r / 10) 10 ltac:(lia)). pose proof (Z.mod_pos_bound r 10 ltac:(lia)).
      destruct I as [<-|[<-|[<-|[]]]]; auto; left; apply dec_char_digit; lia.
Qed.

Lemma money_chars : forall neg r c, 0 <= r -> In c ("$"%char :: fmt_cents neg r) -> pg_special c = false /\ c <> ","%char.
Proof.
  intros neg r c R [<-|I]. { split; [reflexivity|discriminate]. }
  apply fmt_cents_chars in I; auto. destruct I as [(d & V & D)|[->| ->]]; try (split; [reflexivity|discriminate]).
  split. 2:{ apply (dec_char_spec c d V D). }
  destruct (pg_special c) eqn:E; auto. exfalso.
  assert (forallb (fun n => let c := ascii_of_N (N.of_nat n) in negb (pg_special c) || match digit_val c with Some _ => false | None => true end) (seq 0 256) = true) as F by (vm_compute; reflexivity).
  rewrite forallb_forall in F. specialize (F (N.to_nat (N_of_ascii c))).
  assert (In (N.to_nat (N_of_ascii c)) (seq 0 256)) as J. { apply in_seq. pose proof (N_ascii_bounded c). lia. }
  apply F in J. cbv zeta in J. rewrite N2Nat.id, ascii_N_embedding, V, E in J. discriminate.
Qed.

Lemma money_needs : forall neg r, 0 <= r -> needs_quotes ("$"%char :: fmt_cents neg r) = false.
Proof.
  intros neg r R. unfold needs_quotes. apply orb_false_iff. split.
  - unfold is_null_word. destruct (list_eq_dec _ _ _) as [E|]; auto. discriminate.
  - apply not_true_is_false. intros E. apply existsb_exists in E. destruct E as (c & I & P).
    apply money_chars in I; auto. destruct I. congruence.
Qed.

Lemma money_array_text : forall l, Forall (fun v => Z.abs v < 2 ^ 52) l ->
  MoneyArrayFromInt64Slice (Some l) = Some (array_out (map (fun v => Some (enc_money v)) l)) /\
  pgParseCommaArray (array_out (map (fun v => Some (enc_money v)) l)) = Ok (map enc_money l).
Proof.
  intros l F. rewrite Forall_forall in F.
  assert (forall v, In v l -> elem_out (Some (enc_money v)) = enc_money v) as E.
  { intros v I. rewrite enc_money_spec by auto. apply elem_out_plain, money_needs. lia. }
  split.
  - apply (arr_value_out enc_money (fun v => Some (enc_money v))). exact E.
  - rewrite array_out_comma.
    + f_equal. rewrite map_map. now apply map_ext_in.
    + intros v I. rewrite E by auto.
      rewrite enc_money_spec by auto. split; [|discriminate]. intros J. apply money_chars in J; [|lia]. now destruct J.
Qed.

Lemma dec_enc_list : forall l, Forall (fun v => Z.abs v < 2 ^ 52) l ->
  exists rs, mapM dec_money (map enc_money l) = Ok rs /\ Forall2 one_cent l rs.
Proof.
  induction 1 as [|v l V F IH]. exists []. split; auto. destruct IH as (rs & E & H).
  destruct (dec_enc_money v V) as (r & E1 & H1). exists (r :: rs). cbn [map mapM]. rewrite E1. cbn [bind]. rewrite E. split; auto.
Qed.

Lemma C19_arrays_proof : forall l old, Forall (fun v => Z.abs v < 2 ^ 52) l ->
  (exists t ts, MoneyArrayFromInt64Slice (Some l) = Some t /\ array_in t = Some (map Some ts) /\
                map money_in ts = map Some l) /\
  exists rs, MoneyArrayToInt64Slice (MoneyArrayFromInt64Slice (Some l)) old = Ok (Some rs) /\
             Forall2 (fun v r => r = v \/ v <> 0 /\ r = v - Z.sgn v) l rs.
Proof.
  intros l old F. destruct (money_array_text l F) as [T P]. split.
  - exists (array_out (map (fun v => Some (enc_money v)) l)), (map enc_money l). split; auto. split.
    + rewrite array_in_out. f_equal. now rewrite map_map.
    + rewrite map_map. apply map_ext_in. intros v I. rewrite Forall_forall in F. now apply money_in_enc, F.
  - destruct (dec_enc_list l F) as (rs & E & H). exists rs. split; auto.
    rewrite T. unfold MoneyArrayToInt64Slice, arr_scan, srcbytes. rewrite P. unfold rmap. cbn [bind]. now rewrite E.
Qed.

Lemma C19_array_scan_refuted_proof : forall old,
  MoneyArrayToInt64Slice (Some (array_out [Some (money_out 123456)])) old = Err /\
  MoneyArrayToInt64Slice (Some (array_out [Some (money_out (-5))])) old = Err /\
  MoneyArrayToInt64Slice (Some (array_out [None])) old = Err.
Proof. intros old. conjs; vm_compute; reflexivity. Qed.
