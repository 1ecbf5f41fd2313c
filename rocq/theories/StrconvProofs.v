(** Lemmas about the strconv / hex models. *)
From Coq Require Import Ascii String ZArith NArith Bool List Lia.
From Verif Require Import GoBase Strconv.
Import ListNotations.
Local Open Scope N_scope.

Lemma digit_val_char : forall d, d < 36 -> digit_val (digit_char d) = Some d.
Proof.
  intros d H.
  assert (E : forallb (fun d => match digit_val (digit_char d) with Some x => N.eqb x d | None => false end)
                (map N.of_nat (seq 0 36)) = true) by (vm_compute; reflexivity).
  rewrite forallb_forall in E.
  assert (I : In d (map N.of_nat (seq 0 36))).
  { apply in_map_iff. exists (N.to_nat d). split. lia. apply in_seq. lia. }
  specialize (E _ I). destruct (digit_val (digit_char d)); [|discriminate].
  apply N.eqb_eq in E. now subst.
Qed.

Lemma parse_digits_app : forall b s t acc,
  parse_digits b acc (s ++ t) =
  match parse_digits b acc s with Some n => parse_digits b n t | None => None end.
Proof.
  induction s as [|c s IH]; intros; simpl; auto.
  destruct (digit_val c); auto. destruct (n <? b); auto.
Qed.

Lemma digs_value : forall fuel b n acc,
  2 <= b -> b <= 36 -> n < 2 ^ N.of_nat fuel ->
  fuel <> O ->
  parse_digits b 0 (digs fuel b n acc) = parse_digits b n acc.
Proof.
  induction fuel as [|f IH]; intros b n acc Hb Hb2 Hn Hf. congruence.
  simpl. pose proof (N.mod_lt n b ltac:(lia)) as Hm.
  pose proof (N.div_mod n b ltac:(lia)) as Hd.
  destruct (n / b =? 0) eqn:E.
  - apply N.eqb_eq in E. cbn [parse_digits]. rewrite digit_val_char by lia.
    assert (n mod b <? b = true) as -> by (apply N.ltb_lt; lia).
    f_equal. lia.
  - apply N.eqb_neq in E.
    assert (Hlt : n / b < 2 ^ N.of_nat f).
    { apply N.div_lt_upper_bound; [lia|].
      rewrite Nnat.Nat2N.inj_succ, N.pow_succ_r' in Hn. eapply N.lt_le_trans; [exact Hn|]. apply N.mul_le_mono_r; lia. }
    rewrite IH; auto.
    + cbn [parse_digits]. rewrite digit_val_char by lia.
      assert (n mod b <? b = true) as -> by (apply N.ltb_lt; lia).
      f_equal. lia.
    + intros ->. apply E, N.lt_1_r, Hlt.
Qed.

Lemma log2_fuel : forall n, n < 2 ^ N.of_nat (S (N.to_nat (N.log2 n))).
Proof.
  intros. rewrite Nnat.Nat2N.inj_succ, Nnat.N2Nat.id.
  destruct (N.eq_dec n 0) as [->|]. simpl; lia.
  apply N.log2_spec; lia.
Qed.

Lemma format_uint_value : forall b n, 2 <= b -> b <= 36 ->
  parse_digits b 0 (format_uint b n) = Some n.
Proof.
  intros. unfold format_uint. rewrite digs_value; auto. apply log2_fuel.
Qed.

Lemma digs_app : forall fuel b n acc, exists p, digs (S fuel) b n acc = p ++ acc /\ p <> [].
Proof.
  induction fuel as [|f IH]; intros.
  - simpl. destruct (n / b =? 0); exists [digit_char (n mod b)]; split; auto; discriminate.
  - remember (S f) as sf. cbn [digs]. destruct (n / b =? 0).
    + exists [digit_char (n mod b)]; split; auto; discriminate.
    + subst. destruct (IH b (n / b) (digit_char (n mod b) :: acc)) as [p [E N]].
      rewrite E. exists (p ++ [digit_char (n mod b)]). rewrite <- app_assoc. split; auto.
      intro X. apply app_eq_nil in X. destruct X. discriminate.
Qed.

Lemma format_uint_nonempty : forall b n, format_uint b n <> [].
Proof.
  intros. unfold format_uint. destruct (digs_app (N.to_nat (N.log2 n)) b n []) as [p [E N]].
  rewrite E. rewrite app_nil_r. auto.
Qed.

(** All characters of a formatted number are digits of the base. *)
Lemma digs_chars : forall (P : ascii -> Prop) fuel b n acc,
  2 <= b ->
  (forall d, d < b -> P (digit_char d)) -> Forall P acc -> Forall P (digs fuel b n acc).
Proof.
  induction fuel as [|f IH]; intros b n acc Hb HP HA; simpl; auto.
  assert (P (digit_char (n mod b))) by (apply HP, N.mod_lt; lia).
  destruct (n / b =? 0); [constructor; auto|]. apply IH; auto.
Qed.

Lemma format_uint_chars : forall (P : ascii -> Prop) b n, 2 <= b ->
  (forall d, d < b -> P (digit_char d)) -> Forall P (format_uint b n).
Proof. intros. apply digs_chars; auto. Qed.

(** Characters that occur in decimal integers. *)
Definition numchar (c : ascii) : bool :=
  Ascii.eqb c "-" || ((48 <=? N_of_ascii c) && (N_of_ascii c <=? 57)).

Lemma numchar_digit : forall d, d < 10 -> numchar (digit_char d) = true.
Proof.
  intros d H.
  assert (E : forallb (fun d => numchar (digit_char d)) (map N.of_nat (seq 0 10)) = true)
    by (vm_compute; reflexivity).
  rewrite forallb_forall in E. apply E. apply in_map_iff. exists (N.to_nat d).
  split. lia. apply in_seq. lia.
Qed.

Lemma format_int_numchar : forall z, Forall (fun c => numchar c = true) (format_int 10 z).
Proof.
  intros. unfold format_int. destruct (z <? 0)%Z.
  - constructor. reflexivity. apply format_uint_chars. lia. apply numchar_digit.
  - apply format_uint_chars. lia. apply numchar_digit.
Qed.

Lemma format_uint_numchar : forall n, Forall (fun c => numchar c = true) (format_uint 10 n).
Proof. intros. apply format_uint_chars. lia. apply numchar_digit. Qed.

Lemma format_int_nonempty : forall b z, format_int b z <> [].
Proof.
  intros. unfold format_int. destruct (z <? 0)%Z. discriminate. apply format_uint_nonempty.
Qed.

Lemma parse_uint_format : forall b bits n, 2 <= b -> b <= 36 ->
  parse_uint b bits (format_uint b n) = if n <? 2 ^ bits then Ok n else Err.
Proof.
  intros. unfold parse_uint. pose proof (format_uint_nonempty b n).
  destruct (format_uint b n) eqn:E. congruence.
  rewrite <- E, format_uint_value; auto.
Qed.

Lemma digit_char_not_sign : forall d, d < 36 ->
  Ascii.eqb (digit_char d) "+" = false /\ Ascii.eqb (digit_char d) "-" = false.
Proof.
  intros d H.
  assert (E : forallb (fun d => negb (Ascii.eqb (digit_char d) "+") && negb (Ascii.eqb (digit_char d) "-"))
     (map N.of_nat (seq 0 36)) = true) by (vm_compute; reflexivity).
  rewrite forallb_forall in E.
  assert (I : In d (map N.of_nat (seq 0 36))).
  { apply in_map_iff. exists (N.to_nat d). split. lia. apply in_seq. lia. }
  specialize (E _ I). apply andb_true_iff in E. rewrite !negb_true_iff in E. auto.
Qed.

Lemma format_uint_not_sign : forall b n c r, 2 <= b -> b <= 36 ->
  format_uint b n = c :: r -> Ascii.eqb c "+" = false /\ Ascii.eqb c "-" = false.
Proof.
  intros b n c r H H' E.
  assert (F : Forall (fun c => Ascii.eqb c "+" = false /\ Ascii.eqb c "-" = false) (format_uint b n)).
  { apply format_uint_chars; auto. intros. apply digit_char_not_sign. lia. }
  rewrite E in F. inversion F; auto.
Qed.

(** ParseInt of a formatted integer succeeds with that integer exactly when it
    is in range, and is an error otherwise. *)
Lemma parse_int_format : forall b bits z, 2 <= b -> b <= 36 -> 1 <= bits ->
  parse_int b bits (format_int b z) =
  if ((- 2 ^ Z.of_N (bits - 1) <=? z) && (z <? 2 ^ Z.of_N (bits - 1)))%Z then Ok z else Err.
Proof.
  intros b bits z H H' Hb.
  assert (Epow : (2 ^ Z.of_N (bits - 1) = Z.of_N (2 ^ (bits - 1)))%Z)
    by (rewrite N2Z.inj_pow; reflexivity).
  assert (Epow2 : 2 ^ bits = 2 * 2 ^ (bits - 1)).
  { rewrite <- N.pow_succ_r'. f_equal. lia. }
  assert (Ppos : 0 < 2 ^ (bits - 1)) by (apply N.neq_0_lt_0, N.pow_nonzero; lia).
  rewrite Epow. unfold parse_int, format_int.
  destruct (z <? 0)%Z eqn:Ez.
  - apply Z.ltb_lt in Ez. simpl (Ascii.eqb "-" "+"). simpl (Ascii.eqb "-" "-"). cbv iota.
    rewrite parse_uint_format; auto.
    destruct (Z.to_N (- z) <? 2 ^ bits) eqn:E1; cbn [bind negb andb].
    + destruct (2 ^ (bits - 1) <? Z.to_N (- z)) eqn:E2.
      * apply N.ltb_lt in E2.
        assert ((- Z.of_N (2 ^ (bits - 1)) <=? z)%Z = false) as -> by (apply Z.leb_gt; lia).
        reflexivity.
      * apply N.ltb_ge in E2.
        assert ((- Z.of_N (2 ^ (bits - 1)) <=? z)%Z = true) as -> by (apply Z.leb_le; lia).
        assert ((z <? Z.of_N (2 ^ (bits - 1)))%Z = true) as -> by (apply Z.ltb_lt; lia).
        simpl. f_equal. lia.
    + apply N.ltb_ge in E1.
      assert ((- Z.of_N (2 ^ (bits - 1)) <=? z)%Z = false) as -> by (apply Z.leb_gt; lia).
      reflexivity.
  - apply Z.ltb_ge in Ez.
    assert ((- Z.of_N (2 ^ (bits - 1)) <=? z)%Z = true) as -> by (apply Z.leb_le; lia).
    destruct (format_uint b (Z.to_N z)) as [|c r] eqn:E0.
    { exfalso. eapply format_uint_nonempty; eauto. }
    destruct (format_uint_not_sign _ _ _ _ H H' E0) as [-> ->].
    rewrite <- E0, parse_uint_format; auto.
    destruct (Z.to_N z <? 2 ^ bits) eqn:E1; cbn [bind negb andb].
    + destruct (2 ^ (bits - 1) <=? Z.to_N z) eqn:E2.
      * apply N.leb_le in E2.
        assert ((z <? Z.of_N (2 ^ (bits - 1)))%Z = false) as -> by (apply Z.ltb_ge; lia). reflexivity.
      * apply N.leb_gt in E2.
        assert ((z <? Z.of_N (2 ^ (bits - 1)))%Z = true) as -> by (apply Z.ltb_lt; lia).
        simpl. f_equal. lia.
    + apply N.ltb_ge in E1.
      assert ((z <? Z.of_N (2 ^ (bits - 1)))%Z = false) as -> by (apply Z.ltb_ge; lia). reflexivity.
Qed.

(** ParseUint on the text of a signed integer: negative text is an error. *)
Lemma parse_uint_format_int : forall bits z,
  parse_uint 10 bits (format_int 10 z) =
  if (0 <=? z)%Z && (z <? 2 ^ Z.of_N bits)%Z then Ok (Z.to_N z) else Err.
Proof.
  intros. unfold format_int. destruct (z <? 0)%Z eqn:E.
  - apply Z.ltb_lt in E. assert ((0 <=? z)%Z = false) as -> by (apply Z.leb_gt; lia). reflexivity.
  - apply Z.ltb_ge in E. assert ((0 <=? z)%Z = true) as -> by (apply Z.leb_le; lia).
    rewrite parse_uint_format by lia. cbn [andb].
    assert (Epow : (2 ^ Z.of_N bits = Z.of_N (2 ^ bits))%Z) by (rewrite N2Z.inj_pow; reflexivity).
    rewrite Epow. destruct (Z.to_N z <? 2 ^ bits) eqn:E1.
    + apply N.ltb_lt in E1. assert ((z <? Z.of_N (2 ^ bits))%Z = true) as -> by (apply Z.ltb_lt; lia). reflexivity.
    + apply N.ltb_ge in E1. assert ((z <? Z.of_N (2 ^ bits))%Z = false) as -> by (apply Z.ltb_ge; lia). reflexivity.
Qed.

(** hex *)
Lemma hex_byte_decode : forall c r, hex_decode (hex_byte c ++ r) = bind (hex_decode r) (fun t => Ok (c :: t)).
Proof.
  intros. unfold hex_byte. cbn [app hex_decode].
  assert (N_of_ascii c < 256) by apply N_ascii_bounded.
  assert (N_of_ascii c / 16 < 16) by (apply N.div_lt_upper_bound; lia).
  assert (N_of_ascii c mod 16 < 16) by (apply N.mod_lt; lia).
  unfold hex_val. rewrite !digit_val_char by lia.
  assert (N_of_ascii c / 16 <? 16 = true) as -> by (apply N.ltb_lt; lia).
  assert (N_of_ascii c mod 16 <? 16 = true) as -> by (apply N.ltb_lt; lia).
  replace (N_of_ascii c / 16 * 16 + N_of_ascii c mod 16) with (N_of_ascii c).
  now rewrite ascii_N_embedding.
  rewrite (N.div_mod (N_of_ascii c) 16) at 1; lia.
Qed.

Lemma hex_roundtrip : forall a, hex_decode (hex_encode a) = Ok a.
Proof.
  induction a as [|c a IH]. reflexivity.
  unfold hex_encode in *. cbn [flat_map]. rewrite hex_byte_decode, IH. reflexivity.
Qed.

Definition hexchar (c : ascii) : bool :=
  ((48 <=? N_of_ascii c) && (N_of_ascii c <=? 57)) || ((97 <=? N_of_ascii c) && (N_of_ascii c <=? 102)).

Lemma hexchar_digit : forall d, d < 16 -> hexchar (digit_char d) = true.
Proof.
  intros d H.
  assert (E : forallb (fun d => hexchar (digit_char d)) (map N.of_nat (seq 0 16)) = true)
    by (vm_compute; reflexivity).
  rewrite forallb_forall in E. apply E. apply in_map_iff. exists (N.to_nat d).
  split. lia. apply in_seq. lia.
Qed.

Lemma hex_encode_chars : forall a, Forall (fun c => hexchar c = true) (hex_encode a).
Proof.
  induction a as [|c a IH]; unfold hex_encode; cbn [flat_map]. constructor.
  apply Forall_app. split; [|apply IH].
  pose proof (N_ascii_bounded c).
  repeat constructor; apply hexchar_digit. apply N.div_lt_upper_bound; lia. apply N.mod_lt; lia.
Qed.

Lemma hex_encode_length : forall a, List.length (hex_encode a) = (2 * List.length a)%nat.
Proof.
  induction a as [|c a IH]. reflexivity.
  change (hex_encode (c :: a)) with (hex_byte c ++ hex_encode a).
  rewrite app_length, IH. simpl. lia.
Qed.
