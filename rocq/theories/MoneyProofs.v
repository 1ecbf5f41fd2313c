(** Proofs about binary64 rounding and the money codecs. *)
From Coq Require Import Ascii String ZArith NArith Bool List Lia.
From Verif Require Import GoBase Strconv StrconvProofs ConvertUtil ConvertProofs Codecs MoneyCodecs PgSpec PgSpecProofs TextProofs SimpleProofs DecimalLink IntProofs.
Import ListNotations.
Local Open Scope Z_scope.

(** *** rounding *)
Lemma rne_div_bounds : forall p q, 0 <= p -> 0 < q ->
  2 * Z.abs (rne_div p q * q - p) <= q.
Proof.
  intros p q P Q. unfold rne_div. pose proof (Z.div_mod p q ltac:(lia)) as D. pose proof (Z.mod_pos_bound p q Q).
  set (a := p / q) in *. set (r := p mod q) in *.
  destruct (Z.ltb_spec (2 * r) q). nia.
  destruct (Z.ltb_spec q (2 * r)). nia. destruct (Z.even a); nia.
Qed.

Lemma rne_div_near : forall p q a, 0 <= p -> 0 < q -> 2 * Z.abs (a * q - p) < q -> rne_div p q = a.
Proof. intros p q a P Q H. pose proof (rne_div_bounds p q P Q). assert (2 * Z.abs ((rne_div p q - a) * q) < 2 * q) by lia. nia. Qed.

Lemma rne_div_choice : forall p q, rne_div p q = p / q \/ rne_div p q = p / q + 1.
Proof. intros. unfold rne_div. destruct (_ <? _); auto. destruct (_ <? _); auto. destruct (Z.even _); auto. Qed.

Lemma last_bit_nonneg : forall x, 0 <= last_bit x.
Proof. intros. unfold last_bit. lia. Qed.

(** The float64 grid: [f] is representable. *)
Definition representable (f : Z) : Prop := exists m e, 0 <= e /\ Z.abs m < 2 ^ 53 /\ f = m * 2 ^ e.

Lemma last_bit_spec : forall x, 2 ^ 53 <= x ->
  2 ^ 52 * 2 ^ last_bit x <= x < 2 ^ 53 * 2 ^ last_bit x.
Proof.
  intros x H. unfold last_bit.
  assert (53 <= Z.log2 x). { replace 53 with (Z.log2 (2 ^ 53)) by reflexivity. apply Z.log2_le_mono. lia. }
  rewrite Z.max_r by lia. rewrite <- !Z.pow_add_r by lia. pose proof (Z.log2_spec x ltac:(lia)) as L.
  replace (52 + (Z.log2 x - 52)) with (Z.log2 x) by lia. replace (53 + (Z.log2 x - 52)) with (Z.succ (Z.log2 x)) by lia. exact L.
Qed.

Lemma last_bit_upper : forall x, 0 <= x -> x < 2 ^ 53 * 2 ^ last_bit x.
Proof.
  intros x H. destruct (Z.lt_ge_cases x (2 ^ 53)) as [L|L]. 2: apply last_bit_spec; lia.
  pose proof (last_bit_nonneg x). assert (1 <= 2 ^ last_bit x) by (change 1 with (2 ^ 0); apply Z.pow_le_mono_r; lia). nia.
Qed.

Lemma scale_pos : 0 < scale.
Proof. unfold scale. apply Z.pow_pos_nonneg; lia. Qed.

Lemma scale_eq : scale = 2 ^ 1074.
Proof. reflexivity. Qed.

Global Opaque scale.

Lemma scale_big : 2 ^ 200 <= scale.
Proof. rewrite scale_eq. apply Z.pow_le_mono_r; lia. Qed.

(** [rn p q] is a float64 nearest to p/q. *)
Lemma rn_representable : forall p q, 0 <= p -> 0 < q -> representable (rn p q).
Proof.
  intros p q P Q. unfold rn. pose proof scale_pos as SP. set (t := p * scale). set (j := last_bit (t / q)).
  assert (0 <= j) by apply last_bit_nonneg. assert (0 < 2 ^ j) by (apply Z.pow_pos_nonneg; lia).
  assert (0 <= t) by nia. pose proof (Z.div_pos t q ltac:(lia) Q).
  assert (0 <= t / (q * 2 ^ j) < 2 ^ 53) as B.
  { rewrite <- Z.div_div by lia. split. apply Z.div_pos; lia.
    apply Z.div_lt_upper_bound; auto. rewrite Z.mul_comm. apply last_bit_upper. auto. }
  assert (0 <= rne_div t (q * 2 ^ j) <= 2 ^ 53) as B2. { destruct (rne_div_choice t (q * 2 ^ j)) as [-> | ->]; lia. }
  destruct (Z.eq_dec (rne_div t (q * 2 ^ j)) (2 ^ 53)) as [E|E].
  - exists 1, (53 + j). conjs; try lia. rewrite E, Z.pow_add_r by lia. lia.
  - exists (rne_div t (q * 2 ^ j)), j. conjs; try lia.
Qed.

Lemma rn_nearest : forall p q g, 0 <= p -> 0 < q -> representable g ->
  Z.abs (rn p q * q - p * scale) <= Z.abs (g * q - p * scale).
Proof.
  intros p q g P Q (m & e & E0 & M & ->). unfold rn. pose proof scale_pos as SP. set (t := p * scale). set (j := last_bit (t / q)).
  assert (0 <= j) by apply last_bit_nonneg. assert (0 < 2 ^ j) by (apply Z.pow_pos_nonneg; lia).
  assert (0 <= t) by nia. pose proof (Z.div_pos t q ltac:(lia) Q).
  pose proof (rne_div_bounds t (q * 2 ^ j) ltac:(lia) ltac:(nia)) as RB.
  set (d := 2 ^ j) in *. set (a := t / (q * d)).
  assert (a * (q * d) <= t < (a + 1) * (q * d)) as AB.
  { unfold a. pose proof (Z.div_mod t (q * d) ltac:(nia)). pose proof (Z.mod_pos_bound t (q * d) ltac:(nia)). nia. }
  assert (0 <= a) by (apply Z.div_pos; nia).
  (* no representable number strictly between a*d and (a+1)*d *)
  assert (m * 2 ^ e <= a * d \/ (a + 1) * d <= m * 2 ^ e) as OUT.
  { destruct (Z.le_gt_cases (m * 2 ^ e) (a * d)) as [L|L]; auto. right.
    assert (0 < 2 ^ e) by (apply Z.pow_pos_nonneg; lia).
    destruct (Z.le_gt_cases j e) as [JE|JE].
    - assert (2 ^ e = 2 ^ (e - j) * d) as E1. { unfold d. rewrite <- Z.pow_add_r by lia. f_equal. lia. }
      rewrite E1 in *. assert (a < m * 2 ^ (e - j)) by nia. nia.
    - exfalso. assert (2 ^ 52 <= a) as A52.
      { unfold a. rewrite <- Z.div_div by lia. apply Z.div_le_lower_bound; auto.
        rewrite Z.mul_comm. apply last_bit_spec. destruct (Z.le_gt_cases (2 ^ 53) (t / q)); auto.
        assert (j = 0); [|lia]. unfold j, last_bit. apply Z.max_l.
        assert (Z.log2 (t / q) < 53); [|lia]. destruct (Z.eq_dec (t / q) 0) as [Z0|Z0]. rewrite Z0. reflexivity.
        apply Z.log2_lt_pow2; lia. }
      assert (2 * 2 ^ e <= d). { unfold d. change 2 with (2 ^ 1) at 1. rewrite <- Z.pow_add_r by lia. apply Z.pow_le_mono_r; lia. }
      assert (0 < m) by nia. rewrite Z.abs_eq in M by lia.
      assert (2 ^ 53 * 2 ^ e <= 2 ^ 52 * d) by nia. nia. }
  set (x := rne_div t (q * d)) in *. 
  assert (x * d * q = x * (q * d)) as -> by ring.
  set (w := q * d) in *. assert (0 < w) by (unfold w; nia).
  assert (m * 2 ^ e * q <= a * w \/ (a + 1) * w <= m * 2 ^ e * q) as OUT2.
  { unfold w. destruct OUT; [left|right]; nia. }
  assert (x = a \/ x = a + 1) as [X|X] by apply rne_div_choice; rewrite X in *; destruct OUT2; lia.
Qed.

(** Relative error of the rounding. *)
Lemma rn_error : forall p q, 0 <= p -> 0 < q -> 2 ^ 53 <= p * scale / q ->
  2 ^ 53 * Z.abs (rn p q * q - p * scale) <= p * scale.
Proof.
  intros p q P Q L. pose proof scale_pos as SP. unfold rn. set (t := p * scale) in *. set (j := last_bit (t / q)).
  assert (0 <= j) by apply last_bit_nonneg. assert (0 < 2 ^ j) by (apply Z.pow_pos_nonneg; lia).
  assert (0 <= t) by nia.
  pose proof (rne_div_bounds t (q * 2 ^ j) ltac:(lia) ltac:(nia)) as RB.
  pose proof (last_bit_spec (t / q) L) as [LB _]. fold j in LB.
  assert (t / q * q <= t) by (pose proof (Z.mul_div_le t q Q); lia).
  replace (rne_div t (q * 2 ^ j) * 2 ^ j * q) with (rne_div t (q * 2 ^ j) * (q * 2 ^ j)) by ring.
  assert (2 ^ 52 * (q * 2 ^ j) <= t) by nia. lia.
Qed.

Lemma rn_nonneg : forall p q, 0 <= p -> 0 < q -> 0 <= rn p q.
Proof.
  intros p q P Q. pose proof scale_pos. unfold rn. apply Z.mul_nonneg_nonneg; [|apply Z.pow_nonneg; lia].
  assert (0 <= p * scale / (q * 2 ^ last_bit (p * scale / q))).
  { apply Z.div_pos. nia. apply Z.mul_pos_pos; auto. apply Z.pow_pos_nonneg. lia. apply last_bit_nonneg. }
  destruct (rne_div_choice (p * scale) (q * 2 ^ last_bit (p * scale / q))) as [-> | ->]; lia.
Qed.

(** Integers up to 2^53 are exact. *)
Lemma rn_exact : forall v, 0 <= v < 2 ^ 53 -> rn v 1 = v * scale.
Proof.
  intros v V. pose proof (rn_nearest v 1 (v * scale) ltac:(lia) ltac:(lia)) as H.
  assert (representable (v * scale)) as R. { exists v, 1074. rewrite scale_eq. conjs; lia. }
  apply H in R. rewrite !Z.mul_1_r, Z.sub_diag in R. change (Z.abs 0) with 0 in R. lia.
Qed.

(** The float64 nearest to v/100, computed by division or by parsing. *)
Definition cents_float (v h : Z) : Prop := 0 <= h /\ 2 ^ 53 * Z.abs (100 * h - v * scale) <= v * scale.

Lemma div100_cents : forall v, 0 <= v < 2 ^ 53 -> cents_float v (rn (v * scale) (100 * scale)).
Proof.
  intros v V. pose proof scale_big as SB. pose proof scale_pos as SP. split. apply rn_nonneg; nia.
  destruct (Z.eq_dec v 0) as [-> |N0].
  - pose proof (rn_nearest (0 * scale) (100 * scale) 0 ltac:(lia) ltac:(nia)) as H.
    assert (representable 0) as R by (exists 0, 0; conjs; lia). apply H in R. nia.
  - pose proof (rn_error (v * scale) (100 * scale) ltac:(nia) ltac:(nia)) as H.
    assert (2 ^ 53 <= v * scale * scale / (100 * scale)) as L.
    { apply Z.div_le_lower_bound; nia. }
    apply H in L. replace (rn (v * scale) (100 * scale) * (100 * scale) - v * scale * scale)
      with ((100 * rn (v * scale) (100 * scale) - v * scale) * scale) in L by ring.
    rewrite Z.abs_mul, (Z.abs_eq scale) in L by lia. nia.
Qed.

Lemma parse_cents : forall v, 0 <= v -> cents_float v (rn v 100).
Proof.
  intros v V. pose proof scale_big as SB. pose proof scale_pos as SP. split. apply rn_nonneg; lia.
  destruct (Z.eq_dec v 0) as [-> |N0].
  - pose proof (rn_nearest 0 100 0 ltac:(lia) ltac:(lia)) as H.
    assert (representable 0) as R by (exists 0, 0; conjs; lia). apply H in R. lia.
  - pose proof (rn_error v 100 ltac:(lia) ltac:(lia)) as H.
    assert (2 ^ 53 <= v * scale / 100) as L. { apply Z.div_le_lower_bound; nia. }
    apply H in L. rewrite (Z.mul_comm _ 100) in L. exact L.
Qed.

(** Printing with two decimals gives the exact cents. *)
Lemma cents_print : forall v h, 0 <= v < 2 ^ 52 -> cents_float v h -> rne_div (100 * h) scale = v.
Proof. intros v h V [H0 H]. pose proof scale_pos. apply rne_div_near; try lia. nia. Qed.

(** Multiplying by 100 and truncating may lose one cent. *)
Lemma cents_trunc : forall v h, 0 <= v < 2 ^ 52 -> cents_float v h ->
  let r := rn (h * 100) scale / scale in r = v \/ r = v - 1.
Proof.
  intros v h V [H0 H] r. pose proof scale_big as SB. pose proof scale_pos as SP.
  set (g := rn (h * 100) scale) in *.
  assert (2 ^ 53 * Z.abs (g - 100 * h) <= 100 * h) as G.
  { destruct (Z.eq_dec v 0) as [-> |N0].
    - assert (h = 0) as -> by lia. unfold g.
      pose proof (rn_nearest (0 * 100) scale 0 ltac:(lia) ltac:(lia)) as R0.
      assert (representable 0) as R by (exists 0, 0; conjs; lia). apply R0 in R. nia.
    - pose proof (rn_error (h * 100) scale ltac:(lia) ltac:(lia)) as E. rewrite Z.div_mul in E by lia.
      assert (2 ^ 53 <= h * 100) as L by nia. apply E in L. fold g in L.
      replace (g * scale - h * 100 * scale) with ((g - 100 * h) * scale) in L by ring.
      rewrite Z.abs_mul, (Z.abs_eq scale) in L by lia. nia. }
  assert (Z.abs (g - v * scale) < scale) as D.
  { assert (2 ^ 53 * (2 ^ 53 * Z.abs (g - v * scale)) < 2 ^ 53 * (2 ^ 53 * scale)); [|lia].
    assert (2 ^ 53 * Z.abs (g - v * scale) <= 100 * h + v * scale) by lia.
    assert (2 ^ 53 * (100 * h) <= (2 ^ 53 + 1) * (v * scale)) by lia.
    assert (2 ^ 53 * (2 ^ 53 * Z.abs (g - v * scale)) <= (2 ^ 54 + 1) * (v * scale)) by lia.
    assert (v * scale <= (2 ^ 52 - 1) * scale) by nia. lia. }
  unfold r. destruct (Z.le_gt_cases (v * scale) g).
  - left. symmetry. apply Z.div_unique with (g - v * scale); lia.
  - right. symmetry. apply Z.div_unique with (g - (v - 1) * scale); lia.
Qed.

(** *** the texts *)
Lemma cents_pos : forall v h, 0 < v -> cents_float v h -> 0 < h.
Proof. intros v h V [H0 H]. pose proof scale_pos. nia. Qed.

Lemma enc_money_spec : forall v, Z.abs v < 2 ^ 52 -> enc_money v = "$"%char :: fmt_cents (v <? 0) (Z.abs v).
Proof.
  intros v V. unfold enc_money. f_equal. unfold append_f2, f64_div100, f64_of_int, rns.
  pose proof scale_pos as SP.
  destruct (Z.ltb_spec v 0) as [L|L].
  - rewrite rn_exact by lia. replace (- (- v * scale) <? 0) with true by (symmetry; apply Z.ltb_lt; nia).
    replace (- - (- v * scale)) with (- v * scale) by lia.
    pose proof (div100_cents (- v) ltac:(lia)) as C. pose proof (cents_pos (- v) _ ltac:(lia) C) as CP.
    replace (- rn (- v * scale) (100 * scale) <? 0) with true by (symmetry; apply Z.ltb_lt; lia).
    rewrite Z.abs_opp, Z.abs_eq by lia. rewrite (cents_print (- v)) by (auto; lia). f_equal. lia.
  - rewrite rn_exact by lia. replace (v * scale <? 0) with false by (symmetry; apply Z.ltb_ge; apply Z.mul_nonneg_nonneg; lia).
    pose proof (div100_cents v ltac:(lia)) as C.
    replace (rn (v * scale) (100 * scale) <? 0) with false by (symmetry; apply Z.ltb_ge; apply C).
    rewrite Z.abs_eq by apply C. rewrite (cents_print v) by (auto; lia). f_equal. lia.
Qed.

Definition dec_char (c : ascii) : Prop := exists d, digit_val c = Some d /\ (d < 10)%N.

Lemma dec_char_digit : forall d, (d < 10)%N -> dec_char (digit_char d).
Proof. intros d D. exists d. split; auto. apply digit_val_char. lia. Qed.

Lemma dec_char_spec : forall c d, digit_val c = Some d -> (d < 10)%N ->
  digit_of c = Some (Z.of_N d) /\ c <> "."%char /\ c <> ","%char /\ c <> "-"%char /\ c <> "+"%char /\ c <> "$"%char.
Proof.
  intros c d V D.
  assert (forallb (fun n => match digit_val (ascii_of_N (N.of_nat n)) with
            | Some d => if (d <? 10)%N then match digit_of (ascii_of_N (N.of_nat n)) with Some z => Z.eqb z (Z.of_N d) | None => false end
                && negb (beq (ascii_of_N (N.of_nat n)) ".") && negb (beq (ascii_of_N (N.of_nat n)) ",")
                && negb (beq (ascii_of_N (N.of_nat n)) "-") && negb (beq (ascii_of_N (N.of_nat n)) "+") && negb (beq (ascii_of_N (N.of_nat n)) "$") else true
            | None => true end) (seq 0 256) = true) as F by (vm_compute; reflexivity).
  rewrite forallb_forall in F. specialize (F (N.to_nat (N_of_ascii c))).
  assert (In (N.to_nat (N_of_ascii c)) (seq 0 256)) as I. { apply in_seq. pose proof (N_ascii_bounded c). lia. }
  apply F in I. rewrite N2Nat.id, ascii_N_embedding, V in I. apply N.ltb_lt in D. rewrite D in I.
  rewrite !andb_true_iff, !negb_true_iff, !beq_neq in I.
  destruct I as [[[[[I1 I2] I3] I4] I5] I6]. destruct (digit_of c); [|discriminate]. apply Z.eqb_eq in I1. subst. conjs; auto.
Qed.

Lemma money_digits_app : forall s rest acc some n, Forall dec_char s -> parse_digits 10 (Z.to_N acc) s = Some n -> 0 <= acc ->
  money_digits acc some (s ++ rest) = money_digits (Z.of_N n) (some || negb (Nat.eqb (List.length s) 0)) rest.
Proof.
  induction s as [|c s IH]; intros rest acc some n F E A; cbn [app parse_digits] in *.
  - injection E as <-. rewrite orb_false_r, Z2N.id by lia. reflexivity.
  - inversion F as [|? ? (d & V & D) F']; subst. rewrite V in E. pose proof D as D'. apply N.ltb_lt in D'. rewrite D' in E.
    destruct (dec_char_spec c d V D) as (S1 & S2 & S3 & _). cbn [money_digits].
    destruct (ascii_dec c "."); [congruence|]. destruct (ascii_dec c ","); [congruence|]. rewrite S1.
    rewrite (IH rest _ true n); auto; try lia.
    + cbn [List.length Nat.eqb negb orb]. now rewrite orb_true_r.
    + replace (Z.to_N (acc * 10 + Z.of_N d)) with (Z.to_N acc * 10 + d)%N by lia. exact E.
Qed.

Lemma format_dec : forall n, Forall dec_char (format_uint 10 n).
Proof. intros. apply format_uint_chars. lia. apply dec_char_digit. Qed.

(** The numeral without its sign. *)
Definition cents_text (r : Z) : bytes :=
  (format_uint 10 (Z.to_N (r / 100)) ++ ["."%char; digit_char (Z.to_N (r / 10 mod 10)); digit_char (Z.to_N (r mod 10))])%list.

Lemma fmt_cents_text : forall neg r, fmt_cents neg r = ((if neg then ["-"%char] else []) ++ cents_text r)%list.
Proof. reflexivity. Qed.

Lemma digit_of_char : forall d, 0 <= d < 10 -> digit_of (digit_char (Z.to_N d)) = Some d.
Proof.
  intros d D. destruct (dec_char_spec (digit_char (Z.to_N d)) (Z.to_N d)) as (E & _).
  apply digit_val_char. lia. lia. rewrite E. f_equal. lia.
Qed.

Lemma cents_split : forall r, 0 <= r -> r = r / 100 * 100 + (r / 10) mod 10 * 10 + r mod 10.
Proof.
  intros r R. pose proof (Z.div_mod r 10 ltac:(lia)). pose proof (Z.div_mod (r / 10) 10 ltac:(lia)).
  rewrite Z.div_div in H0 by lia. change (10 * 10) with 100 in H0. lia.
Qed.

Lemma money_digits_cents : forall r, 0 <= r -> money_digits 0 false (cents_text r) = Some r.
Proof.
  intros r R. unfold cents_text. rewrite (money_digits_app _ _ 0 false (Z.to_N (r / 100))); auto using format_dec; try lia.
  2: apply format_uint_value; lia.
  pose proof (format_uint_nonempty 10 (Z.to_N (r / 100))) as NE.
  destruct (format_uint 10 (Z.to_N (r / 100))) as [|c t]; [congruence|]. cbn [List.length Nat.eqb negb orb].
  cbn [money_digits]. destruct (ascii_dec "." "."); [|congruence].
  pose proof (Z.mod_pos_bound (r / 10) 10 ltac:(lia)). pose proof (Z.mod_pos_bound r 10 ltac:(lia)).
  rewrite !digit_of_char by lia. f_equal. rewrite Z2N.id by (apply Z.div_pos; lia). pose proof (cents_split r R). lia.
Qed.

Lemma cents_head : forall r, exists c t, cents_text r = c :: t /\ c <> "$"%char /\ c <> "-"%char /\ c <> "+"%char.
Proof.
  intros r. unfold cents_text. pose proof (format_uint_nonempty 10 (Z.to_N (r / 100))) as NE.
  pose proof (format_dec (Z.to_N (r / 100))) as F. destruct (format_uint 10 (Z.to_N (r / 100))) as [|c t]; [congruence|].
  inversion F as [|? ? (d & V & D) _]; subst. destruct (dec_char_spec c d V D) as (_ & _ & _ & H1 & H2 & H3).
  cbn [app]. eauto 10.
Qed.

Lemma money_in_enc : forall v, Z.abs v < 2 ^ 52 -> money_in (enc_money v) = Some v.
Proof.
  intros v V. rewrite enc_money_spec by auto. rewrite fmt_cents_text. unfold money_in. cbn [skip_char].
  destruct (ascii_dec "$" "$"); [|congruence]. cbn [fst].
  destruct (cents_head (Z.abs v)) as (c & t & E & H1 & H2 & H3).
  destruct (Z.ltb_spec v 0).
  - cbn [app skip_char]. destruct (ascii_dec "-" "-"); [|congruence]. rewrite E. cbn [skip_char].
    destruct (ascii_dec c "$"); [congruence|]. cbn [fst]. rewrite <- E, money_digits_cents by lia. cbn [option_map]. f_equal. lia.
  - cbn [app]. rewrite E. cbn [skip_char]. destruct (ascii_dec c "-"); [congruence|]. cbn [skip_char].
    destruct (ascii_dec c "$"); [congruence|]. cbn [fst]. rewrite <- E, money_digits_cents by lia. cbn [option_map]. f_equal. lia.
Qed.

(** *** parsing *)
Lemma cut_point_dec : forall s t, Forall dec_char s -> cut_point (s ++ "."%char :: t) = (s, t).
Proof.
  induction s as [|c s IH]; intros t F; cbn [app cut_point]. reflexivity.
  inversion F as [|? ? (d & V & D) F']; subst. destruct (dec_char_spec c d V D) as (_ & H1 & _).
  rewrite (proj2 (beq_neq c ".") H1). now rewrite IH.
Qed.

Lemma parse_unsigned_cents : forall r, 0 <= r -> parse_unsigned_float (cents_text r) = Ok (rn r 100).
Proof.
  intros r R. unfold parse_unsigned_float, cents_text. rewrite cut_point_dec by apply format_dec.
  pose proof (format_uint_nonempty 10 (Z.to_N (r / 100))) as NE.
  destruct (format_uint 10 (Z.to_N (r / 100)) ++ [digit_char (Z.to_N (r / 10 mod 10)); digit_char (Z.to_N (r mod 10))])%list as [|c t] eqn:E.
  { destruct (format_uint 10 _); [congruence|discriminate]. }
  rewrite <- E, parse_digits_app, format_uint_value by lia. cbn [parse_digits].
  pose proof (Z.mod_pos_bound (r / 10) 10 ltac:(lia)). pose proof (Z.mod_pos_bound r 10 ltac:(lia)).
  rewrite !digit_val_char by lia.
  replace (Z.to_N (r / 10 mod 10) <? 10)%N with true by (symmetry; apply N.ltb_lt; lia).
  replace (Z.to_N (r mod 10) <? 10)%N with true by (symmetry; apply N.ltb_lt; lia).
  do 2 f_equal. pose proof (cents_split r R). pose proof (Z.div_pos r 100 R ltac:(lia)). lia.
Qed.

Lemma parse_float_cents : forall neg r, 0 <= r ->
  parse_float (fmt_cents neg r) = Ok (if neg then - rn r 100 else rn r 100).
Proof.
  intros neg r R. rewrite fmt_cents_text. destruct (cents_head r) as (c & t & E & H1 & H2 & H3). destruct neg.
  - cbn [app]. unfold parse_float. rewrite beq_refl. now rewrite parse_unsigned_cents.
  - cbn [app]. rewrite E. unfold parse_float. rewrite (proj2 (beq_neq c "-") H2), (proj2 (beq_neq c "+") H3).
    rewrite <- E. now apply parse_unsigned_cents.
Qed.

(** Amount read from the numeral of |v| cents: exact or one cent closer to 0. *)
Definition one_cent (v r : Z) : Prop := r = v \/ v <> 0 /\ r = v - Z.sgn v.

Lemma dec_cents : forall x v, Z.abs v < 2 ^ 52 ->
  exists r, dec_money (x :: fmt_cents (v <? 0) (Z.abs v)) = Ok r /\ one_cent v r.
Proof.
  intros x v V. unfold dec_money. rewrite parse_float_cents by lia. cbn [rmap bind].
  pose proof scale_pos as SP.
  pose proof (parse_cents (Z.abs v) ltac:(lia)) as C. pose proof (cents_trunc (Z.abs v) _ ltac:(lia) C) as T. cbv zeta in T.
  eexists. split. reflexivity. unfold int_of_f64, f64_mul100, rns. destruct C as [C0 _].
  set (h := rn (Z.abs v) 100) in *.
  assert (0 <= rn (h * 100) scale) as G by (apply rn_nonneg; lia).
  destruct (Z.ltb_spec v 0) as [L|L].
  - replace (- h * 100 <? 0) with true.
    + replace (- (- h * 100)) with (h * 100) by lia. rewrite Z.quot_opp_l, Z.quot_div_nonneg by lia.
      unfold one_cent. destruct T as [-> | ->]; [left; lia|right; split; [lia|]]. rewrite (Z.sgn_neg v L). lia.
    + symmetry. apply Z.ltb_lt. pose proof (cents_pos (Z.abs v) h ltac:(lia) (parse_cents (Z.abs v) ltac:(lia))). lia.
  - replace (h * 100 <? 0) with false by (symmetry; apply Z.ltb_ge; lia). rewrite Z.quot_div_nonneg by lia.
    unfold one_cent. destruct T as [-> | T]; [left; lia|]. destruct (Z.eq_dec v 0) as [->|N0].
    + left. change (Z.abs 0) with 0 in T. exfalso. assert (0 <= rn (h * 100) scale / scale) by (apply Z.div_pos; lia). lia.
    + right. split; auto. rewrite T, (Z.sgn_pos v) by lia. lia.
Qed.

Lemma dec_enc_money : forall v, Z.abs v < 2 ^ 52 -> exists r, dec_money (enc_money v) = Ok r /\ one_cent v r.
Proof. intros v V. rewrite enc_money_spec by auto. now apply dec_cents. Qed.

(** *** the server's rendering *)
Lemma parse_digits_bad : forall b s acc c, In c s -> digit_val c = None -> parse_digits b acc s = None.
Proof.
  induction s as [|x s IH]; intros acc c I V; [destruct I|]. cbn [parse_digits]. destruct I as [->|I].
  - now rewrite V.
  - destruct (digit_val x) as [d|]; auto. destruct (d <? b)%N; auto. eapply IH; eauto.
Qed.

Lemma cut_point_in : forall s c, In c s -> c <> "."%char -> In c (fst (cut_point s) ++ snd (cut_point s)).
Proof.
  induction s as [|x s IH]; intros c I N; [destruct I|]. cbn [cut_point]. unfold beq. destruct (Ascii.eqb_spec x "."%char) as [->|X].
  - destruct I as [E|I]; [congruence|]. exact I.
  - destruct (cut_point s) as [a b] eqn:E. cbn [fst snd app]. destruct I as [->|I]; [now left|]. right. now apply (IH c).
Qed.

Lemma parse_unsigned_bad : forall s c, In c s -> c <> "."%char -> digit_val c = None -> parse_unsigned_float s = Err.
Proof.
  intros s c I N V. unfold parse_unsigned_float. pose proof (cut_point_in s c I N) as J. destruct (cut_point s) as [a b].
  cbn [fst snd] in J. destruct (a ++ b)%list eqn:E. reflexivity. rewrite <- E in *. now rewrite (parse_digits_bad 10 _ 0%N c J V).
Qed.

Lemma parse_float_bad : forall s c, In c s -> c <> "."%char -> c <> "-"%char -> c <> "+"%char -> digit_val c = None ->
  parse_float s = Err.
Proof.
  intros s c I N1 N2 N3 V. unfold parse_float, beq. destruct s as [|x s]; auto.
  destruct (Ascii.eqb_spec x "-"%char) as [->|X1]. { destruct I as [E|I]; [congruence|]. now rewrite (parse_unsigned_bad s c). }
  destruct (Ascii.eqb_spec x "+"%char) as [->|X2]. { destruct I as [E|I]; [congruence|]. now rewrite (parse_unsigned_bad s c). }
  now apply (parse_unsigned_bad _ c).
Qed.

Lemma thousands_short : forall d, (List.length d <= 3)%nat -> nochar ","%char d -> thousands d = d.
Proof.
  intros d L N. unfold thousands. destruct d as [|a [|b [|c [|e d]]]]; cbn [List.length] in L; try lia; try reflexivity;
    cbn [rev app group3]; try (destruct (ascii_dec a ","); [subst; exfalso; apply N; now left|]).
  - destruct a as [[] [] [] [] [] [] [] []]; try reflexivity; congruence.
  - destruct a as [[] [] [] [] [] [] [] []]; try reflexivity; congruence.
Qed.

Lemma thousands_comma : forall d, (4 <= List.length d)%nat -> In ","%char (thousands d).
Proof.
  intros d L. unfold thousands. rewrite <- (rev_length d) in L. unfold text in *.
  destruct (rev d) as [|a [|b [|c [|e r]]]]; cbn [List.length] in L; try lia.
  cbn [group3]. apply in_rev. rewrite rev_involutive.
  set (t := group3 1 r). clearbody t.
  assert (forall u, In ","%char (a :: b :: c :: ","%char :: e :: u)) as IN by (intros; simpl; tauto).
  destruct (rev (a :: b :: c :: ","%char :: e :: t)) as [|x u] eqn:E; [apply IN|].
  destruct (ascii_dec x ",") as [->|X].
  - apply (f_equal (@rev ascii)) in E. rewrite rev_involutive in E. cbn [rev] in E.
    assert (In ","%char (rev u)); auto.
    destruct (rev u) as [|x1 [|x2 [|x3 [|x4 w]]]] eqn:U; try discriminate; injection E as; try subst; simpl; try tauto.
  - destruct x as [[] [] [] [] [] [] [] []]; try apply IN; congruence.
Qed.

Lemma parse_digits_bound : forall s acc n, parse_digits 10 acc s = Some n -> (n < (acc + 1) * 10 ^ N.of_nat (List.length s))%N.
Proof.
  induction s as [|c s IH]; intros acc n E; cbn [parse_digits] in E.
  - injection E as <-. cbn [List.length N.of_nat]. rewrite N.pow_0_r. lia.
  - destruct (digit_val c) as [d|]; [|discriminate]. destruct (N.ltb_spec d 10); [|discriminate].
    apply IH in E. cbn [List.length]. rewrite Nat2N.inj_succ, N.pow_succ_r'. nia.
Qed.

Lemma digs_length : forall fuel n acc k, (n < 10 ^ N.of_nat k)%N -> (0 < k)%nat ->
  (List.length (digs fuel 10 n acc) <= k + List.length acc)%nat.
Proof.
  induction fuel as [|f IH]; intros n acc k L K; cbn [digs]. lia.
  destruct (N.eqb_spec (n / 10) 0). cbn [List.length]. lia.
  destruct k as [|[|k]]; try lia.
  - exfalso. change (10 ^ N.of_nat 1)%N with 10%N in L. apply n0. now apply N.div_small.
  - etransitivity. apply IH with (k := S k); try lia.
    + apply N.div_lt_upper_bound. lia. rewrite Nat2N.inj_succ, N.pow_succ_r' in L. exact L.
    + cbn [List.length]. lia.
Qed.

Lemma int_out_dec : forall z, 0 <= z -> int_out z = format_uint 10 (Z.to_N z).
Proof. intros z H. rewrite <- format_int_spec. unfold format_int. destruct (Z.ltb_spec z 0); [lia|]. reflexivity. Qed.

Lemma dec_nocomma : forall s, Forall dec_char s -> nochar ","%char s.
Proof.
  intros s F I. rewrite Forall_forall in F. apply F in I. destruct I as (d & V & D). apply dec_char_spec in V; auto.
  destruct V as (_ & _ & H & _). congruence.
Qed.

Lemma dec_digit_char : forall d, 0 <= d < 10 -> dec_digit d = digit_char (Z.to_N d).
Proof. intros d D. unfold dec_digit, digit_char. destruct (N.ltb_spec (Z.to_N d) 10); [reflexivity|lia]. Qed.

Lemma money_out_small : forall v, 0 <= v < 100000 -> money_out v = "$"%char :: fmt_cents false v.
Proof.
  intros v V. unfold money_out. destruct (Z.ltb_spec v 0); [lia|]. cbn [app]. f_equal. rewrite Z.abs_eq by lia.
  rewrite fmt_cents_text. cbn [app]. unfold cents_text.
  rewrite !dec_digit_char by (apply Z.mod_pos_bound; lia). f_equal.
  pose proof (Z.div_pos v 100 ltac:(lia) ltac:(lia)). rewrite int_out_dec by lia.
  apply thousands_short.
  - unfold format_uint. change 3%nat with (3 + List.length (@nil ascii))%nat. apply digs_length; [|lia].
    change (10 ^ N.of_nat 3)%N with 1000%N. assert (v / 100 < 1000) by (apply Z.div_lt_upper_bound; lia). lia.
  - apply dec_nocomma, format_dec.
Qed.

Lemma money_out_large : forall v, 100000 <= v -> exists t, money_out v = "$"%char :: t /\ In ","%char t.
Proof.
  intros v V. unfold money_out. destruct (Z.ltb_spec v 0); [lia|]. cbn [app]. eexists. split. reflexivity.
  apply in_or_app. left. apply thousands_comma. rewrite Z.abs_eq by lia.
  assert (1000 <= v / 100) by (apply Z.div_le_lower_bound; lia). rewrite int_out_dec by lia.
  pose proof (format_uint_value 10 (Z.to_N (v / 100)) ltac:(lia) ltac:(lia)) as E.
  apply parse_digits_bound in E. unfold text, bytes in *.
  destruct (Nat.le_gt_cases 4 (List.length (format_uint 10 (Z.to_N (v / 100))))) as [L|L]; auto. exfalso.
  assert (10 ^ N.of_nat (List.length (format_uint 10 (Z.to_N (v / 100)))) <= 10 ^ 3)%N by (apply N.pow_le_mono_r; lia).
  change (10 ^ 3)%N with 1000%N in *. lia.
Qed.

Lemma money_out_negative : forall v, v < 0 -> exists t, money_out v = "-"%char :: "$"%char :: t.
Proof. intros v V. unfold money_out. destruct (Z.ltb_spec v 0); [|lia]. cbn [app]. eauto. Qed.
