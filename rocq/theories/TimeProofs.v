(** Lemmas about the model of Go's package time and PostgreSQL's text of dates
    and times. *)
From Coq Require Import Ascii String ZArith NArith Bool List Lia.
From Verif Require Import GoBase Strconv StrconvProofs ConvertUtil ConvertProofs PgSpec TimeSpec Times.
Import ListNotations.
Local Open Scope char_scope.

(** ** Digits *)

Lemma digit_of_is : forall c, is_digit c = true -> digit_of c = Some (N_of_ascii c - 48)%N.
Proof. intros c H. unfold digit_of, code. unfold is_digit in H. now rewrite H. Qed.

Lemma digit_of_not : forall c, is_digit c = false -> digit_of c = None.
Proof. intros c H. unfold digit_of, code. unfold is_digit in H. now rewrite H. Qed.

Lemma digit_val_is : forall c, is_digit c = true -> digit_val c = Some (N_of_ascii c - 48)%N /\ (N_of_ascii c - 48 < 10)%N.
Proof.
  intros c H. unfold digit_val. unfold is_digit in H. rewrite H. split; auto.
  apply andb_true_iff in H. destruct H as [H1 H2]. apply N.leb_le in H1, H2. lia.
Qed.

Lemma parse_digits_is : forall b acc, forallb is_digit b = true ->
  parse_digits 10 acc b = Some (fold_left (fun a c => a * 10 + (N_of_ascii c - 48))%N b acc).
Proof.
  induction b as [|c b IH]; intros acc H; auto. cbn [forallb] in H. apply andb_true_iff in H.
  destruct H as [H1 H2]. cbn [parse_digits fold_left]. destruct (digit_val_is c H1) as [-> L].
  apply N.ltb_lt in L. rewrite L. now apply IH.
Qed.

Lemma digits_atoi : forall k b n, (0 < k)%nat -> digits k b n -> atoi b = Some n.
Proof.
  intros k b n K (L & D & <-). unfold atoi. destruct b as [|c b]. simpl in L; lia.
  now apply parse_digits_is.
Qed.

Lemma digits2_inv : forall b n, digits 2 b n ->
  exists x y, b = [x; y] /\ is_digit x = true /\ is_digit y = true
    /\ n = ((N_of_ascii x - 48) * 10 + (N_of_ascii y - 48))%N.
Proof.
  intros b n (L & D & <-). destruct b as [|x [|y [|]]]; try discriminate.
  cbn [forallb] in D. rewrite andb_true_r in D. apply andb_true_iff in D. destruct D.
  exists x, y. repeat split; auto.
Qed.

Lemma getnum2 : forall b n r f, digits 2 b n -> getnum (b ++ r) f = Some (n, r).
Proof.
  intros b n r f H. destruct (digits2_inv b n H) as (x & y & -> & Hx & Hy & ->).
  cbn [app getnum]. now rewrite (digit_of_is x Hx), (digit_of_is y Hy).
Qed.

Lemma digits4_inv : forall b n, digits 4 b n ->
  exists x y z w, b = [x; y; z; w] /\ is_digit x = true.
Proof.
  intros b n (L & D & _). destruct b as [|x [|y [|z [|w [|]]]]]; try discriminate.
  exists x, y, z, w. split; auto. cbn [forallb] in D. apply andb_true_iff in D. tauto.
Qed.

Definition digits_dec (k : nat) (b : text) (n : N) : bool :=
  Nat.eqb (List.length b) k && forallb is_digit b && N.eqb (number b) n.
Lemma digits_dec_ok : forall k b n, digits_dec k b n = true <-> digits k b n.
Proof.
  intros. unfold digits_dec, digits. rewrite !andb_true_iff, Nat.eqb_eq, N.eqb_eq. tauto.
Qed.

Lemma pad2_all : forallb (fun i => digits_dec 2 (pad 2 (N.of_nat i)) (N.of_nat i)) (seq 0 100) = true.
Proof. vm_compute. reflexivity. Qed.
Lemma pad2 : forall n, (n < 100)%N -> digits 2 (pad 2 n) n.
Proof.
  intros n H. apply digits_dec_ok. assert (F := pad2_all). rewrite forallb_forall in F.
  specialize (F (N.to_nat n)). rewrite N2Nat.id in F. apply F. apply in_seq. lia.
Qed.
Lemma pad4_all : forallb (fun i => digits_dec 4 (pad 4 (N.of_nat i)) (N.of_nat i)) (seq 0 (N.to_nat 10000)) = true.
Proof. vm_compute. reflexivity. Qed.
Lemma pad4 : forall n, (n < 10000)%N -> digits 4 (pad 4 n) n.
Proof.
  intros n H. apply digits_dec_ok. assert (F := pad4_all). rewrite forallb_forall in F.
  specialize (F (N.to_nat n)). rewrite N2Nat.id in F. apply F. apply in_seq. lia.
Qed.

(** ** The fraction *)

Definition frac_dec (b : text) (us : N) : bool :=
  match b with
  | [] => N.eqb us 0
  | c :: ds =>
      beq c "." && (Nat.leb 1 (List.length ds) && Nat.leb (List.length ds) 6) && forallb is_digit ds
      && N.eqb us (number ds * 10 ^ N.of_nat (6 - List.length ds))
  end.
Lemma frac_dec_ok : forall b us, frac_dec b us = true -> frac_text b us.
Proof.
  intros [|c ds] us H; cbn [frac_dec] in H.
  - left. apply N.eqb_eq in H. auto.
  - right. rewrite !andb_true_iff in H. destruct H as [[[H1 [H2 H3]] H4] H5].
    apply beq_eq in H1. apply Nat.leb_le in H2, H3. apply N.eqb_eq in H5. subst.
    exists (List.length ds), ds, (number ds). repeat split; auto.
Qed.

Definition ms_text (ms : N) : bytes :=
  match rev (trim_zeros_rev (rev (low_digits 3 ms))) with [] => [] | ds => "." :: ds end.


Lemma low_digits_len : forall k n, List.length (low_digits k n) = k.
Proof.
  induction k as [|k IH]; intros n; auto. cbn [low_digits]. rewrite app_length, IH. cbn [List.length]. lia.
Qed.
Lemma firstn_low : forall j k n, firstn k (low_digits (j + k) n) = low_digits k (n / 10 ^ N.of_nat j).
Proof.
  induction j as [|j IH]; intros k n.
  - cbn [Nat.add]. rewrite N.div_1_r. rewrite firstn_all2; auto. now rewrite low_digits_len.
  - cbn [Nat.add low_digits]. rewrite firstn_app, low_digits_len.
    replace (k - (j + k))%nat with O by lia. rewrite app_nil_r, IH.
    rewrite N.div_div by (try discriminate; apply N.pow_nonzero; discriminate).
    rewrite <- N.pow_succ_r'. do 3 f_equal. lia.
Qed.

Lemma nano3 : forall ns, appendNano 3 ns = ms_text (ns / 1000000).
Proof. intros. unfold appendNano, ms_text. change 9%nat with (6 + 3)%nat. rewrite (firstn_low 6 3 ns). reflexivity. Qed.

Lemma ms_all : forallb (fun i => frac_dec (ms_text (N.of_nat i)) (N.of_nat i * 1000)) (seq 0 1000) = true.
Proof. vm_compute. reflexivity. Qed.
Lemma nano3_text : forall ns, (ns < 1000000000)%N -> frac_text (appendNano 3 ns) (ns / 1000000 * 1000).
Proof.
  intros ns H. rewrite nano3. assert (L : (ns / 1000000 < 1000)%N) by (apply N.div_lt_upper_bound; lia).
  apply frac_dec_ok. assert (F := ms_all). rewrite forallb_forall in F.
  specialize (F (N.to_nat (ns / 1000000))). rewrite N2Nat.id in F. apply F. apply in_seq.
  clear F. revert L. generalize (ns / 1000000)%N. intros. lia.
Qed.

(** What may follow a fraction: nothing that would continue it. *)
Definition frac_end (r : bytes) : Prop :=
  match r with [] => True | c :: _ => is_digit c = false /\ c <> "." /\ c <> "," end.

Lemma leading_app : forall ds r, forallb is_digit ds = true -> frac_end r -> leading_digits (ds ++ r) = (ds, r).
Proof.
  induction ds as [|c ds IH]; intros r D E.
  - destruct r as [|c r]; auto. destruct E as [E _]. cbn [app leading_digits]. now rewrite digit_of_not.
  - cbn [forallb] in D. apply andb_true_iff in D. destruct D as [D1 D2].
    cbn [app leading_digits]. now rewrite (digit_of_is c D1), IH.
Qed.

Lemma parse_frac : forall f us r p k, frac_text f us -> frac_end r ->
  parse_std (StdFrac9 k) (f ++ r) p
  = Some (MkPst (p_year p) (p_month p) (p_day p) (p_hour p) (p_min p) (p_sec p)
                (if f then p_nsec p else us * 1000)%N (p_zone p), r).
Proof.
  intros f us r p k [[-> ->] | (j & ds & n & J & D & -> & ->)] E.
  - cbn [app parse_std]. destruct p, r as [|c r]; auto. destruct E as (_ & E1 & E2).
    apply beq_neq in E1, E2. now rewrite E1, E2.
  - destruct (D) as (L & D1 & D2).
    cbn [app parse_std beq orb]. change (beq "." ".") with true. cbn [orb].
    rewrite leading_app by auto. destruct ds as [|d ds]; [simpl in L; lia|].
    rewrite (firstn_all2 (d :: ds)) by lia.
    rewrite (digits_atoi j (d :: ds) n) by (auto; lia). rewrite L.
    replace (9 - j)%nat with ((6 - j) + 3)%nat by lia. rewrite Nat2N.inj_add, N.pow_add_r.
    change (10 ^ N.of_nat 3)%N with 1000%N. rewrite N.mul_assoc. reflexivity.
Qed.

(** ** Dates and clocks *)

Lemma leap_isLeap : forall y, leap y = isLeap (Z.of_N y).
Proof.
  intros. unfold leap, isLeap.
  assert (E : forall a, (y mod a =? 0)%N = (Z.of_N y mod Z.of_N a =? 0)%Z).
  { intros a. rewrite <- N2Z.inj_mod. apply eq_true_iff_eq. rewrite N.eqb_eq, Z.eqb_eq. lia. }
  now rewrite !E.
Qed.

Lemma month_days_daysIn : forall m y, (1 <= m <= 12)%N -> month_days (leap y) m = daysIn m (Z.of_N y).
Proof.
  intros m y H. rewrite leap_isLeap.
  assert (E : In m [1; 2; 3; 4; 5; 6; 7; 8; 9; 10; 11; 12]%N).
  { replace m with (N.of_nat (N.to_nat m)) by lia.
    assert (L : (1 <= N.to_nat m <= 12)%nat) by lia. revert L. generalize (N.to_nat m) as k.
    intros k L. do 13 (destruct k as [|k]; [simpl; tauto || lia|]). lia. }
  simpl in E. repeat (destruct E as [<-|E]; [reflexivity|]). tauto.
Qed.

Definition set_date (p : pst) (y : Z) (m d : N) : pst :=
  MkPst y (Some m) (Some d) (p_hour p) (p_min p) (p_sec p) (p_nsec p) (p_zone p).
Definition set_clock (p : pst) (h m s ns : N) : pst :=
  MkPst (p_year p) (p_month p) (p_day p) h m s ns (p_zone p).

Definition date_chunks : layout := [([], StdLongYear); (B "-", StdZeroMonth); (B "-", StdZeroDay)].

Lemma skip_char : forall c r, c <> " " -> skip [c] (c :: r) = Some r.
Proof. intros c r H. cbn [skip]. apply beq_neq in H. rewrite H. now rewrite beq_refl. Qed.

Lemma parse_year4 : forall b y r p, digits 4 b y ->
  parse_std StdLongYear (b ++ r) p
  = Some (MkPst (Z.of_N y) (p_month p) (p_day p) (p_hour p) (p_min p) (p_sec p) (p_nsec p) (p_zone p), r).
Proof.
  intros b y r p D. destruct (digits4_inv b y D) as (a & b0 & c & d & -> & Ha).
  cbn [app parse_std]. rewrite (digit_of_is a Ha), (digits_atoi 4 _ y) by (auto; lia). reflexivity.
Qed.

Lemma parse_ymd : forall b d r l p, ymd_text b d -> (d_year d <= 9999)%N ->
  (1 <= d_month d <= 12)%N ->
  parse_chunks (date_chunks ++ l) (b ++ r) p
  = parse_chunks l r (set_date p (Z.of_N (d_year d)) (d_month d) (d_day d)).
Proof.
  intros b d r l p (y & m & dd & Hy & Hm & Hd & ->) Y M.
  assert (Y4 : digits 4 y (d_year d)).
  { destruct Hy as [|[(k & K & L & D & E) Z]]; auto. exfalso.
    destruct y as [|c y]; [simpl in L; lia|]. simpl in Z.
    assert (G : (10000 <= number (c :: y))%N).
    { clear -K L D Z. cbn [forallb] in D. apply andb_true_iff in D. destruct D as [D1 D2].
      unfold number. cbn [fold_left].
      assert (C : (1 <= N_of_ascii c - 48)%N).
      { unfold is_digit in D1. apply andb_true_iff in D1. destruct D1 as [A1 A2]. apply N.leb_le in A1, A2.
        assert (N_of_ascii c <> 48)%N; [|lia]. intros E. apply Z. rewrite <- (ascii_N_embedding c), E. reflexivity. }
      assert (G : forall s a, (a * 10 ^ N.of_nat (List.length s) <= fold_left (fun acc c => acc * 10 + (N_of_ascii c - 48)) s a)%N).
      { clear. induction s as [|c s IH]; intros a. cbn [List.length fold_left N.of_nat]. rewrite N.pow_0_r; lia.
        cbn [fold_left List.length]. etransitivity; [|apply IH]. rewrite Nat2N.inj_succ, N.pow_succ_r'.
        rewrite N.mul_add_distr_r. nia. }
      specialize (G y (0 * 10 + (N_of_ascii c - 48))%N). etransitivity; [|exact G].
      simpl in L. assert (10 ^ 4 <= 10 ^ N.of_nat (List.length y))%N by (apply N.pow_le_mono_r; lia).
      change (10 ^ 4)%N with 10000%N in H. nia. }
    lia. }
  unfold date_chunks.
  replace ((y ++ "-" :: m ++ "-" :: dd) ++ r) with (y ++ "-" :: m ++ "-" :: dd ++ r)
    by (rewrite <- app_assoc; cbn [app]; rewrite <- app_assoc; reflexivity).
  rewrite <- !app_comm_cons.
  change (parse_chunks (([], StdLongYear) :: (B "-", StdZeroMonth) :: (B "-", StdZeroDay) :: [] ++ l)
    (y ++ "-" :: m ++ "-" :: dd ++ r) p) with
    (match parse_std StdLongYear (y ++ "-" :: m ++ "-" :: dd ++ r) p with
     | Some (p, v) => parse_chunks ((B "-", StdZeroMonth) :: (B "-", StdZeroDay) :: [] ++ l) v p | None => None end).
  rewrite (parse_year4 y (d_year d)) by auto.
  set (p1 := MkPst _ _ _ _ _ _ _ _). cbn [parse_chunks]. change (B "-") with ["-"]. rewrite skip_char by discriminate.
  cbn [parse_std]. rewrite (getnum2 m (d_month d)) by auto.
  replace ((d_month d =? 0)%N || (12 <? d_month d)%N) with false.
  2:{ symmetry. apply orb_false_iff. split. apply N.eqb_neq; lia. apply N.ltb_ge; lia. }
  cbn [parse_chunks]. rewrite skip_char by discriminate. rewrite (getnum2 dd (d_day d)) by auto. reflexivity.
Qed.

Lemma parse_clock : forall b c r l p (sep : bytes), clock_text b c -> (c_hour c < 24)%N -> (c_min c < 60)%N -> (c_sec c < 60)%N ->
  frac_end r -> p_nsec p = 0%N -> sep = [] \/ sep = B " " ->
  parse_chunks ((sep, StdHour) :: (B ":", StdZeroMinute) :: (B ":", StdZeroSecond) :: ([], StdFrac9 3) :: l)
    (sep ++ b ++ r) p
  = parse_chunks l r (set_clock p (c_hour c) (c_min c) (c_sec c) (c_us c * 1000)).
Proof.
  intros b c r l p sep (h & m & s & f & Hh & Hm & Hs & Hf & ->) L1 L2 L3 E P0 S.
  replace (sep ++ (h ++ ":" :: m ++ ":" :: s ++ f) ++ r) with (sep ++ h ++ ":" :: m ++ ":" :: s ++ f ++ r)
    by (rewrite <- !app_assoc; cbn [app]; now rewrite <- !app_assoc, <- !app_comm_cons, <- !app_assoc).
  cbn [parse_chunks].
  assert (K : skip sep (sep ++ h ++ ":" :: m ++ ":" :: s ++ f ++ r) = Some (h ++ ":" :: m ++ ":" :: s ++ f ++ r)).
  { destruct S as [-> | ->]; auto. destruct (digits2_inv h _ Hh) as (x & y & -> & Hx & _ & _).
    cbn. destruct (beq x " ") eqn:F; auto. apply beq_eq in F. subst. discriminate. }
  rewrite K. cbn [parse_std]. rewrite (getnum2 h (c_hour c)) by auto.
  apply N.leb_gt in L1, L2, L3. rewrite L1. change (B ":") with [":"]. rewrite skip_char by discriminate.
  rewrite (getnum2 m (c_min c)) by auto. rewrite L2. rewrite skip_char by discriminate.
  rewrite (getnum2 s (c_sec c)) by auto. rewrite L3. cbn [skip].
  change (match f ++ r with [] => _ | _ => _ end) with (parse_std (StdFrac9 3) (f ++ r)
    (MkPst (p_year p) (p_month p) (p_day p) (c_hour c) (c_min c) (c_sec c) (p_nsec p) (p_zone p))).
  rewrite (parse_frac f (c_us c)) by auto. cbn [p_year p_month p_day p_hour p_min p_sec p_nsec p_zone].
  unfold set_clock. do 2 f_equal.
  destruct f; auto. destruct Hf as [[_ ->] | (? & ? & ? & _ & _ & _ & F)]; [auto|discriminate].
Qed.

(** ** Texts that do not parse *)

Lemma fold_number_bound : forall s a, forallb is_digit s = true ->
  (fold_left (fun acc c => acc * 10 + (N_of_ascii c - 48)) s a < (a + 1) * 10 ^ N.of_nat (List.length s))%N.
Proof.
  induction s as [|c s IH]; intros a D. cbn [fold_left List.length N.of_nat]. rewrite N.pow_0_r. lia.
  cbn [forallb] in D. apply andb_true_iff in D. destruct D as [D1 D2].
  destruct (digit_val_is c D1) as [_ L].
  cbn [fold_left List.length]. rewrite Nat2N.inj_succ, N.pow_succ_r'.
  eapply N.lt_le_trans; [apply IH; auto|]. rewrite N.mul_assoc. apply N.mul_le_mono_r. lia.
Qed.

Lemma parse_long_year : forall b d r l p, ymd_text b d -> (9999 < d_year d)%N ->
  parse_chunks (date_chunks ++ l) (b ++ r) p = None.
Proof.
  intros b d r l p (y & m & dd & Hy & _ & _ & ->) Y.
  assert (L : exists x1 x2 x3 x4 x5 y', y = x1 :: x2 :: x3 :: x4 :: x5 :: y' /\ is_digit x5 = true).
  { destruct Hy as [(L & D & E)|[(k & K & L & D & E) _]].
    - exfalso. assert (F := fold_number_bound y 0 D). unfold number in E. rewrite E, L in F.
      change ((0 + 1) * 10 ^ N.of_nat 4)%N with 10000%N in F. lia.
    - destruct y as [|x1 [|x2 [|x3 [|x4 [|x5 y']]]]]; simpl in L; try lia.
      exists x1, x2, x3, x4, x5, y'. split; auto. cbn [forallb] in D. rewrite !andb_true_iff in D. tauto. }
  destruct L as (x1 & x2 & x3 & x4 & x5 & y' & -> & H5).
  unfold date_chunks. cbn [app parse_chunks skip parse_std].
  destruct (digit_of x1); auto. destruct (atoi [x1; x2; x3; x4]); auto.
  cbn [skip]. change (B "-") with ["-"]. cbn [skip]. change (beq "-" " ") with false. cbv iota.
  destruct (beq x5 "-") eqn:E; auto. apply beq_eq in E. subst. discriminate.
Qed.

Lemma parse_nodigit : forall c r s l p, is_digit c = false ->
  s = StdLongYear \/ s = StdHour -> parse_chunks (([], s) :: l) (c :: r) p = None.
Proof.
  intros c r s l p D [-> | ->]; cbn [parse_chunks skip parse_std].
  - destruct r as [|b [|x [|y r]]]; auto. now rewrite digit_of_not.
  - cbn [getnum]. now rewrite digit_of_not.
Qed.

Lemma parse_none : forall l v, parse_chunks l v pst0 = None -> Parse l v = Err.
Proof. intros l v H. unfold Parse. now rewrite H. Qed.

(** ** Zones *)

Definition set_zone (p : pst) (z : Z) : pst :=
  MkPst (p_year p) (p_month p) (p_day p) (p_hour p) (p_min p) (p_sec p) (p_nsec p) (Some z).

Definition sign_of (e : bool) : ascii := if e then "+" else "-".

Lemma parse_zone_ok : forall e h m hn mn, digits 2 h hn -> digits 2 m mn -> (hn < 16)%N -> (mn < 60)%N ->
  parse_zone (sign_of e) h m = Some (zone_secs (MkZ e hn mn 0)).
Proof.
  intros e h m hn mn H M L1 L2. unfold parse_zone.
  rewrite <- (app_nil_r h), <- (app_nil_r m), (getnum2 h hn), (getnum2 m mn) by auto.
  replace ((24 <? hn)%N || (60 <? mn)%N) with false.
  2:{ symmetry. apply orb_false_iff. split; apply N.ltb_ge; lia. }
  unfold zone_secs. cbn [z_east z_hour z_min z_sec]. rewrite N.add_0_r. destruct e; reflexivity.
Qed.

Lemma parse_short_tz : forall e h hn r l p, digits 2 h hn -> (hn < 16)%N ->
  parse_chunks (([], StdNumShortTZ) :: l) (sign_of e :: h ++ r) p
  = parse_chunks l r (set_zone p (zone_secs (MkZ e hn 0 0))).
Proof.
  intros e h hn r l p H L. destruct (digits2_inv h hn H) as (x & y & -> & _).
  cbn [app parse_chunks skip parse_std]. rewrite (parse_zone_ok e [x; y] (B "00") hn 0); auto.
  - repeat split.
  - lia.
Qed.

Lemma parse_colon_tz : forall e h m hn mn r l p, digits 2 h hn -> digits 2 m mn -> (hn < 16)%N -> (mn < 60)%N ->
  parse_chunks (([], StdNumColonTZ) :: l) (sign_of e :: h ++ ":" :: m ++ r) p
  = parse_chunks l r (set_zone p (zone_secs (MkZ e hn mn 0))).
Proof.
  intros e h m hn mn r l p H M L1 L2. destruct (digits2_inv h hn H) as (x & y & -> & _).
  destruct (digits2_inv m mn M) as (x' & y' & -> & _).
  cbn [app parse_chunks skip parse_std]. change (beq ":" ":") with true. cbv iota.
  now rewrite (parse_zone_ok e [x; y] [x'; y'] hn mn) by auto.
Qed.

Lemma div3600 : forall a, (a / 3600 = a / 60 / 60)%Z.
Proof. intros. rewrite Z.div_div by lia. reflexivity. Qed.

Lemma appendZone_text : forall colon off, (- 57600 < off < 57600)%Z ->
  exists z, zone_text (appendZone colon off) z /\ zone_ok z
    /\ zone_secs z = (if colon then Z.quot off 60 * 60 else Z.quot off 3600 * 3600)%Z
    /\ (colon = false -> z_min z = 0%N /\ z_sec z = 0%N /\ zone_out (appendZone colon off) z)
    /\ (colon = true -> z_sec z = 0%N /\ exists h m, digits 2 h (z_hour z) /\ digits 2 m (z_min z)
          /\ appendZone colon off = sign_of (z_east z) :: h ++ ":" :: m).
Proof.
  intros colon off H. unfold appendZone. set (q := Z.quot off 60). set (a := Z.abs q).
  assert (A : (0 <= a < 960)%Z).
  { subst a q. destruct (Z_le_gt_dec 0 off).
    - rewrite Z.quot_div_nonneg by lia. assert (0 <= off / 60 < 960)%Z; [|lia].
      split. apply Z.div_pos; lia. apply Z.div_lt_upper_bound; lia.
    - replace off with (- (- off))%Z by lia. rewrite Z.quot_opp_l by lia. rewrite Z.quot_div_nonneg by lia.
      assert (0 <= (- off) / 60 < 960)%Z; [|lia]. split. apply Z.div_pos; lia. apply Z.div_lt_upper_bound; lia. }
  assert (D : (0 <= a / 60 < 16)%Z) by (split; [apply Z.div_pos; lia|apply Z.div_lt_upper_bound; lia]).
  assert (M : (0 <= a mod 60 < 60)%Z) by (apply Z.mod_pos_bound; lia).
  assert (DM := Z.div_mod a 60).
  set (e := negb (q <? 0)%Z).
  assert (Q : q = if e then a else (- a)%Z).
  { subst e a. destruct (q <? 0)%Z eqn:E; cbn [negb]. apply Z.ltb_lt in E; lia. apply Z.ltb_ge in E; lia. }
  replace (if (q <? 0)%Z then "-" else "+") with (sign_of e) by (subst e; destruct (q <? 0)%Z; reflexivity).
  assert (P1 := pad2 (Z.to_N (a / 60)) ltac:(lia)). assert (P2 := pad2 (Z.to_N (a mod 60)) ltac:(lia)).
  assert (P0 : digits 2 (B "00") 0) by repeat split.
  destruct colon.
  - exists (MkZ e (Z.to_N (a / 60)) (Z.to_N (a mod 60)) 0). cbn [z_hour z_min z_sec z_east].
    split; [|split; [repeat split; cbn [z_hour z_min z_sec]; lia|split; [|split; [discriminate|intros _; split; auto]]]].
    + exists (pad 2 (Z.to_N (a / 60))). split; auto. right. exists (pad 2 (Z.to_N (a mod 60))).
      split; auto.
    + unfold zone_secs. cbn [z_hour z_min z_sec z_east]. rewrite Q. destruct e; lia.
    + exists (pad 2 (Z.to_N (a / 60))), (pad 2 (Z.to_N (a mod 60))). repeat split; auto; apply P1 || apply P2.
  - exists (MkZ e (Z.to_N (a / 60)) 0 0). cbn [z_hour z_min z_sec z_east].
    split; [|split; [repeat split; cbn [z_hour z_min z_sec]; lia|split; [|split; [intros _; repeat split; auto|discriminate]]]].
    + exists (pad 2 (Z.to_N (a / 60))). split; auto. left. repeat split; auto. now rewrite app_nil_r.
    + unfold zone_secs. cbn [z_hour z_min z_sec z_east].
      replace (Z.quot off 3600) with (if e then a / 60 else - (a / 60))%Z.
      * destruct e; lia.
      * change 3600%Z with (60 * 60)%Z. rewrite <- Z.quot_quot by lia. fold q. rewrite Q. destruct e.
        now rewrite Z.quot_div_nonneg by lia. now rewrite Z.quot_opp_l, Z.quot_div_nonneg by lia.
    + exists (pad 2 (Z.to_N (a / 60))), (B "00"), (B "00"). split; [exact P1|]. split; [exact P0|]. split; [exact P0|].
      reflexivity.
Qed.

(** ** Format *)

Definition date_of (t : time) : pdate := MkD false (Z.to_N (tm_year t)) (tm_month t) (tm_day t).
Definition clock_of (t : time) : clock :=
  MkC (tm_hour t) (tm_min t) (tm_sec t) (tm_nsec t / 1000000 * 1000).

Lemma format_date_eq : forall t, Format dateLayout t
  = appendInt 4 (tm_year t) ++ "-" :: pad 2 (tm_month t) ++ "-" :: pad 2 (tm_day t).
Proof. intros. unfold Format. cbn [map List.concat app fst snd format_std B list_ascii_of_string dateLayout timeLayout timestampLayout]. now rewrite app_nil_r. Qed.
Lemma format_time_eq : forall t, Format timeLayout t
  = pad 2 (tm_hour t) ++ ":" :: pad 2 (tm_min t) ++ ":" :: pad 2 (tm_sec t) ++ appendNano 3 (tm_nsec t).
Proof. intros. unfold Format. cbn [map List.concat app fst snd format_std B list_ascii_of_string dateLayout timeLayout timestampLayout]. now rewrite app_nil_r. Qed.
Lemma format_stamp_eq : forall t, Format timestampLayout t = Format dateLayout t ++ " " :: Format timeLayout t.
Proof.
  intros. rewrite format_date_eq, format_time_eq. unfold Format. cbn [map List.concat app fst snd format_std B list_ascii_of_string dateLayout timeLayout timestampLayout]. rewrite app_nil_r.
  rewrite <- app_assoc. cbn [app]. rewrite <- app_assoc. reflexivity.
Qed.
Lemma format_app : forall l l' t, Format (l ++ l') t = Format l t ++ Format l' t.
Proof. intros. unfold Format. now rewrite map_app, concat_app. Qed.
Lemma format_timetz_eq : forall t, Format timetzLayout t = Format timeLayout t ++ appendZone true (tm_off t).
Proof. intros. unfold timetzLayout. rewrite format_app. f_equal. unfold Format. cbn [map List.concat app fst snd format_std B list_ascii_of_string dateLayout timeLayout timestampLayout]. now rewrite app_nil_r. Qed.
Lemma format_stamptz_eq : forall t, Format timestamptzLayout t = Format timestampLayout t ++ appendZone false (tm_off t).
Proof. intros. unfold timestamptzLayout. rewrite format_app. f_equal. unfold Format. cbn [map List.concat app fst snd format_std B list_ascii_of_string dateLayout timeLayout timestampLayout]. now rewrite app_nil_r. Qed.

Lemma format_ymd : forall t, pdate_ok (date_of t) -> (1 <= tm_year t <= 9999)%Z ->
  ymd_text (Format dateLayout t) (date_of t).
Proof.
  intros t (Y & M & D1 & D2) YZ. rewrite format_date_eq. cbn [date_of d_bc d_year d_month d_day] in *.
  assert (D3 : (tm_day t <= 31)%N).
  { unfold month_days in D2. revert D2. destruct existsb; [lia|]. destruct (tm_month t =? 2)%N; [|lia].
    destruct (leap _); lia. }
  exists (appendInt 4 (tm_year t)), (pad 2 (tm_month t)), (pad 2 (tm_day t)). cbn [date_of d_year d_month d_day].
  split; [|split; [apply pad2; lia|split; [apply pad2; lia|reflexivity]]].
  left. unfold appendInt. replace (tm_year t <? 0)%Z with false by (symmetry; apply Z.ltb_ge; lia).
  apply pad4. lia.
Qed.

Lemma format_clock : forall t, (tm_hour t < 24)%N -> (tm_min t < 60)%N -> (tm_sec t < 60)%N -> (tm_nsec t < 1000000000)%N ->
  clock_ok (clock_of t) /\ clock_text (Format timeLayout t) (clock_of t).
Proof.
  intros t H1 H2 H3 H4. split.
  - repeat split; cbn [clock_of c_hour c_min c_sec c_us]; auto.
    assert (L : (tm_nsec t / 1000000 < 1000)%N) by (apply N.div_lt_upper_bound; lia).
    revert L. generalize (tm_nsec t / 1000000)%N. intros; lia.
  - rewrite format_time_eq.
    exists (pad 2 (tm_hour t)), (pad 2 (tm_min t)), (pad 2 (tm_sec t)), (appendNano 3 (tm_nsec t)).
    cbn [clock_of c_hour c_min c_sec c_us].
    split; [apply pad2; lia|]. split; [apply pad2; lia|]. split; [apply pad2; lia|]. split; auto.
    now apply nano3_text.
Qed.

(** ** The characters of the texts *)

Definition tchar (c : ascii) : bool :=
  is_digit c || if in_dec ascii_dec c (B "-:.+ BCinfty") then true else false.

Lemma tchar_digits : forall k b n, digits k b n -> forallb tchar b = true.
Proof.
  intros k b n (_ & D & _). rewrite forallb_forall in *. intros c H. unfold tchar. now rewrite D.
Qed.
Lemma tchar_ymd : forall b d, ymd_text b d -> forallb tchar b = true.
Proof.
  intros b d (y & m & dd & Hy & Hm & Hd & ->). rewrite !forallb_app. cbn [forallb].
  rewrite forallb_app. cbn [forallb]. rewrite (tchar_digits 2 m _ Hm), (tchar_digits 2 dd _ Hd).
  replace (forallb tchar y) with true. reflexivity.
  symmetry. destruct Hy as [D|[(k & _ & D) _]]; eapply tchar_digits, D.
Qed.
Lemma tchar_clock : forall b c, clock_text b c -> forallb tchar b = true.
Proof.
  intros b c (h & m & s & f & Hh & Hm & Hs & Hf & ->). rewrite forallb_app. cbn [forallb].
  rewrite forallb_app. cbn [forallb]. rewrite forallb_app.
  rewrite (tchar_digits 2 h _ Hh), (tchar_digits 2 m _ Hm), (tchar_digits 2 s _ Hs).
  destruct Hf as [[-> _]|(k & ds & n & _ & D & _ & ->)]; auto. cbn [forallb]. now rewrite (tchar_digits k ds n D).
Qed.
Lemma tchar_zone : forall b z, zone_text b z -> forallb tchar b = true.
Proof.
  intros b z (h & Hh & H).
  assert (S : forallb tchar ((if z_east z then "+" else "-") :: h) = true).
  { cbn [forallb]. rewrite (tchar_digits 2 h _ Hh). now destruct (z_east z). }
  destruct H as [(_ & _ & ->)|(m & Hm & [(_ & ->)|(s & Hs & ->)])]; auto.
  - rewrite forallb_app, S. cbn [forallb]. now rewrite (tchar_digits 2 m _ Hm).
  - rewrite forallb_app, S. cbn [forallb]. rewrite forallb_app, (tchar_digits 2 m _ Hm). cbn [forallb].
    now rewrite (tchar_digits 2 s _ Hs).
Qed.
Lemma zone_out_text : forall b z, zone_out b z -> zone_text b z.
Proof.
  intros b z (h & m & s & Hh & Hm & Hs & ->). exists h. split; auto.
  destruct (z_sec z =? 0)%N eqn:E2.
  - apply N.eqb_eq in E2. destruct (z_min z =? 0)%N eqn:E1; cbn [andb].
    + apply N.eqb_eq in E1. left. rewrite !app_nil_r. auto.
    + right. exists m. split; auto. left. rewrite app_nil_r. auto.
  - rewrite andb_false_r. right. exists m. split; auto. right. exists s. split; auto.
Qed.

Lemma tchar_nochar : forall c b, tchar c = false -> forallb tchar b = true -> nochar c b.
Proof. intros c b H F I. rewrite forallb_forall in F. rewrite (F c I) in H. discriminate. Qed.

Lemma tchar_special : forall c, tchar c = true -> pg_special c = beq c " ".
Proof. intros [[] [] [] [] [] [] [] []]; vm_compute; congruence. Qed.
Lemma tchar_bound : forall c, tchar c = true -> bound_special c = beq c " ".
Proof. intros [[] [] [] [] [] [] [] []]; vm_compute; congruence. Qed.
Lemma tchar_existsb : forall f b, (forall c, tchar c = true -> f c = beq c " ") -> forallb tchar b = true ->
  existsb f b = existsb (fun c => beq c " ") b.
Proof.
  induction b as [|c b IH]; intros H F; auto. cbn [forallb] in F. apply andb_true_iff in F. destruct F.
  cbn [existsb]. now rewrite H, IH.
Qed.

Lemma not_null : forall c b, c <> "N" -> c <> "n" -> is_null_word (c :: b) = false.
Proof.
  intros c b H1 H2. unfold is_null_word. destruct list_eq_dec as [E|]; auto. exfalso.
  cbn [map] in E. injection E as E _. revert c E H1 H2.
  intros [[] [] [] [] [] [] [] []]; vm_compute; congruence.
Qed.

Lemma elem_out_t : forall c b, c <> "N" -> c <> "n" -> forallb tchar (c :: b) = true ->
  elem_out (Some (c :: b)) = if existsb (fun c => beq c " ") (c :: b) then dq :: (c :: b) ++ [dq] else c :: b.
Proof.
  intros c b H1 H2 F. cbn [elem_out]. unfold needs_quotes. rewrite not_null by auto. cbn [orb].
  rewrite (tchar_existsb _ _ tchar_special F). destruct existsb; auto.
  change """" with dq. do 2 f_equal. unfold pg_escape. clear H1 H2. revert F. generalize (c :: b) as s.
  induction s as [|x s IH]; intros F; auto. cbn [forallb] in F. apply andb_true_iff in F. destruct F as [F1 F2].
  cbn [flat_map]. rewrite IH by auto. destruct in_dec as [i|]; auto. exfalso.
  simpl in i. destruct i as [<-|[<-|[]]]; discriminate.
Qed.

Lemma bound_out_t : forall c b, forallb tchar (c :: b) = true ->
  bound_out (c :: b) = if existsb (fun c => beq c " ") (c :: b) then dq :: (c :: b) ++ [dq] else c :: b.
Proof. intros c b F. unfold bound_out. now rewrite (tchar_existsb _ _ tchar_bound F). Qed.

(** What time.Parse makes of the variables. *)
Definition finish (o : option pst) : res time :=
  match o with
  | None => Err
  | Some p =>
      let m := match p_month p with Some m => m | None => 1%N end in
      let d := match p_day p with Some d => d | None => 1%N end in
      if (d <? 1)%N || (daysIn m (p_year p) <? d)%N then Err
      else Ok (MkTime (p_year p) m d (p_hour p) (p_min p) (p_sec p) (p_nsec p)
                      (match p_zone p with Some z => z | None => 0%Z end))
  end.
Lemma Parse_eq : forall l v o, parse_chunks l v pst0 = o -> Parse l v = finish o.
Proof. intros l v o <-. reflexivity. Qed.
