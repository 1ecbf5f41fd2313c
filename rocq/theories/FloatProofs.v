(** Proofs about the rounding, parsing and printing of floats. *)
From Coq Require Import Ascii String ZArith NArith Bool List Lia.
From Verif Require Import GoBase Strconv StrconvProofs ConvertUtil Codecs PgSpec MoneyCodecs MoneyProofs Floats FloatSpec.
Import ListNotations.
Local Open Scope char_scope.
Local Open Scope Z_scope.

Definition okff (ff : fformat) : Prop := 2 <= prec ff /\ 0 < expo ff /\ 0 <= over ff.
Lemma ok64 : okff f64. Proof. unfold okff; cbn; lia. Qed.
Lemma ok32 : okff f32. Proof. unfold okff; cbn; lia. Qed.

Lemma pow2_pos : forall k, 0 <= k -> 0 < 2 ^ k.
Proof. intros. apply Z.pow_pos_nonneg; lia. Qed.
Lemma pow10_pos : forall k, 0 < 10 ^ Z.max k 0.
Proof. intros. apply Z.pow_pos_nonneg; lia. Qed.

(** ** Rounding *)

Lemma lastbit_nonneg : forall ff x, 0 <= lastbit ff x.
Proof. intros. unfold lastbit. lia. Qed.

Lemma lastbit_zero : forall ff x, okff ff -> 0 <= x < 2 ^ prec ff -> lastbit ff x = 0.
Proof.
  intros ff x (P & _) X. unfold lastbit. apply Z.max_l. destruct (Z.eq_dec x 0) as [->|N]. cbn. lia.
  assert (Z.log2 x < prec ff) by (apply Z.log2_lt_pow2; lia). lia.
Qed.

Lemma lastbit_spec : forall ff x, okff ff -> 2 ^ prec ff <= x ->
  2 ^ (prec ff - 1) * 2 ^ lastbit ff x <= x < 2 ^ prec ff * 2 ^ lastbit ff x.
Proof.
  intros ff x (P & _) H. unfold lastbit. set (p := prec ff) in *.
  assert (0 < 2 ^ p) by (apply pow2_pos; lia).
  assert (p <= Z.log2 x). { rewrite <- (Z.log2_pow2 p) at 1 by lia. apply Z.log2_le_mono. lia. }
  rewrite Z.max_r by lia. rewrite <- !Z.pow_add_r by lia. pose proof (Z.log2_spec x ltac:(lia)) as L.
  replace (p - 1 + (Z.log2 x - (p - 1))) with (Z.log2 x) by lia. replace (p + (Z.log2 x - (p - 1))) with (Z.succ (Z.log2 x)) by lia. exact L.
Qed.

Lemma lastbit_upper : forall ff x, okff ff -> 0 <= x -> x < 2 ^ prec ff * 2 ^ lastbit ff x.
Proof.
  intros ff x O H. destruct (Z.lt_ge_cases x (2 ^ prec ff)) as [L|L]. 2: now apply lastbit_spec.
  rewrite lastbit_zero by (auto; lia). cbn. lia.
Qed.

(** No number of the format lies between neighbours of the grid. *)
Lemma grid_gap : forall ff x a w, okff ff -> 0 <= x -> let d := 2 ^ lastbit ff x in
  a = x / d -> fits ff w -> w <= a * d \/ (a + 1) * d <= w.
Proof.
  intros ff x a w O X d A (m & e & M & E0 & ->). destruct O as (P & O2). assert (O : okff ff) by (split; auto).
  set (j := lastbit ff x) in *. assert (0 <= j) by apply lastbit_nonneg. assert (0 < d) by (apply pow2_pos; lia).
  destruct (Z.le_gt_cases (m * 2 ^ e) (a * d)) as [L|L]; auto. right.
  assert (0 < 2 ^ e) by (apply pow2_pos; lia).
  destruct (Z.le_gt_cases j e) as [JE|JE].
  - assert (2 ^ e = 2 ^ (e - j) * d) as E1. { unfold d. rewrite <- Z.pow_add_r by lia. f_equal. lia. }
    rewrite E1 in *. assert (a < m * 2 ^ (e - j)) by nia. nia.
  - exfalso. assert (J1 : 2 ^ prec ff <= x).
    { destruct (Z.lt_ge_cases x (2 ^ prec ff)) as [L1|L1]; auto. assert (j = 0) by (apply lastbit_zero; auto). lia. }
    assert (AP : 2 ^ (prec ff - 1) <= a).
    { rewrite A. apply Z.div_le_lower_bound; auto. rewrite Z.mul_comm. now apply lastbit_spec. }
    assert (2 * 2 ^ e <= d). { unfold d. change 2 with (2 ^ 1) at 1. rewrite <- Z.pow_add_r by lia. apply Z.pow_le_mono_r; lia. }
    assert (PP : 2 ^ prec ff = 2 * 2 ^ (prec ff - 1)). { change 2 with (2 ^ 1) at 2. rewrite <- Z.pow_add_r by lia. f_equal. lia. }
    assert (0 < 2 ^ (prec ff - 1)) by (apply pow2_pos; lia). nia.
Qed.

Lemma round_facts : forall ff t q, okff ff -> 0 <= t -> 0 < q -> exists a d r x,
  0 < d /\ t = a * (q * d) + r /\ 0 <= r < q * d /\ 0 <= a < 2 ^ prec ff
  /\ (d = 1 \/ 2 ^ (prec ff - 1) <= a) /\ (exists k, 0 <= k /\ d = 2 ^ k)
  /\ round_to ff t q = x * d /\ (x = a /\ 2 * r <= q * d \/ x = a + 1 /\ q * d <= 2 * r) /\ (2 * r = q * d -> Z.even x = true)
  /\ (forall w, fits ff w -> w <= a * d \/ (a + 1) * d <= w).
Proof.
  intros ff t q O T Q. set (j := lastbit ff (t / q)). assert (J : 0 <= j) by apply lastbit_nonneg. set (d := 2 ^ j).
  assert (D : 0 < d) by (apply pow2_pos; lia). assert (TQ : 0 <= t / q) by (apply Z.div_pos; lia).
  exists (t / (q * d)), d, (t mod (q * d)), (rne_div t (q * d)).
  pose proof (Z.div_mod t (q * d) ltac:(nia)) as DM. pose proof (Z.mod_pos_bound t (q * d) ltac:(nia)) as MB.
  assert (AE : t / (q * d) = t / q / d) by (rewrite Z.div_div; lia).
  assert (A1 : 0 <= t / (q * d) < 2 ^ prec ff).
  { rewrite AE. split. apply Z.div_pos; lia. apply Z.div_lt_upper_bound; auto. rewrite Z.mul_comm. now apply lastbit_upper. }
  split; auto. split; [lia|]. split; auto. split; auto. split; [|split; [|split; [|split; [|split]]]].
  - destruct (Z.lt_ge_cases (t / q) (2 ^ prec ff)) as [L|L].
    + left. unfold d, j. rewrite lastbit_zero by (auto; lia). reflexivity.
    + right. rewrite AE. apply Z.div_le_lower_bound; auto. rewrite Z.mul_comm. now apply lastbit_spec.
  - exists j. auto.
  - reflexivity.
  - unfold rne_div. destruct (Z.ltb_spec (2 * (t mod (q * d))) (q * d)); [left; lia|].
    destruct (Z.ltb_spec (q * d) (2 * (t mod (q * d)))); [right; lia|]. destruct (Z.even _); [left|right]; lia.
  - intros E. unfold rne_div. destruct (Z.ltb_spec (2 * (t mod (q * d))) (q * d)); [lia|].
    destruct (Z.ltb_spec (q * d) (2 * (t mod (q * d)))); [lia|]. destruct (Z.even (t / (q * d))) eqn:EV; auto.
    rewrite Z.add_1_r, Z.even_succ, <- Z.negb_even, EV. reflexivity.
  - intros w W. apply (grid_gap ff (t / q) (t / (q * d)) w O TQ AE W).
Qed.

Lemma pow_half : forall ff, okff ff -> 2 ^ prec ff = 2 * 2 ^ (prec ff - 1) /\ 2 <= 2 ^ (prec ff - 1) /\ Z.even (2 ^ (prec ff - 1)) = true.
Proof.
  intros ff (P & _). assert (E : forall k, 0 <= k - 1 -> 2 ^ k = 2 * 2 ^ (k - 1)).
  { intros k K. change 2 with (2 ^ 1) at 2. rewrite <- Z.pow_add_r by lia. f_equal. lia. }
  split; [apply E; lia|]. rewrite (E (prec ff - 1)) by lia. assert (0 < 2 ^ (prec ff - 1 - 1)) by (apply pow2_pos; lia).
  split; [lia|]. now rewrite Z.even_mul.
Qed.

Lemma round_fits : forall ff t q, okff ff -> 0 <= t -> 0 < q -> fits ff (round_to ff t q).
Proof.
  intros ff t q O T Q. destruct (round_facts ff t q O T Q) as (a & d & r & x & D & E & R & A & DA & (k & K & DK) & -> & X & _).
  destruct (pow_half ff O) as (PH & P2 & _).
  destruct (Z.eq_dec x (2 ^ prec ff)) as [XE|XE].
  - exists (2 ^ (prec ff - 1)), (k + 1). split; [lia|]. split; [lia|]. rewrite Z.pow_add_r by lia. subst d. rewrite XE, PH. change (2 ^ 1) with 2. ring.
  - exists x, k. split; [lia|]. split; auto. now subst d.
Qed.

Lemma round_nearest : forall ff t q, okff ff -> 0 <= t -> 0 < q -> nearest ff t q (round_to ff t q).
Proof.
  intros ff t q O T Q. split; [now apply round_fits|].
  destruct (round_facts ff t q O T Q) as (a & d & r & x & D & E & R & A & DA & (k & K & DK) & -> & X & EV & GAP).
  intros w W NE. specialize (GAP w W). set (u := q * d) in *. assert (U : 0 < u) by (unfold u; nia).
  replace (x * d * q) with (x * u) by (unfold u; ring).
  assert (G2 : w * q <= a * u \/ (a + 1) * u <= w * q) by (unfold u; destruct GAP; [left|right]; nia).
  assert (NE2 : w * q <> x * u) by (unfold u; nia).
  assert (EVEN : 2 * r = u -> even_float ff (x * d)).
  { intros H. specialize (EV H). destruct (pow_half ff O) as (PH & P2 & PE). apply Z.even_spec in EV. destruct EV as [y Y].
    destruct (Z.eq_dec x (2 ^ prec ff)) as [XE|XE].
    - apply Z.even_spec in PE. destruct PE as [z Zz]. exists z, (k + 1). split; [lia|]. split; [lia|]. split; [|right; lia].
      rewrite Z.pow_add_r by lia. subst d. rewrite XE, PH, Zz. change (2 ^ 1) with 2. ring.
    - exists y, k. split; [lia|]. split; auto. split; [subst d; rewrite Y; ring|].
      destruct DA as [D1|D1]; [left|right; lia]. rewrite DK in D1. destruct (Z.eq_dec k 0); auto. exfalso.
      assert (2 ^ 1 <= 2 ^ k) by (apply Z.pow_le_mono_r; lia). change (2 ^ 1) with 2 in *. lia. }
  subst t.
  destruct X as [[XA XR]|[XA XR]]; rewrite XA in *.
  - destruct G2 as [G2|G2].
    + left. lia.
    + destruct (Z.eq_dec (2 * r) u) as [H|H]; [|left; lia]. destruct (Z.eq_dec (w * q) ((a + 1) * u)) as [H2|H2]; [|left; lia].
      right. split; [lia|]. now apply EVEN.
  - destruct G2 as [G2|G2].
    + destruct (Z.eq_dec (2 * r) u) as [H|H]; [|left; lia]. destruct (Z.eq_dec (w * q) (a * u)) as [H2|H2]; [|left; lia].
      right. split; [lia|]. now apply EVEN.
    + left. lia.
Qed.

(** Two numbers with last bit zero are not neighbours. *)
Lemma even_apart : forall ff v w, okff ff -> even_float ff v -> even_float ff w -> v < w ->
  exists u, fits ff u /\ v < u < w.
Proof.
  intros ff v w O (m & k & M & K & -> & C) (n & l & Nn & L & -> & Cw) LT.
  assert (KP : 0 < 2 ^ k) by (apply pow2_pos; lia). assert (LP : 0 < 2 ^ l) by (apply pow2_pos; lia).
  destruct (pow_half ff O) as (PH & P2 & _).
  exists ((2 * m + 1) * 2 ^ k). split; [exists (2 * m + 1), k; repeat split; auto; lia|]. split; [nia|].
  destruct (Z.le_gt_cases k l) as [KL|KL].
  - assert (E : 2 ^ l = 2 ^ (l - k) * 2 ^ k) by (rewrite <- Z.pow_add_r by lia; f_equal; lia). rewrite E in *.
    assert (2 * m < 2 * (n * 2 ^ (l - k))) by nia. nia.
  - assert (E : 2 ^ k = 2 ^ (k - l) * 2 ^ l) by (rewrite <- Z.pow_add_r by lia; f_equal; lia).
    assert (2 <= 2 ^ (k - l)) by (change 2 with (2 ^ 1) at 1; apply Z.pow_le_mono_r; lia).
    destruct C as [C|C]; [lia|]. exfalso. rewrite E in LT. assert (2 ^ prec ff <= 2 * m * 2 ^ (k - l)) by nia. nia.
Qed.

Lemma nearest_unique : forall ff t q v w, okff ff -> 0 < q -> nearest ff t q v -> nearest ff t q w -> v = w.
Proof.
  intros ff t q v w O Q [FV NV] [FW NW]. destruct (Z.eq_dec v w) as [|NE]; auto. exfalso.
  assert (G : forall v w, v < w -> fits ff v -> fits ff w ->
     (forall u, fits ff u -> u <> v -> Z.abs (t - v * q) < Z.abs (t - u * q) \/ Z.abs (t - v * q) = Z.abs (t - u * q) /\ even_float ff v) ->
     (forall u, fits ff u -> u <> w -> Z.abs (t - w * q) < Z.abs (t - u * q) \/ Z.abs (t - w * q) = Z.abs (t - u * q) /\ even_float ff w) -> False).
  { clear FV NV FW NW NE v w. intros v w LT FV FW NV NW.
    destruct (NV w FW) as [H|[H EV]]; [lia| |]; destruct (NW v FV) as [H2|[H2 EW]]; try lia.
    destruct (even_apart ff v w O EV EW LT) as (u & FU & U1 & U2).
    destruct (NV u FU) as [H3|[H3 _]]; [lia| |]; nia. }
  destruct (Z.lt_ge_cases v w); [eapply (G v w)|eapply (G w v)]; eauto. lia.
Qed.

(** An exact number is its own rounding. *)
Lemma nearest_exact : forall ff v q, 0 < q -> fits ff v -> nearest ff (v * q) q v.
Proof. intros ff v q Q F. split; auto. intros w W NE. left. rewrite Z.sub_diag. cbn [Z.abs]. assert (v * q - w * q <> 0) by nia. lia. Qed.
Lemma nearest_scale : forall ff t q c v, 0 < c -> nearest ff t q v <-> nearest ff (c * t) (c * q) v.
Proof.
  intros ff t q c v C. unfold nearest.
  assert (EQ : forall w, Z.abs (c * t - w * (c * q)) = c * Z.abs (t - w * q)).
  { intros w. replace (c * t - w * (c * q)) with (c * (t - w * q)) by ring. rewrite Z.abs_mul. f_equal. lia. }
  split; intros [F NV]; (split; [exact F|]); intros w W NE; specialize (NV w W NE); rewrite !EQ in *;
    (destruct NV as [NV|[NV EV]]; [left; nia|right; split; auto; nia]).
Qed.
Lemma nearest_convex : forall ff t1 t t2 q v, 0 < q -> t1 <= t <= t2 -> nearest ff t1 q v -> nearest ff t2 q v -> nearest ff t q v.
Proof.
  intros ff t1 t t2 q v Q T [F N1] [_ N2]. split; auto. intros w W NE. specialize (N1 w W NE). specialize (N2 w W NE).
  set (a := v * q) in *. set (b := w * q) in *. assert (AB : a <> b) by (unfold a, b; nia). clearbody a b.
  destruct (Z.lt_ge_cases b a).
  - destruct (Z.eq_dec t t1) as [->|]; [exact N1|]. left. lia.
  - destruct (Z.eq_dec t t2) as [->|]; [exact N2|]. left. lia.
Qed.

Lemma p10 : forall k, 0 <= k -> 0 < 10 ^ k.
Proof. intros. apply Z.pow_pos_nonneg; lia. Qed.
(** The denominator does not matter. *)
Lemma rounds_K : forall ff m x v K, 0 <= K -> 0 <= x + K ->
  rounds ff m x v <-> nearest ff (m * 10 ^ (x + K) * 2 ^ expo ff) (10 ^ K) v.
Proof.
  intros ff m x v K K0 XK. unfold rounds. rewrite (nearest_scale ff _ _ (10 ^ (K - Z.max (- x) 0)) v) by (apply p10; lia).
  rewrite <- Z.pow_add_r by lia. replace (K - Z.max (- x) 0 + Z.max (- x) 0) with K by lia.
  replace (10 ^ (K - Z.max (- x) 0) * (m * 10 ^ Z.max x 0 * 2 ^ expo ff)) with (m * (10 ^ (K - Z.max (- x) 0) * 10 ^ Z.max x 0) * 2 ^ expo ff) by ring.
  rewrite <- Z.pow_add_r by lia. replace (K - Z.max (- x) 0 + Z.max x 0) with (x + K) by lia. reflexivity.
Qed.

Lemma dec_rounds : forall ff m x, okff ff -> 0 <= m -> rounds ff m x (dec_round ff m x).
Proof.
  intros ff m x O M. assert (P : 0 < 2 ^ expo ff) by (apply pow2_pos; destruct O as (_ & ? & _); lia).
  unfold rounds, dec_round. destruct (Z.ltb_spec x 0).
  - rewrite Z.max_r, Z.max_l by lia. rewrite Z.mul_1_r. apply round_nearest; auto; [nia|apply p10; lia].
  - rewrite Z.max_l, Z.max_r by lia. pose proof (p10 x ltac:(lia)). apply round_nearest; auto; [|cbn; lia]. apply Z.mul_nonneg_nonneg; [|lia]. apply Z.mul_nonneg_nonneg; lia.
Qed.
Lemma rounds_dec : forall ff m x v, okff ff -> 0 <= m -> rounds ff m x v -> v = dec_round ff m x.
Proof.
  intros ff m x v O M R. eapply nearest_unique; [exact O| |exact R|apply dec_rounds; auto]. apply p10. lia.
Qed.
Lemma rounds_iff : forall ff m x v, okff ff -> 0 <= m -> (rounds ff m x v <-> dec_round ff m x = v).
Proof. intros. split; [intros; symmetry; now apply rounds_dec|intros <-; now apply dec_rounds]. Qed.

Lemma rounds_shift : forall ff m x c v, 0 <= c -> rounds ff (m * 10 ^ c) x v <-> rounds ff m (x + c) v.
Proof.
  intros ff m x c v C. rewrite (rounds_K ff _ x v (Z.max 0 (- x))), (rounds_K ff m _ v (Z.max 0 (- x))) by lia.
  rewrite <- (Z.mul_assoc m), <- Z.pow_add_r by lia. replace (c + (x + Z.max 0 (- x))) with (x + c + Z.max 0 (- x)) by lia. reflexivity.
Qed.

(** ** The shortest decimal *)

Definition flo (ff : fformat) (v j : Z) : Z :=
  (if j <? 0 then v * 10 ^ (- j) else v) / (if j <? 0 then 2 ^ expo ff else 2 ^ expo ff * 10 ^ j).
Lemma scaled : forall ff v j K (rel : Z -> Z -> Prop) d, okff ff -> 0 <= K -> 0 <= j + K ->
  (forall c x y, 0 < c -> rel x y <-> rel (c * x) (c * y)) ->
  rel (d * (if j <? 0 then 2 ^ expo ff else 2 ^ expo ff * 10 ^ j)) (if j <? 0 then v * 10 ^ (- j) else v)
  <-> rel (d * 10 ^ (j + K) * 2 ^ expo ff) (v * 10 ^ K).
Proof.
  intros ff v j K rel d O K0 JK H. destruct (Z.ltb_spec j 0).
  - rewrite (H (10 ^ (j + K))) by (apply p10; lia). replace (10 ^ (j + K) * (v * 10 ^ (- j))) with (v * (10 ^ (j + K) * 10 ^ (- j))) by ring.
    rewrite <- Z.pow_add_r by lia. replace (j + K + - j) with K by lia.
    replace (10 ^ (j + K) * (d * 2 ^ expo ff)) with (d * 10 ^ (j + K) * 2 ^ expo ff) by ring. reflexivity.
  - rewrite (H (10 ^ K)) by (apply p10; lia). rewrite Z.pow_add_r by lia. rewrite (Z.mul_comm (10 ^ K) v).
    replace (10 ^ K * (d * (2 ^ expo ff * 10 ^ j))) with (d * (10 ^ j * 10 ^ K) * 2 ^ expo ff) by ring. reflexivity.
Qed.
Lemma flo_facts : forall ff v j K, okff ff -> 0 <= v -> 0 <= K -> 0 <= j + K -> 0 <= flo ff v j
  /\ flo ff v j * 10 ^ (j + K) * 2 ^ expo ff <= v * 10 ^ K < (flo ff v j + 1) * 10 ^ (j + K) * 2 ^ expo ff.
Proof.
  intros ff v j K O V K0 JK. unfold flo. set (a := if j <? 0 then v * 10 ^ (- j) else v). set (b := if j <? 0 then 2 ^ expo ff else 2 ^ expo ff * 10 ^ j).
  assert (P : 0 < 2 ^ expo ff) by (apply pow2_pos; destruct O as (_ & ? & _); lia).
  assert (A : 0 <= a) by (unfold a; destruct (Z.ltb_spec j 0); [pose proof (p10 (- j) ltac:(lia)); nia|lia]).
  assert (Bp : 0 < b) by (unfold b; destruct (Z.ltb_spec j 0); [lia|pose proof (p10 j ltac:(lia)); nia]).
  split; [apply Z.div_pos; lia|]. pose proof (Z.div_mod a b ltac:(lia)). pose proof (Z.mod_pos_bound a b Bp). split.
  - apply (scaled ff v j K Z.le); auto; [intros; nia|]. fold a b. lia.
  - apply (scaled ff v j K (fun x y => y < x)); auto; [intros; nia|]. fold a b. lia.
Qed.

(** No multiple of 10^j other than the two next to the float matters. *)
Lemma flo_neighbours : forall ff v j m, okff ff -> 0 < v -> fits ff v -> 0 <= m -> rounds ff m j v ->
  rounds ff (flo ff v j) j v \/ rounds ff (flo ff v j + 1) j v.
Proof.
  intros ff v j m O V F M R. set (K := Z.max 0 (- j)). destruct (flo_facts ff v j K O) as (F0 & F1 & F2); try (unfold K; lia).
  assert (P : 0 < 2 ^ expo ff) by (apply pow2_pos; destruct O as (_ & ? & _); lia).
  assert (Q : 0 < 10 ^ K) by (apply p10; unfold K; lia). assert (JP : 0 < 10 ^ (j + K)) by (apply p10; unfold K; lia).
  rewrite (rounds_K ff _ j v K) in R by (unfold K; lia). rewrite !(rounds_K ff _ j v K) by (unfold K; lia).
  assert (EX : nearest ff (v * 10 ^ K) (10 ^ K) v) by now apply nearest_exact.
  set (e := 10 ^ (j + K)) in *. set (E := 2 ^ expo ff) in *. set (f := flo ff v j) in *. assert (EE : 0 < e * E) by nia.
  destruct (Z.le_gt_cases m f); [left|right].
  - eapply nearest_convex; [exact Q| |exact R|exact EX]. split; [|exact F1]. rewrite <- !Z.mul_assoc. nia.
  - eapply nearest_convex; [exact Q| |exact EX|exact R]. split; [lia|]. rewrite <- !Z.mul_assoc. nia.
Qed.

Definition failed (ff : fformat) (v j : Z) : Prop := flo ff v j = 0 \/ forall m, 0 <= m -> ~ rounds ff m j v.

Lemma rounds_zero : forall ff j v, okff ff -> rounds ff 0 j v -> v = 0.
Proof.
  intros ff j v O R. unfold rounds in R. assert (Q : 0 < 10 ^ Z.max (- j) 0) by (apply p10; lia).
  eapply nearest_unique; [exact O|exact Q|exact R|]. rewrite !Z.mul_0_l. rewrite <- (Z.mul_0_l (10 ^ Z.max (- j) 0)) at 1. apply nearest_exact; auto.
  exists 0, 0. split; [split; [lia|]|split; [lia|reflexivity]]. apply pow2_pos. destruct O; lia.
Qed.

Lemma rne_two : forall a b, rne_div a b = a / b \/ rne_div a b = a / b + 1.
Proof. intros a b. unfold rne_div. destruct (_ <? _); auto. destruct (_ <? _); auto. destruct (Z.even _); auto. Qed.
Lemma rne_near : forall a b m, 0 < b -> 0 <= a -> Z.abs (a - rne_div a b * b) <= Z.abs (a - m * b).
Proof.
  intros a b m Bp A. pose proof (Z.div_mod a b ltac:(lia)). pose proof (Z.mod_pos_bound a b Bp). set (f := a / b) in *. set (r := a mod b) in *.
  assert (EA : a = f * b + r) by lia. unfold rne_div. fold f r.
  assert (G : m * b <= f * b \/ (f + 1) * b <= m * b) by (destruct (Z.le_gt_cases m f); [left|right]; nia).
  destruct (Z.ltb_spec (2 * r) b); [lia|]. destruct (Z.ltb_spec b (2 * r)); [lia|]. destruct (Z.even f); lia.
Qed.

Lemma scale_eq : forall ff v j K, 0 <= K -> 0 <= j + K -> exists c, 0 < c
  /\ v * 10 ^ K = c * (if j <? 0 then v * 10 ^ (- j) else v)
  /\ 10 ^ (j + K) * 2 ^ expo ff = c * (if j <? 0 then 2 ^ expo ff else 2 ^ expo ff * 10 ^ j).
Proof.
  intros ff v j K K0 JK. destruct (Z.ltb_spec j 0).
  - exists (10 ^ (j + K)). split; [apply p10; lia|]. split; auto.
    replace (10 ^ (j + K) * (v * 10 ^ (- j))) with (v * (10 ^ (j + K) * 10 ^ (- j))) by ring. rewrite <- Z.pow_add_r by lia. do 2 f_equal. lia.
  - exists (10 ^ K). split; [apply p10; lia|]. split; [ring|]. rewrite Z.pow_add_r by lia. ring.
Qed.

Definition closest (ff : fformat) (v d j : Z) : Prop :=
  forall m K, 0 <= m -> rounds ff m j v -> 0 <= K -> 0 <= j + K ->
    Z.abs (v * 10 ^ K - d * 10 ^ (j + K) * 2 ^ expo ff) <= Z.abs (v * 10 ^ K - m * 10 ^ (j + K) * 2 ^ expo ff).

Lemma dist_scale : forall c a b d m, 0 < c -> Z.abs (a - d * b) <= Z.abs (a - m * b) ->
  Z.abs (c * a - d * (c * b)) <= Z.abs (c * a - m * (c * b)).
Proof.
  intros c a b d m C H. replace (c * a - d * (c * b)) with (c * (a - d * b)) by ring. replace (c * a - m * (c * b)) with (c * (a - m * b)) by ring.
  rewrite !Z.abs_mul. nia.
Qed.
Lemma closest_near : forall ff v j, okff ff -> 0 < v ->
  closest ff v (rne_div (if j <? 0 then v * 10 ^ (- j) else v) (if j <? 0 then 2 ^ expo ff else 2 ^ expo ff * 10 ^ j)) j.
Proof.
  intros ff v j O V m K M R K0 JK. destruct (scale_eq ff v j K K0 JK) as (c & C & E1 & E2). rewrite <- !Z.mul_assoc, E1, E2.
  assert (P : 0 < 2 ^ expo ff) by (apply pow2_pos; destruct O as (_ & ? & _); lia).
  apply dist_scale; auto. apply rne_near.
  - destruct (Z.ltb_spec j 0); [lia|pose proof (p10 j ltac:(lia)); nia].
  - destruct (Z.ltb_spec j 0); [pose proof (p10 (- j) ltac:(lia)); nia|lia].
Qed.

(** If only one neighbour is read back as the float it is the closest of all. *)
Lemma closest_far : forall ff v j n d, okff ff -> 0 < v -> fits ff v ->
  (n = flo ff v j /\ d = flo ff v j + 1 \/ n = flo ff v j + 1 /\ d = flo ff v j) -> ~ rounds ff n j v -> closest ff v d j.
Proof.
  intros ff v j n d O V F ND NR m K M R K0 JK. destruct (flo_facts ff v j K O) as (F0 & F1 & F2); try lia.
  assert (Q : 0 < 10 ^ K) by (apply p10; lia). assert (JP : 0 < 10 ^ (j + K)) by (apply p10; lia).
  assert (P : 0 < 2 ^ expo ff) by (apply pow2_pos; destruct O as (_ & ? & _); lia).
  rewrite (rounds_K ff m j v K) in R by lia. rewrite (rounds_K ff n j v K) in NR by lia. assert (EX : nearest ff (v * 10 ^ K) (10 ^ K) v) by now apply nearest_exact.
  rewrite <- !Z.mul_assoc in *. set (u := 10 ^ (j + K) * 2 ^ expo ff) in *. assert (U : 0 < u) by (unfold u; nia). set (f := flo ff v j) in *. clearbody u f.
  destruct ND as [[-> ->]|[-> ->]].
  - destruct (Z.le_gt_cases m f).
    + exfalso. apply NR. eapply nearest_convex; [exact Q| |exact R|exact EX]. split; [nia|exact F1].
    + assert ((f + 1) * u <= m * u) by nia. lia.
  - destruct (Z.le_gt_cases m f).
    + assert (m * u <= f * u) by nia. lia.
    + exfalso. apply NR. eapply nearest_convex; [exact Q| |exact EX|exact R]. split; [lia|nia].
Qed.

Lemma shortest_spec : forall ff fuel v j0, okff ff -> 0 < v -> fits ff v -> j0 + expo ff = Z.of_nat fuel -> failed ff v (j0 + 1) ->
  let '(d, j) := shortest ff fuel v j0 in
  0 < d /\ rounds ff d j v /\ failed ff v (j + 1) /\ (d = flo ff v j \/ d = flo ff v j + 1) /\ - expo ff <= j /\ closest ff v d j.
Proof.
  intros ff. induction fuel; intros v j0 O V F J FA; cbn [shortest].
  - fold (flo ff v j0). assert (J0 : j0 = - expo ff) by lia. pose proof (proj1 (proj2 O)) as XP.
    assert (EX : flo ff v j0 * 2 ^ expo ff = v * 10 ^ expo ff /\ 0 < flo ff v j0).
    { unfold flo. rewrite (proj2 (Z.ltb_lt j0 0)) by lia. rewrite J0, Z.opp_involutive. change 10 with (5 * 2). rewrite Z.pow_mul_l.
      rewrite Z.mul_assoc, Z.div_mul by (pose proof (pow2_pos (expo ff)); lia). split; auto.
      assert (0 < 5 ^ expo ff) by (apply Z.pow_pos_nonneg; lia). nia. }
    destruct EX as [EX FP]. split; auto. split; [|split; [exact FA|split; [left; reflexivity|split; [lia|]]]].
    + rewrite (rounds_K ff _ j0 v (expo ff)) by lia. replace (j0 + expo ff) with 0 by lia. rewrite Z.mul_1_r, EX. apply nearest_exact; auto. apply p10. lia.
    + intros m K M R K0 JK. destruct (scale_eq ff v j0 K K0 JK) as (c & C & E1 & E2). rewrite <- !Z.mul_assoc, E1, E2. apply dist_scale; auto.
      rewrite (proj2 (Z.ltb_lt j0 0)) by lia. replace (- j0) with (expo ff) by lia. rewrite <- EX. rewrite Z.sub_diag. cbn [Z.abs]. lia.
  - fold (flo ff v j0). destruct (Z.eqb_spec (flo ff v j0) 0) as [Z0|Z0].
    { apply IHfuel; auto; [lia|]. left. now replace (j0 - 1 + 1) with j0 by lia. }
    set (near := rne_div _ _). assert (NE : near = flo ff v j0 \/ near = flo ff v j0 + 1) by apply rne_two.
    assert (F0 : 0 <= flo ff v j0) by (apply (flo_facts ff v j0 (Z.max 0 (- j0))); auto; lia).
    destruct (Z.eqb_spec (dec_round ff near j0) v) as [E|E].
    { apply rounds_iff in E; auto; [|lia]. split; [lia|]. split; [exact E|]. split; [exact FA|]. split; [exact NE|]. split; [lia|]. now apply closest_near. }
    destruct (Z.eqb_spec (dec_round ff (2 * flo ff v j0 + 1 - near) j0) v) as [E2|E2].
    { rewrite <- rounds_iff in E by (auto; lia). apply rounds_iff in E2; auto; [|lia]. split; [lia|]. split; [exact E2|]. split; [exact FA|]. split; [lia|]. split; [lia|].
      eapply (closest_far ff v j0 near); auto. lia. }
    apply IHfuel; auto; [lia|]. right. replace (j0 - 1 + 1) with j0 by lia. intros m M R.
    rewrite <- rounds_iff in E, E2 by (auto; lia). destruct (flo_neighbours ff v j0 m O V F M R) as [H|H].
    + destruct NE as [NE|NE]; rewrite NE in *; [auto|]. apply E2. now replace (2 * flo ff v j0 + 1 - (flo ff v j0 + 1)) with (flo ff v j0) by lia.
    + destruct NE as [NE|NE]; rewrite NE in *; [|auto]. apply E2. now replace (2 * flo ff v j0 + 1 - flo ff v j0) with (flo ff v j0 + 1) by lia.
Qed.

(** No decimal with fewer digits is read back as the float. *)
Definition fewest (ff : fformat) (v d : Z) : Prop :=
  forall m x n, 0 < m -> rounds ff m x v -> 0 <= n -> 10 ^ n <= d -> 10 ^ n <= m.
Lemma fewest_shortest : forall ff v d j, okff ff -> 0 < v -> fits ff v -> 0 < d -> rounds ff d j v -> failed ff v (j + 1) ->
  (d = flo ff v j \/ d = flo ff v j + 1) -> d < 10 \/ d = 10 \/ fewest ff v d.
Proof.
  intros ff v d j O V F D R FA DF. assert (P : 0 < 2 ^ expo ff) by (apply pow2_pos; destruct O as (_ & ? & _); lia).
  destruct FA as [FA|FA].
  - set (K := Z.max 0 (- j)). destruct (flo_facts ff v j K O) as (F0 & F1 & F2); try (unfold K; lia).
    destruct (flo_facts ff v (j + 1) K O) as (_ & G1 & G2); try (unfold K; lia). rewrite FA in G2.
    replace (j + 1 + K) with (1 + (j + K)) in G2 by lia. rewrite Z.pow_add_r in G2 by (unfold K; lia). change (10 ^ 1) with 10 in G2.
    assert (JP : 0 < 10 ^ (j + K)) by (apply p10; unfold K; lia). rewrite <- !Z.mul_assoc in *. set (u := 10 ^ (j + K) * 2 ^ expo ff) in *.
    assert (0 < u) by (unfold u; nia). clearbody u. assert (flo ff v j < 10) by nia. lia.
  - right. right. intros m x n M RM N0 L. destruct (Z.le_gt_cases (10 ^ n) m) as [|LT]; auto. exfalso.
    assert (N1 : 1 <= n). { destruct (Z.eq_dec n 0) as [->|]; [cbn in LT; lia|lia]. }
    destruct (Z.le_gt_cases (j + 1) x) as [XJ|XJ].
    { apply (FA (m * 10 ^ (x - (j + 1)))). pose proof (p10 (x - (j + 1)) ltac:(lia)). nia.
      apply rounds_shift; [lia|]. now replace (j + 1 + (x - (j + 1))) with x by lia. }
    apply (FA (10 ^ (n - 1))). { pose proof (p10 (n - 1) ltac:(lia)). lia. }
    set (K := Z.max 0 (- x)). rewrite (rounds_K ff _ (j + 1) v K) by (unfold K; lia).
    rewrite (rounds_K ff m x v K) in RM by (unfold K; lia). rewrite (rounds_K ff d j v K) in R by (unfold K; lia).
    eapply nearest_convex; [apply p10; unfold K; lia| |exact RM|exact R].
    rewrite <- Z.pow_add_r by (unfold K; lia). replace (n - 1 + (j + 1 + K)) with (n + (j + K)) by lia. rewrite (Z.pow_add_r 10 n) by (unfold K; lia).
    pose proof (p10 (x + K) ltac:(unfold K; lia)) as XP. pose proof (p10 (j + K) ltac:(unfold K; lia)) as JP.
    assert (XJP : 10 ^ (x + K) <= 10 ^ (j + K)) by (apply Z.pow_le_mono_r; lia).
    split; apply Z.mul_le_mono_nonneg_r; try lia; [|nia].
    apply Z.le_trans with (10 ^ n * 10 ^ (x + K)); nia.
Qed.

(** The starting exponent is above the float. *)
Lemma p2_10 : forall k, 0 <= k -> 2 ^ k <= 10 ^ (k / 3 + 1).
Proof.
  intros k K. pose proof (Z.div_mod k 3 ltac:(lia)). pose proof (Z.mod_pos_bound k 3 ltac:(lia)).
  apply Z.le_trans with (2 ^ (3 * (k / 3 + 1))); [apply Z.pow_le_mono_r; lia|].
  rewrite Z.pow_mul_r by lia. apply Z.pow_le_mono_l. lia.
Qed.
Lemma p10_2 : forall k, 0 <= k -> 10 ^ (3 * k / 10) <= 2 ^ k.
Proof.
  intros k K. set (a := 3 * k / 10). assert (A : 0 <= a) by (unfold a; apply Z.div_pos; lia).
  assert (AK : 10 * a <= 3 * k) by (unfold a; pose proof (Z.mul_div_le (3 * k) 10 ltac:(lia)); lia).
  apply Z.nlt_ge. intros L. assert (0 < 2 ^ k) by (apply pow2_pos; lia).
  assert (C1 : (2 ^ k) ^ 3 < (10 ^ a) ^ 3) by (apply Z.pow_lt_mono_l; lia).
  rewrite <- !Z.pow_mul_r in C1 by lia.
  assert (C2 : 10 ^ (a * 3) <= 2 ^ (10 * a)). { rewrite (Z.mul_comm a 3), !Z.pow_mul_r by lia. apply Z.pow_le_mono_l. lia. }
  assert (2 ^ (10 * a) <= 2 ^ (k * 3)) by (apply Z.pow_le_mono_r; lia). lia.
Qed.
Lemma start_above : forall ff v, okff ff -> 0 < v -> - expo ff <= start ff v /\ forall j, start ff v <= j -> flo ff v j = 0.
Proof.
  intros ff v O V. set (L := Z.log2 v). assert (L0 : 0 <= L) by apply Z.log2_nonneg. pose proof (proj1 (proj2 O)) as XP.
  assert (VL : v < 2 ^ (L + 1)) by (pose proof (Z.log2_spec v V); rewrite Z.add_1_r; tauto).
  unfold start. fold L. destruct (Z.ltb_spec (L + 1 - expo ff) 0) as [N|N].
  - set (k := - (L + 1 - expo ff)). assert (K : 0 < k) by (unfold k; lia). pose proof (p10_2 k ltac:(lia)) as PK.
    assert (A : 0 <= 3 * k / 10) by (apply Z.div_pos; lia). assert (AK : 3 * k / 10 <= k) by (apply Z.div_le_upper_bound; lia).
    split; [unfold k in *; lia|]. intros j J. set (a := 3 * k / 10) in *. set (KK := Z.max a (- j)).
    destruct (flo_facts ff v j KK O) as (F0 & F1 & F2); try (unfold KK; lia).
    destruct (Z.eq_dec (flo ff v j) 0) as [|NZ]; auto. exfalso.
    assert (E1 : v * 10 ^ KK < 10 ^ (KK - a) * 2 ^ expo ff).
    { replace (expo ff) with (L + 1 + k) by (unfold k; lia). rewrite Z.pow_add_r by lia.
      replace KK with (KK - a + a) at 1 by lia. rewrite Z.pow_add_r by (unfold KK; lia).
      assert (0 < 10 ^ (KK - a)) by (apply p10; unfold KK; lia). assert (0 < 10 ^ a) by (apply p10; lia).
      apply Z.lt_le_trans with (2 ^ (L + 1) * (10 ^ (KK - a) * 10 ^ a)); [nia|].
      replace (10 ^ (KK - a) * (2 ^ (L + 1) * 2 ^ k)) with (2 ^ (L + 1) * (10 ^ (KK - a) * 2 ^ k)) by ring. apply Z.mul_le_mono_nonneg_l; nia. }
    assert (E2 : 10 ^ (KK - a) <= 10 ^ (j + KK)) by (apply Z.pow_le_mono_r; lia).
    assert (P : 0 < 2 ^ expo ff) by (apply pow2_pos; lia). assert (JP : 0 < 10 ^ (j + KK)) by (apply p10; unfold KK; lia).
    rewrite <- Z.mul_assoc in F1. nia.
  - set (k := L + 1 - expo ff) in *. pose proof (p2_10 k N) as PK. assert (A : 0 <= k / 3) by (apply Z.div_pos; lia).
    split; [lia|]. intros j J. destruct (flo_facts ff v j 0 O) as (F0 & F1 & F2); try lia.
    destruct (Z.eq_dec (flo ff v j) 0) as [|NZ]; auto. exfalso. rewrite Z.add_0_r, Z.mul_1_r in *.
    assert (E1 : v < 10 ^ (k / 3 + 1) * 2 ^ expo ff).
    { apply Z.lt_le_trans with (2 ^ (L + 1)); auto. replace (L + 1) with (k + expo ff) by (unfold k; lia). rewrite Z.pow_add_r by lia.
      apply Z.mul_le_mono_nonneg_r; auto. pose proof (pow2_pos (expo ff)). lia. }
    assert (E2 : 10 ^ (k / 3 + 1) <= 10 ^ j) by (apply Z.pow_le_mono_r; lia).
    assert (P : 0 < 2 ^ expo ff) by (apply pow2_pos; lia). assert (JP : 0 < 10 ^ j) by (apply p10; lia).
    rewrite <- Z.mul_assoc in F1. nia.
Qed.

Lemma digits_spec : forall ff v, okff ff -> 0 < v -> fits ff v ->
  let '(d, j) := digits ff v in 0 < d /\ rounds ff d j v /\ fewest ff v d /\ closest ff v d j /\ - expo ff <= j.
Proof.
  intros ff v O V F. unfold digits. destruct (start_above ff v O V) as [S1 S2].
  pose proof (shortest_spec ff (Z.to_nat (start ff v + expo ff)) v (start ff v) O V F ltac:(rewrite Z2Nat.id by lia; lia)) as SP.
  assert (FS : failed ff v (start ff v + 1)) by (left; apply S2; lia). specialize (SP FS). destruct (shortest _ _ _ _) as [d j]. destruct SP as (D & R & FA & DF & JX & CL).
  assert (FEW : d < 10 \/ d = 10 \/ fewest ff v d) by (eapply fewest_shortest; eauto).
  assert (SMALL : forall e, 0 < e < 10 -> fewest ff v e).
  { intros e E m x n M RM N0 LE. assert (n = 0). { destruct (Z.eq_dec n 0); auto. assert (10 ^ 1 <= 10 ^ n) by (apply Z.pow_le_mono_r; lia). change (10 ^ 1) with 10 in *. lia. } subst n. cbn. lia. }
  unfold trim0. destruct (Z.eqb_spec (d mod 10) 0) as [T|T].
  - pose proof (Z.div_mod d 10 ltac:(lia)). set (e := d / 10) in *. assert (DE : d = e * 10 ^ 1) by (change (10 ^ 1) with 10; lia).
    assert (0 < e) by lia. assert (RE : rounds ff e (j + 1) v) by (apply rounds_shift; [lia|]; now rewrite <- DE).
    split; auto. split; auto. split; [|split; [|lia]].
    + destruct FEW as [FEW|[FEW|FEW]]; [lia|apply SMALL; lia|]. intros m x n M RM N0 LE. apply (FEW m x n M RM N0). lia.
    + intros m K M RM K0 JK. rewrite <- (rounds_shift ff m j 1) in RM by lia.
      pose proof (CL (m * 10 ^ 1) (K + 1) ltac:(nia) RM ltac:(lia) ltac:(lia)) as C. rewrite DE in C.
      replace (j + (K + 1)) with (j + 1 + K) in C by lia. rewrite (Z.pow_add_r 10 K 1) in C by lia.
      replace (v * (10 ^ K * 10 ^ 1) - e * 10 ^ 1 * 10 ^ (j + 1 + K) * 2 ^ expo ff) with (10 ^ 1 * (v * 10 ^ K - e * 10 ^ (j + 1 + K) * 2 ^ expo ff)) in C by ring.
      replace (v * (10 ^ K * 10 ^ 1) - m * 10 ^ 1 * 10 ^ (j + 1 + K) * 2 ^ expo ff) with (10 ^ 1 * (v * 10 ^ K - m * 10 ^ (j + 1 + K) * 2 ^ expo ff)) in C by ring.
      rewrite !Z.abs_mul in C. change (Z.abs (10 ^ 1)) with 10 in C. lia.
  - split; auto. split; auto. split; [|split; auto]. destruct FEW as [FEW|[FEW|FEW]]; [apply SMALL; lia| |auto]. subst d. now cbn in T.
Qed.

(** ** Texts *)

Lemma digit_dig : forall c, digit c = dig c.
Proof. reflexivity. Qed.
Lemma digit_range : forall c d, digit c = Some d -> 0 <= d <= 9.
Proof.
  unfold digit. intros c d. destruct (_ && _)%bool eqn:E; [|discriminate]. intros [= <-]. apply andb_true_iff in E. destruct E as [E1 E2].
  apply Z.leb_le in E1, E2. lia.
Qed.
Lemma dnum_app : forall a b acc, dnum acc (a ++ b) = match dnum acc a with Some n => dnum n b | None => None end.
Proof. induction a as [|c a IH]; intros; cbn [app dnum]; auto. destruct (digit c); auto. Qed.
Lemma dnum_nonneg : forall l acc n, 0 <= acc -> dnum acc l = Some n -> acc <= n.
Proof.
  induction l as [|c l IH]; cbn [dnum]; intros acc n A H. injection H as <-. lia.
  destruct (digit c) eqn:E; [|discriminate]. apply digit_range in E. apply IH in H; lia.
Qed.
Lemma dnum_zeros : forall k acc, dnum acc (zeros0 k) = Some (acc * 10 ^ Z.of_nat k).
Proof.
  induction k as [|k IH]; intros acc. cbn. f_equal. lia.
  cbn [zeros0 repeat dnum]. change (digit "0") with (Some 0). cbv iota. fold (zeros0 k). rewrite IH. f_equal.
  rewrite Nat2Z.inj_succ, Z.pow_succ_r by lia. ring.
Qed.
Lemma dnum_parse : forall l a n, parse_digits 10 a l = Some n -> dnum (Z.of_N a) l = Some (Z.of_N n).
Proof.
  induction l as [|c l IH]; cbn [parse_digits dnum]; intros a n H. now injection H as <-.
  destruct (digit_val c) as [d|] eqn:E; [|discriminate]. destruct (N.ltb_spec d 10) as [L|]; [|discriminate].
  unfold digit_val in E. unfold digit. assert (CB := N_of_ascii c).
  destruct ((48 <=? N_of_ascii c) && (N_of_ascii c <=? 57))%N eqn:R.
  - injection E as <-. apply andb_true_iff in R. destruct R as [R1 R2]. apply N.leb_le in R1, R2.
    rewrite (proj2 (Z.leb_le 48 _)), (proj2 (Z.leb_le _ 57)) by lia. cbn [andb]. apply IH in H. rewrite <- H. f_equal. lia.
  - exfalso. destruct ((97 <=? N_of_ascii c) && (N_of_ascii c <=? 122))%N eqn:R2.
    + injection E as <-. apply andb_true_iff in R2. destruct R2 as [R2 R3]. apply N.leb_le in R2. lia.
    + destruct ((65 <=? N_of_ascii c) && (N_of_ascii c <=? 90))%N eqn:R3; [|discriminate]. injection E as <-.
      apply andb_true_iff in R3. destruct R3 as [R3 R4]. apply N.leb_le in R3. lia.
Qed.
Lemma dnum_format : forall d, 0 <= d -> dnum 0 (format_uint 10 (Z.to_N d)) = Some d.
Proof.
  intros d D. assert (H := format_uint_value 10 (Z.to_N d) ltac:(lia) ltac:(lia)). apply dnum_parse in H. rewrite Z2N.id in H by lia. exact H.
Qed.

Lemma fmt_numeral : forall d j, 0 <= d -> (0 <= j /\ numeral (fmt_f d j) (d * 10 ^ j) 0) \/ (j < 0 /\ numeral (fmt_f d j) d j).
Proof.
  intros d j D. unfold fmt_f. assert (SD := dnum_format d D). assert (SN := format_uint_nonempty 10 (Z.to_N d)). set (s := format_uint 10 (Z.to_N d)) in *.
  clearbody s. assert (NOEX : exp_text [] 0) by (left; auto). destruct (Z.leb_spec 0 j) as [J|J]; [left|right]; split; auto.
  - exists (s ++ zeros0 (Z.to_nat j)), [], [], [], 0. rewrite app_nil_r. split. { destruct s; [congruence|discriminate]. }
    split. { rewrite dnum_app, SD, dnum_zeros, Z2Nat.id by lia. reflexivity. } split; auto. split; auto. rewrite app_nil_r. split; auto.
  - set (k := Z.to_nat (- j)). assert (K : Z.of_nat k = - j) by (unfold k; rewrite Z2Nat.id; lia). clearbody k.
    destruct (Nat.ltb_spec k (List.length s)) as [L|L].
    + exists (firstn (List.length s - k) s), (skipn (List.length s - k) s), ("." :: skipn (List.length s - k) s), [], 0.
      rewrite firstn_skipn, app_nil_r. split; auto. split; auto. split; auto. split; auto. split; auto. rewrite skipn_length. lia.
    + exists ["0"], (zeros0 (k - List.length s) ++ s), ("." :: zeros0 (k - List.length s) ++ s), [], 0. split; [discriminate|].
      split. { cbn [app dnum]. change (digit "0") with (Some 0). cbv iota. change (10 * 0 + 0) with 0. rewrite dnum_app, dnum_zeros. rewrite Z.mul_0_l. exact SD. }
      split; auto. split; auto. rewrite app_nil_r. split; auto. rewrite app_length. unfold zeros0. rewrite repeat_length. unfold text, bytes in *. lia.
Qed.

Lemma beq_dot : forall c d, digit c = Some d -> beq c "." = false.
Proof. intros [b0 b1 b2 b3 b4 b5 b6 b7] d. destruct b0, b1, b2, b3, b4, b5, b6, b7; intros H; try reflexivity; discriminate H. Qed.
Lemma read_digits : forall l r dot saw acc frac m, dnum acc l = Some m ->
  read_mant (l ++ r) dot saw acc frac
  = read_mant r dot (saw || negb (match l with [] => true | _ => false end)) m (if dot then frac + Z.of_nat (List.length l) else frac).
Proof.
  induction l as [|c l IH]; intros r dot saw acc frac m H; cbn [dnum] in H.
  - injection H as <-. cbn [app negb List.length]. rewrite orb_false_r, Z.add_0_r. now destruct dot.
  - destruct (digit c) as [d|] eqn:E; [|discriminate]. cbn [app read_mant]. rewrite (beq_dot c d E). rewrite digit_dig in E. rewrite E.
    rewrite (IH r dot true _ _ m H). cbn [negb orb List.length]. rewrite orb_true_r. destruct dot; auto. f_equal. lia.
Qed.
Lemma read_exp_num : forall l acc n, 0 <= acc -> dnum acc l = Some n -> n < 10000 -> read_exp l acc = Some n.
Proof.
  induction l as [|c l IH]; intros acc n A H L; cbn [dnum read_exp] in *; auto.
  rewrite <- digit_dig. destruct (digit c) as [d|] eqn:E; [|discriminate]. assert (R := digit_range c d E). assert (N1 : 10 * acc + d <= n) by (apply dnum_nonneg in H; lia).
  rewrite (proj2 (Z.ltb_lt acc 10000)) by lia. apply IH; auto; [lia|]. now replace (acc * 10 + d) with (10 * acc + d) by lia.
Qed.
Lemma digit_nosign : forall c d, digit c = Some d -> beq c "-" = false /\ beq c "+" = false.
Proof. intros [b0 b1 b2 b3 b4 b5 b6 b7] d. destruct b0, b1, b2, b3, b4, b5, b6, b7; intros H; try (split; reflexivity); discriminate H. Qed.
Lemma exponent_text : forall ex e, exp_text ex e -> exponent ex = Some e.
Proof.
  intros ex e [[-> ->]|(c & s & ds & n & C & NE & DN & LT & -> & SG)]; auto.
  assert (RE := read_exp_num ds 0 n ltac:(lia) DN LT). cbn [exponent].
  replace (beq c "e" || beq c "E")%bool with true by (destruct C; subst; reflexivity).
  destruct ds as [|c1 ds]; [congruence|]. destruct SG as [[[->| ->] ->]|[-> ->]]; cbn [app].
  - cbn [dnum] in DN. destruct (digit c1) as [d|] eqn:E; [|discriminate]. destruct (digit_nosign c1 d E) as [-> ->]. now rewrite RE.
  - change (beq "+" "-") with false. change (beq "+" "+") with true. cbv iota. now rewrite RE.
  - change (beq "-" "-") with true. cbv iota. now rewrite RE.
Qed.
Lemma read_end : forall ex e dot m frac, exp_text ex e -> read_mant ex dot true m frac = Some (m, frac, ex).
Proof. intros ex e dot m frac [[-> _]|(c & s & ds & n & C & _ & _ & _ & -> & _)]; auto. destruct C; subst c; reflexivity. Qed.

Lemma read_numeral : forall t m x, numeral t m x -> exists frac r e, read_mant t false false 0 0 = Some (m, frac, r) /\ exponent r = Some e /\ x = e - frac.
Proof.
  intros t m x (ip & fp & pt & ex & e & NE & DN & EX & PT & -> & ->). exists (Z.of_nat (List.length fp)), ex, e.
  split; [|split; [now apply exponent_text|reflexivity]]. rewrite dnum_app in DN. destruct (dnum 0 ip) as [i|] eqn:DI; [|discriminate].
  rewrite (read_digits ip _ false false 0 0 i DI). cbn [orb]. destruct PT as [->|[-> ->]].
  - cbn [app read_mant]. change (beq "." ".") with true. cbv iota. rewrite (read_digits fp ex true _ i 0 m DN).
    replace (_ || _)%bool with true by (destruct ip; [destruct fp; [now destruct NE|]|]; reflexivity). apply read_end with (1 := EX).
  - cbn [app List.length]. cbn [dnum] in DN. injection DN as <-. destruct ip; [now destruct NE|]. cbn [negb]. apply read_end with (1 := EX).
Qed.

Lemma numeral_first : forall t m x, numeral t m x -> exists c r, t = c :: r /\ (c = "." \/ exists d, digit c = Some d).
Proof.
  intros t m x (ip & fp & pt & ex & e & NE & DN & EX & PT & -> & _). destruct ip as [|c ip].
  - destruct PT as [->|[-> ->]]; [|now destruct NE]. cbn [app]. eauto.
  - cbn [app dnum] in *. destruct (digit c) as [d|] eqn:E; [|discriminate]. eauto 6.
Qed.
Definition starter (c : ascii) : bool := (beq c "." || match digit c with Some _ => true | None => false end)%bool.
Lemma starter_facts : forall c, starter c = true -> beq c "-" = false /\ beq c "+" = false /\ to_lower c <> "i" /\ to_lower c <> "n".
Proof. intros [b0 b1 b2 b3 b4 b5 b6 b7]. destruct b0, b1, b2, b3, b4, b5, b6, b7; intros H; try discriminate H; repeat split; discriminate. Qed.
Lemma bytes_eqb_head : forall c r d s, c <> d -> bytes_eqb (c :: r) (d :: s) = false.
Proof. intros c r d s H. cbn [bytes_eqb]. destruct (Ascii.eqb c d) eqn:E; auto. apply Ascii.eqb_eq in E. congruence. Qed.

Lemma parse_numeral : forall ff neg t m x, okff ff -> numeral t m x -> ParseFloat ff (sign neg ++ t) = finite ff neg (dec_round ff m x).
Proof.
  intros ff neg t m x O NT. destruct (read_numeral t m x NT) as (frac & r & e & RM & EX & ->).
  destruct (numeral_first t m _ NT) as (c & t' & -> & C). assert (SC : starter c = true).
  { unfold starter. destruct C as [->|[d ->]]; [reflexivity|apply orb_true_r]. }
  destruct (starter_facts c SC) as (S1 & S2 & S3 & S4).
  assert (PA : parse_abs ff neg (c :: t') = finite ff neg (dec_round ff m (e - frac))).
  { unfold parse_abs, is_inf. cbn [map]. change (B "inf") with ("i" :: B "nf"). change (B "infinity") with ("i" :: B "nfinity").
    rewrite !bytes_eqb_head by auto. cbn [orb]. now rewrite RM, EX. }
  destruct neg; cbn [sign app ParseFloat]; auto. rewrite S1, S2. unfold is_nan. cbn [map]. change (B "nan") with ("n" :: B "an"). rewrite bytes_eqb_head by auto. exact PA.
Qed.
Lemma numeral_nonneg : forall t m x, numeral t m x -> 0 <= m.
Proof. intros t m x (ip & fp & _ & _ & _ & _ & DN & _). apply dnum_nonneg in DN; lia. Qed.

Lemma parse_text : forall ff b f, okff ff -> float_text ff b f -> ParseFloat ff b = Ok f.
Proof.
  intros ff b [|neg|neg v] O T; cbn [float_text] in T.
  - now subst b.
  - destruct neg; cbn [In] in T; repeat destruct T as [T|T]; try tauto; subst b; reflexivity.
  - destruct T as (t & m & x & -> & NT & R & L). rewrite (parse_numeral ff neg t m x O NT). apply rounds_dec in R; auto; [|eapply numeral_nonneg; eauto].
    rewrite <- R. unfold finite. now rewrite (proj2 (Z.ltb_lt _ _)).
Qed.
Lemma parse_large : forall ff b, okff ff -> too_large ff b -> ParseFloat ff b = Err.
Proof.
  intros ff b O (neg & t & m & x & v & -> & NT & R & L). rewrite (parse_numeral ff neg t m x O NT). apply rounds_dec in R; auto; [|eapply numeral_nonneg; eauto].
  rewrite <- R. unfold finite. now rewrite (proj2 (Z.ltb_ge _ _)).
Qed.

(** What is written. *)
Lemma append_finite : forall ff neg v, okff ff -> fits ff v ->
  exists t d j, AppendFloat ff (Fin neg v) = sign neg ++ t
    /\ (0 <= j /\ numeral t (d * 10 ^ j) 0 \/ j < 0 /\ numeral t d j) /\ rounds ff d j v /\ 0 <= d
    /\ fewest ff v d /\ closest ff v d j.
Proof.
  intros ff neg v O F. cbn [AppendFloat]. change (if neg then ["-"] else []) with (sign neg). destruct (Z.eqb_spec v 0) as [->|NZ].
  - exists (B "0"), 0, 0. split; auto. assert (NM : numeral (B "0") 0 0).
    { exists (B "0"), [], [], [], 0. repeat split; auto; try discriminate. left; auto. }
    split; [left; split; [lia|exact NM]|]. split; [|split; [lia|]].
    + apply rounds_iff; auto; [lia|]. symmetry. apply (rounds_dec ff 0 0); auto; [lia|].
      unfold rounds. cbn [Z.max Z.opp]. rewrite !Z.mul_0_l. apply (nearest_exact ff 0 (10 ^ 0)); [cbn; lia|exact F].
    + split.
      * intros m x n M RM N0 LE. pose proof (p10 n N0). lia.
      * intros m K M RM K0 JK. rewrite !Z.mul_0_l. cbn [Z.sub Z.abs Z.opp]. lia.
  - assert (V : 0 < v). { destruct F as (m & k & M & K & ->). assert (0 < 2 ^ k) by (apply pow2_pos; lia). nia. }
    pose proof (digits_spec ff v O V F) as DS. destruct (digits ff v) as [d j]. destruct DS as (D & R & FE & CL & _).
    exists (fmt_f d j), d, j. split; auto. split; [apply fmt_numeral; lia|]. split; auto. split; [lia|auto].
Qed.
Lemma append_text : forall ff f, okff ff -> valid ff f -> float_text ff (AppendFloat ff f) f.
Proof.
  intros ff [|neg|neg v] O V.
  - reflexivity.
  - destruct neg; cbn; auto.
  - destruct V as [F L]. destruct (append_finite ff neg v O F) as (t & d & j & -> & NT & R & D & _). cbn [float_text].
    destruct NT as [[J NT]|[J NT]].
    + exists t, (d * 10 ^ j), 0. repeat split; auto. apply rounds_shift; auto.
    + exists t, d, j. auto.
Qed.
