(** Lemmas about the texts of addresses. *)
From Coq Require Import Ascii String ZArith NArith Bool List Lia.
From Verif Require Import GoBase Strconv StrconvProofs ConvertUtil ConvertProofs Codecs PgSpec PgSpecProofs SimpleProofs IntProofs MoneyProofs Net NetSpec.
Import ListNotations.
Local Open Scope char_scope.
Local Open Scope N_scope.

(** ** Numbers *)

Lemma pow_pos : forall b n, 0 < b -> 0 < b ^ n.
Proof. intros b n H. assert (b ^ n <> 0) by (apply N.pow_nonzero; lia). lia. Qed.

Lemma num_app : forall b l r, num b (l ++ r) = num b l * b ^ N.of_nat (List.length r) + num b r.
Proof.
  intros b l r. induction l as [|d l IH]; cbn [app num]. lia.
  rewrite IH, app_length, Nat2N.inj_add, N.pow_add_r. lia.
Qed.

Lemma num_bound : forall b l, 0 < b -> Forall (fun d => d < b) l -> num b l < b ^ N.of_nat (List.length l).
Proof.
  intros b l B. induction 1 as [|d l D F IH]; cbn [num List.length]. rewrite N.pow_0_r. lia.
  rewrite Nat2N.inj_succ, N.pow_succ_r'. assert (P := pow_pos b (N.of_nat (List.length l)) B). nia.
Qed.

Lemma num_inj : forall b l r, 0 < b -> List.length l = List.length r ->
  Forall (fun d => d < b) l -> Forall (fun d => d < b) r -> num b l = num b r -> l = r.
Proof.
  intros b l r B. revert r. induction l as [|d l IH]; intros [|e r] L F1 F2 E; try discriminate; auto.
  cbn [List.length] in L. injection L as L. inversion F1; inversion F2; subst. cbn [num] in E. rewrite L in E.
  assert (B1 := num_bound b l B H2). assert (B2 := num_bound b r B H6). rewrite L in B1.
  set (p := b ^ N.of_nat (List.length r)) in *.
  assert (d = e). { destruct (N.lt_trichotomy d e) as [?|[?|?]]; auto; nia. }
  subst e. f_equal. apply IH; auto. lia.
Qed.

Lemma split_num : forall ws, num 256 (split_words ws) = num 65536 ws.
Proof.
  induction ws as [|w ws IH]; auto. change (split_words (w :: ws)) with ([w / 256; w mod 256] ++ split_words ws).
  rewrite num_app, IH. cbn [num List.length]. change (N.of_nat 1) with 1. change (N.of_nat 0) with 0.
  rewrite N.pow_1_r, N.pow_0_r. assert (D := N.div_mod w 256).
  assert (L : List.length (split_words ws) = (2 * List.length ws)%nat).
  { clear. induction ws; auto. cbn [split_words flat_map app List.length] in *. unfold split_words in IHws. rewrite IHws. lia. }
  rewrite L, Nat2N.inj_mul. change (N.of_nat 2) with 2. rewrite N.pow_mul_r. change (256 ^ 2) with 65536. nia.
Qed.

Lemma split_length : forall ws, List.length (split_words ws) = (2 * List.length ws)%nat.
Proof. induction ws; auto. cbn [split_words flat_map app List.length] in *. unfold split_words in IHws. rewrite IHws. lia. Qed.

Lemma split_bytes : forall ws, Forall (fun w => w < 65536) ws -> Forall (fun d => d < 256) (split_words ws).
Proof.
  induction 1 as [|w ws W F IH]; [constructor|]. cbn [split_words flat_map app].
  constructor. apply N.div_lt_upper_bound; lia. constructor. apply N.mod_lt. lia. exact IH.
Qed.

Lemma pair_split : forall ws, pair_words (split_words ws) = ws.
Proof.
  induction ws as [|w ws IH]; auto. cbn [split_words flat_map app pair_words]. fold (split_words ws). rewrite IH.
  f_equal. assert (D := N.div_mod w 256). lia.
Qed.

Lemma split_pair : forall n l, List.length l = (2 * n)%nat -> Forall (fun d => d < 256) l -> split_words (pair_words l) = l.
Proof.
  induction n as [|n IH]; intros [|a [|b l]] L F; try discriminate; try (cbn in L; lia); auto.
  inversion F as [|? ? A F1]; subst. inversion F1 as [|? ? Bd F2]; subst. cbn [pair_words split_words flat_map app].
  fold (split_words (pair_words l)). rewrite IH; auto. 2: cbn [List.length] in L; lia.
  rewrite N.div_add_l, (N.div_small b 256), N.add_0_r by lia. f_equal. f_equal.
  rewrite N.add_comm, N.mod_add by lia. apply N.mod_small. lia.
Qed.

Lemma pair_length : forall n l, List.length l = (2 * n)%nat -> List.length (pair_words l) = n.
Proof.
  induction n as [|n IH]; intros [|a [|b l]] L; try discriminate; try (cbn in L; lia); auto.
  cbn [pair_words List.length] in *. rewrite IH; lia.
Qed.
Lemma pair_bytes : forall n l, List.length l = (2 * n)%nat -> Forall (fun d => d < 256) l -> Forall (fun w => w < 65536) (pair_words l).
Proof.
  induction n as [|n IH]; intros [|a [|b l]] L F; try discriminate; try (cbn in L; lia); [constructor|].
  inversion F as [|? ? A F1]; subst. inversion F1 as [|? ? Bd F2]; subst. cbn [pair_words]. constructor. lia.
  apply IH; auto. cbn [List.length] in L. lia.
Qed.

(** ** Digits *)

Lemma hexdigit_val : forall c, hexdigit c = hex_val c.
Proof. intros [b0 b1 b2 b3 b4 b5 b6 b7]. destruct b0, b1, b2, b3, b4, b5, b6, b7; reflexivity. Qed.

Lemma hexdigit_bound : forall c d, hexdigit c = Some d -> d < 16.
Proof. intros c d H. rewrite hexdigit_val in H. unfold hex_val in H. destruct digit_val as [x|]; [|discriminate].
  destruct (N.ltb_spec x 16); [|discriminate]. now injection H as <-. Qed.

Lemma digits_bound : forall g ds, map hexdigit g = map Some ds -> Forall (fun d => d < 16) ds.
Proof.
  induction g as [|c g IH]; intros [|d ds] H; try discriminate; constructor; cbn [map] in H; injection H as H1 H2.
  now apply hexdigit_bound in H1. now apply IH.
Qed.

Lemma map_some_length : forall {A C} (f : A -> option C) g ds, map f g = map Some ds -> List.length g = List.length ds.
Proof. intros A C f g ds H. apply (f_equal (@List.length _)) in H. now rewrite !map_length in H. Qed.

Definition nohex (s : bytes) : Prop := match s with [] => True | c :: _ => hexdigit c = None end.

Lemma hex_group_text : forall ds g off acc rest, map hexdigit g = map Some ds -> (off + List.length ds <= 4)%nat ->
  acc * 16 ^ N.of_nat (List.length ds) + num 16 ds <= 65535 -> nohex rest ->
  hex_group (g ++ rest) off acc = Some (acc * 16 ^ N.of_nat (List.length ds) + num 16 ds, (off + List.length ds)%nat, rest).
Proof.
  induction ds as [|d ds IH]; intros [|c g] off acc rest H L V R; try discriminate; cbn [app].
  - cbn [List.length num]. rewrite N.pow_0_r, Nat.add_0_r. replace (acc * 1 + 0) with acc by lia.
    destruct rest as [|c r]; auto. cbn [hex_group]. cbn [nohex] in R. rewrite hexdigit_val in R. now rewrite R.
  - cbn [map] in H. injection H as H1 H2. cbn [List.length num] in *. cbn [hex_group]. rewrite <- hexdigit_val, H1.
    rewrite Nat2N.inj_succ, N.pow_succ_r' in *. set (p := 16 ^ N.of_nat (List.length ds)) in *.
    assert (P : 0 < p) by (apply pow_pos; lia).
    replace (3 <? off)%nat with false by (symmetry; apply Nat.ltb_ge; lia).
    replace (65535 <? acc * 16 + d) with false by (symmetry; apply N.ltb_ge; nia).
    rewrite (IH g (S off) (acc * 16 + d) rest); auto; try lia. all: fold p; try lia. f_equal. f_equal. f_equal; lia.
Qed.

Lemma group_bound : forall g w, group_text g w -> w < 65536.
Proof.
  intros g w (ds & H & L & <-). assert (Bd := num_bound 16 ds ltac:(lia) (digits_bound g ds H)).
  eapply N.lt_le_trans; [exact Bd|]. change 65536 with (16 ^ 4). apply N.pow_le_mono_r; lia.
Qed.

Lemma group_read : forall g w rest, group_text g w -> nohex rest ->
  exists off, hex_group (g ++ rest) 0 0 = Some (w, S off, rest).
Proof.
  intros g w rest G R. assert (W := group_bound g w G). destruct G as (ds & H & L & E).
  exists (List.length ds - 1)%nat. rewrite (hex_group_text ds g 0 0 rest H); try lia; auto. f_equal. f_equal. f_equal; lia.
Qed.

Lemma group_head : forall g w, group_text g w -> exists c r d, g = c :: r /\ hexdigit c = Some d.
Proof.
  intros [|c g] w ([|d ds] & H & L & _); try discriminate; cbn [List.length] in L; try lia.
  cbn [map] in H. injection H as H _. exists c, g, d. auto.
Qed.

Lemma dec_format : forall n, dec n = format_uint 10 n.
Proof. intros n. unfold dec. rewrite int_out_dec by lia. now rewrite N2Z.id. Qed.

Lemma byte_cases : forall (P : N -> Prop), (forall k, (k < 256)%nat -> P (N.of_nat k)) -> forall n, n < 256 -> P n.
Proof. intros P H n L. replace n with (N.of_nat (N.to_nat n)) by lia. apply H. lia. Qed.

Lemma v4_num : forall n r acc, n < 256 -> v4_fields (dec n ++ r) 0 0 acc = v4_fields r n (List.length (dec n)) acc.
Proof.
  intros n r acc L. rewrite dec_format. destruct n as [|p]; [reflexivity|].
  do 8 (destruct p as [p|p|]; try reflexivity); exfalso; lia.
Qed.

Lemma dec_len : forall n, exists k, List.length (dec n) = S k.
Proof.
  intros n. rewrite dec_format. destruct (format_uint 10 n) as [|c r] eqn:E. now apply format_uint_nonempty in E.
  now exists (List.length r).
Qed.

Lemma v4_dot : forall n k acc r, (List.length acc < 3)%nat -> r <> [] ->
  v4_fields ("." :: r) n (S k) acc = v4_fields r 0 0 (acc ++ [n]).
Proof.
  intros n k acc r L R. cbn [v4_fields]. change (dec_val ".") with (@None N). cbv iota.
  change (beq "." ".") with true. cbv iota. destruct r; [congruence|]. cbn [Nat.eqb orb].
  replace (List.length acc =? 3)%nat with false by (symmetry; apply Nat.eqb_neq; lia). reflexivity.
Qed.

Lemma quad_read : forall b l, quad_text b l -> v4_fields b 0 0 [] = Some l.
Proof.
  intros b l (L & F & ->). destruct l as [|x [|y [|z [|t [|]]]]]; try discriminate. repeat (inversion F as [|? ? ? F']; subst; clear F; rename F' into F).
  cbn [map joined]. 
  assert (NE : forall n r, dec n ++ r <> []).
  { intros n r E. destruct (dec_len n) as [k K]. apply app_eq_nil in E. destruct E as [E _]. rewrite E in K. discriminate. }
  assert (NE' : forall n, dec n <> []) by (intros n E; apply (NE n []); now rewrite app_nil_r).
  destruct (dec_len x) as [kx Kx], (dec_len y) as [ky Ky], (dec_len z) as [kz Kz].
  rewrite v4_num by auto. rewrite Kx, v4_dot by (auto; cbn; lia).
  rewrite v4_num by auto. rewrite Ky, v4_dot by (auto; cbn; lia).
  rewrite v4_num by auto. rewrite Kz, v4_dot by (auto; cbn; lia).
  rewrite <- (app_nil_r (dec t)), v4_num by auto. reflexivity.
Qed.

Lemma dec_hex : forall x r, x < 256 -> exists w off, hex_group (dec x ++ "." :: r) 0 0 = Some (w, S off, "." :: r).
Proof.
  intros x r L. rewrite dec_format. destruct x as [|p]; [do 2 eexists; reflexivity|].
  do 8 (destruct p as [p|p|]; try (do 2 eexists; reflexivity)); exfalso; lia.
Qed.

Lemma quad_head : forall b l, quad_text b l -> exists x r, x < 256 /\ b = dec x ++ "." :: r.
Proof.
  intros b l (L & F & ->). destruct l as [|x [|y l]]; try discriminate. inversion F; subst. cbn [map joined]. eauto.
Qed.

Lemma dec_head : forall x, x < 256 -> exists c r d, dec x = c :: r /\ hexdigit c = Some d.
Proof.
  intros x L. rewrite dec_format. destruct x as [|p]; [do 3 eexists; split; reflexivity|].
  do 8 (destruct p as [p|p|]; try (do 3 eexists; split; reflexivity)); exfalso; lia.
Qed.

(** ** IPv6 *)

Lemma joined_cons : forall c t l, l <> [] -> joined c (t :: l) = t ++ c :: joined c l.
Proof. intros c t [|x l] H; [congruence|reflexivity]. Qed.

Lemma joined_snoc : forall c l t, l <> [] -> joined c (l ++ [t]) = joined c l ++ c :: t.
Proof.
  intros c l t. induction l as [|x l IH]; intros H; [congruence|]. destruct l as [|y l]; [reflexivity|].
  change ((x :: y :: l) ++ [t]) with (x :: ((y :: l) ++ [t])). rewrite joined_cons by (now destruct l).
  rewrite IH by congruence. cbn [joined]. now rewrite <- !app_assoc.
Qed.

Lemma forall2_nil : forall {A C} (R : A -> C -> Prop) l r, Forall2 R l r -> r <> [] -> l <> [].
Proof. intros A C R l r F H E. subst l. inversion F. congruence. Qed.

Lemma loop_step : forall k g w rest acc ell, group_text g w ->
  v6_loop (S k) (g ++ ":" :: rest) acc ell =
    match rest with
    | [] => None
    | c1 :: r2 =>
        if beq c1 ":" then
          match ell with
          | Some _ => None
          | None => match r2 with
                    | [] => Some (acc ++ [w], Some (S (List.length acc)), [])
                    | _ => v6_loop k r2 (acc ++ [w]) (Some (S (List.length acc)))
                    end
          end
        else v6_loop k rest (acc ++ [w]) ell
    end.
Proof.
  intros k g w rest acc ell G. destruct (group_read g w (":" :: rest) G) as [off E]. reflexivity.
  cbn [v6_loop]. unfold text, bytes in *. rewrite E. cbn [Nat.eqb]. change (beq ":" ".") with false. change (beq ":" ":") with true. cbv iota.
  destruct rest as [|c1 r2]; auto.
Qed.

Lemma loop_last : forall k g w acc ell, group_text g w -> v6_loop (S k) g acc ell = Some (acc ++ [w], ell, []).
Proof.
  intros k g w acc ell G. destruct (group_read g w [] G) as [off E]. exact Logic.I. rewrite app_nil_r in E.
  cbn [v6_loop]. unfold text, bytes in *. now rewrite E.
Qed.

(** Groups followed by a colon and something that does not begin with one. *)
Lemma loop_groups_then : forall gs ws, Forall2 group_text gs ws -> forall k acc ell c rest,
  ws <> [] -> (List.length ws <= k)%nat -> c <> ":" ->
  v6_loop k (joined ":" gs ++ ":" :: c :: rest) acc ell = v6_loop (k - List.length ws) (c :: rest) (acc ++ ws) ell.
Proof.
  induction 1 as [|g w gs ws G F IH]; intros k acc ell c rest N L C; [congruence|].
  destruct k as [|k]; [cbn in L; lia|]. cbn [List.length] in L.
  assert (BC : beq c ":" = false) by (apply Ascii.eqb_neq; auto).
  destruct gs as [|g2 gs].
  - inversion F; subst. cbn [joined List.length]. rewrite (loop_step k g w _ acc ell G), BC. now rewrite Nat.sub_succ, Nat.sub_0_r.
  - rewrite joined_cons by congruence. rewrite <- app_assoc. cbn [app]. rewrite (loop_step k g w _ acc ell G).
    inversion F as [|? w2 ? ws2 G2 F2]; subst. destruct (group_head g2 w2 G2) as (c2 & r2 & d2 & E2 & HX).
    assert (E : exists r, joined ":" (g2 :: gs) ++ ":" :: c :: rest = c2 :: r).
    { subst g2. destruct gs; cbn [joined]; eexists; cbn [app]; reflexivity. }
    destruct E as [r E]. rewrite E. replace (beq c2 ":") with false.
    2:{ symmetry. apply Ascii.eqb_neq. intros ->. discriminate HX. }
    rewrite <- E. rewrite IH; auto; try congruence; try lia. rewrite <- app_assoc. reflexivity.
Qed.

Lemma loop_groups : forall gs ws, Forall2 group_text gs ws -> forall k acc ell,
  ws <> [] -> (List.length ws <= k)%nat -> v6_loop k (joined ":" gs) acc ell = Some (acc ++ ws, ell, []).
Proof.
  intros gs ws F k acc ell N L.
  destruct (@exists_last _ gs (forall2_nil _ _ _ F N)) as (gs' & g & ->).
  apply Forall2_app_inv_l in F. destruct F as (ws' & wl & F & Fl & ->). inversion Fl as [|? w ? ? G Fn]; subst. inversion Fn; subst. clear Fl Fn.
  rewrite app_length in L. cbn [List.length] in L. destruct gs' as [|g1 gs'].
  - inversion F; subst. cbn [app joined]. destruct k; [cbn in L; lia|]. now apply loop_last.
  - rewrite joined_snoc by congruence. destruct (group_head g w G) as (c & r & d & -> & HX).
    rewrite (loop_groups_then _ _ F); try lia. 
    + destruct (k - List.length ws')%nat as [|k'] eqn:EK; [lia|]. rewrite (loop_last k' _ w _ _ G). now rewrite app_assoc.
    + intros ->. inversion F.
    + intros ->. discriminate HX.
Qed.

Lemma loop_ellipsis : forall gs ws, Forall2 group_text gs ws -> forall k acc rest,
  ws <> [] -> (List.length ws <= k)%nat ->
  v6_loop k (joined ":" gs ++ ":" :: ":" :: rest) acc None
  = match rest with
    | [] => Some (acc ++ ws, Some (List.length acc + List.length ws)%nat, [])
    | _ => v6_loop (k - List.length ws) rest (acc ++ ws) (Some (List.length acc + List.length ws)%nat)
    end.
Proof.
  intros gs ws F k acc rest N L.
  destruct (@exists_last _ gs (forall2_nil _ _ _ F N)) as (gs' & g & ->).
  apply Forall2_app_inv_l in F. destruct F as (ws' & wl & F & Fl & ->). inversion Fl as [|? w ? ? G Fn]; subst. inversion Fn; subst. clear Fl Fn.
  rewrite app_length in *. cbn [List.length] in *.
  assert (St : forall k acc, v6_loop (S k) (g ++ ":" :: ":" :: rest) acc None
    = match rest with
      | [] => Some (acc ++ [w], Some (S (List.length acc)), [])
      | _ => v6_loop k rest (acc ++ [w]) (Some (S (List.length acc)))
      end).
  { intros k0 acc0. rewrite (loop_step k0 g w _ acc0 None G). reflexivity. }
  destruct gs' as [|g1 gs'].
  - inversion F; subst. cbn [app joined List.length] in *. destruct k; [lia|]. rewrite St.
    replace (S k - (0 + 1))%nat with k by lia. replace (List.length acc + (0 + 1))%nat with (S (List.length acc)) by lia. reflexivity.
  - rewrite joined_snoc by congruence. rewrite <- app_assoc. cbn [app].
    destruct (group_head g w G) as (c & r & d & E & HX).
    replace (joined ":" (g1 :: gs') ++ ":" :: g ++ ":" :: ":" :: rest)
      with (joined ":" (g1 :: gs') ++ ":" :: c :: (r ++ ":" :: ":" :: rest)) by (now rewrite E).
    rewrite (loop_groups_then _ _ F); try lia.
    + replace (c :: r ++ ":" :: ":" :: rest) with (g ++ ":" :: ":" :: rest) by (now rewrite E).
      destruct (k - List.length ws')%nat as [|k'] eqn:EK; [lia|]. rewrite St.
      rewrite app_length, <- app_assoc. replace (k - (List.length ws' + 1))%nat with k' by lia.
      replace (List.length acc + (List.length ws' + 1))%nat with (S (List.length acc + List.length ws')) by lia. reflexivity.
    + intros ->. inversion F.
    + intros ->. discriminate HX.
Qed.

Lemma loop_quad : forall q x y z t, quad_text q [x; y; z; t] -> forall k acc ell,
  (2 <= k)%nat -> (ell <> None \/ List.length acc = 6%nat) ->
  v6_loop k q acc ell = Some (acc ++ [num 256 [x; y]; num 256 [z; t]], ell, []).
Proof.
  intros q x y z t Q k acc ell K C. assert (R := quad_read q _ Q). destruct (quad_head q _ Q) as (x0 & r & X & E).
  destruct (dec_hex x0 r X) as (w & off & H). destruct k as [|k]; [lia|]. cbn [v6_loop].
  unfold text, bytes in *. rewrite R. rewrite E, H. cbn [Nat.eqb]. change (beq "." ".") with true. cbv iota.
  replace (match ell with Some _ => false | None => negb (List.length acc =? 6)%nat end) with false.
  2:{ destruct ell; auto. destruct C as [C|C]; [congruence|]. rewrite C. reflexivity. }
  replace (S k <? 2)%nat with false by (symmetry; apply Nat.ltb_ge; lia).
  cbn [pair_words num List.length]. rewrite N.pow_0_r. change (256 ^ N.of_nat 1) with 256.
  repeat f_equal; lia.
Qed.

Lemma tail_head : forall b ws, tail_text b ws -> ws <> [] -> exists c r d, b = c :: r /\ hexdigit c = Some d.
Proof.
  intros b ws [(gs & F & ->)|(gs & ws' & q & x & y & z & t & F & Q & -> & ->)] N.
  - inversion F as [|g w gs' ws' G F' E1 E2]; subst; [congruence|]. destruct (group_head g w G) as (c & r & d & -> & H).
    destruct gs'; cbn [joined app]; eauto.
  - inversion F as [|g w gs' ws2 G F' E1 E2]; subst.
    + cbn [app joined]. destruct (quad_head q _ Q) as (x0 & r & X & ->). destruct (dec_head x0 X) as (c & r' & d & -> & H).
      cbn [app]. eauto.
    + destruct (group_head g w G) as (c & r & d & -> & H). change (((c :: r) :: gs') ++ [q]) with ((c :: r) :: (gs' ++ [q])).
      rewrite joined_cons by (now destruct gs'). cbn [app]. eauto.
Qed.

Lemma loop_tail : forall b ws, tail_text b ws -> forall k acc ell, ws <> [] -> (List.length ws <= k)%nat ->
  (ell <> None \/ (List.length acc + List.length ws = 8)%nat) ->
  v6_loop k b acc ell = Some (acc ++ ws, ell, []).
Proof.
  intros b ws [(gs & F & ->)|(gs & ws' & q & x & y & z & t & F & Q & -> & ->)] k acc ell N L C.
  - now apply loop_groups.
  - rewrite app_length in *. cbn [List.length] in *. destruct gs as [|g gs].
    + inversion F; subst. cbn [app joined] in *. apply loop_quad; auto. destruct C; [auto|right; cbn in *; lia].
    + rewrite joined_snoc by congruence. destruct (quad_head q _ Q) as (x0 & r & X & E). destruct (dec_head x0 X) as (c & r' & d & E' & H).
      assert (E2 : q = c :: (r' ++ "." :: r)) by (now rewrite E, E'). rewrite E2, (loop_groups_then _ _ F); try lia.
      * rewrite <- E2. rewrite (loop_quad q x y z t Q); try lia. now rewrite app_assoc.
        destruct C; [auto|right; rewrite app_length; lia].
      * intros ->. inversion F.
      * intros ->. discriminate H.
Qed.

Lemma tail_nil : forall b, tail_text b [] -> b = [].
Proof.
  intros b [(gs & F & ->)|(gs & ws' & q & x & y & z & t & F & Q & -> & E)].
  - inversion F. reflexivity.
  - now destruct ws'.
Qed.

Lemma prefix_hex : forall c r d, hexdigit c = Some d -> has_prefix (B "::") (c :: r) = false.
Proof.
  intros c r d H. change (has_prefix (B "::") (c :: r)) with (beq ":" c && has_prefix (B ":") r)%bool.
  destruct (beq ":" c) eqn:E; auto. apply Ascii.eqb_eq in E. subst. discriminate.
Qed.

Lemma groups_head : forall b ws, groups_text b ws -> ws <> [] -> exists c r d, b = c :: r /\ hexdigit c = Some d.
Proof. intros b ws G. apply tail_head. now left. Qed.

Lemma words_read : forall b ws, words_text b ws -> parse_v6 b = Some ws.
Proof.
  intros b ws (L & [T|(p & q & bp & bq & n & N & -> & G & T & ->)]).
  - assert (NE : ws <> []) by (intros ->; discriminate). destruct (tail_head b ws T NE) as (c & r & d & E & H).
    unfold parse_v6. rewrite E, (prefix_hex c r d H), <- E. rewrite (loop_tail b ws T); auto; try lia.
    cbn [app]. rewrite L. reflexivity.
  - rewrite !app_length, repeat_length in L. destruct p as [|w p].
    + destruct G as (gs & F & ->). inversion F; subst. cbn [joined app]. unfold parse_v6.
      change (has_prefix (B "::") (":" :: ":" :: bq)) with true. cbv iota. cbn [skipn]. destruct q as [|w q].
      * apply tail_nil in T. subst bq. cbn [List.length] in L. rewrite app_nil_r. do 2 f_equal. lia.
      * destruct (tail_head bq _ T) as (c & r & d & E & H); [congruence|]. rewrite E, <- E.
        rewrite (loop_tail bq _ T); auto; try congruence; try (left; congruence); [|cbn [List.length] in *; lia].
        cbn [app]. cbn [List.length Nat.add] in L.
        replace (List.length (w :: q) <? 8)%nat with true by (symmetry; apply Nat.ltb_lt; cbn [List.length]; lia).
        cbn [firstn skipn app]. do 3 f_equal. cbn [List.length]. lia.
    + destruct (groups_head bp _ G) as (c & r & d & E & H); [congruence|]. unfold parse_v6.
      assert (P : has_prefix (B "::") (bp ++ ":" :: ":" :: bq) = false) by (rewrite E; cbn [app]; eapply prefix_hex; eauto).
      unfold text, bytes in *. rewrite P. destruct G as (gs & F & ->).
      rewrite (loop_ellipsis _ _ F); try congruence; [|cbn [List.length] in *; lia]. cbn [List.length Nat.add] in *. destruct q as [|w' q].
      * apply tail_nil in T. subst bq. cbn [app] in *. rewrite app_nil_r in *.
        rewrite (firstn_all2 (w :: p)), (skipn_all2 (w :: p)), app_nil_r by (cbn [List.length]; lia). cbn [app List.length].
        cbn [List.length] in L. replace (8 - S (List.length p))%nat with n by lia.
        destruct (Nat.ltb_spec (S (List.length p)) 8); [reflexivity|lia].
      * destruct (tail_head bq _ T) as (c2 & r2 & d2 & E2 & H2); [congruence|]. rewrite E2, <- E2.
        rewrite (loop_tail bq _ T); auto; try congruence; try (left; congruence); [|cbn [List.length] in *; lia].
        cbn [app]. cbn [List.length Nat.add] in *. rewrite app_length. cbn [List.length] in *.
        destruct (Nat.ltb_spec (S (List.length p + S (List.length q))) 8); [|lia].
        cbn [firstn skipn]. rewrite firstn_app, firstn_all, Nat.sub_diag, skipn_app, skipn_all, Nat.sub_diag. cbn [firstn skipn app].
        rewrite app_nil_r. replace (8 - S (List.length p + S (List.length q)))%nat with n by lia. reflexivity.
Qed.

(** ** The characters of addresses *)

Definition nchar (c : ascii) : bool :=
  match hexdigit c with Some _ => true | None => beq c ":" || beq c "." || beq c "/" end.

Lemma nchar_digits : forall g ds, map hexdigit g = map Some ds -> forallb nchar g = true.
Proof.
  induction g as [|c g IH]; intros [|d ds] H; try discriminate; auto. cbn [map] in H. injection H as H1 H2.
  cbn [forallb]. unfold nchar at 1. rewrite H1. cbn [andb]. eapply IH, H2.
Qed.

Lemma nchar_joined : forall c l, nchar c = true -> Forall (fun t => forallb nchar t = true) l -> forallb nchar (joined c l) = true.
Proof.
  intros c l C. induction 1 as [|t l T F IH]; auto. destruct l as [|u l]; [exact T|].
  rewrite joined_cons by congruence. rewrite forallb_app. cbn [forallb]. now rewrite T, C, IH.
Qed.

Lemma parse_hexdigits : forall s acc n, parse_digits 16 acc s = Some n ->
  exists ds, map hexdigit s = map Some ds /\ n = acc * 16 ^ N.of_nat (List.length ds) + num 16 ds.
Proof.
  induction s as [|c s IH]; intros acc n H; cbn [parse_digits] in H.
  - injection H as <-. exists []. split; auto. cbn. lia.
  - destruct (digit_val c) as [d|] eqn:E; [|discriminate]. destruct (d <? 16) eqn:L; [|discriminate].
    apply IH in H. destruct H as (ds & E1 & E2). exists (d :: ds). split.
    + cbn [map]. rewrite E1, hexdigit_val. unfold hex_val. now rewrite E, L.
    + subst n. cbn [num List.length]. rewrite Nat2N.inj_succ, N.pow_succ_r'. lia.
Qed.

Lemma parse_decdigits : forall s acc n, parse_digits 10 acc s = Some n -> forallb nchar s = true.
Proof.
  induction s as [|c s IH]; intros acc n H; cbn [parse_digits] in H; auto.
  destruct (digit_val c) as [d|] eqn:E; [|discriminate]. destruct (d <? 10) eqn:L; [|discriminate].
  cbn [forallb]. rewrite (IH _ _ H). unfold nchar. rewrite hexdigit_val. unfold hex_val. rewrite E.
  apply N.ltb_lt in L. replace (d <? 16) with true by (symmetry; apply N.ltb_lt; lia). reflexivity.
Qed.

Lemma nchar_dec : forall n, forallb nchar (dec n) = true.
Proof. intros n. rewrite dec_format. eapply parse_decdigits. apply format_uint_value; lia. Qed.

Lemma nchar_quad : forall b l, quad_text b l -> forallb nchar b = true.
Proof.
  intros b l (_ & _ & ->). apply nchar_joined; auto. clear. induction l; constructor; auto. apply nchar_dec.
Qed.
Lemma nchar_groups : forall gs ws, Forall2 group_text gs ws -> Forall (fun t => forallb nchar t = true) gs.
Proof. induction 1 as [|g w gs ws (ds & H & _)]; constructor; auto. eapply nchar_digits, H. Qed.
Lemma nchar_tail : forall b ws, tail_text b ws -> forallb nchar b = true.
Proof.
  intros b ws [(gs & F & ->)|(gs & ws' & q & x & y & z & t & F & Q & -> & ->)]; apply nchar_joined; auto.
  - now apply nchar_groups in F.
  - apply Forall_app. split. now apply nchar_groups in F. repeat constructor. eapply nchar_quad, Q.
Qed.
Lemma nchar_addr : forall b a, addr_text b a -> forallb nchar b = true.
Proof.
  intros b [n|n].
  - intros (l & Q & _). eapply nchar_quad, Q.
  - intros (ws & (_ & [T|(p & q & bp & bq & k & _ & _ & G & T & ->)]) & _). eapply nchar_tail, T.
    rewrite forallb_app. cbn [forallb]. rewrite (nchar_tail bp p), (nchar_tail bq q); auto. now left.
Qed.

(** No slash in an address. *)
Definition achar (c : ascii) : bool := nchar c && negb (beq c "/").

Lemma beq_hex : forall c d x, hexdigit c = Some d -> hexdigit x = None -> beq c x = false.
Proof. intros c d x H X. apply Ascii.eqb_neq. intros ->. congruence. Qed.

Lemma achar_digits : forall g ds, map hexdigit g = map Some ds -> forallb achar g = true.
Proof.
  induction g as [|c g IH]; intros [|d ds] H; try discriminate; auto. cbn [map] in H. injection H as H1 H2.
  cbn [forallb]. unfold achar at 1, nchar. rewrite H1, (beq_hex c d "/" H1 eq_refl). cbn [andb negb]. eapply IH, H2.
Qed.
Lemma achar_joined : forall c l, achar c = true -> Forall (fun t => forallb achar t = true) l -> forallb achar (joined c l) = true.
Proof.
  intros c l C. induction 1 as [|t l T F IH]; auto. destruct l as [|u l]; [exact T|].
  rewrite joined_cons by congruence. rewrite forallb_app. cbn [forallb]. now rewrite T, C, IH.
Qed.
Lemma achar_dec : forall n, n < 256 -> forallb achar (dec n) = true.
Proof.
  intros n L. rewrite dec_format. destruct n as [|p]; [reflexivity|].
  do 8 (destruct p as [p|p|]; try reflexivity); exfalso; lia.
Qed.
Lemma achar_quad : forall b l, quad_text b l -> forallb achar b = true.
Proof.
  intros b l (_ & F & ->). apply achar_joined; auto. induction F; constructor; auto. now apply achar_dec.
Qed.
Lemma achar_groups : forall gs ws, Forall2 group_text gs ws -> Forall (fun t => forallb achar t = true) gs.
Proof. induction 1 as [|g w gs ws (ds & H & _)]; constructor; auto. eapply achar_digits, H. Qed.
Lemma achar_tail : forall b ws, tail_text b ws -> forallb achar b = true.
Proof.
  intros b ws [(gs & F & ->)|(gs & ws' & q & x & y & z & t & F & Q & -> & ->)]; apply achar_joined; auto.
  - now apply achar_groups in F.
  - apply Forall_app. split. now apply achar_groups in F. repeat constructor. eapply achar_quad, Q.
Qed.
Lemma achar_addr : forall b a, addr_text b a -> forallb achar b = true.
Proof.
  intros b [n|n].
  - intros (l & Q & _). eapply achar_quad, Q.
  - intros (ws & (_ & [T|(p & q & bp & bq & k & _ & _ & G & T & ->)]) & _). eapply achar_tail, T.
    rewrite forallb_app. cbn [forallb]. rewrite (achar_tail bp p), (achar_tail bq q); auto. now left.
Qed.

Lemma no_percent : forall b, forallb nchar b = true -> existsb (fun c => beq c "%") b = false.
Proof.
  induction b as [|c b IH]; intros H; auto. cbn [forallb] in H. apply andb_true_iff in H. destruct H as [H1 H2].
  cbn [existsb]. rewrite IH by auto. destruct (beq c "%") eqn:E; auto. apply Ascii.eqb_eq in E. subst c. discriminate.
Qed.

Lemma kind_digits : forall g ds r, map hexdigit g = map Some ds -> addr_kind (g ++ r) = addr_kind r.
Proof.
  induction g as [|c g IH]; intros [|d ds] r H; try discriminate; auto. cbn [map] in H. injection H as H1 H2.
  cbn [app addr_kind]. rewrite (beq_hex c d "." H1 eq_refl), (beq_hex c d ":" H1 eq_refl). eapply IH, H2.
Qed.

Lemma kind_dec : forall n r, n < 256 -> addr_kind (dec n ++ "." :: r) = Some true.
Proof.
  intros n r L. rewrite dec_format. destruct n as [|p]; [reflexivity|].
  do 8 (destruct p as [p|p|]; try reflexivity); exfalso; lia.
Qed.

Lemma kind_words : forall b ws, words_text b ws -> addr_kind b = Some false.
Proof.
  intros b ws (L & [T|(p & q & bp & bq & n & N & -> & (gs & F & ->) & T & ->)]).
  - assert (exists g gs, Forall2 group_text [g] [hd 0 ws] /\ gs <> [] /\ b = joined ":" (g :: gs)) as (g & gs & F & NE & ->).
    { destruct T as [(gs & F & ->)|(gs & ws' & q & x & y & z & t & F & Q & -> & ->)].
      - destruct F as [|g w gs ws G F]; [discriminate|]. exists g, gs. split; [repeat constructor; auto|]. split; auto.
        intros ->. inversion F. subst. discriminate.
      - rewrite app_length in L. cbn [List.length] in L. destruct F as [|g w gs ws' G F]; [cbn in L; lia|].
        exists g, (gs ++ [q]). split; [repeat constructor; auto|]. split; auto. now destruct gs. }
    rewrite joined_cons by auto. inversion F as [|? ? ? ? (ds & H & _)]; subst. rewrite (kind_digits g ds _ H). reflexivity.
  - destruct F as [|g w gs ws G F]; [reflexivity|]. destruct G as (ds & H & _).
    destruct gs as [|g2 gs]. cbn [joined]. rewrite (kind_digits g ds _ H). reflexivity.
    rewrite joined_cons by congruence. rewrite <- app_assoc. rewrite (kind_digits g ds _ H). reflexivity.
Qed.

Definition addr_is (ad : addr) (a : inaddr) : Prop :=
  match ad, a with
  | Addr4 l, V4 n => List.length l = 4%nat /\ Forall (fun d => d < 256) l /\ num 256 l = n
  | Addr6 ws, V6 n => List.length ws = 8%nat /\ Forall (fun w => w < 65536) ws /\ num 65536 ws = n
  | _, _ => False
  end.

Lemma groups_bound : forall gs ws, Forall2 group_text gs ws -> Forall (fun w => w < 65536) ws.
Proof. induction 1; constructor; auto. eapply group_bound; eauto. Qed.
Lemma tail_bound : forall b ws, tail_text b ws -> Forall (fun w => w < 65536) ws.
Proof.
  intros b ws [(gs & F & ->)|(gs & ws' & q & x & y & z & t & F & (_ & Q & _) & -> & ->)].
  - eapply groups_bound; eauto.
  - apply Forall_app. split. eapply groups_bound; eauto. rewrite Forall_forall in Q.
    assert (x < 256 /\ y < 256 /\ z < 256 /\ t < 256) as (X & Y & Z & T) by (repeat split; apply Q; simpl; auto).
    cbn [num List.length]. rewrite N.pow_0_r. change (256 ^ N.of_nat 1) with 256. repeat constructor; lia.
Qed.
Lemma words_bound : forall b ws, words_text b ws -> Forall (fun w => w < 65536) ws.
Proof.
  intros b ws (L & [T|(p & q & bp & bq & n & N & -> & (gs & F & ->) & T & ->)]). eapply tail_bound; eauto.
  rewrite !Forall_app. split; [eapply groups_bound; eauto|]. split; [|eapply tail_bound; eauto].
  clear. induction n; constructor; auto. lia.
Qed.

Lemma ParseAddr_text : forall b a, addr_text b a -> exists ad, ParseAddr b = Some ad /\ addr_is ad a.
Proof.
  intros b a T. assert (P := no_percent b (nchar_addr b a T)). unfold ParseAddr. rewrite P. destruct a as [n|n].
  - destruct T as (l & Q & E). destruct (quad_head b l Q) as (x & r & X & EB). assert (R := quad_read b l Q).
    exists (Addr4 l). rewrite EB at 1. rewrite (kind_dec x r X). unfold text, bytes in *. rewrite R. split; auto.
    destruct Q as (L & F & _). repeat split; auto.
  - destruct T as (ws & W & E). exists (Addr6 ws). rewrite (kind_words b ws W), (words_read b ws W). split; auto.
    split; [apply W|]. split; auto. eapply words_bound; eauto.
Qed.

(** ** Printing *)

Lemma digs_len : forall fuel b n acc k, 2 <= b -> (0 < k)%nat -> n < b ^ N.of_nat k ->
  (List.length (digs fuel b n acc) <= k + List.length acc)%nat.
Proof.
  induction fuel as [|f IH]; intros b n acc k Hb K L; cbn [digs]. lia.
  destruct (n / b =? 0) eqn:E. cbn [List.length]. lia. apply N.eqb_neq in E. destruct k as [|[|k]]; [lia| |].
  - exfalso. apply E. apply N.div_small. change (N.of_nat 1) with 1 in L. now rewrite N.pow_1_r in L.
  - etransitivity. apply (IH b _ _ (S k)); try lia.
    + apply N.div_lt_upper_bound. lia. rewrite Nat2N.inj_succ, N.pow_succ_r' in L. exact L.
    + cbn [List.length]. lia.
Qed.

Lemma group_format : forall w, w < 65536 -> group_text (format_uint 16 w) w.
Proof.
  intros w W. assert (V := format_uint_value 16 w). destruct (parse_hexdigits _ _ _ (V ltac:(lia) ltac:(lia))) as (ds & E1 & E2).
  exists ds. split; auto. split; [|lia]. rewrite <- (map_some_length _ _ _ E1). split.
  - destruct (format_uint 16 w) eqn:E. now apply format_uint_nonempty in E. cbn. lia.
  - unfold format_uint. etransitivity. apply (digs_len _ 16 w [] 4); [lia|lia|exact W]. cbn. lia.
Qed.

Lemma join_joined : forall c l, join [c] l = joined c l.
Proof. induction l as [|t [|u l] IH]; auto. cbn [join joined] in *. now rewrite IH. Qed.

Lemma groups_format : forall ws, Forall (fun w => w < 65536) ws -> groups_text (join (B ":") (map (format_uint 16) ws)) ws.
Proof.
  intros ws F. exists (map (format_uint 16) ws). split; [|apply (join_joined ":")].
  induction F; constructor; auto. now apply group_format.
Qed.

Definition run_ok (full : list N) (b : option (nat * nat)) : Prop :=
  match b with
  | None => True
  | Some (s, e) => (s < e)%nat /\ full = firstn s full ++ repeat 0 (e - s) ++ skipn e full
  end.

Lemma zeros_spec : forall ws, ws = repeat 0 (zeros ws) ++ skipn (zeros ws) ws.
Proof.
  induction ws as [|w ws IH]; auto. cbn [zeros]. destruct (N.eqb_spec w 0) as [->|]; auto. cbn [repeat skipn app]. now rewrite <- IH.
Qed.
Lemma zeros_le : forall ws, (zeros ws <= List.length ws)%nat.
Proof. induction ws as [|w ws IH]; auto. cbn [zeros List.length]. destruct (w =? 0); lia. Qed.

Lemma best_run_ok : forall ws pre b, run_ok (pre ++ ws) b -> run_ok (pre ++ ws) (best_run ws (List.length pre) b).
Proof.
  induction ws as [|w ws IH]; intros pre b H; auto. cbn [best_run].
  replace (pre ++ w :: ws) with ((pre ++ [w]) ++ ws) in * by (now rewrite <- app_assoc).
  replace (S (List.length pre)) with (List.length (pre ++ [w])) by (rewrite app_length; cbn; lia). apply IH.
  destruct ((2 <=? zeros (w :: ws))%nat && _) eqn:E; auto. apply andb_true_iff in E. destruct E as [E _]. apply Nat.leb_le in E.
  rewrite <- app_assoc. cbn [app]. set (k := zeros (w :: ws)) in *. set (l := w :: ws) in *. cbn [run_ok]. split; [lia|].
  rewrite firstn_app, firstn_all2, Nat.sub_diag, skipn_app, (skipn_all2 pre) by lia. cbn [firstn app]. rewrite app_nil_r.
  replace (List.length pre + k - List.length pre)%nat with k by lia. f_equal. apply zeros_spec.
Qed.

Lemma string6_text : forall ws, List.length ws = 8%nat -> Forall (fun w => w < 65536) ws -> words_text (string6 ws) ws.
Proof.
  intros ws L F. split; auto. unfold string6. assert (R := best_run_ok ws [] None Logic.I). cbn [app List.length] in R.
  destruct (best_run ws 0 None) as [[s e]|].
  - right. cbn [run_ok] in R. destruct R as [SE R]. exists (firstn s ws), (skipn e ws).
    exists (join (B ":") (map (format_uint 16) (firstn s ws))), (join (B ":") (map (format_uint 16) (skipn e ws))), (e - s)%nat.
    split; [lia|]. split; auto. assert (F' := F). rewrite R in F'. rewrite !Forall_app in F'. destruct F' as (F1 & _ & F2).
    split; [now apply groups_format|]. split; [left; now apply groups_format|]. reflexivity.
  - left. left. now apply groups_format.
Qed.

Lemma string4_text : forall l, List.length l = 4%nat -> Forall (fun d => d < 256) l -> quad_text (string4 l) l.
Proof.
  intros l L F. repeat split; auto. unfold string4. rewrite (join_joined "."). f_equal. apply map_ext. intros. now rewrite dec_format.
Qed.

(** ** Masks *)

Lemma mask_len : forall k n, List.length (cidr_mask k n) = k.
Proof. induction k; intros n; auto. cbn [cidr_mask]. destruct (8 <=? n); cbn [List.length]; now rewrite IHk. Qed.

Lemma mask_zero : forall k, cidr_mask k 0 = repeat 0 k.
Proof. induction k; auto. cbn [cidr_mask repeat]. rewrite IHk. reflexivity. Qed.

Lemma mask_bytes : forall k n, Forall (fun d => d < 256) (cidr_mask k n).
Proof. induction k; intros n; [constructor|]. cbn [cidr_mask]. destruct (8 <=? n); constructor; auto; [lia|]. eapply N.le_lt_trans; [apply N.le_sub_l|lia]. Qed.

Lemma num_zeros : forall b k, num b (repeat 0 k) = 0.
Proof. induction k as [|k IH]; [reflexivity|]. cbn [repeat num]. rewrite IH. lia. Qed.

Lemma small8 : forall (P : N -> Prop), P 0 -> P 1 -> P 2 -> P 3 -> P 4 -> P 5 -> P 6 -> P 7 -> forall n, n < 8 -> P n.
Proof.
  intros P H0 H1 H2 H3 H4 H5 H6 H7 n L. destruct n as [|p]; auto.
  do 3 (destruct p as [p|p|]; auto); exfalso; lia.
Qed.

Lemma pow256 : forall k, 256 ^ N.of_nat k = 2 ^ (8 * N.of_nat k).
Proof. intros k. rewrite N.pow_mul_r. reflexivity. Qed.

Lemma mask_num : forall k n, n <= 8 * N.of_nat k ->
  num 256 (cidr_mask k n) + 2 ^ (8 * N.of_nat k - n) = 2 ^ (8 * N.of_nat k).
Proof.
  induction k as [|k IH]; intros n L.
  - replace n with 0 by lia. reflexivity.
  - cbn [cidr_mask]. rewrite Nat2N.inj_succ in *. destruct (8 <=? n) eqn:E.
    + apply N.leb_le in E. cbn [num]. rewrite mask_len, pow256. specialize (IH (n - 8) ltac:(lia)).
      replace (8 * N.succ (N.of_nat k) - n) with (8 * N.of_nat k - (n - 8)) by lia.
      replace (8 * N.succ (N.of_nat k)) with (8 + 8 * N.of_nat k) by lia. rewrite N.pow_add_r. change (2 ^ 8) with 256. lia.
    + apply N.leb_gt in E. cbn [num]. rewrite mask_len, pow256, mask_zero, num_zeros.
      replace (8 * N.succ (N.of_nat k) - n) with ((8 - n) + 8 * N.of_nat k) by lia.
      replace (8 * N.succ (N.of_nat k)) with (8 + 8 * N.of_nat k) by lia. rewrite !N.pow_add_r.
      set (p := 2 ^ (8 * N.of_nat k)). revert n E L. apply (small8 (fun n => n <= _ -> (255 - 255 / 2 ^ n) * p + 0 + 2 ^ (8 - n) * p = 2 ^ 8 * p));
        intros _; rewrite N.add_0_r, <- N.mul_add_distr_r; reflexivity.
Qed.

Lemma mask_length_cidr : forall k n, n <= 8 * N.of_nat k -> mask_length (cidr_mask k n) = Some n.
Proof.
  induction k as [|k IH]; intros n L.
  - replace n with 0 by lia. reflexivity.
  - cbn [cidr_mask]. rewrite Nat2N.inj_succ in *. destruct (8 <=? n) eqn:E.
    + apply N.leb_le in E. cbn [mask_length]. rewrite IH by lia. change (255 =? 255) with true. cbn [option_map]. f_equal. lia.
    + apply N.leb_gt in E. clear L. rewrite mask_zero.
      assert (Z : forallb (N.eqb 0) (repeat 0 k) = true) by (clear; induction k; auto).
      revert n E. apply small8; cbn [mask_length]; rewrite Z; reflexivity.
Qed.

Lemma land_byte : forall c n, c < 256 -> n < 8 -> N.land c (255 - 255 / 2 ^ n) = c / 2 ^ (8 - n) * 2 ^ (8 - n).
Proof.
  intros c n C L.
  assert (H : forallb (fun c => forallb (fun n => N.land c (255 - 255 / 2 ^ n) =? c / 2 ^ (8 - n) * 2 ^ (8 - n))
    (map N.of_nat (seq 0 8))) (map N.of_nat (seq 0 256)) = true) by (vm_compute; reflexivity).
  rewrite forallb_forall in H. specialize (H c). rewrite forallb_forall in H.
  apply N.eqb_eq, H; apply in_map_iff; [exists (N.to_nat c)|exists (N.to_nat n)]; (split; [lia|apply in_seq; lia]).
Qed.

Lemma land_num : forall l k n, List.length l = k -> Forall (fun d => d < 256) l -> n <= 8 * N.of_nat k ->
  num 256 (land_list l (cidr_mask k n)) = num 256 l / 2 ^ (8 * N.of_nat k - n) * 2 ^ (8 * N.of_nat k - n)
  /\ List.length (land_list l (cidr_mask k n)) = k /\ Forall (fun d => d < 256) (land_list l (cidr_mask k n)).
Proof.
  induction l as [|c l IH]; intros k n <- F L.
  - cbn. repeat split; auto.
  - inversion F as [|? ? C F']; subst. cbn [List.length] in *. rewrite Nat2N.inj_succ in *. cbn [cidr_mask].
    assert (Bd := num_bound 256 l ltac:(lia) F'). rewrite pow256 in Bd.
    destruct (8 <=? n) eqn:E.
    + apply N.leb_le in E. cbn [land_list num]. destruct (IH (List.length l) (n - 8) eq_refl F' ltac:(lia)) as (H1 & H2 & H3).
      rewrite H1, H2. assert (LC : N.land c 255 = c). { change 255 with (N.ones 8). rewrite N.land_ones. apply N.mod_small. exact C. }
      rewrite LC, pow256. split; [|split; [cbn [List.length]; now rewrite H2|constructor; auto]].
      replace (8 * N.succ (N.of_nat (List.length l)) - n) with (8 * N.of_nat (List.length l) - (n - 8)) by lia.
      set (m := 8 * N.of_nat (List.length l) - (n - 8)).
      replace (8 * N.of_nat (List.length l)) with ((8 * N.of_nat (List.length l) - m) + m) by (subst m; lia).
      set (d := 8 * N.of_nat (List.length l) - m). rewrite N.pow_add_r, N.mul_assoc.
      rewrite N.div_add_l by (apply N.pow_nonzero; lia). lia.
    + apply N.leb_gt in E. rewrite mask_zero. cbn [land_list num].
      assert (LZ : land_list l (repeat 0 (List.length l)) = repeat 0 (List.length l)).
      { clear. induction l as [|x l IH]; auto. cbn [List.length repeat land_list]. now rewrite IH, N.land_0_r. }
      rewrite LZ, num_zeros, repeat_length, pow256.
      assert (LC := land_byte c n C E).
      rewrite LC. set (q := 2 ^ (8 * N.of_nat (List.length l))) in *. assert (Q : 0 < q) by (apply pow_pos; lia). split; [|split].
      * replace (8 * N.succ (N.of_nat (List.length l)) - n) with (8 * N.of_nat (List.length l) + (8 - n)) by lia.
        rewrite N.pow_add_r. fold q. assert (P8 : 2 ^ (8 - n) <> 0) by (apply N.pow_nonzero; lia). rewrite <- N.div_div by lia.
        rewrite N.div_add_l by lia. rewrite (N.div_small (num 256 l) q) by auto. rewrite !N.add_0_r. lia.
      * cbn [List.length]. now rewrite repeat_length.
      * constructor. assert (P8 : 2 ^ (8 - n) <> 0) by (apply N.pow_nonzero; lia). assert (D := N.mul_div_le c (2 ^ (8 - n)) P8). lia.
        clear. induction l; constructor; auto. lia.
Qed.
