(** strconv's decimal output (model) is the canonical decimal numeral of the
    standard library (specification), and the parser agrees with it. *)
From Coq Require Import Decimal DecimalFacts DecimalN DecimalZ DecimalString.
From Coq Require Import Ascii String ZArith NArith Bool List Lia.
From Verif Require Import GoBase Strconv StrconvProofs PgSpec.
Import ListNotations.
Local Open Scope N_scope.

Definition decdigit (c : ascii) : bool := (48 <=? N_of_ascii c) && (N_of_ascii c <=? 57).

Definition add_digit (c : ascii) (d : uint) : uint :=
  match N_of_ascii c - 48 with
  | 0 => D0 d | 1 => D1 d | 2 => D2 d | 3 => D3 d | 4 => D4 d
  | 5 => D5 d | 6 => D6 d | 7 => D7 d | 8 => D8 d | _ => D9 d
  end.

Fixpoint to_dec (s : bytes) : uint :=
  match s with [] => Nil | c :: r => add_digit c (to_dec r) end.

Ltac all_ascii c H := destruct c as [[] [] [] [] [] [] [] []]; try discriminate H.

Lemma to_dec_string : forall s, Forall (fun c => decdigit c = true) s ->
  NilEmpty.string_of_uint (to_dec s) = string_of_list_ascii s.
Proof.
  induction 1 as [|c s H F IH]. reflexivity.
  cbn [to_dec string_of_list_ascii].
  rewrite <- IH. clear IH F. all_ascii c H; reflexivity.
Qed.

Lemma to_dec_acc : forall s p, Forall (fun c => decdigit c = true) s ->
  parse_digits 10 (Npos p) s = Some (Npos (Pos.of_uint_acc (to_dec s) p)).
Proof.
  intros s p H. revert p. induction H as [|c s H F IH]; intros p. reflexivity.
  cbn [to_dec parse_digits].
  all_ascii c H;
   match goal with |- context [digit_val ?c] => let v := eval vm_compute in (digit_val c) in
     change (digit_val c) with v; cbv iota;
     match v with Some ?d => change (d <? 10) with true; cbv iota end end;
   match goal with |- context [N.pos p * 10 + ?d] =>
     match d with
     | 0 => replace (N.pos p * 10 + d) with (N.pos (10 * p)) by lia
     | N.pos ?q => replace (N.pos p * 10 + d) with (N.pos (q + 10 * p)) by lia
     end end; rewrite IH; reflexivity.
Qed.

Lemma to_dec_value : forall s, Forall (fun c => decdigit c = true) s ->
  parse_digits 10 0 s = Some (N.of_uint (to_dec s)).
Proof.
  induction 1 as [|c s H F IH]. reflexivity.
  cbn [to_dec parse_digits].
  all_ascii c H;
   match goal with |- context [digit_val ?c] => let v := eval vm_compute in (digit_val c) in
     change (digit_val c) with v; cbv iota;
     match v with Some ?d => change (d <? 10) with true; cbv iota end end;
   match goal with |- context [0 * 10 + ?d] => change (0 * 10 + d) with d end;
   first [ exact IH | rewrite (to_dec_acc s) by exact F; reflexivity ].
Qed.

Lemma decdigit_char : forall d, d < 10 -> decdigit (digit_char d) = true.
Proof.
  intros d H.
  assert (E : forallb (fun d => decdigit (digit_char d)) (map N.of_nat (seq 0 10)) = true)
    by (vm_compute; reflexivity).
  rewrite forallb_forall in E. apply E. apply in_map_iff. exists (N.to_nat d). split. lia.
  apply in_seq. lia.
Qed.

Lemma digs_head : forall fuel n acc, n < 2 ^ N.of_nat fuel -> 0 < n ->
  exists c r, digs fuel 10 n acc = c :: r /\ c <> "0"%char.
Proof.
  induction fuel as [|f IH]; intros n acc L P. { simpl in L. lia. }
  cbn [digs]. destruct (n / 10 =? 0) eqn:E.
  - apply N.eqb_eq in E. exists (digit_char (n mod 10)), acc. split; auto.
    assert (n < 10) by (apply N.div_small_iff in E; lia).
    rewrite N.mod_small by auto. intros C.
    assert (X : digit_val (digit_char n) = Some n) by (apply digit_val_char; lia).
    rewrite C in X. vm_compute in X. injection X as X. lia.
  - apply N.eqb_neq in E. apply IH; [|now apply N.neq_0_lt_0].
    rewrite Nat2N.inj_succ, N.pow_succ_r' in L.
    apply N.div_lt_upper_bound; lia.
Qed.

Lemma nzhead_head : forall c r, decdigit c = true -> c <> "0"%char ->
  unorm (to_dec (c :: r)) = to_dec (c :: r).
Proof.
  intros c r H N. cbn [to_dec]. all_ascii c H; try reflexivity. exfalso; apply N; reflexivity.
Qed.

Lemma format_uint_spec : forall n,
  format_uint 10 n = lit (NilZero.string_of_uint (N.to_uint n)).
Proof.
  intros n.
  assert (F : Forall (fun c => decdigit c = true) (format_uint 10 n)).
  { apply format_uint_chars. lia. apply decdigit_char. }
  pose proof (format_uint_value 10 n ltac:(lia) ltac:(lia)) as V.
  rewrite to_dec_value in V by auto. injection V as V.
  assert (U : unorm (to_dec (format_uint 10 n)) = to_dec (format_uint 10 n)).
  { destruct n as [|p]. reflexivity.
    destruct (digs_head (S (N.to_nat (N.log2 (N.pos p)))) (N.pos p) []) as (c & r & E & H).
    apply log2_fuel. lia.
    unfold format_uint in F |- *. rewrite E in F |- *. apply nzhead_head; auto.
    now apply Forall_inv in F. }
  rewrite <- V at 2. rewrite DecimalN.Unsigned.to_of, U.
  assert (NilZero.string_of_uint (to_dec (format_uint 10 n)) = NilEmpty.string_of_uint (to_dec (format_uint 10 n))) as ->.
  { pose proof (format_uint_nonempty 10 n). destruct (format_uint 10 n) as [|c r]; [congruence|].
    apply Forall_inv in F. cbn [to_dec]. clear - F. all_ascii c F; reflexivity. }
  rewrite to_dec_string by auto. unfold lit. now rewrite list_ascii_of_string_of_list_ascii.
Qed.

Lemma format_int_spec : forall z, format_int 10 z = int_out z.
Proof.
  intros [|p|p]; unfold format_int, int_out.
  - reflexivity.
  - change (Z.pos p <? 0)%Z with false. cbv iota. rewrite format_uint_spec. reflexivity.
  - change (Z.neg p <? 0)%Z with true. cbv iota. change (Z.to_N (- Z.neg p)) with (N.pos p).
    rewrite format_uint_spec. reflexivity.
Qed.

Lemma int_of_string_out : forall z,
  NilZero.int_of_string (NilZero.string_of_int (Z.to_int z)) = Some (Z.to_int z).
Proof.
  intros. apply NilZero.isi.
  - destruct z; simpl; try discriminate. intros E. injection E as E.
    assert (X : Pos.of_uint (Pos.to_uint p) = N.pos p) by apply DecimalPos.Unsigned.of_to.
    rewrite E in X. discriminate.
  - destruct z; simpl; try discriminate. intros E. injection E as E.
    assert (X : Pos.of_uint (Pos.to_uint p) = N.pos p) by apply DecimalPos.Unsigned.of_to.
    rewrite E in X. discriminate.
Qed.

(** The server reads canonical decimal back. *)
Lemma int_in_out : forall z, int_in (int_out z) = Some z.
Proof.
  intros z. pose proof (int_of_string_out z) as H.
  assert (X : string_of_list_ascii (int_out z) = NilZero.string_of_int (Z.to_int z)).
  { unfold int_out, lit. apply string_of_list_ascii_of_string. }
  rewrite <- X in H.
  assert (NP : match int_out z with c :: _ => c <> "+"%char | [] => True end).
  { rewrite <- format_int_spec. pose proof (format_int_numchar z) as F.
    destruct (format_int 10 z); auto. apply Forall_inv in F. intros ->. discriminate. }
  assert (E : int_in (int_out z) = option_map Z.of_int (NilZero.int_of_string (string_of_list_ascii (int_out z)))).
  { destruct (int_out z) as [|c r]; [reflexivity|].
    unfold int_in. destruct c as [[] [] [] [] [] [] [] []]; try reflexivity. exfalso. apply NP. reflexivity. }
  rewrite E, H. simpl. f_equal. apply DecimalZ.of_to.
Qed.
