(** Model of the parts of the standard package unicode/utf8 the repository
    calls: RuneLen, EncodeRune / string(rune), DecodeRune(InString), and the
    decoding loop of [range string] and [bytes.Runes].  A Go rune is a [Z]
    (int32); the decoder only yields non-negative ones. *)
From Coq Require Import Ascii String ZArith NArith Bool List.
From Verif Require Import GoBase.
Import ListNotations.
Local Open Scope N_scope.

Definition RuneError : N := 65533.

(** A Unicode scalar value: what utf8.ValidRune accepts. *)
Definition valid_rune (r : Z) : bool :=
  ((0 <=? r) && (r <? 55296) || (57344 <=? r) && (r <=? 1114111))%Z.

(** Go's conversion byte(r). *)
Definition byte_of (r : Z) : ascii := ascii_of_N (Z.to_N (r mod 256)).

(** utf8.RuneLen: -1 for invalid runes. *)
Definition rune_len (r : Z) : Z :=
  if (r <? 0)%Z then (-1)%Z
  else if (r <=? 127)%Z then 1%Z
  else if (r <=? 2047)%Z then 2%Z
  else if ((55296 <=? r) && (r <=? 57343))%Z then (-1)%Z
  else if (r <=? 65535)%Z then 3%Z
  else if (r <=? 1114111)%Z then 4%Z
  else (-1)%Z.

(** UTF-8 of a scalar value. *)
Definition encode_scalar (n : N) : bytes :=
  if n <? 128 then [chr n]
  else if n <? 2048 then [chr (192 + n / 64); chr (128 + n mod 64)]
  else if n <? 65536 then [chr (224 + n / 4096); chr (128 + n / 64 mod 64); chr (128 + n mod 64)]
  else [chr (240 + n / 262144); chr (128 + n / 4096 mod 64); chr (128 + n / 64 mod 64); chr (128 + n mod 64)].

(** utf8.EncodeRune, string(rune): an invalid rune is written as U+FFFD. *)
Definition encode_rune (r : Z) : bytes :=
  if valid_rune r then encode_scalar (Z.to_N r) else encode_scalar RuneError.

Definition cont (c : ascii) : bool := (128 <=? code c) && (code c <=? 191).
Definition between (lo hi : N) (c : ascii) : bool := (lo <=? code c) && (code c <=? hi).

(** utf8.DecodeRune: rune and width; (RuneError, 0) on empty input,
    (RuneError, 1) on an invalid or truncated sequence. *)
Definition decode_rune (s : bytes) : N * nat :=
  match s with
  | [] => (RuneError, O)
  | c0 :: r =>
      let b0 := code c0 in
      if b0 <? 128 then (b0, 1%nat)
      else if (194 <=? b0) && (b0 <=? 223) then
        match r with
        | c1 :: _ => if cont c1 then ((b0 - 192) * 64 + (code c1 - 128), 2%nat) else (RuneError, 1%nat)
        | _ => (RuneError, 1%nat)
        end
      else if (224 <=? b0) && (b0 <=? 239) then
        match r with
        | c1 :: c2 :: _ =>
            if between (if b0 =? 224 then 160 else 128) (if b0 =? 237 then 159 else 191) c1 && cont c2
            then ((b0 - 224) * 4096 + (code c1 - 128) * 64 + (code c2 - 128), 3%nat) else (RuneError, 1%nat)
        | _ => (RuneError, 1%nat)
        end
      else if (240 <=? b0) && (b0 <=? 244) then
        match r with
        | c1 :: c2 :: c3 :: _ =>
            if between (if b0 =? 240 then 144 else 128) (if b0 =? 244 then 143 else 191) c1 && cont c2 && cont c3
            then ((b0 - 240) * 262144 + (code c1 - 128) * 4096 + (code c2 - 128) * 64 + (code c3 - 128), 4%nat)
            else (RuneError, 1%nat)
        | _ => (RuneError, 1%nat)
        end
      else (RuneError, 1%nat)
  end.

(** [for _, r := range s], [bytes.Runes(s)], [[]rune(s)]. *)
Fixpoint runes_loop (s : bytes) (skip : nat) : list N :=
  match s with
  | [] => []
  | _ :: r =>
      match skip with
      | S k => runes_loop r k
      | O => let '(n, w) := decode_rune s in n :: runes_loop r (w - 1)
      end
  end.

Definition runes (s : bytes) : list N := runes_loop s 0.
