(** Models of the strconv functions used by package pgsql: integer formatting
    and parsing in bases 2 and 10, and of encoding/hex.
    These are Go standard library functions, modelled from their
    documentation; strconv's float functions are parameters elsewhere. *)
From Coq Require Import Ascii String ZArith NArith Bool List.
From Verif Require Import GoBase.
Import ListNotations.
Local Open Scope N_scope.

(** Digit characters: 0-9 then a-z. *)
Definition digit_char (d : N) : ascii :=
  if d <? 10 then ascii_of_N (48 + d) else ascii_of_N (87 + d).

(** Value of a digit character, lower or upper case. *)
Definition digit_val (c : ascii) : option N :=
  let n := N_of_ascii c in
  if (48 <=? n) && (n <=? 57) then Some (n - 48)
  else if (97 <=? n) && (n <=? 122) then Some (n - 87)
  else if (65 <=? n) && (n <=? 90) then Some (n - 55)
  else None.

(** Digits of [n] in base [b], most significant first, prepended to [acc]. *)
Fixpoint digs (fuel : nat) (b n : N) (acc : bytes) : bytes :=
  match fuel with
  | O => acc
  | S f =>
      let acc' := digit_char (n mod b) :: acc in
      if n / b =? 0 then acc' else digs f b (n / b) acc'
  end.

(** strconv.FormatUint(n, b) / AppendUint: the fuel [S (log2 n)] always
    suffices for b >= 2 (lemma [format_uint_value] in StrconvProofs.v). *)
Definition format_uint (b n : N) : bytes := digs (S (N.to_nat (N.log2 n))) b n [].

(** strconv.FormatInt(z, b) / AppendInt. *)
Definition format_int (b : N) (z : Z) : bytes :=
  if (z <? 0)%Z then "-"%char :: format_uint b (Z.to_N (- z)) else format_uint b (Z.to_N z).

(** Accumulate digits; [None] when a character is not a digit of the base. *)
Fixpoint parse_digits (b acc : N) (s : bytes) : option N :=
  match s with
  | [] => Some acc
  | c :: r =>
      match digit_val c with
      | Some d => if d <? b then parse_digits b (acc * b + d) r else None
      | None => None
      end
  end.

(** strconv.ParseUint(s, b, bits) for b in 2..36, bits in {8,16,32,64}:
    empty input, a non-digit, or a value >= 2^bits is an error. *)
Definition parse_uint (b bits : N) (s : bytes) : res N :=
  match s with
  | [] => Err
  | _ => match parse_digits b 0 s with
         | Some n => if n <? 2 ^ bits then Ok n else Err
         | None => Err
         end
  end.

(** strconv.ParseInt(s, b, bits): optional sign, then ParseUint, then the
    range check against 2^(bits-1). *)
Definition parse_int (b bits : N) (s : bytes) : res Z :=
  let go (neg : bool) (r : bytes) :=
    bind (parse_uint b bits r) (fun n =>
      let cutoff := 2 ^ (bits - 1) in
      if negb neg && (cutoff <=? n) then Err
      else if neg && (cutoff <? n) then Err
      else Ok (if neg then (- Z.of_N n)%Z else Z.of_N n)) in
  match s with
  | [] => Err
  | c :: r =>
      if Ascii.eqb c "+" then go false r
      else if Ascii.eqb c "-" then go true r
      else go false s
  end.

(** encoding/hex.Encode: two lower-case hex digits per byte. *)
Definition hex_byte (c : ascii) : bytes :=
  [digit_char (N_of_ascii c / 16); digit_char (N_of_ascii c mod 16)].

Definition hex_encode (a : bytes) : bytes := flat_map hex_byte a.

Definition hex_val (c : ascii) : option N :=
  match digit_val c with
  | Some d => if d <? 16 then Some d else None
  | None => None
  end.

(** encoding/hex.Decode: error on odd length or a non-hex character. *)
Fixpoint hex_decode (a : bytes) : res bytes :=
  match a with
  | [] => Ok []
  | [_] => Err
  | h :: l :: r =>
      match hex_val h, hex_val l with
      | Some x, Some y => bind (hex_decode r) (fun t => Ok (ascii_of_N (x * 16 + y) :: t))
      | _, _ => Err
      end
  end.

(** Conversion of an integer to a w-bit unsigned / signed Go integer. *)
Definition wrapu (w : Z) (z : Z) : Z := (z mod 2 ^ w)%Z.
Definition wraps (w : Z) (z : Z) : Z :=
  ((z + 2 ^ (w - 1)) mod 2 ^ w - 2 ^ (w - 1))%Z.
