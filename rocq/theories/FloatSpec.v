(** PostgreSQL's float4 and float8: binary floating point numbers, their texts,
    and the rounding of decimal numbers to them (IEEE 754, to nearest, ties to
    even). *)
From Coq Require Import Ascii String ZArith NArith Bool List.
From Verif Require Import GoBase PgSpec Floats.
Import ListNotations.
Local Open Scope char_scope.
Local Open Scope Z_scope.

(** The finite numbers of a format without regard to overflow, multiplied by
    2^expo: at most prec significant bits. *)
Definition fits (ff : fformat) (v : Z) : Prop :=
  exists m k, 0 <= m < 2 ^ prec ff /\ 0 <= k /\ v = m * 2 ^ k.
(** The last significant bit is zero. *)
Definition even_float (ff : fformat) (v : Z) : Prop :=
  exists m k, 0 <= 2 * m < 2 ^ prec ff /\ 0 <= k /\ v = 2 * m * 2 ^ k /\ (k = 0 \/ 2 ^ (prec ff - 1) <= 2 * m).
(** v is the number to which t/q is rounded. *)
Definition nearest (ff : fformat) (t q v : Z) : Prop :=
  fits ff v /\ forall w, fits ff w -> w <> v ->
    Z.abs (t - v * q) < Z.abs (t - w * q) \/ Z.abs (t - v * q) = Z.abs (t - w * q) /\ even_float ff v.
(** The same of the decimal number m * 10^x. *)
Definition rounds (ff : fformat) (m x v : Z) : Prop :=
  nearest ff (m * 10 ^ Z.max x 0 * 2 ^ expo ff) (10 ^ Z.max (- x) 0) v.

(** The values of a format. *)
Definition valid (ff : fformat) (f : float) : Prop :=
  match f with Fin _ v => fits ff v /\ v < 2 ^ (over ff + expo ff) | _ => True end.

(** ** Texts *)

Definition digit (c : ascii) : option Z :=
  let n := Z.of_N (N_of_ascii c) in if (48 <=? n) && (n <=? 57) then Some (n - 48) else None.
Fixpoint dnum (acc : Z) (l : text) : option Z :=
  match l with
  | [] => Some acc
  | c :: r => match digit c with Some d => dnum (10 * acc + d) r | None => None end
  end.

(** The part of a numeral after its digits, and the exponent it gives. *)
Definition exp_text (b : text) (e : Z) : Prop :=
  b = [] /\ e = 0
  \/ exists c s ds n, (c = "e" \/ c = "E") /\ ds <> [] /\ dnum 0 ds = Some n /\ n < 10000 /\ b = c :: s ++ ds
       /\ ((s = [] \/ s = ["+"]) /\ e = n \/ s = ["-"] /\ e = - n).
(** A numeral of the number m * 10^x. *)
Definition numeral (b : text) (m x : Z) : Prop :=
  exists ip fp pt ex e, ip ++ fp <> [] /\ dnum 0 (ip ++ fp) = Some m /\ exp_text ex e
    /\ (pt = "." :: fp \/ fp = [] /\ pt = []) /\ b = ip ++ pt ++ ex /\ x = e - Z.of_nat (List.length fp).

Definition sign (neg : bool) : text := if neg then ["-"] else [].

(** A text and the value the type gives to it. *)
Definition float_text (ff : fformat) (b : text) (f : float) : Prop :=
  match f with
  | NaN => b = B "NaN"
  | Inf neg => In b (if neg then [B "-Infinity"; B "-Inf"] else [B "Infinity"; B "Inf"; B "+Inf"])
  | Fin neg v => exists t m x, b = sign neg ++ t /\ numeral t m x /\ rounds ff m x v /\ v < 2 ^ (over ff + expo ff)
  end.
(** A numeral too large for the type. *)
Definition too_large (ff : fformat) (b : text) : Prop :=
  exists neg t m x v, b = sign neg ++ t /\ numeral t m x /\ rounds ff m x v /\ 2 ^ (over ff + expo ff) <= v.
