(** money and money[] (C19).

    Amounts are in cents; [money_in] and [money_out] are the server's input and
    output in PgSpec.v.  binary64 arithmetic is modelled exactly
    (MoneyCodecs.v). *)
From Coq Require Import Ascii String ZArith NArith Bool List Lia.
From Verif Require Import GoBase Strconv StrconvProofs ConvertUtil ConvertProofs Codecs MoneyCodecs PgSpec PgSpecProofs TextProofs SimpleProofs DecimalLink IntProofs BitProofs MoneyProofs.
From Verif Require Import MoneyFinal.
Import ListNotations.
Local Open Scope Z_scope.

(** ** C19 money *)
(** The arithmetic of the model is IEEE 754 rounding to nearest: [rn p q] is a
    float64, and none is nearer to p/q. *)
Theorem C19_rounding_model : forall p q, 0 <= p -> 0 < q ->
  (exists m e, 0 <= e /\ Z.abs m < 2 ^ 53 /\ rn p q = m * 2 ^ e) /\
  forall m e, 0 <= e -> Z.abs m < 2 ^ 53 ->
    Z.abs (rn p q * q - p * scale) <= Z.abs (m * 2 ^ e * q - p * scale).
Proof. exact C19_rounding_model_proof. Qed.
Print Assumptions C19_rounding_model.

(** Up to 2^52 cents the server reads exactly the amount that was given. *)
Theorem C19_server_reads : forall v, Z.abs v < 2 ^ 52 ->
  exists t, MoneyFromInt64 v = Some t /\ money_in t = Some v.
Proof. exact C19_server_reads_proof. Qed.
Print Assumptions C19_server_reads.

(** Larger int64 amounts are altered. *)
Theorem C19_large_refuted : exists v t, - 2 ^ 63 <= v < 2 ^ 63 /\
  MoneyFromInt64 v = Some t /\ money_in t = Some (v - 1).
Proof. exact C19_large_refuted_proof. Qed.
Print Assumptions C19_large_refuted.

(** Reading the Valuer's own text gives the amount or one cent less. *)
Theorem C19_roundtrip : forall v old, Z.abs v < 2 ^ 52 ->
  exists r, MoneyToInt64 (MoneyFromInt64 v) old = Ok r /\ (r = v \/ v <> 0 /\ r = v - Z.sgn v).
Proof. exact C19_roundtrip_proof. Qed.
Print Assumptions C19_roundtrip.

Theorem C19_roundtrip_refuted : forall old,
  MoneyToInt64 (MoneyFromInt64 29) old = Ok 28 /\ MoneyToInt64 (MoneyFromInt64 (-29)) old = Ok (-28).
Proof. exact C19_roundtrip_refuted_proof. Qed.
Print Assumptions C19_roundtrip_refuted.

(** The server's rendering: read up to a cent below 1000 dollars, an error from
    1000 dollars on (thousands separator) and for every negative amount (the
    sign precedes the currency symbol). *)
Theorem C19_scan_small : forall v old, 0 <= v < 100000 ->
  exists r, MoneyToInt64 (Some (money_out v)) old = Ok r /\ (r = v \/ v <> 0 /\ r = v - 1).
Proof. exact C19_scan_small_proof. Qed.
Print Assumptions C19_scan_small.

Theorem C19_scan_large_refuted : forall v old, 100000 <= v -> MoneyToInt64 (Some (money_out v)) old = Err.
Proof. exact C19_scan_large_refuted_proof. Qed.
Print Assumptions C19_scan_large_refuted.

Theorem C19_scan_negative_refuted : forall v old, v < 0 -> MoneyToInt64 (Some (money_out v)) old = Err.
Proof. exact C19_scan_negative_refuted_proof. Qed.
Print Assumptions C19_scan_negative_refuted.

(** Arrays: the same element by element. *)
Theorem C19_arrays : forall l old, Forall (fun v => Z.abs v < 2 ^ 52) l ->
  (exists t ts, MoneyArrayFromInt64Slice (Some l) = Some t /\ array_in t = Some (map Some ts) /\
                map money_in ts = map Some l) /\
  exists rs, MoneyArrayToInt64Slice (MoneyArrayFromInt64Slice (Some l)) old = Ok (Some rs) /\
             Forall2 (fun v r => r = v \/ v <> 0 /\ r = v - Z.sgn v) l rs.
Proof. exact C19_arrays_proof. Qed.
Print Assumptions C19_arrays.

(** A server's array with an amount of 1000 dollars, a negative amount or NULL
    cannot be read. *)
Theorem C19_array_scan_refuted : forall old,
  MoneyArrayToInt64Slice (Some (array_out [Some (money_out 123456)])) old = Err /\
  MoneyArrayToInt64Slice (Some (array_out [Some (money_out (-5))])) old = Err /\
  MoneyArrayToInt64Slice (Some (array_out [None])) old = Err.
Proof. exact C19_array_scan_refuted_proof. Qed.
Print Assumptions C19_array_scan_refuted.

Example C19_ex :
  MoneyFromInt64 (-123456) = Some (B "$-1234.56") /\ money_in (B "$-1234.56") = Some (-123456) /\
  money_out 123456 = lit "$1,234.56" /\ money_out (-705) = lit "-$7.05" /\
  MoneyArrayFromInt64Slice (Some [1; 250]) = Some (B "{$0.01,$2.50}") /\
  MoneyArrayToInt64Slice (Some (B "{$0.01,$2.50}")) None = Ok (Some [1; 250]).
Proof. conjs; vm_compute; reflexivity. Qed.
