(** C88-C90: slices of float32 and float64 as float4[], float8[] and numeric[],
    and the float64 coordinates of the geometric types. *)
From Coq Require Import Ascii String ZArith NArith Bool List Lia Eqdep_dec.
From Verif Require Import GoBase Strconv StrconvProofs ConvertUtil ConvertProofs Codecs PgSpec PgSpecProofs SimpleProofs IntProofs MoneyCodecs MoneyProofs GeoCodecs GeoProofs GeoFinal TimeSpec DatesFinal StampsFinal Floats FloatSpec FloatProofs.
From Verif Require Import FloatArrsFinal.
Import ListNotations.
Local Open Scope char_scope.
Local Open Scope Z_scope.

(** ** The specification's rounding *)
(** Every decimal number rounds to exactly one number of the format. *)
Theorem C88_rounding : forall ff m x, In ff [f32; f64] -> 0 <= m -> exists! v, rounds ff m x v.
Proof. exact C88_rounding_proof. Qed.
Print Assumptions C88_rounding.

(** A number of the format rounds to itself. *)
Theorem C88_exact : forall ff m, In ff [f32; f64] -> fits ff (m * 2 ^ expo ff) -> rounds ff m 0 (m * 2 ^ expo ff).
Proof. exact C88_exact_proof. Qed.
Print Assumptions C88_exact.

(** ** Writing *)

Theorem C88_write :
  written f32 Float4ArrayFromFloat32Slice /\ written f32 NumericArrayFromFloat32Slice
  /\ written f64 Float4ArrayFromFloat64Slice /\ written f64 Float8ArrayFromFloat64Slice /\ written f64 NumericArrayFromFloat64Slice.
Proof. exact C88_write_proof. Qed.
Print Assumptions C88_write.

Theorem C88_shortest : forall ff neg v, In ff [f32; f64] -> fits ff v -> exists t d j,
  AppendFloat ff (Fin neg v) = sign neg ++ t /\ denotes t d j /\ rounds ff d j v
  /\ (forall m x n, 0 < m -> rounds ff m x v -> 0 <= n -> 10 ^ n <= d -> 10 ^ n <= m)
  /\ (forall m K, 0 <= m -> rounds ff m j v -> 0 <= K -> 0 <= j + K ->
       Z.abs (v * 10 ^ K - d * 10 ^ (j + K) * 2 ^ expo ff) <= Z.abs (v * 10 ^ K - m * 10 ^ (j + K) * 2 ^ expo ff)).
Proof. exact C88_shortest_proof. Qed.
Print Assumptions C88_shortest.

(** ** Reading *)

Theorem C88_read : reader f32 FloatArrayToFloat32Slice /\ reader f64 FloatArrayToFloat64Slice.
Proof. exact C88_read_proof. Qed.
Print Assumptions C88_read.

Theorem C88_roundtrip : forall old,
  (forall v, match v with Some l => Forall (valid f32) l | None => True end -> FloatArrayToFloat32Slice (Float4ArrayFromFloat32Slice v) old = Ok v)
  /\ (forall v, match v with Some l => Forall (valid f64) l | None => True end -> FloatArrayToFloat64Slice (Float8ArrayFromFloat64Slice v) old = Ok v).
Proof. exact C88_roundtrip_proof. Qed.
Print Assumptions C88_roundtrip.

(** A text denotes one value. *)
Theorem C88_unique : forall ff b f g, In ff [f32; f64] -> float_text ff b f -> float_text ff b g -> f = g.
Proof. exact C88_unique_proof. Qed.
Print Assumptions C88_unique.

Example C88_ex : let l := [Fin false (3602879701896397 * 2 ^ 1019); Fin true (5 * 2 ^ 1073); Fin false (25 * 2 ^ 1076); Inf false; Inf true; NaN; Fin true (0 * 2 ^ 0)] in
  Forall (valid f64) l
  /\ Float8ArrayFromFloat64Slice (Some l) = Some (B "{0.1,-2.5,100,+Inf,-Inf,NaN,-0}")
  /\ FloatArrayToFloat64Slice (Some (B "{0.1,-2.5,1e2,Infinity,-Infinity,NaN,-0}")) None = Ok (Some l)
  /\ FloatArrayToFloat64Slice (Some (B "{1e309}")) None = Err
  /\ FloatArrayToFloat64Slice (Some (B "{1,NULL}")) None = Err.
Proof.
  intros l. split.
  - assert (R : forall m, 0 <= m < 9007199254740992 -> 0 <= m < 2 ^ prec f64) by (intros m M; exact M).
    apply Forall_cons; [apply valid_fin; [apply R; lia|lia|vm_compute; reflexivity]|].
    apply Forall_cons; [apply valid_fin; [apply R; lia|lia|vm_compute; reflexivity]|].
    apply Forall_cons; [apply valid_fin; [apply R; lia|lia|vm_compute; reflexivity]|].
    do 3 (apply Forall_cons; [exact Logic.I|]).
    apply Forall_cons; [apply valid_fin; [apply R; lia|lia|vm_compute; reflexivity]|]. apply Forall_nil.
  - unfold l. split; [vm_compute; reflexivity|]. split; [vm_compute; reflexivity|]. split; vm_compute; reflexivity.
Qed.

(** ** C89 between the two widths *)

(** float8arr.go:33-49: the float32 values themselves are stored in a float8[]. *)
Theorem C89_float8_of_float32 : forall l, Forall (valid f32) l -> exists bs,
  Forall2 (float_text f64) bs (map widen l) /\ Float8ArrayFromFloat32Slice (Some l) = Some (array_out (map Some bs)).
Proof. exact C89_float8_of_float32_proof. Qed.
Print Assumptions C89_float8_of_float32.

(** A text that denotes a float32 in a float8 column denotes it in a float4
    column, and is read into a float32 as that. *)
Theorem C89_narrow_text : forall b f, valid f32 f -> float_text f64 b (widen f) -> float_text f32 b f.
Proof. exact C89_narrow_text_proof. Qed.
Print Assumptions C89_narrow_text.

Theorem C89_roundtrip : forall v old, match v with Some l => Forall (valid f32) l | None => True end ->
  FloatArrayToFloat32Slice (Float8ArrayFromFloat32Slice v) old = Ok v.
Proof. exact C89_roundtrip_proof. Qed.
Print Assumptions C89_roundtrip.

(** The server's text of a float4 read into a float64 is another number than the
    float4: 0.1 is 13421773/2^27 as a float4. *)
Theorem C89_float4_refuted : exists b f old g, float_text f32 b f /\ valid f32 f
  /\ FloatArrayToFloat64Slice (Some (array_out [Some b])) old = Ok (Some [g]) /\ g <> widen f.
Proof. exact C89_float4_refuted_proof. Qed.
Print Assumptions C89_float4_refuted.

(** A float64 written to a float4[] is the number its shortest text rounds to,
    or nothing at all if that is too large. *)
Theorem C89_float4_of_float64 : forall neg v, fits f64 v -> exists t m x w,
  AppendFloat f64 (Fin neg v) = sign neg ++ t /\ numeral t m x /\ rounds f64 m x v /\ rounds f32 m x w
  /\ (w < 2 ^ 277 -> float_text f32 (sign neg ++ t) (Fin neg w)) /\ (2 ^ 277 <= w -> too_large f32 (sign neg ++ t)).
Proof. exact C89_float4_of_float64_proof. Qed.
Print Assumptions C89_float4_of_float64.

Example C89_ex :
  Float8ArrayFromFloat32Slice (Some [Fin false (13421773 * 2 ^ 122)]) = Some (B "{0.10000000149011612}")
  /\ Float4ArrayFromFloat32Slice (Some [Fin false (13421773 * 2 ^ 122)]) = Some (B "{0.1}")
  /\ FloatArrayToFloat32Slice (Some (B "{0.10000000149011612}")) None = Ok (Some [Fin false (13421773 * 2 ^ 122)]).
Proof. vm_compute. repeat split. Qed.

(** ** The float64 coordinates of the geometric types *)

(** What ParseFloat returns is a float64. *)
Theorem C15_parse_float64 : forall b, fparse go_floats b = match ParseFloat f64 b with Ok f => as_float64 f | Err => Err | Panic => Panic end
  /\ (forall f, ParseFloat f64 b = Ok f -> valid f64 f).
Proof. exact C15_parse_float64_proof. Qed.
Print Assumptions C15_parse_float64.

(** The assumption of the theorems about geometric types holds for float64: what
    is written is read back as the same number, and a coordinate contains none of
    the delimiters. *)
Theorem C15_float64 : floats_ok go_floats.
Proof. exact C15_float64_proof. Qed.
Print Assumptions C15_float64.

(** The server's texts of coordinates are read as the numbers they denote. *)
Theorem C15_coordinates : forall b (x : F go_floats), float_text f64 b (proj1_sig x) -> coord b /\ fparse go_floats b = Ok x.
Proof. exact C15_coordinates_proof. Qed.
Print Assumptions C15_coordinates.

Theorem C15_point_float64 : forall (x y : F go_floats) old, exists bx bhy,
  float_text f64 bx (proj1_sig x) /\ float_text f64 bhy (proj1_sig y)
  /\ PointFrom go_floats (x, y) = Some (point_out (bx, bhy)) /\ PointTo go_floats (PointFrom go_floats (x, y)) old = Ok (x, y).
Proof. exact C15_point_float64_proof. Qed.
Print Assumptions C15_point_float64.

Example C15_float64_ex : exists x y : F go_floats, proj1_sig x = Fin false (3 * 2 ^ 1073) /\ proj1_sig y = Fin true (25 * 2 ^ 1072)
  /\ PointFrom go_floats (x, y) = Some (B "(1.5,-6.25)").
Proof.
  assert (X : validb (Fin false (3 * 2 ^ 1073)) = true) by (vm_compute; reflexivity).
  assert (Y : validb (Fin true (25 * 2 ^ 1072)) = true) by (vm_compute; reflexivity).
  exists (exist (fun f => validb f = true) _ X), (exist (fun f => validb f = true) _ Y). split; [reflexivity|]. split; [reflexivity|]. vm_compute. reflexivity.
Qed.
