
From Coq Require Import Ascii String ZArith NArith Bool List Lia.
From Verif Require Import GoBase Strconv StrconvProofs ConvertUtil ConvertProofs Codecs PgSpec PgSpecProofs SimpleProofs IntCodecs IntProofs ArraysFinal MoneyCodecs MoneyProofs Floats FloatSpec FloatProofs IntFloats IntFloatArrsFinal VecFloats.
From Verif Require Import VecFloatsFinal.
Import ListNotations.
Local Open Scope char_scope.
Local Open Scope Z_scope.

(** Floats written as int2vector[] are read by the server as the vectors of the
    integers that remain of them, if no vector is empty. *)
Theorem C90_vecarr_write : forall t ls zss, Forall2 (Forall2 (cut (fmt_of t))) ls zss -> Forall (fun l => l <> []) ls ->
  exists d, Int2VectorArrayFromFloats t (Some (map Some ls)) = Some d /\ array_in d = Some (map (fun v => Some (vector_out v)) zss).
Proof. exact C90_vecarr_write_proof. Qed.
Print Assumptions C90_vecarr_write.

(** An int2vector[] of the server is read as the floats nearest to its integers,
    under the condition for the integer types (C18). *)
Theorem C90_vecarr_read : forall t (l : list (option (list Z))) old, vec_good l = true ->
  Forall (fun o => match o with Some v => Forall (fun z => PgSpec.fits 16 z = true) v | None => True end) l ->
  exists fss, Int2VectorArrayToFloats t (Some (array_out (map (option_map vector_out) l))) old = Ok (Some (map Some fss))
    /\ Forall2 (fun o fs => Forall2 (int_float (fmt_of t)) (match o with Some v => v | None => [] end) fs) l fss.
Proof. exact C90_vecarr_read_proof. Qed.
Print Assumptions C90_vecarr_read.

(** Floats with integer values of 16 bits come back unchanged. *)
Theorem C90_vecarr_roundtrip : forall t (zss : list (list Z)) old,
  Forall (fun v => v <> [] /\ Forall (fun z => PgSpec.fits 16 z = true) v) zss ->
  Int2VectorArrayToFloats t (Int2VectorArrayFromFloats t (Some (map (fun v => Some (map (of_int t) v)) zss))) old
  = Ok (Some (map (fun v => Some (map (of_int t) v)) zss)).
Proof. exact C90_vecarr_roundtrip_proof. Qed.
Print Assumptions C90_vecarr_roundtrip.

(** A vector of one number of two digits is read as two vectors. *)
Theorem C90_vecarr_refuted : exists z, PgSpec.fits 16 z = true /\ forall t old, exists f g,
  Int2VectorArrayToFloats t (Some (array_out [Some (vector_out [z])])) old = Ok (Some [Some [f]; Some [g]]).
Proof. exact C90_vecarr_refuted_proof. Qed.
Print Assumptions C90_vecarr_refuted.

(** The floats 2.5 and -7 *)
Example C90_vecarr_ex :
  Int2VectorArrayFromFloats F64 (Some [Some [Fin false (5 * 2 ^ (expo f64 - 1)); of_int F64 (-7)]; Some [of_int F64 3]])
    = Some (B "{""2 -7"",""3""}")
  /\ vec_good [Some [2; -7]; Some [3]] = true
  /\ Int2VectorArrayToFloats F64 (Some (B "{""2 -7"",3}")) None = Ok (Some [Some [of_int F64 2; of_int F64 (-7)]; Some [of_int F64 3]]).
Proof. repeat split; vm_compute; reflexivity. Qed.
