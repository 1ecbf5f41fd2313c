(** char[], varbit, tsvector and tsquery[] (C13, C14, the tsvector part of C18,
    and C47).

    A Unicode scalar value is a number accepted by [scalar]; [utf8] is the
    UTF-8 encoding of a list of them. *)
From Coq Require Import Ascii String ZArith NArith Bool List Lia.
From Verif Require Import GoBase Strconv ConvertUtil ConvertProofs Codecs Utf8 CharCodecs BitCodecs PgSpec PgSpecProofs TextProofs SimpleProofs DecimalLink IntProofs CharProofs BitProofs.
From Verif Require Import CharsFinal.
Import ListNotations.
Local Open Scope char_scope.

(** ** C13 char[] *)
(** A list of bytes survives the round trip exactly if it holds no BEL (7) and
    no BS (8); these two are left out of the literal. *)
Theorem C13_bytes : forall (l : list ascii) old,
  CharArrayToByteSlice (CharArrayFromByteSlice (Some l)) old = Ok (Some l)
  <-> Forall (fun c => code c <> 7%N /\ code c <> 8%N) l.
Proof. exact C13_bytes_proof. Qed.
Print Assumptions C13_bytes.

Theorem C13_bytes_dropped : forall (l : list ascii) old,
  Exists (fun c => code c <> 7%N /\ code c <> 8%N) l ->
  CharArrayToByteSlice (CharArrayFromByteSlice (Some l)) old
  = Ok (Some (filter (fun c => negb (N.eqb (code c) 7) && negb (N.eqb (code c) 8)) l)).
Proof. exact C13_bytes_dropped_proof. Qed.
Print Assumptions C13_bytes_dropped.

(** If every element is dropped, the literal is a lone closing brace, on which
    the scanner panics. *)
Theorem C13_all_dropped : forall (l : list ascii) old, l <> [] ->
  Forall (fun c => code c = 7%N \/ code c = 8%N) l ->
  CharArrayFromByteSlice (Some l) = Some ["}"] /\
  CharArrayToByteSlice (CharArrayFromByteSlice (Some l)) old = Panic.
Proof. exact C13_all_dropped_proof. Qed.
Print Assumptions C13_all_dropped.

Theorem C13_runes : forall (l : list Z) old, Forall (fun r => valid_rune r = true) l ->
  CharArrayToRuneSlice (CharArrayFromRuneSlice (Some l)) old = Ok (Some l)
  <-> Forall (fun r => r <> 7%Z /\ r <> 8%Z) l.
Proof. exact C13_runes_proof. Qed.
Print Assumptions C13_runes.

(** A string of characters. *)
Theorem C13_string : forall (ns : list N) old, forallb scalar ns = true ->
  CharArrayToString (CharArrayFromString (utf8 ns)) old = Ok (utf8 ns)
  <-> Forall (fun n => n <> 7%N /\ n <> 8%N) ns.
Proof. exact C13_string_proof. Qed.
Print Assumptions C13_string.

(** Strings: only the first character of each is kept. *)
Theorem C13_strings : forall (l : list (N * bytes)) old,
  forallb (fun x => scalar (fst x)) l = true -> Forall (fun x => fst x <> 7%N /\ fst x <> 8%N) l ->
  CharArrayToStringSlice (CharArrayFromStringSlice (Some (map (fun x => encode_scalar (fst x) ++ snd x) l))) old
  = Ok (Some (map (fun x => encode_scalar (fst x)) l)).
Proof. exact C13_strings_proof. Qed.
Print Assumptions C13_strings.

(** The empty string is written as the byte 0xFD, which is not UTF-8. *)
Theorem C13_empty_string_refuted :
  CharArrayFromStringSlice (Some [[]]) = Some ["{"; chr 253; "}"] /\
  CharArrayToStringSlice (CharArrayFromStringSlice (Some [[]])) None <> Ok (Some [[]]).
Proof. exact C13_empty_string_refuted_proof. Qed.
Print Assumptions C13_empty_string_refuted.

(** What the scanners make of the server's rendering of characters: exact, but
    for NULL elements, read as the four characters N, U, L, L. *)
Theorem C13_server_scan : forall (l : list (option N)) old old',
  forallb (fun o => match o with Some n => scalar n | None => true end) l = true ->
  let cs := flat_map (fun o => match o with Some n => [n] | None => [78; 85; 76; 76]%N end) l in
  CharArrayToRuneSlice (Some (array_out (map (option_map encode_scalar) l))) old = Ok (Some (map Z.of_N cs)) /\
  CharArrayToString (Some (array_out (map (option_map encode_scalar) l))) old' = Ok (utf8 cs).
Proof. exact C13_server_scan_proof. Qed.
Print Assumptions C13_server_scan.

(** The server reads the literal as the given characters if there are no
    braces among them; a brace is not quoted and makes the literal malformed. *)
Theorem C13_server_reads : forall ns, forallb scalar ns = true -> ns <> [] ->
  Forall (fun n => n <> 7%N /\ n <> 8%N /\ n <> 123%N /\ n <> 125%N) ns ->
  exists d, CharArrayFromString (utf8 ns) = Some d /\ array_in d = Some (map (fun n => Some (encode_scalar n)) ns).
Proof. exact C13_server_reads_proof. Qed.
Print Assumptions C13_server_reads.

Theorem C13_brace_refuted : exists d, CharArrayFromString (B "{") = Some d /\ array_in d = None.
Proof. exact C13_brace_refuted_proof. Qed.
Print Assumptions C13_brace_refuted.

Example C13_ex :
  let ns := [97; 34; 8364; 44; 128512]%N in
  forallb scalar ns = true /\ ns <> [] /\
  Forall (fun n => n <> 7%N /\ n <> 8%N /\ n <> 123%N /\ n <> 125%N) ns /\
  CharArrayToString (CharArrayFromString (utf8 ns)) [] = Ok (utf8 ns) /\
  CharArrayToByteSlice (CharArrayFromByteSlice (Some ["a"; chr 7; "b"])) None = Ok (Some (B "ab")).
Proof.
  cbv zeta. split; [reflexivity|]. split; [discriminate|]. split; [|split; vm_compute; reflexivity].
  repeat (apply Forall_cons; [repeat split; discriminate|]). constructor.
Qed.

(** ** C14 varbit *)
(** [bits_value] is the number a bit string denotes, [varbit_out] its text. *)
Theorem C14_int : forall v, (0 <= v < 2 ^ 63)%Z ->
  (exists b, VarBitFromInt64 v = Some (varbit_out b) /\ Z.of_N (bits_value b) = v) /\
  forall old, VarBitToInt64 (VarBitFromInt64 v) old = Ok v.
Proof. exact C14_int_proof. Qed.
Print Assumptions C14_int.

(** A negative number is written as a text the server rejects, although the
    scanner would read it back. *)
Theorem C14_int_negative_refuted : forall v, (- 2 ^ 63 <= v < 0)%Z ->
  (exists t, VarBitFromInt64 v = Some t /\ varbit_in t = None) /\
  forall old, VarBitToInt64 (VarBitFromInt64 v) old = Ok v.
Proof. exact C14_int_negative_refuted_proof. Qed.
Print Assumptions C14_int_negative_refuted.

(** Scanning a bit string of the server: its value, or an error if it is empty
    or its value does not fit 63 bits. *)
Theorem C14_int_scan : forall b old,
  VarBitToInt64 (Some (varbit_out b)) old
  = if negb (Nat.eqb (List.length b) 0) && (bits_value b <? 2 ^ 63)%N then Ok (Z.of_N (bits_value b)) else Err.
Proof. exact C14_int_scan_proof. Qed.
Print Assumptions C14_int_scan.

Theorem C14_bools : forall v old,
  VarBitFromBoolSlice v = option_map varbit_out v /\
  VarBitToBoolSlice (option_map varbit_out v) old = Ok v.
Proof. exact C14_bools_proof. Qed.
Print Assumptions C14_bools.

(** A uint8 is bit 1 exactly if it equals 1. *)
Theorem C14_uint8s : forall v old,
  VarBitFromUint8Slice v = option_map varbit_out (option_map (map (fun n => N.eqb n 1)) v) /\
  VarBitToUint8Slice (VarBitFromUint8Slice v) old = Ok (option_map (map (fun n => if N.eqb n 1 then 1%N else 0%N)) v).
Proof. exact C14_uint8s_proof. Qed.
Print Assumptions C14_uint8s.

(** Arrays: the literals are the server's own rendering and are read exactly,
    with nil for NULL. *)
Theorem C14_bool_arrays : forall (l : list (option (list bool))) old,
  VarBitArrayFromBoolSliceSlice (Some l) = Some (array_out (map (option_map varbit_out) l)) /\
  VarBitArrayToBoolSliceSlice (Some (array_out (map (option_map varbit_out) l))) old = Ok (Some l).
Proof. exact C14_bool_arrays_proof. Qed.
Print Assumptions C14_bool_arrays.

Theorem C14_uint8_arrays : forall (l : list (option (list N))) old,
  let bit := fun n => N.eqb n 1 in
  VarBitArrayFromUint8SliceSlice (Some l) = Some (array_out (map (option_map varbit_out) (map (option_map (map bit)) l))) /\
  VarBitArrayToUint8SliceSlice (VarBitArrayFromUint8SliceSlice (Some l)) old
  = Ok (Some (map (option_map (map (fun n => N.b2n (bit n)))) l)).
Proof. exact C14_uint8_arrays_proof. Qed.
Print Assumptions C14_uint8_arrays.

Theorem C14_string_arrays : forall l old,
  VarBitArrayFromStringSlice (Some (map varbit_out l)) = Some (array_out (map (option_map varbit_out) (map Some l))) /\
  VarBitArrayToStringSlice (VarBitArrayFromStringSlice (Some (map varbit_out l))) old = Ok (Some (map varbit_out l)).
Proof. exact C14_string_arrays_proof. Qed.
Print Assumptions C14_string_arrays.

(** A NULL element is read as the string NULL. *)
Theorem C14_string_null_refuted : exists l,
  VarBitArrayToStringSlice (Some (array_out (map (option_map varbit_out) l))) None = Ok (Some [B "NULL"]) /\ In None l.
Proof. exact C14_string_null_refuted_proof. Qed.
Print Assumptions C14_string_null_refuted.

Theorem C14_int_arrays : forall l, Forall (fun v => 0 <= v < 2 ^ 63)%Z l ->
  (exists bs, VarBitArrayFromInt64Slice (Some l) = Some (array_out (map (option_map varbit_out) (map Some bs)))
     /\ map (fun b => Z.of_N (bits_value b)) bs = l) /\
  forall old, VarBitArrayToInt64Slice (VarBitArrayFromInt64Slice (Some l)) old = Ok (Some l).
Proof. exact C14_int_arrays_proof. Qed.
Print Assumptions C14_int_arrays.

Example C14_ex :
  VarBitFromInt64 10 = Some (B "1010") /\ bits_value [true; false; true; false] = 10%N /\
  VarBitArrayFromBoolSliceSlice (Some [Some [true; false]; None; Some []]) = Some (B "{10,NULL,""""}") /\
  VarBitFromInt64 (-5) = Some (B "-101").
Proof. conjs; reflexivity. Qed.

(** ** C18 tsvector and tsvector[] *)
(** The literal is the words separated by blanks; it is read back as the same
    words iff no word holds a blank and the list is not the one empty word. *)
Theorem C18_tsvector : forall v old,
  TSVectorFrom v = option_map blanks v /\
  (TSVectorTo (TSVectorFrom v) old = Ok v <->
   match v with None => True | Some l => l <> [[]] /\ Forall (nochar " ") l end).
Proof. exact C18_tsvector_proof. Qed.
Print Assumptions C18_tsvector.

(** Round trip of tsvector[], for words without double quotes and blanks: the
    same value iff there is no vector [""] and NULL occurs at most last. *)
Theorem C18_tsvectorarr : forall (l : list (option (list bytes))) old,
  Forall (fun o => match o with Some l => Forall (fun e => nochar dq e /\ nochar " " e) l | None => True end) l ->
  (TSVectorArrayTo (TSVectorArrayFrom (Some l)) old = Ok (Some l)
   <-> ~ In (Some [[]]) l /\ ~ In None (removelast l)).
Proof. exact C18_tsvectorarr_proof. Qed.
Print Assumptions C18_tsvectorarr.

(** A NULL followed by another element is read as NULL and an empty vector. *)
Theorem C18_tsvectorarr_null_refuted :
  TSVectorArrayTo (TSVectorArrayFrom (Some [None; Some [B "a"]])) None = Ok (Some [None; Some []; Some [B "a"]]).
Proof. exact C18_tsvectorarr_null_refuted_proof. Qed.
Print Assumptions C18_tsvectorarr_null_refuted.

(** The server reads the literal as the vectors' texts. *)
Theorem C18_tsvectorarr_server_reads : forall l,
  Forall (fun o => match o with Some v => Forall (fun e => nochar dq e /\ nochar bs e) v | None => True end) l ->
  exists t, TSVectorArrayFrom (Some l) = Some t /\ array_in t = Some (map (option_map blanks) l).
Proof. exact C18_tsvectorarr_server_reads_proof. Qed.
Print Assumptions C18_tsvectorarr_server_reads.

(** The server quotes an element only if necessary; a last vector of one
    lexeme is then read as a vector and its suffixes. *)
Theorem C18_tsvectorarr_server_refuted :
  TSVectorArrayTo (Some (array_out [Some (B "'ab'")])) None
  = Ok (Some [Some [B "'ab'"]; Some [B "ab'"]; Some [B "b'"]; Some [B "'"]]).
Proof. exact C18_tsvectorarr_server_refuted_proof. Qed.
Print Assumptions C18_tsvectorarr_server_refuted.

Example C18_ts_ex :
  TSVectorArrayFrom (Some [Some [B "a"; B "b"]; Some []; None]) = Some (B "{""a b"","""",NULL}") /\
  TSVectorArrayTo (Some (B "{""a b"","""",NULL}")) None = Ok (Some [Some [B "a"; B "b"]; Some []; None]).
Proof. split; reflexivity. Qed.

(** ** C47 tsquery[] *)
(** Elements are quoted but not escaped.  Without double quotes and backslashes
    the server and the scanner read the same strings. *)
Theorem C47_strings : forall l old, Forall (fun e => nochar dq e /\ nochar bs e) l ->
  (exists d, TSQueryArrayFromStringSlice (Some l) = Some d /\ array_in d = Some (map Some l)) /\
  TSQueryArrayToStringSlice (TSQueryArrayFromStringSlice (Some l)) old = Ok (Some l).
Proof. exact C47_strings_proof. Qed.
Print Assumptions C47_strings.

(** The [][]byte scanner turns every 4-byte element beginning with N into nil,
    and nil into the empty slice; everything else is kept. *)
Theorem C47_bytes : forall (l : list (option bytes)) old,
  Forall (fun o => match o with Some e => nochar dq e /\ nochar bs e | None => True end) l ->
  TSQueryArrayToByteSliceSlice (TSQueryArrayFromByteSliceSlice (Some l)) old
  = Ok (Some (map (fun o => match o with
                            | None => Some []
                            | Some e => match e with
                                        | ["N"; _; _; _] => None
                                        | _ => Some e
                                        end
                            end) l)).
Proof. exact C47_bytes_proof. Qed.
Print Assumptions C47_bytes.

(** Hence a query of four bytes that begins with N is lost, and so is the
    difference between NULL and the empty string. *)
Theorem C47_bytes_refuted :
  TSQueryArrayToByteSliceSlice (TSQueryArrayFromByteSliceSlice (Some [Some (B "Nope"); None])) None
  = Ok (Some [None; Some []]).
Proof. exact C47_bytes_refuted_proof. Qed.
Print Assumptions C47_bytes_refuted.

(** A double quote in an element makes the literal malformed. *)
Theorem C47_unescaped_refuted : exists e d,
  TSQueryArrayFromStringSlice (Some [e]) = Some d /\ array_in d <> Some [Some e].
Proof. exact C47_unescaped_refuted_proof. Qed.
Print Assumptions C47_unescaped_refuted.

Example C47_ex :
  TSQueryArrayFromStringSlice (Some [B "'fat' & 'rat'"; B ""]) = Some (B "{""'fat' & 'rat'"",""""}") /\
  array_in (B "{""'fat' & 'rat'"",""""}") = Some [Some (B "'fat' & 'rat'"); Some (B "")].
Proof. split; reflexivity. Qed.
