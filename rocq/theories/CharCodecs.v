(** Model of pgsql/char.go and pgsql/chararr.go. *)
From Coq Require Import Ascii String ZArith NArith Bool List.
From Verif Require Import GoBase Strconv ConvertUtil Codecs Utf8.
Import ListNotations.
Local Open Scope char_scope.

(** The switch shared by the four Valuers (chararr.go:62-84, 120-132, 171-193,
    230-252): what is appended for the rune or byte [r]; [dflt] is the text of
    the default branch. *)
Definition char_elem (r : Z) (dflt : bytes) : bytes :=
  if existsb (Z.eqb r) [32; 9; 13; 10; 12; 11]%Z then [dq; byte_of r; dq; ","]
  else if existsb (Z.eqb r) [34; 92]%Z then [dq; bs; byte_of r; dq; ","]
  else if (r =? 44)%Z then [dq; ","; dq; ","]
  else if existsb (Z.eqb r) [8; 7]%Z then []
  else dflt ++ [","].

(** [out := {'{'}; append...; out[len(out)-1] = '}']. *)
Definition char_array (els : list bytes) : bytes :=
  removelast ("{" :: List.concat els) ++ ["}"].

(** chararr.go:74-82: the default branch for a rune. *)
Definition rune_text (r : Z) : bytes :=
  if (1 <? rune_len r)%Z then encode_rune r else [byte_of r].

(** chararr.go:53-88 *)
Definition CharArrayFromString (s : bytes) : dval :=
  match s with
  | [] => Some (B "{}")
  | _ => Some (char_array (map (fun n => char_elem (Z.of_N n) (rune_text (Z.of_N n))) (runes s)))
  end.

(** chararr.go:92-103: nil leaves the destination alone. *)
Definition CharArrayToString (s : src) (old : bytes) : res bytes :=
  match srcbytes s with
  | None => Ok old
  | Some d => pgparsearray2 d
  end.

Definition char_slice {A} (enc : A -> bytes) (v : slice A) : dval :=
  match v with
  | None => None
  | Some [] => Some (B "{}")
  | Some l => Some (char_array (map enc l))
  end.

(** chararr.go:109-137 *)
Definition CharArrayFromByteSlice : slice ascii -> dval :=
  char_slice (fun b => char_elem (Z.of_N (code b)) [b]).

(** chararr.go:142-154 *)
Definition CharArrayToByteSlice (s : src) (old : slice ascii) : res (slice ascii) :=
  match srcbytes s with
  | None => Ok None
  | Some d => rmap Some (pgparsearray2 d)
  end.

(** chararr.go:160-197 *)
Definition CharArrayFromRuneSlice : slice Z -> dval :=
  char_slice (fun r => char_elem r (rune_text r)).

(** convert_util.go:59-84 [pgparsearray3] *)
Definition pgparsearray3 (a : bytes) : res (list N) :=
  bind (drop_ends a) (fun a => array3_loop (runes a) 0).

(** chararr.go:201-213 *)
Definition CharArrayToRuneSlice (s : src) (old : slice Z) : res (slice Z) :=
  match srcbytes s with
  | None => Ok None
  | Some d => rmap (fun l => Some (map Z.of_N l)) (pgparsearray3 d)
  end.

(** chararr.go:219-257: only the first rune of each string is written. *)
Definition CharArrayFromStringSlice : slice bytes -> dval :=
  char_slice (fun s =>
    let '(n, size) := decode_rune s in
    let r := Z.of_N n in
    char_elem r (if Nat.ltb 1 size then encode_rune r else [byte_of r])).

(** chararr.go:261-277 *)
Definition CharArrayToStringSlice (s : src) (old : slice bytes) : res (slice bytes) :=
  match srcbytes s with
  | None => Ok None
  | Some d => rmap (fun l => Some (map (fun n => encode_rune (Z.of_N n)) l)) (pgparsearray3 d)
  end.

(** char.go:33-35 *)
Definition CharFromByte (b : ascii) : dval := Some [b].

(** char.go:41-53 *)
Definition CharToByte (s : src) (old : ascii) : res ascii :=
  match s with
  | Some (c :: _) => Ok c
  | _ => Ok old
  end.

(** char.go:59-61 *)
Definition CharFromRune (r : Z) : dval := Some (encode_rune r).

(** char.go:67-79 *)
Definition CharToRune (s : src) (old : Z) : res Z :=
  match s with
  | Some (c :: t) => Ok (Z.of_N (fst (decode_rune (c :: t))))
  | _ => Ok old
  end.
