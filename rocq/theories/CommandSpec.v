(** What the gosql command is to find and to write, independently of Command.v. *)
From Coq Require Import Ascii String NArith Bool List.
From Verif Require Import GoBase AParse Analysis TagSpec Command.
Import ListNotations.
Local Open Scope string_scope.
Local Open Scope list_scope.

(** ** Targets *)

(** How a letter may be spelled in the name of a target *)
Definition letter_of (l : bytes) (c : ascii) : Prop :=
  l = [c] \/ l = [ascii_of_N (N_of_ascii c - 32)] \/ (c = "s"%char /\ l = [ascii_of_N 197; ascii_of_N 191]).
(** The name begins with one of the five words. *)
Definition begins (w n : bytes) : Prop :=
  exists letters rest, Forall2 letter_of letters w /\ n = List.concat letters ++ rest.
Definition target_name (n : bytes) : Prop :=
  exists w, In w [B "select"; B "insert"; B "update"; B "delete"; B "filter"] /\ begins w n.

Definition ignored (doc : list bytes) : Prop :=
  exists a b, In (a ++ B "gosql:ignore" ++ b) doc.

(** The file declares the target [h]. *)
Definition declares (f : gofile) (h : hit) : Prop :=
  exists doc specs sp, In (DType doc specs) (gf_decls f) /\ In sp specs
    /\ ~ ignored doc /\ ~ ignored (ts_doc sp) /\ target_name (ts_name sp) /\ ts_named sp = Some h.

(** What the word at the beginning of a name stands for *)
Definition kind_of (w : bytes) (k : qkind) : Prop :=
  (w = B "select" /\ k = KSelect) \/ (w = B "insert" /\ k = KInsert)
  \/ (w = B "update" /\ k = KUpdate) \/ (w = B "delete" /\ k = KDelete).

(** ** Output names *)

(** A format with the place for the name *)
Definition fmt_of (f pre post : bytes) : Prop :=
  f = pre ++ B "%s" ++ post /\ ~ In "%"%char pre /\ ~ In "%"%char post.

Definition go_file (n : bytes) : Prop := exists m, n = m ++ B ".go".
(** The name of a Go file made of [n] *)
Definition go_name (n out : bytes) : Prop :=
  (go_file n /\ out = n) \/ (~ go_file n /\ out = n ++ B ".go").
(** [base] without its extension .go *)
Definition stem_of (base stem : bytes) : Prop :=
  base = stem ++ B ".go" \/ (~ go_file base /\ stem = base).

(** A path of a file: directory and name *)
Definition file_in (p dir base : bytes) : Prop := p = dir ++ "/"%char :: base /\ ~ In "/"%char base.

(** ** What is on disk *)

(** After the outputs [outs] were written, the last one for each path counts. *)
Fixpoint final (outs : list (bytes * bytes)) (p : bytes) : option bytes :=
  match outs with
  | [] => None
  | (q, src) :: outs =>
      match final outs p with
      | Some s => Some s
      | None => if bytes_eqb q p then Some src else None
      end
  end.
Definition written (d : disk) (outs : list (bytes * bytes)) (d' : disk) : Prop :=
  forall p, d' p = match final outs p with Some s => Some s | None => d p end.

(** The outputs [outs] were formatted to [srcs], and the system let them be
    written. *)
Definition formatted (w : world) (outs srcs : list (bytes * bytes)) : Prop :=
  Forall2 (fun o s => fst o = fst s /\ w_format w (snd o) = Some (snd s)
                      /\ w_create w (fst o) = true /\ w_write w (fst o) = true) outs srcs.

(** The outputs that a run makes: for each file found its own, in order. *)
Definition outputs {T} (target : hit -> res T) (gen : bytes -> list T -> res bytes) (format : bytes)
    (found : list (bytes * list (bytes * list hit))) (outs : list (bytes * bytes)) : Prop :=
  Forall2 (fun pf out => exists ts, Forall2 (fun h t => target h = Ok t) (snd (snd pf)) ts
             /\ gen (fst pf) ts = Ok (snd out) /\ fst out = outFilePath format (fst (snd pf)))
    (flat_map (fun pf => map (fun f => (fst pf, f)) (snd pf)) found) outs.
