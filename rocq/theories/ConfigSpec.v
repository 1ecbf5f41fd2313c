(** What a command line and a config file say, independently of how Config.v
    goes through them. *)
From Coq Require Import Ascii String Bool List.
From Verif Require Import GoBase Config.
Import ListNotations.
Local Open Scope string_scope.
Local Open Scope list_scope.

(** ** Command lines *)

(** The documented flags *)
Definition flags : list (bytes * target) :=
  [(B "wd", TOpt OWd); (B "r", TOpt ORecursive); (B "f", TOpt OFiles); (B "rx", TOpt ORegexps);
   (B "o", TOpt OFormat); (B "db", TOpt ODsn); (B "qid", TOpt OQuote); (B "fcktag", TOpt OTag);
   (B "fckbase", TOpt OBase); (B "fcksep", TOpt OSep); (B "with-ctx", TOpt OCtx);
   (B "argtype", TOpt OArg); (B "config", TFile)].

(** The flags that need no value *)
Definition switch (t : target) : Prop :=
  match t with TOpt ORecursive | TOpt OQuote | TOpt OBase | TOpt OCtx => True | _ => False end.

Definition dash (d : bytes) : Prop := d = B "-" \/ d = B "--".

(** [cmdline args occs]: the arguments give the flags [occs] values, in this
    order.  Flags end at the first argument that is none. *)
Inductive cmdline : list bytes -> list (target * bytes) -> Prop :=
| cl_nil : cmdline [] []
| cl_stop a rest : (forall d body, dash d -> body <> [] -> a <> d ++ body) -> cmdline (a :: rest) []
| cl_end rest : cmdline (B "--" :: rest) []
| cl_switch d n t rest occs :
    dash d -> In (n, t) flags -> switch t -> cmdline rest occs ->
    cmdline ((d ++ n) :: rest) ((t, B "true") :: occs)
| cl_eq d n t v rest occs :
    dash d -> In (n, t) flags -> cmdline rest occs ->
    cmdline ((d ++ n ++ "="%char :: v) :: rest) ((t, v) :: occs)
| cl_next d n t v rest occs :
    dash d -> In (n, t) flags -> ~ switch t -> cmdline rest occs ->
    cmdline ((d ++ n) :: v :: rest) ((t, v) :: occs).

(** The texts that a command line gives for an option.  An empty text counts only
    for options whose value is a text. *)
Definition textual (o : opt) : bool :=
  match o with OWd | OFormat | ODsn | OTag | OSep | OMethod => true | _ => false end.
Definition counts (o : opt) (x : bytes) : bool := textual o || negb (bytes_eqb x []).
Definition given (o : opt) (occs : list (target * bytes)) : list bytes :=
  flat_map (fun tv => match fst tv with
                      | TOpt o' => if opt_eq o o' then if counts o (snd tv) then [snd tv] else [] else []
                      | TFile => []
                      end) occs.
(** The last config file named on the command line; the empty text if none is. *)
Definition named_file (occs : list (target * bytes)) : bytes :=
  last (flat_map (fun tv => match fst tv with TFile => [snd tv] | TOpt _ => [] end) occs) [].

(** ** Meaning of texts and of JSON values *)

Definition says_yes (x : bytes) : Prop := In x [B "1"; B "t"; B "T"; B "TRUE"; B "true"; B "True"].
Definition says_no (x : bytes) : Prop := In x [B "0"; B "f"; B "F"; B "FALSE"; B "false"; B "False"].

(** [*]package/path.Name *)
Definition type_text (x : bytes) (t : gotype) : Prop :=
  x = (if gt_ptr t then B "*" else []) ++ gt_path t ++ "."%char :: gt_name t
  /\ ~ In "."%char (gt_name t)
  /\ (gt_ptr t = false -> hd_error (gt_path t) <> Some "*"%char)
  /\ gt_pkg t = B "gosql".

(** The value that an option has when it is given once with a text *)
Definition text_value (o : opt) (x : bytes) (v : oval) : Prop :=
  match v with
  | VS s => textual o = true /\ s = x
  | VB true => switch (TOpt o) /\ says_yes x
  | VB false => switch (TOpt o) /\ says_no x
  | VL l => (o = OFiles \/ o = ORegexps) /\ l = [x]
  | VT t => o = OArg /\ type_text x t
  end.
(** and when it is given several times: lists accumulate, otherwise the last
    text counts. *)
Definition texts_value (o : opt) (l : list bytes) (v : oval) : Prop :=
  match v with
  | VL l' => (o = OFiles \/ o = ORegexps) /\ l' = l
  | _ => text_value o (last l []) v
  end.

(** null stands for no value, and so does an empty list of files or a type whose
    text is empty. *)
Definition says_nothing (o : opt) (j : json) : bool :=
  match j with
  | JNull => true
  | JArr [] => match o with OFiles | ORegexps => true | _ => false end
  | JStr [] => match o with OArg => true | _ => false end
  | _ => false
  end.
Definition in_file (o : opt) (file : list (opt * json)) : list json :=
  flat_map (fun oj => if opt_eq o (fst oj) then if says_nothing o (snd oj) then [] else [snd oj] else []) file.
Definition json_value (o : opt) (j : json) (v : oval) : Prop :=
  match v with
  | VS s => textual o = true /\ j = JStr s
  | VB b => switch (TOpt o) /\ j = JBool b
  | VL l => (o = OFiles \/ o = ORegexps)
            /\ exists js, j = JArr js
               /\ Forall2 (fun j x => j = JStr x \/ (j = JNull /\ x = [])) js l
  | VT t => o = OArg /\ exists x, j = JStr x /\ type_text x t
  end.

(** ** The value in effect *)

(** The documented defaults *)
Definition documented_default (o : opt) : oval :=
  match o with
  | OWd | OSep => VS (B ".")
  | OFormat => VS (B "%s_gosql.go")
  | ODsn => VS []
  | OTag => VS (B "json")
  | OMethod => VS (B "Exec")
  | OFiles | ORegexps => VL []
  | ORecursive | OQuote | OBase | OCtx => VB false
  | OArg => VT (MkGT (B "Conn") (B "github.com/frk/gosql") (B "gosql") false)
  end.

(** The command line comes first, then the first value in the file, then the
    default. *)
Definition in_effect (occs : list (target * bytes)) (file : list (opt * json)) (o : opt) (v : oval) : Prop :=
  match given o occs, in_file o file with
  | (_ :: _) as l, _ => texts_value o l v
  | [], j :: _ => json_value o j v
  | [], [] => v = documented_default o
  end.

(** ** The file that is read *)

(** The root of a git project, and the config files in it *)
Definition git_root (l : listing) : Prop := In (B ".git", true) l.
Definition conf_name (n : bytes) : Prop := n = B ".gosql" \/ n = B ".gosql.json".

(** The directories above one, itself included; the root directory of the file
    system is not among them. *)
Definition above (d dir : path) : Prop := d <> [] /\ exists below, dir = below ++ d.
(** [d] is the innermost git root at or above [dir]. *)
Definition project (fs : path -> option listing) (dir d : path) (l : listing) : Prop :=
  above d dir /\ fs d = Some l /\ git_root l
  /\ forall d', above d' dir -> List.length d < List.length d' -> exists l', fs d' = Some l' /\ ~ git_root l'.

(** The file that is read is the one that the command line names, otherwise the
    one found from the working directory. *)
Definition file_used (abs : bytes -> path) (fs : path -> option listing)
    (read : path -> option (list (opt * json))) (named : bytes -> option (list (opt * json)))
    (occs : list (target * bytes)) (file : list (opt * json)) : Prop :=
  match named_file occs with
  | [] =>
      exists wd, texts_value OWd (B "." :: given OWd occs) (VS wd)
        /\ exists found, find_config fs (abs wd) = Some found
        /\ match found with Some p => read p = Some file | None => file = [] end
  | name => named name = Some file
  end.
