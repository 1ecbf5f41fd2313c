(** Model of internal/config: where the value of each option comes from, how
    the config file is found, and the checks of the options that concern names.

    Simplifications.  A [Config] is a function from options to values instead of
    a record.  The config file is given decoded: a list of option and JSON value
    in the order of the file; the syntax of JSON and the matching of its keys are
    left out; the option filter_value_converters, which no flag can
    set, is in Converters.v.  Of the standard library flag.FlagSet.Parse is modelled, since the value
    of an option depends on how the arguments are cut up.  Opening the database,
    loading packages, compiling regular expressions and resolving paths are left
    out of [Validate]. *)
From Coq Require Import Ascii String ZArith NArith Bool List.
From Verif Require Import GoBase Strconv Utf8 Filter AParse Analysis.
Import ListNotations.
Local Open Scope string_scope.
Local Open Scope list_scope.

(** ** Options *)

(** config.go:24-104: the fields of Config *)
Inductive opt :=
| OWd | ORecursive | OFiles | ORegexps | OFormat | ODsn | OQuote | OTag | OBase | OSep | OMethod | OCtx | OArg.

(** types.go:155-162 *)
Record gotype := MkGT { gt_name : bytes; gt_path : bytes; gt_pkg : bytes; gt_ptr : bool }.

(** types.go:14, 56, 109, 155: the value of an option without IsSet *)
Inductive oval := VS (s : bytes) | VB (b : bool) | VL (l : list bytes) | VT (t : gotype).

(** A value and its IsSet *)
Definition config := opt -> oval * bool.

Definition opt_eq (a b : opt) : {a = b} + {a <> b}.
Proof. decide equality. Defined.

Definition upd (c : config) (o : opt) (v : oval * bool) : config :=
  fun o' => if opt_eq o o' then v else c o'.

(** config.go:113-131 *)
Definition default_value (o : opt) : oval :=
  match o with
  | OWd => VS (B ".")
  | ORecursive => VB false
  | OFiles => VL []
  | ORegexps => VL []
  | OFormat => VS (B "%s_gosql.go")
  | ODsn => VS []
  | OQuote => VB false
  | OTag => VS (B "json")
  | OBase => VB false
  | OSep => VS (B ".")
  | OMethod => VS (B "Exec")
  | OCtx => VB false
  | OArg => VT (MkGT (B "Conn") (B "github.com/frk/gosql") (B "gosql") false)
  end.
Definition DefaultConfig : config := fun o => (default_value o, false).

(** strconv.ParseBool *)
Definition ParseBool (s : bytes) : option bool :=
  if existsb (bytes_eqb s) [B "1"; B "t"; B "T"; B "TRUE"; B "true"; B "True"] then Some true
  else if existsb (bytes_eqb s) [B "0"; B "f"; B "F"; B "FALSE"; B "false"; B "False"] then Some false
  else None.

(** types.go:178-195 *)
Definition gotype_set (t : gotype) (value : bytes) : option gotype :=
  match cut_last "." value with
  | None => None
  | Some (path, name) =>
      match path with
      | c :: path' =>
          if beq c "*" then Some (MkGT name path' (gt_pkg t) true)
          else Some (MkGT name path (gt_pkg t) (gt_ptr t))
      | [] => Some (MkGT name path (gt_pkg t) (gt_ptr t))
      end
  end.

(** types.go:30-34, 77-87, 125-131, 178-195: the four methods Set; [None] is
    the returned error. *)
Definition oset (v : oval * bool) (value : bytes) : option (oval * bool) :=
  match fst v with
  | VS _ => Some (VS value, true)
  | VB _ =>
      match value with
      | [] => Some v
      | _ => match ParseBool value with Some b => Some (VB b, true) | None => None end
      end
  | VL l => match value with [] => Some v | _ => Some (VL (l ++ [value]), true) end
  | VT t =>
      match value with
      | [] => Some v
      | _ => match gotype_set t value with Some t' => Some (VT t', true) | None => None end
      end
  end.

(** ** The config file *)

Inductive json := JNull | JBool (b : bool) | JNum | JStr (s : bytes) | JArr (l : list json) | JObj.

(** json.Unmarshal into an element of a []string *)
Definition json_elem (j : json) : option bytes :=
  match j with JNull => Some [] | JStr s => Some s | _ => None end.
Fixpoint json_elems (l : list json) : option (list bytes) :=
  match l with
  | [] => Some []
  | j :: l =>
      match json_elem j, json_elems l with
      | Some s, Some r => Some (s :: r)
      | _, _ => None
      end
  end.

(** types.go:37-51, 90-104, 134-150, 198-211: the four methods UnmarshalJSON *)
Definition ojson (v : oval * bool) (j : json) : option (oval * bool) :=
  if snd v then Some v
  else
    match j with
    | JNull => Some v
    | _ =>
        match fst v with
        | VS _ => match j with JStr s => Some (VS s, true) | _ => None end
        | VB _ => match j with JBool b => Some (VB b, true) | _ => None end
        | VL _ =>
            match j with
            | JArr l =>
                match json_elems l with
                | None => None
                | Some [] => Some v
                | Some l => Some (VL l, true)
                end
            | _ => None
            end
        | VT _ => match j with JStr s => oset v s | _ => None end
        end
    end.

(** config.go:193: Decode calls UnmarshalJSON for each member of the object, in
    the order of the file, and stops at the first error. *)
Fixpoint decode (c : config) (file : list (opt * json)) : option config :=
  match file with
  | [] => Some c
  | (o, j) :: file =>
      match ojson (c o) j with
      | None => None
      | Some v => decode (upd c o v) file
      end
  end.

(** ** The command line *)

(** config.go:137-148 *)
Definition flag_opts : list (bytes * opt) :=
  [(B "wd", OWd); (B "r", ORecursive); (B "f", OFiles); (B "rx", ORegexps); (B "o", OFormat);
   (B "db", ODsn); (B "qid", OQuote); (B "fcktag", OTag); (B "fckbase", OBase); (B "fcksep", OSep);
   (B "with-ctx", OCtx); (B "argtype", OArg)].

(** types.go:62: the value that a flag without one stands for *)
Definition is_bool_flag (o : opt) : bool :=
  match default_value o with VB _ => true | _ => false end.

(** A flag is one of the options or the name of the config file. *)
Inductive target := TOpt (o : opt) | TFile.
Definition flag_target (name : bytes) : option target :=
  match Filter.lookup name flag_opts with
  | Some o => Some (TOpt o)
  | None => if bytes_eqb name (B "config") then Some TFile else None
  end.

(** What the command line determines: the options and the value of config.ConfigFile. *)
Definition cstate := (config * bytes)%type.
Definition set_target (st : cstate) (t : target) (value : bytes) : option cstate :=
  match t with
  | TFile => Some (fst st, value)
  | TOpt o =>
      match oset (fst st o) value with
      | None => None
      | Some v => Some (upd (fst st) o v, snd st)
      end
  end.

(** flag.FlagSet.parseOne: the name of a flag argument with the text after its
    minus signs, and its value if it has one. *)
Definition split_flag (body : bytes) : option (bytes * option bytes) :=
  match body with
  | [] => None
  | c :: r =>
      if beq c "-" || beq c "=" then None
      else
        match cut_first "=" r with
        | Some (n, v) => Some (c :: n, Some v)
        | None => Some (body, None)
        end
  end.

(** flag.FlagSet.parseOne: whether an argument is a flag *)
Inductive argkind := ANot | AEnd | AFlag (body : bytes).
Definition arg_kind (s : bytes) : argkind :=
  match s with
  | c1 :: c2 :: r =>
      if negb (beq c1 "-") then ANot
      else if beq c2 "-" then match r with [] => AEnd | _ => AFlag r end
      else AFlag (c2 :: r)
  | _ => ANot
  end.

(** flag.FlagSet.Parse with the flags of config.go:134-151.  [None] stands for
    the end of the program, after an error or a call for help. *)
Fixpoint parse_flags (st : cstate) (args : list bytes) : option cstate :=
  match args with
  | [] => Some st
  | a :: args =>
      match arg_kind a with
      | ANot | AEnd => Some st
      | AFlag body =>
          match split_flag body with
          | None => None
          | Some (name, value) =>
              match flag_target name with
              | None => None
              | Some t =>
                  if match t with TOpt o => is_bool_flag o | TFile => false end then
                    match set_target st t (match value with Some v => v | None => B "true" end) with
                    | None => None
                    | Some st => parse_flags st args
                    end
                  else
                    match value with
                    | Some v =>
                        match set_target st t v with None => None | Some st => parse_flags st args end
                    | None =>
                        match args with
                        | [] => None
                        | v :: args =>
                            match set_target st t v with None => None | Some st => parse_flags st args end
                        end
                    end
              end
          end
      end
  end.

(** ** Finding the config file *)

(** The name of a directory entry and whether it is a directory *)
Definition listing := list (bytes * bool).
(** A clean absolute path as the list of its elements, the last one first; the
    root directory is the empty list. *)
Definition path := list bytes.

(** config.go:310-339 *)
Definition examine_step (st : bool * bytes) (info : bytes * bool) : bool * bytes :=
  let '(root, conf) := st in
  let '(name, isdir) := info in
  (root || (bytes_eqb name (B ".git") && isdir),
   if (bytes_eqb name (B ".gosql") || bytes_eqb name (B ".gosql.json")) && negb isdir then name else conf).
Definition examineDir (l : listing) : bool * bytes :=
  let '(root, conf) := fold_left examine_step l (false, []) in
  (root, if root then conf else []).

(** config.go:162-183; [None] is an error of examineDir, [Some None] that no
    config file is used. *)
Fixpoint find_config (fs : path -> option listing) (dir : path) : option (option path) :=
  match dir with
  | [] => Some None
  | _ :: parent =>
      match fs dir with
      | None => None
      | Some l =>
          let '(root, conf) := examineDir l in
          if root then Some (match conf with [] => None | _ => Some (conf :: dir) end)
          else find_config fs parent
      end
  end.

(** main.go:13-18 with the files that can be read: the options in effect, or
    [None] when the program ends with an error.  [abs] is filepath.Abs, of which
    the elements are taken, [read] opens and decodes a config file by path, and
    [named] by the text of the flag. *)
Definition configure (abs : bytes -> path) (fs : path -> option listing)
    (read : path -> option (list (opt * json))) (named : bytes -> option (list (opt * json)))
    (args : list bytes) : option config :=
  match parse_flags (DefaultConfig, []) args with
  | None => None
  | Some (c, []) =>
      match fst (c OWd) with
      | VS wd =>
          match find_config fs (abs wd) with
          | None => None
          | Some None => Some c
          | Some (Some p) => match read p with None => None | Some file => decode c file end
          end
      | _ => None
      end
  | Some (c, name) => match named name with None => None | Some file => decode c file end
  end.

(** ** Validation *)

(** strings.Count for one byte *)
Definition count_byte (b : ascii) (s : bytes) : nat := List.length (filter (beq b) s).

(** config.go:272-277 *)
Definition norm_format (f : bytes) : option bytes :=
  match count_byte "%" f with
  | 0 => Some (B "%s" ++ f)
  | 1 => if contains (B "%s") f then Some f else None
  | _ => None
  end.

(** config.go:280: the tag expression matches an identifier or nothing *)
Definition valid_tag (s : bytes) : bool :=
  match s with [] => true | _ => rx_match rxIdent s end.
(** config.go:284 *)
Definition valid_sep (s : bytes) : bool := Nat.leb (List.length s) 1.

(** config.go:200-226: the filter on files; [None] lets every file pass. [rx] is
    the meaning of a regular expression. *)
Definition FileFilterFunc (rx : bytes -> bytes -> bool) (files regexps : list bytes) : option (bytes -> bool) :=
  match files, regexps with
  | [], [] => None
  | _, _ => Some (fun p => existsb (bytes_eqb p) files || existsb (fun r => rx r p) regexps)
  end.
