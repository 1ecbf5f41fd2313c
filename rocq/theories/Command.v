(** Model of internal/search, internal/command and cmd/gosql: which types are
    handed to the generator, into which files its output goes, and what is on
    disk when the program ends.

    Simplifications.  What packages.Load returns is an input of the model, and so
    are the answers of the operating system and of go/format.  A type spec
    carries the named type that its name denotes.  File paths are absolute and
    clean, as those in CompiledGoFiles are, and filepath.Join appends a name
    without cleaning the result, which makes a difference only for a format with
    elements . or .. or with adjacent slashes.  The analysis, the check and the
    generator are functions that the definitions here take as arguments; their
    models are in Analysis.v, Check.v and the files Gen*.v. *)
From Coq Require Import Ascii String ZArith NArith Bool List.
From Verif Require Import GoBase Strconv Utf8 Filter AParse Analysis Config.
Import ListNotations.
Local Open Scope string_scope.
Local Open Scope list_scope.

(** ** Search *)

(** A type spec: its name, its comments, and the name and underlying type of the
    named type that it declares or, as an alias, denotes; [None] when that is not
    a named type. *)
Record tspec := MkSpec { ts_name : bytes; ts_doc : list bytes; ts_named : option (bytes * gtype) }.
Inductive decl := DType (doc : list bytes) (specs : list tspec) | DOther.
Record gofile := MkFile { gf_path : bytes; gf_decls : list decl }.
Record gopkg := MkPkg { gp_name : bytes; gp_files : list gofile }.

(** A match: the named type *)
Definition hit := (bytes * gtype)%type.

(** search.go:150-159 *)
Definition hasIgnoreDirective (doc : list bytes) : bool := existsb (contains (B "gosql:ignore")) doc.

(** One letter of a regular expression under the flag i: its two cases, and for s
    also U+017F. *)
Definition fold_letter (p : ascii) (s : bytes) : option bytes :=
  match s with
  | [] => None
  | c :: r =>
      if beq c p || beq c (ascii_of_N (code p - 32)) then Some r
      else if beq p "s" && (code c =? 197)%N then
        match r with c2 :: r => if (code c2 =? 191)%N then Some r else None | [] => None end
      else None
  end.
Fixpoint fold_prefix (p s : bytes) : bool :=
  match p with
  | [] => true
  | c :: p => match fold_letter c s with Some s => fold_prefix p s | None => false end
  end.
(** search.go:31 *)
Definition target_words : list bytes := [B "select"; B "insert"; B "update"; B "delete"; B "filter"].
Definition rxTargetName (name : bytes) : bool := existsb (fun w => fold_prefix w name) target_words.

(** search.go:108-131 *)
Definition spec_hits (sp : tspec) : list hit :=
  if negb (rxTargetName (ts_name sp)) || hasIgnoreDirective (ts_doc sp) then []
  else match ts_named sp with Some n => [n] | None => [] end.
(** search.go:102-132 *)
Definition decl_hits (d : decl) : list hit :=
  match d with
  | DOther => []
  | DType doc specs => if hasIgnoreDirective doc then [] else flat_map spec_hits specs
  end.

(** search.go:93-138 and 86-144 *)
Definition file_hits (flt : bytes -> bool) (f : gofile) : list (bytes * list hit) :=
  if negb (flt (gf_path f)) then []
  else match flat_map decl_hits (gf_decls f) with [] => [] | hs => [(gf_path f, hs)] end.
Definition pkg_hits (flt : bytes -> bool) (p : gopkg) : list (bytes * list (bytes * list hit)) :=
  match flat_map (file_hits flt) (gp_files p) with [] => [] | fs => [(gp_name p, fs)] end.

(** search.go:59-147 *)
Definition Search (flt : option (bytes -> bool)) (pkgs : list gopkg) : list (bytes * list (bytes * list hit)) :=
  flat_map (pkg_hits (match flt with Some f => f | None => fun _ => true end)) pkgs.

(** ** Output files *)

(** fmt.Sprintf for a format that Validate has passed, which has one percent sign
    and after it an s *)
Fixpoint sprintf_s (f name : bytes) : bytes :=
  match f with
  | [] => []
  | c :: r =>
      match r with
      | c2 :: r2 => if beq c "%" && beq c2 "s" then name ++ r2 else c :: sprintf_s r name
      | [] => f
      end
  end.

(** strings.TrimSuffix *)
Definition trim_suffix (p a : bytes) : bytes :=
  if has_suffix p a then firstn (List.length a - List.length p) a else a.

(** command.go:110-120 *)
Definition outFilePath (format inp : bytes) : bytes :=
  let '(dir, base) := match cut_last "/" inp with Some (d, b) => (d, b) | None => ([], inp) end in
  let name := sprintf_s format (trim_suffix (B ".go") base) in
  let name := if has_suffix (B ".go") name then name else name ++ B ".go" in
  dir ++ B "/" ++ name.

(** ** Run *)

(** The files on disk *)
Definition disk := bytes -> option bytes.
Definition put (d : disk) (p : bytes) (c : option bytes) : disk :=
  fun p' => if bytes_eqb p p' then c else d p'.

(** What the operating system and go/format answer: whether the file can be
    created, whether it can be written, and the formatted source. *)
Record world := MkWorld { w_create : bytes -> bool; w_write : bytes -> bool; w_format : bytes -> option bytes }.

(** command.go:131-155: the disk afterwards and whether no error was returned *)
Definition writeOutFile (w : world) (d : disk) (p buf : bytes) : disk * bool :=
  if negb (w_create w p) then (d, false)
  else
    match w_format w buf with
    | None => (put d p None, false)
    | Some src => if w_write w p then (put d p (Some src), true) else (put d p None, false)
    end.

(** command.go:99-105 *)
Fixpoint write_all (w : world) (d : disk) (outs : list (bytes * bytes)) : disk * bool :=
  match outs with
  | [] => (d, true)
  | (p, buf) :: outs =>
      let '(d, ok) := writeOutFile w d p buf in
      if ok then write_all w d outs else (d, false)
  end.

(** command.go:64-96: the targets of all files in order; [target] is the analysis
    followed by the check, [gen] the generator for a package and its targets. *)
Definition gen_file {T} (target : hit -> res T) (gen : bytes -> list T -> res bytes)
    (format pkg : bytes) (f : bytes * list hit) : res (bytes * bytes) :=
  bind (mapM target (snd f)) (fun ts => bind (gen pkg ts) (fun buf => Ok (outFilePath format (fst f), buf))).
Definition gen_pkg {T} (target : hit -> res T) (gen : bytes -> list T -> res bytes)
    (format : bytes) (p : bytes * list (bytes * list hit)) : res (list (bytes * bytes)) :=
  mapM (gen_file target gen format (fst p)) (snd p).

(** How the program ends *)
Inductive ending := Done | Failed | Crashed.

(** command.go:46-108 *)
Definition RunCommand {T} (target : hit -> res T) (gen : bytes -> list T -> res bytes) (w : world)
    (format : bytes) (flt : option (bytes -> bool)) (pkgs : list gopkg) (d : disk) : disk * ending :=
  match mapM (gen_pkg target gen format) (Search flt pkgs) with
  | Panic => (d, Crashed)
  | Err => (d, Failed)
  | Ok outs =>
      let '(d, ok) := write_all w d (List.concat outs) in
      (d, if ok then Done else Failed)
  end.
