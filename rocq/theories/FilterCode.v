(** Model of the code generated for filter types (generator.go:721-931), and of
    running it. *)
From Coq Require Import Ascii String ZArith NArith Bool List.
From Verif Require Filter.
From Verif Require Import GoBase AParse Analysis Gen.
Import ListNotations.
Local Open Scope string_scope.
Local Open Scope list_scope.

(** ** The generator *)

(** generator.go:2323-2346; [quote] is the option QuoteIdentifiers. *)
Definition quoted (quote : bool) (s : bytes) : bytes := if quote then B """" ++ s ++ B """" else s.
Definition fmtColIdent (quote : bool) (id : ColIdent) : bytes :=
  match c_qual id with [] => quoted quote (c_col id) | q => q ++ B "." ++ quoted quote (c_col id) end.

(** analysis/types.go, Identifier: the path of a package and a name *)
Definition fident := (bytes * bytes)%type.
(** analysis.go:2357-2369, types.go:703-709: the converters of the config by the
    path and name of the type; later ones win.  No dot is added to a path. *)
Definition FilterValueConverter (convs : list (bytes * fident)) (f : FieldInfo) : option fident :=
  Filter.lookup (t_path (fi_type f) ++ B "." ++ t_name (fi_type f)) (rev convs).

(** Expressions and statements of the generated methods.  [XFunc e] is a
    function literal without parameters whose body is the call [e]. *)
Inductive fexpr :=
| XId (x : bytes) | XNil | XStr (s : bytes) | XSel (x : fexpr) (s : bytes) | XCall (f : fexpr) (args : list fexpr)
| XFunc (body : fexpr).
Inductive fstm := XDo (e : fexpr) | XReturn (e : fexpr) | XIfNil (x : fexpr) (body : list fstm).

(** An element of the map of columns: of its type gosql.Column in version 2, a
    string otherwise. *)
Record colelem := MkElem { el_key : bytes; el_name : bytes; el_conv : option fident; el_nullable : bool }.
(** Types of parameters: string, the type of a field, a function on the filter *)
Inductive fty := TyString | TyField (t : TypeInfo) | TyFunc.
Inductive fdecl :=
| XVar (name : bytes) (v2 : bool) (elems : list colelem)
| XMethod (recv typ name : bytes) (params : list (bytes * fty)) (result : bool) (body : list fstm).

(** postgres/types.go:397-399 *)
Definition TreatAsNULLable (x : ffilter) : bool := negb (m_notnull (fi_mode (ff_field x))) && negb (co_notnull (ff_col x)).

(** generator.go:730-785; [seen] is keyset. *)
Fixpoint map_elems (quote : bool) (convs : list (bytes * fident)) (v2 : bool) (seen : list bytes) (l : list ffilter)
    : list colelem :=
  match l with
  | [] => []
  | x :: r =>
      match fi_fck (ff_field x) with
      | [] => map_elems quote convs v2 seen r
      | key =>
          if existsb (bytes_eqb key) seen then map_elems quote convs v2 seen r
          else MkElem key (fmtColIdent quote (ff_ident x))
                 (if v2 then FilterValueConverter convs (ff_field x) else None)
                 (if v2 then TreatAsNULLable x else false)
               :: map_elems quote convs v2 (key :: seen) r
      end
  end.
Definition map_id (typ : bytes) : bytes := B "_" ++ typ ++ B "_colmap".

(** A method of the constructor field *)
Definition ctor_sel (ctor m : bytes) : fexpr := XSel (XSel (XId (B "f")) ctor) m.
(** generator.go:788-813 *)
Definition init_method (quote : bool) (typ ctor : bytes) (v2 : bool) (ts : option ColIdent) : fdecl :=
  XMethod (B "f") typ (B "Init") [] false
    [XDo (XCall (ctor_sel ctor (if v2 then B "InitV2" else B "Init"))
            [XId (map_id typ); XStr (match ts with Some id => fmtColIdent quote id | None => [] end)])].

(** generator.go:2352-2358 *)
Definition reservedFilterMethodNames : list bytes :=
  [B "UnmarshalFQL"; B "UnmarshalSort"; B "TextSearch"; B "AND"; B "OR"].
Definition method_name (f : FieldInfo) : bytes := List.concat (map sn_name (fi_sel f)) ++ fi_name f.
(** generator.go:816-881 *)
Definition col_method (quote : bool) (typ ctor : bytes) (x : ffilter) : list fdecl :=
  if existsb (bytes_eqb (method_name (ff_field x))) reservedFilterMethodNames then []
  else [XMethod (B "f") typ (method_name (ff_field x))
          [(B "op", TyString); (B "val", TyField (fi_type (ff_field x)))] true
          [XDo (XCall (ctor_sel ctor (B "Col")) [XStr (fmtColIdent quote (ff_ident x)); XId (B "op"); XId (B "val")]);
           XReturn (XId (B "f"))]].
(** generator.go:884-931 *)
Definition bool_method (typ ctor name : bytes) : fdecl :=
  XMethod (B "f") typ name [(B "nest", TyFunc)] true
    [XIfNil (XId (B "nest")) [XDo (XCall (ctor_sel ctor name) [XNil]); XReturn (XId (B "f"))];
     XDo (XCall (ctor_sel ctor name) [XFunc (XCall (XId (B "nest")) [XId (B "f")])]);
     XReturn (XId (B "f"))].

(** generator.go:721-727.  The constructor is never missing from an analysed
    filter; the code would dereference nil. *)
Definition buildFilterCode (quote : bool) (convs : list (bytes * fident)) (typ : bytes) (s : fstate) (t : tinfo)
    : res (list fdecl) :=
  match fs_ctor s with
  | None => Panic
  | Some (ctor, v2) =>
      Ok (XVar (map_id typ) v2 (map_elems quote convs v2 [] (ti_filters t))
          :: init_method quote typ ctor v2 (fs_ts s)
          :: flat_map (col_method quote typ ctor) (ti_filters t)
          ++ [bool_method typ ctor (B "And"); bool_method typ ctor (B "Or")])
  end.

(** ** Running the generated methods *)

(** A function of the client is what it does to the filter's constructor. *)
Definition change := Filter.cst -> res Filter.cst.
Inductive fval :=
| VSelf | VString (s : bytes) | VAny (v : Filter.gval) | VFunc (g : option change)
| VMap (m : list (bytes * Filter.column)).

(** filter.go:253-280, the functions And and Or of the Constructor *)
Definition connect (n : Filter.node) (nest : option change) (s : Filter.cst) : res Filter.cst :=
  match nest with
  | None => Ok (Filter.conn n s)
  | Some g => rmap (Filter.push Filter.NRParen) (g (Filter.push Filter.NLParen (Filter.conn n s)))
  end.

(** A method of filter.Constructor; anything else would not compile. *)
Definition ctor_call (m : bytes) (args : list fval) (s : Filter.cst) : res Filter.cst :=
  match args with
  | [VMap cm; VString ts] =>
      if bytes_eqb m (B "Init") || bytes_eqb m (B "InitV2") then Ok (Filter.InitV2 cm ts s) else Panic
  | [VString col; VString op; VAny v] => if bytes_eqb m (B "Col") then Ok (Filter.Col col op v s) else Panic
  | [VFunc g] =>
      if bytes_eqb m (B "And") then connect Filter.NAnd g s
      else if bytes_eqb m (B "Or") then connect Filter.NOr g s
      else Panic
  | _ => Panic
  end.

(** The value of an expression, and the constructor after it. *)
Fixpoint eval (ctor : bytes) (env : list (bytes * fval)) (e : fexpr) (s : Filter.cst) {struct e}
    : res (fval * Filter.cst) :=
  match e with
  | XId x => match Filter.lookup x env with Some v => Ok (v, s) | None => Panic end
  | XNil => Ok (VFunc None, s)
  | XStr t => Ok (VString t, s)
  | XSel _ _ => Panic
  | XFunc b => Ok (VFunc (Some (fun s => rmap snd (eval ctor env b s))), s)
  | XCall f args =>
      bind ((fix evals (l : list fexpr) (s : Filter.cst) : res (list fval * Filter.cst) :=
               match l with
               | [] => Ok ([], s)
               | a :: r => bind (eval ctor env a s) (fun v => bind (evals r (snd v)) (fun w => Ok (fst v :: fst w, snd w)))
               end) args s)
           (fun w =>
              match f with
              | XSel (XSel x c) m =>
                  bind (eval ctor env x s) (fun v =>
                    match fst v with
                    | VSelf => if bytes_eqb c ctor then rmap (fun s => (VSelf, s)) (ctor_call m (fst w) (snd w)) else Panic
                    | _ => Panic
                    end)
              | _ =>
                  bind (eval ctor env f s) (fun v =>
                    match fst v, fst w with
                    | VFunc (Some g), [VSelf] => rmap (fun s => (VSelf, s)) (g (snd w))
                    | _, _ => Panic
                    end)
              end)
  end.
(** Whether the method has returned, and the constructor. *)
Fixpoint exec (ctor : bytes) (env : list (bytes * fval)) (b : fstm) (s : Filter.cst) {struct b} : res (bool * Filter.cst) :=
  match b with
  | XDo e => rmap (fun v => (false, snd v)) (eval ctor env e s)
  | XReturn e => rmap (fun v => (true, snd v)) (eval ctor env e s)
  | XIfNil x l =>
      bind (eval ctor env x s) (fun v =>
        match fst v with
        | VFunc None => (fix all (l : list fstm) (s : Filter.cst) : res (bool * Filter.cst) :=
                           match l with
                           | [] => Ok (false, s)
                           | b :: r => bind (exec ctor env b s) (fun w => if fst w then Ok w else all r (snd w))
                           end) l (snd v)
        | _ => Ok (false, snd v)
        end)
  end.
Fixpoint execs (ctor : bytes) (env : list (bytes * fval)) (l : list fstm) (s : Filter.cst) : res Filter.cst :=
  match l with
  | [] => Ok s
  | b :: r => bind (exec ctor env b s) (fun w => if fst w then Ok (snd w) else execs ctor env r (snd w))
  end.

(** The variables of the file; [conv] is what the named functions do. *)
Definition var_value (conv : fident -> Filter.gval -> res Filter.gval) (d : fdecl) : list (bytes * fval) :=
  match d with
  | XVar name _ elems =>
      [(name, VMap (map (fun e => (el_key e, {| Filter.c_name := el_name e; Filter.c_conv := option_map conv (el_conv e);
                                                Filter.c_nullable := el_nullable e |})) elems))]
  | XMethod _ _ _ _ _ _ => []
  end.
Definition declares (name : bytes) (d : fdecl) : bool :=
  match d with XMethod _ _ n _ _ _ => bytes_eqb n name | XVar _ _ _ => false end.
Definition method_names (l : list fdecl) : list bytes :=
  flat_map (fun d => match d with XMethod _ _ n _ _ _ => [n] | XVar _ _ _ => [] end) l.
(** A call f.name(args) *)
Definition invoke (conv : fident -> Filter.gval -> res Filter.gval) (code : list fdecl) (ctor name : bytes) (args : list fval)
    : change := fun s =>
  match find (declares name) code with
  | Some (XMethod recv _ _ params _ body) =>
      if Nat.eqb (List.length params) (List.length args)
      then execs ctor ((recv, VSelf) :: combine (map fst params) args ++ flat_map (var_value conv) code) body s
      else Panic
  | _ => Panic
  end.
