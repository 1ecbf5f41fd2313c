(** What an entry of filter_value_converters says. *)
From Coq Require Import Ascii String ZArith NArith Bool List.
From Verif Require Import TagSpec Analysis Converters.
Import ListNotations.
Local Open Scope list_scope.

(** At least two characters, the first and the last of which are letters, digits
    or underscores; those between may also be dots and slashes. *)
Definition path_text (p : list ascii) : Prop :=
  exists a m z, p = a :: m ++ [z] /\ name_char a /\ name_char z
    /\ Forall (fun c => name_char c \/ c = "."%char \/ c = "/"%char) m.

(** The text of an object of a package *)
Definition names (v p n : list ascii) : Prop := v = p ++ "."%char :: n /\ path_text p /\ is_name n.

(** The text that an entry has for a key: the first that is not empty. *)
Definition has_text (k : ckey) (e : centry) (v : list ascii) : Prop :=
  v <> [] /\ exists pre post, e = pre ++ (k, JStr v) :: post /\ forall s, In (k, JStr s) pre -> s = [].
Definition no_text (k : ckey) (e : centry) : Prop := forall s, In (k, JStr s) e -> s = [].

(** The object that an entry has for a key, if the entry is read *)
Definition object (k : ckey) (e : centry) (o : objid) : Prop :=
  (no_text k e /\ o = no_obj) \/ (exists v p n, has_text k e v /\ names v p n /\ o = MkObj p n true).

(** The entry is for the type. *)
Definition same_type (c : conv) (i : TypeInfo) : Prop := o_path (cv_type c) = t_path i /\ o_name (cv_type c) = t_name i.
