(** PostgreSQL's inet, cidr and macaddr: their values and texts.  Addresses are
    numbers; the texts of IPv6 addresses are those of RFC 4291, of which the
    server prints one. *)
From Coq Require Import Ascii String ZArith NArith Bool List.
From Verif Require Import PgSpec.
Import ListNotations.
Local Open Scope char_scope.
Local Open Scope N_scope.

(** The number with the given digits, the most significant first. *)
Fixpoint num (base : N) (l : list N) : N :=
  match l with
  | [] => 0
  | d :: r => d * base ^ N.of_nat (List.length r) + num base r
  end.

Inductive inaddr := V4 (n : N) | V6 (n : N).
Definition width (a : inaddr) : N := match a with V4 _ => 32 | V6 _ => 128 end.
Definition number (a : inaddr) : N := match a with V4 n | V6 n => n end.
Definition dec (n : N) : text := int_out (Z.of_N n).

Fixpoint joined (c : ascii) (l : list text) : text :=
  match l with
  | [] => []
  | [t] => t
  | t :: r => t ++ c :: joined c r
  end.

(** a.b.c.d *)
Definition quad_text (b : text) (l : list N) : Prop :=
  List.length l = 4%nat /\ Forall (fun x => x < 256) l /\ b = joined "." (map dec l).

Definition hexdigit (c : ascii) : option N :=
  let n := N_of_ascii c in
  if (48 <=? n) && (n <=? 57) then Some (n - 48)
  else if (97 <=? n) && (n <=? 102) then Some (n - 87)
  else if (65 <=? n) && (n <=? 70) then Some (n - 55)
  else None.
(** One to four hexadecimal digits. *)
Definition group_text (g : text) (w : N) : Prop :=
  exists ds, map hexdigit g = map Some ds /\ (1 <= List.length ds <= 4)%nat /\ num 16 ds = w.

Definition groups_text (b : text) (ws : list N) : Prop :=
  exists gs, Forall2 group_text gs ws /\ b = joined ":" gs.
(** The last two words may be written as four decimal numbers. *)
Definition tail_text (b : text) (ws : list N) : Prop :=
  groups_text b ws
  \/ exists gs ws' q x y z t, Forall2 group_text gs ws' /\ quad_text q [x; y; z; t]
       /\ b = joined ":" (gs ++ [q]) /\ ws = ws' ++ [num 256 [x; y]; num 256 [z; t]].
(** Eight words; one run of zeros may be written as a double colon. *)
Definition words_text (b : text) (ws : list N) : Prop :=
  List.length ws = 8%nat /\
  (tail_text b ws
   \/ exists p q bp bq n, (1 <= n)%nat /\ ws = p ++ repeat 0 n ++ q
        /\ groups_text bp p /\ tail_text bq q /\ b = bp ++ ":" :: ":" :: bq).

Definition addr_text (b : text) (a : inaddr) : Prop :=
  match a with
  | V4 n => exists l, quad_text b l /\ num 256 l = n
  | V6 n => exists ws, words_text b ws /\ num 65536 ws = n
  end.

(** cidr: an address without bits beyond the first ones, and their number. *)
Definition network (a : inaddr) (bits : N) : N :=
  let k := 2 ^ (width a - bits) in number a / k * k.
Definition cidr_text (b : text) (v : inaddr * N) : Prop :=
  let '(a, bits) := v in
  bits <= width a /\ exists t, addr_text t a /\ b = t ++ "/" :: dec bits.
(** inet: the number of bits is left out if it is all of them. *)
Definition inet_text (b : text) (v : inaddr * N) : Prop :=
  let '(a, bits) := v in
  bits <= width a /\ exists t, addr_text t a /\ b = if bits =? width a then t else t ++ "/" :: dec bits.

(** macaddr, macaddr8: two hexadecimal digits for each of six or eight bytes. *)
Definition octet_text (g : text) (c : ascii) : Prop :=
  exists x y, map hexdigit g = [Some x; Some y] /\ N_of_ascii c = 16 * x + y.
Definition mac_text (b : text) (a : list ascii) : Prop :=
  (List.length a = 6%nat \/ List.length a = 8%nat)
  /\ exists gs, Forall2 octet_text gs a /\ b = joined ":" gs.
