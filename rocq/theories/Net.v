(** Model of the parts of Go's package net used by the inet, cidr and macaddr
    types of pgsql, and of these types.

    Go 1.23 (go.mod:3).  A net.IP and a net.IPMask are lists of bytes given as
    numbers, nil is [None].  While an IPv6 address is parsed or printed its
    sixteen bytes are kept as eight 16-bit words. *)
From Coq Require Import Ascii String ZArith NArith Bool List.
From Verif Require Import GoBase Strconv ConvertUtil Codecs.
Import ListNotations.
Local Open Scope char_scope.
Local Open Scope N_scope.

(** ** net/netip *)

Definition dec_val (c : ascii) : option N :=
  let n := N_of_ascii c in if (48 <=? n) && (n <=? 57) then Some (n - 48) else None.

(** netip.parseIPv4Fields.  [val], [dig]: value and number of digits of the
    current field; [acc]: the fields before it.  (i == 0 or a dot before i is
    [dig = 0].) *)
Fixpoint v4_fields (s : bytes) (val : N) (dig : nat) (acc : list N) : option (list N) :=
  match s with
  | [] => if (List.length acc <? 3)%nat then None else Some (acc ++ [val])
  | c :: r =>
      match dec_val c with
      | Some d =>
          if (dig =? 1)%nat && (val =? 0) then None
          else let v := val * 10 + d in if 255 <? v then None else v4_fields r v (S dig) acc
      | None =>
          if beq c "." then
            if (dig =? 0)%nat || match r with [] => true | _ => false end then None
            else if (List.length acc =? 3)%nat then None
            else v4_fields r 0 0 (acc ++ [val])
          else None
      end
  end.

(** The hexadecimal group at the head of [s]: its value, its length and what
    follows. *)
Fixpoint hex_group (s : bytes) (off : nat) (acc : N) : option (N * nat * bytes) :=
  match s with
  | [] => Some (acc, off, [])
  | c :: r =>
      match hex_val c with
      | None => Some (acc, off, s)
      | Some d =>
          if (3 <? off)%nat then None
          else let a := acc * 16 + d in if 65535 <? a then None else hex_group r (S off) a
      end
  end.

Fixpoint pair_words (l : list N) : list N :=
  match l with a :: b :: r => a * 256 + b :: pair_words r | _ => [] end.

(** netip.parseIPv6, the loop; [k] = 8 - length ws iterations are left, [ell] is
    the position of the ellipsis.  Gives the words, the ellipsis and the rest. *)
Fixpoint v6_loop (k : nat) (s : bytes) (ws : list N) (ell : option nat) : option (list N * option nat * bytes) :=
  match k with
  | O => Some (ws, ell, s)
  | S k' =>
      match hex_group s 0 0 with
      | None => None
      | Some (w, off, r) =>
          if (off =? 0)%nat then None
          else match r with
          | [] => Some (ws ++ [w], ell, [])
          | c :: r1 =>
              if beq c "." then
                if match ell with None => negb (List.length ws =? 6)%nat | Some _ => false end then None
                else if (k <? 2)%nat then None
                else match v4_fields s 0 0 [] with
                     | None => None
                     | Some f => Some (ws ++ pair_words f, ell, [])
                     end
              else if beq c ":" then
                match r1 with
                | [] => None
                | c1 :: r2 =>
                    if beq c1 ":" then
                      match ell with
                      | Some _ => None
                      | None =>
                          let e := Some (S (List.length ws)) in
                          match r2 with [] => Some (ws ++ [w], e, []) | _ => v6_loop k' r2 (ws ++ [w]) e end
                      end
                    else v6_loop k' r1 (ws ++ [w]) ell
                end
              else None
          end
      end
  end.

Definition parse_v6 (s : bytes) : option (list N) :=
  let finish (r : option (list N * option nat * bytes)) :=
    match r with
    | Some (ws, ell, []) =>
        let i := List.length ws in
        if (i <? 8)%nat then
          match ell with
          | None => None
          | Some e => Some (firstn e ws ++ repeat 0 (8 - i) ++ skipn e ws)
          end
        else match ell with Some _ => None | None => Some ws end
    | _ => None
    end in
  if has_prefix (B "::") s then
    match skipn 2 s with [] => Some (repeat 0 8) | r => finish (v6_loop 8 r [] (Some 0%nat)) end
  else finish (v6_loop 8 s [] None).

(** netip.Addr without zone: four bytes or eight words. *)
Inductive addr := Addr4 (f : list N) | Addr6 (ws : list N).

(** netip.ParseAddr; a text with a percent sign is an error or has a zone, and
    net refuses both. *)
Fixpoint addr_kind (s : bytes) : option bool :=
  match s with
  | [] => None
  | c :: r => if beq c "." then Some true else if beq c ":" then Some false else addr_kind r
  end.
Definition ParseAddr (s : bytes) : option addr :=
  if existsb (fun c => beq c "%") s then None
  else match addr_kind s with
       | None => None
       | Some true => option_map Addr4 (v4_fields s 0 0 [])
       | Some false => option_map Addr6 (parse_v6 s)
       end.

Definition split_words (ws : list N) : list N := flat_map (fun w => [w / 256; w mod 256]) ws.
Definition v4prefix : list N := [0; 0; 0; 0; 0; 0; 0; 0; 0; 0; 255; 255].
Definition As16 (a : addr) : list N :=
  match a with Addr4 f => v4prefix ++ f | Addr6 ws => split_words ws end.
Definition BitLen (a : addr) : N := match a with Addr4 _ => 32 | Addr6 _ => 128 end.

(** netip.Addr.String *)
Definition string4 (f : list N) : bytes := join (B ".") (map (format_uint 10) f).

Fixpoint zeros (ws : list N) : nat :=
  match ws with w :: r => if w =? 0 then S (zeros r) else 0%nat | [] => 0%nat end.
(** The first of the longest runs of two or more zero words, as start and end. *)
Fixpoint best_run (ws : list N) (i : nat) (b : option (nat * nat)) : option (nat * nat) :=
  match ws with
  | [] => b
  | _ :: r =>
      let n := zeros ws in
      let len := match b with Some (s, e) => (e - s)%nat | None => 0%nat end in
      best_run r (S i) (if (2 <=? n)%nat && (len <? n)%nat then Some (i, (i + n)%nat) else b)
  end.
Definition string6 (ws : list N) : bytes :=
  let hex l := join (B ":") (map (format_uint 16) l) in
  match best_run ws 0 None with
  | None => hex ws
  | Some (s, e) => hex (firstn s ws) ++ B "::" ++ hex (skipn e ws)
  end.

(** ** net *)

(** net.ParseIP *)
Definition ParseIP (s : bytes) : slice N := option_map As16 (ParseAddr s).

Fixpoint Ns_eqb (a b : list N) : bool :=
  match a, b with
  | [], [] => true
  | x :: a, y :: b => (x =? y) && Ns_eqb a b
  | _, _ => false
  end.

(** net.IP.To4 *)
Definition To4 (ip : list N) : option (list N) :=
  if (List.length ip =? 4)%nat then Some ip
  else if (List.length ip =? 16)%nat && Ns_eqb (firstn 12 ip) v4prefix then Some (skipn 12 ip)
  else None.

Definition hex2 (n : N) : bytes := [digit_char (n / 16); digit_char (n mod 16)].

(** net.IP.String; nil and empty are the same to it. *)
Definition ip_string (ip : slice N) : bytes :=
  match ip with
  | None | Some [] => B "<nil>"
  | Some ip =>
      match To4 ip with
      | Some f => string4 f
      | None => if (List.length ip =? 16)%nat then string6 (pair_words ip) else "?" :: flat_map hex2 ip
      end
  end.

Record ipnet := MkNet { net_ip : slice N; net_mask : slice N }.

(** net.CIDRMask of [k] bytes *)
Fixpoint cidr_mask (k : nat) (n : N) : list N :=
  match k with
  | O => []
  | S k => if 8 <=? n then 255 :: cidr_mask k (n - 8) else (255 - 255 / 2 ^ n) :: cidr_mask k 0
  end.

Fixpoint land_list (a b : list N) : list N :=
  match a, b with x :: a, y :: b => N.land x y :: land_list a b | _, _ => [] end.

(** net.IP.Mask for a mask of CIDRMask as long as a 16-byte address, or of four
    bytes. *)
Definition Mask (ip mask : list N) : slice N :=
  let ip := if (List.length mask =? 4)%nat && (List.length ip =? 16)%nat && Ns_eqb (firstn 12 ip) v4prefix
            then skipn 12 ip else ip in
  if (List.length ip =? List.length mask)%nat then Some (land_list ip mask) else None.

(** net.dtoi on a text that must be all digits (ParseCIDR asks for
    i == len(mask)); big is 0xFFFFFF. *)
Fixpoint dtoi_loop (s : bytes) (n : N) : option N :=
  match s with
  | [] => Some n
  | c :: r =>
      match dec_val c with
      | Some d => let v := n * 10 + d in if 16777215 <=? v then None else dtoi_loop r v
      | None => None
      end
  end.
Definition dtoi (s : bytes) : option N := match s with [] => None | _ => dtoi_loop s 0 end.

Fixpoint cut (c : ascii) (s : bytes) : option (bytes * bytes) :=
  match s with
  | [] => None
  | x :: r => if beq x c then Some ([], r) else option_map (fun p => (x :: fst p, snd p)) (cut c r)
  end.

(** net.ParseCIDR, its network. *)
Definition ParseCIDR (s : bytes) : option ipnet :=
  match cut "/" s with
  | None => None
  | Some (a, m) =>
      match ParseAddr a, dtoi m with
      | Some ad, Some n =>
          if BitLen ad <? n then None
          else let mask := cidr_mask (N.to_nat (BitLen ad / 8)) n in
               Some (MkNet (Mask (As16 ad) mask) (Some mask))
      | _, _ => None
      end
  end.

(** net.simpleMaskLength *)
Fixpoint lead_ones (k : nat) (v : N) : option N :=   (* k bits, most significant first *)
  match k with
  | O => Some 0
  | S k' => if N.testbit v (N.of_nat k') then option_map N.succ (lead_ones k' (v - 2 ^ N.of_nat k'))
            else if v =? 0 then Some 0 else None
  end.
Fixpoint mask_length (m : list N) : option N :=
  match m with
  | [] => Some 0
  | v :: r =>
      if v =? 255 then option_map (N.add 8) (mask_length r)
      else if forallb (N.eqb 0) r then lead_ones 8 v else None
  end.

(** net.networkNumberAndMask *)
Definition number_and_mask (n : ipnet) : option (list N * list N) :=
  let ip0 := match net_ip n with Some ip => ip | None => [] end in
  let m := match net_mask n with Some m => m | None => [] end in
  match match To4 ip0 with
        | Some f => Some f
        | None => if (List.length ip0 =? 16)%nat then Some ip0 else None
        end with
  | None => None
  | Some ip =>
      if (List.length m =? 4)%nat then if (List.length ip =? 4)%nat then Some (ip, m) else None
      else if (List.length m =? 16)%nat then Some (ip, if (List.length ip =? 4)%nat then skipn 12 m else m)
      else None
  end.

(** net.IPNet.String *)
Definition net_string (n : ipnet) : bytes :=
  match number_and_mask n with
  | None => B "<nil>"
  | Some (ip, m) =>
      ip_string (Some ip) ++ "/" :: match mask_length m with
                                    | None => flat_map hex2 m
                                    | Some l => format_uint 10 l
                                    end
  end.

(** net.HardwareAddr.String *)
Definition mac_string (a : bytes) : bytes := join (B ":") (map hex_byte a).

(** net.ParseMAC: the form with colons or dashes, [n] bytes; the form with dots
    (every fifth character) is the second one. *)
Fixpoint mac_groups (sep : ascii) (n : nat) (s : bytes) : option bytes :=
  match n with
  | O => match s with [] => Some [] | _ => None end
  | S n' =>
      match s with
      | h :: l :: r =>
          match hex_val h, hex_val l with
          | Some x, Some y =>
              option_map (cons (ascii_of_N (x * 16 + y)))
                match r with
                | [] => mac_groups sep n' []
                | c :: r' => if beq c sep then mac_groups sep n' r' else None
                end
          | _, _ => None
          end
      | _ => None
      end
  end.
Fixpoint mac_dots (n : nat) (s : bytes) : option bytes :=
  match n with
  | O => match s with [] => Some [] | _ => None end
  | S n' =>
      match s with
      | a :: b :: c :: d :: r =>
          match hex_val a, hex_val b, hex_val c, hex_val d with
          | Some a, Some b, Some c, Some d =>
              option_map (fun t => ascii_of_N (a * 16 + b) :: ascii_of_N (c * 16 + d) :: t)
                match r with
                | [] => mac_dots n' []
                | x :: r' => if beq x "." then mac_dots n' r' else None
                end
          | _, _, _, _ => None
          end
      | _ => None
      end
  end.
Definition mac_len (n : nat) : bool := (n =? 6)%nat || (n =? 8)%nat || (n =? 20)%nat.
Definition ParseMAC (s : bytes) : res bytes :=
  let fin o := match o with Some a => Ok a | None => Err end in
  let l := List.length s in
  if (l <? 14)%nat then Err
  else let c := nth 2 s "x" in
  if beq c ":" || beq c "-" then
    if negb ((l + 1) mod 3 =? 0)%nat || negb (mac_len ((l + 1) / 3)) then Err
    else fin (mac_groups c ((l + 1) / 3) s)
  else if beq (nth 4 s "x") "." then
    if negb ((l + 1) mod 5 =? 0)%nat || negb (mac_len (2 * ((l + 1) / 5))) then Err
    else fin (mac_dots ((l + 1) / 5) s)
  else Err.

(** ** pgsql *)

(** cidr.go:23-29 *)
Definition CIDRFromIPNet (n : ipnet) : dval :=
  if match net_ip n, net_mask n with
     | (None | Some []), (None | Some []) => true
     | _, _ => false
     end then None else Some (net_string n).
(** cidr.go:35-52 *)
Definition CIDRToIPNet (s : src) (old : ipnet) : res ipnet :=
  match s with
  | None => Ok old
  | Some b => match ParseCIDR b with Some n => Ok n | None => Err end
  end.
(** cidrarr.go:23-39 *)
Definition CIDRArrayFromIPNetSlice : slice ipnet -> dval := arr_value net_string.
(** cidrarr.go:45-66 *)
Definition CIDRArrayToIPNetSlice : src -> slice ipnet -> res (slice ipnet) :=
  arr_scan (fun d => bind (pgParseCommaArray d)
    (mapM (fun b => match ParseCIDR b with Some n => Ok n | None => Err end))).

(** inet.go:33-38 *)
Definition InetFromIPNet (n : ipnet) : dval :=
  match net_ip n, net_mask n with None, None => None | _, _ => Some (net_string n) end.
(** inet.go:55-58, inetarr.go:67-70 *)
Definition inet_net (b : bytes) : ipnet :=
  match ParseCIDR b with Some n => n | None => MkNet (ParseIP b) None end.
(** inet.go:44-61 *)
Definition InetToIPNet (s : src) (old : ipnet) : ipnet :=
  match s with None => old | Some b => inet_net b end.
(** inet.go:67-72 *)
Definition InetFromIP (ip : slice N) : dval :=
  match ip with None => None | Some _ => Some (ip_string ip) end.
(** inet.go:78-91 *)
Definition InetToIP (s : src) (old : slice N) : slice N :=
  match s with None => old | Some b => ParseIP b end.
(** inetarr.go:33-49 *)
Definition InetArrayFromIPNetSlice : slice ipnet -> dval := arr_value net_string.
(** inetarr.go:55-76 *)
Definition InetArrayToIPNetSlice : src -> slice ipnet -> res (slice ipnet) :=
  arr_scan (fun d => rmap (map inet_net) (pgParseCommaArray d)).
(** inetarr.go:82-98 *)
Definition InetArrayFromIPSlice : slice (slice N) -> dval := arr_value ip_string.
(** inetarr.go:104-121 *)
Definition InetArrayToIPSlice : src -> slice (slice N) -> res (slice (slice N)) :=
  arr_scan (fun d => rmap (map ParseIP) (pgParseCommaArray d)).

(** macaddr.go:23-28, also macaddr8.go:9-11 *)
Definition MACAddrFromHardwareAddr (a : slice ascii) : dval :=
  match a with None => None | Some a => Some (mac_string a) end.
(** macaddr.go:34-52, also macaddr8.go:14-16 *)
Definition MACAddrToHardwareAddr (s : src) (old : slice ascii) : res (slice ascii) :=
  match s with None => Ok old | Some b => rmap Some (ParseMAC b) end.
(** macaddrarr.go:23-39, also macaddr8arr.go:9-11; a nil address is printed as
    the empty one *)
Definition MACAddrArrayFromHardwareAddrSlice : slice (slice ascii) -> dval :=
  arr_value (fun o => mac_string (str_of o)).
(** macaddrarr.go:45-64, also macaddr8arr.go:14-16 *)
Definition MACAddrArrayToHardwareAddrSlice : src -> slice (slice ascii) -> res (slice (slice ascii)) :=
  arr_scan (fun d => bind (pgParseCommaArray d) (mapM (fun b => rmap Some (ParseMAC b)))).
