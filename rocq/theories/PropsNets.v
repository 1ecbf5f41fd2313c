(** The inet, cidr and macaddr types: what is written and what is read, in terms
    of addresses as numbers and of the server's texts. *)
From Coq Require Import Ascii String ZArith NArith Bool List Lia.
From Verif Require Import GoBase Strconv StrconvProofs ConvertUtil ConvertProofs Codecs PgSpec PgSpecProofs SimpleProofs IntProofs TimeSpec Net NetSpec NetProofs DatesFinal StampsFinal.
From Verif Require Import NetsFinal.
Import ListNotations.
Local Open Scope char_scope.
Local Open Scope N_scope.

(** ** Array elements *)

(** ** macaddr and macaddr8 *)

Theorem C84_read : forall b a old, mac_text b a -> MACAddrToHardwareAddr (Some b) old = Ok (Some a).
Proof. exact C84_read_proof. Qed.
Print Assumptions C84_read.

Theorem C84_write : forall a, List.length a = 6%nat \/ List.length a = 8%nat ->
  exists b, MACAddrFromHardwareAddr (Some a) = Some b /\ mac_text b a.
Proof. exact C84_write_proof. Qed.
Print Assumptions C84_write.

(** Arrays; a NULL element is an error. *)
Theorem C84_array_read : forall els vs old, Forall2 (opt_rel mac_text) els vs ->
  MACAddrArrayToHardwareAddrSlice (Some (array_out els)) old
  = rmap Some (mapM (fun o => match o with Some a => Ok (Some a) | None => Err end) vs).
Proof. exact C84_array_read_proof. Qed.
Print Assumptions C84_array_read.

Theorem C84_array_write : forall l, Forall (fun a => List.length a = 6%nat \/ List.length a = 8%nat) l ->
  exists bs, Forall2 mac_text bs l /\ MACAddrArrayFromHardwareAddrSlice (Some (map Some l)) = Some (array_out (map Some bs)).
Proof. exact C84_array_write_proof. Qed.
Print Assumptions C84_array_write.

Theorem C84_roundtrip : forall l old, Forall (fun a => List.length a = 6%nat \/ List.length a = 8%nat) l ->
  MACAddrArrayToHardwareAddrSlice (MACAddrArrayFromHardwareAddrSlice (Some (map Some l))) old = Ok (Some (map Some l)).
Proof. exact C84_roundtrip_proof. Qed.
Print Assumptions C84_roundtrip.

(** A nil or empty address is written as nothing at all, so that the array
    loses an element or is no array. *)
Theorem C84_nil_refuted : exists l, l <> [] /\
  MACAddrArrayFromHardwareAddrSlice (Some l) = Some (array_out [])
  /\ exists b, MACAddrArrayFromHardwareAddrSlice (Some (l ++ l)) = Some b /\ array_in b = None.
Proof. exact C84_nil_refuted_proof. Qed.
Print Assumptions C84_nil_refuted.

Example C84_ex :
  MACAddrFromHardwareAddr (Some (map chr [8; 0; 43; 1; 2; 255])) = Some (B "08:00:2b:01:02:ff")
  /\ MACAddrToHardwareAddr (Some (B "08:00:2b:01:02:FF")) None = Ok (Some (map chr [8; 0; 43; 1; 2; 255]))
  /\ MACAddrToHardwareAddr (Some (B "08:00:2b:01:02:fF:10:20")) None = Ok (Some (map chr [8; 0; 43; 1; 2; 255; 16; 32]))
  /\ MACAddrToHardwareAddr (Some (B "08:00:2b:01:02")) None = Err
  /\ MACAddrArrayToHardwareAddrSlice (Some (B "{08:00:2b:01:02:03,NULL}")) None = Err.
Proof. vm_compute. repeat split. Qed.

(** ** Addresses and networks in Go *)

(** ** cidr *)
(** A cidr is read as its network. *)
Theorem C85_read : forall b a bits old, cidr_text b (a, bits) ->
  exists n, CIDRToIPNet (Some b) old = Ok n /\ go_net n (with_number a (network a bits), bits).
Proof. exact C85_read_proof. Qed.
Print Assumptions C85_read.

Theorem C85_write : forall n a bits, go_net n (a, bits) -> unmapped a ->
  exists b, CIDRFromIPNet n = Some b /\ cidr_text b (a, bits).
Proof. exact C85_write_proof. Qed.
Print Assumptions C85_write.

Theorem C85_roundtrip : forall n v old, short_net n v -> unmapped (fst v) ->
  CIDRToIPNet (CIDRFromIPNet n) old = Ok n.
Proof. exact C85_roundtrip_proof. Qed.
Print Assumptions C85_roundtrip.

(** Arrays; a NULL element is an error. *)
Theorem C85_array_read : forall els vs old, Forall2 (opt_rel cidr_text) els vs ->
  Forall (fun o => match o with Some v => network (fst v) (snd v) = number (fst v) | None => True end) vs ->
  CIDRArrayToIPNetSlice (Some (array_out els)) old = Err /\ In None vs
  \/ exists ns, CIDRArrayToIPNetSlice (Some (array_out els)) old = Ok (Some ns)
       /\ Forall2 (fun n o => match o with Some v => short_net n v | None => False end) ns vs.
Proof. exact C85_array_read_proof. Qed.
Print Assumptions C85_array_read.

Theorem C85_array_write : forall ns vs, Forall2 go_net ns vs -> Forall (fun v => unmapped (fst v)) vs ->
  exists bs, Forall2 cidr_text bs vs
    /\ CIDRArrayFromIPNetSlice (Some ns) = Some (array_out (map Some bs))
    /\ InetArrayFromIPNetSlice (Some ns) = Some (array_out (map Some bs)).
Proof. exact C85_array_write_proof. Qed.
Print Assumptions C85_array_write.

(** Mapped networks change their kind: an IPv6 network comes back as an IPv4 one. *)
Theorem C85_mapped_refuted : exists b b' n x y, cidr_text b (V6 x, 120) /\ CIDRToIPNet (Some b) (MkNet None None) = Ok n
  /\ CIDRFromIPNet n = Some b' /\ cidr_text b' (V4 y, 24).
Proof. exact C85_mapped_refuted_proof. Qed.
Print Assumptions C85_mapped_refuted.

(** ** inet as networks *)

(** An inet with fewer bits than its address has is read as the network it lies
    in, one with all bits as the address without a mask. *)
Theorem C86_read : forall b a bits old, inet_text b (a, bits) ->
  (bits < width a -> go_net (InetToIPNet (Some b) old) (with_number a (network a bits), bits))
  /\ (bits = width a -> exists ip, InetToIPNet (Some b) old = MkNet (Some ip) None /\ go_ip ip a).
Proof. exact C86_read_proof. Qed.
Print Assumptions C86_read.

Theorem C86_write : forall n a bits, go_net n (a, bits) -> unmapped a ->
  exists b, InetFromIPNet n = Some b /\ cidr_text b (a, bits).
Proof. exact C86_write_proof. Qed.
Print Assumptions C86_write.

(** The address inside its network is lost, and a single address is written
    back as text that is no inet. *)
Theorem C86_host_refuted : exists b, inet_text b (V4 167838211, 8)
  /\ exists b', InetFromIPNet (InetToIPNet (Some b) (MkNet None None)) = Some b' /\ cidr_text b' (V4 167772160, 8).
Proof. exact C86_host_refuted_proof. Qed.
Print Assumptions C86_host_refuted.

Theorem C86_single_refuted : forall b a old, inet_text b (a, width a) ->
  InetFromIPNet (InetToIPNet (Some b) old) = Some (B "<nil>") /\ (forall v, ~ inet_text (B "<nil>") v).
Proof. exact C86_single_refuted_proof. Qed.
Print Assumptions C86_single_refuted.

Theorem C86_array_read : forall els vs old, Forall2 (opt_rel inet_text) els vs ->
  exists ns, InetArrayToIPNetSlice (Some (array_out els)) old = Ok (Some ns) /\ Forall2 net_read ns vs.
Proof. exact C86_array_read_proof. Qed.
Print Assumptions C86_array_read.

Example C86_ex :
  InetToIPNet (Some (B "10.1.2.3/8")) (MkNet None None) = MkNet (Some [10; 0; 0; 0]) (Some [255; 0; 0; 0])
  /\ InetToIPNet (Some (B "10.1.2.3")) (MkNet None None) = MkNet (Some (v4prefix ++ [10; 1; 2; 3])) None
  /\ InetToIPNet (Some (B "2001:db8::1/33")) (MkNet None None)
     = MkNet (Some ([32; 1; 13; 184] ++ repeat 0 12)) (Some ([255; 255; 255; 255; 128] ++ repeat 0 11))
  /\ InetFromIPNet (MkNet (Some ([32; 1; 13; 184] ++ repeat 0 12)) (Some ([255; 255; 255; 255; 128] ++ repeat 0 11))) = Some (B "2001:db8::/33").
Proof. vm_compute. repeat split. Qed.

Example C86_ex_net : go_net (MkNet (Some [10; 0; 0; 0]) (Some [255; 0; 0; 0])) (V4 167772160, 8)
  /\ short_net (MkNet (Some [10; 0; 0; 0]) (Some [255; 0; 0; 0])) (V4 167772160, 8).
Proof.
  assert (G : go_net (MkNet (Some [10; 0; 0; 0]) (Some [255; 0; 0; 0])) (V4 167772160, 8)).
  { exists [10; 0; 0; 0], [255; 0; 0; 0]. split; auto. split; [split; [repeat constructor|left; split; reflexivity]|].
    split; [cbn; lia|]. split; [reflexivity|]. split; [repeat constructor|reflexivity]. }
  split; auto. split; auto.
Qed.

(** ** inet as addresses *)

(** An inet that is a single address is read as that address, in sixteen bytes;
    any other is read as nil. *)
Theorem C87_read : forall b a bits old, inet_text b (a, bits) ->
  (bits = width a -> exists ip, InetToIP (Some b) old = Some ip /\ go_ip ip a /\ List.length ip = 16%nat)
  /\ (bits < width a -> InetToIP (Some b) old = None /\ InetFromIP (InetToIP (Some b) old) = None).
Proof. exact C87_read_proof. Qed.
Print Assumptions C87_read.

Theorem C87_write : forall ip a, go_ip ip a -> unmapped a ->
  exists b, InetFromIP (Some ip) = Some b /\ inet_text b (a, width a).
Proof. exact C87_write_proof. Qed.
Print Assumptions C87_write.

(** Addresses in sixteen bytes, as net makes them, come back as they were. *)
Theorem C87_roundtrip : forall ip a old, go_ip ip a -> unmapped a -> List.length ip = 16%nat ->
  InetToIP (InetFromIP (Some ip)) old = Some ip.
Proof. exact C87_roundtrip_proof. Qed.
Print Assumptions C87_roundtrip.

Theorem C87_array_read : forall els vs old, Forall2 (opt_rel inet_text) els vs ->
  exists ips, InetArrayToIPSlice (Some (array_out els)) old = Ok (Some ips) /\ Forall2 ip_read ips vs.
Proof. exact C87_array_read_proof. Qed.
Print Assumptions C87_array_read.

Theorem C87_array_write : forall ips vs, Forall2 go_ip ips vs -> Forall unmapped vs ->
  exists bs, Forall2 (fun b a => inet_text b (a, width a)) bs vs
    /\ InetArrayFromIPSlice (Some (map Some ips)) = Some (array_out (map Some bs)).
Proof. exact C87_array_write_proof. Qed.
Print Assumptions C87_array_write.

(** A nil address is written into an array as text that is no inet. *)
Theorem C87_nil_refuted : InetArrayFromIPSlice (Some [None]) = Some (array_out [Some (B "<nil>")])
  /\ (forall v, ~ inet_text (B "<nil>") v).
Proof. exact C87_nil_refuted_proof. Qed.
Print Assumptions C87_nil_refuted.

(** A mapped IPv6 address is written back as an IPv4 address. *)
Theorem C87_mapped_refuted : exists b b' x y, inet_text b (V6 x, 128)
  /\ InetFromIP (InetToIP (Some b) None) = Some b' /\ inet_text b' (V4 y, 32).
Proof. exact C87_mapped_refuted_proof. Qed.
Print Assumptions C87_mapped_refuted.

Example C87_ex :
  InetToIP (Some (B "10.1.2.3")) None = Some (v4prefix ++ [10; 1; 2; 3])
  /\ InetFromIP (Some [10; 1; 2; 3]) = Some (B "10.1.2.3")
  /\ InetFromIP (Some ([32; 1; 13; 184] ++ repeat 0 11 ++ [1])) = Some (B "2001:db8::1")
  /\ InetToIP (Some (B "2001:DB8::1")) None = Some ([32; 1; 13; 184] ++ repeat 0 11 ++ [1])
  /\ InetToIP (Some (B "10.1.2.3/8")) None = None.
Proof. vm_compute. repeat split. Qed.

Example C85_ex :
  CIDRToIPNet (Some (B "2001:db8::/33")) (MkNet None None)
     = Ok (MkNet (Some ([32; 1; 13; 184] ++ repeat 0 12)) (Some ([255; 255; 255; 255; 128] ++ repeat 0 11)))
  /\ CIDRArrayFromIPNetSlice (Some [MkNet (Some [10; 0; 0; 0]) (Some [255; 0; 0; 0])]) = Some (B "{10.0.0.0/8}")
  /\ CIDRArrayToIPNetSlice (Some (B "{10.0.0.0/8,NULL}")) None = Err
  /\ CIDRToIPNet (Some (B "10.0.0.0/33")) (MkNet None None) = Err.
Proof. vm_compute. repeat split. Qed.
