(** Definitions and proofs used by PropsNets.v. *)
From Coq Require Import Ascii String ZArith NArith Bool List Lia.
From Verif Require Import GoBase Strconv StrconvProofs ConvertUtil ConvertProofs Codecs PgSpec PgSpecProofs SimpleProofs IntProofs TimeSpec Net NetSpec NetProofs DatesFinal StampsFinal.
Import ListNotations.
Local Open Scope char_scope.
Local Open Scope N_scope.

Lemma nchar_special : forall c, nchar c = true -> pg_special c = false.
Proof. intros [b0 b1 b2 b3 b4 b5 b6 b7]. destruct b0, b1, b2, b3, b4, b5, b6, b7; intros H; try reflexivity; discriminate H. Qed.

Lemma nchar_elem : forall b, b <> [] -> forallb nchar b = true -> elem_out (Some b) = b.
Proof.
  intros b NE H. apply elem_out_plain. unfold needs_quotes. destruct b as [|c b]; [congruence|].
  replace (is_null_word (c :: b)) with false.
  - cbn [orb]. apply (existsb_forall pg_special nchar); [apply nchar_special|]. apply Forall_forall. now apply forallb_forall.
  - symmetry. unfold is_null_word. destruct list_eq_dec as [E|]; auto. exfalso. cbn [map] in E. injection E as E _.
    cbn [forallb] in H. apply andb_true_iff in H. destruct H as [H _].
    revert H E. destruct c as [b0 b1 b2 b3 b4 b5 b6 b7].
    destruct b0, b1, b2, b3, b4, b5, b6, b7; intros H E; try discriminate H; discriminate E.
Qed.

Lemma nchar_nocomma : forall b, forallb nchar b = true -> nochar "," b.
Proof. intros b H I. rewrite forallb_forall in H. apply H in I. discriminate. Qed.

Lemma octet_cases : forall g c, octet_text g c -> exists h l x y, g = [h; l] /\ hexdigit h = Some x /\ hexdigit l = Some y
  /\ ascii_of_N (x * 16 + y) = c.
Proof.
  intros [|h [|l [|]]] c (x & y & E & V); try discriminate. cbn [map] in E. injection E as E1 E2.
  exists h, l, x, y. repeat split; auto. rewrite <- (ascii_N_embedding c), V. f_equal. lia.
Qed.

Lemma mac_groups_text : forall gs a, Forall2 octet_text gs a -> a <> [] ->
  mac_groups ":" (List.length a) (joined ":" gs) = Some a.
Proof.
  induction 1 as [|g c gs a G F IH]; intros NE; [congruence|].
  destruct (octet_cases g c G) as (h & l & x & y & -> & H1 & H2 & E). rewrite hexdigit_val in H1, H2.
  destruct gs as [|g2 gs].
  - inversion F; subst. cbn [List.length mac_groups joined]. now rewrite H1, H2.
  - rewrite joined_cons by congruence. cbn [app List.length mac_groups]. rewrite H1, H2. change (beq ":" ":") with true. cbv iota.
    rewrite IH by (intros ->; inversion F). cbn [option_map]. now rewrite E.
Qed.

Lemma mac_joined_length : forall gs a, Forall2 octet_text gs a -> a <> [] -> (List.length (joined ":" gs) + 1 = List.length a * 3)%nat.
Proof.
  induction 1 as [|g c gs a G F IH]; intros NE; [congruence|].
  destruct (octet_cases g c G) as (h & l & x & y & -> & _). destruct gs as [|g2 gs].
  - inversion F; subst. reflexivity.
  - rewrite joined_cons by congruence. cbn [app List.length]. rewrite Nat.mul_succ_l, <- IH by (intros ->; inversion F). lia.
Qed.

Lemma mac_parse : forall b a, mac_text b a -> ParseMAC b = Ok a.
Proof.
  intros b a (L & gs & F & ->).
  assert (NE : a <> []) by (intros ->; destruct L; discriminate).
  assert (P := mac_groups_text gs a F NE). assert (JL := mac_joined_length gs a F NE). unfold ParseMAC.
  replace (nth 2 (joined ":" gs) "x") with ":".
  2:{ destruct F as [|g c gs a G F]; [congruence|]. destruct (octet_cases g c G) as (h & l & x & y & -> & _).
      destruct gs. inversion F; subst. destruct L; discriminate. reflexivity. }
  change (beq ":" ":") with true. cbn [orb]. unfold text, bytes in *. rewrite JL, Nat.mod_mul, Nat.div_mul by lia.
  replace (List.length (joined ":" gs) <? 14)%nat with false by (symmetry; apply Nat.ltb_ge; destruct L; lia).
  replace (mac_len (List.length a)) with true by (destruct L as [-> | ->]; reflexivity). cbn [Nat.eqb negb orb].
  unfold text, bytes in *. now rewrite P.
Qed.

Lemma octet_format : forall c, octet_text (hex_byte c) c.
Proof.
  intros c. exists (N_of_ascii c / 16), (N_of_ascii c mod 16). split.
  - destruct c as [b0 b1 b2 b3 b4 b5 b6 b7]. destruct b0, b1, b2, b3, b4, b5, b6, b7; reflexivity.
  - apply N.div_mod. lia.
Qed.

Lemma mac_format : forall a, List.length a = 6%nat \/ List.length a = 8%nat -> mac_text (mac_string a) a.
Proof.
  intros a L. split; auto. exists (map hex_byte a). split; [|apply (join_joined ":")]. clear L.
  induction a; constructor; auto. apply octet_format.
Qed.

Lemma mac_nchar : forall b a, mac_text b a -> b <> [] /\ forallb nchar b = true.
Proof.
  intros b a (L & gs & F & ->). split.
  - intros E. assert (J := mac_joined_length gs a F). rewrite E in J. cbn [List.length] in J.
    assert (a <> []) by (intros ->; destruct L; discriminate). specialize (J H). destruct L; lia.
  - apply nchar_joined; auto. clear L. induction F as [|g c gs a G F IH]; constructor; auto.
    destruct (octet_cases g c G) as (h & l & x & y & -> & H1 & H2 & _). apply (nchar_digits _ [x; y]). cbn [map]. now rewrite H1, H2.
Qed.

Lemma C84_read_proof : forall b a old, mac_text b a -> MACAddrToHardwareAddr (Some b) old = Ok (Some a).
Proof. intros b a old T. cbn [MACAddrToHardwareAddr]. now rewrite (mac_parse b a T). Qed.

Lemma C84_write_proof : forall a, List.length a = 6%nat \/ List.length a = 8%nat ->
  exists b, MACAddrFromHardwareAddr (Some a) = Some b /\ mac_text b a.
Proof. intros a L. exists (mac_string a). split; auto. now apply mac_format. Qed.

Lemma C84_array_read_proof : forall els vs old, Forall2 (opt_rel mac_text) els vs ->
  MACAddrArrayToHardwareAddrSlice (Some (array_out els)) old
  = rmap Some (mapM (fun o => match o with Some a => Ok (Some a) | None => Err end) vs).
Proof.
  intros els vs old F. unfold MACAddrArrayToHardwareAddrSlice, arr_scan. cbn [srcbytes]. f_equal.
  apply (comma_read mac_text _ _ els vs F). intros [b|] [a|] R; cbn [opt_rel] in R; try tauto.
  - destruct (mac_nchar b a R) as [N1 N2]. assert (EE := nchar_elem b N1 N2). unfold text, bytes in *. rewrite EE. split; [now apply nchar_nocomma|]. split; auto.
    now rewrite (mac_parse b a R).
  - split; [intros [E|[E|[E|[E|[]]]]]; discriminate|]. split; [discriminate|reflexivity].
Qed.

Lemma C84_array_write_proof : forall l, Forall (fun a => List.length a = 6%nat \/ List.length a = 8%nat) l ->
  exists bs, Forall2 mac_text bs l /\ MACAddrArrayFromHardwareAddrSlice (Some (map Some l)) = Some (array_out (map Some bs)).
Proof.
  intros l F. destruct (written_array mac_string mac_text l) as (bs & F2 & E).
  - intros a I. rewrite Forall_forall in F. assert (T := mac_format a (F a I)). split; auto.
    destruct (mac_nchar _ _ T). now apply nchar_elem.
  - exists bs. split; auto. etransitivity; [|exact E]. unfold MACAddrArrayFromHardwareAddrSlice, arr_value. destruct l; auto.
    cbn [map]. do 3 f_equal. now rewrite map_map.
Qed.

Lemma C84_roundtrip_proof : forall l old, Forall (fun a => List.length a = 6%nat \/ List.length a = 8%nat) l ->
  MACAddrArrayToHardwareAddrSlice (MACAddrArrayFromHardwareAddrSlice (Some (map Some l))) old = Ok (Some (map Some l)).
Proof.
  intros l old F. destruct (C84_array_write_proof l F) as (bs & F2 & ->). rewrite (C84_array_read_proof (map Some bs) (map Some l)).
  - rewrite (mapM_map Some _ Some). reflexivity. auto.
  - clear F. induction F2; constructor; auto.
Qed.

Lemma C84_nil_refuted_proof : exists l, l <> [] /\
  MACAddrArrayFromHardwareAddrSlice (Some l) = Some (array_out [])
  /\ exists b, MACAddrArrayFromHardwareAddrSlice (Some (l ++ l)) = Some b /\ array_in b = None.
Proof. exists [None]. split; [discriminate|]. split; [reflexivity|]. exists (B "{,}"). split; reflexivity. Qed.

(** An IPv4 address is kept in four bytes or mapped into sixteen. *)
Definition go_ip (ip : list N) (a : inaddr) : Prop :=
  Forall (fun d => d < 256) ip /\
  match a with
  | V4 n => List.length ip = 4%nat /\ num 256 ip = n
            \/ List.length ip = 16%nat /\ num 256 ip = 65535 * 2 ^ 32 + n /\ n < 2 ^ 32
  | V6 n => List.length ip = 16%nat /\ num 256 ip = n
  end.

(** The mask is a number with the first [bits] of its bits set. *)
Definition go_net (n : ipnet) (v : inaddr * N) : Prop :=
  let '(a, bits) := v in
  exists ip m, n = MkNet (Some ip) (Some m) /\ go_ip ip a /\ bits <= width a
    /\ 8 * N.of_nat (List.length m) = width a /\ Forall (fun d => d < 256) m
    /\ num 256 m + 2 ^ (width a - bits) = 2 ^ width a.

(** Go cannot tell the IPv6 addresses ::ffff:0:0/96 from the IPv4 addresses. *)
Definition unmapped (a : inaddr) : Prop := match a with V4 _ => True | V6 n => n / 2 ^ 32 <> 65535 end.

Definition with_number (a : inaddr) (n : N) : inaddr := match a with V4 _ => V4 n | V6 _ => V6 n end.

Lemma as16_ip : forall ad a, addr_is ad a -> go_ip (As16 ad) a /\ List.length (As16 ad) = 16%nat.
Proof.
  intros [l|ws] [n|n] H; cbn [addr_is] in H; try tauto; destruct H as (L & F & E).
  - destruct l as [|x [|y [|z [|t [|]]]]]; try discriminate. cbn [As16 v4prefix app]. split; [|reflexivity]. split.
    { repeat (constructor; [lia|]). exact F. }
    right. split; [reflexivity|]. split.
    + rewrite <- E. cbn [num List.length]. lia.
    + rewrite <- E. apply (num_bound 256 _ ltac:(lia) F).
  - cbn [As16]. unfold go_ip. rewrite split_length, L, split_num, E. split; [|reflexivity]. split; [now apply split_bytes|]. split; reflexivity.
Qed.

Lemma cidr_parse : forall b a bits, cidr_text b (a, bits) ->
  exists n, ParseCIDR b = Some n /\ go_net n (with_number a (network a bits), bits)
    /\ (match net_ip n with Some ip => 8 * N.of_nat (List.length ip) | None => 0 end = width a).
Proof.
  intros b a bits (W & t & T & ->). unfold ParseCIDR.
  assert (C : cut "/" (t ++ "/" :: dec bits) = Some (t, dec bits)).
  { assert (A := achar_addr t a T). revert A. generalize t. clear. induction t as [|c t IH]; intros A; auto.
    cbn [forallb] in A. apply andb_true_iff in A. destruct A as [A1 A2]. cbn [app cut].
    unfold achar in A1. apply andb_true_iff in A1. destruct A1 as [_ A1]. apply negb_true_iff in A1. rewrite A1, (IH A2). reflexivity. }
  unfold text, bytes in *. rewrite C. destruct (ParseAddr_text t a T) as (ad & P & AI). unfold text, bytes in *. rewrite P.
  assert (W' : bits < 256) by (destruct a; cbn [width] in W; lia).
  assert (D : dtoi (dec bits) = Some bits).
  { clear - W'. rewrite dec_format. destruct bits as [|p]; [reflexivity|]. do 8 (destruct p as [p|p|]; try reflexivity); exfalso; lia. }
  rewrite D. assert (BL : BitLen ad = width a) by (destruct ad, a; cbn [addr_is] in AI; tauto || reflexivity).
  rewrite BL. replace (width a <? bits) with false by (symmetry; now apply N.ltb_ge).
  set (k := N.to_nat (width a / 8)). assert (K : 8 * N.of_nat k = width a) by (subst k; destruct a; reflexivity).
  eexists. split; [reflexivity|].
  assert (M : exists l, Mask (As16 ad) (cidr_mask k bits) = Some (land_list l (cidr_mask k bits))
     /\ List.length l = k /\ Forall (fun d => d < 256) l /\ num 256 l = number a).
  { unfold Mask. rewrite mask_len. destruct ad as [l|ws], a as [n|n]; cbn [addr_is] in AI; try tauto; destruct AI as (L & F & E).
    - destruct l as [|x [|y [|z [|u [|]]]]]; try discriminate. exists [x; y; z; u]. repeat split; auto.
    - exists (split_words ws). cbn [As16]. rewrite split_length, L. cbn [number]. rewrite split_num.
      replace k with 16%nat by reflexivity. cbn [Nat.eqb andb]. rewrite split_length, L. split; [reflexivity|]. split; [reflexivity|]. split; [now apply split_bytes|exact E]. }
  destruct M as (l & -> & L1 & L2 & L3).
  destruct (land_num l k bits L1 L2 ltac:(lia)) as (N1 & N2 & N3). rewrite L3, K in N1.
  split; [|cbn [net_ip]; now rewrite N2].
  exists (land_list l (cidr_mask k bits)), (cidr_mask k bits). split; auto.
  assert (WW : width (with_number a (network a bits)) = width a) by (destruct a; reflexivity). rewrite WW, mask_len.
  split; [|split; [auto|split; [auto|split; [apply mask_bytes|]]]].
  - split; auto. unfold network. destruct a as [n|n]; cbn [with_number width number] in *; [left|].
    + split; auto.
    + split; auto.
  - rewrite <- K. apply mask_num. lia.
Qed.

Lemma bytes_prefix : forall ip, List.length ip = 16%nat -> Forall (fun d => d < 256) ip ->
  Ns_eqb (firstn 12 ip) v4prefix = (num 256 ip / 2 ^ 32 =? 65535).
Proof.
  intros ip L F. assert (E : ip = firstn 12 ip ++ skipn 12 ip) by (now rewrite firstn_skipn).
  assert (L1 : List.length (firstn 12 ip) = 12%nat) by (now rewrite firstn_length, L).
  assert (L2 : List.length (skipn 12 ip) = 4%nat) by (now rewrite skipn_length, L).
  assert (F' := F). rewrite E, Forall_app in F'. destruct F' as [F1 F2].
  assert (Q : num 256 ip / 2 ^ 32 = num 256 (firstn 12 ip)).
  { rewrite E at 1. rewrite num_app, L2. change (256 ^ N.of_nat 4) with (2 ^ 32). rewrite N.div_add_l by (apply N.pow_nonzero; lia).
    rewrite N.div_small. lia. assert (Bd := num_bound 256 _ ltac:(lia) F2). rewrite L2 in Bd. exact Bd. }
  rewrite Q. change 65535 with (num 256 v4prefix).
  assert (FP : Forall (fun d => d < 256) v4prefix) by (repeat constructor).
  assert (NE : forall x y, Ns_eqb x y = true <-> x = y).
  { clear. induction x as [|a x IH]; intros [|b y]; cbn [Ns_eqb]; split; intros H; try discriminate; auto.
    - apply andb_true_iff in H. destruct H as [H1 H2]. apply N.eqb_eq in H1. apply IH in H2. congruence.
    - injection H as -> ->. rewrite N.eqb_refl. cbn [andb]. now apply IH. }
  destruct (N.eqb_spec (num 256 (firstn 12 ip)) (num 256 v4prefix)) as [H|H].
  - apply NE. apply (num_inj 256); auto. lia.
  - destruct (Ns_eqb (firstn 12 ip) v4prefix) eqn:B; auto. apply NE in B. congruence.
Qed.

Lemma go_ip_print : forall ip a, go_ip ip a -> unmapped a ->
  addr_text (ip_string (Some ip)) a
  /\ (match a with
      | V4 n => exists f, To4 ip = Some f /\ List.length f = 4%nat /\ num 256 f = n /\ Forall (fun d => d < 256) f
      | V6 n => To4 ip = None /\ List.length ip = 16%nat
      end).
Proof.
  intros ip [n|n] [F G] U.
  - assert (H : exists f, To4 ip = Some f /\ List.length f = 4%nat /\ num 256 f = n /\ Forall (fun d => d < 256) f).
    { destruct G as [[L E]|(L & E & BN)].
      - exists ip. unfold To4. rewrite L. auto.
      - assert (P := bytes_prefix ip L F). exists (skipn 12 ip). unfold To4. rewrite L, P, E.
        rewrite N.div_add_l, N.div_small by (auto; apply N.pow_nonzero; lia).
        split; [reflexivity|]. split; [now rewrite skipn_length, L|].
        assert (E' : ip = firstn 12 ip ++ skipn 12 ip) by (now rewrite firstn_skipn).
        rewrite E', Forall_app in F. split; [|apply F]. destruct F as [F1 F2].
        assert (L2 : List.length (skipn 12 ip) = 4%nat) by (now rewrite skipn_length, L).
        assert (Bd := num_bound 256 _ ltac:(lia) F2). rewrite L2 in Bd. change (256 ^ N.of_nat 4) with (2 ^ 32) in Bd.
        rewrite E' in E at 1. rewrite num_app, L2 in E. change (256 ^ N.of_nat 4) with (2 ^ 32) in E.
        revert E. generalize (num 256 (firstn 12 ip)). intros h E. change (2 ^ 32) with 4294967296 in *. nia. }
    split; auto. destruct H as (f & T & L & E & FF). unfold ip_string. rewrite T. destruct ip as [|x ip]; [discriminate|].
    exists f. split; auto. now apply string4_text.
  - destruct G as [L E]. cbn [unmapped] in U. assert (T : To4 ip = None).
    { unfold To4. rewrite L, (bytes_prefix ip L F), E. cbn [Nat.eqb andb]. apply N.eqb_neq in U. now rewrite U. }
    split; auto. unfold ip_string. rewrite T, L. destruct ip as [|x ip]; [discriminate|]. cbn [Nat.eqb].
    set (l := x :: ip) in *. exists (pair_words l). split.
    + apply string6_text. now apply (pair_length 8). now apply (pair_bytes 8).
    + rewrite <- split_num, (split_pair 8); auto.
Qed.

Lemma net_print : forall n a bits, go_net n (a, bits) -> unmapped a -> cidr_text (net_string n) (a, bits).
Proof.
  intros n a bits (ip & m & -> & G & W & ML & MF & MN) U. destruct (go_ip_print ip a G U) as (T & S4).
  split; auto. exists (ip_string (Some ip)). split; auto.
  set (k := List.length m) in *.
  assert (EM : m = cidr_mask k bits).
  { apply (num_inj 256); try lia; auto. now rewrite mask_len. apply mask_bytes.
    assert (X := mask_num k bits ltac:(lia)). rewrite ML in X. lia. }
  unfold net_string, number_and_mask. cbn [net_ip net_mask]. fold k. destruct a as [x|x].
  - destruct S4 as (f & E4 & LF & NF & FF). rewrite E4. assert (K4 : k = 4%nat) by (cbn [width] in ML; lia). rewrite K4, LF. cbn [Nat.eqb].
    rewrite EM, mask_length_cidr by lia. rewrite dec_format. f_equal.
    unfold ip_string. rewrite E4. destruct ip as [|c ip]; [discriminate E4|]. destruct f as [|c' f]; [discriminate|].
    unfold To4. now rewrite LF.
  - destruct S4 as (E4 & LI). rewrite E4, LI. assert (K16 : k = 16%nat) by (cbn [width] in ML; lia). rewrite K16. cbn [Nat.eqb].
    rewrite LI. cbn [Nat.eqb]. rewrite EM, mask_length_cidr by lia. now rewrite dec_format.
Qed.

Lemma C85_read_proof : forall b a bits old, cidr_text b (a, bits) ->
  exists n, CIDRToIPNet (Some b) old = Ok n /\ go_net n (with_number a (network a bits), bits).
Proof. intros b a bits old T. destruct (cidr_parse b a bits T) as (n & P & G & _). exists n. cbn [CIDRToIPNet]. now rewrite P. Qed.

Lemma C85_write_proof : forall n a bits, go_net n (a, bits) -> unmapped a ->
  exists b, CIDRFromIPNet n = Some b /\ cidr_text b (a, bits).
Proof.
  intros n a bits G U. exists (net_string n). split; [|now apply net_print].
  destruct G as (ip & m & -> & G & W & ML & _). unfold CIDRFromIPNet. cbn [net_ip net_mask].
  destruct ip; auto. destruct m; auto. destruct a; discriminate ML.
Qed.

(** In the form of ParseCIDR a network comes back as it was. *)
Definition short_net (n : ipnet) (v : inaddr * N) : Prop :=
  go_net n v /\ network (fst v) (snd v) = number (fst v)
  /\ match net_ip n with Some ip => 8 * N.of_nat (List.length ip) | None => 0 end = width (fst v).

Lemma short_unique : forall n n' v, short_net n v -> short_net n' v -> n = n'.
Proof.
  intros n n' [a bits] ((ip & m & -> & G & W & ML & MF & MN) & _ & L1) ((ip' & m' & -> & G' & W' & ML' & MF' & MN') & _ & L2).
  cbn [net_ip fst] in *. f_equal; f_equal.
  - destruct G as [F G], G' as [F' G']. apply (num_inj 256); auto; try lia. destruct a; cbn [width] in *.
    + destruct G as [[X Y]|[X _]]; [|lia]. destruct G' as [[X' Y']|[X' _]]; [|lia]. congruence.
    + destruct G, G'. congruence.
  - apply (num_inj 256); auto; lia.
Qed.

Lemma cidr_short : forall b a bits, cidr_text b (a, bits) -> network a bits = number a ->
  exists n, ParseCIDR b = Some n /\ short_net n (a, bits).
Proof.
  intros b a bits T E. destruct (cidr_parse b a bits T) as (n & P & G & L). exists n. split; auto.
  rewrite E in G. replace (with_number a (number a)) with a in G by (now destruct a). repeat split; auto.
Qed.

Lemma C85_roundtrip_proof : forall n v old, short_net n v -> unmapped (fst v) ->
  CIDRToIPNet (CIDRFromIPNet n) old = Ok n.
Proof.
  intros n [a bits] old S U. cbn [fst] in U. destruct (C85_write_proof n a bits (proj1 S) U) as (b & -> & T).
  destruct (cidr_short b a bits T) as (n' & P & S'); [apply S|]. cbn [CIDRToIPNet]. rewrite P. f_equal. eapply short_unique; eauto.
Qed.

Lemma cidr_chars : forall b v, cidr_text b v -> b <> [] /\ forallb nchar b = true.
Proof.
  intros b [a bits] (W & t & T & ->). split. now destruct t. rewrite forallb_app. cbn [forallb].
  now rewrite (nchar_addr t a T), nchar_dec.
Qed.

Lemma C85_array_read_proof : forall els vs old, Forall2 (opt_rel cidr_text) els vs ->
  Forall (fun o => match o with Some v => network (fst v) (snd v) = number (fst v) | None => True end) vs ->
  CIDRArrayToIPNetSlice (Some (array_out els)) old = Err /\ In None vs
  \/ exists ns, CIDRArrayToIPNetSlice (Some (array_out els)) old = Ok (Some ns)
       /\ Forall2 (fun n o => match o with Some v => short_net n v | None => False end) ns vs.
Proof.
  intros els vs old F NB. unfold CIDRArrayToIPNetSlice, arr_scan. cbn [srcbytes].
  set (parse := fun b => match ParseCIDR b with Some n => Ok n | None => Err end).
  assert (E : pgParseCommaArray (array_out els) = Ok (map elem_out els)).
  { assert (G := array_out_comma (fun x : option bytes => x) els). rewrite map_id in G. apply G. clear - F. intros o I.
    induction F as [|x y l l' R F IH]; [destruct I|]. destruct I as [<-|I]; auto. destruct x as [b|], y as [v|]; cbn [opt_rel] in R; try tauto.
    - destruct (cidr_chars b v R) as [N1 N2]. assert (EE := nchar_elem b N1 N2). unfold text, bytes in *. rewrite EE. split; auto. now apply nchar_nocomma.
    - split; [intros [E|[E|[E|[E|[]]]]]; discriminate|discriminate]. }
  rewrite E. cbn [bind]. clear E. induction F as [|o v els vs R F IH].
  - right. exists []. split; auto.
  - inversion NB as [|? ? HN NB']; subst. cbn [map mapM]. set (M := mapM parse (map elem_out els)) in *. clearbody M.
    destruct o as [b|], v as [[a bits]|]; cbn [opt_rel] in R; try tauto.
    + destruct (cidr_chars b _ R) as [N1 N2]. assert (EE := nchar_elem b N1 N2). unfold text, bytes in *. rewrite EE. destruct (cidr_short b a bits R HN) as (n & P & S).
      unfold parse. unfold text, bytes in *. rewrite P. cbn [bind]. destruct (IH NB') as [[E I]|(ns & E & F2)].
      * left. split; [|now right]. destruct M; cbn [rmap bind] in *; try discriminate; auto.
      * right. exists (n :: ns). split; [|constructor; auto]. destruct M as [y| |]; cbn [rmap bind] in *; try discriminate.
        injection E as ->. reflexivity.
    + left. split; [reflexivity|now left].
Qed.

Lemma C85_array_write_proof : forall ns vs, Forall2 go_net ns vs -> Forall (fun v => unmapped (fst v)) vs ->
  exists bs, Forall2 cidr_text bs vs
    /\ CIDRArrayFromIPNetSlice (Some ns) = Some (array_out (map Some bs))
    /\ InetArrayFromIPNetSlice (Some ns) = Some (array_out (map Some bs)).
Proof.
  intros ns vs F U. exists (map net_string ns).
  assert (T : Forall2 cidr_text (map net_string ns) vs).
  { induction F as [|n [a bits] ns vs G F IH]; inversion U; subst; constructor; auto. now apply net_print. }
  split; auto. assert (E : arr_value net_string (Some ns) = Some (array_out (map Some (map net_string ns)))).
  { rewrite map_map. apply arr_value_out. intros n I. destruct (in_split _ _ I) as (l1 & l2 & ->).
    rewrite map_app in T. cbn [map] in T. apply Forall2_app_inv_l in T. destruct T as (v1 & v2 & _ & T & _). inversion T as [|? v ? ? C _]; subst.
    destruct (cidr_chars _ _ C). now apply nchar_elem. }
  split; exact E.
Qed.

Lemma C85_mapped_refuted_proof : exists b b' n x y, cidr_text b (V6 x, 120) /\ CIDRToIPNet (Some b) (MkNet None None) = Ok n
  /\ CIDRFromIPNet n = Some b' /\ cidr_text b' (V4 y, 24).
Proof.
  exists (B "::ffff:10.1.2.0/120"), (B "10.1.2.0/24"). do 3 eexists. split; [|split; [vm_compute; reflexivity|split; [vm_compute; reflexivity|]]].
  - split; [cbn; lia|]. exists (B "::ffff:10.1.2.0"). split; [|reflexivity].
    exists [0; 0; 0; 0; 0; 65535; 2561; 512]. split; [|vm_compute; reflexivity]. split; auto. right.
    exists [], [65535; 2561; 512], [], (B "ffff:10.1.2.0"), 5%nat. split; [lia|]. split; [reflexivity|]. split; [exists []; split; auto|].
    split; [|reflexivity]. right. exists [B "ffff"], [65535], (B "10.1.2.0"), 10, 1, 2, 0. split; [|split; [|split; reflexivity]].
    + constructor; auto. exists [15; 15; 15; 15]. split; [reflexivity|]. split; [cbn; lia|reflexivity].
    + split; [reflexivity|]. split; [repeat constructor|reflexivity].
  - split; [cbn; lia|]. exists (B "10.1.2.0"). split; [|reflexivity]. exists [10; 1; 2; 0]. split; [|vm_compute; reflexivity].
    split; [reflexivity|]. split; [repeat constructor|reflexivity].
Qed.

Lemma no_slash : forall t, forallb achar t = true -> cut "/" t = None.
Proof.
  induction t as [|c t IH]; intros A; auto. cbn [forallb] in A. apply andb_true_iff in A. destruct A as [A1 A2].
  cbn [cut]. unfold achar in A1. apply andb_true_iff in A1. destruct A1 as [_ A1]. apply negb_true_iff in A1. now rewrite A1, (IH A2).
Qed.

Lemma C86_read_proof : forall b a bits old, inet_text b (a, bits) ->
  (bits < width a -> go_net (InetToIPNet (Some b) old) (with_number a (network a bits), bits))
  /\ (bits = width a -> exists ip, InetToIPNet (Some b) old = MkNet (Some ip) None /\ go_ip ip a).
Proof.
  intros b a bits old (W & t & T & E). cbn [InetToIPNet]. unfold inet_net. split; intros H.
  - replace (bits =? width a) with false in E by (symmetry; apply N.eqb_neq; lia).
    destruct (cidr_parse b a bits) as (n & P & G & _). { split; auto. exists t. auto. } now rewrite P.
  - subst bits. rewrite N.eqb_refl in E. subst b. destruct (ParseAddr_text t a T) as (ad & P & AI).
    unfold ParseCIDR, ParseIP. rewrite (no_slash t (achar_addr t a T)). unfold text, bytes in *. rewrite P. cbn [option_map].
    exists (As16 ad). split; auto. now apply as16_ip.
Qed.

Lemma C86_write_proof : forall n a bits, go_net n (a, bits) -> unmapped a ->
  exists b, InetFromIPNet n = Some b /\ cidr_text b (a, bits).
Proof.
  intros n a bits G U. exists (net_string n). split; [|now apply net_print].
  destruct G as (ip & m & -> & _). reflexivity.
Qed.

Lemma not_inet : forall v, ~ inet_text (B "<nil>") v.
Proof.
  intros [a' bits] (_ & t & T' & E). assert (A := achar_addr t a' T').
  destruct (bits =? width a').
  - subst t. discriminate.
  - destruct t as [|c t]; [discriminate|]. cbn [app] in E. injection E as E1 E2. subst c. discriminate.
Qed.

Lemma C86_host_refuted_proof : exists b, inet_text b (V4 167838211, 8)
  /\ exists b', InetFromIPNet (InetToIPNet (Some b) (MkNet None None)) = Some b' /\ cidr_text b' (V4 167772160, 8).
Proof.
  exists (B "10.1.2.3/8"). split.
  - split; [cbn; lia|]. exists (B "10.1.2.3"). split; [|reflexivity]. exists [10; 1; 2; 3]. split; [|reflexivity].
    split; [reflexivity|]. split; [repeat constructor|reflexivity].
  - exists (B "10.0.0.0/8"). split; [vm_compute; reflexivity|]. split; [cbn; lia|]. exists (B "10.0.0.0"). split; [|reflexivity].
    exists [10; 0; 0; 0]. split; [|reflexivity]. split; [reflexivity|]. split; [repeat constructor|reflexivity].
Qed.

Lemma C86_single_refuted_proof : forall b a old, inet_text b (a, width a) ->
  InetFromIPNet (InetToIPNet (Some b) old) = Some (B "<nil>") /\ (forall v, ~ inet_text (B "<nil>") v).
Proof.
  intros b a old T. destruct (C86_read_proof b a (width a) old T) as [_ H]. destruct (H eq_refl) as (ip & -> & G). split.
  - cbn [InetFromIPNet net_ip net_mask]. f_equal. unfold net_string, number_and_mask. cbn [net_ip net_mask List.length Nat.eqb].
    destruct (To4 ip); auto. destruct (List.length ip =? 16)%nat; auto.
  - exact not_inet.
Qed.

(** The value an element of an array is read as; a NULL is the zero network. *)
Definition net_read (n : ipnet) (o : option (inaddr * N)) : Prop :=
  match o with
  | None => n = MkNet None None
  | Some (a, bits) =>
      (bits < width a -> go_net n (with_number a (network a bits), bits))
      /\ (bits = width a -> exists ip, n = MkNet (Some ip) None /\ go_ip ip a)
  end.

Lemma inet_chars : forall b v, inet_text b v -> b <> [] /\ forallb nchar b = true.
Proof.
  intros b [a bits] (W & t & T & E). assert (N1 := nchar_addr t a T).
  assert (NE : t <> []) by (intros ->; destruct (ParseAddr_text [] a T) as (ad & P & _); discriminate P).
  destruct (bits =? width a); subst b; auto. split. now destruct t. rewrite forallb_app. cbn [forallb]. now rewrite N1, nchar_dec.
Qed.

Lemma inet_comma : forall els vs, Forall2 (opt_rel inet_text) els vs ->
  pgParseCommaArray (array_out els) = Ok (map elem_out els)
  /\ Forall2 (fun e o => match o with None => e = B "NULL" | Some v => inet_text e v end) (map elem_out els) vs.
Proof.
  intros els vs F. split.
  - assert (G := array_out_comma (fun x : option bytes => x) els). rewrite map_id in G. apply G. clear - F. intros o I.
    induction F as [|x y l l' R F IH]; [destruct I|]. destruct I as [<-|I]; auto. destruct x as [b|], y as [v|]; cbn [opt_rel] in R; try tauto.
    + destruct (inet_chars b v R) as [N1 N2]. assert (EE := nchar_elem b N1 N2). unfold text, bytes in *. rewrite EE. split; auto. now apply nchar_nocomma.
    + split; [intros [E|[E|[E|[E|[]]]]]; discriminate|discriminate].
  - induction F as [|x y l l' R F IH]; cbn [map]; constructor; auto. destruct x as [b|], y as [v|]; cbn [opt_rel] in R; try tauto.
    destruct (inet_chars b v R) as [N1 N2]. assert (EE := nchar_elem b N1 N2). unfold text, bytes in *. now rewrite EE.
Qed.

Lemma C86_array_read_proof : forall els vs old, Forall2 (opt_rel inet_text) els vs ->
  exists ns, InetArrayToIPNetSlice (Some (array_out els)) old = Ok (Some ns) /\ Forall2 net_read ns vs.
Proof.
  intros els vs old F. destruct (inet_comma els vs F) as [E F2]. unfold InetArrayToIPNetSlice, arr_scan. cbn [srcbytes].
  rewrite E. cbn [rmap bind]. exists (map inet_net (map elem_out els)). split; [reflexivity|]. clear E F.
  induction F2 as [|e o es os R F2 IH]; cbn [map]; constructor; auto. destruct o as [[a bits]|].
  - exact (C86_read_proof e a bits (MkNet None None) R).
  - now rewrite R.
Qed.

Lemma v4_no_slash : forall s v d acc f, v4_fields s v d acc = Some f -> ~ In "/" s.
Proof.
  induction s as [|c s IH]; intros v d acc f H I; [destruct I|]. cbn [v4_fields] in H. destruct I as [->|I].
  - discriminate H.
  - destruct (dec_val c).
    + destruct (_ && _); [discriminate|]. destruct (255 <? _); [discriminate|]. eapply IH; eauto.
    + destruct (beq c "."); [|discriminate]. destruct (_ || _); [discriminate|]. destruct (_ =? _)%nat; [discriminate|]. eapply IH; eauto.
Qed.

Lemma hex_group_slash : forall s off acc w o r, hex_group s off acc = Some (w, o, r) -> In "/" s -> In "/" r.
Proof.
  induction s as [|c s IH]; intros off acc w o r H I; [destruct I|]. cbn [hex_group] in H.
  destruct (hex_val c) as [d|] eqn:E.
  - destruct (3 <? off)%nat; [discriminate|]. destruct (65535 <? _); [discriminate|]. destruct I as [->|I]; [discriminate E|]. eapply IH; eauto.
  - now injection H as _ _ <-.
Qed.

Lemma v6_loop_slash : forall k s ws ell ws' ell' r, v6_loop k s ws ell = Some (ws', ell', r) -> In "/" s -> In "/" r.
Proof.
  induction k as [|k IH]; intros s ws ell ws' ell' r H I; cbn [v6_loop] in H; [now injection H as _ _ <-|].
  destruct (hex_group s 0 0) as [[[w off] t]|] eqn:E; [|discriminate]. destruct (off =? 0)%nat; [discriminate|].
  assert (J := hex_group_slash _ _ _ _ _ _ E I). destruct t as [|c t]; [destruct J|].
  destruct (beq c ".") eqn:D.
  - destruct (match ell with None => _ | Some _ => _ end); [discriminate|]. destruct (S k <? 2)%nat; [discriminate|].
    destruct (v4_fields s 0 0 []) eqn:V; [|discriminate]. now apply v4_no_slash in V.
  - destruct (beq c ":") eqn:C; [|discriminate]. destruct t as [|c1 t]; [discriminate|]. destruct J as [->|J]; [discriminate C|].
    destruct (beq c1 ":") eqn:C1.
    + destruct ell; [discriminate|]. destruct J as [->|J]; [discriminate C1|]. destruct t as [|c2 t]; [destruct J|]. eapply IH; eauto.
    + eapply IH; eauto.
Qed.

Lemma ParseAddr_slash : forall s, In "/" s -> ParseAddr s = None.
Proof.
  intros s I. unfold ParseAddr. destruct existsb; auto. destruct (addr_kind s) as [[]|]; auto.
  - destruct (v4_fields s 0 0 []) eqn:V; auto. now apply v4_no_slash in V.
  - unfold parse_v6.
    assert (J : forall k t ws ell, In "/" t -> match v6_loop k t ws ell with Some (_, _, []) => False | _ => True end).
    { intros k t ws ell It. destruct (v6_loop k t ws ell) as [[[ws' ell'] r]|] eqn:E; auto. apply v6_loop_slash in E; auto. destruct r; auto. }
    destruct (has_prefix (B "::") s) eqn:P.
    + assert (I2 : In "/" (skipn 2 s)).
      { destruct s as [|c [|c1 s]]; try discriminate P. cbn in P; rewrite andb_false_r in P; discriminate P. cbn [skipn].
        destruct I as [->|[->|I]]; auto; [discriminate P|]. destruct c as [b0 b1 b2 b3 b4 b5 b6 b7]; destruct b0, b1, b2, b3, b4, b5, b6, b7; discriminate P. }
      destruct (skipn 2 s) as [|c t]; [destruct I2|]. specialize (J 8%nat (c :: t) [] (Some 0%nat) I2).
      destruct (v6_loop 8 (c :: t) [] (Some 0%nat)) as [[[ws' ell'] [|]]|]; auto. destruct J.
    + specialize (J 8%nat s [] None I). destruct (v6_loop 8 s [] None) as [[[ws' ell'] [|]]|]; auto. destruct J.
Qed.

Lemma C87_read_proof : forall b a bits old, inet_text b (a, bits) ->
  (bits = width a -> exists ip, InetToIP (Some b) old = Some ip /\ go_ip ip a /\ List.length ip = 16%nat)
  /\ (bits < width a -> InetToIP (Some b) old = None /\ InetFromIP (InetToIP (Some b) old) = None).
Proof.
  intros b a bits old (W & t & T & E). cbn [InetToIP]. unfold ParseIP. split; intros H.
  - subst bits. rewrite N.eqb_refl in E. subst b. destruct (ParseAddr_text t a T) as (ad & P & AI). unfold text, bytes in *. rewrite P.
    exists (As16 ad). split; auto. now apply as16_ip.
  - replace (bits =? width a) with false in E by (symmetry; apply N.eqb_neq; lia).
    assert (I : In "/" b) by (subst b; apply in_or_app; right; now left). now rewrite (ParseAddr_slash b I).
Qed.

Lemma C87_write_proof : forall ip a, go_ip ip a -> unmapped a ->
  exists b, InetFromIP (Some ip) = Some b /\ inet_text b (a, width a).
Proof.
  intros ip a G U. exists (ip_string (Some ip)). split; auto. split; [lia|]. exists (ip_string (Some ip)).
  rewrite N.eqb_refl. split; auto. now apply go_ip_print.
Qed.

Lemma go_ip_unique : forall ip ip' a, go_ip ip a -> go_ip ip' a -> List.length ip = 16%nat -> List.length ip' = 16%nat -> ip = ip'.
Proof.
  intros ip ip' a [F G] [F' G'] L L'. apply (num_inj 256); auto; try lia. destruct a.
  - destruct G as [[X _]|(_ & Y & _)]; [lia|]. destruct G' as [[X _]|(_ & Y' & _)]; [lia|]. congruence.
  - destruct G, G'. congruence.
Qed.

Lemma C87_roundtrip_proof : forall ip a old, go_ip ip a -> unmapped a -> List.length ip = 16%nat ->
  InetToIP (InetFromIP (Some ip)) old = Some ip.
Proof.
  intros ip a old G U L. destruct (C87_write_proof ip a G U) as (b & -> & T). destruct (C87_read_proof b a (width a) old T) as [R _].
  destruct (R eq_refl) as (ip' & E & G' & L'). etransitivity; [exact E|]. f_equal. eapply go_ip_unique; eauto.
Qed.

Definition ip_read (ip : slice N) (o : option (inaddr * N)) : Prop :=
  match o with
  | None => ip = None
  | Some (a, bits) =>
      (bits = width a -> exists l, ip = Some l /\ go_ip l a /\ List.length l = 16%nat) /\ (bits < width a -> ip = None)
  end.

Lemma C87_array_read_proof : forall els vs old, Forall2 (opt_rel inet_text) els vs ->
  exists ips, InetArrayToIPSlice (Some (array_out els)) old = Ok (Some ips) /\ Forall2 ip_read ips vs.
Proof.
  intros els vs old F. destruct (inet_comma els vs F) as [E F2]. unfold InetArrayToIPSlice, arr_scan. cbn [srcbytes].
  rewrite E. cbn [rmap bind]. exists (map ParseIP (map elem_out els)). split; [reflexivity|]. clear E F.
  induction F2 as [|e o es os R F2 IH]; cbn [map]; constructor; auto. destruct o as [[a bits]|].
  - destruct (C87_read_proof e a bits None R) as [R1 R2]. split; auto. intros H. now apply R2.
  - now rewrite R.
Qed.

Lemma C87_array_write_proof : forall ips vs, Forall2 go_ip ips vs -> Forall unmapped vs ->
  exists bs, Forall2 (fun b a => inet_text b (a, width a)) bs vs
    /\ InetArrayFromIPSlice (Some (map Some ips)) = Some (array_out (map Some bs)).
Proof.
  intros ips vs F U. exists (map (fun ip => ip_string (Some ip)) ips).
  assert (T : Forall2 (fun b a => inet_text b (a, width a)) (map (fun ip => ip_string (Some ip)) ips) vs).
  { induction F as [|ip a ips vs G F IH]; inversion U; subst; constructor; auto.
    destruct (C87_write_proof ip a G H1) as (b & E & T). injection E as <-. exact T. }
  split; auto. unfold InetArrayFromIPSlice. rewrite !map_map.
  transitivity (arr_value (fun ip => ip_string (Some ip)) (Some ips)).
  - destruct ips; auto. unfold arr_value. cbn [map]. do 3 f_equal. now rewrite map_map.
  - apply arr_value_out. intros ip I. destruct (in_split _ _ I) as (l1 & l2 & ->). rewrite map_app in T. cbn [map] in T.
    apply Forall2_app_inv_l in T. destruct T as (v1 & v2 & _ & T & _). inversion T as [|? v ? ? C _]; subst.
    destruct (inet_chars _ _ C). now apply nchar_elem.
Qed.

Lemma C87_nil_refuted_proof : InetArrayFromIPSlice (Some [None]) = Some (array_out [Some (B "<nil>")])
  /\ (forall v, ~ inet_text (B "<nil>") v).
Proof. split; [reflexivity|]. exact not_inet. Qed.

Lemma C87_mapped_refuted_proof : exists b b' x y, inet_text b (V6 x, 128)
  /\ InetFromIP (InetToIP (Some b) None) = Some b' /\ inet_text b' (V4 y, 32).
Proof.
  exists (B "::ffff:10.1.2.0"), (B "10.1.2.0"). do 2 eexists. split; [|split; [vm_compute; reflexivity|]].
  - split; [cbn; lia|]. exists (B "::ffff:10.1.2.0"). split; [|reflexivity].
    exists [0; 0; 0; 0; 0; 65535; 2561; 512]. split; [|vm_compute; reflexivity]. split; auto. right.
    exists [], [65535; 2561; 512], [], (B "ffff:10.1.2.0"), 5%nat. split; [lia|]. split; [reflexivity|]. split; [exists []; split; auto|].
    split; [|reflexivity]. right. exists [B "ffff"], [65535], (B "10.1.2.0"), 10, 1, 2, 0. split; [|split; [|split; reflexivity]].
    + constructor; auto. exists [15; 15; 15; 15]. split; [reflexivity|]. split; [cbn; lia|reflexivity].
    + split; [reflexivity|]. split; [repeat constructor|reflexivity].
  - split; [cbn; lia|]. exists (B "10.1.2.0"). split; [|reflexivity]. exists [10; 1; 2; 0]. split; [|vm_compute; reflexivity].
    split; [reflexivity|]. split; [repeat constructor|reflexivity].
Qed.
