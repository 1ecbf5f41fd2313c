(** char[] codecs. *)
From Coq Require Import Ascii String ZArith NArith Bool List Lia.
From Verif Require Import GoBase Strconv ConvertUtil Codecs Utf8 CharCodecs PgSpec.
From Verif Require Import ConvertProofs PgSpecProofs TextProofs SimpleProofs.
Import ListNotations.
Local Open Scope char_scope.

(** *** UTF-8 *)
Lemma code_chr : forall n, (n < 256)%N -> code (chr n) = n.
Proof. intros. unfold code, chr. now apply N_ascii_embedding. Qed.

Lemma div_mod_64 : forall n m, (n < m * 64)%N -> (n / 64 < m)%N.
Proof. intros. apply N.div_lt_upper_bound; lia. Qed.

Lemma between_chr : forall lo hi n, (n < 256)%N -> between lo hi (chr n) = ((lo <=? n) && (n <=? hi))%N.
Proof. intros. unfold between. now rewrite code_chr. Qed.

Lemma cont_chr : forall n, (n < 64)%N -> cont (chr (128 + n)) = true.
Proof.
  intros. unfold cont. rewrite code_chr by lia.
  apply andb_true_intro. split; apply N.leb_le; lia.
Qed.

Definition scalar (n : N) : bool := ((n <? 55296) || (57344 <=? n) && (n <=? 1114111))%N.

Lemma scalar_valid : forall n, scalar n = valid_rune (Z.of_N n).
Proof.
  intros. unfold scalar, valid_rune. apply eq_true_iff_eq.
  rewrite !orb_true_iff, !andb_true_iff, !Z.leb_le, !Z.ltb_lt, N.ltb_lt, !N.leb_le. lia.
Qed.

Ltac ntest t b :=
  replace t with b by (symmetry; first [apply N.ltb_lt | apply N.ltb_ge | apply N.leb_le | apply N.leb_gt | apply N.eqb_eq | apply N.eqb_neq]; lia).

Lemma decode_encode : forall n rest, scalar n = true ->
  decode_rune (encode_scalar n ++ rest) = (n, List.length (encode_scalar n)).
Proof.
  intros n rest V. unfold scalar in V. rewrite orb_true_iff, andb_true_iff, N.ltb_lt, !N.leb_le in V.
  unfold encode_scalar.
  destruct (N.ltb_spec n 128); [|destruct (N.ltb_spec n 2048); [|destruct (N.ltb_spec n 65536)]].
  - cbn [app decode_rune]. rewrite code_chr by lia. now ntest (n <? 128)%N true.
  - pose proof (N.div_mod n 64). assert (n / 64 < 32)%N by (apply N.div_lt_upper_bound; lia).
    assert (2 <= n / 64)%N by (apply N.div_le_lower_bound; lia). pose proof (N.mod_lt n 64).
    set (a := (n / 64)%N) in *. set (b := (n mod 64)%N) in *.
    cbn [app decode_rune]. rewrite !code_chr by lia. ntest (192 + a <? 128)%N false.
    ntest (194 <=? 192 + a)%N true. ntest (192 + a <=? 223)%N true. cbn [andb]. rewrite cont_chr by lia.
    cbn [List.length]. f_equal. lia.
  - pose proof (N.div_mod n 64). pose proof (N.mod_lt n 64). pose proof (N.div_mod (n / 64) 64). pose proof (N.mod_lt (n / 64) 64).
    replace (n / 4096)%N with (n / 64 / 64)%N by (rewrite N.div_div by lia; reflexivity).
    assert (n / 64 / 64 < 16)%N by (apply N.div_lt_upper_bound; [lia|]; apply N.div_lt_upper_bound; lia).
    set (c := (n mod 64)%N) in *. set (b := ((n / 64) mod 64)%N) in *. set (a := (n / 64 / 64)%N) in *.
    set (q := (n / 64)%N) in *.
    cbn [app decode_rune]. rewrite (code_chr (224 + a)) by lia. ntest (224 + a <? 128)%N false.
    ntest (224 + a <=? 223)%N false. rewrite andb_false_r.
    ntest (224 <=? 224 + a)%N true. ntest (224 + a <=? 239)%N true. cbn [andb].
    rewrite between_chr, cont_chr by lia.
    assert (X : ((if 224 + a =? 224 then 160 else 128) <=? 128 + b)%N = true).
    { apply N.leb_le. destruct (N.eqb_spec (224 + a) 224); lia. }
    assert (Y : (128 + b <=? (if 224 + a =? 237 then 159 else 191))%N = true).
    { apply N.leb_le. destruct (N.eqb_spec (224 + a) 237); lia. }
    rewrite X, Y. cbn [andb]. rewrite !code_chr by lia. cbn [List.length]. f_equal. lia.
  - pose proof (N.div_mod n 64). pose proof (N.mod_lt n 64). pose proof (N.div_mod (n / 64) 64). pose proof (N.mod_lt (n / 64) 64).
    pose proof (N.div_mod (n / 64 / 64) 64). pose proof (N.mod_lt (n / 64 / 64) 64).
    replace (n / 262144)%N with (n / 64 / 64 / 64)%N by (rewrite !N.div_div by lia; reflexivity).
    replace (n / 4096)%N with (n / 64 / 64)%N by (rewrite N.div_div by lia; reflexivity).
    set (c := (n mod 64)%N) in *. set (b := ((n / 64) mod 64)%N) in *. set (a := (n / 64 / 64 mod 64)%N) in *.
    set (z := (n / 64 / 64 / 64)%N) in *. set (q := (n / 64)%N) in *. set (p := (q / 64)%N) in *.
    assert (z < 5)%N by lia.
    cbn [app decode_rune]. rewrite (code_chr (240 + z)) by lia. ntest (240 + z <? 128)%N false.
    ntest (240 + z <=? 223)%N false. rewrite andb_false_r. ntest (240 + z <=? 239)%N false. rewrite andb_false_r.
    ntest (240 <=? 240 + z)%N true. ntest (240 + z <=? 244)%N true. cbn [andb].
    rewrite between_chr, !cont_chr by lia.
    assert (X : ((if 240 + z =? 240 then 144 else 128) <=? 128 + a)%N = true).
    { apply N.leb_le. destruct (N.eqb_spec (240 + z) 240); lia. }
    assert (Y : (128 + a <=? (if 240 + z =? 244 then 143 else 191))%N = true).
    { apply N.leb_le. destruct (N.eqb_spec (240 + z) 244); lia. }
    rewrite X, Y. cbn [andb]. rewrite !code_chr by lia. cbn [List.length]. f_equal. lia.
Qed.

Lemma encode_nonempty : forall n, exists c r, encode_scalar n = c :: r.
Proof.
  intros. unfold encode_scalar. destruct (n <? 128)%N; [|destruct (n <? 2048)%N; [|destruct (n <? 65536)%N]]; eauto.
Qed.

Lemma runes_skip : forall s k, runes_loop s k = runes_loop (skipn k s) 0.
Proof. induction s as [|c s IH]; intros [|k]; auto. simpl. apply IH. Qed.

Lemma runes_encode : forall n rest, scalar n = true -> runes (encode_scalar n ++ rest) = n :: runes rest.
Proof.
  intros n rest V. pose proof (decode_encode n rest V) as D. unfold runes.
  destruct (encode_nonempty n) as (c & r & E). rewrite E in *. cbn [app] in *.
  transitivity (let '(m, w) := decode_rune (c :: r ++ rest) in m :: runes_loop (r ++ rest) (w - 1)). reflexivity.
  rewrite D. cbn [List.length]. rewrite Nat.sub_succ, Nat.sub_0_r. f_equal.
  now rewrite runes_skip, skipn_length_app.
Qed.

Lemma runes_ascii : forall c rest, (code c < 128)%N -> runes (c :: rest) = code c :: runes rest.
Proof.
  intros c rest H. unfold runes.
  transitivity (let '(m, w) := decode_rune (c :: rest) in m :: runes_loop rest (w - 1)). reflexivity.
  unfold decode_rune. now ntest (code c <? 128)%N true.
Qed.

Definition utf8 (l : list N) : bytes := List.concat (map encode_scalar l).

Lemma runes_utf8 : forall l, forallb scalar l = true -> runes (utf8 l) = l.
Proof.
  induction l as [|n l IH]; intros H. reflexivity. simpl in H. apply andb_prop in H. destruct H.
  unfold utf8. cbn [map List.concat]. rewrite runes_encode by auto. f_equal. now apply IH.
Qed.

(** *** the writer: quoting of one character *)
Definition dropped (r : Z) : bool := existsb (Z.eqb r) [8; 7]%Z.
Definition core (r : Z) (dflt : bytes) : bytes :=
  if existsb (Z.eqb r) [32; 9; 13; 10; 12; 11]%Z then [dq; byte_of r; dq]
  else if existsb (Z.eqb r) [34; 92]%Z then [dq; bs; byte_of r; dq]
  else if (r =? 44)%Z then [dq; ","; dq]
  else dflt.

Lemma char_elem_core : forall r dflt,
  char_elem r dflt = if dropped r then [] else core r dflt ++ [","].
Proof.
  intros r dflt. unfold char_elem, core, dropped.
  destruct (existsb (Z.eqb r) [32; 9; 13; 10; 12; 11]%Z) eqn:E1.
  { apply existsb_exists in E1. destruct E1 as (x & I & E). apply Z.eqb_eq in E. subst x. simpl in I.
    repeat (destruct I as [<-|I]; [reflexivity|]). destruct I. }
  destruct (existsb (Z.eqb r) [34; 92]%Z) eqn:E2.
  { apply existsb_exists in E2. destruct E2 as (x & I & E). apply Z.eqb_eq in E. subst x. simpl in I.
    repeat (destruct I as [<-|I]; [reflexivity|]). destruct I. }
  destruct (Z.eqb_spec r 44) as [->|N]. reflexivity.
  reflexivity.
Qed.

Definition kept (l : list Z) : list Z := filter (fun r => negb (dropped r)) l.

(** The text of a char array: the kept characters, comma separated; a lone
    closing brace if all are dropped. *)
Lemma char_array_text : forall {A} (rune : A -> Z) (txt : A -> bytes) l,
  char_array (map (fun x => char_elem (rune x) (txt x)) l)
  = match filter (fun x => negb (dropped (rune x))) l with
    | [] => ["}"]
    | ks => "{" :: join [","] (map (fun x => core (rune x) (txt x)) ks) ++ ["}"]
    end.
Proof.
  intros A rune txt l. unfold char_array.
  assert (X : List.concat (map (fun x => char_elem (rune x) (txt x)) l)
    = List.concat (map (fun e => e ++ [","]) (map (fun x => core (rune x) (txt x)) (filter (fun x => negb (dropped (rune x))) l)))).
  { induction l as [|x l IH]. reflexivity. cbn [map List.concat filter]. rewrite char_elem_core, IH.
    destruct (dropped (rune x)); reflexivity. }
  rewrite X. destruct (filter _ l) as [|k ks]. reflexivity.
  rewrite concat_sep_join by discriminate. rewrite app_comm_cons, removelast_last. reflexivity.
Qed.

(** *** the byte reader *)
Lemma array2_skip : forall s k, array2_loop s k = array2_loop (skipn k s) 0.
Proof. induction s as [|c s IH]; intros [|k]; auto. simpl. apply IH. Qed.

(** The reader's contribution of a piece of text: [array2_loop] turns it into
    [out] and goes on. *)
Definition reads2 (t out : bytes) : Prop :=
  forall rest, array2_loop (t ++ rest) 0 = rmap (app out) (array2_loop rest 0).

Lemma rmap_app : forall (x y : bytes) r, rmap (app x) (rmap (app y) r) = rmap (app (x ++ y)) r.
Proof. intros x y [a| |]; auto. simpl. now rewrite app_assoc. Qed.

Lemma rmap_nil : forall (r : res bytes), rmap (app []) r = r.
Proof. intros [| |]; reflexivity. Qed.

Lemma reads2_app : forall t1 o1 t2 o2, reads2 t1 o1 -> reads2 t2 o2 -> reads2 (t1 ++ t2) (o1 ++ o2).
Proof. intros t1 o1 t2 o2 H1 H2 rest. rewrite <- app_assoc, H1, H2. apply rmap_app. Qed.

Lemma reads2_comma : reads2 [","] [].
Proof. intros rest. cbn [app array2_loop]. now rewrite rmap_nil. Qed.

Lemma reads2_quoted : forall c, c <> bs -> reads2 [dq; c; dq] [c].
Proof.
  intros c H rest. apply beq_neq in H.
  transitivity (rmap (cons c) (array2_loop (c :: dq :: rest) 2)).
  - cbn [app]. cbn [array2_loop]. rewrite beq_refl, H. reflexivity.
  - rewrite array2_skip. reflexivity.
Qed.

Lemma reads2_escaped : forall c, reads2 [dq; bs; c; dq] [c].
Proof.
  intros c rest. transitivity (rmap (cons c) (array2_loop (bs :: c :: dq :: rest) 3)). reflexivity.
  rewrite array2_skip. reflexivity.
Qed.

Lemma reads2_plain1 : forall c, c <> dq -> c <> "," -> reads2 [c] [c].
Proof.
  intros c H1 H2 rest. apply beq_neq in H1, H2. cbn [app array2_loop]. now rewrite H1, H2.
Qed.

Lemma reads2_nil : reads2 [] [].
Proof. intros rest. now rewrite rmap_nil. Qed.

Lemma reads2_plain : forall s, nochar dq s -> nochar "," s -> reads2 s s.
Proof.
  induction s as [|c s IH]; intros H1 H2. apply reads2_nil.
  apply nochar_cons in H1, H2. destruct H1, H2.
  change (c :: s) with ([c] ++ s). apply reads2_app; auto. now apply reads2_plain1.
Qed.

Lemma reads2_join : forall {A} (t o : A -> bytes) l, (forall x, In x l -> reads2 (t x) (o x)) ->
  reads2 (join [","] (map t l)) (List.concat (map o l)).
Proof.
  intros A t o. induction l as [|x [|x' l] IH]; intros H.
  - apply reads2_nil.
  - simpl. rewrite app_nil_r. apply H. simpl; auto.
  - change (reads2 (t x ++ [","] ++ join [","] (map t (x' :: l))) (o x ++ [] ++ List.concat (map o (x' :: l)))).
    apply reads2_app. apply H; simpl; auto. apply reads2_app. apply reads2_comma. apply IH. intros; apply H; simpl; auto.
Qed.

Lemma reads2_ok : forall t o c0 c1, reads2 t o -> pgparsearray2 (c0 :: t ++ [c1]) = Ok o.
Proof.
  intros t o c0 c1 H. unfold pgparsearray2. rewrite drop_ends_wrap. cbn [bind].
  rewrite <- (app_nil_r t), H. simpl. now rewrite app_nil_r.
Qed.

(** A character's core is read as its bytes. *)
Lemma in_eqb : forall r l, existsb (Z.eqb r) l = true -> In r l.
Proof. intros r l H. apply existsb_exists in H. destruct H as (x & I & E). apply Z.eqb_eq in E. now subst. Qed.

Lemma core_reads2 : forall r dflt,
  (existsb (Z.eqb r) [32; 9; 13; 10; 12; 11; 34; 92; 44]%Z = true -> dflt = [byte_of r]) ->
  (existsb (Z.eqb r) [34; 44]%Z = false -> nochar dq dflt /\ nochar "," dflt) ->
  reads2 (core r dflt) dflt.
Proof.
  intros r dflt H1 H2. unfold core.
  destruct (existsb (Z.eqb r) [32; 9; 13; 10; 12; 11]%Z) eqn:E1.
  { apply in_eqb in E1. simpl in E1.
    assert (dflt = [byte_of r]) as ->. { apply H1. apply existsb_exists. exists r. split; [simpl; tauto|apply Z.eqb_refl]. }
    apply reads2_quoted. repeat (destruct E1 as [<-|E1]; [discriminate|]). destruct E1. }
  destruct (existsb (Z.eqb r) [34; 92]%Z) eqn:E2.
  { apply in_eqb in E2. simpl in E2.
    assert (dflt = [byte_of r]) as ->. { apply H1. apply existsb_exists. exists r. split; [simpl; tauto|apply Z.eqb_refl]. }
    apply reads2_escaped. }
  destruct (Z.eqb_spec r 44) as [->|N].
  { rewrite H1 by reflexivity. apply reads2_quoted. discriminate. }
  apply reads2_plain; apply H2; simpl in *; destruct (r =? 34)%Z; try discriminate;
    destruct (Z.eqb_spec r 44); auto; congruence.
Qed.

(** *** the rune reader *)
Lemma array3_skip : forall s k, array3_loop s k = array3_loop (skipn k s) 0.
Proof. induction s as [|c s IH]; intros [|k]; auto. simpl. apply IH. Qed.

Definition reads3 (t out : list N) : Prop :=
  forall rest, array3_loop (t ++ rest) 0 = rmap (app out) (array3_loop rest 0).

Lemma rmap_app3 : forall (x y : list N) r, rmap (app x) (rmap (app y) r) = rmap (app (x ++ y)) r.
Proof. intros x y [a| |]; auto. simpl. now rewrite app_assoc. Qed.

Lemma rmap_nil3 : forall (r : res (list N)), rmap (app []) r = r.
Proof. intros [| |]; reflexivity. Qed.

Lemma reads3_app : forall t1 o1 t2 o2, reads3 t1 o1 -> reads3 t2 o2 -> reads3 (t1 ++ t2) (o1 ++ o2).
Proof. intros t1 o1 t2 o2 H1 H2 rest. rewrite <- app_assoc, H1, H2. apply rmap_app3. Qed.

Lemma reads3_comma : reads3 [44%N] [].
Proof. intros rest. cbn [app array3_loop]. now rewrite rmap_nil3. Qed.

Lemma reads3_quoted : forall c, c <> 92%N -> reads3 [34; c; 34]%N [c].
Proof.
  intros c H rest. apply N.eqb_neq in H.
  transitivity (rmap (cons c) (array3_loop (c :: 34%N :: rest) 2)).
  - cbn [app array3_loop]. change (code dq) with 34%N. change (code bs) with 92%N. rewrite N.eqb_refl, H. reflexivity.
  - rewrite array3_skip. reflexivity.
Qed.

Lemma reads3_escaped : forall c, reads3 [34; 92; c; 34]%N [c].
Proof.
  intros c rest. transitivity (rmap (cons c) (array3_loop (92%N :: c :: 34%N :: rest) 3)). reflexivity.
  rewrite array3_skip. reflexivity.
Qed.

Lemma reads3_plain1 : forall c, c <> 34%N -> c <> 44%N -> reads3 [c] [c].
Proof.
  intros c H1 H2 rest. apply N.eqb_neq in H1, H2. cbn [app array3_loop].
  change (code dq) with 34%N. change (code ",") with 44%N. now rewrite H1, H2.
Qed.

Lemma reads3_nil : reads3 [] [].
Proof. intros rest. now rewrite rmap_nil3. Qed.

(** Bytes that decode independently of what follows, and are read as [out]. *)
Definition ureads (t : bytes) (out : list N) : Prop :=
  exists rs, (forall rest, runes (t ++ rest) = rs ++ runes rest) /\ reads3 rs out.

Lemma ureads_nil : ureads [] [].
Proof. exists []. split; [reflexivity|apply reads3_nil]. Qed.

Lemma ureads_app : forall t1 o1 t2 o2, ureads t1 o1 -> ureads t2 o2 -> ureads (t1 ++ t2) (o1 ++ o2).
Proof.
  intros t1 o1 t2 o2 (r1 & A1 & B1) (r2 & A2 & B2). exists (r1 ++ r2). split.
  - intros rest. now rewrite <- app_assoc, A1, A2, app_assoc.
  - now apply reads3_app.
Qed.

Lemma ureads_comma : ureads [","] [].
Proof. exists [44%N]. split; [|apply reads3_comma]. intros rest. now apply (runes_ascii ","). Qed.

Lemma ureads_join : forall {A} (t : A -> bytes) (o : A -> list N) l, (forall x, In x l -> ureads (t x) (o x)) ->
  ureads (join [","] (map t l)) (List.concat (map o l)).
Proof.
  intros A t o. induction l as [|x [|x' l] IH]; intros H.
  - apply ureads_nil.
  - simpl. rewrite app_nil_r. apply H. simpl; auto.
  - change (ureads (t x ++ [","] ++ join [","] (map t (x' :: l))) (o x ++ [] ++ List.concat (map o (x' :: l)))).
    apply ureads_app. apply H; simpl; auto. apply ureads_app. apply ureads_comma. apply IH. intros; apply H; simpl; auto.
Qed.

Lemma ureads_ok : forall t o c0 c1, ureads t o -> pgparsearray3 (c0 :: t ++ [c1]) = Ok o.
Proof.
  intros t o c0 c1 (rs & A & H). unfold pgparsearray3. rewrite drop_ends_wrap. cbn [bind].
  rewrite <- (app_nil_r t), A, H. simpl. now rewrite app_nil_r.
Qed.

Lemma encode_ascii : forall n, (n < 128)%N -> encode_scalar n = [chr n].
Proof. intros. unfold encode_scalar. now ntest (n <? 128)%N true. Qed.

Lemma ascii_scalar : forall n, (n < 128)%N -> scalar n = true.
Proof. intros. unfold scalar. ntest (n <? 55296)%N true. reflexivity. Qed.

(** The quoted and plain forms of a character, as decoded text. *)
Lemma ureads_quoted : forall n, scalar n = true -> n <> 92%N -> ureads (dq :: encode_scalar n ++ [dq]) [n].
Proof.
  intros n V N. exists [34; n; 34]%N. split; [|now apply reads3_quoted].
  intros rest. rewrite <- app_comm_cons, <- app_assoc, runes_ascii by reflexivity.
  rewrite runes_encode by auto. cbn [app]. rewrite runes_ascii by reflexivity. reflexivity.
Qed.

Lemma ureads_escaped : forall n, scalar n = true -> ureads (dq :: bs :: encode_scalar n ++ [dq]) [n].
Proof.
  intros n V. exists [34; 92; n; 34]%N. split; [|now apply reads3_escaped].
  intros rest. rewrite <- !app_comm_cons, <- app_assoc, !runes_ascii by reflexivity.
  rewrite runes_encode by auto. cbn [app]. rewrite runes_ascii by reflexivity. reflexivity.
Qed.

Lemma ureads_plain : forall n, scalar n = true -> n <> 34%N -> n <> 44%N -> ureads (encode_scalar n) [n].
Proof.
  intros n V N1 N2. exists [n]. split; [|now apply reads3_plain1]. intros. now apply runes_encode.
Qed.

(** What the Valuers write for a valid rune. *)
Lemma byte_of_small : forall n, (n < 256)%N -> byte_of (Z.of_N n) = chr n.
Proof. intros. unfold byte_of, chr. rewrite Z.mod_small by lia. now rewrite N2Z.id. Qed.

Lemma rune_text_valid : forall n, scalar n = true -> rune_text (Z.of_N n) = encode_scalar n.
Proof.
  intros n V. unfold rune_text. destruct (N.ltb_spec n 128) as [L|L].
  - assert (rune_len (Z.of_N n) = 1)%Z as ->.
    { unfold rune_len. destruct (Z.ltb_spec (Z.of_N n) 0); [lia|]. destruct (Z.leb_spec (Z.of_N n) 127); [reflexivity|lia]. }
    rewrite encode_ascii by auto. now rewrite byte_of_small by lia.
  - assert (1 <? rune_len (Z.of_N n) = true)%Z as ->.
    { unfold scalar in V. rewrite orb_true_iff, andb_true_iff, N.ltb_lt, !N.leb_le in V. unfold rune_len.
      destruct (Z.ltb_spec (Z.of_N n) 0); [lia|]. destruct (Z.leb_spec (Z.of_N n) 127); [lia|].
      destruct (Z.leb_spec (Z.of_N n) 2047); [reflexivity|].
      destruct (Z.leb_spec 55296 (Z.of_N n)); destruct (Z.leb_spec (Z.of_N n) 57343); cbn [andb]; try lia;
        (destruct (Z.leb_spec (Z.of_N n) 65535); [reflexivity|]); destruct (Z.leb_spec (Z.of_N n) 1114111); try reflexivity; lia. }
    unfold encode_rune. rewrite <- scalar_valid, V, N2Z.id. reflexivity.
Qed.

Lemma core_ureads : forall n, scalar n = true -> ureads (core (Z.of_N n) (encode_scalar n)) [n].
Proof.
  intros n V. unfold core.
  assert (A : forall l, existsb (Z.eqb (Z.of_N n)) l = true -> In (Z.of_N n) l) by (intros; now apply in_eqb).
  destruct (existsb (Z.eqb (Z.of_N n)) [32; 9; 13; 10; 12; 11]%Z) eqn:E1.
  { apply A in E1. simpl in E1. assert (n < 128)%N by lia. rewrite byte_of_small by lia.
    change [dq; chr n; dq] with (dq :: [chr n] ++ [dq]). rewrite <- encode_ascii by auto. apply ureads_quoted; auto. lia. }
  destruct (existsb (Z.eqb (Z.of_N n)) [34; 92]%Z) eqn:E2.
  { apply A in E2. simpl in E2. assert (n < 128)%N by lia. rewrite byte_of_small by lia.
    change [dq; bs; chr n; dq] with (dq :: bs :: [chr n] ++ [dq]). rewrite <- encode_ascii by auto. now apply ureads_escaped. }
  destruct (Z.eqb_spec (Z.of_N n) 44) as [E|N].
  { assert (n = 44%N) as -> by lia. apply (ureads_quoted 44); auto. lia. }
  apply ureads_plain; auto. intros ->. discriminate. lia.
Qed.

Ltac abstract_divs :=
  repeat match goal with H : context [(?x mod ?y)%N] |- _ => let v := fresh "m" in set (v := (x mod y)%N) in *; clearbody v end;
  repeat match goal with H : context [(?x / ?y)%N] |- _ => let v := fresh "d" in set (v := (x / y)%N) in *; clearbody v end.

(** All bytes of a multi-byte character are outside ASCII. *)
Lemma encode_high : forall n c, scalar n = true -> (128 <= n)%N -> (code c < 128)%N -> nochar c (encode_scalar n).
Proof.
  intros n c V H1 H2 I.
  unfold scalar in V. rewrite orb_true_iff, andb_true_iff, N.ltb_lt, !N.leb_le in V.
  assert (X : forall m, (128 <= m)%N -> chr m = c -> (m < 256)%N -> False).
  { intros m M E L. subst c. rewrite code_chr in H2 by auto. lia. }
  assert (H : forall k, (k mod 64 < 64)%N) by (intros; apply N.mod_lt; lia).
  unfold encode_scalar in I. destruct (N.ltb_spec n 128); [lia|]. destruct (N.ltb_spec n 2048); [|destruct (N.ltb_spec n 65536)].
  - assert (n / 64 < 32)%N by (apply N.div_lt_upper_bound; lia). pose proof (H n).
    cbn [In] in I. clear H. abstract_divs. destruct I as [I|[I|[]]]; (eapply X; [|exact I|]; lia).
  - assert (n / 4096 < 16)%N by (apply N.div_lt_upper_bound; lia). pose proof (H n). pose proof (H (n / 64)%N).
    cbn [In] in I. clear H. abstract_divs. destruct I as [I|[I|[I|[]]]]; (eapply X; [|exact I|]; lia).
  - assert (n / 262144 < 16)%N by (apply N.div_lt_upper_bound; lia).
    pose proof (H n). pose proof (H (n / 64)%N). pose proof (H (n / 4096)%N).
    cbn [In] in I. clear H. abstract_divs. destruct I as [I|[I|[I|[I|[]]]]]; (eapply X; [|exact I|]; lia).
Qed.

Lemma encode_nochar : forall n c, scalar n = true -> (code c < 128)%N -> n <> code c -> nochar c (encode_scalar n).
Proof.
  intros n c V H N. destruct (N.ltb_spec n 128) as [L|L]; [|now apply encode_high].
  rewrite encode_ascii by auto. intros [E|[]]. subst c. rewrite code_chr in N by lia. congruence.
Qed.

Lemma core_reads2_scalar : forall n, scalar n = true -> reads2 (core (Z.of_N n) (encode_scalar n)) (encode_scalar n).
Proof.
  intros n V. apply core_reads2.
  - intros H. apply in_eqb in H. simpl in H. rewrite encode_ascii, byte_of_small by lia. reflexivity.
  - intros H. split; apply encode_nochar; auto; try reflexivity; intros E; rewrite E in H; discriminate.
Qed.

Lemma chr_code : forall c, chr (code c) = c.
Proof. intros. apply ascii_N_embedding. Qed.

Lemma code_lt : forall c, (code c < 256)%N.
Proof. intros. apply N_ascii_bounded. Qed.

Lemma core_reads2_byte : forall c, reads2 (core (Z.of_N (code c)) [c]) [c].
Proof.
  intros c. apply core_reads2.
  - intros _. rewrite byte_of_small by apply code_lt. now rewrite chr_code.
  - intros H. split; intros [->|[]]; discriminate.
Qed.

(** *** client round trips *)
Definition kept_rune (r : Z) : bool := negb (r =? 7)%Z && negb (r =? 8)%Z.

Lemma dropped_kept : forall r, negb (dropped r) = kept_rune r.
Proof. intros. unfold dropped, kept_rune. simpl. destruct (r =? 8)%Z, (r =? 7)%Z; reflexivity. Qed.

Lemma filter_ext' : forall {A} (f g : A -> bool) l, (forall x, f x = g x) -> filter f l = filter g l.
Proof. intros A f g l H. induction l as [|x l IH]; auto. simpl. now rewrite H, IH. Qed.

Lemma pgparse_brace : pgparsearray2 ["}"] = Panic /\ pgparsearray3 ["}"] = Panic.
Proof. split; reflexivity. Qed.

(** The result for a list of characters: the kept ones; a panic if there were
    characters but all are dropped. *)
Definition survive {A C} (keep : A -> bool) (f : list A -> C) (l : list A) : res C :=
  match l, filter keep l with
  | _ :: _, [] => Panic
  | _, ks => Ok (f ks)
  end.

Lemma survive_ne : forall {A C} (keep : A -> bool) (f : list A -> C) l, l <> [] ->
  survive keep f l = match filter keep l with [] => Panic | ks => Ok (f ks) end.
Proof. intros A C keep f [|x l] N. congruence. unfold survive. destruct (filter keep (x :: l)); reflexivity. Qed.

Lemma char_slice_ne : forall {A} (enc : A -> bytes) l, l <> [] ->
  char_slice enc (Some l) = Some (char_array (map enc l)).
Proof. intros A enc [|x l] N. congruence. reflexivity. Qed.

Lemma concat_single : forall {A} (l : list A), List.concat (map (fun x => [x]) l) = l.
Proof. induction l; simpl; congruence. Qed.

Lemma char_bytes_roundtrip : forall l old,
  CharArrayToByteSlice (CharArrayFromByteSlice (Some l)) old
  = survive (fun c => kept_rune (Z.of_N (code c))) Some l.
Proof.
  intros l old. destruct l as [|c l]; [reflexivity|].
  unfold CharArrayFromByteSlice, char_slice, CharArrayToByteSlice, srcbytes, survive.
  rewrite (char_array_text (fun c => Z.of_N (code c)) (fun c => [c])).
  rewrite (filter_ext' _ (fun c => kept_rune (Z.of_N (code c)))) by (intros; apply dropped_kept).
  destruct (filter _ (c :: l)) as [|k ks]. reflexivity.
  rewrite (reads2_ok _ (List.concat (map (fun x => [x]) (k :: ks)))).
  - now rewrite concat_single.
  - apply reads2_join. intros. apply core_reads2_byte.
Qed.

Lemma of_N_map : forall l, Forall (fun r => valid_rune r = true) l ->
  exists ns, l = map Z.of_N ns /\ forallb scalar ns = true.
Proof.
  induction l as [|r l IH]; intros F. exists []; auto. inversion F as [|? ? V F']; subst.
  destruct (IH F') as (ns & -> & S). exists (Z.to_N r :: ns).
  assert (0 <= r)%Z. { unfold valid_rune in V. rewrite orb_true_iff, !andb_true_iff, !Z.leb_le, Z.ltb_lt in V. lia. }
  cbn [map forallb]. rewrite scalar_valid, Z2N.id by auto. now rewrite V, S.
Qed.

Lemma filter_map' : forall {A C} (f : A -> C) (p : C -> bool) l, filter p (map f l) = map f (filter (fun x => p (f x)) l).
Proof. intros A C f p. induction l as [|x l IH]; auto. simpl. destruct (p (f x)); simpl; now rewrite IH. Qed.

Lemma forallb_filter : forall {A} (p q : A -> bool) l, forallb p l = true -> forallb p (filter q l) = true.
Proof.
  intros A p q l H. rewrite forallb_forall in *. intros x I. apply filter_In in I. now apply H.
Qed.

(** The core texts of a list of scalars. *)
Lemma char_scalars_text : forall ns, forallb scalar ns = true ->
  char_array (map (fun n => char_elem (Z.of_N n) (rune_text (Z.of_N n))) ns)
  = match filter (fun n => kept_rune (Z.of_N n)) ns with
    | [] => ["}"]
    | ks => "{" :: join [","] (map (fun n => core (Z.of_N n) (encode_scalar n)) ks) ++ ["}"]
    end.
Proof.
  intros ns S. rewrite (char_array_text Z.of_N (fun n => rune_text (Z.of_N n))).
  rewrite (filter_ext' _ (fun n => kept_rune (Z.of_N n))) by (intros; apply dropped_kept).
  pose proof (forallb_filter scalar (fun n => kept_rune (Z.of_N n)) ns S) as S'.
  destruct (filter _ ns) as [|k ks]; auto. rewrite (map_ext_in _ (fun n => core (Z.of_N n) (encode_scalar n))); auto. intros n I.
  rewrite forallb_forall in S'. now rewrite rune_text_valid by auto.
Qed.

Lemma char_runes_roundtrip : forall l old, Forall (fun r => valid_rune r = true) l ->
  CharArrayToRuneSlice (CharArrayFromRuneSlice (Some l)) old = survive kept_rune Some l.
Proof.
  intros l old F. destruct (of_N_map l F) as (ns & -> & S). destruct ns as [|n ns]; [reflexivity|].
  assert (N : map Z.of_N (n :: ns) <> []) by discriminate.
  unfold CharArrayFromRuneSlice. rewrite char_slice_ne, survive_ne, filter_map' by exact N. clear N.
  rewrite map_map, char_scalars_text by auto. unfold CharArrayToRuneSlice, srcbytes.
  pose proof (forallb_filter scalar (fun n => kept_rune (Z.of_N n)) (n :: ns) S) as S'.
  destruct (filter _ (n :: ns)) as [|k ks]. reflexivity.
  rewrite (ureads_ok _ (List.concat (map (fun x => [x]) (k :: ks)))).
  - rewrite concat_single. reflexivity.
  - apply ureads_join. intros x I. apply core_ureads. rewrite forallb_forall in S'. auto.
Qed.

Lemma utf8_cons : forall n l, utf8 (n :: l) = encode_scalar n ++ utf8 l.
Proof. reflexivity. Qed.

Lemma char_string_roundtrip : forall ns old, forallb scalar ns = true ->
  CharArrayToString (CharArrayFromString (utf8 ns)) old
  = survive (fun n => kept_rune (Z.of_N n)) utf8 ns.
Proof.
  intros ns old S. destruct ns as [|n ns]; [reflexivity|].
  unfold CharArrayFromString. rewrite runes_utf8 by auto.
  destruct (utf8 (n :: ns)) eqn:E.
  { exfalso. rewrite utf8_cons in E. destruct (encode_nonempty n) as (c & r & X). rewrite X in E. discriminate. }
  clear E. unfold CharArrayToString, srcbytes, survive. rewrite char_scalars_text by auto.
  pose proof (forallb_filter scalar (fun n => kept_rune (Z.of_N n)) (n :: ns) S) as S'.
  destruct (filter _ (n :: ns)) as [|k ks]. reflexivity.
  apply reads2_ok. unfold utf8. apply reads2_join. intros x I. apply core_reads2_scalar.
  rewrite forallb_forall in S'. auto.
Qed.

(** The element written for a string that begins with the scalar [n]. *)
Lemma string_elem : forall n rest, scalar n = true ->
  (let '(m, size) := decode_rune (encode_scalar n ++ rest) in
   let r := Z.of_N m in char_elem r (if Nat.ltb 1 size then encode_rune r else [byte_of r]))
  = char_elem (Z.of_N n) (rune_text (Z.of_N n)).
Proof.
  intros n rest S. rewrite decode_encode by auto. cbv zeta. f_equal. rewrite rune_text_valid by auto.
  destruct (N.ltb_spec n 128) as [L|L].
  - rewrite encode_ascii by auto. cbn [List.length Nat.ltb Nat.leb]. now rewrite byte_of_small by lia.
  - assert (Nat.ltb 1 (List.length (encode_scalar n)) = true) as ->.
    { unfold encode_scalar. destruct (N.ltb_spec n 128); [lia|]. destruct (n <? 2048)%N; [|destruct (n <? 65536)%N]; reflexivity. }
    unfold encode_rune. rewrite <- scalar_valid, S, N2Z.id. reflexivity.
Qed.

(** Each string: a scalar and further text, which is lost. *)
Lemma char_strings_roundtrip : forall (l : list (N * bytes)) old, forallb (fun x => scalar (fst x)) l = true ->
  CharArrayToStringSlice (CharArrayFromStringSlice (Some (map (fun x => encode_scalar (fst x) ++ snd x) l))) old
  = survive (fun x => kept_rune (Z.of_N (fst x))) (fun ks => Some (map (fun x => encode_scalar (fst x)) ks)) l.
Proof.
  intros l old S. destruct l as [|x l]; [reflexivity|].
  unfold CharArrayFromStringSlice. rewrite char_slice_ne, survive_ne by discriminate. rewrite map_map.
  rewrite (map_ext_in _ (fun x => (fun n => char_elem (Z.of_N n) (rune_text (Z.of_N n))) (fst x))).
  2:{ intros y I. apply string_elem. rewrite forallb_forall in S. now apply S. }
  rewrite <- (map_map fst (fun n => char_elem (Z.of_N n) (rune_text (Z.of_N n)))).
  assert (S1 : forallb scalar (map fst (x :: l)) = true).
  { rewrite forallb_forall in *. intros n I. apply in_map_iff in I. destruct I as (y & <- & I). now apply S. }
  rewrite char_scalars_text by auto. rewrite filter_map'.
  pose proof (forallb_filter _ (fun x => kept_rune (Z.of_N (fst x))) (x :: l) S) as S'. unfold bytes in *.
  destruct (filter _ (x :: l)) as [|k ks]. reflexivity. cbn [map].
  unfold CharArrayToStringSlice, srcbytes.
  change (core (Z.of_N (fst k)) (encode_scalar (fst k)) :: map (fun n => core (Z.of_N n) (encode_scalar n)) (map fst ks))
    with (map (fun n => core (Z.of_N n) (encode_scalar n)) (map fst (k :: ks))).
  rewrite (ureads_ok _ (List.concat (map (fun x => [x]) (map fst (k :: ks))))).
  - rewrite concat_single. unfold rmap. cbn [bind]. do 2 f_equal. rewrite map_map.
    change (encode_scalar (fst k) :: map (fun x => encode_scalar (fst x)) ks) with (map (fun x => encode_scalar (fst x)) (k :: ks)).
    apply map_ext_in. intros y I. rewrite forallb_forall in S'. apply S' in I.
    unfold encode_rune. rewrite <- scalar_valid, I, N2Z.id. reflexivity.
  - apply ureads_join. intros n I. apply core_ureads. rewrite forallb_forall in S'.
    apply in_map_iff in I. destruct I as (y & <- & I). now apply S'.
Qed.

(** An empty or ill-formed string is written as the single byte 0xFD. *)
Lemma char_strings_empty : CharArrayFromStringSlice (Some [[]]) = Some ["{"; chr 253; "}"].
Proof. reflexivity. Qed.

(** *** the server's side *)
Definition special_char (n : N) : bool := existsb (N.eqb n) [34; 92; 123; 125; 44; 32; 9; 10; 11; 12; 13]%N.

Lemma special_code : forall c, pg_special c = special_char (code c).
Proof. intros [[] [] [] [] [] [] [] []]; reflexivity. Qed.

Lemma special_low : forall n, special_char n = true -> (n < 128)%N.
Proof. intros n H. apply existsb_exists in H. destruct H as (x & I & E). apply N.eqb_eq in E. subst x. simpl in I. lia. Qed.

Lemma encode_quotes : forall n, scalar n = true -> needs_quotes (encode_scalar n) = special_char n.
Proof.
  intros n S. destruct (N.ltb_spec n 128) as [L|L].
  - rewrite encode_ascii by auto. cbn [needs_quotes existsb].
    rewrite not_null_word by discriminate. rewrite orb_false_r, special_code, code_chr by lia. reflexivity.
  - assert (H : forall c, In c (encode_scalar n) -> (128 <= code c)%N).
    { intros c I. destruct (N.ltb_spec (code c) 128) as [Q|Q]; auto. exfalso. eapply encode_high; eauto. }
    assert (special_char n = false) as ->.
    { destruct (special_char n) eqn:E; auto. apply special_low in E. lia. }
    unfold needs_quotes. destruct (encode_scalar n) as [|c r] eqn:E.
    { destruct (encode_nonempty n) as (? & ? & X). congruence. }
    apply orb_false_iff. split.
    + unfold is_null_word. destruct list_eq_dec as [Q|]; auto. injection Q as Q _.
      specialize (H c (or_introl eq_refl)). clear - H Q. exfalso.
      destruct c as [[] [] [] [] [] [] [] []]; try discriminate Q; compute in H; now apply H.
    + destruct (existsb pg_special (c :: r)) eqn:X; auto. apply existsb_exists in X. destruct X as (d & I & P).
      rewrite special_code in P. apply special_low in P. apply H in I. lia.
Qed.

Lemma scalar_out : forall n, scalar n = true ->
  elem_out (Some (encode_scalar n))
  = if special_char n
    then (if (n =? 34) || (n =? 92) then dq :: bs :: encode_scalar n ++ [dq] else dq :: encode_scalar n ++ [dq])%N
    else encode_scalar n.
Proof.
  intros n S. unfold elem_out. rewrite encode_quotes by auto. destruct (special_char n) eqn:E; auto.
  apply special_low in E as L. rewrite encode_ascii by auto.
  apply existsb_exists in E. destruct E as (x & I & X). apply N.eqb_eq in X. subst x. simpl in I.
  repeat (destruct I as [<-|I]; [reflexivity|]). destruct I.
Qed.

Lemma scalar_out_ureads : forall n, scalar n = true -> ureads (elem_out (Some (encode_scalar n))) [n].
Proof.
  intros n S. rewrite scalar_out by auto. destruct (special_char n) eqn:E.
  - destruct ((n =? 34) || (n =? 92))%N eqn:Q. now apply ureads_escaped.
    apply orb_false_iff in Q. destruct Q as [_ Q]. apply N.eqb_neq in Q. now apply ureads_quoted.
  - apply ureads_plain; auto; intros ->; discriminate.
Qed.

Lemma scalar_out_reads2 : forall n, scalar n = true -> reads2 (elem_out (Some (encode_scalar n))) (encode_scalar n).
Proof.
  intros n S. rewrite scalar_out by auto. destruct (special_char n) eqn:E.
  - apply special_low in E as L. rewrite encode_ascii by auto.
    destruct ((n =? 34) || (n =? 92))%N eqn:Q. apply reads2_escaped.
    apply orb_false_iff in Q. destruct Q as [_ Q]. apply N.eqb_neq in Q. apply reads2_quoted.
    intros X. apply Q. rewrite <- (code_chr n) by lia. now rewrite X.
  - apply reads2_plain; apply encode_nochar; auto; try reflexivity; intros ->; discriminate.
Qed.

Definition null_text : bytes := B "NULL".

Definition char_out (l : list (option N)) : bytes := array_out (map (option_map encode_scalar) l).

(** A NULL element is read as the four characters N, U, L, L. *)
Definition or_NULL (o : option N) : list N := match o with Some n => [n] | None => [78; 85; 76; 76]%N end.

Lemma null_ureads : ureads null_text [78; 85; 76; 76]%N.
Proof.
  exists [78; 85; 76; 76]%N. split. reflexivity.
  change (reads3 ([78] ++ [85] ++ [76] ++ [76]) ([78] ++ [85] ++ [76] ++ [76]))%N.
  repeat apply reads3_app; apply reads3_plain1; discriminate.
Qed.

Lemma null_reads2 : reads2 null_text null_text.
Proof. apply reads2_plain; intros I; simpl in I; intuition discriminate. Qed.

Definition opt_scalar (o : option N) : bool := match o with Some n => scalar n | None => true end.

Lemma char_out_runes : forall l, forallb opt_scalar l = true ->
  pgparsearray3 (char_out l) = Ok (flat_map or_NULL l).
Proof.
  intros l S. unfold char_out, array_out. rewrite map_map, <- join_commas.
  rewrite flat_map_concat_map. apply ureads_ok. apply ureads_join. intros o I.
  rewrite forallb_forall in S. apply S in I. destruct o as [n|]. now apply scalar_out_ureads. apply null_ureads.
Qed.

Lemma char_out_bytes : forall l, forallb opt_scalar l = true ->
  pgparsearray2 (char_out l) = Ok (utf8 (flat_map or_NULL l)).
Proof.
  intros l S. unfold char_out, array_out. rewrite map_map, <- join_commas.
  assert (utf8 (flat_map or_NULL l) = List.concat (map (fun o => utf8 (or_NULL o)) l)) as ->.
  { clear S. induction l as [|o l IH]. reflexivity. unfold utf8 in *. cbn [flat_map map List.concat].
    rewrite map_app, concat_app, IH. reflexivity. }
  apply reads2_ok. apply reads2_join. intros o I.
  rewrite forallb_forall in S. apply S in I. destruct o as [n|].
  - unfold utf8. cbn [or_NULL map List.concat]. rewrite app_nil_r. now apply scalar_out_reads2.
  - apply null_reads2.
Qed.

(** The literal as the server reads it: no kept character may be a brace. *)
Lemma core_elem_reads : forall n, scalar n = true -> n <> 123%N -> n <> 125%N ->
  elem_reads (core (Z.of_N n) (encode_scalar n)) (Some (encode_scalar n)).
Proof.
  intros n S N1 N2.
  assert (X : special_char n = true -> core (Z.of_N n) (encode_scalar n) = elem_out (Some (encode_scalar n))).
  { intros E. rewrite scalar_out, E by auto. apply existsb_exists in E. destruct E as (x & I & Q).
    apply N.eqb_eq in Q. subst x. simpl in I. repeat (destruct I as [<-|I]; [first [reflexivity | lia]|]). destruct I. }
  assert (Y : special_char n = false -> core (Z.of_N n) (encode_scalar n) = elem_out (Some (encode_scalar n))).
  { intros E. rewrite scalar_out, E by auto. unfold core.
    assert (G : forall ms, forallb special_char ms = true -> existsb (Z.eqb (Z.of_N n)) (map Z.of_N ms) = false).
    { intros ms F. destruct (existsb _ (map Z.of_N ms)) eqn:Q; auto. apply in_eqb in Q. apply in_map_iff in Q.
      destruct Q as (m & Em & I). apply N2Z.inj in Em. subst m. rewrite forallb_forall in F. apply F in I. congruence. }
    pose proof (G [32; 9; 13; 10; 12; 11]%N eq_refl) as G1. pose proof (G [34; 92]%N eq_refl) as G2.
    cbn [map Z.of_N] in G1, G2. rewrite G1, G2.
    destruct (Z.eqb_spec (Z.of_N n) 44) as [Q|]; auto. assert (n = 44%N) by lia. subst n. discriminate. }
  destruct (special_char n); rewrite ?X, ?Y by reflexivity; apply elem_out_reads.
Qed.

Lemma char_string_server : forall ns ks, forallb scalar ns = true ->
  ks = filter (fun n => kept_rune (Z.of_N n)) ns -> ks <> [] -> ~ In 123%N ks -> ~ In 125%N ks ->
  exists d, CharArrayFromString (utf8 ns) = Some d /\
            array_in d = Some (map (fun n => Some (encode_scalar n)) ks).
Proof.
  intros ns ks S -> N N1 N2. destruct ns as [|n ns]; [simpl in N; congruence|].
  unfold CharArrayFromString. rewrite runes_utf8 by auto.
  destruct (utf8 (n :: ns)) eqn:E.
  { exfalso. rewrite utf8_cons in E. destruct (encode_nonempty n) as (c & r & X). rewrite X in E. discriminate. }
  clear E. eexists. split. reflexivity. rewrite char_scalars_text by auto.
  pose proof (forallb_filter scalar (fun n => kept_rune (Z.of_N n)) (n :: ns) S) as S'.
  set (ks := filter _ (n :: ns)) in *. destruct ks as [|k ks']; [congruence|].
  rewrite join_commas. apply array_in_commas. clear N. revert N1 N2 S'. generalize (k :: ks'). clear.
  induction l as [|x l IH]; intros N1 N2 S'. constructor. simpl in S', N1, N2. apply andb_prop in S'.
  constructor. apply core_elem_reads; intuition. apply IH; intuition.
Qed.

Lemma char_brace_malformed : exists d, CharArrayFromString (B "{") = Some d /\ array_in d = None.
Proof. eexists. split; reflexivity. Qed.
