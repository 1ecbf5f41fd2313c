(** Definitions and proofs used by PropsErrText.v. *)
From Coq Require Import Ascii String ZArith NArith Bool List Lia.
From Verif Require Import GoBase Strconv ConvertProofs Filter AParse AParseProofs ErrText ErrTextSpec.
Import ListNotations.
Local Open Scope list_scope.

Lemma Some_eq : forall A (x y : A), Some x = Some y -> x = y.
Proof. intros A x y H. now injection H. Qed.

Lemma find_rel : forall c id k, find_code c id = Some k ->
  (k = errColumnUnknown /\ exists r, lookup (c_qual id) (k_map c) = Some r /\ has_col r (c_col id) = false)
  \/ (k = errColumnQualifierUnknown /\ lookup (c_qual id) (k_map c) = None).
Proof.
  intros c id k H. unfold find_code in H. destruct (lookup (c_qual id) (k_map c)) as [r|] eqn:L.
  - destruct (has_col r (c_col id)) eqn:C; [discriminate H|]. injection H as <-. left. split; [reflexivity|]. exists r. auto.
  - injection H as <-. right. auto.
Qed.

Ltac calc := cbn -[app column_ref qualified pred_text quant_text definition between_definition getcolor B NameAndLine Definition_ TypeShort PredString WBFieldDefinition PredicateString QuantifierString IdRef RelRef IsDefaultDirective lookup has_col relid_of rel_of].

Ltac show := unfold Error; calc.

Lemma paint_red : forall x, getcolor CR [x] = red x.
Proof. reflexivity. Qed.

Lemma paint_red3 : forall x y z, getcolor CR [x; y; z] = red (x ++ B " " ++ y ++ B " " ++ z).
Proof. reflexivity. Qed.

Lemma paint_yellow : forall x, getcolor CY [x] = yellow x.
Proof. reflexivity. Qed.

Lemma paint_bold : forall x, getcolor CWb [x] = bold x.
Proof. reflexivity. Qed.

Lemma paint_italic : forall x, getcolor CWi [x] = italic x.
Proof. reflexivity. Qed.

Ltac colours := unfold headline, NameAndLine, type_text; rewrite ?paint_red, ?paint_red3, ?paint_yellow, ?paint_bold, ?paint_italic; rewrite <- !app_assoc.

(** The relation that an error gets. *)
Lemma rel_given : forall c k rid r id col, rel_of c (mk k rid (Some r) id col) = Some r.
Proof. intros. unfold rel_of. cbn. destruct (r_name rid); reflexivity. Qed.

Lemma relid_given : forall c k r id col, relid_of c (mk k no_relid (Some r) id col) = MkRel (rl_name r) [] (rl_schema r).
Proof. intros. unfold relid_of. rewrite rel_given. reflexivity. Qed.

Lemma rel_found : forall c k id r, c_col id <> [] -> lookup (c_qual id) (k_map c) = Some r -> rel_of c (mk k no_relid None id None) = Some r.
Proof. intros c k id r N L. unfold rel_of. cbn. destruct (c_col id); [congruence|]. rewrite L. reflexivity. Qed.

Lemma unknown_text : forall c rid r0 id ptr r, rel_of c (mk errColumnUnknown rid r0 id None) = Some r ->
  exists rest, Error (fill c (mk errColumnUnknown rid r0 id None) ptr) =
    Ok (headline (match k_fields c ptr with Some f => f | None => no_field end) "Column not found." ++ B "
    The column """ ++ red (IdRef id) ++ B """ referenced in """ ++ red (Definition_ (tg_pkg (k_target c)) (match k_fields c ptr with Some f => f | None => no_field end))
      ++ B """ does not exist in the relation """ ++ red (rl_name r) ++ rest).
Proof.
  intros c rid r0 id ptr r H. unfold fill. rewrite H. show. eexists. unfold headline. rewrite <- !app_assoc. reflexivity.
Qed.

Lemma search_rel : forall c s ptr e id r, searched c s id r -> named s -> raise c s ptr = Some e ->
  has_col r (c_col id) = false /\ exists rid r0, e = fill c (mk errColumnUnknown rid r0 id None) ptr /\ rel_of c (mk errColumnUnknown rid r0 id None) = Some r.
Proof.
  intros c s ptr e id r H N R. destruct H as [id r L|id|rid r id]; unfold raise, site_err in R; cbn [named] in N.
  - unfold find_code in R. rewrite L in R. destruct (has_col r (c_col id)) eqn:C; [discriminate R|]. apply Some_eq in R. subst e.
    split; [reflexivity|]. exists no_relid, None. split; [reflexivity|]. exact (rel_found _ _ _ _ N L).
  - destruct (has_col (k_rel c) (c_col id)) eqn:C; [discriminate R|]. apply Some_eq in R. subst e.
    split; [reflexivity|]. exists no_relid, (Some (k_rel c)). split; [reflexivity|]. apply rel_given.
  - destruct (has_col r (c_col id)) eqn:C; [discriminate R|]. apply Some_eq in R. subst e.
    split; [reflexivity|]. exists rid, (Some r). split; [reflexivity|]. apply rel_given.
Qed.

Lemma has_col_in : forall r n, has_col r n = true <-> In n (rl_cols r).
Proof.
  intros r n. unfold has_col. rewrite existsb_exists. split.
  - intros (x & I & E). apply bytes_eqb_eq in E. now subst.
  - intros I. exists n. split; [exact I|]. now apply bytes_eqb_eq.
Qed.

Lemma C108_column_lemma : forall c s ptr e id r f, searched c s id r -> named s -> raise c s ptr = Some e -> k_fields c ptr = Some f ->
  ~ In (c_col id) (rl_cols r) /\ exists rest, Error e =
    Ok (headline f "Column not found." ++ B "
    The column """ ++ red (IdRef id) ++ B """ referenced in """ ++ red (Definition_ (tg_pkg (k_target c)) f)
      ++ B """ does not exist in the relation """ ++ red (rl_name r) ++ rest).
Proof.
  intros c s ptr e id r f H N R F. destruct (search_rel _ _ _ _ _ _ H N R) as (C & rid & r0 & -> & E). split.
  - intros I. apply has_col_in in I. congruence.
  - destruct (unknown_text c rid r0 id ptr r E) as (rest & X). rewrite F in X. exists rest. exact X.
Qed.

Lemma C108_found_lemma : forall c s ptr id r, searched c s id r -> In (c_col id) (rl_cols r) -> raise c s ptr = None.
Proof.
  intros c s ptr id r H I. apply has_col_in in I. destruct H as [id r L|id|rid r id]; unfold raise, site_err, find_code; try rewrite L; rewrite I; reflexivity.
Qed.

Lemma C108_qualifier_lemma : forall c id ptr f, lookup (c_qual id) (k_map c) = None -> k_fields c ptr = Some f ->
  exists e rest, raise c (SFind id) ptr = Some e /\ Error e =
    Ok (headline f "Column qualifier relation not found." ++ B "
    The qualifier """ ++ red (c_qual id) ++ B """ matches no relation." ++ rest).
Proof.
  intros c id ptr f L F. unfold raise, site_err, find_code. rewrite L. eexists. eexists. split; [reflexivity|].
  unfold fill. rewrite F. show. unfold headline. rewrite <- !app_assoc. cbn [app]. reflexivity.
Qed.

Lemma text_place : forall c s ptr e, raise c s ptr = Some e -> named s ->
  exists t, Error e = Ok (bold (NameAndLine (f_file (match k_fields c ptr with Some f => f | None => no_field end))) ++ B ": " ++ t).
Proof.
  intros c s ptr e R N. destruct s; cbn [named] in N.
  - unfold raise, site_err in R. destruct (find_code c id) as [k|] eqn:K; [|discriminate R]. apply Some_eq in R. subst e.
    destruct (find_rel _ _ _ K) as [(-> & r & L & C)|(-> & L)].
    + destruct (unknown_text c no_relid None id ptr r (rel_found _ _ _ _ N L)) as (rest & X). eexists. rewrite X. unfold headline. rewrite <- !app_assoc. reflexivity.
    + unfold fill. show. eexists. reflexivity.
  - unfold raise, site_err in R. destruct (has_col (k_rel c) (c_col id)) eqn:C; [discriminate R|]. apply Some_eq in R. subst e.
    destruct (unknown_text c no_relid (Some (k_rel c)) id ptr _ (rel_given _ _ _ _ _ _)) as (rest & X). eexists. rewrite X. unfold headline. rewrite <- !app_assoc. reflexivity.
  - unfold raise, site_err in R. destruct (has_col r (c_col id)) eqn:C; [discriminate R|]. apply Some_eq in R. subst e.
    destruct (unknown_text c rid (Some r) id ptr _ (rel_given _ _ _ _ _ _)) as (rest & X). eexists. rewrite X. unfold headline. rewrite <- !app_assoc. reflexivity.
  - apply Some_eq in R. subst e. destruct k; unfold fill; show; [eexists; reflexivity| |eexists; reflexivity|eexists; reflexivity].
    destruct (IsDefaultDirective _); eexists; reflexivity.
  - apply Some_eq in R. subst e. unfold fill. show. eexists. reflexivity.
  - apply Some_eq in R. subst e. unfold fill. show. eexists. reflexivity.
  - apply Some_eq in R. subst e. unfold fill. show. eexists. reflexivity.
  - apply Some_eq in R. subst e. unfold fill. show. eexists. reflexivity.
  - apply Some_eq in R. subst e. unfold fill. destruct k; show; destruct (c_col rid); eexists; reflexivity.
  - apply Some_eq in R. subst e. unfold fill. destruct k; show; try (destruct x); eexists; reflexivity.
  - apply Some_eq in R. subst e. unfold fill. destruct k; show; eexists; reflexivity.
  - apply Some_eq in R. subst e. unfold fill. show. eexists. reflexivity.
  - apply Some_eq in R. subst e. unfold fill. show. eexists. reflexivity.
  - apply Some_eq in R. subst e. unfold fill. destruct k; show; eexists; reflexivity.
  - apply Some_eq in R. subst e. unfold fill. destruct (relid_of c _) as [n a q]. destruct (rel_of c _); show; destruct q; eexists; reflexivity.
Qed.

Lemma C108_text_lemma : forall c s ptr e, raise c s ptr = Some e -> named s -> exists t, Error e = Ok t.
Proof. intros c s ptr e R N. destruct (text_place _ _ _ _ R N) as (t & X). eexists. exact X. Qed.

Lemma C108_place_lemma : forall c s ptr e f, raise c s ptr = Some e -> named s -> k_fields c ptr = Some f ->
  exists t, Error e = Ok (bold (fl_name (f_file f) ++ B ":" ++ format_int 10 (fl_line (f_file f))) ++ B ": " ++ t).
Proof. intros c s ptr e f R N F. destruct (text_place _ _ _ _ R N) as (t & X). rewrite F in X. exists t. exact X. Qed.

Lemma C108_panics_lemma : forall e, about_database (e_code e) -> Error e = Panic.
Proof.
  intros [k db tg f wb rid [r|] cid [cl|] rcid rcl x xt p q fn] H; unfold about_database in H; cbn [In e_code] in H;
  repeat (destruct H as [<-|H]; [show; reflexivity|]); contradiction.
Qed.

Lemma C108_compare_lemma : forall c id col rid rcol p q ptr f, c_col rid <> [] -> k_fields c ptr = Some f ->
  exists e rest, raise c (SCompareCol BadCompare id col rid rcol p q) ptr = Some e /\ Error e =
    Ok (headline f "Bad column comparison." ++ B "
    The operator """ ++ red (type_text (cl_type col) ++ B " " ++ PredicateString p ++ B " " ++ type_text (cl_type rcol))
      ++ B """ referenced in """ ++ red (Definition_ (tg_pkg (k_target c)) f) ++ B """ does not exist.
    - column """ ++ red (IdRef id) ++ B """ is of type """ ++ red (type_text (cl_type col)) ++ B """.
    - column """ ++ red (IdRef rid) ++ B """ is of type """ ++ red (type_text (cl_type rcol)) ++ rest).
Proof.
  intros c id col rid rcol p q ptr f N F. unfold raise, site_err. eexists. eexists. split; [reflexivity|]. unfold fill. rewrite F. show.
  destruct (c_col rid); [congruence|]. calc. colours. reflexivity.
Qed.

Lemma C108_field_lemma : forall c id col p q fn ptr f, k_fields c ptr = Some f ->
  exists e rest, raise c (SField FieldCompare id col p q fn) ptr = Some e /\ Error e =
    Ok (headline f "Bad column field comparison." ++ B "
    The operator """ ++ red (TypeShort (tg_pkg (k_target c)) (f_type f) ++ B " " ++ PredicateString p ++ B " " ++ type_text (cl_type col))
      ++ B """ referenced in """ ++ red (Definition_ (tg_pkg (k_target c)) f) ++ B """ does not exist.
    - field """ ++ red (f_name f) ++ B """ is of type """ ++ red (TypeShort (tg_pkg (k_target c)) (f_type f)) ++ B """.
    - column """ ++ red (IdRef id) ++ B """ is of type """ ++ red (type_text (cl_type col)) ++ rest).
Proof.
  intros c id col p q fn ptr f F. unfold raise, site_err. eexists. eexists. split; [reflexivity|]. unfold fill. rewrite F. show.
  colours. reflexivity.
Qed.

Lemma C108_operand_lemma : forall c id col p q fn ptr f, k_fields c ptr = Some f -> p_unary p = false ->
  exists e rest, raise c (SField FieldArray id col p q fn) ptr = Some e /\ Error e =
    Ok (headline f "Bad operand type in array predicate." ++ B "
    The predicate """ ++ red [] ++ B """ used in """ ++ red (Definition_ (tg_pkg (k_target c)) f) ++ B """ is not valid.
    - the expression """ ++ red [] ++ B """ on the right side is of type " ++ italic (B "<nil>") ++ rest).
Proof.
  intros c id col p q fn ptr f F U. unfold raise, site_err. eexists. eexists. split; [reflexivity|]. unfold fill. rewrite F. show.
  unfold PredString. cbn -[app getcolor B NameAndLine Definition_ PredicateString]. rewrite U. calc.
  colours. reflexivity.
Qed.

Lemma C108_relation_lemma : forall c rid ptr f, r_name rid <> [] -> k_fields c ptr = Some f ->
  exists e rest, raise c (SRelation rid) ptr = Some e /\ Error e =
    Ok (headline f "Unknown relation." ++ B "
    The relation """ ++ red (RelRef rid) ++ B """ referenced in """ ++ red (Definition_ (tg_pkg (k_target c)) f) ++ B """ does not exist." ++ rest).
Proof.
  intros c rid ptr f N F. unfold raise, site_err.
  assert (R : relid_of c (mk errRelationUnknown rid None no_colid None) = rid).
  { unfold relid_of. cbn -[rel_of]. destruct (r_name rid); [congruence|reflexivity]. }
  destruct (rel_of c (mk errRelationUnknown rid None no_colid None)) as [r|] eqn:O, (r_qual rid) as [|a qu] eqn:Q; eexists; eexists; (split; [reflexivity|]);
  unfold fill; rewrite F, R, O; show; rewrite Q; calc; colours; change (B """ does not exist.
    - database: ") with (B """ does not exist." ++ B "
    - database: "); rewrite <- !app_assoc; reflexivity.
Qed.

Lemma ref_text : forall i, IdRef i = column_ref i.
Proof. intros [[|a q] n]; reflexivity. Qed.

Lemma relref_text : forall i, RelRef i = qualified (r_qual i) (r_name i).
Proof. intros [n a [|b q]]; reflexivity. Qed.

Lemma pred_same : forall p, PredicateString p = pred_text p.
Proof. intros []; reflexivity. Qed.

Lemma quant_same : forall q, QuantifierString q = quant_text q.
Proof. intros []; reflexivity. Qed.

Lemma definition_same : forall t f, Definition_ t f = definition t f.
Proof. intros t f. unfold Definition_, definition. destruct (f_tag f); [rewrite app_nil_r; reflexivity|reflexivity]. Qed.

Lemma wb_same : forall e, WBFieldDefinition e = f_name (e_wb e) ++ B " struct { ... " ++ definition (tg_pkg (e_target e)) (e_field e) ++ B " ... }" ++
  (match f_tag (e_wb e) with [] => [] | t => B " `" ++ t ++ B "`" end).
Proof. intros e. unfold WBFieldDefinition. cbv zeta. rewrite definition_same. destruct (f_tag (e_wb e)); reflexivity. Qed.

Ltac peel := repeat match goal with
  | |- Ok _ = Ok _ => apply f_equal
  | |- ?a ++ _ = ?a ++ _ => apply (f_equal (app a))
  | |- B (String _ (String _ (String _ (String _ (String _ ?s))))) ++ ?r = B ?i ++ B ?s ++ ?r' => change (B i ++ B s ++ r = B i ++ B s ++ r')
  end.

Ltac same := rewrite ?ref_text, ?relref_text, ?pred_same, ?quant_same, ?definition_same.

Ltac whole := calc; unfold headline, NameAndLine, type_text, comparison; rewrite ?paint_red, ?paint_red3, ?paint_yellow, ?paint_bold, ?paint_italic; same; rewrite <- ?app_assoc; peel; reflexivity.

Lemma C108_says_lemma : forall c s ptr e f, raise c s ptr = Some e -> sensible s -> k_fields c ptr = Some f ->
  exists rest, Error e = Ok (headline f (title c s) ++ B "
    " ++ sentence c f s ++ rest).
Proof.
  intros c s ptr e f R N F. destruct s; cbn [sensible] in N.
  - unfold title, sentence. unfold raise, site_err, find_code in R. destruct (lookup (c_qual id) (k_map c)) as [r|] eqn:L.
    + destruct (has_col r (c_col id)) eqn:C; [discriminate R|]. apply Some_eq in R. subst e.
      unfold fill. rewrite (rel_found _ _ _ _ N L), F. show. eexists. whole.
    + apply Some_eq in R. subst e. unfold fill. rewrite F. show. eexists. whole.
  - unfold title, sentence. unfold raise, site_err in R. destruct (has_col (k_rel c) (c_col id)) eqn:C; [discriminate R|]. apply Some_eq in R. subst e.
    unfold fill. rewrite rel_given, F. show. eexists. whole.
  - unfold title, sentence. unfold raise, site_err in R. destruct (has_col r (c_col id)) eqn:C; [discriminate R|]. apply Some_eq in R. subst e.
    unfold fill. rewrite rel_given, F. show. eexists. whole.
  - apply Some_eq in R. subst e. unfold title, sentence, fill. rewrite F. destruct k; show; [eexists; whole| |eexists; whole|eexists; whole].
    destruct (IsDefaultDirective f); eexists; whole.
  - apply Some_eq in R. subst e. unfold title, sentence, fill. rewrite F. show. eexists. whole.
  - apply Some_eq in R. subst e. unfold title, sentence, fill. rewrite F. show. unfold PredString, PredQuant. calc. rewrite N, app_nil_r. eexists. whole.
  - apply Some_eq in R. subst e. unfold title, sentence, fill. rewrite F. show. unfold PredString, PredQuant. calc. rewrite N, app_nil_r. eexists. whole.
  - apply Some_eq in R. subst e. unfold title, sentence, fill. rewrite F. show. eexists. whole.
  - destruct N as [N U]. apply Some_eq in R. subst e. unfold title, sentence, fill. rewrite F. destruct k; show;
    destruct (c_col rid) as [|x y] eqn:E; try congruence; calc; unfold PredString, PredQuant; calc; rewrite ?U, ?E; calc; eexists; whole.
  - destruct N as [N U]. apply Some_eq in R. subst e. unfold title, sentence, fill. rewrite F.
    destruct x as [|x y]; [congruence|]. destruct k; show; unfold PredString, PredQuant; calc; rewrite ?U; calc; eexists; whole.
  - apply Some_eq in R. subst e. unfold title, sentence, fill. rewrite F. destruct k; show; unfold PredString, PredQuant; calc; rewrite ?N; calc; eexists; whole.
  - apply Some_eq in R. subst e. unfold title, sentence, fill. rewrite F. show. rewrite wb_same. eexists. calc. unfold between_definition, between_field. whole.
  - apply Some_eq in R. subst e. unfold title, sentence, fill. rewrite F. show. rewrite wb_same. eexists. calc. unfold between_definition, between_field. whole.
  - apply Some_eq in R. subst e. unfold title, sentence, fill. rewrite F. destruct k; show; eexists; whole.
  - destruct (C108_relation_lemma c rid ptr f N F) as (e' & rest & R' & X). rewrite R in R'. apply Some_eq in R'. subst e'. rewrite X.
    eexists. unfold title, sentence. whole.
Qed.

Lemma C108_own_lemma : forall p n, without "." n -> has_prefix (B "struct{") (p ++ B "." ++ n) = false -> TypeShort p (p ++ B "." ++ n) = n.
Proof.
  intros p n N H. unfold TypeShort, TypePkgPath, TypeName. rewrite H. cbn [andb]. change (B "." ++ n) with ("."%char :: n).
  rewrite (cut_last_app _ p n N). rewrite (proj2 (bytes_eqb_eq p p) eq_refl). reflexivity.
Qed.

Lemma C108_other_lemma : forall tp d q n, without "." n -> without "/" n -> without "/" q -> tp <> d ++ B "/" ++ q ->
  has_prefix (B "struct{") (d ++ B "/" ++ q ++ B "." ++ n) = false -> TypeShort tp (d ++ B "/" ++ q ++ B "." ++ n) = q ++ B "." ++ n.
Proof.
  intros tp d q n N1 N2 Q T H. unfold TypeShort, TypePkgPath, TypeName. rewrite H. cbn [andb].
  assert (E : d ++ B "/" ++ q ++ B "." ++ n = (d ++ B "/" ++ q) ++ "."%char :: n) by (rewrite <- !app_assoc; reflexivity).
  rewrite E at 1. rewrite (cut_last_app _ _ _ N1).
  destruct (bytes_eqb (d ++ B "/" ++ q) tp) eqn:X; [apply bytes_eqb_eq in X; congruence|].
  change (B "/" ++ q ++ B "." ++ n) with ("/"%char :: (q ++ B "." ++ n)). rewrite cut_last_app; [reflexivity|].
  intros I. apply in_app_or in I. destruct I as [I|I]; [exact (Q I)|]. destruct I as [I|I]; [discriminate I|exact (N2 I)].
Qed.

Lemma C108_struct_lemma : forall tp b, (b <> B "}" -> b <> B " }" -> TypeShort tp (B "struct{" ++ b) = B "struct{ ... }")
  /\ TypeShort tp (B "struct{}") = B "struct{}" /\ TypeShort tp (B "struct{ }") = B "struct{ }".
Proof.
  intros tp b. split; [|split; unfold TypeShort; cbn; destruct tp; reflexivity]. intros N M. unfold TypeShort.
  assert (P : has_prefix (B "struct{") (B "struct{" ++ b) = true) by reflexivity. rewrite P. cbn [andb].
  assert (X : forall u, b <> u -> bytes_eqb (B "struct{" ++ b) (B "struct{" ++ u) = false).
  { intros u D. destruct (bytes_eqb (B "struct{" ++ b) (B "struct{" ++ u)) eqn:E; [|reflexivity]. apply bytes_eqb_eq in E. apply app_inv_head in E. congruence. }
  assert (X1 := X _ N). assert (X2 := X _ M). change (B "struct{" ++ B "}") with (B "struct{}") in X1. change (B "struct{" ++ B " }") with (B "struct{ }") in X2.
  rewrite X1, X2. reflexivity.
Qed.

Lemma C108_pointer_refuted_lemma : exists tp p n, TypeShort tp (B "*" ++ p ++ B "." ++ n) = TypeShort tp (p ++ B "." ++ n)
  /\ TypeShort tp (B "[]" ++ p ++ B "." ++ n) = TypeShort tp (p ++ B "." ++ n).
Proof. exists (B "example.com/app"), (B "example.com/m/conv"), (B "Time"). split; reflexivity. Qed.

Lemma C108_predicate_refuted_lemma : exists c s ptr e, raise c s ptr = Some e /\ e_pred e = IsIn /\ c_col (e_colid e) <> [] /\ PredString e = [].
Proof.
  exists (MkCk no_db no_target (MkRelation (B "users") (B "public") [B "id"]) [] (fun _ => None) None),
    (SField FieldArray (MkCol [] (B "id")) (MkColumn (B "id") 1 (Some (B "custom")) None) IsIn QNone []), O.
  eexists. split; [reflexivity|]. split; [reflexivity|]. split; [discriminate|]. reflexivity.
Qed.

Definition ex_rel : relation := MkRelation (B "users") (B "public") [B "id"; B "name"].

Definition ex_file : fileInfo := MkFile (B "q.go") 12.

Definition ex_field : fieldInfo := MkField (B "_") (B "github.com/frk/gosql.OrderBy") (B "sql:""u.nme""") ex_file (B "u.nme") (B "u.nme").

Definition ex_ck : ck := MkCk (MkDB (B "dsn") (B "db") (B "me") (B "public")) (MkTarget (B "example.com/m") (B "SelectUsers") ex_file)
  ex_rel [([], ex_rel); (B "u", ex_rel)] (fun n => match n with O => Some ex_field | _ => None end) None.

Lemma C108_text_proof : forall c s ptr e, raise c s ptr = Some e -> named s -> exists t, Error e = Ok t.
Proof. exact C108_text_lemma. Qed.

Lemma C108_place_proof : forall c s ptr e f, raise c s ptr = Some e -> named s -> k_fields c ptr = Some f ->
  exists t, Error e = Ok (bold (fl_name (f_file f) ++ B ":" ++ format_int 10 (fl_line (f_file f))) ++ B ": " ++ t).
Proof. exact C108_place_lemma. Qed.

Lemma C108_column_proof : forall c s ptr e id r f, searched c s id r -> named s -> raise c s ptr = Some e -> k_fields c ptr = Some f ->
  ~ In (c_col id) (rl_cols r) /\ exists rest, Error e =
    Ok (headline f "Column not found." ++ B "
    The column """ ++ red (IdRef id) ++ B """ referenced in """ ++ red (Definition_ (tg_pkg (k_target c)) f)
      ++ B """ does not exist in the relation """ ++ red (rl_name r) ++ rest).
Proof. exact C108_column_lemma. Qed.

Lemma C108_found_proof : forall c s ptr id r, searched c s id r -> In (c_col id) (rl_cols r) -> raise c s ptr = None.
Proof. exact C108_found_lemma. Qed.

Lemma C108_qualifier_proof : forall c id ptr f, lookup (c_qual id) (k_map c) = None -> k_fields c ptr = Some f ->
  exists e rest, raise c (SFind id) ptr = Some e /\ Error e =
    Ok (headline f "Column qualifier relation not found." ++ B "
    The qualifier """ ++ red (c_qual id) ++ B """ matches no relation." ++ rest).
Proof. exact C108_qualifier_lemma. Qed.

Lemma C108_relation_proof : forall c rid ptr f, r_name rid <> [] -> k_fields c ptr = Some f ->
  exists e rest, raise c (SRelation rid) ptr = Some e /\ Error e =
    Ok (headline f "Unknown relation." ++ B "
    The relation """ ++ red (RelRef rid) ++ B """ referenced in """ ++ red (Definition_ (tg_pkg (k_target c)) f) ++ B """ does not exist." ++ rest).
Proof. exact C108_relation_lemma. Qed.

Lemma C108_compare_proof : forall c id col rid rcol p q ptr f, c_col rid <> [] -> k_fields c ptr = Some f ->
  exists e rest, raise c (SCompareCol BadCompare id col rid rcol p q) ptr = Some e /\ Error e =
    Ok (headline f "Bad column comparison." ++ B "
    The operator """ ++ red (type_text (cl_type col) ++ B " " ++ PredicateString p ++ B " " ++ type_text (cl_type rcol))
      ++ B """ referenced in """ ++ red (Definition_ (tg_pkg (k_target c)) f) ++ B """ does not exist.
    - column """ ++ red (IdRef id) ++ B """ is of type """ ++ red (type_text (cl_type col)) ++ B """.
    - column """ ++ red (IdRef rid) ++ B """ is of type """ ++ red (type_text (cl_type rcol)) ++ rest).
Proof. exact C108_compare_lemma. Qed.

Lemma C108_field_proof : forall c id col p q fn ptr f, k_fields c ptr = Some f ->
  exists e rest, raise c (SField FieldCompare id col p q fn) ptr = Some e /\ Error e =
    Ok (headline f "Bad column field comparison." ++ B "
    The operator """ ++ red (TypeShort (tg_pkg (k_target c)) (f_type f) ++ B " " ++ PredicateString p ++ B " " ++ type_text (cl_type col))
      ++ B """ referenced in """ ++ red (Definition_ (tg_pkg (k_target c)) f) ++ B """ does not exist.
    - field """ ++ red (f_name f) ++ B """ is of type """ ++ red (TypeShort (tg_pkg (k_target c)) (f_type f)) ++ B """.
    - column """ ++ red (IdRef id) ++ B """ is of type """ ++ red (type_text (cl_type col)) ++ rest).
Proof. exact C108_field_lemma. Qed.

Lemma C108_operand_proof : forall c id col p q fn ptr f, k_fields c ptr = Some f -> p_unary p = false ->
  exists e rest, raise c (SField FieldArray id col p q fn) ptr = Some e /\ Error e =
    Ok (headline f "Bad operand type in array predicate." ++ B "
    The predicate """ ++ red [] ++ B """ used in """ ++ red (Definition_ (tg_pkg (k_target c)) f) ++ B """ is not valid.
    - the expression """ ++ red [] ++ B """ on the right side is of type " ++ italic (B "<nil>") ++ rest).
Proof. exact C108_operand_lemma. Qed.

Lemma C108_says_proof : forall c s ptr e f, raise c s ptr = Some e -> sensible s -> k_fields c ptr = Some f ->
  exists rest, Error e = Ok (headline f (title c s) ++ B "
    " ++ sentence c f s ++ rest).
Proof. exact C108_says_lemma. Qed.

Lemma C108_own_proof : forall p n, without "." n -> has_prefix (B "struct{") (p ++ B "." ++ n) = false -> TypeShort p (p ++ B "." ++ n) = n.
Proof. exact C108_own_lemma. Qed.

Lemma C108_other_proof : forall tp d q n, without "." n -> without "/" n -> without "/" q -> tp <> d ++ B "/" ++ q ->
  has_prefix (B "struct{") (d ++ B "/" ++ q ++ B "." ++ n) = false -> TypeShort tp (d ++ B "/" ++ q ++ B "." ++ n) = q ++ B "." ++ n.
Proof. exact C108_other_lemma. Qed.

Lemma C108_struct_proof : forall tp b, (b <> B "}" -> b <> B " }" -> TypeShort tp (B "struct{" ++ b) = B "struct{ ... }")
  /\ TypeShort tp (B "struct{}") = B "struct{}" /\ TypeShort tp (B "struct{ }") = B "struct{ }".
Proof. exact C108_struct_lemma. Qed.

Lemma C108_panics_proof : forall e, about_database (e_code e) -> Error e = Panic.
Proof. exact C108_panics_lemma. Qed.

Lemma C108_predicate_refuted_proof : exists c s ptr e, raise c s ptr = Some e /\ e_pred e = IsIn /\ c_col (e_colid e) <> [] /\ PredString e = [].
Proof. exact C108_predicate_refuted_lemma. Qed.

Lemma C108_pointer_refuted_proof : exists tp p n, TypeShort tp (B "*" ++ p ++ B "." ++ n) = TypeShort tp (p ++ B "." ++ n)
  /\ TypeShort tp (B "[]" ++ p ++ B "." ++ n) = TypeShort tp (p ++ B "." ++ n).
Proof. exact C108_pointer_refuted_lemma. Qed.
