(** When generating does not panic; which comments are single lines. *)
From Coq Require Import Permutation Sorted Lia.
From Verif Require Import GoStr Token Lexer Ast Parser Lines Tidy IndexText LinesFacts Generate GenSpec GenFacts GenText.

(** * No panic *)

Definition field_ok (f : field) : bool :=
  match f_tag f with Some _ => match f_names f with [] => false | _ => true end | None => false end.
Lemma read_field_ok : forall cfg look ty t f, field_ok f = true -> exists t', read_field cfg look ty t f = Ok t'.
Proof.
  intros cfg look ty t f H. unfold field_ok in H. unfold read_field, first_name. destruct (f_tag f); [|discriminate]. destruct (f_names f); [discriminate|].
  cbv zeta. cbn [bind]. destruct (String.eqb _ "-"); [eexists; reflexivity|]. destruct (String.eqb _ ""); cbn [bind];
  (destruct (_ || _); [eexists; reflexivity|]; destruct (_ || _); cbn [bind]; eexists; reflexivity).
Qed.
Lemma read_fields_ok : forall cfg look ty l t, forallb field_ok l = true -> exists t', read_fields cfg look ty l t = Ok t'.
Proof.
  induction l as [|f l IH]; intros t H; [eexists; reflexivity|]. cbn [forallb] in H. apply andb_true_iff in H. destruct H as [H1 H2].
  cbn [read_fields]. destruct (read_field_ok cfg look ty t f H1) as (t' & ->). cbn [bind]. apply IH. exact H2.
Qed.
Lemma last_struct_in : forall l fs, last_struct l = Some fs -> exists t, In t l /\ ts_fields t = Some fs.
Proof.
  intros l fs. unfold last_struct.
  assert (forall acc, fold_left (fun acc t => match ts_fields t with Some fs => Some fs | None => acc end) l acc = Some fs ->
    acc = Some fs \/ exists t, In t l /\ ts_fields t = Some fs) as K.
  { induction l as [|x l IH]; intros acc H; [left; exact H|]. cbn [fold_left] in H. apply IH in H. destruct H as [H|(t & I & E)].
    - destruct (ts_fields x) eqn:E; [right; exists x; split; [left; reflexivity|congruence]|left; exact H].
    - right. exists t. split; [right; exact I|exact E]. }
  intro H. apply K in H. destruct H as [H|H]; [discriminate|exact H].
Qed.
Lemma read_source_ok : forall cfg look short file r, match s_struct r with Some fs => forallb field_ok fs = true | None => True end ->
  exists out, read_source cfg look short file r = Ok out.
Proof.
  intros cfg look short file r H. unfold read_source.
  destruct (read_comments_ok file (s_group r) _ (mkGTable file (s_line r) [] "" [] [] [] []) [] _ (clean_members (s_group r)) eq_refl (Forall_nil _)) as (t & out & E & _).
  rewrite E. cbn [bind]. destruct (s_struct r) as [fs|]; [|eexists; reflexivity].
  match goal with |- context [read_fields cfg look ?ty fs ?u] => destruct (read_fields_ok cfg look ty fs u H) as (t' & ->) end. eexists. reflexivity.
Qed.
Lemma parse_file_safe : forall cfg look short srt file nodes, all_tagged nodes = true -> parse_file cfg look short srt file nodes <> Panic.
Proof.
  intros cfg look short srt file [nodes|] H; [|discriminate]. cbn [parse_file all_tagged] in *.
  assert (forall l, (forall r, In r l -> In r (extract_sources (ddl_tag cfg) nodes)) -> exists out, read_sources cfg look short file l = Ok out) as K.
  { induction l as [|r l IH]; intro I; [eexists; reflexivity|]. cbn [read_sources].
    destruct (read_source_ok cfg look short file r) as (a & ->).
    { destruct (s_struct r) as [fs|] eqn:E; [|exact Logic.I]. destruct (extract_good _ _ _ (I r (or_introl eq_refl))) as (_ & n & In1 & _ & E').
      rewrite E in E'. symmetry in E'. apply last_struct_in in E'. destruct E' as (ty & It & Et).
      rewrite forallb_forall in H. specialize (H n In1). rewrite forallb_forall in H. specialize (H ty It). unfold tagged in H. rewrite Et in H. exact H. }
    cbn [bind]. destruct IH as (b & ->); [intros r' I'; apply I; right; exact I'|]. eexists. reflexivity. }
  destruct (extract_sources (ddl_tag cfg) nodes) as [|r l]; [discriminate|]. destruct (K (r :: l) (fun _ x => x)) as (out & ->). discriminate.
Qed.
Lemma parse_tree_safe : forall cfg look short srt files, (forall n p, In (n, p) files -> all_tagged p = true) -> parse_tree cfg look short srt files <> Panic.
Proof.
  induction files as [|[n p] files IH]; intro H; [discriminate|]. cbn [parse_tree].
  assert (parse_tree cfg look short srt files <> Panic) as R by (apply IH; intros n' p' I; apply (H n' p'); right; exact I).
  destruct (_ || _); [exact R|]. pose proof (parse_file_safe cfg look short srt n p (H n p (or_introl eq_refl))) as F.
  destruct (parse_file cfg look short srt n p); try contradiction; try discriminate. cbn [bind].
  destruct (parse_tree cfg look short srt files); try contradiction; discriminate.
Qed.
Lemma parse_input_safe : forall cfg look short srt i, (forall n p, In (n, p) (files_of i) -> all_tagged p = true) -> parse_input cfg look short srt i <> Panic.
Proof.
  intros cfg look short srt [|n p|l] H; cbn [parse_input files_of] in *; [discriminate| |apply parse_tree_safe; exact H].
  pose proof (parse_file_safe cfg look short srt n p (H n p (or_introl eq_refl))) as F. destruct (parse_file cfg look short srt n p) as [[a|]| | |]; try contradiction; discriminate.
Qed.

(** * Single lines *)

Lemma no_nl_suffix : forall a b, no_nl (a ++ b) = true -> no_nl b = true.
Proof. intros a b H. rewrite no_nl_app in H. apply andb_true_iff in H. tauto. Qed.
Lemma clean_one : forall s, one_line s = true -> one_line (clean s) = true.
Proof. intros s H. rewrite one_line_no_nl in *. destruct (clean_suffix s) as (a & E). rewrite E in H. apply no_nl_suffix in H. exact H. Qed.
Lemma split_one : forall s, forallb one_line (split nl s) = true.
Proof.
  intro s. destruct (text_lines s) as (l & y & -> & Hl & Hy). rewrite split_unlines by assumption. rewrite forallb_app. cbn [forallb]. rewrite one_line_no_nl, Hy.
  rewrite andb_true_r. rewrite forallb_forall in *. intros x I. rewrite one_line_no_nl. apply Hl. exact I.
Qed.
Lemma forallb_incl : forall A (f : A -> bool) l l', (forall x, In x l' -> In x l) -> forallb f l = true -> forallb f l' = true.
Proof. intros A f l l' H F. rewrite forallb_forall in *. intros x I. apply F, H, I. Qed.
Lemma removelast_in : forall A (l : list A) x, In x (removelast l) -> In x l.
Proof. induction l as [|y l IH]; intros x I; [exact I|]. cbn in I. destruct l; [contradiction|]. destruct I as [->|I]; [left; reflexivity|right; apply IH; exact I]. Qed.
Lemma doc_one : forall doc p, forallb one_line (trim_tail_empty (trim_has_prefix (split nl doc) p)) = true.
Proof.
  intros doc p. apply (forallb_incl _ _ (split nl doc)); [|apply split_one]. intros x I.
  assert (In x (trim_has_prefix (split nl doc) p)) as J.
  { unfold trim_tail_empty in I. destruct (trim_has_prefix (split nl doc) p); [exact I|]. destruct (String.eqb _ _); [apply removelast_in; exact I|exact I]. }
  unfold trim_has_prefix in J. apply filter_In in J. tauto.
Qed.
Lemma itoa_one : forall n, no_nl (itoa n) = true.
Proof. intro n. unfold itoa. generalize (N.to_uint n). intro u. unfold no_nl. induction u; [reflexivity|..]; cbn; exact IHu. Qed.

Record plain_names (cfg : settings) (short : string -> string) (file : string) (r : source) : Prop := {
  pn_cfg : no_nl (column_tag cfg) = true /\ no_nl (ddl_tag cfg) = true /\ no_nl (pk_tag cfg) = true;
  pn_file : no_nl (short file) = true;
  pn_type : match s_type r with Some n => no_nl n = true | None => True end;
  pn_fields : match s_struct r with Some fs => forall f n, In f fs -> In n (f_names f) -> no_nl n = true | None => True end;
  pn_group : forall l, In l (s_group r) -> one_line (cl_text l) = true }.

Definition table_one (t : gtable) : Prop := forallb one_line (all_comments (GTable t)) = true.
Lemma table_one_comment : forall t c, table_one t -> one_line c = true -> table_one (add_comment t c).
Proof.
  intros t c H Hc. unfold table_one in *. cbn [all_comments add_comment g_comments g_columns g_constraints g_options] in *. rewrite !forallb_app in *. cbn [forallb].
  rewrite Hc. rewrite !andb_true_iff in *. tauto.
Qed.
Lemma table_one_text : forall t s, table_one t -> table_one (set_table t s) /\ table_one (add_constraint t s) /\ table_one (add_option t s).
Proof.
  intros t s H. unfold table_one in *. cbn [all_comments set_table add_constraint add_option g_comments g_columns g_constraints g_options] in *.
  rewrite ?flat_map_app, ?forallb_app in *. cbn [flat_map gt_comments app forallb]. rewrite ?andb_true_iff in *. tauto.
Qed.
Lemma table_one_column : forall t c, table_one t -> forallb one_line (gc_comments c) = true -> table_one (add_column t c).
Proof.
  intros t c H Hc. unfold table_one in *. cbn [all_comments add_column g_comments g_columns g_constraints g_options] in *.
  rewrite ?flat_map_app, ?forallb_app in *. cbn [flat_map app forallb]. rewrite app_nil_r, Hc. rewrite ?andb_true_iff in *. tauto.
Qed.
Definition stmt_one (s : gstmt) : Prop := forallb one_line (all_comments s) = true.

Lemma read_comments_one : forall file g l t out t' out', forallb one_line l = true -> table_one t -> Forall stmt_one out ->
  read_comments file g l (t, out) = Ok (t', out') -> table_one t' /\ Forall stmt_one out'.
Proof.
  induction l as [|c l IH]; intros t out t' out' Hl Ht Ho H; [injection H as <- <-; split; assumption|]. cbn [forallb] in Hl. apply andb_true_iff in Hl. destruct Hl as [Hc Hl].
  cbn [read_comments] in H. unfold read_comment in H. destruct (match_index c) as [m|].
  - destruct (containing g c); [|discriminate]. cbn [bind] in H. apply IH in H; try assumption. apply Forall_app. split; [exact Ho|]. constructor; [|constructor].
    unfold stmt_one. cbn. rewrite Hc. reflexivity.
  - cbn [bind] in H. apply IH in H; try assumption. apply table_one_comment; [|exact Hc].
    destruct (match_table c); [apply table_one_text; exact Ht|]. destruct (match_constraint c); [apply table_one_text; exact Ht|]. destruct (match_option c); [apply table_one_text; exact Ht|exact Ht].
Qed.
Lemma read_field_one : forall cfg look ty t f t', no_nl (column_tag cfg) = true -> no_nl (pk_tag cfg) = true -> no_nl ty = true ->
  (forall n, In n (f_names f) -> no_nl n = true) -> table_one t -> read_field cfg look ty t f = Ok t' -> table_one t'.
Proof.
  intros cfg look ty t f t' C1 C2 C3 N T H. unfold read_field in H. destruct (f_tag f) as [v|]; [|discriminate]. cbv zeta in H.
  assert (forall n, first_name f = Ok n -> no_nl n = true) as FN.
  { intros n E. unfold first_name in E. destruct (f_names f) as [|m r]; [discriminate|]. injection E as <-. apply N. left. reflexivity. }
  destruct (String.eqb _ "-").
  { apply bind_Ok in H. destruct H as (n & E & H). injection H as <-. apply table_one_comment; [exact T|]. rewrite one_line_no_nl. unfold msg_ignored.
    rewrite !no_nl_app, C1, C3, (FN _ E). reflexivity. }
  apply bind_Ok in H. destruct H as ([n c] & E & H). cbv beta iota in H.
  assert (forallb one_line c = true) as Oc.
  { destruct (String.eqb _ "") in E.
    - apply bind_Ok in E. destruct E as (m & E1 & E2). injection E2 as <- <-. cbn [forallb]. rewrite one_line_no_nl. unfold msg_field_name.
      rewrite !no_nl_app, C1, C3, (FN _ E1). reflexivity.
    - injection E as <- <-. reflexivity. }
  destruct (_ || _) in H. { injection H as <-. exact T. }
  apply bind_Ok in H. destruct H as (cs & E1 & H). injection H as <-. apply table_one_column.
  { match goal with |- table_one (if ?b then _ else _) => destruct b; exact T end. }
  cbn [gc_comments]. rewrite forallb_app, doc_one, andb_true_r. destruct (_ || _) in E1.
  - injection E1 as <-. exact Oc.
  - apply bind_Ok in E1. destruct E1 as (m & E1 & E2). injection E2 as <-. rewrite forallb_app, Oc. cbn [forallb]. rewrite one_line_no_nl. unfold msg_primary.
    rewrite !no_nl_app, C2, (FN _ E1). reflexivity.
Qed.
Lemma read_fields_one : forall cfg look ty l t t', no_nl (column_tag cfg) = true -> no_nl (pk_tag cfg) = true -> no_nl ty = true ->
  (forall f n, In f l -> In n (f_names f) -> no_nl n = true) -> table_one t -> read_fields cfg look ty l t = Ok t' -> table_one t'.
Proof.
  induction l as [|f l IH]; intros t t' C1 C2 C3 N T H; [injection H as <-; exact T|]. cbn [read_fields] in H. apply bind_Ok in H. destruct H as (u & H1 & H2).
  apply read_field_one in H1; try assumption; [|intros n I; apply (N f); [left; reflexivity|exact I]].
  eapply IH in H2; try eassumption. intros f' n I. apply N. right. exact I.
Qed.
Lemma read_source_one : forall cfg look short file r out, plain_names cfg short file r -> good_source r ->
  read_source cfg look short file r = Ok out -> Forall stmt_one out.
Proof.
  intros cfg look short file r out [[C1 [C2 C3]] F Ty Fs Gr] G H. unfold read_source in H.
  apply bind_Ok in H. destruct H as ([t o] & E & H). cbv beta iota in H.
  apply read_comments_one in E; [|rewrite forallb_forall; intros c I; apply in_map_iff in I; destruct I as (l & <- & I); apply clean_one, Gr, I|reflexivity|constructor].
  destruct E as [T O]. apply bind_Ok in H. destruct H as (t' & Ht & H). injection H as <-. apply Forall_app. split; [exact O|].
  assert (forall n, no_nl (at_line short file n) = true) as AL. { intro n. unfold at_line. rewrite !no_nl_app, F, itoa_one. reflexivity. }
  set (u := match s_type r with Some _ => _ | None => t end) in Ht.
  assert (table_one u) as U.
  { subst u. destruct (s_type r) as [n|]; [|exact T]. destruct (String.eqb _ _); [|exact T]. apply table_one_text. apply table_one_comment; [exact T|].
    rewrite one_line_no_nl. unfold msg_struct_name. rewrite !no_nl_app, AL, C2, Ty. reflexivity. }
  assert (table_one t') as T'.
  { destruct (s_struct r) as [fs|]; [|injection Ht as <-; exact U]. eapply read_fields_one; try exact Ht; try assumption. destruct (s_type r); [exact Ty|reflexivity]. }
  match goal with |- Forall _ (match g_columns ?v with [] => _ | _ => _ end) => set (w := v) end.
  assert (table_one w) as W.
  { subst w. destruct (String.eqb (g_create t') ""); [|destruct (g_columns t'); [|exact T']]; (apply table_one_comment; [exact T'|]); rewrite one_line_no_nl; unfold msg_no_table, msg_no_columns; rewrite !no_nl_app, AL, C2; reflexivity. }
  destruct (g_columns w); [constructor|]. constructor; [exact W|constructor].
Qed.
