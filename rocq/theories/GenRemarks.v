(** Comments of generated statements stay on their line (for C52). *)
From Coq Require Import Lia.
From Verif Require Import GoStr Token Lexer Ast Parser LexSpec LexLayout Lines LinesFacts Generate GenSpec GenFacts GenOrder GenText GenSafe GenRead.

(** Neither line break nor NUL. *)
Definition one : string -> bool := LexSpec.one_line.
Lemma one_app : forall a b, one (a ++ b) = one a && one b.
Proof. intros. apply all_bytes_app. Qed.
Lemma one_suffix : forall a b, one (a ++ b) = true -> one b = true.
Proof. intros a b H. rewrite one_app in H. apply andb_true_iff in H. tauto. Qed.
Lemma clean_one : forall s, one s = true -> one (clean s) = true.
Proof. intros s H. destruct (clean_suffix s) as (a & E). rewrite E in H. apply one_suffix in H. exact H. Qed.
Lemma one_parts : forall s, one s = GenSpec.one_line s && no_nul s.
Proof.
  intro s. unfold one, no_nul. induction s as [|c s IH]; [reflexivity|]. unfold LexSpec.one_line in *. cbn [all_bytes GenSpec.one_line]. rewrite IH.
  destruct (Ascii.eqb c ch_nl), (Ascii.eqb c ch_nul), (GenSpec.one_line s); reflexivity.
Qed.
Lemma split_nul : forall s, no_nul s = true -> forallb no_nul (split nl s) = true.
Proof.
  intros s. destruct (text_lines s) as (l & y & -> & Hl & Hy). rewrite split_unlines by assumption. rewrite no_nul_app, forallb_app. cbn [forallb]. rewrite andb_true_r.
  intro H. apply andb_true_iff in H. destruct H as [H ->]. rewrite andb_true_r. clear Hl. induction l as [|x l IH]; [reflexivity|].
  unfold unlines in H. cbn [map concat_str] in H. fold (unlines l) in H. rewrite !no_nul_app in H. cbn [forallb]. apply andb_true_iff in H. destruct H as [H1 H]. apply andb_true_iff in H1. destruct H1 as [-> _]. apply IH, H.
Qed.
Lemma doc_remarks : forall doc p, no_nul doc = true -> forallb one (trim_tail_empty (trim_has_prefix (split nl doc) p)) = true.
Proof.
  intros doc p H. pose proof (doc_one doc p) as D. pose proof (split_nul doc H) as N. rewrite forallb_forall in *. intros x I. rewrite one_parts, (D x I). apply N.
  assert (In x (trim_has_prefix (split nl doc) p)) as J.
  { unfold trim_tail_empty in I. destruct (trim_has_prefix (split nl doc) p); [exact I|]. destruct (String.eqb _ _); [apply removelast_in; exact I|exact I]. }
  unfold trim_has_prefix in J. apply filter_In in J. tauto.
Qed.
Lemma no_nul_trim : forall c s, no_nul s = true -> no_nul (trim_byte c s) = true.
Proof.
  intros c s H. unfold trim_byte.
  assert (L : no_nul (trim_left_byte c s) = true).
  { induction s as [|x s IH]; [reflexivity|]. cbn [trim_left_byte]. destruct (Ascii.eqb c x); [|exact H]. apply IH. unfold no_nul in *. cbn [all_bytes] in H. apply andb_true_iff in H. apply H. }
  revert L. generalize (trim_left_byte c s). clear. induction s as [|x s IH]; intro H; [reflexivity|]. unfold no_nul in *. cbn [all_bytes] in H. apply andb_true_iff in H. destruct H as [H1 H2].
  specialize (IH H2). cbn [trim_right_byte]. destruct (trim_right_byte c s) as [|y r]; [destruct (Ascii.eqb c x); [reflexivity|cbn [all_bytes]; rewrite H1; reflexivity]|].
  cbn [all_bytes] in *. rewrite H1. exact IH.
Qed.
Lemma itoa_remarks : forall n, one (itoa n) = true.
Proof. intro n. unfold itoa. generalize (N.to_uint n). intro u. unfold one, LexSpec.one_line. induction u; [reflexivity|..]; cbn; exact IHu. Qed.

Record plain_source (cfg : settings) (short : string -> string) (file : string) (r : source) : Prop := {
  pr_cfg : one (column_tag cfg) = true /\ one (ddl_tag cfg) = true /\ one (pk_tag cfg) = true;
  pr_file : one (short file) = true;
  pr_type : match s_type r with Some n => one n = true | None => True end;
  pr_fields : match s_struct r with Some fs => forall f, In f fs -> no_nul (f_doc f) = true /\ forall n, In n (f_names f) -> one n = true | None => True end;
  pr_group : forall l, In l (s_group r) -> one (cl_text l) = true }.

Definition table_remarks (t : gtable) : Prop := forallb one (all_comments (GTable t)) = true.
Lemma table_remarks_comment : forall t c, table_remarks t -> one c = true -> table_remarks (add_comment t c).
Proof.
  intros t c H Hc. unfold table_remarks in *. cbn [all_comments add_comment g_comments g_columns g_constraints g_options] in *. rewrite !forallb_app in *. cbn [forallb].
  rewrite Hc. rewrite !andb_true_iff in *. tauto.
Qed.
Lemma table_remarks_text : forall t s, table_remarks t -> table_remarks (set_table t s) /\ table_remarks (add_constraint t s) /\ table_remarks (add_option t s).
Proof.
  intros t s H. unfold table_remarks in *. cbn [all_comments set_table add_constraint add_option g_comments g_columns g_constraints g_options] in *.
  rewrite ?flat_map_app, ?forallb_app in *. cbn [flat_map gt_comments app forallb]. rewrite ?andb_true_iff in *. tauto.
Qed.
Lemma table_remarks_column : forall t c, table_remarks t -> forallb one (gc_comments c) = true -> table_remarks (add_column t c).
Proof.
  intros t c H Hc. unfold table_remarks in *. cbn [all_comments add_column g_comments g_columns g_constraints g_options] in *.
  rewrite ?flat_map_app, ?forallb_app in *. cbn [flat_map app forallb]. rewrite app_nil_r, Hc. rewrite ?andb_true_iff in *. tauto.
Qed.
Definition stmt_remarks (s : gstmt) : Prop := forallb one (all_comments s) = true.

Lemma read_comments_remarks : forall file g l t out t' out', forallb one l = true -> table_remarks t -> Forall stmt_remarks out ->
  read_comments file g l (t, out) = Ok (t', out') -> table_remarks t' /\ Forall stmt_remarks out'.
Proof.
  induction l as [|c l IH]; intros t out t' out' Hl Ht Ho H; [injection H as <- <-; split; assumption|]. cbn [forallb] in Hl. apply andb_true_iff in Hl. destruct Hl as [Hc Hl].
  cbn [read_comments] in H. unfold read_comment in H. destruct (match_index c) as [m|].
  - destruct (containing g c); [|discriminate]. cbn [bind] in H. apply IH in H; try assumption. apply Forall_app. split; [exact Ho|]. constructor; [|constructor].
    unfold stmt_remarks. cbn. rewrite Hc. reflexivity.
  - cbn [bind] in H. apply IH in H; try assumption. apply table_remarks_comment; [|exact Hc].
    destruct (match_table c); [apply table_remarks_text; exact Ht|]. destruct (match_constraint c); [apply table_remarks_text; exact Ht|]. destruct (match_option c); [apply table_remarks_text; exact Ht|exact Ht].
Qed.
Lemma read_field_remarks : forall cfg look ty t f t', one (column_tag cfg) = true -> one (pk_tag cfg) = true -> one ty = true ->
  no_nul (f_doc f) = true -> (forall n, In n (f_names f) -> one n = true) -> table_remarks t -> read_field cfg look ty t f = Ok t' -> table_remarks t'.
Proof.
  intros cfg look ty t f t' C1 C2 C3 D N T H. unfold read_field in H. destruct (f_tag f) as [v|]; [|discriminate]. cbv zeta in H.
  assert (forall n, first_name f = Ok n -> one n = true) as FN.
  { intros n E. unfold first_name in E. destruct (f_names f) as [|m r]; [discriminate|]. injection E as <-. apply N. left. reflexivity. }
  destruct (String.eqb _ "-").
  { apply bind_Ok in H. destruct H as (n & E & H). injection H as <-. apply table_remarks_comment; [exact T|]. unfold msg_ignored.
    rewrite !one_app, C1, C3, (FN _ E). reflexivity. }
  apply bind_Ok in H. destruct H as ([n c] & E & H). cbv beta iota in H.
  assert (forallb one c = true) as Oc.
  { destruct (String.eqb _ "") in E.
    - apply bind_Ok in E. destruct E as (m & E1 & E2). injection E2 as <- <-. cbn [forallb]. unfold msg_field_name.
      rewrite !one_app, C1, C3, (FN _ E1). reflexivity.
    - injection E as <- <-. reflexivity. }
  destruct (_ || _) in H. { injection H as <-. exact T. }
  apply bind_Ok in H. destruct H as (cs & E1 & H). injection H as <-. apply table_remarks_column.
  { match goal with |- table_remarks (if ?b then _ else _) => destruct b; exact T end. }
  cbn [gc_comments]. rewrite forallb_app, doc_remarks, andb_true_r by (apply no_nul_trim, D). destruct (_ || _) in E1.
  - injection E1 as <-. exact Oc.
  - apply bind_Ok in E1. destruct E1 as (m & E1 & E2). injection E2 as <-. rewrite forallb_app, Oc. cbn [forallb]. unfold msg_primary.
    rewrite !one_app, C2, (FN _ E1). reflexivity.
Qed.
Lemma read_fields_remarks : forall cfg look ty l t t', one (column_tag cfg) = true -> one (pk_tag cfg) = true -> one ty = true ->
  (forall f, In f l -> no_nul (f_doc f) = true /\ forall n, In n (f_names f) -> one n = true) -> table_remarks t -> read_fields cfg look ty l t = Ok t' -> table_remarks t'.
Proof.
  induction l as [|f l IH]; intros t t' C1 C2 C3 N T H; [injection H as <-; exact T|]. cbn [read_fields] in H. apply bind_Ok in H. destruct H as (u & H1 & H2).
  apply read_field_remarks in H1; try assumption; [|apply (N f); left; reflexivity|intros n I; apply (N f); [left; reflexivity|exact I]].
  eapply IH in H2; try eassumption. intros f' I. apply N. right. exact I.
Qed.
Lemma read_source_remarks : forall cfg look short file r out, plain_source cfg short file r -> good_source r ->
  read_source cfg look short file r = Ok out -> Forall stmt_remarks out.
Proof.
  intros cfg look short file r out [[C1 [C2 C3]] F Ty Fs Gr] G H. unfold read_source in H.
  apply bind_Ok in H. destruct H as ([t o] & E & H). cbv beta iota in H.
  apply read_comments_remarks in E; [|rewrite forallb_forall; intros c I; apply in_map_iff in I; destruct I as (l & <- & I); apply clean_one, Gr, I|reflexivity|constructor].
  destruct E as [T O]. apply bind_Ok in H. destruct H as (t' & Ht & H). injection H as <-. apply Forall_app. split; [exact O|].
  assert (forall n, one (at_line short file n) = true) as AL. { intro n. unfold at_line. rewrite !one_app, F, itoa_remarks. reflexivity. }
  set (u := match s_type r with Some _ => _ | None => t end) in Ht.
  assert (table_remarks u) as U.
  { subst u. destruct (s_type r) as [n|]; [|exact T]. destruct (String.eqb _ _); [|exact T]. apply table_remarks_text. apply table_remarks_comment; [exact T|].
    unfold msg_struct_name. rewrite !one_app, AL, C2, Ty. reflexivity. }
  assert (table_remarks t') as T'.
  { destruct (s_struct r) as [fs|]; [|injection Ht as <-; exact U]. eapply read_fields_remarks; try exact Ht; try assumption. destruct (s_type r); [exact Ty|reflexivity]. }
  match goal with |- Forall _ (match g_columns ?v with [] => _ | _ => _ end) => set (w := v) end.
  assert (table_remarks w) as W.
  { subst w. destruct (String.eqb (g_create t') ""); [|destruct (g_columns t'); [|exact T']]; (apply table_remarks_comment; [exact T'|]); unfold msg_no_table, msg_no_columns; rewrite !one_app, AL, C2; reflexivity. }
  destruct (g_columns w); [constructor|]. constructor; [exact W|constructor].
Qed.
Lemma sources_remarks : forall cfg look short file nodes out, plain_settings cfg -> LexSpec.one_line (short file) = true -> plain_nodes nodes ->
  read_sources cfg look short file (extract_sources (ddl_tag cfg) nodes) = Ok out -> forall s, In s out -> remarks_ok short s.
Proof.
  intros cfg look short file nodes out [C1 C2 C3] F N H s I.
  pose proof H as H0. apply read_sources_Forall2 in H. destruct H as (outs & H & ->).
  assert (Forall2 (fun r o => forall s, In s o -> stmt_file s = file /\ stmt_remarks s) (extract_sources (ddl_tag cfg) nodes) outs) as K.
  { assert (forall r, In r (extract_sources (ddl_tag cfg) nodes) -> good_source r /\ plain_source cfg short file r) as P.
    { intros r Ir. destruct (extract_good _ _ _ Ir) as (G & n & In1 & Ig & Es). split; [exact G|]. destruct (N n In1) as [NT NG].
      constructor.
      - repeat split; assumption.
      - exact F.
      - destruct (s_type r) as [ty|] eqn:Et; [|exact Logic.I]. unfold extract_sources in Ir. apply in_flat_map in Ir. destruct Ir as (n' & In2 & Ir).
        unfold sources_of_node in Ir. apply in_flat_map in Ir. destruct Ir as (g & Ig' & Ir). unfold sources_of_group in Ir. destruct (find _ g); [|contradiction].
        destruct Ir as [<-|[]]. cbn [s_type] in Et. destruct (N n' In2) as [NT' _].
        assert (forall l acc, fold_left (fun (_ : option string) t => Some (ts_name t)) l acc = Some ty -> acc = Some ty \/ exists t, In t l /\ ts_name t = ty) as L.
        { induction l as [|x l IH]; intros acc E; [left; exact E|]. cbn [fold_left] in E. apply IH in E. destruct E as [E|(t & It & E)].
          - right. exists x. split; [left; reflexivity|congruence].
          - right. exists t. split; [right; exact It|exact E]. }
        apply L in Et. destruct Et as [Et|(t & It & <-)]; [discriminate|]. apply NT'. exact It.
      - destruct (s_struct r) as [fs|] eqn:Ef; [|exact Logic.I]. symmetry in Es. apply last_struct_in in Es. destruct Es as (t & It & Et). intros f If.
        eapply NT; eassumption.
      - intros l Il. eapply NG; eassumption. }
    clear H0 I. induction H as [|r o rs outs E H IH]; [constructor|]. constructor; [|apply IH; intros r' I'; apply P; right; exact I'].
    destruct (P r (or_introl eq_refl)) as [G Q]. pose proof (read_source_from _ _ _ _ _ _ G E) as K1. pose proof (read_source_remarks _ _ _ _ _ _ Q G E) as K2.
    rewrite Forall_forall in K1, K2. intros x Ix. split; [apply (K1 x Ix)|apply (K2 x Ix)]. }
  assert (stmt_file s = file /\ stmt_remarks s) as [E1 E2].
  { clear H H0. induction K as [|r o rs outs E H IH]; [contradiction|]. cbn [List.concat] in I. apply in_app_or in I. destruct I as [I|I]; [apply E; exact I|apply IH; exact I]. }
  unfold remarks_ok. rewrite E1. split; [exact F|exact E2].
Qed.
Lemma file_remarks : forall cfg look short srt file nodes out, sorts srt -> plain_settings cfg -> LexSpec.one_line (short file) = true -> plain_nodes nodes ->
  parse_file cfg look short srt file (Some nodes) = Ok (Some out) -> forall s, In s out -> remarks_ok short s.
Proof.
  intros cfg look short srt file nodes out S C F N H s I. cbn [parse_file] in H. destruct (extract_sources (ddl_tag cfg) nodes) as [|r rs] eqn:E; [discriminate H|].
  apply bind_Ok in H. destruct H as (l & H & K). injection K as <-. apply (sources_remarks cfg look short file nodes l C F N).
  - rewrite E. exact H.
  - eapply Permutation.Permutation_in; [apply (S l)|exact I].
Qed.
Lemma tree_remarks : forall cfg look short srt files out, sorts srt -> plain_settings cfg ->
  (forall file nodes, In (file, Some nodes) files -> LexSpec.one_line (short file) = true /\ plain_nodes nodes) ->
  parse_tree cfg look short srt files = Ok out -> forall s, In s out -> remarks_ok short s.
Proof.
  intros cfg look short srt files. induction files as [|[name parsed] files IH]; intros out S C N H s I; [injection H as <-; destruct I|].
  cbn [parse_tree] in H. destruct (negb (ends_with ".go" name) || ends_with "_test.go" name); [eapply IH; try eassumption; intros f n Hin; apply N; right; exact Hin|].
  apply bind_Ok in H. destruct H as (l & H1 & H). 
  assert (Nr : forall file nodes, In (file, Some nodes) files -> LexSpec.one_line (short file) = true /\ plain_nodes nodes) by (intros f n Hin; apply N; right; exact Hin).
  apply bind_Ok in H. destruct H as (out' & H2 & H). destruct l as [l|]; injection H as <-; [|eapply IH; eassumption]. apply in_app_or in I. destruct I as [I|I]; [|eapply IH; eassumption].
  destruct parsed as [nodes|]; [|discriminate H1]. destruct (N name nodes (or_introl eq_refl)) as [F P]. eapply file_remarks; eassumption.
Qed.
