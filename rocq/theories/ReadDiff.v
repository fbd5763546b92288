(** The statements of a diff can be read (for C47). *)
From Coq Require Import Lia Permutation.
From Verif Require Import GoStr Token Lexer LexSpec Ast Parser Diff Printable PrintToks PrintStmt Apply ApplySpec SqlRead AppendFacts.
Local Open Scope list_scope.

Lemma readable_parts : forall d s, readable d s = no_nul (comment_of s) && readable d (uncommented s).
Proof.
  intros d s. destruct s as [t|x|c ie n|c ie n|c n a]; cbn [readable uncommented comment_of stmt_ok]; unfold create_table_ok, create_index_ok; cbn;
  rewrite <- ?andb_assoc; reflexivity.
Qed.
Definition says (d : dialect) (s : stmt) : Prop := readable d (uncommented s) = true.
Lemma printable_says : forall d l s, printable d l = true -> In s l -> says d s.
Proof.
  intros d l s H Hs. unfold printable in H. rewrite forallb_forall in H. specialize (H s Hs). unfold says.
  assert (R : readable d s = true) by (destruct s; try discriminate H; exact H). rewrite readable_parts in R. apply andb_true_iff in R. apply R.
Qed.
Lemma printable_stmt : forall d l s, printable d l = true -> In s l -> stmt_ok d s = true.
Proof. intros d l s H Hs. unfold printable in H. rewrite forallb_forall in H. exact (H s Hs). Qed.

Record table_parts (d : dialect) (t : create_table) : Prop := {
  tp_name : objname_ok d (ct_name t) = true;
  tp_col : forall c, In c (ct_columns t) -> column_ok d c = true;
  tp_con : forall c, In c (ct_constraints t) -> constraint_ok d c = true;
  tp_distinct : distinct (constraint_names (ct_constraints t)) = true;
  tp_opt : forall o, In o (ct_options t) -> option_ok d o = true;
  tp_rowdel : rowdel_ok d (ct_rowdel t) = true }.
Lemma table_ok_parts : forall d t, create_table_ok d t = true -> table_parts d t.
Proof.
  intros d t H. unfold create_table_ok, constraints_ok in H.
  apply andb_true_iff in H. destruct H as [H H6]. apply andb_true_iff in H. destruct H as [H H5]. apply andb_true_iff in H. destruct H as [H H4].
  apply andb_true_iff in H. destruct H as [H H3]. apply andb_true_iff in H. destruct H as [H1 H2].
  apply andb_true_iff in H4. destruct H4 as [H4 _]. apply andb_true_iff in H4. destruct H4 as [H4 H7].
  rewrite forallb_forall in H3, H4, H5. split; assumption.
Qed.

Definition column_parts (d : dialect) (c : column) : Prop :=
  name_ok d (c_name c) = true /\ datatype_ok d (c_type c) = true /\ default_ok d (c_default c) = true /\ (d = Sp -> match c_options c with Some l => group_ok d l = true | None => True end).
Lemma column_ok_parts : forall d c, column_ok d c = true -> column_parts d c.
Proof.
  intros d c H. unfold column_ok in H. apply andb_true_iff in H. destruct H as [H H6]. apply andb_true_iff in H. destruct H as [H H5].
  apply andb_true_iff in H. destruct H as [H H4]. apply andb_true_iff in H. destruct H as [H H3]. apply andb_true_iff in H. destruct H as [H1 H2].
  repeat split; auto. intro E. subst d. destruct (c_options c); [|exact I]. apply andb_true_iff in H6. apply H6.
Qed.
Lemma modified_ok : forall c, column_ok My c = true -> column_ok My (modified_column c) = true.
Proof.
  intros c H. unfold column_ok, modified_column in *. cbn. apply andb_true_iff in H. destruct H as [H H6]. apply andb_true_iff in H. destruct H as [H H5].
  apply andb_true_iff in H. destruct H as [H H4]. apply andb_true_iff in H. destruct H as [H H3]. apply andb_true_iff in H. destruct H as [H1 H2].
  repeat (apply andb_true_iff in H5; let K := fresh "K" in destruct H5 as [H5 K]). rewrite H1, H2, H3, K, K0, K1, K2. reflexivity.
Qed.

Section Table.
Variable d : dialect.
Variable srt : list constraint -> list constraint.
Variable sdiff : string -> string -> string.
Hypothesis Hsrt : srt_ok srt.
Variables tb ta : create_table.
Hypothesis Pb : table_parts d tb.
Hypothesis Pa : table_parts d ta.
Hypothesis Nb : index_names_ok d [CreateTable tb] = true.
Hypothesis Na : index_names_ok d [CreateTable ta] = true.
Hypothesis Hn : objname_diff (ct_name tb) = objname_diff (ct_name ta).

Lemma alter_says : forall c a, action_ok d a = true -> says d (AlterTable c (ct_name ta) a).
Proof. intros c a H. unfold says. cbn [uncommented readable]. rewrite (tp_name d ta Pa), H. reflexivity. Qed.

Lemma common_says : forall b a s, In b (ct_columns tb) -> In a (ct_columns ta) -> In s (diff_common_column d sdiff (ct_name ta) b a) -> says d s.
Proof.
  intros b a s Hb Ha Hs. pose proof (tp_col d ta Pa a Ha) as Ca. destruct (column_ok_parts d a Ca) as [A1 [A2 [A3 A4]]].
  assert (D : forall v, c_default a = Some v -> exists l, v = Some l /\ value_ok d l = true).
  { intros v E. rewrite E in A3. destruct v as [l|]; [|discriminate A3]. exists l. auto. }
  unfold diff_common_column, diff_default, diff_notnull, diff_options in Hs.
  assert (SD : forall c, In s (if is_some (c_default b) && negb (is_some (c_default a)) then [AlterTable c (ct_name ta) (DropDefault (c_name a))]
             else if is_some (c_default a) && neqs (default_diff d (c_default b)) (default_diff d (c_default a)) then [AlterTable c (ct_name ta) (SetDefault (c_name a) (c_default a))] else []) -> says d s).
  { intros c H. destruct (is_some (c_default b) && negb (is_some (c_default a))).
    - destruct H as [H|[]]. subst s. apply alter_says. exact A1.
    - destruct (is_some (c_default a) && _) eqn:E; [|destruct H]. destruct H as [H|[]]. subst s. apply alter_says. cbn [action_ok]. rewrite A1.
      destruct (c_default a) as [v|] eqn:Ev; [|discriminate E]. destruct (D v eq_refl) as [l [El V]]. subst v. exact V. }
  destruct d eqn:Ed; rewrite <- Ed in *.
  - apply in_app_or in Hs. destruct Hs as [Hs|Hs]; [destruct (neqs _ _); [|destruct Hs]; destruct Hs as [Hs|[]]; subst s; apply alter_says; cbn [action_ok]; rewrite A1, A2; reflexivity|].
    apply in_app_or in Hs. destruct Hs as [Hs|Hs]; [exact (SD _ Hs)|].
    repeat match type of Hs with In _ (if ?c then _ else _) => destruct c end; try (destruct Hs as [Hs|[]]; subst s; apply alter_says; exact A1); destruct Hs.
  - apply in_app_or in Hs. destruct Hs as [Hs|Hs]; [destruct (neqs _ _); [|destruct Hs]; destruct Hs as [Hs|[]]; subst s; apply alter_says; cbn [action_ok]; rewrite A1, A2; reflexivity|].
    apply in_app_or in Hs. destruct Hs as [Hs|Hs]; [exact (SD _ Hs)|].
    repeat match type of Hs with In _ (if ?c then _ else _) => destruct c end; try (destruct Hs as [Hs|[]]; subst s; apply alter_says; exact A1); destruct Hs.
  - apply in_app_or in Hs. destruct Hs as [Hs|Hs].
    + match type of Hs with In _ (if ?c then _ else _) => destruct c end; [|destruct Hs]. destruct Hs as [Hs|[]]. subst s. apply alter_says. cbn [action_ok]. rewrite Ed. apply modified_ok. rewrite <- Ed. exact Ca.
    + match type of Hs with In _ (if ?c then _ else _) => destruct c end; [|destruct Hs]. destruct Hs as [Hs|[]]. subst s. apply alter_says. exact A1.
  - apply in_app_or in Hs. destruct Hs as [Hs|Hs].
    + match type of Hs with In _ (if ?c then _ else _) => destruct c end; [|destruct Hs]. destruct Hs as [Hs|[]]. subst s. apply alter_says. cbn [action_ok]. rewrite A1, Ed, <- Ed. exact A2.
    + apply in_app_or in Hs. destruct Hs as [Hs|Hs]; [exact (SD _ Hs)|].
      destruct (is_some (c_options b) && _); [destruct Hs as [Hs|[]]; subst s; apply alter_says; exact A1|].
      destruct (is_some (c_options a) && _) eqn:E; [|destruct Hs]. destruct Hs as [Hs|[]]. subst s. apply alter_says. cbn [action_ok]. rewrite A1.
      specialize (A4 eq_refl). destruct (c_options a); [exact A4|discriminate E].
Qed.
Lemma columns_say : forall s, In s (diff_columns d sdiff (ct_name ta) (ct_columns tb) (ct_columns ta)) -> says d s.
Proof.
  intros s Hs. unfold diff_columns in Hs. apply in_app_or in Hs. destruct Hs as [Hs|Hs].
  - apply in_flat_map in Hs. destruct Hs as [b [Hb Hs]]. unfold diff_before_column in Hs. destruct (find_column (id_name (c_name b)) (ct_columns ta)) as [a|] eqn:E.
    + apply find_some in E. destruct E as [Ha _]. exact (common_says b a s Hb Ha Hs).
    + destruct (keep_hidden d b); [destruct Hs|]. destruct Hs as [Hs|[]]. subst s. apply alter_says. apply (column_ok_parts d b (tp_col d tb Pb b Hb)).
  - apply in_map_iff in Hs. destruct Hs as [a [E Ha]]. subst s. apply filter_In in Ha. destruct Ha as [Ha _]. apply alter_says. apply (tp_col d ta Pa a Ha).
Qed.

Lemma con_dropped : forall t c, table_parts d t -> In c (ct_constraints t) -> dropped_ok d (con_name c) = true.
Proof.
  intros t c P Hc. pose proof (tp_con d t P c Hc) as H. unfold dropped_ok.
  destruct c as [n cols|n cols ref refcols on|n cols|n u pre cols post|n e]; cbn [constraint_ok con_name] in *;
    try (destruct d; try discriminate H); destruct n as [n|]; cbn [oname_ok andb] in H; try discriminate H;
    repeat match goal with K : _ && _ = true |- _ => apply andb_true_iff in K; let L := fresh "L" in destruct K as [K L] end; try (rewrite H; reflexivity);
    try (destruct e; discriminate H).
  - rewrite H, L0. apply orb_true_r.
  - destruct e; [|discriminate H]. apply andb_true_iff in H. destruct H as [H _]. rewrite H. reflexivity.
  - destruct e; [|discriminate H]. apply andb_true_iff in H. destruct H as [H _]. rewrite H. reflexivity.
Qed.
Lemma con_index_name : forall t c, table_parts d t -> index_names_ok d [CreateTable t] = true -> In c (ct_constraints t) ->
  d = Crdb \/ d = My /\ (is_pkey c = false \/ con_key c <> "PRIMARY KEY") -> index_name_ok d (index_objname d (on_schema (ct_name t)) (con_ident c)) = true.
Proof.
  intros t c P X Hc D. pose proof (tp_con d t P c Hc) as H. destruct D as [D|[D K]]; rewrite D in *.
  - unfold index_objname, index_name_ok. cbn [on_schema on_name missing andb].
    unfold con_ident. destruct c as [n cols|n cols ref refcols on|n cols|n u pre cols post|n e]; cbn [constraint_ok con_name] in *; destruct n as [n|]; cbn [oname_ok andb] in H; try discriminate H;
    repeat match goal with K : _ && _ = true |- _ => apply andb_true_iff in K; let L := fresh "L" in destruct K as [K L] end; assumption.
  - unfold index_objname, index_name_ok. unfold index_names_ok in X. cbn [forallb] in X. rewrite andb_true_r in X. rewrite forallb_forall in X. specialize (X c Hc).
    apply orb_true_iff in X. destruct X as [X|X].
    + exfalso. destruct K as [K|K]; [congruence|]. apply K. destruct c as [n cols| | | |]; try discriminate X. cbn [constraint_ok] in H.
      destruct n as [n|]; [|discriminate H]. apply andb_true_iff in H. destruct H as [H _]. apply andb_true_iff in H. destruct H as [H _]. apply String.eqb_eq in H. exact H.
    + unfold con_ident. destruct (con_name c); [|discriminate X]. apply andb_true_iff in X. apply X.
Qed.
Lemma index_dialect : forall c, is_index d c = true -> d = Crdb \/ d = My.
Proof. intros c H. unfold is_index in H. destruct d; try discriminate H; auto. Qed.
Lemma index_not_pkey : forall c, is_index d c = true -> is_pkey c = false.
Proof. intros c H. unfold is_index in H. destruct d, c; try discriminate H; reflexivity. Qed.
Lemma created_index : forall cmt c, In c (ct_constraints ta) -> is_index d c = true -> says d (index_of_constraint d cmt (ct_name ta) c).
Proof.
  intros cmt c Hc I. pose proof (tp_con d ta Pa c Hc) as H. pose proof (index_dialect c I) as D.
  assert (X : index_name_ok d (index_objname d (on_schema (ct_name ta)) (con_ident c)) = true).
  { apply con_index_name; auto. destruct D as [D|D]; [left; exact D|right; split; [exact D|left; apply index_not_pkey, I]]. }
  unfold says. destruct c as [| | |n u pre cols post|]; try (destruct d; discriminate I).
  cbn [index_of_constraint uncommented readable stmt_ok]. unfold create_index_ok. cbn [cx_comment cx_unique cx_ifnotexists cx_name cx_table cx_using cx_pre cx_columns cx_post no_nul all_bytes]. rewrite (tp_name d ta Pa).
  assert (K : oname_ok d n && colidents_ok d cols && missing pre && missing post = true) by (destruct D as [D|D]; rewrite D in *; exact H).
  apply andb_true_iff in K. destruct K as [K K4]. apply andb_true_iff in K. destruct K as [K K3]. apply andb_true_iff in K. destruct K as [_ K2]. rewrite K2, K3, K4.
  unfold index_name_ok in X. destruct D as [D|D]; rewrite D in *; cbn [con_ident con_name] in X |- *; rewrite X; reflexivity.
Qed.
Lemma dropped_index : forall cmt b, In b (ct_constraints tb) -> d = Crdb \/ d = My -> is_pkey b = false \/ con_key b <> "PRIMARY KEY" ->
  says d (DropIndex cmt false (index_objname d (on_schema (ct_name tb)) (con_ident b))).
Proof.
  intros cmt b Hb D K. unfold says. cbn [uncommented readable]. rewrite (con_index_name tb b Pb Nb Hb); [reflexivity|]. destruct D as [D|D]; [left; exact D|right; auto].
Qed.
Lemma dropped_constraint : forall cmt b, In b (ct_constraints tb) -> says d (AlterTable cmt (ct_name ta) (DropConstraint (con_name b))).
Proof. intros cmt b Hb. apply alter_says. apply (con_dropped tb b Pb Hb). Qed.
Lemma added_constraint : forall cmt a nv, In a (ct_constraints ta) -> says d (AlterTable cmt (ct_name ta) (AddConstraint a nv)).
Proof. intros cmt a nv Ha. apply alter_says. apply (tp_con d ta Pa a Ha). Qed.
Lemma index_key : forall a, In a (ct_constraints ta) -> is_index d a = true -> d = Crdb \/ con_key a <> "PRIMARY KEY".
Proof.
  intros a Ha I. pose proof (index_not_pkey a I) as K. destruct (index_dialect a I) as [D|D]; [left; exact D|right]. pose proof Na as X. rewrite D in X.
  unfold index_names_ok in X. cbn [forallb] in X. rewrite andb_true_r in X. rewrite forallb_forall in X. specialize (X a Ha). rewrite K in X. cbn [orb] in X.
  unfold con_key, con_ident. destruct (con_name a); [|discriminate X]. apply andb_true_iff in X. destruct X as [_ X]. apply negb_true_iff, String.eqb_neq in X. exact X.
Qed.

Lemma added_in : forall added x, only_left_constraints d srt (ct_constraints ta) (ct_constraints tb) = Ok added -> In x added -> In x (ct_constraints ta).
Proof.
  intros added x H Hx. unfold only_left_constraints in H. set (f := fun c => match find_constraint (con_key c) (ct_constraints tb) with None => true | Some _ => false end) in *.
  assert (N : forall c, In c (ct_constraints ta) -> Diff.named c = true).
  { intros c Hc. pose proof (constraint_named d c (tp_con d ta Pa c Hc)) as M. unfold PrintStmt.named in M. unfold Diff.named. destruct (con_name c); [reflexivity|congruence]. }
  assert (U : NoDup (map con_key (ct_constraints ta))).
  { pose proof (tp_distinct d ta Pa) as D. replace (map con_key (ct_constraints ta)) with (constraint_names (ct_constraints ta)).
    - clear - D. induction (constraint_names (ct_constraints ta)) as [|y l IH]; [constructor|]. cbn [distinct] in D. apply andb_true_iff in D. destruct D as [D1 D2].
      constructor; [|apply IH, D2]. intro Hy. apply negb_true_iff in D1. assert (existsb (String.eqb y) l = true); [|congruence]. apply existsb_exists. exists y. split; [exact Hy|apply String.eqb_refl].
    - unfold constraint_names. apply map_ext. intro c. unfold con_key, con_ident. destruct (con_name c); reflexivity. }
  destruct (append_all d srt Hsrt (filter f (ct_constraints ta)) []) as [cs [E P]].
  - cbn [List.app]. rewrite forallb_forall. intros c Hc. apply filter_In in Hc. apply N, Hc.
  - cbn [List.app]. clear - U. induction (ct_constraints ta) as [|c l IH]; [constructor|]. cbn [map filter] in *. inversion U; subst. destruct (f c); [|apply IH; assumption].
    cbn [map]. constructor; [|apply IH; assumption]. intro I. apply H1. apply in_map_iff in I. destruct I as [y [Ey Hy]]. apply filter_In in Hy. apply in_map_iff. exists y. split; [exact Ey|apply Hy].
  - rewrite E in H. inversion H; subst. apply (Permutation_in _ P) in Hx. cbn [List.app] in Hx. apply filter_In in Hx. apply Hx.
Qed.

Lemma tables_say : forall nv l s, diff_tables d srt sdiff nv tb ta = Ok l -> In s l -> says d s.
Proof.
  intros nv l s H Hs. unfold diff_tables in H.
  destruct (only_left_constraints d srt (ct_constraints ta) (ct_constraints tb)) as [added| | |] eqn:Eadd; cbn [bind] in H; try discriminate H.
  assert (R : renamed (ct_name tb) (ct_name ta) = false) by (unfold renamed, neqs, eqs; rewrite Hn, String.eqb_refl; reflexivity).
  assert (F : final_name (ct_name tb) (ct_name ta) = ct_name ta) by (unfold final_name; rewrite R; reflexivity).
  rewrite F in H. unfold diff_rename in H. rewrite R in H. cbn [List.app] in H. inversion H; subst l. clear H.
  apply in_app_or in Hs. destruct Hs as [Hs|Hs].
  { apply in_flat_map in Hs. destruct Hs as [b [Hb Hs]]. unfold drop_gone_constraint in Hs. destruct (find_constraint _ _); [destruct Hs|].
    destruct (is_index d b) eqn:I; destruct Hs as [Hs|[]]; subst s; [|apply dropped_constraint, Hb].
    apply dropped_index; [exact Hb|apply (index_dialect b I)|left; apply index_not_pkey, I]. }
  apply in_app_or in Hs. destruct Hs as [Hs|Hs]; [apply columns_say, Hs|].
  apply in_app_or in Hs. destruct Hs as [Hs|Hs].
  { apply in_flat_map in Hs. destruct Hs as [b [Hb Hs]]. unfold change_constraint in Hs. destruct (find_constraint (con_key b) (ct_constraints ta)) as [a|] eqn:E; [|destruct Hs].
    apply find_some in E. destruct E as [Ha Ek]. apply String.eqb_eq in Ek. destruct (neqs _ _); [|destruct Hs].
    destruct (is_index d a) eqn:I; destruct Hs as [Hs|[Hs|[]]]; subst s.
    - destruct (index_key a Ha I) as [D|K].
      + unfold says. cbn [uncommented readable]. rewrite (con_index_name tb b Pb Nb Hb); [reflexivity|left; exact D].
      + apply dropped_index; [exact Hb|apply (index_dialect a I)|right; congruence].
    - apply created_index; assumption.
    - apply dropped_constraint, Hb.
    - apply added_constraint, Ha. }
  apply in_app_or in Hs. destruct Hs as [Hs|Hs].
  { apply in_map_iff in Hs. destruct Hs as [a [E Ha]]. subst s. apply (added_in _ _ Eadd) in Ha. unfold add_constraint. destruct (is_index d a) eqn:I; [apply created_index; assumption|apply added_constraint, Ha]. }
  apply in_app_or in Hs. destruct Hs as [Hs|Hs].
  { unfold diff_table_options in Hs. destruct d eqn:Ed; try (destruct Hs; fail). rewrite <- Ed in *.
    assert (O : forall c o, In o (ct_options ta) -> says d (AlterTable c (ct_name ta) (TableOption (o_name o) (o_value o)))).
    { intros c o Ho. apply alter_says. cbn [action_ok]. rewrite Ed. rewrite <- Ed. pose proof (tp_opt d ta Pa o Ho) as X. destruct o; exact X. }
    apply in_app_or in Hs. destruct Hs as [Hs|Hs].
    - apply in_flat_map in Hs. destruct Hs as [b [_ Hs]]. destruct (is_auto_increment b); [destruct Hs|]. destruct (find_option _ _) as [a|] eqn:E; [|destruct Hs].
      apply find_some in E. destruct (neqs _ _); [|destruct Hs]. destruct Hs as [Hs|[]]. subst s. apply O, E.
    - apply in_map_iff in Hs. destruct Hs as [o [E Ho]]. subst s. apply filter_In in Ho. destruct Ho as [Ho _]. apply filter_In in Ho. apply O, Ho. }
  { unfold diff_row_deletion in Hs. destruct d eqn:Ed; try (destruct Hs; fail). rewrite <- Ed in *. destruct (neqs _ _); [|destruct Hs].
    pose proof (tp_rowdel d ta Pa) as X. destruct (ct_rowdel tb), (ct_rowdel ta); try (destruct Hs; fail); destruct Hs as [Hs|[]]; subst s; apply alter_says; cbn [action_ok]; try reflexivity; rewrite Ed; rewrite <- Ed; exact X. }
Qed.
End Table.

Section Ddl.
Variable d : dialect.
Variable srt : list constraint -> list constraint.
Variable sdiff : string -> string -> string.
Hypothesis Hsrt : srt_ok srt.
Variables before after : ddl.
Hypothesis Pb : printable d before = true.
Hypothesis Pa : printable d after = true.
Hypothesis Nb : index_names_ok d before = true.
Hypothesis Na : index_names_ok d after = true.

Lemma names_of : forall l t, index_names_ok d l = true -> In (CreateTable t) l -> index_names_ok d [CreateTable t] = true.
Proof.
  intros l t H Ht. unfold index_names_ok in *. destruct d; try reflexivity. rewrite forallb_forall in H. specialize (H _ Ht). cbn [forallb]. rewrite andb_true_r. exact H.
Qed.
Lemma table_of : forall l t, printable d l = true -> In (CreateTable t) l -> table_parts d t.
Proof. intros l t H Ht. apply table_ok_parts. exact (printable_stmt d l _ H Ht). Qed.
Lemma drop_table_says : forall l c t, printable d l = true -> In (CreateTable t) l -> says d (DropTable c false (ct_name t)).
Proof. intros l c t H Ht. unfold says. cbn [uncommented readable]. rewrite (tp_name d t (table_of l t H Ht)). reflexivity. Qed.
Lemma drop_index_says : forall l c x, printable d l = true -> In (CreateIndex x) l -> says d (DropIndex c false (cx_name x)).
Proof.
  intros l c x H Hx. pose proof (printable_stmt d l _ H Hx) as K. cbn [stmt_ok] in K. unfold create_index_ok in K.
  do 5 (apply andb_true_iff in K; destruct K as [K _]). apply andb_true_iff in K. destruct K as [_ K].
  unfold says. cbn [uncommented readable]. unfold index_name_ok. rewrite K. reflexivity.
Qed.
Lemma stmt_changes_say : forall s l x, In s before -> diff_stmt d srt sdiff s after = Ok l -> In x l -> says d x.
Proof.
  intros s l x Hs H Hx. unfold diff_stmt in H. destruct s as [tb|ib| | |]; try (inversion H; subst l; destruct Hx; fail).
  - destruct (find_stmt (CreateTable tb) after) as [[ta| | | |]|] eqn:E; try (inversion H; subst l; destruct Hx; fail).
    apply find_some in E. destruct E as [Ha E]. apply andb_true_iff in E. destruct E as [_ E]. apply String.eqb_eq in E. cbn [stmt_name] in E.
    pose proof (table_of before tb Pb Hs) as Tb. pose proof (table_of after ta Pa Ha) as Ta.
    destruct (diff_create_table d srt sdiff false tb ta) as [k| | |] eqn:D; try discriminate H; [|inversion H; subst l; destruct Hx].
    inversion H; subst k. clear H. unfold diff_create_table in D.
    destruct (match d with Sp => neqs (options_diff d (ct_options tb)) (options_diff d (ct_options ta)) | _ => false end).
    + inversion D; subst l. destruct Hx as [Hx|[Hx|[]]]; subst x; [apply (drop_table_says before _ _ Pb Hs)|apply (printable_says d after _ Pa Ha)].
    + destruct (eqs _ _); [discriminate D|]. destruct (all_named _ && all_named _); [|discriminate D].
      destruct (diff_tables d srt sdiff false tb ta) as [m| | |] eqn:T; try discriminate D. assert (m = l) by (destruct m; inversion D; reflexivity). subst m.
      apply (tables_say d srt sdiff Hsrt tb ta Tb Ta (names_of before tb Nb Hs) (names_of after ta Na Ha) E false l x T Hx).
  - destruct (find_stmt (CreateIndex ib) after) as [[|ia| | |]|] eqn:E; try (inversion H; subst l; destruct Hx; fail).
    apply find_some in E. destruct E as [Ha _]. destruct (neqs _ _); [|inversion H; subst l; destruct Hx]. inversion H; subst l.
    destruct Hx as [Hx|[Hx|[]]]; subst x; [apply (drop_index_says before _ _ Pb Hs)|apply (printable_says d after _ Pa Ha)].
Qed.
Lemma changes_say : forall bs l x, (forall s, In s bs -> In s before) -> diff_stmts d srt sdiff bs after = Ok l -> In x l -> says d x.
Proof.
  intro bs. induction bs as [|s bs IH]; intros l x Hb H Hx; cbn [diff_stmts] in H; [inversion H; subst l; destruct Hx|].
  destruct (diff_stmt d srt sdiff s after) as [l1| | |] eqn:E1; cbn [bind] in H; try discriminate H.
  destruct (diff_stmts d srt sdiff bs after) as [l2| | |] eqn:E2; cbn [bind] in H; try discriminate H. inversion H; subst l. apply in_app_or in Hx. destruct Hx as [Hx|Hx].
  - exact (stmt_changes_say s l1 x (Hb s (or_introl eq_refl)) E1 Hx).
  - apply (IH l2 x); auto. intros y Hy. apply Hb. right. exact Hy.
Qed.
Lemma drops_say : forall bs l x, (forall s, In s bs -> In s before) -> map_opt drop_stmt bs = Some l -> In x l -> says d x.
Proof.
  intro bs. induction bs as [|s bs IH]; intros l x Hb H Hx; cbn [map_opt] in H; [inversion H; subst l; destruct Hx|].
  destruct (drop_stmt s) as [y|] eqn:E1; [|discriminate H]. destruct (map_opt drop_stmt bs) as [ys|]; [|discriminate H]. inversion H; subst l.
  destruct Hx as [Hx|Hx]; [|apply (IH ys x); auto; intros z Hz; apply Hb; right; exact Hz]. subst y. pose proof (Hb s (or_introl eq_refl)) as Hs.
  destruct s; try discriminate E1; inversion E1; subst x; [apply (drop_table_says before _ _ Pb Hs)|apply (drop_index_says before _ _ Pb Hs)].
Qed.
Lemma creates_say : forall bs l x, (forall s, In s bs -> In s after) -> map_opt create_stmt bs = Some l -> In x l -> says d x.
Proof.
  intro bs. induction bs as [|s bs IH]; intros l x Hb H Hx; cbn [map_opt] in H; [inversion H; subst l; destruct Hx|].
  destruct (create_stmt s) as [y|] eqn:E1; [|discriminate H]. destruct (map_opt create_stmt bs) as [ys|]; [|discriminate H]. inversion H; subst l.
  destruct Hx as [Hx|Hx]; [|apply (IH ys x); auto; intros z Hz; apply Hb; right; exact Hz]. subst y. pose proof (Hb s (or_introl eq_refl)) as Hs.
  destruct s; try discriminate E1; inversion E1; subst x; apply (printable_says d after _ Pa Hs).
Qed.
Theorem diff_says : forall l s, diff_ddl d srt sdiff before after = DOk l -> In s l -> says d s.
Proof.
  intros l s H Hs. unfold diff_ddl in H. destruct (eqs _ _); [discriminate H|].
  destruct (map_opt drop_stmt (only_left_stmts before after)) as [drops|] eqn:E1; [|discriminate H].
  destruct (map_opt create_stmt (only_left_stmts after before)) as [creates|] eqn:E2; [|discriminate H].
  destruct (diff_stmts d srt sdiff before after) as [changes| | |] eqn:E3; try discriminate H.
  assert (E : l = drops ++ creates ++ changes) by (destruct (drops ++ creates ++ changes); inversion H; reflexivity). subst l. clear H.
  apply in_app_or in Hs. destruct Hs as [Hs|Hs]; [|apply in_app_or in Hs; destruct Hs as [Hs|Hs]].
  - apply (drops_say _ _ s (fun x Hx => proj1 (proj1 (filter_In _ _ _) Hx)) E1 Hs).
  - apply (creates_say _ _ s (fun x Hx => proj1 (proj1 (filter_In _ _ _) Hx)) E2 Hs).
  - apply (changes_say _ _ s (fun x Hx => Hx) E3 Hs).
Qed.
End Ddl.
