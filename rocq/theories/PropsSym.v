(** C84: having no difference is symmetric and transitive. *)
From Coq Require Import Permutation.
From Verif Require Import GoStr Token Lexer Ast Parser Diff Db DbFacts AppendFacts DiffTable Tidy TidyFacts Reconcile Honest DiffSpec DiffSame PropsDiff Printable PropsRound.
Local Open Scope list_scope.

(** * Specification *)

(** Which kind of statement, and its name as it is compared. *)
Definition title (s : stmt) : nat * string :=
  (match s with CreateTable _ => 0 | CreateIndex _ => 1 | DropTable _ _ _ => 2 | DropIndex _ _ _ => 3 | AlterTable _ _ _ => 4 end, stmt_name s).
(** Nothing in the table is described twice, DEFAULT has a value, OPTIONS are not empty. *)
Definition once_table (d : dialect) (t : create_table) : Prop :=
  NoDup (map (fun c => id_name (c_name c)) (ct_columns t)) /\ NoDup (map con_label (ct_constraints t)) /\ (d = My -> NoDup (map o_name (ct_options t)))
  /\ (forall c, In c (ct_columns t) -> c_default c <> Some None)
  /\ (d = Sp -> forall c l, In c (ct_columns t) -> c_options c = Some l -> idents_diff l <> ""%string).
Definition once (d : dialect) (l : ddl) : Prop := NoDup (map title l) /\ forall t, In (CreateTable t) l -> once_table d t.
(** No hidden computed column (CockroachDB). *)
Definition none_hidden (d : dialect) (l : ddl) : Prop := forall t c, In (CreateTable t) l -> In c (ct_columns t) -> sticky d c = false.
(** Every option of a table is also given by the other schema (MySQL). *)
Definition options_in (d : dialect) (b a : ddl) : Prop := d = My -> forall tb ta, In (CreateTable tb) b -> In (CreateTable ta) a -> stmt_name (CreateTable tb) = stmt_name (CreateTable ta) ->
  forall o, In o (ct_options tb) -> upper_auto o = false -> In (o_name o) (map o_name (ct_options ta)).

(** * When nothing is emitted *)

Lemma neqs_sym : forall x y, neqs x y = neqs y x.
Proof. intros x y. unfold neqs, eqs. rewrite String.eqb_sym. reflexivity. Qed.
Lemma neqs_iff : forall x y, neqs x y = false <-> x = y.
Proof. intros x y. unfold neqs, eqs. rewrite negb_false_iff. apply String.eqb_eq. Qed.
Lemma if_nil_iff : forall A (b : bool) (x : A), (if b then [x] else []) = [] <-> b = false.
Proof. intros A [] x; split; intro H; try reflexivity; discriminate. Qed.
Lemma app_nil_iff : forall A (x y : list A), x ++ y = [] <-> x = [] /\ y = [].
Proof. intros A x y. split; [apply app_eq_nil|]. intros [-> ->]. reflexivity. Qed.
Lemma flat_map_nil_iff : forall A B (f : A -> list B) l, flat_map f l = [] <-> forall x, In x l -> f x = [].
Proof.
  intros A B f l. split; [apply flat_map_nil_inv|]. intro H. induction l as [|x l IH]; [reflexivity|]. cbn [flat_map]. rewrite (H x (or_introl eq_refl)). apply IH.
  intros y Hy. apply H. right. exact Hy.
Qed.
Lemma filter_nil_iff : forall A (f : A -> bool) l, filter f l = [] <-> forall x, In x l -> f x = false.
Proof.
  intros A f l. split; [apply filter_nil_inv|]. intro H. induction l as [|x l IH]; [reflexivity|]. cbn [filter]. rewrite (H x (or_introl eq_refl)). apply IH.
  intros y Hy. apply H. right. exact Hy.
Qed.
Lemma map_nil_iff : forall A B (f : A -> B) l, map f l = [] <-> l = [].
Proof. intros A B f [|x l]; split; intro H; try reflexivity; discriminate. Qed.
Lemma is_none : forall A (o : option A), match o with None => true | Some _ => false end = false <-> o <> None.
Proof. intros A [x|]; split; intro H; try reflexivity; try discriminate; try congruence. Qed.

Section Columns.
Variables (d : dialect) (sdiff : string -> string -> string).
(** Both sides say the same of a column. *)
Definition column_agrees (b a : column) : Prop :=
  datatype_diff (c_type b) = datatype_diff (c_type a) /\ c_notnull b = c_notnull a
  /\ (c_default b <> None -> c_default a <> None) /\ default_diff d (c_default b) = default_diff d (c_default a)
  /\ match d with
     | My => oident_diff (c_charset b) = oident_diff (c_charset a) /\ oident_diff (c_collate b) = oident_diff (c_collate a) /\ c_autoinc b = c_autoinc a
             /\ c_onaction b = c_onaction a /\ c_comment b = c_comment a
     | Sp => (c_options b <> None -> c_options a <> None) /\ expr_diff (c_options b) = expr_diff (c_options a)
     | _ => True
     end.
Lemma default_iff : forall cmt n b a, diff_default d cmt n b a = [] <-> (c_default b <> None -> c_default a <> None) /\ default_diff d (c_default b) = default_diff d (c_default a).
Proof.
  intros cmt n b a. unfold diff_default. destruct (c_default b) as [x|] eqn:B, (c_default a) as [y|] eqn:A; cbn [is_some andb negb].
  - rewrite if_nil_iff, neqs_iff. split; [intro H; split; [discriminate|exact H]|tauto].
  - split; [discriminate|]. intros [H _]. exfalso. apply H; [discriminate|reflexivity].
  - rewrite if_nil_iff, neqs_iff. split; [intro H; split; [discriminate|exact H]|tauto].
  - split; [|reflexivity]. intros _. split; [congruence|reflexivity].
Qed.
Lemma options_iff : forall cmt n b a, diff_options cmt n b a = [] <-> (c_options b <> None -> c_options a <> None) /\ expr_diff (c_options b) = expr_diff (c_options a).
Proof.
  intros cmt n b a. unfold diff_options. destruct (c_options b) as [x|] eqn:B, (c_options a) as [y|] eqn:A; cbn [is_some andb negb].
  - rewrite if_nil_iff, neqs_iff. split; [intro H; split; [discriminate|exact H]|tauto].
  - split; [discriminate|]. intros [H _]. exfalso. apply H; [discriminate|reflexivity].
  - rewrite if_nil_iff, neqs_iff. split; [intro H; split; [discriminate|exact H]|tauto].
  - split; [|reflexivity]. intros _. split; [congruence|reflexivity].
Qed.
Lemma notnull_iff : forall cmt n b a, diff_notnull cmt n b a = [] <-> c_notnull b = c_notnull a.
Proof. intros cmt n b a. unfold diff_notnull. destruct (c_notnull b), (c_notnull a); cbn; split; intro H; try reflexivity; discriminate. Qed.
Lemma eqb_iff : forall x y, negb (Bool.eqb x y) = false <-> x = y.
Proof. intros x y. rewrite negb_false_iff. apply Bool.eqb_true_iff. Qed.
Lemma common_iff : forall n b a, diff_common_column d sdiff n b a = [] <-> column_agrees b a.
Proof.
  intros n b a. unfold diff_common_column, column_agrees. cbv zeta. destruct d eqn:D.
  - rewrite !app_nil_iff, if_nil_iff, neqs_iff, <- D, default_iff, notnull_iff. tauto.
  - rewrite !app_nil_iff, if_nil_iff, neqs_iff, <- D, default_iff, notnull_iff. tauto.
  - rewrite app_nil_iff, !if_nil_iff, !orb_false_iff, !neqs_iff, !eqb_iff.
    assert (is_some (c_default b) && negb (is_some (c_default a)) = false <-> (c_default b <> None -> c_default a <> None)) as E.
    { destruct (c_default b), (c_default a); cbn; split; intro H; try reflexivity; try discriminate; try congruence. exfalso. apply H; [discriminate|reflexivity]. }
    split.
    + intros [[[[[[[[H1 H2] H3] H4] H5] H6] H7] H8] H9]. rewrite H9 in H5. cbn [negb andb] in H5. apply neqs_iff in H5. pose proof (proj1 E H9). tauto.
    + intros (H1 & H2 & H3 & H4 & H5 & H6 & H7 & H8 & H9). pose proof (proj2 E H3) as H3'. rewrite H3'. cbn [negb andb]. rewrite neqs_iff. tauto.
  - rewrite !app_nil_iff, if_nil_iff, orb_false_iff, neqs_iff, eqb_iff, <- D, default_iff, options_iff. tauto.
Qed.
End Columns.

Section Tables.
Variables (d : dialect) (srt : list constraint -> list constraint) (sdiff : string -> string -> string).
Hypothesis Hsrt : srt_ok srt.
Lemma replace_some : forall cs c l, replace_constraint cs c = Some (Some l) -> l <> [].
Proof.
  intros [|x r] c l H; [discriminate|]. cbn [replace_constraint] in H. destruct (con_name x), (con_name c); try discriminate. destruct (eqs _ _); [injection H as <-; discriminate|].
  destruct (replace_constraint r c) as [[r'|]|]; try discriminate. injection H as <-. discriminate.
Qed.
Lemma append_some : forall cs c l, append_constraint d srt cs c = Ok l -> l <> [].
Proof.
  intros cs c l H. unfold append_constraint in H. destruct (replace_constraint cs c) as [[l'|]|] eqn:R; try discriminate.
  - injection H as <-. exact (replace_some _ _ _ R).
  - assert (forall x, Permutation x (cs ++ [c]) -> x <> []) as P. { intros x P E. subst x. apply Permutation_nil in P. destruct cs; discriminate. }
    injection H as <-. destruct d; apply P; try apply Permutation_refl; apply sort_constraints_perm; exact Hsrt.
Qed.
Lemma append_nil : forall new cs, append_constraints d srt cs new = Ok [] -> new = [].
Proof.
  assert (forall new cs, cs <> [] -> append_constraints d srt cs new <> Ok []) as K.
  { induction new as [|c new IH]; intros cs H; cbn [append_constraints]; [congruence|]. destruct (append_constraint d srt cs c) as [l| | |] eqn:E; cbn [bind]; try discriminate.
    apply IH. exact (append_some _ _ _ E). }
  intros [|c new] cs H; [reflexivity|]. exfalso. cbn [append_constraints] in H. destruct (append_constraint d srt cs c) as [l| | |] eqn:E; cbn [bind] in H; try discriminate.
  exact (K new l (append_some _ _ _ E) H).
Qed.

Definition table_agrees (b a : create_table) : Prop :=
  renamed (ct_name b) (ct_name a) = false
  /\ (forall c, In c (ct_constraints b) -> exists x, find_constraint (con_key c) (ct_constraints a) = Some x /\ constraint_diff d c = constraint_diff d x)
  /\ (forall c, In c (ct_constraints a) -> find_constraint (con_key c) (ct_constraints b) <> None)
  /\ (forall c, In c (ct_columns b) -> match find_column (id_name (c_name c)) (ct_columns a) with Some x => column_agrees d c x | None => keep_hidden d c = true end)
  /\ (forall c, In c (ct_columns a) -> find_column (id_name (c_name c)) (ct_columns b) <> None)
  /\ (d = My -> (forall o, In o (ct_options b) -> is_auto_increment o = false -> forall x, find_option (o_name o) (ct_options a) = Some x -> option_diff d o = option_diff d x)
       /\ (forall o, In o (ct_options a) -> is_auto_increment o = false -> find_option (o_name o) (ct_options b) <> None))
  /\ (d = Sp -> ooption_diff d (ct_rowdel b) = ooption_diff d (ct_rowdel a)).

Lemma tables_iff : forall nv b a, diff_tables d srt sdiff nv b a = Ok [] <-> table_agrees b a.
Proof.
  intros nv b a. unfold diff_tables. cbv zeta. set (n := final_name (ct_name b) (ct_name a)).
  assert (only_left_constraints d srt (ct_constraints a) (ct_constraints b) = Ok [] <-> (forall c, In c (ct_constraints a) -> find_constraint (con_key c) (ct_constraints b) <> None)) as L.
  { unfold only_left_constraints. split.
    - intros H c Hc. apply append_nil in H. rewrite filter_nil_iff in H. apply is_none. exact (H c Hc).
    - intro H. rewrite (proj2 (filter_nil_iff _ _ _)); [reflexivity|]. intros c Hc. apply is_none. exact (H c Hc). }
  assert (diff_rename sdiff (ct_name b) (ct_name a) = [] <-> renamed (ct_name b) (ct_name a) = false) as R. { unfold diff_rename. cbv zeta. apply if_nil_iff. }
  assert ((flat_map (drop_gone_constraint d sdiff (ct_name b) n (ct_constraints a)) (ct_constraints b) = [] /\ flat_map (change_constraint d sdiff nv (ct_name b) n (ct_constraints a)) (ct_constraints b) = [])
    <-> (forall c, In c (ct_constraints b) -> exists x, find_constraint (con_key c) (ct_constraints a) = Some x /\ constraint_diff d c = constraint_diff d x)) as C.
  { rewrite !flat_map_nil_iff. unfold drop_gone_constraint, change_constraint. split.
    - intros [H1 H2] c Hc. specialize (H1 c Hc). specialize (H2 c Hc). cbv beta in *. destruct (find_constraint (con_key c) (ct_constraints a)) as [x|]; [|destruct (is_index d c); discriminate].
      exists x. split; [reflexivity|]. apply neqs_iff. destruct (neqs _ _); [|reflexivity]. destruct (is_index d x); discriminate.
    - intro H. split; intros c Hc; destruct (H c Hc) as [x [F E]]; rewrite F; [reflexivity|]. rewrite (proj2 (neqs_iff _ _) E). reflexivity. }
  assert (diff_columns d sdiff n (ct_columns b) (ct_columns a) = [] <->
    (forall c, In c (ct_columns b) -> match find_column (id_name (c_name c)) (ct_columns a) with Some x => column_agrees d c x | None => keep_hidden d c = true end)
    /\ (forall c, In c (ct_columns a) -> find_column (id_name (c_name c)) (ct_columns b) <> None)) as K.
  { unfold diff_columns. rewrite app_nil_iff, flat_map_nil_iff, map_nil_iff. unfold only_left_columns. rewrite filter_nil_iff. unfold diff_before_column. split; intros [H1 H2]; split; intros c Hc.
    - specialize (H1 c Hc). cbv beta in H1. destruct (find_column _ _); [apply common_iff in H1; exact H1|]. destruct (keep_hidden d c); [reflexivity|discriminate].
    - apply is_none. exact (H2 c Hc).
    - specialize (H1 c Hc). destruct (find_column _ _); [apply common_iff; exact H1|]. rewrite H1. reflexivity.
    - apply is_none. exact (H2 c Hc). }
  assert (diff_table_options d sdiff n (ct_options b) (ct_options a) = [] <->
    (d = My -> (forall o, In o (ct_options b) -> is_auto_increment o = false -> forall x, find_option (o_name o) (ct_options a) = Some x -> option_diff d o = option_diff d x)
       /\ (forall o, In o (ct_options a) -> is_auto_increment o = false -> find_option (o_name o) (ct_options b) <> None))) as O.
  { unfold diff_table_options. clear. destruct d eqn:D; try (split; [intros _ E; discriminate|reflexivity]).
    rewrite app_nil_iff, flat_map_nil_iff, map_nil_iff, filter_nil_iff. unfold only_left_options. split.
    - intros [H1 H2] _. split.
      + intros o Ho Au x F. specialize (H1 o Ho). cbv beta in H1. rewrite Au, F in H1. apply neqs_iff. destruct (neqs _ _); [discriminate|reflexivity].
      + intros o Ho Au F. specialize (H2 o). rewrite filter_In, F, Au in H2. cbn [negb] in H2. discriminate (H2 (conj Ho eq_refl)).
    - intro H. destruct (H eq_refl) as [H1 H2]. split.
      + intros o Ho. destruct (is_auto_increment o) eqn:Au; [reflexivity|]. destruct (find_option (o_name o) (ct_options a)) as [x|] eqn:F; [|reflexivity].
        rewrite (proj2 (neqs_iff _ _) (H1 o Ho Au x F)). reflexivity.
      + intros o Ho. apply filter_In in Ho. destruct Ho as [Ho F]. destruct (is_auto_increment o) eqn:Au; [reflexivity|]. exfalso. apply (H2 o Ho Au).
        destruct (find_option (o_name o) (ct_options b)); [discriminate|reflexivity]. }
  assert (diff_row_deletion d sdiff n (ct_rowdel b) (ct_rowdel a) = [] <-> (d = Sp -> ooption_diff d (ct_rowdel b) = ooption_diff d (ct_rowdel a))) as W.
  { unfold diff_row_deletion. clear. destruct d; try (split; [intros _ E; discriminate|reflexivity]). destruct (neqs _ _) eqn:E.
    - split.
      + intros H _. destruct (ct_rowdel b), (ct_rowdel a); first [discriminate|reflexivity].
      + intro H. rewrite (H eq_refl) in E. unfold neqs, eqs in E. rewrite String.eqb_refl in E. discriminate.
    - split; [intros _ _; apply neqs_iff; exact E|reflexivity]. }
  unfold table_agrees. rewrite <- R, <- L, <- O, <- W. split.
  - intro H. destruct (only_left_constraints d srt (ct_constraints a) (ct_constraints b)) as [added| | |]; try discriminate. cbn [bind] in H. injection H as H.
    rewrite !app_nil_iff, map_nil_iff in H. destruct H as (H1 & H2 & H3 & H4 & H5 & H6 & H7). subst added.
    split; [exact H1|]. split; [apply C; split; assumption|]. split; [reflexivity|]. apply K in H3. destruct H3. repeat (split; [assumption|]). assumption.
  - intros (H1 & H2 & H3 & H4 & H5 & H6 & H7). rewrite H3. cbn [bind map]. apply C in H2. destruct H2 as [H2 H2']. rewrite H1, H2, H2', H6, H7, (proj2 K (conj H4 H5)). reflexivity.
Qed.
End Tables.

(** * The three laws for tables *)

Lemma find_by : forall A (f : A -> string) l x, NoDup (map f l) -> In x l -> forall n, f x = n -> find (fun y => eqs (f y) n) l = Some x.
Proof.
  intros A f l x U Hx n <-. induction l as [|y l IH]; [destruct Hx|]. cbn [map] in U. inversion U as [|? ? U1 U2]; subst. cbn [find].
  destruct (eqs (f y) (f x)) eqn:E.
  - destruct Hx as [Hx|Hx]; [congruence|]. exfalso. apply U1. apply eqs_eq in E. rewrite E. apply in_map. exact Hx.
  - destruct Hx as [Hx|Hx]; [subst; unfold eqs in E; rewrite String.eqb_refl in E; discriminate|]. apply IH; assumption.
Qed.
Lemma found_by : forall A (f : A -> string) l n x, find (fun y => eqs (f y) n) l = Some x -> In x l /\ f x = n.
Proof. intros A f l n x H. apply find_some in H. destruct H as [H E]. apply eqs_eq in E. split; assumption. Qed.
Lemma found_in : forall A (f : A -> string) l n, In n (map f l) -> find (fun y => eqs (f y) n) l <> None.
Proof.
  intros A f l n H F. apply in_map_iff in H. destruct H as [x [E Hx]]. apply (find_none _ _ F) in Hx. cbv beta in Hx. unfold eqs in Hx. rewrite E, String.eqb_refl in Hx. discriminate.
Qed.
Lemma label_key : forall c, con_label c = con_key c.
Proof. intro c. unfold con_label, con_key, con_ident. destruct (con_name c); reflexivity. Qed.
Lemma once_keys : forall d t, once_table d t -> NoDup (map con_key (ct_constraints t)).
Proof. intros d t (_ & H & _). erewrite map_ext; [exact H|]. intro c. symmetry. apply label_key. Qed.
Lemma renamed_sym : forall b a, renamed b a = renamed a b.
Proof. intros b a. unfold renamed. apply neqs_sym. Qed.
Lemma sticky_hidden : forall d c, sticky d c = keep_hidden d c.
Proof. intros d c. unfold sticky, keep_hidden. destruct d; reflexivity. Qed.

Lemma column_sym : forall d b a, c_default a <> Some None -> (d = Sp -> forall l, c_options a = Some l -> idents_diff l <> ""%string) -> column_agrees d b a -> column_agrees d a b.
Proof.
  intros d b a N M (H1 & H2 & H3 & H4 & H5). split; [congruence|]. split; [congruence|]. split.
  { intros Ha Hb. rewrite Hb in H4. destruct (c_default a) as [[l|]|]; [|apply N; reflexivity|apply Ha; reflexivity]. destruct d; discriminate H4. }
  split; [congruence|]. destruct d; try exact I; [intuition congruence|]. destruct H5 as [H5 H6]. split; [|congruence]. intros Ha Hb. rewrite Hb in H6.
  destruct (c_options a) as [l|] eqn:E; [|apply Ha; reflexivity]. apply (M eq_refl l eq_refl). symmetry. exact H6.
Qed.
Lemma column_trans : forall d b a c, column_agrees d b a -> column_agrees d a c -> column_agrees d b c.
Proof. intros d b a c (H1 & H2 & H3 & H4 & H5) (G1 & G2 & G3 & G4 & G5). split; [congruence|]. split; [congruence|]. split; [tauto|]. split; [congruence|]. destruct d; try exact I; intuition congruence. Qed.
Lemma column_refl : forall d c, column_agrees d c c.
Proof. intros d c. split; [reflexivity|]. split; [reflexivity|]. split; [tauto|]. split; [reflexivity|]. destruct d; try exact I; tauto. Qed.

Lemma table_sym : forall d b a, once_table d a -> (forall c, In c (ct_columns b) -> sticky d c = false) ->
  (d = My -> forall o, In o (ct_options b) -> upper_auto o = false -> In (o_name o) (map o_name (ct_options a))) -> table_agrees d b a -> table_agrees d a b.
Proof.
  intros d b a O Hid Op (H1 & H2 & H3 & H4 & H5 & H6 & H7). pose proof (once_keys _ _ O) as Ok. destruct O as (O1 & _ & O3 & O4 & O5).
  split; [rewrite renamed_sym; exact H1|]. split.
  { intros c Hc. destruct (find_constraint (con_key c) (ct_constraints b)) as [x|] eqn:F; [|exfalso; exact (H3 c Hc F)]. exists x. split; [reflexivity|].
    apply (found_by _ con_key) in F. destruct F as [Fx Fk]. destruct (H2 x Fx) as [y [G E]]. rewrite (find_by _ con_key _ c Ok Hc _ (eq_sym Fk) : find_constraint _ _ = _) in G. congruence. }
  split. { intros c Hc F. destruct (H2 c Hc) as [y [G _]]. congruence. }
  assert (forall c, In c (ct_columns b) -> exists x, find_column (id_name (c_name c)) (ct_columns a) = Some x /\ column_agrees d c x) as H4'.
  { intros c Hc. specialize (H4 c Hc). destruct (find_column _ _) as [x|]; [exists x; split; [reflexivity|exact H4]|]. rewrite <- sticky_hidden, (Hid c Hc) in H4. discriminate. }
  split.
  { intros c Hc. destruct (find_column (id_name (c_name c)) (ct_columns b)) as [x|] eqn:F; [|exfalso; exact (H5 c Hc F)].
    apply (found_by _ (fun c => id_name (c_name c))) in F. destruct F as [Fx Fk]. destruct (H4' x Fx) as [y [G E]].
    rewrite (find_by _ (fun c => id_name (c_name c)) _ c O1 Hc _ (eq_sym Fk) : find_column _ _ = _) in G. injection G as <-. apply column_sym; [apply O4; exact Hc|intros D l L; exact (O5 D c l Hc L)|exact E]. }
  split. { intros c Hc F. destruct (H4' c Hc) as [x [G _]]. congruence. }
  split; [|intro D; symmetry; exact (H7 D)]. intro D. destruct (H6 D) as [P1 P2]. split.
  - intros o Ho Au x F. apply (found_by _ o_name) in F. destruct F as [Fx Fk]. symmetry. apply P1; [exact Fx|unfold is_auto_increment in *; rewrite Fk; exact Au|].
    exact (find_by _ o_name _ o (O3 D) Ho _ (eq_sym Fk)).
  - intros o Ho Au. exact (found_in _ o_name _ _ (Op D o Ho Au)).
Qed.
Lemma table_trans : forall d b a c, (forall x, In x (ct_columns a) -> sticky d x = false) -> table_agrees d b a -> table_agrees d a c -> table_agrees d b c.
Proof.
  intros d b a c Hid (H1 & H2 & H3 & H4 & H5 & H6 & H7) (G1 & G2 & G3 & G4 & G5 & G6 & G7).
  split. { unfold renamed in *. rewrite neqs_iff in *. congruence. }
  split. { intros x Hx. destruct (H2 x Hx) as [y [F E]]. apply (found_by _ con_key) in F. destruct F as [Fy Fk]. destruct (G2 y Fy) as [z [F' E']]. exists z. split; [rewrite <- Fk; exact F'|congruence]. }
  split. { intros x Hx. specialize (G3 x Hx). destruct (find_constraint (con_key x) (ct_constraints a)) as [y|] eqn:F; [|congruence]. apply (found_by _ con_key) in F. destruct F as [Fy Fk]. rewrite <- Fk. exact (H3 y Fy). }
  split.
  { intros x Hx. specialize (H4 x Hx). destruct (find_column (id_name (c_name x)) (ct_columns a)) as [y|] eqn:F.
    - apply (found_by _ (fun c => id_name (c_name c))) in F. destruct F as [Fy Fk]. specialize (G4 y Fy). rewrite Fk in G4.
      destruct (find_column (id_name (c_name x)) (ct_columns c)) as [z|]; [exact (column_trans _ _ _ _ H4 G4)|]. rewrite <- sticky_hidden, (Hid y Fy) in G4. discriminate.
    - destruct (find_column (id_name (c_name x)) (ct_columns c)) as [z|] eqn:F'; [|exact H4]. exfalso. apply (found_by _ (fun c => id_name (c_name c))) in F'. destruct F' as [Fz Fk].
      apply (G5 z Fz). rewrite Fk. exact F. }
  split. { intros x Hx. specialize (G5 x Hx). destruct (find_column (id_name (c_name x)) (ct_columns a)) as [y|] eqn:F; [|congruence]. apply (found_by _ (fun c => id_name (c_name c))) in F. destruct F as [Fy Fk]. rewrite <- Fk. exact (H5 y Fy). }
  split; [|intro D; rewrite (H7 D); exact (G7 D)]. intro D. destruct (H6 D) as [P1 P2]. destruct (G6 D) as [Q1 Q2]. split.
  - intros o Ho Au z F. pose proof (found_by _ o_name _ _ _ F) as [Fz Fk]. assert (is_auto_increment z = false) as Az by (unfold is_auto_increment in *; rewrite Fk; exact Au).
    specialize (Q2 z Fz Az). rewrite Fk in Q2. destruct (find_option (o_name o) (ct_options a)) as [y|] eqn:F'; [|congruence]. pose proof (found_by _ o_name _ _ _ F') as [Fy Fk'].
    rewrite (P1 o Ho Au y F'). apply Q1; [exact Fy|unfold is_auto_increment in *; rewrite Fk'; exact Au|rewrite Fk'; exact F].
  - intros o Ho Au. specialize (Q2 o Ho Au). destruct (find_option (o_name o) (ct_options a)) as [y|] eqn:F'; [|congruence]. pose proof (found_by _ o_name _ _ _ F') as [Fy Fk'].
    rewrite <- Fk'. apply P2; [exact Fy|unfold is_auto_increment in *; rewrite Fk'; exact Au].
Qed.
(** The comment in front of a table is not compared. *)
Lemma table_refl : forall d b a, once_table d b -> ct_name b = ct_name a -> ct_columns b = ct_columns a -> ct_constraints b = ct_constraints a -> ct_options b = ct_options a -> ct_rowdel b = ct_rowdel a ->
  table_agrees d b a.
Proof.
  intros d b a O E1 E2 E3 E4 E5. unfold table_agrees. rewrite <- E1, <- E2, <- E3, <- E4, <- E5. pose proof (once_keys _ _ O) as Ok. destruct O as (O1 & _ & O3 & _).
  split; [unfold renamed; apply neqs_iff; reflexivity|]. split. { intros c Hc. exists c. split; [exact (find_by _ con_key _ c Ok Hc _ eq_refl)|reflexivity]. }
  split. { intros c Hc. apply (found_in _ con_key). apply in_map. exact Hc. }
  split. { intros c Hc. rewrite (find_by _ (fun c => id_name (c_name c)) _ c O1 Hc _ eq_refl : find_column _ _ = _). apply column_refl. }
  split. { intros c Hc. apply (found_in _ (fun c => id_name (c_name c))). apply (in_map (fun c => id_name (c_name c))). exact Hc. }
  split; [|reflexivity]. intro D. split.
  - intros o Ho _ x F. pose proof (find_by _ o_name _ o (O3 D) Ho _ eq_refl) as G. unfold find_option in F. congruence.
  - intros o Ho _. apply (found_in _ o_name). apply in_map. exact Ho.
Qed.

(** * Statements and schemas *)

Section Schemas.
Variables (d : dialect) (srt : list constraint -> list constraint) (sdiff : string -> string -> string).
Hypothesis Hsrt : srt_ok srt.
Definition stmt_agrees (s x : stmt) : Prop :=
  match s, x with
  | CreateTable b, CreateTable a => (d = Sp -> options_diff d (ct_options b) = options_diff d (ct_options a))
      /\ (create_table_string d b = create_table_string d a \/ all_named (ct_constraints b) && all_named (ct_constraints a) = true /\ table_agrees d b a)
  | CreateIndex b, CreateIndex a => create_index_diff d b = create_index_diff d a
  | _, _ => True
  end.
Lemma table_iff : forall nv b a, diff_create_table d srt sdiff nv b a = DNoDiff <-> stmt_agrees (CreateTable b) (CreateTable a).
Proof.
  intros nv b a. cbn [stmt_agrees]. unfold diff_create_table.
  assert (match d with Sp => neqs (options_diff d (ct_options b)) (options_diff d (ct_options a)) | _ => false end = false <-> (d = Sp -> options_diff d (ct_options b) = options_diff d (ct_options a))) as S.
  { destruct d; try (split; [intros _ E; discriminate|reflexivity]). rewrite neqs_iff. tauto. }
  rewrite <- S. destruct (match d with Sp => _ | _ => false end); [split; [discriminate|intros [H _]; discriminate]|].
  destruct (eqs _ _) eqn:E.
  - apply eqs_eq in E. tauto.
  - assert (create_table_string d b <> create_table_string d a) as E'. { intro F. rewrite F in E. unfold eqs in E. rewrite String.eqb_refl in E. discriminate. }
    rewrite <- (tables_iff d srt sdiff Hsrt nv). destruct (_ && _); [|split; [discriminate|intros [_ [H|[H _]]]; [contradiction|discriminate]]].
    destruct (diff_tables d srt sdiff nv b a) as [[|x l]| | |]; [split; [intros _; split; [reflexivity|right; split; reflexivity]|reflexivity]|..]; (split; [discriminate|intros [_ [H|[_ H]]]; [contradiction|discriminate]]).
Qed.
Lemma find_title : forall s l x, find_stmt s l = Some x -> In x l /\ title s = title x.
Proof.
  intros s l x H. unfold find_stmt in H. apply find_some in H. destruct H as [H E]. apply andb_true_iff in E. destruct E as [E1 E2]. apply eqs_eq in E2. split; [exact H|].
  unfold title. rewrite E2. destruct s, x; try discriminate E1; reflexivity.
Qed.
Lemma title_find : forall s l x, NoDup (map title l) -> In x l -> title s = title x -> find_stmt s l = Some x.
Proof.
  intros s l x U Hx T. unfold find_stmt. induction l as [|y l IH]; [destruct Hx|]. cbn [map] in U. inversion U as [|? ? U1 U2]; subst. cbn [find].
  destruct (same_type s y && eqs (stmt_name s) (stmt_name y)) eqn:E.
  - destruct Hx as [Hx|Hx]; [congruence|]. exfalso. apply U1. apply andb_true_iff in E. destruct E as [E1 E2]. apply eqs_eq in E2.
    assert (title s = title y) as E. { unfold title. rewrite E2. destruct s, y; try discriminate E1; reflexivity. } rewrite <- E, T. apply in_map. exact Hx.
  - destruct Hx as [Hx|Hx]; [|apply IH; assumption]. subst y. exfalso. unfold title in T. injection T as T1 T2. rewrite T2 in E. unfold eqs in E. rewrite String.eqb_refl, andb_true_r in E.
    destruct s, x; cbn in T1; try discriminate T1; discriminate E.
Qed.
Lemma same_title_name : forall s x, title s = title x -> stmt_name s = stmt_name x.
Proof. intros s x H. unfold title in H. injection H as _ H. exact H. Qed.
Definition schema_agrees (b a : ddl) : Prop :=
  (forall s, In s b -> exists x, find_stmt s a = Some x /\ stmt_agrees s x) /\ (forall s, In s a -> find_stmt s b <> None).
Lemma stmt_iff : forall s l x, find_stmt s l = Some x -> (diff_stmt d srt sdiff s l = Ok [] <-> stmt_agrees s x).
Proof.
  intros s l x F. unfold diff_stmt. destruct (find_title _ _ _ F) as [_ T]. destruct s as [b|b|s1 s2 s3|s1 s2 s3|s1 s2 s3], x as [a|a|x1 x2 x3|x1 x2 x3|x1 x2 x3]; try discriminate T; try (cbn [stmt_agrees]; tauto); rewrite F.
  - rewrite <- (table_iff false). destruct (diff_create_table d srt sdiff false b a) as [l'| | |] eqn:E; split; intro H; try reflexivity; try discriminate. injection H as H. subst l'. exfalso.
    revert E. unfold diff_create_table. destruct (match d with Sp => _ | _ => false end); [discriminate|]. destruct (eqs _ _); [discriminate|]. destruct (_ && _); [|discriminate].
    destruct (diff_tables d srt sdiff false b a) as [[|y r]| | |]; discriminate.
  - cbn [stmt_agrees]. destruct (neqs _ _) eqn:E; [|apply neqs_iff in E; tauto]. split; [discriminate|]. intro H. rewrite H in E. unfold neqs, eqs in E. rewrite String.eqb_refl in E. discriminate.
Qed.
Lemma schema_iff : forall b a, diff d srt sdiff (Some b) (Some a) = DNoDiff <-> ddl_string d b = ddl_string d a \/ schema_agrees b a.
Proof.
  intros b a. split.
  - intro H. apply diff_ddl_nodiff in H. destruct H as [H|[H1 [H2 H3]]]; [left; exact H|right]. split.
    + intros s Hs. destruct (only_left_nil _ _ H1 s Hs) as [x F]. exists x. split; [exact F|]. apply (stmt_iff s a x F). exact (diff_stmts_nil _ _ _ _ _ H3 s Hs).
    + intros s Hs F. destruct (only_left_nil _ _ H2 s Hs) as [x F']. congruence.
  - cbn [diff]. unfold diff_ddl. intros [H|[H1 H2]]; [rewrite H; unfold eqs; rewrite String.eqb_refl; reflexivity|]. destruct (eqs _ _); [reflexivity|].
    assert (only_left_stmts b a = []) as ->. { apply filter_nil_iff. intros s Hs. destruct (H1 s Hs) as [x [F _]]. rewrite F. reflexivity. }
    assert (only_left_stmts a b = []) as ->. { apply filter_nil_iff. intros s Hs. apply is_none. exact (H2 s Hs). }
    assert (diff_stmts d srt sdiff b a = Ok []) as ->; [|reflexivity].
    clear H2. induction b as [|s b IH]; [reflexivity|]. cbn [diff_stmts]. destruct (H1 s (or_introl eq_refl)) as [x [F E]]. rewrite (proj2 (stmt_iff s a x F) E). cbn [bind].
    rewrite IH by (intros y Hy; apply H1; right; exact Hy). reflexivity.
Qed.
End Schemas.

(** Whether there is a difference depends neither on the sort of the library nor on the
    comments written. *)
Theorem C84_verdict_is_determined : forall d srt srt' sdiff sdiff' b a, srt_ok srt -> srt_ok srt' ->
  diff d srt sdiff (Some b) (Some a) = DNoDiff <-> diff d srt' sdiff' (Some b) (Some a) = DNoDiff.
Proof. intros d srt srt' sdiff sdiff' b a H H'. rewrite !schema_iff by assumption. reflexivity. Qed.
Print Assumptions C84_verdict_is_determined.

(** Whether there is a difference does not depend on which schema is called the old one. *)
Theorem C84_symmetric_partial : forall d srt sdiff b a, srt_ok srt -> once d a -> none_hidden d b -> options_in d b a ->
  diff d srt sdiff (Some b) (Some a) = DNoDiff -> diff d srt sdiff (Some a) (Some b) = DNoDiff.
Proof.
  intros d srt sdiff b a Hs [O1 O2] Hid Op H. rewrite schema_iff in * by exact Hs. destruct H as [H|[H1 H2]]; [left; symmetry; exact H|right]. split.
  - intros s Ss. destruct (find_stmt s b) as [x|] eqn:F; [|exfalso; exact (H2 s Ss F)]. exists x. split; [reflexivity|]. destruct (find_title _ _ _ F) as [Fx T].
    destruct (H1 x Fx) as [y [G E]]. rewrite (title_find x a s O1 Ss (eq_sym T)) in G. injection G as <-.
    destruct s as [ta|ia| | |], x as [tb|ib| | |]; try discriminate T; try exact I; cbn [stmt_agrees] in *; [|congruence]. destruct E as [E1 E2]. split; [intro D; symmetry; exact (E1 D)|].
    destruct E2 as [E2|[E2 E3]]; [left; congruence|right]. split; [rewrite andb_comm; exact E2|]. apply table_sym; [exact (O2 ta Ss)|intros c Hc; exact (Hid tb c Fx Hc)| |exact E3].
    intros D o Ho Au. refine (Op D tb ta Fx Ss _ o Ho Au). symmetry. exact (same_title_name _ _ T).
  - intros s Ss F. destruct (H1 s Ss) as [x [G _]]. congruence.
Qed.
Print Assumptions C84_symmetric_partial.

(** ** Transitivity *)

Lemma find_same_title : forall s x l, title s = title x -> find_stmt s l = find_stmt x l.
Proof.
  intros s x l T. unfold find_stmt. pose proof (same_title_name _ _ T) as N. unfold title in T. injection T as T _.
  rewrite N. replace (same_type s) with (same_type x); [reflexivity|]. destruct s, x; try discriminate T; reflexivity.
Qed.
Definition pure_stmt (d : dialect) (s x : stmt) : Prop :=
  match s, x with
  | CreateTable b, CreateTable a => (d = Sp -> options_diff d (ct_options b) = options_diff d (ct_options a)) /\ table_agrees d b a
  | CreateIndex b, CreateIndex a => create_index_diff d b = create_index_diff d a
  | _, _ => True
  end.
Definition pure_schema (d : dialect) (b a : ddl) : Prop :=
  (forall s, In s b -> exists x, find_stmt s a = Some x /\ pure_stmt d s x) /\ (forall s, In s a -> find_stmt s b <> None).
Lemma printable_named : forall d l t, printable d l = true -> In (CreateTable t) l -> all_named (ct_constraints t) = true.
Proof.
  intros d l t P H. unfold printable in P. rewrite forallb_forall in P. specialize (P _ H). cbn [stmt_ok] in P. unfold create_table_ok, constraints_ok in P. rewrite !andb_true_iff in P.
  destruct P as [[[_ [[C _] _]] _] _]. unfold all_named. rewrite forallb_forall in *. intros c Hc. specialize (C c Hc). unfold named.
  destruct c as [n c1|n c1 c2 c3 c4|n c1|n c1 c2 c3 c4|n e]; cbn [con_name]; destruct n; try reflexivity; exfalso; revert C; cbn [constraint_ok oname_ok andb]; destruct d; try discriminate; destruct e; discriminate.
Qed.
Lemma comment_title : forall s, title (without_comment s) = title s.
Proof. intros [t|x|? ? ?|? ? ?|? ? ?]; reflexivity. Qed.
Lemma comment_agrees : forall d s x, without_comment s = without_comment x -> (forall t, s = CreateTable t -> once_table d t) -> pure_stmt d s x.
Proof.
  intros d s x E O. destruct s as [b|b|s1 s2 s3|s1 s2 s3|s1 s2 s3], x as [a|a|x1 x2 x3|x1 x2 x3|x1 x2 x3]; try discriminate E; try exact I; cbn [without_comment] in E; cbn [pure_stmt].
  - injection E as E1 E2 E3 E4 E5 E6. split; [intros _; rewrite E5; reflexivity|]. apply table_refl; try assumption. exact (O b eq_refl).
  - injection E as E1 E2 E3 E4 E5 E6 E7 E8. unfold create_index_diff. rewrite ?E1, ?E2, ?E3, ?E4, ?E5, ?E6, ?E7, ?E8. reflexivity.
Qed.
Lemma pure_of : forall d srt sdiff b a, srt_ok srt -> printable d b = true -> printable d a = true -> once d b -> diff d srt sdiff (Some b) (Some a) = DNoDiff -> pure_schema d b a.
Proof.
  intros d srt sdiff b a Hs Pb Pa [O1 O2] H. apply schema_iff in H; [|exact Hs]. destruct H as [H|[H1 H2]].
  - apply C08_printing_loses_nothing_partial in H; try assumption.
    assert (map title b = map title a) as M. { rewrite <- (map_ext _ _ comment_title b), <- (map_ext _ _ comment_title a), <- !(map_map without_comment title), H. reflexivity. }
    assert (forall l l' s, map without_comment l = map without_comment l' -> In s l -> exists x, In x l' /\ without_comment s = without_comment x) as K.
    { intros l l' s E Ss. apply (in_map without_comment) in Ss. rewrite E in Ss. apply in_map_iff in Ss. destruct Ss as [x [X1 X2]]. exists x. split; [exact X2|symmetry; exact X1]. }
    assert (forall s x, without_comment s = without_comment x -> title s = title x) as KT. { intros s x E. rewrite <- (comment_title s), E. apply comment_title. }
    split.
    + intros s Ss. destruct (K b a s H Ss) as [x [X1 X2]]. exists x. split; [apply title_find; [rewrite <- M; exact O1|exact X1|exact (KT _ _ X2)]|].
      apply comment_agrees; [exact X2|]. intros t E. subst s. exact (O2 t Ss).
    + intros s Ss. destruct (K a b s (eq_sym H) Ss) as [x [X1 X2]]. rewrite (title_find s b x O1 X1 (KT _ _ X2)). discriminate.
  - split; [|exact H2]. intros s Ss. destruct (H1 s Ss) as [x [F E]]. exists x. split; [exact F|]. destruct (find_title _ _ _ F) as [Fx T].
    destruct s as [tb|ib|s1 s2 s3|s1 s2 s3|s1 s2 s3], x as [ta|ia|x1 x2 x3|x1 x2 x3|x1 x2 x3]; try discriminate T; try exact I; cbn [stmt_agrees] in E; cbn [pure_stmt]; [|exact E].
    destruct E as [E1 [E2|[_ E2]]]; [|split; assumption]. apply (comment_agrees d (CreateTable tb) (CreateTable ta)); [|intros t X; injection X as <-; exact (O2 tb Ss)].
    assert (ddl_string d [CreateTable tb] = ddl_string d [CreateTable ta]) as E3 by (unfold ddl_string; cbn [map stmt_string concat_str]; rewrite E2; reflexivity).
    unfold printable in *. rewrite forallb_forall in Pb, Pa.
    apply C08_printing_loses_nothing_partial in E3; [injection E3 as ? ? ? ? ? ?; cbn [without_comment]; congruence| |]; unfold printable; cbn [forallb]; [rewrite (Pb _ Ss)|rewrite (Pa _ Fx)]; reflexivity.
Qed.
Lemma pure_agrees : forall d b a, printable d b = true -> printable d a = true -> pure_schema d b a -> schema_agrees d b a.
Proof.
  intros d b a Pb Pa [H1 H2]. split; [|exact H2]. intros s Ss. destruct (H1 s Ss) as [x [F E]]. exists x. split; [exact F|]. destruct (find_title _ _ _ F) as [Fx T].
  destruct s as [tb|ib|s1 s2 s3|s1 s2 s3|s1 s2 s3], x as [ta|ia|x1 x2 x3|x1 x2 x3|x1 x2 x3]; try discriminate T; try exact I; cbn [pure_stmt] in E; cbn [stmt_agrees]; [|exact E].
  destruct E as [E1 E2]. split; [exact E1|]. right. split; [|exact E2]. rewrite (printable_named _ _ _ Pb Ss), (printable_named _ _ _ Pa Fx). reflexivity.
Qed.

(** Two schemas that do not differ from a third do not differ. *)
Theorem C84_transitive_partial : forall d srt sdiff b a c, srt_ok srt -> printable d b = true -> printable d a = true -> printable d c = true -> once d b -> once d a -> none_hidden d a ->
  diff d srt sdiff (Some b) (Some a) = DNoDiff -> diff d srt sdiff (Some a) (Some c) = DNoDiff -> diff d srt sdiff (Some b) (Some c) = DNoDiff.
Proof.
  intros d srt sdiff b a c Hs Pb Pa Pc Ob Oa Hid H G. apply pure_of in H; try assumption. apply pure_of in G; try assumption. apply schema_iff; [exact Hs|]. right. apply pure_agrees; try assumption.
  destruct H as [H1 H2], G as [G1 G2]. split.
  - intros s Ss. destruct (H1 s Ss) as [x [F E]]. destruct (find_title _ _ _ F) as [Fx T]. destruct (G1 x Fx) as [z [F' E']]. exists z. split; [rewrite (find_same_title s x c T); exact F'|].
    destruct (find_title _ _ _ F') as [Fz T'].
    destruct s as [tb|ib|s1 s2 s3|s1 s2 s3|s1 s2 s3], x as [ta|ia|x1 x2 x3|x1 x2 x3|x1 x2 x3], z as [tc|ic|z1 z2 z3|z1 z2 z3|z1 z2 z3]; try discriminate T; try discriminate T'; try exact I; cbn [pure_stmt] in *; [|congruence].
    destruct E as [E1 E2], E' as [E1' E2']. split; [intro D; rewrite (E1 D); exact (E1' D)|]. apply (table_trans d tb ta tc); try assumption. intros y Hy. exact (Hid ta y Fx Hy).
  - intros s Ss. specialize (G2 s Ss). destruct (find_stmt s a) as [x|] eqn:F; [|congruence]. destruct (find_title _ _ _ F) as [Fx T]. rewrite (find_same_title s x b T). exact (H2 x Fx).
Qed.
Print Assumptions C84_transitive_partial.

(** * Examples *)

Ltac by_cases := repeat constructor; cbn; intuition discriminate.
Lemma example_once : forall d l, forallb (fun t => nodupb (map (fun c => id_name (c_name c)) (ct_columns t)) && nodupb (map con_label (ct_constraints t)) && nodupb (map o_name (ct_options t))
    && forallb tidy_col (ct_columns t) && forallb (fun c => match c_options c with Some l => negb (String.eqb (idents_diff l) "") | None => true end) (ct_columns t))
    (flat_map (fun s => match s with CreateTable t => [t] | _ => [] end) l) = true -> NoDup (map title l) -> once d l.
Proof.
  intros d l H N. split; [exact N|]. intros t Ht. rewrite forallb_forall in H. specialize (H t). rewrite in_flat_map in H. specialize (H (ex_intro _ (CreateTable t) (conj Ht (or_introl eq_refl)))).
  rewrite !andb_true_iff, !forallb_forall in H. destruct H as [[[[H1 H2] H3] H4] H5]. split; [apply nodupb_NoDup; exact H1|]. split; [apply nodupb_NoDup; exact H2|].
  split; [intros _; apply nodupb_NoDup; exact H3|]. split.
  - intros c Hc E. specialize (H4 c Hc). unfold tidy_col in H4. rewrite E in H4. discriminate.
  - intros _ c x Hc E F. specialize (H5 c Hc). rewrite E, F in H5. discriminate.
Qed.
(** Three ways to write a schema. *)
Example C84_example :
  let b := schema Pg "CREATE TABLE t (a INTEGER, b TEXT DEFAULT 'x' NOT NULL, CONSTRAINT k UNIQUE (a)); CREATE INDEX i ON t (a);" in
  let a := schema Pg "CREATE TABLE ""t"" (b TEXT NOT NULL DEFAULT 'x', a INTEGER, CONSTRAINT k UNIQUE (a)); CREATE INDEX i ON t (a);" in
  let c := schema Pg "CREATE INDEX i ON t (a); CREATE TABLE t (b TEXT NOT NULL DEFAULT 'x', ""a"" INTEGER, CONSTRAINT k UNIQUE (a));" in
  printable Pg b = true /\ printable Pg a = true /\ printable Pg c = true /\ once Pg b /\ once Pg a /\ none_hidden Pg a
  /\ diff_of Pg b a = DNoDiff /\ diff_of Pg a c = DNoDiff /\ diff_of Pg a b = DNoDiff /\ diff_of Pg b c = DNoDiff /\ b <> a /\ a <> c /\ b <> c.
Proof.
  cbv zeta. split; [vm_compute; reflexivity|]. split; [vm_compute; reflexivity|]. split; [vm_compute; reflexivity|].
  split. { apply example_once; [vm_compute; reflexivity|]. vm_compute. by_cases. }
  split. { apply example_once; [vm_compute; reflexivity|]. vm_compute. by_cases. }
  split. { intros t c _ _. reflexivity. }
  repeat (split; [vm_compute; try reflexivity; discriminate|]). vm_compute. discriminate.
Qed.

(** * What fails beyond *)

(** A pair of accepted texts with no difference one way and one the other way. *)
Definition asymmetric (d : dialect) (b a : string) : Prop := accepted d b = true /\ accepted d a = true /\ diff_of d (schema d b) (schema d a) = DNoDiff
  /\ exists s l, diff_of d (schema d a) (schema d b) = DOk (s :: l).
Ltac witness := split; [vm_compute; reflexivity|split; [vm_compute; reflexivity|split; [vm_compute; reflexivity|eexists _, _; vm_compute; reflexivity]]].
(** A column described twice: its second description is not seen on the right side. *)
Theorem C84_column_twice_refuted : forall d, exists b a, asymmetric d b a.
Proof.
  intros []; [exists "CREATE TABLE t (x INTEGER);"%string, "CREATE TABLE t (x INTEGER, x TEXT);"%string|exists "CREATE TABLE t (x INT8);"%string, "CREATE TABLE t (x INT8, x TEXT);"%string
    |exists "CREATE TABLE t (x INT);"%string, "CREATE TABLE t (x INT, x TEXT);"%string|exists "CREATE TABLE t (x INT64) PRIMARY KEY (x);"%string, "CREATE TABLE t (x INT64, x STRING(3)) PRIMARY KEY (x);"%string]; witness.
Qed.
Print Assumptions C84_column_twice_refuted.
(** A table described twice. *)
Theorem C84_table_twice_refuted : exists b a, asymmetric Pg b a.
Proof. exists "CREATE TABLE t (x INTEGER);"%string, "CREATE TABLE t (x INTEGER); CREATE TABLE t (y INTEGER);"%string. witness. Qed.
Print Assumptions C84_table_twice_refuted.
(** DEFAULT without a value. *)
Theorem C84_empty_default_refuted : exists b a, asymmetric Pg b a.
Proof. exists "CREATE TABLE t (x INTEGER, y INTEGER);"%string, "CREATE TABLE t (y INTEGER, x INTEGER DEFAULT);"%string. witness. Qed.
Print Assumptions C84_empty_default_refuted.
(** A hidden computed column is never dropped, but added. *)
Theorem C84_cockroach_hidden_column_refuted : exists b a, asymmetric Crdb b a.
Proof. exists "CREATE TABLE t (a INT8, h INT8 NOT VISIBLE NOT NULL AS (a + 1) VIRTUAL);"%string, "CREATE TABLE t (a INT8);"%string. witness. Qed.
Print Assumptions C84_cockroach_hidden_column_refuted.
(** An option of a table is never taken back, but set. *)
Theorem C84_mysql_option_refuted : exists b a, asymmetric My b a.
Proof. exists "CREATE TABLE t (a INT) ENGINE=InnoDB;"%string, "CREATE TABLE t (a INT);"%string. witness. Qed.
Print Assumptions C84_mysql_option_refuted.
(** A hidden column between an ordinary one and none. *)
Theorem C84_not_transitive_refuted : exists b a c, accepted Crdb b = true /\ accepted Crdb a = true /\ accepted Crdb c = true
  /\ diff_of Crdb (schema Crdb b) (schema Crdb a) = DNoDiff /\ diff_of Crdb (schema Crdb a) (schema Crdb c) = DNoDiff
  /\ exists s l, diff_of Crdb (schema Crdb b) (schema Crdb c) = DOk (s :: l).
Proof.
  exists "CREATE TABLE t (a INT8, h INT8 NOT NULL);"%string, "CREATE TABLE t (a INT8, h INT8 NOT VISIBLE NOT NULL AS (a + 1) VIRTUAL);"%string, "CREATE TABLE t (a INT8);"%string.
  do 5 (split; [vm_compute; reflexivity|]). eexists _, _. vm_compute. reflexivity.
Qed.
Print Assumptions C84_not_transitive_refuted.
