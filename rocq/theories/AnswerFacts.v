(** The statements of a difference are those of [asked] (Answer.v). *)
From Coq Require Import Lia Permutation.
From Verif Require Import GoStr Token Ast Parser Diff Db AppendFacts Answer.

Lemma eqs_iff : forall a b, eqs a b = true <-> a = b.
Proof. intros a b. unfold eqs. apply String.eqb_eq. Qed.
Lemma neqs_iff : forall a b, neqs a b = true <-> a <> b.
Proof. intros a b. unfold neqs, eqs. rewrite negb_true_iff. apply String.eqb_neq. Qed.
Lemma beq_iff : forall a b, negb (Bool.eqb a b) = true <-> a <> b.
Proof. intros a b. rewrite negb_true_iff. apply eqb_false_iff. Qed.
Lemma is_some_iff : forall A (o : option A), is_some o = true <-> o <> None.
Proof. intros A o. destruct o; cbn; split; congruence. Qed.
Lemma is_some_not : forall A (o : option A), negb (is_some o) = true <-> o = None.
Proof. intros A o. destruct o; cbn; split; congruence. Qed.

Lemma find_first : forall A (f : A -> bool) (P : A -> Prop) l x, (forall y, f y = true <-> P y) -> (find f l = Some x <-> first_with P l x).
Proof.
  intros A f P l x H. unfold first_with. split.
  - induction l as [|y l IH]; cbn [find]; [discriminate|]. destruct (f y) eqn:E.
    + intro F. injection F as ->. exists [], l. split; [reflexivity|]. split; [apply H; exact E|intros z []].
    + intro F. destruct (IH F) as [l1 [l2 [L [X N]]]]. subst l. exists (y :: l1)%list, l2. split; [reflexivity|]. split; [exact X|].
      intros z [Z|Z]; [|apply N; exact Z]. subst z. intro G. apply H in G. congruence.
  - intros [l1 [l2 [L [X N]]]]. subst l. induction l1 as [|y l1 IH]; cbn [app find].
    + apply H in X. rewrite X. reflexivity.
    + destruct (f y) eqn:E; [exfalso; apply (N y (or_introl eq_refl)); apply H; exact E|]. apply IH. intros z Z. apply N. right. exact Z.
Qed.
Lemma find_none : forall A (f : A -> bool) (P : A -> Prop) l, (forall y, f y = true <-> P y) -> (find f l = None <-> none_with P l).
Proof.
  intros A f P l H. unfold none_with. split.
  - intros F y I G. apply H in G. pose proof (List.find_none _ _ F y I). congruence.
  - intro N. induction l as [|y l IH]; cbn [find]; [reflexivity|]. destruct (f y) eqn:E; [exfalso; apply (N y (or_introl eq_refl)); apply H; exact E|].
    apply IH. intros z Z. apply N. right. exact Z.
Qed.
Lemma first_in : forall A (P : A -> Prop) l x, first_with P l x -> In x l.
Proof. intros A P l x [l1 [l2 [L _]]]. subst l. apply in_or_app. right. left. reflexivity. Qed.

Lemma find_column_first : forall n l x, find_column n l = Some x <-> first_with (column_called n) l x.
Proof. intros n l x. apply find_first. intro y. apply eqs_iff. Qed.
Lemma find_column_none : forall n l, find_column n l = None <-> none_with (column_called n) l.
Proof. intros n l. apply find_none. intro y. apply eqs_iff. Qed.
Lemma label_key : forall c, con_key c = label c.
Proof. intro c. unfold con_key, con_ident, label. destruct (con_name c); reflexivity. Qed.
Lemma find_constraint_first : forall n l x, find_constraint n l = Some x <-> first_with (called n) l x.
Proof. intros n l x. apply find_first. intro y. unfold called. rewrite label_key. apply eqs_iff. Qed.
Lemma find_constraint_none : forall n l, find_constraint n l = None <-> none_with (called n) l.
Proof. intros n l. apply find_none. intro y. unfold called. rewrite label_key. apply eqs_iff. Qed.
Lemma find_option_first : forall n l x, find_option n l = Some x <-> first_with (option_called n) l x.
Proof. intros n l x. apply find_first. intro y. apply eqs_iff. Qed.
Lemma find_option_none : forall n l, find_option n l = None <-> none_with (option_called n) l.
Proof. intros n l. apply find_none. intro y. apply eqs_iff. Qed.
Lemma find_stmt_table : forall t l s, find_stmt (CreateTable t) l = Some s <-> first_with (for_table (qname (ct_name t))) l s.
Proof.
  intros t l s. apply find_first. intro y. unfold for_table. destruct y; cbn [same_type andb stmt_name]; try (split; [discriminate|intros []]).
  change objname_diff with qname. rewrite eqs_iff. split; intro; congruence.
Qed.
Lemma find_stmt_table_none : forall t l, find_stmt (CreateTable t) l = None <-> none_with (for_table (qname (ct_name t))) l.
Proof.
  intros t l. apply find_none. intro y. unfold for_table. destruct y; cbn [same_type andb stmt_name]; try (split; [discriminate|intros []]).
  change objname_diff with qname. rewrite eqs_iff. split; intro; congruence.
Qed.
Lemma find_stmt_index : forall t l s, find_stmt (CreateIndex t) l = Some s <-> first_with (for_index (qname (cx_name t))) l s.
Proof.
  intros t l s. apply find_first. intro y. unfold for_index. destruct y; cbn [same_type andb stmt_name]; try (split; [discriminate|intros []]).
  change objname_diff with qname. rewrite eqs_iff. split; intro; congruence.
Qed.
Lemma find_stmt_index_none : forall t l, find_stmt (CreateIndex t) l = None <-> none_with (for_index (qname (cx_name t))) l.
Proof.
  intros t l. apply find_none. intro y. unfold for_index. destruct y; cbn [same_type andb stmt_name]; try (split; [discriminate|intros []]).
  change objname_diff with qname. rewrite eqs_iff. split; intro; congruence.
Qed.

(** ** Statements that are on one side only *)
Lemma only_left_in : forall s l r, In s (only_left_stmts l r) <-> In s l /\ find_stmt s r = None.
Proof. intros s l r. unfold only_left_stmts. rewrite filter_In. destruct (find_stmt s r); intuition discriminate. Qed.
Lemma map_opt_iff : forall A B (f : A -> option B) l r y, map_opt f l = Some r -> (In y r <-> exists x, In x l /\ f x = Some y).
Proof.
  intros A B f. induction l as [|x l IH]; intros r y H; cbn [map_opt] in H.
  - injection H as <-. split; [intros []|intros [x [[] _]]].
  - destruct (f x) as [z|] eqn:E; [|discriminate H]. destruct (map_opt f l) as [zs|] eqn:Es; [|discriminate H]. injection H as <-.
    cbn [In]. rewrite (IH zs y eq_refl). split.
    + intros [<-|[u [U V]]]; [exists x; auto|exists u; auto].
    + intros [u [[<-|U] V]]; [left; congruence|right; exists u; auto].
Qed.
Lemma in_if : forall A (c : bool) (y x : A), In x (if c then [y] else []) <-> c = true /\ x = y.
Proof. intros A c y x. destruct c; cbn; intuition (try discriminate; auto). Qed.

Section Facts.
Variable d : dialect.
Variable srt : list constraint -> list constraint.
Variable cmt : string -> string -> string.
Hypothesis Hsrt : srt_ok srt.

(** ** Columns *)
Lemma default_in : forall e c n b a s, In s (diff_default e c n b a) <->
  (c_default b <> None /\ c_default a = None /\ s = AlterTable c n (DropDefault (c_name a)))
  \/ (c_default a <> None /\ default_diff e (c_default b) <> default_diff e (c_default a) /\ s = AlterTable c n (SetDefault (c_name a) (c_default a))).
Proof.
  intros e c n b a s. unfold diff_default. destruct (is_some (c_default b) && negb (is_some (c_default a))) eqn:E.
  - apply andb_true_iff in E. rewrite is_some_iff, is_some_not in E. destruct E as [E1 E2]. cbn [In]. intuition congruence.
  - rewrite in_if, andb_true_iff, is_some_iff, neqs_iff. rewrite andb_false_iff in E.
    assert (N : ~ (c_default b <> None /\ c_default a = None)).
    { intros [N1 N2]. apply (proj2 (is_some_iff _ _)) in N1. apply (proj2 (is_some_not _ _)) in N2. destruct E; congruence. }
    intuition congruence.
Qed.
Lemma common_in : forall n b a s, In s (diff_common_column d cmt n b a) <->
  exists t, s = AlterTable (cmt (column_string d b) (column_string d a)) n t /\ column_change d b a t.
Proof.
  intros n b a s. unfold diff_common_column. cbv zeta. set (k := cmt (column_string d b) (column_string d a)).
  assert (PG : forall e, d = e -> e = Pg \/ e = Crdb ->
    (In s ((if neqs (datatype_diff (c_type b)) (datatype_diff (c_type a)) then [AlterTable k n (SetDataType (c_name a) (c_type a))] else [])
           ++ diff_default d k n b a ++ diff_notnull k n b a)
     <-> exists t, s = AlterTable k n t /\ column_change d b a t)).
  { intros e De Pe. subst e. rewrite !in_app_iff, in_if, neqs_iff, default_in. unfold diff_notnull. split.
    - intros [[H ->]|[[[H1 [H2 ->]]|[H1 [H2 ->]]]|H]].
      + eexists. split; [reflexivity|]. apply cc_type; assumption.
      + eexists. split; [reflexivity|]. apply cc_drop_default; assumption.
      + eexists. split; [reflexivity|]. apply cc_set_default; try assumption. destruct Pe; congruence.
      + destruct (c_notnull b) eqn:Eb, (c_notnull a) eqn:Ea; cbn [andb negb In] in H; try contradiction; destruct H as [<-|[]].
        * eexists. split; [reflexivity|]. apply cc_drop_not_null; assumption.
        * eexists. split; [reflexivity|]. apply cc_set_not_null; assumption.
    - intros [t [-> C]]. destruct C.
      + left. split; [assumption|reflexivity].
      + destruct Pe; congruence.
      + right. left. left. auto.
      + right. left. right. auto.
      + right. right. rewrite H0, H1. cbn [andb negb In]. left. reflexivity.
      + right. right. rewrite H0, H1. cbn [andb negb In]. left. reflexivity.
      + destruct Pe; congruence.
      + destruct Pe; congruence.
      + destruct Pe; congruence. }
  destruct d eqn:De; [apply (PG Pg); auto|apply (PG Crdb); auto| |]; clear PG.
  - assert (X : negb (is_some (c_default b) && negb (is_some (c_default a))) = true <-> (c_default b = None \/ c_default a <> None))
      by (destruct (c_default b), (c_default a); cbn; intuition congruence).
    assert (Y : is_some (c_default b) && negb (is_some (c_default a)) = true <-> (c_default b <> None /\ c_default a = None))
      by (destruct (c_default b), (c_default a); cbn; intuition congruence).
    rewrite in_app_iff, !in_if, Y, !orb_true_iff, andb_true_iff, X, !neqs_iff, !beq_iff. clear X Y.
    split.
    + intros [[H ->]|[[H1 H2] ->]]; (eexists; split; [reflexivity|]).
      * apply cc_modify; [reflexivity|]. tauto.
      * apply cc_drop_default; assumption.
    + intros [t [-> C]]. destruct C; try congruence; try (match goal with H : _ \/ _ |- _ => destruct H; discriminate end).
      * right. auto.
      * left. split; [tauto|reflexivity].
  - rewrite !in_app_iff, in_if, orb_true_iff, neqs_iff, beq_iff, default_in. unfold diff_options. split.
    + intros [[H ->]|[[[H1 [H2 ->]]|[H1 [H2 ->]]]|H]].
      * eexists. split; [reflexivity|]. apply cc_spanner_type; [reflexivity|assumption].
      * eexists. split; [reflexivity|]. apply cc_drop_default; assumption.
      * eexists. split; [reflexivity|]. apply cc_set_default; try assumption. discriminate.
      * destruct (is_some (c_options b) && negb (is_some (c_options a))) eqn:E.
        -- apply andb_true_iff in E. rewrite is_some_iff, is_some_not in E. destruct E. destruct H as [<-|[]]. eexists. split; [reflexivity|]. apply cc_drop_options; auto.
        -- apply in_if in H. destruct H as [H ->]. apply andb_true_iff in H. rewrite is_some_iff, neqs_iff in H. destruct H. eexists. split; [reflexivity|]. apply cc_set_options; auto.
    + intros [t [-> C]]. destruct C; try congruence; try (match goal with H : _ = Pg \/ _ |- _ => destruct H; discriminate end).
      * left. auto.
      * right. left. left. auto.
      * right. left. right. auto.
      * right. right. assert (E : is_some (c_options b) && negb (is_some (c_options a)) = true) by (apply andb_true_iff; rewrite is_some_iff, is_some_not; auto).
        rewrite E. left. reflexivity.
      * right. right. destruct (is_some (c_options b) && negb (is_some (c_options a))) eqn:E.
        -- apply andb_true_iff in E. rewrite is_some_not in E. destruct E. congruence.
        -- apply in_if. split; [|reflexivity]. apply andb_true_iff. rewrite is_some_iff, neqs_iff. auto.
Qed.
Lemma hidden_iff : forall b, keep_hidden d b = true <-> shadow d b.
Proof.
  intro b. unfold keep_hidden, shadow. destruct d; try (split; [discriminate|intros [H _]; discriminate H]).
  rewrite andb_true_iff. split.
  - intros [H1 H2]. split; [reflexivity|]. split; [exact H1|]. destruct (c_as b) as [a|]; [|discriminate H2]. exists a. split; [reflexivity|]. apply eqs_iff in H2. exact H2.
  - intros [_ [H1 [a [H2 H3]]]]. split; [exact H1|]. rewrite H2. apply eqs_iff. exact H3.
Qed.
Lemma only_left_columns_in : forall y l r, In y (only_left_columns l r) <-> In y l /\ none_with (column_called (id_name (c_name y))) r.
Proof.
  intros y l r. unfold only_left_columns. rewrite filter_In. rewrite <- find_column_none. destruct (find_column _ r); intuition discriminate.
Qed.

(** ** Constraints *)
Lemma is_index_iff : forall c, is_index d c = true <-> own_index d c.
Proof. intro c. unfold is_index, own_index. destruct d, c; intuition discriminate. Qed.
Lemma index_objname_own : forall t c, index_objname d (on_schema t) (con_ident c) = own_name d t c.
Proof. intros t c. unfold index_objname, own_name, con_ident. destruct d, (con_name c); reflexivity. Qed.
Lemma index_of_constraint_own : forall k t c, index_of_constraint d k t c = own_create d k t c.
Proof. intros k t c. unfold index_of_constraint, own_create. rewrite index_objname_own. reflexivity. Qed.
Lemma added_iff : forall l r added x, forallb named l = true -> NoDup (map label l) -> only_left_constraints d srt l r = Ok added ->
  (In x added <-> In x l /\ none_with (called (label x)) r).
Proof.
  intros l r added x N U H. unfold only_left_constraints in H.
  set (L := filter (fun c => match find_constraint (con_key c) r with None => true | Some _ => false end) l) in H.
  assert (NL : forallb named ([] ++ L)%list = true).
  { rewrite forallb_forall in *. intros c Hc. apply filter_In in Hc. apply N. apply Hc. }
  assert (UL : NoDup (map con_key ([] ++ L)%list)).
  { cbn [app]. unfold L. rewrite (map_ext con_key label label_key). clear - U. induction l as [|x l IH]; [constructor|]. cbn [map] in U. inversion U; subst. cbn [filter].
    destruct (find_constraint _ _); [apply IH; assumption|]. cbn [map]. constructor; [|apply IH; assumption]. intro F. apply H1. apply in_map_iff in F.
    destruct F as [z [F1 F2]]. apply filter_In in F2. rewrite <- F1. apply in_map. apply F2. }
  destruct (append_all d srt Hsrt L [] NL UL) as [cs [E P]]. rewrite E in H. injection H as <-.
  split; intro I.
  - apply (Permutation_in _ P) in I. cbn [app] in I. apply filter_In in I. destruct I as [I1 I2]. split; [exact I1|]. rewrite <- label_key. apply find_constraint_none. destruct (find_constraint _ _); [discriminate I2|reflexivity].
  - apply (Permutation_in _ (Permutation_sym P)). cbn [app]. destruct I as [I1 I2]. apply filter_In. split; [exact I1|]. rewrite <- label_key in I2. apply find_constraint_none in I2. rewrite I2. reflexivity.
Qed.
Lemma drop_gone_in : forall bn n acs b s, In s (drop_gone_constraint d cmt bn n acs b) <->
  none_with (called (label b)) acs /\
  ((own_index d b /\ s = DropIndex (cmt (constraint_diff d b) "") false (own_name d bn b))
   \/ (~ own_index d b /\ s = AlterTable (cmt (constraint_string d b) "") n (DropConstraint (con_name b)))).
Proof.
  intros bn n acs b s. unfold drop_gone_constraint. rewrite <- find_constraint_none, <- label_key. rewrite <- is_index_iff. rewrite index_objname_own.
  destruct (find_constraint (con_key b) acs); [split; [intros []|intros [H _]; discriminate H]|].
  destruct (is_index d b); cbn [In]; intuition congruence.
Qed.
Lemma change_in : forall bn n acs b s, In s (change_constraint d cmt false bn n acs b) <->
  exists a, first_with (called (label b)) acs a /\ constraint_diff d b <> constraint_diff d a /\
  ((own_index d a /\ (s = DropIndex (match d with My => ""%string | _ => cmt (constraint_string d b) (constraint_string d a) end) false (own_name d bn b)
                      \/ s = own_create d "" n a))
   \/ (~ own_index d a /\ (s = AlterTable (cmt (constraint_string d b) "") n (DropConstraint (con_name b))
                      \/ s = AlterTable (cmt "" (constraint_string d a)) n (AddConstraint a false)))).
Proof.
  intros bn n acs b s. unfold change_constraint. rewrite index_objname_own. destruct (find_constraint (con_key b) acs) as [a|] eqn:F.
  - rewrite index_of_constraint_own. assert (FF := F). apply find_constraint_first in FF. rewrite label_key in FF.
    assert (Q : forall a', first_with (called (label b)) acs a' -> a' = a) by (intros a' Fa; apply find_constraint_first in Fa; rewrite <- label_key in Fa; congruence).
    split.
    + destruct (neqs (constraint_diff d b) (constraint_diff d a)) eqn:E; [|intros []]. apply neqs_iff in E. intro I. exists a. split; [exact FF|]. split; [exact E|].
      destruct (is_index d a) eqn:X.
      * left. split; [apply is_index_iff; exact X|]. cbn [In] in I. intuition congruence.
      * right. split; [rewrite <- is_index_iff; congruence|]. cbn [In] in I. intuition congruence.
    + intros [a' [Fa [E K]]]. rewrite (Q a' Fa) in *. clear a' Fa. apply neqs_iff in E. rewrite E. rewrite <- is_index_iff in K. destruct (is_index d a); cbn [In]; intuition congruence.
  - split; [intros []|]. intros [a [Fa _]]. apply find_constraint_first in Fa. rewrite <- label_key in Fa. congruence.
Qed.
Lemma add_is : forall n a, add_constraint d cmt false n a =
  if is_index d a then own_create d (cmt "" (constraint_diff d a)) n a else AlterTable (cmt "" (constraint_string d a)) n (AddConstraint a false).
Proof. intros n a. unfold add_constraint. rewrite index_of_constraint_own. reflexivity. Qed.

(** ** Options *)
Lemma auto_iff : forall o, is_auto_increment o = false <-> to_upper (o_name o) <> "AUTO_INCREMENT"%string.
Proof. intro o. unfold is_auto_increment, eqs. apply String.eqb_neq. Qed.
Lemma options_in : forall n bos aos s, In s (diff_table_options d cmt n bos aos) <->
  d = My /\ ((exists x y, In x bos /\ to_upper (o_name x) <> "AUTO_INCREMENT"%string /\ first_with (option_called (o_name x)) aos y /\ option_diff d x <> option_diff d y
              /\ s = AlterTable (cmt (option_string d x) (option_string d y)) n (TableOption (o_name y) (o_value y)))
          \/ (exists y, In y aos /\ to_upper (o_name y) <> "AUTO_INCREMENT"%string /\ none_with (option_called (o_name y)) bos
              /\ s = AlterTable (cmt "" (option_string d y)) n (TableOption (o_name y) (o_value y)))).
Proof.
  intros n bos aos s. unfold diff_table_options. destruct d; try (split; [intros []|intros [H _]; discriminate H]).
  rewrite in_app_iff, in_flat_map, in_map_iff. split.
  - intros [[x [I J]]|[y [<- I]]]; (split; [reflexivity|]).
    + left. destruct (is_auto_increment x) eqn:A; [contradiction|]. apply auto_iff in A. destruct (find_option (o_name x) aos) as [y|] eqn:F; [|contradiction].
      apply in_if in J. destruct J as [J ->]. apply neqs_iff in J. apply find_option_first in F. exists x, y. auto.
    + right. apply filter_In in I. destruct I as [I A]. apply negb_true_iff, auto_iff in A. unfold only_left_options in I. apply filter_In in I. destruct I as [I F].
      exists y. split; [exact I|]. split; [exact A|]. split; [|reflexivity]. apply find_option_none. destruct (find_option (o_name y) bos); [discriminate F|reflexivity].
  - intros [_ [[x [y [I [A [F [D ->]]]]]]|[y [I [A [F ->]]]]]].
    + left. exists x. split; [exact I|]. apply auto_iff in A. rewrite A. apply find_option_first in F. rewrite F. apply neqs_iff in D. rewrite D. left. reflexivity.
    + right. exists y. split; [reflexivity|]. apply filter_In. apply auto_iff in A. rewrite A. split; [|reflexivity]. unfold only_left_options. apply filter_In. split; [exact I|].
      apply find_option_none in F. rewrite F. reflexivity.
Qed.
Lemma row_deletion_in : forall n b a s, In s (diff_row_deletion d cmt n b a) <->
  d = Sp /\ ((exists y, b = None /\ a = Some y /\ option_diff d y <> ""%string /\ s = AlterTable (cmt "" (option_string d y)) n (AddRowDeletion y))
          \/ (exists x, b = Some x /\ a = None /\ option_diff d x <> ""%string /\ s = AlterTable (cmt (option_string d x) "") n DropRowDeletion)
          \/ (exists x y, b = Some x /\ a = Some y /\ option_diff d x <> option_diff d y /\ s = AlterTable (cmt (option_string d x) (option_string d y)) n (ReplaceRowDeletion y))).
Proof.
  intros n b a s. unfold diff_row_deletion. destruct d; try (split; [intros []|intros [H _]; discriminate H]).
  destruct b as [x|], a as [y|]; cbn [ooption_diff].
  - rewrite in_if, neqs_iff. split.
    + intros [H ->]. split; [reflexivity|]. right. right. exists x, y. auto.
    + intros [_ [[z [H _]]|[[z [_ [H _]]]|[u [v [H1 [H2 [H3 ->]]]]]]]]; try discriminate. injection H1 as <-. injection H2 as <-. auto.
  - rewrite in_if, neqs_iff. split.
    + intros [H ->]. split; [reflexivity|]. right. left. exists x. auto.
    + intros [_ [[z [H _]]|[[z [H1 [_ [H3 ->]]]]|[u [v [H1 [H2 [H3 ->]]]]]]]]; try discriminate. injection H1 as <-. auto.
  - rewrite in_if, neqs_iff. split.
    + intros [H ->]. split; [reflexivity|]. left. exists y. auto.
    + intros [_ [[z [_ [H1 [H2 ->]]]]|[[z [H1 [_ [H3 ->]]]]|[u [v [H1 [H2 [H3 ->]]]]]]]]; try discriminate. injection H1 as <-. auto.
  - cbn. split; [intros []|]. intros [_ [[z [_ [H1 _]]]|[[z [H1 _]]|[u [v [H1 _]]]]]]; discriminate.
Qed.

(** ** A table *)
Lemma renamed_same : forall b a, qname b = qname a -> renamed b a = false.
Proof. intros b a E. unfold renamed, neqs. change objname_diff with qname. rewrite E. apply negb_false_iff. apply eqs_iff. reflexivity. Qed.
Lemma tables_in : forall b a l s, qname (ct_name b) = qname (ct_name a) ->
  forallb named (ct_constraints a) = true -> NoDup (map label (ct_constraints a)) ->
  diff_tables d srt cmt false b a = Ok l -> (In s l <-> table_change d cmt b a s).
Proof.
  intros b a l s Q N U H. unfold diff_tables in H. cbv zeta in H. unfold final_name, diff_rename in H. cbv zeta in H. rewrite (renamed_same _ _ Q) in H. cbn [andb] in H.
  destruct (only_left_constraints d srt (ct_constraints a) (ct_constraints b)) as [added| | |] eqn:Ea; cbn [bind] in H; try discriminate H. injection H as <-.
  cbn [app]. unfold diff_columns. rewrite !in_app_iff, !in_flat_map, !in_map_iff, options_in, row_deletion_in. split.
  - intros [H|[[H|H]|[H|[H|[H|H]]]]].
    + destruct H as [x [I H]]. apply drop_gone_in in H. destruct H as [G [[O ->]|[O ->]]]; [apply tc_drop_index; assumption|apply tc_drop_constraint; assumption].
    + destruct H as [x [I H]]. unfold diff_before_column in H. destruct (find_column (id_name (c_name x)) (ct_columns a)) as [y|] eqn:F.
      * apply find_column_first in F. apply common_in in H. destruct H as [t [-> C]]. apply tc_column; assumption.
      * apply find_column_none in F. destruct (keep_hidden d x) eqn:K; [contradiction|]. destruct H as [<-|[]]. apply tc_drop_column; try assumption. rewrite <- hidden_iff. congruence.
    + destruct H as [y [<- I]]. apply only_left_columns_in in I. destruct I. apply tc_add_column; assumption.
    + destruct H as [x [I H]]. apply change_in in H. destruct H as [y [F [D [[O [->| ->]]|[O [->| ->]]]]]].
      * apply tc_change_index_drop; assumption.
      * apply (tc_change_index_create d cmt b a x y); assumption.
      * apply (tc_change_constraint_drop d cmt b a x y); assumption.
      * apply (tc_change_constraint_add d cmt b a x y); assumption.
    + destruct H as [y [<- I]]. apply (added_iff _ _ _ _ N U Ea) in I. destruct I as [I G]. rewrite add_is. destruct (is_index d y) eqn:X.
      * apply tc_create_index; try assumption. apply is_index_iff. exact X.
      * apply tc_add_constraint; try assumption. rewrite <- is_index_iff. congruence.
    + destruct H as [Dd [[x [y [I [A [F [D ->]]]]]]|[y [I [A [F ->]]]]]]; [apply tc_option; assumption|apply tc_new_option; assumption].
    + destruct H as [Dd [[y [B [A [K ->]]]]|[[x [B [A [K ->]]]]|[x [y [B [A [K ->]]]]]]]]; [apply tc_add_policy|apply tc_drop_policy|apply tc_replace_policy]; assumption.
  - intro C. destruct C as [x y t I F C|x I F K|y I F|x I F O|x I F O|x y I F D O|x y I F D O|x y I F D O|x y I F D O|y I F O|y I F O|x y Dd I A F D|y Dd I A F|y Dd B A K|x Dd B A K|x y Dd B A K].
    + right. left. left. exists x. split; [exact I|]. unfold diff_before_column. apply find_column_first in F. rewrite F. apply common_in. exists t. auto.
    + right. left. left. exists x. split; [exact I|]. unfold diff_before_column. apply find_column_none in F. rewrite F. destruct (keep_hidden d x) eqn:E; [apply hidden_iff in E; contradiction|]. left. reflexivity.
    + right. left. right. exists y. split; [reflexivity|]. apply only_left_columns_in. auto.
    + left. exists x. split; [exact I|]. apply drop_gone_in. split; [exact F|]. right. auto.
    + left. exists x. split; [exact I|]. apply drop_gone_in. split; [exact F|]. left. auto.
    + right. right. left. exists x. split; [exact I|]. apply change_in. exists y. split; [exact F|]. split; [exact D|]. right. auto.
    + right. right. left. exists x. split; [exact I|]. apply change_in. exists y. split; [exact F|]. split; [exact D|]. right. auto.
    + right. right. left. exists x. split; [exact I|]. apply change_in. exists y. split; [exact F|]. split; [exact D|]. left. auto.
    + right. right. left. exists x. split; [exact I|]. apply change_in. exists y. split; [exact F|]. split; [exact D|]. left. auto.
    + right. right. right. left. exists y. rewrite add_is. split; [|apply (added_iff _ _ _ _ N U Ea); auto]. destruct (is_index d y) eqn:X; [apply is_index_iff in X; contradiction|reflexivity].
    + right. right. right. left. exists y. rewrite add_is. split; [|apply (added_iff _ _ _ _ N U Ea); auto]. apply is_index_iff in O. rewrite O. reflexivity.
    + right. right. right. right. left. split; [exact Dd|]. left. exists x, y. auto.
    + right. right. right. right. left. split; [exact Dd|]. right. exists y. auto.
    + right. right. right. right. right. split; [exact Dd|]. left. exists y. auto.
    + right. right. right. right. right. split; [exact Dd|]. right. left. exists x. auto.
    + right. right. right. right. right. split; [exact Dd|]. right. right. exists x, y. auto.
Qed.
Lemma recreate_iff : forall b a, match d with Sp => neqs (options_diff d (ct_options b)) (options_diff d (ct_options a)) | _ => false end = true <-> recreate d b a.
Proof.
  intros b a. unfold recreate. destruct d; try (split; [discriminate|intros [H _]; discriminate H]). rewrite neqs_iff. tauto.
Qed.
(** The table as it is compared: what there is to say *)
Definition pair_says (b a : create_table) (s : stmt) : Prop :=
  (recreate d b a /\ (s = DropTable (cmt (options_string d (ct_options b)) (options_string d (ct_options a))) false (ct_name b) \/ s = CreateTable a))
  \/ (~ recreate d b a /\ create_table_string d b <> create_table_string d a /\ table_change d cmt b a s).
Lemma pair_in : forall b a, qname (ct_name b) = qname (ct_name a) -> NoDup (map label (ct_constraints a)) ->
  match diff_create_table d srt cmt false b a with
  | DOk l => forall s, In s l <-> pair_says b a s
  | DNoDiff => forall s, ~ pair_says b a s
  | _ => True
  end.
Proof.
  intros b a Q U. unfold diff_create_table, pair_says. pose proof (recreate_iff b a) as R.
  destruct (match d with Sp => neqs (options_diff d (ct_options b)) (options_diff d (ct_options a)) | _ => false end) eqn:E.
  - assert (R1 : recreate d b a) by (apply R; reflexivity). intro s. cbn [In]. intuition congruence.
  - assert (R1 : ~ recreate d b a) by (intro X; apply R in X; discriminate X).
    destruct (eqs (create_table_string d b) (create_table_string d a)) eqn:T.
    + apply eqs_iff in T. intros s [[X _]|[_ [X _]]]; contradiction.
    + assert (T1 : create_table_string d b <> create_table_string d a) by (intro X; apply eqs_iff in X; congruence).
      destruct (all_named (ct_constraints b) && all_named (ct_constraints a)) eqn:N; [|exact I].
      apply andb_true_iff in N. destruct N as [_ N]. destruct (diff_tables d srt cmt false b a) as [l| | |] eqn:L; try exact I.
      assert (M : forall s, In s l <-> (recreate d b a /\ (s = DropTable (cmt (options_string d (ct_options b)) (options_string d (ct_options a))) false (ct_name b) \/ s = CreateTable a))
        \/ (~ recreate d b a /\ create_table_string d b <> create_table_string d a /\ table_change d cmt b a s)).
      { intro s. rewrite (tables_in b a l s Q N U L). tauto. }
      destruct l as [|x l]; [|exact M]. intros s X. apply (M s) in X. destruct X.
Qed.

(** ** A schema *)
Definition distinct_names (l : ddl) : Prop := forall t, In (CreateTable t) l -> NoDup (map label (ct_constraints t)).
Definition both_say (after : ddl) (b s : stmt) : Prop :=
  match b with
  | CreateTable b => exists a, first_with (for_table (qname (ct_name b))) after (CreateTable a) /\ pair_says b a s
  | CreateIndex i => exists j, first_with (for_index (qname (cx_name i))) after (CreateIndex j) /\ create_index_diff d i <> create_index_diff d j
      /\ (s = DropIndex (cmt (create_index_diff d i) (create_index_diff d j)) false (cx_name i) \/ s = CreateIndex j)
  | _ => False
  end.
Lemma first_prop : forall A (P : A -> Prop) l x, first_with P l x -> P x.
Proof. intros A P l x [l1 [l2 [_ [H _]]]]. exact H. Qed.
Lemma stmt_in : forall after b l s, distinct_names after -> diff_stmt d srt cmt b after = Ok l -> (In s l <-> both_say after b s).
Proof.
  intros after b l s U H. unfold diff_stmt in H. destruct b as [b|i| | |]; cbn [both_say]; try (injection H as <-; tauto).
  - destruct (find_stmt (CreateTable b) after) as [y|] eqn:F.
    + assert (F1 := F). apply find_stmt_table in F1. assert (K := first_prop _ _ _ _ F1). assert (J := first_in _ _ _ _ F1).
      destruct y as [a| | | |]; cbn [for_table] in K; try contradiction. symmetry in K. pose proof (pair_in b a K (U a J)) as P.
      assert (W : (exists a', first_with (for_table (qname (ct_name b))) after (CreateTable a') /\ pair_says b a' s) <-> pair_says b a s).
      { split; [|intro X; exists a; auto]. intros [a' [Fa X]]. apply find_stmt_table in Fa. assert (a' = a) by congruence. subst a'. exact X. }
      rewrite W. destruct (diff_create_table d srt cmt false b a); try discriminate H; injection H as <-; [apply P|]. split; [intros []|apply P].
    + injection H as <-. split; [intros []|]. intros [a [Fa _]]. apply find_stmt_table in Fa. congruence.
  - destruct (find_stmt (CreateIndex i) after) as [y|] eqn:F.
    + assert (F1 := F). apply find_stmt_index in F1. assert (K := first_prop _ _ _ _ F1).
      destruct y as [|j| | |]; cbn [for_index] in K; try contradiction.
      assert (W : forall j', first_with (for_index (qname (cx_name i))) after (CreateIndex j') -> j' = j) by (intros j' Fa; apply find_stmt_index in Fa; congruence).
      destruct (neqs (create_index_diff d i) (create_index_diff d j)) eqn:E; injection H as <-.
      * apply neqs_iff in E. split; [intro I; exists j; split; [exact F1|]; split; [exact E|]; cbn [In] in I; intuition congruence|].
        intros [j' [Fj [_ X]]]. rewrite (W j' Fj) in X. cbn [In]. intuition congruence.
      * split; [intros []|]. intros [j' [Fj [X _]]]. rewrite (W j' Fj) in X. apply neqs_iff in X. congruence.
    + injection H as <-. split; [intros []|]. intros [a [Fa _]]. apply find_stmt_index in Fa. congruence.
Qed.
Lemma stmts_in : forall after before l s, distinct_names after -> diff_stmts d srt cmt before after = Ok l ->
  (In s l <-> exists b, In b before /\ both_say after b s).
Proof.
  intros after. induction before as [|b before IH]; intros l s U H; cbn [diff_stmts] in H.
  - injection H as <-. split; [intros []|intros [b [[] _]]].
  - destruct (diff_stmt d srt cmt b after) as [l1| | |] eqn:E1; cbn [bind] in H; try discriminate H.
    destruct (diff_stmts d srt cmt before after) as [l2| | |] eqn:E2; cbn [bind] in H; try discriminate H. injection H as <-.
    rewrite in_app_iff, (stmt_in after b l1 s U E1), (IH l2 s U eq_refl). split.
    + intros [X|[c [I X]]]; [exists b|exists c]; cbn [In]; auto.
    + intros [c [[<-|I] X]]; [auto|right; exists c; auto].
Qed.
Lemma asked_iff : forall before after s, asked d cmt before after s <->
  (exists b, In b before /\ find_stmt b after = None /\ drop_stmt b = Some s)
  \/ (exists a, In a after /\ find_stmt a before = None /\ create_stmt a = Some s)
  \/ (exists b, In b before /\ both_say after b s).
Proof.
  intros before after s. split.
  - intro A. destruct A as [t I N|i I N|t I N|i I N|i j I F D|i j I F D|b a I F R|b a I F R|b a s I F R T C].
    + left. exists (CreateTable t). split; [exact I|]. split; [apply find_stmt_table_none; exact N|reflexivity].
    + left. exists (CreateIndex i). split; [exact I|]. split; [apply find_stmt_index_none; exact N|reflexivity].
    + right. left. exists (CreateTable t). split; [exact I|]. split; [apply find_stmt_table_none; exact N|reflexivity].
    + right. left. exists (CreateIndex i). split; [exact I|]. split; [apply find_stmt_index_none; exact N|reflexivity].
    + right. right. exists (CreateIndex i). split; [exact I|]. exists j. auto.
    + right. right. exists (CreateIndex i). split; [exact I|]. exists j. auto.
    + right. right. exists (CreateTable b). split; [exact I|]. exists a. split; [exact F|]. left. auto.
    + right. right. exists (CreateTable b). split; [exact I|]. exists a. split; [exact F|]. left. auto.
    + right. right. exists (CreateTable b). split; [exact I|]. exists a. split; [exact F|]. right. auto.
  - intros [[b [I [F E]]]|[[a [I [F E]]]|[b [I S]]]].
    + destruct b; cbn [drop_stmt] in E; try discriminate E; injection E as <-; [apply as_drop_table|apply as_drop_index]; try assumption;
        [apply find_stmt_table_none|apply find_stmt_index_none]; assumption.
    + destruct a; cbn [create_stmt] in E; try discriminate E; injection E as <-; [apply as_create_table|apply as_create_index]; try assumption;
        [apply find_stmt_table_none|apply find_stmt_index_none]; assumption.
    + destruct b as [b|i| | |]; cbn [both_say] in S; try contradiction.
      * destruct S as [a [F [[R [->| ->]]|[R [T C]]]]].
        -- apply as_recreate_drop; assumption.
        -- apply (as_recreate_create d cmt before after b a); assumption.
        -- apply (as_change_table d cmt before after b a); assumption.
      * destruct S as [j [F [D [->| ->]]]].
        -- apply as_change_index_drop; assumption.
        -- apply (as_change_index_create d cmt before after i j); assumption.
Qed.
Lemma diff_asked : forall before after, distinct_names after ->
  match diff d srt cmt (Some before) (Some after) with
  | DOk l => forall s, In s l <-> asked d cmt before after s
  | DNoDiff => ddl_string d before = ddl_string d after \/ forall s, ~ asked d cmt before after s
  | _ => True
  end.
Proof.
  intros before after U. cbn [diff]. unfold diff_ddl. destruct (eqs (ddl_string d before) (ddl_string d after)) eqn:T; [left; apply eqs_iff; exact T|].
  destruct (map_opt drop_stmt (only_left_stmts before after)) as [drops|] eqn:ED; [|exact I].
  destruct (map_opt create_stmt (only_left_stmts after before)) as [creates|] eqn:EC; [|exact I].
  destruct (diff_stmts d srt cmt before after) as [changes| | |] eqn:EX; try exact I.
  assert (M : forall s, In s (drops ++ creates ++ changes)%list <-> asked d cmt before after s).
  { intro s. rewrite !in_app_iff, (map_opt_iff _ _ _ _ _ s ED), (map_opt_iff _ _ _ _ _ s EC), (stmts_in after before changes s U EX), asked_iff. split.
    - intros [[x [H E]]|[[x [H E]]|H]].
      + apply only_left_in in H. destruct H. left. exists x. auto.
      + apply only_left_in in H. destruct H. right. left. exists x. auto.
      + right. right. exact H.
    - intros [[x [H [F E]]]|[[x [H [F E]]]|H]].
      + left. exists x. split; [apply only_left_in; auto|exact E].
      + right. left. exists x. split; [apply only_left_in; auto|exact E].
      + right. right. exact H. }
  destruct (drops ++ creates ++ changes)%list as [|x l]; [|exact M]. right. intros s X. apply (M s) in X. destruct X.
Qed.
End Facts.
