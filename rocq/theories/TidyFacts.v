(** Facts about the tests of Tidy.v. *)
From Coq Require Import Lia.
From Verif Require Import GoStr Token Ast Parser Diff Db DbFacts DiffTable Tidy.

Lemma present_some : forall A (o : option A), present o = true -> exists x, o = Some x.
Proof. intros A [x|] H; [eauto|discriminate H]. Qed.

Lemma memb_In : forall x l, memb x l = true <-> In x l.
Proof.
  intros x l. induction l as [|y r IH]; cbn [memb In]; [split; [discriminate|contradiction]|].
  rewrite orb_true_iff, IH, String.eqb_eq. split; intros [H|H]; auto.
Qed.
Lemma memb_false : forall x l, memb x l = false <-> ~ In x l.
Proof.
  intros x l. rewrite <- memb_In. destruct (memb x l); split; intro H; try reflexivity; try discriminate; try tauto.
Qed.
Lemma nodupb_NoDup : forall l, nodupb l = true -> NoDup l.
Proof.
  induction l as [|x r IH]; intro H; [constructor|]. cbn [nodupb] in H. apply andb_true_iff in H. destruct H as [H1 H2].
  constructor; [|apply IH; exact H2]. apply memb_false. destruct (memb x r); [discriminate H1|reflexivity].
Qed.
Lemma con_label_key : forall c, con_label c = con_key c.
Proof. intro c. unfold con_label, con_key, con_ident. destruct (con_name c); reflexivity. Qed.
Lemma disjoint_spec : forall a b, disjoint a b = true -> forall x, In x a -> In x b -> False.
Proof.
  intros a b H x Ha Hb. unfold disjoint in H. rewrite forallb_forall in H. specialize (H x Ha).
  apply memb_In in Hb. rewrite Hb in H. discriminate H.
Qed.

(** Names without dots can be told apart. *)
Lemma split_dot_inj : forall a b a' b', has_byte dot a = false -> has_byte dot a' = false ->
  (a ++ String dot b)%string = (a' ++ String dot b')%string -> a = a' /\ b = b'.
Proof.
  induction a as [|x a IH]; intros b a' b' Ha Ha' H; destruct a' as [|y a'].
  - cbn in H. inversion H. auto.
  - cbn in H. inversion H; subst. cbn in Ha'. discriminate Ha'.
  - cbn in H. inversion H; subst. cbn in Ha. discriminate Ha.
  - cbn in H. inversion H; subst. cbn [has_byte] in *. apply orb_false_iff in Ha. apply orb_false_iff in Ha'.
    destruct (IH b a' b') as [H1 H3]; try tauto. subst. auto.
Qed.
Lemma has_byte_app : forall c a b, has_byte c (a ++ b)%string = has_byte c a || has_byte c b.
Proof. intros c a b. induction a as [|x a IH]; [reflexivity|]. cbn. rewrite IH, orb_assoc. reflexivity. Qed.

Lemma qname_schema : forall n m, tidy_name n = true -> tidy_name m = true -> qname n = qname m ->
  option_map id_name (on_schema n) = option_map id_name (on_schema m) /\ id_name (on_name n) = id_name (on_name m).
Proof.
  intros [s n] [s' n'] H H' E. unfold tidy_name in *. cbn in *. apply andb_true_iff in H, H'. destruct H as [H1 H2], H' as [H1' H2'].
  apply negb_true_iff in H2, H2'.
  destruct s as [s|], s' as [s'|]; cbn in *; apply negb_true_iff in H1 || idtac; apply negb_true_iff in H1' || idtac.
  - destruct (split_dot_inj _ _ _ _ H1 H1' E) as [Ha Hb]. rewrite Ha, Hb. auto.
  - rewrite <- E in H2'. rewrite has_byte_app in H2'. cbn in H2'. rewrite orb_true_r in H2'. discriminate.
  - rewrite E in H2. rewrite has_byte_app in H2. cbn in H2. rewrite orb_true_r in H2. discriminate.
  - rewrite E. auto.
Qed.

Lemma tidy_in : forall d l s, tidy d l = true -> In s l -> tidy_stmt d s = true.
Proof. intros d l s H Hs. unfold tidy in H. rewrite forallb_forall in H. apply H. exact Hs. Qed.

Record tidy_spec (d : dialect) (t : create_table) : Prop := {
  ti_name : tidy_name (ct_name t) = true;
  ti_col : forall c, In c (ct_columns t) -> c_default c <> Some None;
  ti_con : forall c, In c (ct_constraints t) -> tidy_con d c = true;
  ti_nodup : NoDup (map con_key (ct_constraints t));
  ti_opt : forall o, In o (ct_options t) -> tidy_opt d o = true;
  ti_row : tidy_row d (ct_rowdel t) = true }.
Lemma tidy_table_spec : forall d t, tidy_table d t = true -> tidy_spec d t.
Proof.
  intros d t H. unfold tidy_table in H. do 5 (apply andb_true_iff in H; destruct H as [H ?]). rewrite forallb_forall in *.
  constructor; try assumption.
  - intros c Hc F. specialize (H4 c Hc). unfold tidy_col in H4. rewrite F in H4. discriminate.
  - apply nodupb_NoDup in H2. erewrite map_ext; [exact H2|]. intro c. symmetry. apply con_label_key.
Qed.

Lemma eq_strings_eq : forall a b, eq_strings a b = true -> a = b.
Proof.
  induction a as [|x a IH]; intros [|y b] H; try discriminate H; [reflexivity|]. cbn in H. apply andb_true_iff in H. destruct H as [H1 H2].
  apply String.eqb_eq in H1. subst. f_equal. apply IH. exact H2.
Qed.
