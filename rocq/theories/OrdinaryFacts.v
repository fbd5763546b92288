(** Ordinary schemas and safe changes (Ordinary.v) meet the conditions of Reconcile.v. *)
From Coq Require Import Lia Permutation.
From Verif Require Import GoStr Token Ast Parser Diff Db DbFacts AppendFacts DiffTable DiffPair DiffSound Tidy TidyFacts DiffSame DiffSpec IndexText
  Reconcile ReconcileFacts Printable Ordinary OrdinaryText Needed3 PropsRound.
Local Open Scope list_scope.

Lemma told_intro : forall A (dec : forall x y : A, {x = y} + {x <> y}) tb ta vb va, (tb = ta -> vb = va) -> told dec tb ta vb va = true.
Proof.
  intros A dec tb ta vb va H. unfold told. destruct (String.eqb tb ta) eqn:E; [|reflexivity]. apply String.eqb_eq in E. unfold same. rewrite (H E).
  destruct (dec va va); [reflexivity|contradiction].
Qed.
Lemma same_intro : forall A (dec : forall x y : A, {x = y} + {x <> y}) x y, x = y -> same dec x y = true.
Proof. intros A dec x y E. unfold same. destruct (dec x y); [reflexivity|contradiction]. Qed.

Lemma con_value_cval : forall d t c, con_value d t c = Some (cval d t c).
Proof. intros d t c. destruct c; reflexivity. Qed.

Lemma options_told : forall d b a, forallb (tidy_opt d) b = true -> forallb (tidy_opt d) a = true ->
  ordinary_options d b = true -> ordinary_options d a = true -> safe_options d b a = true -> options_ok d b a = true.
Proof.
  intros d b a Tb Ta Hb Ha S. destruct d; try reflexivity; cbn [ordinary_options safe_options options_ok] in *.
  - apply andb_true_iff in Hb. apply andb_true_iff in Ha. destruct Hb as [N H], Ha as [N' H']. rewrite N, N', S. cbn [andb].
    apply all_pairs_intro. intros x y Hx Hy E. apply told_intro. intro Z. rewrite forallb_forall in H, H'. exact (my_option_inj x y (H x Hx) (H' y Hy) E Z).
  - destruct (String.eqb _ _) eqn:E; [|reflexivity]. apply String.eqb_eq in E. pose proof (sp_options_inj b a Hb Ha E) as Z. apply forallb_forall. intros n _.
    apply same_intro. unfold option_value. clear - Z. revert a Z. induction b as [|o b IH]; intros [|o' a] Z; try discriminate Z; [reflexivity|].
    cbn [map] in Z. inversion Z as [[Z1 Z2 Z3]]. cbn [find]. rewrite Z1. destruct (String.eqb (o_name o') n); [cbn [option_map]; rewrite Z2; reflexivity|]. exact (IH a Z3).
Qed.
Lemma same_options_text : forall b a, forallb (tidy_opt Sp) b = true -> forallb (tidy_opt Sp) a = true -> same_options b a = true -> options_diff Sp b = options_diff Sp a.
Proof.
  intros b a Tb Ta S. apply same_eq in S. unfold options_diff. f_equal. revert a Ta S. induction b as [|o b IH]; intros [|o' a] Ta S; try discriminate S; [reflexivity|].
  cbn [map forallb] in *. apply andb_true_iff in Tb. apply andb_true_iff in Ta. inversion S as [[S1 S2 S3]]. f_equal; [|apply IH; tauto].
  destruct Tb as [Tb _], Ta as [Ta _]. unfold tidy_opt in Tb, Ta. apply andb_true_iff in Tb. apply andb_true_iff in Ta. apply option_diff_eq; tauto.
Qed.

Section TwoTables.
Variables (d : dialect) (tb ta : create_table).
Hypothesis Tb : tidy_table d tb = true.
Hypothesis Ta : tidy_table d ta = true.
Hypothesis Ob : ordinary_table d tb = true.
Hypothesis Oa : ordinary_table d ta = true.
Hypothesis Nm : table_name tb = table_name ta.

Lemma table_told : safe_table d tb ta = true -> pair_ok_b d tb ta = true.
Proof.
  intro S. unfold safe_table in S. unfold pair_ok_b. rewrite !andb_true_iff in *. destruct S as [[[[[S1 S2] S3] S4] S5] S6].
  unfold ordinary_table in Ob, Oa. rewrite !andb_true_iff in Ob, Oa. destruct Ob as [[[B1 B2] B3] B4], Oa as [[[A1 A2] A3] A4].
  unfold tidy_table in Tb, Ta. rewrite !andb_true_iff in Tb, Ta. destruct Tb as [[[[[TB1 TB2] TB3] TB4] TB5] TB6], Ta as [[[[[TA1 TA2] TA3] TA4] TA5] TA6].
  rewrite forallb_forall in B1, A1, B2, A2, TB3, TA3.
  split; [split; [split; [split; [split; [split|]|]|]|]|]; try assumption.
  - apply all_pairs_intro. intros x y Hx Hy E. apply column_told; [exact (B1 x Hx)|exact (A1 y Hy)|]. exact (all_pairs_in _ _ _ _ _ S1 x y Hx Hy E).
  - apply all_pairs_intro. intros x y Hx Hy E. pose proof (all_pairs_in _ _ _ _ _ S3 x y Hx Hy E) as K. unfold safe_constraint in K. apply andb_true_iff in K. destruct K as [K1 K2].
    unfold con_pair_ok. rewrite K1. cbn [andb]. apply andb_true_iff. split.
    + apply told_intro. apply (constraint_inj d); try assumption; [exact (TB3 x Hx)|exact (TA3 y Hy)|apply Bool.eqb_prop; exact K1|exact (B2 x Hx)|exact (A2 y Hy)].
    + destruct d eqn:Ed; try reflexivity. rewrite orb_true_iff in *. destruct K2 as [K2|K2]; [left; exact K2|right]. apply same_eq in K2. rewrite !con_value_cval in K2.
      apply String.eqb_eq. apply (constraint_diff_eq My (ct_name tb)); [exact (TB3 x Hx)|exact (TA3 y Hy)|rewrite <- !con_label_key; exact E|].
      inversion K2 as [K3]. rewrite K3. unfold table_name in Nm. clear - Nm. destruct y; try reflexivity. cbn [cval]. unfold sem_intable. rewrite Nm. reflexivity.
  - apply options_told; assumption.
  - destruct d; try reflexivity. apply told_intro. apply row_inj; assumption.
Qed.
End TwoTables.

Lemma same_index_noticed : forall d b a, sem_index d b = sem_index d a -> noticed_index d b a = true.
Proof.
  intros d b a E. unfold noticed_index. destruct d; try reflexivity; (destruct (_ && _); [|reflexivity]); apply same_intro; exact (f_equal si_using E).
Qed.
Lemma index_told : forall d b a, ordinary_index b = true -> ordinary_index a = true -> qname (cx_name b) = qname (cx_name a) ->
  safe_index d b a = true -> index_pair_ok d b a = true.
Proof.
  intros d b a Ob Oa N S. unfold index_pair_ok. apply andb_true_iff. split.
  - apply told_intro. apply index_inj; try assumption. destruct d; cbn [safe_index] in S; try exact S. apply same_index_noticed. exact (same_eq _ _ _ _ S).
  - destruct d; try reflexivity. cbn [safe_index] in S. apply same_eq in S. apply String.eqb_eq. exact (create_index_diff_eq My b a N S).
Qed.

(** * Two schemas *)
Section TwoSchemas.
Variables (d : dialect) (B A : ddl).
Hypothesis OB : ordinary d B = true.
Hypothesis OA : ordinary d A = true.

Lemma ordinary_parts : forall l, ordinary d l = true -> tidy d l = true /\ printable d l = true
  /\ (forall t, In t (tables l) -> tidy_table d t = true /\ ordinary_table d t = true /\ stmt_ok d (CreateTable t) = true)
  /\ (forall i, In i (indexes l) -> ordinary_index i = true).
Proof.
  intros l O. unfold ordinary in O. rewrite !andb_true_iff in O. destruct O as [[T P] O]. split; [exact T|]. split; [exact P|].
  unfold printable in P. rewrite forallb_forall in O, P. split.
  - intros t Ht. apply in_tables in Ht. split; [exact (TidyFacts.tidy_in _ _ _ T Ht)|]. split; [exact (O _ Ht)|exact (P _ Ht)].
  - intros i Hi. apply in_indexes in Hi. exact (O _ Hi).
Qed.

Theorem safe_reconcilable : safe_change d B A = true -> reconcilable d B A = true.
Proof.
  intro S. unfold safe_change in S. unfold reconcilable. rewrite !andb_true_iff in *. destruct S as [[[[[[S1 S2] S3] S4] S5] S6] S7].
  destruct (ordinary_parts B OB) as [TB [_ [FB IB]]]. destruct (ordinary_parts A OA) as [TA [_ [FA IA]]].
  split; [split; [split; [split; [split; [split; [split; [split|]|]|]|]|]|]|]; try assumption.
  - apply all_pairs_intro. intros tb ta Hb Ha E. destruct (FB tb Hb) as [X1 [X2 _]]. destruct (FA ta Ha) as [Y1 [Y2 _]].
    apply table_told; try assumption. exact (all_pairs_in _ _ _ _ _ S3 tb ta Hb Ha E).
  - apply all_pairs_intro. intros b a Hb Ha E. apply index_told; [exact (IB b Hb)|exact (IA a Ha)|exact E|]. exact (all_pairs_in _ _ _ _ _ S4 b a Hb Ha E).
  - unfold safe_wipe in S6. unfold no_wipe. rewrite forallb_forall in *. intros i Hi. specialize (S6 i Hi). rewrite forallb_forall in *. intros tb Hb. specialize (S6 tb Hb).
    rewrite orb_true_iff in *. destruct S6 as [S6|S6]; [left; exact S6|right]. rewrite existsb_exists in *. destruct S6 as [ta [Ha S6]]. exists ta. split; [exact Ha|].
    apply andb_true_iff in S6. apply andb_true_iff. destruct S6 as [S6 S6']. split; [exact S6|]. destruct d; try reflexivity. apply String.eqb_eq.
    destruct (FB tb Hb) as [X1 _]. destruct (FA ta Ha) as [Y1 _]. unfold tidy_table in X1, Y1. rewrite !andb_true_iff in X1, Y1. apply same_options_text; tauto.
Qed.

Lemma created_without : forall s, stmt_ops d (without_comment s) = stmt_ops d s.
Proof. intros []; reflexivity. Qed.
Lemma objects_without : forall l, objects d (map without_comment l) = objects d l.
Proof.
  intro l. unfold objects. f_equal. induction l as [|s l IH]; [reflexivity|]. cbn [map flat_map]. rewrite created_without, IH. reflexivity.
Qed.
Lemma same_objects_self : forall x, same_objects x x = true.
Proof. intro x. unfold same_objects. apply forallb_forall. intros e _. apply same_intro. reflexivity. Qed.
Lemma printed_objects : forall l l', printable d l = true -> printable d l' = true -> ddl_string d l = ddl_string d l' -> same_objects (objects d l) (objects d l') = true.
Proof.
  intros l l' P P' E. pose proof (C08_printing_loses_nothing_partial d l l' P P' E) as K. rewrite <- (objects_without l), <- (objects_without l'), K. apply same_objects_self.
Qed.

Theorem ordinary_text : text_ok d B A = true.
Proof.
  destruct (ordinary_parts B OB) as [_ [PB [FB _]]]. destruct (ordinary_parts A OA) as [_ [PA [FA _]]]. unfold text_ok. apply andb_true_iff. split.
  - destruct (String.eqb _ _) eqn:E; [|reflexivity]. apply String.eqb_eq in E. exact (printed_objects B A PB PA E).
  - apply all_pairs_intro. intros tb ta Hb Ha _. destruct (String.eqb _ _) eqn:E; [|reflexivity]. apply String.eqb_eq in E.
    destruct (FB tb Hb) as [_ [_ X]]. destruct (FA ta Ha) as [_ [_ Y]]. apply printed_objects.
    + unfold printable. cbn [forallb]. rewrite X. reflexivity.
    + unfold printable. cbn [forallb]. rewrite Y. reflexivity.
    + unfold ddl_string. cbn [map concat_str stmt_string]. rewrite E. reflexivity.
Qed.

(** The other direction: the conditions of Reconcile.v imply that the change is safe. *)
Theorem reconcilable_safe : reconcilable d B A = true -> safe_change d B A = true.
Proof.
  intro R. unfold reconcilable in R. unfold safe_change. rewrite !andb_true_iff in *. destruct R as [[[[[[[[R1 R2] R3] R4] R5] R6] R7] R8] R9].
  destruct (ordinary_parts B OB) as [TB [_ [FB IB]]]. destruct (ordinary_parts A OA) as [TA [_ [FA IA]]].
  split; [split; [split; [split; [split; [split|]|]|]|]|]; try assumption.
  - apply all_pairs_intro. intros tb ta Hb Ha E. pose proof (all_pairs_in _ _ _ _ _ R5 tb ta Hb Ha E) as K. destruct (FB tb Hb) as [X1 [X2 _]]. destruct (FA ta Ha) as [Y1 [Y2 _]].
    unfold pair_ok_b in K. unfold safe_table. rewrite !andb_true_iff in *. destruct K as [[[[[[K1 K2] K3] K4] K5] K6] K7].
    split; [split; [split; [split; [split|]|]|]|]; try assumption.
    + apply all_pairs_intro. intros x y Hx Hy Ec. pose proof (all_pairs_in _ _ _ _ _ K1 x y Hx Hy Ec) as C. unfold col_ok in C. rewrite !andb_true_iff in C. destruct C as [_ C].
      destruct d; try reflexivity. exact C.
    + apply all_pairs_intro. intros x y Hx Hy Ec. pose proof (all_pairs_in _ _ _ _ _ K3 x y Hx Hy Ec) as C. unfold con_pair_ok in C. rewrite !andb_true_iff in C. destruct C as [[C1 C2] C3].
      unfold safe_constraint. rewrite C1. cbn [andb]. destruct d; try reflexivity. rewrite orb_true_iff in *. destruct C3 as [C3|C3]; [left; exact C3|right].
      apply String.eqb_eq in C3. apply same_intro. exact (told_eq _ _ _ _ _ _ C2 C3).
    + destruct d; try reflexivity. cbn [options_ok safe_options] in *. rewrite !andb_true_iff in K6. apply K6.
  - apply all_pairs_intro. intros b a Hb Ha E. pose proof (all_pairs_in _ _ _ _ _ R6 b a Hb Ha E) as K. unfold index_pair_ok in K. apply andb_true_iff in K. destruct K as [K1 K2].
    assert (G : forall x, x = d -> x <> Crdb -> noticed_index d b a = true).
    { intros x Ex Nx. unfold noticed_index. destruct (Bool.eqb _ _ && _ && _) eqn:G; [|destruct d; reflexivity].
      rewrite !andb_true_iff in G. destruct G as [[G1 G2] G3]. apply Bool.eqb_prop in G1. apply String.eqb_eq in G2. apply same_eq in G3.
      assert (T : create_index_diff d b = create_index_diff d a).
      { unfold create_index_diff. rewrite (objname_diff_qname (cx_name b)), (objname_diff_qname (cx_table b)), (objname_diff_qname (cx_name a)), (objname_diff_qname (cx_table a)), E, G1, G2, (cols_diff_eq d _ _ G3).
        subst x. destruct d; try reflexivity. contradiction. }
      pose proof (told_eq _ _ _ _ _ _ K1 T) as Z. subst x. pose proof (f_equal si_using Z) as U. unfold sem_index in U. cbn [si_using] in U.
      destruct d; try contradiction; apply same_intro; exact U. }
    unfold safe_index. destruct d; try (exact (G _ eq_refl ltac:(discriminate))); [reflexivity|].
    apply String.eqb_eq in K2. apply same_intro. exact (told_eq _ _ _ _ _ _ K1 K2).
  - unfold safe_wipe. unfold no_wipe in R8. rewrite forallb_forall in *. intros i Hi. specialize (R8 i Hi). rewrite forallb_forall in *. intros tb Hb. specialize (R8 tb Hb).
    rewrite orb_true_iff in *. destruct R8 as [R8|R8]; [left; exact R8|right]. rewrite existsb_exists in *. destruct R8 as [ta [Ha K]]. exists ta. split; [exact Ha|].
    apply andb_true_iff in K. apply andb_true_iff. destruct K as [K K']. split; [exact K|]. destruct d; try reflexivity. apply String.eqb_eq in K'.
    destruct (FB tb Hb) as [_ [X1 _]]. destruct (FA ta Ha) as [_ [Y1 _]]. unfold ordinary_table in X1, Y1. rewrite !andb_true_iff in X1, Y1.
    unfold same_options. apply same_intro. apply sp_options_inj; tauto.
Qed.

Theorem noticed_comparable : noticed d B A = true -> comparable d B A = true.
Proof.
  intro N. unfold noticed in N. apply andb_true_iff in N. destruct N as [N1 N2]. unfold comparable.
  destruct (ordinary_parts B OB) as [TB [_ [FB IB]]]. destruct (ordinary_parts A OA) as [TA [_ [FA IA]]]. rewrite TB, TA. cbn [andb]. apply andb_true_iff. split.
  - apply all_pairs_intro. intros tb ta Hb Ha E. pose proof (all_pairs_in _ _ _ _ _ N1 tb ta Hb Ha E) as K. destruct (FB tb Hb) as [X1 [X2 _]]. destruct (FA ta Ha) as [Y1 [Y2 _]].
    unfold noticed_table in K. rewrite !andb_true_iff in K. destruct K as [[K1 K2] K3].
    unfold ordinary_table in X2, Y2. rewrite !andb_true_iff in X2, Y2. destruct X2 as [[[B1 B2] B3] B4], Y2 as [[[A1 A2] A3] A4].
    unfold tidy_table in X1, Y1. rewrite !andb_true_iff in X1, Y1. destruct X1 as [[[[[TB1 TB2] TB3] TB4] TB5] TB6], Y1 as [[[[[TA1 TA2] TA3] TA4] TA5] TA6].
    rewrite forallb_forall in B1, A1, B2, A2, TB3, TA3.
    unfold table_cmp. rewrite K2, !andb_true_iff. split; [split; [split; [split|]|]|].
    + apply all_pairs_intro. intros x y Hx Hy Ec. pose proof (column_told d x y (B1 x Hx) (A1 y Hy) (all_pairs_in _ _ _ _ _ K1 x y Hx Hy Ec)) as C.
      unfold col_ok in C. unfold col_cmp. rewrite !andb_true_iff in *. destruct C as [[C1 C2] C3]. split; [split; assumption|]. destruct d; try exact C3.
      rewrite !andb_true_iff in C3. destruct C3 as [[C3 C4] C5]. rewrite C5, andb_true_r. destruct (c_charset x); [discriminate C3|]. destruct (c_charset y); [discriminate C4|]. reflexivity.
    + reflexivity.
    + apply all_pairs_intro. intros x y Hx Hy Ec. apply told_intro. intro Et. apply (constraint_inj d); try assumption; try (exact (TB3 x Hx)); try (exact (TA3 y Hy)); try (exact (B2 x Hx)); try (exact (A2 y Hy)).
      pose proof (TB3 x Hx) as Tx. pose proof (TA3 y Hy) as Ty. clear - Et Tx Ty. unfold tidy_con in *. apply andb_true_iff in Tx. apply andb_true_iff in Ty. destruct Tx as [Tx Tx'], Ty as [Ty Ty'].
      destruct x as [n cs|n cs ref rcs act|n cs|n un pre cs post|n e], y as [n' cs'|n' cs' ref' rcs' act'|n' cs'|n' un' pre' cs' post'|n' e']; try reflexivity; exfalso;
        cbn [con_name] in *; destruct n as [n|]; try discriminate Tx; destruct n' as [n'|]; try discriminate Ty; cbn [constraint_diff name_prefix] in Et; destruct d; try discriminate Tx'; try discriminate Ty';
        try (destruct un; discriminate Et); try (destruct un'; discriminate Et).
    + apply options_told; assumption.
    + destruct d; try reflexivity. apply told_intro. apply row_inj; assumption.
  - apply all_pairs_intro. intros b a Hb Ha E. apply told_intro. apply index_inj; [exact (IB b Hb)|exact (IA a Ha)|exact E|]. exact (all_pairs_in _ _ _ _ _ N2 b a Hb Ha E).
Qed.
End TwoSchemas.
