(** C16 for constraints and for indexes declared inside CREATE TABLE: one that is on
    both sides is only dropped to be added again, by the next statement. *)
From Coq Require Import Lia Permutation.
From Verif Require Import GoStr Token Ast Parser Diff Db DbFacts AppendFacts DiffTable DiffPair DiffSound
  Tidy TidyFacts DiffSame Reconcile ReconcileFacts Honest DiffSpec Justified Frame Shape PropsDiff.
Local Open Scope list_scope.

(** SPECIFICATION: the statement drops the constraint [k] of the table [t]; the index [n]. *)
Definition drops_label (t k : string) (s : stmt) : Prop :=
  match s with
  | AlterTable _ n (DropConstraint x) => qname n = t /\ match x with Some i => id_name i | None => ""%string end = k
  | _ => False
  end.
Definition drops_index (n : string) (s : stmt) : Prop := match s with DropIndex _ _ m => qname m = n | _ => False end.

Lemma label_of : forall b, match con_name b with Some i => id_name i | None => ""%string end = con_label b.
Proof. intro b. unfold con_label. reflexivity. Qed.
Lemma index_name_label : forall d s b b', qname (index_objname d s (con_ident b)) = qname (index_objname d s (con_ident b')) -> con_label b = con_label b'.
Proof.
  intros d s b b' E. rewrite !con_label_key. unfold con_key. unfold index_objname in E.
  destruct d; try exact E. revert E. unfold qname. cbn. destruct s; [|auto]. intro E. apply (append_inj_l "." _ _). apply (append_inj_l (id_name i)). exact E.
Qed.

Lemma constraint_segment : forall d srt sdiff tb ta lt b a, srt_ok srt -> tidy_table d tb = true -> tidy_table d ta = true ->
  qname (ct_name tb) = qname (ct_name ta) -> diff_tables d srt sdiff false tb ta = Ok lt ->
  In b (ct_constraints tb) -> In a (ct_constraints ta) -> con_label b = con_label a ->
  exists m1 m2, lt = m1 ++ change_constraint d sdiff false (ct_name tb) (ct_name ta) (ct_constraints ta) b ++ m2 /\
  forall s, In s (m1 ++ m2) -> ~ drops_label (table_name ta) (con_label b) s /\
                               ~ drops_index (qname (index_objname d (on_schema (ct_name tb)) (con_ident b))) s.
Proof.
  intros d srt sdiff tb ta lt b a Hsrt Tb Ta Hn H Hb Ha L. unfold diff_tables in H.
  destruct (only_left_constraints d srt (ct_constraints ta) (ct_constraints tb)) as [added| | |] eqn:Eadd; cbn [bind] in H; try discriminate H.
  assert (R : renamed (ct_name tb) (ct_name ta) = false).
  { unfold renamed. rewrite (objname_diff_qname (ct_name tb)), (objname_diff_qname (ct_name ta)), Hn. apply neqs_refl. }
  assert (F : final_name (ct_name tb) (ct_name ta) = ct_name ta) by (unfold final_name; rewrite R; reflexivity).
  rewrite F in H. unfold diff_rename in H. rewrite R in H. cbn [app] in H. injection H as H. subst lt.
  destruct (in_split _ _ Hb) as [c1 [c2 Ec]].
  assert (Oth : forall b', In b' (c1 ++ c2) -> con_label b' <> con_label b).
  { intros b' I E. pose proof (ti_nodup _ _ (tidy_table_spec _ _ Tb)) as N. rewrite Ec, map_app in N. cbn [map] in N.
    apply NoDup_remove_2 in N. apply N. rewrite !con_label_key in E. rewrite <- E, <- map_app. apply in_map. exact I. }
  set (n := ct_name ta). set (bn := ct_name tb). set (acs := ct_constraints ta).
  exists (flat_map (drop_gone_constraint d sdiff bn n acs) (ct_constraints tb) ++ diff_columns d sdiff n (ct_columns tb) (ct_columns ta)
          ++ flat_map (change_constraint d sdiff false bn n acs) c1).
  exists (flat_map (change_constraint d sdiff false bn n acs) c2 ++ map (add_constraint d sdiff false n) added
          ++ diff_table_options d sdiff n (ct_options tb) (ct_options ta) ++ diff_row_deletion d sdiff n (ct_rowdel tb) (ct_rowdel ta)).
  assert (In_a : In (con_label b) (con_labels ta)) by (rewrite L; unfold con_labels; apply in_map; exact Ha).
  assert (Ch : forall b' s, In b' (c1 ++ c2) -> In s (change_constraint d sdiff false bn n acs b') ->
     ~ drops_label (table_name ta) (con_label b) s /\ ~ drops_index (qname (index_objname d (on_schema (ct_name tb)) (con_ident b))) s).
  { intros b' s I Hs. specialize (Oth b' I). unfold change_constraint in Hs. destruct (find_constraint (con_key b') acs) as [a'|]; [|destruct Hs].
    destruct (neqs _ _); [|destruct Hs]. destruct (is_index d a'); destruct Hs as [Hs|[Hs|[]]]; subst s; cbn [drops_label drops_index].
    - split; [exact (fun X => X)|]. intro X. apply Oth. exact (index_name_label _ _ _ _ X).
    - unfold index_of_constraint. destruct a'; split; exact (fun X => X).
    - split; [|exact (fun X => X)]. rewrite label_of. intros [_ X]. exact (Oth X).
    - split; exact (fun X => X). }
  split.
  - fold n bn acs. rewrite Ec. rewrite !flat_map_app. cbn [flat_map]. rewrite <- !app_assoc. reflexivity.
  - intros s Hs. apply in_app_or in Hs. destruct Hs as [Hs|Hs].
    + apply in_app_or in Hs. destruct Hs as [Hs|Hs]; [|apply in_app_or in Hs; destruct Hs as [Hs|Hs]].
      * apply in_flat_map in Hs. destruct Hs as [b' [Hb' Hs]]. unfold drop_gone_constraint in Hs.
        destruct (find_constraint (con_key b') acs) eqn:E; [destruct Hs|].
        assert (Nb : con_label b' <> con_label b).
        { intro X. apply find_constraint_memb in E. apply memb_false in E. apply E. rewrite <- con_label_key, X. exact In_a. }
        destruct (is_index d b'); destruct Hs as [Hs|[]]; subst s; cbn [drops_label drops_index].
        -- split; [exact (fun X => X)|]. intro X. apply Nb. exact (index_name_label _ _ _ _ X).
        -- split; [|exact (fun X => X)]. rewrite label_of. intros [_ X]. exact (Nb X).
      * apply columns_about in Hs. destruct s as [| | | |cm m act]; cbn [drops_label drops_index]; try discriminate Hs; try (split; exact (fun X => X)).
        destruct act; try discriminate Hs; split; exact (fun X => X).
      * apply in_flat_map in Hs. destruct Hs as [b' [Hb' Hs]]. apply (Ch b' s); [apply in_or_app; left; exact Hb'|exact Hs].
    + apply in_app_or in Hs. destruct Hs as [Hs|Hs].
      { apply in_flat_map in Hs. destruct Hs as [b' [Hb' Hs]]. apply (Ch b' s); [apply in_or_app; right; exact Hb'|exact Hs]. }
      apply in_app_or in Hs. destruct Hs as [Hs|Hs].
      { apply in_map_iff in Hs. destruct Hs as [a' [Hs _]]. subst s. unfold add_constraint. destruct (is_index d a').
        - unfold index_of_constraint. destruct a'; split; exact (fun X => X).
        - split; exact (fun X => X). }
      apply in_app_or in Hs. destruct Hs as [Hs|Hs].
      { unfold diff_table_options in Hs. destruct d; try (destruct Hs; fail). apply in_app_or in Hs. destruct Hs as [Hs|Hs].
        - apply in_flat_map in Hs. destruct Hs as [o [_ Hs]]. destruct (is_auto_increment o); [destruct Hs|]. destruct (find_option _ _); [|destruct Hs].
          destruct (neqs _ _); [|destruct Hs]. destruct Hs as [Hs|[]]. subst s. split; exact (fun X => X).
        - apply in_map_iff in Hs. destruct Hs as [o [Hs _]]. subst s. split; exact (fun X => X). }
      { unfold diff_row_deletion in Hs. destruct d; try (destruct Hs; fail). destruct (neqs _ _); [|destruct Hs].
        destruct (ct_rowdel tb), (ct_rowdel ta); try (destruct Hs; fail); destruct Hs as [Hs|[]]; subst s; split; exact (fun X => X). }
Qed.

Lemma find_partner : forall d t a k, tidy_table d t = true -> In a (ct_constraints t) -> con_label a = k -> find_constraint k (ct_constraints t) = Some a.
Proof.
  intros d t a k T Ha E. subst k. pose proof (ti_nodup _ _ (tidy_table_spec _ _ T)) as N. revert Ha N.
  induction (ct_constraints t) as [|c r IH]; intros Ha N; [destruct Ha|]. cbn [map] in N. apply NoDup_cons_iff in N. destruct N as [N1 N2].
  unfold find_constraint in *. cbn [find]. destruct Ha as [Ha|Ha].
  - subst c. rewrite con_label_key. unfold eqs. rewrite String.eqb_refl. reflexivity.
  - replace (eqs (con_key c) (con_label a)) with false; [exact (IH Ha N2)|]. symmetry. apply String.eqb_neq. intro X. apply N1.
    rewrite X, con_label_key. apply in_map. exact Ha.
Qed.

(** A constraint on both sides is only dropped to be added again. *)
Theorem C16_dropped_constraint_added_again : forall d srt sdiff before after mb ma stmts tb ta b a s,
  srt_ok srt -> describes d before mb -> describes d after ma -> tidy d before = true -> tidy d after = true ->
  diff d srt sdiff (Some before) (Some after) = DOk stmts ->
  table_pair before after tb ta -> In b (ct_constraints tb) -> In a (ct_constraints ta) -> con_label b = con_label a ->
  is_inner_index a = false ->
  In s stmts -> drops_label (table_name ta) (con_label b) s ->
  exists l1 c l2, stmts = l1 ++ s :: AlterTable c (ct_name ta) (AddConstraint a false) :: l2 /\
    forall s', In s' (l1 ++ l2) -> ~ drops_label (table_name ta) (con_label b) s'.
Proof.
  intros d srt sdiff before after mb ma stmts tb ta b a s Hs DB DA TB TA E P Hb Ha L Ia I D.
  destruct (table_block d srt sdiff Hs before after mb ma DB DA TB TA stmts E tb ta P) as [l1 [lt [l2 [El [O X]]]]].
  destruct P as [Pb [Pa Pn]].
  assert (Out : forall s', In s' (l1 ++ l2) -> ~ drops_label (table_name ta) (con_label b) s').
  { intros s' I' D'. specialize (O s' I'). unfold drops_label in D'. destruct s'; try contradiction D'. destruct a0; try contradiction D'.
    destruct D' as [D' _]. cbn [mentions_table] in O. apply String.eqb_neq in O. contradiction. }
  rewrite El in I. assert (It : In s lt).
  { apply in_app_or in I. destruct I as [I|I]; [exfalso; apply (Out s); [apply in_or_app; left; exact I|exact D]|].
    apply in_app_or in I. destruct I as [I|I]; [exact I|exfalso; apply (Out s); [apply in_or_app; right; exact I|exact D]]. }
  destruct X as [X|[_ X]]; [|subst lt; destruct It]. unfold diff_create_table in X.
  destruct (match d with Sp => _ | _ => false end).
  { injection X as X. subst lt. destruct It as [It|[It|[]]]; subst s; contradiction D. }
  destruct (eqs _ _); [discriminate X|]. destruct (all_named _ && all_named _); [|discriminate X].
  destruct (diff_tables d srt sdiff false tb ta) as [k| | |] eqn:K; try discriminate X.
  assert (k = lt) by (destruct k; inversion X; reflexivity). subst k. clear X.
  pose proof (PropsDiff.tidy_in _ _ _ TB Pb) as Tb. pose proof (PropsDiff.tidy_in _ _ _ TA Pa) as Ta.
  destruct (constraint_segment d srt sdiff tb ta lt b a Hs Tb Ta Pn K Hb Ha L) as [m1 [m2 [M1 M2]]].
  assert (Oin : forall s', In s' (m1 ++ m2) -> ~ drops_label (table_name ta) (con_label b) s') by (intros s' I'; apply (M2 s' I')).
  unfold change_constraint in M1. rewrite (find_partner d ta a (con_key b) Ta Ha) in M1 by (rewrite <- L, con_label_key; reflexivity).
  rewrite (index_tidy d tb ta Tb Ta ta a Ta Ha), <- is_inner_idx, Ia in M1.
  destruct (neqs _ _).
  - rewrite M1 in It. apply in_app_or in It. destruct It as [It|It]; [exfalso; apply (Oin s); [apply in_or_app; left; exact It|exact D]|].
    apply in_app_or in It. destruct It as [It|It]; [|exfalso; apply (Oin s); [apply in_or_app; right; exact It|exact D]].
    destruct It as [It|[It|[]]]; [|subst s; contradiction D].
    exists (l1 ++ m1). eexists. exists (m2 ++ l2). split.
    + rewrite El, M1, <- It. rewrite <- !app_assoc. cbn [app]. rewrite <- ?app_assoc. reflexivity.
    + intros s' I'. rewrite !in_app_iff in I'. assert (In s' (l1 ++ l2) \/ In s' (m1 ++ m2)) as [J|J] by (rewrite !in_app_iff; tauto); [apply Out|apply Oin]; exact J.
  - exfalso. apply (Oin s); [|exact D]. rewrite M1 in It. cbn [app] in It. exact It.
Qed.
Print Assumptions C16_dropped_constraint_added_again.

(** Two tables of a schema do not declare an index of the same name. *)
Lemma inner_once : forall d X mx t u c e n, describes d X mx -> In (CreateTable t) X -> In (CreateTable u) X ->
  In c (ct_constraints t) -> In e (ct_constraints u) -> inner_name d t c = Some n -> inner_name d u e = Some n -> t = u.
Proof.
  intros d X mx t u c e n D Ht Hu Hc He Nc Ne. pose proof (read_nodup d X mx D) as N. pose proof (declares_unique d (KIdx n) X N) as U.
  assert (K : forall t c, In c (ct_constraints t) -> inner_name d t c = Some n -> declares d (KIdx n) (CreateTable t) = true).
  { clear. intros t c Hc Hn. apply declares_In. cbn [stmt_entries]. unfold inner_name in Hn. destruct c as [| | |o u pre cols post|]; try discriminate Hn. destruct o as [m|]; [|discriminate Hn].
    cbn in Hn. inversion Hn as [E]. apply in_map_iff. exists (intable_key d (ct_name t) m, VIdx (sem_intable d (ct_name t) u pre cols post)).
    split; [unfold intable_key; cbn [fst]; destruct d; congruence|]. unfold table_entries. right. apply in_or_app. right. apply in_or_app. left. apply in_flat_map.
    exists (CIndex (Some m) u pre cols post). split; [exact Hc|]. left. reflexivity. }
  pose proof (find_unique _ _ _ _ U Ht (K t c Hc Nc)) as F1. pose proof (find_unique _ _ _ _ U Hu (K u e He Ne)) as F2. congruence.
Qed.

Lemma inner_name_is : forall d t b n, tidy_table d t = true -> In b (ct_constraints t) -> inner_name d t b = Some n ->
  is_inner_index b = true /\ n = qname (index_objname d (on_schema (ct_name t)) (con_ident b)).
Proof.
  intros d t b n T Hb N. assert (is_inner_index b = true) as I.
  { unfold inner_name, inner_index in N. destruct b; try discriminate N. reflexivity. }
  split; [exact I|]. assert (is_index d b = true) as J by (rewrite (index_tidy d t t T T t b T Hb), <- is_inner_idx; exact I).
  rewrite (inner_name_drop d t t T T t b T Hb J) in N. congruence.
Qed.

(** An index declared in the table on both sides is only dropped to be created again. *)
Theorem C16_dropped_inner_index_created_again : forall d srt sdiff before after mb ma stmts tb ta b a n s,
  srt_ok srt -> describes d before mb -> describes d after ma -> tidy d before = true -> tidy d after = true ->
  diff d srt sdiff (Some before) (Some after) = DOk stmts ->
  table_pair before after tb ta -> In b (ct_constraints tb) -> In a (ct_constraints ta) -> con_label b = con_label a ->
  inner_name d tb b = Some n -> inner_name d ta a = Some n ->
  In s stmts -> drops_index n s ->
  exists l1 i l2, stmts = l1 ++ s :: CreateIndex i :: l2 /\ qname (cx_name i) = n /\
    con_value d (ct_name ta) a = Some (VIdx (sem_index d i)) /\
    forall s', In s' (l1 ++ l2) -> ~ drops_index n s'.
Proof.
  intros d srt sdiff before after mb ma stmts tb ta b a n s Hs DB DA TB TA E P Hb Ha L Nb Na I D.
  destruct P as [Pb [Pa Pn]]. pose proof (PropsDiff.tidy_in _ _ _ TB Pb) as Tb. pose proof (PropsDiff.tidy_in _ _ _ TA Pa) as Ta.
  destruct (inner_name_is d tb b n Tb Hb Nb) as [Ib Qb]. destruct (inner_name_is d ta a n Ta Ha Na) as [Ia Qa].
  apply in_tables in Pb. apply in_tables in Pa.
  destruct (segment _ _ _ _ _ _ _ E Pb) as [l1 [lt [l2 [El [Lx [B1 [B2 [EB O]]]]]]]].
  assert (F : find_stmt (CreateTable tb) after = Some (CreateTable ta)).
  { apply (find_stmt_unique d); [exact (read_create d after ma DA)|exact (read_nodup d after ma DA)|reflexivity|exact Pa|]. apply same_table. unfold table_name in Pn. congruence. }
  unfold diff_stmt in Lx. rewrite F in Lx.
  assert (Out : forall s', In s' (l1 ++ l2) -> ~ drops_index n s').
  { intros s' I' D'. unfold drops_index in D'. destruct s' as [| |c0 e0 n0|c0 e0 m|]; try contradiction D'.
    destruct (O _ I') as [[y [Y1 [Y2 Y3]]]|[[Y1 [Y2 Y3]]|[y [l' [Y1 [Y2 Y3]]]]]].
    - destruct y; cbn [drop_stmt] in Y3; try discriminate Y3. injection Y3 as <- <- <-. apply (not_inner d srt sdiff before after mb ma DB DA TB TA stmts E before mb i tb b DB Y1 Pb Hb). congruence.
    - discriminate Y3.
    - destruct (others_ne d before mb DB _ _ _ EB y Y1) as [YB YS].
      destruct (diff_stmt_block _ _ _ _ _ _ _ _ Hs TB TA YB Y2 Y3) as [[jb [ja [J1 [J2 [J3 [J4 J5]]]]]]|[ub [ua [J1 [J2 [J3 J4]]]]]]; subst y.
      + destruct J5 as [[c J5]|J5]; [|discriminate J5]. injection J5 as -> -> ->. apply (not_inner d srt sdiff before after mb ma DB DA TB TA stmts E before mb jb tb b DB YB Pb Hb). congruence.
      + assert (Nt : tb <> ub). { intro X. subst ub. unfold same_object in YS. cbn [same_type andb] in YS. rewrite !stmt_name_table, String.eqb_refl in YS. discriminate YS. }
        destruct J4 as [[_ [_ [[c J4]|J4]]]|[J4|J4]]; [discriminate J4|discriminate J4| |].
        * cbn [just] in J4. destruct J4 as [c [[C1 _] C2]]. apply Nt. apply (inner_once d before mb tb ub b c n DB Pb YB Hb C1 Nb). congruence.
        * destruct J4 as [x [y [Hx [Hy [_ [_ J4]]]]]]. assert (ta = ua) as Eq by (apply (inner_once d after ma ta ua a y n DA Pa J2 Ha Hy Na); congruence).
          subst ua. unfold same_object in YS. cbn [same_type andb] in YS. rewrite !stmt_name_table in YS. unfold table_name in Pn. rewrite J3, Pn, String.eqb_refl in YS. discriminate YS. }
  rewrite El in I. assert (It : In s lt).
  { apply in_app_or in I. destruct I as [I|I]; [exfalso; apply (Out s); [apply in_or_app; left; exact I|exact D]|].
    apply in_app_or in I. destruct I as [I|I]; [exact I|exfalso; apply (Out s); [apply in_or_app; right; exact I|exact D]]. }
  unfold diff_create_table in Lx. destruct (match d with Sp => _ | _ => false end).
  { injection Lx as Lx. subst lt. destruct It as [It|[It|[]]]; subst s; contradiction D. }
  destruct (eqs _ _); [injection Lx as Lx; subst lt; destruct It|]. destruct (all_named _ && all_named _); [|discriminate Lx].
  destruct (diff_tables d srt sdiff false tb ta) as [k| | |] eqn:K; try discriminate Lx.
  assert (k = lt) by (destruct k; inversion Lx; reflexivity). subst k. clear Lx.
  destruct (constraint_segment d srt sdiff tb ta lt b a Hs Tb Ta Pn K Hb Ha L) as [m1 [m2 [M1 M2]]].
  rewrite <- Qb in M2. assert (Oin : forall s', In s' (m1 ++ m2) -> ~ drops_index n s') by (intros s' I'; apply (M2 s' I')).
  unfold change_constraint in M1. rewrite (find_partner d ta a (con_key b) Ta Ha) in M1 by (rewrite <- L, con_label_key; reflexivity).
  pose proof (index_tidy d tb ta Tb Ta ta a Ta Ha) as Xa. rewrite <- is_inner_idx, Ia in Xa. rewrite Xa in M1.
  destruct (neqs _ _).
  - rewrite M1 in It. apply in_app_or in It. destruct It as [It|It]; [exfalso; apply (Oin s); [apply in_or_app; left; exact It|exact D]|].
    apply in_app_or in It. destruct It as [It|It]; [|exfalso; apply (Oin s); [apply in_or_app; right; exact It|exact D]].
    assert (exists i, index_of_constraint d ""%string (ct_name ta) a = CreateIndex i) as [i Ei] by (unfold index_of_constraint; destruct a; eexists; reflexivity).
    rewrite Ei in *. destruct It as [It|[It|[]]]; [|subst s; contradiction D].
    exists (l1 ++ m1), i, (m2 ++ l2). split; [|split; [|split]].
    + rewrite El, M1, <- It. rewrite <- !app_assoc. cbn [app]. rewrite <- ?app_assoc. reflexivity.
    + rewrite Qa. unfold index_of_constraint in Ei. destruct a; try discriminate Ia. injection Ei as <-. reflexivity.
    + unfold index_of_constraint in Ei. destruct a as [| | |o u pre cols post|]; try discriminate Ia. injection Ei as <-. cbn [con_value].
      unfold sem_intable, sem_index. cbn [cx_table cx_unique cx_columns cx_using cx_pre cx_post]. destruct d; reflexivity.
    + intros s' I'. rewrite !in_app_iff in I'. assert (In s' (l1 ++ l2) \/ In s' (m1 ++ m2)) as [J|J] by (rewrite !in_app_iff; tauto); [apply Out|apply Oin]; exact J.
  - exfalso. apply (Oin s); [|exact D]. rewrite M1 in It. cbn [app] in It. exact It.
Qed.
Print Assumptions C16_dropped_inner_index_created_again.

Example C16_constraint_example :
  printed Pg (diff_of Pg (schema Pg "CREATE TABLE t (a INTEGER, b INTEGER, CONSTRAINT k UNIQUE (a), CONSTRAINT l UNIQUE (b));")
                         (schema Pg "CREATE TABLE t (a INTEGER, b INTEGER, CONSTRAINT k UNIQUE (b), CONSTRAINT l UNIQUE (b));"))
  = Some ("ALTER TABLE t DROP CONSTRAINT k;
ALTER TABLE t ADD CONSTRAINT k UNIQUE (b);
")%string.
Proof. vm_compute. reflexivity. Qed.
Example C16_inner_index_example :
  printed Crdb (diff_of Crdb (schema Crdb "CREATE TABLE t (a STRING, b STRING, INDEX j (a), INDEX k (b));")
                             (schema Crdb "CREATE TABLE t (a STRING, b STRING, INDEX j (b), INDEX k (b));"))
  = Some ("DROP INDEX j;
CREATE INDEX j ON t (b);
")%string.
Proof. vm_compute. reflexivity. Qed.
