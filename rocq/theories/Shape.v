(** The shape of a diff: order of its statements, re-created indexes, renamed tables. *)
From Coq Require Import Lia Permutation.
From Verif Require Import GoStr Token Ast Parser Diff Db DbFacts AppendFacts DiffTable DiffPair DiffSound
  Tidy TidyFacts DiffSame Reconcile ReconcileFacts Honest DiffSpec Justified Frame.

Lemma diff_stmts_app : forall d srt sdiff A B1 B2, diff_stmts d srt sdiff (B1 ++ B2)%list A =
  (let! l := diff_stmts d srt sdiff B1 A in let! l' := diff_stmts d srt sdiff B2 A in Ok (l ++ l')%list).
Proof.
  intros d srt sdiff A. induction B1 as [|x r IH]; intro B2; cbn [app diff_stmts bind].
  - destruct (diff_stmts d srt sdiff B2 A); reflexivity.
  - destruct (diff_stmt d srt sdiff x A); cbn [bind]; try reflexivity. rewrite IH.
    destruct (diff_stmts d srt sdiff r A); cbn [bind]; try reflexivity.
    destruct (diff_stmts d srt sdiff B2 A); cbn [bind]; try reflexivity. rewrite app_assoc. reflexivity.
Qed.

(** The statements for one statement of before that has a partner form one block. *)
Lemma segment : forall d srt sdiff B A l x, diff d srt sdiff (Some B) (Some A) = DOk l -> In x B ->
  exists l1 lx l2, l = (l1 ++ lx ++ l2)%list /\ diff_stmt d srt sdiff x A = Ok lx /\
  exists B1 B2, B = (B1 ++ x :: B2)%list /\
  forall s, In s (l1 ++ l2)%list ->
  (exists y, In y B /\ find_stmt y A = None /\ drop_stmt y = Some s) \/
  (In s A /\ find_stmt s B = None /\ is_create s = true) \/
  (exists y l', In y (B1 ++ B2)%list /\ diff_stmt d srt sdiff y A = Ok l' /\ In s l').
Proof.
  intros d srt sdiff B A l x H Hx. destruct (diff_parts _ _ _ _ _ _ H) as [dr [cr [ch [H1 [H2 [H3 H4]]]]]].
  apply in_split in Hx. destruct Hx as [B1 [B2 E]]. rewrite E, diff_stmts_app in H3.
  destruct (diff_stmts d srt sdiff B1 A) as [c1| | |] eqn:E1; cbn [bind] in H3; try discriminate H3. cbn [diff_stmts] in H3.
  destruct (diff_stmt d srt sdiff x A) as [lx| | |] eqn:Ex; cbn [bind] in H3; try discriminate H3.
  destruct (diff_stmts d srt sdiff B2 A) as [c2| | |] eqn:E2; cbn [bind] in H3; try discriminate H3. inversion H3; subst ch.
  exists (dr ++ cr ++ c1)%list, lx, c2. split; [subst l; rewrite <- !app_assoc; reflexivity|]. split; [reflexivity|].
  exists B1, B2. split; [exact E|]. intros s Hs. apply in_app_or in Hs. destruct Hs as [Hs|Hs].
  - apply in_app_or in Hs. destruct Hs as [Hs|Hs]; [|apply in_app_or in Hs; destruct Hs as [Hs|Hs]].
    + left. destruct (map_opt_in _ _ _ _ _ _ H1 Hs) as [y [X1 X2]]. apply only_left_in in X1. exists y. destruct X1. auto.
    + right; left. destruct (map_opt_in _ _ _ _ _ _ H2 Hs) as [y [X1 X2]]. apply only_left_in in X1. destruct X1 as [X1 X3].
      destruct y; cbn [create_stmt] in X2; try discriminate X2; inversion X2; subst; split; auto.
    + right; right. destruct (diff_stmts_in _ _ _ _ _ _ _ E1 Hs) as [y [l' [Y1 [Y2 Y3]]]]. exists y, l'. split; [apply in_or_app; left; exact Y1|auto].
  - right; right. destruct (diff_stmts_in _ _ _ _ _ _ _ E2 Hs) as [y [l' [Y1 [Y2 Y3]]]]. exists y, l'. split; [apply in_or_app; right; exact Y1|auto].
Qed.

(** ** Statements of one block *)
Lemma diff_stmt_block : forall d srt sdiff B A x l s, srt_ok srt -> tidy d B = true -> tidy d A = true ->
  In x B -> diff_stmt d srt sdiff x A = Ok l -> In s l ->
  (exists ib ia, x = CreateIndex ib /\ In (CreateIndex ia) A /\ qname (cx_name ib) = qname (cx_name ia) /\
     create_index_diff d ib <> create_index_diff d ia /\ ((exists c, s = DropIndex c false (cx_name ib)) \/ s = CreateIndex ia)) \/
  (exists tb ta, x = CreateTable tb /\ In (CreateTable ta) A /\ qname (ct_name tb) = qname (ct_name ta) /\
     ((d = Sp /\ options_diff d (ct_options tb) <> options_diff d (ct_options ta) /\
       ((exists c, s = DropTable c false (ct_name tb)) \/ s = CreateTable ta)) \/ just d tb ta (ct_name ta) s \/ swapped d tb ta (ct_name ta) s)).
Proof.
  intros d srt sdiff B A x l s Hsrt TB TA Hx H Hs. unfold diff_stmt in H. destruct x as [tb|ib| | |]; try (inversion H; subst l; destruct Hs).
  - right. destruct (find_stmt (CreateTable tb) A) as [[ta| | | |]|] eqn:F; try (inversion H; subst l; destruct Hs).
    apply find_some in F. destruct F as [F1 F2]. cbn [same_type andb] in F2. rewrite stmt_name_table, stmt_name_table in F2. apply String.eqb_eq in F2.
    exists tb, ta. split; [reflexivity|]. split; [exact F1|]. split; [exact F2|].
    pose proof (tidy_in _ _ _ TB Hx) as Tb. pose proof (tidy_in _ _ _ TA F1) as Ta. cbn [tidy_stmt] in Tb, Ta.
    unfold diff_create_table in H.
    destruct (match d with Sp => neqs (options_diff d (ct_options tb)) (options_diff d (ct_options ta)) | _ => false end) eqn:So.
    + left. inversion H; subst l. destruct d eqn:Ed; try discriminate So. apply neqs_neq in So. split; [reflexivity|]. split; [exact So|].
      destruct Hs as [Hs|[Hs|[]]]; subst s; [left; eexists; reflexivity|right; reflexivity].
    + right. destruct (eqs _ _); [inversion H; subst l; destruct Hs|]. destruct (all_named _ && all_named _); [|discriminate H].
      destruct (diff_tables d srt sdiff false tb ta) as [lt| | |] eqn:E; try discriminate H.
      assert (l = lt) by (destruct lt; inversion H; reflexivity). subst l.
      apply (tables_loose d srt sdiff Hsrt tb ta Tb Ta F2) with (nv := false) (l := lt); assumption.
  - left. destruct (find_stmt (CreateIndex ib) A) as [[|ia| | |]|] eqn:F; try (inversion H; subst l; destruct Hs).
    apply find_some in F. destruct F as [F1 F2]. cbn [same_type andb] in F2. rewrite stmt_name_index, stmt_name_index in F2. apply String.eqb_eq in F2.
    destruct (neqs _ _) eqn:N; inversion H; subst l; [|destruct Hs]. apply neqs_neq in N.
    exists ib, ia. split; [reflexivity|]. split; [exact F1|]. split; [exact F2|]. split; [exact N|].
    destruct Hs as [Hs|[Hs|[]]]; subst s; [left; eexists; reflexivity|right; reflexivity].
Qed.

Lemma just_no_table : forall d tb ta n s, just d tb ta n s -> match s with CreateTable _ | DropTable _ _ _ => False | AlterTable _ m _ => m = n | _ => True end.
Proof. intros d tb ta n s J. destruct s; cbn [just] in J; try contradiction J; try exact I. apply J. Qed.

Lemma swapped_no_table : forall d tb ta n s, swapped d tb ta n s -> match s with CreateTable _ | DropTable _ _ _ => False | AlterTable _ m _ => m = n | _ => True end.
Proof.
  intros d tb ta n s [b [a [_ [_ [_ [_ J]]]]]]. destruct s; try contradiction J; try exact I. destruct a0; try contradiction J. apply J.
Qed.

Section Two.
Variable d : dialect.
Variable srt : list constraint -> list constraint.
Variable sdiff : string -> string -> string.
Hypothesis Hsrt : srt_ok srt.
Variables B A : ddl.
Variables mb ma : db.
Hypothesis DB : describes d B mb.
Hypothesis DA : describes d A ma.
Hypothesis TB : tidy d B = true.
Hypothesis TA : tidy d A = true.
Variable l : ddl.
Hypothesis H : diff d srt sdiff (Some B) (Some A) = DOk l.

Lemma no_table_stmt : forall X t, find_stmt (CreateTable t) X = None -> ~ has_table (table_name t) X.
Proof.
  intros X t F G. apply in_map_iff in G. destruct G as [u [G1 G2]]. apply in_tables in G2. apply (find_none _ _ F) in G2. cbv beta in G2.
  cbn [same_type andb] in G2. rewrite stmt_name_table, stmt_name_table in G2. unfold table_name in G1. rewrite G1 in G2. unfold eqs in G2.
  rewrite String.eqb_refl in G2. discriminate G2.
Qed.
Lemma no_index_stmt : forall X t, find_stmt (CreateIndex t) X = None -> ~ has_index (qname (cx_name t)) X.
Proof.
  intros X t F G. apply in_map_iff in G. destruct G as [u [G1 G2]]. apply in_indexes in G2. apply (find_none _ _ F) in G2. cbv beta in G2.
  cbn [same_type andb] in G2. rewrite stmt_name_index, stmt_name_index in G2. rewrite G1 in G2. unfold eqs in G2.
  rewrite String.eqb_refl in G2. discriminate G2.
Qed.
Lemma has_t : forall X t, In (CreateTable t) X -> has_table (table_name t) X.
Proof. intros X t HX. apply in_map. apply in_tables. exact HX. Qed.
Lemma has_i : forall X t, In (CreateIndex t) X -> has_index (qname (cx_name t)) X.
Proof. intros X t HX. apply (in_map (fun i => qname (cx_name i))). apply in_indexes. exact HX. Qed.

(** An index is not declared both by CREATE INDEX and inside a table. *)
Lemma not_inner : forall X mx i t c, describes d X mx -> In (CreateIndex i) X -> In (CreateTable t) X -> In c (ct_constraints t) ->
  inner_name d t c = Some (qname (cx_name i)) -> False.
Proof.
  intros X mx i t c D Hi Ht Hc Hn. pose proof (read_nodup d X mx D) as N. pose proof (declares_unique d (KIdx (qname (cx_name i))) X N) as U.
  assert (D1 : declares d (KIdx (qname (cx_name i))) (CreateIndex i) = true) by (unfold declares; cbn [stmt_entries existsb fst]; rewrite key_eqb_refl; reflexivity).
  assert (D2 : declares d (KIdx (qname (cx_name i))) (CreateTable t) = true).
  { apply declares_In. cbn [stmt_entries]. unfold inner_name in Hn. destruct c as [| | |o u pre cols post|]; try discriminate Hn. destruct o as [n|]; [|discriminate Hn].
    cbn in Hn. inversion Hn as [E]. apply in_map_iff. exists (intable_key d (ct_name t) n, VIdx (sem_intable d (ct_name t) u pre cols post)).
    split; [unfold intable_key; cbn [fst]; destruct d; congruence|]. unfold table_entries. right. apply in_or_app. right. apply in_or_app. left. apply in_flat_map.
    exists (CIndex (Some n) u pre cols post). split; [exact Hc|]. left. reflexivity. }
  pose proof (find_unique _ _ _ _ U Hi D1) as F1. pose proof (find_unique _ _ _ _ U Ht D2) as F2. congruence.
Qed.

Lemma others_ne : forall B1 x B2, B = (B1 ++ x :: B2)%list -> forall y, In y (B1 ++ B2)%list -> In y B /\ same_object x y = false.
Proof.
  intros B1 x B2 E y Hy. assert (Hx : In x B) by (rewrite E; apply in_or_app; right; left; reflexivity).
  assert (HyB : In y B) by (rewrite E; apply in_app_or in Hy; apply in_or_app; cbn [In]; tauto). split; [exact HyB|].
  destruct (same_object x y) eqn:S; [|reflexivity]. exfalso.
  pose proof (read_create d B mb DB) as C. pose proof (read_nodup d B mb DB) as N. assert (Cx : is_create x = true) by (rewrite forallb_forall in C; apply C; exact Hx).
  assert (Cy : is_create y = true) by (rewrite forallb_forall in C; apply C; exact HyB).
  apply same_object_okey in S; [|exact Cx|exact Cy]. pose proof (okey_declared d x Cx) as D1. pose proof (okey_declared d y Cy) as D2.
  rewrite <- S in D2. apply declares_In in D1. apply declares_In in D2.
  rewrite E in N. unfold entries in N. rewrite flat_map_app in N. cbn [flat_map] in N. rewrite !map_app in N.
  assert (P : Permutation (map fst (flat_map (stmt_entries d) B1) ++ map fst (stmt_entries d x) ++ map fst (flat_map (stmt_entries d) B2))
                          (map fst (stmt_entries d x) ++ (map fst (flat_map (stmt_entries d) B1) ++ map fst (flat_map (stmt_entries d) B2)))).
  { rewrite !app_assoc. apply Permutation_app_tail. apply Permutation_app_comm. }
  apply (Permutation_NoDup P) in N. apply (nodup_app_disjoint _ _ _ (okey x) N D1). apply in_map_iff in D2. destruct D2 as [e [D2 D3]].
  apply in_app_or in Hy. apply in_or_app. destruct Hy as [Hy|Hy]; [left|right]; rewrite <- D2; apply in_map; apply in_flat_map; exists y; auto.
Qed.

(** *** A changed index *)
Theorem index_block : forall ib ia, In ib (indexes B) -> In ia (indexes A) -> qname (cx_name ib) = qname (cx_name ia) ->
  exists l1 lx l2, l = (l1 ++ lx ++ l2)%list /\ (forall s, In s (l1 ++ l2)%list -> mentions_index (qname (cx_name ib)) s = false) /\
  ((create_index_diff d ib = create_index_diff d ia /\ lx = []) \/
   (create_index_diff d ib <> create_index_diff d ia /\ exists c, lx = [DropIndex c false (cx_name ib); CreateIndex ia])).
Proof.
  intros ib ia Hb Ha E. apply in_indexes in Hb. apply in_indexes in Ha.
  destruct (segment _ _ _ _ _ _ _ H Hb) as [l1 [lx [l2 [L [Lx [B1 [B2 [EB O]]]]]]]].
  assert (F : find_stmt (CreateIndex ib) A = Some (CreateIndex ia)).
  { apply (find_stmt_unique d); [exact (read_create d A ma DA)|exact (read_nodup d A ma DA)|reflexivity|exact Ha|]. apply same_index. congruence. }
  unfold diff_stmt in Lx. rewrite F in Lx.
  exists l1, lx, l2. split; [exact L|]. split.
  2:{ destruct (neqs (create_index_diff d ib) (create_index_diff d ia)) eqn:Nq; inversion Lx; subst lx.
      - right. apply neqs_neq in Nq. split; [exact Nq|]. eexists; reflexivity.
      - left. unfold neqs, eqs in Nq. apply negb_false_iff in Nq. apply String.eqb_eq in Nq. auto. }
  intros s Hs. destruct (mentions_index (qname (cx_name ib)) s) eqn:M; [|reflexivity]. exfalso.
  destruct (O s Hs) as [[y [Y1 [Y2 Y3]]]|[[Y1 [Y2 Y3]]|[y [l' [Y1 [Y2 Y3]]]]]].
  - destruct y; cbn [drop_stmt] in Y3; try discriminate Y3; inversion Y3; subst s; cbn [mentions_index] in M; [discriminate M|].
    apply String.eqb_eq in M. apply (no_index_stmt A i Y2). rewrite M, E. apply has_i. exact Ha.
  - destruct s; try discriminate Y3; cbn [mentions_index] in M; [discriminate M|]. apply String.eqb_eq in M.
    apply (no_index_stmt B i Y2). rewrite M. apply has_i. exact Hb.
  - destruct (others_ne _ _ _ EB y Y1) as [YB YS].
    destruct (diff_stmt_block _ _ _ _ _ _ _ _ Hsrt TB TA YB Y2 Y3) as [[jb [ja [J1 [J2 [J3 [J4 J5]]]]]]|[tb [ta [J1 [J2 [J3 J4]]]]]].
    + subst y. assert (qname (cx_name jb) <> qname (cx_name ib)).
      { intro G. unfold same_object in YS. cbn [same_type andb] in YS. rewrite !stmt_name_index, G, String.eqb_refl in YS. discriminate YS. }
      destruct J5 as [[c J5]|J5]; subst s; cbn [mentions_index] in M; apply String.eqb_eq in M; congruence.
    + subst y. destruct J4 as [[_ [_ [[c J4]|J4]]]|[J4|J4]]; [subst s; discriminate M|subst s; discriminate M| |].
      destruct s as [t|i|c0 e0 n0|c0 e0 n0|c0 n0 a0]; cbn [mentions_index] in M; try discriminate M; apply String.eqb_eq in M; cbn [just] in J4.
      * destruct J4 as [c [[C1 _] [C2 _]]]. rewrite M, E in C2. exact (not_inner A ma ia ta c DA Ha J2 C1 C2).
      * destruct J4 as [c [[C1 _] C2]]. rewrite M in C2. exact (not_inner B mb ib tb c DB Hb YB C1 C2).
      * destruct J4 as [b [a [Hx [Hy [_ [_ J4]]]]]]. destruct s as [t|i|c0 e0 n0|c0 e0 n0|c0 n0 a0]; try contradiction J4; cbn [mentions_index] in M; try discriminate M.
        apply String.eqb_eq in M. rewrite M, E in J4. exact (not_inner A ma ia ta a DA Ha J2 Hy J4).
Qed.

Theorem changed_index : forall ib ia, In ib (indexes B) -> In ia (indexes A) -> qname (cx_name ib) = qname (cx_name ia) ->
  create_index_diff d ib <> create_index_diff d ia ->
  exists l1 l2 c, l = (l1 ++ DropIndex c false (cx_name ib) :: CreateIndex ia :: l2)%list /\
  forall s, In s (l1 ++ l2)%list -> mentions_index (qname (cx_name ib)) s = false.
Proof.
  intros ib ia Hb Ha E N. destruct (index_block ib ia Hb Ha E) as [l1 [lx [l2 [L [O [[X _]|[_ [c X]]]]]]]]; [contradiction|].
  exists l1, l2, c. subst lx. split; [exact L|exact O].
Qed.

(** *** The block of a table *)
Theorem table_block : forall tb ta, table_pair B A tb ta ->
  exists l1 lt l2, l = (l1 ++ lt ++ l2)%list /\ (forall s, In s (l1 ++ l2)%list -> mentions_table (table_name ta) s = false) /\
    (diff_create_table d srt sdiff false tb ta = DOk lt \/ (diff_create_table d srt sdiff false tb ta = DNoDiff /\ lt = [])).
Proof.
  intros tb ta [Hb [Ha E]]. apply in_tables in Hb. apply in_tables in Ha. unfold table_name in *.
  destruct (segment _ _ _ _ _ _ _ H Hb) as [l1 [lx [l2 [L [Lx [B1 [B2 [EB O]]]]]]]].
  assert (F : find_stmt (CreateTable tb) A = Some (CreateTable ta)).
  { apply (find_stmt_unique d); [exact (read_create d A ma DA)|exact (read_nodup d A ma DA)|reflexivity|exact Ha|]. apply same_table. congruence. }
  unfold diff_stmt in Lx. rewrite F in Lx.
  exists l1, lx, l2. split; [exact L|]. split.
  2:{ destruct (diff_create_table d srt sdiff false tb ta); try discriminate Lx; inversion Lx; auto. }
  intros s Hs. destruct (mentions_table (qname (ct_name ta)) s) eqn:M; [|reflexivity]. exfalso.
  destruct (O s Hs) as [[y [Y1 [Y2 Y3]]]|[[Y1 [Y2 Y3]]|[y [l' [Y1 [Y2 Y3]]]]]].
  - destruct y; cbn [drop_stmt] in Y3; try discriminate Y3; inversion Y3; subst s; cbn [mentions_table] in M; [|discriminate M].
    apply String.eqb_eq in M. apply (no_table_stmt A t Y2). unfold table_name. rewrite M. apply has_t. exact Ha.
  - destruct s; try discriminate Y3; cbn [mentions_table] in M; [|discriminate M]. apply String.eqb_eq in M.
    apply (no_table_stmt B t Y2). rewrite M, <- E. apply has_t. exact Hb.
  - destruct (others_ne _ _ _ EB y Y1) as [YB YS].
    destruct (diff_stmt_block _ _ _ _ _ _ _ _ Hsrt TB TA YB Y2 Y3) as [[jb [ja [J1 [J2 [J3 [J4 J5]]]]]]|[ub [ua [J1 [J2 [J3 J4]]]]]].
    + destruct J5 as [[c J5]|J5]; subst s; discriminate M.
    + subst y. assert (Q : qname (ct_name ub) <> qname (ct_name tb)).
      { intro G. unfold same_object in YS. cbn [same_type andb] in YS. rewrite !stmt_name_table, G, String.eqb_refl in YS. discriminate YS. }
      destruct J4 as [[_ [_ [[c J4]|J4]]]|[J4|J4]].
      * subst s. cbn [mentions_table] in M. apply String.eqb_eq in M. congruence.
      * subst s. cbn [mentions_table] in M. apply String.eqb_eq in M. unfold table_name in M. congruence.
      * apply just_no_table in J4. destruct s; cbn [mentions_table] in M; try discriminate M; try contradiction J4. subst name. apply String.eqb_eq in M. congruence.
      * apply swapped_no_table in J4. destruct s; cbn [mentions_table] in M; try discriminate M; try contradiction J4. subst name. apply String.eqb_eq in M. congruence.
Qed.

(** *** Vanished, new, changed *)
Theorem phases : exists l1 l2 l3, l = (l1 ++ l2 ++ l3)%list /\
  (forall s, In s l1 -> vanished B A s) /\ (forall s, In s l2 -> appeared B A s) /\ (forall s, In s l3 -> on_both d B A s).
Proof.
  destruct (diff_parts _ _ _ _ _ _ H) as [dr [cr [ch [H1 [H2 [H3 H4]]]]]]. exists dr, cr, ch. split; [exact H4|]. split; [|split].
  - intros s Hs. destruct (map_opt_in _ _ _ _ _ _ H1 Hs) as [y [X1 X2]]. apply only_left_in in X1. destruct X1 as [X1 X3].
    destruct y; cbn [drop_stmt] in X2; try discriminate X2; inversion X2; subst s; cbn [vanished].
    + split; [apply (has_t B t X1)|apply (no_table_stmt A t X3)].
    + split; [apply (has_i B i X1)|apply (no_index_stmt A i X3)].
  - intros s Hs. apply create_stmts_id in H2. subst cr. apply only_left_in in Hs. destruct Hs as [X1 X3].
    pose proof (read_create d A ma DA) as C. rewrite forallb_forall in C. specialize (C s X1). destruct s; try discriminate C; cbn [appeared].
    + split; [apply in_tables; exact X1|apply (no_table_stmt B t X3)].
    + split; [apply in_indexes; exact X1|apply (no_index_stmt B i X3)].
  - intros s Hs. destruct (diff_stmts_in _ _ _ _ _ _ _ H3 Hs) as [y [l' [Y1 [Y2 Y3]]]].
    destruct (diff_stmt_block _ _ _ _ _ _ _ _ Hsrt TB TA Y1 Y2 Y3) as [[jb [ja [J1 [J2 [J3 [J4 J5]]]]]]|[ub [ua [J1 [J2 [J3 J4]]]]]]; subst y.
    + assert (X : has_index (qname (cx_name jb)) B /\ has_index (qname (cx_name jb)) A).
      { split; [apply has_i; exact Y1|]. rewrite J3. apply has_i. exact J2. }
      destruct J5 as [[c J5]|J5]; subst s; cbn [on_both]; left; [exact X|]. rewrite <- J3. exact X.
    + assert (X : has_table (qname (ct_name ub)) B /\ has_table (qname (ct_name ub)) A).
      { split; [apply (has_t B ub Y1)|]. rewrite J3. apply (has_t A ua J2). }
      assert (P : table_pair B A ub ua) by (split; [apply in_tables; exact Y1|split; [apply in_tables; exact J2|exact J3]]).
      destruct J4 as [[_ [_ [[c J4]|J4]]]|[J4|J4]].
      * subst s. exact X.
      * subst s. cbn [on_both]. unfold table_name. rewrite <- J3. exact X.
      * destruct s as [t|i|c0 e0 n0|c0 e0 n0|c0 n0 a0]; cbn [just on_both] in *; try contradiction J4.
        -- destruct J4 as [c [[C1 _] [C2 _]]]. right. exists ub, ua, c. auto.
        -- destruct J4 as [c [[C1 _] C2]]. right. exists ub, ua, c. split; [exact P|]. left. auto.
        -- destruct J4 as [J4 _]. subst n0. rewrite <- J3. exact X.
      * destruct J4 as [b [a [Hx [Hy [_ [_ J4]]]]]]. destruct s as [t|i|c0 e0 n0|c0 e0 n0|c0 n0 a0]; try contradiction J4; cbn [on_both].
        -- right. exists ub, ua, a. auto.
        -- destruct a0; try contradiction J4. destruct J4 as [J4 _]. subst n0. rewrite <- J3. exact X.
Qed.
End Two.

(** ** Inside a table *)
Lemma column_about : forall d sdiff n b a s, In s (diff_common_column d sdiff n b a) -> about_column s = true.
Proof.
  intros d sdiff n b a s Hs. unfold diff_common_column, diff_default, diff_notnull, diff_options in Hs.
  destruct d; repeat (apply in_app_or in Hs; destruct Hs as [Hs|Hs]);
  repeat match type of Hs with In _ (if ?c then _ else _) => destruct c end; try (destruct Hs as [Hs|[]]; subst s; reflexivity); try destruct Hs.
Qed.
Lemma columns_about : forall d sdiff n bc ac s, In s (diff_columns d sdiff n bc ac) -> about_column s = true.
Proof.
  intros d sdiff n bc ac s Hs. unfold diff_columns in Hs. apply in_app_or in Hs. destruct Hs as [Hs|Hs].
  - apply in_flat_map in Hs. destruct Hs as [b [_ Hs]]. unfold diff_before_column in Hs. destruct (find_column _ _); [eapply column_about; exact Hs|].
    destruct (keep_hidden d b); [destruct Hs|]. destruct Hs as [Hs|[]]. subst s. reflexivity.
  - apply in_map_iff in Hs. destruct Hs as [a [Hs _]]. subst s. reflexivity.
Qed.

(** The block of a table consists of: the removal of vanished constraints, the
    statements about columns, and others, none of which is about a column or
    removes a vanished constraint. *)
Theorem table_order : forall d srt sdiff nv tb ta l, srt_ok srt -> tidy_table d tb = true -> tidy_table d ta = true ->
  qname (ct_name tb) = qname (ct_name ta) -> diff_tables d srt sdiff nv tb ta = Ok l ->
  exists p1 p2 p3, l = (p1 ++ p2 ++ p3)%list /\
    (forall s, In s p1 -> drops_vanished d tb ta s) /\
    (forall s, In s p2 -> about_column s = true) /\
    (forall s, In s p3 -> about_column s = false /\ ~ drops_vanished d tb ta s).
Proof.
  intros d srt sdiff nv tb ta l Hsrt Tb Ta Hn H. unfold diff_tables in H.
  destruct (only_left_constraints d srt (ct_constraints ta) (ct_constraints tb)) as [added| | |] eqn:Eadd; cbn [bind] in H; try discriminate H.
  assert (R : renamed (ct_name tb) (ct_name ta) = false).
  { unfold renamed. rewrite (objname_diff_qname (ct_name tb)), (objname_diff_qname (ct_name ta)), Hn. apply neqs_refl. }
  assert (F : final_name (ct_name tb) (ct_name ta) = ct_name ta) by (unfold final_name; rewrite R; reflexivity).
  rewrite F in H. unfold diff_rename in H. rewrite R in H. cbn [app] in H. inversion H; subst l. clear H.
  eexists _, _, _. split; [reflexivity|]. split; [|split].
  - intros s Hs. apply in_flat_map in Hs. destruct Hs as [b [Hb Hs]]. unfold drop_gone_constraint in Hs.
    destruct (find_constraint (con_key b) (ct_constraints ta)) eqn:E; [destruct Hs|].
    exists b. split; [exact Hb|]. split; [apply memb_false; apply find_constraint_memb; rewrite con_label_key; exact E|].
    destruct (is_index d b) eqn:I; destruct Hs as [Hs|[]]; subst s.
    + apply (inner_name_drop d tb ta); assumption.
    + split; [|reflexivity]. rewrite is_inner_idx, <- (index_tidy d tb ta Tb Ta tb b Tb Hb). exact I.
  - intros s Hs. eapply columns_about. exact Hs.
  - assert (Lb : forall b b0 n, In b (ct_constraints tb) -> inner_name d tb b0 = Some n -> qname (index_objname d (on_schema (ct_name tb)) (con_ident b)) = n ->
        con_label b = con_label b0).
    { intros b b0 n Hb Hi E. unfold inner_name, index_objname in *. destruct b0 as [| | |o ? ? ? ?|]; try discriminate Hi. destruct o as [i|]; [|discriminate Hi]. cbn in Hi.
      assert (X : con_label b = id_name (con_ident b)) by (rewrite con_label_key; reflexivity). rewrite X. unfold con_label. cbn [con_name].
      inversion Hi as [Hi']. rewrite <- Hi' in E. destruct d; try exact E. revert E. unfold qname. cbn.
      destruct (on_schema (ct_name tb)); [|auto]. intro E. apply (append_inj_l "." _ _). apply (append_inj_l (id_name i0)). exact E. }
    intros s Hs. apply in_app_or in Hs. destruct Hs as [Hs|Hs].
    { apply in_flat_map in Hs. destruct Hs as [b [Hb Hs]]. unfold change_constraint in Hs.
      destruct (find_constraint (con_key b) (ct_constraints ta)) as [a|] eqn:E; [|destruct Hs]. destruct (neqs _ _); [|destruct Hs].
      apply find_constraint_some in E. destruct E as [Ha E]. rewrite <- con_label_key in E.
      assert (In_ : In (con_label b) (con_labels ta)) by (rewrite <- E; unfold con_labels; apply in_map; exact Ha).
      destruct (is_index d a) eqn:I; destruct Hs as [Hs|[Hs|[]]]; subst s.
      - split; [reflexivity|]. intros [b0 [X1 [X2 X3]]]. apply X2. rewrite <- (Lb b b0 _ Hb X3 eq_refl). exact In_.
      - unfold index_of_constraint. destruct a; (split; [reflexivity|]); intros [b0 [_ [_ X3]]]; exact X3.
      - split; [reflexivity|]. intros [b0 [X1 [X2 [X3 X4]]]]. apply X2. unfold con_label. rewrite X4. exact In_.
      - split; [reflexivity|]. intros [b0 [_ [_ X3]]]. exact X3. }
    apply in_app_or in Hs. destruct Hs as [Hs|Hs].
    { apply in_map_iff in Hs. destruct Hs as [a [Hs _]]. subst s. unfold add_constraint. destruct (is_index d a).
      - unfold index_of_constraint. destruct a; (split; [reflexivity|]); intros [b0 [_ [_ X3]]]; exact X3.
      - split; [reflexivity|]. intros [b0 [_ [_ X3]]]. exact X3. }
    apply in_app_or in Hs. destruct Hs as [Hs|Hs].
    { unfold diff_table_options in Hs. destruct d; try (destruct Hs; fail). apply in_app_or in Hs. destruct Hs as [Hs|Hs].
      - apply in_flat_map in Hs. destruct Hs as [b [_ Hs]]. destruct (is_auto_increment b); [destruct Hs|]. destruct (find_option _ _); [|destruct Hs].
        destruct (neqs _ _); [|destruct Hs]. destruct Hs as [Hs|[]]. subst s. split; [reflexivity|]. intros [b0 [_ [_ X3]]]. exact X3.
      - apply in_map_iff in Hs. destruct Hs as [b [Hs _]]. subst s. split; [reflexivity|]. intros [b0 [_ [_ X3]]]. exact X3. }
    { unfold diff_row_deletion in Hs. destruct d; try (destruct Hs; fail). destruct (neqs _ _); [|destruct Hs].
      destruct (ct_rowdel tb), (ct_rowdel ta); try (destruct Hs; fail); destruct Hs as [Hs|[]]; subst s; split; try reflexivity; intros [b0 [_ [_ X3]]]; exact X3. }
Qed.

(** ** Renaming *)
Theorem rename_first : forall d srt sdiff nv b a l, qname (ct_name b) <> qname (ct_name a) ->
  (d = Sp -> options_diff d (ct_options b) = options_diff d (ct_options a)) ->
  diff_create_table d srt sdiff nv b a = DOk l ->
  exists c r, l = AlterTable c (ct_name b) (RenameTable (final_name (ct_name b) (ct_name a))) :: r /\
  forall s, In s r -> addresses (final_name (ct_name b) (ct_name a)) s.
Proof.
  intros d srt sdiff nv b a l N O H. unfold diff_create_table in H.
  replace (match d with Sp => neqs (options_diff d (ct_options b)) (options_diff d (ct_options a)) | _ => false end) with false in H.
  2:{ symmetry. destruct d; try reflexivity. rewrite (O eq_refl). apply neqs_refl. }
  destruct (eqs _ _); [discriminate H|]. destruct (all_named _ && all_named _); [|discriminate H].
  destruct (diff_tables d srt sdiff nv b a) as [lt| | |] eqn:E; try discriminate H.
  assert (l = lt) by (destruct lt; inversion H; reflexivity). subst lt. clear H. unfold diff_tables in E.
  destruct (only_left_constraints d srt (ct_constraints a) (ct_constraints b)) as [added| | |]; cbn [bind] in E; try discriminate E.
  assert (R : renamed (ct_name b) (ct_name a) = true).
  { unfold renamed, neqs. rewrite (objname_diff_qname (ct_name b)), (objname_diff_qname (ct_name a)). apply negb_true_iff. apply String.eqb_neq. exact N. }
  unfold diff_rename in E. rewrite R in E. cbn [app] in E. set (n := final_name (ct_name b) (ct_name a)) in *. inversion E; subst l. clear E.
  eexists _, _. split; [reflexivity|]. intros s Hs.
  assert (IC : forall c x, addresses n (index_of_constraint d c n x)) by (intros c x; destruct x; reflexivity).
  apply in_app_or in Hs. destruct Hs as [Hs|Hs].
  { apply in_flat_map in Hs. destruct Hs as [x [_ Hs]]. unfold drop_gone_constraint in Hs. destruct (find_constraint _ _); [destruct Hs|].
    destruct (is_index d x); destruct Hs as [Hs|[]]; subst s; [exact I|reflexivity]. }
  apply in_app_or in Hs. destruct Hs as [Hs|Hs].
  { unfold diff_columns in Hs. apply in_app_or in Hs. destruct Hs as [Hs|Hs].
    - apply in_flat_map in Hs. destruct Hs as [x [_ Hs]]. unfold diff_before_column in Hs. destruct (find_column _ _).
      + unfold diff_common_column, diff_default, diff_notnull, diff_options in Hs.
        destruct d; repeat (apply in_app_or in Hs; destruct Hs as [Hs|Hs]);
        repeat match type of Hs with In _ (if ?c then _ else _) => destruct c end; try (destruct Hs as [Hs|[]]; subst s; reflexivity); try destruct Hs.
      + destruct (keep_hidden d x); [destruct Hs|]. destruct Hs as [Hs|[]]. subst s. reflexivity.
    - apply in_map_iff in Hs. destruct Hs as [x [Hs _]]. subst s. reflexivity. }
  apply in_app_or in Hs. destruct Hs as [Hs|Hs].
  { apply in_flat_map in Hs. destruct Hs as [x [_ Hs]]. unfold change_constraint in Hs. destruct (find_constraint _ _); [|destruct Hs].
    destruct (neqs _ _); [|destruct Hs]. destruct (is_index d c); destruct Hs as [Hs|[Hs|[]]]; subst s; try reflexivity; try exact I; apply IC. }
  apply in_app_or in Hs. destruct Hs as [Hs|Hs].
  { apply in_map_iff in Hs. destruct Hs as [x [Hs _]]. subst s. unfold add_constraint. destruct (is_index d x); [apply IC|reflexivity]. }
  apply in_app_or in Hs. destruct Hs as [Hs|Hs].
  { unfold diff_table_options in Hs. destruct d; try (destruct Hs; fail). apply in_app_or in Hs. destruct Hs as [Hs|Hs].
    - apply in_flat_map in Hs. destruct Hs as [x [_ Hs]]. destruct (is_auto_increment x); [destruct Hs|]. destruct (find_option _ _); [|destruct Hs].
      destruct (neqs _ _); [|destruct Hs]. destruct Hs as [Hs|[]]. subst s. reflexivity.
    - apply in_map_iff in Hs. destruct Hs as [x [Hs _]]. subst s. reflexivity. }
  { unfold diff_row_deletion in Hs. destruct d; try (destruct Hs; fail). destruct (neqs _ _); [|destruct Hs].
    destruct (ct_rowdel b), (ct_rowdel a); try (destruct Hs; fail); destruct Hs as [Hs|[]]; subst s; reflexivity. }
Qed.
