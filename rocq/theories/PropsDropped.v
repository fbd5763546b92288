(** Property C93: PostgreSQL and CockroachDB do not get a second chance to drop a table or a column. *)
From Coq Require Import Lia.
From Verif Require Import GoStr Token Lexer LexSpec Ast Parser Diff Db DbFacts AppendFacts Tidy TidyFacts DiffSame Reconcile ReconcileFacts Honest DiffSpec Justified Frame
  Lines LinesFacts Apply ApplySpec ApplyFacts Intact IntactFacts Printable SqlRead ReadFacts ReadDiff SqlDb SqlDbFacts DbDep DepServer.
From Verif Require Import Answer AnswerFacts DoomFacts DoomIndex PropsParse PropsDiff PropsApply PropsRead InterruptFacts StuckFacts PropsStuck PropsDepApply.
Local Open Scope list_scope.

(** ** What is not there does not come by itself *)
Definition makes_table (t : string) (s : stmt) : Prop := match s with CreateTable ct => table_name ct = t | _ => False end.
Definition makes_column (t c : string) (s : stmt) : Prop :=
  match s with
  | CreateTable ct => table_name ct = t
  | AlterTable _ n (AddColumn col) => qname n = t /\ id_name (c_name col) = c
  | _ => False
  end.
Lemma exec_absent : forall d s m m' t k, exec d s m = Some m' -> no_rename s ->
  (k = KTab t /\ ~ makes_table t s) \/ (exists c, k = KCol t c /\ ~ makes_column t c s) -> m k = None -> m' k = None.
Proof.
  intros d s m m' t k H N K V. destruct (exec_at d s m m' H N) as [E|E]; [rewrite E; exact V|]. specialize (E k).
  refine (keeps_all (fun w => w = None) k (stmt_ops d s) _ _ _ V E). clear E V H m m'. intros o Ho w w' Hw F. subst w.
  assert (O : owner k = Some t) by (destruct K as [[K _]|[c [K _]]]; subst k; reflexivity).
  assert (Z : forall n, key_eqb (KIdx n) k = false) by (intro n; apply key_eqb_neq; intro G; subst k; discriminate O).
  assert (Y : forall u q, owner q = Some u -> u <> t -> key_eqb q k = false) by (intros u q Hq Hu; apply key_eqb_neq; intro G; subst q; congruence).
  destruct s as [ct|i|c ie n|c ie n|c n a]; cbn [stmt_ops] in Ho.
  - assert (Nt : qname (ct_name ct) <> t) by (intro G; destruct K as [[_ K]|[c [_ K]]]; apply K; exact G).
    apply create_ops_in in Ho. destruct Ho as [Ho|[Ho|[q [v [Ho Iv]]]]]; subst o; cbn [eff] in F; try discriminate F.
    + rewrite (Y _ (KTab (qname (ct_name ct))) eq_refl Nt) in F. destruct (owned_by _ _); injection F as <-; reflexivity.
    + destruct (adds_keys d ct q v Iv) as [[A _]|[j [x [A _]]]]; [rewrite (Y _ _ A Nt) in F|subst q; rewrite Z in F]; injection F as <-; reflexivity.
  - destruct Ho as [Ho|[]]. subst o. cbn [eff] in F. rewrite Z in F. injection F as <-. reflexivity.
  - destruct Ho as [Ho|[]]. subst o. cbn [eff] in F. repeat match type of F with (if ?b then _ else _) = _ => destruct b end; try discriminate F; injection F as <-; reflexivity.
  - unfold drop_index_ops in Ho. destruct d; destruct Ho as [Ho|[]]; subst o; cbn [eff] in F; try discriminate F; rewrite Z in F; injection F as <-; reflexivity.
  - destruct Ho as [Ho|Ho].
    + subst o. cbn [eff] in F. repeat match type of F with (if ?b then _ else _) = _ => destruct b end; try discriminate F; injection F as <-; reflexivity.
    + assert (A : forall q v, In (Add q v) (action_ops d n a) -> key_eqb q k = false).
      { intros q v I. apply key_eqb_neq. intro G. subst q.
        destruct a as [new|nm new|nm new|col|nm|nm ty|nm x|nm|nm|nm|cc nv|nm|nm x y|col|nm x|nm ty nn|nm x|nm|r|r|]; cbn [action_ops add_col_ops] in I;
          try (destruct x as [[|]|]); try match type of nm with option _ => destruct nm end; try (destruct I as [I|[]]; discriminate I).
        - destruct I as [I|[]]. injection I as I _. destruct K as [[K _]|[c0 [K NK]]]; rewrite K in I; [discriminate I|]. injection I as I1 I2. apply NK. cbn [makes_column]. split; assumption.
        - destruct cc as [o1|o1|o1|o1|o1]; destruct o1; cbn in I; destruct I as [I|[]]; try discriminate I; injection I as I _;
            destruct K as [[K _]|[c0 [K _]]]; rewrite K in I; discriminate I.
        - destruct I as [I|[]]. injection I as I _. destruct K as [[K _]|[c0 [K _]]]; rewrite K in I; discriminate I. }
      assert (P : forall q v, In (Put q v) (action_ops d n a) -> key_eqb q k = false).
      { intros q v I. pose proof (alter_ops_in d n a _ I) as G. inversion G; subst. apply key_eqb_neq. intro X. subst k. destruct K as [[K _]|[c0 [K _]]]; discriminate K. }
      assert (Fr : forall u, ~ In (Fresh u) (action_ops d n a)) by (intros u I; pose proof (alter_ops_in d n a _ I) as G; inversion G).
      destruct o as [q|q v|q f|q|q v|u|u|u x|]; cbn [eff] in F;
        try (rewrite (A _ _ Ho) in F); try (rewrite (P _ _ Ho) in F); try destruct (Fr _ Ho);
        repeat match type of F with (if ?b then _ else _) = _ => destruct b end; try discriminate F; injection F as <-; reflexivity.
Qed.
Lemma go_absent : forall d s m t k, no_rename s ->
  (k = KTab t /\ ~ makes_table t s) \/ (exists c, k = KCol t c /\ ~ makes_column t c s) -> m k = None -> go d s m k = None.
Proof.
  intros d s m t k N K V. unfold go, dep_exec. destruct (exec d s m) as [m'|] eqn:X; [|exact V]. pose proof (exec_absent d s m m' t k X N K V) as Y.
  destruct (removes s); [unfold sweep; rewrite Y; reflexivity|]. destruct (new_intact d s m m'); assumption.
Qed.

(** ** A table or a column that is dropped and does not come back *)
Section Lost.
Variables (d : dialect) (t : string) (oc : option string).
(** [Some c]: the column, [None]: the table itself *)
Definition lost (m : db) : Prop := m (KTab t) = None \/ match oc with Some c => m (KCol t c) = None | None => False end.
Definition leaves (s : stmt) : Prop := no_rename s /\ ~ makes_table t s /\ match oc with Some c => ~ makes_column t c s | None => True end.
Definition loses (s : stmt) : Prop :=
  match oc, s with
  | None, DropTable _ false n => qname n = t
  | Some c, AlterTable _ n (DropColumn x) => qname n = t /\ id_name x = c
  | _, _ => False
  end.
Lemma go_lost : forall s m, leaves s -> lost m -> lost (go d s m).
Proof.
  intros s m [N [L1 L2]] [H|H]; [left; apply (go_absent d s m t); [exact N|left; split; [reflexivity|exact L1]|exact H]|]. right.
  destruct oc as [c|]; [|destruct H]. apply (go_absent d s m t); [exact N|right; exists c; split; [reflexivity|exact L2]|exact H].
Qed.
Lemma goes_lost : forall l m, (forall s, In s l -> leaves s) -> lost m -> lost (goes d l m).
Proof. intros l. induction l as [|s l IH]; intros m L H; cbn [goes]; [exact H|]. apply IH; [intros x Hx; apply L; right; exact Hx|]. apply go_lost; [apply L; left; reflexivity|exact H]. Qed.
Lemma loses_trips : forall s m, loses s -> lost m -> dep_exec d s m = None.
Proof.
  intros s m L H. unfold loses in L. unfold lost in H. destruct s as [ct|i|cm ie n|cm ie n|cm n a]; destruct oc as [c|]; try contradiction.
  - destruct ie; [contradiction|]. destruct H as [H|[]]. unfold dep_exec. cbn [exec andb stmt_ops Db.run op_ok]. rewrite L, H. reflexivity.
  - destruct a; try contradiction. destruct L as [L1 L2]. unfold dep_exec. cbn [exec stmt_ops action_ops Db.run op_ok op_db]. rewrite L1, L2. destruct H as [H|H]; rewrite H; [reflexivity|].
    destruct (present _); reflexivity.
Qed.
Lemma loses_gone : forall s m, loses s -> lost (go d s m).
Proof.
  intros s m L. unfold loses in L. unfold lost. destruct s as [ct|i|cm ie n|cm ie n|cm n a]; destruct oc as [c|]; try contradiction.
  - destruct ie; [contradiction|]. left. unfold go, dep_exec. cbn [exec andb stmt_ops Db.run op_ok removes]. rewrite L. destruct (m (KTab t)) eqn:P; cbn [present]; [|exact P].
    unfold sweep. cbn [op_db]. unfold owned_by. cbn [owner]. rewrite String.eqb_refl. reflexivity.
  - destruct a; try contradiction. destruct L as [L1 L2]. unfold go, dep_exec. cbn [exec stmt_ops action_ops Db.run op_ok op_db removes]. rewrite L1, L2.
    destruct (m (KTab t)) eqn:P; cbn [present]; [|left; exact P]. destruct (m (KCol t c)) eqn:R; cbn [present]; [|right; exact R].
    right. unfold sweep. cbn [op_db key_eqb]. rewrite !String.eqb_refl. reflexivity.
Qed.
Lemma lost_trips : forall s l m, In s l -> loses s -> (forall x, In x l -> leaves x) -> lost m -> trips d l m = true /\ lost (goes d l m).
Proof.
  intros s l m I L A H. split; [|apply goes_lost; assumption]. apply in_split in I. destruct I as [l1 [l2 ->]]. rewrite trips_app. cbn [trips].
  rewrite (loses_trips s _ L); [rewrite orb_true_r; reflexivity|]. apply goes_lost; [|exact H]. intros x Hx. apply A. apply in_or_app. left. exact Hx.
Qed.
Lemma attempt_lost : forall s l m, In s l -> loses s -> (forall x, In x l -> leaves x) -> lost (goes d l m).
Proof.
  intros s l m I L A. apply in_split in I. destruct I as [l1 [l2 ->]]. rewrite goes_app. cbn [goes]. apply goes_lost; [|apply loses_gone; exact L].
  intros x Hx. apply A. apply in_or_app. right. right. exact Hx.
Qed.
End Lost.

(** The statements of a difference do not bring back what it drops. *)
Lemma diff_leaves : forall d srt sdiff before after mb ma stmts, d <> Sp -> srt_ok srt -> describes d before mb -> describes d after ma ->
  tidy d before = true -> tidy d after = true -> diff d srt sdiff (Some before) (Some after) = DOk stmts ->
  forall s t oc, In s stmts -> loses t oc s -> forall x, In x stmts -> leaves t oc x.
Proof.
  intros d srt sdiff before after mb ma stmts Nd Hs DB DA TB TA E s t oc I L x Ix.
  split; [exact (diff_no_rename d srt sdiff before after stmts Hs TB TA E x Ix)|].
  assert (C : forall ct, In (CreateTable ct) stmts -> ~ has_table (table_name ct) before).
  { intros ct Ic. destruct (diff_loose d srt sdiff before after stmts _ Hs TB TA E Ic) as [J|[tb' [ta' [_ [p [q [_ [_ [_ [_ W]]]]]]]]]]; [|destruct W].
    destruct J as [_ [J|[J _]]]; [exact J|contradiction]. }
  unfold loses in L. destruct s as [ct|i|cm ie n|cm ie n|cm n a]; destruct oc as [c|]; try contradiction.
  - destruct ie; [contradiction|]. subst t. split; [|exact Logic.I]. intro F. destruct x as [ct|i|c0 ie n0|c0 ie n0|c0 n0 a]; try exact F. cbn [makes_table] in F.
    destruct (diff_loose d srt sdiff before after stmts _ Hs TB TA E I) as [J|[tb' [ta' [_ [p [q [_ [_ [_ [_ W]]]]]]]]]]; [|destruct W].
    destruct J as [J _]. rewrite <- F in J. exact (C ct Ix J).
  - destruct a; try contradiction. destruct L as [L1 L2].
    destruct (diff_loose d srt sdiff before after stmts _ Hs TB TA E I) as [J|[tb' [ta' [_ [p [q [_ [_ [_ [_ W]]]]]]]]]]; [|destruct W].
    destruct J as [tb [ta [[P1 [P2 P3]] [M [K1 K2]]]]].
    assert (HB : has_table t before) by (unfold has_table; rewrite <- L1, M, <- P3; apply in_map; exact P1).
    assert (D : forall ct, x = CreateTable ct -> table_name ct <> t) by (intros ct G F; subst x; rewrite <- F in HB; exact (C ct Ix HB)).
    split.
    + intro F. destruct x as [ct|i|c0 ie n1|c0 ie n1|c0 n1 a]; try exact F. exact (D ct eq_refl F).
    + intro F. destruct x as [ct|i|c0 ie n1|c0 ie n1|c0 n1 a]; try exact F; [exact (D ct eq_refl F)|]. destruct a; try exact F. cbn [makes_column] in F. destruct F as [F1 F2].
      destruct (diff_loose d srt sdiff before after stmts _ Hs TB TA E Ix) as [J|[tb' [ta' [_ [p [q [_ [_ [_ [_ W]]]]]]]]]]; [|destruct W].
      destruct J as [tb' [ta' [[Q1 [Q2 Q3]] [M' [K3 K4]]]]]. apply K2.
      destruct (describes_entries d after ma DA) as [NA _]. destruct DA as [CA _].
      assert (ta' = ta) by (apply (table_names_eq d after ta' ta CA NA); [apply in_tables; exact Q2|apply in_tables; exact P2|unfold table_name in *; congruence]). subst ta'.
      rewrite L2, <- F2. unfold col_names. apply in_map_iff. eexists. split; [reflexivity|exact K3].
Qed.
Lemma once_lost : forall w dsn src d before after mb ma stmts s t oc tr,
  migration w dsn src d before after mb ma stmts -> In s stmts -> loses t oc s -> apply_command w [dsn; src] = (tr, Done) ->
  exists m, dep_exec_all d stmts mb = Some m /\ map fst (sent tr) = map (text d) stmts /\ dep_now d tr mb = m.
Proof.
  intros w dsn src d before after mb ma stmts s t oc tr M I L A. pose proof M as [Hp Hd Hs _ _ _ [DB [TB _]] [DA [TA _]] E _].
  assert (Nd : d <> Sp) by (destruct Hp; congruence).
  pose proof (diff_leaves d _ _ before after mb ma stmts Nd Hs DB DA TB TA E s t oc I L) as Lv.
  apply (migration_once w dsn src d before after mb ma stmts tr (lost t oc) M); [|exact (attempt_lost d t oc s stmts mb I L Lv)|exact A].
  intros m H. exact (lost_trips d t oc s stmts m I L Lv H).
Qed.

(** A migration that drops a table, or a column, and ends well has worked at the first attempt. *)
Theorem C93_no_second_chance_to_drop_a_table : forall w dsn src d before after mb ma stmts cm n tr,
  migration w dsn src d before after mb ma stmts -> In (DropTable cm false n) stmts -> apply_command w [dsn; src] = (tr, Done) ->
  exists m, dep_exec_all d stmts mb = Some m /\ map fst (sent tr) = map (text d) stmts /\ dep_now d tr mb = m.
Proof. intros w dsn src d before after mb ma stmts cm n tr M I A. exact (once_lost w dsn src d before after mb ma stmts _ (qname n) None tr M I eq_refl A). Qed.
Print Assumptions C93_no_second_chance_to_drop_a_table.
Theorem C93_no_second_chance_to_drop_a_column : forall w dsn src d before after mb ma stmts cm n c tr,
  migration w dsn src d before after mb ma stmts -> In (AlterTable cm n (DropColumn c)) stmts -> apply_command w [dsn; src] = (tr, Done) ->
  exists m, dep_exec_all d stmts mb = Some m /\ map fst (sent tr) = map (text d) stmts /\ dep_now d tr mb = m.
Proof. intros w dsn src d before after mb ma stmts cm n c tr M I A. exact (once_lost w dsn src d before after mb ma stmts _ (qname n) (Some (id_name c)) tr M I (conj eq_refl eq_refl) A). Qed.
Print Assumptions C93_no_second_chance_to_drop_a_column.

(** So for a migration that adds or drops a column, or drops a table, the statements alone decide. *)
Definition decisive (s : stmt) : bool :=
  match s with
  | DropTable _ false _ | AlterTable _ _ (AddColumn _) | AlterTable _ _ (DropColumn _) => true
  | _ => false
  end.
Theorem C93_decided_by_the_statements : forall w dsn src d before after mb ma stmts, working w -> approved w ->
  migration w dsn src d before after mb ma stmts -> existsb decisive stmts = true ->
  ((exists tr, apply_command w [dsn; src] = (tr, Done)) <-> exists m, dep_exec_all d stmts mb = Some m).
Proof.
  intros w dsn src d before after mb ma stmts Ww Wa M H. apply existsb_exists in H. destruct H as [s [I H]]. split.
  - intros [tr A].
    assert (R : exists m, dep_exec_all d stmts mb = Some m /\ map fst (sent tr) = map (text d) stmts /\ dep_now d tr mb = m).
    { destruct s as [ct|i|cm ie n|cm ie n|cm n a]; try discriminate H.
      - destruct ie; [discriminate H|]. exact (C93_no_second_chance_to_drop_a_table w dsn src d before after mb ma stmts cm n tr M I A).
      - destruct a; try discriminate H.
        + exact (C93_no_second_chance w dsn src d before after mb ma stmts cm n _ tr M I A).
        + exact (C93_no_second_chance_to_drop_a_column w dsn src d before after mb ma stmts cm n _ tr M I A). }
    destruct R as [m [X _]]. exists m. exact X.
  - intros [m X]. destruct (C93_what_works_is_done w dsn src d before after mb ma stmts m Ww Wa M X) as [tr [A _]]. exists tr. exact A.
Qed.
Print Assumptions C93_decided_by_the_statements.

(** A table goes, and the new table refers to a later one: two attempts do everything, none of them all of it. *)
Definition swap_old : string := "CREATE TABLE z (x INTEGER);".
Definition swap_new : string := "CREATE TABLE a (x INTEGER, CONSTRAINT f FOREIGN KEY (x) REFERENCES b (y)); CREATE TABLE b (y INTEGER);".
Example C93_drop_example : exists tr, movable Pg swap_old swap_new = true
  /\ apply_command (dep_serving Pg "postgres" swap_old swap_new) ["db"; "new"]%string = (tr, Failed)
  /\ firstn 6 (map snd (sent tr)) = [None; Some exec_error; None; Some exec_error; None; Some exec_error].
Proof. eexists. split; [vm_compute; reflexivity|]. split; [vm_compute; reflexivity|]. vm_compute. reflexivity. Qed.
Example C93_drop_hypotheses : exists stmts, diff_of Pg (schema Pg swap_old) (schema Pg swap_new) = DOk stmts
  /\ migration (dep_serving Pg "postgres" swap_old swap_new) "db" "new" Pg (schema Pg swap_old) (schema Pg swap_new)
       (catalogue Pg (schema Pg swap_old)) (catalogue Pg (schema Pg swap_new)) stmts
  /\ existsb decisive stmts = true /\ working (dep_serving Pg "postgres" swap_old swap_new) /\ approved (dep_serving Pg "postgres" swap_old swap_new).
Proof.
  eexists. split; [vm_compute; reflexivity|]. split; [|split; [reflexivity|split; [repeat split|left; reflexivity]]].
  apply movable_migration; [left; reflexivity|reflexivity|vm_compute; reflexivity|vm_compute; reflexivity].
Qed.
(** A column goes and another one comes: done at the first attempt. *)
Example C93_drop_column_example : exists tr, apply_command (dep_serving Crdb "cockroachdb" "CREATE TABLE t (a INT, b INT);" "CREATE TABLE t (a INT, c INT);") ["db"; "new"]%string = (tr, Done)
  /\ sent tr = [("ALTER TABLE t DROP COLUMN b", None); ("ALTER TABLE t ADD COLUMN c INT", None)]%string.
Proof. eexists. split; [vm_compute; reflexivity|]. vm_compute. reflexivity. Qed.
