(** Property C93: PostgreSQL and CockroachDB do not get a second chance to add a column. *)
From Coq Require Import Lia.
From Verif Require Import GoStr Token Lexer LexSpec Ast Parser Diff Db DbFacts AppendFacts Tidy TidyFacts DiffSame Reconcile ReconcileFacts Honest DiffSpec Justified Frame
  Lines LinesFacts Apply ApplySpec ApplyFacts Intact IntactFacts Printable SqlRead ReadFacts ReadDiff SqlDb SqlDbFacts DbDep DepServer StuckFacts.
From Verif Require DiffSound.
From Verif Require Import Answer AnswerFacts DoomFacts DoomIndex PropsParse PropsDiff PropsApply PropsRead PropsAnswer PropsDoom InterruptFacts StuckFacts.
Local Open Scope list_scope.

(** The statements of a difference that adds a column keep its table and do not drop it. *)
Lemma diff_spares : forall d srt sdiff before after mb ma stmts cm n col, d <> Sp -> srt_ok srt -> describes d before mb -> describes d after ma ->
  tidy d before = true -> tidy d after = true -> diff d srt sdiff (Some before) (Some after) = DOk stmts ->
  In (AlterTable cm n (AddColumn col)) stmts ->
  standing (qname n) (id_name (c_name col)) mb /\ forall s, In s stmts -> spares (qname n) (id_name (c_name col)) s.
Proof.
  intros d srt sdiff before after mb ma stmts cm n col Nd Hs DB DA TB TA E I.
  destruct (diff_loose d srt sdiff before after stmts _ Hs TB TA E I) as [J|[tb [ta [_ [x [y [_ [_ [_ [_ W]]]]]]]]]]; [|destruct W].
  cbn [stmt_justified] in J. destruct J as [tb [ta [[P1 [P2 P3]] [N [J1 J2]]]]].
  assert (HB : has_table (qname n) before) by (unfold has_table; rewrite N, <- P3; apply in_map; exact P1).
  assert (HA : has_table (qname n) after) by (unfold has_table; rewrite N; apply in_map; exact P2).
  split.
  - split; [rewrite (present_table d before mb _ DB HB); exact Logic.I|]. exact (owned_solid d before mb (KCol (qname n) (id_name (c_name col))) (qname n) DB eq_refl).
  - intros s Is. split; [exact (diff_no_rename d srt sdiff before after stmts Hs TB TA E s Is)|].
    destruct (diff_loose d srt sdiff before after stmts s Hs TB TA E Is) as [J|[tb' [ta' [_ [x [y [_ [_ [_ [_ W]]]]]]]]]].
    + split; intro F.
      * destruct s as [ct|i|c ie m|c ie m|c m a]; try exact (False_ind _ F); cbn [replaces_table stmt_justified] in *.
        -- destruct J as [_ [J|[J _]]]; [|contradiction]. rewrite F in J. contradiction.
        -- destruct J as [_ [J|[J _]]]; [|contradiction]. rewrite F in J. contradiction.
      * destruct s as [ct|i|c ie m|c ie m|c m a]; try exact (False_ind _ F). destruct a; try exact (False_ind _ F). destruct F as [F1 F2].
        destruct J as [tb' [ta' [[Q1 [Q2 Q3]] [M [K1 K2]]]]]. apply K2. rewrite F2.
        destruct (describes_entries d after ma DA) as [NA _]. destruct DA as [CA _].
        assert (ta' = ta) by (apply (table_names_eq d after ta' ta CA NA); [apply in_tables; exact Q2|apply in_tables; exact P2|unfold table_name in *; congruence]). subst ta'.
        unfold col_names. apply in_map_iff. exists col. split; [reflexivity|exact J1].
    + destruct s as [ct|i|c ie m|c ie m|c m a]; try exact (False_ind _ W); split; intro F; try exact F; try exact (False_ind _ F). destruct a; try exact (False_ind _ W); destruct F.
Qed.

(** A run of apply from the schema of the database to another one, on a server that enforces
    dependencies: both texts are read and can be printed again, the statements of the difference
    survive the way to the server. *)
Record migration (w : world) (dsn src : string) (d : dialect) (before after : ddl) (mb ma : db) (stmts : ddl) : Prop := mkMigration {
  mi_dialect : d = Pg \/ d = Crdb;
  mi_world : dialect_of (w_dialect w) = Some d;
  mi_sort : srt_ok (w_srt w);
  mi_old : exists s, w_resolve w dsn = Some s /\ parse d (w_srt w) s = Ok before;
  mi_new : exists s, w_resolve w src = Some s /\ parse d (w_srt w) s = Ok after;
  mi_server : dep_served d mb w;
  mi_before : describes d before mb /\ tidy d before = true /\ printable d before = true /\ index_names_ok d before = true;
  mi_after : describes d after ma /\ tidy d after = true /\ printable d after = true /\ index_names_ok d after = true;
  mi_stmts : diff d (w_srt w) (w_sdiff w) (Some before) (Some after) = DOk stmts;
  mi_texts : forallb (fun s => arrives d (text d s) && comment_arrives d (comment_of s)) stmts = true
}.

(** A run that ends well, if something that the first attempt leaves behind makes every attempt fail. *)
Lemma migration_once : forall w dsn src d before after mb ma stmts tr (Q : db -> Prop), migration w dsn src d before after mb ma stmts ->
  (forall m, Q m -> trips d stmts m = true /\ Q (goes d stmts m)) -> Q (goes d stmts mb) -> apply_command w [dsn; src] = (tr, Done) ->
  exists m, dep_exec_all d stmts mb = Some m /\ map fst (sent tr) = map (text d) stmts /\ dep_now d tr mb = m.
Proof.
  intros w dsn src d before after mb ma stmts tr Q0 [Hp Hd Hs [s1 [R1 P1]] [s2 [R2 P2]] W [DB [TB [PB NB]]] [DA [TA [PA NA]]] E Cl] Kp St A.
  destruct (command_cases _ _ _ _ A) as [[_ K]|[[t [_ O]]|[dsn' [src' [d' [stmts' [e2 [ok [Ea [Et [Ed [X [T [Q O]]]]]]]]]]]]]].
  - exfalso. destruct (K eq_refl) as [x [y [Ea Et]]]. injection Ea as <- <-. unfold diff_text in Et. rewrite R1, R2, Hd, P1, P2, E in Et. discriminate Et.
  - discriminate O.
  - injection Ea as <- <-. rewrite Hd in Ed. injection Ed as <-. unfold diff_text in Et. rewrite R1, R2, Hd, P1, P2, E in Et. injection Et as Es. rewrite <- Es in *. clear Es stmts'.
    destruct ok; [|discriminate O]. clear O.
    assert (F : Forall2 (text_of d) stmts (map (text d) stmts)).
    { clear. induction stmts as [|s l IH]; constructor; [apply text_ends|exact IH]. }
    assert (C : forallb (arrives d) (map (text d) stmts) = true /\ forallb (fun s => comment_arrives d (comment_of s)) stmts = true).
    { rewrite !forallb_forall in *. split; [intros q Hq; apply in_map_iff in Hq; destruct Hq as [s [E' Hq]]; subst q|intros s Hq]; specialize (Cl s Hq); apply andb_true_iff in Cl; apply Cl. }
    destruct C as [C K]. pose proof (texts_not_empty _ _ _ F) as Ne.
    assert (Y : nonempty (pieces (ddl_string d stmts)) = map (text d) stmts).
    { pose proof (cut_arrives d stmts (map (text d) stmts) F) as Z. rewrite C, K in Z. unfold cut in Z. destruct Hp as [-> | ->]; apply Z; reflexivity. }
    assert (X' : retry_do w (fun _ => false) (map (text d) stmts) (List.length (pieces (ddl_string d stmts))) (started w (ddl_string d stmts) ++ [EOpen dsn]) = (e2, true)).
    { rewrite <- Y, retry_nonempty. destruct Hp as [-> | ->]; exact X. }
    assert (S0 : sent (started w (ddl_string d stmts) ++ [EOpen dsn]) = []) by (unfold started, approval; destruct (w_auto w); reflexivity).
    assert (M0 : dep_now d (started w (ddl_string d stmts) ++ [EOpen dsn]) mb = mb) by (unfold dep_now; rewrite S0; reflexivity).
    assert (Say : forall s, In s stmts -> says d s) by (intros s Is; exact (diff_says d (w_srt w) (w_sdiff w) Hs before after PB PA NB NA stmts s E Is)).
    destruct (retry_once d mb w W Q0 stmts (map (text d) stmts) F Ne Say Kp _ _ ltac:(rewrite M0; exact St) _ _ X' eq_refl) as [B1 [B2 B3]].
    rewrite M0 in B1, B3. exists (goes d stmts mb). split; [exact (no_trip d stmts mb B1)|]. split; [rewrite Q; exact B2|].
    rewrite <- B3. unfold dep_now. rewrite Q, sent_app, S0. reflexivity.
Qed.

(** If the difference adds a column and apply ends well, then its statements work one after the
    other, they were sent once, and nothing was retried: an attempt during which anything failed is
    final, although apply tries again. *)
Theorem C93_no_second_chance : forall w dsn src d before after mb ma stmts cm n col tr,
  migration w dsn src d before after mb ma stmts -> In (AlterTable cm n (AddColumn col)) stmts ->
  apply_command w [dsn; src] = (tr, Done) ->
  exists m, dep_exec_all d stmts mb = Some m /\ map fst (sent tr) = map (text d) stmts /\ dep_now d tr mb = m.
Proof.
  intros w dsn src d before after mb ma stmts cm n col tr M I A. pose proof M as [Hp Hd Hs _ _ _ [DB [TB _]] [DA [TA _]] E _].
  assert (Nd : d <> Sp) by (destruct Hp; congruence).
  destruct (diff_spares d _ _ before after mb ma stmts cm n col Nd Hs DB DA TB TA E I) as [St Sp0].
  apply (migration_once w dsn src d before after mb ma stmts tr (having (qname n) (id_name (c_name col))) M); [|exact (attempt_having d _ _ cm n col eq_refl eq_refl stmts mb I Sp0 St)|exact A].
  intros m H. exact (having_trips d _ _ cm n col eq_refl eq_refl stmts m I Sp0 H).
Qed.
Print Assumptions C93_no_second_chance.
(** The same for a new table, if the first attempt creates it: all statements have worked then, or
    apply fails. *)
Theorem C93_no_second_chance_for_tables : forall w dsn src d before after mb ma stmts t tr,
  migration w dsn src d before after mb ma stmts -> In (CreateTable t) stmts -> ct_ifnotexists t = false ->
  present (dep_after d (map (text d) stmts) mb (KTab (qname (ct_name t)))) = true ->
  apply_command w [dsn; src] = (tr, Done) ->
  exists m, dep_exec_all d stmts mb = Some m /\ map fst (sent tr) = map (text d) stmts /\ dep_now d tr mb = m.
Proof.
  intros w dsn src d before after mb ma stmts t tr M I Nt P A. pose proof M as [Hp Hd Hs _ _ _ [DB [TB [PB NB]]] [DA [TA [PA NA]]] E _].
  assert (Nd : d <> Sp) by (destruct Hp; congruence).
  assert (F : Forall2 (text_of d) stmts (map (text d) stmts)).
  { clear. induction stmts as [|s l IH]; constructor; [apply text_ends|exact IH]. }
  assert (Say : forall s, In s stmts -> says d s) by (intros s Is; exact (diff_says d (w_srt w) (w_sdiff w) Hs before after PB PA NB NA stmts s E Is)).
  rewrite (goes_after d stmts _ mb F Say) in P.
  assert (NR : forall s, In s stmts -> no_rename s) by exact (diff_no_rename d (w_srt w) (w_sdiff w) before after stmts Hs TB TA E).
  assert (L : forall s, In s stmts -> lets_be (qname (ct_name t)) s).
  { intros s Is. split; [exact (NR s Is)|]. destruct s as [x|i|c ie n|c ie n|c n a]; try exact Logic.I. intro G.
    destruct (C16_drop_table_only_if_gone d _ _ before after stmts c ie n Nd Hs TB TA E Is) as [HB HA]. rewrite G in HA, HB.
    destruct (diff_loose d _ _ before after stmts _ Hs TB TA E I) as [J|[tb [ta [_ [x [y [_ [_ [_ [_ W]]]]]]]]]]; [|destruct W].
    destruct J as [_ [J|[J _]]]; contradiction. }
  assert (S0 : solid (mb (KTab (qname (ct_name t))))) by exact (owned_solid d before mb (KTab (qname (ct_name t))) (qname (ct_name t)) DB eq_refl).
  pose proof (goes_solid d (qname (ct_name t)) stmts mb NR S0) as S1.
  apply (migration_once w dsn src d before after mb ma stmts tr (fun m => there (m (KTab (qname (ct_name t))))) M); [| |exact A].
  - intros m H. exact (table_trips d _ stmts t m I eq_refl Nt L H).
  - destruct (goes d stmts mb (KTab (qname (ct_name t)))) as [[]|]; try exact Logic.I; [destruct S1|discriminate P].
Qed.
Print Assumptions C93_no_second_chance_for_tables.
(** So what cannot be done at once is not done at all. *)
Corollary C93_doomed_for_good : forall w dsn src d before after mb ma stmts cm n col tr o,
  migration w dsn src d before after mb ma stmts -> In (AlterTable cm n (AddColumn col)) stmts ->
  dep_exec_all d stmts mb = None -> apply_command w [dsn; src] = (tr, o) -> o <> Done.
Proof.
  intros w dsn src d before after mb ma stmts cm n col tr o M I X A ->.
  destruct (C93_no_second_chance w dsn src d before after mb ma stmts cm n col tr M I A) as [m [Y _]]. congruence.
Qed.
Print Assumptions C93_doomed_for_good.

(** The column that is in the new table and not in the old one is added. *)
Lemma column_added : forall w dsn src d before after mb ma stmts t u col, migration w dsn src d before after mb ma stmts ->
  In (CreateTable t) before -> In (CreateTable u) after -> qname (ct_name t) = qname (ct_name u) -> create_table_string d t <> create_table_string d u ->
  In col (ct_columns u) -> ~ In (id_name (c_name col)) (col_names t) -> exists cm, In (AlterTable cm (ct_name u) (AddColumn col)) stmts.
Proof.
  intros w dsn src d before after mb ma stmts t u col [Hp Hd Hs [s1 [R1 P1]] [s2 [R2 P2]] W [DB [TB [PB NB]]] [DA [TA [PA NA]]] E Cl] It Iu Et Eo Ic Nc.
  assert (Nd : d <> Sp) by (destruct Hp; congruence).
  assert (U : distinct_names after).
  { intros x Ix. apply label_option. apply (C07_constraints_uniquely_named_partial d (w_srt w) s2 after x Hs P2 Ix). intro F. contradiction. }
  exists (w_sdiff w "" (column_string d col)). apply (C89_columns_added d (w_srt w) (w_sdiff w) before after stmts _ _ col Hs U E). exists t, u.
  split; [exact It|]. split.
  - destruct (in_split _ _ Iu) as [l1 [l2 El]]. exists l1, l2. split; [exact El|]. split; [symmetry; exact Et|]. intros y Iy Fy. destruct y as [y| | | |]; try exact Fy. cbn [for_table] in Fy.
    destruct (describes_entries d after ma DA) as [ND _]. destruct DA as [CA _].
    assert (y = u) by (apply (table_names_eq d after y u CA ND); [rewrite El; apply in_or_app; left; exact Iy|exact Iu|congruence]). subst y.
    pose proof (DiffSound.nodup_stmts d after CA ND) as NS. rewrite El in NS. apply NoDup_remove_2 in NS. apply NS. apply in_or_app. left. exact Iy.
  - split; [intros [F _]; contradiction|]. split; [exact Eo|]. split; [reflexivity|]. split; [exact Ic|]. split; [|reflexivity].
    intros y Iy Fy. apply Nc. unfold col_names. apply in_map_iff. exists y. split; [exact Fy|exact Iy].
Qed.

(** Whoever adds a column together with an index on it is never done. *)
Theorem C93_index_on_new_column_never_comes : forall w dsn src d before after mb ma stmts t u col j c tr o,
  migration w dsn src d before after mb ma stmts ->
  In (CreateTable t) before -> In (CreateTable u) after -> qname (ct_name t) = qname (ct_name u) -> create_table_string d t <> create_table_string d u ->
  In col (ct_columns u) -> ~ In (id_name (c_name col)) (col_names t) ->
  In (CreateIndex j) after -> qname (cx_table j) = qname (ct_name t) -> mb (KIdx (qname (cx_name j))) = None ->
  In c (cx_columns j) -> id_name (ci_ident c) = id_name (c_name col) ->
  apply_command w [dsn; src] = (tr, o) -> o <> Done.
Proof.
  intros w dsn src d before after mb ma stmts t u col j c tr o M It Iu Et Eo Ic Nc Ij Tj Nj Icj Ecj A.
  destruct (column_added w dsn src d before after mb ma stmts t u col M It Iu Et Eo Ic Nc) as [cm Ia].
  apply (C93_doomed_for_good w dsn src d before after mb ma stmts cm (ct_name u) col tr o M Ia); [|exact A].
  destruct M as [_ _ _ _ _ _ [DB _] [DA _] E _]. apply (new_index_doomed d (w_srt w) (w_sdiff w) before after mb ma t j c stmts); try assumption. rewrite Ecj. exact Nc.
Qed.
Print Assumptions C93_index_on_new_column_never_comes.
(** Nor is who adds a column together with a table that refers to it. *)
Theorem C93_reference_to_new_column_never_comes : forall w dsn src d before after mb ma stmts t u col y n cols ref refcols act c tr o,
  migration w dsn src d before after mb ma stmts ->
  In (CreateTable t) before -> In (CreateTable u) after -> qname (ct_name t) = qname (ct_name u) -> create_table_string d t <> create_table_string d u ->
  In col (ct_columns u) -> ~ In (id_name (c_name col)) (col_names t) ->
  In (CreateTable y) after -> (forall x, In (CreateTable x) before -> qname (ct_name x) <> qname (ct_name y)) ->
  In (CForeign n cols ref refcols act) (ct_constraints y) -> id_name ref = qname (ct_name t) ->
  In c refcols -> id_name (ci_ident c) = id_name (c_name col) ->
  apply_command w [dsn; src] = (tr, o) -> o <> Done.
Proof.
  intros w dsn src d before after mb ma stmts t u col y n cols ref refcols act c tr o M It Iu Et Eo Ic Nc Iy Ny If Er Icr Ecr A.
  destruct (column_added w dsn src d before after mb ma stmts t u col M It Iu Et Eo Ic Nc) as [cm Ia].
  apply (C93_doomed_for_good w dsn src d before after mb ma stmts cm (ct_name u) col tr o M Ia); [|exact A].
  destruct M as [_ _ _ _ _ _ [DB _] [DA _] E _]. apply (new_reference_doomed d (w_srt w) (w_sdiff w) before after mb ma t y n cols ref refcols act c stmts); try assumption. rewrite Ecr. exact Nc.
Qed.
Print Assumptions C93_reference_to_new_column_never_comes.

(** A world with such a server *)
Definition dep_serving (d : dialect) (name b a : string) : world :=
  mkWorld true true name (sources b a) (fun _ _ => true) "" (fun _ => true) (fun _ => true)
    (fun past q => snd (dep_answer d q (dep_now d past (catalogue d (schema d b))))) (fun _ => true) id_sort no_text.
Definition movable (d : dialect) (b a : string) : bool :=
  accepted d b && accepted d a && described d (schema d b) && described d (schema d a) && tidy d (schema d b) && tidy d (schema d a)
  && printable d (schema d b) && printable d (schema d a) && index_names_ok d (schema d b) && index_names_ok d (schema d a) && clean_texts d b a.
Lemma movable_migration : forall d name b a stmts, d = Pg \/ d = Crdb -> dialect_of name = Some d -> movable d b a = true ->
  diff_of d (schema d b) (schema d a) = DOk stmts ->
  migration (dep_serving d name b a) "db" "new" d (schema d b) (schema d a) (catalogue d (schema d b)) (catalogue d (schema d a)) stmts.
Proof.
  intros d name b a stmts Hp Hd H E. unfold movable in H. rewrite !andb_true_iff in H. destruct H as [[[[[[[[[[A1 A2] B1] B2] T1] T2] P1] P2] N1] N2] C].
  assert (P : forall s, accepted d s = true -> parse d id_sort s = Ok (schema d s)).
  { intros s Hs. unfold accepted in Hs. unfold schema. destruct (parse d id_sort s); try discriminate Hs; reflexivity. }
  split; try assumption.
  - apply id_sort_ok.
  - exists b. split; [reflexivity|apply P; exact A1].
  - exists a. split; [reflexivity|apply P; exact A2].
  - intros past q. reflexivity.
  - auto using described_ok.
  - auto using described_ok.
  - unfold clean_texts in C. rewrite E in C. exact C.
Qed.
Definition new_column_old : string := "CREATE TABLE t (a INTEGER);".
Definition new_column_new : string := "CREATE TABLE t (a INTEGER, b INTEGER); CREATE INDEX i ON t (b);".
(** The first attempt adds the column, the second one creates the index, none succeeds. *)
Example C93_example : exists tr, movable Pg new_column_old new_column_new = true
  /\ apply_command (dep_serving Pg "postgres" new_column_old new_column_new) ["db"; "new"]%string = (tr, Failed)
  /\ firstn 6 (sent tr) = [("CREATE INDEX i ON t (b)", Some exec_error); ("ALTER TABLE t ADD COLUMN b INTEGER", None);
       ("CREATE INDEX i ON t (b)", None); ("ALTER TABLE t ADD COLUMN b INTEGER", Some exec_error);
       ("CREATE INDEX i ON t (b)", Some exec_error); ("ALTER TABLE t ADD COLUMN b INTEGER", Some exec_error)]%string.
Proof. eexists. split; [vm_compute; reflexivity|]. split; [vm_compute; reflexivity|]. vm_compute. reflexivity. Qed.
(** The catalogue then is the wanted one - and apply says it failed. *)
Example C93_reached_and_failed : exists tr, apply_command (dep_serving Pg "postgres" new_column_old new_column_new) ["db"; "new"]%string = (tr, Failed)
  /\ forallb (fun k => present (dep_now Pg tr (catalogue Pg (schema Pg new_column_old)) k)) (keys Pg (schema Pg new_column_new)) = true.
Proof. eexists. split; [vm_compute; reflexivity|]. vm_compute. reflexivity. Qed.
Example C93_hypotheses : exists stmts cm n col, diff_of Crdb (schema Crdb new_column_old) (schema Crdb new_column_new) = DOk stmts
  /\ migration (dep_serving Crdb "cockroachdb" new_column_old new_column_new) "db" "new" Crdb (schema Crdb new_column_old) (schema Crdb new_column_new)
       (catalogue Crdb (schema Crdb new_column_old)) (catalogue Crdb (schema Crdb new_column_new)) stmts
  /\ In (AlterTable cm n (AddColumn col)) stmts.
Proof.
  eexists _, _, _, _. split; [vm_compute; reflexivity|]. split; [|right; left; reflexivity].
  apply movable_migration; [right; reflexivity|reflexivity|vm_compute; reflexivity|vm_compute; reflexivity].
Qed.
(** A column and an index on another one: done at the first attempt. *)
Example C93_harmless : exists tr, apply_command (dep_serving Pg "postgres" new_column_old "CREATE TABLE t (a INTEGER, b INTEGER); CREATE INDEX i ON t (a);") ["db"; "new"]%string = (tr, Done)
  /\ map snd (sent tr) = [None; None].
Proof. eexists. split; [vm_compute; reflexivity|]. vm_compute. reflexivity. Qed.
(** Two new tables, the first refers to the second: the second attempt creates the first one, and fails. *)
Example C93_tables_example : exists tr, movable Pg "CREATE TABLE z (x INTEGER);" "CREATE TABLE z (x INTEGER); CREATE TABLE a (x INTEGER, CONSTRAINT f FOREIGN KEY (x) REFERENCES b (y)); CREATE TABLE b (y INTEGER);" = true
  /\ apply_command (dep_serving Pg "postgres" "CREATE TABLE z (x INTEGER);" "CREATE TABLE z (x INTEGER); CREATE TABLE a (x INTEGER, CONSTRAINT f FOREIGN KEY (x) REFERENCES b (y)); CREATE TABLE b (y INTEGER);") ["db"; "new"]%string = (tr, Failed)
  /\ firstn 4 (map snd (sent tr)) = [Some exec_error; None; None; Some exec_error].
Proof. eexists. split; [vm_compute; reflexivity|]. split; [vm_compute; reflexivity|]. vm_compute. reflexivity. Qed.
