(** C88: migrations whose difference cannot lead to the wanted schema, whatever the schemas are.
    (The theorems named _refuted under C12, C35, C36 and C37 give single witnesses; here all pairs
    of the kind are covered.) *)
From Verif Require Import GoStr Token Ast Parser Diff Db DbFacts AppendFacts Tidy Reconcile DbDep DepFacts DbRefuse PropsDiff DoomFacts DoomIndex.
Local Open Scope list_scope.

(** ** A table goes together with an index on it: DROP TABLE takes the index along, the DROP INDEX
    that follows fails.  This is every old schema that can be created at all, in every dialect. *)
Theorem C88_table_with_index_cannot_go : forall d srt sdiff before after mb t i stmts,
  forallb is_create before = true -> dep_exec_all d (map forget_ine before) empty_db = Some mb ->
  forallb is_create after = true ->
  In (CreateTable t) before -> In (CreateIndex i) before -> qname (cx_table i) = qname (ct_name t) ->
  stays after (CreateTable t) = false -> stays after (CreateIndex i) = false ->
  diff d srt sdiff (Some before) (Some after) = DOk stmts -> exec_all d stmts mb = None.
Proof.
  intros d srt sdiff B A mb t i stmts CB EB CA It Ii T St Si E. destruct (table_first d B mb t i CB EB It Ii T) as [p [q [r Eb]]].
  exact (gone_table_doomed d srt sdiff B A mb p q r t i stmts (dep_describes d B mb CB EB) Eb T CA St Si E).
Qed.
Print Assumptions C88_table_with_index_cannot_go.
(** The same when there is no new schema at all. *)
Theorem C88_nothing_can_be_left : forall d srt sdiff before mb t i stmts,
  forallb is_create before = true -> dep_exec_all d (map forget_ine before) empty_db = Some mb ->
  In (CreateTable t) before -> In (CreateIndex i) before -> qname (cx_table i) = qname (ct_name t) ->
  diff d srt sdiff (Some before) None = DOk stmts -> exec_all d stmts mb = None.
Proof.
  intros d srt sdiff B mb t i stmts CB EB It Ii T E. destruct (table_first d B mb t i CB EB It Ii T) as [p [q [r Eb]]].
  exact (all_gone_doomed d srt sdiff B mb p q r t i stmts (dep_describes d B mb CB EB) Eb T E).
Qed.
Print Assumptions C88_nothing_can_be_left.

(** ** MySQL: a difference that drops or changes an index made by CREATE INDEX never works. *)
Theorem C88_mysql_index_cannot_change : forall srt sdiff before after i stmts m,
  forallb is_create before = true -> forallb is_create after = true -> In (CreateIndex i) before ->
  (forall j, partner (CreateIndex i) after = Some (CreateIndex j) -> create_index_diff My i <> create_index_diff My j) ->
  diff My srt sdiff (Some before) (Some after) = DOk stmts -> exec_all My stmts m = None.
Proof. exact mysql_index_doomed. Qed.
Print Assumptions C88_mysql_index_cannot_change.

(** ** Spanner: a table that is dropped and created again loses the indexes that do not change -
    the statements succeed, the index is gone. *)
Theorem C88_spanner_recreated_table_loses_its_indexes : forall srt sdiff before after mb ma t u i j stmts m, srt_ok srt ->
  describes Sp before mb -> describes Sp after ma ->
  In (CreateTable t) before -> In (CreateTable u) after -> qname (ct_name t) = qname (ct_name u) ->
  options_diff Sp (ct_options t) <> options_diff Sp (ct_options u) ->
  In (CreateIndex i) before -> In (CreateIndex j) after -> qname (cx_name i) = qname (cx_name j) ->
  create_index_diff Sp i = create_index_diff Sp j -> qname (cx_table i) = qname (ct_name t) ->
  diff Sp srt sdiff (Some before) (Some after) = DOk stmts -> exec_all Sp stmts mb = Some m ->
  m (KIdx (qname (cx_name i))) = None /\ ~ db_eq m ma.
Proof.
  intros srt sdiff B A mb ma t u i j stmts m Hs DB DA It Iu Et Eo Ii Ij En Ex Ti E X.
  pose proof (recreated_index_lost srt sdiff B A mb ma t u i j stmts m Hs DB DA It Iu Et Eo Ii Ij En Ex Ti E X) as L. split; [exact L|].
  intro Q. specialize (Q (KIdx (qname (cx_name i)))). rewrite L, En, (index_value Sp A ma j DA Ij) in Q. discriminate Q.
Qed.
Print Assumptions C88_spanner_recreated_table_loses_its_indexes.

(** ** A constraint that stays, under its name, while one of its columns goes: DROP COLUMN takes it
    along, and nothing brings it back - the DROP CONSTRAINT in front of the ADD fails. *)
Theorem C88_constraint_losing_a_column_is_lost : forall d srt sdiff before after mb ma t u c nm s b stmts m, srt_ok srt ->
  describes d before mb -> describes d after ma ->
  In (CreateTable t) before -> In (CreateTable u) after -> qname (ct_name t) = qname (ct_name u) ->
  create_table_string d t <> create_table_string d u ->
  (d = Sp -> options_diff Sp (ct_options t) = options_diff Sp (ct_options u)) ->
  In c (ct_constraints t) -> is_inner_index c = false -> con_name c = Some nm -> sem_con d c = Some s ->
  In (id_name nm) (con_labels u) ->
  In b (ct_columns t) -> ~ In (id_name (c_name b)) (col_names u) -> sticky d b = false -> con_involves (id_name (c_name b)) s = true ->
  diff d srt sdiff (Some before) (Some after) = DOk stmts -> exec_all d stmts mb = Some m ->
  m (KCon (qname (ct_name t)) (id_name nm)) = None.
Proof. exact constraint_lost. Qed.
Print Assumptions C88_constraint_losing_a_column_is_lost.
(** Hence the wanted schema, which has the constraint, is not reached. *)
Theorem C88_constraint_losing_a_column_is_missed : forall d srt sdiff before after mb ma t u c nm s c' b stmts m, srt_ok srt ->
  describes d before mb -> describes d after ma ->
  In (CreateTable t) before -> In (CreateTable u) after -> qname (ct_name t) = qname (ct_name u) ->
  create_table_string d t <> create_table_string d u ->
  (d = Sp -> options_diff Sp (ct_options t) = options_diff Sp (ct_options u)) ->
  In c (ct_constraints t) -> is_inner_index c = false -> con_name c = Some nm -> sem_con d c = Some s ->
  ma (KCon (qname (ct_name u)) (id_name nm)) = Some (VCon c') -> In (id_name nm) (con_labels u) ->
  In b (ct_columns t) -> ~ In (id_name (c_name b)) (col_names u) -> sticky d b = false -> con_involves (id_name (c_name b)) s = true ->
  diff d srt sdiff (Some before) (Some after) = DOk stmts -> exec_all d stmts mb = Some m -> ~ db_eq m ma.
Proof.
  intros d srt sdiff B A mb ma t u c nm s c' b stmts m Hs DB DA It Iu Et Eo Hsp Ic Ni Nm Sc Mu Lu Ib Nb St Inv E X Q. specialize (Q (KCon (qname (ct_name t)) (id_name nm))).
  rewrite (constraint_lost d srt sdiff B A mb ma t u c nm s b stmts m Hs DB DA It Iu Et Eo Hsp Ic Ni Nm Sc Lu Ib Nb St Inv E X), Et, Mu in Q. discriminate Q.
Qed.
Print Assumptions C88_constraint_losing_a_column_is_missed.

(** ** An index that changes while one of its columns goes: DROP COLUMN takes the index along, the DROP INDEX that
    follows fails.  (An index that goes altogether is dropped first.) *)
Theorem C88_index_losing_a_column_cannot_change : forall d srt sdiff before after mb ma t u i j b c stmts, srt_ok srt ->
  forallb is_create before = true -> dep_exec_all d (map forget_ine before) empty_db = Some mb -> describes d after ma ->
  In (CreateTable t) before -> In (CreateTable u) after -> qname (ct_name t) = qname (ct_name u) ->
  create_table_string d t <> create_table_string d u ->
  (d = Sp -> options_diff Sp (ct_options t) = options_diff Sp (ct_options u)) ->
  In (CreateIndex i) before -> In (CreateIndex j) after -> qname (cx_name i) = qname (cx_name j) -> qname (cx_table i) = qname (ct_name t) ->
  create_index_diff d i <> create_index_diff d j ->
  In b (ct_columns t) -> ~ In (id_name (c_name b)) (col_names u) -> sticky d b = false ->
  In c (cx_columns i) -> id_name (ci_ident c) = id_name (c_name b) ->
  diff d srt sdiff (Some before) (Some after) = DOk stmts -> exec_all d stmts mb = None.
Proof.
  intros d srt sdiff B A mb ma t u i j b c stmts Hs CB EB DA It Iu Et Eo Hsp Ii Ij En Ti Ex Ib Nb St Ic Ec E.
  apply (index_column_doomed d srt sdiff B A mb ma t u i j b stmts); try assumption.
  apply existsb_exists. eexists. split; [apply in_map; exact Ic|]. apply String.eqb_eq. exact Ec.
Qed.
Print Assumptions C88_index_losing_a_column_cannot_change.

(** ** A new index, or a foreign key of a new table, that uses a column which is new in a table that is there: indexes
    and tables are created before columns are added. *)
Theorem C88_index_on_new_column_cannot_come : forall d srt sdiff before after mb ma t j c stmts,
  describes d before mb -> describes d after ma -> In (CreateTable t) before -> In (CreateIndex j) after ->
  qname (cx_table j) = qname (ct_name t) -> mb (KIdx (qname (cx_name j))) = None ->
  In c (cx_columns j) -> ~ In (id_name (ci_ident c)) (col_names t) ->
  diff d srt sdiff (Some before) (Some after) = DOk stmts -> dep_exec_all d stmts mb = None.
Proof. exact new_index_doomed. Qed.
Print Assumptions C88_index_on_new_column_cannot_come.
Theorem C88_reference_to_new_column_cannot_come : forall d srt sdiff before after mb ma t u n cols ref refcols act c stmts,
  describes d before mb -> describes d after ma -> In (CreateTable t) before -> In (CreateTable u) after ->
  (forall x, In (CreateTable x) before -> qname (ct_name x) <> qname (ct_name u)) ->
  In (CForeign n cols ref refcols act) (ct_constraints u) -> id_name ref = qname (ct_name t) ->
  In c refcols -> ~ In (id_name (ci_ident c)) (col_names t) ->
  diff d srt sdiff (Some before) (Some after) = DOk stmts -> dep_exec_all d stmts mb = None.
Proof. exact new_reference_doomed. Qed.
Print Assumptions C88_reference_to_new_column_cannot_come.

(** ** Examples: what is written, and that it fails or leaves something out *)
Definition fails (d : dialect) (b a : string) : bool :=
  accepted d b && accepted d a && described d (schema d b) && described d (schema d a)
  && present (dep_exec_all d (map forget_ine (schema d b)) empty_db)
  && match diff_of d (schema d b) (schema d a) with DOk l => negb (present (exec_all d l (catalogue d (schema d b)))) | _ => false end.
Definition loses (d : dialect) (b a : string) (k : key) : bool :=
  accepted d b && accepted d a && described d (schema d b) && described d (schema d a) && present (catalogue d (schema d a) k)
  && match diff_of d (schema d b) (schema d a) with
     | DOk l => match exec_all d l (catalogue d (schema d b)) with Some m => negb (present (m k)) | None => false end
     | _ => false
     end.
Example C88_table_with_index_example : forallb (fun d => fails d "CREATE TABLE t (a INTEGER, b INTEGER); CREATE INDEX i ON t (a); CREATE TABLE u (x INTEGER);" "CREATE TABLE u (x INTEGER);") [Pg; Crdb] = true
  /\ fails My "CREATE TABLE t (a INT, b INT); CREATE INDEX i ON t (a); CREATE TABLE u (x INT);" "CREATE TABLE u (x INT);" = true
  /\ fails Sp "CREATE TABLE t (a INT64) PRIMARY KEY (a); CREATE INDEX i ON t (a); CREATE TABLE u (x INT64) PRIMARY KEY (x);" "CREATE TABLE u (x INT64) PRIMARY KEY (x);" = true.
Proof. repeat split; vm_compute; reflexivity. Qed.
Example C88_table_with_index_text : printed Pg (diff_of Pg (schema Pg "CREATE TABLE t (a INTEGER, b INTEGER); CREATE INDEX i ON t (a); CREATE TABLE u (x INTEGER);") (schema Pg "CREATE TABLE u (x INTEGER);")) = Some (
"DROP TABLE t;
DROP INDEX i;
")%string.
Proof. vm_compute. reflexivity. Qed.
Example C88_mysql_example : fails My "CREATE TABLE t (a INT, b INT); CREATE INDEX i ON t (a);" "CREATE TABLE t (a INT, b INT); CREATE INDEX i ON t (b);" = true
  /\ fails My "CREATE TABLE t (a INT, b INT); CREATE INDEX i ON t (a);" "CREATE TABLE t (a INT, b INT);" = true.
Proof. split; vm_compute; reflexivity. Qed.
Example C88_spanner_example :
  loses Sp "CREATE TABLE t (a INT64, b INT64) PRIMARY KEY (a); CREATE INDEX i ON t (b);" "CREATE TABLE t (a INT64, b INT64) PRIMARY KEY (b); CREATE INDEX i ON t (b);" (KIdx "i") = true.
Proof. vm_compute. reflexivity. Qed.
Example C88_constraint_example :
  fails Pg "CREATE TABLE t (a INTEGER, b INTEGER, CONSTRAINT k UNIQUE (a, b));" "CREATE TABLE t (a INTEGER, CONSTRAINT k UNIQUE (a));" = true
  /\ fails My "CREATE TABLE t (a INT, b INT, CONSTRAINT k PRIMARY KEY (a, b));" "CREATE TABLE t (a INT, CONSTRAINT k PRIMARY KEY (a));" = true.
Proof. split; vm_compute; reflexivity. Qed.
Example C88_index_example :
  forallb (fun d => fails d "CREATE TABLE t (a INTEGER, b INTEGER); CREATE INDEX i ON t (a, b);" "CREATE TABLE t (a INTEGER); CREATE INDEX i ON t (a);") [Pg; Crdb] = true
  /\ fails Sp "CREATE TABLE t (a INT64, b INT64) PRIMARY KEY (a); CREATE INDEX i ON t (a, b);" "CREATE TABLE t (a INT64) PRIMARY KEY (a); CREATE INDEX i ON t (a);" = true
  /\ printed Pg (diff_of Pg (schema Pg "CREATE TABLE t (a INTEGER, b INTEGER); CREATE INDEX i ON t (a, b);") (schema Pg "CREATE TABLE t (a INTEGER); CREATE INDEX i ON t (a);"))
     = Some ("ALTER TABLE t DROP COLUMN b;" ++ nl ++ "DROP INDEX i;" ++ nl ++ "CREATE INDEX i ON t (a);" ++ nl)%string
  /\ fails Pg "CREATE TABLE t (a INTEGER, b INTEGER); CREATE INDEX i ON t (a, b);" "CREATE TABLE t (a INTEGER);" = false.
Proof. repeat split; vm_compute; reflexivity. Qed.
(** Here the old schema and the new one can both be created by a database that enforces dependencies. *)
Definition blocked (d : dialect) (b a : string) : bool :=
  accepted d b && accepted d a && described d (schema d b) && described d (schema d a)
  && present (dep_exec_all d (map forget_ine (schema d b)) empty_db) && present (dep_exec_all d (map forget_ine (schema d a)) empty_db)
  && match diff_of d (schema d b) (schema d a) with DOk l => negb (present (dep_exec_all d l (catalogue d (schema d b)))) | _ => false end.
Example C88_new_column_example :
  forallb (fun d => blocked d "CREATE TABLE t (a INTEGER);" "CREATE TABLE t (a INTEGER, b INTEGER); CREATE INDEX i ON t (b);") [Pg; Crdb; My] = true
  /\ blocked Sp "CREATE TABLE t (a INT64) PRIMARY KEY (a);" "CREATE TABLE t (a INT64, b INT64) PRIMARY KEY (a); CREATE INDEX i ON t (b);" = true
  /\ forallb (fun d => blocked d "CREATE TABLE t (a INTEGER);" "CREATE TABLE t (a INTEGER, b INTEGER); CREATE TABLE u (x INTEGER, CONSTRAINT f FOREIGN KEY (x) REFERENCES t (b));") [Pg; Crdb; My] = true
  /\ printed Pg (diff_of Pg (schema Pg "CREATE TABLE t (a INTEGER);") (schema Pg "CREATE TABLE t (a INTEGER, b INTEGER); CREATE INDEX i ON t (b);"))
     = Some ("CREATE INDEX i ON t (b);" ++ nl ++ "ALTER TABLE t ADD COLUMN b INTEGER;" ++ nl)%string
  /\ blocked Pg "CREATE TABLE t (a INTEGER);" "CREATE TABLE t (a INTEGER, b INTEGER); CREATE INDEX i ON t (a);" = false.
Proof. repeat split; vm_compute; reflexivity. Qed.
