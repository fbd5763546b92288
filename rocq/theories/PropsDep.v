(** Properties of executing a diff in a database that enforces dependencies: C19. *)
From Verif Require Import GoStr Token Ast Parser Diff AppendFacts Db Reconcile DbDep DepFacts PropsDiff.

(** Executed top to bottom with dependencies enforced, the diff succeeds and yields [dba]. *)
Definition executable (d : dialect) (srt : list constraint -> list constraint) (sdiff : string -> string -> string)
    (before after : ddl) (db0 dba : db) : Prop :=
  match diff d srt sdiff (Some before) (Some after) with
  | DOk stmts => exists m, dep_exec_all d stmts db0 = Some m /\ db_eq m dba
  | DNoDiff => db_eq db0 dba
  | _ => False
  end.

(** Missing for the full property: pairs that are not [reconcilable] (see C12) and pairs that
    are not [in_order] (DbDep.v).  For the latter the property is false, see below. *)
Theorem C19_diff_is_executable_partial : forall d srt sdiff before after db0 dba,
  srt_ok srt -> describes d before db0 -> describes d after dba ->
  reconcilable d before after = true -> text_ok d before after = true -> in_order d before after = true ->
  executable d srt sdiff before after db0 dba.
Proof. exact diff_respects. Qed.
Print Assumptions C19_diff_is_executable_partial.

(** The hypotheses hold for ordinary changes of all dialects, and in the presence of foreign keys:
    a new table that refers to one that stays, a new foreign key to a new column, a dropped pair
    of tables. *)
Definition ordered (d : dialect) (b a : string) : bool := fits d b a && in_order d (schema d b) (schema d a).
Definition fk_before := "CREATE TABLE u (x INTEGER); CREATE TABLE t (a INTEGER); CREATE TABLE w (a INTEGER, CONSTRAINT g FOREIGN KEY (a) REFERENCES t (a)); CREATE TABLE v (x INTEGER, CONSTRAINT f FOREIGN KEY (x) REFERENCES w (a));"%string.
Definition fk_after := "CREATE TABLE u (x INTEGER, y INTEGER); CREATE TABLE t (a INTEGER, CONSTRAINT f FOREIGN KEY (a) REFERENCES u (y)); CREATE TABLE n (b INTEGER, CONSTRAINT h FOREIGN KEY (b) REFERENCES t (a)); CREATE INDEX i ON n (b);"%string.
Definition runs (d : dialect) (b a : string) : bool :=
  match diff_of d (schema d b) (schema d a) with
  | DOk l => present (dep_exec_all d l (catalogue d (schema d b)))
  | _ => false
  end.
Example C19_examples :
  ordered Pg pg_before pg_after = true /\ ordered My my_before my_after = true
  /\ ordered Crdb cr_before cr_after = true /\ ordered Sp sp_before sp_after = true /\ ordered Pg fk_before fk_after = true
  /\ runs Pg fk_before fk_after = true.
Proof. repeat split; vm_compute; reflexivity. Qed.
Example C19_foreign_key_example : printed Pg (diff_of Pg (schema Pg fk_before) (schema Pg fk_after)) = Some (
"DROP TABLE w;
DROP TABLE v;
CREATE TABLE n (
    b INTEGER,
    CONSTRAINT h FOREIGN KEY (b) REFERENCES t (a)
);
CREATE INDEX i ON n (b);
ALTER TABLE u ADD COLUMN y INTEGER;
ALTER TABLE t ADD CONSTRAINT f FOREIGN KEY (a) REFERENCES u (y);
")%string.
Proof. vm_compute. reflexivity. Qed.

(** The full property is false: both schemas are accepted, described by a catalogue and closed under
    dependencies, a database that does not enforce dependencies executes the diff, but one that does
    stops with an error. *)
Definition stuck (d : dialect) (b a : string) : Prop :=
  fits d b a = true /\ closed d (schema d b) = true /\ closed d (schema d a) = true /\
  exists stmts, diff_of d (schema d b) (schema d a) = DOk stmts /\
    dep_exec_all d stmts (catalogue d (schema d b)) = None.
Definition dep_fails (d : dialect) (b a : string) : bool :=
  match diff_of d (schema d b) (schema d a) with
  | DOk l => negb (present (dep_exec_all d l (catalogue d (schema d b))))
  | _ => false
  end.
Lemma stuck_witness : forall d b a, fits d b a && closed d (schema d b) && closed d (schema d a) && dep_fails d b a = true -> stuck d b a.
Proof.
  intros d b a H. rewrite !andb_true_iff in H. destruct H as [[[H1 H2] H3] H4]. split; [exact H1|]. split; [exact H2|]. split; [exact H3|].
  unfold dep_fails in H4. destruct (diff_of d (schema d b) (schema d a)) as [l| | |]; try discriminate H4. exists l. split; [reflexivity|].
  destruct (dep_exec_all _ _ _); [discriminate H4|reflexivity].
Qed.

(** An index on a new column is created before the column is added. *)
Definition ix_before := "CREATE TABLE t (a INTEGER);"%string.
Definition ix_after := "CREATE TABLE t (a INTEGER, b INTEGER); CREATE INDEX i ON t (b);"%string.
Theorem C19_index_on_new_column_refuted : exists b a, stuck Pg b a.
Proof. exists ix_before, ix_after. apply stuck_witness. vm_compute. reflexivity. Qed.
Print Assumptions C19_index_on_new_column_refuted.
Example C19_index_on_new_column_text : printed Pg (diff_of Pg (schema Pg ix_before) (schema Pg ix_after)) = Some (
"CREATE INDEX i ON t (b);
ALTER TABLE t ADD COLUMN b INTEGER;
")%string.
Proof. vm_compute. reflexivity. Qed.
(** The same for a new foreign key when the table it refers to comes later in the old schema *)
Theorem C19_foreign_key_to_new_column_refuted : exists b a, stuck Pg b a.
Proof.
  exists "CREATE TABLE t (a INTEGER); CREATE TABLE u (x INTEGER);",
    "CREATE TABLE t (a INTEGER, CONSTRAINT f FOREIGN KEY (a) REFERENCES u (y)); CREATE TABLE u (x INTEGER, y INTEGER);".
  apply stuck_witness. vm_compute. reflexivity.
Qed.
Print Assumptions C19_foreign_key_to_new_column_refuted.
(** Dropping a table drops the foreign keys to it; DROP CONSTRAINT fails then. *)
Theorem C19_dropped_referenced_table_refuted : exists b a, stuck Pg b a.
Proof.
  exists "CREATE TABLE u (x INTEGER); CREATE TABLE t (a INTEGER, CONSTRAINT f FOREIGN KEY (a) REFERENCES u (x));", "CREATE TABLE t (a INTEGER);".
  apply stuck_witness. vm_compute. reflexivity.
Qed.
Print Assumptions C19_dropped_referenced_table_refuted.
(** The same for a dropped column *)
Theorem C19_dropped_referenced_column_refuted : exists b a, stuck Pg b a.
Proof.
  exists "CREATE TABLE u (x INTEGER, y INTEGER); CREATE TABLE t (a INTEGER, CONSTRAINT f FOREIGN KEY (a) REFERENCES u (y));",
    "CREATE TABLE u (x INTEGER); CREATE TABLE t (a INTEGER);".
  apply stuck_witness. vm_compute. reflexivity.
Qed.
Print Assumptions C19_dropped_referenced_column_refuted.
(** New tables are created in the order of the new schema, even if that refers to later ones. *)
Theorem C19_new_table_refers_to_later_one_refuted : exists b a, stuck Pg b a.
Proof.
  exists "CREATE TABLE k (a INTEGER);", "CREATE TABLE k (a INTEGER); CREATE TABLE t (a INTEGER, CONSTRAINT f FOREIGN KEY (a) REFERENCES u (x)); CREATE TABLE u (x INTEGER);".
  apply stuck_witness. vm_compute. reflexivity.
Qed.
Print Assumptions C19_new_table_refers_to_later_one_refuted.
(** The order of statements is the same for the other dialects. *)
Theorem C19_mysql_index_on_new_column_refuted : exists b a, stuck My b a.
Proof. exists ix_before, ix_after. apply stuck_witness. vm_compute. reflexivity. Qed.
Print Assumptions C19_mysql_index_on_new_column_refuted.
Theorem C19_cockroach_index_on_new_column_refuted : exists b a, stuck Crdb b a.
Proof. exists ix_before, ix_after. apply stuck_witness. vm_compute. reflexivity. Qed.
Print Assumptions C19_cockroach_index_on_new_column_refuted.
Theorem C19_spanner_index_on_new_column_refuted : exists b a, stuck Sp b a.
Proof.
  exists "CREATE TABLE t (a INT64) PRIMARY KEY (a);", "CREATE TABLE t (a INT64, b INT64) PRIMARY KEY (a); CREATE INDEX i ON t (b);".
  apply stuck_witness. vm_compute. reflexivity.
Qed.
Print Assumptions C19_spanner_index_on_new_column_refuted.
