(** C76: growing a schema in place only adds, shrinking it only removes. *)
From Verif Require Import GoStr Token Ast Parser Diff Db DbFacts AppendFacts Tidy Reconcile Ordinary DiffSpec Placed
  OrdinaryFacts DbDep DepFacts InPlace InPlaceFacts PropsDiff PropsDep PropsOrdinary.
Local Open Scope list_scope.

(** Every object of the old schema is in the new one as it is: every statement of the
    difference adds - CREATE TABLE, CREATE INDEX, ADD COLUMN, ADD CONSTRAINT, ADD ROW
    DELETION POLICY, or a table option that was not set. *)
Theorem C76_growing_only_adds : forall d srt sdiff before after mb ma stmts s,
  srt_ok srt -> describes d before mb -> describes d after ma -> tidy d before = true -> tidy d after = true ->
  same_style d before after = true -> (d = Sp -> same_option_order before after = true) ->
  part_of mb ma -> diff d srt sdiff (Some before) (Some after) = DOk stmts -> In s stmts ->
  only_adds s = true /\ forall k, sets_option s = Some k -> mb k = None.
Proof.
  intros d srt sdiff before after mb ma stmts s Hs DB DA TB TA Sty O W E I.
  destruct (loose_strays d before after mb ma DB DA TB TA Sty O srt sdiff stmts s Hs E I) as [X Y]. split.
  - exact (grow_adds mb ma W s X).
  - intros k K. destruct (mb k) as [v|] eqn:V; [|reflexivity]. destruct (Y k K) as [_ N]. exfalso. apply N. rewrite V. symmetry. exact (W k v V).
Qed.
Print Assumptions C76_growing_only_adds.

(** Every object of the new schema was in the old one as it is: every statement removes -
    DROP TABLE, DROP INDEX, DROP COLUMN, DROP CONSTRAINT, DROP ROW DELETION POLICY. *)
Theorem C76_shrinking_only_removes : forall d srt sdiff before after mb ma stmts s,
  srt_ok srt -> describes d before mb -> describes d after ma -> tidy d before = true -> tidy d after = true ->
  same_style d before after = true -> (d = Sp -> same_option_order before after = true) ->
  part_of ma mb -> diff d srt sdiff (Some before) (Some after) = DOk stmts -> In s stmts ->
  only_removes s = true.
Proof.
  intros d srt sdiff before after mb ma stmts s Hs DB DA TB TA Sty O W E I.
  destruct (loose_strays d before after mb ma DB DA TB TA Sty O srt sdiff stmts s Hs E I) as [[_ X] _].
  destruct (only_removes s) eqn:R; [reflexivity|]. exfalso. exact (part_come mb ma W (X eq_refl)).
Qed.
Print Assumptions C76_shrinking_only_removes.

(** However far a growing difference is carried out, nothing that was there is touched. *)
Theorem C76_growing_keeps_everything : forall d srt sdiff before after mb ma stmts done rest m,
  srt_ok srt -> describes d before mb -> describes d after ma -> tidy d before = true -> tidy d after = true ->
  same_style d before after = true -> (d = Sp -> same_option_order before after = true) ->
  part_of mb ma -> diff d srt sdiff (Some before) (Some after) = DOk stmts ->
  stmts = done ++ rest -> exec_all d done mb = Some m -> part_of mb m.
Proof.
  intros d srt sdiff before after mb ma stmts done rest m Hs DB DA TB TA Sty O W E L R.
  apply (adds_exec mb d done mb m (described_owned d before mb DB)); [|intros k v X; exact X|exact R].
  intros s I. apply (C76_growing_only_adds d srt sdiff before after mb ma stmts s); try assumption. rewrite L. apply in_or_app. left. exact I.
Qed.
Print Assumptions C76_growing_keeps_everything.

(** However far a shrinking difference is carried out, nothing is there that was not. *)
Theorem C76_shrinking_adds_nothing : forall d srt sdiff before after mb ma stmts done rest m,
  srt_ok srt -> describes d before mb -> describes d after ma -> tidy d before = true -> tidy d after = true ->
  same_style d before after = true -> (d = Sp -> same_option_order before after = true) ->
  part_of ma mb -> diff d srt sdiff (Some before) (Some after) = DOk stmts ->
  stmts = done ++ rest -> exec_all d done mb = Some m -> part_of m mb.
Proof.
  intros d srt sdiff before after mb ma stmts done rest m Hs DB DA TB TA Sty O W E L R.
  apply (removes_exec d done mb m); [|exact R].
  intros s I. apply (C76_shrinking_only_removes d srt sdiff before after mb ma stmts s); try assumption. rewrite L. apply in_or_app. left. exact I.
Qed.
Print Assumptions C76_shrinking_adds_nothing.

(** Growing an ordinary schema leads to the new schema, in every dialect: of what C73 asks
    of a change nothing is left but that no index moves into or out of a table's definition
    and, in Spanner, that primary key and interleaving stay.  (Db.v does not know what needs
    what; below for a database that does.) *)
Theorem C76_growing_reaches_target : forall d srt sdiff before after mb ma,
  srt_ok srt -> describes d before mb -> describes d after ma ->
  ordinary d before = true -> ordinary d after = true ->
  same_style d before after = true -> (d = Sp -> same_option_order before after = true) ->
  part_of mb ma -> reaches d srt sdiff before after mb ma.
Proof.
  intros d srt sdiff before after mb ma Hs DB DA OB OA Sty O W.
  assert (TB : tidy d before = true) by (unfold ordinary in OB; rewrite !andb_true_iff in OB; apply OB).
  assert (TA : tidy d after = true) by (unfold ordinary in OA; rewrite !andb_true_iff in OA; apply OA).
  apply C73_ordinary_difference_reaches_target; try assumption. apply (grow_safe d before after mb ma); assumption.
Qed.
Print Assumptions C76_growing_reaches_target.

(** The same in a database that knows what needs what (DbDep.v): then it also matters that
    nothing new needs something that is added later. *)
Theorem C76_growing_is_executable : forall d srt sdiff before after mb ma,
  srt_ok srt -> describes d before mb -> describes d after ma ->
  ordinary d before = true -> ordinary d after = true ->
  same_style d before after = true -> (d = Sp -> same_option_order before after = true) ->
  part_of mb ma -> grows_in_order d before after = true -> executable d srt sdiff before after mb ma.
Proof.
  intros d srt sdiff before after mb ma Hs DB DA OB OA Sty O W G.
  assert (TB : tidy d before = true) by (unfold ordinary in OB; rewrite !andb_true_iff in OB; apply OB).
  assert (TA : tidy d after = true) by (unfold ordinary in OA; rewrite !andb_true_iff in OA; apply OA).
  apply (diff_respects d srt sdiff before after mb ma); try assumption.
  - apply safe_reconcilable; try assumption. apply (grow_safe d before after mb ma); assumption.
  - apply ordinary_text; assumption.
  - apply (grow_in_order d before after mb ma); assumption.
Qed.
Print Assumptions C76_growing_is_executable.

(** Where the difference leads to the new schema, it consists of additions exactly if the
    schema only grows. *)
Theorem C76_only_adds_iff_growing : forall d srt sdiff before after mb ma stmts,
  srt_ok srt -> describes d before mb -> describes d after ma -> tidy d before = true -> tidy d after = true ->
  same_style d before after = true -> (d = Sp -> same_option_order before after = true) ->
  diff d srt sdiff (Some before) (Some after) = DOk stmts -> reaches d srt sdiff before after mb ma ->
  ((forall s, In s stmts -> only_adds s = true /\ forall k, sets_option s = Some k -> mb k = None) <-> part_of mb ma).
Proof.
  intros d srt sdiff before after mb ma stmts Hs DB DA TB TA Sty O E R. split.
  - intro A. unfold reaches in R. rewrite E in R. destruct R as [m [X Q]]. intros k v V. rewrite <- Q.
    apply (adds_exec mb d stmts mb m (described_owned d before mb DB) A (fun k v H => H) X k v V).
  - intros W s I. exact (C76_growing_only_adds d srt sdiff before after mb ma stmts s Hs DB DA TB TA Sty O W E I).
Qed.
Print Assumptions C76_only_adds_iff_growing.

Theorem C76_only_removes_iff_shrinking : forall d srt sdiff before after mb ma stmts,
  srt_ok srt -> describes d before mb -> describes d after ma -> tidy d before = true -> tidy d after = true ->
  same_style d before after = true -> (d = Sp -> same_option_order before after = true) ->
  diff d srt sdiff (Some before) (Some after) = DOk stmts -> reaches d srt sdiff before after mb ma ->
  ((forall s, In s stmts -> only_removes s = true) <-> part_of ma mb).
Proof.
  intros d srt sdiff before after mb ma stmts Hs DB DA TB TA Sty O E R. split.
  - intro A. unfold reaches in R. rewrite E in R. destruct R as [m [X Q]]. intros k v V. rewrite <- Q in V.
    exact (removes_exec d stmts mb m A X k v V).
  - intros W s I. exact (C76_shrinking_only_removes d srt sdiff before after mb ma stmts s Hs DB DA TB TA Sty O W E I).
Qed.
Print Assumptions C76_only_removes_iff_shrinking.

(** Spanner: a table that gains a parent only gains something, but is dropped and created anew. *)
Theorem C76_spanner_new_parent_refuted : exists b a stmts s,
  ordinary Sp b = true /\ ordinary Sp a = true /\ described Sp b = true /\ described Sp a = true /\
  part_of (catalogue Sp b) (catalogue Sp a) /\ diff_of Sp b a = DOk stmts /\ In s stmts /\ only_adds s = false.
Proof.
  exists (schema Sp "CREATE TABLE p (a INT64) PRIMARY KEY (a); CREATE TABLE t (a INT64) PRIMARY KEY (a);"),
    (schema Sp "CREATE TABLE p (a INT64) PRIMARY KEY (a); CREATE TABLE t (a INT64) PRIMARY KEY (a), INTERLEAVE IN PARENT p;").
  eexists _, _. split; [vm_compute; reflexivity|]. split; [vm_compute; reflexivity|]. split; [vm_compute; reflexivity|]. split; [vm_compute; reflexivity|].
  split.
  - eapply part_test_ok; [apply described_ok; vm_compute; reflexivity|apply described_ok; vm_compute; reflexivity|vm_compute; reflexivity].
  - split; [vm_compute; reflexivity|]. split; [left; reflexivity|]. reflexivity.
Qed.
Print Assumptions C76_spanner_new_parent_refuted.

(** A schema that grows, and shrinks again: all the premises of the theorems hold. *)
Definition small (d : dialect) : ddl := schema d "CREATE TABLE t (a INT NOT NULL, CONSTRAINT p PRIMARY KEY (a));".
Definition large (d : dialect) : ddl := schema d "CREATE TABLE t (a INT NOT NULL, b TEXT, CONSTRAINT p PRIMARY KEY (a), CONSTRAINT f FOREIGN KEY (b) REFERENCES v (c));
CREATE TABLE v (c INT); CREATE INDEX i ON t (b);".
Example C76_example_premises : forallb (fun d =>
    ordinary d (small d) && ordinary d (large d) && described d (small d) && described d (large d)
    && same_style d (small d) (large d) && part_test d (small d) (large d) && negb (part_test d (large d) (small d))) [Pg; My; Crdb] = true.
Proof. vm_compute. reflexivity. Qed.
Example C76_example_grow : printed Pg (diff_of Pg (small Pg) (large Pg)) =
  Some "CREATE TABLE v (
    c INT
);
CREATE INDEX i ON t (b);
ALTER TABLE t ADD COLUMN b TEXT;
ALTER TABLE t ADD CONSTRAINT f FOREIGN KEY (b) REFERENCES v (c);
"%string.
Proof. vm_compute. reflexivity. Qed.
Example C76_example_shrink : printed Pg (diff_of Pg (large Pg) (small Pg)) =
  Some "DROP TABLE v;
DROP INDEX i;
ALTER TABLE t DROP CONSTRAINT f;
ALTER TABLE t DROP COLUMN b;
"%string.
Proof. vm_compute. reflexivity. Qed.
(** A table option of MySQL that was not set *)
Example C76_example_option :
  let b := schema My "CREATE TABLE t (a INT);" in let a := schema My "CREATE TABLE t (a INT) COMMENT='x';" in
  ordinary My b = true /\ ordinary My a = true /\ part_test My b a = true /\
  printed My (diff_of My b a) = Some "ALTER TABLE t COMMENT='x';
"%string.
Proof. cbv zeta. repeat split; vm_compute; reflexivity. Qed.
(** Additions in an order that works *)
Example C76_example_order :
  let b := schema Pg "CREATE TABLE t (a INTEGER); CREATE TABLE u (x INTEGER);" in
  let a := schema Pg "CREATE TABLE n (k INTEGER); CREATE TABLE t (a INTEGER, b INTEGER, CONSTRAINT f FOREIGN KEY (b) REFERENCES n (k)); CREATE TABLE u (x INTEGER); CREATE INDEX i ON u (x);" in
  ordinary Pg b = true /\ ordinary Pg a = true /\ part_test Pg b a = true /\ grows_in_order Pg b a = true /\
  grows_in_order Pg (small Pg) (large Pg) = false /\
  printed Pg (diff_of Pg b a) = Some "CREATE TABLE n (
    k INTEGER
);
CREATE INDEX i ON u (x);
ALTER TABLE t ADD COLUMN b INTEGER;
ALTER TABLE t ADD CONSTRAINT f FOREIGN KEY (b) REFERENCES n (k);
"%string.
Proof. cbv zeta. repeat split; vm_compute; reflexivity. Qed.
