(** C86: a database that refuses to drop what is still needed executes the diff. *)
From Verif Require Import GoStr Token Ast Parser Diff Db DbFacts AppendFacts Tidy Reconcile ReconcileFacts DbDep DepFacts DbRefuse RefuseFacts PropsDiff PropsDep.
Local Open Scope list_scope.

(** Under the conditions of C19, and if no table that goes refers to one that goes and is declared
    earlier: after every statement everything has what it needs, although nothing is dropped
    other than what the statements name.  Missing for the full property: other pairs, for which
    it is false (below). *)
Theorem C86_nothing_needed_is_dropped_partial : forall d srt sdiff before after mb ma,
  srt_ok srt -> describes d before mb -> describes d after ma ->
  reconcilable d before after = true -> text_ok d before after = true -> in_order d before after = true ->
  dropped_in_order d (gone before after) = true ->
  match diff d srt sdiff (Some before) (Some after) with
  | DOk stmts => exists m, tolerates d stmts mb m /\ db_eq m ma
  | DNoDiff => db_eq mb ma
  | _ => False
  end.
Proof. exact diff_tolerated. Qed.
Print Assumptions C86_nothing_needed_is_dropped_partial.

(** The condition on the tables that go is exact. *)
Theorem C86_drop_order_is_exact : forall d srt sdiff before after mb ma stmts,
  srt_ok srt -> describes d before mb -> describes d after ma ->
  reconcilable d before after = true -> text_ok d before after = true -> in_order d before after = true ->
  diff d srt sdiff (Some before) (Some after) = DOk stmts ->
  (exists m, tolerates d stmts mb m) <-> dropped_in_order d (gone before after) = true.
Proof.
  intros d srt sdiff B A mb ma stmts Hs DB DA R T IO E. split.
  - intros [m Ac]. exact (tolerated_in_order d srt sdiff B A mb ma stmts m Hs DB DA R T E Ac).
  - intro H. pose proof (diff_tolerated d srt sdiff B A mb ma Hs DB DA R T IO H) as X. rewrite E in X. destruct X as [m [Ac _]]. exists m. exact Ac.
Qed.
Print Assumptions C86_drop_order_is_exact.

(** Two tables that refer to each other are never dropped together. *)
Theorem C86_cycle_is_refused : forall d srt sdiff before after mb ma stmts t u m,
  srt_ok srt -> describes d before mb -> describes d after ma ->
  reconcilable d before after = true -> text_ok d before after = true ->
  diff d srt sdiff (Some before) (Some after) = DOk stmts ->
  In (CreateTable t) (gone before after) -> In (CreateTable u) (gone before after) -> t <> u ->
  In (KTab (table_name t)) (referred d [CreateTable u]) -> In (KTab (table_name u)) (referred d [CreateTable t]) ->
  ~ tolerates d stmts mb m.
Proof.
  intros d srt sdiff B A mb ma stmts t u m Hs DB DA R T E It Iu N Rt Ru Ac.
  pose proof (tolerated_in_order d srt sdiff B A mb ma stmts m Hs DB DA R T E Ac) as H. revert It Iu H. generalize (gone B A) as l. clear -N Rt Ru.
  intro l. induction l as [|s l IH]; [intros []|]. intros It Iu H. cbn [dropped_in_order] in H. apply andb_true_iff in H. destruct H as [H1 H2]. destruct It as [It|It], Iu as [Iu|Iu].
  - congruence.
  - subst s. rewrite forallb_forall in H1. specialize (H1 _ Iu). rewrite (proj2 (mem_key_In _ _) Rt) in H1. discriminate H1.
  - subst s. rewrite forallb_forall in H1. specialize (H1 _ It). rewrite (proj2 (mem_key_In _ _) Ru) in H1. discriminate H1.
  - exact (IH It Iu H2).
Qed.
Print Assumptions C86_cycle_is_refused.

Definition refuses_nothing (d : dialect) (b a : string) : bool := ordered d b a && dropped_in_order d (gone (schema d b) (schema d a)).
Definition rf_before := "CREATE TABLE u (x INTEGER); CREATE TABLE v (x INTEGER, CONSTRAINT f FOREIGN KEY (x) REFERENCES w (a)); CREATE TABLE w (a INTEGER); CREATE TABLE t (a INTEGER, b INTEGER, CONSTRAINT g FOREIGN KEY (a) REFERENCES u (x));"%string.
Definition rf_after := "CREATE TABLE u (x INTEGER, y INTEGER); CREATE TABLE t (a INTEGER, c INTEGER, CONSTRAINT f FOREIGN KEY (a) REFERENCES u (y));"%string.
Example C86_examples : refuses_nothing Pg rf_before rf_after = true /\ refuses_nothing Crdb rf_before rf_after = true
  /\ refuses_nothing Pg pg_before pg_after = true /\ refuses_nothing My my_before my_after = true /\ refuses_nothing Sp sp_before sp_after = true.
Proof. repeat split; vm_compute; reflexivity. Qed.
Example C86_text : printed Pg (diff_of Pg (schema Pg rf_before) (schema Pg rf_after)) = Some (
"DROP TABLE v;
DROP TABLE w;
ALTER TABLE u ADD COLUMN y INTEGER;
ALTER TABLE t DROP CONSTRAINT g;
ALTER TABLE t DROP COLUMN b;
ALTER TABLE t ADD COLUMN c INTEGER;
ALTER TABLE t ADD CONSTRAINT f FOREIGN KEY (a) REFERENCES u (y);
")%string.
Proof. vm_compute. reflexivity. Qed.

(** ** What fails: the tables of the old schema are declared in the order in which they can be
    created, so they are dropped in the order in which they cannot. *)
Definition refused (d : dialect) (b a : string) : Prop :=
  ordered d b a = true /\ exists stmts, diff_of d (schema d b) (schema d a) = DOk stmts /\
    forall m, ~ tolerates d stmts (catalogue d (schema d b)) m.
Lemma refused_witness : forall d b a, ordered d b a && negb (dropped_in_order d (gone (schema d b) (schema d a))) && present (printed d (diff_of d (schema d b) (schema d a))) = true -> refused d b a.
Proof.
  intros d b a H. rewrite !andb_true_iff in H. destruct H as [[O N] P]. split; [exact O|]. unfold printed in P. destruct (diff_of d (schema d b) (schema d a)) as [l| | |] eqn:E; try discriminate P.
  exists l. split; [reflexivity|]. intros m Ac. unfold ordered, fits in O. rewrite !andb_true_iff in O. destruct O as [[[[[_ D1] D2] R] T] _].
  rewrite (tolerated_in_order d id_sort no_text _ _ _ _ l m id_sort_ok (described_ok d _ D1) (described_ok d _ D2) R T E Ac) in N. discriminate N.
Qed.
Definition dp_before := "CREATE TABLE w (a INTEGER); CREATE TABLE v (x INTEGER, CONSTRAINT f FOREIGN KEY (x) REFERENCES w (a));"%string.
Theorem C86_dropped_pair_refuted : exists b a, refused Pg b a.
Proof. exists dp_before, ""%string. apply refused_witness. vm_compute. reflexivity. Qed.
Print Assumptions C86_dropped_pair_refuted.
Example C86_dropped_pair_text : printed Pg (diff_of Pg (schema Pg dp_before) (schema Pg "")) = Some (
"DROP TABLE w;
DROP TABLE v;
")%string.
Proof. vm_compute. reflexivity. Qed.
(** No order of the declarations helps with tables that refer to each other. *)
Theorem C86_cycle_refuted : exists b a, refused Pg b a.
Proof.
  exists "CREATE TABLE w (a INTEGER, CONSTRAINT g FOREIGN KEY (a) REFERENCES v (x)); CREATE TABLE v (x INTEGER, CONSTRAINT f FOREIGN KEY (x) REFERENCES w (a));"%string, "CREATE TABLE k (z INTEGER);"%string.
  apply refused_witness. vm_compute. reflexivity.
Qed.
Print Assumptions C86_cycle_refuted.
Theorem C86_cockroach_dropped_pair_refuted : exists b a, refused Crdb b a.
Proof. exists dp_before, "CREATE TABLE k (z INTEGER);"%string. apply refused_witness. vm_compute. reflexivity. Qed.
Print Assumptions C86_cockroach_dropped_pair_refuted.
Theorem C86_mysql_dropped_pair_refuted : exists b a, refused My b a.
Proof.
  exists "CREATE TABLE w (a INT); CREATE TABLE v (x INT, CONSTRAINT f FOREIGN KEY (x) REFERENCES w (a));"%string, "CREATE TABLE k (z INT);"%string.
  apply refused_witness. vm_compute. reflexivity.
Qed.
Print Assumptions C86_mysql_dropped_pair_refuted.
Theorem C86_spanner_dropped_pair_refuted : exists b a, refused Sp b a.
Proof.
  exists "CREATE TABLE w (a INT64) PRIMARY KEY (a); CREATE TABLE v (x INT64, CONSTRAINT f FOREIGN KEY (x) REFERENCES w (a)) PRIMARY KEY (x);"%string, "CREATE TABLE k (z INT64) PRIMARY KEY (z);"%string.
  apply refused_witness. vm_compute. reflexivity.
Qed.
Print Assumptions C86_spanner_dropped_pair_refuted.
