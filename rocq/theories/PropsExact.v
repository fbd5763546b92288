(** C72: the conditions under which a difference reaches its target (C12, C36) are
    not only sufficient but necessary, for PostgreSQL and CockroachDB. *)
From Coq Require Import Lia Permutation.
From Verif Require Import GoStr Token Ast Parser Diff Db DbFacts AppendFacts DiffTable DiffPair DiffSound
  Tidy TidyFacts DiffSame Reconcile ReconcileFacts Honest DiffSpec Justified Placed Needed4 PropsDiff.
Local Open Scope list_scope.

Lemma pg_no_inner : forall l, tidy Pg l = true -> inner_indexes Pg l = [].
Proof.
  intros l T. unfold inner_indexes. assert (H : forall s, In s l -> tidy_stmt Pg s = true) by (intros s Hs; exact (TidyFacts.tidy_in _ _ _ T Hs)).
  clear T. induction l as [|s r IH]; [reflexivity|]. cbn [flat_map]. rewrite IH by (intros x Hx; apply H; right; exact Hx).
  pose proof (H s (or_introl eq_refl)) as Ts. destruct s as [t| | | |]; try reflexivity. rewrite app_nil_r. cbn [tidy_stmt] in Ts.
  assert (N : forall c, In c (ct_constraints t) -> inner_index Pg (ct_name t) c = []).
  { intros c Hc. pose proof (index_tidy Pg t t Ts Ts t c Ts Hc) as X. destruct c; try reflexivity. discriminate X. }
  clear Ts. induction (ct_constraints t) as [|c cs IHc]; [reflexivity|]. cbn [flat_map]. rewrite (N c (or_introl eq_refl)). apply IHc. intros x Hx. apply N. right. exact Hx.
Qed.
Lemma pg_style : forall b a, tidy Pg b = true -> tidy Pg a = true -> same_style Pg b a = true /\ inner_stay Pg b a = true.
Proof.
  intros b a Tb Ta. pose proof (pg_no_inner b Tb) as Nb. pose proof (pg_no_inner a Ta) as Na. split.
  - unfold same_style. rewrite Nb, Na. unfold disjoint. cbn [forallb andb]. apply forallb_forall. reflexivity.
  - unfold inner_stay. apply forallb_forall. intros tb Hb. apply forallb_forall. intros ta Ha. apply orb_true_iff. right.
    assert (T1 : tidy Pg [CreateTable tb] = true).
    { unfold tidy. cbn [forallb]. rewrite andb_true_r. apply in_tables in Hb. exact (TidyFacts.tidy_in _ _ _ Tb Hb). }
    rewrite (pg_no_inner _ T1). reflexivity.
Qed.

(** PostgreSQL: of two schemas that a database has, with every index behind its table,
    the difference leads from the one to the other exactly if the executable conditions
    hold. *)
Theorem C72_pg_reaches_iff : forall srt sdiff before after db0 dba,
  srt_ok srt -> describes Pg before db0 -> describes Pg after dba ->
  tidy Pg before = true -> tidy Pg after = true -> placed Pg before = true -> placed Pg after = true ->
  (reaches Pg srt sdiff before after db0 dba <->
   reconcilable Pg before after = true /\ text_ok Pg before after = true).
Proof.
  intros srt sdiff before after db0 dba Hs Db Da Tb Ta Pb Pa. destruct (pg_style before after Tb Ta) as [S1 S2]. split.
  - intro R. exact (conditions_needed Pg srt sdiff before after db0 dba (or_introl eq_refl) Hs Db Da Tb Ta S1 S2 Pb Pa R).
  - intros [R T]. exact (C12_pg_diff_reaches_target_partial srt sdiff before after db0 dba Hs Db Da R T).
Qed.
Print Assumptions C72_pg_reaches_iff.

(** CockroachDB: the same of schemas between which no index changes the way it is
    declared, or moves to another table. *)
Theorem C72_cockroach_reaches_iff : forall srt sdiff before after db0 dba,
  srt_ok srt -> describes Crdb before db0 -> describes Crdb after dba ->
  tidy Crdb before = true -> tidy Crdb after = true -> placed Crdb before = true -> placed Crdb after = true ->
  same_style Crdb before after = true -> inner_stay Crdb before after = true ->
  (reaches Crdb srt sdiff before after db0 dba <->
   reconcilable Crdb before after = true /\ text_ok Crdb before after = true).
Proof.
  intros srt sdiff before after db0 dba Hs Db Da Tb Ta Pb Pa S1 S2. split.
  - intro R. exact (conditions_needed Crdb srt sdiff before after db0 dba (or_intror eq_refl) Hs Db Da Tb Ta S1 S2 Pb Pa R).
  - intros [R T]. exact (C36_cockroach_diff_reaches_target_partial srt sdiff before after db0 dba Hs Db Da R T).
Qed.
Print Assumptions C72_cockroach_reaches_iff.

(** Hence neither the order in which the constraints are sorted nor the comments
    decide whether a difference works. *)
Theorem C72_pg_independent : forall srt sdiff srt' sdiff' before after db0 dba,
  srt_ok srt -> srt_ok srt' -> describes Pg before db0 -> describes Pg after dba ->
  tidy Pg before = true -> tidy Pg after = true -> placed Pg before = true -> placed Pg after = true ->
  reaches Pg srt sdiff before after db0 dba -> reaches Pg srt' sdiff' before after db0 dba.
Proof.
  intros srt sdiff srt' sdiff' before after db0 dba Hs Hs' Db Da Tb Ta Pb Pa R.
  apply (C72_pg_reaches_iff srt' sdiff' before after db0 dba); try assumption.
  apply (C72_pg_reaches_iff srt sdiff before after db0 dba); assumption.
Qed.
Print Assumptions C72_pg_independent.

(** The hypotheses of the theorems, as one test of two texts. *)
Definition sound_pair (d : dialect) (b a : string) : bool :=
  accepted d b && accepted d a && described d (schema d b) && described d (schema d a)
  && tidy d (schema d b) && tidy d (schema d a) && placed d (schema d b) && placed d (schema d a)
  && same_style d (schema d b) (schema d a) && inner_stay d (schema d b) (schema d a).
Definition works (d : dialect) (b a : string) : bool :=
  reconcilable d (schema d b) (schema d a) && text_ok d (schema d b) (schema d a).

(** Each of the conditions is met by some pair and missed by another. *)
Example C72_pg_example : sound_pair Pg pg_before pg_after = true /\ works Pg pg_before pg_after = true.
Proof. split; vm_compute; reflexivity. Qed.
Example C72_cockroach_example : sound_pair Crdb cr_before cr_after = true /\ works Crdb cr_before cr_after = true.
Proof. split; vm_compute; reflexivity. Qed.
Definition pg_misses : list (string * string) :=
  [ (* a table dropped together with its index *)
    ("CREATE TABLE t (a INTEGER); CREATE INDEX i ON t (a);", "CREATE TABLE u (a INTEGER);");
    (* a dropped column that a constraint of both sides uses *)
    ("CREATE TABLE t (a INTEGER, b INTEGER, CONSTRAINT k UNIQUE (a, b));", "CREATE TABLE t (a INTEGER, CONSTRAINT k UNIQUE (a));");
    (* a dropped column that an index of both sides uses *)
    ("CREATE TABLE t (a INTEGER, b INTEGER); CREATE INDEX i ON t (b);", "CREATE TABLE t (a INTEGER); CREATE INDEX i ON t (a);");
    (* the method of an index *)
    ("CREATE TABLE t (a INTEGER); CREATE INDEX i ON t USING btree (a);", "CREATE TABLE t (a INTEGER); CREATE INDEX i ON t USING hash (a);") ]%string.
Example C72_pg_misses : forallb (fun p => sound_pair Pg (fst p) (snd p) && negb (works Pg (fst p) (snd p))) pg_misses = true.
Proof. vm_compute. reflexivity. Qed.
Definition cr_misses : list (string * string) :=
  [ ("CREATE TABLE t (a INT8, b INT8 AS (a + 1) STORED);", "CREATE TABLE t (a INT8, b INT8 AS (a + 2) STORED);");
    ("CREATE TABLE t (a INT8, b INT8 NOT VISIBLE);", "CREATE TABLE t (a INT8, b INT8);");
    ("CREATE TABLE t (a INT8, b INT8, INDEX j (a, b));", "CREATE TABLE t (a INT8, INDEX j (a));") ]%string.
Example C72_cockroach_misses : forallb (fun p => sound_pair Crdb (fst p) (snd p) && negb (works Crdb (fst p) (snd p))) cr_misses = true.
Proof. vm_compute. reflexivity. Qed.
