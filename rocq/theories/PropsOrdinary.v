(** C73: ordinary schemas.  The conditions of C12, C35, C36, C37 and C13 compare texts;
    here they are replaced by conditions on how each schema is written and on what changes
    between the two (Ordinary.v). *)
From Verif Require Import GoStr Token Ast Parser Diff Db DbFacts AppendFacts DiffTable DiffPair Tidy TidyFacts DiffSame Reconcile ReconcileFacts Honest DiffSound Printable Ordinary OrdinaryText
  OrdinaryFacts Placed DiffSpec Justified Needed5 PropsDiff PropsExact.
From Verif Require Import Apply ApplySpec SqlDb SqlRead SqlDbFacts Plain PropsApply PropsRead PropsPlain.
Local Open Scope list_scope.

(** The difference of ordinary schemas between which nothing changes that cannot be
    changed leads from the one to the other, in every dialect. *)
Theorem C73_ordinary_difference_reaches_target : forall d srt sdiff before after db0 dba,
  srt_ok srt -> describes d before db0 -> describes d after dba ->
  ordinary d before = true -> ordinary d after = true -> safe_change d before after = true ->
  reaches d srt sdiff before after db0 dba.
Proof.
  intros d srt sdiff before after db0 dba Hs Db Da Ob Oa S. apply (diff_reconciles d); try assumption.
  - apply safe_reconcilable; assumption.
  - apply ordinary_text; assumption.
Qed.
Print Assumptions C73_ordinary_difference_reaches_target.

(** PostgreSQL, CockroachDB: and otherwise it does not. *)
Theorem C73_pg_reaches_iff_safe : forall srt sdiff before after db0 dba,
  srt_ok srt -> describes Pg before db0 -> describes Pg after dba ->
  ordinary Pg before = true -> ordinary Pg after = true -> placed Pg before = true -> placed Pg after = true ->
  (reaches Pg srt sdiff before after db0 dba <-> safe_change Pg before after = true).
Proof.
  intros srt sdiff before after db0 dba Hs Db Da Ob Oa Pb Pa. split.
  - intro R. apply reconcilable_safe; try assumption. apply (C72_pg_reaches_iff srt sdiff before after db0 dba); try assumption.
    + apply (ordinary_parts Pg before Ob).
    + apply (ordinary_parts Pg after Oa).
  - apply C73_ordinary_difference_reaches_target; assumption.
Qed.
Print Assumptions C73_pg_reaches_iff_safe.

Theorem C73_cockroach_reaches_iff_safe : forall srt sdiff before after db0 dba,
  srt_ok srt -> describes Crdb before db0 -> describes Crdb after dba ->
  ordinary Crdb before = true -> ordinary Crdb after = true -> placed Crdb before = true -> placed Crdb after = true ->
  same_style Crdb before after = true -> inner_stay Crdb before after = true ->
  (reaches Crdb srt sdiff before after db0 dba <-> safe_change Crdb before after = true).
Proof.
  intros srt sdiff before after db0 dba Hs Db Da Ob Oa Pb Pa S1 S2. split.
  - intro R. apply reconcilable_safe; try assumption. apply (C72_cockroach_reaches_iff srt sdiff before after db0 dba); try assumption.
    + apply (ordinary_parts Crdb before Ob).
    + apply (ordinary_parts Crdb after Oa).
  - apply C73_ordinary_difference_reaches_target; assumption.
Qed.
Print Assumptions C73_cockroach_reaches_iff_safe.

(** MySQL: the same, if no index moves in or out of a table's definition. *)
Theorem C73_mysql_reaches_iff_safe : forall srt sdiff before after db0 dba,
  srt_ok srt -> describes My before db0 -> describes My after dba ->
  ordinary My before = true -> ordinary My after = true -> placed My before = true -> placed My after = true ->
  same_style My before after = true -> inner_stay My before after = true ->
  (reaches My srt sdiff before after db0 dba <-> safe_change My before after = true).
Proof.
  intros srt sdiff before after db0 dba Hs Db Da Ob Oa Pb Pa S1 S2. split.
  - apply (ordinary_needed My srt sdiff before after db0 dba); try assumption; [left; reflexivity|]. intro Z. discriminate Z.
  - apply C73_ordinary_difference_reaches_target; assumption.
Qed.
Print Assumptions C73_mysql_reaches_iff_safe.

(** Spanner: the same, if no table that stays has its options (primary key, interleaving)
    changed.  A table whose options change is dropped and created anew. *)
Lemma sp_no_inner : forall l, tidy Sp l = true -> inner_indexes Sp l = [].
Proof.
  intros l T. unfold inner_indexes. assert (H : forall s, In s l -> tidy_stmt Sp s = true) by (intros s Hs; exact (TidyFacts.tidy_in _ _ _ T Hs)).
  clear T. induction l as [|s r IH]; [reflexivity|]. cbn [flat_map]. rewrite IH by (intros x Hx; apply H; right; exact Hx).
  pose proof (H s (or_introl eq_refl)) as Ts. destruct s as [t| | | |]; try reflexivity. rewrite app_nil_r. cbn [tidy_stmt] in Ts.
  assert (N : forall c, In c (ct_constraints t) -> inner_index Sp (ct_name t) c = []).
  { intros c Hc. pose proof (index_tidy Sp t t Ts Ts t c Ts Hc) as X. destruct c; try reflexivity. discriminate X. }
  clear Ts. induction (ct_constraints t) as [|c cs IHc]; [reflexivity|]. cbn [flat_map]. rewrite (N c (or_introl eq_refl)). apply IHc. intros x Hx. apply N. right. exact Hx.
Qed.
Lemma sp_style : forall b a, tidy Sp b = true -> tidy Sp a = true -> same_style Sp b a = true /\ inner_stay Sp b a = true.
Proof.
  intros b a Tb Ta. pose proof (sp_no_inner b Tb) as Nb. pose proof (sp_no_inner a Ta) as Na. split.
  - unfold same_style. rewrite Nb, Na. unfold disjoint. cbn [forallb andb]. apply forallb_forall. reflexivity.
  - unfold inner_stay. apply forallb_forall. intros tb Hb. apply forallb_forall. intros ta Ha. apply orb_true_iff. right.
    assert (T1 : tidy Sp [CreateTable tb] = true).
    { unfold tidy. cbn [forallb]. rewrite andb_true_r. apply in_tables in Hb. exact (TidyFacts.tidy_in _ _ _ Tb Hb). }
    rewrite (sp_no_inner _ T1). reflexivity.
Qed.
Theorem C73_spanner_reaches_iff_safe : forall srt sdiff before after db0 dba,
  srt_ok srt -> describes Sp before db0 -> describes Sp after dba ->
  ordinary Sp before = true -> ordinary Sp after = true -> placed Sp before = true -> placed Sp after = true ->
  (forall tb ta, table_pair before after tb ta -> same_options (ct_options tb) (ct_options ta) = true) ->
  (reaches Sp srt sdiff before after db0 dba <-> safe_change Sp before after = true).
Proof.
  intros srt sdiff before after db0 dba Hs Db Da Ob Oa Pb Pa Op. split.
  - destruct (sp_style before after (proj1 (ordinary_parts Sp before Ob)) (proj1 (ordinary_parts Sp after Oa))) as [S1 S2].
    apply (ordinary_needed Sp srt sdiff before after db0 dba); try assumption; [right; reflexivity|]. intros _. exact Op.
  - apply C73_ordinary_difference_reaches_target; assumption.
Qed.
Print Assumptions C73_spanner_reaches_iff_safe.

(** "No difference" is told of two ordinary schemas exactly if they describe the same
    database, as long as they do not differ in what is never noticed. *)
Theorem C73_no_difference_iff_same : forall d srt sdiff before after db0 dba,
  srt_ok srt -> describes d before db0 -> describes d after dba ->
  ordinary d before = true -> ordinary d after = true -> noticed d before after = true ->
  same_style d before after = true -> (d = Sp -> same_option_order before after = true) ->
  (diff d srt sdiff (Some before) (Some after) = DNoDiff <-> db_eq db0 dba).
Proof.
  intros d srt sdiff before after db0 dba Hs Db Da Ob Oa N S O. split.
  - apply nodiff_honest; try assumption; [apply noticed_comparable; assumption|apply ordinary_text; assumption].
  - intro E. apply (same_catalogue_no_difference d srt sdiff before after db0 dba); try assumption.
    + apply (ordinary_parts d before Ob).
    + apply (ordinary_parts d after Oa).
Qed.
Print Assumptions C73_no_difference_iff_same.

(** The texts that are compared determine what is meant. *)
Theorem C73_constraint_text_tells : forall d t b a, tidy_con d b = true -> tidy_con d a = true -> con_label b = con_label a ->
  is_inner_index b = is_inner_index a -> ordinary_constraint d b = true -> ordinary_constraint d a = true ->
  (constraint_diff d b = constraint_diff d a <-> con_value d t b = con_value d t a).
Proof.
  intros d t b a Tb Ta K I Ob Oa. split.
  - apply (constraint_inj d t t); try assumption. reflexivity.
  - rewrite !con_value_cval. intro E. apply (constraint_diff_eq d t); try assumption; [rewrite <- !con_label_key; exact K|congruence].
Qed.
Print Assumptions C73_constraint_text_tells.
Theorem C73_type_text_tells : forall d b a, ordinary_type d b = true -> ordinary_type d a = true ->
  (datatype_diff b = datatype_diff a <-> dt_type b = dt_type a /\ etoks (dt_expr b) = etoks (dt_expr a)).
Proof.
  intros d b a Ob Oa. split.
  - intro E. pose proof (type_inj d b a Ob Oa E) as K. exact (conj (f_equal fst K) (f_equal snd K)).
  - intros [E1 E2]. apply datatype_diff_eq; assumption.
Qed.
Print Assumptions C73_type_text_tells.
Theorem C73_default_text_tells : forall d b a, ordinary_default d b = true -> ordinary_default d a = true ->
  (default_diff d b = default_diff d a <-> sem_default b = sem_default a).
Proof. intros d b a Ob Oa. split; [apply default_inj; assumption|apply default_diff_eq]. Qed.
Print Assumptions C73_default_text_tells.

(** A whole run: the database and the file have ordinary schemas of plain texts (C69), the
    change is safe.  Then "ddlctl apply" succeeds, no statement is refused and the database is
    as the file says. *)
Theorem C73_apply_reaches_target : forall w dsn src d s1 s2 before after m0 ma,
  working w -> approved w -> dialect_of (w_dialect w) = Some d -> srt_ok (w_srt w) -> modest (w_sdiff w) ->
  w_resolve w dsn = Some s1 -> w_resolve w src = Some s2 ->
  parse d (w_srt w) s1 = Ok before -> parse d (w_srt w) s2 = Ok after ->
  served d m0 w -> describes d before m0 -> describes d after ma ->
  ordinary d before = true -> ordinary d after = true -> safe_change d before after = true ->
  plain_schema before = true -> plain_schema after = true -> index_names_ok d before = true -> index_names_ok d after = true ->
  exists tr, apply_command w [dsn; src] = (tr, Done) /\ db_eq (sv_db (after_events d tr m0)) ma
    /\ Forall (fun p => snd p = None) (sent tr).
Proof.
  intros w dsn src d s1 s2 before after m0 ma Ww Wa Hd Hs Hm R1 R2 P1 P2 S Db Da Ob Oa Sf Lb La Nb Na.
  apply (C48_plain_schemas_partial w dsn src d s1 s2 before after m0 ma); try assumption. constructor; try assumption.
  - apply safe_reconcilable; assumption.
  - apply ordinary_text; assumption.
  - apply (ordinary_parts d before Ob).
  - apply (ordinary_parts d after Oa).
Qed.
Print Assumptions C73_apply_reaches_target.

(** * Examples *)
Definition ordinary_text_of (d : dialect) (s : string) : bool := accepted d s && described d (schema d s) && ordinary d (schema d s) && placed d (schema d s).
Definition safe_pair (d : dialect) (b a : string) : bool :=
  ordinary_text_of d b && ordinary_text_of d a && safe_change d (schema d b) (schema d a) && noticed d (schema d b) (schema d a).
Example C73_examples : safe_pair Pg pg_before pg_after = true /\ safe_pair My my_before my_after = true
  /\ safe_pair Crdb cr_before cr_after = true /\ safe_pair Sp sp_before sp_after = true.
Proof. repeat split; vm_compute; reflexivity. Qed.

Definition my_rich := "CREATE TABLE t (id BIGINT NOT NULL AUTO_INCREMENT, kind ENUM('a','b') NOT NULL DEFAULT 'a', price DECIMAL(10,2) DEFAULT 0, at DATETIME DEFAULT CURRENT_TIMESTAMP ON UPDATE CURRENT_TIMESTAMP, name VARCHAR(255) COLLATE utf8mb4_bin, PRIMARY KEY (id), CONSTRAINT c CHECK (price >= 0), UNIQUE KEY k (name, kind DESC)) ENGINE=InnoDB DEFAULT CHARSET=utf8mb4 COMMENT='things'; CREATE INDEX i ON t (price);"%string.
Definition my_rich2 := "CREATE TABLE t (id BIGINT NOT NULL AUTO_INCREMENT, kind ENUM('a','b','c') NOT NULL DEFAULT 'b', price DECIMAL(12,2) DEFAULT 1, at DATETIME, name VARCHAR(255) COLLATE utf8mb4_general_ci, PRIMARY KEY (id), CONSTRAINT c CHECK (price > 0), UNIQUE KEY k (name, kind DESC)) ENGINE=InnoDB DEFAULT CHARSET=utf8mb4 COMMENT='stuff'; CREATE INDEX i ON t (price);"%string.
Definition sp_rich := "CREATE TABLE p (a STRING(36) NOT NULL, b INT64) PRIMARY KEY (a); CREATE TABLE t (a STRING(36) NOT NULL, b INT64 NOT NULL DEFAULT (1), at TIMESTAMP OPTIONS (allow_commit_timestamp = true), CONSTRAINT c CHECK (b > 0), CONSTRAINT f FOREIGN KEY (a) REFERENCES p (a)) PRIMARY KEY (a, b DESC), INTERLEAVE IN PARENT p ON DELETE CASCADE, ROW DELETION POLICY (OLDER_THAN(at, INTERVAL 30 DAY)); CREATE INDEX i ON p (b);"%string.
Definition sp_rich2 := "CREATE TABLE p (a STRING(36) NOT NULL, b INT64) PRIMARY KEY (a); CREATE TABLE t (a STRING(MAX) NOT NULL, b INT64 NOT NULL DEFAULT (2), at TIMESTAMP OPTIONS (allow_commit_timestamp = true), CONSTRAINT c CHECK (b >= 0), CONSTRAINT f FOREIGN KEY (a) REFERENCES p (a)) PRIMARY KEY (a, b), INTERLEAVE IN PARENT p ON DELETE NO ACTION, ROW DELETION POLICY (OLDER_THAN(at, INTERVAL 60 DAY)); CREATE UNIQUE INDEX i ON p (b);"%string.
Example C73_rich_examples : safe_pair My my_rich my_rich2 = true /\ safe_pair Sp sp_rich sp_rich2 = true.
Proof. split; vm_compute; reflexivity. Qed.

Example C73_apply_example : forallb (fun p => match p with (d, b, a) => safe_pair d b a && plain_schema (schema d b) && plain_schema (schema d a)
    && index_names_ok d (schema d b) && index_names_ok d (schema d a) end)
  [(Pg, pg_before, pg_after); (My, my_before, my_after); (Crdb, cr_before, cr_after); (Sp, sp_before, sp_after); (My, my_rich, my_rich2); (Sp, sp_rich, sp_rich2)] = true.
Proof. vm_compute. reflexivity. Qed.

(** Ordinary schemas with unsafe changes: the misses of C72. *)
Example C73_unsafe_examples :
  forallb (fun p => ordinary_text_of Pg (fst p) && ordinary_text_of Pg (snd p) && negb (safe_change Pg (schema Pg (fst p)) (schema Pg (snd p)))) pg_misses = true
  /\ forallb (fun p => ordinary_text_of Crdb (fst p) && ordinary_text_of Crdb (snd p) && negb (safe_change Crdb (schema Crdb (fst p)) (schema Crdb (snd p)))) cr_misses = true.
Proof. split; vm_compute; reflexivity. Qed.
Definition my_misses : list (string * string) :=
  [ (* an index that goes, that is changed: MySQL's DROP INDEX needs to be told the table *)
    ("CREATE TABLE t (a INT); CREATE INDEX i ON t (a);", "CREATE TABLE t (a INT);");
    ("CREATE TABLE t (a INT); CREATE INDEX i ON t (a);", "CREATE TABLE t (a INT); CREATE UNIQUE INDEX i ON t (a);");
    (* the same inside a table *)
    ("CREATE TABLE t (a INT, KEY k (a));", "CREATE TABLE t (a INT);");
    ("CREATE TABLE t (a INT, b INT, KEY k (a));", "CREATE TABLE t (a INT, b INT, KEY k (b));");
    (* a table dropped together with its index *)
    ("CREATE TABLE t (a INT); CREATE INDEX i ON t (a);", "CREATE TABLE u (a INT);");
    (* an option that is no longer given *)
    ("CREATE TABLE t (a INT) COMMENT='x';", "CREATE TABLE t (a INT);");
    (* a dropped column that a constraint of both sides uses *)
    ("CREATE TABLE t (a INT, b INT, CONSTRAINT c CHECK (a > b));", "CREATE TABLE t (a INT, CONSTRAINT c CHECK (a > 0));") ]%string.
Definition sp_misses : list (string * string) :=
  [ ("CREATE TABLE t (a INT64) PRIMARY KEY (a); CREATE INDEX i ON t (a);", "CREATE TABLE u (a INT64) PRIMARY KEY (a);");
    ("CREATE TABLE t (a INT64, b INT64) PRIMARY KEY (a); CREATE INDEX i ON t (b);", "CREATE TABLE t (a INT64) PRIMARY KEY (a); CREATE INDEX i ON t (a);");
    ("CREATE TABLE t (a INT64, b INT64, CONSTRAINT c CHECK (a > b)) PRIMARY KEY (a);", "CREATE TABLE t (a INT64, CONSTRAINT c CHECK (a > 0)) PRIMARY KEY (a);") ]%string.
Definition options_kept (b a : ddl) : bool := forallb (fun tb => forallb (fun ta => negb (String.eqb (table_name tb) (table_name ta)) || same_options (ct_options tb) (ct_options ta)) (tables a)) (tables b).
Definition missed (d : dialect) (p : string * string) : bool :=
  ordinary_text_of d (fst p) && ordinary_text_of d (snd p) && same_style d (schema d (fst p)) (schema d (snd p)) && inner_stay d (schema d (fst p)) (schema d (snd p))
  && negb (safe_change d (schema d (fst p)) (schema d (snd p))).
Example C73_mysql_spanner_misses : forallb (missed My) my_misses = true
  /\ forallb (fun p => missed Sp p && options_kept (schema Sp (fst p)) (schema Sp (snd p))) sp_misses = true.
Proof. split; vm_compute; reflexivity. Qed.
(** Not ordinary: the text does not show that 'NULL' is a literal. *)
Example C73_not_ordinary : ordinary My (schema My "CREATE TABLE t (a VARCHAR(9) DEFAULT 'NULL');") = false
  /\ ordinary My (schema My "CREATE TABLE t (a VARCHAR(9) DEFAULT NULL);") = true.
Proof. split; vm_compute; reflexivity. Qed.
