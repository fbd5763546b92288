(** Properties of comparing two schemas: C11 - C18, C20, C35 - C37, C40 - C44. *)
From Coq Require Import Lia Permutation.
From Verif Require Import GoStr Token Lexer Ast Parser Diff AppendFacts.
From Verif Require Import Db DbFacts Tidy TidyFacts DiffTable DiffSame Reconcile ReconcileFacts Honest.
From Verif Require Import DiffSpec Justified Frame Shape IndexText Variants VariantFacts.

(** For the examples: the schema a text describes, and the catalogue a schema describes. *)
Definition id_sort (cs : list constraint) : list constraint := cs.
Lemma id_sort_ok : srt_ok id_sort.
Proof. intro l. apply Permutation_refl. Qed.
Definition no_text (a b : string) : string := "".
Definition schema (d : dialect) (s : string) : ddl := match parse d id_sort s with Ok l => l | _ => [] end.
Definition accepted (d : dialect) (s : string) : bool := match parse d id_sort s with Ok _ => true | _ => false end.
Definition catalogue (d : dialect) (l : ddl) : db :=
  match exec_all d (map forget_ine l) empty_db with Some m => m | None => empty_db end.
Definition described (d : dialect) (l : ddl) : bool :=
  forallb is_create l && present (exec_all d (map forget_ine l) empty_db).
Lemma described_ok : forall d l, described d l = true -> describes d l (catalogue d l).
Proof.
  intros d l H. unfold described in H. apply andb_true_iff in H. destruct H as [H1 H2]. split; [exact H1|]. unfold catalogue.
  destruct (exec_all d (map forget_ine l) empty_db); [reflexivity|discriminate H2].
Qed.
Definition diff_of (d : dialect) (b a : ddl) : dres := diff d id_sort no_text (Some b) (Some a).
Definition printed (d : dialect) (r : dres) : option string :=
  match r with DOk l => Some (ddl_string d l) | _ => None end.

(** * C11: a schema does not differ from itself *)

Theorem C11_schema_equals_itself : forall d srt sdiff l, diff d srt sdiff (Some l) (Some l) = DNoDiff.
Proof. intros d srt sdiff l. cbn [diff]. unfold diff_ddl, eqs. rewrite String.eqb_refl. reflexivity. Qed.
Print Assumptions C11_schema_equals_itself.

Theorem C11_table_equals_itself : forall d srt sdiff nv t, diff_create_table d srt sdiff nv t t = DNoDiff.
Proof.
  intros d srt sdiff nv t. unfold diff_create_table, eqs. rewrite String.eqb_refl.
  destruct d; try reflexivity. rewrite neqs_refl. reflexivity.
Qed.
Print Assumptions C11_table_equals_itself.

Example C11_example : let l := schema Pg "CREATE TABLE t (a INTEGER); CREATE INDEX i ON t (a);" in
  List.length l = 2 /\ diff_of Pg l l = DNoDiff.
Proof. split; reflexivity. Qed.

(** * C12, C35, C36, C37: executing a diff yields the target *)

(** Executing the statements of the diff in the catalogue [db0] succeeds and yields [dba]. *)
Definition reaches (d : dialect) (srt : list constraint -> list constraint) (sdiff : string -> string -> string)
    (before after : ddl) (db0 dba : db) : Prop :=
  match diff d srt sdiff (Some before) (Some after) with
  | DOk stmts => exists m, exec_all d stmts db0 = Some m /\ db_eq m dba
  | DNoDiff => db_eq db0 dba
  | _ => False
  end.

(** Missing for the full property: pairs that are not [reconcilable] (Reconcile.v), i.e. a
    dropped column that a changed constraint or index still uses, a table dropped together
    with its indexes, a change of USING, texts that do not show the change.  For some of
    these the property is false, see below. *)
Theorem C12_pg_diff_reaches_target_partial : forall srt sdiff before after db0 dba,
  srt_ok srt -> describes Pg before db0 -> describes Pg after dba ->
  reconcilable Pg before after = true -> text_ok Pg before after = true ->
  reaches Pg srt sdiff before after db0 dba.
Proof. intros srt sdiff before after db0 dba. exact (diff_reconciles Pg srt sdiff before after db0 dba). Qed.
Print Assumptions C12_pg_diff_reaches_target_partial.

(** MySQL: in addition no index is dropped or changed (DROP INDEX without ON), no column with a
    character set changes, no table option is removed. *)
Theorem C35_mysql_diff_reaches_target_partial : forall srt sdiff before after db0 dba,
  srt_ok srt -> describes My before db0 -> describes My after dba ->
  reconcilable My before after = true -> text_ok My before after = true ->
  reaches My srt sdiff before after db0 dba.
Proof. intros srt sdiff before after db0 dba. exact (diff_reconciles My srt sdiff before after db0 dba). Qed.
Print Assumptions C35_mysql_diff_reaches_target_partial.

(** CockroachDB: in addition NOT VISIBLE and AS do not change. *)
Theorem C36_cockroach_diff_reaches_target_partial : forall srt sdiff before after db0 dba,
  srt_ok srt -> describes Crdb before db0 -> describes Crdb after dba ->
  reconcilable Crdb before after = true -> text_ok Crdb before after = true ->
  reaches Crdb srt sdiff before after db0 dba.
Proof. intros srt sdiff before after db0 dba. exact (diff_reconciles Crdb srt sdiff before after db0 dba). Qed.
Print Assumptions C36_cockroach_diff_reaches_target_partial.

(** Spanner: in addition a table with indexes is not re-created. *)
Theorem C37_spanner_diff_reaches_target_partial : forall srt sdiff before after db0 dba,
  srt_ok srt -> describes Sp before db0 -> describes Sp after dba ->
  reconcilable Sp before after = true -> text_ok Sp before after = true ->
  reaches Sp srt sdiff before after db0 dba.
Proof. intros srt sdiff before after db0 dba. exact (diff_reconciles Sp srt sdiff before after db0 dba). Qed.
Print Assumptions C37_spanner_diff_reaches_target_partial.

(** The hypotheses hold for ordinary changes. *)
Definition fits (d : dialect) (b a : string) : bool :=
  accepted d b && accepted d a && described d (schema d b) && described d (schema d a)
  && reconcilable d (schema d b) (schema d a) && text_ok d (schema d b) (schema d a).

Definition pg_before := "CREATE TABLE users (id UUID NOT NULL, name TEXT, age INTEGER DEFAULT 0, CONSTRAINT pk PRIMARY KEY (id)); CREATE INDEX i ON users (name); CREATE TABLE old (a INTEGER);"%string.
Definition pg_after := "CREATE TABLE users (id UUID NOT NULL, name VARCHAR(10) NOT NULL DEFAULT 'x', mail TEXT, CONSTRAINT pk PRIMARY KEY (id), CONSTRAINT u UNIQUE (mail)); CREATE UNIQUE INDEX i ON users (name); CREATE TABLE fresh (a INTEGER);"%string.
Example C12_example : fits Pg pg_before pg_after = true
  /\ printed Pg (diff_of Pg (schema Pg pg_before) (schema Pg pg_after)) = Some (
"DROP TABLE old;
CREATE TABLE fresh (
    a INTEGER
);
ALTER TABLE users ALTER COLUMN name SET DATA TYPE VARCHAR(10);
ALTER TABLE users ALTER COLUMN name SET DEFAULT 'x';
ALTER TABLE users ALTER COLUMN name SET NOT NULL;
ALTER TABLE users DROP COLUMN age;
ALTER TABLE users ADD COLUMN mail TEXT;
ALTER TABLE users ADD CONSTRAINT u UNIQUE (mail);
DROP INDEX i;
CREATE UNIQUE INDEX i ON users (name);
")%string.
Proof. split; vm_compute; reflexivity. Qed.

Definition my_before := "CREATE TABLE t (a INTEGER, b VARCHAR(3) DEFAULT 'x', UNIQUE KEY k (a)) ENGINE=InnoDB;"%string.
Definition my_after := "CREATE TABLE t (a INTEGER NOT NULL, b VARCHAR(5), c INTEGER, UNIQUE KEY k (a), KEY j (c)) ENGINE=MyISAM;"%string.
Example C35_example : fits My my_before my_after = true.
Proof. vm_compute; reflexivity. Qed.

Definition cr_before := "CREATE TABLE t (a STRING, b STRING, CONSTRAINT p PRIMARY KEY (a ASC), UNIQUE INDEX j (b ASC), INDEX k (b));"%string.
Definition cr_after := "CREATE TABLE t (a STRING NOT NULL, b STRING DEFAULT 'x', c INT8, CONSTRAINT p PRIMARY KEY (a ASC), UNIQUE INDEX j (b DESC), INDEX l (c ASC));"%string.
Example C36_example : fits Crdb cr_before cr_after = true.
Proof. vm_compute; reflexivity. Qed.

Definition sp_before := "CREATE TABLE t (a STRING(36) NOT NULL, b INT64) PRIMARY KEY (a); CREATE INDEX i ON t (b);"%string.
Definition sp_after := "CREATE TABLE t (a STRING(36) NOT NULL, b INT64 NOT NULL, c INT64 DEFAULT (1)) PRIMARY KEY (a); CREATE INDEX i ON t (b DESC);"%string.
Example C37_example : fits Sp sp_before sp_after = true.
Proof. vm_compute; reflexivity. Qed.

(** The full property is false. *)
Definition no_reach (d : dialect) : Prop := exists b a, accepted d b = true /\ accepted d a = true /\
  exists db0 dba, describes d (schema d b) db0 /\ describes d (schema d a) dba /\
  ~ reaches d id_sort no_text (schema d b) (schema d a) db0 dba.

(** A decision procedure for the witnesses *)
Definition misses (d : dialect) (b a : ddl) (k : key) : bool :=
  match diff_of d b a with
  | DOk stmts => match exec_all d stmts (catalogue d b) with
                 | None => true
                 | Some m => negb (same (option_dec value_dec) (m k) (catalogue d a k))
                 end
  | DNoDiff => negb (same (option_dec value_dec) (catalogue d b k) (catalogue d a k))
  | _ => true
  end.
Lemma same_refl : forall A (dec : forall a b : A, {a = b} + {a <> b}) x, same dec x x = true.
Proof. intros A dec x. unfold same. destruct (dec x x); [reflexivity|contradiction]. Qed.
Lemma no_reach_witness : forall d b a k, accepted d b = true -> accepted d a = true ->
  described d (schema d b) = true -> described d (schema d a) = true -> misses d (schema d b) (schema d a) k = true -> no_reach d.
Proof.
  intros d b a k Pb Pa Db Da M. exists b, a. split; [exact Pb|]. split; [exact Pa|].
  exists (catalogue d (schema d b)), (catalogue d (schema d a)).
  split; [apply described_ok; exact Db|]. split; [apply described_ok; exact Da|]. intro R. unfold reaches in R. unfold misses, diff_of in M.
  destruct (diff d id_sort no_text (Some (schema d b)) (Some (schema d a))); try contradiction.
  - destruct R as [m [E Q]]. rewrite E, (Q k), same_refl in M. discriminate M.
  - rewrite (R k), same_refl in M. discriminate M.
Qed.

(** DROP TABLE t removes the index i, DROP INDEX i fails then. *)
Theorem C12_pg_dropped_table_with_index_refuted : no_reach Pg.
Proof.
  apply (no_reach_witness Pg "CREATE TABLE t (a INTEGER); CREATE INDEX i ON t (a);" "CREATE TABLE u (a INTEGER);" (KTab "")); vm_compute; reflexivity.
Qed.
Print Assumptions C12_pg_dropped_table_with_index_refuted.
(** DROP COLUMN b removes the constraint k, DROP CONSTRAINT k fails then. *)
Theorem C12_pg_dropped_column_of_constraint_refuted : no_reach Pg.
Proof.
  apply (no_reach_witness Pg "CREATE TABLE t (a INTEGER, b INTEGER, CONSTRAINT k UNIQUE (a, b));" "CREATE TABLE t (a INTEGER, CONSTRAINT k UNIQUE (a));" (KTab "")); vm_compute; reflexivity.
Qed.
Print Assumptions C12_pg_dropped_column_of_constraint_refuted.
(** A change of the index method is not noticed. *)
Theorem C12_pg_index_method_refuted : no_reach Pg.
Proof.
  apply (no_reach_witness Pg "CREATE TABLE t (a INTEGER); CREATE INDEX i ON t USING btree (a);" "CREATE TABLE t (a INTEGER); CREATE INDEX i ON t USING hash (a);" (KIdx "i")); vm_compute; reflexivity.
Qed.
Print Assumptions C12_pg_index_method_refuted.
(** DROP INDEX without ON table is not MySQL. *)
Theorem C35_mysql_dropped_index_refuted : no_reach My.
Proof.
  apply (no_reach_witness My "CREATE TABLE t (a INTEGER); CREATE INDEX i ON t (a);" "CREATE TABLE t (a INTEGER);" (KTab "")); vm_compute; reflexivity.
Qed.
Print Assumptions C35_mysql_dropped_index_refuted.
(** MODIFY loses the character set. *)
Theorem C35_mysql_character_set_refuted : no_reach My.
Proof.
  apply (no_reach_witness My "CREATE TABLE t (a VARCHAR(3));" "CREATE TABLE t (a VARCHAR(5) CHARACTER SET utf8mb4);" (KCol "t" "a")); vm_compute; reflexivity.
Qed.
Print Assumptions C35_mysql_character_set_refuted.
(** An index moved out of CREATE TABLE is created while it still exists. *)
Theorem C36_cockroach_moved_index_refuted : no_reach Crdb.
Proof.
  apply (no_reach_witness Crdb "CREATE TABLE t (a STRING, INDEX j (a));" "CREATE TABLE t (a STRING); CREATE INDEX j ON t (a);" (KTab "")); vm_compute; reflexivity.
Qed.
Print Assumptions C36_cockroach_moved_index_refuted.
(** A changed computed column is not noticed. *)
Theorem C36_cockroach_computed_column_refuted : no_reach Crdb.
Proof.
  apply (no_reach_witness Crdb "CREATE TABLE t (a INT8, b INT8 AS (a + 1) STORED);" "CREATE TABLE t (a INT8, b INT8 AS (a + 2) STORED);" (KCol "t" "b")); vm_compute; reflexivity.
Qed.
Print Assumptions C36_cockroach_computed_column_refuted.
(** Writing the default order of the primary key explicitly drops the table; its indexes are not created again. *)
Theorem C37_spanner_recreated_table_loses_index_refuted : no_reach Sp.
Proof.
  apply (no_reach_witness Sp "CREATE TABLE t (a STRING(36) NOT NULL, b INT64) PRIMARY KEY (a); CREATE INDEX i ON t (b);"
    "CREATE TABLE t (a STRING(36) NOT NULL, b INT64) PRIMARY KEY (a ASC); CREATE INDEX i ON t (b);" (KIdx "i")); vm_compute; reflexivity.
Qed.
Print Assumptions C37_spanner_recreated_table_loses_index_refuted.

(** * C13: "no difference" is honest *)

(** Missing: pairs that are not [comparable], i.e. changes that the compared texts do not show;
    some of them refute the property, see below. *)
Theorem C13_no_difference_is_honest_partial : forall d srt sdiff before after db0 dba,
  srt_ok srt -> describes d before db0 -> describes d after dba ->
  comparable d before after = true -> text_ok d before after = true ->
  diff d srt sdiff (Some before) (Some after) = DNoDiff -> db_eq db0 dba.
Proof. exact nodiff_honest. Qed.
Print Assumptions C13_no_difference_is_honest_partial.

Example C13_example :
  let b := schema Pg "CREATE TABLE ""t"" (a INTEGER, b TEXT DEFAULT 'x');" in
  let a := schema Pg "CREATE TABLE t (b TEXT DEFAULT 'x', a INTEGER);" in
  diff_of Pg b a = DNoDiff /\ b <> a /\ comparable Pg b a = true /\ text_ok Pg b a = true.
Proof. refine (conj _ (conj _ (conj _ _))); try (vm_compute; reflexivity). vm_compute. intro H. discriminate H. Qed.

Definition missed (d : dialect) : Prop := exists b a, accepted d b = true /\ accepted d a = true /\
  diff_of d (schema d b) (schema d a) = DNoDiff /\
  exists db0 dba k, describes d (schema d b) db0 /\ describes d (schema d a) dba /\ db0 k <> dba k.
Lemma missed_witness : forall d b a k, accepted d b = true -> accepted d a = true ->
  described d (schema d b) = true -> described d (schema d a) = true -> diff_of d (schema d b) (schema d a) = DNoDiff ->
  same (option_dec value_dec) (catalogue d (schema d b) k) (catalogue d (schema d a) k) = false -> missed d.
Proof.
  intros d b a k Pb Pa Db Da E N. exists b, a. split; [exact Pb|]. split; [exact Pa|]. split; [exact E|].
  exists (catalogue d (schema d b)), (catalogue d (schema d a)), k. split; [apply described_ok; exact Db|]. split; [apply described_ok; exact Da|].
  intro F. rewrite F, same_refl in N. discriminate N.
Qed.
Theorem C13_pg_index_method_refuted : missed Pg.
Proof.
  apply (missed_witness Pg "CREATE TABLE t (a INTEGER); CREATE INDEX i ON t USING btree (a);" "CREATE TABLE t (a INTEGER); CREATE INDEX i ON t USING hash (a);" (KIdx "i")); vm_compute; reflexivity.
Qed.
Print Assumptions C13_pg_index_method_refuted.
Theorem C13_cockroach_computed_column_refuted : missed Crdb.
Proof.
  apply (missed_witness Crdb "CREATE TABLE t (a INT8, b INT8 AS (a + 1) STORED);" "CREATE TABLE t (a INT8, b INT8 AS (a + 2) STORED);" (KCol "t" "b")); vm_compute; reflexivity.
Qed.
Print Assumptions C13_cockroach_computed_column_refuted.
Theorem C13_mysql_default_literal_refuted : missed My.
Proof.
  apply (missed_witness My "CREATE TABLE t (a VARCHAR(9) DEFAULT 'NULL');" "CREATE TABLE t (a VARCHAR(9) DEFAULT NULL);" (KCol "t" "a")); vm_compute; reflexivity.
Qed.
Print Assumptions C13_mysql_default_literal_refuted.
Theorem C13_spanner_default_literal_refuted : missed Sp.
Proof.
  apply (missed_witness Sp "CREATE TABLE t (a INT64 DEFAULT ('NULL')) PRIMARY KEY (a);" "CREATE TABLE t (a INT64 DEFAULT (NULL)) PRIMARY KEY (a);" (KCol "t" "a")); vm_compute; reflexivity.
Qed.
Print Assumptions C13_spanner_default_literal_refuted.

(** * C14: applying a diff converges *)

(** Missing: as C12.  [after'] is any schema that describes the resulting catalogue. *)
Theorem C14_converges_partial : forall d srt sdiff before after db0 dba stmts,
  srt_ok srt -> describes d before db0 -> describes d after dba ->
  reconcilable d before after = true -> text_ok d before after = true ->
  diff d srt sdiff (Some before) (Some after) = DOk stmts ->
  exists m, exec_all d stmts db0 = Some m /\
  forall after' m', describes d after' m' -> db_eq m' m -> tidy d after' = true -> same_style d after' after = true ->
    (d = Sp -> same_option_order after' after = true) ->
    diff d srt sdiff (Some after') (Some after) = DNoDiff.
Proof.
  intros d srt sdiff before after db0 dba stmts Hs DB DA R T E. pose proof (diff_reconciles d srt sdiff before after db0 dba Hs DB DA R T) as K.
  rewrite E in K. destruct K as [m [K1 K2]]. exists m. split; [exact K1|]. intros after' m' D' Q T' S' O'.
  apply (same_catalogue_no_difference d srt sdiff after' after m' dba); try assumption.
  - intro k. rewrite (Q k). apply K2.
  - unfold reconcilable in R. rewrite !andb_true_iff in R. apply R.
Qed.
Print Assumptions C14_converges_partial.

(** MySQL: the character set is never set, the same statement is emitted forever. *)
Definition cs_before := Eval vm_compute in schema My "CREATE TABLE t (a VARCHAR(3));".
Definition cs_result := Eval vm_compute in schema My "CREATE TABLE t (a VARCHAR(5));".
Definition cs_stmts := Eval vm_compute in
  match diff_of My cs_before (schema My "CREATE TABLE t (a VARCHAR(5) CHARACTER SET utf8mb4);") with DOk l => l | _ => [] end.
Theorem C14_mysql_character_set_refuted : exists b a r stmts m,
  accepted My b = true /\ accepted My a = true /\ accepted My r = true /\
  diff_of My (schema My b) (schema My a) = DOk stmts /\ exec_all My stmts (catalogue My (schema My b)) = Some m /\
  describes My (schema My r) (catalogue My (schema My r)) /\ db_eq (catalogue My (schema My r)) m /\
  diff_of My (schema My r) (schema My a) = DOk stmts.
Proof.
  exists "CREATE TABLE t (a VARCHAR(3));"%string, "CREATE TABLE t (a VARCHAR(5) CHARACTER SET utf8mb4);"%string,
         "CREATE TABLE t (a VARCHAR(5));"%string, cs_stmts.
  destruct (exec_all My cs_stmts (catalogue My cs_before)) as [m|] eqn:E; [|vm_compute in E; discriminate E].
  exists m. split; [vm_compute; reflexivity|]. split; [vm_compute; reflexivity|]. split; [vm_compute; reflexivity|].
  split; [vm_compute; reflexivity|].
  replace (schema My "CREATE TABLE t (a VARCHAR(3));") with cs_before by (vm_compute; reflexivity).
  replace (schema My "CREATE TABLE t (a VARCHAR(5));") with cs_result by (vm_compute; reflexivity).
  split; [exact E|]. split; [apply described_ok; vm_compute; reflexivity|]. split; [|vm_compute; reflexivity].
  intro k. unfold catalogue, cs_result. unfold catalogue, cs_stmts, cs_before in E. cbn -[String.eqb] in E.
  change (String.eqb "t" "t") with true in E. change (String.eqb "a" "a") with true in E. cbn -[String.eqb] in E.
  assert (Q : forall x y : db, Some x = Some y -> x = y) by congruence. apply Q in E. subst m. cbn -[String.eqb].
  change (String.eqb "t" "t") with true. change (String.eqb "a" "a") with true. cbn -[String.eqb].
  destruct k as [t|t c|t n|t o|t|n]; cbn -[String.eqb]; unfold owned_by; cbn -[String.eqb];
  try (destruct (String.eqb "t" t) eqn:Et; cbn -[String.eqb]; rewrite ?Et; cbn -[String.eqb]);
  try (destruct (String.eqb "a" c) eqn:Ec; cbn -[String.eqb]; rewrite ?Ec, ?Et; cbn -[String.eqb]); reflexivity.
Qed.
Print Assumptions C14_mysql_character_set_refuted.

Definition pg_plain := "CREATE TABLE ""users"" (id UUID NOT NULL, mail TEXT, name VARCHAR(10) NOT NULL DEFAULT 'x', CONSTRAINT u UNIQUE (mail), CONSTRAINT pk PRIMARY KEY (id)); CREATE TABLE fresh (a INTEGER); CREATE UNIQUE INDEX i ON users (name);"%string.
Example C14_example : let r := schema Pg pg_plain in let a := schema Pg pg_after in
  tidy Pg r = true /\ same_style Pg r a = true /\ described Pg r = true /\ r <> a /\ diff_of Pg r a = DNoDiff.
Proof. refine (conj _ (conj _ (conj _ (conj _ _)))); try (vm_compute; reflexivity). vm_compute. intro H. discriminate H. Qed.

(** * C15: equal objects are left alone *)

Theorem C15_equal_table_untouched : forall d srt sdiff before after mb ma stmts t,
  srt_ok srt -> describes d before mb -> describes d after ma -> tidy d before = true -> tidy d after = true ->
  diff d srt sdiff (Some before) (Some after) = DOk stmts ->
  In t (tables before) -> In t (tables after) ->
  forall s, In s stmts -> mentions_table (table_name t) s = false.
Proof.
  intros d srt sdiff before after mb ma stmts t Hs DB DA TB TA E Ib Ia s I.
  destruct (table_block d srt sdiff Hs before after mb ma DB DA TB TA stmts E t t (conj Ib (conj Ia eq_refl))) as [l1 [lt [l2 [L [O X]]]]].
  rewrite C11_table_equals_itself in X. destruct X as [X|[_ X]]; [discriminate X|]. subst lt. apply O. rewrite L in I. exact I.
Qed.
Print Assumptions C15_equal_table_untouched.

Theorem C15_equal_index_untouched : forall d srt sdiff before after mb ma stmts i,
  srt_ok srt -> describes d before mb -> describes d after ma -> tidy d before = true -> tidy d after = true ->
  diff d srt sdiff (Some before) (Some after) = DOk stmts ->
  In i (indexes before) -> In i (indexes after) ->
  forall s, In s stmts -> mentions_index (qname (cx_name i)) s = false.
Proof.
  intros d srt sdiff before after mb ma stmts i Hs DB DA TB TA E Ib Ia s I.
  destruct (index_block d srt sdiff Hs before after mb ma DB DA TB TA stmts E i i Ib Ia eq_refl) as [l1 [lx [l2 [L [O X]]]]].
  destruct X as [[_ X]|[X _]]; [|contradiction]. subst lx. apply O. rewrite L in I. exact I.
Qed.
Print Assumptions C15_equal_index_untouched.

(** The same for tables and indexes that are equal in the catalogues, however they are written. *)
Theorem C15_unchanged_objects_untouched : forall d srt sdiff before after mb ma stmts s,
  srt_ok srt -> describes d before mb -> describes d after ma -> tidy d before = true -> tidy d after = true ->
  same_style d before after = true -> (d = Sp -> same_option_order before after = true) ->
  diff d srt sdiff (Some before) (Some after) = DOk stmts -> In s stmts -> subject_changes mb ma s.
Proof.
  intros d srt sdiff before after mb ma stmts s Hs DB DA TB TA S O E I.
  destruct (diff_loose d srt sdiff before after stmts s Hs TB TA E I) as [J|[tb [ta [P W]]]].
  - exact (justified_changes d before after mb ma DB DA TB TA S O s J).
  - exact (swapped_changes d before after mb ma DB DA TB TA S O tb ta s P W).
Qed.
Print Assumptions C15_unchanged_objects_untouched.

Example C15_example :
  let b := schema Pg "CREATE TABLE t (a INTEGER); CREATE TABLE u (b INTEGER); CREATE INDEX i ON t (a);" in
  let a := schema Pg "CREATE TABLE u (c INTEGER); CREATE INDEX i ON t (a); CREATE TABLE t (a INTEGER);" in
  printed Pg (diff_of Pg b a) = Some ("ALTER TABLE u DROP COLUMN b;
ALTER TABLE u ADD COLUMN c INTEGER;
")%string.
Proof. vm_compute. reflexivity. Qed.

(** An index that merely moves out of CREATE TABLE is dropped and created (in the wrong order). *)
Theorem C15_cockroach_moved_index_refuted : exists b a, accepted Crdb b = true /\ accepted Crdb a = true /\
  catalogue Crdb (schema Crdb b) (KIdx "j") = catalogue Crdb (schema Crdb a) (KIdx "j") /\
  exists stmts s, diff_of Crdb (schema Crdb b) (schema Crdb a) = DOk stmts /\ In s stmts /\ mentions_index "j" s = true.
Proof.
  exists "CREATE TABLE t (a STRING, INDEX j (a));"%string, "CREATE TABLE t (a STRING); CREATE INDEX j ON t (a);"%string.
  split; [vm_compute; reflexivity|]. split; [vm_compute; reflexivity|]. split; [vm_compute; reflexivity|].
  eexists _, _. split; [vm_compute; reflexivity|]. split; [left; reflexivity|]. reflexivity.
Qed.
Print Assumptions C15_cockroach_moved_index_refuted.

(** * C16: nothing is dropped without cause *)

(** DROP TABLE: Spanner tables whose primary key or interleaving changed are an exception. *)
Theorem C16_drop_table_only_if_gone_partial : forall d srt sdiff before after stmts c e n,
  srt_ok srt -> tidy d before = true -> tidy d after = true ->
  diff d srt sdiff (Some before) (Some after) = DOk stmts -> In (DropTable c e n) stmts ->
  has_table (qname n) before /\ (~ has_table (qname n) after \/ recreated d before after (qname n)).
Proof.
  intros d srt sdiff before after stmts c e n Hs TB TA E I.
  destruct (diff_loose d srt sdiff before after stmts _ Hs TB TA E I) as [J|[tb [ta [_ [x [y [_ [_ [_ [_ W]]]]]]]]]]; [exact J|contradiction].
Qed.
Print Assumptions C16_drop_table_only_if_gone_partial.
Theorem C16_drop_table_only_if_gone : forall d srt sdiff before after stmts c e n, d <> Sp ->
  srt_ok srt -> tidy d before = true -> tidy d after = true ->
  diff d srt sdiff (Some before) (Some after) = DOk stmts -> In (DropTable c e n) stmts ->
  has_table (qname n) before /\ ~ has_table (qname n) after.
Proof.
  intros d srt sdiff before after stmts c e n Nd Hs TB TA E I.
  destruct (C16_drop_table_only_if_gone_partial d srt sdiff before after stmts c e n Hs TB TA E I) as [X [Y|[Y _]]]; [split; assumption|contradiction].
Qed.
Print Assumptions C16_drop_table_only_if_gone.

Theorem C16_drop_column_only_if_gone : forall d srt sdiff before after stmts c n col,
  srt_ok srt -> tidy d before = true -> tidy d after = true ->
  diff d srt sdiff (Some before) (Some after) = DOk stmts -> In (AlterTable c n (DropColumn col)) stmts ->
  exists tb ta, table_pair before after tb ta /\ qname n = table_name ta /\
    In (id_name col) (col_names tb) /\ ~ In (id_name col) (col_names ta).
Proof.
  intros d srt sdiff before after stmts c n col Hs TB TA E I.
  destruct (diff_loose d srt sdiff before after stmts _ Hs TB TA E I) as [J|[tb [ta [_ [x [y [_ [_ [_ [_ W]]]]]]]]]]; [exact J|contradiction].
Qed.
Print Assumptions C16_drop_column_only_if_gone.

(** An index on both sides is only dropped to be created again. *)
Theorem C16_dropped_index_created_again : forall d srt sdiff before after mb ma stmts ib ia c e n,
  srt_ok srt -> describes d before mb -> describes d after ma -> tidy d before = true -> tidy d after = true ->
  diff d srt sdiff (Some before) (Some after) = DOk stmts ->
  In ib (indexes before) -> In ia (indexes after) -> qname (cx_name ib) = qname (cx_name ia) -> qname n = qname (cx_name ia) ->
  In (DropIndex c e n) stmts ->
  exists l1 l2, stmts = (l1 ++ DropIndex c e n :: CreateIndex ia :: l2)%list /\ forall s, In s l2 -> mentions_index (qname n) s = false.
Proof.
  intros d srt sdiff before after mb ma stmts ib ia c e n Hs DB DA TB TA E Ib Ia Q Qn I.
  destruct (index_block d srt sdiff Hs before after mb ma DB DA TB TA stmts E ib ia Ib Ia Q) as [l1 [lx [l2 [L [O X]]]]].
  assert (M : In (DropIndex c e n) (l1 ++ l2)%list -> False).
  { intro J. specialize (O _ J). cbn in O. apply String.eqb_neq in O. congruence. }
  rewrite L in I. rewrite !in_app_iff in I. rewrite in_app_iff in M.
  destruct X as [[_ X]|[_ [c' X]]]; subst lx; cbn [In] in I; [tauto|].
  destruct I as [I|[[I|[I|[]]]|I]]; [tauto| |discriminate I|tauto]. inversion I; subst c' e n. exists l1, l2. split; [exact L|].
  intros s J. rewrite Qn, <- Q. apply O. apply in_or_app. right. exact J.
Qed.
Print Assumptions C16_dropped_index_created_again.

Example C16_example :
  In (DropTable "" false (mkON None (mkIdent "old" "" "old")))
     (match diff_of Pg (schema Pg pg_before) (schema Pg pg_after) with DOk l => l | _ => [] end).
Proof. vm_compute. left. reflexivity. Qed.

Theorem C16_spanner_table_dropped_refuted : exists b a, accepted Sp b = true /\ accepted Sp a = true /\
  exists c n r, diff_of Sp (schema Sp b) (schema Sp a) = DOk (DropTable c false n :: r) /\ has_table (qname n) (schema Sp a).
Proof.
  exists "CREATE TABLE t (a INT64) PRIMARY KEY (a);"%string, "CREATE TABLE t (a INT64) PRIMARY KEY (a ASC);"%string.
  split; [vm_compute; reflexivity|]. split; [vm_compute; reflexivity|].
  eexists _, _, _. split; [vm_compute; reflexivity|]. vm_compute. left. reflexivity.
Qed.
Print Assumptions C16_spanner_table_dropped_refuted.

(** * C17: the order of the statements *)

Theorem C17_vanished_new_changed : forall d srt sdiff before after ma stmts,
  srt_ok srt -> describes d after ma -> tidy d before = true -> tidy d after = true ->
  diff d srt sdiff (Some before) (Some after) = DOk stmts ->
  exists l1 l2 l3, stmts = (l1 ++ l2 ++ l3)%list /\
    (forall s, In s l1 -> vanished before after s) /\
    (forall s, In s l2 -> appeared before after s) /\
    (forall s, In s l3 -> on_both d before after s).
Proof. intros d srt sdiff before after ma stmts Hs DA TB TA E. exact (phases d srt sdiff Hs before after ma DA TB TA stmts E). Qed.
Print Assumptions C17_vanished_new_changed.

Lemma tidy_in : forall d l t, tidy d l = true -> In t (tables l) -> tidy_table d t = true.
Proof. intros d l t T I. apply in_tables in I. unfold tidy in T. rewrite forallb_forall in T. exact (T _ I). Qed.

(** Within a table: first the constraints that are gone, then the columns, then the rest.
    Missing: constraints that are changed are dropped after the columns. *)
Theorem C17_order_within_table_partial : forall d srt sdiff before after mb ma stmts tb ta,
  srt_ok srt -> describes d before mb -> describes d after ma -> tidy d before = true -> tidy d after = true ->
  diff d srt sdiff (Some before) (Some after) = DOk stmts ->
  table_pair before after tb ta -> options_diff d (ct_options tb) = options_diff d (ct_options ta) \/ d <> Sp ->
  exists l1 p1 p2 p3 l2, stmts = (l1 ++ (p1 ++ p2 ++ p3) ++ l2)%list /\
    (forall s, In s (l1 ++ l2)%list -> mentions_table (table_name ta) s = false) /\
    (forall s, In s p1 -> drops_vanished d tb ta s) /\
    (forall s, In s p2 -> about_column s = true) /\
    (forall s, In s p3 -> about_column s = false /\ ~ drops_vanished d tb ta s).
Proof.
  intros d srt sdiff before after mb ma stmts tb ta Hs DB DA TB TA E P O.
  destruct (table_block d srt sdiff Hs before after mb ma DB DA TB TA stmts E tb ta P) as [l1 [lt [l2 [L [N X]]]]].
  destruct P as [Pb [Pa Pn]]. destruct X as [X|[_ X]].
  - unfold diff_create_table in X.
    replace (match d with Sp => neqs (options_diff d (ct_options tb)) (options_diff d (ct_options ta)) | _ => false end) with false in X.
    2:{ symmetry. destruct d; try reflexivity. destruct O as [O|O]; [rewrite O; apply neqs_refl|contradiction]. }
    destruct (eqs _ _); [discriminate X|]. destruct (all_named _ && all_named _); [|discriminate X].
    destruct (diff_tables d srt sdiff false tb ta) as [k| | |] eqn:K; try discriminate X.
    assert (k = lt) by (destruct k; inversion X; reflexivity). subst k.
    destruct (table_order d srt sdiff false tb ta lt Hs (tidy_in _ _ _ TB Pb) (tidy_in _ _ _ TA Pa) Pn K) as [p1 [p2 [p3 [Q1 [Q2 [Q3 Q4]]]]]].
    exists l1, p1, p2, p3, l2. rewrite <- Q1. tauto.
  - subst lt. exists l1, [], [], [], l2. split; [exact L|]. split; [exact N|]. refine (conj _ (conj _ _)); intros s [].
Qed.
Print Assumptions C17_order_within_table_partial.

Example C17_example :
  let b := schema Pg "CREATE TABLE t (a INTEGER, b INTEGER, CONSTRAINT k UNIQUE (b)); CREATE TABLE old (a INTEGER);" in
  let a := schema Pg "CREATE TABLE t (a INTEGER, c INTEGER, CONSTRAINT l UNIQUE (c)); CREATE TABLE fresh (a INTEGER);" in
  printed Pg (diff_of Pg b a) = Some ("DROP TABLE old;
CREATE TABLE fresh (
    a INTEGER
);
ALTER TABLE t DROP CONSTRAINT k;
ALTER TABLE t DROP COLUMN b;
ALTER TABLE t ADD COLUMN c INTEGER;
ALTER TABLE t ADD CONSTRAINT l UNIQUE (c);
")%string.
Proof. vm_compute. reflexivity. Qed.

(** A changed constraint is dropped after its column. *)
Theorem C17_changed_constraint_dropped_late_refuted : exists b a, accepted Pg b = true /\ accepted Pg a = true /\
  exists c1 c2 n col k r, diff_of Pg (schema Pg b) (schema Pg a) =
    DOk (AlterTable c1 n (DropColumn col) :: AlterTable c2 n (DropConstraint k) :: r).
Proof.
  exists "CREATE TABLE t (a INTEGER, b INTEGER, CONSTRAINT k UNIQUE (a, b));"%string, "CREATE TABLE t (a INTEGER, CONSTRAINT k UNIQUE (a));"%string.
  split; [vm_compute; reflexivity|]. split; [vm_compute; reflexivity|]. do 6 eexists. vm_compute. reflexivity.
Qed.
Print Assumptions C17_changed_constraint_dropped_late_refuted.

(** * C18: an absent side *)

Theorem C18_absent_before : forall d srt sdiff l, diff d srt sdiff None (Some l) = DOk l.
Proof. reflexivity. Qed.
Print Assumptions C18_absent_before.
Theorem C18_both_absent : forall d srt sdiff, diff d srt sdiff None None = DNoDiff.
Proof. reflexivity. Qed.
Print Assumptions C18_both_absent.
(** One DROP for each object, in the order of the objects *)
Definition drops (s s' : stmt) : Prop :=
  match s with
  | CreateTable t => s' = DropTable "" false (ct_name t)
  | CreateIndex i => s' = DropIndex "" false (cx_name i)
  | _ => False
  end.
Theorem C18_absent_after : forall d srt sdiff l, forallb is_create l = true ->
  exists l', diff d srt sdiff (Some l) None = DOk l' /\ Forall2 drops l l'.
Proof.
  intros d srt sdiff l C. cbn [diff]. assert (X : exists l', map_opt drop_stmt l = Some l' /\ Forall2 drops l l').
  { induction l as [|s l IH]; cbn [map_opt]; [exists []; split; [reflexivity|constructor]|].
    cbn in C. apply andb_true_iff in C. destruct C as [C1 C2]. destruct (IH C2) as [l' [X1 X2]].
    destruct s; try discriminate C1; cbn [drop_stmt]; rewrite X1; eexists; (split; [reflexivity|]); constructor; try exact X2; reflexivity. }
  destruct X as [l' [X1 X2]]. exists l'. rewrite X1. split; [reflexivity|exact X2].
Qed.
Print Assumptions C18_absent_after.
Example C18_example : printed Pg (diff Pg id_sort no_text (Some (schema Pg "CREATE TABLE t (a INTEGER); CREATE INDEX i ON t (a);")) None)
  = Some ("DROP TABLE t;
DROP INDEX i;
")%string.
Proof. vm_compute. reflexivity. Qed.
(** For single tables two absent sides are a nil dereference. *)
Theorem C18_two_absent_tables_refuted : exists d srt sdiff nv, diff_create_table_opt d srt sdiff nv None None = DPanic.
Proof. exists Pg, id_sort, no_text, false. reflexivity. Qed.
Print Assumptions C18_two_absent_tables_refuted.

(** * C20: comparing does not change its inputs *)

(** Missing: single tables with different names, see below. *)
Theorem C20_schemas_unchanged_partial : forall d after t a,
  find_stmt (CreateTable t) after = Some (CreateTable a) -> after_effect d t a = a.
Proof.
  intros d after t a F. unfold find_stmt in F. apply find_some in F. destruct F as [_ F]. apply andb_true_iff in F. destruct F as [_ F].
  cbn [stmt_name] in F. unfold after_effect. destruct (_ || _); [reflexivity|].
  unfold final_name, renamed. unfold neqs, eqs in *. rewrite F. destruct a; reflexivity.
Qed.
Print Assumptions C20_schemas_unchanged_partial.
(** The new name is completed with the schema of the old one. *)
Theorem C20_renamed_table_changed_refuted : exists b a tb ta,
  schema Pg b = [CreateTable tb] /\ schema Pg a = [CreateTable ta] /\ after_effect Pg tb ta <> ta /\
  create_table_string Pg (after_effect Pg tb ta) <> create_table_string Pg ta.
Proof.
  exists "CREATE TABLE public.t (a INTEGER);"%string, "CREATE TABLE u (a INTEGER);"%string. eexists _, _.
  split; [vm_compute; reflexivity|]. split; [vm_compute; reflexivity|]. split; intro H; vm_compute in H; discriminate H.
Qed.
Print Assumptions C20_renamed_table_changed_refuted.
Example C20_example : exists tb ta, schema Pg "CREATE TABLE t (a INTEGER);" = [CreateTable tb] /\
  schema Pg "CREATE TABLE ""t"" (b INTEGER);" = [CreateTable ta] /\ find_stmt (CreateTable tb) [CreateTable ta] = Some (CreateTable ta).
Proof. eexists _, _. split; [vm_compute; reflexivity|]. split; vm_compute; reflexivity. Qed.

(** * C40, C41: quoting and order *)

Theorem C40_quotes_make_no_difference : forall d srt sdiff l l' m, describes d l m -> tidy d l = true ->
  same_but_quotes l l' -> diff d srt sdiff (Some l) (Some l') = DNoDiff.
Proof. exact quotes_no_difference. Qed.
Print Assumptions C40_quotes_make_no_difference.
Example C40_example :
  let l := schema Pg "CREATE TABLE t (a INTEGER, CONSTRAINT k UNIQUE (a)); CREATE INDEX i ON t (a);" in
  let l' := schema Pg "CREATE TABLE ""t"" (""a"" INTEGER, CONSTRAINT ""k"" UNIQUE (""a"")); CREATE INDEX ""i"" ON ""t"" (""a"");" in
  same_but_quotes l l' /\ l <> l' /\ tidy Pg l = true /\ described Pg l = true.
Proof. refine (conj _ (conj _ (conj _ _))); try (vm_compute; reflexivity). vm_compute. intro H. discriminate H. Qed.

Theorem C41_order_makes_no_difference : forall d srt sdiff l l' m, describes d l m -> tidy d l = true ->
  reordered d l l' -> diff d srt sdiff (Some l) (Some l') = DNoDiff.
Proof. exact order_no_difference. Qed.
Print Assumptions C41_order_makes_no_difference.
Example C41_example : exists t t' i, schema Pg "CREATE TABLE t (a INTEGER, b TEXT); CREATE INDEX i ON t (a);" = [CreateTable t; i] /\
  schema Pg "CREATE INDEX i ON t (a); CREATE TABLE t (b TEXT, a INTEGER);" = [i; CreateTable t'] /\
  reordered Pg [CreateTable t; i] [i; CreateTable t'].
Proof.
  eexists _, _, _. split; [vm_compute; reflexivity|]. split; [vm_compute; reflexivity|].
  eexists. split; [apply perm_swap|]. constructor; [reflexivity|]. constructor; [|constructor].
  split; [reflexivity|]. split; [apply perm_swap|]. split; [apply Permutation_refl|]. split; reflexivity.
Qed.

(** * C42: a changed index is created anew *)

(** Missing: names with blanks, commas and parentheses, which can hide a change, see below. *)
Theorem C42_changed_index_recreated_partial : forall d srt sdiff before after mb ma stmts ib ia,
  srt_ok srt -> describes d before mb -> describes d after ma -> tidy d before = true -> tidy d after = true ->
  diff d srt sdiff (Some before) (Some after) = DOk stmts ->
  In ib (indexes before) -> In ia (indexes after) -> qname (cx_name ib) = qname (cx_name ia) ->
  plain_index ib = true -> plain_index ia = true ->
  cx_unique ib <> cx_unique ia \/ qname (cx_table ib) <> qname (cx_table ia)
    \/ sem_keycols d (cx_columns ib) <> sem_keycols d (cx_columns ia) ->
  exists l1 l2 c, stmts = (l1 ++ DropIndex c false (cx_name ib) :: CreateIndex ia :: l2)%list /\
  forall s, In s (l1 ++ l2)%list -> mentions_index (qname (cx_name ib)) s = false.
Proof.
  intros d srt sdiff before after mb ma stmts ib ia Hs DB DA TB TA E Ib Ia Q Pb Pa C.
  apply (changed_index d srt sdiff Hs before after mb ma DB DA TB TA stmts E ib ia Ib Ia Q).
  intro T. destruct (index_text_inj d ib ia Pb Pa Q T) as [X1 [X2 X3]]. tauto.
Qed.
Print Assumptions C42_changed_index_recreated_partial.
Example C42_example : match indexes (schema Pg pg_before), indexes (schema Pg pg_after) with
  | [ib], [ia] => plain_index ib = true /\ plain_index ia = true /\ cx_unique ib <> cx_unique ia
  | _, _ => False
  end.
Proof. vm_compute. refine (conj eq_refl (conj eq_refl _)). intro H. discriminate H. Qed.
Theorem C42_comma_in_name_refuted : exists b a ib ia, accepted Pg b = true /\ accepted Pg a = true /\
  indexes (schema Pg b) = [ib] /\ indexes (schema Pg a) = [ia] /\
  sem_keycols Pg (cx_columns ib) <> sem_keycols Pg (cx_columns ia) /\ diff_of Pg (schema Pg b) (schema Pg a) = DNoDiff.
Proof.
  exists "CREATE TABLE t (a TEXT, b TEXT, ""a, b"" TEXT); CREATE INDEX i ON t (a, b);"%string,
         "CREATE TABLE t (a TEXT, b TEXT, ""a, b"" TEXT); CREATE INDEX i ON t (""a, b"");"%string. eexists _, _.
  split; [vm_compute; reflexivity|]. split; [vm_compute; reflexivity|]. split; [vm_compute; reflexivity|]. split; [vm_compute; reflexivity|].
  split; [|vm_compute; reflexivity]. intro H. vm_compute in H. discriminate H.
Qed.
Print Assumptions C42_comma_in_name_refuted.

(** * C43: every statement is justified *)

(** Missing: a constraint replaced by an in-table index of the same name, see below. *)
Theorem C43_statements_are_justified_partial : forall d srt sdiff before after stmts s,
  srt_ok srt -> tidy d before = true -> tidy d after = true -> same_kinds before after = true ->
  diff d srt sdiff (Some before) (Some after) = DOk stmts -> In s stmts -> stmt_justified d before after s.
Proof. exact diff_justified. Qed.
Print Assumptions C43_statements_are_justified_partial.
Example C43_example : same_kinds (schema Pg pg_before) (schema Pg pg_after) = true
  /\ tidy Pg (schema Pg pg_before) = true /\ tidy Pg (schema Pg pg_after) = true.
Proof. split; [|split]; vm_compute; reflexivity. Qed.
(** DROP INDEX of an index that does not exist *)
Theorem C43_mysql_constraint_becomes_index_refuted : exists b a c n r, accepted My b = true /\ accepted My a = true /\
  described My (schema My b) = true /\
  diff_of My (schema My b) (schema My a) = DOk (DropIndex c false n :: r) /\
  catalogue My (schema My b) (KIdx (qname n)) = None.
Proof.
  exists "CREATE TABLE t (a INTEGER, CONSTRAINT j CHECK (a > 1));"%string, "CREATE TABLE t (a INTEGER, KEY j (a));"%string.
  eexists _, _, _. split; [vm_compute; reflexivity|]. split; [vm_compute; reflexivity|]. split; [vm_compute; reflexivity|].
  split; vm_compute; reflexivity.
Qed.
Print Assumptions C43_mysql_constraint_becomes_index_refuted.

(** * C44: renaming a table *)

(** Missing: Spanner tables whose primary key or interleaving differ too, see below. *)
Theorem C44_rename_comes_first_partial : forall d srt sdiff nv b a stmts, qname (ct_name b) <> qname (ct_name a) ->
  options_diff d (ct_options b) = options_diff d (ct_options a) \/ d <> Sp ->
  diff_create_table d srt sdiff nv b a = DOk stmts ->
  exists c r, stmts = AlterTable c (ct_name b) (RenameTable (new_name (ct_name b) (ct_name a))) :: r /\
  forall s, In s r -> addresses (new_name (ct_name b) (ct_name a)) s.
Proof.
  intros d srt sdiff nv b a stmts N O E.
  assert (F : final_name (ct_name b) (ct_name a) = new_name (ct_name b) (ct_name a)).
  { unfold final_name, new_name, renamed. rewrite (objname_diff_qname (ct_name b)), (objname_diff_qname (ct_name a)).
    replace (neqs (qname (ct_name b)) (qname (ct_name a))) with true.
    - destruct (ct_name a) as [[s|] n]; reflexivity.
    - symmetry. unfold neqs, eqs. apply String.eqb_neq in N. rewrite N. reflexivity. }
  rewrite <- F. apply (rename_first d srt sdiff nv b a stmts N); [|exact E]. intro Ed. destruct O as [O|O]; [exact O|contradiction].
Qed.
Print Assumptions C44_rename_comes_first_partial.
Example C44_example : exists tb ta, schema Pg "CREATE TABLE public.t (a INTEGER);" = [CreateTable tb] /\
  schema Pg "CREATE TABLE u (a INTEGER NOT NULL);" = [CreateTable ta] /\
  printed Pg (diff_create_table Pg id_sort no_text false tb ta) = Some ("ALTER TABLE public.t RENAME TO public.u;
ALTER TABLE public.u ALTER COLUMN a SET NOT NULL;
")%string.
Proof. eexists _, _. split; [vm_compute; reflexivity|]. split; vm_compute; reflexivity. Qed.
Theorem C44_spanner_renamed_table_dropped_refuted : exists b a tb ta c n r,
  schema Sp b = [CreateTable tb] /\ schema Sp a = [CreateTable ta] /\ qname (ct_name tb) <> qname (ct_name ta) /\
  diff_create_table Sp id_sort no_text false tb ta = DOk (DropTable c false n :: r).
Proof.
  exists "CREATE TABLE t (a INT64) PRIMARY KEY (a);"%string, "CREATE TABLE u (a INT64) PRIMARY KEY (a ASC);"%string. eexists _, _, _, _, _.
  split; [vm_compute; reflexivity|]. split; [vm_compute; reflexivity|]. split; [|vm_compute; reflexivity]. intro H. vm_compute in H. discriminate H.
Qed.
Print Assumptions C44_spanner_renamed_table_dropped_refuted.
