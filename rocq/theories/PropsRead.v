(** Properties of the printed statements and of a whole run of apply: C47, C48. *)
From Coq Require Import Lia.
From Verif Require Import GoStr Token Lexer LexSpec Ast Parser Tidy IndexText Diff Db Lines Apply ApplySpec ApplyFacts Intact Printable PrintStmt PrintDdl AppendFacts Reconcile ReconcileFacts.
From Verif Require Import SqlRead ReadFacts ReadDiff SqlDb SqlDbFacts PropsParse PropsRound PropsDiff.

(** * C47: a printed statement says what it is *)

(** The reader [read_text] (SqlRead.v) is written from the grammar of the statements.  Missing
    for the full property: statements that are not [readable], i.e. with parts the text form cannot
    express; for some the property is false, see below. *)
Theorem C47_statement_says_itself_partial : forall d s, readable d s = true ->
  read_text d as_written (stmt_string d s) = Some (uncommented s).
Proof. intros d s H. apply stmt_read; [exact H|apply written_kept]. Qed.
Print Assumptions C47_statement_says_itself_partial.

Theorem C47_different_statements_differ_partial : forall d s1 s2, readable d s1 = true -> readable d s2 = true ->
  stmt_string d s1 = stmt_string d s2 -> uncommented s1 = uncommented s2.
Proof.
  intros d s1 s2 H1 H2 E. pose proof (C47_statement_says_itself_partial d s1 H1) as P1. pose proof (C47_statement_says_itself_partial d s2 H2) as P2.
  rewrite E, P2 in P1. congruence.
Qed.
Print Assumptions C47_different_statements_differ_partial.

(** Every statement of a difference of printable schemas, as it is sent to the database. *)
Theorem C47_difference_says_itself_partial : forall d srt sdiff before after l,
  srt_ok srt -> printable d before = true -> printable d after = true ->
  index_names_ok d before = true -> index_names_ok d after = true ->
  diff d srt sdiff (Some before) (Some after) = DOk l ->
  forall s q, In s l -> text_of d s q -> read_sent d as_written q = Some (uncommented s).
Proof.
  intros d srt sdiff before after l Hs Pb Pa Nb Na H s q Hl Q. apply (says_read d s q); [|exact Q].
  exact (diff_says d srt sdiff Hs before after Pb Pa Nb Na l s H Hl).
Qed.
Print Assumptions C47_difference_says_itself_partial.

(** ... and as it is printed, below its comment. *)
Theorem C47_printed_difference_says_itself_partial : forall d srt sdiff before after l,
  srt_ok srt -> printable d before = true -> printable d after = true ->
  index_names_ok d before = true -> index_names_ok d after = true ->
  diff d srt sdiff (Some before) (Some after) = DOk l ->
  forall s, In s l -> no_nul (comment_of s) = true -> read_text d as_written (stmt_string d s) = Some (uncommented s).
Proof.
  intros d srt sdiff before after l Hs Pb Pa Nb Na H s Hl C. apply C47_statement_says_itself_partial. rewrite readable_parts, C.
  exact (diff_says d srt sdiff Hs before after Pb Pa Nb Na l s H Hl).
Qed.
Print Assumptions C47_printed_difference_says_itself_partial.

(** One side missing *)
Theorem C47_creation_says_itself_partial : forall d srt sdiff after l, printable d after = true ->
  diff d srt sdiff None (Some after) = DOk l ->
  l = after /\ forall s q, In s l -> text_of d s q -> read_sent d as_written q = Some (uncommented s).
Proof.
  intros d srt sdiff after l P H. inversion H; subst. split; [reflexivity|]. intros s q Hs Q. apply (says_read d s q); [|exact Q]. exact (printable_says d l s P Hs).
Qed.
Print Assumptions C47_creation_says_itself_partial.
Theorem C47_removal_says_itself_partial : forall d srt sdiff before l, printable d before = true ->
  diff d srt sdiff (Some before) None = DOk l ->
  forall s q, In s l -> text_of d s q -> read_sent d as_written q = Some (uncommented s).
Proof.
  intros d srt sdiff before l P H s q Hs Q. apply (says_read d s q); [|exact Q]. cbn [diff] in H. destruct (map_opt drop_stmt before) as [k|] eqn:E; [|discriminate H]. inversion H; subst k.
  exact (drops_say d before P before l s (fun x Hx => Hx) E Hs).
Qed.
Print Assumptions C47_removal_says_itself_partial.

(** The hypotheses hold for ordinary changes; the texts of the difference are shown. *)
Definition sayable (d : dialect) (b a : string) : bool :=
  accepted d b && accepted d a && printable d (schema d b) && printable d (schema d a)
  && index_names_ok d (schema d b) && index_names_ok d (schema d a).
Definition text (d : dialect) (s : stmt) : string := drop_last (drop_last (stmt_string d (uncommented s))).
Definition texts (d : dialect) (b a : string) : list string :=
  match diff_of d (schema d b) (schema d a) with DOk l => map (text d) l | _ => [] end.
Lemma text_ends : forall d s, text_of d s (text d s).
Proof.
  intros d s. destruct (text_exists d s) as [q Q]. unfold text. unfold text_of in *. rewrite Q.
  assert (L : forall x c e, drop_last (x ++ String c (String e "")) = (x ++ String c "")%string).
  { intro x. induction x as [|y x IH]; intros c e; [reflexivity|]. cbn [append drop_last]. rewrite IH. destruct (x ++ String c (String e ""))%string eqn:Z; [destruct x; discriminate Z|reflexivity]. }
  assert (M : forall x c, drop_last (x ++ String c "") = x).
  { intro x. induction x as [|y x IH]; intro c; [reflexivity|]. cbn [append drop_last]. rewrite IH. destruct (x ++ String c "")%string eqn:Z; [destruct x; discriminate Z|reflexivity]. }
  change (";" ++ nl)%string with (String ";" (String ch_nl "")). rewrite L, M. reflexivity.
Qed.

Definition pg_old := "CREATE TABLE users (id UUID NOT NULL, name TEXT, age INTEGER DEFAULT 0, CONSTRAINT pk PRIMARY KEY (id)); CREATE INDEX i ON users (name); CREATE TABLE old (a INTEGER);"%string.
Definition pg_new := "CREATE TABLE users (id UUID NOT NULL, name VARCHAR(20) NOT NULL, age INTEGER DEFAULT 18, CONSTRAINT pk PRIMARY KEY (id), CONSTRAINT u UNIQUE (name)); CREATE TABLE posts (id UUID NOT NULL);"%string.
Example C47_example_pg : sayable Pg pg_old pg_new = true /\ texts Pg pg_old pg_new =
  ["DROP INDEX i"; "DROP TABLE old"; "CREATE TABLE posts (" ++ nl ++ "    id UUID NOT NULL" ++ nl ++ ")"; "ALTER TABLE users ALTER COLUMN name SET DATA TYPE VARCHAR(20)";
   "ALTER TABLE users ALTER COLUMN name SET NOT NULL"; "ALTER TABLE users ALTER COLUMN age SET DEFAULT 18"; "ALTER TABLE users ADD CONSTRAINT u UNIQUE (name)"]%string.
Proof. split; vm_compute; reflexivity. Qed.
Example C47_example_read : read_sent Pg as_written "alter  table ""users"" -- comment" = None
  /\ read_sent Pg as_written "alter  table ""users"" drop COLUMN b" = Some (AlterTable "" (mkON None (quoted "users")) (DropColumn (word "b")))
  /\ read_sent Pg as_written "ALTER TABLE users ALTER COLUMN age SET DEFAULT" = None.
Proof. repeat split; vm_compute; reflexivity. Qed.

(** Statements whose text says something else, or nothing. *)
Theorem C47_mysql_action_is_lost_refuted : exists s1 s2, uncommented s1 <> uncommented s2 /\ stmt_string My s1 = stmt_string My s2.
Proof.
  exists (AlterTable "" (mkON None (word "t")) (AddConstraint (CForeign (Some (word "f")) (name1 "a") (word "u") (name1 "id") "ON DELETE CASCADE") false)).
  exists (AlterTable "" (mkON None (word "t")) (AddConstraint (CForeign (Some (word "f")) (name1 "a") (word "u") (name1 "id") "") false)).
  split; [discriminate|reflexivity].
Qed.
Print Assumptions C47_mysql_action_is_lost_refuted.
(** DEFAULT without a value is accepted by the parser; the difference is then "SET ;". *)
Theorem C47_missing_default_refuted : exists b a s, accepted Pg b = true /\ accepted Pg a = true
  /\ diff_of Pg (schema Pg b) (schema Pg a) = DOk [s] /\ text Pg s = "ALTER TABLE t ALTER COLUMN a SET "%string
  /\ read_text Pg as_written (stmt_string Pg s) = None.
Proof.
  exists "CREATE TABLE t (a INTEGER DEFAULT 0 NOT NULL);"%string, "CREATE TABLE t (a INTEGER DEFAULT NOT NULL);"%string,
    (AlterTable "" (mkON None (word "t")) (SetDefault (word "a") (Some None))).
  split; [|split; [|split; [|split]]]; vm_compute; reflexivity.
Qed.
Print Assumptions C47_missing_default_refuted.

(** * C48: applying a schema makes the database what the schema says *)

(** The database reads the texts it is sent and executes what it read (SqlDb.v).  The run ends well,
    every statement is sent once, and the catalogue is the one the target schema describes.
    Missing for the full property: pairs that are not [reconcilable] or not [printable], texts that
    do not arrive as they are displayed (C79); for some the property is false, see below. *)
Theorem C48_apply_reaches_target_partial : forall w dsn src d s1 s2 before after m0 ma,
  working w -> approved w -> dialect_of (w_dialect w) = Some d -> srt_ok (w_srt w) ->
  w_resolve w dsn = Some s1 -> w_resolve w src = Some s2 ->
  parse d (w_srt w) s1 = Ok before -> parse d (w_srt w) s2 = Ok after ->
  served d m0 w -> describes d before m0 -> describes d after ma ->
  reconcilable d before after = true -> text_ok d before after = true ->
  printable d before = true -> printable d after = true -> index_names_ok d before = true -> index_names_ok d after = true ->
  (forall stmts, diff d (w_srt w) (w_sdiff w) (Some before) (Some after) = DOk stmts ->
     forallb (fun s => arrives d (text d s) && comment_arrives d (comment_of s)) stmts = true) ->
  exists tr, apply_command w [dsn; src] = (tr, Done) /\ db_eq (sv_db (after_events d tr m0)) ma
    /\ Forall (fun p => snd p = None) (sent tr).
Proof.
  intros w dsn src d s1 s2 before after m0 ma Ww Wa Hd Hs R1 R2 P1 P2 S Db Da Rc To Pb Pa Nb Na Cl.
  pose proof (diff_reconciles d (w_srt w) (w_sdiff w) before after m0 ma Hs Db Da Rc To) as D.
  destruct (diff d (w_srt w) (w_sdiff w) (Some before) (Some after)) as [stmts| | |] eqn:E; try contradiction.
  - destruct D as [m [X1 X2]]. specialize (Cl stmts eq_refl).
    assert (F : Forall2 (text_of d) stmts (map (text d) stmts)).
    { clear. induction stmts as [|s l IH]; constructor; [apply text_ends|exact IH]. }
    assert (C : forallb (arrives d) (map (text d) stmts) = true /\ forallb (fun s => comment_arrives d (comment_of s)) stmts = true).
    { rewrite !forallb_forall in *. split; [intros q Hq; apply in_map_iff in Hq; destruct Hq as [s [Es Hq]]; subst q|intros s Hq]; specialize (Cl s Hq); apply andb_true_iff in Cl; apply Cl. }
    destruct (apply_served w dsn src d s1 s2 before after m0 stmts (map (text d) stmts) m Ww Wa Hd R1 R2 P1 P2 S E
                (fun s Hl => diff_says d (w_srt w) (w_sdiff w) Hs before after Pb Pa Nb Na stmts s E Hl) F (proj1 C) (proj2 C) X1) as [tr [T1 [T2 T3]]].
    exists tr. split; [exact T1|]. split; [rewrite T3; exact X2|]. rewrite T2. apply Forall_forall. intros p Hp. apply in_map_iff in Hp. destruct Hp as [q [Eq _]]. subst p. reflexivity.
  - exists [EPrint no_difference_message]. destruct Ww as [Wl _]. split; [|split; [exact D|constructor]].
    unfold apply_command. rewrite Wl. cbn [negb]. unfold diff_text. rewrite R1, R2, Hd, P1, P2, E. reflexivity.
Qed.
Print Assumptions C48_apply_reaches_target_partial.

(** A world with such a server; the source "db" is what the database shows. *)
Definition sources (b a x : string) : option string := if String.eqb x "db" then Some b else if String.eqb x "new" then Some a else None.
Definition serving (d : dialect) (name b a : string) : world :=
  mkWorld true true name (sources b a) (fun _ _ => true) "" (fun _ => true) (fun _ => true)
    (fun past q => snd (answer d q (after_events d past (catalogue d (schema d b))))) (fun _ => true) id_sort no_text.
Lemma serving_served : forall d name b a, served d (catalogue d (schema d b)) (serving d name b a).
Proof. intros d name b a past q. reflexivity. Qed.
Definition clean_texts (d : dialect) (b a : string) : bool :=
  match diff_of d (schema d b) (schema d a) with DOk l => forallb (fun s => arrives d (text d s) && comment_arrives d (comment_of s)) l | _ => true end.
Definition appliable (d : dialect) (b a : string) : bool := fits d b a && sayable d b a && clean_texts d b a.
(** The hypotheses, for a pair of texts: *)
Corollary C48_serving : forall d name b a, dialect_of name = Some d -> appliable d b a = true ->
  exists tr, apply_command (serving d name b a) ["db"; "new"]%string = (tr, Done) /\ db_eq (sv_db (after_events d tr (catalogue d (schema d b)))) (catalogue d (schema d a))
    /\ Forall (fun p => snd p = None) (sent tr).
Proof.
  intros d name b a Hd H. unfold appliable, fits, sayable in H.
  repeat match goal with K : _ && _ = true |- _ => apply andb_true_iff in K; let L := fresh "L" in destruct K as [K L] end.
  assert (P : forall s, accepted d s = true -> parse d id_sort s = Ok (schema d s)).
  { intros s Hs. unfold accepted in Hs. unfold schema. destruct (parse d id_sort s); try discriminate Hs; reflexivity. }
  apply (C48_apply_reaches_target_partial (serving d name b a) "db" "new" d b a (schema d b) (schema d a)); try assumption; try reflexivity.
  - repeat split.
  - left. reflexivity.
  - apply id_sort_ok.
  - apply P. assumption.
  - apply P. assumption.
  - apply serving_served.
  - apply described_ok. assumption.
  - apply described_ok. assumption.
  - intros stmts D. unfold clean_texts, diff_of in L. cbn [serving w_srt w_sdiff] in D. rewrite D in L. exact L.
Qed.
Print Assumptions C48_serving.

Example C48_example : appliable Pg pg_old pg_new = true /\ appliable Pg pg_before pg_after = true /\ appliable My my_before my_after = true
  /\ appliable Crdb cr_before cr_after = true /\ appliable Sp sp_before sp_after = true.
Proof. split; [|split; [|split; [|split]]]; vm_compute; reflexivity. Qed.
(** With Spanner dashes and empty lines in literals do no harm. *)
Example C48_example_literal : appliable Sp "CREATE TABLE t (a INT64) PRIMARY KEY (a);"
  ("CREATE TABLE t (a INT64, b STRING(MAX) DEFAULT ('x -- y" ++ nl ++ nl ++ "z')) PRIMARY KEY (a);") = true.
Proof. vm_compute. reflexivity. Qed.
Example C48_example_run : let tr := fst (apply_command (serving Sp "spanner" sp_before sp_after) ["db"; "new"]) in
  map fst (sent tr) = ["START BATCH DDL"; "ALTER TABLE t ALTER COLUMN b INT64 NOT NULL"; "ALTER TABLE t ADD COLUMN c INT64 DEFAULT (1)"; "DROP INDEX i"; "CREATE INDEX i ON t (b DESC)"; "RUN BATCH"]%string
  /\ sv_db (after_events Sp tr (catalogue Sp (schema Sp sp_before))) (KIdx "i") = catalogue Sp (schema Sp sp_after) (KIdx "i").
Proof. split; vm_compute; reflexivity. Qed.

(** The full property is false. *)
Definition misses (d : dialect) (name b a : string) (o : outcome) (k : key) : Prop :=
  dialect_of name = Some d /\ accepted d b = true /\ accepted d a = true /\ described d (schema d b) = true /\ described d (schema d a) = true
  /\ snd (apply_command (serving d name b a) ["db"; "new"]%string) = o
  /\ sv_db (after_events d (fst (apply_command (serving d name b a) ["db"; "new"]%string)) (catalogue d (schema d b))) k <> catalogue d (schema d a) k.
Ltac missed := split; [reflexivity|split; [vm_compute; reflexivity|split; [vm_compute; reflexivity|split; [vm_compute; reflexivity|split; [vm_compute; reflexivity|split; [vm_compute; reflexivity|]]]]]];
  vm_compute; discriminate.
(** Success is reported, but the empty line of the literal is gone. *)
Theorem C48_empty_line_of_literal_refuted : exists b a k, misses Pg "postgres" b a Done k.
Proof.
  exists "CREATE TABLE t (a INTEGER);"%string, ("CREATE TABLE t (a INTEGER, b TEXT DEFAULT 'x" ++ nl ++ nl ++ "y');")%string, (KCol "t" "b"). missed.
Qed.
Print Assumptions C48_empty_line_of_literal_refuted.
(** Success is reported, but a line of the literal was taken for a comment. *)
Theorem C48_marked_line_of_literal_refuted : exists b a k, misses Sp "spanner" b a Done k.
Proof.
  exists "CREATE TABLE t (a INT64) PRIMARY KEY (a);"%string, ("CREATE TABLE t (a INT64, b STRING(MAX) DEFAULT ('x" ++ nl ++ "--y" ++ nl ++ "z')) PRIMARY KEY (a);")%string, (KCol "t" "b"). missed.
Qed.
Print Assumptions C48_marked_line_of_literal_refuted.
(** The server refuses a statement for good. *)
Theorem C48_dropped_index_refuted : exists b a k, misses My "mysql" b a Failed k.
Proof.
  exists "CREATE TABLE t (a INTEGER, KEY i (a));"%string, "CREATE TABLE t (a INTEGER);"%string, (KIdx "i"). missed.
Qed.
Print Assumptions C48_dropped_index_refuted.
Theorem C48_dashes_refuted : exists b a k, misses Pg "postgres" b a Failed k.
Proof.
  exists "CREATE TABLE t (a INTEGER);"%string, "CREATE TABLE t (a INTEGER, b TEXT DEFAULT 'x--y');"%string, (KCol "t" "b"). missed.
Qed.
Print Assumptions C48_dashes_refuted.

(** CockroachDB: the statement that Diff gives for two accepted schemas is not accepted itself (see
    C53_cockroach_index_method_refuted). *)
Theorem C53_cockroach_difference_not_accepted_refuted : exists b a,
  accepted Crdb b = true /\ accepted Crdb a = true
  /\ printed Crdb (diff_of Crdb (schema Crdb b) (schema Crdb a)) = Some ("DROP INDEX j;" ++ nl ++ "CREATE INDEX j ON t (b) USING hash;" ++ nl)%string
  /\ accepted Crdb "CREATE INDEX j ON t (b) USING hash;" = false.
Proof.
  exists "CREATE TABLE t (a INT8, b INT8, INDEX j (a) USING hash);"%string, "CREATE TABLE t (a INT8, b INT8, INDEX j (b) USING hash);"%string.
  split; [|split; [|split]]; vm_compute; reflexivity.
Qed.
Print Assumptions C53_cockroach_difference_not_accepted_refuted.
