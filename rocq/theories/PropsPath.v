(** Properties of several migrations in a row: C70; an interrupted apply that is started again: C68. *)
From Coq Require Import Lia.
From Verif Require Import GoStr Token Lexer Ast Parser Diff Db DbFacts DepFacts AppendFacts Tidy Reconcile ReconcileFacts.
From Verif Require Import Apply ApplySpec ApplyFacts Printable SqlRead SqlDb SqlDbFacts InterruptFacts PropsDiff PropsRead PropsWhole PropsInterrupt.
Local Open Scope list_scope.

(** * What is executed depends on the catalogue only *)
Definition odb_eq (a b : option db) : Prop := match a, b with Some x, Some y => db_eq x y | None, None => True | _, _ => False end.
Lemma db_eq_sym : forall m n, db_eq m n -> db_eq n m.
Proof. intros m n H k. symmetry. apply H. Qed.
Lemma db_eq_trans : forall m n o, db_eq m n -> db_eq n o -> db_eq m o.
Proof. intros m n o H G k. rewrite H. apply G. Qed.
Lemma op_ok_eq : forall o m n, db_eq m n -> op_ok o m = op_ok o n.
Proof. intros [] m n E; cbn [op_ok]; rewrite ?E; reflexivity. Qed.
Lemma op_db_eq : forall o m n, db_eq m n -> db_eq (op_db o m) (op_db o n).
Proof. intros [] m n E x; cbn [op_db]; rewrite ?E; reflexivity. Qed.
Lemma run_eq : forall os m n, db_eq m n -> odb_eq (Db.run os m) (Db.run os n).
Proof.
  induction os as [|o os IH]; intros m n E; cbn [Db.run]; [exact E|]. rewrite (op_ok_eq o m n E). destruct (op_ok o n); [|exact I].
  apply IH, op_db_eq, E.
Qed.
Lemma exec_eq : forall d s m n, db_eq m n -> odb_eq (exec d s m) (exec d s n).
Proof.
  intros d s m n E. unfold exec. destruct s as [t|i|c b o|c b o|c o a].
  - rewrite (E (KTab (qname (ct_name t)))). destruct (ct_ifnotexists t && _); [exact E|apply run_eq, E].
  - rewrite (E (KIdx (qname (cx_name i)))). destruct (cx_ifnotexists i && _); [exact E|apply run_eq, E].
  - rewrite (E (KTab (qname o))). destruct (b && _); [exact E|apply run_eq, E].
  - rewrite (E (KIdx (qname o))). destruct (b && _); [exact E|apply run_eq, E].
  - destruct a; try (apply run_eq, E). rewrite !E. destruct (_ && _); [|exact I]. intro k. unfold rename_db. rewrite E. reflexivity.
Qed.
Lemma exec_all_eq : forall d l m n, db_eq m n -> odb_eq (exec_all d l m) (exec_all d l n).
Proof.
  intros d. induction l as [|s l IH]; intros m n E; cbn [exec_all]; [exact E|]. pose proof (exec_eq d s m n E) as X.
  destruct (exec d s m), (exec d s n); try contradiction; [apply IH, X|exact I].
Qed.

(** * C70: migrations in a row *)

(** Executing the difference of two schemas, and those of a row of schemas one after the other *)
Definition migrate (d : dialect) (srt : list constraint -> list constraint) (sdiff : string -> string -> string) (before after : ddl) (m : db) : option db :=
  match diff d srt sdiff (Some before) (Some after) with
  | DOk stmts => exec_all d stmts m
  | DNoDiff => Some m
  | _ => None
  end.
Fixpoint migrations (d : dialect) (srt : list constraint -> list constraint) (sdiff : string -> string -> string) (before : ddl) (l : list ddl) (m : db) : option db :=
  match l with
  | [] => Some m
  | after :: r => match migrate d srt sdiff before after m with Some m' => migrations d srt sdiff after r m' | None => None end
  end.
(** Every schema of the row describes a database and is within reach of the one before it. *)
Fixpoint within_reach (d : dialect) (before : ddl) (l : list ddl) : Prop :=
  match l with
  | [] => True
  | after :: r => (exists ma, describes d after ma) /\ reconcilable d before after = true /\ text_ok d before after = true /\ within_reach d after r
  end.

Lemma migrate_reaches : forall d srt sdiff before after m m0 ma, srt_ok srt -> describes d before m0 -> db_eq m m0 -> describes d after ma ->
  reconcilable d before after = true -> text_ok d before after = true -> exists m', migrate d srt sdiff before after m = Some m' /\ db_eq m' ma.
Proof.
  intros d srt sdiff before after m m0 ma Hs Db E Da R T. pose proof (diff_reconciles d srt sdiff before after m0 ma Hs Db Da R T) as K.
  unfold migrate. destruct (diff d srt sdiff (Some before) (Some after)) as [stmts| | |]; try contradiction.
  - destruct K as [x [K1 K2]]. pose proof (exec_all_eq d stmts m m0 E) as X. rewrite K1 in X. destruct (exec_all d stmts m) as [y|]; [|contradiction X].
    exists y. split; [reflexivity|]. exact (db_eq_trans _ _ _ X K2).
  - exists m. split; [reflexivity|]. exact (db_eq_trans _ _ _ E K).
Qed.
(** Whatever the steps in between, the database is the one the last schema describes. *)
Theorem C70_row_reaches_last_partial : forall d srt sdiff l before m m0, srt_ok srt -> describes d before m0 -> db_eq m m0 -> within_reach d before l ->
  exists m', migrations d srt sdiff before l m = Some m' /\ forall ma, describes d (last l before) ma -> db_eq m' ma.
Proof.
  intros d srt sdiff. induction l as [|a l IH]; intros before m m0 Hs Db E W; cbn [migrations].
  - exists m. split; [reflexivity|]. intros ma [_ Da]. destruct Db as [_ Db]. cbn [last] in Da. rewrite Db in Da. inversion Da; subst. exact E.
  - destruct W as [[ma Da] [R [T W]]]. destruct (migrate_reaches d srt sdiff before a m m0 ma Hs Db E Da R T) as [m1 [M1 M2]]. rewrite M1.
    destruct (IH a m1 ma Hs Da M2 W) as [m' [X Y]]. exists m'. split; [exact X|]. intros mx D. apply Y.
    destruct l as [|b l]; [exact D|]. replace (last (b :: l) a) with (last (b :: l) before); [exact D|]. clear. revert b. induction l as [|c l IH]; intro b; [reflexivity|]. exact (IH c).
Qed.
Print Assumptions C70_row_reaches_last_partial.
(** Two ways from one schema to another lead to the same database. *)
Theorem C70_ways_agree_partial : forall d srt sdiff before way way' target m, srt_ok srt -> describes d before m ->
  within_reach d before (way ++ [target]) -> within_reach d before (way' ++ [target]) ->
  exists m1 m2, migrations d srt sdiff before (way ++ [target]) m = Some m1 /\ migrations d srt sdiff before (way' ++ [target]) m = Some m2 /\ db_eq m1 m2.
Proof.
  intros d srt sdiff before way way' target m Hs Db W1 W2.
  assert (D : exists ma, describes d target ma).
  { clear - W1. revert before W1. induction way as [|x way IH]; intros before W; [apply W|]. destruct W as [_ [_ [_ W]]]. exact (IH x W). }
  destruct D as [ma Da].
  destruct (C70_row_reaches_last_partial d srt sdiff _ before m m Hs Db (db_eq_refl m) W1) as [m1 [A1 B1]].
  destruct (C70_row_reaches_last_partial d srt sdiff _ before m m Hs Db (db_eq_refl m) W2) as [m2 [A2 B2]].
  rewrite last_last in B1, B2. exists m1, m2. split; [exact A1|]. split; [exact A2|]. exact (db_eq_trans _ _ _ (B1 ma Da) (db_eq_sym _ _ (B2 ma Da))).
Qed.
Print Assumptions C70_ways_agree_partial.
(** There and back again *)
Corollary C70_there_and_back_partial : forall d srt sdiff before after m, srt_ok srt -> describes d before m -> within_reach d before [after; before] ->
  exists m', migrations d srt sdiff before [after; before] m = Some m' /\ db_eq m' m.
Proof.
  intros d srt sdiff before after m Hs Db W. destruct (C70_row_reaches_last_partial d srt sdiff _ before m m Hs Db (db_eq_refl m) W) as [m' [A B]].
  exists m'. split; [exact A|]. apply B. exact Db.
Qed.
Print Assumptions C70_there_and_back_partial.

(** * The same for runs of apply *)
Definition server_eq (v v' : SqlDb.server) : Prop := db_eq (sv_db v) (sv_db v') /\ sv_batch v = sv_batch v'.
Lemma batch_eq : forall d l m n, db_eq m n -> server_eq (fst (execute_batch d l m)) (fst (execute_batch d l n)) /\ snd (execute_batch d l m) = snd (execute_batch d l n).
Proof.
  intros d. induction l as [|s l IH]; intros m n E; cbn [execute_batch]; [split; [split; [exact E|reflexivity]|reflexivity]|].
  pose proof (exec_eq d s m n E) as X. destruct (exec d s m), (exec d s n); try contradiction; [apply IH, X|]. split; [split; [exact E|reflexivity]|reflexivity].
Qed.
Lemma execute_eq : forall d s m n, db_eq m n -> server_eq (fst (execute d s m)) (fst (execute d s n)) /\ snd (execute d s m) = snd (execute d s n).
Proof.
  intros d s m n E. unfold execute. pose proof (exec_eq d s m n E) as X. destruct (exec d s m), (exec d s n); try contradiction; (split; [split; [|reflexivity]|reflexivity]); [exact X|exact E].
Qed.
Lemma answer_eq : forall d q v v', server_eq v v' -> server_eq (fst (answer d q v)) (fst (answer d q v')) /\ snd (answer d q v) = snd (answer d q v').
Proof.
  intros d q [m b] [m' b'] [E B]. cbn [sv_db sv_batch] in *. subst b'. unfold answer. cbn [sv_db sv_batch].
  destruct d; try (destruct (read_sent _ _ q); [apply execute_eq, E|split; [split; [exact E|reflexivity]|reflexivity]]; fail).
  destruct (String.eqb q "START BATCH DDL"); [destruct b; split; try split; try exact E; reflexivity|].
  destruct (String.eqb q "RUN BATCH"); [destruct b; [apply batch_eq, E|split; [split; [exact E|reflexivity]|reflexivity]]|].
  destruct (read_sent Sp as_written q); [|split; [split; [exact E|reflexivity]|reflexivity]].
  destruct b; [split; [split; [exact E|reflexivity]|reflexivity]|apply execute_eq, E].
Qed.
Lemma after_texts_eq : forall d qs v v', server_eq v v' -> server_eq (after_texts d qs v) (after_texts d qs v').
Proof. intros d. induction qs as [|q qs IH]; intros v v' E; cbn [after_texts]; [exact E|]. apply IH, answer_eq, E. Qed.
Lemma after_events_eq : forall d tr m n, db_eq m n -> server_eq (after_events d tr m) (after_events d tr n).
Proof. intros d tr m n E. apply after_texts_eq. split; [exact E|reflexivity]. Qed.
Lemma served_eq : forall d w m n, db_eq m n -> served d m w -> served d n w.
Proof. intros d w m n E S past q. rewrite (S past q). apply answer_eq, after_events_eq, E. Qed.

(** A run of apply on whatever database there is, when the schema it is told describes that database *)
Theorem C48_any_database_partial : forall w dsn src d s1 s2 before after now m0 ma,
  working w -> approved w -> dialect_of (w_dialect w) = Some d -> srt_ok (w_srt w) ->
  w_resolve w dsn = Some s1 -> w_resolve w src = Some s2 ->
  parse d (w_srt w) s1 = Ok before -> parse d (w_srt w) s2 = Ok after -> served d now w -> db_eq now m0 ->
  convertible d (w_srt w) (w_sdiff w) before after m0 ma ->
  exists tr, apply_command w [dsn; src] = (tr, Done) /\ db_eq (sv_db (after_events d tr now)) ma /\ Forall (fun p => snd p = None) (sent tr).
Proof.
  intros w dsn src d s1 s2 before after now m0 ma Ww Wa Hd Hs R1 R2 P1 P2 S E [Db Da Rc To Pb Pa Nb Na Cl].
  destruct (C48_apply_reaches_target_partial w dsn src d s1 s2 before after m0 ma Ww Wa Hd Hs R1 R2 P1 P2 (served_eq d w now m0 E S) Db Da Rc To Pb Pa Nb Na Cl) as [tr [A [B C]]].
  exists tr. split; [exact A|]. split; [|exact C]. exact (db_eq_trans _ _ _ (proj1 (after_events_eq d tr now m0 E)) B).
Qed.
Print Assumptions C48_any_database_partial.

(** Applying a schema and then the old one again gives the old database: the second run is told what
    the database contains behind the first one. *)
Theorem C70_applied_and_reverted_partial : forall w w' dsn src src' d s1 s2 s1' s2' before after shown m0 ma,
  working w -> approved w -> dialect_of (w_dialect w) = Some d -> srt_ok (w_srt w) ->
  w_resolve w dsn = Some s1 -> w_resolve w src = Some s2 -> parse d (w_srt w) s1 = Ok before -> parse d (w_srt w) s2 = Ok after ->
  served d m0 w -> convertible d (w_srt w) (w_sdiff w) before after m0 ma ->
  exists tr, apply_command w [dsn; src] = (tr, Done) /\
  let now := sv_db (after_events d tr m0) in
  (working w' -> approved w' -> dialect_of (w_dialect w') = Some d -> srt_ok (w_srt w') ->
   w_resolve w' dsn = Some s1' -> w_resolve w' src' = Some s2' -> parse d (w_srt w') s1' = Ok shown -> parse d (w_srt w') s2' = Ok before ->
   served d now w' -> convertible d (w_srt w') (w_sdiff w') shown before ma m0 ->
   exists tr', apply_command w' [dsn; src'] = (tr', Done) /\ db_eq (sv_db (after_events d tr' now)) m0).
Proof.
  intros w w' dsn src src' d s1 s2 s1' s2' before after shown m0 ma Ww Wa Hd Hs R1 R2 P1 P2 S C.
  destruct (C48_any_database_partial w dsn src d s1 s2 before after m0 m0 ma Ww Wa Hd Hs R1 R2 P1 P2 S (db_eq_refl m0) C) as [tr [A [B _]]].
  exists tr. split; [exact A|]. intros now Ww' Wa' Hd' Hs' R1' R2' P1' P2' S' C'.
  destruct (C48_any_database_partial w' dsn src' d s1' s2' shown before now ma m0 Ww' Wa' Hd' Hs' R1' R2' P1' P2' S' B C') as [tr' [A' [B' _]]].
  exists tr'. split; [exact A'|exact B'].
Qed.
Print Assumptions C70_applied_and_reverted_partial.

(** A run that is started again behind an interruption reaches the target of the first one, when it is
    told what the database contains then. *)
Theorem C68_started_again_partial : forall w w' dsn src d s1 s2 s1' before after shown m0 now ma,
  working w -> approved w -> dialect_of (w_dialect w) = Some d -> srt_ok (w_srt w) ->
  w_resolve w dsn = Some s1 -> w_resolve w src = Some s2 -> parse d (w_srt w) s1 = Ok before -> parse d (w_srt w) s2 = Ok after ->
  served d m0 w -> convertible d (w_srt w) (w_sdiff w) before after m0 ma ->
  forall seen rest, fst (apply_command w [dsn; src]) = seen ++ rest ->
  let left_behind := sv_db (after_events d seen m0) in
  working w' -> approved w' -> w_dialect w' = w_dialect w -> w_srt w' = w_srt w -> w_sdiff w' = w_sdiff w ->
  w_resolve w' dsn = Some s1' -> w_resolve w' src = Some s2 -> parse d (w_srt w') s1' = Ok shown ->
  served d left_behind w' -> db_eq left_behind now ->
  convertible d (w_srt w) (w_sdiff w) shown after now ma ->
  exists tr, apply_command w' [dsn; src] = (tr, Done) /\ db_eq (sv_db (after_events d tr left_behind)) ma.
Proof.
  intros w w' dsn src d s1 s2 s1' before after shown m0 now ma Ww Wa Hd Hs R1 R2 P1 P2 S C seen rest L lb Ww' Wa' Hd' Es Ed R1' R2' P1' S' Q H.
  rewrite Es in P1'. destruct (C48_any_database_partial w' dsn src d s1' s2 shown after lb now ma Ww' Wa') as [tr [A [B _]]]; rewrite ?Hd', ?Es, ?Ed; try assumption.
  exists tr. split; [exact A|exact B].
Qed.
Print Assumptions C68_started_again_partial.
(** In the example of C68 every database an interruption can leave behind is described by a text from
    which the target can be applied. *)
Definition pg_cut : list string := [
  pg_kept;
  "CREATE TABLE t (a BIGINT NOT NULL, b TEXT, CONSTRAINT pk PRIMARY KEY (a)); CREATE TABLE u (x INTEGER); CREATE INDEX i ON t (b); CREATE INDEX j ON t (a);";
  "CREATE TABLE t (a BIGINT NOT NULL, b TEXT, c TEXT, CONSTRAINT pk PRIMARY KEY (a)); CREATE TABLE u (x INTEGER); CREATE INDEX i ON t (b); CREATE INDEX j ON t (a);";
  "CREATE TABLE t (a BIGINT NOT NULL, b TEXT, c TEXT, CONSTRAINT pk PRIMARY KEY (a)); CREATE TABLE u (x INTEGER); CREATE INDEX j ON t (a);";
  pg_changed]%string.
Definition cut_keys : list key := [KTab "t"; KTab "u"; KCol "t" "a"; KCol "t" "b"; KCol "t" "c"; KCol "u" "x"; KCon "t" "pk"; KIdx "i"; KIdx "j"; KIdx "k"; KRow "t"]%string.
Example C68_started_again_example : forallb (fun s => appliable Pg s pg_changed) pg_cut = true
  /\ map (fun n => map (broken n Pg "postgres" pg_kept pg_changed) cut_keys) [0; 1; 2; 3; 4]%nat = map (fun s => map (catalogue Pg (schema Pg s)) cut_keys) pg_cut.
Proof. split; vm_compute; reflexivity. Qed.

(** ** Examples and counterexamples of C70 *)
Lemma fits_reach : forall d b a l, fits d b a = true -> within_reach d (schema d a) l -> within_reach d (schema d b) (schema d a :: l).
Proof.
  intros d b a l H W. unfold fits in H. repeat match goal with K : _ && _ = true |- _ => apply andb_true_iff in K; let L := fresh "L" in destruct K as [K L] end.
  cbn [within_reach]. split; [eexists; apply described_ok; eassumption|]. split; [assumption|]. split; assumption.
Qed.
Corollary C70_texts : forall d b a, fits d b a = true -> fits d a b = true ->
  exists m, migrations d id_sort no_text (schema d b) [schema d a; schema d b] (catalogue d (schema d b)) = Some m /\ db_eq m (catalogue d (schema d b)).
Proof.
  intros d b a H G. apply C70_there_and_back_partial; [exact id_sort_ok| |].
  - apply described_ok. unfold fits in H. repeat match goal with K : _ && _ = true |- _ => apply andb_true_iff in K; let L := fresh "L" in destruct K as [K L] end. assumption.
  - apply (fits_reach d b a _ H). apply (fits_reach d a b _ G). exact I.
Qed.
Print Assumptions C70_texts.
Definition my_further : string := "CREATE TABLE t (a INTEGER NOT NULL, b VARCHAR(5), c INTEGER, UNIQUE KEY k (a)) ENGINE=MyISAM;".
Definition back_and_forth (d : dialect) (b a : string) : bool := fits d b a && fits d a b.
Example C70_example : back_and_forth Pg pg_before pg_after = true /\ back_and_forth My my_before my_further = true
  /\ back_and_forth Crdb cr_before cr_after = true /\ back_and_forth Sp sp_before sp_after = true.
Proof. repeat (split; [vm_compute; reflexivity|]). vm_compute; reflexivity. Qed.

(** The whole property is false: an option of a MySQL table that a migration has set is not removed
    by the migration back, and the index method of a Postgres index depends on the way. *)
Definition end_of (d : dialect) (b : string) (l : list string) : option db :=
  migrations d id_sort no_text (schema d b) (map (schema d) l) (catalogue d (schema d b)).
Theorem C70_mysql_option_stays_refuted : exists b a m k, accepted My b = true /\ accepted My a = true /\ described My (schema My b) = true /\ described My (schema My a) = true
  /\ end_of My b [a; b] = Some m /\ m k <> catalogue My (schema My b) k.
Proof.
  exists "CREATE TABLE t (a INTEGER);"%string, "CREATE TABLE t (a INTEGER) COMMENT='x';"%string.
  destruct (end_of My "CREATE TABLE t (a INTEGER);" ["CREATE TABLE t (a INTEGER) COMMENT='x';"; "CREATE TABLE t (a INTEGER);"]%string) as [m|] eqn:E; [|vm_compute in E; discriminate E].
  exists m, (KOpt "t" "COMMENT"). do 4 (split; [vm_compute; reflexivity|]). split; [reflexivity|].
  assert (X : match end_of My "CREATE TABLE t (a INTEGER);" ["CREATE TABLE t (a INTEGER) COMMENT='x';"; "CREATE TABLE t (a INTEGER);"]%string with Some m => present (m (KOpt "t" "COMMENT")) | None => false end = true) by (vm_compute; reflexivity).
  rewrite E in X. intro F. rewrite F in X. vm_compute in X. discriminate X.
Qed.
Print Assumptions C70_mysql_option_stays_refuted.
Definition method_old : string := "CREATE TABLE t (a INTEGER); CREATE INDEX i ON t USING btree (a);".
Definition method_none : string := "CREATE TABLE t (a INTEGER);".
Definition method_new : string := "CREATE TABLE t (a INTEGER); CREATE INDEX i ON t USING hash (a);".
Definition method (o : option db) : option (list tok) := match o with Some m => match m (KIdx "i") with Some (VIdx i) => Some (si_using i) | _ => None end | None => None end.
Theorem C70_pg_index_method_depends_on_way_refuted : exists b x a m m' k, forallb (accepted Pg) [b; x; a] = true /\ forallb (fun s => described Pg (schema Pg s)) [b; x; a] = true
  /\ end_of Pg b [a] = Some m /\ end_of Pg b [x; a] = Some m' /\ m k <> m' k.
Proof.
  exists method_old, method_none, method_new.
  assert (X : method (end_of Pg method_old [method_new]) = Some [(false, "btree"%string)]) by (vm_compute; reflexivity).
  assert (Y : method (end_of Pg method_old [method_none; method_new]) = Some [(false, "hash"%string)]) by (vm_compute; reflexivity).
  destruct (end_of Pg method_old [method_new]) as [m|]; [|discriminate X]. destruct (end_of Pg method_old [method_none; method_new]) as [m'|]; [|discriminate Y].
  exists m, m', (KIdx "i"). do 2 (split; [vm_compute; reflexivity|]). split; [reflexivity|]. split; [reflexivity|]. intro F. unfold method in X, Y. rewrite F in X. rewrite Y in X. discriminate X.
Qed.
Print Assumptions C70_pg_index_method_depends_on_way_refuted.
