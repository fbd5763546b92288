(** Property C79: exactly which displayed statements are executed as they were displayed. *)
From Coq Require Import Lia.
From Verif Require Import GoStr Token Ast Tidy IndexText Lexer Parser Diff Lines LinesFacts Apply ApplySpec ApplyFacts Intact IntactFacts PropsApply.

(** * C79: the condition of C23 is exact *)

Lemma accepted_once : forall w ign ds n past evs r, (forall p q, w_exec w p q = None) -> retry_do w ign ds n past = (evs, r) ->
  map fst (sent evs) = nonempty ds.
Proof.
  intros w ign ds n past evs r A H. assert (X : exists b, attempt w ign ds past = (b, false)).
  { clear - A. revert past. induction ds as [|q ds IH]; intro past; cbn [attempt]; [eauto|]. destruct (String.eqb q ""); [apply IH|].
    destruct (IH (past ++ [EExec q (w_exec w past q)])%list) as [b B]. rewrite B, A. cbn [bad_answer orb]. eauto. }
  destruct X as [b B]. destruct (attempt_sent _ _ _ _ _ _ B) as [S1 _].
  assert (E : retry_do w ign ds n past = (b, true)) by (destruct n; cbn [retry_do]; rewrite B; reflexivity). rewrite E in H. inversion H; subst. exact S1.
Qed.

(** A database that accepts every statement: a successful run has sent the displayed statements exactly when all of
    them are intact and no line of a comment is too long.  For Spanner only the lines that begin with a mark count. *)
Theorem C79_executed_is_shown_exactly : forall w args tr dsn, apply_command w args = (tr, Done) -> In (EOpen dsn) tr ->
  (forall past q, w_exec w past q = None) ->
  exists d stmts above below rest, tr = EPrint (above ++ ddl_string d stmts ++ below) :: approval w :: rest /\
  dialect_of (w_dialect w) = Some d /\
  forall qs, Forall2 (text_of d) stmts qs ->
    match d with
    | Sp => map fst (sent tr) = "START BATCH DDL"%string :: qs ++ ["RUN BATCH"%string] <-> forallb intact_batch qs = true
    | _ => map fst (sent tr) = qs <-> forallb intact qs && forallb (fun s => short_comment (comment_of s)) stmts = true
    end.
Proof.
  intros w args tr dsn H O A. destruct (command_cases _ _ _ _ H) as [[S _]|[[t [_ T]]|[dsn' [src [d [stmts [e2 [ok [_ [_ [Ed [E [T [Q K]]]]]]]]]]]]]].
  - rewrite forallb_forall in S. specialize (S _ O). discriminate S.
  - discriminate T.
  - destruct ok; [|discriminate K]. exists d, stmts. destruct (message_shows (ddl_string d stmts)) as [above [below M]]. exists above, below. eexists.
    split; [rewrite <- M, T; reflexivity|]. split; [exact Ed|]. intros qs F. rewrite Q.
    pose proof (pieces_intact d stmts qs F) as P. unfold comments_fit in P.
    destruct d; cbn [exec_of] in E; try (unfold split_exec in E; rewrite (accepted_once _ _ _ _ _ _ _ A E); exact P).
    destruct (batch_sent _ _ _ _ _ E) as [_ [X _]]. destruct (X eq_refl) as [X1 _]. rewrite X1, <- (batch_intact Sp stmts qs F). unfold start_batch, run_batch. split.
    + intro Z. injection Z as Z. apply app_inj_tail in Z. apply Z.
    + intro Z. rewrite Z. reflexivity.
Qed.
Print Assumptions C79_executed_is_shown_exactly.

(** Whatever the database answers: the run consists of equal rounds, and a round is what was displayed
    exactly under the same condition. *)
Theorem C79_rounds_exactly : forall w args tr o dsn, apply_command w args = (tr, o) -> In (EOpen dsn) tr ->
  dialect_of (w_dialect w) <> Some Sp ->
  exists d stmts above below rest round k, tr = EPrint (above ++ ddl_string d stmts ++ below) :: approval w :: rest /\
  dialect_of (w_dialect w) = Some d /\ 1 <= k /\ map fst (sent tr) = concat (repeat round k) /\
  forall qs, Forall2 (text_of d) stmts qs ->
    (round = qs <-> forallb intact qs && forallb (fun s => short_comment (comment_of s)) stmts = true).
Proof.
  intros w args tr o dsn H O N. destruct (command_cases _ _ _ _ H) as [[S _]|[[t [T _]]|[dsn' [src [d [stmts [e2 [ok [_ [_ [Ed [E [T [Q K]]]]]]]]]]]]]].
  - rewrite forallb_forall in S. specialize (S _ O). discriminate S.
  - exfalso. rewrite T in O. unfold started, approval in O. destruct (w_auto w); cbn in O; intuition discriminate.
  - assert (X : exists k, 1 <= k /\ map fst (sent e2) = concat (repeat (nonempty (pieces (ddl_string d stmts))) k)).
    { destruct d; cbn [exec_of] in E; try (destruct (retry_sent _ _ _ _ _ _ _ E) as [[k [[K1 _] X]] _]; exists k; split; [exact K1|exact X]). contradiction. }
    destruct X as [k [K1 X]]. exists d, stmts. destruct (message_shows (ddl_string d stmts)) as [above [below M]]. exists above, below. eexists. exists (nonempty (pieces (ddl_string d stmts))), k.
    split; [rewrite <- M, T; reflexivity|]. split; [exact Ed|]. split; [exact K1|]. split; [rewrite Q; exact X|]. intros qs F. exact (pieces_intact d stmts qs F).
Qed.
Print Assumptions C79_rounds_exactly.

(** The condition of C23 is one case of it. *)
Theorem C79_clean_is_intact : forall d s q, text_of d s q -> clean q = true -> intact q = true /\ intact_batch q = true.
Proof. exact clean_intact. Qed.
Print Assumptions C79_clean_is_intact.

(** Both sides occur. *)
Example C79_example_intact : map fst (sent (fst (apply_command (scene true "postgres" "" fine) ["db"; "new"])))
  = [("CREATE TABLE u (" ++ nl ++ "    a INTEGER" ++ nl ++ ")"); "ALTER TABLE t ADD COLUMN b TEXT"]%string /\
  forallb intact [("CREATE TABLE u (" ++ nl ++ "    a INTEGER" ++ nl ++ ")"); "ALTER TABLE t ADD COLUMN b TEXT"]%string = true.
Proof. vm_compute. auto. Qed.
Example C79_example_cut : map fst (sent (fst (apply_command (scene true "postgres" "" fine) ["db"; "dashes"])))
  = [("ALTER TABLE t ADD COLUMN b TEXT DEFAULT 'x" ++ nl)%string] /\ intact "ALTER TABLE t ADD COLUMN b TEXT DEFAULT 'x--y'" = false.
Proof. vm_compute. auto. Qed.
Example C79_example_batch : map fst (sent (fst (apply_command (scene true "spanner" "" fine) ["spdb"; "spnew"])))
  = ["START BATCH DDL"; "ALTER TABLE t ADD COLUMN b INT64"; "ALTER TABLE t ADD COLUMN c INT64"; "RUN BATCH"]%string /\
  intact_batch "ALTER TABLE t ADD COLUMN b STRING(9) DEFAULT ('x--y')" = true.
Proof. vm_compute. auto. Qed.
