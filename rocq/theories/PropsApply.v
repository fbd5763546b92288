(** Properties of the commands diff and apply: C21 - C29, C38. *)
From Coq Require Import Lia.
From Verif Require Import GoStr Token Ast Tidy IndexText Lexer Parser Diff Lines LinesFacts Apply ApplySpec ApplyFacts Intact IntactFacts.

(** * C21: printed statements are delimited *)

(** Comment lines, each marked, then the text of the statement, which does not depend on the comment. *)
Theorem C21_statement_is_delimited : forall d s, exists marked q,
  stmt_string d s = (concat_str (map (fun x => "-- " ++ x ++ nl) marked) ++ q ++ ";" ++ nl)%string /\
  text_of d s q /\ (forall x, In x marked -> has_byte ch_nl x = false /\ exists a b, comment_of s = (a ++ x ++ b)%string).
Proof.
  intros d s. destruct (text_exists d s) as [q Q].
  exists (filter (fun x => negb (String.eqb x "")) (split nl (comment_of s))), q. split; [|split; [exact Q|]].
  - rewrite printed_comment, Q, comment_unlines. f_equal. unfold unlines, comment_lines. rewrite map_map. reflexivity.
  - intros x I. apply filter_In in I. destruct I as [I _]. pose proof (split_no_nl (comment_of s)) as N. rewrite forallb_forall in N. specialize (N x I).
    split; [unfold no_nl in N; apply negb_true_iff in N; exact N|]. exact (line_part _ _ I).
Qed.
Print Assumptions C21_statement_is_delimited.
Theorem C21_comment_is_not_executed : forall d s, clean_comment (comment_of s) = true ->
  forall q, text_of d s q -> clean q = true -> pieces (stmt_string d s) = [q; ""].
Proof.
  intros d s Cc q Q Cq. pose proof (pieces_printed d [s] [q]) as P. unfold ddl_string in P. cbn [map concat_str] in P. rewrite app_empty in P.
  apply P; [constructor; [exact Q|constructor]| |]; cbn [forallb]; [rewrite Cq|rewrite Cc]; reflexivity.
Qed.
Print Assumptions C21_comment_is_not_executed.
Example C21_example : stmt_string Pg (DropTable ("a" ++ nl ++ nl ++ "; b") false (mkON None (mkIdent "t" "" "t")))
  = ("-- a" ++ nl ++ "-- ; b" ++ nl ++ "DROP TABLE t;" ++ nl)%string.
Proof. reflexivity. Qed.

(** * Runs for the examples *)
Definition sources (x : string) : option string :=
  if String.eqb x "db" then Some "CREATE TABLE t (a INTEGER);"%string
  else if String.eqb x "new" then Some "CREATE TABLE t (a INTEGER, b TEXT); CREATE TABLE u (a INTEGER);"%string
  else if String.eqb x "dashes" then Some "CREATE TABLE t (a INTEGER, b TEXT DEFAULT 'x--y');"%string
  else if String.eqb x "spdb" then Some "CREATE TABLE t (a INT64) PRIMARY KEY (a);"%string
  else if String.eqb x "spnew" then Some "CREATE TABLE t (a INT64, b INT64, c INT64) PRIMARY KEY (a);"%string
  else None.
Definition nothing (a b : string) : string := "".
Definition scene (auto : bool) (dialect typed : string) (answer : list event -> string -> option string) : world :=
  mkWorld true auto dialect sources (fun _ _ => true) typed (fun _ => true) (fun _ => true) answer (fun _ => true) (fun c => c) nothing.
Definition fine : list event -> string -> option string := fun _ _ => None.

Definition shown (d : dialect) (x y : string) : list stmt :=
  match sources x, sources y with
  | Some s, Some t =>
      match parse d (fun c => c) s, parse d (fun c => c) t with
      | Ok b, Ok a => match diff d (fun c => c) nothing (Some b) (Some a) with DOk l => l | _ => [] end
      | _, _ => []
      end
  | _, _ => []
  end.

(** * C22: nothing is executed without approval *)

Theorem C22_nothing_without_approval : forall w args tr o, apply_command w args = (tr, o) ->
  (exists q a, In (EExec q a) tr) \/ (exists dsn, In (EOpen dsn) tr) -> approved w.
Proof.
  intros w args tr o H X. destruct (command_shape _ _ _ _ H) as [S|[dsn [src [d [stmts [evs [ok [_ [_ [_ [A _]]]]]]]]]]].
  - exfalso. rewrite forallb_forall in S. destruct X as [[q [a X]]|[dsn X]]; specialize (S _ X); discriminate S.
  - destruct A as [A|A]; [left; exact A|right; apply typed_line_yes; exact A].
Qed.
Print Assumptions C22_nothing_without_approval.
(** ... and "yes" is enough. *)
Example C22_example_yes : sent (fst (apply_command (scene false "postgres" ("yes" ++ nl) fine) ["db"; "new"])) <> [].
Proof. vm_compute. discriminate. Qed.
Example C22_example_no : apply_command (scene false "postgres" ("yes " ++ nl) fine) ["db"; "new"]
  = ([EPrint (message (match diff_text (scene true "postgres" "" fine) "db" "new" with Text s => s | _ => "" end)); EAsk], Failed).
Proof. vm_compute. reflexivity. Qed.

(** * C23: what is executed is what was shown *)

Lemma message_shows : forall t, exists above below, message t = (above ++ t ++ below)%string.
Proof. intro t. unfold message. exists (nl ++ "ddlctl will exec the following DDL queries:" ++ nl ++ nl ++ "-- 8< --" ++ nl ++ nl)%string. eexists. rewrite !append_assoc. reflexivity. Qed.
(** Missing: statements whose text does not arrive, e.g. because of a literal with two dashes (see below; exactly
    which ones is C79). *)
Theorem C23_executed_is_shown_partial : forall w args tr o, apply_command w args = (tr, o) -> sent tr <> [] ->
  exists d stmts above below rest, tr = EPrint (above ++ ddl_string d stmts ++ below) :: approval w :: rest /\
  dialect_of (w_dialect w) = Some d /\
  forall qs, Forall2 (text_of d) stmts qs -> forallb (arrives d) qs = true -> forallb (fun s => comment_arrives d (comment_of s)) stmts = true ->
    match d with
    | Sp => exists m, map fst (sent tr) = firstn m ("START BATCH DDL"%string :: qs ++ ["RUN BATCH"%string])
    | _ => exists k, map fst (sent tr) = concat (repeat qs k)
    end.
Proof.
  intros w args tr o H N. destruct (command_cases _ _ _ _ H) as [[S _]|[[t [T _]]|[dsn [src [d [stmts [e2 [ok [_ [_ [Ed [E [T [Q _]]]]]]]]]]]]]].
  - rewrite (silent_sent _ S) in N. contradiction.
  - exfalso. apply N. rewrite T. unfold started, approval. destruct (w_auto w); reflexivity.
  - exists d, stmts. destruct (message_shows (ddl_string d stmts)) as [above [below M]]. exists above, below. eexists. split; [rewrite <- M, T; reflexivity|]. split; [exact Ed|]. intros qs F C K. rewrite Q.
    assert (P : cut d (ddl_string d stmts) = qs) by (apply (cut_arrives d stmts qs F); rewrite C, K; reflexivity).
    destruct d; cbn [exec_of cut] in E, P; try (destruct (retry_sent _ _ _ _ _ _ _ E) as [[k [_ X]] _]; exists k; rewrite X, P; reflexivity).
    destruct (batch_sent _ _ _ _ _ E) as [[m X] _]. rewrite P in X. exists m. exact X.
Qed.
Print Assumptions C23_executed_is_shown_partial.
Example C23_example : map fst (sent (fst (apply_command (scene true "postgres" "" fine) ["db"; "new"])))
  = [("CREATE TABLE u (" ++ nl ++ "    a INTEGER" ++ nl ++ ")"); "ALTER TABLE t ADD COLUMN b TEXT"]%string.
Proof. vm_compute. reflexivity. Qed.
(** Two dashes in a literal cut the statement. *)
Theorem C23_dashes_refuted : exists w args tr o d stmts qs rest, apply_command w args = (tr, o) /\
  tr = EPrint (message (ddl_string d stmts)) :: rest /\ dialect_of (w_dialect w) = Some d /\ d <> Sp /\
  Forall2 (text_of d) stmts qs /\ sent tr <> [] /\ forall k, map fst (sent tr) <> concat (repeat qs k).
Proof.
  exists (scene true "postgres" "" fine), ["db"; "dashes"]%string. eexists. eexists. exists Pg.
  exists (shown Pg "db" "dashes"), ["ALTER TABLE t ADD COLUMN b TEXT DEFAULT 'x--y'"]%string.
  eexists. split; [vm_compute; reflexivity|]. split; [vm_compute; reflexivity|]. split; [reflexivity|]. split; [discriminate|].
  split; [vm_compute; constructor; [reflexivity|constructor]|]. split; [vm_compute; discriminate|].
  intros [|[|k]] X; vm_compute in X; discriminate X.
Qed.
Print Assumptions C23_dashes_refuted.

(** * C24: success is honest *)

(** On success there is a last attempt; all its answers are acceptable, and nothing
    else was ever sent.  For the displayed statements this means what C24 says exactly if they arrive (Intact.v). *)
Theorem C24_success_is_honest_partial : forall w args tr, apply_command w args = (tr, Done) ->
  (exists a b, args = [a; b] /\ diff_text w a b = NoDifference /\ sent tr = []) \/
  exists d stmts rest, tr = EPrint (message (ddl_string d stmts)) :: rest /\ dialect_of (w_dialect w) = Some d /\
  exists before final after, tr = (before ++ final ++ after)%list /\ sent after = [] /\
    Forall (fun p => acceptable d (snd p)) (sent final) /\
    (exists k, map fst (sent tr) = concat (repeat (map fst (sent final)) k)) /\
    (forall qs, Forall2 (text_of d) stmts qs ->
       (map fst (sent final) = match d with Sp => "START BATCH DDL"%string :: qs ++ ["RUN BATCH"%string] | _ => qs end
        <-> forallb (arrives d) qs && forallb (fun s => comment_arrives d (comment_of s)) stmts = true)).
Proof.
  intros w args tr H. destruct (command_cases _ _ _ _ H) as [[S D]|[[t [_ T]]|[dsn [src [d [stmts [e2 [ok [_ [_ [Ed [E [T [Q O]]]]]]]]]]]]]].
  - left. destruct (D eq_refl) as [a [b [D1 D2]]]. exists a, b. rewrite (silent_sent _ S). auto.
  - discriminate T.
  - destruct ok; [|discriminate O]. right. exists d, stmts. eexists. split; [rewrite T; reflexivity|]. split; [exact Ed|].
    assert (SA : sent [EPrint ("done" ++ nl)] = []) by reflexivity.
    assert (ST : sent (started w (ddl_string d stmts) ++ [EOpen dsn]) = []) by (unfold started, approval; destruct (w_auto w); reflexivity).
    assert (X : exists pre seg, e2 = (pre ++ seg)%list /\ Forall (fun p => acceptable d (snd p)) (sent seg) /\
      (exists k, map fst (sent e2) = concat (repeat (map fst (sent seg)) k)) /\
      map fst (sent seg) = match d with Sp => start_batch :: nonempty (split stop (drop_comment_lines (ddl_string d stmts))) ++ [run_batch] | _ => nonempty (pieces (ddl_string d stmts)) end).
    { destruct d; cbn [exec_of] in E.
      1,2,3: destruct (retry_sent _ _ _ _ _ _ _ E) as [[k [_ X1]] X2]; destruct (X2 eq_refl) as [pre [seg [Y1 [Y2 Y3]]]]; exists pre, seg;
        split; [exact Y1|]; split; [|split; [exists k; rewrite Y2; exact X1|exact Y2]]; apply (Forall_impl _ (fun p => proj1 (good_acceptable _ (snd p))));
        exact Y3.
      destruct (batch_sent _ _ _ _ _ E) as [_ [X2 _]]. destruct (X2 eq_refl) as [Y1 Y2]. exists [], e2. split; [reflexivity|].
      split; [|split; [exists 1; cbn [repeat concat]; rewrite app_nil_r; reflexivity|exact Y1]]. refine (Forall_impl _ _ Y2). intros p e. rewrite e. exact I. }
    destruct X as [pre [seg [X1 [X2 [X3 X4]]]]]. exists ((started w (ddl_string d stmts) ++ [EOpen dsn]) ++ pre)%list, seg, [EPrint ("done" ++ nl)].
    split; [rewrite T, X1, !app_assoc; reflexivity|]. split; [exact SA|]. split; [exact X2|]. split; [rewrite Q; exact X3|].
    intros qs F. rewrite X4, <- (cut_arrives d stmts qs F). destruct d; cbn [cut]; try reflexivity. unfold start_batch, run_batch. split.
    + intro Z. injection Z as Z. apply app_inj_tail in Z. apply Z.
    + intro Z. rewrite Z. reflexivity.
Qed.
Print Assumptions C24_success_is_honest_partial.
Example C24_example : snd (apply_command (scene true "postgres" "" fine) ["db"; "new"]) = Done
  /\ snd (apply_command (scene true "mysql" "" (fun _ _ => Some "Error 1050: Table 'u' already exists"%string)) ["db"; "new"]) = Done
  /\ snd (apply_command (scene true "postgres" "" (fun _ _ => Some "relation already exists"%string)) ["db"; "new"]) = Failed
  /\ snd (apply_command (scene true "spanner" "" fine) ["spdb"; "spnew"]) = Done.
Proof. vm_compute. repeat split. Qed.
(** Success is reported although no displayed statement was ever sent. *)
Theorem C24_dashes_refuted : exists w args tr d stmts qs rest, apply_command w args = (tr, Done) /\
  tr = EPrint (message (ddl_string d stmts)) :: rest /\ Forall2 (text_of d) stmts qs /\ qs <> [] /\ forall q, In q qs -> ~ In q (map fst (sent tr)).
Proof.
  exists (scene true "postgres" "" fine), ["db"; "dashes"]%string. eexists. exists Pg.
  exists (shown Pg "db" "dashes"), ["ALTER TABLE t ADD COLUMN b TEXT DEFAULT 'x--y'"]%string.
  eexists. split; [vm_compute; reflexivity|]. split; [vm_compute; reflexivity|].
  split; [vm_compute; constructor; [reflexivity|constructor]|]. split; [discriminate|].
  intros q [<-|[]] I. vm_compute in I. repeat destruct I as [I|I]; try discriminate I. exact I.
Qed.
Print Assumptions C24_dashes_refuted.

(** * C25: bounded retries *)

(** The same statements are sent at most (number of pieces + 1) times; for Spanner once. *)
Theorem C25_bounded_retries : forall w args tr o, apply_command w args = (tr, o) -> sent tr <> [] ->
  exists d stmts rest, tr = EPrint (message (ddl_string d stmts)) :: rest /\ dialect_of (w_dialect w) = Some d /\
  match d with
  | Sp => exists m qs, map fst (sent tr) = firstn m ("START BATCH DDL"%string :: qs ++ ["RUN BATCH"%string]) /\ List.length qs <= List.length (split (";" ++ nl) (drop_comment_lines (ddl_string d stmts)))
  | _ => exists k qs, k <= List.length (pieces (ddl_string d stmts)) + 1 /\ map fst (sent tr) = concat (repeat qs k) /\ List.length qs <= List.length (pieces (ddl_string d stmts))
  end.
Proof.
  intros w args tr o H N. destruct (command_cases _ _ _ _ H) as [[S _]|[[t [T _]]|[dsn [src [d [stmts [e2 [ok [_ [_ [Ed [E [T [Q _]]]]]]]]]]]]]].
  - rewrite (silent_sent _ S) in N. contradiction.
  - exfalso. apply N. rewrite T. unfold started, approval. destruct (w_auto w); reflexivity.
  - exists d, stmts. eexists. split; [rewrite T; reflexivity|]. split; [exact Ed|]. rewrite Q. destruct d; cbn [exec_of] in E.
    1,2,3: destruct (retry_sent _ _ _ _ _ _ _ E) as [[k [K X]] _]; exists k; eexists; split; [lia|]; split; [exact X|apply nonempty_length].
    destruct (batch_sent _ _ _ _ _ E) as [[m X] _]. exists m. eexists. split; [exact X|apply nonempty_length].
Qed.
Print Assumptions C25_bounded_retries.
(** A database that rejects everything: the bound is reached, and apply fails. *)
Theorem C25_gives_up : forall w ign s past, nonempty (pieces s) <> [] -> (forall p q, bad_answer ign (w_exec w p q) = true) -> (forall p, w_again w p = true) ->
  snd (split_exec w ign s past) = false /\ map fst (sent (fst (split_exec w ign s past))) = concat (repeat (nonempty (pieces s)) (List.length (pieces s) + 1)).
Proof. intros w ign s past N B G. rewrite Nat.add_1_r. apply retry_rejected; assumption. Qed.
Print Assumptions C25_gives_up.
Example C25_example : let r := apply_command (scene true "postgres" "" (fun _ _ => Some "no"%string)) ["db"; "new"] in
  snd r = Failed /\ List.length (sent (fst r)) = 8.
Proof. vm_compute. split; reflexivity. Qed.

(** * C26: retrying is harmless *)

(** If statements that are done may be sent again, and each round gets at least
    one more done, apply succeeds.  Missing: databases in which a statement that
    succeeded fails when it is sent again, see below. *)
Theorem C26_retry_succeeds_partial : forall w d stmts qs past, d <> Sp ->
  Forall2 (text_of d) stmts qs -> forallb clean qs = true -> forallb (fun s => clean_comment (comment_of s)) stmts = true ->
  repeatable w d qs -> progressing w d qs -> (forall p, w_again w p = true) ->
  snd (exec_of d w (ddl_string d stmts) past) = true.
Proof.
  intros w d stmts qs past D F C K R P G.
  assert (E : nonempty (pieces (ddl_string d stmts)) = qs) by (rewrite (pieces_printed d stmts qs F C K); apply nonempty_clean; exact C).
  assert (X : snd (split_exec w (ignored d) (ddl_string d stmts) past) = true).
  { unfold split_exec. apply retry_progress; [rewrite E; exact R|rewrite E; exact P|exact G|]. unfold missing.
    pose proof (filter_length_le _ (fun q => negb (doneb d past q)) (nonempty (pieces (ddl_string d stmts)))). pose proof (nonempty_length (pieces (ddl_string d stmts))). lia. }
  destruct d; try exact X. contradiction.
Qed.
Print Assumptions C26_retry_succeeds_partial.
(** A database that fails once, in the middle of the first attempt, and then complains about what it has already done *)
Definition succeeded (past : list event) (q : string) : bool := existsb (fun p => String.eqb (fst p) q && match snd p with None => true | _ => false end) (sent past).
Definition forgetful (complaint : string) (past : list event) (q : string) : option string :=
  if succeeded past q then Some complaint else if Nat.eqb (List.length (sent past)) 1 then Some "connection reset"%string else None.
(** Such a database does not make apply succeed, although every statement succeeded once. *)
Theorem C26_postgres_refuted : exists w args tr d stmts qs rest, apply_command w args = (tr, Failed) /\ w_dialect w = "postgres"%string /\
  w_exec w = forgetful "already exists" /\ tr = EPrint (message (ddl_string d stmts)) :: rest /\ Forall2 (text_of d) stmts qs /\
  forall q, In q qs -> In (q, None) (sent tr).
Proof.
  exists (scene true "postgres" "" (forgetful "already exists")), ["db"; "new"]%string. eexists. exists Pg.
  exists (shown Pg "db" "new"), [("CREATE TABLE u (" ++ nl ++ "    a INTEGER" ++ nl ++ ")"); "ALTER TABLE t ADD COLUMN b TEXT"]%string.
  eexists. split; [vm_compute; reflexivity|]. split; [reflexivity|]. split; [reflexivity|]. split; [vm_compute; reflexivity|].
  split; [vm_compute; repeat constructor|]. intros q I. vm_compute in I |- *. destruct I as [<-|[<-|[]]]; tauto.
Qed.
Print Assumptions C26_postgres_refuted.
(** MySQL: "already exists" is accepted, but not the complaint about a column that is already gone. *)
Theorem C26_mysql_drop_refuted : exists w args tr d stmts qs rest, apply_command w args = (tr, Failed) /\ w_dialect w = "mysql"%string /\
  w_exec w = forgetful "Can't DROP 'b'; check that column/key exists" /\ tr = EPrint (message (ddl_string d stmts)) :: rest /\ Forall2 (text_of d) stmts qs /\
  forall q, In q qs -> In (q, None) (sent tr).
Proof.
  exists (scene true "mysql" "" (forgetful "Can't DROP 'b'; check that column/key exists")), ["new"; "db"]%string. eexists. exists My.
  exists (shown My "new" "db"), ["DROP TABLE u"; "ALTER TABLE t DROP COLUMN b"]%string.
  eexists. split; [vm_compute; reflexivity|]. split; [reflexivity|]. split; [reflexivity|]. split; [vm_compute; reflexivity|].
  split; [vm_compute; repeat constructor|]. intros q I. vm_compute in I |- *. destruct I as [<-|[<-|[]]]; tauto.
Qed.
Print Assumptions C26_mysql_drop_refuted.
(** ... while it succeeds when only tables and columns are added. *)
Example C26_example : snd (apply_command (scene true "mysql" "" (forgetful "Table 'u' already exists")) ["db"; "new"]) = Done.
Proof. vm_compute. reflexivity. Qed.

(** * C27: Spanner changes run as one batch *)

Theorem C27_one_batch : forall w args tr o, apply_command w args = (tr, o) -> w_dialect w = "spanner"%string -> sent tr <> [] ->
  exists stmts rest qs m, tr = EPrint (message (ddl_string Sp stmts)) :: rest /\
  map fst (sent tr) = firstn m ("START BATCH DDL"%string :: qs ++ ["RUN BATCH"%string]) /\
  (o = Done -> map fst (sent tr) = "START BATCH DDL"%string :: qs ++ ["RUN BATCH"%string] /\ Forall (fun p => snd p = None) (sent tr)) /\
  (forall before a after, sent tr = (before ++ ("RUN BATCH"%string, a) :: after)%list -> List.length before = S (List.length qs) ->
     after = [] /\ Forall (fun p => snd p = None) before) /\
  (forall ts, Forall2 (text_of Sp) stmts ts -> (qs = ts <-> forallb intact_batch ts = true) /\ ~ In "RUN BATCH"%string ts).
Proof.
  intros w args tr o H Dw N. destruct (command_cases _ _ _ _ H) as [[S _]|[[t [T _]]|[dsn [src [d [stmts [e2 [ok [_ [_ [Ed [E [T [Q O]]]]]]]]]]]]]].
  - rewrite (silent_sent _ S) in N. contradiction.
  - exfalso. apply N. rewrite T. unfold started, approval. destruct (w_auto w); reflexivity.
  - rewrite Dw in Ed. injection Ed as <-. cbn [exec_of] in E. destruct (batch_sent _ _ _ _ _ E) as [[m B1] [B2 B3]].
    exists stmts. eexists. exists (nonempty (split stop (drop_comment_lines (ddl_string Sp stmts)))), m.
    split; [rewrite T; reflexivity|]. rewrite Q. split; [exact B1|]. split; [|split].
    + intro D. destruct ok; [|rewrite O in D; discriminate D]. exact (B2 eq_refl).
    + intros before a after X L. split; [|exact (B3 before a after X L)].
      apply (f_equal (@List.length _)) in B1. rewrite map_length, X, app_length, firstn_length in B1. cbn [List.length] in B1. rewrite app_length in B1. cbn [List.length] in B1.
      destruct after; [reflexivity|]. cbn [List.length] in B1. lia.
    + intros ts F. split; [exact (batch_intact Sp stmts ts F)|].
      intro I. clear - F I. induction F as [|x q l ts F1 F2 IH]; [contradiction|]. destruct I as [I|I]; [|exact (IH I)]. subst q.
      unfold text_of in F1. destruct x; discriminate F1.
Qed.
Print Assumptions C27_one_batch.
Example C27_example : sent (fst (apply_command (scene true "spanner" "" fine) ["spdb"; "spnew"]))
  = [("START BATCH DDL", None); ("ALTER TABLE t ADD COLUMN b INT64", None); ("ALTER TABLE t ADD COLUMN c INT64", None); ("RUN BATCH", None)]%string.
Proof. vm_compute. reflexivity. Qed.
Example C27_example_fault : sent (fst (apply_command (scene true "spanner" "" (forgetful "x")) ["spdb"; "spnew"]))
  = [("START BATCH DDL", None); ("ALTER TABLE t ADD COLUMN b INT64", Some "connection reset")]%string.
Proof. vm_compute. reflexivity. Qed.

(** * C28: no difference means no effect *)

Theorem C28_no_difference_no_effect : forall w a b d s1 s2 l1 l2, w_load w = true ->
  dialect_of (w_dialect w) = Some d -> w_resolve w a = Some s1 -> w_resolve w b = Some s2 ->
  parse d (w_srt w) s1 = Ok l1 -> parse d (w_srt w) s2 = Ok l2 -> diff d (w_srt w) (w_sdiff w) (Some l1) (Some l2) = DNoDiff ->
  diff_command w [a; b] = ([], Done) /\ apply_command w [a; b] = ([EPrint ("no difference" ++ nl)], Done).
Proof.
  intros w a b d s1 s2 l1 l2 L D R1 R2 P1 P2 F. assert (T : diff_text w a b = NoDifference) by (unfold diff_text; rewrite R1, R2, D, P1, P2, F; reflexivity).
  unfold diff_command, apply_command. rewrite L, T. split; reflexivity.
Qed.
Print Assumptions C28_no_difference_no_effect.
Example C28_example : apply_command (scene true "postgres" "" fine) ["new"; "new"] = ([EPrint ("no difference" ++ nl)], Done)
  /\ diff_command (scene true "postgres" "" fine) ["new"; "new"] = ([], Done).
Proof. vm_compute. split; reflexivity. Qed.

(** * C29: bad sources or dialects have no effect *)

Definition unusable (w : world) (src : string) : Prop :=
  w_resolve w src = None \/ exists t, w_resolve w src = Some t /\ forall d l, dialect_of (w_dialect w) = Some d -> parse d (w_srt w) t <> Ok l.
Theorem C29_bad_input_no_effect : forall w a b,
  unusable w a \/ unusable w b \/ ~ In (w_dialect w) ["mysql"; "postgres"; "cockroachdb"; "spanner"]%string ->
  (exists o, o <> Done /\ diff_command w [a; b] = ([], o)) /\ (exists o, o <> Done /\ apply_command w [a; b] = ([], o)).
Proof.
  intros w a b H. assert (T : diff_text w a b = DiffFailed \/ diff_text w a b = DiffCrashed).
  { unfold diff_text. destruct (w_resolve w a) as [s1|] eqn:R1; [|left; reflexivity]. destruct (w_resolve w b) as [s2|] eqn:R2; [|left; reflexivity].
    destruct (dialect_of (w_dialect w)) as [d|] eqn:D; [|left; reflexivity].
    destruct (parse d (w_srt w) s1) as [l1| | |] eqn:P1; auto. destruct (parse d (w_srt w) s2) as [l2| | |] eqn:P2; auto. exfalso.
    destruct H as [[H|[t [H1 H2]]]|[[H|[t [H1 H2]]]|H]]; try congruence.
    - rewrite R1 in H1. injection H1 as <-. exact (H2 d l1 D P1).
    - rewrite R2 in H1. injection H1 as <-. exact (H2 d l2 D P2).
    - apply H. unfold dialect_of in D. cbn [In].
      destruct (String.eqb (w_dialect w) "mysql") eqn:E1; [apply String.eqb_eq in E1; auto|]. destruct (String.eqb (w_dialect w) "postgres") eqn:E2; [apply String.eqb_eq in E2; auto|].
      destruct (String.eqb (w_dialect w) "cockroachdb") eqn:E3; [apply String.eqb_eq in E3; auto|]. destruct (String.eqb (w_dialect w) "spanner") eqn:E4; [apply String.eqb_eq in E4; auto 6|discriminate D]. }
  unfold diff_command, apply_command. destruct (w_load w); cbn [negb].
  - destruct T as [T|T]; rewrite T; split; eexists; (split; [|reflexivity]); discriminate.
  - split; exists Failed; (split; [discriminate|reflexivity]).
Qed.
Print Assumptions C29_bad_input_no_effect.
Example C29_example : apply_command (scene true "postgres" "" fine) ["db"; "nowhere"] = ([], Failed)
  /\ apply_command (scene true "oracle" "" fine) ["db"; "new"] = ([], Failed) /\ apply_command (scene true "" "" fine) ["db"; "new"] = ([], Failed)
  /\ apply_command (scene true "spanner" "" fine) ["db"; "new"] = ([], Failed).
Proof. vm_compute. repeat split. Qed.

(** * C38: comment removal keeps the statements *)

(** Every text is a list of lines, each ended by a line break, and a last line without.
    Missing: texts with a line of 64 KiB, and with carriage returns (idempotence). *)
Theorem C38_lines_are_kept_partial : forall p, p <> ""%string -> exists f : string -> list string,
  (forall x, contains p x = false -> x <> ""%string -> f x = [x]) /\ f ""%string = [] /\
  (forall x, List.length (f x) <= 1) /\
  (forall x y, In y (f x) -> contains p y = false /\ y <> ""%string /\ exists a b, x = (a ++ y ++ b)%string) /\
  (forall l y, forallb line_ok l = true -> line_ok y = true -> has_byte ch_cr (unlines l ++ y) = false ->
     remove_comments p (unlines l ++ y) = unlines (flat_map f (l ++ [y]))).
Proof.
  intros p P. exists (kept p). split; [|split; [|split; [|split]]].
  - intros x C E. rewrite kept_plain by exact C. apply String.eqb_neq in E. rewrite E. reflexivity.
  - unfold kept. destruct (String.prefix p (trim_space "")); [reflexivity|]. destruct p; [contradiction|reflexivity].
  - apply kept_few.
  - intros x y. apply kept_spec. exact P.
  - intros l y L Y C. rewrite remove_comments_kept, scan_text by assumption. rewrite map_drop_cr_id by exact C. f_equal. rewrite !flat_map_app. f_equal.
    unfold last_line. destruct (String.eqb y "") eqn:E; [|reflexivity]. apply String.eqb_eq in E. subst y. cbn [flat_map]. rewrite app_nil_r.
    unfold kept. destruct (String.prefix p (trim_space "")); [reflexivity|]. destruct p; [contradiction|reflexivity].
Qed.
Print Assumptions C38_lines_are_kept_partial.
Theorem C38_idempotent_partial : forall p l y, p <> ""%string -> forallb line_ok l = true -> line_ok y = true -> has_byte ch_cr (unlines l ++ y) = false ->
  remove_comments p (remove_comments p (unlines l ++ y)) = remove_comments p (unlines l ++ y).
Proof. exact remove_comments_twice. Qed.
Print Assumptions C38_idempotent_partial.
Example C38_example : remove_comments "--" ("-- a" ++ nl ++ "b -- c" ++ nl ++ nl ++ " d")%string = ("b" ++ nl ++ " d" ++ nl)%string.
Proof. vm_compute. reflexivity. Qed.
(** With two carriage returns at the end of a line *)
Theorem C38_idempotent_refuted : exists s, remove_comments "--" (remove_comments "--" s) <> remove_comments "--" s.
Proof. exists (String "a" (String ch_cr (String ch_cr nl))). vm_compute. discriminate. Qed.
Print Assumptions C38_idempotent_refuted.
(** A line of 64 KiB loses itself and everything that follows. *)
Fixpoint doubled (n : nat) (s : string) : string := match n with O => s | S k => doubled k (s ++ s) end.
Theorem C38_long_line_refuted : exists a b, contains "--" (a ++ nl ++ b) = false /\ b <> ""%string /\ has_byte ch_nl b = false /\ has_byte ch_nl a = false /\ remove_comments "--" (a ++ nl ++ b ++ nl) = ""%string.
Proof. exists (doubled 16 "x"), "b"%string. split; [vm_compute; reflexivity|]. split; [discriminate|]. split; [reflexivity|]. split; vm_compute; reflexivity. Qed.
Print Assumptions C38_long_line_refuted.
