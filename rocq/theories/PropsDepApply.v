(** Properties C19, C93: apply on a server that enforces dependencies (PostgreSQL, CockroachDB). *)
From Coq Require Import Lia.
From Verif Require Import GoStr Token Lexer LexSpec Ast Parser Diff Db DbFacts AppendFacts Tidy TidyFacts DiffSame Reconcile ReconcileFacts
  Lines LinesFacts Apply ApplySpec ApplyFacts Intact IntactFacts Printable SqlRead ReadFacts ReadDiff SqlDb SqlDbFacts DbDep DepServer.
From Verif Require Import PropsDiff PropsApply PropsRead PropsDep StuckFacts PropsStuck.
Local Open Scope list_scope.

Lemma no_trips : forall d l m m', dep_exec_all d l m = Some m' -> trips d l m = false /\ goes d l m = m'.
Proof.
  intros d l. induction l as [|s l IH]; intros m m' H; cbn [trips dep_exec_all goes] in *; [injection H as <-; split; reflexivity|]. unfold go.
  destruct (dep_exec d s m) as [m1|]; [|discriminate H]. exact (IH m1 m' H).
Qed.
Lemma attempt_answered : forall d m0 w, dep_served d m0 w -> forall stmts qs past m', Forall2 (text_of d) stmts qs -> forallb (fun q => negb (String.eqb q "")) qs = true ->
  (forall s, In s stmts -> says d s) -> dep_exec_all d stmts (dep_now d past m0) = Some m' ->
  forall evs e, attempt w (fun _ => false) qs past = (evs, e) -> sent evs = map (fun q => (q, None)) qs.
Proof.
  intros d m0 w W stmts. induction stmts as [|s stmts IH]; intros qs past m' F N R X evs e A; inversion F; subst; [injection A as <- <-; reflexivity|].
  cbn [forallb] in N. apply andb_true_iff in N. destruct N as [N1 N2]. apply negb_true_iff in N1. cbn [dep_exec_all] in X. destruct (dep_exec d s (dep_now d past m0)) as [m1|] eqn:X1; [|discriminate X].
  assert (Y : dep_answer d y (dep_now d past m0) = (m1, None)) by (unfold dep_answer; rewrite (says_read d s y (R s (or_introl eq_refl)) H1), dep_uncommented, X1; reflexivity).
  assert (Z : w_exec w past y = None) by (rewrite W, Y; reflexivity).
  cbn [attempt] in A. rewrite N1, Z in A. cbv zeta in A.
  destruct (attempt w (fun _ => false) l' (past ++ [EExec y None])) as [evs1 e1] eqn:A1. injection A as <- <-. cbn [sent map]. f_equal.
  refine (IH l' (past ++ [EExec y None]) m' H3 N2 (fun x Hx => R x (or_intror Hx)) _ evs1 e1 A1). rewrite dep_now_snoc, Y. exact X.
Qed.

(** Statements that work one after the other are sent once, and apply ends well. *)
Theorem C93_what_works_is_done : forall w dsn src d before after mb ma stmts m, working w -> approved w ->
  migration w dsn src d before after mb ma stmts -> dep_exec_all d stmts mb = Some m ->
  exists tr, apply_command w [dsn; src] = (tr, Done) /\ sent tr = map (fun s => (text d s, None)) stmts /\ dep_now d tr mb = m.
Proof.
  intros w dsn src d before after mb ma stmts m [Wl [Wo [Wp Wc]]] Ha [Hp Hd Hs [s1 [R1 P1]] [s2 [R2 P2]] W [DB [TB [PB NB]]] [DA [TA [PA NA]]] E Cl] X.
  assert (T : diff_text w dsn src = Text (ddl_string d stmts)) by (unfold diff_text; rewrite R1, R2, Hd, P1, P2, E; reflexivity).
  assert (F : Forall2 (text_of d) stmts (map (text d) stmts)).
  { clear. induction stmts as [|s l IH]; constructor; [apply text_ends|exact IH]. }
  assert (C : forallb (arrives d) (map (text d) stmts) = true /\ forallb (fun s => comment_arrives d (comment_of s)) stmts = true).
  { rewrite !forallb_forall in *. split; [intros q Hq; apply in_map_iff in Hq; destruct Hq as [s [E' Hq]]; subst q|intros s Hq]; specialize (Cl s Hq); apply andb_true_iff in Cl; apply Cl. }
  destruct C as [C K]. pose proof (texts_not_empty _ _ _ F) as Ne.
  assert (Y : nonempty (pieces (ddl_string d stmts)) = map (text d) stmts).
  { pose proof (cut_arrives d stmts (map (text d) stmts) F) as Z. rewrite C, K in Z. unfold cut in Z. destruct Hp as [-> | ->]; apply Z; reflexivity. }
  assert (Say : forall s, In s stmts -> says d s) by (intros s Is; exact (diff_says d (w_srt w) (w_sdiff w) Hs before after PB PA NB NA stmts s E Is)).
  destruct (apply_command w [dsn; src]) as [tr o] eqn:A.
  pose proof A as B. unfold apply_command in B. rewrite Wl, T, Wo in B. cbn [negb] in B.
  set (ap := if w_auto w then _ else _) in B.
  assert (Xa : snd ap = true).
  { unfold ap. destruct (w_auto w) eqn:Q; [rewrite Wo; reflexivity|]. destruct Ha as [Ha|Ha]; [congruence|]. cbn [snd]. rewrite (typed_yes_line _ Ha). reflexivity. }
  rewrite Xa in B. cbn [negb] in B.
  set (t3 := (([EPrint (message (ddl_string d stmts))] ++ fst ap) ++ [EPrint (nl ++ "executing..." ++ nl)])) in B.
  assert (S3 : sent t3 = []) by (unfold t3, ap; destruct (w_auto w); [rewrite Wo|]; reflexivity).
  assert (S4 : sent (t3 ++ [EOpen dsn]) = []) by (rewrite sent_app, S3; reflexivity).
  assert (M0 : dep_now d (t3 ++ [EOpen dsn]) mb = mb) by (unfold dep_now; rewrite S4; reflexivity).
  destruct (attempt_trips d mb w W stmts (map (text d) stmts) (t3 ++ [EOpen dsn]) F Ne Say) as [evs [E1 [_ E3]]].
  destruct (no_trips d stmts mb m X) as [X1 X2]. rewrite M0, X1 in E1. rewrite M0, X2 in E3.
  assert (E2 : sent evs = map (fun q => (q, None)) (map (text d) stmts)).
  { refine (attempt_answered d mb w W stmts _ (t3 ++ [EOpen dsn]) m F Ne Say _ evs false E1). rewrite M0. exact X. }
  assert (G : exec_of d w (ddl_string d stmts) (t3 ++ [EOpen dsn]) = (evs, true)).
  { assert (G : split_exec w (fun _ => false) (ddl_string d stmts) (t3 ++ [EOpen dsn]) = (evs, true)).
    { unfold split_exec. rewrite <- retry_nonempty, Y. destruct (List.length (pieces (ddl_string d stmts))); cbn [retry_do]; rewrite E1; reflexivity. }
    destruct Hp as [-> | ->]; exact G. }
  assert (Z : apply w dsn (ddl_string d stmts) t3 = (EOpen dsn :: evs, true)).
  { destruct (apply w dsn (ddl_string d stmts) t3) as [e ok] eqn:Z. destruct (apply_cases _ _ _ _ _ _ _ Hd Z) as [[Q1 Q2]|[e2 [Q1 Q2]]].
    - exfalso. unfold apply in Z. rewrite Wp in Z. cbn [negb] in Z. cbv zeta in Z. match type of Z with (let (_, _) := ?x in _) = _ => destruct x end. subst e. discriminate Z.
    - rewrite G in Q2. inversion Q2; subst. reflexivity. }
  rewrite Z in B. inversion B; subst tr o. exists (t3 ++ (EOpen dsn :: evs) ++ [EPrint ("done" ++ nl)]). split; [reflexivity|].
  assert (SS : sent (t3 ++ (EOpen dsn :: evs) ++ [EPrint ("done" ++ nl)]) = sent evs).
  { rewrite !sent_app, S3. cbn [List.app sent]. rewrite app_nil_r. reflexivity. }
  split; [rewrite SS, E2, map_map; reflexivity|]. rewrite <- E3. unfold dep_now. rewrite SS, sent_app, S4. reflexivity.
Qed.
Print Assumptions C93_what_works_is_done.

(** So whether a migration that adds a column ends well is decided by its statements alone. *)
Theorem C93_decided_by_the_first_attempt : forall w dsn src d before after mb ma stmts cm n col, working w -> approved w ->
  migration w dsn src d before after mb ma stmts -> In (AlterTable cm n (AddColumn col)) stmts ->
  ((exists tr, apply_command w [dsn; src] = (tr, Done)) <-> exists m, dep_exec_all d stmts mb = Some m).
Proof.
  intros w dsn src d before after mb ma stmts cm n col Ww Wa M I. split.
  - intros [tr A]. destruct (C93_no_second_chance w dsn src d before after mb ma stmts cm n col tr M I A) as [m [X _]]. exists m. exact X.
  - intros [m X]. destruct (C93_what_works_is_done w dsn src d before after mb ma stmts m Ww Wa M X) as [tr [A _]]. exists tr. exact A.
Qed.
Print Assumptions C93_decided_by_the_first_attempt.

(** Schemas in order: apply reaches the wanted catalogue although dependencies are enforced. *)
Theorem C19_apply_in_order_partial : forall w dsn src d before after mb ma stmts, working w -> approved w ->
  migration w dsn src d before after mb ma stmts ->
  reconcilable d before after = true -> text_ok d before after = true -> in_order d before after = true ->
  exists tr, apply_command w [dsn; src] = (tr, Done) /\ sent tr = map (fun s => (text d s, None)) stmts /\ db_eq (dep_now d tr mb) ma.
Proof.
  intros w dsn src d before after mb ma stmts Ww Wa M Rc To Io. pose proof M as [_ _ Hs _ _ _ [DB _] [DA _] E _].
  pose proof (C19_diff_is_executable_partial d (w_srt w) (w_sdiff w) before after mb ma Hs DB DA Rc To Io) as X. unfold executable in X. rewrite E in X.
  destruct X as [m [X1 X2]]. destruct (C93_what_works_is_done w dsn src d before after mb ma stmts m Ww Wa M X1) as [tr [A [B C]]].
  exists tr. split; [exact A|]. split; [exact B|]. rewrite C. exact X2.
Qed.
Print Assumptions C19_apply_in_order_partial.

Definition ordered_old : string := "CREATE TABLE t (a INTEGER);".
Definition ordered_new : string := "CREATE TABLE t (a INTEGER, b INTEGER); CREATE TABLE u (c INTEGER, CONSTRAINT f FOREIGN KEY (c) REFERENCES t (a)); CREATE INDEX i ON t (a);".
(** A table that refers to one that is there, a column, an index: every premise holds, and nothing is refused. *)
Example C19_apply_example : movable Pg ordered_old ordered_new = true
  /\ reconcilable Pg (schema Pg ordered_old) (schema Pg ordered_new) = true /\ text_ok Pg (schema Pg ordered_old) (schema Pg ordered_new) = true
  /\ in_order Pg (schema Pg ordered_old) (schema Pg ordered_new) = true.
Proof. split; [|split; [|split]]; vm_compute; reflexivity. Qed.
Example C19_apply_run : exists tr, apply_command (dep_serving Pg "postgres" ordered_old ordered_new) ["db"; "new"]%string = (tr, Done)
  /\ map snd (sent tr) = [None; None; None].
Proof. eexists. split; [vm_compute; reflexivity|]. vm_compute. reflexivity. Qed.
(** The index on a new column is not [in_order]; it is the one of C93. *)
Example C19_not_in_order : in_order Pg (schema Pg new_column_old) (schema Pg new_column_new) = false.
Proof. vm_compute. reflexivity. Qed.
Example C19_apply_world : working (dep_serving Pg "postgres" ordered_old ordered_new) /\ approved (dep_serving Pg "postgres" ordered_old ordered_new).
Proof. split; [repeat split|left; reflexivity]. Qed.

(** Why only PostgreSQL and CockroachDB: for MySQL, apply overlooks "Duplicate column name" (ddlctl_apply.go:122-124).
    The answer of a server that gives this reason for a column that is there: *)
Definition duplicate (q : string) (o : option string) : option string :=
  match o, read_sent My as_written q with
  | Some _, Some (AlterTable _ _ (AddColumn _)) => Some "Error 1060 (42S21): Duplicate column name"%string
  | _, _ => o
  end.
Definition my_serving (b a : string) : world :=
  mkWorld true true "mysql" (sources b a) (fun _ _ => true) "" (fun _ => true) (fun _ => true)
    (fun past q => duplicate q (snd (dep_answer My q (dep_now My past (catalogue My (schema My b)))))) (fun _ => true) id_sort no_text.
(** The migration that PostgreSQL never finishes is finished by the second attempt. *)
Example C93_mysql_differs : exists tr, apply_command (my_serving new_column_old new_column_new) ["db"; "new"]%string = (tr, Done)
  /\ map snd (sent tr) = [Some exec_error; None; None; Some "Error 1060 (42S21): Duplicate column name"%string].
Proof. eexists. split; [vm_compute; reflexivity|]. vm_compute. reflexivity. Qed.
