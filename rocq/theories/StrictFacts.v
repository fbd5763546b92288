(** Running apply against a server that enforces dependencies (for C48, C19). *)
From Coq Require Import Lia.
From Verif Require Import GoStr Token Lexer LexSpec Ast Parser Tidy IndexText Diff Db Lines LinesFacts Apply ApplySpec ApplyFacts Intact IntactFacts Printable PrintStmt PrintDdl SqlRead ReadFacts ReadDiff SqlDb SqlDbFacts AppendFacts ReconcileFacts Reconcile DbDep StrictDb.
Local Open Scope list_scope.

Lemma dep_uncommented : forall d s m, dep_exec d (uncommented s) m = dep_exec d s m.
Proof. intros d s m. destruct s as [t|x|c ie n|c ie n|c n a]; reflexivity. Qed.
Lemma strict_texts_app : forall d a b v, strict_texts d (a ++ b) v = strict_texts d b (strict_texts d a v).
Proof. intros d a. induction a as [|q a IH]; intros b v; cbn [List.app strict_texts]; [reflexivity|apply IH]. Qed.
Lemma strict_events_snoc : forall d past q o m, strict_events d (past ++ [EExec q o]) m = fst (strict_answer d q (strict_events d past m)).
Proof. intros d past q o m. unfold strict_events. rewrite sent_app, map_app, strict_texts_app. reflexivity. Qed.

Section Served.
Variables (d : dialect) (m0 : db) (w : world).
Hypothesis W : strictly_served d m0 w.

Lemma strict_attempt_served : forall ign stmts qs past m m', d <> Sp -> Forall2 (text_of d) stmts qs -> forallb (fun q => negb (String.eqb q "")) qs = true ->
  (forall s, In s stmts -> says d s) -> strict_events d past m0 = mkServer m None -> dep_exec_all d stmts m = Some m' ->
  exists evs, attempt w ign (qs ++ [""]) past = (evs, false) /\ sent evs = map (fun q => (q, None)) qs /\ strict_events d (past ++ evs) m0 = mkServer m' None.
Proof.
  intros ign stmts. induction stmts as [|s stmts IH]; intros qs past m m' D F N R A E; inversion F; subst.
  - exists []. cbn in E. inversion E; subst. rewrite app_nil_r. repeat split; assumption.
  - cbn [forallb] in N. apply andb_true_iff in N. destruct N as [N1 N2]. apply negb_true_iff in N1. cbn [dep_exec_all] in E. destruct (dep_exec d s m) as [m1|] eqn:X; [|discriminate E].
    assert (Y : strict_answer d y (strict_events d past m0) = (mkServer m1 None, None)).
    { rewrite A. unfold strict_answer. rewrite (says_read d s y (R s (or_introl eq_refl)) H1). unfold strict_execute. cbn [sv_db]. rewrite dep_uncommented, X. destruct d; try reflexivity. contradiction D. reflexivity. }
    assert (O : w_exec w past y = None) by (rewrite W, Y; reflexivity).
    destruct (IH l' (past ++ [EExec y None]) m1 m' D H3 N2 (fun x Hx => R x (or_intror Hx))) as [evs [I1 [I2 I3]]]; [rewrite strict_events_snoc, Y; reflexivity|exact E|].
    exists (EExec y None :: evs). cbn [List.app attempt]. rewrite N1, O, I1. split; [reflexivity|]. split; [cbn [sent map]; rewrite I2; reflexivity|].
    rewrite <- app_assoc in I3. exact I3.
Qed.

Lemma strict_send_served : forall stmts qs past m k, d = Sp -> Forall2 (text_of d) stmts qs -> forallb (fun q => negb (String.eqb q "")) qs = true ->
  (forall s, In s stmts -> says d s) -> strict_events d past m0 = mkServer m (Some k) ->
  exists evs, send_all w (qs ++ [""]) past = (evs, true) /\ sent evs = map (fun q => (q, None)) qs /\ strict_events d (past ++ evs) m0 = mkServer m (Some (k ++ map uncommented stmts)).
Proof.
  intro stmts. induction stmts as [|s stmts IH]; intros qs past m k D F N R A; inversion F; subst qs.
  - exists []. cbn [map]. rewrite !app_nil_r. repeat split; assumption.
  - cbn [forallb] in N. apply andb_true_iff in N. destruct N as [N1 N2]. apply negb_true_iff in N1.
    pose proof (says_read d s y (R s (or_introl eq_refl)) H1) as RD.
    assert (Y : strict_answer d y (strict_events d past m0) = (mkServer m (Some (k ++ [uncommented s])), None)).
    { rewrite A. unfold strict_answer. rewrite D in RD. rewrite D.
      destruct (String.eqb y "START BATCH DDL") eqn:Z1; [apply String.eqb_eq in Z1; subst y; vm_compute in RD; discriminate RD|].
      destruct (String.eqb y "RUN BATCH") eqn:Z2; [apply String.eqb_eq in Z2; subst y; vm_compute in RD; discriminate RD|]. rewrite RD. reflexivity. }
    assert (O : w_exec w past y = None) by (rewrite W, Y; reflexivity).
    destruct (IH l' (past ++ [EExec y None]) m (k ++ [uncommented s]) D H3 N2 (fun x Hx => R x (or_intror Hx))) as [evs [I1 [I2 I3]]]; [rewrite strict_events_snoc, Y; reflexivity|].
    exists (EExec y None :: evs). cbn [List.app send_all]. rewrite N1, O, I1. split; [reflexivity|]. split; [cbn [sent map]; rewrite I2; reflexivity|].
    rewrite <- app_assoc in I3. cbn [List.app] in I3. rewrite I3. cbn [map]. rewrite <- app_assoc. reflexivity.
Qed.
Lemma strict_batch_all : forall stmts m m', dep_exec_all d stmts m = Some m' -> strict_batch d (map uncommented stmts) m = (mkServer m' None, None).
Proof.
  intro stmts. induction stmts as [|s stmts IH]; intros m m' H; cbn [dep_exec_all map strict_batch] in *; [inversion H; reflexivity|].
  rewrite dep_uncommented. destruct (dep_exec d s m); [apply IH; exact H|discriminate H].
Qed.

Lemma strict_exec_served : forall stmts qs past m', (forall p, w_conn w p = true) -> Forall2 (text_of d) stmts qs -> forallb (arrives d) qs = true ->
  forallb (fun s => comment_arrives d (comment_of s)) stmts = true -> (forall s, In s stmts -> says d s) -> sent past = [] -> dep_exec_all d stmts m0 = Some m' ->
  exists evs, exec_of d w (ddl_string d stmts) past = (evs, true) /\ sent evs = map (fun q => (q, None)) (texts_sent d qs) /\ sv_db (strict_events d (past ++ evs) m0) = m'.
Proof.
  intros stmts qs past m' Hc F C K R P E.
  assert (A : strict_events d past m0 = mkServer m0 None) by (unfold strict_events; rewrite P; reflexivity).
  assert (N : forallb (fun q => negb (String.eqb q "")) qs = true).
  { exact (texts_not_empty _ _ _ F). }
  assert (Y : cut d (ddl_string d stmts) = nonempty (qs ++ [""])) by (rewrite (nonempty_snoc qs N); apply (cut_arrives d stmts qs F); rewrite C, K; reflexivity).
  assert (G : forall ign, d <> Sp -> exists evs, split_exec w ign (ddl_string d stmts) past = (evs, true) /\ sent evs = map (fun q => (q, None)) qs /\ sv_db (strict_events d (past ++ evs) m0) = m').
  { intros ign D. unfold split_exec.
    assert (Z : nonempty (pieces (ddl_string d stmts)) = nonempty (qs ++ [""])) by (destruct d; try exact Y; contradiction).
    destruct (strict_attempt_served ign stmts qs past m0 m' D F N R A E) as [evs [E1 [E2 E3]]]. exists evs. split; [|split; [exact E2|rewrite E3; reflexivity]].
    rewrite <- attempt_nonempty, <- Z, attempt_nonempty in E1. destruct (List.length (pieces (ddl_string d stmts))); cbn [retry_do]; rewrite E1; reflexivity. }
  unfold exec_of, texts_sent. destruct d eqn:D; rewrite <- D in *; try (apply G; congruence).
  unfold batch_exec. rewrite Hc. cbn [negb]. change (split (";" ++ nl) (drop_comment_lines (ddl_string d stmts))) with (split stop (drop_comment_lines (ddl_string d stmts))).
  assert (S1 : strict_answer d start_batch (strict_events d past m0) = (mkServer m0 (Some []), None)) by (rewrite A, D; reflexivity).
  assert (O1 : w_exec w past start_batch = None) by (rewrite W, S1; reflexivity). rewrite O1.
  assert (A1 : strict_events d (past ++ [EExec start_batch None]) m0 = mkServer m0 (Some [])) by (rewrite strict_events_snoc, S1; reflexivity).
  destruct (strict_send_served stmts qs (past ++ [EExec start_batch None]) m0 [] D F N R A1) as [evs [E1 [E2 E3]]].
  assert (Z : nonempty (split stop (drop_comment_lines (ddl_string d stmts))) = nonempty (qs ++ [""])) by (unfold cut in Y; rewrite D in Y at 1; exact Y).
  rewrite <- send_nonempty, <- Z, send_nonempty in E1. rewrite E1. cbn [List.app] in E3.
  assert (S2 : strict_answer d run_batch (strict_events d ((past ++ [EExec start_batch None]) ++ evs) m0) = (mkServer m' None, None)).
  { rewrite E3. rewrite <- (strict_batch_all stmts m0 m' E). rewrite D. reflexivity. }
  assert (O2 : w_exec w ((past ++ [EExec start_batch None]) ++ evs) run_batch = None) by (rewrite W, S2; reflexivity). rewrite O2.
  eexists. split; [reflexivity|]. split.
  - cbn [sent]. rewrite sent_app, E2. cbn [sent map]. rewrite map_app. reflexivity.
  - replace (past ++ EExec start_batch None :: evs ++ [EExec run_batch None]) with (((past ++ [EExec start_batch None]) ++ evs) ++ [EExec run_batch None]) by (rewrite <- !app_assoc; reflexivity).
    rewrite strict_events_snoc, S2. reflexivity.
Qed.
End Served.

Theorem strict_apply_served : forall w dsn src d s1 s2 before after m0 stmts qs m,
  working w -> approved w -> dialect_of (w_dialect w) = Some d -> w_resolve w dsn = Some s1 -> w_resolve w src = Some s2 ->
  parse d (w_srt w) s1 = Ok before -> parse d (w_srt w) s2 = Ok after -> strictly_served d m0 w ->
  diff d (w_srt w) (w_sdiff w) (Some before) (Some after) = DOk stmts -> (forall s, In s stmts -> says d s) ->
  Forall2 (text_of d) stmts qs -> forallb (arrives d) qs = true -> forallb (fun s => comment_arrives d (comment_of s)) stmts = true ->
  dep_exec_all d stmts m0 = Some m ->
  exists tr, apply_command w [dsn; src] = (tr, Done) /\ sent tr = map (fun q => (q, None)) (texts_sent d qs) /\ sv_db (strict_events d tr m0) = m.
Proof.
  intros w dsn src d s1 s2 before after m0 stmts qs m [Wl [Wo [Wp Wc]]] Ha Hd H1 H2 P1 P2 W D R F C K E.
  assert (T : diff_text w dsn src = Text (ddl_string d stmts)) by (unfold diff_text; rewrite H1, H2, Hd, P1, P2, D; reflexivity).
  destruct (apply_command w [dsn; src]) as [tr o] eqn:A.
  pose proof A as B. unfold apply_command in B. rewrite Wl, T, Wo in B. cbn [negb] in B.
  set (ap := if w_auto w then _ else _) in B.
  assert (X : snd ap = true).
  { unfold ap. destruct (w_auto w) eqn:Q; [rewrite Wo; reflexivity|]. destruct Ha as [Ha|Ha]; [congruence|]. cbn [snd]. rewrite (typed_yes_line _ Ha). reflexivity. }
  rewrite X in B. cbn [negb] in B.
  set (t3 := (([EPrint (message (ddl_string d stmts))] ++ fst ap) ++ [EPrint (nl ++ "executing..." ++ nl)])) in B.
  assert (S3 : sent t3 = []) by (unfold t3, ap; destruct (w_auto w); [rewrite Wo|]; reflexivity).
  assert (S4 : sent (t3 ++ [EOpen dsn]) = []) by (rewrite sent_app, S3; reflexivity).
  destruct (strict_exec_served d m0 w W stmts qs (t3 ++ [EOpen dsn]) m Wc F C K R S4 E) as [evs [E1 [E2 E3]]].
  assert (Y : apply w dsn (ddl_string d stmts) t3 = (EOpen dsn :: evs, true)).
  { destruct (apply w dsn (ddl_string d stmts) t3) as [e ok] eqn:Z. destruct (apply_cases _ _ _ _ _ _ _ Hd Z) as [[Q1 Q2]|[e2 [Q1 Q2]]].
    - exfalso. unfold apply in Z. rewrite Wp in Z. cbn [negb] in Z. cbv zeta in Z. match type of Z with (let (_, _) := ?x in _) = _ => destruct x end. subst e. discriminate Z.
    - rewrite E1 in Q2. inversion Q2; subst. reflexivity. }
  rewrite Y in B. inversion B; subst tr o. exists (t3 ++ (EOpen dsn :: evs) ++ [EPrint ("done" ++ nl)]). split; [reflexivity|].
  assert (SS : sent (t3 ++ (EOpen dsn :: evs) ++ [EPrint ("done" ++ nl)]) = sent evs).
  { rewrite !sent_app, S3. cbn [List.app sent]. rewrite app_nil_r. reflexivity. }
  split; [rewrite SS; exact E2|]. rewrite <- E3. unfold strict_events. rewrite SS, sent_app, S4. reflexivity.
Qed.
