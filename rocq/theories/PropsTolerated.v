(** Property C86 for apply: on a server that refuses to drop what is still needed, what works one
    after the other is done, and with the conditions of C86 the wanted catalogue is reached. *)
From Coq Require Import Lia.
From Verif Require Import GoStr Token Lexer LexSpec Ast Parser Diff Db DbFacts AppendFacts Tidy TidyFacts DiffSame Reconcile ReconcileFacts
  Lines LinesFacts Apply ApplySpec ApplyFacts Intact IntactFacts Printable SqlRead ReadFacts ReadDiff SqlDb SqlDbFacts DbDep DepServer DbRefuse RefuseFacts RestrictDb.
From Verif Require Import PropsDiff PropsApply PropsRead PropsDep StuckFacts PropsStuck PropsRefuse PropsRestrict.
Local Open Scope list_scope.

Lemma whole_looked_at : forall ks m, whole m -> whole_on ks m = true.
Proof. intros ks m H. apply forallb_forall. intros k _. destruct (m k) as [v|] eqn:E; [exact (H k v E)|reflexivity]. Qed.
Lemma tolerated_all : forall ks d stmts m m', tolerates d stmts m m' -> restrict_all ks d stmts m = Some m'.
Proof.
  intros ks d stmts m m' H. induction H as [|s r m m1 m2 X Wh _ IH]; cbn [restrict_all]; [reflexivity|].
  unfold restrict_exec. rewrite X, (whole_looked_at ks m1 Wh). exact IH.
Qed.
Lemma attempt_tolerated : forall ks d m0 w ign, restrict_served ks d m0 w -> forall stmts qs past m', Forall2 (text_of d) stmts qs -> forallb (fun q => negb (String.eqb q "")) qs = true ->
  (forall s, In s stmts -> says d s) -> restrict_all ks d stmts (restrict_now ks d past m0) = Some m' ->
  exists evs, attempt w ign qs past = (evs, false) /\ sent evs = map (fun q => (q, None)) qs /\ restrict_now ks d (past ++ evs) m0 = m'.
Proof.
  intros ks d m0 w ign W stmts. induction stmts as [|s stmts IH]; intros qs past m' F N R X; inversion F; subst.
  - exists []. rewrite app_nil_r. cbn [restrict_all] in X. injection X as <-. repeat split.
  - cbn [forallb] in N. apply andb_true_iff in N. destruct N as [N1 N2]. apply negb_true_iff in N1. cbn [restrict_all] in X. destruct (restrict_exec ks d s (restrict_now ks d past m0)) as [m1|] eqn:X1; [|discriminate X].
    assert (Y : restrict_answer ks d y (restrict_now ks d past m0) = (m1, None)) by (unfold restrict_answer; rewrite (says_read d s y (R s (or_introl eq_refl)) H1), restrict_uncommented, X1; reflexivity).
    assert (Z : w_exec w past y = None) by (rewrite W, Y; reflexivity).
    destruct (IH l' (past ++ [EExec y None]) m' H3 N2 (fun x Hx => R x (or_intror Hx))) as [evs [I1 [I2 I3]]]; [rewrite restrict_now_snoc, Y; exact X|].
    exists (EExec y None :: evs). cbn [attempt]. rewrite N1, Z. cbv zeta. rewrite I1. split; [reflexivity|]. split; [cbn [sent map]; rewrite I2; reflexivity|]. rewrite <- app_assoc in I3. exact I3.
Qed.

Theorem C86_what_is_tolerated_is_done : forall ks w dsn src d s1 s2 before after mb ma stmts m, working w -> approved w ->
  d <> Sp -> dialect_of (w_dialect w) = Some d -> srt_ok (w_srt w) ->
  w_resolve w dsn = Some s1 -> w_resolve w src = Some s2 -> parse d (w_srt w) s1 = Ok before -> parse d (w_srt w) s2 = Ok after ->
  restrict_served ks d mb w -> describes d before mb -> describes d after ma ->
  printable d before = true -> printable d after = true -> index_names_ok d before = true -> index_names_ok d after = true ->
  diff d (w_srt w) (w_sdiff w) (Some before) (Some after) = DOk stmts ->
  forallb (fun s => arrives d (text d s) && comment_arrives d (comment_of s)) stmts = true ->
  tolerates d stmts mb m ->
  exists tr, apply_command w [dsn; src] = (tr, Done) /\ sent tr = map (fun s => (text d s, None)) stmts /\ restrict_now ks d tr mb = m.
Proof.
  intros ks w dsn src d s1 s2 before after mb ma stmts m [Wl [Wo [Wp Wc]]] Ha Nd Hd Hs R1 R2 P1 P2 W DB DA PB PA NB NA E Cl To.
  pose proof (tolerated_all ks d stmts mb m To) as X.
  assert (T : diff_text w dsn src = Text (ddl_string d stmts)) by (unfold diff_text; rewrite R1, R2, Hd, P1, P2, E; reflexivity).
  assert (F : Forall2 (text_of d) stmts (map (text d) stmts)).
  { clear. induction stmts as [|s l IH]; constructor; [apply text_ends|exact IH]. }
  assert (C : forallb (arrives d) (map (text d) stmts) = true /\ forallb (fun s => comment_arrives d (comment_of s)) stmts = true).
  { rewrite !forallb_forall in *. split; [intros q Hq; apply in_map_iff in Hq; destruct Hq as [s [E' Hq]]; subst q|intros s Hq]; specialize (Cl s Hq); apply andb_true_iff in Cl; apply Cl. }
  destruct C as [C K]. pose proof (texts_not_empty _ _ _ F) as Ne.
  assert (Y : nonempty (pieces (ddl_string d stmts)) = map (text d) stmts).
  { pose proof (cut_arrives d stmts (map (text d) stmts) F) as Z. rewrite C, K in Z. unfold cut in Z. destruct d; try (apply Z; reflexivity). contradiction Nd; reflexivity. }
  assert (Say : forall s, In s stmts -> says d s) by (intros s Is; exact (diff_says d (w_srt w) (w_sdiff w) Hs before after PB PA NB NA stmts s E Is)).
  destruct (apply_command w [dsn; src]) as [tr o] eqn:A.
  pose proof A as B. unfold apply_command in B. rewrite Wl, T, Wo in B. cbn [negb] in B.
  set (ap := if w_auto w then _ else _) in B.
  assert (Xa : snd ap = true).
  { unfold ap. destruct (w_auto w) eqn:Q; [rewrite Wo; reflexivity|]. destruct Ha as [Ha|Ha]; [congruence|]. cbn [snd]. rewrite (typed_yes_line _ Ha). reflexivity. }
  rewrite Xa in B. cbn [negb] in B.
  set (t3 := (([EPrint (message (ddl_string d stmts))] ++ fst ap) ++ [EPrint (nl ++ "executing..." ++ nl)])) in B.
  assert (S3 : sent t3 = []) by (unfold t3, ap; destruct (w_auto w); [rewrite Wo|]; reflexivity).
  assert (S4 : sent (t3 ++ [EOpen dsn]) = []) by (rewrite sent_app, S3; reflexivity).
  assert (M0 : restrict_now ks d (t3 ++ [EOpen dsn]) mb = mb) by (unfold restrict_now; rewrite S4; reflexivity).
  assert (G : exists evs, exec_of d w (ddl_string d stmts) (t3 ++ [EOpen dsn]) = (evs, true) /\ sent evs = map (fun q => (q, None)) (map (text d) stmts) /\ restrict_now ks d ((t3 ++ [EOpen dsn]) ++ evs) mb = m).
  { assert (G : forall ign, exists evs, split_exec w ign (ddl_string d stmts) (t3 ++ [EOpen dsn]) = (evs, true) /\ sent evs = map (fun q => (q, None)) (map (text d) stmts) /\ restrict_now ks d ((t3 ++ [EOpen dsn]) ++ evs) mb = m).
    { intro ign. destruct (attempt_tolerated ks d mb w ign W stmts (map (text d) stmts) (t3 ++ [EOpen dsn]) m F Ne Say) as [evs [E1 [E2 E3]]]; [rewrite M0; exact X|].
      exists evs. split; [|split; assumption]. unfold split_exec. rewrite <- retry_nonempty, Y. destruct (List.length (pieces (ddl_string d stmts))); cbn [retry_do]; rewrite E1; reflexivity. }
    destruct d; [exact (G (fun _ => false))|exact (G (fun _ => false))|exact (G mysql_ignores)|contradiction Nd; reflexivity]. }
  destruct G as [evs [G [E2 E3]]].
  assert (Z : apply w dsn (ddl_string d stmts) t3 = (EOpen dsn :: evs, true)).
  { destruct (apply w dsn (ddl_string d stmts) t3) as [e ok] eqn:Z. destruct (apply_cases _ _ _ _ _ _ _ Hd Z) as [[Q1 Q2]|[e2 [Q1 Q2]]].
    - exfalso. unfold apply in Z. rewrite Wp in Z. cbn [negb] in Z. cbv zeta in Z. match type of Z with (let (_, _) := ?x in _) = _ => destruct x end. subst e. discriminate Z.
    - rewrite G in Q2. inversion Q2; subst. reflexivity. }
  rewrite Z in B. inversion B; subst tr o. exists (t3 ++ (EOpen dsn :: evs) ++ [EPrint ("done" ++ nl)]). split; [reflexivity|].
  assert (SS : sent (t3 ++ (EOpen dsn :: evs) ++ [EPrint ("done" ++ nl)]) = sent evs).
  { rewrite !sent_app, S3. cbn [List.app sent]. rewrite app_nil_r. reflexivity. }
  split; [rewrite SS, E2, map_map; reflexivity|]. rewrite <- E3. unfold restrict_now. rewrite SS, sent_app, S4. reflexivity.
Qed.
Print Assumptions C86_what_is_tolerated_is_done.

(** With the conditions of C86, apply reaches the wanted catalogue on such a server, with one
    attempt.  Missing for the full property: other pairs (C86_wrong_order_never_applied).  For
    Spanner, where the statements go in a batch, see PropsBatch.v. *)
Theorem C86_apply_partial : forall ks w dsn src d s1 s2 before after mb ma stmts, working w -> approved w ->
  d <> Sp -> dialect_of (w_dialect w) = Some d -> srt_ok (w_srt w) ->
  w_resolve w dsn = Some s1 -> w_resolve w src = Some s2 -> parse d (w_srt w) s1 = Ok before -> parse d (w_srt w) s2 = Ok after ->
  restrict_served ks d mb w -> describes d before mb -> describes d after ma ->
  printable d before = true -> printable d after = true -> index_names_ok d before = true -> index_names_ok d after = true ->
  diff d (w_srt w) (w_sdiff w) (Some before) (Some after) = DOk stmts ->
  forallb (fun s => arrives d (text d s) && comment_arrives d (comment_of s)) stmts = true ->
  reconcilable d before after = true -> text_ok d before after = true -> in_order d before after = true -> dropped_in_order d (gone before after) = true ->
  exists tr, apply_command w [dsn; src] = (tr, Done) /\ sent tr = map (fun s => (text d s, None)) stmts /\ db_eq (restrict_now ks d tr mb) ma.
Proof.
  intros ks w dsn src d s1 s2 before after mb ma stmts Ww Wa Nd Hd Hs R1 R2 P1 P2 W DB DA PB PA NB NA E Cl Rc To Io Do.
  pose proof (C86_nothing_needed_is_dropped_partial d (w_srt w) (w_sdiff w) before after mb ma Hs DB DA Rc To Io Do) as X. rewrite E in X. destruct X as [m [X1 X2]].
  destruct (C86_what_is_tolerated_is_done ks w dsn src d s1 s2 before after mb ma stmts m Ww Wa Nd Hd Hs R1 R2 P1 P2 W DB DA PB PA NB NA E Cl X1) as [tr [A [B C]]].
  exists tr. split; [exact A|]. split; [exact B|]. rewrite C. exact X2.
Qed.
Print Assumptions C86_apply_partial.

(** The other way round than [pair_old]: the conditions hold in the three dialects, and the run. *)
Definition good_old : string := "CREATE TABLE v (x INTEGER NULL, CONSTRAINT f FOREIGN KEY (x) REFERENCES w (a)); CREATE TABLE w (a INTEGER NULL); CREATE TABLE k (z INTEGER NULL);".
Example C86_apply_conditions : forallb (fun d => restrictable d good_old pair_new && reconcilable d (schema d good_old) (schema d pair_new) && text_ok d (schema d good_old) (schema d pair_new)
    && in_order d (schema d good_old) (schema d pair_new) && dropped_in_order d (gone (schema d good_old) (schema d pair_new))) [Pg; Crdb; My] = true
  /\ dropped_in_order Pg (gone (schema Pg pair_old) (schema Pg pair_new)) = false.
Proof. split; vm_compute; reflexivity. Qed.
Example C86_apply_world : working (restrict_serving My "mysql" good_old pair_new) /\ approved (restrict_serving My "mysql" good_old pair_new).
Proof. split; [repeat split|left; reflexivity]. Qed.
Example C86_apply_run : exists tr, apply_command (restrict_serving My "mysql" good_old pair_new) ["db"; "new"]%string = (tr, Done) /\ map snd (sent tr) = [None; None].
Proof. eexists. split; [vm_compute; reflexivity|]. vm_compute. reflexivity. Qed.
