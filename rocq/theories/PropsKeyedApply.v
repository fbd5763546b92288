(** Property C85 for apply: on a server that insists on the keys of foreign keys, apply ends well
    if the keys are in time. *)
From Coq Require Import Lia.
From Verif Require Import GoStr Token Lexer LexSpec Ast Parser Diff Db DbFacts AppendFacts Tidy TidyFacts DiffSame Reconcile ReconcileFacts
  Lines LinesFacts Apply ApplySpec ApplyFacts Intact IntactFacts Printable SqlRead ReadFacts ReadDiff SqlDb SqlDbFacts DbDep DepFacts InterruptFacts InPlaceFacts DbKeyed KeyedServer KeyedFacts.
From Verif Require Import PropsDiff PropsApply PropsRead PropsDep StuckFacts PropsStuck PropsKeyed PropsKeyedMore.
Local Open Scope list_scope.

Lemma keyed_uncommented : forall ks d s m, keyed_exec ks d (uncommented s) m = keyed_exec ks d s m.
Proof. intros ks d s m. destruct s as [t|x|c ie n|c ie n|c n a]; reflexivity. Qed.
Lemma keyed_after_app : forall ks d a b m, keyed_after ks d (a ++ b) m = keyed_after ks d b (keyed_after ks d a m).
Proof. intros ks d a. induction a as [|q a IH]; intros b m; cbn [List.app keyed_after]; [reflexivity|apply IH]. Qed.
Lemma keyed_now_snoc : forall ks d past q o m, keyed_now ks d (past ++ [EExec q o]) m = fst (keyed_answer ks d q (keyed_now ks d past m)).
Proof. intros ks d past q o m. unfold keyed_now. rewrite sent_app, map_app, keyed_after_app. reflexivity. Qed.
Fixpoint keyed_all (ks : list key) (d : dialect) (l : ddl) (m : db) : option db :=
  match l with
  | [] => Some m
  | s :: r => match keyed_exec ks d s m with Some m' => keyed_all ks d r m' | None => None end
  end.
Lemma keyed_seen : forall ks m, (forall k, m k <> None -> In k ks) -> keyed m -> keyed_on ks m = true.
Proof.
  intros ks m A K. apply forallb_forall. intros k _. destruct (m k) as [[|?|s|?|?|?]|] eqn:V; try reflexivity. destruct s as [|cols ref rc act| |]; try reflexivity.
  specialize (K k _ V). cbn [backed] in K. destruct (present (m (KTab ref))); [|reflexivity]. destruct (K eq_refl) as [q [u [U B]]]. cbn [negb orb].
  apply existsb_exists. exists q. split; [apply A; congruence|]. rewrite U. exact B.
Qed.
Lemma keyed_steps : forall ks d stmts m0 mf, dep_exec_all d stmts m0 = Some mf ->
  (forall p q m, stmts = p ++ q -> dep_exec_all d p m0 = Some m -> keyed m /\ forall k, m k <> None -> In k ks) -> keyed_all ks d stmts m0 = Some mf.
Proof.
  intros ks d. induction stmts as [|s stmts IH]; intros m0 mf X H; [exact X|]. cbn [dep_exec_all keyed_all] in *. unfold keyed_exec.
  destruct (dep_exec d s m0) as [m1|] eqn:X1; [|discriminate X].
  destruct (H [s] stmts m1 eq_refl) as [K A]; [cbn [dep_exec_all]; rewrite X1; reflexivity|]. rewrite (keyed_seen ks m1 A K).
  apply (IH m1 mf X). intros p q m Ep Xp. apply (H (s :: p) q m); [rewrite Ep; reflexivity|]. cbn [dep_exec_all]. rewrite X1. exact Xp.
Qed.
Lemma attempt_keyed : forall ks d m0 w ign, keyed_served ks d m0 w -> forall stmts qs past m', Forall2 (text_of d) stmts qs -> forallb (fun q => negb (String.eqb q "")) qs = true ->
  (forall s, In s stmts -> says d s) -> keyed_all ks d stmts (keyed_now ks d past m0) = Some m' ->
  exists evs, attempt w ign qs past = (evs, false) /\ sent evs = map (fun q => (q, None)) qs /\ keyed_now ks d (past ++ evs) m0 = m'.
Proof.
  intros ks d m0 w ign W stmts. induction stmts as [|s stmts IH]; intros qs past m' F N R X; inversion F; subst.
  - exists []. rewrite app_nil_r. cbn [keyed_all] in X. injection X as <-. repeat split.
  - cbn [forallb] in N. apply andb_true_iff in N. destruct N as [N1 N2]. apply negb_true_iff in N1. cbn [keyed_all] in X. destruct (keyed_exec ks d s (keyed_now ks d past m0)) as [m1|] eqn:X1; [|discriminate X].
    assert (Y : keyed_answer ks d y (keyed_now ks d past m0) = (m1, None)) by (unfold keyed_answer; rewrite (says_read d s y (R s (or_introl eq_refl)) H1), keyed_uncommented, X1; reflexivity).
    assert (Z : w_exec w past y = None) by (rewrite W, Y; reflexivity).
    destruct (IH l' (past ++ [EExec y None]) m' H3 N2 (fun x Hx => R x (or_intror Hx))) as [evs [I1 [I2 I3]]]; [rewrite keyed_now_snoc, Y; exact X|].
    exists (EExec y None :: evs). cbn [attempt]. rewrite N1, Z. cbv zeta. rewrite I1. split; [reflexivity|]. split; [cbn [sent map]; rewrite I2; reflexivity|]. rewrite <- app_assoc in I3. exact I3.
Qed.


(** Missing for the full property: as for C85_keys_are_in_time_partial. *)
Theorem C85_apply_partial : forall ks w dsn src d s1 s2 before after mb ma stmts, working w -> approved w ->
  d <> Sp -> dialect_of (w_dialect w) = Some d -> srt_ok (w_srt w) ->
  w_resolve w dsn = Some s1 -> w_resolve w src = Some s2 -> parse d (w_srt w) s1 = Ok before -> parse d (w_srt w) s2 = Ok after ->
  keyed_served ks d mb w -> describes d before mb -> describes d after ma ->
  printable d before = true -> printable d after = true -> index_names_ok d before = true -> index_names_ok d after = true ->
  diff d (w_srt w) (w_sdiff w) (Some before) (Some after) = DOk stmts ->
  (forall k, In k (reachable d before stmts) -> In k ks) ->
  forallb (fun s => arrives d (text d s) && comment_arrives d (comment_of s)) stmts = true ->
  reconcilable d before after = true -> text_ok d before after = true -> in_order d before after = true -> keys_in_time d before after = true ->
  exists tr, apply_command w [dsn; src] = (tr, Done) /\ sent tr = map (fun s => (text d s, None)) stmts /\ db_eq (keyed_now ks d tr mb) ma.
Proof.
  intros ks w dsn src d s1 s2 before after mb ma stmts [Wl [Wo [Wp Wc]]] Ha Nd Hd Hs R1 R2 P1 P2 W DB DA PB PA NB NA E Lk Cl Rc To Io Ke.
  pose proof (diff_respects d (w_srt w) (w_sdiff w) before after mb ma Hs DB DA Rc To Io) as R. rewrite E in R. destruct R as [m [Xd Ef]].
  destruct (reconcilable_tidy d before after Rc) as [TB TA].
  assert (X : keyed_all ks d stmts mb = Some m).
  { apply (keyed_steps ks d stmts mb m Xd). intros p q m1 Ep Xp. split.
    - rewrite Ep in E. destruct (C85_keys_are_in_time_partial d (w_srt w) (w_sdiff w) before after mb ma p q Hs DB DA Nd Rc To Io Ke E) as [m2 [Y K]]. rewrite Xp in Y. injection Y as Y. subst m2. exact K.
    - intros k N. apply Lk. unfold reachable. apply in_or_app.
      assert (Pl : forallb plain_stmt p = true).
      { apply forallb_forall. intros s I. pose proof (diff_no_rename d (w_srt w) (w_sdiff w) before after stmts Hs TB TA E s) as Z. rewrite Ep in Z. specialize (Z (in_or_app _ _ _ (or_introl I))).
        destruct s as [?|?|? ? ?|? ? ?|? ? a]; try reflexivity. destruct a; try reflexivity. destruct Z. }
      destruct (made_steps d p mb m1 Pl (dep_steps d p mb m1 Xp) k N) as [Y|Y]; [left; exact (proj2 (keys_read d before mb k DB) Y)|right].
      rewrite Ep, flat_map_app, flat_map_app. apply in_or_app. left. exact Y. }
  assert (T : diff_text w dsn src = Text (ddl_string d stmts)) by (unfold diff_text; rewrite R1, R2, Hd, P1, P2, E; reflexivity).
  assert (F : Forall2 (text_of d) stmts (map (text d) stmts)).
  { clear. induction stmts as [|s l IH]; constructor; [apply text_ends|exact IH]. }
  assert (C : forallb (arrives d) (map (text d) stmts) = true /\ forallb (fun s => comment_arrives d (comment_of s)) stmts = true).
  { rewrite !forallb_forall in *. split; [intros q Hq; apply in_map_iff in Hq; destruct Hq as [s [E' Hq]]; subst q|intros s Hq]; specialize (Cl s Hq); apply andb_true_iff in Cl; apply Cl. }
  destruct C as [C K]. pose proof (texts_not_empty _ _ _ F) as Ne.
  assert (Y : nonempty (pieces (ddl_string d stmts)) = map (text d) stmts).
  { pose proof (cut_arrives d stmts (map (text d) stmts) F) as Z. rewrite C, K in Z. unfold cut in Z. destruct d; try (apply Z; reflexivity). contradiction Nd; reflexivity. }
  assert (Say : forall s, In s stmts -> says d s) by (intros s Is; exact (diff_says d (w_srt w) (w_sdiff w) Hs before after PB PA NB NA stmts s E Is)).
  destruct (apply_command w [dsn; src]) as [tr o] eqn:A.
  pose proof A as B. unfold apply_command in B. rewrite Wl, T, Wo in B. cbn [negb] in B.
  set (ap := if w_auto w then _ else _) in B.
  assert (Xa : snd ap = true).
  { unfold ap. destruct (w_auto w) eqn:Q; [rewrite Wo; reflexivity|]. destruct Ha as [Ha|Ha]; [congruence|]. cbn [snd]. rewrite (typed_yes_line _ Ha). reflexivity. }
  rewrite Xa in B. cbn [negb] in B.
  set (t3 := (([EPrint (message (ddl_string d stmts))] ++ fst ap) ++ [EPrint (nl ++ "executing..." ++ nl)])) in B.
  assert (S3 : sent t3 = []) by (unfold t3, ap; destruct (w_auto w); [rewrite Wo|]; reflexivity).
  assert (S4 : sent (t3 ++ [EOpen dsn]) = []) by (rewrite sent_app, S3; reflexivity).
  assert (M0 : keyed_now ks d (t3 ++ [EOpen dsn]) mb = mb) by (unfold keyed_now; rewrite S4; reflexivity).
  assert (G : exists evs, exec_of d w (ddl_string d stmts) (t3 ++ [EOpen dsn]) = (evs, true) /\ sent evs = map (fun q => (q, None)) (map (text d) stmts) /\ keyed_now ks d ((t3 ++ [EOpen dsn]) ++ evs) mb = m).
  { assert (G : forall ign, exists evs, split_exec w ign (ddl_string d stmts) (t3 ++ [EOpen dsn]) = (evs, true) /\ sent evs = map (fun q => (q, None)) (map (text d) stmts) /\ keyed_now ks d ((t3 ++ [EOpen dsn]) ++ evs) mb = m).
    { intro ign. destruct (attempt_keyed ks d mb w ign W stmts (map (text d) stmts) (t3 ++ [EOpen dsn]) m F Ne Say) as [evs [E1 [E2 E3]]]; [rewrite M0; exact X|].
      exists evs. split; [|split; assumption]. unfold split_exec. rewrite <- retry_nonempty, Y. destruct (List.length (pieces (ddl_string d stmts))); cbn [retry_do]; rewrite E1; reflexivity. }
    destruct d; [exact (G (fun _ => false))|exact (G (fun _ => false))|exact (G mysql_ignores)|contradiction Nd; reflexivity]. }
  destruct G as [evs [G [E2 E3]]].
  assert (Z : apply w dsn (ddl_string d stmts) t3 = (EOpen dsn :: evs, true)).
  { destruct (apply w dsn (ddl_string d stmts) t3) as [e ok] eqn:Z. destruct (apply_cases _ _ _ _ _ _ _ Hd Z) as [[Q1 Q2]|[e2 [Q1 Q2]]].
    - exfalso. unfold apply in Z. rewrite Wp in Z. cbn [negb] in Z. cbv zeta in Z. match type of Z with (let (_, _) := ?x in _) = _ => destruct x end. subst e. discriminate Z.
    - rewrite G in Q2. inversion Q2; subst. reflexivity. }
  rewrite Z in B. inversion B; subst tr o. exists (t3 ++ (EOpen dsn :: evs) ++ [EPrint ("done" ++ nl)]). split; [reflexivity|].
  assert (SS : sent (t3 ++ (EOpen dsn :: evs) ++ [EPrint ("done" ++ nl)]) = sent evs).
  { rewrite !sent_app, S3. cbn [List.app sent]. rewrite app_nil_r. reflexivity. }
  split; [rewrite SS, E2, map_map; reflexivity|]. replace (keyed_now ks d (t3 ++ (EOpen dsn :: evs) ++ [EPrint ("done" ++ nl)]) mb) with m; [exact Ef|]. rewrite <- E3. unfold keyed_now. rewrite SS, sent_app, S4. reflexivity.
Qed.
Print Assumptions C85_apply_partial.

(** The conditions hold for a new foreign key to a new unique index, and the run. *)
Definition keyed_serving (d : dialect) (name b a : string) (ks : list key) : world :=
  mkWorld true true name (sources b a) (fun _ _ => true) "" (fun _ => true) (fun _ => true)
    (fun past q => snd (keyed_answer ks d q (keyed_now ks d past (catalogue d (schema d b))))) (fun _ => true) id_sort no_text.
Definition keys_of (d : dialect) (b a : string) : list key := match diff_of d (schema d b) (schema d a) with DOk l => reachable d (schema d b) l | _ => [] end.
Example C85_apply_run : exists tr, apply_command (keyed_serving Pg "postgres" nk_before PropsNewIndex.ni_after (keys_of Pg nk_before PropsNewIndex.ni_after)) ["db"; "new"]%string = (tr, Done) /\ map snd (sent tr) = [None; None].
Proof. eexists. split; [vm_compute; reflexivity|]. vm_compute. reflexivity. Qed.
Example C85_apply_conditions : let b := schema Pg nk_before in let a := schema Pg PropsNewIndex.ni_after in
  (printable Pg b && printable Pg a && index_names_ok Pg b && index_names_ok Pg a && reconcilable Pg b a && text_ok Pg b a && in_order Pg b a && keys_in_time Pg b a)%bool = true
  /\ match diff_of Pg b a with DOk l => forallb (fun s => arrives Pg (text Pg s) && comment_arrives Pg (comment_of s))%bool l | _ => false end = true.
Proof. split; vm_compute; reflexivity. Qed.
Example C85_apply_world : working (keyed_serving Pg "postgres" nk_before PropsNewIndex.ni_after (keys_of Pg nk_before PropsNewIndex.ni_after))
  /\ approved (keyed_serving Pg "postgres" nk_before PropsNewIndex.ni_after (keys_of Pg nk_before PropsNewIndex.ni_after)).
Proof. split; [repeat split|left; reflexivity]. Qed.

(** Without the condition on the keys apply fails: the unique index comes after the table that
    refers to it.  The table is refused, the index is made, and in the second round the table is
    made and the index is refused because it is there. *)
Theorem C85_apply_index_at_the_end_refuted : exists b a ks tr, let w := keyed_serving Pg "postgres" b a ks in
  working w /\ approved w /\ ks = keys_of Pg b a
  /\ reconcilable Pg (schema Pg b) (schema Pg a) = true /\ text_ok Pg (schema Pg b) (schema Pg a) = true /\ in_order Pg (schema Pg b) (schema Pg a) = true
  /\ apply_command w ["db"; "new"]%string = (tr, Failed).
Proof.
  exists ei_before, ei_after, (keys_of Pg ei_before ei_after). eexists. cbv zeta. split; [repeat split|]. split; [left; reflexivity|]. split; [reflexivity|].
  split; [vm_compute; reflexivity|]. split; [vm_compute; reflexivity|]. split; [vm_compute; reflexivity|]. vm_compute. reflexivity.
Qed.
Print Assumptions C85_apply_index_at_the_end_refuted.
Example C85_apply_rounds : firstn 4 (map snd (sent (fst (apply_command (keyed_serving Pg "postgres" ei_before ei_after (keys_of Pg ei_before ei_after)) ["db"; "new"]%string))))
  = [Some exec_error; None; None; Some exec_error].
Proof. vm_compute. reflexivity. Qed.
(** And yet the wanted catalogue is reached: what fails in the end is to make the index again. *)
Example C85_apply_reached : let ks := keys_of Pg ei_before ei_after in let w := keyed_serving Pg "postgres" ei_before ei_after ks in
  forallb (fun k => same (option_dec value_dec) (keyed_now ks Pg (fst (apply_command w ["db"; "new"]%string)) (catalogue Pg (schema Pg ei_before)) k) (catalogue Pg (schema Pg ei_after) k)) ks = true.
Proof. vm_compute. reflexivity. Qed.
