(** Property C86 for apply on Spanner: the batch is taken exactly if the tables that go are declared
    in the right order. *)
From Coq Require Import Lia Permutation.
From Verif Require Import GoStr Token Lexer LexSpec Ast Parser Diff Db DbFacts AppendFacts DiffTable DiffPair DiffSound Tidy TidyFacts DiffSame Reconcile ReconcileFacts
  Lines LinesFacts Apply ApplySpec ApplyFacts Intact IntactFacts Printable SqlRead ReadFacts ReadDiff SqlDb SqlDbFacts DbDep DepFacts DbRefuse RefuseFacts RestrictDb RestrictBatch.
From Verif Require Import PropsDiff PropsApply PropsRead PropsDep PropsRefuse PropsRestrict PropsTolerated PropsDecided.
From Verif Require Import DbFacts.
Local Open Scope list_scope.

Lemma restrict_prefix : forall ks d p q m m', restrict_all ks d (p ++ q) m = Some m' -> p <> [] -> exists m1, exec_all d p m = Some m1 /\ whole_on ks m1 = true.
Proof.
  intros ks d p. induction p as [|s p IH]; intros q m m' H N; [contradiction|]. cbn [app restrict_all] in H. unfold restrict_exec in H. cbn [exec_all].
  destruct (exec d s m) as [m1|]; [|discriminate H]. destruct (whole_on ks m1) eqn:W; [|discriminate H].
  destruct p as [|s2 p]; [exists m1; split; [reflexivity|exact W]|]. apply (IH q m1 m' H). discriminate.
Qed.
(** As [tolerated_in_order] (RefuseFacts.v), for a server that looks at some objects, among them all of
    the old catalogue. *)
Lemma restricted_in_order : forall ks d srt sdiff before after db0 dba stmts m,
  srt_ok srt -> describes d before db0 -> describes d after dba -> (forall k, db0 k <> None -> In k ks) ->
  reconcilable d before after = true -> text_ok d before after = true ->
  diff d srt sdiff (Some before) (Some after) = DOk stmts -> restrict_all ks d stmts db0 = Some m ->
  dropped_in_order d (gone before after) = true.
Proof.
  intros ks d srt sdiff B A db0 dba stmts m Hs HB HA Lk R T E Ac.
  destruct (describes_entries d B db0 HB) as [NB [VB KB]]. destruct (describes_entries d A dba HA) as [NA [VA KA]].
  destruct HB as [CB _]. destruct HA as [CA _].
  assert (OK : schemas_ok d B A) by (apply reconcilable_ok; assumption).
  cbn [diff] in E. rewrite (diff_ddl_result d srt sdiff Hs B A CB CA NB NA KB KA OK) in E.
  destruct (eqs (ddl_string d B) (ddl_string d A)); [discriminate E|].
  assert (Es : stmts = result d srt sdiff B A) by (destruct (result d srt sdiff B A); [discriminate E|congruence]). subst stmts. clear E.
  rewrite (gone_eq B A CB CA). destruct (dropped_in_order d (only_left_stmts B A)) eqn:Or; [reflexivity|]. exfalso.
  destruct (out_of_order d _ Or) as [p [t [q [x [El [Ix Rx]]]]]].
  assert (El' : only_left_stmts B A = (p ++ [CreateTable t]) ++ q) by (rewrite El, <- app_assoc; reflexivity).
  unfold result in Ac. rewrite El', map_app, <- app_assoc in Ac.
  destruct (restrict_prefix ks d _ _ _ _ Ac) as [m1 [X W]]; [destruct p; discriminate|].
  assert (Lm : forall k, m1 k = left_of d B (p ++ [CreateTable t]) k).
  { destruct (run_by_key (col_ops d (map drop1 (p ++ [CreateTable t]))) db0 (left_of d B (p ++ [CreateTable t]))) as [m2 [Hr Em]].
    { intro k. rewrite VB. exact (drops_prefix d B A CB CA NB NA OK _ _ k El'). }
    assert (Nr : forallb no_rename (map drop1 (p ++ [CreateTable t])) = true).
    { pose proof (result_no_rename d srt sdiff Hs B A CB CA NB NA KA OK) as Q. unfold result in Q. rewrite El', map_app, !forallb_app in Q. rewrite !andb_true_iff in Q. tauto. }
    pose proof (exec_all_run d _ _ _ Nr Hr) as Y. rewrite X in Y. injection Y as ->. exact Em. }
  assert (Hx : In x B /\ find_stmt x A = None) by (apply only_left_in; rewrite El'; apply in_or_app; right; exact Ix). destruct Hx as [Hx Fx].
  unfold referred in Rx. apply in_flat_map in Rx. destruct Rx as [[k v] [Io Rv]]. cbn [snd] in Rv.
  rewrite (objects_stmt d B A CB CA KB KA x (or_introl Hx)) in Io.
  pose proof (In_assoc _ _ _ (nodup_flat_stmt d B x NB Hx) Io) as Vx.
  assert (Bx : belongs d k x = true) by (apply declares_belongs, declares_assoc; rewrite Vx; reflexivity).
  assert (Vb : db0 k = Some v) by (rewrite VB, assoc_hm by assumption; rewrite (hm_in d k B x CB NB Hx Bx); exact Vx).
  assert (Vk : m1 k = Some v).
  { rewrite Lm. unfold left_of. destruct (find (belongs d k) (p ++ [CreateTable t])) as [y|] eqn:Fy; [|rewrite <- VB; exact Vb].
    exfalso. apply find_some in Fy. destruct Fy as [Iy By]. assert (Hy : In y B) by (apply (proj1 (only_left_in B A y)); rewrite El'; apply in_or_app; left; exact Iy).
    pose proof (belongs_eq d B k x y CB NB Hx Hy Bx By) as Exy. subst y.
    assert (Nd : NoDup (only_left_stmts B A)) by (apply NoDup_filter; exact (nodup_stmts d B CB NB)). rewrite El' in Nd.
    exact (nodup_app_disjoint _ _ _ x Nd Iy Ix). }
  destruct (entry_refers d x k v _ (known_create B A CB CA x (or_introl Hx)) Io Rv) as [u [y Ek]]. subst k.
  unfold whole_on in W. rewrite forallb_forall in W. assert (Ik : In (KCon u y) ks) by (apply Lk; rewrite Vb; discriminate). pose proof (W _ Ik) as I0. rewrite Vk in I0.
  rewrite intact_iff in I0. specialize (I0 _ (refers_needs u y v _ Rv)). rewrite Lm in I0. unfold left_of in I0.
  destruct (find (belongs d (KTab (table_name t))) (p ++ [CreateTable t])) as [z|] eqn:Fz; [discriminate I0|].
  assert (F : belongs d (KTab (table_name t)) (CreateTable t) = true) by (unfold belongs; cbn [owner]; apply String.eqb_refl).
  rewrite (find_none _ _ Fz (CreateTable t)) in F; [discriminate F|]. apply in_or_app. right. left. reflexivity.
Qed.

(** * The batch *)
Lemma batch_texts_app : forall ks a b v, batch_texts ks (a ++ b) v = batch_texts ks b (batch_texts ks a v).
Proof. intros ks a. induction a as [|q a IH]; intros b v; cbn [List.app batch_texts]; [reflexivity|apply IH]. Qed.
Lemma batch_events_snoc : forall ks past q o m, batch_events ks (past ++ [EExec q o]) m = fst (batch_answer ks q (batch_events ks past m)).
Proof. intros ks past q o m. unfold batch_events. rewrite sent_app, map_app, batch_texts_app. reflexivity. Qed.
Lemma batch_all : forall ks stmts m, exists v, restrict_batch ks (map uncommented stmts) m =
  match restrict_all ks Sp stmts m with Some m' => (mkServer m' None, None) | None => (v, Some exec_error) end.
Proof.
  intros ks stmts. induction stmts as [|s stmts IH]; intro m; cbn [restrict_all map restrict_batch]; [exists (mkServer m None); reflexivity|].
  rewrite restrict_uncommented. destruct (restrict_exec ks Sp s m); [apply IH|eexists; reflexivity].
Qed.

Section Served.
Variables (ks : list key) (m0 : db) (w : world).
Hypothesis W : batch_served ks m0 w.

Lemma send_taken : forall stmts qs past m k, Forall2 (text_of Sp) stmts qs -> forallb (fun q => negb (String.eqb q "")) qs = true ->
  (forall s, In s stmts -> says Sp s) -> batch_events ks past m0 = mkServer m (Some k) ->
  exists evs, send_all w (qs ++ [""%string]) past = (evs, true) /\ batch_events ks (past ++ evs) m0 = mkServer m (Some (k ++ map uncommented stmts)).
Proof.
  intro stmts. induction stmts as [|s stmts IH]; intros qs past m k F N R A; inversion F; subst qs.
  - exists []. cbn [map]. rewrite !app_nil_r. repeat split; assumption.
  - cbn [forallb] in N. apply andb_true_iff in N. destruct N as [N1 N2]. apply negb_true_iff in N1.
    pose proof (says_read Sp s y (R s (or_introl eq_refl)) H1) as RD.
    assert (Y : batch_answer ks y (batch_events ks past m0) = (mkServer m (Some (k ++ [uncommented s])), None)).
    { rewrite A. unfold batch_answer.
      destruct (String.eqb y "START BATCH DDL") eqn:Z1; [apply String.eqb_eq in Z1; subst y; vm_compute in RD; discriminate RD|].
      destruct (String.eqb y "RUN BATCH") eqn:Z2; [apply String.eqb_eq in Z2; subst y; vm_compute in RD; discriminate RD|]. rewrite RD. reflexivity. }
    assert (O : w_exec w past y = None) by (rewrite W, Y; reflexivity).
    destruct (IH l' (past ++ [EExec y None]) m (k ++ [uncommented s]) H3 N2 (fun x Hx => R x (or_intror Hx))) as [evs [I1 I3]]; [rewrite batch_events_snoc, Y; reflexivity|].
    exists (EExec y None :: evs). cbn [List.app send_all]. rewrite N1, O, I1. split; [reflexivity|].
    rewrite <- app_assoc in I3. cbn [List.app] in I3. rewrite I3. cbn [map]. rewrite <- app_assoc. reflexivity.
Qed.
(** The batch is taken exactly if the statements work one after the other. *)
Lemma batch_decided : forall stmts qs past, (forall p, w_conn w p = true) -> Forall2 (text_of Sp) stmts qs -> forallb (arrives Sp) qs = true ->
  forallb (fun s => comment_arrives Sp (comment_of s)) stmts = true -> (forall s, In s stmts -> says Sp s) -> sent past = [] ->
  exists evs, match restrict_all ks Sp stmts m0 with
    | Some m' => exec_of Sp w (ddl_string Sp stmts) past = (evs, true) /\ sv_db (batch_events ks (past ++ evs) m0) = m'
    | None => exec_of Sp w (ddl_string Sp stmts) past = (evs, false)
    end.
Proof.
  intros stmts qs past Hc F C K R P.
  assert (A : batch_events ks past m0 = mkServer m0 None) by (unfold batch_events; rewrite P; reflexivity).
  assert (N : forallb (fun q => negb (String.eqb q "")) qs = true) by exact (texts_not_empty _ _ _ F).
  assert (Y : cut Sp (ddl_string Sp stmts) = nonempty (qs ++ [""%string])) by (rewrite (nonempty_snoc qs N); apply (cut_arrives Sp stmts qs F); rewrite C, K; reflexivity).
  unfold exec_of, batch_exec. rewrite Hc. cbn [negb]. change (split (";" ++ nl) (drop_comment_lines (ddl_string Sp stmts))) with (split stop (drop_comment_lines (ddl_string Sp stmts))).
  assert (S1 : batch_answer ks start_batch (batch_events ks past m0) = (mkServer m0 (Some []), None)) by (rewrite A; reflexivity).
  assert (O1 : w_exec w past start_batch = None) by (rewrite W, S1; reflexivity). rewrite O1.
  assert (A1 : batch_events ks (past ++ [EExec start_batch None]) m0 = mkServer m0 (Some [])) by (rewrite batch_events_snoc, S1; reflexivity).
  destruct (send_taken stmts qs (past ++ [EExec start_batch None]) m0 [] F N R A1) as [evs [E1 E3]].
  assert (Z : nonempty (split stop (drop_comment_lines (ddl_string Sp stmts))) = nonempty (qs ++ [""%string])) by (unfold cut in Y; exact Y).
  rewrite <- send_nonempty, <- Z, send_nonempty in E1. rewrite E1. cbn [List.app] in E3.
  destruct (batch_all ks stmts m0) as [v V].
  assert (S2 : batch_answer ks run_batch (batch_events ks ((past ++ [EExec start_batch None]) ++ evs) m0) = restrict_batch ks (map uncommented stmts) m0) by (rewrite E3; reflexivity).
  rewrite V in S2. destruct (restrict_all ks Sp stmts m0) as [m'|].
  - assert (O2 : w_exec w ((past ++ [EExec start_batch None]) ++ evs) run_batch = None) by (rewrite W, S2; reflexivity). rewrite O2. eexists. split; [reflexivity|].
    replace (past ++ EExec start_batch None :: evs ++ [EExec run_batch None]) with (((past ++ [EExec start_batch None]) ++ evs) ++ [EExec run_batch None]) by (rewrite <- !app_assoc; reflexivity).
    rewrite batch_events_snoc, S2. reflexivity.
  - assert (O2 : w_exec w ((past ++ [EExec start_batch None]) ++ evs) run_batch = Some exec_error) by (rewrite W, S2; reflexivity). rewrite O2. eexists. reflexivity.
Qed.
End Served.

Theorem C86_spanner_decided_by_the_order : forall ks w dsn src s1 s2 before after mb ma stmts, working w -> approved w ->
  dialect_of (w_dialect w) = Some Sp -> srt_ok (w_srt w) ->
  w_resolve w dsn = Some s1 -> w_resolve w src = Some s2 -> parse Sp (w_srt w) s1 = Ok before -> parse Sp (w_srt w) s2 = Ok after ->
  batch_served ks mb w -> (forall k, mb k <> None -> In k ks) -> describes Sp before mb -> describes Sp after ma ->
  printable Sp before = true -> printable Sp after = true -> index_names_ok Sp before = true -> index_names_ok Sp after = true ->
  diff Sp (w_srt w) (w_sdiff w) (Some before) (Some after) = DOk stmts ->
  forallb (fun s => arrives Sp (text Sp s) && comment_arrives Sp (comment_of s)) stmts = true ->
  reconcilable Sp before after = true -> text_ok Sp before after = true -> in_order Sp before after = true ->
  ((exists tr, apply_command w [dsn; src] = (tr, Done)) <-> dropped_in_order Sp (gone before after) = true).
Proof.
  intros ks w dsn src s1 s2 before after mb ma stmts Ww Wa Hd Hs R1 R2 P1 P2 S Lk DB DA Pb Pa Nb Na E Cl Rc To Io.
  assert (F : Forall2 (text_of Sp) stmts (map (text Sp) stmts)).
  { clear. induction stmts as [|s l IH]; constructor; [apply text_ends|exact IH]. }
  assert (C : forallb (arrives Sp) (map (text Sp) stmts) = true /\ forallb (fun s => comment_arrives Sp (comment_of s)) stmts = true).
  { rewrite !forallb_forall in *. split; [intros q Hq; apply in_map_iff in Hq; destruct Hq as [s [Es Hq]]; subst q|intros s Hq]; specialize (Cl s Hq); apply andb_true_iff in Cl; apply Cl. }
  pose proof (fun s Hl => diff_says Sp (w_srt w) (w_sdiff w) Hs before after Pb Pa Nb Na stmts s E Hl) as Say.
  destruct Ww as [Wl [Wo [Wp Wc]]]. split.
  - intros [tr A]. destruct (command_cases _ _ _ _ A) as [[_ K]|[[t [_ O]]|[dsn' [src' [d' [stmts' [e2 [ok [Ea [Et [Ed [X2 [T [Q O]]]]]]]]]]]]]].
    + destruct (K eq_refl) as [x [y [Ea Et]]]. injection Ea as <- <-. unfold diff_text in Et. rewrite R1, R2, Hd, P1, P2, E in Et. discriminate Et.
    + discriminate O.
    + injection Ea as <- <-. rewrite Hd in Ed. injection Ed as <-. unfold diff_text in Et. rewrite R1, R2, Hd, P1, P2, E in Et. injection Et as Es. rewrite <- Es in *.
      destruct ok; [|discriminate O].
      match type of X2 with exec_of _ _ _ ?p = _ => destruct (batch_decided ks mb w S stmts _ p Wc F (proj1 C) (proj2 C) Say) as [evs V]; [unfold started, approval; destruct (w_auto w); reflexivity|] end.
      destruct (restrict_all ks Sp stmts mb) as [m|] eqn:X; [|rewrite V in X2; discriminate X2].
      exact (restricted_in_order ks Sp (w_srt w) (w_sdiff w) before after mb ma stmts m Hs DB DA Lk Rc To E X).
  - intro Do. pose proof (C86_nothing_needed_is_dropped_partial Sp (w_srt w) (w_sdiff w) before after mb ma Hs DB DA Rc To Io Do) as X. rewrite E in X. destruct X as [m [X1 X2]].
    apply (tolerated_all ks) in X1.
    assert (T : diff_text w dsn src = Text (ddl_string Sp stmts)) by (unfold diff_text; rewrite R1, R2, Hd, P1, P2, E; reflexivity).
    destruct (apply_command w [dsn; src]) as [tr o] eqn:A.
    pose proof A as B. unfold apply_command in B. rewrite Wl, T, Wo in B. cbn [negb] in B.
    set (ap := if w_auto w then _ else _) in B.
    assert (Xa : snd ap = true).
    { unfold ap. destruct (w_auto w) eqn:Q; [rewrite Wo; reflexivity|]. destruct Wa as [Ha|Ha]; [congruence|]. cbn [snd]. rewrite (typed_yes_line _ Ha). reflexivity. }
    rewrite Xa in B. cbn [negb] in B.
    set (t3 := (([EPrint (message (ddl_string Sp stmts))] ++ fst ap) ++ [EPrint (nl ++ "executing..." ++ nl)])) in B.
    assert (S3 : sent t3 = []) by (unfold t3, ap; destruct (w_auto w); [rewrite Wo|]; reflexivity).
    assert (S4 : sent (t3 ++ [EOpen dsn]) = []) by (rewrite sent_app, S3; reflexivity).
    destruct (batch_decided ks mb w S stmts _ (t3 ++ [EOpen dsn]) Wc F (proj1 C) (proj2 C) Say S4) as [evs V]. rewrite X1 in V. destruct V as [G _].
    assert (Z : apply w dsn (ddl_string Sp stmts) t3 = (EOpen dsn :: evs, true)).
    { destruct (apply w dsn (ddl_string Sp stmts) t3) as [e ok] eqn:Z. destruct (apply_cases _ _ _ _ _ _ _ Hd Z) as [[Q1 Q2]|[e2 [Q1 Q2]]].
      - exfalso. unfold apply in Z. rewrite Wp in Z. cbn [negb] in Z. cbv zeta in Z. match type of Z with (let (_, _) := ?x in _) = _ => destruct x end. subst e. discriminate Z.
      - rewrite G in Q2. inversion Q2; subst. reflexivity. }
    rewrite Z in B. inversion B; subst tr o. eexists. reflexivity.
Qed.
Print Assumptions C86_spanner_decided_by_the_order.

(** In the right order apply ends well and the server holds the wanted catalogue. *)
Theorem C86_spanner_apply_partial : forall ks w dsn src s1 s2 before after mb ma stmts, working w -> approved w ->
  dialect_of (w_dialect w) = Some Sp -> srt_ok (w_srt w) ->
  w_resolve w dsn = Some s1 -> w_resolve w src = Some s2 -> parse Sp (w_srt w) s1 = Ok before -> parse Sp (w_srt w) s2 = Ok after ->
  batch_served ks mb w -> describes Sp before mb -> describes Sp after ma ->
  printable Sp before = true -> printable Sp after = true -> index_names_ok Sp before = true -> index_names_ok Sp after = true ->
  diff Sp (w_srt w) (w_sdiff w) (Some before) (Some after) = DOk stmts ->
  forallb (fun s => arrives Sp (text Sp s) && comment_arrives Sp (comment_of s)) stmts = true ->
  reconcilable Sp before after = true -> text_ok Sp before after = true -> in_order Sp before after = true -> dropped_in_order Sp (gone before after) = true ->
  exists tr, apply_command w [dsn; src] = (tr, Done) /\ db_eq (sv_db (batch_events ks tr mb)) ma.
Proof.
  intros ks w dsn src s1 s2 before after mb ma stmts Ww Wa Hd Hs R1 R2 P1 P2 S DB DA Pb Pa Nb Na E Cl Rc To Io Do.
  assert (F : Forall2 (text_of Sp) stmts (map (text Sp) stmts)).
  { clear. induction stmts as [|s l IH]; constructor; [apply text_ends|exact IH]. }
  assert (C : forallb (arrives Sp) (map (text Sp) stmts) = true /\ forallb (fun s => comment_arrives Sp (comment_of s)) stmts = true).
  { rewrite !forallb_forall in *. split; [intros q Hq; apply in_map_iff in Hq; destruct Hq as [s [Es Hq]]; subst q|intros s Hq]; specialize (Cl s Hq); apply andb_true_iff in Cl; apply Cl. }
  pose proof (fun s Hl => diff_says Sp (w_srt w) (w_sdiff w) Hs before after Pb Pa Nb Na stmts s E Hl) as Say.
  destruct Ww as [Wl [Wo [Wp Wc]]].
  pose proof (C86_nothing_needed_is_dropped_partial Sp (w_srt w) (w_sdiff w) before after mb ma Hs DB DA Rc To Io Do) as X. rewrite E in X. destruct X as [m [X1 X2]].
  apply (tolerated_all ks) in X1.
  assert (T : diff_text w dsn src = Text (ddl_string Sp stmts)) by (unfold diff_text; rewrite R1, R2, Hd, P1, P2, E; reflexivity).
  destruct (apply_command w [dsn; src]) as [tr o] eqn:A.
  pose proof A as B. unfold apply_command in B. rewrite Wl, T, Wo in B. cbn [negb] in B.
  set (ap := if w_auto w then _ else _) in B.
  assert (Xa : snd ap = true).
  { unfold ap. destruct (w_auto w) eqn:Q; [rewrite Wo; reflexivity|]. destruct Wa as [Ha|Ha]; [congruence|]. cbn [snd]. rewrite (typed_yes_line _ Ha). reflexivity. }
  rewrite Xa in B. cbn [negb] in B.
  set (t3 := (([EPrint (message (ddl_string Sp stmts))] ++ fst ap) ++ [EPrint (nl ++ "executing..." ++ nl)])) in B.
  assert (S3 : sent t3 = []) by (unfold t3, ap; destruct (w_auto w); [rewrite Wo|]; reflexivity).
  assert (S4 : sent (t3 ++ [EOpen dsn]) = []) by (rewrite sent_app, S3; reflexivity).
  destruct (batch_decided ks mb w S stmts _ (t3 ++ [EOpen dsn]) Wc F (proj1 C) (proj2 C) Say S4) as [evs V]. rewrite X1 in V. destruct V as [G V].
  assert (Z : apply w dsn (ddl_string Sp stmts) t3 = (EOpen dsn :: evs, true)).
  { destruct (apply w dsn (ddl_string Sp stmts) t3) as [e ok] eqn:Z. destruct (apply_cases _ _ _ _ _ _ _ Hd Z) as [[Q1 Q2]|[e2 [Q1 Q2]]].
    - exfalso. unfold apply in Z. rewrite Wp in Z. cbn [negb] in Z. cbv zeta in Z. match type of Z with (let (_, _) := ?x in _) = _ => destruct x end. subst e. discriminate Z.
    - rewrite G in Q2. inversion Q2; subst. reflexivity. }
  rewrite Z in B. inversion B; subst tr o. eexists. split; [reflexivity|].
  match goal with |- db_eq (sv_db (batch_events _ ?t _)) _ => replace (batch_events ks t mb) with (batch_events ks ((t3 ++ [EOpen dsn]) ++ evs) mb) end.
  - rewrite V. exact X2.
  - assert (Sa : sent (fst ap) = []) by (unfold ap; destruct (w_auto w); [rewrite Wo|]; reflexivity).
    unfold batch_events. rewrite !sent_app, S3. cbn [sent List.app]. rewrite ?sent_app. cbn [sent]. rewrite ?sent_app, ?Sa. cbn [sent List.app]. rewrite ?sent_app. cbn [sent]. rewrite ?app_nil_r. reflexivity.
Qed.
Print Assumptions C86_spanner_apply_partial.

Definition sp_good : string := "CREATE TABLE v (x INT64, CONSTRAINT f FOREIGN KEY (x) REFERENCES w (a)) PRIMARY KEY (x); CREATE TABLE w (a INT64) PRIMARY KEY (a); CREATE TABLE k (z INT64) PRIMARY KEY (z);".
Definition sp_wrong : string := "CREATE TABLE w (a INT64) PRIMARY KEY (a); CREATE TABLE v (x INT64, CONSTRAINT f FOREIGN KEY (x) REFERENCES w (a)) PRIMARY KEY (x); CREATE TABLE k (z INT64) PRIMARY KEY (z);".
Definition sp_rest : string := "CREATE TABLE k (z INT64) PRIMARY KEY (z);".
Definition batch_serving (b a : string) : world :=
  mkWorld true true "spanner" (sources b a) (fun _ _ => true) "" (fun _ => true) (fun _ => true)
    (fun past q => snd (batch_answer (keys Sp (schema Sp b) ++ keys Sp (schema Sp a)) q
       (batch_events (keys Sp (schema Sp b) ++ keys Sp (schema Sp a)) past (catalogue Sp (schema Sp b))))) (fun _ => true) id_sort no_text.
Example C86_spanner_conditions : forallb (fun b => restrictable Sp b sp_rest && reconcilable Sp (schema Sp b) (schema Sp sp_rest) && text_ok Sp (schema Sp b) (schema Sp sp_rest)
    && in_order Sp (schema Sp b) (schema Sp sp_rest)) [sp_good; sp_wrong] = true
  /\ map (fun b => dropped_in_order Sp (gone (schema Sp b) (schema Sp sp_rest))) [sp_good; sp_wrong] = [true; false].
Proof. split; vm_compute; reflexivity. Qed.
Example C86_spanner_done : exists tr, apply_command (batch_serving sp_good sp_rest) ["db"; "new"]%string = (tr, Done) /\ map snd (sent tr) = [None; None; None; None].
Proof. eexists. split; [vm_compute; reflexivity|]. vm_compute. reflexivity. Qed.
Example C86_spanner_refused : exists tr, apply_command (batch_serving sp_wrong sp_rest) ["db"; "new"]%string = (tr, Failed) /\ map snd (sent tr) = [None; None; None; Some exec_error].
Proof. eexists. split; [vm_compute; reflexivity|]. vm_compute. reflexivity. Qed.
Example C86_spanner_holds_the_target : let ks := keys Sp (schema Sp sp_good) ++ keys Sp (schema Sp sp_rest) in
  let v := batch_events ks (fst (apply_command (batch_serving sp_good sp_rest) ["db"; "new"]%string)) (catalogue Sp (schema Sp sp_good)) in
  map (sv_db v) ks = map (catalogue Sp (schema Sp sp_rest)) ks /\ map (catalogue Sp (schema Sp sp_good)) ks <> map (catalogue Sp (schema Sp sp_rest)) ks.
Proof. split; vm_compute; [reflexivity|discriminate]. Qed.
