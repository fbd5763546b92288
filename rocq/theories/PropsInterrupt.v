(** Properties of an interrupted apply: C68. *)
From Coq Require Import Lia Permutation.
From Verif Require Import GoStr Token Lexer Ast Parser Diff Db DbFacts AppendFacts Tidy TidyFacts DiffSame Reconcile ReconcileFacts DiffSpec Justified Frame InterruptFacts.
From Verif Require Import Apply ApplySpec ApplyFacts Intact Printable PrintDdl SqlRead ReadFacts ReadDiff SqlDb SqlDbFacts PropsDiff PropsRead PropsWhole.
Local Open Scope list_scope.

(** * C68: an apply that is interrupted leaves a sound database *)

(** The databases between two statements of a difference.  What the target leaves alone is in
    place all the time, not only at the end. *)
Theorem C68_between_statements : forall d srt sdiff before after mb ma done todo,
  srt_ok srt -> describes d before mb -> describes d after ma ->
  reconcilable d before after = true -> text_ok d before after = true -> (d = Sp -> same_option_order before after = true) ->
  diff d srt sdiff (Some before) (Some after) = DOk (done ++ todo) ->
  exists m, exec_all d done mb = Some m
    (* a table that does not change, with all that belongs to it *)
    /\ (forall t, (forall k, owner k = Some t -> mb k = ma k) -> forall k, owner k = Some t -> m k = mb k)
    (* an index that does not change *)
    /\ (forall i, mb (KIdx i) = ma (KIdx i) -> m (KIdx i) = mb (KIdx i))
    (* a table, and a column, that is there before and after *)
    /\ (forall t, mb (KTab t) <> None -> ma (KTab t) <> None -> ~ recreated d before after t -> m (KTab t) <> None)
    /\ (forall t c, mb (KCol t c) <> None -> ma (KCol t c) <> None -> ~ recreated d before after t -> m (KCol t c) <> None).
Proof.
  intros d srt sdiff before after mb ma p r Hs DB DA Rc To Or E.
  pose proof (diff_reconciles d srt sdiff before after mb ma Hs DB DA Rc To) as D. rewrite E in D. destruct D as [mf [XF Eq]].
  assert (TT : tidy d before = true /\ tidy d after = true /\ same_style d before after = true).
  { unfold reconcilable in Rc. rewrite !andb_true_iff in Rc. destruct Rc as [[[[[[[[T1 T2] T3] _] _] _] _] _] _]. repeat split; assumption. }
  destruct TT as [TB [TA St]].
  assert (X : exists m, exec_all d p mb = Some m).
  { rewrite exec_all_app in XF. destruct (exec_all d p mb) as [m|]; [exists m; reflexivity|discriminate XF]. }
  destruct X as [m X]. exists m. split; [exact X|]. split; [|split; [|split]].
  - intros t U k O. exact (between_frame d srt sdiff before after mb ma _ Hs DB DA TB TA E St Or t U p r m eq_refl X k O).
  - intros i U. exact (between_index d srt sdiff before after mb ma _ Hs DB DA TB TA E St Or i mf U XF (Eq _) p r m eq_refl X).
  - intros t P1 P2 NR F. pose proof (between_kept d srt sdiff before after mb ma _ Hs DB DA TB TA E (KTab t) t eq_refl P1 P2 NR (or_introl eq_refl) p r m eq_refl X) as G.
    rewrite F in G. exact G.
  - intros t c P1 P2 NR F. pose proof (between_kept d srt sdiff before after mb ma _ Hs DB DA TB TA E (KCol t c) t eq_refl P1 P2 NR (or_intror (ex_intro _ c eq_refl)) p r m eq_refl X) as G.
    rewrite F in G. exact G.
Qed.
Print Assumptions C68_between_statements.

(** ** The states of the server in a run *)
Lemma sent_prefix : forall a b, exists j, sent a = firstn j (sent (a ++ b)).
Proof.
  intros a b. exists (List.length (sent a)). rewrite sent_app, firstn_app, Nat.sub_diag, firstn_all. cbn [firstn]. rewrite app_nil_r. reflexivity.
Qed.
Lemma firstn_parts : forall A j (l : list A), exists r, l = firstn j l ++ r.
Proof. intros A j l. exists (skipn j l). symmetry. apply firstn_skipn. Qed.

Section Sent.
Variable d : dialect.
Lemma texts_plain : forall stmts qs m j, d <> Sp -> Forall2 (text_of d) stmts qs -> (forall s, In s stmts -> says d s) ->
  exec_all d stmts m <> None -> exists m', exec_all d (firstn j stmts) m = Some m' /\ after_texts d (firstn j qs) (mkServer m None) = mkServer m' None.
Proof.
  induction stmts as [|s stmts IH]; intros qs m j D F R X; inversion F; subst; destruct j; cbn [firstn exec_all after_texts] in *; try (exists m; split; reflexivity).
  destruct (exec d s m) as [m1|] eqn:X1; [|contradiction].
  assert (Y : answer d y (mkServer m None) = (mkServer m1 None, None)).
  { unfold answer. rewrite (says_read d s y (R s (or_introl eq_refl)) H1). unfold execute. cbn [sv_db]. rewrite exec_uncommented, X1. destruct d; try reflexivity. contradiction D. reflexivity. }
  rewrite Y. cbn [fst]. exact (IH l' m1 j D H3 (fun x Hx => R x (or_intror Hx)) X).
Qed.
Lemma texts_batch : forall stmts qs m k, d = Sp -> Forall2 (text_of d) stmts qs -> (forall s, In s stmts -> says d s) ->
  after_texts d qs (mkServer m (Some k)) = mkServer m (Some (k ++ map uncommented stmts)).
Proof.
  induction stmts as [|s stmts IH]; intros qs m k D F R; inversion F; subst qs; cbn [after_texts map]; [rewrite app_nil_r; reflexivity|].
  pose proof (says_read d s y (R s (or_introl eq_refl)) H1) as RD.
  assert (Y : answer d y (mkServer m (Some k)) = (mkServer m (Some (k ++ [uncommented s])), None)).
  { unfold answer. rewrite D in RD. rewrite D.
    destruct (String.eqb y "START BATCH DDL") eqn:Z1; [apply String.eqb_eq in Z1; subst y; vm_compute in RD; discriminate RD|].
    destruct (String.eqb y "RUN BATCH") eqn:Z2; [apply String.eqb_eq in Z2; subst y; vm_compute in RD; discriminate RD|]. rewrite RD. reflexivity. }
  rewrite Y. cbn [fst]. rewrite (IH l' m _ D H3 (fun x Hx => R x (or_intror Hx))). rewrite <- app_assoc. reflexivity.
Qed.
End Sent.

(** What the server has executed when the run breaks off: a part of the statements from the
    beginning; with Spanner none of them or all. *)
Theorem C68_states_partial : forall w dsn src d s1 s2 before after m0 ma,
  working w -> approved w -> dialect_of (w_dialect w) = Some d -> srt_ok (w_srt w) ->
  w_resolve w dsn = Some s1 -> w_resolve w src = Some s2 ->
  parse d (w_srt w) s1 = Ok before -> parse d (w_srt w) s2 = Ok after -> served d m0 w ->
  convertible d (w_srt w) (w_sdiff w) before after m0 ma ->
  forall seen rest, fst (apply_command w [dsn; src]) = seen ++ rest ->
  match diff d (w_srt w) (w_sdiff w) (Some before) (Some after) with
  | DOk stmts => exists done todo, stmts = done ++ todo /\ exec_all d done m0 = Some (sv_db (after_events d seen m0))
                  /\ (d = Sp -> done = [] \/ todo = [])
  | _ => sv_db (after_events d seen m0) = m0
  end.
Proof.
  intros w dsn src d s1 s2 before after m0 ma Ww Wa Hd Hs R1 R2 P1 P2 S [Db Da Rc To Pb Pa Nb Na Cl] p r L.
  pose proof (diff_reconciles d (w_srt w) (w_sdiff w) before after m0 ma Hs Db Da Rc To) as D.
  destruct (diff d (w_srt w) (w_sdiff w) (Some before) (Some after)) as [stmts| | |] eqn:E; try contradiction.
  - destruct D as [m [X1 X2]]. specialize (Cl stmts eq_refl).
    assert (F : Forall2 (text_of d) stmts (map (text d) stmts)).
    { clear. induction stmts as [|s l IH]; constructor; [apply text_ends|exact IH]. }
    assert (C : forallb (arrives d) (map (text d) stmts) = true /\ forallb (fun s => comment_arrives d (comment_of s)) stmts = true).
    { rewrite !forallb_forall in *. split; [intros q Hq; apply in_map_iff in Hq; destruct Hq as [s [Es Hq]]; subst q|intros s Hq]; specialize (Cl s Hq); apply andb_true_iff in Cl; apply Cl. }
    pose proof (fun s Hl => diff_says d (w_srt w) (w_sdiff w) Hs before after Pb Pa Nb Na stmts s E Hl) as Sy.
    destruct (apply_served w dsn src d s1 s2 before after m0 stmts (map (text d) stmts) m Ww Wa Hd R1 R2 P1 P2 S E Sy F (proj1 C) (proj2 C) X1) as [tr [T1 [T2 T3]]].
    rewrite T1 in L. cbn [fst] in L. destruct (sent_prefix p r) as [j J]. rewrite <- L, T2 in J.
    assert (A : after_events d p m0 = after_texts d (firstn j (texts_sent d (map (text d) stmts))) (mkServer m0 None)).
    { unfold after_events. rewrite J, <- firstn_map, map_map. cbn [fst]. rewrite map_id. reflexivity. }
    rewrite A. assert (Y : d = Sp \/ d <> Sp) by (destruct d; [right|right|right|left]; congruence). destruct Y as [Y|N].
    + unfold texts_sent. rewrite Y. rewrite <- Y. destruct j as [|j]; cbn [firstn]; [exists [], stmts; split; [reflexivity|]; split; [reflexivity|intros _; left; reflexivity]|].
      cbn [after_texts]. replace (fst (answer d "START BATCH DDL" (mkServer m0 None))) with (mkServer m0 (Some [])) by (rewrite Y; reflexivity).
      destruct (Nat.le_gt_cases j (List.length (map (text d) stmts))) as [Le|Gt].
      * rewrite firstn_app. replace (j - List.length (map (text d) stmts))%nat with O by lia. cbn [firstn]. rewrite app_nil_r, firstn_map.
        assert (Fj : Forall2 (text_of d) (firstn j stmts) (map (text d) (firstn j stmts))) by (clear; revert j; induction stmts; intro j; destruct j; cbn; constructor; auto using text_ends).
        rewrite (texts_batch d _ _ m0 [] Y Fj). 2:{ intros s Hx. apply Sy. rewrite <- (firstn_skipn j stmts). apply in_or_app. left. exact Hx. }
        exists [], stmts. split; [reflexivity|]. split; [reflexivity|intros _; left; reflexivity].
      * rewrite firstn_all2 by (rewrite app_length; cbn [List.length]; lia). rewrite after_texts_app, (texts_batch d stmts _ m0 [] Y F Sy). cbn [List.app after_texts].
        replace (answer d "RUN BATCH" (mkServer m0 (Some (map uncommented stmts)))) with (execute_batch d (map uncommented stmts) m0) by (rewrite Y; reflexivity).
        rewrite (batch_all d stmts m0 m X1). exists stmts, []. rewrite app_nil_r. split; [reflexivity|]. split; [exact X1|intros _; right; reflexivity].
    + assert (Q : texts_sent d (map (text d) stmts) = map (text d) stmts) by (unfold texts_sent; destruct d; congruence). rewrite Q.
      destruct (texts_plain d stmts (map (text d) stmts) m0 j N F Sy) as [m' [M1 M2]]; [rewrite X1; discriminate|].
      exists (firstn j stmts), (skipn j stmts). split; [symmetry; apply firstn_skipn|]. split; [rewrite M2; exact M1|]. intro Y. contradiction.
  - assert (Z : fst (apply_command w [dsn; src]) = [EPrint no_difference_message]).
    { unfold apply_command. destruct Ww as [Wl _]. rewrite Wl. cbn [negb]. unfold diff_text. rewrite R1, R2, Hd, P1, P2, E. reflexivity. }
    rewrite Z in L. destruct p as [|e p]; [reflexivity|]. inversion L as [[L1 L2]]. destruct p; [|discriminate L2]. reflexivity.
Qed.
Print Assumptions C68_states_partial.

(** So the database is sound whenever the run is interrupted: the tables and indexes that do not
    change are as before, and no table and no column that is there before and after is missing. *)
Theorem C68_interrupted_partial : forall w dsn src d s1 s2 before after m0 ma,
  working w -> approved w -> dialect_of (w_dialect w) = Some d -> srt_ok (w_srt w) ->
  w_resolve w dsn = Some s1 -> w_resolve w src = Some s2 ->
  parse d (w_srt w) s1 = Ok before -> parse d (w_srt w) s2 = Ok after -> served d m0 w ->
  convertible d (w_srt w) (w_sdiff w) before after m0 ma ->
  forall seen rest, fst (apply_command w [dsn; src]) = seen ++ rest ->
  let m := sv_db (after_events d seen m0) in
  (forall t, (forall k, owner k = Some t -> m0 k = ma k) -> forall k, owner k = Some t -> m k = m0 k)
  /\ (forall i, m0 (KIdx i) = ma (KIdx i) -> m (KIdx i) = m0 (KIdx i))
  /\ (forall t, m0 (KTab t) <> None -> ma (KTab t) <> None -> m (KTab t) <> None)
  /\ (forall t c, m0 (KCol t c) <> None -> ma (KCol t c) <> None -> m (KCol t c) <> None)
  /\ (d = Sp -> db_eq m m0 \/ db_eq m ma).
Proof.
  intros w dsn src d s1 s2 before after m0 ma Ww Wa Hd Hs R1 R2 P1 P2 S Cv p r L m.
  pose proof (C68_states_partial w dsn src d s1 s2 before after m0 ma Ww Wa Hd Hs R1 R2 P1 P2 S Cv p r L) as St. fold m in St. clearbody m.
  destruct Cv as [Db Da Rc To Pb Pa Nb Na Cl].
  pose proof (diff_reconciles d (w_srt w) (w_sdiff w) before after m0 ma Hs Db Da Rc To) as D.
  destruct (diff d (w_srt w) (w_sdiff w) (Some before) (Some after)) as [stmts| | |] eqn:E; try contradiction.
  2: { subst m. do 4 (split; [intros; auto|]). intros _. left. intro k. reflexivity. }
  destruct St as [done [todo [Es [X A]]]]. subst stmts. destruct D as [mf [XF Eq]].
  assert (Y : d = Sp \/ d <> Sp) by (destruct d; [right|right|right|left]; congruence). destruct Y as [Y|N].
  - assert (B : db_eq m m0 \/ db_eq m ma).
    { destruct (A Y) as [Z|Z]; subst; [left; cbn in X; inversion X; intro k; reflexivity|right]. rewrite app_nil_r in XF. rewrite X in XF. inversion XF. subst. exact Eq. }
    destruct B as [B|B]; (split; [|split; [|split; [|split]]]).
    1,2,3,4: intros; rewrite B; auto. 1: intros _; left; exact B.
    + intros t U k O. rewrite B. symmetry. apply U. exact O.
    + intros i U. rewrite B. symmetry. exact U.
    + intros t _ F. rewrite B. exact F.
    + intros t c _ F. rewrite B. exact F.
    + intros _. right. exact B.
  - assert (NR : forall t, ~ recreated d before after t) by (intros t [F _]; contradiction).
    destruct (C68_between_statements d (w_srt w) (w_sdiff w) before after m0 ma done todo Hs Db Da Rc To (fun F => False_ind _ (N F)) E) as [m' [X' [B1 [B2 [B3 B4]]]]].
    rewrite X in X'. inversion X'; subst m'. split; [exact B1|]. split; [exact B2|]. split; [intros t F G; apply B3; auto|]. split; [intros t c F G; apply B4; auto|]. intro F. contradiction.
Qed.
Print Assumptions C68_interrupted_partial.

(** The hypotheses hold for a pair of texts that are [appliable] (C48). *)
Corollary C68_serving : forall d name b a seen rest, dialect_of name = Some d -> appliable d b a = true ->
  fst (apply_command (serving d name b a) ["db"; "new"]%string) = seen ++ rest ->
  let m0 := catalogue d (schema d b) in let ma := catalogue d (schema d a) in let m := sv_db (after_events d seen m0) in
  (forall t, (forall k, owner k = Some t -> m0 k = ma k) -> forall k, owner k = Some t -> m k = m0 k)
  /\ (forall i, m0 (KIdx i) = ma (KIdx i) -> m (KIdx i) = m0 (KIdx i))
  /\ (forall t, m0 (KTab t) <> None -> ma (KTab t) <> None -> m (KTab t) <> None)
  /\ (forall t c, m0 (KCol t c) <> None -> ma (KCol t c) <> None -> m (KCol t c) <> None)
  /\ (d = Sp -> db_eq m m0 \/ db_eq m ma).
Proof.
  intros d name b a seen rest Hd H L. unfold appliable, fits, sayable in H.
  repeat match goal with K : _ && _ = true |- _ => apply andb_true_iff in K; let L := fresh "L" in destruct K as [K L] end.
  apply (C68_interrupted_partial (serving d name b a) "db" "new" d b a (schema d b) (schema d a) _ _) with (rest := rest); try assumption; try reflexivity.
  - repeat split.
  - left. reflexivity.
  - apply id_sort_ok.
  - apply accepted_parse. assumption.
  - apply accepted_parse. assumption.
  - apply serving_served.
  - constructor; try assumption; try (apply described_ok; assumption). intros stmts D. cbn [serving w_srt w_sdiff] in D.
    match goal with K : clean_texts _ _ _ = true |- _ => unfold clean_texts, diff_of in K; rewrite D in K; exact K end.
Qed.
Print Assumptions C68_serving.

(** The run of C12's example breaks off behind the n-th statement that is sent. *)
Fixpoint break (n : nat) (tr : list event) : list event :=
  match tr, n with
  | [], _ | _, O => []
  | EExec q o :: r, S n => EExec q o :: break n r
  | e :: r, S _ => e :: break n r
  end.
Lemma break_prefix : forall tr n, exists rest, tr = break n tr ++ rest.
Proof.
  induction tr as [|e tr IH]; intro n; [exists []; reflexivity|]. destruct n as [|n]; [exists (e :: tr); destruct e; reflexivity|].
  destruct e; [destruct (IH (S n)) as [r H]|destruct (IH (S n)) as [r H]|destruct (IH (S n)) as [r H]|destruct (IH n) as [r H]]; exists r; cbn [break List.app]; rewrite <- H; reflexivity.
Qed.
Definition broken (n : nat) (d : dialect) (name b a : string) : db :=
  sv_db (after_events d (break n (fst (apply_command (serving d name b a) ["db"; "new"]%string))) (catalogue d (schema d b))).
Definition pg_kept : string := "CREATE TABLE t (a INTEGER NOT NULL, b TEXT, CONSTRAINT pk PRIMARY KEY (a)); CREATE TABLE u (x INTEGER); CREATE INDEX i ON t (b); CREATE INDEX j ON t (a);".
Definition pg_changed : string := "CREATE TABLE t (a BIGINT NOT NULL, c TEXT, b TEXT, CONSTRAINT pk PRIMARY KEY (a)); CREATE TABLE u (x INTEGER); CREATE UNIQUE INDEX i ON t (b); CREATE INDEX j ON t (a);".
Example C68_example : appliable Pg pg_kept pg_changed = true /\ texts Pg pg_kept pg_changed =
  ["ALTER TABLE t ALTER COLUMN a SET DATA TYPE BIGINT"; "ALTER TABLE t ADD COLUMN c TEXT"; "DROP INDEX i"; "CREATE UNIQUE INDEX i ON t (b)"]%string
  /\ map (fun n => (present (broken n Pg "postgres" pg_kept pg_changed (KCol "t" "c")), present (broken n Pg "postgres" pg_kept pg_changed (KIdx "i")), present (broken n Pg "postgres" pg_kept pg_changed (KIdx "j"))))
       [0; 1; 2; 3; 4]%nat = [(false, true, true); (false, true, true); (true, true, true); (true, false, true); (true, true, true)].
Proof. split; [|split]; vm_compute; reflexivity. Qed.

(** What changes is not always there: an index that is the same but for its uniqueness, and the
    primary key, are missing when the run breaks off. *)
Definition missing_between (d : dialect) (name b a : string) (k : key) : Prop :=
  dialect_of name = Some d /\ appliable d b a = true /\ catalogue d (schema d b) k <> None /\ catalogue d (schema d a) k <> None
  /\ exists seen rest, fst (apply_command (serving d name b a) ["db"; "new"]%string) = seen ++ rest /\ sv_db (after_events d seen (catalogue d (schema d b))) k = None.
Theorem C68_changed_index_missing_refuted : exists b a k, missing_between Pg "postgres" b a k.
Proof.
  exists pg_kept, pg_changed, (KIdx "i"). split; [reflexivity|]. split; [vm_compute; reflexivity|]. split; [vm_compute; discriminate|]. split; [vm_compute; discriminate|].
  destruct (break_prefix (fst (apply_command (serving Pg "postgres" pg_kept pg_changed) ["db"; "new"]%string)) 3) as [r H].
  exists (break 3 (fst (apply_command (serving Pg "postgres" pg_kept pg_changed) ["db"; "new"]%string))), r. split; [exact H|]. vm_compute. reflexivity.
Qed.
Print Assumptions C68_changed_index_missing_refuted.
Definition pg_key : string := "CREATE TABLE t (a INTEGER NOT NULL, b INTEGER NOT NULL, CONSTRAINT pk PRIMARY KEY (a));".
Definition pg_keys : string := "CREATE TABLE t (a INTEGER NOT NULL, b INTEGER NOT NULL, CONSTRAINT pk PRIMARY KEY (a, b));".
Theorem C68_changed_key_missing_refuted : exists b a k, missing_between Pg "postgres" b a k.
Proof.
  exists pg_key, pg_keys, (KCon "t" "pk"). split; [reflexivity|]. split; [vm_compute; reflexivity|]. split; [vm_compute; discriminate|]. split; [vm_compute; discriminate|].
  destruct (break_prefix (fst (apply_command (serving Pg "postgres" pg_key pg_keys) ["db"; "new"]%string)) 1) as [r H].
  exists (break 1 (fst (apply_command (serving Pg "postgres" pg_key pg_keys) ["db"; "new"]%string))), r. split; [exact H|]. vm_compute. reflexivity.
Qed.
Print Assumptions C68_changed_key_missing_refuted.
(** Spanner: the statements of a re-created table, one by one (a batch hides them). *)
Definition sp_one : string := "CREATE TABLE t (a INT64 NOT NULL, b INT64) PRIMARY KEY (a);".
Definition sp_two : string := "CREATE TABLE t (a INT64 NOT NULL, b INT64) PRIMARY KEY (b);".
Theorem C68_recreated_table_missing_refuted : exists b a done todo m, fits Sp b a = true
  /\ diff_of Sp (schema Sp b) (schema Sp a) = DOk (done ++ todo) /\ exec_all Sp done (catalogue Sp (schema Sp b)) = Some m
  /\ catalogue Sp (schema Sp b) (KTab "t") <> None /\ catalogue Sp (schema Sp a) (KTab "t") <> None /\ m (KTab "t") = None.
Proof.
  exists sp_one, sp_two. destruct (diff_of Sp (schema Sp sp_one) (schema Sp sp_two)) as [[|s l]| | |] eqn:E; try (vm_compute in E; discriminate E).
  exists [s], l. cbn [exec_all]. vm_compute in E. inversion E; subst s l. eexists. split; [vm_compute; reflexivity|]. split; [reflexivity|]. split; [vm_compute; reflexivity|].
  split; [vm_compute; discriminate|]. split; [vm_compute; discriminate|]. vm_compute. reflexivity.
Qed.
Print Assumptions C68_recreated_table_missing_refuted.
