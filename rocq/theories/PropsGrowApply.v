(** C76 for apply: what is sent when a schema grows or shrinks. *)
From Verif Require Import InPlaceFacts GoStr Token Lexer Ast Parser Diff Db AppendFacts Tidy Reconcile InPlace SqlRead SqlDb Apply ApplySpec ApplyFacts Plain Printable
  PropsDiff PropsApply PropsRead PropsWhole PropsInterrupt PropsPlain PropsInPlace.
Local Open Scope list_scope.

(** A text that starts or ends Spanner's batch. *)
Definition batch_word (t : string) : Prop := t = "START BATCH DDL"%string \/ t = "RUN BATCH"%string.

Lemma sent_texts : forall w dsn src d s1 s2 before after tr o t, dialect_of (w_dialect w) = Some d -> srt_ok (w_srt w) -> modest (w_sdiff w) ->
  w_resolve w dsn = Some s1 -> w_resolve w src = Some s2 -> parse d (w_srt w) s1 = Ok before -> parse d (w_srt w) s2 = Ok after ->
  plain_schema before = true -> plain_schema after = true -> apply_command w [dsn; src] = (tr, o) -> In t (map fst (sent tr)) ->
  (d = Sp /\ batch_word t) \/ exists stmts s, diff d (w_srt w) (w_sdiff w) (Some before) (Some after) = DOk stmts /\ In s stmts /\ t = text d s.
Proof.
  intros w dsn src d s1 s2 before after tr o t Hd Hs Hm R1 R2 P1 P2 Lb La H I.
  assert (N : sent tr <> []) by (intro N; rewrite N in I; exact I).
  destruct (C69_sent_is_displayed w dsn src d s1 s2 before after tr o Hd Hs Hm R1 R2 P1 P2 Lb La H N) as [stmts [rest [E [_ Q]]]].
  assert (X : (exists k, map fst (sent tr) = List.concat (repeat (map (text d) stmts) k))
              \/ (d = Sp /\ exists m, map fst (sent tr) = firstn m ("START BATCH DDL"%string :: map (text d) stmts ++ ["RUN BATCH"%string]))).
  { clear - Q. destruct d; [left|left|left|right; split; [reflexivity|]]; exact Q. }
  destruct X as [[k X]|[D [m X]]]; rewrite X in I.
  - right. exists stmts. apply in_concat in I. destruct I as [l [Il It]]. apply repeat_spec in Il. subst l. apply in_map_iff in It. destruct It as [s [Es Is]].
    exists s. split; [exact E|]. split; [exact Is|symmetry; exact Es].
  - assert (J : In t ("START BATCH DDL"%string :: map (text d) stmts ++ ["RUN BATCH"%string])).
    { rewrite <- (firstn_skipn m _). apply in_or_app. left. exact I. }
    cbn [In] in J. destruct J as [J|J]; [left; split; [exact D|left; symmetry; exact J]|]. apply in_app_or in J. destruct J as [J|[J|[]]].
    + right. exists stmts. apply in_map_iff in J. destruct J as [s [Es Is]]. exists s. split; [exact E|]. split; [exact Is|symmetry; exact Es].
    + left. split; [exact D|right; symmetry; exact J].
Qed.

(** Whatever the server answers and however often a statement is tried again: if the schema
    that is applied has everything the database is said to have, every text that is sent is
    the text of a statement that only adds. *)
Theorem C76_apply_sends_additions : forall w dsn src d s1 s2 before after mb ma tr o t,
  dialect_of (w_dialect w) = Some d -> srt_ok (w_srt w) -> modest (w_sdiff w) ->
  w_resolve w dsn = Some s1 -> w_resolve w src = Some s2 -> parse d (w_srt w) s1 = Ok before -> parse d (w_srt w) s2 = Ok after ->
  plain_schema before = true -> plain_schema after = true ->
  describes d before mb -> describes d after ma -> tidy d before = true -> tidy d after = true ->
  same_style d before after = true -> (d = Sp -> same_option_order before after = true) -> part_of mb ma ->
  apply_command w [dsn; src] = (tr, o) -> In t (map fst (sent tr)) ->
  (d = Sp /\ batch_word t) \/ exists s, t = text d s /\ only_adds s = true.
Proof.
  intros w dsn src d s1 s2 before after mb ma tr o t Hd Hs Hm R1 R2 P1 P2 Lb La DB DA TB TA Sty O W H I.
  destruct (sent_texts w dsn src d s1 s2 before after tr o t Hd Hs Hm R1 R2 P1 P2 Lb La H I) as [X|[stmts [s [E [Is Et]]]]]; [left; exact X|right].
  exists s. split; [exact Et|]. apply (C76_growing_only_adds d (w_srt w) (w_sdiff w) before after mb ma stmts s); assumption.
Qed.
Print Assumptions C76_apply_sends_additions.

Theorem C76_apply_sends_removals : forall w dsn src d s1 s2 before after mb ma tr o t,
  dialect_of (w_dialect w) = Some d -> srt_ok (w_srt w) -> modest (w_sdiff w) ->
  w_resolve w dsn = Some s1 -> w_resolve w src = Some s2 -> parse d (w_srt w) s1 = Ok before -> parse d (w_srt w) s2 = Ok after ->
  plain_schema before = true -> plain_schema after = true ->
  describes d before mb -> describes d after ma -> tidy d before = true -> tidy d after = true ->
  same_style d before after = true -> (d = Sp -> same_option_order before after = true) -> part_of ma mb ->
  apply_command w [dsn; src] = (tr, o) -> In t (map fst (sent tr)) ->
  (d = Sp /\ batch_word t) \/ exists s, t = text d s /\ only_removes s = true.
Proof.
  intros w dsn src d s1 s2 before after mb ma tr o t Hd Hs Hm R1 R2 P1 P2 Lb La DB DA TB TA Sty O W H I.
  destruct (sent_texts w dsn src d s1 s2 before after tr o t Hd Hs Hm R1 R2 P1 P2 Lb La H I) as [X|[stmts [s [E [Is Et]]]]]; [left; exact X|right].
  exists s. split; [exact Et|]. apply (C76_shrinking_only_removes d (w_srt w) (w_sdiff w) before after mb ma stmts s); assumption.
Qed.
Print Assumptions C76_apply_sends_removals.

(** Wherever an approved run that grows a database is cut off: everything that was there is
    there, as it was. *)
Theorem C76_apply_loses_nothing : forall w dsn src d s1 s2 before after m0 ma,
  working w -> approved w -> dialect_of (w_dialect w) = Some d -> srt_ok (w_srt w) ->
  w_resolve w dsn = Some s1 -> w_resolve w src = Some s2 ->
  parse d (w_srt w) s1 = Ok before -> parse d (w_srt w) s2 = Ok after -> served d m0 w ->
  convertible d (w_srt w) (w_sdiff w) before after m0 ma -> (d = Sp -> same_option_order before after = true) -> part_of m0 ma ->
  forall seen rest, fst (apply_command w [dsn; src]) = seen ++ rest -> part_of m0 (sv_db (after_events d seen m0)).
Proof.
  intros w dsn src d s1 s2 before after m0 ma Ww Wa Hd Hs R1 R2 P1 P2 S Cv O W seen rest L.
  pose proof (C68_states_partial w dsn src d s1 s2 before after m0 ma Ww Wa Hd Hs R1 R2 P1 P2 S Cv seen rest L) as St.
  destruct Cv as [Db Da Rc To Pb Pa Nb Na Cl]. unfold reconcilable in Rc. rewrite !andb_true_iff in Rc.
  destruct Rc as [[[[[[[[TB TA] Sty] _] _] _] _] _] _].
  destruct (diff d (w_srt w) (w_sdiff w) (Some before) (Some after)) as [stmts| | |] eqn:E; try (rewrite St; intros k v V; exact V).
  destruct St as [done [todo [Es [X _]]]].
  exact (C76_growing_keeps_everything d (w_srt w) (w_sdiff w) before after m0 ma stmts done todo _ Hs Db Da TB TA Sty O W E Es X).
Qed.
Print Assumptions C76_apply_loses_nothing.

(** The same for a concrete server and the tests of PropsDiff.v. *)
Corollary C76_serving : forall d name b a seen rest, dialect_of name = Some d -> appliable d b a = true ->
  part_test d (schema d b) (schema d a) = true -> (d = Sp -> same_option_order (schema d b) (schema d a) = true) ->
  fst (apply_command (serving d name b a) ["db"; "new"]%string) = seen ++ rest ->
  part_of (catalogue d (schema d b)) (sv_db (after_events d seen (catalogue d (schema d b)))).
Proof.
  intros d name b a seen rest Hd H W O L. unfold appliable, fits, sayable in H.
  repeat match goal with K : _ && _ = true |- _ => apply andb_true_iff in K; let L := fresh "L" in destruct K as [K L] end.
  apply (C76_apply_loses_nothing (serving d name b a) "db" "new" d b a (schema d b) (schema d a) _ (catalogue d (schema d a))) with (rest := rest); try assumption; try reflexivity.
  - repeat split.
  - left. reflexivity.
  - apply id_sort_ok.
  - apply accepted_parse. assumption.
  - apply accepted_parse. assumption.
  - apply serving_served.
  - constructor; try assumption; try (apply described_ok; assumption). intros stmts D. cbn [serving w_srt w_sdiff] in D.
    match goal with K : clean_texts _ _ _ = true |- _ => unfold clean_texts, diff_of in K; rewrite D in K; exact K end.
  - apply (part_test_ok d (schema d b) (schema d a)); [apply described_ok; assumption..|exact W].
Qed.
Print Assumptions C76_serving.
Definition less : string := "CREATE TABLE t (a INTEGER NOT NULL, b TEXT);".
Definition more : string := "CREATE TABLE t (a INTEGER NOT NULL, b TEXT, c TEXT, CONSTRAINT p PRIMARY KEY (a)); CREATE TABLE u (x INTEGER); CREATE INDEX i ON t (b);".
Example C76_example_apply : appliable Pg less more = true /\ part_test Pg (schema Pg less) (schema Pg more) = true
  /\ plain_schema (schema Pg less) = true /\ plain_schema (schema Pg more) = true
  /\ map fst (sent (fst (apply_command (serving Pg "postgres" less more) ["db"; "new"]%string)))
     = ["CREATE TABLE u (
    x INTEGER
)"; "CREATE INDEX i ON t (b)"; "ALTER TABLE t ADD COLUMN c TEXT"; "ALTER TABLE t ADD CONSTRAINT p PRIMARY KEY (a)"]%string.
Proof. repeat split; vm_compute; reflexivity. Qed.
