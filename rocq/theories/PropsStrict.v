(** Properties C48, C19: apply against a server that enforces dependencies, in all four dialects. *)
From Coq Require Import Lia.
From Verif Require Import GoStr Token Lexer LexSpec Ast Parser Diff Db DbFacts AppendFacts Tidy TidyFacts DiffSame Reconcile ReconcileFacts
  Lines LinesFacts Apply ApplySpec ApplyFacts Intact IntactFacts Printable SqlRead ReadFacts ReadDiff SqlDb SqlDbFacts DbDep StrictDb StrictFacts.
From Verif Require Import PropsDiff PropsApply PropsRead PropsDep.
Local Open Scope list_scope.

(** As C48_apply_reaches_target_partial (PropsRead.v), for schemas in order (DbDep.v).  Missing: as
    there, and schemas that are not in order; for these the property is false (C19, C93). *)
Theorem C48_with_dependencies_partial : forall w dsn src d s1 s2 before after m0 ma,
  working w -> approved w -> dialect_of (w_dialect w) = Some d -> srt_ok (w_srt w) ->
  w_resolve w dsn = Some s1 -> w_resolve w src = Some s2 ->
  parse d (w_srt w) s1 = Ok before -> parse d (w_srt w) s2 = Ok after ->
  strictly_served d m0 w -> describes d before m0 -> describes d after ma ->
  reconcilable d before after = true -> text_ok d before after = true -> in_order d before after = true ->
  printable d before = true -> printable d after = true -> index_names_ok d before = true -> index_names_ok d after = true ->
  (forall stmts, diff d (w_srt w) (w_sdiff w) (Some before) (Some after) = DOk stmts ->
     forallb (fun s => arrives d (text d s) && comment_arrives d (comment_of s)) stmts = true) ->
  exists tr, apply_command w [dsn; src] = (tr, Done) /\ db_eq (sv_db (strict_events d tr m0)) ma
    /\ Forall (fun p => snd p = None) (sent tr).
Proof.
  intros w dsn src d s1 s2 before after m0 ma Ww Wa Hd Hs R1 R2 P1 P2 S Db Da Rc To Io Pb Pa Nb Na Cl.
  pose proof (C19_diff_is_executable_partial d (w_srt w) (w_sdiff w) before after m0 ma Hs Db Da Rc To Io) as D. unfold executable in D.
  destruct (diff d (w_srt w) (w_sdiff w) (Some before) (Some after)) as [stmts| | |] eqn:E; try contradiction.
  - destruct D as [m [X1 X2]]. specialize (Cl stmts eq_refl).
    assert (F : Forall2 (text_of d) stmts (map (text d) stmts)).
    { clear. induction stmts as [|s l IH]; constructor; [apply text_ends|exact IH]. }
    assert (C : forallb (arrives d) (map (text d) stmts) = true /\ forallb (fun s => comment_arrives d (comment_of s)) stmts = true).
    { rewrite !forallb_forall in *. split; [intros q Hq; apply in_map_iff in Hq; destruct Hq as [s [Es Hq]]; subst q|intros s Hq]; specialize (Cl s Hq); apply andb_true_iff in Cl; apply Cl. }
    destruct (strict_apply_served w dsn src d s1 s2 before after m0 stmts (map (text d) stmts) m Ww Wa Hd R1 R2 P1 P2 S E
                (fun s Hl => diff_says d (w_srt w) (w_sdiff w) Hs before after Pb Pa Nb Na stmts s E Hl) F (proj1 C) (proj2 C) X1) as [tr [T1 [T2 T3]]].
    exists tr. split; [exact T1|]. split; [rewrite T3; exact X2|]. rewrite T2. apply Forall_forall. intros p Hp. apply in_map_iff in Hp. destruct Hp as [q [Eq _]]. subst p. reflexivity.
  - exists [EPrint no_difference_message]. destruct Ww as [Wl _]. split; [|split; [exact D|constructor]].
    unfold apply_command. rewrite Wl. cbn [negb]. unfold diff_text. rewrite R1, R2, Hd, P1, P2, E. reflexivity.
Qed.
Print Assumptions C48_with_dependencies_partial.

(** A world with such a server *)
Definition strictly_serving (d : dialect) (name b a : string) : world :=
  mkWorld true true name (sources b a) (fun _ _ => true) "" (fun _ => true) (fun _ => true)
    (fun past q => snd (strict_answer d q (strict_events d past (catalogue d (schema d b))))) (fun _ => true) id_sort no_text.
(** The hypotheses, for a pair of texts: *)
Corollary C48_strictly_serving : forall d name b a, dialect_of name = Some d -> appliable d b a = true -> in_order d (schema d b) (schema d a) = true ->
  exists tr, apply_command (strictly_serving d name b a) ["db"; "new"]%string = (tr, Done)
    /\ db_eq (sv_db (strict_events d tr (catalogue d (schema d b)))) (catalogue d (schema d a)) /\ Forall (fun p => snd p = None) (sent tr).
Proof.
  intros d name b a Hd H Io. unfold appliable, fits, sayable in H.
  repeat match goal with K : _ && _ = true |- _ => apply andb_true_iff in K; let L := fresh "L" in destruct K as [K L] end.
  assert (P : forall s, accepted d s = true -> parse d id_sort s = Ok (schema d s)).
  { intros s Hs. unfold accepted in Hs. unfold schema. destruct (parse d id_sort s); try discriminate Hs; reflexivity. }
  apply (C48_with_dependencies_partial (strictly_serving d name b a) "db" "new" d b a (schema d b) (schema d a)); try assumption; try reflexivity.
  - repeat split.
  - left. reflexivity.
  - apply id_sort_ok.
  - apply P. assumption.
  - apply P. assumption.
  - intros past q. reflexivity.
  - apply described_ok. assumption.
  - apply described_ok. assumption.
  - intros stmts D. unfold clean_texts, diff_of in L. cbn [strictly_serving w_srt w_sdiff] in D. rewrite D in L. exact L.
Qed.
Print Assumptions C48_strictly_serving.

(** * Spanner: no second attempt, so the statements alone decide *)

Lemma batch_stops : forall d stmts m, dep_exec_all d stmts m = None -> exists v, strict_batch d (map uncommented stmts) m = (v, Some exec_error).
Proof.
  intros d stmts. induction stmts as [|s stmts IH]; intros m H; cbn [dep_exec_all map strict_batch] in *; [discriminate H|].
  rewrite dep_uncommented. destruct (dep_exec d s m); [apply IH; exact H|eexists; reflexivity].
Qed.
Lemma batch_refused : forall m0 w, strictly_served Sp m0 w -> forall stmts qs past, (forall p, w_conn w p = true) -> Forall2 (text_of Sp) stmts qs -> forallb (arrives Sp) qs = true ->
  forallb (fun s => comment_arrives Sp (comment_of s)) stmts = true -> (forall s, In s stmts -> says Sp s) -> sent past = [] -> dep_exec_all Sp stmts m0 = None ->
  exists evs, exec_of Sp w (ddl_string Sp stmts) past = (evs, false).
Proof.
  intros m0 w W stmts qs past Hc F C K R P E.
  assert (A : strict_events Sp past m0 = mkServer m0 None) by (unfold strict_events; rewrite P; reflexivity).
  assert (N : forallb (fun q => negb (String.eqb q "")) qs = true) by exact (texts_not_empty _ _ _ F).
  assert (Y : cut Sp (ddl_string Sp stmts) = nonempty (qs ++ [""%string])) by (rewrite (nonempty_snoc qs N); apply (cut_arrives Sp stmts qs F); rewrite C, K; reflexivity).
  unfold exec_of, batch_exec. rewrite Hc. cbn [negb]. change (split (";" ++ nl) (drop_comment_lines (ddl_string Sp stmts))) with (split stop (drop_comment_lines (ddl_string Sp stmts))).
  assert (S1 : strict_answer Sp start_batch (strict_events Sp past m0) = (mkServer m0 (Some []), None)) by (rewrite A; reflexivity).
  assert (O1 : w_exec w past start_batch = None) by (rewrite W, S1; reflexivity). rewrite O1.
  assert (A1 : strict_events Sp (past ++ [EExec start_batch None]) m0 = mkServer m0 (Some [])) by (rewrite strict_events_snoc, S1; reflexivity).
  destruct (strict_send_served Sp m0 w W stmts qs (past ++ [EExec start_batch None]) m0 [] eq_refl F N R A1) as [evs [E1 [E2 E3]]].
  assert (Z : nonempty (split stop (drop_comment_lines (ddl_string Sp stmts))) = nonempty (qs ++ [""%string])) by (unfold cut in Y; exact Y).
  rewrite <- send_nonempty, <- Z, send_nonempty in E1. rewrite E1. cbn [List.app] in E3.
  destruct (batch_stops Sp stmts m0 E) as [v V].
  assert (O2 : w_exec w ((past ++ [EExec start_batch None]) ++ evs) run_batch = Some exec_error) by (rewrite W, E3; change (strict_answer Sp run_batch (mkServer m0 (Some (map uncommented stmts)))) with (strict_batch Sp (map uncommented stmts) m0); rewrite V; reflexivity).
  rewrite O2. eexists. reflexivity.
Qed.
Theorem C48_spanner_decided_by_the_statements : forall w dsn src s1 s2 before after m0 stmts,
  working w -> approved w -> dialect_of (w_dialect w) = Some Sp -> srt_ok (w_srt w) ->
  w_resolve w dsn = Some s1 -> w_resolve w src = Some s2 ->
  parse Sp (w_srt w) s1 = Ok before -> parse Sp (w_srt w) s2 = Ok after -> strictly_served Sp m0 w ->
  printable Sp before = true -> printable Sp after = true -> index_names_ok Sp before = true -> index_names_ok Sp after = true ->
  diff Sp (w_srt w) (w_sdiff w) (Some before) (Some after) = DOk stmts ->
  forallb (fun s => arrives Sp (text Sp s) && comment_arrives Sp (comment_of s)) stmts = true ->
  ((exists tr, apply_command w [dsn; src] = (tr, Done)) <-> exists m, dep_exec_all Sp stmts m0 = Some m).
Proof.
  intros w dsn src s1 s2 before after m0 stmts Ww Wa Hd Hs R1 R2 P1 P2 S Pb Pa Nb Na E Cl.
  assert (F : Forall2 (text_of Sp) stmts (map (text Sp) stmts)).
  { clear. induction stmts as [|s l IH]; constructor; [apply text_ends|exact IH]. }
  assert (C : forallb (arrives Sp) (map (text Sp) stmts) = true /\ forallb (fun s => comment_arrives Sp (comment_of s)) stmts = true).
  { rewrite !forallb_forall in *. split; [intros q Hq; apply in_map_iff in Hq; destruct Hq as [s [Es Hq]]; subst q|intros s Hq]; specialize (Cl s Hq); apply andb_true_iff in Cl; apply Cl. }
  pose proof (fun s Hl => diff_says Sp (w_srt w) (w_sdiff w) Hs before after Pb Pa Nb Na stmts s E Hl) as Say.
  split.
  - intros [tr A]. destruct (dep_exec_all Sp stmts m0) as [m|] eqn:X; [exists m; reflexivity|exfalso].
    destruct (command_cases _ _ _ _ A) as [[_ K]|[[t [_ O]]|[dsn' [src' [d' [stmts' [e2 [ok [Ea [Et [Ed [X2 [T [Q O]]]]]]]]]]]]]].
    + destruct (K eq_refl) as [x [y [Ea Et]]]. injection Ea as <- <-. unfold diff_text in Et. rewrite R1, R2, Hd, P1, P2, E in Et. discriminate Et.
    + discriminate O.
    + injection Ea as <- <-. rewrite Hd in Ed. injection Ed as <-. unfold diff_text in Et. rewrite R1, R2, Hd, P1, P2, E in Et. injection Et as Es. rewrite <- Es in *.
      destruct ok; [|discriminate O].
      destruct Ww as [_ [_ [_ Wc]]].
      match type of X2 with exec_of _ _ _ ?p = _ => destruct (batch_refused m0 w S stmts _ p Wc F (proj1 C) (proj2 C) Say) as [evs V]; [|exact X|rewrite V in X2; discriminate X2] end.
      unfold started, approval. destruct (w_auto w); reflexivity.
  - intros [m X]. destruct (strict_apply_served w dsn src Sp s1 s2 before after m0 stmts (map (text Sp) stmts) m Ww Wa Hd R1 R2 P1 P2 S E Say F (proj1 C) (proj2 C) X) as [tr [A _]].
    exists tr. exact A.
Qed.
Print Assumptions C48_spanner_decided_by_the_statements.

Definition strict_old (d : dialect) : string :=
  match d with
  | Sp => "CREATE TABLE t (a INT64 NOT NULL) PRIMARY KEY (a);"
  | _ => "CREATE TABLE t (a INTEGER NOT NULL);"
  end.
Definition strict_new (d : dialect) : string :=
  match d with
  | Sp => "CREATE TABLE t (a INT64 NOT NULL, b INT64) PRIMARY KEY (a); CREATE TABLE u (c INT64 NOT NULL, CONSTRAINT f FOREIGN KEY (c) REFERENCES t (a)) PRIMARY KEY (c); CREATE INDEX i ON t (a);"
  | _ => "CREATE TABLE t (a INTEGER NOT NULL, b INTEGER NULL); CREATE TABLE u (c INTEGER NOT NULL, CONSTRAINT f FOREIGN KEY (c) REFERENCES t (a)); CREATE INDEX i ON t (a);"
  end.
(** A table that refers to one that is there, a column and an index, in all dialects *)
Example C48_strict_example : forallb (fun d => appliable d (strict_old d) (strict_new d) && in_order d (schema d (strict_old d)) (schema d (strict_new d))) [My; Pg; Crdb; Sp] = true.
Proof. vm_compute. reflexivity. Qed.
Example C48_strict_run : exists tr, apply_command (strictly_serving Sp "spanner" (strict_old Sp) (strict_new Sp)) ["db"; "new"]%string = (tr, Done)
  /\ map snd (sent tr) = [None; None; None; None; None].
Proof. eexists. split; [vm_compute; reflexivity|]. vm_compute. reflexivity. Qed.
(** An index on a new column: Spanner takes the statements and refuses the batch. *)
Definition strict_late : string := "CREATE TABLE t (a INT64 NOT NULL, b INT64) PRIMARY KEY (a); CREATE INDEX i ON t (b);".
Example C48_strict_refused : appliable Sp (strict_old Sp) strict_late = true
  /\ exists tr, apply_command (strictly_serving Sp "spanner" (strict_old Sp) strict_late) ["db"; "new"]%string = (tr, Failed)
       /\ map snd (sent tr) = [None; None; None; Some exec_error].
Proof. split; [vm_compute; reflexivity|]. eexists. split; [vm_compute; reflexivity|]. vm_compute. reflexivity. Qed.
