(** Property C69: schemas of plain texts are applied statement by statement as displayed. *)
From Coq Require Import Lia Permutation.
From Verif Require Import GoStr Token Lexer Ast Parser Diff Db AppendFacts Reconcile IndexText SqlRead SqlDb SqlDbFacts Tidy Lines LinesFacts Apply ApplySpec ApplyFacts Intact IntactFacts Plain PlainText PlainDiff Printable.
From Verif Require Import PropsDiff PropsApply PropsRead PropsWhole PropsInterrupt.
Local Open Scope list_scope.

(** Every statement of the difference can be cut out of the displayed text. *)
Theorem C69_difference_survives : forall d srt sdiff before after stmts, srt_ok srt -> modest sdiff -> plain_schema before = true -> plain_schema after = true ->
  diff d srt sdiff (Some before) (Some after) = DOk stmts ->
  forall s, In s stmts -> ApplySpec.clean (text d s) = true /\ clean_comment (comment_of s) = true /\ pieces (stmt_string d s) = [text d s; ""]%string.
Proof.
  intros d srt sdiff before after stmts Hs Hm Pb Pa E s I.
  destruct (diff_calm (N.to_nat 20000) (N2Nat.id 20000) d srt sdiff Hs Hm before after Pb Pa stmts s E I) as [A B]. specialize (A _ (text_ends d s)).
  split; [exact A|]. split; [exact B|]. exact (C21_comment_is_not_executed d s B _ (text_ends d s) A).
Qed.
Print Assumptions C69_difference_survives.
Lemma plain_arrives : forall d srt sdiff before after, srt_ok srt -> modest sdiff -> plain_schema before = true -> plain_schema after = true ->
  forall stmts, diff d srt sdiff (Some before) (Some after) = DOk stmts -> forallb (fun s => arrives d (text d s) && comment_arrives d (comment_of s)) stmts = true.
Proof.
  intros d srt sdiff before after Hs Hm Pb Pa stmts E. apply forallb_forall. intros s I.
  destruct (C69_difference_survives d srt sdiff before after stmts Hs Hm Pb Pa E s I) as [A [B _]]. destruct (clean_arrives d s _ (text_ends d s) A B) as [X Y]. rewrite X, Y. reflexivity.
Qed.
Lemma plain_clean : forall d srt sdiff before after, srt_ok srt -> modest sdiff -> plain_schema before = true -> plain_schema after = true ->
  forall stmts, diff d srt sdiff (Some before) (Some after) = DOk stmts -> forallb (fun s => ApplySpec.clean (text d s) && clean_comment (comment_of s)) stmts = true.
Proof.
  intros d srt sdiff before after Hs Hm Pb Pa stmts E. apply forallb_forall. intros s I.
  destruct (C69_difference_survives d srt sdiff before after stmts Hs Hm Pb Pa E s I) as [A [B _]]. rewrite A, B. reflexivity.
Qed.

(** So a run sends the statements of the difference and nothing else, each of them as it is displayed:
    all of them once per attempt, with Spanner a part of one batch from its beginning. *)
Theorem C69_sent_is_displayed : forall w dsn src d s1 s2 before after tr o, dialect_of (w_dialect w) = Some d -> srt_ok (w_srt w) -> modest (w_sdiff w) ->
  w_resolve w dsn = Some s1 -> w_resolve w src = Some s2 -> parse d (w_srt w) s1 = Ok before -> parse d (w_srt w) s2 = Ok after ->
  plain_schema before = true -> plain_schema after = true -> apply_command w [dsn; src] = (tr, o) -> sent tr <> [] ->
  exists stmts rest, diff d (w_srt w) (w_sdiff w) (Some before) (Some after) = DOk stmts /\ tr = EPrint (message (ddl_string d stmts)) :: rest /\
  match d with
  | Sp => exists m, map fst (sent tr) = firstn m ("START BATCH DDL"%string :: map (text d) stmts ++ ["RUN BATCH"%string])
  | _ => exists k, map fst (sent tr) = List.concat (repeat (map (text d) stmts) k)
  end.
Proof.
  intros w dsn src d s1 s2 before after tr o Hd Hs Hm R1 R2 P1 P2 Pb Pa H N.
  destruct (command_cases _ _ _ _ H) as [[S _]|[[t [T _]]|[dsn' [src' [d' [stmts' [e2 [ok [Ea [Et [Ed [E [T [Q _]]]]]]]]]]]]]].
  - rewrite (silent_sent _ S) in N. contradiction.
  - exfalso. apply N. rewrite T. unfold started, approval. destruct (w_auto w); reflexivity.
  - inversion Ea; subst dsn' src'. rewrite Hd in Ed. inversion Ed; subst d'. clear Ea Ed.
    unfold diff_text in Et. rewrite R1, R2, Hd, P1, P2 in Et.
    destruct (diff d (w_srt w) (w_sdiff w) (Some before) (Some after)) as [stmts| | |] eqn:D; try discriminate Et. inversion Et as [Es]. rewrite <- Es in *. clear Et Es stmts'.
    exists stmts. eexists. split; [reflexivity|]. split; [rewrite T; reflexivity|].
    pose proof (plain_clean d (w_srt w) (w_sdiff w) before after Hs Hm Pb Pa stmts D) as Cl.
    assert (F : Forall2 (text_of d) stmts (map (text d) stmts)).
    { clear. induction stmts as [|s l IH]; constructor; [apply text_ends|exact IH]. }
    assert (C : forallb ApplySpec.clean (map (text d) stmts) = true /\ forallb (fun s => clean_comment (comment_of s)) stmts = true).
    { rewrite !forallb_forall in *. split; [intros q Hq; apply in_map_iff in Hq; destruct Hq as [s [E' Hq]]; subst q|intros s Hq]; specialize (Cl s Hq); apply andb_true_iff in Cl; apply Cl. }
    destruct C as [C K]. rewrite Q.
    assert (P : nonempty (pieces (ddl_string d stmts)) = map (text d) stmts) by (rewrite (pieces_printed d stmts _ F C K); apply nonempty_clean; exact C).
    assert (P' : nonempty (split stop (drop_comment_lines (ddl_string d stmts))) = map (text d) stmts) by (rewrite (batch_printed d stmts _ F C); apply nonempty_clean; exact C).
    destruct d; cbn [exec_of] in E; try (destruct (retry_sent _ _ _ _ _ _ _ E) as [[k [_ X]] _]; exists k; rewrite X, P; reflexivity).
    destruct (batch_sent _ _ _ _ _ E) as [[m X] _]. rewrite P' in X. exists m. exact X.
Qed.
Print Assumptions C69_sent_is_displayed.

(** The condition on dashes is needed: no text that is sent outside a Spanner batch contains two dashes,
    whatever was displayed, so a statement whose text contains them is never sent as it is displayed. *)
Lemma split_part : forall sep s k x, In x (split_skip sep k s) -> exists a b, s = (a ++ x ++ b)%string.
Proof.
  intros sep s. assert (G : forall k, exists h t, split_skip sep k s = h :: t /\ (exists a b, s = (a ++ h ++ b)%string /\ (k = O -> a = ""%string)) /\ forall x, In x t -> exists a b, s = (a ++ x ++ b)%string).
  { induction s as [|c s IH]; intro k; cbn [split_skip].
    - exists ""%string, []. split; [reflexivity|]. split; [exists ""%string, ""%string; auto|intros x []].
    - assert (X : forall x, (exists a b, s = (a ++ x ++ b)%string) -> exists a b, String c s = (a ++ x ++ b)%string) by (intros x [a [b E]]; exists (String c a), b; subst s; reflexivity).
      destruct k as [|k].
      + destruct (String.prefix sep (String c s)).
        * destruct (IH (String.length sep - 1)) as [h [t [E [[a [b [E1 _]]] E2]]]]. exists ""%string, (h :: t). split; [rewrite E; reflexivity|]. split; [exists ""%string, (String c s); auto|].
          intros x [I|I]; apply X; [subst h; eauto|apply E2, I].
        * destruct (IH O) as [h [t [E [[a [b [E1 E0]]] E2]]]]. rewrite E. exists (String c h), t. split; [reflexivity|]. split; [|intros x I; apply X, E2, I].
          specialize (E0 eq_refl). subst a. exists ""%string, b. split; [cbn [append] in *; rewrite E1 at 1; reflexivity|reflexivity].
      + destruct (IH k) as [h [t [E [[a [b [E1 _]]] E2]]]]. rewrite E. exists h, t. split; [reflexivity|]. split; [|intros x I; apply X, E2, I].
        exists (String c a), b. split; [subst s; reflexivity|discriminate]. }
  intros k x I. destruct (G k) as [h [t [E [[a [b [E1 _]]] E2]]]]. rewrite E in I. destruct I as [I|I]; [subst h; eauto|apply E2, I].
Qed.
Lemma unmarked_lines : forall l, Forall (fun x => contains "--" x = false) l -> contains "--" (unlines l) = false.
Proof.
  induction 1 as [|x l X F IH]; [reflexivity|]. replace (unlines (x :: l)) with (x ++ String ch_nl (unlines l))%string by (unfold unlines, nl; cbn [map concat_str]; rewrite append_assoc; reflexivity).
  rewrite two_bytes_app, X, two_bytes, IH. cbn. rewrite andb_false_r. reflexivity.
Qed.
Theorem C69_dashes_are_never_sent : forall t p, In p (pieces t) -> contains "--" p = false.
Proof.
  intros t p I. unfold pieces, split in I. apply split_part in I. destruct I as [a [b E]].
  assert (R : contains "--" (remove_comments "--" t) = false).
  { unfold remove_comments. induction (scan_lines t) as [|x l IH]; [reflexivity|]. cbn [map concat_str]. rewrite remove_kept.
    replace (unlines (kept "--" x) ++ concat_str (map (remove_comment "--") l))%string with (unlines (kept "--" x ++ List.concat (map (kept "--") l))).
    - apply unmarked_lines. apply Forall_forall. intros y Hy. apply in_app_or in Hy. destruct Hy as [Hy|Hy].
      + apply (kept_spec "--" x y); [discriminate|exact Hy].
      + apply in_concat in Hy. destruct Hy as [z [Hz Hy]]. apply in_map_iff in Hz. destruct Hz as [w [Ew _]]. subst z. apply (kept_spec "--" w y); [discriminate|exact Hy].
    - rewrite PlainText.unlines_app. f_equal. clear. induction l as [|w l IH]; [reflexivity|]. cbn [map List.concat concat_str]. rewrite PlainText.unlines_app, <- remove_kept, IH. reflexivity. }
  rewrite E in R. exact (contains_shrink "--" a p b R).
Qed.
Print Assumptions C69_dashes_are_never_sent.
Corollary C69_dashes_needed : forall d s t, contains "--" (text d s) = true -> ~ In (text d s) (pieces t).
Proof. intros d s t H I. apply C69_dashes_are_never_sent in I. congruence. Qed.
Print Assumptions C69_dashes_needed.

(** The conditions of C48, C59 and C68, said about the two schemas only *)
Record plainly_convertible (d : dialect) (before after : ddl) (m0 ma : db) : Prop := {
  pc_before : describes d before m0; pc_after : describes d after ma;
  pc_reconcilable : reconcilable d before after = true; pc_text : text_ok d before after = true;
  pc_printable_before : printable d before = true; pc_printable_after : printable d after = true;
  pc_index_before : index_names_ok d before = true; pc_index_after : index_names_ok d after = true;
  pc_plain_before : plain_schema before = true; pc_plain_after : plain_schema after = true }.
Theorem C59_plainly_convertible_partial : forall d srt sdiff before after m0 ma, srt_ok srt -> modest sdiff ->
  plainly_convertible d before after m0 ma -> convertible d srt sdiff before after m0 ma.
Proof. intros d srt sdiff before after m0 ma Hs Hm [A B C D E F G H I J]. split; try assumption. apply plain_arrives; assumption. Qed.
Print Assumptions C59_plainly_convertible_partial.
Theorem C48_plain_schemas_partial : forall w dsn src d s1 s2 before after m0 ma,
  working w -> approved w -> dialect_of (w_dialect w) = Some d -> srt_ok (w_srt w) -> modest (w_sdiff w) ->
  w_resolve w dsn = Some s1 -> w_resolve w src = Some s2 ->
  parse d (w_srt w) s1 = Ok before -> parse d (w_srt w) s2 = Ok after ->
  served d m0 w -> plainly_convertible d before after m0 ma ->
  exists tr, apply_command w [dsn; src] = (tr, Done) /\ db_eq (sv_db (after_events d tr m0)) ma
    /\ Forall (fun p => snd p = None) (sent tr).
Proof.
  intros w dsn src d s1 s2 before after m0 ma Ww Wa Hd Hs Hm R1 R2 P1 P2 S [A B C D E F G H I J].
  apply (C48_apply_reaches_target_partial w dsn src d s1 s2 before after m0 ma); try assumption. apply plain_arrives; assumption.
Qed.
Print Assumptions C48_plain_schemas_partial.

(** A comparison that shows the old text with a minus and the new one with a plus is [modest]. *)
Definition minus_plus (x y : string) : string := ("-" ++ x ++ nl ++ "+" ++ y)%string.
Lemma minus_plus_modest : modest minus_plus.
Proof.
  intros x y l H. destruct (line_part _ _ H) as [a [b E]]. unfold minus_plus in *. apply (f_equal String.length) in E. rewrite !length_app in E. cbn [String.length nl] in E. lia.
Qed.
Definition plain_pair (d : dialect) (b a : string) : bool := accepted d b && accepted d a && plain_schema (schema d b) && plain_schema (schema d a).
Example C69_example : plain_pair Pg pg_old pg_new = true /\ plain_pair Pg pg_before pg_after = true /\ plain_pair My my_before my_after = true
  /\ plain_pair Crdb cr_before cr_after = true /\ plain_pair Sp sp_before sp_after = true.
Proof. split; [|split; [|split; [|split]]]; vm_compute; reflexivity. Qed.
(** With two dashes in a literal the condition fails, and so does the conclusion (C23_dashes_refuted). *)
Definition dashes_old : string := "CREATE TABLE t (a TEXT);".
Definition dashes_new : string := "CREATE TABLE t (a TEXT, b TEXT DEFAULT 'x--y');".
Example C69_dashes : plain_pair Pg dashes_old dashes_old = true /\ plain_pair Pg dashes_old dashes_new = false
  /\ match diff Pg id_sort minus_plus (Some (schema Pg dashes_old)) (Some (schema Pg dashes_new)) with
     | DOk [s] => pieces (stmt_string Pg s) = ["ALTER TABLE t ADD COLUMN b TEXT DEFAULT 'x" ++ nl]%string
     | _ => False end.
Proof. split; [|split]; vm_compute; reflexivity. Qed.
