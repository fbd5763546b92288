(** Property C69, said about the source texts: their literals are all one has to look at. *)
From Coq Require Import Lia.
From Verif Require Import GoStr Token Lexer Ast Parser Diff Db AppendFacts Printable Lines Apply ApplySpec Plain PlainText PlainSource.
From Verif Require Import PropsDiff PropsApply PropsRead PropsPlain.
Local Open Scope list_scope.

(** Source texts no literal of which could be taken for something else give plain schemas. *)
Theorem C69_quiet_sources : forall d srt s l, srt_ok srt -> quiet_source d s = true -> parse d srt s = Ok l -> compact_schema l = true -> plain_schema l = true.
Proof. exact source_plain. Qed.
Print Assumptions C69_quiet_sources.

Lemma white_front : forall s c r, skipWhitespace s = String c r -> isSpace c = false.
Proof. induction s as [|x s IH]; intros c r H; cbn [skipWhitespace] in H; [discriminate H|]. destruct (isSpace x) eqn:E; [exact (IH _ _ H)|]. inversion H; subst. exact E. Qed.
Lemma blank_front : forall n s c r, skipBlank n s = String c r -> isSpace c = false.
Proof.
  induction n as [|n IH]; intros s c r H; cbn [skipBlank] in H; [exact (white_front _ _ _ H)|].
  destruct (String.prefix "--" (skipWhitespace s)); [exact (IH _ _ _ H)|exact (white_front _ _ _ H)].
Qed.
Lemma byte_quiet : forall c, isSpace c = false -> c <> ";"%char -> quiet (string_of_byte c) = true.
Proof. intros [[] [] [] [] [] [] [] []] W N; try reflexivity; try discriminate W; contradiction N; reflexivity. Qed.
Lemma scan_quiet : forall d c s t r, isSpace c = false -> scan d (String c s) = LTok t r ->
  (exists b, tk_lit t = String c b /\ isQuote d c = true) \/ quietly t = true.
Proof.
  intros d c s t r W H. cbn [scan] in H. destruct (isQuote d c) eqn:Eq.
  { destruct (readQuoted c s) as [[b rest]|] eqn:R; [|discriminate H]. inversion H; subst. left. exists b. auto. }
  right. destruct (has_cast d && Ascii.eqb c "|") eqn:E1.
  { apply andb_true_iff in E1. destruct E1 as [_ E1]. apply Ascii.eqb_eq in E1. subst c. destruct s as [|c2 s2]; [inversion H; subst; reflexivity|]. destruct (Ascii.eqb c2 "|"); inversion H; subst; reflexivity. }
  destruct (has_cast d && Ascii.eqb c ":") eqn:E2.
  { apply andb_true_iff in E2. destruct E2 as [_ E2]. apply Ascii.eqb_eq in E2. subst c. destruct s as [|c2 s2]; [inversion H; subst; reflexivity|]. destruct (Ascii.eqb c2 ":"); [|inversion H; subst; reflexivity].
    destruct d; try (inversion H; subst; reflexivity). destruct s2 as [|c3 s3]; [inversion H; subst; reflexivity|]. destruct (Ascii.eqb c3 ":"); inversion H; subst; reflexivity. }
  destruct (single c) as [ty|] eqn:E3.
  { inversion H; subst. unfold single in E3.
    repeat match type of E3 with
    | (if Ascii.eqb c ?x then _ else _) = _ => destruct (Ascii.eqb c x) eqn:E4; [apply Ascii.eqb_eq in E4; subst c; inversion E3; subst; reflexivity|clear E4]
    end. discriminate E3. }
  destruct (Ascii.eqb c ch_nul); [inversion H; subst; reflexivity|].
  destruct (isLiteral c).
  { destruct (readIdentifier (String c s)) as [w rest] eqn:R; inversion H; subst. unfold quietly. cbn [tk_lit]. destruct (word_quiet _ _ _ R) as [Q _]. rewrite Q. reflexivity. }
  inversion H; subst. unfold quietly. cbn [tk_lit]. rewrite byte_quiet; [reflexivity|exact W|]. intro X. subst c. discriminate E3.
Qed.

(** Outside quoted texts nothing of the kind can occur, whatever the source: comments, line breaks
    and blanks between the words are of no importance. *)
Theorem C69_only_literals_matter : forall d s t, In t (lex d s) ->
  (exists c b, tk_lit t = String c b /\ isQuote d c = true) \/ quiet (tk_lit t) = true \/ tk_lit t = ";"%string.
Proof.
  intros d s t. unfold lex. generalize (S (String.length s)). intro n. revert s. induction n as [|n IH]; intros s I; [destruct I|]. cbn [lex_fuel] in I.
  destruct (skipBlank (String.length s) s) as [|c r] eqn:B; [destruct I|]. pose proof (blank_front _ _ _ _ B) as W. destruct (scan d (String c r)) as [t' rest|] eqn:E.
  - destruct I as [I|I]; [subst t'|exact (IH _ I)]. destruct (scan_quiet _ _ _ _ _ W E) as [[b [X Y]]|Q]; [left; eauto|]. right. unfold quietly in Q. apply orb_true_iff in Q. destruct Q as [Q|Q]; [left; exact Q|right; apply String.eqb_eq, Q].
  - destruct I as [I|[]]. subst t. right. left. reflexivity.
Qed.
Print Assumptions C69_only_literals_matter.
Corollary C69_quiet_literals : forall d s, (forall t c b, In t (lex d s) -> tk_lit t = String c b -> isQuote d c = true -> quiet (String c b) = true) -> quiet_source d s = true.
Proof.
  intros d s H. unfold quiet_source. apply forallb_forall. intros t I. destruct (C69_only_literals_matter d s t I) as [[c [b [X Y]]]|[Q|Q]].
  - rewrite X, (H t c b I X Y). reflexivity.
  - rewrite Q. reflexivity.
  - rewrite Q. apply orb_true_r.
Qed.
Print Assumptions C69_quiet_literals.

(** What is sent is what is displayed, for two source texts with quiet literals *)
Theorem C69_quiet_sources_sent_as_displayed : forall w dsn src d s1 s2 before after tr o, dialect_of (w_dialect w) = Some d -> srt_ok (w_srt w) -> modest (w_sdiff w) ->
  w_resolve w dsn = Some s1 -> w_resolve w src = Some s2 -> parse d (w_srt w) s1 = Ok before -> parse d (w_srt w) s2 = Ok after ->
  quiet_source d s1 = true -> quiet_source d s2 = true -> compact_schema before = true -> compact_schema after = true ->
  apply_command w [dsn; src] = (tr, o) -> sent tr <> [] ->
  exists stmts rest, diff d (w_srt w) (w_sdiff w) (Some before) (Some after) = DOk stmts /\ tr = EPrint (message (ddl_string d stmts)) :: rest /\
  match d with
  | Sp => exists m, map fst (sent tr) = firstn m ("START BATCH DDL"%string :: map (text d) stmts ++ ["RUN BATCH"%string])
  | _ => exists k, map fst (sent tr) = List.concat (repeat (map (text d) stmts) k)
  end.
Proof.
  intros w dsn src d s1 s2 before after tr o Hd Hs Hm R1 R2 P1 P2 Q1 Q2 C1 C2 H N.
  apply (C69_sent_is_displayed w dsn src d s1 s2 before after tr o); try assumption.
  - exact (source_plain d _ s1 before Hs Q1 P1 C1).
  - exact (source_plain d _ s2 after Hs Q2 P2 C2).
Qed.
Print Assumptions C69_quiet_sources_sent_as_displayed.

(** Comments and line breaks do no harm, two dashes in a literal do. *)
Definition quiet_pair (d : dialect) (b a : string) : bool := quiet_source d b && quiet_source d a && compact_schema (schema d b) && compact_schema (schema d a).
Definition commented_source : string := "-- a table; with a -- comment" ++ nl ++ "CREATE TABLE t (" ++ nl ++ "  a TEXT -- a ' column" ++ nl ++ ");" ++ nl.
Example C69_quiet_example : quiet_pair Pg pg_old pg_new = true /\ quiet_pair My my_before my_after = true /\ quiet_pair Crdb cr_before cr_after = true /\ quiet_pair Sp sp_before sp_after = true
  /\ quiet_pair Pg commented_source commented_source = true /\ quiet_source Pg dashes_new = false.
Proof. split; [|split; [|split; [|split; [|split]]]]; vm_compute; reflexivity. Qed.
(** That no word of the schema is a semicolon has to be asked for: in an expression it is read as a word. *)
Definition semicolon_source : string := "CREATE TABLE t (a TEXT DEFAULT (1;2));".
Example C69_semicolon : accepted Pg semicolon_source = true /\ quiet_source Pg semicolon_source = true /\ compact_schema (schema Pg semicolon_source) = false /\ plain_schema (schema Pg semicolon_source) = false.
Proof. split; [|split; [|split]]; vm_compute; reflexivity. Qed.
