(** C90: what of an accepted text counts. *)
From Coq Require Import Lia.
From Verif Require Import GoStr Token Lexer LexerFacts LexSpec LexLayout LexKeyword LexPanic Ast Parser Unfinished PropsParse PropsDiff.

(** A text (without NUL) that ends inside a quoted literal is not accepted, whatever precedes
    the literal: no quotation mark is lost. *)
Theorem C90_unfinished_literal : forall d srt s l, no_nul s = true -> parse d srt s = Ok l ->
  mode d Outside s = Outside \/ mode d Outside s = InComment.
Proof.
  intros d srt s l Z E. pose proof (unfinished d srt s l Z E) as N. destruct (mode d Outside s) as [|q|]; [left; reflexivity|destruct (N q eq_refl)|right; reflexivity].
Qed.
Print Assumptions C90_unfinished_literal.
(** So a quotation mark behind an accepted text makes it one that is not accepted. *)
Theorem C90_quotation_mark_added : forall d srt s q l, no_nul s = true -> mode d Outside s = Outside -> quote_byte d q = true ->
  parse d srt (s ++ String q "")%string <> Ok l.
Proof.
  intros d srt s q l Z M Q E.
  assert (G : forall t m, mode d m t = Outside -> mode d m (t ++ String q "")%string = InQuote q).
  { induction t as [|c r IH]; intros m H; cbn [append mode] in *; [subst m; cbn [mode]; rewrite Q; reflexivity|].
    destruct m as [|q0|].
    - destruct (quote_byte d c); [exact (IH _ H)|]. destruct r as [|c' r']; cbn [append] in *.
      + assert (Dq : Ascii.eqb q "-" = false) by (destruct (Ascii.eqb_spec q "-"); [subst q; destruct d; discriminate Q|reflexivity]).
        rewrite Dq, andb_false_r. cbn [mode]. rewrite Q. reflexivity.
      + destruct (Ascii.eqb c "-" && Ascii.eqb c' "-"); exact (IH _ H).
    - destruct (Ascii.eqb c q0); exact (IH _ H).
    - destruct (Ascii.eqb c ch_nl); exact (IH _ H). }
  assert (Nq : no_nul (String q "") = true).
  { unfold no_nul. cbn [all_bytes]. rewrite andb_true_r. apply negb_true_iff. apply Ascii.eqb_neq. intro F. subst q. destruct d; discriminate Q. }
  refine (unfinished d srt _ l _ E q (G s Outside M)). rewrite no_nul_app, Z, Nq. reflexivity.
Qed.
Print Assumptions C90_quotation_mark_added.
Example C90_example : exists l, parse My id_srt "CREATE TABLE t (a VARCHAR(5) DEFAULT 'it''s'); -- it's" = Ok l /\ l <> []
  /\ mode My Outside "CREATE TABLE t (a VARCHAR(5) DEFAULT 'it''s'); -- it's" = InComment
  /\ mode My Outside "CREATE TABLE t (a VARCHAR(5) DEFAULT 'it''s');" = Outside /\ quote_byte My "`" = true.
Proof. eexists. split; [vm_compute; reflexivity|]. split; [discriminate|]. repeat split. Qed.

(** ** What does not count *)
(** The token behind the columns of CREATE INDEX is not looked at - whatever it is, save an
    unfinished literal and USING. *)
Definition with_token (d : dialect) (a : string) (t : token) (b : string) : list token := (lex d a ++ t :: lex d b)%list.
Theorem C90_token_behind_index_refuted : forall d srt t, tk_type t <> TOKEN_BOOM -> tk_type t <> TOKEN_USING ->
  parse_tokens d srt (with_token d "CREATE INDEX i ON t (a)" t ";") = parse d srt "CREATE INDEX i ON t (a);"
  /\ exists x, parse d srt "CREATE INDEX i ON t (a);" = Ok [CreateIndex x].
Proof.
  intros d srt [ty tx] B U. split; [apply behind_index; apply String.eqb_neq; assumption|]. destruct d; eexists; vm_compute; reflexivity.
Qed.
Print Assumptions C90_token_behind_index_refuted.
(** So an index MySQL reads as an invisible one is read as an ordinary one, and PostgreSQL's TABLESPACE without
    a name, a number or a stray sign is no error. *)
Definition behind := ["INVISIBLE"; "TABLESPACE"; "5"; "#"; "'x'"; "CREATE"]%string.
Theorem C90_index_ignores_refuted : forall d srt w, In w behind ->
  exists x, parse d srt ("CREATE INDEX i ON t (a) " ++ w ++ ";")%string = Ok [CreateIndex x] /\ parse d srt "CREATE INDEX i ON t (a);" = Ok [CreateIndex x].
Proof.
  intros d srt w H. destruct d; repeat destruct H as [<-|H]; try destruct H; eexists; split; vm_compute; reflexivity.
Qed.
Print Assumptions C90_index_ignores_refuted.
(** Two such tokens are an error, and so is one behind a table. *)
Example C90_example_not_ignored : forall d, parse d id_srt "CREATE INDEX i ON t (a) WHERE b;" = Err /\ parse d id_srt "CREATE TABLE t (a INTEGER) x;" = Err.
Proof. intros []; split; vm_compute; reflexivity. Qed.

(** Whatever follows a NUL byte is not looked at: behind any accepted text, a line that begins
    with NUL and everything after it are lost without an error. *)
Theorem C90_after_nul_refuted : forall d srt a l b, no_nul a = true -> outside d a -> parse d srt a = Ok l ->
  no_nul b = true -> (forall q, mode d Outside b <> InQuote q) ->
  parse d srt (a ++ ";" ++ nl ++ String ch_nul b)%string = Ok l.
Proof.
  intros d srt a l b Z O E Zb M. rewrite (C10_concatenation d srt a (String ch_nul b) l [] Z O E (nul_ends d srt b Zb M)). rewrite app_nil_r. reflexivity.
Qed.
Print Assumptions C90_after_nul_refuted.
Example C90_example_nul : exists l, parse Pg id_srt "CREATE TABLE t (a INTEGER)" = Ok l /\ l <> []
  /\ parse Pg id_srt ("CREATE TABLE t (a INTEGER)" ++ ";" ++ nl ++ String ch_nul "CREATE TABLE u (a INTEGER);") = Ok l.
Proof. eexists. split; [vm_compute; reflexivity|]. split; [discriminate|]. vm_compute. reflexivity. Qed.

(** An unfinished literal at the beginning crashes the parser (C02); only further ahead can the
    parser refuse the text before it meets the literal. *)
Theorem C02_begins_with_unfinished_literal_refuted : forall d srt q w, quote_byte d q = true ->
  all_bytes (fun c => negb (Ascii.eqb c q || Ascii.eqb c ch_nul)) w = true -> parse d srt (String q w) = Panic.
Proof.
  intros d srt q w Q W.
  assert (R : readQuoted q w = None).
  { induction w as [|c w IH]; [reflexivity|]. cbn [all_bytes] in W. apply andb_true_iff in W. destruct W as [W1 W2]. apply negb_true_iff in W1. cbn [readQuoted]. rewrite W1, (IH W2). reflexivity. }
  assert (Sp0 : isSpace q = false /\ String.prefix "--" (String q w) = false).
  { unfold quote_byte in Q. assert (K : q = ch_dquote \/ q = ch_quote \/ q = ch_bquote).
    { destruct (Ascii.eqb_spec q ch_dquote); [auto|]. destruct (Ascii.eqb_spec q ch_quote); [auto|]. destruct (Ascii.eqb_spec q ch_bquote); [auto|]. destruct d; discriminate Q. }
    destruct K as [K | [K | K]]; subst q; split; reflexivity. }
  destruct Sp0 as [S1 S2]. unfold parse. rewrite lex_eq, (trim_stop q w S1 S2).
  assert (E : scan d (String q w) = LPanic) by (unfold scan; rewrite <- quote_byte_eq, Q, R; reflexivity). rewrite E. reflexivity.
Qed.
Print Assumptions C02_begins_with_unfinished_literal_refuted.
Theorem C02_or_refused : forall d srt s q, no_nul s = true -> mode d Outside s = InQuote q -> parse d srt s = Err \/ parse d srt s = Panic.
Proof.
  intros d srt s q Z M. destruct (C01_parsing_terminates d srt s) as [_ [_ [_ [[l H]|H]]]]; [|exact H]. destruct (unfinished d srt s l Z H q M).
Qed.
Print Assumptions C02_or_refused.
Example C02_or_refused_example : parse Pg id_srt "DROP TABLE t 'x" = Err /\ parse Pg id_srt "'x" = Panic /\ mode Pg Outside "DROP TABLE t 'x" = InQuote "'".
Proof. repeat split; vm_compute; reflexivity. Qed.
(** So in CockroachDB the one method of an index behind its columns that is accepted has a word behind it that does not
    count; without the word the text is refused (C53, C47). *)
Theorem C90_virtual_index_refuted : forall srt, parse Crdb srt "CREATE INDEX i ON t (a) USING hash;" = Err
  /\ exists x, parse Crdb srt "CREATE INDEX i ON t (a) USING hash VIRTUAL;" = Ok [CreateIndex x]
     /\ ddl_string Crdb [CreateIndex x] = ("CREATE INDEX i ON t (a) USING hash;" ++ nl)%string.
Proof. intro srt. split; [vm_compute; reflexivity|]. eexists. split; vm_compute; reflexivity. Qed.
Print Assumptions C90_virtual_index_refuted.
