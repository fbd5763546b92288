(** The lexer panics exactly on texts that end inside a quoted literal. *)
From Coq Require Import Lia.
From Verif Require Import GoStr Token Lexer LexerFacts LexSpec LexLayout LexKeyword.

Lemma readQuoted_mode : forall d q s, no_nul s = true ->
  match readQuoted q s with
  | Some (_, r) => mode d (InQuote q) s = mode d Outside r /\ no_nul r = true
  | None => mode d (InQuote q) s = InQuote q
  end.
Proof.
  intros d q s. induction s as [|c s IH]; intro Hz; [reflexivity|]. unfold no_nul in Hz. cbn [all_bytes] in Hz.
  apply andb_true_iff in Hz. destruct Hz as [Hc Hz]. apply negb_true_iff in Hc. cbn [readQuoted mode]. rewrite Hc.
  destruct (Ascii.eqb c q); cbn [orb]; [split; [reflexivity|exact Hz]|]. specialize (IH Hz).
  destruct (readQuoted q s) as [[b r]|]; exact IH.
Qed.
Lemma skipComment_mode : forall d s, no_nul s = true ->
  match skipComment s with
  | EmptyString => mode d InComment s = InComment
  | String c r => c = ch_nl /\ mode d InComment s = mode d Outside r /\ no_nul r = true /\ String.length r < String.length s
  end.
Proof.
  intros d s. induction s as [|c s IH]; intro Hz; [reflexivity|]. unfold no_nul in Hz. cbn [all_bytes] in Hz.
  apply andb_true_iff in Hz. destruct Hz as [Hc Hz]. apply negb_true_iff in Hc. cbn [skipComment mode]. rewrite Hc.
  destruct (Ascii.eqb c ch_nl) eqn:E; cbn [orb].
  - apply Ascii.eqb_eq in E. subst. cbn. split; [reflexivity|]. split; [reflexivity|]. split; [exact Hz|lia].
  - specialize (IH Hz). destruct (skipComment s) as [|c' r]; [exact IH|]. destruct IH as [H1 [H2 [H3 H4]]]. cbn. repeat split; auto.
Qed.

Lemma lookup_ordinary : forall d w, lookupIdent d w <> TOKEN_BOOM /\ lookupIdent d w <> TOKEN_EOF.
Proof.
  intros d w. unfold lookupIdent.
  assert (G : forallb (fun kv => negb (String.eqb (snd kv) TOKEN_BOOM) && negb (String.eqb (snd kv) TOKEN_EOF)) (keywords d) = true) by (destruct d; vm_compute; reflexivity).
  destruct (assoc (to_upper w) (keywords d)) as [t|] eqn:E; [|split; discriminate].
  assert (H : exists k, In (k, t) (keywords d)).
  { clear G. revert E. induction (keywords d) as [|[k v] r IH]; cbn; [discriminate|]. destruct (String.eqb (to_upper w) k).
    - intro E. inversion E; subst. exists k. left. reflexivity.
    - intro E. destruct (IH E) as [k' H']. exists k'. right. exact H'. }
  destruct H as [k H]. rewrite forallb_forall in G. specialize (G _ H). cbn [snd] in G. split; intro F; subst t; discriminate G.
Qed.

Lemma scan_mode : forall d c s, no_nul (String c s) = true -> isSpace c = false -> String.prefix "--" (String c s) = false ->
  match scan d (String c s) with
  | LTok t r => mode d Outside (String c s) = mode d Outside r /\ no_nul r = true /\ tk_type t <> TOKEN_BOOM /\ tk_type t <> TOKEN_EOF
  | LPanic => exists q, mode d Outside (String c s) = InQuote q
  end.
Proof.
  intros d c s Hz Hs Hp.
  pose proof Hz as Hz'. unfold no_nul in Hz'. cbn [all_bytes] in Hz'. apply andb_true_iff in Hz'. destruct Hz' as [Hcz Hz'].
  fold (no_nul s) in Hz'. apply negb_true_iff in Hcz. unfold scan. rewrite <- quote_byte_eq.
  destruct (quote_byte d c) eqn:Q.
  { pose proof (readQuoted_mode d c s Hz') as H. cbn [mode]. rewrite Q. destruct (readQuoted c s) as [[b r]|].
    - destruct H as [H1 H2]. repeat split; [exact H1|exact H2|discriminate|discriminate].
    - exists c. exact H. }
  assert (Hm := mode_step d c s Q Hp). rewrite Hm.
  destruct (has_cast d && Ascii.eqb c "|") eqn:E1.
  { destruct s as [|c2 r2]; [repeat split; discriminate|]. destruct (Ascii.eqb c2 "|") eqn:E2; [|repeat split; [exact Hz'|discriminate|discriminate]].
    apply Ascii.eqb_eq in E2. subst c2. assert (Q2 : quote_byte d "|" = false) by (destruct d; reflexivity).
    rewrite mode_step by (exact Q2 || reflexivity). repeat split; [exact Hz'|discriminate|discriminate]. }
  destruct (has_cast d && Ascii.eqb c ":") eqn:E2.
  { destruct s as [|c2 r2]; [repeat split; discriminate|]. destruct (Ascii.eqb c2 ":") eqn:E3; [|repeat split; [exact Hz'|discriminate|discriminate]].
    apply Ascii.eqb_eq in E3. subst c2. assert (Q2 : quote_byte d ":" = false) by (destruct d; reflexivity).
    rewrite mode_step by (exact Q2 || reflexivity).
    assert (Two : mode d Outside r2 = mode d Outside r2 /\ no_nul r2 = true /\ TOKEN_TYPECAST <> TOKEN_BOOM /\ TOKEN_TYPECAST <> TOKEN_EOF) by (repeat split; [exact Hz'|discriminate|discriminate]).
    destruct d; try exact Two. destruct r2 as [|c3 r3]; [exact Two|]. destruct (Ascii.eqb c3 ":") eqn:E4; [|exact Two].
    apply Ascii.eqb_eq in E4. subst c3. rewrite mode_step by reflexivity. repeat split; [exact Hz'|discriminate|discriminate]. }
  destruct (single c) as [k|] eqn:Ek.
  { assert (Ho : k <> TOKEN_BOOM /\ k <> TOKEN_EOF); [|repeat split; [exact Hz'|apply Ho|apply Ho]]. unfold single in Ek. repeat match type of Ek with (if ?b then _ else _) = _ => destruct b end; inversion Ek; split; discriminate. }
  rewrite Hcz. destruct (isLiteral c) eqn:El; [|repeat split; [exact Hz'|discriminate|discriminate]].
  destruct (readIdentifier (String c s)) as [w r] eqn:E. rewrite <- Hm. repeat split.
  - exact (word_mode d _ _ _ E).
  - pose proof (readIdentifier_split _ _ _ E) as Es. rewrite Es, no_nul_app in Hz. apply andb_true_iff in Hz. apply Hz.
  - apply lookup_ordinary.
  - apply lookup_ordinary.
Qed.

Definition is_boom (t : token) : Prop := tk_type t = TOKEN_BOOM.
Lemma lex_mode : forall d s, no_nul s = true ->
  (exists q, mode d Outside s = InQuote q) /\ Exists is_boom (lex d s) \/
  (forall q, mode d Outside s <> InQuote q) /\ Forall (fun t => ~ is_boom t /\ tk_type t <> TOKEN_EOF) (lex d s).
Proof.
  intros d s. remember (String.length s) as n eqn:En. revert s En. induction n as [n IH] using lt_wf_ind. intros s En Hz. subst n.
  destruct s as [|c s]; [right; split; [discriminate|constructor]|].
  assert (Hz' : no_nul s = true).
  { unfold no_nul in Hz. cbn [all_bytes] in Hz. apply andb_true_iff in Hz. apply Hz. }
  destruct (isSpace c) eqn:Hs.
  { assert (Q : quote_byte d c = false /\ Ascii.eqb c "-" = false).
    { unfold isSpace in Hs. apply orb_true_iff in Hs. destruct Hs as [Hs|Hs]; [|apply Ascii.eqb_eq in Hs; subst; destruct d; auto].
      apply orb_true_iff in Hs. destruct Hs as [Hs|Hs]; [|apply Ascii.eqb_eq in Hs; subst; destruct d; auto].
      apply orb_true_iff in Hs. destruct Hs as [Hs|Hs]; apply Ascii.eqb_eq in Hs; subst; destruct d; auto. }
    destruct Q as [Q1 Q2]. rewrite lex_space by exact Hs. rewrite mode_step by (exact Q1 || apply not_dash_prefix; exact Q2).
    apply (IH (String.length s)); [cbn; lia|reflexivity|exact Hz']. }
  destruct (String.prefix "--" (String c s)) eqn:Hp.
  { destruct (prefix_dashes _ Hp) as [r Hr]. inversion Hr; subst c s.
    assert (Em : mode d Outside (String "-" (String "-" r)) = mode d InComment r).
    { cbn [mode]. assert (Q : quote_byte d "-" = false) by (destruct d; reflexivity). rewrite Q. reflexivity. }
    assert (Hzr : no_nul r = true) by (cbn in Hz'; exact Hz').
    rewrite lex_comment by exact Hp. change (skipComment (String "-" (String "-" r))) with (skipComment r). rewrite Em.
    pose proof (skipComment_mode d r Hzr) as K. destruct (skipComment r) as [|c' r'].
    - rewrite K. right. split; [discriminate|]. rewrite lex_nil. constructor.
    - destruct K as [K1 [K2 [K3 K4]]]. subst c'. rewrite lex_space by reflexivity. rewrite K2.
      apply (IH (String.length r')); [cbn; lia|reflexivity|exact K3]. }
  pose proof (scan_mode d c s Hz Hs Hp) as K. destruct (scan d (String c s)) as [t r|] eqn:E.
  - destruct K as [K1 [K2 K3]]. pose proof (scan_length _ _ _ _ _ E) as L. rewrite (lex_scan d c s t r Hs Hp E), K1.
    destruct (IH (String.length r)) with (s := r) as [[H1 H2]|[H1 H2]]; [cbn; lia|reflexivity|exact K2| |].
    + left. split; [exact H1|]. apply Exists_cons_tl. exact H2.
    + right. split; [exact H1|]. constructor; assumption.
  - left. split; [exact K|]. rewrite lex_eq. fold (trim (String c s)). rewrite (trim_stop c s Hs Hp), E. apply Exists_cons_hd. reflexivity.
Qed.
Lemma lex_no_boom : forall d s, no_nul s = true -> (forall q, mode d Outside s <> InQuote q) ->
  forallb (fun t => negb (String.eqb (tk_type t) TOKEN_BOOM)) (lex d s) = true.
Proof.
  intros d s Hz H. destruct (lex_mode d s Hz) as [[[q Hq] _]|[_ F]]; [exfalso; apply (H q); exact Hq|].
  apply forallb_forall. rewrite Forall_forall in F. intros t Ht. apply negb_true_iff, String.eqb_neq. apply (F t Ht).
Qed.
Lemma lex_no_eof : forall d s, no_nul s = true -> (forall q, mode d Outside s <> InQuote q) ->
  forallb (fun t => negb (String.eqb (tk_type t) TOKEN_EOF)) (lex d s) = true.
Proof.
  intros d s Hz H. destruct (lex_mode d s Hz) as [[[q Hq] _]|[_ F]]; [exfalso; apply (H q); exact Hq|].
  apply forallb_forall. rewrite Forall_forall in F. intros t Ht. apply negb_true_iff, String.eqb_neq. apply (F t Ht).
Qed.
