(** Changing the case of keywords does not change the token types. *)
From Coq Require Import Lia.
From Verif Require Import GoStr Token Lexer LexerFacts LexSpec LexLayout.

Lemma N_ascii_bound : forall c, (N_of_ascii c < 256)%N.
Proof. intro c. apply N_ascii_bounded. Qed.
Lemma word_byte_eq : forall c, word_byte c = isLiteral c.
Proof. intros [[] [] [] [] [] [] [] []]; reflexivity. Qed.
Lemma same_letter_upper : forall a b, same_letter a b -> upper_byte a = upper_byte b.
Proof.
  intros a b [H|[_ [_ [[H1 H2]|[H1 H2]]]]]; [subst; reflexivity| |].
  - unfold upper_byte. destruct (andb (N.leb 97 (N_of_ascii a)) (N.leb (N_of_ascii a) 122)) eqn:E.
    + destruct (andb (N.leb 97 (N_of_ascii b)) (N.leb (N_of_ascii b) 122)) eqn:E2.
      * apply andb_true_iff in E2. destruct E2 as [E2 _]. apply N.leb_le in E2. lia.
      * rewrite H1. replace (N_of_ascii b + 32 - 32)%N with (N_of_ascii b) by lia. apply ascii_N_embedding.
    + apply andb_false_iff in E. destruct E as [E|E]; apply N.leb_gt in E; lia.
  - unfold upper_byte. destruct (andb (N.leb 97 (N_of_ascii b)) (N.leb (N_of_ascii b) 122)) eqn:E.
    + destruct (andb (N.leb 97 (N_of_ascii a)) (N.leb (N_of_ascii a) 122)) eqn:E2.
      * apply andb_true_iff in E2. destruct E2 as [E2 _]. apply N.leb_le in E2. lia.
      * rewrite H1. replace (N_of_ascii a + 32 - 32)%N with (N_of_ascii a) by lia. symmetry. apply ascii_N_embedding.
    + apply andb_false_iff in E. destruct E as [E|E]; apply N.leb_gt in E; lia.
Qed.
Lemma same_word_upper : forall v w, same_word v w -> to_upper v = to_upper w.
Proof.
  induction v as [|a v IH]; intros [|b w] H; cbn in H; try contradiction; [reflexivity|].
  destruct H as [H1 H2]. cbn. rewrite (same_letter_upper _ _ H1), (IH _ H2). reflexivity.
Qed.
Lemma upper_literal : forall c, isLiteral (upper_byte c) = isLiteral c.
Proof. intros [[] [] [] [] [] [] [] []]; reflexivity. Qed.
Lemma all_literal_upper : forall s, all_bytes isLiteral (to_upper s) = all_bytes isLiteral s.
Proof. induction s as [|c s IH]; [reflexivity|]. cbn. rewrite upper_literal, IH. reflexivity. Qed.

Definition good_key (d : dialect) (kv : string * tokentype) : bool :=
  all_bytes isLiteral (fst kv) && negb (String.eqb (fst kv) "") && String.eqb (to_upper (fst kv)) (fst kv)
  && match assoc (fst kv) (keywords d) with Some t => negb (String.eqb t TOKEN_IDENT) | None => false end.
Lemma good_keys : forall d, forallb (good_key d) (keywords d) = true.
Proof. intros []; vm_compute; reflexivity. Qed.

Lemma keyword_facts : forall d w, keyword d w ->
  all_bytes isLiteral w = true /\ w <> "" /\ lookupIdent d w <> TOKEN_IDENT.
Proof.
  intros d w [k [Hk Hs]]. apply same_word_upper in Hs. apply in_map_iff in Hk. destruct Hk as [kv [Hk Hi]].
  pose proof (good_keys d) as G. rewrite forallb_forall in G. specialize (G kv Hi). unfold good_key in G.
  apply andb_true_iff in G. destruct G as [G G4]. apply andb_true_iff in G. destruct G as [G G3].
  apply andb_true_iff in G. destruct G as [G1 G2]. rewrite Hk in *. apply String.eqb_eq in G3. rewrite G3 in Hs.
  split; [|split].
  - rewrite <- all_literal_upper, Hs. exact G1.
  - intro E. subst w. cbn in Hs. subst k. rewrite <- Hs in G2. discriminate G2.
  - unfold lookupIdent. rewrite Hs. destruct (assoc k (keywords d)) as [t|]; [|discriminate G4].
    intro E. subst t. discriminate G4.
Qed.
Lemma keyword_same : forall d v w, keyword d v -> same_word v w -> all_bytes isLiteral w = true /\ w <> "" /\ lookupIdent d w = lookupIdent d v.
Proof.
  intros d v w Hk Hs. destruct (keyword_facts d v Hk) as [H1 [H2 _]]. pose proof (same_word_upper _ _ Hs) as E. split; [|split].
  - rewrite <- all_literal_upper, <- E, all_literal_upper. exact H1.
  - intro X. subst w. destruct v; [congruence|discriminate E].
  - unfold lookupIdent. rewrite E. reflexivity.
Qed.

Lemma readIdentifier_word : forall w r, all_bytes isLiteral w = true -> match first_byte r with Some c => isLiteral c = false | None => True end ->
  readIdentifier (w ++ r) = (w, r).
Proof.
  induction w as [|c w IH]; intros r Hw Hr; cbn [append].
  - destruct r as [|c r]; [reflexivity|]. cbn in *. rewrite Hr. reflexivity.
  - cbn [all_bytes] in Hw. apply andb_true_iff in Hw. destruct Hw as [Hc Hw]. cbn [readIdentifier]. rewrite Hc, (IH r Hw Hr). reflexivity.
Qed.
Lemma literal_not_space : forall c, isLiteral c = true -> isSpace c = false /\ Ascii.eqb c "-" = false /\
  (forall d, isQuote d c = false) /\ Ascii.eqb c "|" = false /\ Ascii.eqb c ":" = false /\ single c = None /\ Ascii.eqb c ch_nul = false.
Proof. intros [[] [] [] [] [] [] [] []] H; try discriminate H; repeat split; try reflexivity; intros []; reflexivity. Qed.
Lemma not_dash_prefix : forall c r, Ascii.eqb c "-" = false -> String.prefix "--" (String c r) = false.
Proof.
  intros c r H. destruct (String.prefix "--" (String c r)) eqn:E; [|reflexivity]. destruct (prefix_dashes _ E) as [x Hx].
  inversion Hx; subst. discriminate H.
Qed.

(** The tokens of a word. *)
Lemma lex_word : forall d w r, all_bytes isLiteral w = true -> w <> "" ->
  match first_byte r with Some c => isLiteral c = false | None => True end ->
  lex d (w ++ r)%string = mkTok (lookupIdent d w) w :: lex d r.
Proof.
  intros d w r Hw Hn Hr. destruct w as [|c w]; [congruence|]. pose proof Hw as Hw'. cbn [all_bytes] in Hw'.
  apply andb_true_iff in Hw'. destruct Hw' as [Hc _]. destruct (literal_not_space c Hc) as [H1 [H2 [H3 [H4 [H5 [H6 H7]]]]]].
  cbn [append]. apply lex_scan; [exact H1|apply not_dash_prefix; exact H2|].
  unfold scan. rewrite H3, H4, H5, H6, H7, Hc, !andb_false_r.
  change (String c (w ++ r)) with (String c w ++ r)%string. rewrite readIdentifier_word by assumption. reflexivity.
Qed.

(** Equal tokens, up to the case of keywords. *)
Definition token_eq_case (t u : token) : Prop :=
  tk_type t = tk_type u /\ to_upper (tk_lit t) = to_upper (tk_lit u) /\ (tk_type t = TOKEN_IDENT -> tk_lit t = tk_lit u).

Lemma token_eq_case_refl : forall t, token_eq_case t t.
Proof. intro t. repeat split. Qed.
Lemma Forall2_refl_case : forall l, Forall2 token_eq_case l l.
Proof. induction l; constructor; [apply token_eq_case_refl|assumption]. Qed.
Lemma Forall2_app_case : forall a b c e, Forall2 token_eq_case a b -> Forall2 token_eq_case c e -> Forall2 token_eq_case (a ++ c)%list (b ++ e)%list.
Proof. intros a b c e H. induction H; intro K; [exact K|]. constructor; auto. Qed.

Lemma last_byte_joins : forall a w, ends_word a = false -> all_bytes isLiteral w = true -> w <> "" -> forall r, no_join a (w ++ r)%string.
Proof.
  intros a w Ha Hw Hn r. unfold no_join. destruct w as [|c w]; [congruence|]. cbn in *. apply andb_true_iff in Hw. destruct Hw as [Hc _].
  unfold ends_word in Ha. destruct (last_byte a) as [l|]; [|exact I]. rewrite word_byte_eq in Ha. unfold joins.
  destruct (literal_not_space c Hc) as [_ [H2 [_ [H4 [H5 _]]]]]. rewrite Ha, H2, H4, H5, !andb_false_r. reflexivity.
Qed.
Lemma starts_word_literal : forall r, starts_word r = false -> match first_byte r with Some c => isLiteral c = false | None => True end.
Proof. intros [|c r] H; cbn in *; [exact I|]. rewrite <- word_byte_eq. exact H. Qed.

Lemma recased_tokens : forall d s s', recased d s s' -> Forall2 token_eq_case (lex d s) (lex d s').
Proof.
  intros d s s' H. induction H as [s|a v w r r' Hz Ho Ha Hk Hs Hr Hr' _ IH]; [apply Forall2_refl_case|].
  destruct (keyword_facts d v Hk) as [V1 [V2 V3]]. destruct (keyword_same d v w Hk Hs) as [W1 [W2 W3]].
  rewrite (lex_outside_app d a (v ++ r)), (lex_outside_app d a (w ++ r')) by (assumption || apply last_byte_joins; assumption).
  apply Forall2_app_case; [apply Forall2_refl_case|].
  rewrite (lex_word d v r), (lex_word d w r') by (assumption || apply starts_word_literal; assumption). constructor; [|exact IH].
  repeat split; cbn [tk_type tk_lit]; [symmetry; exact W3|apply same_word_upper; exact Hs|congruence].
Qed.
