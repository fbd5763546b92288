(** The lexer and the layout of a text: C03, C05. *)
From Coq Require Import Lia.
From Verif Require Import GoStr Token Lexer LexerFacts LexSpec.

Lemma quote_byte_eq : forall d c, quote_byte d c = isQuote d c.
Proof. reflexivity. Qed.
Lemma is_blank_eq : forall c, is_blank_byte c = isSpace c.
Proof. reflexivity. Qed.

Lemma all_bytes_app : forall f a b, all_bytes f (a ++ b)%string = all_bytes f a && all_bytes f b.
Proof. intros f a b. induction a as [|c a IH]; [reflexivity|]. cbn. rewrite IH, andb_assoc. reflexivity. Qed.

(** * Gaps are skipped *)
Lemma skipComment_line : forall body c r, one_line body = true -> (Ascii.eqb c ch_nl || Ascii.eqb c ch_nul = true) ->
  skipComment (body ++ String c r) = String c r.
Proof.
  induction body as [|x b IH]; intros c r H E; cbn [append skipComment].
  - rewrite E. reflexivity.
  - unfold one_line in H. cbn [all_bytes] in H. apply andb_true_iff in H. destruct H as [H1 H2].
    apply andb_true_iff in H1. destruct H1 as [H1 H3]. apply negb_true_iff in H1, H3. rewrite H1, H3. cbn. apply IH; assumption.
Qed.
Lemma skipComment_end : forall body, one_line body = true -> skipComment body = "".
Proof.
  induction body as [|x b IH]; intro H; [reflexivity|]. unfold one_line in H. cbn [all_bytes] in H. apply andb_true_iff in H. destruct H as [H1 H2].
  apply andb_true_iff in H1. destruct H1 as [H1 H3]. apply negb_true_iff in H1, H3. cbn. rewrite H1, H3. apply IH. exact H2.
Qed.
Lemma dashes_prefix : forall s, String.prefix "--" ("--" ++ s)%string = true.
Proof. intro s. apply prefix_dashes_true. Qed.
Lemma trim_comment_line : forall body r, one_line body = true -> trim ("--" ++ body ++ nl ++ r)%string = trim r.
Proof.
  intros body r H. rewrite trim_comment by apply dashes_prefix.
  change (skipComment ("--" ++ body ++ nl ++ r)) with (skipComment (body ++ String ch_nl r)).
  rewrite skipComment_line by (exact H || reflexivity). apply trim_space. reflexivity.
Qed.
Lemma trim_gap : forall g, gap g -> forall r, trim (g ++ r)%string = trim r.
Proof.
  intros g H. induction H as [|c g Hc _ IH|body g Hb _ IH]; intro r.
  - reflexivity.
  - cbn [append]. rewrite trim_space by exact Hc. apply IH.
  - rewrite !app_s_assoc. rewrite trim_comment_line by exact Hb. apply IH.
Qed.
Lemma trim_tail_gap : forall g, tail_gap g -> trim g = "".
Proof.
  intros g [g' H|g' body H Hb].
  - rewrite <- (app_s_nil g'). rewrite trim_gap by exact H. reflexivity.
  - rewrite trim_gap by exact H. rewrite trim_comment by apply dashes_prefix.
    change (skipComment ("--" ++ body)) with (skipComment body). rewrite skipComment_end by exact Hb. reflexivity.
Qed.
Lemma lex_gap_start : forall d g r, gap g -> lex d (g ++ r)%string = lex d r.
Proof. intros d g r H. apply lex_trim. apply trim_gap. exact H. Qed.
Lemma lex_tail_gap : forall d g, tail_gap g -> lex d g = [].
Proof. intros d g H. rewrite lex_eq, trim_tail_gap by exact H. reflexivity. Qed.

(** What [trim] removes is a gap. *)
Lemma gap_app : forall g, gap g -> forall h, gap h -> gap (g ++ h)%string.
Proof.
  intros g H. induction H as [|c g Hc _ IH|body g Hb _ IH]; intros h Hh; [exact Hh|cbn; constructor; auto|].
  rewrite !app_s_assoc. apply gap_comment; auto.
Qed.
Lemma skipWhitespace_gap : forall s, exists g, gap g /\ s = (g ++ skipWhitespace s)%string.
Proof.
  induction s as [|c r IH]; [exists ""; split; [constructor|reflexivity]|]. cbn [skipWhitespace]. destruct (isSpace c) eqn:E.
  - destruct IH as [g [Hg Hr]]. exists (String c g). split; [constructor; assumption|]. cbn. rewrite Hr at 1. reflexivity.
  - exists "". split; [constructor|reflexivity].
Qed.
Lemma skipComment_body : forall s, no_nul s = true -> exists body, one_line body = true /\ s = (body ++ skipComment s)%string /\
  (skipComment s = "" \/ exists r, skipComment s = (nl ++ r)%string).
Proof.
  induction s as [|c r IH]; intro H; [exists ""; split; [reflexivity|split; [reflexivity|left; reflexivity]]|].
  unfold no_nul in H. cbn [all_bytes] in H. apply andb_true_iff in H. destruct H as [H1 H2]. apply negb_true_iff in H1.
  cbn [skipComment]. rewrite H1. destruct (Ascii.eqb c ch_nl) eqn:E.
  - apply Ascii.eqb_eq in E. subst c. exists "". split; [reflexivity|]. split; [reflexivity|]. right. eexists. reflexivity.
  - cbn [orb]. destruct (IH H2) as [b [Hb [Hs Hd]]]. exists (String c b). split; [|split; [cbn; rewrite Hs at 1; reflexivity|exact Hd]].
    unfold one_line in *. cbn [all_bytes]. rewrite E, H1. exact Hb.
Qed.
Lemma no_nul_app : forall a b, no_nul (a ++ b)%string = no_nul a && no_nul b.
Proof. intros. apply all_bytes_app. Qed.

Lemma skipBlank_length : forall m x, String.length (skipBlank m x) <= String.length x.
Proof.
  induction m as [|m IHm]; intro x; cbn [skipBlank]; pose proof (skipWhitespace_length x) as Lx; [exact Lx|].
  destruct (String.prefix _ _); [|exact Lx]. pose proof (IHm (skipComment (skipWhitespace x))). pose proof (skipComment_length (skipWhitespace x)). lia.
Qed.
Lemma skipBlank_nl : forall n r, String.length (skipBlank n (nl ++ r)) <= String.length r.
Proof.
  intros n r. pose proof (skipWhitespace_length r) as L. destruct n as [|n]; cbn [skipBlank];
  change (skipWhitespace (nl ++ r)) with (skipWhitespace r); [exact L|].
  destruct (String.prefix _ _); [|exact L]. pose proof (skipBlank_length n (skipComment (skipWhitespace r))).
  pose proof (skipComment_length (skipWhitespace r)). lia.
Qed.
Lemma skipBlank_gap : forall n s, no_nul s = true -> String.length s <= n ->
  exists g, s = (g ++ skipBlank n s)%string /\ (gap g \/ (skipBlank n s = "" /\ tail_gap g)).
Proof.
  induction n as [|n IH]; intros s Hz Hn.
  - destruct s; [|cbn in Hn; lia]. exists "". split; [reflexivity|left; constructor].
  - cbn [skipBlank]. destruct (skipWhitespace_gap s) as [g [Hg Hs]].
    destruct (String.prefix "--" (skipWhitespace s)) eqn:E; [|exists g; auto].
    destruct (prefix_dashes _ E) as [r Hr]. rewrite Hr in *. change (skipComment (String "-" (String "-" r))) with (skipComment r).
    assert (Hzr : no_nul r = true).
    { rewrite Hs, no_nul_app in Hz. apply andb_true_iff in Hz. destruct Hz as [_ Hz]. exact Hz. }
    assert (Lr : S (S (String.length r)) <= S n).
    { rewrite Hs in Hn. rewrite length_app_s in Hn. cbn in Hn. lia. }
    destruct (skipComment_body r Hzr) as [body [Hb [Hc Hd]]]. pose proof (skipComment_length r) as Lc.
    destruct (IH (skipComment r)) as [g' [Hg' Ht]].
    { rewrite Hc, no_nul_app in Hzr. apply andb_true_iff in Hzr. destruct Hzr as [_ Hzr]. exact Hzr. } { lia. }
    exists (g ++ "--" ++ body ++ g')%string. split.
    { rewrite Hs. rewrite !app_s_assoc. f_equal. change (String "-" (String "-" r)) with ("--" ++ r)%string. f_equal.
      rewrite Hc at 1. rewrite Hg' at 1. reflexivity. }
    destruct Hd as [Hd|[r' Hd]].
    + rewrite Hd in *. assert (G : g' = "" /\ skipBlank n "" = "").
      { destruct g'; [|discriminate Hg']. split; [reflexivity|]. symmetry. exact Hg'. }
      destruct G as [G1 G2]. subst g'. right. split; [exact G2|]. rewrite app_s_nil. constructor 2; assumption.
    + assert (G : exists g'', g' = (nl ++ g'')%string \/ g' = "").
      { destruct g' as [|c g']; [exists ""; right; reflexivity|]. rewrite Hd in Hg'. cbn in Hg'. inversion Hg'. exists g'. left. reflexivity. }
      destruct G as [g'' [G|G]]; subst g'.
      * destruct Ht as [Ht|[Ht1 Ht2]].
        -- left. apply gap_app; [exact Hg|]. inversion Ht as [|? ? _ Hin|]; subst. apply gap_comment; assumption.
        -- right. split; [exact Ht1|].
           assert (Hin : tail_gap g'').
           { inversion Ht2 as [g0 Hg0 Eg|g0 b0 Hg0 Hb0 Eg]; subst.
             - inversion Hg0 as [|? ? _ Hin|]; subst. constructor. exact Hin.
             - destruct g0 as [|c0 g0]; [discriminate Eg|]. cbn in Eg. inversion Eg; subst.
               inversion Hg0 as [|? ? _ Hin|]; subst. constructor 2; assumption. }
           destruct Hin as [h Hh|h b0 Hh Hb0].
           ++ constructor. apply gap_app; [exact Hg|]. apply gap_comment; assumption.
           ++ replace (g ++ "--" ++ body ++ nl ++ h ++ "--" ++ b0)%string with ((g ++ "--" ++ body ++ nl ++ h) ++ "--" ++ b0)%string
                by (rewrite !app_s_assoc; reflexivity).
              constructor 2; [|exact Hb0]. apply gap_app; [exact Hg|]. apply gap_comment; assumption.
      * exfalso. cbn [append] in Hg'. rewrite Hd in Hg'. pose proof (skipBlank_nl n r') as L. rewrite <- Hg' in L. cbn in L. lia.
Qed.
Lemma trim_splits : forall s, no_nul s = true ->
  exists g, s = (g ++ trim s)%string /\ (gap g \/ (trim s = "" /\ tail_gap g)).
Proof. intros s H. apply skipBlank_gap; [exact H|lia]. Qed.

(** * Lossless lexing *)
Lemma string_of_byte_ascii : forall c, (N_of_ascii c < 128)%N -> string_of_byte c = String c "".
Proof. intros c H. unfold string_of_byte. apply N.ltb_lt in H. rewrite H. reflexivity. Qed.
Lemma single_ascii : forall c t, single c = Some t -> string_of_byte c = String c "".
Proof.
  intros c t H. unfold single in H. repeat (match type of H with (if Ascii.eqb ?x ?y then _ else _) = _ => destruct (Ascii.eqb x y) eqn:E;
    [apply Ascii.eqb_eq in E; subst; reflexivity|clear E] end). discriminate H.
Qed.

Lemma scan_text : forall d c s t r, no_nul (String c s) = true -> scan d (String c s) = LTok t r ->
  exists w, String c s = (w ++ r)%string /\ token_text w t.
Proof.
  intros d c s t r Hz H. unfold scan in H.
  assert (One : forall r' t', LTok (mkTok t' (string_of_byte c)) s = LTok t r' -> string_of_byte c = String c "" ->
     exists w, String c s = (w ++ r')%string /\ token_text w t).
  { intros r' t' E Ec. inversion E; subst. exists (String c ""). split; [reflexivity|]. split; [discriminate|]. left. exact Ec. }
  assert (OneI : forall r', LTok (mkTok TOKEN_ILLEGAL (string_of_byte c)) s = LTok t r' ->
     exists w, String c s = (w ++ r')%string /\ token_text w t).
  { intros r' E. destruct (N.ltb (N_of_ascii c) 128) eqn:L; [apply (One _ _ E); apply string_of_byte_ascii; apply N.ltb_lt; exact L|].
    inversion E; subst. exists (String c ""). split; [reflexivity|]. split; [discriminate|]. right. exists c. split; [reflexivity|].
    split; [apply N.ltb_ge; exact L|reflexivity]. }
  destruct (isQuote d c).
  { destruct (readQuoted c s) as [[b r']|] eqn:E; [|discriminate H]. inversion H; subst. apply readQuoted_split in E. subst s.
    exists (String c b). split; [reflexivity|]. split; [discriminate|left; reflexivity]. }
  destruct (has_cast d && Ascii.eqb c "|") eqn:E1.
  { apply andb_true_iff in E1. destruct E1 as [_ E1]. apply Ascii.eqb_eq in E1. subst c.
    destruct s as [|c2 r2]; [eapply OneI; eassumption|]. destruct (Ascii.eqb c2 "|") eqn:E2; [|eapply OneI; eassumption].
    apply Ascii.eqb_eq in E2. subst. inversion H; subst. exists "||". split; [reflexivity|]. split; [discriminate|left; reflexivity]. }
  destruct (has_cast d && Ascii.eqb c ":") eqn:E2.
  { apply andb_true_iff in E2. destruct E2 as [_ E2]. apply Ascii.eqb_eq in E2. subst c.
    destruct s as [|c2 r2]; [eapply OneI; eassumption|]. destruct (Ascii.eqb c2 ":") eqn:E3; [|eapply OneI; eassumption].
    apply Ascii.eqb_eq in E3. subst.
    assert (C2 : forall r', LTok (mkTok TOKEN_TYPECAST "::") r2 = LTok t r' -> exists w, String ":" (String ":" r2) = (w ++ r')%string /\ token_text w t).
    { intros r' E. inversion E; subst. exists "::". split; [reflexivity|]. split; [discriminate|left; reflexivity]. }
    destruct d; try (apply C2; exact H). destruct r2 as [|c3 r3]; [apply C2; exact H|].
    destruct (Ascii.eqb c3 ":") eqn:E4; [|apply C2; exact H]. apply Ascii.eqb_eq in E4. subst. inversion H; subst.
    exists ":::". split; [reflexivity|]. split; [discriminate|left; reflexivity]. }
  destruct (single c) as [k|] eqn:E3; [apply (One _ _ H); apply (single_ascii _ _ E3)|].
  destruct (Ascii.eqb c ch_nul) eqn:E4.
  { unfold no_nul in Hz. cbn [all_bytes] in Hz. rewrite E4 in Hz. discriminate Hz. }
  destruct (isLiteral c) eqn:El; [|eapply OneI; eassumption].
  destruct (readIdentifier (String c s)) as [w r'] eqn:E. inversion H; subst.
  destruct (readIdentifier_nonempty c s w r El E) as [w' Hw]. apply readIdentifier_split in E. exists w. split; [exact E|].
  split; [subst w; discriminate|left; reflexivity].
Qed.

Lemma lex_tiles : forall d s, no_nul s = true -> ~ In boom (lex d s) -> tiles s (lex d s).
Proof.
  intros d s. remember (String.length s) as n eqn:En. revert s En. induction n as [n IH] using lt_wf_ind.
  intros s En Hz Hb. rewrite lex_eq in *. destruct (trim_splits s Hz) as [g [Hg Ht]]. pose proof (trim_length s) as L.
  destruct (trim s) as [|c r] eqn:E.
  - rewrite app_s_nil in Hg. subst g. constructor. destruct Ht as [Ht|[_ Ht]]; [constructor; exact Ht|exact Ht].
  - destruct Ht as [Ht|[Ht _]]; [|discriminate Ht].
    assert (Hz2 : no_nul (String c r) = true).
    { rewrite Hg, no_nul_app in Hz. apply andb_true_iff in Hz. apply Hz. }
    destruct (scan d (String c r)) as [t rest|] eqn:F; [|exfalso; apply Hb; left; reflexivity].
    destruct (scan_text d c r t rest Hz2 F) as [w [Hw Hwt]]. pose proof (scan_length _ _ _ _ _ F) as Lr.
    rewrite Hg, Hw. constructor; [exact Ht|exact Hwt|].
    apply (IH (String.length rest)); [cbn in L; lia|reflexivity| |].
    + rewrite Hw, no_nul_app in Hz2. apply andb_true_iff in Hz2. apply Hz2.
    + intro F'. apply Hb. right. exact F'.
Qed.

(** * A gap between two texts *)

(** Two bytes that may not be brought together: the lexer would read them as part of
    one token (or as the beginning of a comment). *)
Definition joins (l f : ascii) : bool :=
  (isLiteral l && isLiteral f) || (Ascii.eqb l "|" && Ascii.eqb f "|") || (Ascii.eqb l ":" && Ascii.eqb f ":")
  || (Ascii.eqb l "-" && Ascii.eqb f "-").
Definition no_join (a x : string) : Prop :=
  match last_byte a, first_byte x with Some l, Some f => joins l f = false | _, _ => True end.

Lemma mode_quoted : forall d q s x, no_nul s = true -> mode d (InQuote q) s = Outside ->
  exists b r, readQuoted q s = Some (b, r) /\ readQuoted q (s ++ x) = Some (b, r ++ x)%string /\ outside d r /\
    String.length r < String.length s /\ no_nul r = true /\ (last_byte r = None \/ last_byte r = last_byte s).
Proof.
  intros d q s x. induction s as [|c s IH]; intros Hz H; [discriminate H|].
  unfold no_nul in Hz. cbn [all_bytes] in Hz. apply andb_true_iff in Hz. destruct Hz as [Hc Hz]. apply negb_true_iff in Hc.
  cbn [mode] in H. cbn [readQuoted append]. rewrite Hc. destruct (Ascii.eqb c q) eqn:E; cbn [orb].
  - exists (String c ""), s. repeat split; auto. cbn. destruct s; auto.
  - destruct (IH Hz H) as [b [r [H1 [H2 [H3 [H4 [H5 H6]]]]]]]. rewrite H1, H2. exists (String c b), r.
    repeat split; auto; [cbn; lia|]. destruct H6 as [H6|H6]; [auto|]. destruct s; [discriminate H|]. right. exact H6.
Qed.
Lemma mode_comment : forall d s x, no_nul s = true -> mode d InComment s = Outside ->
  exists r, skipComment s = String ch_nl r /\ skipComment (s ++ x) = (String ch_nl r ++ x)%string /\ outside d r /\
    String.length r < String.length s /\ no_nul r = true /\ (last_byte r = None \/ last_byte r = last_byte s).
Proof.
  intros d s x. induction s as [|c s IH]; intros Hz H; [discriminate H|].
  unfold no_nul in Hz. cbn [all_bytes] in Hz. apply andb_true_iff in Hz. destruct Hz as [Hc Hz]. apply negb_true_iff in Hc.
  cbn [mode] in H. cbn [skipComment append]. rewrite Hc. destruct (Ascii.eqb c ch_nl) eqn:E; cbn [orb].
  - apply Ascii.eqb_eq in E. subst c. exists s. repeat split; auto. cbn. destruct s; auto.
  - destruct (IH Hz H) as [r [H1 [H2 [H3 [H4 [H5 H6]]]]]]. exists r. repeat split; auto; [cbn; lia|].
    destruct H6 as [H6|H6]; [auto|]. destruct s; [discriminate H|]. right. exact H6.
Qed.
Lemma readIdentifier_app : forall s x w r, s <> "" -> no_join s x -> readIdentifier s = (w, r) -> readIdentifier (s ++ x) = (w, r ++ x)%string.
Proof.
  induction s as [|c s IH]; intros x w r Hn Hx H; [congruence|]. cbn [readIdentifier append] in *.
  destruct (isLiteral c) eqn:L; [|inversion H; subst; reflexivity]. destruct (readIdentifier s) as [w' r'] eqn:E. inversion H; subst.
  destruct s as [|c2 s].
  - cbn in E. inversion E; subst. destruct x as [|cx x]; [reflexivity|]. unfold no_join, joins in Hx. cbn in Hx. rewrite L in Hx.
    cbn [append readIdentifier]. destruct (isLiteral cx); [discriminate Hx|reflexivity].
  - rewrite (IH x w' r) by (congruence || exact Hx). reflexivity.
Qed.

Lemma literal_mode : forall d c r, isLiteral c = true -> mode d Outside (String c r) = mode d Outside r.
Proof.
  intros d c r H. cbn [mode].
  assert (E : quote_byte d c = false /\ Ascii.eqb c "-" = false).
  { split.
    - unfold quote_byte. destruct (Ascii.eqb c ch_dquote) eqn:E1; [apply Ascii.eqb_eq in E1; subst; discriminate H|].
      destruct (Ascii.eqb c ch_quote) eqn:E2; [apply Ascii.eqb_eq in E2; subst; discriminate H|].
      destruct (Ascii.eqb c ch_bquote) eqn:E3; [apply Ascii.eqb_eq in E3; subst; discriminate H|]. destruct d; reflexivity.
    - destruct (Ascii.eqb c "-") eqn:E1; [apply Ascii.eqb_eq in E1; subst; discriminate H|reflexivity]. }
  destruct E as [E1 E2]. rewrite E1, E2. destruct r; reflexivity.
Qed.
Lemma word_mode : forall d s w r, readIdentifier s = (w, r) -> mode d Outside s = mode d Outside r.
Proof.
  intros d. induction s as [|c s IH]; intros w r H.
  - cbn in H. inversion H; subst. reflexivity.
  - cbn [readIdentifier] in H. destruct (isLiteral c) eqn:E; [|inversion H; subst; reflexivity].
    destruct (readIdentifier s) as [w' r']. inversion H; subst. rewrite literal_mode by exact E. eapply IH. reflexivity.
Qed.
Lemma last_byte_suffix : forall w r, last_byte r = None \/ last_byte r = last_byte (w ++ r).
Proof.
  induction w as [|c w IH]; intro r; [auto|]. destruct (IH r) as [H|H]; [auto|].
  destruct (w ++ r)%string eqn:E; [left; rewrite H; reflexivity|]. right. cbn [append]. rewrite H, E. reflexivity.
Qed.

(** One step outside quotes and comments. *)
Lemma mode_step : forall d c r, quote_byte d c = false -> String.prefix "--" (String c r) = false ->
  mode d Outside (String c r) = mode d Outside r.
Proof.
  intros d c r H1 H2. cbn [mode]. rewrite H1. destruct r as [|c' r]; [reflexivity|].
  destruct (Ascii.eqb c "-" && Ascii.eqb c' "-") eqn:E; [|reflexivity].
  apply andb_true_iff in E. destruct E as [E1 E2]. apply Ascii.eqb_eq in E1, E2. subst. rewrite prefix_dashes_true in H2. discriminate.
Qed.

Lemma scan_app : forall d c s x, no_nul (String c s) = true -> outside d (String c s) -> no_join (String c s) x ->
  isSpace c = false -> String.prefix "--" (String c s) = false ->
  exists t r, scan d (String c s) = LTok t r /\ scan d (String c s ++ x) = LTok t (r ++ x)%string /\ outside d r /\
    String.length r <= String.length s /\ no_nul r = true /\ (last_byte r = None \/ last_byte r = last_byte (String c s)).
Proof.
  intros d c s x Hz Ho Hx Hs Hp. unfold outside in Ho.
  pose proof Hz as Hz'. unfold no_nul in Hz'. cbn [all_bytes] in Hz'. apply andb_true_iff in Hz'. destruct Hz' as [Hcz Hz'].
  fold (no_nul s) in Hz'. apply negb_true_iff in Hcz.
  destruct (quote_byte d c) eqn:Q.
  { cbn [mode] in Ho. rewrite Q in Ho. destruct (mode_quoted d c s x Hz' Ho) as [b [r [H1 [H2 [H3 [H4 [H5 H6]]]]]]].
    exists (mkTok TOKEN_IDENT (String c b)), r. cbn [append scan]. rewrite <- quote_byte_eq, Q, H1, H2. repeat split; auto; [lia|].
    destruct H6 as [H6|H6]; [auto|]. destruct s; [discriminate H1|]. right. exact H6. }
  rewrite (mode_step d c s Q Hp) in Ho.
  assert (Lb : last_byte s = None \/ last_byte s = last_byte (String c s)) by (apply (last_byte_suffix (String c "") s)).
  cbn [append]. unfold scan. rewrite <- quote_byte_eq, Q.
  destruct (has_cast d && Ascii.eqb c "|") eqn:E1.
  { destruct s as [|c2 r2].
    - exists (mkTok TOKEN_ILLEGAL (string_of_byte c)), "". destruct x as [|cx x]; cbn [append]; [repeat split; auto|].
      apply andb_true_iff in E1. destruct E1 as [_ E1]. apply Ascii.eqb_eq in E1. subst c. unfold no_join, joins in Hx. cbn in Hx.
      destruct (Ascii.eqb cx "|"); [discriminate Hx|]. repeat split; auto.
    - cbn [append]. destruct (Ascii.eqb c2 "|") eqn:E2.
      + exists (mkTok TOKEN_STRING_CONCAT "||"), r2. apply Ascii.eqb_eq in E2. subst c2.
        assert (Q2 : quote_byte d "|" = false) by (destruct d; reflexivity).
        rewrite mode_step in Ho by (exact Q2 || reflexivity).
        repeat split; auto; [cbn; lia|].
        change (String c (String "|" r2)) with (String c (String "|" "") ++ r2)%string. apply last_byte_suffix.
      + exists (mkTok TOKEN_ILLEGAL (string_of_byte c)), (String c2 r2). repeat split; auto. }
  destruct (has_cast d && Ascii.eqb c ":") eqn:E2.
  { destruct s as [|c2 r2].
    - exists (mkTok TOKEN_ILLEGAL (string_of_byte c)), "". destruct x as [|cx x]; cbn [append]; [repeat split; auto|].
      apply andb_true_iff in E2. destruct E2 as [_ E2]. apply Ascii.eqb_eq in E2. subst c. unfold no_join, joins in Hx. cbn in Hx.
      destruct (Ascii.eqb cx ":"); [discriminate Hx|]. repeat split; auto.
    - cbn [append]. destruct (Ascii.eqb c2 ":") eqn:E3.
      + apply Ascii.eqb_eq in E3. subst c2.
        assert (Q2 : quote_byte d ":" = false) by (destruct d; reflexivity).
        rewrite mode_step in Ho by (exact Q2 || reflexivity).
        assert (Two : exists t r, LTok (mkTok TOKEN_TYPECAST "::") r2 = LTok t r /\ LTok (mkTok TOKEN_TYPECAST "::") (r2 ++ x)%string = LTok t (r ++ x)%string /\
           outside d r /\ String.length r <= String.length (String ":" r2) /\ no_nul r = true /\
           (last_byte r = None \/ last_byte r = last_byte (String c (String ":" r2)))).
        { exists (mkTok TOKEN_TYPECAST "::"), r2. repeat split; auto; [cbn; lia|].
          change (String c (String ":" r2)) with (String c (String ":" "") ++ r2)%string. apply last_byte_suffix. }
        destruct d; try exact Two.
        destruct r2 as [|c3 r3].
        * cbn [append]. destruct x as [|cx x]; [exact Two|]. unfold no_join, joins in Hx. cbn in Hx.
          destruct (Ascii.eqb cx ":"); [discriminate Hx|]. exact Two.
        * cbn [append]. destruct (Ascii.eqb c3 ":") eqn:E4; [|exact Two]. apply Ascii.eqb_eq in E4. subst c3.
          rewrite mode_step in Ho by reflexivity.
          exists (mkTok TOKEN_TYPE_ANNOTATION ":::"), r3. repeat split; auto; [cbn; lia|].
          change (String c (String ":" (String ":" r3))) with (String c (String ":" (String ":" "")) ++ r3)%string. apply last_byte_suffix.
      + exists (mkTok TOKEN_ILLEGAL (string_of_byte c)), (String c2 r2). repeat split; auto. }
  destruct (single c) as [k|]; [exists (mkTok k (string_of_byte c)), s; repeat split; auto|].
  rewrite Hcz. destruct (isLiteral c) eqn:El; [|exists (mkTok TOKEN_ILLEGAL (string_of_byte c)), s; repeat split; auto].
  destruct (readIdentifier (String c s)) as [w r] eqn:E.
  change (String c (s ++ x)) with (String c s ++ x)%string. rewrite (readIdentifier_app (String c s) x w r) by (discriminate || assumption).
  exists (mkTok (lookupIdent d w) w), r. destruct (readIdentifier_nonempty c s w r El E) as [w' Hw].
  pose proof (readIdentifier_split _ _ _ E) as Es.
  repeat split; auto.
  - unfold outside. rewrite <- (word_mode d _ _ _ E). rewrite literal_mode by exact El. exact Ho.
  - subst w. cbn in Es. inversion Es as [Es']. rewrite length_app_s. lia.
  - rewrite Es, no_nul_app in Hz. apply andb_true_iff in Hz. apply Hz.
  - rewrite Es. apply last_byte_suffix.
Qed.

Lemma blank_joins : forall l c, isSpace c = true -> joins l c = false.
Proof.
  intros l c Hs. unfold isSpace in Hs. unfold joins.
  assert (H : isLiteral c = false /\ Ascii.eqb c "|" = false /\ Ascii.eqb c ":" = false /\ Ascii.eqb c "-" = false).
  { apply orb_true_iff in Hs. destruct Hs as [Hs|Hs]; [|apply Ascii.eqb_eq in Hs; subst; auto].
    apply orb_true_iff in Hs. destruct Hs as [Hs|Hs]; [|apply Ascii.eqb_eq in Hs; subst; auto].
    apply orb_true_iff in Hs. destruct Hs as [Hs|Hs]; apply Ascii.eqb_eq in Hs; subst; auto. }
  destruct H as [H1 [H2 [H3 H4]]]. rewrite H1, H2, H3, H4. repeat rewrite andb_false_r. reflexivity.
Qed.
Lemma dash_joins : forall l, l <> "-"%char -> joins l "-" = false.
Proof.
  intros l H. unfold joins. rewrite !andb_false_r. destruct (Ascii.eqb l "-") eqn:E; [apply Ascii.eqb_eq in E; congruence|reflexivity].
Qed.
Lemma gap_no_join : forall a g c, gap g -> separates a g -> no_join a (g ++ c)%string.
Proof.
  intros a g c Hg [Hn Hs]. unfold no_join. destruct (last_byte a) as [l|]; [|exact I].
  destruct Hg as [|x r H _|body r _ _]; [congruence| |].
  - apply blank_joins. exact H.
  - apply dash_joins. destruct Hs as [Hs|Hs]; [congruence|]. exfalso. apply Hs. reflexivity.
Qed.
Lemma tail_gap_no_join : forall a g, tail_gap g -> (last_byte a <> Some "-"%char \/ first_byte g <> Some "-"%char) -> no_join a g.
Proof.
  intros a g H Hs. destruct g as [|x g].
  - unfold no_join. destruct (last_byte a); exact I.
  - unfold no_join. destruct (last_byte a) as [l|]; [|exact I]. cbn [first_byte].
    assert (Hx : isSpace x = true \/ x = "-"%char).
    { inversion H as [h Hg|h body Hg _ E]; subst.
      - inversion Hg; subst; [left|right]; auto.
      - destruct h as [|xh h]; [right; cbn in E; congruence|]. cbn in E. inversion E; subst.
        inversion Hg; subst; [left|right]; auto. }
    destruct Hx as [Hx|Hx]; [apply blank_joins; exact Hx|]. subst x. apply dash_joins.
    destruct Hs as [Hs|Hs]; [congruence|]. exfalso. apply Hs. reflexivity.
Qed.

(** Text outside quotes and comments, then something that starts like a gap. *)
Lemma lex_outside_app : forall d a x, no_nul a = true -> outside d a -> no_join a x ->
  lex d (a ++ x)%string = (lex d a ++ lex d x)%list.
Proof.
  intros d a x. remember (String.length a) as n eqn:En. revert a En. induction n as [n IH] using lt_wf_ind.
  intros a En Hz Ho Hx. subst n. destruct a as [|c s]; [reflexivity|].
  assert (Hz' : no_nul s = true).
  { unfold no_nul in Hz. cbn [all_bytes] in Hz. apply andb_true_iff in Hz. apply Hz. }
  assert (Lb : forall r, last_byte r = None \/ last_byte r = last_byte (String c s) -> no_join r x).
  { intros r [H|H]; unfold no_join; rewrite H; [exact I|exact Hx]. }
  destruct (isSpace c) eqn:Hs.
  { assert (Q : quote_byte d c = false /\ Ascii.eqb c "-" = false).
    { unfold isSpace in Hs. apply orb_true_iff in Hs. destruct Hs as [Hs|Hs]; [|apply Ascii.eqb_eq in Hs; subst; destruct d; auto].
      apply orb_true_iff in Hs. destruct Hs as [Hs|Hs]; [|apply Ascii.eqb_eq in Hs; subst; destruct d; auto].
      apply orb_true_iff in Hs. destruct Hs as [Hs|Hs]; apply Ascii.eqb_eq in Hs; subst; destruct d; auto. }
    destruct Q as [Q1 Q2]. cbn [append]. rewrite !lex_space by exact Hs. apply (IH (String.length s)); try assumption; [cbn; lia|reflexivity| |].
    - unfold outside in *. cbn [mode] in Ho. rewrite Q1, Q2 in Ho. destruct s; [reflexivity|exact Ho].
    - apply Lb. apply (last_byte_suffix (String c "") s). }
  destruct (String.prefix "--" (String c s)) eqn:Hp.
  { destruct (prefix_dashes _ Hp) as [r Hr]. inversion Hr; subst c s.
    assert (Hm : mode d InComment r = Outside).
    { unfold outside in Ho. cbn [mode] in Ho. assert (Q : quote_byte d "-" = false) by (destruct d; reflexivity).
      rewrite Q in Ho. cbn in Ho. exact Ho. }
    assert (Hzr : no_nul r = true) by (cbn in Hz'; exact Hz').
    destruct (mode_comment d r x Hzr Hm) as [r' [H1 [H2 [H3 [H4 [H5 H6]]]]]].
    rewrite (lex_comment d (String "-" (String "-" r))) by exact Hp.
    rewrite (lex_comment d (String "-" (String "-" r) ++ x)) by apply prefix_dashes_true.
    change (skipComment (String "-" (String "-" r) ++ x)) with (skipComment (r ++ x)).
    change (skipComment (String "-" (String "-" r))) with (skipComment r). rewrite H1, H2. cbn [append].
    rewrite !lex_space by reflexivity. apply (IH (String.length r')); try assumption; [cbn; lia|reflexivity|].
    apply Lb. destruct H6 as [H6|H6]; [auto|]. right. rewrite H6. destruct r as [|cr r]; [discriminate H1|]. reflexivity. }
  destruct (scan_app d c s x Hz Ho Hx Hs Hp) as [t [r [H1 [H2 [H3 [H4 [H5 H6]]]]]]].
  assert (Hp2 : String.prefix "--" (String c s ++ x) = false).
  { destruct (String.prefix "--" (String c s ++ x)) eqn:F; [|reflexivity]. exfalso. destruct (prefix_dashes _ F) as [rr Hr].
    cbn in Hr. inversion Hr as [[Hc Hrest]]. subst c. destruct s as [|c2 s].
    - cbn in Hrest. destruct x as [|cx x]; [discriminate Hrest|]. inversion Hrest; subst cx. discriminate Hx.
    - cbn in Hrest. inversion Hrest; subst c2. rewrite prefix_dashes_true in Hp. discriminate. }
  cbn [append] in *. rewrite (lex_scan d c s t r Hs Hp H1), (lex_scan d c _ t _ Hs Hp2 H2). cbn [app]. f_equal.
  apply (IH (String.length r)); try assumption; [cbn; lia|reflexivity|apply Lb; exact H6].
Qed.

Lemma lex_gap_between : forall d a g c, no_nul a = true -> outside d a -> gap g -> separates a g ->
  lex d (a ++ g ++ c)%string = (lex d a ++ lex d c)%list.
Proof.
  intros d a g c Hz Ho Hg Hs. rewrite lex_outside_app by (assumption || apply gap_no_join; assumption).
  rewrite lex_gap_start by exact Hg. reflexivity.
Qed.
Lemma lex_gap_end : forall d a g, no_nul a = true -> outside d a -> tail_gap g ->
  (last_byte a <> Some "-"%char \/ first_byte g <> Some "-"%char) -> lex d (a ++ g)%string = lex d a.
Proof.
  intros d a g Hz Ho Hg Hs. rewrite lex_outside_app by (assumption || apply tail_gap_no_join; assumption).
  rewrite (lex_tail_gap d g Hg). apply app_nil_r.
Qed.
