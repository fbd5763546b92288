(** The lexer: independence of the fuel, equations for [lex]. *)
From Coq Require Import Lia.
From Verif Require Import GoStr Token Lexer.

Lemma length_app_s : forall a b, String.length (a ++ b) = String.length a + String.length b.
Proof. induction a as [|c a IH]; intro b; [reflexivity|]. cbn. rewrite IH. reflexivity. Qed.
Lemma app_s_assoc : forall a b c : string, ((a ++ b) ++ c = a ++ (b ++ c))%string.
Proof. induction a as [|x a IH]; intros b c; [reflexivity|]. cbn. rewrite IH. reflexivity. Qed.
Lemma app_s_nil : forall a : string, (a ++ "" = a)%string.
Proof. induction a as [|x a IH]; [reflexivity|]. cbn. rewrite IH. reflexivity. Qed.

(** * Blank text *)
Lemma skipWhitespace_length : forall s, String.length (skipWhitespace s) <= String.length s.
Proof. induction s as [|c r IH]; cbn; [lia|]. destruct (isSpace c); cbn; lia. Qed.
Lemma skipComment_length : forall s, String.length (skipComment s) <= String.length s.
Proof. induction s as [|c r IH]; cbn; [lia|]. destruct (_ || _); cbn; lia. Qed.

Lemma prefix_dashes : forall s, String.prefix "--" s = true -> exists r, s = String "-" (String "-" r).
Proof.
  intros [|a r] H; [discriminate H|].
  change (String.prefix "--" (String a r)) with (if ascii_dec "-" a then String.prefix "-" r else false) in H.
  destruct (ascii_dec "-" a); [|discriminate H]. destruct r as [|b r]; [discriminate H|].
  change (String.prefix "-" (String b r)) with (if ascii_dec "-" b then String.prefix "" r else false) in H.
  destruct (ascii_dec "-" b); [|discriminate H]. subst. eauto.
Qed.
Lemma prefix_dashes_true : forall r, String.prefix "--" (String "-" (String "-" r)) = true.
Proof. intro r. cbn. destruct r; reflexivity. Qed.

Arguments String.prefix : simpl never.

Lemma skipBlank_more : forall n m s, String.length s <= n -> String.length s <= m -> skipBlank n s = skipBlank m s.
Proof.
  induction n as [|n IH]; intros m s Hn Hm.
  - destruct s; [|cbn in Hn; lia]. destruct m; reflexivity.
  - cbn [skipBlank]. pose proof (skipWhitespace_length s) as L. destruct (String.prefix "--" (skipWhitespace s)) eqn:E.
    + destruct (prefix_dashes _ E) as [r Hr]. pose proof (skipComment_length r) as Lc. rewrite Hr in *. cbn in L.
      destruct m as [|m]; [cbn in Hm; lia|]. cbn [skipBlank]. rewrite Hr, E. apply IH; cbn; lia.
    + destruct m as [|m]; cbn [skipBlank]; [reflexivity|]. rewrite E. reflexivity.
Qed.

(** The text behind leading blanks and comments. *)
Definition trim (s : string) : string := skipBlank (String.length s) s.

Lemma trim_nil : trim "" = "".
Proof. reflexivity. Qed.
Lemma trim_space : forall c r, isSpace c = true -> trim (String c r) = trim r.
Proof.
  intros c r H. unfold trim. cbn [String.length]. destruct (String.length r) as [|n] eqn:E.
  - destruct r; [|discriminate E]. cbn. rewrite H. reflexivity.
  - rewrite <- E. rewrite (skipBlank_more (String.length r) (S (String.length r)) r) by lia.
    cbn [skipBlank skipWhitespace]. rewrite H. reflexivity.
Qed.
Lemma trim_comment : forall s, String.prefix "--" s = true -> trim s = trim (skipComment s).
Proof.
  intros s H. destruct (prefix_dashes _ H) as [r Hr]. unfold trim. pose proof (skipComment_length r) as L.
  assert (E : forall n, skipBlank (S n) s = skipBlank n (skipComment s)).
  { intro n. subst s. cbn [skipBlank]. change (skipWhitespace (String "-" (String "-" r))) with (String "-" (String "-" r)).
    rewrite H. reflexivity. }
  replace (String.length s) with (S (S (String.length r))) by (subst s; reflexivity). rewrite E.
  apply skipBlank_more; subst s; cbn; lia.
Qed.
Lemma trim_stop : forall c r, isSpace c = false -> String.prefix "--" (String c r) = false -> trim (String c r) = String c r.
Proof. intros c r H1 H2. unfold trim. cbn [String.length skipBlank skipWhitespace]. rewrite H1. cbn iota. rewrite H2. reflexivity. Qed.
Lemma trim_length : forall s, String.length (trim s) <= String.length s.
Proof.
  assert (H : forall n s, String.length (skipBlank n s) <= String.length s).
  { induction n as [|n IH]; intro s; cbn [skipBlank]; pose proof (skipWhitespace_length s); [exact H|].
    destruct (String.prefix _ _); [|exact H]. pose proof (IH (skipComment (skipWhitespace s))). pose proof (skipComment_length (skipWhitespace s)). lia. }
  intro s. apply H.
Qed.

(** * Tokens *)
Lemma readIdentifier_split : forall s w r, readIdentifier s = (w, r) -> (s = w ++ r)%string.
Proof.
  induction s as [|c s IH]; intros w r H; cbn in H.
  - inversion H; subst. reflexivity.
  - destruct (isLiteral c); [|inversion H; subst; reflexivity]. destruct (readIdentifier s) as [w' r'].
    inversion H; subst. cbn. rewrite (IH w' r eq_refl). reflexivity.
Qed.
Lemma readIdentifier_nonempty : forall c s w r, isLiteral c = true -> readIdentifier (String c s) = (w, r) -> exists w', w = String c w'.
Proof.
  intros c s w r H E. cbn in E. rewrite H in E. destruct (readIdentifier s) as [w' r']. inversion E; subst. eauto.
Qed.
Lemma readQuoted_split : forall q s b r, readQuoted q s = Some (b, r) -> (s = b ++ r)%string.
Proof.
  intros q. induction s as [|c s IH]; intros b r H; cbn in H; [discriminate H|].
  destruct (_ || _); [inversion H; subst; reflexivity|]. destruct (readQuoted q s) as [[b' r']|]; [|discriminate H].
  inversion H; subst. cbn. rewrite (IH b' r eq_refl). reflexivity.
Qed.

Lemma scan_length : forall d c s t r, scan d (String c s) = LTok t r -> String.length r <= String.length s.
Proof.
  intros d c s t r H. unfold scan in H.
  destruct (isQuote d c).
  { destruct (readQuoted c s) as [[b r']|] eqn:E; [|discriminate H]. inversion H; subst. apply readQuoted_split in E. subst s. rewrite length_app_s. lia. }
  destruct (has_cast d && Ascii.eqb c "|").
  { destruct s as [|c2 r2]; [inversion H; subst; cbn; lia|]. destruct (Ascii.eqb c2 "|"); inversion H; subst; cbn; lia. }
  destruct (has_cast d && Ascii.eqb c ":").
  { destruct s as [|c2 r2]; [inversion H; subst; cbn; lia|]. destruct (Ascii.eqb c2 ":"); [|inversion H; subst; cbn; lia].
    destruct d; try (inversion H; subst; cbn; lia). destruct r2 as [|c3 r3]; [inversion H; subst; cbn; lia|].
    destruct (Ascii.eqb c3 ":"); inversion H; subst; cbn; lia. }
  destruct (single c); [inversion H; subst; lia|]. destruct (Ascii.eqb c ch_nul); [inversion H; subst; lia|].
  destruct (isLiteral c) eqn:El; [|inversion H; subst; lia].
  destruct (readIdentifier (String c s)) as [w r'] eqn:E. inversion H; subst.
  destruct (readIdentifier_nonempty c s w r El E) as [w' Hw]. apply readIdentifier_split in E. subst w. cbn in E. inversion E as [E1].
  rewrite length_app_s. lia.
Qed.

Lemma lex_fuel_more : forall n m d s, String.length s < n -> String.length s < m -> lex_fuel n d s = lex_fuel m d s.
Proof.
  induction n as [|n IH]; intros m d s Hn Hm; [lia|]. destruct m as [|m]; [lia|]. cbn [lex_fuel]. fold (trim s).
  pose proof (trim_length s) as L. destruct (trim s) as [|c r] eqn:E; [reflexivity|].
  destruct (scan d (String c r)) as [t rest|] eqn:F; [|reflexivity]. f_equal.
  apply scan_length in F. cbn in L. apply IH; lia.
Qed.

(** The defining equation of [lex]. *)
Lemma lex_eq : forall d s, lex d s =
  match trim s with
  | EmptyString => []
  | s' => match scan d s' with LTok t rest => t :: lex d rest | LPanic => [boom] end
  end.
Proof.
  intros d s. unfold lex at 1. cbn [lex_fuel]. fold (trim s). pose proof (trim_length s) as L.
  destruct (trim s) as [|c r]; [reflexivity|]. destruct (scan d (String c r)) as [t rest|] eqn:F; [|reflexivity].
  f_equal. apply scan_length in F. cbn in L. unfold lex. apply lex_fuel_more; lia.
Qed.
Lemma lex_nil : forall d, lex d "" = [].
Proof. reflexivity. Qed.
Lemma lex_trim : forall d a b, trim a = trim b -> lex d a = lex d b.
Proof. intros d a b H. rewrite (lex_eq d a), (lex_eq d b), H. reflexivity. Qed.
Lemma lex_space : forall d c r, isSpace c = true -> lex d (String c r) = lex d r.
Proof. intros d c r H. apply lex_trim. apply trim_space. exact H. Qed.
Lemma lex_comment : forall d s, String.prefix "--" s = true -> lex d s = lex d (skipComment s).
Proof. intros d s H. apply lex_trim. apply trim_comment. exact H. Qed.
Lemma lex_scan : forall d c r t rest, isSpace c = false -> String.prefix "--" (String c r) = false ->
  scan d (String c r) = LTok t rest -> lex d (String c r) = t :: lex d rest.
Proof. intros d c r t rest H1 H2 H3. rewrite lex_eq, trim_stop by assumption. rewrite H3. reflexivity. Qed.
