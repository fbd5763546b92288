(** Tokens of the printed text of a schema (for C08). *)
From Coq Require Import Lia.
From Verif Require Import GoStr Token Lexer LexerFacts LexSpec LexLayout LexKeyword LexPanic Ast Parser Printable.

(** * Texts that can be cut out of a larger text *)

Definition inert (c : ascii) : bool :=
  negb (isLiteral c) && negb (Ascii.eqb c "|") && negb (Ascii.eqb c ":") && negb (Ascii.eqb c "-").
(** [r] does not continue a token in front of it. *)
Definition stop (r : string) : Prop := match first_byte r with Some c => inert c = true | None => True end.
Definition nb (ts : list token) : Prop := Forall (fun t => tk_type t <> TOKEN_BOOM) ts.
(** [s] is read as the tokens [ts] if a stop follows; whatever follows. *)
Definition TT (d : dialect) (s : string) (ts : list token) : Prop :=
  nb ts /\ forall r, stop r -> lex d (s ++ r) = (ts ++ lex d r)%list.
Definition FF (d : dialect) (s : string) (ts : list token) : Prop :=
  nb ts /\ forall r, lex d (s ++ r) = (ts ++ lex d r)%list.
(** [s] begins with a stop. *)
Definition lead (s : string) : Prop := forall r, stop r -> stop (s ++ r).
Definition lead1 (s : string) : Prop := forall r, stop (s ++ r).

Lemma nb_app : forall a b, nb a -> nb b -> nb (a ++ b)%list.
Proof. intros. apply Forall_app; auto. Qed.
Lemma nb_tail : forall t p, nb (t :: p) -> nb p.
Proof. intros t p H. inversion H; assumption. Qed.
Lemma nb_app_r : forall a b, nb (a ++ b)%list -> nb b.
Proof. intros a b H. apply Forall_app in H. apply H. Qed.
Lemma nb_nil : nb [].
Proof. constructor. Qed.

Lemma FF_TT : forall d s ts, FF d s ts -> TT d s ts.
Proof. intros d s ts [H1 H2]. split; auto. Qed.
Lemma TT_nil : forall d, TT d "" [].
Proof. split; [constructor|reflexivity]. Qed.
Lemma FF_nil : forall d, FF d "" [].
Proof. split; [constructor|reflexivity]. Qed.
Lemma TT_TT : forall d a ta b tb, TT d a ta -> TT d b tb -> lead b -> TT d (a ++ b) (ta ++ tb).
Proof.
  intros d a ta b tb [A1 A2] [B1 B2] L. split; [apply nb_app; assumption|]. intros r Hr.
  rewrite app_s_assoc, A2 by (apply L, Hr). rewrite B2 by exact Hr. apply app_assoc.
Qed.
Lemma FF_TT_app : forall d a ta b tb, FF d a ta -> TT d b tb -> TT d (a ++ b) (ta ++ tb).
Proof.
  intros d a ta b tb [A1 A2] [B1 B2]. split; [apply nb_app; assumption|]. intros r Hr.
  rewrite app_s_assoc, A2, B2 by exact Hr. apply app_assoc.
Qed.
Lemma FF_FF_app : forall d a ta b tb, FF d a ta -> FF d b tb -> FF d (a ++ b) (ta ++ tb).
Proof.
  intros d a ta b tb [A1 A2] [B1 B2]. split; [apply nb_app; assumption|]. intros r.
  rewrite app_s_assoc, A2, B2. apply app_assoc.
Qed.
Lemma TT_FF_app : forall d a ta b tb, TT d a ta -> FF d b tb -> lead1 b -> FF d (a ++ b) (ta ++ tb).
Proof.
  intros d a ta b tb [A1 A2] [B1 B2] L. split; [apply nb_app; assumption|]. intros r.
  rewrite app_s_assoc, A2, B2 by (apply L). apply app_assoc.
Qed.
Lemma lead1_lead : forall s, lead1 s -> lead s.
Proof. intros s H r _. apply H. Qed.
Lemma lead_nil : lead "".
Proof. intros r H. exact H. Qed.
Lemma lead1_byte : forall c s, inert c = true -> lead1 (String c s).
Proof. intros c s H r. exact H. Qed.
Lemma lead1_app : forall a b, lead1 a -> lead1 (a ++ b).
Proof. intros a b H r. rewrite app_s_assoc. apply H. Qed.
Lemma lead_app : forall a b, lead a -> lead b -> lead (a ++ b).
Proof. intros a b Ha Hb r Hr. rewrite app_s_assoc. apply Ha, Hb, Hr. Qed.
Lemma stop_nil : stop "".
Proof. exact I. Qed.

(** * Closed texts *)

Lemma stop_no_join : forall a r, stop r -> no_join a r.
Proof.
  intros a r H. unfold no_join. destruct (last_byte a) as [l|]; [|exact I]. unfold stop in H.
  destruct (first_byte r) as [c|]; [|exact I]. unfold inert in H.
  apply andb_true_iff in H. destruct H as [H H4]. apply andb_true_iff in H. destruct H as [H H3].
  apply andb_true_iff in H. destruct H as [H1 H2]. apply negb_true_iff in H1, H2, H3, H4.
  unfold joins. rewrite H1, H2, H3, H4. repeat rewrite andb_false_r. reflexivity.
Qed.
Lemma inert_last : forall a l r, last_byte a = Some l -> inert l = true -> no_join a r.
Proof.
  intros a l r H Hi. unfold no_join. rewrite H. destruct (first_byte r) as [c|]; [|exact I]. unfold inert in Hi.
  apply andb_true_iff in Hi. destruct Hi as [Hi H4]. apply andb_true_iff in Hi. destruct Hi as [Hi H3].
  apply andb_true_iff in Hi. destruct Hi as [H1 H2]. apply negb_true_iff in H1, H2, H3, H4.
  unfold joins. rewrite H1, H2, H3, H4. reflexivity.
Qed.
Lemma closed_nb : forall d s, no_nul s = true -> outside d s -> nb (lex d s).
Proof.
  intros d s Hz Ho. apply Forall_forall. intros t Ht. 
  assert (Hm : forall q, mode d Outside s <> InQuote q) by (intros q E; unfold outside in Ho; congruence).
  pose proof (lex_no_boom d s Hz Hm) as H. rewrite forallb_forall in H. specialize (H t Ht).
  apply negb_true_iff, String.eqb_neq in H. exact H.
Qed.
Lemma closed_TT : forall d s, no_nul s = true -> outside d s -> TT d s (lex d s).
Proof.
  intros d s Hz Ho. split; [apply closed_nb; assumption|]. intros r Hr. apply lex_outside_app; auto. apply stop_no_join, Hr.
Qed.
Lemma closed_FF : forall d s l, no_nul s = true -> outside d s -> last_byte s = Some l -> inert l = true -> FF d s (lex d s).
Proof.
  intros d s l Hz Ho Hl Hi. split; [apply closed_nb; assumption|]. intros r. apply lex_outside_app; auto.
  apply (inert_last s l); assumption.
Qed.

(** * The pieces of a text *)

(** The token of a word. *)
Definition W (d : dialect) (w : string) : token := mkTok (lookupIdent d w) w.
Definition tI (raw : string) : token := mkTok TOKEN_IDENT raw.
Definition tOpen : token := mkTok TOKEN_OPEN_PAREN "(".
Definition tClose : token := mkTok TOKEN_CLOSE_PAREN ")".
Definition tComma : token := mkTok TOKEN_COMMA ",".
Definition tSemi : token := mkTok TOKEN_SEMICOLON ";".
Definition tEqual : token := mkTok TOKEN_EQUAL "=".

Lemma TT_lex : forall d s ts, TT d s ts -> lex d s = ts.
Proof.
  intros d s ts [_ H]. specialize (H "" I). rewrite app_s_nil in H. rewrite lex_nil, app_nil_r in H. exact H.
Qed.
Lemma nb1 : forall t, tk_type t <> TOKEN_BOOM -> nb [t].
Proof. intros t H. constructor; [exact H|constructor]. Qed.

Lemma is_word_all : forall w, is_word w = true -> all_bytes isLiteral w = true /\ w <> "".
Proof.
  intros w H. unfold is_word in H. apply andb_true_iff in H. destruct H as [H1 H2].
  apply negb_true_iff, String.eqb_neq in H1. split; [|exact H1].
  revert H2. clear. induction w as [|c w IH]; [reflexivity|]. cbn [all_bytes]. intro H.
  apply andb_true_iff in H. destruct H as [Hc Hw]. rewrite <- word_byte_eq, Hc. apply IH, Hw.
Qed.
Lemma word_TT : forall d w, is_word w = true -> TT d w [W d w].
Proof.
  intros d w H. destruct (is_word_all w H) as [H1 H2]. split.
  - apply nb1. apply (lookup_ordinary d w).
  - intros r Hr. rewrite lex_word; auto. unfold stop in Hr. destruct (first_byte r) as [c|]; [|exact I].
    unfold inert in Hr. destruct (isLiteral c); [discriminate Hr|reflexivity].
Qed.

Lemma closed_by_read : forall q s x, closed_by q s = true -> readQuoted q (s ++ x) = Some (s, x).
Proof.
  intros q. induction s as [|c s IH]; intros x H; [discriminate H|]. cbn [append readQuoted].
  destruct s as [|c' s].
  - cbn in H. rewrite H. reflexivity.
  - change (closed_by q (String c (String c' s))) with
      (negb (Ascii.eqb c q) && negb (Ascii.eqb c ch_nul) && closed_by q (String c' s)) in H.
    apply andb_true_iff in H. destruct H as [H H3]. apply andb_true_iff in H. destruct H as [H1 H2].
    apply negb_true_iff in H1, H2. rewrite H1, H2. cbn [orb]. rewrite (IH x H3). reflexivity.
Qed.
Lemma quote_not : forall d c, quote_byte d c = true -> isSpace c = false /\ Ascii.eqb c "-" = false.
Proof.
  intros d c H. unfold quote_byte in H. apply orb_true_iff in H. destruct H as [H|H].
  - apply orb_true_iff in H. destruct H as [H|H]; apply Ascii.eqb_eq in H; subst c; split; reflexivity.
  - destruct d; try discriminate H; apply Ascii.eqb_eq in H; subst c; split; reflexivity.
Qed.
Lemma quoted_FF : forall d s, quoted_text d s = true -> FF d s [tI s].
Proof.
  intros d s H. destruct s as [|q s]; [discriminate H|]. cbn [quoted_text] in H. apply andb_true_iff in H. destruct H as [Hq Hc].
  split; [apply nb1; discriminate|]. intros r. cbn [append]. destruct (quote_not d q Hq) as [Hs Hd].
  rewrite (lex_scan d q (s ++ r) (tI (String q s)) r); [reflexivity|exact Hs|apply not_dash_prefix, Hd|].
  cbn [scan]. rewrite <- quote_byte_eq, Hq, (closed_by_read q s r Hc). reflexivity.
Qed.

(** The type of a one-byte token. *)
Definition sign_type (c : ascii) : tokentype := match single c with Some t => t | None => TOKEN_ILLEGAL end.
Lemma sign_facts : forall d c, sign d (String c "") = true ->
  (N_of_ascii c < 128)%N /\ isLiteral c = false /\ isSpace c = false /\ isQuote d c = false /\ Ascii.eqb c ch_nul = false
  /\ Ascii.eqb c "(" = false /\ Ascii.eqb c ")" = false.
Proof.
  intros d c H. cbn [sign] in H. repeat (apply andb_true_iff in H; let K := fresh "K" in destruct H as [H K]).
  apply N.ltb_lt in H. repeat match goal with K : negb _ = true |- _ => apply negb_true_iff in K end.
  rewrite <- word_byte_eq, <- is_blank_eq, <- quote_byte_eq. auto 10.
Qed.
Lemma sign_TT : forall d c, sign d (String c "") = true -> TT d (String c "") [mkTok (sign_type c) (String c "")].
Proof.
  intros d c H. destruct (sign_facts d c H) as [H1 [H2 [H3 [H4 [H5 _]]]]]. split.
  - apply nb1. unfold sign_type. cbn [tk_type]. clear. destruct (single c) as [t|] eqn:E; [|discriminate].
    unfold single in E. repeat match goal with E : (if ?b then _ else _) = _ |- _ => destruct b; [inversion E; subst; discriminate|] end. discriminate E.
  - intros r Hr. cbn [append].
    assert (Hp : String.prefix "--" (String c r) = false).
    { destruct (Ascii.eqb c "-") eqn:Ec; [|apply not_dash_prefix, Ec]. apply Ascii.eqb_eq in Ec. subst c.
      destruct r as [|c2 r]; [reflexivity|]. unfold stop, first_byte, inert in Hr.
      change (String.prefix "--" (String "-" (String c2 r))) with (String.prefix "-" (String c2 r)).
      unfold String.prefix. destruct (ascii_dec "-" c2) as [E|]; [|reflexivity]. subst c2. discriminate Hr. }
    rewrite (lex_scan d c r (mkTok (sign_type c) (String c "")) r); [reflexivity|exact H3|exact Hp|].
    cbn [scan]. rewrite H4.
    assert (K : Ascii.eqb c "|" = true \/ Ascii.eqb c ":" = true ->
        match r with String c2 _ => Ascii.eqb c2 "|" = false /\ Ascii.eqb c2 ":" = false | "" => True end).
    { intros _. destruct r as [|c2 r]; [exact I|]. unfold stop, first_byte, inert in Hr.
      apply andb_true_iff in Hr. destruct Hr as [Hr _]. apply andb_true_iff in Hr. destruct Hr as [Hr Q2].
      apply andb_true_iff in Hr. destruct Hr as [_ Q1]. apply negb_true_iff in Q1, Q2. auto. }
    unfold sign_type. destruct (has_cast d && Ascii.eqb c "|") eqn:E1.
    { apply andb_true_iff in E1. destruct E1 as [_ E1]. specialize (K (or_introl E1)). apply Ascii.eqb_eq in E1. subst c.
      destruct r as [|c2 r]; [reflexivity|]. destruct K as [K _]. rewrite K. reflexivity. }
    destruct (has_cast d && Ascii.eqb c ":") eqn:E2.
    { apply andb_true_iff in E2. destruct E2 as [_ E2]. specialize (K (or_intror E2)). apply Ascii.eqb_eq in E2. subst c.
      destruct r as [|c2 r]; [reflexivity|]. destruct K as [_ K]. rewrite K. reflexivity. }
    destruct (single c) as [t|] eqn:E3; [rewrite (single_ascii c t E3); reflexivity|].
    rewrite H5, H2, (string_of_byte_ascii c H1). reflexivity.
Qed.

(** Closed literals of the printers. *)
Lemma lit_TT : forall d s ts, no_nul s = true -> outside d s -> lex d s = ts -> TT d s ts.
Proof. intros d s ts H1 H2 H3. subst ts. apply closed_TT; assumption. Qed.
Lemma lit_FF : forall d s l ts, no_nul s = true -> outside d s -> last_byte s = Some l -> inert l = true -> lex d s = ts -> FF d s ts.
Proof. intros d s l ts H1 H2 H3 H4 H5. subst ts. apply (closed_FF d s l); assumption. Qed.
Ltac lit_TT := apply lit_TT; [reflexivity|match goal with |- outside ?d _ => destruct d; reflexivity end|match goal with |- lex ?d _ = _ => destruct d; reflexivity end].
Ltac lit_FF := eapply lit_FF; [reflexivity|match goal with |- outside ?d _ => destruct d; reflexivity end|reflexivity|reflexivity|match goal with |- lex ?d _ = _ => destruct d; reflexivity end].

Lemma long_operator_TT : forall d s, long_operator d s = true -> exists t, TT d s [mkTok t s] /\
  In t [TOKEN_STRING_CONCAT; TOKEN_TYPECAST; TOKEN_TYPE_ANNOTATION] /\ (t = TOKEN_TYPE_ANNOTATION -> d = Crdb).
Proof.
  intros d s H. unfold long_operator in H. destruct d; try discriminate H.
  - apply orb_true_iff in H. destruct H as [H|H]; apply String.eqb_eq in H; subst s;
      [exists TOKEN_STRING_CONCAT|exists TOKEN_TYPECAST]; (split; [apply lit_TT; reflexivity|]); (split; [cbn; auto|discriminate]).
  - apply orb_true_iff in H. destruct H as [H|H]; [apply orb_true_iff in H; destruct H as [H|H]|]; apply String.eqb_eq in H; subst s;
      [exists TOKEN_STRING_CONCAT|exists TOKEN_TYPECAST|exists TOKEN_TYPE_ANNOTATION]; (split; [apply lit_TT; reflexivity|]);
      (split; [cbn; auto|auto; discriminate]).
Qed.
Lemma long_comparison_TT : forall d s, long_comparison s = true -> exists a b,
  s = String a (String b "") /\ TT d s [mkTok (sign_type a) (String a ""); mkTok (sign_type b) (String b "")]
  /\ comparison_byte a = true /\ comparison_byte b = true.
Proof.
  intros d s H. destruct s as [|a s]; [discriminate H|]. destruct s as [|b s]; [discriminate H|]. destruct s; [|discriminate H].
  cbn [long_comparison] in H. apply andb_true_iff in H. destruct H as [Ha Hb]. exists a, b. split; [reflexivity|].
  split; [|auto]. unfold comparison_byte in Ha, Hb. apply orb_true_iff in Ha, Hb.
  destruct Ha as [Ha|Ha]; [apply orb_true_iff in Ha; destruct Ha as [Ha|Ha]|]; apply Ascii.eqb_eq in Ha; subst a;
  (destruct Hb as [Hb|Hb]; [apply orb_true_iff in Hb; destruct Hb as [Hb|Hb]|]; apply Ascii.eqb_eq in Hb; subst b); lit_TT.
Qed.

(** * Identifiers *)

Lemma prefix_mark : forall d s, starts_with_mark d s = false -> NewRawIdent d s = mkIdent s "" s.
Proof.
  intros d s H. unfold NewRawIdent. assert (K : forall q, In q (quotationMarks d) -> has_prefix_byte q s = false).
  { intros q Hq. destruct s as [|c s]; [reflexivity|]. cbn [starts_with_mark has_prefix_byte] in *.
    destruct (Ascii.eqb q c) eqn:E; [|reflexivity]. apply Ascii.eqb_eq in E. subst c. rewrite <- H. symmetry.
    apply existsb_exists. exists q. split; [|apply Ascii.eqb_refl]. destruct d; exact Hq. }
  induction (quotationMarks d) as [|q qs IH]; [reflexivity|]. cbn [raw_ident_with]. rewrite (K q) by (left; reflexivity).
  cbn [andb]. apply IH. intros q' Hq'. apply K. right. exact Hq'.
Qed.
Lemma suffix_byte_end : forall q s, has_suffix_byte q (s ++ String q "") = true.
Proof.
  intros q s. induction s as [|c s IH]; cbn [append]; [cbn; apply Ascii.eqb_refl|].
  cbn [has_suffix_byte]. destruct (s ++ String q "")%string eqn:E; [destruct s; discriminate E|exact IH].
Qed.
Lemma trim_right_quotable : forall q s, quotable q s = true -> trim_right_byte q (s ++ String q "") = s.
Proof.
  intros q. induction s as [|c s IH]; intros H; cbn [append trim_right_byte]; [rewrite Ascii.eqb_refl; reflexivity|].
  unfold quotable in H. cbn [all_bytes] in H. apply andb_true_iff in H. destruct H as [Hc Hs]. rewrite (IH Hs).
  destruct s; [|reflexivity]. apply andb_true_iff in Hc. destruct Hc as [Hc _]. apply negb_true_iff in Hc.
  rewrite Ascii.eqb_sym, Hc. reflexivity.
Qed.
Lemma trim_quotable : forall q s, quotable q s = true -> trim_byte q (String q (s ++ String q "")) = s.
Proof.
  intros q s H. unfold trim_byte. cbn [trim_left_byte]. rewrite Ascii.eqb_refl.
  destruct s as [|c s]; [cbn; rewrite Ascii.eqb_refl; reflexivity|].
  cbn [append trim_left_byte]. pose proof H as H0. unfold quotable in H. cbn [all_bytes] in H. apply andb_true_iff in H. destruct H as [Hc Hs].
  apply andb_true_iff in Hc. destruct Hc as [Hc _]. apply negb_true_iff in Hc. rewrite Ascii.eqb_sym, Hc.
  apply (trim_right_quotable q (String c s) H0).
Qed.
Lemma quoted_new : forall d q s, In q (name_marks d) -> quotable q s = true ->
  NewRawIdent d (String q (s ++ String q "")) = mkIdent s (String q "") (String q (s ++ String q "")).
Proof.
  intros d q s Hq Hs. unfold NewRawIdent. replace (quotationMarks d) with (name_marks d) by reflexivity.
  assert (X : has_suffix_byte q (String q (s ++ String q "")) = true) by (apply (suffix_byte_end q (String q s))).
  induction (name_marks d) as [|m ms IH]; [destruct Hq|]. cbn [raw_ident_with has_prefix_byte].
  destruct (Ascii.eqb m q) eqn:E.
  - apply Ascii.eqb_eq in E. subst m. rewrite X. cbn [andb]. rewrite (trim_quotable q s Hs). reflexivity.
  - cbn [andb]. destruct Hq as [Hq|Hq]; [subst m; rewrite Ascii.eqb_refl in E; discriminate E|]. apply IH, Hq.
Qed.
Lemma quoted_ident_parts : forall d i, quoted_ident d i = true -> exists q,
  In q (name_marks d) /\ quotable q (id_name i) = true /\ i = mkIdent (id_name i) (String q "") (String q (id_name i ++ String q "")).
Proof.
  intros d [n q r] H. unfold quoted_ident in H. cbn [id_name id_quote id_raw] in *. destruct q as [|q q2]; [discriminate H|].
  destruct q2; [|discriminate H]. apply andb_true_iff in H. destruct H as [H H3]. apply andb_true_iff in H. destruct H as [H1 H2].
  apply String.eqb_eq in H3. subst r. exists q. split; [|auto]. apply existsb_exists in H1. destruct H1 as [x [Hx E]].
  apply Ascii.eqb_eq in E. subst x. exact Hx.
Qed.
Lemma bare_ident_parts : forall d i, bare_ident d i = true -> i = mkIdent (id_raw i) "" (id_raw i) /\ starts_with_mark d (id_raw i) = false.
Proof.
  intros d [n q r] H. unfold bare_ident in H. cbn [id_name id_quote id_raw] in *. apply andb_true_iff in H. destruct H as [H H3].
  apply andb_true_iff in H. destruct H as [H1 H2]. apply String.eqb_eq in H1, H2. apply negb_true_iff in H3. subst. auto.
Qed.
Lemma wellformed_new : forall d i, wellformed_ident d i = true -> NewRawIdent d (id_raw i) = i.
Proof.
  intros d i H. unfold wellformed_ident in H. apply orb_true_iff in H. destruct H as [H|H].
  - destruct (quoted_ident_parts d i H) as [q [H1 [H2 H3]]]. rewrite H3 at 1. cbn [id_raw]. rewrite (quoted_new d q _ H1 H2). congruence.
  - destruct (bare_ident_parts d i H) as [H1 H2]. rewrite (prefix_mark d _ H2). congruence.
Qed.

Lemma mark_quote : forall d q, In q (name_marks d) -> quote_byte d q = true.
Proof.
  intros d q H. destruct d; cbn in H; repeat (destruct H as [H|H]; [subst q; reflexivity|]); destruct H.
Qed.
Lemma closed_by_end : forall q s, quotable q s = true -> closed_by q (s ++ String q "") = true.
Proof.
  intros q. induction s as [|c s IH]; intro H; [cbn; apply Ascii.eqb_refl|]. unfold quotable in H. cbn [all_bytes] in H.
  apply andb_true_iff in H. destruct H as [Hc Hs]. cbn [append closed_by]. rewrite Hc, (IH Hs).
  destruct (s ++ String q "")%string eqn:E; [destruct s; discriminate E|reflexivity].
Qed.
Lemma quoted_ident_text : forall d i, quoted_ident d i = true -> quoted_text d (id_raw i) = true.
Proof.
  intros d i H. destruct (quoted_ident_parts d i H) as [q [H1 [H2 H3]]]. rewrite H3. cbn [id_raw quoted_text].
  rewrite (mark_quote d q H1), (closed_by_end q _ H2). reflexivity.
Qed.
Lemma not_keyword : forall d w, is_keyword d w = false -> lookupIdent d w = TOKEN_IDENT.
Proof.
  intros d w H. unfold lookupIdent. unfold is_keyword in H.
  assert (K : assoc (to_upper w) (keywords d) = None).
  { induction (keywords d) as [|[k v] ks IH]; [reflexivity|]. cbn [map fst existsb] in H. cbn [assoc].
    apply orb_false_iff in H. destruct H as [H1 H2]. rewrite H1. apply IH, H2. }
  rewrite K. reflexivity.
Qed.
Lemma name_TT : forall d i, name_ok d i = true -> TT d (id_raw i) [tI (id_raw i)].
Proof.
  intros d i H. unfold name_ok in H. apply orb_true_iff in H. destruct H as [H|H].
  - apply FF_TT, quoted_FF, quoted_ident_text, H.
  - apply andb_true_iff in H. destruct H as [H H3]. apply andb_true_iff in H. destruct H as [H1 H2]. apply negb_true_iff in H3.
    unfold tI. rewrite <- (not_keyword d _ H3). apply word_TT, H2.
Qed.
Lemma name_wf : forall d i, name_ok d i = true -> wellformed_ident d i = true.
Proof.
  intros d i H. unfold name_ok in H. unfold wellformed_ident. apply orb_true_iff in H. destruct H as [H|H]; [rewrite H; reflexivity|].
  apply andb_true_iff in H. destruct H as [H _]. apply andb_true_iff in H. destruct H as [H _]. rewrite H. apply orb_true_r.
Qed.
Lemma name_new : forall d i, name_ok d i = true -> NewRawIdent d (id_raw i) = i.
Proof. intros d i H. apply wellformed_new, name_wf, H. Qed.

(** * Sequences of pieces *)

Definition piece (d : dialect) (s : string) : bool :=
  is_word s || quoted_text d s || sign d s || long_operator d s || long_comparison s || String.eqb s "(" || String.eqb s ")".
Definition closed (d : dialect) (s : string) : Prop := no_nul s = true /\ outside d s.

Lemma word_closed : forall d w, is_word w = true -> closed d w.
Proof.
  intros d w H. destruct (is_word_all w H) as [H1 _]. clear H. split.
  - unfold no_nul. induction w as [|c w IH]; [reflexivity|]. cbn [all_bytes] in *. apply andb_true_iff in H1. destruct H1 as [Hc Hw].
    rewrite (IH Hw), andb_true_r. destruct (Ascii.eqb c ch_nul) eqn:E; [|reflexivity]. apply Ascii.eqb_eq in E. subst c. discriminate Hc.
  - unfold outside. rewrite (word_mode d w w ""); [reflexivity|].
    pose proof (readIdentifier_word w "" H1 I) as E. rewrite app_s_nil in E. exact E.
Qed.
Lemma closed_by_mode : forall d q s, closed_by q s = true -> Ascii.eqb q ch_nul = false -> no_nul s = true /\ mode d (InQuote q) s = Outside.
Proof.
  intros d q. induction s as [|c s IH]; intros H Hq; [discriminate H|]. destruct s as [|c' s].
  - cbn [closed_by] in H. apply Ascii.eqb_eq in H. subst c. unfold no_nul. cbn [all_bytes mode]. rewrite Hq, Ascii.eqb_refl. auto.
  - change (closed_by q (String c (String c' s))) with
      (negb (Ascii.eqb c q) && negb (Ascii.eqb c ch_nul) && closed_by q (String c' s)) in H.
    apply andb_true_iff in H. destruct H as [H H3]. apply andb_true_iff in H. destruct H as [H1 H2].
    destruct (IH H3 Hq) as [I1 I2]. split.
    + unfold no_nul in *. cbn [all_bytes] in *. rewrite H2. exact I1.
    + change (mode d (InQuote q) (String c (String c' s))) with
        (if Ascii.eqb c q then mode d Outside (String c' s) else mode d (InQuote q) (String c' s)).
      apply negb_true_iff in H1. rewrite H1. exact I2.
Qed.
Lemma quoted_closed : forall d s, quoted_text d s = true -> closed d s.
Proof.
  intros d s H. destruct s as [|q s]; [discriminate H|]. cbn [quoted_text] in H. apply andb_true_iff in H. destruct H as [Hq Hc].
  assert (Z : Ascii.eqb q ch_nul = false) by (destruct (Ascii.eqb q ch_nul) eqn:E; [apply Ascii.eqb_eq in E; subst q; destruct d; discriminate Hq|reflexivity]).
  destruct (closed_by_mode d q s Hc Z) as [H1 H2]. split.
  - unfold no_nul in *. cbn [all_bytes]. rewrite Z. exact H1.
  - unfold outside. destruct s; cbn [mode]; rewrite Hq; exact H2.
Qed.
Lemma sign_closed : forall d s, sign d s = true -> closed d s.
Proof.
  intros d s H. destruct s as [|c s]; [discriminate H|]. destruct s; [|discriminate H].
  destruct (sign_facts d c H) as [H1 [H2 [H3 [H4 [H5 _]]]]]. split.
  - unfold no_nul. cbn [all_bytes]. rewrite H5. reflexivity.
  - unfold outside. cbn [mode]. rewrite quote_byte_eq, H4. reflexivity.
Qed.
Lemma long_operator_closed : forall d s, long_operator d s = true -> closed d s.
Proof.
  intros d s H. unfold long_operator in H. destruct d; try discriminate H;
  repeat (apply orb_true_iff in H; destruct H as [H|H]); apply String.eqb_eq in H; subst s; split; reflexivity.
Qed.
Lemma long_comparison_closed : forall d s, long_comparison s = true -> closed d s.
Proof.
  intros d s H. destruct (long_comparison_TT d s H) as [a [b [E [_ [Ha Hb]]]]]. subst s.
  unfold comparison_byte in Ha, Hb. apply orb_true_iff in Ha, Hb.
  destruct Ha as [Ha|Ha]; [apply orb_true_iff in Ha; destruct Ha as [Ha|Ha]|]; apply Ascii.eqb_eq in Ha; subst a;
  (destruct Hb as [Hb|Hb]; [apply orb_true_iff in Hb; destruct Hb as [Hb|Hb]|]; apply Ascii.eqb_eq in Hb; subst b); split; destruct d; reflexivity.
Qed.
Lemma piece_closed : forall d s, piece d s = true -> closed d s.
Proof.
  intros d s H. unfold piece in H.
  apply orb_true_iff in H. destruct H as [H|H]; [|apply String.eqb_eq in H; subst s; split; destruct d; reflexivity].
  apply orb_true_iff in H. destruct H as [H|H]; [|apply String.eqb_eq in H; subst s; split; destruct d; reflexivity].
  apply orb_true_iff in H. destruct H as [H|H]; [|apply long_comparison_closed, H].
  apply orb_true_iff in H. destruct H as [H|H]; [|apply long_operator_closed, H].
  apply orb_true_iff in H. destruct H as [H|H]; [|apply sign_closed, H].
  apply orb_true_iff in H. destruct H as [H|H]; [apply word_closed, H|apply quoted_closed, H].
Qed.
Lemma piece_nonempty : forall d s, piece d s = true -> s <> "".
Proof. intros d s H E. subst s. destruct d; discriminate H. Qed.

Lemma word_last : forall w l, is_word w = true -> last_byte w = Some l -> isLiteral l = true.
Proof.
  intros w l H. destruct (is_word_all w H) as [H1 _]. clear H. induction w as [|c w IH]; [discriminate|]. cbn [all_bytes] in H1.
  apply andb_true_iff in H1. destruct H1 as [Hc Hw]. intro E. destruct w as [|c' w]; [cbn in E; congruence|].
  apply IH; [exact Hw|exact E].
Qed.
Lemma closed_by_last : forall q s, closed_by q s = true -> last_byte s = Some q.
Proof.
  intros q. induction s as [|c s IH]; intro H; [discriminate H|]. destruct s as [|c' s].
  - cbn [closed_by] in H. apply Ascii.eqb_eq in H. subst c. reflexivity.
  - change (closed_by q (String c (String c' s))) with
      (negb (Ascii.eqb c q) && negb (Ascii.eqb c ch_nul) && closed_by q (String c' s)) in H.
    apply andb_true_iff in H. destruct H as [_ H]. apply (IH H).
Qed.
Lemma piece_colon : forall d s, piece d s = true -> last_byte s = Some ":"%char -> first_byte s = Some ":"%char.
Proof.
  intros d s H L. unfold piece in H.
  apply orb_true_iff in H. destruct H as [H|H]; [|apply String.eqb_eq in H; subst s; discriminate L].
  apply orb_true_iff in H. destruct H as [H|H]; [|apply String.eqb_eq in H; subst s; discriminate L].
  apply orb_true_iff in H. destruct H as [H|H].
  2:{ destruct (long_comparison_TT d s H) as [a [b [E [_ [Ha Hb]]]]]. subst s. cbn in L. inversion L. subst b. discriminate Hb. }
  apply orb_true_iff in H. destruct H as [H|H].
  2:{ destruct d; try discriminate H; unfold long_operator in H; repeat (apply orb_true_iff in H; destruct H as [H|H]);
      apply String.eqb_eq in H; subst s; try discriminate L; reflexivity. }
  apply orb_true_iff in H. destruct H as [H|H].
  2:{ destruct s as [|c s]; [discriminate H|]. destruct s; [|discriminate H]. exact L. }
  apply orb_true_iff in H. destruct H as [H|H].
  - apply (word_last s _ H) in L. discriminate L.
  - destruct s as [|q s]; [discriminate H|]. cbn [quoted_text] in H. apply andb_true_iff in H. destruct H as [Hq Hc].
    pose proof (closed_by_last q s Hc) as E. destruct s as [|c s]; [discriminate Hc|]. change (last_byte (String q (String c s))) with (last_byte (String c s)) in L.
    rewrite E in L. inversion L. subst q. destruct d; discriminate Hq.
Qed.

Lemma no_join_stop_r : forall a b, stop b -> no_join a b.
Proof. intros. apply stop_no_join. assumption. Qed.
Lemma stop_app : forall a b, a <> "" -> stop a -> stop (a ++ b).
Proof. intros a b Hn H. destruct a; [congruence|exact H]. Qed.
Lemma sep_no_join : forall d a b x, piece d (id_raw a) = true -> piece d (id_raw b) = true ->
  starts_colon a && starts_colon b = false ->
  no_join (id_raw a) (expr_sep d (id_raw a) (id_raw b) ++ id_raw b ++ x).
Proof.
  intros d a b x Ha Hb Hc. unfold expr_sep.
  set (o := match d with Pg | Crdb => eqs (id_raw a) "||" || eqs (id_raw b) "||" | _ => false end). destruct o; [apply no_join_stop_r; reflexivity|].
  set (cl := match d with Pg => false | _ => eqs (id_raw a) ":::" || eqs (id_raw b) ":::" end) in *.
  assert (NJ : (last_byte (id_raw a) = Some ":"%char \/ first_byte (id_raw b) = Some ":"%char) -> no_join (id_raw a) (id_raw b ++ x)).
  { intro Hor. unfold no_join. destruct (last_byte (id_raw a)) as [l|] eqn:El; [|exact I].
    destruct (first_byte (id_raw b ++ x)) as [f|] eqn:Ef; [|exact I].
    assert (Ef' : first_byte (id_raw b) = Some f).
    { pose proof (piece_nonempty d _ Hb) as N. destruct (id_raw b); [congruence|exact Ef]. }
    destruct (Ascii.eqb l ":" && Ascii.eqb f ":") eqn:E.
    - apply andb_true_iff in E. destruct E as [E1 E2]. apply Ascii.eqb_eq in E1, E2. subst l f.
      pose proof (piece_colon d _ Ha El) as Fa. unfold starts_colon in Hc.
      destruct (id_raw a) as [|ca ra]; [discriminate Fa|]. destruct (id_raw b) as [|cb rb]; [discriminate Ef'|].
      cbn in Fa, Ef'. inversion Fa. inversion Ef'. subst. discriminate Hc.
    - unfold joins. destruct Hor as [Hor|Hor].
      + inversion Hor. subst l. cbn [isLiteral] in *. rewrite Ascii.eqb_refl in E. cbn [andb] in E. rewrite E. reflexivity.
      + rewrite Ef' in Hor. inversion Hor. subst f. rewrite Ascii.eqb_refl, andb_true_r in E. rewrite E.
        replace (isLiteral ":") with false by reflexivity. cbn [Ascii.eqb]. rewrite andb_false_r. 
        replace (Ascii.eqb ":" "|") with false by reflexivity. replace (Ascii.eqb ":" "-") with false by reflexivity.
        rewrite !andb_false_r. reflexivity. }
  destruct (eqs (id_raw a) "(") eqn:E1; [apply String.eqb_eq in E1; rewrite E1; apply (inert_last "(" "("%char); reflexivity|].
  destruct (eqs (id_raw b) "(") eqn:E2; [apply String.eqb_eq in E2; rewrite E2; apply no_join_stop_r; reflexivity|].
  destruct (eqs (id_raw b) ")") eqn:E3; [apply String.eqb_eq in E3; rewrite E3; apply no_join_stop_r; reflexivity|].
  destruct (eqs (id_raw a) "::") eqn:E4; [apply String.eqb_eq in E4; apply NJ; left; rewrite E4; reflexivity|].
  destruct (eqs (id_raw b) "::") eqn:E5; [apply String.eqb_eq in E5; apply NJ; right; rewrite E5; reflexivity|].
  destruct cl eqn:E6.
  { cbn [orb append]. destruct d; try discriminate E6; unfold cl in E6; apply orb_true_iff in E6; destruct E6 as [E6|E6];
    apply String.eqb_eq in E6; apply NJ; rewrite E6; auto. }
  destruct (eqs (id_raw b) ",") eqn:E7; [apply String.eqb_eq in E7; rewrite E7; apply no_join_stop_r; reflexivity|].
  cbn [orb]. apply no_join_stop_r. reflexivity.
Qed.

Definition piece_toks (d : dialect) (l : list ident) : list token := flat_map (fun i => lex d (id_raw i)) l.
Lemma sep_lex : forall d a b x, lex d (expr_sep d a b ++ x) = lex d x.
Proof.
  intros d a b x. unfold expr_sep. destruct (match d with Pg | Crdb => _ | _ => _ end); [apply lex_space; reflexivity|].
  destruct (_ || _); [reflexivity|apply lex_space; reflexivity].
Qed.
Lemma no_colons_tail : forall a l, no_colons (a :: l) = true -> no_colons l = true.
Proof. intros a l H. destruct l; [reflexivity|]. cbn [no_colons] in H. apply andb_true_iff in H. apply H. Qed.
Lemma pieces_lex : forall d l, forallb (fun i => piece d (id_raw i)) l = true -> no_colons l = true ->
  forall r, stop r -> lex d (idents_string d l ++ r) = (piece_toks d l ++ lex d r)%list.
Proof.
  intros d l Hp Hc r Hr. destruct l as [|a l]; [reflexivity|]. cbn [idents_string].
  revert a Hp Hc. induction l as [|b l IH]; intros a Hp Hc.
  - cbn [idents_string_from piece_toks flat_map]. rewrite app_s_nil, app_nil_r. cbn [forallb] in Hp. rewrite andb_true_r in Hp.
    destruct (piece_closed d _ Hp) as [H1 H2]. apply lex_outside_app; auto. apply stop_no_join, Hr.
  - cbn [idents_string_from]. cbn [forallb] in Hp. apply andb_true_iff in Hp. destruct Hp as [Ha Hp].
    destruct (piece_closed d _ Ha) as [H1 H2]. unfold ident_string. rewrite !app_s_assoc.
    pose proof Hp as Hb. cbn [forallb] in Hb. apply andb_true_iff in Hb. destruct Hb as [Hb _].
    rewrite lex_outside_app; [|exact H1|exact H2|].
    2:{ apply sep_no_join; auto. cbn [no_colons] in Hc. apply andb_true_iff in Hc. destruct Hc as [Hc _]. apply negb_true_iff in Hc. exact Hc. }
    rewrite sep_lex. specialize (IH b Hp (no_colons_tail a _ Hc)). unfold ident_string in IH. rewrite app_s_assoc in IH. rewrite IH.
    unfold piece_toks. cbn [flat_map]. rewrite app_assoc. reflexivity.
Qed.
Lemma pieces_TT : forall d l, forallb (fun i => piece d (id_raw i)) l = true -> no_colons l = true ->
  TT d (idents_string d l) (piece_toks d l).
Proof.
  intros d l Hp Hc. split; [|intros r Hr; apply pieces_lex; auto].
  unfold piece_toks. clear Hc. induction l as [|a l IH]; [constructor|]. cbn [forallb flat_map] in *.
  apply andb_true_iff in Hp. destruct Hp as [Ha Hp]. apply nb_app; [|apply IH, Hp].
  destruct (piece_closed d _ Ha) as [H1 H2]. apply closed_nb; assumption.
Qed.
