(** C75: exactly the texts described by the expressions are taken for annotations;
    C45: exactly when generating crashes. *)
From Coq Require Import Lia.
From Verif Require Import GoStr Token Lexer Ast Parser Tidy IndexText Lines LinesFacts Generate GenSpec GenFacts GenSafe Regular.
Local Open Scope string_scope.

(** * Matchers *)
Definition kont := string -> option string.
(** The matcher [m] tries exactly the texts of [L] in front of its continuation. *)
Definition follows (m : kont -> kont) (L : string -> Prop) : Prop :=
  (forall k s x, m k s = Some x -> exists a b, s = a ++ b /\ L a /\ k b = Some x)
  /\ (forall k a b, L a -> k b <> None -> m k (a ++ b) <> None).
Lemma follows_ext : forall m L L', (forall s, L s <-> L' s) -> follows m L -> follows m L'.
Proof.
  intros m L L' E [H1 H2]. split.
  - intros k s x H. destruct (H1 k s x H) as (a & b & A & B & C). exists a, b. split; [exact A|]. split; [apply E; exact B|exact C].
  - intros k a b H. apply H2. apply E. exact H.
Qed.
Lemma follows_seq : forall m n a b, follows m (lang a) -> follows n (lang b) -> follows (fun k => m (n k)) (lang (Seq a b)).
Proof.
  intros m n a b [M1 M2] [N1 N2]. split.
  - intros k s x H. destruct (M1 _ _ _ H) as (u & v & E & U & V). destruct (N1 _ _ _ V) as (y & z & E' & Y & Z).
    exists (u ++ y), z. split; [rewrite append_assoc, <- E'; exact E|]. split; [constructor; assumption|exact Z].
  - intros k s t H K. inversion H; subst. rewrite append_assoc. apply M2; [assumption|]. apply N2; assumption.
Qed.
Lemma follows_nothing : follows (fun k => k) (lang Nothing).
Proof. split; [intros k s x H; exists "", s; split; [reflexivity|]; split; [constructor|exact H]|]. intros k a b H K. inversion H; subst. exact K. Qed.
Lemma follows_lit : forall w, follows (lit w) (lang (Lit w)).
Proof.
  assert (D : forall p s t, drop_prefix p s = Some t <-> s = p ++ t).
  { induction p as [|a p IH]; intros s t; cbn [drop_prefix append]; [split; congruence|]. destruct s as [|b s]; [split; discriminate|].
    destruct (Ascii.eqb a b) eqn:E; [apply Ascii.eqb_eq in E; subst b; rewrite IH; split; congruence|]. apply Ascii.eqb_neq in E. split; [discriminate|]. intro H. inversion H. congruence. }
  intro w. split.
  - intros k s x H. unfold lit in H. destruct (drop_prefix w s) as [r|] eqn:E; [|discriminate H]. apply D in E. exists w, r. split; [exact E|]. split; [constructor|exact H].
  - intros k a b H K. inversion H; subst. unfold lit. assert (E : drop_prefix a (a ++ b) = Some b) by (apply D; reflexivity). rewrite E. exact K.
Qed.
Lemma follows_or : forall m n a b, follows m (lang a) -> follows n (lang b) -> follows (alt m n) (lang (Or a b)).
Proof.
  intros m n a b [M1 M2] [N1 N2]. split.
  - intros k s x H. unfold alt in H. destruct (m k s) as [y|] eqn:E.
    + inversion H; subst. destruct (M1 _ _ _ E) as (u & v & E1 & E2 & E3). exists u, v. split; [exact E1|]. split; [apply lang_left; exact E2|exact E3].
    + destruct (N1 _ _ _ H) as (u & v & E1 & E2 & E3). exists u, v. split; [exact E1|]. split; [apply lang_right; exact E2|exact E3].
  - intros k s t H K. unfold alt. inversion H; subst.
    + specialize (M2 k s t ltac:(assumption) K). destruct (m k (s ++ t)); [discriminate|contradiction].
    + destruct (m k (s ++ t)); [discriminate|]. apply N2; assumption.
Qed.
Lemma follows_opt : forall m a, follows m (lang a) -> follows (opt m) (lang (Opt a)).
Proof. intros m a M. exact (follows_or m (fun k => k) a Nothing M follows_nothing). Qed.
Lemma follows_star : forall p, follows (star p) (lang (Star (One p))).
Proof.
  intro p. split.
  - intros k s. induction s as [|c s IH]; intros x H; cbn [star] in H; [exists "", ""; split; [reflexivity|]; split; [constructor|exact H]|].
    destruct (p c) eqn:P; [|exists "", (String c s); split; [reflexivity|]; split; [constructor|exact H]].
    destruct (star p k s) as [y|] eqn:E; [|exists "", (String c s); split; [reflexivity|]; split; [constructor|exact H]].
    inversion H; subst. destruct (IH x eq_refl) as (a & b & A & B & C). exists (String c a), b. split; [cbn [append]; congruence|]. split; [|exact C].
    change (String c a) with (String c "" ++ a). apply lang_more; [constructor; exact P|exact B].
  - intros k a b H K. remember (Star (One p)) as e eqn:E. induction H; try discriminate E.
    + cbn [append]. destruct b as [|c b]; [exact K|]. cbn [star]. destruct (p c); [|exact K]. destruct (star p k b); [discriminate|exact K].
    + injection E as ->. inversion H; subst. cbn [append]. cbn [star]. rewrite H2. specialize (IHlang2 eq_refl). destruct (star p k (t ++ b)); [discriminate|contradiction].
Qed.
Lemma follows_one : forall p : ascii -> bool, follows (fun (k : kont) (s : string) => match s with String c r => if p c then k r else None | EmptyString => None end) (lang (One p)).
Proof.
  intro p. split.
  - intros k [|c s] x H; [discriminate H|]. destruct (p c) eqn:P; [|discriminate H]. exists (String c ""), s. split; [reflexivity|]. split; [constructor; exact P|exact H].
  - intros k a b H K. inversion H; subst. cbn [append]. rewrite H1. exact K.
Qed.
Lemma follows_plus : forall p, follows (plus p) (lang (Plus (One p))).
Proof. intro p. exact (follows_seq _ _ _ _ (follows_one p) (follows_star p)). Qed.
(** A class may be written in another way. *)
Lemma lang_one_ext : forall p q, (forall c, p c = q c) -> forall s, lang (One p) s <-> lang (One q) s.
Proof. intros p q E s. split; intro H; inversion H; subst; constructor; congruence. Qed.
Lemma lang_star_ext : forall a b, (forall s, lang a s <-> lang b s) -> forall s, lang (Star a) s <-> lang (Star b) s.
Proof.
  intros a b E. assert (K : forall a b, (forall s, lang a s -> lang b s) -> forall s, lang (Star a) s -> lang (Star b) s).
  { clear. intros a b E s H. remember (Star a) as e eqn:X. induction H; try discriminate X; [constructor|]. injection X as ->. constructor; auto. }
  intro s. split; apply K; intros t T; apply E; exact T.
Qed.
Lemma lang_seq_ext : forall a b c d, (forall s, lang a s <-> lang c s) -> (forall s, lang b s <-> lang d s) -> forall s, lang (Seq a b) s <-> lang (Seq c d) s.
Proof. intros a b c d E F s. split; intro H; inversion H; subst; constructor; (apply E || apply F); assumption. Qed.
Lemma ws_class : forall c, re_space c = (fun c => let n := N_of_ascii c in (N.eqb n 9 || N.eqb n 10 || N.eqb n 12 || N.eqb n 13 || N.eqb n 32)%bool) c.
Proof. intros [a b c d e f g h]. destruct a, b, c, d, e, f, g, h; reflexivity. Qed.
Lemma nows_class : forall c, re_nonspace c = (fun c => let n := N_of_ascii c in negb (N.eqb n 9 || N.eqb n 10 || N.eqb n 12 || N.eqb n 13 || N.eqb n 32)%bool) c.
Proof. intros [a b c d e f g h]. destruct a, b, c, d, e, f, g, h; reflexivity. Qed.
Lemma dot_class : forall c, re_dot c = (fun c => negb (N.eqb (N_of_ascii c) 10)) c.
Proof. intros [a b c d e f g h]. destruct a, b, c, d, e, f, g, h; reflexivity. Qed.
Lemma follows_ws : follows (star re_space) (lang (Star ws)).
Proof. apply (follows_ext _ (lang (Star (One re_space)))); [|apply follows_star]. apply lang_star_ext. apply lang_one_ext. exact ws_class. Qed.
Lemma follows_ws1 : follows (plus re_space) (lang (Plus ws)).
Proof. apply (follows_ext _ (lang (Plus (One re_space)))); [|apply follows_plus]. apply lang_seq_ext; [|apply lang_star_ext]; apply lang_one_ext; exact ws_class. Qed.
Lemma follows_nows1 : follows (plus re_nonspace) (lang (Plus nows)).
Proof. apply (follows_ext _ (lang (Plus (One re_nonspace)))); [|apply follows_plus]. apply lang_seq_ext; [|apply lang_star_ext]; apply lang_one_ext; exact nows_class. Qed.
Lemma follows_dots : follows (star re_dot) (lang (Star dot)).
Proof. apply (follows_ext _ (lang (Star (One re_dot)))); [|apply follows_star]. apply lang_star_ext. apply lang_one_ext. exact dot_class. Qed.
Lemma follows_slashes : follows (plus (Ascii.eqb "/"%char)) (lang (Plus (Lit "/"))).
Proof.
  apply (follows_ext _ (lang (Plus (One (Ascii.eqb "/"%char))))); [|apply follows_plus].
  assert (K : forall s, lang (One (Ascii.eqb "/"%char)) s <-> lang (Lit "/") s).
  { intro s. split; intro H; inversion H; subst; [apply Ascii.eqb_eq in H1; subst; constructor|]. apply (lang_one (Ascii.eqb "/"%char)). reflexivity. }
  apply lang_seq_ext; [exact K|apply lang_star_ext; exact K].
Qed.
Lemma follows_mark : follows re_mark (lang mark).
Proof.
  apply follows_opt. apply follows_or.
  - apply (follows_seq (lit "/") _ (Lit "/")); [apply follows_lit|]. exact (follows_seq _ _ _ _ follows_slashes follows_ws).
  - apply (follows_ext _ (lang (Seq (Lit "/*") (Star ws)))); [|exact (follows_seq _ _ _ _ (follows_lit "/*") follows_ws)].
    intro s. split; intro H.
    + inversion H; subst. inversion H2; subst. change ("/*" ++ t) with ("/" ++ ("*" ++ t)). constructor; [constructor|]. constructor; [constructor|exact H4].
    + inversion H; subst. inversion H2; subst. inversion H4; subst. inversion H3; subst. change ("/" ++ "*" ++ t0) with ("/*" ++ t0). constructor; [constructor|exact H6].
Qed.
Lemma empty_of : forall s : string, s ++ "" = s.
Proof. induction s as [|c s IH]; [reflexivity|]. cbn [append]. congruence. Qed.

(** * Exactly the texts described by the expressions are taken for annotations *)

(** The tag: a beginning of the comment is described by the expression. *)
Theorem C75_tag : forall tag s, match_tag tag s = true <-> exists a r, s = a ++ r /\ lang (tag_line tag) a.
Proof.
  intros tag s.
  assert (F : follows (fun k => star re_space (re_mark (lit tag (star re_space (lit ":" k))))) (lang (seq [Star ws; mark; Lit tag; Star ws; Lit ":"]))).
  { apply (follows_seq (star re_space)); [apply follows_ws|]. apply (follows_seq re_mark); [apply follows_mark|]. apply (follows_seq (lit tag)); [apply follows_lit|].
    apply (follows_seq (star re_space)); [apply follows_ws|]. apply follows_lit. }
  assert (E : forall a, lang (tag_line tag) a <-> exists b c, a = b ++ c /\ lang (seq [Star ws; mark; Lit tag; Star ws; Lit ":"]) b /\ lang (seq [Star ws; Star dot; Star ws; Opt (Lit "*/")]) c).
  { intro a. split.
    - intro H. unfold tag_line in H. cbn [seq] in H.
      inversion H as [| | | |x1 y1 s1 t1 A1 H1| | | |]; subst. inversion H1 as [| | | |x2 y2 s2 t2 A2 H2| | | |]; subst. inversion H2 as [| | | |x3 y3 s3 t3 A3 H3| | | |]; subst.
      inversion H3 as [| | | |x4 y4 s4 t4 A4 H4| | | |]; subst. inversion H4 as [| | | |x5 y5 s5 t5 A5 H5| | | |]; subst.
      exists (s1 ++ s2 ++ s3 ++ s4 ++ s5), t5. split; [rewrite !append_assoc; reflexivity|]. split; [|exact H5]. cbn [seq]. repeat (constructor; [assumption|]). assumption.
    - intros (b & c & -> & B & C). cbn [seq] in B.
      inversion B as [| | | |x1 y1 s1 t1 A1 H1| | | |]; subst. inversion H1 as [| | | |x2 y2 s2 t2 A2 H2| | | |]; subst. inversion H2 as [| | | |x3 y3 s3 t3 A3 H3| | | |]; subst.
      inversion H3 as [| | | |x4 y4 s4 t4 A4 H4| | | |]; subst. rewrite !append_assoc. unfold tag_line. cbn [seq]. repeat (constructor; [assumption|]). assumption. }
  unfold match_tag. destruct F as [F1 F2]. split.
  - intro H. destruct (star _ _ s) as [x|] eqn:M; [|discriminate H]. destruct (F1 _ _ _ M) as (a & b & A & B & _). exists a, b. split; [exact A|].
    apply E. exists a, "". split; [symmetry; apply empty_of|]. split; [exact B|]. change "" with ("" ++ "" ++ "" ++ ""). cbn [seq]. repeat (constructor; [constructor|]). apply lang_right. constructor.
  - intros (a & r & -> & A). apply E in A. destruct A as (b & c & -> & B & _). rewrite append_assoc. pose proof (F2 (@Some string) b (c ++ r) B ltac:(discriminate)) as M.
    destruct (star _ _ _); [reflexivity|contradiction].
Qed.
Print Assumptions C75_tag.

Lemma follows_entry : forall word suffix, follows (re_entry word suffix) (lang (entry word suffix)).
Proof.
  intros word suffix. unfold entry, re_entry.
  apply (follows_seq (star re_space)); [apply follows_ws|]. apply (follows_seq re_mark); [apply follows_mark|]. apply (follows_seq (plus re_nonspace)); [apply follows_nows1|].
  apply (follows_seq (star re_space)); [apply follows_ws|]. apply (follows_seq (lit ":")); [apply follows_lit|]. apply (follows_seq (star re_space)); [apply follows_ws|].
  apply (follows_seq (lit word)); [apply follows_lit|]. apply (follows_seq (opt (lit suffix))); [apply follows_opt; apply follows_lit|]. apply (follows_seq (star re_space)); [apply follows_ws|].
  refine (follows_seq (fun k s => match s with String c r => if Ascii.eqb c ":"%char || Ascii.eqb c " "%char then k r else None | EmptyString => None end) (star re_space) colon_or_blank (Star ws) _ follows_ws).
  apply (follows_ext _ (lang (One (fun c => Ascii.eqb c ":"%char || Ascii.eqb c " "%char)%bool))); [|apply follows_one]. apply lang_one_ext.
  intros [a b c d e f g h]. destruct a, b, c, d, e, f, g, h; reflexivity.
Qed.

(** What the last group matches: [m] is the longest text of its language that can be taken. *)
Lemma substring_front : forall a b, substring 0 (String.length (a ++ b) - String.length b) (a ++ b) = a.
Proof.
  assert (L : forall a b, String.length (a ++ b) = (String.length a + String.length b)%nat) by (induction a as [|c a IH]; intro b; cbn [append String.length]; [reflexivity|rewrite IH; reflexivity]).
  intros a b. rewrite L, Nat.add_sub. induction a as [|c a IH]; [destruct b; reflexivity|]. cbn [append String.length substring]. rewrite IH. reflexivity.
Qed.
Definition line_ends (r : string) : Prop := r = "" \/ exists t, r = String ch_nl t.
Lemma dots_to_line_end : forall s r, star re_dot (@Some string) s = Some r -> line_ends r.
Proof.
  induction s as [|c s IH]; intros r H; cbn [star] in H; [inversion H; left; reflexivity|].
  destruct (re_dot c) eqn:D.
  - destruct (star re_dot (@Some string) s) as [x|] eqn:E; [inversion H; subst; exact (IH r eq_refl)|]. exfalso. clear - E. destruct s as [|b s]; [discriminate E|]. cbn [star] in E. destruct (re_dot b); [destruct (star re_dot (@Some string) s); discriminate E|discriminate E].
  - inversion H; subst. right. exists s. unfold re_dot in D. apply negb_false_iff in D. apply Ascii.eqb_eq in D. congruence.
Qed.
Lemma dots_some : forall s, exists r, star re_dot (@Some string) s = Some r.
Proof. destruct s as [|b s]; [eexists; reflexivity|]. cbn [star]. destruct (re_dot b); [destruct (star re_dot (@Some string) s)|]; eexists; reflexivity. Qed.
Lemma star_value : forall p (k : kont) s x, star p k s = Some x -> exists t, k t = Some x.
Proof.
  intros p k. induction s as [|c s IH]; intros x H; cbn [star] in H; [exists ""; exact H|]. destruct (p c); [|exists (String c s); exact H].
  destruct (star p k s) as [y|] eqn:E; [inversion H; subst; exact (IH x eq_refl)|exists (String c s); exact H].
Qed.
Lemma after_line_end : forall s r, after_line s = Some r -> line_ends r.
Proof.
  intros s r H. unfold after_line, plus in H. destruct s as [|c s]; [discriminate H|]. destruct (re_nonspace c); [|discriminate H].
  apply star_value in H. destruct H as [t H]. exact (dots_to_line_end t r H).
Qed.
Lemma follows_line : follows (fun k => plus re_nonspace (star re_dot k)) (lang some_text).
Proof. exact (follows_seq _ _ _ _ follows_nows1 follows_dots). Qed.

(** The annotation [word] is found exactly in the texts the expression describes; what it says is the
    rest of a line, behind a text described by the front of the expression. *)
Definition reads (front back : re) (f : string -> option string) : Prop :=
  forall s, (f s <> None <-> exists a m r, s = a ++ m ++ r /\ lang front a /\ lang back m)
    /\ (forall m, f s = Some m -> exists a r, s = a ++ m ++ r /\ lang front a /\ lang back m /\ line_ends r).
Lemma reads_of : forall word suffix back (g : kont -> kont), follows g (lang back) -> (forall s r, g (@Some string) s = Some r -> line_ends r) ->
  reads (entry word suffix) back (re_entry word suffix (capture (g (@Some string)))).
Proof.
  intros word suffix back g [G1 G2] Ge s. destruct (follows_entry word suffix) as [F1 F2].
  assert (V : forall m, re_entry word suffix (capture (g (@Some string))) s = Some m -> exists a r, s = a ++ m ++ r /\ lang (entry word suffix) a /\ lang back m /\ line_ends r).
  { intros m H. destruct (F1 _ _ _ H) as (a & b & A & B & C). unfold capture in C. destruct (g (@Some string) b) as [r|] eqn:E; [|discriminate C]. cbn [option_map] in C. injection C as C.
    pose proof (Ge b r E) as X. destruct (G1 _ _ _ E) as (u & v & U1 & U2 & U3). injection U3 as ->. subst b. rewrite substring_front in C. subst u.
    exists a, r. auto. }
  split; [|exact V]. split.
  - intro H. destruct (re_entry word suffix (capture (g (@Some string))) s) as [m|] eqn:E; [|contradiction]. destruct (V m eq_refl) as (a & r & A & B & C & _). exists a, m, r. auto.
  - intros (a & m & r & -> & A & M). apply F2; [exact A|]. unfold capture. pose proof (G2 (@Some string) m r M ltac:(discriminate)) as X. destruct (g (@Some string) (m ++ r)); [discriminate|contradiction].
Qed.
Theorem C75_index : reads (entry "index" "es") some_text match_index.
Proof. exact (reads_of "index" "es" some_text (fun k => plus re_nonspace (star re_dot k)) follows_line after_line_end). Qed.
Theorem C75_constraint : reads (entry "constraint" "s") some_text match_constraint.
Proof. exact (reads_of "constraint" "s" some_text (fun k => plus re_nonspace (star re_dot k)) follows_line after_line_end). Qed.
Theorem C75_option : reads (entry "option" "s") some_text match_option.
Proof. exact (reads_of "option" "s" some_text (fun k => plus re_nonspace (star re_dot k)) follows_line after_line_end). Qed.
Theorem C75_table : reads (entry "table" "s") table_text match_table.
Proof.
  set (g := fun k : kont => opt (fun k => lit "CREATE" (plus re_space (lit "TABLE" (plus re_space k)))) (plus re_nonspace (star re_dot k))).
  change match_table with (re_entry "table" "s" (capture (g (@Some string)))). apply (reads_of "table" "s" table_text g); unfold g.
  - unfold table_text. apply (follows_seq (opt (fun k => lit "CREATE" (plus re_space (lit "TABLE" (plus re_space k)))))); [|exact follows_line].
    apply follows_opt. apply (follows_seq (lit "CREATE")); [apply follows_lit|]. apply (follows_seq (plus re_space)); [apply follows_ws1|]. apply (follows_seq (lit "TABLE")); [apply follows_lit|apply follows_ws1].
  - intros s r H. unfold opt in H. destruct (lit "CREATE" _ s) as [x|] eqn:E.
    + injection H as ->. assert (T : follows (fun k => lit "CREATE" (plus re_space (lit "TABLE" (plus re_space k)))) (lang (seq [Lit "CREATE"; Plus ws; Lit "TABLE"; Plus ws]))).
      { apply (follows_seq (lit "CREATE")); [apply follows_lit|]. apply (follows_seq (plus re_space)); [apply follows_ws1|]. apply (follows_seq (lit "TABLE")); [apply follows_lit|apply follows_ws1]. }
      destruct T as [T _]. destruct (T _ _ _ E) as (a & b & _ & _ & B). exact (after_line_end b r B).
    + exact (after_line_end s r H).
Qed.
Print Assumptions C75_index.
Print Assumptions C75_constraint.
Print Assumptions C75_option.
Print Assumptions C75_table.

(** What follows the word is completed to a statement unless it is one. *)
Lemma follows_word : forall w, to_upper w = w -> follows (lit_fold w) (lang (Word w)).
Proof.
  assert (D : forall w s t, drop_prefix_fold w s = Some t <-> exists a, s = a ++ t /\ to_upper a = to_upper w).
  { induction w as [|a w IH]; intros s t; cbn [drop_prefix_fold to_upper].
    - split; [intro H; inversion H; exists ""; split; reflexivity|]. intros (x & -> & X). destruct x; [reflexivity|discriminate X].
    - destruct s as [|b s].
      + split; [discriminate|]. intros (x & E & X). destruct x; [discriminate X|discriminate E].
      + destruct (Ascii.eqb (upper_byte a) (upper_byte b)) eqn:E.
        * apply Ascii.eqb_eq in E. rewrite IH. split.
          -- intros (x & -> & X). exists (String b x). split; [reflexivity|]. cbn [to_upper]. congruence.
          -- intros (x & E' & X). destruct x as [|y x]; [discriminate X|]. cbn [to_upper] in X. injection X as X1 X2. cbn [append] in E'. injection E' as E1 E2. exists x. auto.
        * apply Ascii.eqb_neq in E. split; [discriminate|]. intros (x & E' & X). destruct x as [|y x]; [discriminate X|]. cbn [to_upper] in X. injection X as X1 X2. cbn [append] in E'. injection E' as E1 E2. congruence. }
  intros w U. split.
  - intros k s x H. unfold lit_fold in H. destruct (drop_prefix_fold w s) as [r|] eqn:E; [|discriminate H]. apply D in E. destruct E as (a & A & B). exists a, r. split; [exact A|]. split; [constructor; congruence|exact H].
  - intros k a b H K. inversion H; subst. unfold lit_fold.
    assert (E : drop_prefix_fold (to_upper a) (a ++ b) = Some b) by (apply D; exists a; split; [reflexivity|congruence]). rewrite E. exact K.
Qed.
Lemma lang_opt_star : forall a s, lang (Opt (Star a)) s <-> lang (Star a) s.
Proof. intros a s. split; intro H; [|apply lang_left; exact H]. inversion H; subst; [assumption|]. match goal with K : lang Nothing _ |- _ => inversion K; subst end. constructor. Qed.
Lemma follows_create : forall word, to_upper word = word ->
  follows (fun k => star re_space (lit_fold "CREATE" (plus re_space (star re_dot (lit_fold word (plus re_space (star re_dot (plus re_nonspace k)))))))) (lang (whole word)).
Proof.
  intros word U. unfold whole. apply (follows_seq (star re_space)); [apply follows_ws|]. apply (follows_seq (lit_fold "CREATE")); [apply follows_word; reflexivity|].
  apply (follows_seq (plus re_space)); [apply follows_ws1|].
  assert (O : follows (star re_dot) (lang (Opt (Star dot)))) by (apply (follows_ext _ (lang (Star dot))); [intro s; symmetry; apply lang_opt_star|apply follows_dots]).
  apply (follows_seq (star re_dot)); [exact O|]. apply (follows_seq (lit_fold word)); [apply follows_word; exact U|]. apply (follows_seq (plus re_space)); [apply follows_ws1|].
  apply (follows_seq (star re_dot)); [exact O|apply follows_nows1].
Qed.
Lemma search_spec : forall (m : kont) s, search m s = true <-> exists b t, s = b ++ t /\ m t <> None.
Proof.
  intros m. induction s as [|c s IH]; cbn [search].
  - destruct (m "") eqn:E; (split; [intro H|]); try discriminate H; try reflexivity.
    + exists "", "". split; [reflexivity|congruence].
    + intros (b & t & X & T). destruct b; [|discriminate X]. cbn [append] in X. subst t. contradiction.
  - destruct (m (String c s)) eqn:E.
    + split; [intros _; exists "", (String c s); split; [reflexivity|congruence]|reflexivity].
    + rewrite IH. split.
      * intros (b & t & X & T). exists (String c b), t. split; [cbn [append]; congruence|exact T].
      * intros (b & t & X & T). destruct b as [|x b]; [cbn [append] in X; subst t; contradiction|]. cbn [append] in X. injection X as X1 X2. exists b, t. auto.
Qed.
Definition complete (word s : string) : Prop := exists b a r, s = b ++ a ++ r /\ lang (whole word) a.
Theorem C75_completed : forall word s, word = "TABLE" \/ word = "INDEX" ->
  (complete word s -> set_create word s = s) /\ (~ complete word s -> set_create word s = "CREATE " ++ word ++ " " ++ s).
Proof.
  intros word s W. assert (U : to_upper word = word) by (destruct W as [-> | ->]; reflexivity).
  assert (E : search (re_create word) s = true <-> complete word s).
  { rewrite search_spec. destruct (follows_create word U) as [F1 F2]. split.
    - intros (b & t & -> & T). destruct (re_create word t) as [x|] eqn:E; [|contradiction]. destruct (F1 _ _ _ E) as (a & r & -> & A & _). exists b, a, r. auto.
    - intros (b & a & r & -> & A). exists b, (a ++ r). split; [reflexivity|]. exact (F2 (@Some string) a r A ltac:(discriminate)). }
  unfold set_create. split; intro H.
  - apply E in H. rewrite H. reflexivity.
  - destruct (search (re_create word) s); [exfalso; apply H; apply E; reflexivity|reflexivity].
Qed.
Print Assumptions C75_completed.
Example C75_example :
  (match_tag "pgddl" "/*pgddl :x", match_tag "pgddl" "//// pgddl: a", match_tag "pgddl" "/pgddl:") = (true, true, false)
  /\ match_index ("a : indexes : b" ++ nl ++ "c") = Some "b" /\ match_index "a : indexs: b" = None
  /\ match_table "x: table: CREATE TABLE " = Some "CREATE TABLE " /\ match_constraint "x: constraint" = None
  /\ set_create "TABLE" "please create a table t" = "please create a table t" /\ set_create "TABLE" "create table" = "CREATE TABLE create table".
Proof. repeat split; vm_compute; reflexivity. Qed.
Example C75_example_complete : complete "INDEX" "CREATE UNIQUE INDEX i".
Proof.
  exists "", ("" ++ "CREATE" ++ (" " ++ "") ++ "UNIQUE " ++ "INDEX" ++ (" " ++ "") ++ "" ++ ("i" ++ "")), "". split; [reflexivity|]. unfold whole. cbn [seq].
  repeat match goal with |- lang (Seq _ _) _ => constructor end; try apply lang_left; try constructor; try reflexivity.
  all: repeat match goal with |- lang (Star dot) (String ?c ?r) => apply (lang_more dot (String c "") r); [constructor; reflexivity|] end; try constructor; reflexivity.
Qed.

(** * C45: exactly when generating crashes *)

(** The name of the field is used: it is told to be ignored, it has no column name, or its primary key tag is not understood. *)
Definition name_used (cfg : settings) (look : string -> string -> string) (tag : string) : Prop :=
  look tag (column_tag cfg) = "-" \/ look tag (column_tag cfg) = ""
  \/ (~ In (look tag (ddl_tag cfg)) [""; "-"] /\ ~ In (look tag (pk_tag cfg)) ["true"; "1"; ""; "-"]).
(** A field that is fatal: without tag, or embedded (without name) where the name is used *)
Definition fatal (cfg : settings) (look : string -> string -> string) (f : field) : Prop :=
  f_tag f = None \/ exists v, f_tag f = Some v /\ f_names f = [] /\ name_used cfg look (trim_byte ch_bquote v).
(** The struct that is read for an annotated comment: the last one of the declaration *)
Definition struct_of (types : list typespec) (fields : list field) : Prop :=
  exists a t b, types = (a ++ t :: b)%list /\ ts_fields t = Some fields /\ forall u, In u b -> ts_fields u = None.
Definition annotated (tag : string) (g : list cline) : Prop := exists l a r, In l g /\ cl_text l = a ++ r /\ lang (tag_line tag) a.
(** The file has an annotated struct with a fatal field. *)
Definition fatal_file (cfg : settings) (look : string -> string -> string) (nodes : list cnode) : Prop :=
  exists n g fields f, In n nodes /\ In g (n_groups n) /\ annotated (ddl_tag cfg) g /\ struct_of (n_types n) fields /\ In f fields /\ fatal cfg look f.

Lemma no_word : forall x l, existsb (String.eqb x) l = false <-> ~ In x l.
Proof.
  intros x l. rewrite <- not_true_iff_false. rewrite existsb_exists. split; intros H K; apply H.
  - exists x. split; [exact K|apply String.eqb_refl].
  - destruct K as [y [Y E]]. apply String.eqb_eq in E. subst. exact Y.
Qed.
Lemma read_field_outcome : forall cfg look ty t f, (fatal cfg look f /\ read_field cfg look ty t f = Panic) \/ (~ fatal cfg look f /\ exists t', read_field cfg look ty t f = Ok t').
Proof.
  intros cfg look ty t f. unfold read_field. destruct (f_tag f) as [v|] eqn:T; [|left; split; [left; exact T|reflexivity]].
  set (tag := trim_byte ch_bquote v). unfold first_name. destruct (f_names f) as [|n ns] eqn:N.
  2: { right. split.
       - intros [K|(v' & _ & K & _)]; congruence.
       - cbn [bind]. destruct (String.eqb _ "-"); [eexists; reflexivity|]. destruct (String.eqb _ ""); cbn [bind];
         (destruct (_ || _); [eexists; reflexivity|]; destruct (_ || _); cbn [bind]; eexists; reflexivity). }
  assert (F : fatal cfg look f <-> name_used cfg look tag).
  { split; [intros [K|(v' & K1 & K2 & K3)]; [congruence|]|intro K; right; exists v; auto]. rewrite T in K1. injection K1 as <-. exact K3. }
  rewrite F. unfold name_used. cbn [bind]. destruct (String.eqb (look tag (column_tag cfg)) "-") eqn:E1; [apply String.eqb_eq in E1; left; split; [left; exact E1|reflexivity]|].
  destruct (String.eqb (look tag (column_tag cfg)) "") eqn:E2; [apply String.eqb_eq in E2; left; split; [right; left; exact E2|reflexivity]|].
  apply String.eqb_neq in E1, E2. cbn [bind].
  destruct (String.eqb (look tag (ddl_tag cfg)) "" || String.eqb (look tag (ddl_tag cfg)) "-") eqn:E3.
  { right. split; [|eexists; reflexivity]. intros [K|[K|[K _]]]; [contradiction|contradiction|]. apply K. apply orb_true_iff in E3. rewrite !String.eqb_eq in E3. cbn [In]. intuition congruence. }
  destruct (String.eqb (look tag (pk_tag cfg)) "true" || String.eqb (look tag (pk_tag cfg)) "1" || String.eqb (look tag (pk_tag cfg)) "" || String.eqb (look tag (pk_tag cfg)) "-") eqn:E4.
  - right. split; [|cbn [bind]; eexists; reflexivity]. intros [K|[K|[_ K]]]; [contradiction|contradiction|]. apply K. rewrite !orb_true_iff, !String.eqb_eq in E4. cbn [In]. intuition congruence.
  - left. split; [|reflexivity]. right. right. rewrite <- !no_word. cbn [existsb]. rewrite !orb_false_r. rewrite !orb_assoc. split; assumption.
Qed.
Lemma read_fields_outcome : forall cfg look ty l t,
  ((exists f, In f l /\ fatal cfg look f) /\ read_fields cfg look ty l t = Panic) \/ ((forall f, In f l -> ~ fatal cfg look f) /\ exists t', read_fields cfg look ty l t = Ok t').
Proof.
  induction l as [|f l IH]; intro t; [right; split; [intros f []|eexists; reflexivity]|]. cbn [read_fields].
  destruct (read_field_outcome cfg look ty t f) as [[A B]|[A [t' B]]]; rewrite B; cbn [bind]; [left; split; [exists f; split; [left; reflexivity|exact A]|reflexivity]|].
  destruct (IH t') as [[(g & G1 & G2) C]|[C D]].
  - left. split; [exists g; split; [right; exact G1|exact G2]|exact C].
  - right. split; [|exact D]. intros g [->|G]; [exact A|exact (C g G)].
Qed.
Lemma read_source_outcome : forall cfg look short file r,
  let bad := exists fs f, s_struct r = Some fs /\ In f fs /\ fatal cfg look f in
  (bad /\ read_source cfg look short file r = Panic) \/ (~ bad /\ exists out, read_source cfg look short file r = Ok out).
Proof.
  intros cfg look short file r. cbv zeta. unfold read_source.
  destruct (read_comments_ok file (s_group r) _ (mkGTable file (s_line r) [] "" [] [] [] []) [] _ (clean_members (s_group r)) eq_refl (Forall_nil _)) as (t & out & E & _).
  rewrite E. cbn [bind]. destruct (s_struct r) as [fs|] eqn:S0; [|right; split; [intros (fs & f & K & _); discriminate K|eexists; reflexivity]].
  match goal with |- context [read_fields cfg look ?ty fs ?u] => destruct (read_fields_outcome cfg look ty fs u) as [[(f & F1 & F2) ->]|[F [t' ->]]] end.
  - left. split; [exists fs, f; auto|reflexivity].
  - right. split; [|eexists; reflexivity]. intros (fs' & f & K & F1 & F2). injection K as <-. exact (F f F1 F2).
Qed.
Lemma read_sources_outcome : forall cfg look short file l,
  let bad := exists r fs f, In r l /\ s_struct r = Some fs /\ In f fs /\ fatal cfg look f in
  (bad /\ read_sources cfg look short file l = Panic) \/ (~ bad /\ exists out, read_sources cfg look short file l = Ok out).
Proof.
  intros cfg look short file. induction l as [|r l IH]; cbv zeta in *; [right; split; [intros (r & fs & f & [] & _)|eexists; reflexivity]|]. cbn [read_sources].
  destruct (read_source_outcome cfg look short file r) as [[(fs & f & A) ->]|[A [out ->]]]; cbn [bind]; [left; split; [exists r, fs, f; split; [left; reflexivity|exact A]|reflexivity]|].
  destruct IH as [[(r' & fs & f & B1 & B2) ->]|[B [out' ->]]]; cbn [bind].
  - left. split; [exists r', fs, f; split; [right; exact B1|exact B2]|reflexivity].
  - right. split; [|eexists; reflexivity]. intros (r' & fs & f & [<-|I] & K); [apply A; exists fs, f; exact K|apply B; exists r', fs, f; split; assumption].
Qed.
Lemma last_struct_spec : forall l fs, last_struct l = Some fs <-> struct_of l fs.
Proof.
  intros l fs. unfold last_struct.
  assert (K : forall l acc, fold_left (fun acc t => match ts_fields t with Some fs => Some fs | None => acc end) l acc = Some fs <->
    struct_of l fs \/ (acc = Some fs /\ forall u, In u l -> ts_fields u = None)).
  { clear l. induction l as [|x l IH]; intro acc; cbn [fold_left].
    - split; [intro H; right; split; [exact H|intros u []]|]. intros [(a & t & b & E & _)|[H _]]; [destruct a; discriminate E|exact H].
    - rewrite IH. split.
      + intros [(a & t & b & E & T & B)|[H B]]; [left; exists (x :: a), t, b; rewrite E; split; [reflexivity|auto]|].
        destruct (ts_fields x) as [fx|] eqn:X.
        * left. exists [], x, l. split; [reflexivity|]. split; [congruence|exact B].
        * right. split; [exact H|]. intros u [<-|U]; [exact X|exact (B u U)].
      + intros [(a & t & b & E & T & B)|[H B]].
        * destruct a as [|y a]; cbn [app] in E; injection E as E1 E2; subst.
          -- right. rewrite T. split; [reflexivity|exact B].
          -- left. exists a, t, b. auto.
        * right. split; [|intros u U; apply B; right; exact U]. rewrite (B x (or_introl eq_refl)). exact H. }
  rewrite K. split; [intros [H|[H _]]; [exact H|discriminate H]|intro H; left; exact H].
Qed.
Lemma fatal_sources : forall cfg look nodes,
  fatal_file cfg look nodes <-> exists r fs f, In r (extract_sources (ddl_tag cfg) nodes) /\ s_struct r = Some fs /\ In f fs /\ fatal cfg look f.
Proof.
  intros cfg look nodes. unfold fatal_file, extract_sources, sources_of_node, sources_of_group. split.
  - intros (n & g & fs & f & N & G & (l & a & r & L & A & R) & T & F1 & F2).
    assert (M : match_tag (ddl_tag cfg) (cl_text l) = true) by (apply C75_tag; exists a, r; auto).
    destruct (find (fun l => match_tag (ddl_tag cfg) (cl_text l)) g) as [l'|] eqn:E.
    + exists (mkSource (cl_line l') (last_type (n_types n)) (last_struct (n_types n)) g), fs, f. split; [|split; [cbn; apply last_struct_spec; exact T|auto]].
      apply in_flat_map. exists n. split; [exact N|]. apply in_flat_map. exists g. split; [exact G|]. rewrite E. left. reflexivity.
    + exfalso. pose proof (find_none _ _ E l L) as X. cbn in X. congruence.
  - intros (r & fs & f & I & S0 & F1 & F2). apply in_flat_map in I. destruct I as (n & N & I). apply in_flat_map in I. destruct I as (g & G & I).
    destruct (find (fun l => match_tag (ddl_tag cfg) (cl_text l)) g) as [l'|] eqn:E; [|destruct I]. destruct I as [<-|[]]. cbn in S0.
    apply find_some in E. destruct E as [E1 E2]. apply C75_tag in E2. destruct E2 as (a & b & E2 & E3).
    exists n, g, fs, f. split; [exact N|]. split; [exact G|]. split; [exists l', a, b; auto|]. split; [apply last_struct_spec; exact S0|auto].
Qed.
Lemma parse_file_outcome : forall cfg look short srt file nodes,
  (fatal_file cfg look nodes /\ parse_file cfg look short srt file (Some nodes) = Panic)
  \/ (~ fatal_file cfg look nodes /\ exists out, parse_file cfg look short srt file (Some nodes) = Ok out).
Proof.
  intros cfg look short srt file nodes. rewrite fatal_sources. cbn [parse_file]. destruct (extract_sources (ddl_tag cfg) nodes) as [|r l].
  - right. split; [intros (r & fs & f & [] & _)|eexists; reflexivity].
  - destruct (read_sources_outcome cfg look short file (r :: l)) as [[A ->]|[A [out ->]]]; [left; split; [exact A|reflexivity]|right; split; [exact A|eexists; reflexivity]].
Qed.
(** One file *)
Theorem C45_file_crashes_iff : forall cfg look short srt dialect name nodes,
  generate cfg look short srt dialect "go" (OneFile name (Some nodes)) = Panic <-> fatal_file cfg look nodes.
Proof.
  intros cfg look short srt dialect name nodes. unfold generate. rewrite String.eqb_refl. cbn [parse_input].
  destruct (parse_file_outcome cfg look short srt name nodes) as [[A ->]|[A [out ->]]]; cbn [bind]; [split; auto|].
  split; [|contradiction]. destruct out as [out|]; cbn [bind]; [destruct (printer_of dialect); discriminate|discriminate].
Qed.
Print Assumptions C45_file_crashes_iff.
(** A directory: some file is fatal, and all Go files in front of it are Go. *)
Definition read_name (name : string) : bool := ends_with ".go" name && negb (ends_with "_test.go" name).
Theorem C45_tree_crashes_iff : forall cfg look short srt dialect files,
  generate cfg look short srt dialect "go" (Tree files) = Panic <->
  exists front name nodes back, files = (front ++ (name, Some nodes) :: back)%list /\ read_name name = true /\ fatal_file cfg look nodes
    /\ forall n p, In (n, p) front -> read_name n = true -> p <> None.
Proof.
  intros cfg look short srt dialect files. unfold generate. rewrite String.eqb_refl. cbn [parse_input].
  assert (K : forall files, parse_tree cfg look short srt files = Panic <-> exists front name nodes back, files = (front ++ (name, Some nodes) :: back)%list /\ read_name name = true /\ fatal_file cfg look nodes
    /\ forall n p, In (n, p) front -> read_name n = true -> p <> None).
  { clear files. induction files as [|[n p] files IH]; cbn [parse_tree]; [split; [discriminate|]; intros (front & name & nodes & back & E & _); destruct front; discriminate E|].
    replace (negb (ends_with ".go" n) || ends_with "_test.go" n) with (negb (read_name n)) by (unfold read_name; rewrite negb_andb, negb_involutive; reflexivity).
    destruct (read_name n) eqn:R; cbn [negb].
    - destruct p as [nodes|].
      + destruct (parse_file_outcome cfg look short srt n nodes) as [[A ->]|[A [out ->]]]; cbn [bind].
        * split; [|reflexivity]. intros _. exists [], n, nodes, files. split; [reflexivity|]. split; [exact R|]. split; [exact A|intros m q []].
        * assert (X : bind (parse_tree cfg look short srt files) (fun b => Ok (match out with Some a => a ++ b | None => b end)%list) = Panic <-> parse_tree cfg look short srt files = Panic)
            by (destruct (parse_tree cfg look short srt files); cbn [bind]; split; (discriminate || reflexivity)).
          rewrite X, IH. split.
          -- intros (front & name & nd & back & E & R' & F & B). exists ((n, Some nodes) :: front), name, nd, back. split; [rewrite E; reflexivity|]. split; [exact R'|]. split; [exact F|].
             intros m q [I|I]; [injection I as <- <-; discriminate|exact (B m q I)].
          -- intros (front & name & nd & back & E & R' & F & B). destruct front as [|x front]; cbn [app] in E; [injection E as E1 E2 E3; subst; contradiction|]. injection E as E1 E2.
             exists front, name, nd, back. split; [exact E2|]. split; [exact R'|]. split; [exact F|]. intros m q I. apply B. right. exact I.
      + cbn [parse_file bind]. split; [discriminate|]. intros (front & name & nd & back & E & R' & F & B). exfalso. destruct front as [|x front]; cbn [app] in E; [discriminate E|].
        injection E as E1 E2. apply (B n None); [left; congruence|exact R|reflexivity].
    - rewrite IH. split.
      + intros (front & name & nd & back & E & R' & F & B). exists ((n, p) :: front), name, nd, back. split; [rewrite E; reflexivity|]. split; [exact R'|]. split; [exact F|].
        intros m q [I|I]; [injection I as <- <-; congruence|exact (B m q I)].
      + intros (front & name & nd & back & E & R' & F & B). destruct front as [|x front]; cbn [app] in E; [injection E as E1 E2 E3; subst; congruence|]. injection E as E1 E2.
        exists front, name, nd, back. split; [exact E2|]. split; [exact R'|]. split; [exact F|]. intros m q I. apply B. right. exact I. }
  rewrite <- K. destruct (parse_tree cfg look short srt files) as [out| | |]; cbn [bind]; [destruct (printer_of dialect)| | |]; split; (discriminate || reflexivity).
Qed.
Print Assumptions C45_tree_crashes_iff.
(** An embedded field with a column name is fine; without one it is fatal. *)
Example C45_crash_example :
  let cfg := mkSettings "db" "pgddl" "pk" in
  let look (tag key : string) := if String.eqb key "db" then tag else if String.eqb key "pgddl" then "TEXT" else "" in
  let gen tag := generate cfg look (fun s => s) sort_small "postgres" "go"
    (Tree [("a_test.go", None); ("a.go", Some [mkNode [mkType "A" (Some [mkField [] (Some tag) ""])] [[mkLine "// pgddl: table: a" 3]]])]) in
  gen "id" <> Panic /\ gen "-" = Panic /\ gen "" = Panic.
Proof. split; [discriminate|]. split; reflexivity. Qed.
