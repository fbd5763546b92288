(** Facts about splitting texts into lines and removing comments. *)
From Coq Require Import Lia.
From Verif Require Import GoStr Tidy IndexText Lines.

Definition no_nl (s : string) : bool := negb (has_byte ch_nl s).
Definition unlines (l : list string) : string := concat_str (map (fun x => x ++ nl) l).

(** * Splitting *)

Lemma prefix_app : forall p s, String.prefix p (p ++ s) = true.
Proof. induction p as [|c p IH]; intro s; [destruct s; reflexivity|]. cbn. destruct (ascii_dec c c); [apply IH|contradiction]. Qed.
Lemma prefix_split : forall p s, String.prefix p s = true -> exists r, s = (p ++ r)%string.
Proof.
  induction p as [|c p IH]; intros s H; [exists s; reflexivity|]. destruct s as [|x s]; [discriminate H|]. cbn in H.
  destruct (ascii_dec c x); [|discriminate H]. subst x. destruct (IH s H) as [r E]. exists r. cbn. rewrite E. reflexivity.
Qed.

Lemma has_byte_app : forall c a b, has_byte c (a ++ b) = has_byte c a || has_byte c b.
Proof. intros c a b. induction a as [|x a IH]; [reflexivity|]. cbn. rewrite IH, orb_assoc. reflexivity. Qed.
Lemma no_nl_app : forall a b, no_nl (a ++ b) = no_nl a && no_nl b.
Proof. intros. unfold no_nl. rewrite has_byte_app, negb_orb. reflexivity. Qed.

Lemma split_line : forall x r, no_nl x = true -> split nl (x ++ nl ++ r) = x :: split nl r.
Proof.
  unfold split. induction x as [|c x IH]; intros r H.
  - cbn. destruct r; reflexivity.
  - unfold no_nl in H. cbn [has_byte] in H. rewrite negb_orb in H. apply andb_true_iff in H. destruct H as [H1 H2].
    cbn [append split_skip]. replace (String.prefix nl (String c (x ++ nl ++ r))) with false.
    + rewrite IH by exact H2. reflexivity.
    + symmetry. cbn [nl String.prefix]. destruct (ascii_dec ch_nl c) as [E|E]; [|reflexivity]. subst c. rewrite Ascii.eqb_refl in H1. discriminate H1.
Qed.
Lemma split_last : forall x, no_nl x = true -> split nl x = [x].
Proof.
  unfold split. induction x as [|c x IH]; intro H; [reflexivity|].
  unfold no_nl in H. cbn [has_byte] in H. rewrite negb_orb in H. apply andb_true_iff in H. destruct H as [H1 H2].
  cbn [split_skip]. replace (String.prefix nl (String c x)) with false.
  - rewrite IH by exact H2. reflexivity.
  - symmetry. cbn [nl String.prefix]. destruct (ascii_dec ch_nl c) as [E|E]; [|reflexivity]. subst c. rewrite Ascii.eqb_refl in H1. discriminate H1.
Qed.
Lemma split_nonempty : forall sep k s, split_skip sep k s <> [].
Proof.
  intros sep k s. revert k. induction s as [|c s IH]; intro k; cbn [split_skip]; [discriminate|]. destruct k; [|apply IH].
  destruct (String.prefix sep (String c s)); [discriminate|]. destruct (split_skip sep 0 s) eqn:E; discriminate.
Qed.
Lemma split_unlines : forall l y, forallb no_nl l = true -> no_nl y = true -> split nl (unlines l ++ y) = (l ++ [y])%list.
Proof.
  induction l as [|x l IH]; intros y H Hy; [apply split_last; exact Hy|].
  cbn [forallb] in H. apply andb_true_iff in H. destruct H as [H1 H2]. unfold unlines. cbn [map concat_str].
  rewrite !append_assoc. rewrite split_line by exact H1. fold (unlines l). rewrite IH by assumption. reflexivity.
Qed.
(** Every text consists of lines. *)
Lemma text_lines : forall s, exists l y, s = (unlines l ++ y)%string /\ forallb no_nl l = true /\ no_nl y = true.
Proof.
  induction s as [|c s [l [y [E [Hl Hy]]]]]; [exists [], ""; auto|].
  destruct (Ascii.eqb c ch_nl) eqn:Ec.
  - apply Ascii.eqb_eq in Ec. subst c. exists ("" :: l), y. subst s. split; [reflexivity|]. split; [exact Hl|exact Hy].
  - destruct l as [|x l].
    + exists [], (String c y). subst s. split; [reflexivity|]. split; [reflexivity|].
      unfold no_nl in *. cbn [has_byte]. rewrite Ec. exact Hy.
    + exists (String c x :: l), y. subst s. split; [reflexivity|]. split; [|exact Hy].
      cbn [forallb] in *. apply andb_true_iff in Hl. destruct Hl as [H1 H2]. rewrite H2, andb_true_r.
      unfold no_nl in *. cbn [has_byte]. rewrite Ec. exact H1.
Qed.

(** * Lines *)
Definition line_ok (s : string) : bool := no_nl s && fits_buffer s.

Lemma scan_pieces_cons : forall x y l, fits_buffer x = true -> scan_pieces (x :: y :: l) = drop_cr x :: scan_pieces (y :: l).
Proof. intros x y l H. cbn [scan_pieces]. rewrite H. reflexivity. Qed.
Lemma scan_pieces_app : forall l y l', forallb fits_buffer l = true ->
  scan_pieces (l ++ y :: l') = (map drop_cr l ++ scan_pieces (y :: l'))%list.
Proof.
  induction l as [|x l IH]; intros y l' H; [reflexivity|]. cbn [forallb] in H. apply andb_true_iff in H. destruct H as [H1 H2].
  cbn [app map]. rewrite <- IH by exact H2. destruct l; apply scan_pieces_cons; exact H1.
Qed.
Lemma forallb_and : forall A (f g : A -> bool) l, forallb (fun x => f x && g x) l = forallb f l && forallb g l.
Proof.
  intros A f g l. induction l as [|x l IH]; [reflexivity|]. cbn. rewrite IH.
  destruct (f x), (g x), (forallb f l), (forallb g l); reflexivity.
Qed.
Definition last_line (y : string) : list string := if String.eqb y "" then [] else [y].
Lemma scan_text : forall l y, forallb line_ok l = true -> line_ok y = true ->
  scan_lines (unlines l ++ y) = map drop_cr (l ++ last_line y).
Proof.
  intros l y H Hy. unfold line_ok in *. rewrite forallb_and in H. apply andb_true_iff in H. destruct H as [H1 H2].
  apply andb_true_iff in Hy. destruct Hy as [Hy1 Hy2]. unfold scan_lines. rewrite split_unlines by assumption.
  rewrite scan_pieces_app by exact H2. rewrite map_app. f_equal. cbn [scan_pieces]. unfold last_line. rewrite Hy2. destruct (String.eqb y ""); reflexivity.
Qed.
Lemma scan_unlines : forall l, forallb line_ok l = true -> scan_lines (unlines l) = map drop_cr l.
Proof.
  intros l H. pose proof (scan_text l "" H eq_refl) as E. cbn [last_line String.eqb] in E. rewrite app_nil_r in E.
  rewrite <- E. f_equal. symmetry. clear. induction (unlines l); [reflexivity|]. cbn. congruence.
Qed.

(** Without carriage returns lines are read as they are. *)
Lemma suffix_has : forall c s, has_suffix_byte c s = true -> has_byte c s = true.
Proof.
  induction s as [|x s IH]; intro H; [discriminate H|]. cbn [has_suffix_byte] in H. cbn [has_byte]. destruct s.
  - rewrite Ascii.eqb_sym, H. reflexivity.
  - rewrite (IH H), orb_true_r. reflexivity.
Qed.
Lemma drop_cr_id : forall s, has_byte ch_cr s = false -> drop_cr s = s.
Proof.
  intros s H. unfold drop_cr. destruct (has_suffix_byte ch_cr s) eqn:E; [|reflexivity]. apply suffix_has in E. congruence.
Qed.

(** * Trimming yields a part of the text *)
Lemma drop_prefix_app : forall p s t, drop_prefix p s = Some t -> s = (p ++ t)%string.
Proof.
  induction p as [|c p IH]; intros s t H; cbn in H; [inversion H; reflexivity|]. destruct s as [|x s]; [discriminate H|].
  destruct (Ascii.eqb c x) eqn:E; [|discriminate H]. apply Ascii.eqb_eq in E. subst x. cbn. rewrite (IH _ _ H). reflexivity.
Qed.
Lemma strip_one_app : forall ps s t, strip_one ps s = Some t -> exists p, s = (p ++ t)%string.
Proof.
  induction ps as [|p ps IH]; intros s t H; [discriminate H|]. cbn in H. destruct (drop_prefix p s) eqn:E; [|apply (IH _ _ H)].
  inversion H; subst. exists p. apply drop_prefix_app. exact E.
Qed.
Lemma strip_all_app : forall ps n s, exists p, s = (p ++ strip_all ps n s)%string.
Proof.
  induction n as [|n IH]; intro s; cbn [strip_all]; [exists ""; reflexivity|]. destruct (strip_one ps s) eqn:E; [|exists ""; reflexivity].
  destruct (strip_one_app _ _ _ E) as [p Ep]. destruct (IH s0) as [q Eq]. exists (p ++ q)%string. rewrite append_assoc, <- Eq. exact Ep.
Qed.
Lemma rev_onto_app : forall s acc, rev_onto s acc = (rev_str s ++ acc)%string.
Proof.
  unfold rev_str. induction s as [|c s IH]; intro acc; [reflexivity|]. cbn [rev_onto]. rewrite IH, (IH (String c "")), append_assoc. reflexivity.
Qed.
Lemma rev_str_app : forall a b, rev_str (a ++ b) = (rev_str b ++ rev_str a)%string.
Proof.
  induction a as [|c a IH]; intro b.
  - cbn [append]. unfold rev_str at 3. cbn. clear. induction (rev_str b); [reflexivity|]. cbn. congruence.
  - cbn [append]. unfold rev_str at 1. cbn [rev_onto]. rewrite rev_onto_app, IH, append_assoc. f_equal.
    unfold rev_str at 2. cbn [rev_onto]. rewrite rev_onto_app. reflexivity.
Qed.
Lemma rev_str_rev : forall s, rev_str (rev_str s) = s.
Proof.
  induction s as [|c s IH]; [reflexivity|]. change (String c s) with (String c "" ++ s)%string. rewrite rev_str_app, rev_str_app, IH. reflexivity.
Qed.
Lemma trim_part : forall s, exists a b, s = (a ++ trim_space s ++ b)%string.
Proof.
  intro s. unfold trim_space, trim_head. destruct (strip_all_app spaces (String.length s) s) as [a Ea].
  remember (strip_all spaces (String.length s) s) as t. clear Heqt. exists a.
  unfold trim_tail. destruct (strip_all_app (map rev_str spaces) (String.length t) (rev_str t)) as [b Eb].
  exists (rev_str b). rewrite <- rev_str_app, <- Eb, rev_str_rev. exact Ea.
Qed.

(** * Marks *)
Lemma before_mark_spec : forall p s b, before_mark p s = Some b -> exists r, s = (b ++ p ++ r)%string.
Proof.
  intros p s. induction s as [|c s IH]; intros b H; cbn [before_mark] in H.
  - destruct (String.prefix p "") eqn:E; [|discriminate H]. inversion H; subst. apply prefix_split in E. exact E.
  - destruct (String.prefix p (String c s)) eqn:E.
    + inversion H; subst. apply prefix_split in E. exact E.
    + destruct (before_mark p s) as [b'|]; [|discriminate H]. inversion H; subst. destruct (IH b' eq_refl) as [r Er]. exists r. cbn. rewrite Er. reflexivity.
Qed.
Lemma contains_part : forall p a s b, contains p s = true -> contains p (a ++ s ++ b) = true.
Proof.
  intros p a s b H. unfold contains in *. induction a as [|c a IH].
  - cbn [append]. induction s as [|c s IH].
    + cbn [before_mark] in H. destruct (String.prefix p "") eqn:E; [|discriminate H]. destruct p; [|discriminate E].
      destruct b; reflexivity.
    + cbn [append before_mark] in *. destruct (String.prefix p (String c s)) eqn:E.
      * apply prefix_split in E. destruct E as [r E].
        replace (String.prefix p (String c (s ++ b))) with true; [reflexivity|].
        change (String c (s ++ b)) with (String c s ++ b)%string. rewrite E, append_assoc. symmetry. apply prefix_app.
      * destruct (String.prefix p (String c (s ++ b))); [reflexivity|]. destruct (before_mark p s); [|discriminate H].
        specialize (IH eq_refl). destruct (before_mark p (s ++ b)); [reflexivity|exact IH].
  - cbn [append before_mark]. destruct (String.prefix p (String c (a ++ s ++ b))); [reflexivity|].
    destruct (before_mark p (a ++ s ++ b)); [reflexivity|discriminate IH].
Qed.
Lemma prefix_contains : forall p s, String.prefix p s = true -> contains p s = true.
Proof. intros p s H. unfold contains. destruct s; cbn [before_mark]; rewrite H; reflexivity. Qed.
Lemma prefix_before : forall p s, String.prefix p s = true -> before_mark p s = Some "".
Proof. intros p s H. destruct s; cbn [before_mark]; rewrite H; reflexivity. Qed.
Lemma prefix_trim : forall p s, contains p s = false -> String.prefix p (trim_space s) = false.
Proof.
  intros p s H. destruct (String.prefix p (trim_space s)) eqn:E; [|reflexivity]. apply prefix_contains in E.
  destruct (trim_part s) as [a [b Es]]. apply (contains_part p a _ b) in E. rewrite <- Es in E. congruence.
Qed.
(** The text in front of the first mark contains no mark. *)
Lemma prefix_shorten : forall p a b, String.prefix p a = true -> String.prefix p (a ++ b) = true.
Proof. intros p a b H. apply prefix_split in H. destruct H as [r E]. rewrite E, append_assoc. apply prefix_app. Qed.
Lemma before_mark_clean : forall p s b, p <> "" -> before_mark p s = Some b -> contains p b = false.
Proof.
  intros p s b Np. revert b. induction s as [|c s IH]; intros b H; cbn [before_mark] in H.
  - destruct (String.prefix p ""); [|discriminate H]. inversion H; subst. destruct p; [contradiction|]. reflexivity.
  - destruct (String.prefix p (String c s)) eqn:E.
    + inversion H; subst. destruct p; [contradiction|]. reflexivity.
    + destruct (before_mark p s) as [b'|] eqn:Eb; [|discriminate H]. cbn [option_map] in H. inversion H; subst. specialize (IH b' eq_refl).
      unfold contains in *. cbn [before_mark]. destruct (String.prefix p (String c b')) eqn:F.
      * destruct (before_mark_spec _ _ _ Eb) as [r Er]. apply (prefix_shorten _ _ (p ++ r)) in F. cbn [append] in F. rewrite <- Er in F. congruence.
      * destruct (before_mark p b'); [discriminate IH|reflexivity].
Qed.

(** * Removing comments *)
Lemma remove_plain : forall p x, contains p x = false -> remove_comment p x = if String.eqb x "" then "" else (x ++ nl)%string.
Proof.
  intros p x H. unfold remove_comment. rewrite (prefix_trim p x H). unfold contains in H. destruct (before_mark p x); [discriminate H|]. reflexivity.
Qed.
Lemma remove_comment_line : forall p r, remove_comment p (p ++ r) = "".
Proof.
  intros p r. unfold remove_comment. rewrite (prefix_before p (p ++ r) (prefix_app p r)).
  destruct (String.prefix p (trim_space (p ++ r))); reflexivity.
Qed.
Definition kept (p x : string) : list string :=
  if String.prefix p (trim_space x) then []
  else last_line (match before_mark p x with Some b => trim_space b | None => x end).
Lemma remove_kept : forall p x, remove_comment p x = unlines (kept p x).
Proof.
  intros p x. unfold remove_comment, kept. destruct (String.prefix p (trim_space x)); [reflexivity|]. unfold last_line.
  destruct (String.eqb _ ""); [reflexivity|]. unfold unlines. cbn. rewrite append_assoc. reflexivity.
Qed.
Lemma unlines_app : forall a b, unlines (a ++ b) = (unlines a ++ unlines b)%string.
Proof.
  unfold unlines. induction a as [|x a IH]; intro b; [reflexivity|]. cbn [app map concat_str]. rewrite IH, !append_assoc. reflexivity.
Qed.
Lemma remove_comments_kept : forall p s, remove_comments p s = unlines (flat_map (kept p) (scan_lines s)).
Proof.
  intros p s. unfold remove_comments. induction (scan_lines s) as [|x l IH]; [reflexivity|]. cbn [map concat_str flat_map].
  rewrite IH, remove_kept, unlines_app. reflexivity.
Qed.

(** What is left of a line *)
Lemma contains_shrink : forall p a x b, contains p (a ++ x ++ b) = false -> contains p x = false.
Proof. intros p a x b H. destruct (contains p x) eqn:E; [|reflexivity]. rewrite (contains_part p a x b E) in H. discriminate H. Qed.
Lemma kept_spec : forall p x y, p <> "" -> In y (kept p x) -> contains p y = false /\ y <> "" /\ exists a b, x = (a ++ y ++ b)%string.
Proof.
  intros p x y P I. unfold kept in I. destruct (String.prefix p (trim_space x)); [contradiction|]. destruct (before_mark p x) as [b|] eqn:B; unfold last_line in I.
  - destruct (String.eqb (trim_space b) "") eqn:E; [contradiction|]. destruct I as [I|[]]. subst y. apply String.eqb_neq in E.
    destruct (trim_part b) as [a [c T]]. pose proof (before_mark_clean p x b P B) as C. split; [rewrite T in C; apply (contains_shrink _ _ _ _ C)|]. split; [exact E|].
    destruct (before_mark_spec p x b B) as [r R]. exists a, (c ++ p ++ r)%string. rewrite R. rewrite T at 1. rewrite !append_assoc. reflexivity.
  - destruct (String.eqb x "") eqn:E; [contradiction|]. destruct I as [I|[]]. subst y. apply String.eqb_neq in E. split; [unfold contains; rewrite B; reflexivity|].
    split; [exact E|]. exists "", "". cbn. clear. induction x; [reflexivity|]. cbn. congruence.
Qed.
Lemma kept_few : forall p x, List.length (kept p x) <= 1.
Proof. intros p x. unfold kept. destruct (String.prefix p (trim_space x)); [cbn; auto|]. unfold last_line. destruct (String.eqb _ ""); cbn; auto. Qed.
Lemma kept_plain : forall p x, contains p x = false -> kept p x = if String.eqb x "" then [] else [x].
Proof. intros p x H. unfold kept. rewrite (prefix_trim p x H). unfold contains in H. destruct (before_mark p x); [discriminate H|]. reflexivity. Qed.
Lemma append_length : forall a b, String.length (a ++ b) = String.length a + String.length b.
Proof. induction a as [|c a IH]; intro b; [reflexivity|]. cbn. rewrite IH. reflexivity. Qed.
Lemma fits_part : forall a x b, fits_buffer (a ++ x ++ b) = true -> fits_buffer x = true.
Proof. intros a x b H. unfold fits_buffer in *. apply N.ltb_lt in H. apply N.ltb_lt. rewrite !append_length in H. lia. Qed.
Lemma kept_line_ok : forall p x y, p <> "" -> line_ok x = true -> In y (kept p x) -> line_ok y = true.
Proof.
  intros p x y P L I. destruct (kept_spec p x y P I) as [_ [_ [a [b X]]]]. subst x. unfold line_ok in *. apply andb_true_iff in L. destruct L as [L1 L2].
  rewrite (fits_part _ _ _ L2), andb_true_r. rewrite !no_nl_app in L1. apply andb_true_iff in L1. destruct L1 as [_ L1]. apply andb_true_iff in L1. apply L1.
Qed.
Lemma remove_comments_twice : forall p l y, p <> "" -> forallb line_ok l = true -> line_ok y = true -> has_byte ch_cr (unlines l ++ y) = false ->
  remove_comments p (remove_comments p (unlines l ++ y)) = remove_comments p (unlines l ++ y).
Proof.
  intros p l y P L Y C. rewrite !remove_comments_kept. rewrite scan_text by assumption.
  assert (N : forall x, In x (l ++ last_line y) -> has_byte ch_cr x = false /\ line_ok x = true).
  { intros x I. rewrite has_byte_app in C. apply orb_false_iff in C. destruct C as [C1 C2]. apply in_app_or in I. destruct I as [I|I].
    - rewrite forallb_forall in L. split; [|apply L; exact I]. clear - I C1. induction l as [|z l IH]; [contradiction|]. unfold unlines in *. cbn [map concat_str] in C1.
      rewrite !has_byte_app in C1. apply orb_false_iff in C1. destruct C1 as [C1 C3]. apply orb_false_iff in C1. destruct C1 as [C1 _]. destruct I as [I|I]; [subst; exact C1|apply IH; assumption].
    - unfold last_line in I. destruct (String.eqb y ""); [contradiction|]. destruct I as [I|[]]. subst x. auto. }
  replace (map drop_cr (l ++ last_line y)) with (l ++ last_line y)%list
    by (clear - N; induction (l ++ last_line y)%list as [|x k IH]; [reflexivity|]; cbn [map]; rewrite drop_cr_id by (apply N; left; reflexivity); rewrite <- IH; [reflexivity|intros z I; apply N; right; exact I]).
  set (k := flat_map (kept p) (l ++ last_line y)).
  assert (K : forall z, In z k -> contains p z = false /\ z <> "" /\ line_ok z = true /\ has_byte ch_cr z = false).
  { intros z I. apply in_flat_map in I. destruct I as [x [I1 I2]]. destruct (N x I1) as [N1 N2]. destruct (kept_spec p x z P I2) as [K1 [K2 [a [b K3]]]].
    split; [exact K1|]. split; [exact K2|]. split; [apply (kept_line_ok p x z P N2 I2)|]. subst x. rewrite !has_byte_app in N1. apply orb_false_iff in N1. destruct N1 as [_ N1]. apply orb_false_iff in N1. apply N1. }
  assert (KL : forallb line_ok k = true) by (rewrite forallb_forall; intros z I; apply (K z I)).
  rewrite scan_unlines by exact KL. f_equal. clear - K. induction k as [|z k IH]; [reflexivity|]. cbn [map flat_map].
  destruct (K z (or_introl eq_refl)) as [K1 [K2 [_ K4]]]. rewrite drop_cr_id by exact K4. rewrite kept_plain by exact K1.
  apply String.eqb_neq in K2. rewrite K2. cbn [app]. f_equal. apply IH. intros u I. apply K. right. exact I.
Qed.
Lemma map_drop_cr_id : forall l y, has_byte ch_cr (unlines l ++ y) = false -> map drop_cr (l ++ last_line y) = (l ++ last_line y)%list.
Proof.
  intros l y C. rewrite has_byte_app in C. apply orb_false_iff in C. destruct C as [C1 C2]. rewrite map_app. f_equal.
  - induction l as [|x l IH]; [reflexivity|]. unfold unlines in C1. cbn [map concat_str] in C1. rewrite !has_byte_app in C1.
    apply orb_false_iff in C1. destruct C1 as [C1 C3]. apply orb_false_iff in C1. destruct C1 as [C1 _]. cbn [map]. rewrite drop_cr_id by exact C1. f_equal. apply IH. exact C3.
  - unfold last_line. destruct (String.eqb y ""); [reflexivity|]. cbn [map]. rewrite drop_cr_id by exact C2. reflexivity.
Qed.
