(** Facts about runs of apply. *)
From Coq Require Import Lia.
From Verif Require Import GoStr Token Ast Tidy IndexText Lexer Parser Diff Lines LinesFacts Apply ApplySpec.

(** * Printed statements *)

Lemma printed_comment : forall d s, stmt_string d s = (comment_string (comment_of s) ++ stmt_string d (uncommented s))%string.
Proof. intros d s. destruct s; reflexivity. Qed.

Definition ends (t : string) : Prop := exists q, t = (q ++ ";" ++ nl)%string.
Lemma ends_app : forall a t, ends t -> ends (a ++ t).
Proof. intros a t [q E]. exists (a ++ q)%string. rewrite E, append_assoc. reflexivity. Qed.
Lemma ends_self : ends (";" ++ nl).
Proof. exists "". reflexivity. Qed.
Lemma text_exists : forall d s, exists q, text_of d s q.
Proof.
  intros d s. unfold text_of. change (ends (stmt_string d (uncommented s))).
  destruct s; cbn [uncommented stmt_string]; unfold create_table_string, create_index_string;
    repeat first [apply ends_self | apply ends_app].
Qed.
Lemma app_inj_tail_str : forall a b c : string, (a ++ c)%string = (b ++ c)%string -> a = b.
Proof.
  intros a b c E. apply (f_equal rev_str) in E. rewrite !rev_str_app in E. apply app_inj_head in E.
  apply (f_equal rev_str) in E. rewrite !rev_str_rev in E. exact E.
Qed.
Lemma text_unique : forall d s q q', text_of d s q -> text_of d s q' -> q = q'.
Proof. intros d s q q' H H'. unfold text_of in *. rewrite H in H'. apply app_inj_tail_str in H'. exact H'. Qed.
Lemma texts_unique : forall d l qs qs', Forall2 (text_of d) l qs -> Forall2 (text_of d) l qs' -> qs = qs'.
Proof.
  intros d l qs qs' H. revert qs'. induction H; intros qs' H'; inversion H'; subst; [reflexivity|]. f_equal; [|auto].
  eapply text_unique; eassumption.
Qed.
Lemma texts_exist : forall d l, exists qs, Forall2 (text_of d) l qs.
Proof.
  intros d. induction l as [|s l [qs IH]]; [exists []; constructor|]. destruct (text_exists d s) as [q H]. exists (q :: qs). constructor; assumption.
Qed.

(** * Comments are lines with a mark *)
Definition comment_lines (c : string) : list string := map (fun x => "-- " ++ x)%string (filter (fun x => negb (String.eqb x "")) (split nl c)).
Lemma comment_unlines : forall c, comment_string c = unlines (comment_lines c).
Proof.
  intro c. unfold comment_string, comment_lines, eqs. destruct (String.eqb c "") eqn:E.
  - apply String.eqb_eq in E. subst c. reflexivity.
  - induction (split nl c) as [|x l IH]; [reflexivity|]. cbn [map concat_str filter]. unfold comment_line at 1, eqs.
    destruct (String.eqb x ""); cbn [negb]; [exact IH|]. rewrite IH. unfold unlines. cbn [map concat_str]. rewrite !append_assoc. reflexivity.
Qed.
Lemma split_no_nl : forall s, forallb no_nl (split nl s) = true.
Proof.
  intro s. destruct (text_lines s) as [l [y [E [Hl Hy]]]]. subst s. rewrite split_unlines by assumption.
  rewrite forallb_app, Hl. cbn. rewrite Hy. reflexivity.
Qed.
Lemma comment_lines_ok : forall c, clean_comment c = true -> forallb line_ok (comment_lines c) = true.
Proof.
  intros c H. unfold clean_comment in H. pose proof (split_no_nl c) as N. unfold comment_lines. induction (split nl c) as [|x l IH]; [reflexivity|].
  cbn [forallb] in *. apply andb_true_iff in H. apply andb_true_iff in N. destruct H as [H1 H2], N as [N1 N2]. cbn [filter].
  destruct (negb (String.eqb x "")); [|apply IH; assumption]. cbn [map forallb]. rewrite (IH H2 N2), andb_true_r. unfold line_ok. rewrite H1, andb_true_r.
  exact N1.
Qed.
Lemma comment_lines_dropped : forall c, flat_map (kept "--") (map drop_cr (comment_lines c)) = [].
Proof.
  intro c. unfold comment_lines. induction (filter (fun x => negb (String.eqb x "")) (split nl c)) as [|x l IH]; [reflexivity|].
  cbn [map flat_map]. rewrite IH, app_nil_r.
  assert (P : exists r, drop_cr ("-- " ++ x) = ("--" ++ r)%string).
  { unfold drop_cr. destruct (has_suffix_byte ch_cr ("-- " ++ x)); [|exists (" " ++ x)%string; reflexivity].
    destruct x; eexists; reflexivity. }
  destruct P as [r P]. rewrite P. unfold kept. rewrite (prefix_before "--" ("--" ++ r) (prefix_app "--" r)).
  destruct (String.prefix "--" (trim_space ("--" ++ r))); reflexivity.
Qed.

(** * The lines of a clean statement are kept *)
Definition body_lines (q : string) : list string := split nl (q ++ ";").
Lemma app_empty : forall s, (s ++ "")%string = s.
Proof. induction s as [|c s IH]; [reflexivity|]. cbn. rewrite IH. reflexivity. Qed.
Lemma body_unlines : forall q, unlines (body_lines q) = (q ++ ";" ++ nl)%string.
Proof.
  intro q. unfold body_lines. destruct (text_lines (q ++ ";")) as [l [y [E [Hl Hy]]]]. rewrite E, split_unlines by assumption.
  rewrite unlines_app. unfold unlines at 2. cbn [map concat_str]. rewrite app_empty, <- append_assoc, <- E, append_assoc. reflexivity.
Qed.
Lemma split_app_end : forall q l y, split nl q = (l ++ [y])%list -> split nl (q ++ ";") = (l ++ [(y ++ ";")%string])%list.
Proof.
  intros q l y H. destruct (text_lines q) as [l' [y' [E [Hl Hy]]]]. rewrite E, split_unlines in H by assumption.
  apply app_inj_tail in H. destruct H as [H1 H2]. subst l' y'. rewrite E, append_assoc. apply split_unlines; [exact Hl|].
  rewrite no_nl_app, Hy. reflexivity.
Qed.
Lemma split_snoc : forall q, exists l y, split nl q = (l ++ [y])%list.
Proof. intro q. destruct (text_lines q) as [l [y [E [Hl Hy]]]]. exists l, y. rewrite E. apply split_unlines; assumption. Qed.

Lemma contains_part_false : forall p a x b, contains p (a ++ x ++ b) = false -> contains p x = false.
Proof. intros p a x b H. destruct (contains p x) eqn:E; [|reflexivity]. rewrite contains_part in H by exact E. discriminate H. Qed.
Lemma line_part : forall s x, In x (split nl s) -> exists a b, s = (a ++ x ++ b)%string.
Proof.
  intros s x H. destruct (text_lines s) as [l [y [E [Hl Hy]]]]. subst s. rewrite split_unlines in H by assumption. clear Hl Hy.
  induction l as [|z l IH]; cbn [app In] in H.
  - destruct H as [H|[]]. subst y. exists "", "". rewrite app_empty. reflexivity.
  - destruct H as [H|H].
    + subst z. exists "", (nl ++ unlines l ++ y)%string. unfold unlines. cbn [map concat_str]. rewrite !append_assoc. reflexivity.
    + destruct (IH H) as [a [b E]]. exists (z ++ nl ++ a)%string, b. unfold unlines in *. cbn [map concat_str]. rewrite !append_assoc, E. reflexivity.
Qed.
Lemma prefix_cons : forall a p b s, String.prefix (String a p) (String b s) = if ascii_dec a b then String.prefix p s else false.
Proof. reflexivity. Qed.
Lemma contains_semi : forall q, contains "--" q = false -> contains "--" (q ++ ";") = false.
Proof.
  unfold contains. induction q as [|c q IH]; intro H; [reflexivity|]. cbn [append before_mark] in *.
  destruct (String.prefix "--" (String c q)) eqn:E; [discriminate H|].
  replace (String.prefix "--" (String c (q ++ ";"))) with false.
  - destruct (before_mark "--" q); [discriminate H|]. specialize (IH eq_refl). destruct (before_mark "--" (q ++ ";")); [discriminate IH|reflexivity].
  - symmetry. destruct q as [|c2 q]; cbn [append]; rewrite !prefix_cons in *.
    + destruct (ascii_dec "-" c); reflexivity.
    + destruct (ascii_dec "-" c); [|reflexivity]. destruct (ascii_dec "-" c2); [|reflexivity]. destruct q; discriminate E.
Qed.
Lemma clean_lines : forall q x, clean q = true -> In x (body_lines q) ->
  x <> "" /\ line_ok x = true /\ contains "--" x = false /\ has_byte ch_cr x = false.
Proof.
  intros q x H I. unfold clean in H. rewrite !andb_true_iff in H. destruct H as [[[H1 H2] H3] H4].
  apply negb_true_iff in H1. apply negb_true_iff in H3. rewrite forallb_forall in H4.
  pose proof (contains_semi q H1) as C.
  assert (R : has_byte ch_cr (q ++ ";") = false) by (rewrite has_byte_app, H3; reflexivity).
  pose proof (split_no_nl (q ++ ";")) as N. rewrite forallb_forall in N. specialize (N x I).
  unfold body_lines in I. destruct (line_part _ _ I) as [a [b E]].
  assert (X : x <> "" /\ fits_buffer x = true).
  { destruct (split_snoc q) as [l [y Eq]]. rewrite (split_app_end q l y Eq) in I. apply in_app_or in I. destruct I as [I|I].
    - specialize (H4 x). rewrite Eq in H4. specialize (H4 (in_or_app _ _ _ (or_introl I))). apply andb_true_iff in H4. destruct H4 as [F1 F2].
      split; [intro Z; subst x; discriminate F1|]. unfold fits_buffer in *. apply N.ltb_lt in F2. apply N.ltb_lt.
      assert (L : String.length (x ++ ";") = S (String.length x)) by (clear; induction x as [|c x IH]; [reflexivity|]; cbn; rewrite IH; reflexivity).
      rewrite L in F2. lia.
    - destruct I as [I|[]]. subst x. specialize (H4 y). rewrite Eq in H4. specialize (H4 (in_or_app l [y] y (or_intror (or_introl eq_refl)))).
      apply andb_true_iff in H4. destruct H4 as [_ F2]. split; [destruct y; discriminate|exact F2]. }
  destruct X as [X1 X2]. split; [exact X1|]. split; [unfold line_ok; rewrite N, X2; reflexivity|].
  split.
  - rewrite E in C. exact (contains_part_false _ _ _ _ C).
  - rewrite E, !has_byte_app in R. destruct (has_byte ch_cr x); [|reflexivity]. rewrite orb_true_r in R. discriminate R.
Qed.
Lemma body_lines_ok : forall q, clean q = true -> forallb line_ok (body_lines q) = true.
Proof. intros q H. apply forallb_forall. intros x I. apply (clean_lines q x H I). Qed.
Lemma body_lines_kept : forall q, clean q = true -> flat_map (kept "--") (map drop_cr (body_lines q)) = body_lines q.
Proof.
  intros q H. pose proof (clean_lines q) as C. induction (body_lines q) as [|x l IH]; [reflexivity|].
  cbn [map flat_map]. rewrite IH by (intros y Hc I; apply (C y Hc (or_intror I))).
  destruct (C x H (or_introl eq_refl)) as [X1 [X2 [X3 X4]]]. rewrite drop_cr_id by exact X4. unfold kept. rewrite prefix_trim by exact X3.
  unfold contains in X3. destruct (before_mark "--" x); [discriminate X3|]. unfold last_line. destruct (String.eqb x "") eqn:E; [apply String.eqb_eq in E; contradiction|]. reflexivity.
Qed.

(** * Cutting a text into statements *)
Definition stop : string := ";" ++ nl.
Lemma split_stop : forall x r, contains stop x = false -> split stop (x ++ stop ++ r) = x :: split stop r.
Proof.
  unfold split, contains. induction x as [|c x IH]; intros r H; [destruct r; reflexivity|].
  cbn [append before_mark] in H. destruct (String.prefix stop (String c x)) eqn:E; [discriminate H|].
  assert (H' : match before_mark stop x with Some _ => true | None => false end = false) by (destruct (before_mark stop x); [discriminate H|reflexivity]).
  specialize (IH r H'). cbn [append split_skip].
  replace (String.prefix stop (String c (x ++ stop ++ r))) with false; [rewrite IH; reflexivity|].
  symmetry. unfold stop, nl in *. destruct x as [|c2 x]; cbn [append] in *; rewrite !prefix_cons in *.
  - destruct (ascii_dec ";" c); reflexivity.
  - destruct (ascii_dec ";" c); [|reflexivity]. destruct (ascii_dec ch_nl c2); [|reflexivity]. destruct x; discriminate E.
Qed.
Lemma split_stops : forall qs, forallb (fun q => negb (contains stop q)) qs = true ->
  split stop (concat_str (map (fun q => q ++ stop) qs)%string) = (qs ++ [""])%list.
Proof.
  induction qs as [|q qs IH]; intro H; [reflexivity|]. cbn [forallb] in H. apply andb_true_iff in H. destruct H as [H1 H2]. apply negb_true_iff in H1.
  cbn [map concat_str app]. rewrite append_assoc, split_stop by exact H1. rewrite IH by exact H2. reflexivity.
Qed.

Theorem pieces_printed : forall d l qs, Forall2 (text_of d) l qs ->
  forallb clean qs = true -> forallb (fun s => clean_comment (comment_of s)) l = true ->
  pieces (ddl_string d l) = (qs ++ [""])%list.
Proof.
  intros d l qs F C K. unfold pieces. fold stop.
  assert (L : exists ls, ddl_string d l = unlines ls /\ forallb line_ok ls = true /\ flat_map (kept "--") (map drop_cr ls) = flat_map body_lines qs).
  { revert C K. induction F as [|s q l qs T F IH]; intros C K; [exists []; auto|].
    cbn [forallb] in C, K. apply andb_true_iff in C. apply andb_true_iff in K. destruct C as [C1 C2], K as [K1 K2].
    destruct (IH C2 K2) as [ls [L1 [L2 L3]]]. exists (comment_lines (comment_of s) ++ body_lines q ++ ls)%list.
    split; [|split].
    - unfold ddl_string in *. cbn [map concat_str]. rewrite L1, printed_comment, T, comment_unlines, !unlines_app, body_unlines, !append_assoc. reflexivity.
    - rewrite !forallb_app, comment_lines_ok, body_lines_ok, L2 by assumption. reflexivity.
    - rewrite !map_app, !flat_map_app, comment_lines_dropped, body_lines_kept, L3 by assumption. reflexivity. }
  destruct L as [ls [L1 [L2 L3]]]. rewrite remove_comments_kept, L1, scan_unlines, L3 by exact L2.
  replace (unlines (flat_map body_lines qs)) with (concat_str (map (fun q => q ++ stop) qs)%string).
  - apply split_stops. rewrite forallb_forall in *. intros q I. specialize (C q I). unfold clean in C. rewrite !andb_true_iff in C. apply C.
  - clear. induction qs as [|q qs IH]; [reflexivity|]. cbn [map concat_str flat_map]. rewrite unlines_app, body_unlines, <- IH. reflexivity.
Qed.

(** The same for Spanner, whose comment lines are removed differently. *)
Lemma join_unlines : forall l, join nl (l ++ [""]) = unlines l.
Proof.
  induction l as [|x l IH]; [reflexivity|]. unfold unlines in *. cbn [map concat_str]. rewrite append_assoc, <- IH.
  destruct l; reflexivity.
Qed.
Lemma comment_lines_marked : forall c, filter (fun x => negb (String.prefix "--" x)) (comment_lines c) = [].
Proof. intro c. unfold comment_lines. induction (filter _ (split nl c)) as [|x l IH]; [reflexivity|]. exact IH. Qed.
Lemma body_lines_unmarked : forall q, clean q = true -> filter (fun x => negb (String.prefix "--" x)) (body_lines q) = body_lines q.
Proof.
  intros q H. pose proof (clean_lines q) as C. induction (body_lines q) as [|x l IH]; [reflexivity|].
  destruct (C x H (or_introl eq_refl)) as [_ [_ [X _]]]. cbn [filter].
  replace (String.prefix "--" x) with false.
  - cbn [negb]. rewrite IH; [reflexivity|]. intros y Hc I. apply (C y Hc (or_intror I)).
  - symmetry. destruct (String.prefix "--" x) eqn:E; [|reflexivity]. apply prefix_contains in E. congruence.
Qed.
Theorem batch_printed : forall d l qs, Forall2 (text_of d) l qs -> forallb clean qs = true ->
  split stop (drop_comment_lines (ddl_string d l)) = (qs ++ [""])%list.
Proof.
  intros d l qs F C.
  assert (L : exists ls, ddl_string d l = unlines ls /\ forallb no_nl ls = true /\ filter (fun x => negb (String.prefix "--" x)) ls = flat_map body_lines qs).
  { revert C. induction F as [|s q l qs T F IH]; intros C; [exists []; auto|].
    cbn [forallb] in C. apply andb_true_iff in C. destruct C as [C1 C2].
    destruct (IH C2) as [ls [L1 [L2 L3]]]. exists (comment_lines (comment_of s) ++ body_lines q ++ ls)%list.
    split; [|split].
    - unfold ddl_string in *. cbn [map concat_str]. rewrite L1, printed_comment, T, comment_unlines, !unlines_app, body_unlines, !append_assoc. reflexivity.
    - rewrite !forallb_app, L2, andb_true_r. apply andb_true_iff. split.
      + unfold comment_lines. pose proof (split_no_nl (comment_of s)) as N. clear - N. induction (split nl (comment_of s)) as [|x k IHk]; [reflexivity|].
        cbn [forallb] in N. apply andb_true_iff in N. destruct N as [N1 N2]. cbn [filter]. destruct (negb (String.eqb x "")); [|apply IHk; exact N2].
        cbn [map forallb]. rewrite (IHk N2), andb_true_r. exact N1.
      + apply split_no_nl.
    - rewrite !filter_app, comment_lines_marked, body_lines_unmarked, L3 by assumption. reflexivity. }
  destruct L as [ls [L1 [L2 L3]]]. unfold drop_comment_lines. rewrite L1.
  replace (split nl (unlines ls)) with (ls ++ [""])%list by (rewrite <- (app_empty (unlines ls)); symmetry; apply split_unlines; [exact L2|reflexivity]).
  rewrite filter_app, L3. cbn [filter String.prefix negb]. rewrite join_unlines.
  replace (unlines (flat_map body_lines qs)) with (concat_str (map (fun q => q ++ stop) qs)%string).
  - apply split_stops. rewrite forallb_forall in *. intros q I. specialize (C q I). unfold clean in C. rewrite !andb_true_iff in C. apply C.
  - clear. induction qs as [|q qs IH]; [reflexivity|]. cbn [map concat_str flat_map]. rewrite unlines_app, body_unlines, <- IH. reflexivity.
Qed.

(** * Attempts and retries *)
Definition nonempty (l : list string) : list string := filter (fun q => negb (String.eqb q "")) l.
Lemma nonempty_clean : forall qs, forallb clean qs = true -> nonempty (qs ++ [""]) = qs.
Proof.
  intros qs H. unfold nonempty. rewrite filter_app. cbn [filter String.eqb negb]. rewrite app_nil_r.
  induction qs as [|q qs IH]; [reflexivity|]. cbn [forallb] in H. apply andb_true_iff in H. destruct H as [H1 H2]. cbn [filter]. rewrite (IH H2).
  destruct q; [discriminate H1|reflexivity].
Qed.
Lemma sent_app : forall a b, sent (a ++ b) = (sent a ++ sent b)%list.
Proof. induction a as [|e a IH]; intro b; [reflexivity|]. destruct e; cbn [app sent]; rewrite IH; reflexivity. Qed.

Lemma attempt_sent : forall w ign ds past evs e, attempt w ign ds past = (evs, e) ->
  map fst (sent evs) = nonempty ds /\ (e = false -> Forall (fun p => bad_answer ign (snd p) = false) (sent evs))
  /\ (e = true -> Exists (fun p => bad_answer ign (snd p) = true) (sent evs)).
Proof.
  intros w ign. induction ds as [|q ds IH]; intros past evs e H; cbn [attempt] in H.
  - inversion H; subst. split; [reflexivity|]. split; [constructor|discriminate].
  - cbn [nonempty filter]. destruct (String.eqb q "") eqn:Eq; cbn [negb]; [apply (IH _ _ _ H)|].
    destruct (attempt w ign ds (past ++ [EExec q (w_exec w past q)])) as [evs' e'] eqn:E. inversion H; subst.
    destruct (IH _ _ _ E) as [I1 [I2 I3]]. cbn [sent map fst]. split; [unfold nonempty in I1; rewrite I1; reflexivity|]. split; intro F.
    + apply orb_false_iff in F. destruct F as [F1 F2]. constructor; [exact F1|apply I2; exact F2].
    + destruct (bad_answer ign (w_exec w past q)) eqn:B; [constructor; exact B|]. apply Exists_cons_tl. apply I3. exact F.
Qed.

Lemma retry_sent : forall w ign ds n past evs r, retry_do w ign ds n past = (evs, r) ->
  (exists k, 1 <= k <= S n /\ map fst (sent evs) = concat (repeat (nonempty ds) k)) /\
  (r = true -> exists pre seg, evs = (pre ++ seg)%list /\ map fst (sent seg) = nonempty ds /\ Forall (fun p => bad_answer ign (snd p) = false) (sent seg)).
Proof.
  intros w ign ds. induction n as [|n IH]; intros past evs r H; cbn [retry_do] in H;
    destruct (attempt w ign ds past) as [e1 b] eqn:E; destruct (attempt_sent _ _ _ _ _ _ E) as [S1 [S2 S3]].
  - assert (R : evs = e1 /\ r = negb b) by (destruct b; inversion H; auto). destruct R as [R1 R2]. subst evs r. split.
    + exists 1. split; [lia|]. cbn. rewrite app_nil_r. exact S1.
    + intro F. apply negb_true_iff in F. exists [], e1. split; [reflexivity|]. split; [exact S1|apply S2; exact F].
  - destruct b; cbn [negb] in H.
    + destruct (w_again w (past ++ e1)).
      * destruct (retry_do w ign ds n (past ++ e1)) as [more r'] eqn:E2. inversion H; subst. destruct (IH _ _ _ E2) as [[k [K1 K2]] K3]. split.
        -- exists (S k). split; [lia|]. cbn [repeat concat]. rewrite sent_app, map_app, S1, K2. reflexivity.
        -- intro F. destruct (K3 F) as [pre [seg [X1 [X2 X3]]]]. exists (e1 ++ pre)%list, seg. rewrite X1, app_assoc. auto.
      * inversion H; subst. split; [|discriminate]. exists 1. split; [lia|]. cbn. rewrite app_nil_r. exact S1.
    + inversion H; subst. split; [exists 1; split; [lia|]; cbn; rewrite app_nil_r; exact S1|]. intros _. exists [], evs. auto.
Qed.

(** * The batch *)
Lemma send_all_sent : forall w qs past evs ok, send_all w qs past = (evs, ok) ->
  (exists m, map fst (sent evs) = firstn m (nonempty qs)) /\
  (ok = true -> map fst (sent evs) = nonempty qs /\ Forall (fun p => snd p = None) (sent evs)).
Proof.
  intros w. induction qs as [|q qs IH]; intros past evs ok H; cbn [send_all] in H.
  - inversion H; subst. split; [exists 0; reflexivity|]. intros _. split; [reflexivity|constructor].
  - cbn [nonempty filter]. destruct (String.eqb q ""); cbn [negb]; [apply (IH _ _ _ H)|].
    destruct (w_exec w past q) as [x|] eqn:Ex.
    + inversion H; subst. split; [exists 1; reflexivity|discriminate].
    + destruct (send_all w qs (past ++ [EExec q None])) as [evs' ok'] eqn:E. inversion H; subst. destruct (IH _ _ _ E) as [[m I1] I2]. split.
      * exists (S m). cbn [sent map fst firstn]. unfold nonempty in I1. rewrite I1. reflexivity.
      * intro F. destruct (I2 F) as [X1 X2]. cbn [sent map fst]. unfold nonempty in X1. rewrite X1. split; [reflexivity|]. constructor; [reflexivity|exact X2].
Qed.
Lemma batch_sent : forall w s past evs ok, batch_exec w s past = (evs, ok) ->
  let qs := nonempty (split stop (drop_comment_lines s)) in
  (exists m, map fst (sent evs) = firstn m (start_batch :: qs ++ [run_batch])) /\
  (ok = true -> map fst (sent evs) = start_batch :: qs ++ [run_batch] /\ Forall (fun p => snd p = None) (sent evs)) /\
  (forall pre o post, sent evs = (pre ++ (run_batch, o) :: post)%list -> List.length pre = S (List.length qs) -> Forall (fun p => snd p = None) pre).
Proof.
  intros w s past evs ok H qs. unfold batch_exec in H. destruct (w_conn w past); cbn [negb] in H.
  2:{ inversion H; subst. split; [exists 0; reflexivity|]. split; [discriminate|]. intros pre o post E. destruct pre; discriminate E. }
  destruct (w_exec w past start_batch) as [x|] eqn:E0.
  - inversion H; subst. split; [exists 1; reflexivity|]. split; [discriminate|]. intros pre o post E L. destruct pre as [|p pre]; [discriminate L|].
    cbn [sent] in E. destruct pre as [|p2 pre]; cbn in E; inversion E.
  - destruct (send_all w (split (";" ++ nl) (drop_comment_lines s)) (past ++ [EExec start_batch None])) as [e1 ok1] eqn:E1.
    destruct (send_all_sent _ _ _ _ _ E1) as [[m S1] S2]. fold stop in S1, S2. fold qs in S1, S2. destruct ok1.
    + destruct (S2 eq_refl) as [X1 X2]. remember (w_exec w ((past ++ [EExec start_batch None]) ++ e1) run_batch) as o2. inversion H; subst evs ok.
      cbn [sent map fst]. rewrite sent_app, map_app, X1. cbn [sent map fst].
      split; [|split].
      * exists (S (S (List.length qs))). rewrite firstn_all2; [reflexivity|]. cbn [List.length]. rewrite app_length. cbn. lia.
      * intro F. split; [reflexivity|]. constructor; [reflexivity|]. apply Forall_app. split; [exact X2|]. constructor; [|constructor]. destruct o2; [discriminate F|reflexivity].
      * intros pre o post E L. destruct pre as [|p pre]; [discriminate L|]. cbn [app] in E. inversion E; subst p.
        constructor; [reflexivity|].
        assert (LL : List.length pre = List.length (sent e1)).
        { cbn in L. apply (f_equal (@List.length _)) in X1. rewrite map_length in X1. lia. }
        match goal with Q : (sent e1 ++ _)%list = _ |- _ => rename Q into Q0 end.
        assert (pre = sent e1).
        { apply (f_equal (firstn (List.length pre))) in Q0. rewrite LL in Q0 at 1. rewrite firstn_app, firstn_all, Nat.sub_diag in Q0. cbn [firstn] in Q0.
          rewrite app_nil_r in Q0. rewrite firstn_app, firstn_all, Nat.sub_diag in Q0. cbn [firstn] in Q0. rewrite app_nil_r in Q0. symmetry. exact Q0. }
        subst pre. exact X2.
    + inversion H; subst evs ok. cbn [sent map fst].
      assert (LE : List.length (sent e1) <= List.length qs).
      { apply (f_equal (@List.length _)) in S1. rewrite map_length in S1. rewrite S1, firstn_length. lia. }
      split; [|split; [discriminate|]].
      * exists (S (Nat.min m (List.length qs))). cbn [firstn]. rewrite S1. rewrite firstn_app.
        replace (Nat.min m (List.length qs) - List.length qs) with 0 by lia. cbn [firstn]. rewrite app_nil_r. f_equal.
        destruct (Nat.le_ge_cases m (List.length qs)); [rewrite Nat.min_l by assumption; reflexivity|].
        rewrite Nat.min_r by assumption. rewrite !firstn_all2 by lia. reflexivity.
      * intros pre o post E L. exfalso. apply (f_equal (@List.length _)) in E. rewrite app_length in E. cbn in E. lia.
Qed.

(** * The whole command *)
Definition silent (e : event) : bool := match e with EPrint _ | EAsk => true | _ => false end.
Lemma silent_sent : forall l, forallb silent l = true -> sent l = [].
Proof. induction l as [|e l IH]; intro H; [reflexivity|]. cbn in H. apply andb_true_iff in H. destruct H as [H1 H2]. destruct e; try discriminate H1; apply IH; exact H2. Qed.

Lemma diff_text_printed : forall w a b t, diff_text w a b = Text t ->
  exists d s1 s2 lb la stmts, dialect_of (w_dialect w) = Some d /\ w_resolve w a = Some s1 /\ w_resolve w b = Some s2 /\
    parse d (w_srt w) s1 = Ok lb /\ parse d (w_srt w) s2 = Ok la /\
    diff d (w_srt w) (w_sdiff w) (Some lb) (Some la) = DOk stmts /\ t = ddl_string d stmts.
Proof.
  intros w a b t H. unfold diff_text in H. destruct (w_resolve w a) as [s1|]; [|discriminate H]. destruct (w_resolve w b) as [s2|]; [|discriminate H].
  destruct (dialect_of (w_dialect w)) as [d|]; [|discriminate H]. destruct (parse d (w_srt w) s1) as [lb| | |] eqn:P1; try discriminate H.
  destruct (parse d (w_srt w) s2) as [la| | |] eqn:P2; try discriminate H.
  destruct (diff d (w_srt w) (w_sdiff w) (Some lb) (Some la)) as [stmts| | |] eqn:D; try discriminate H. inversion H. exists d, s1, s2, lb, la, stmts. auto 10.
Qed.

Definition approval (w : world) : event := if w_auto w then EPrint auto_message else EAsk.

Definition started (w : world) (t : string) : list event := [EPrint (message t); approval w; EPrint (nl ++ "executing..." ++ nl)].
Lemma command_shape : forall w args tr o, apply_command w args = (tr, o) ->
  forallb silent tr = true \/
  exists dsn src d stmts evs ok,
    args = [dsn; src] /\ diff_text w dsn src = Text (ddl_string d stmts) /\ dialect_of (w_dialect w) = Some d /\
    (w_auto w = true \/ typed_line (w_stdin w) = "yes") /\
    apply w dsn (ddl_string d stmts) (started w (ddl_string d stmts)) = (evs, ok) /\
    tr = (started w (ddl_string d stmts) ++ evs ++ (if ok then [EPrint ("done" ++ nl)] else []))%list /\
    o = (if ok then Done else Failed).
Proof.
  intros w args tr o H. unfold apply_command in H. destruct (w_load w); cbn [negb] in H; [|inversion H; left; reflexivity].
  destruct args as [|dsn [|src [|]]]; try (inversion H; left; reflexivity).
  destruct (diff_text w dsn src) as [t| | |] eqn:D; try (inversion H; left; reflexivity).
  destruct (w_out w [] (message t)); cbn [negb] in H; [|inversion H; left; reflexivity].
  destruct (diff_text_printed _ _ _ _ D) as [d [s1 [s2 [lb [la [stmts [Ed [_ [_ [_ [_ [_ Et]]]]]]]]]]]].
  destruct (w_auto w) eqn:A.
  - destruct (w_out w [EPrint (message t)] auto_message); cbn [fst snd negb] in H; [|inversion H; left; reflexivity].
    destruct (apply w dsn t _) as [evs ok] eqn:E in H. right. exists dsn, src, d, stmts, evs, ok.
    split; [reflexivity|]. rewrite <- Et. split; [exact D|]. split; [exact Ed|]. split; [left; reflexivity|].
    unfold started, approval. rewrite A. split; [exact E|]. destruct ok; inversion H; subst; rewrite ?app_nil_r; split; reflexivity.
  - cbn [fst snd] in H. destruct (String.eqb (typed_line (w_stdin w)) "yes") eqn:Y; cbn [negb] in H; [|inversion H; left; reflexivity].
    destruct (apply w dsn t _) as [evs ok] eqn:E in H. right. exists dsn, src, d, stmts, evs, ok.
    split; [reflexivity|]. rewrite <- Et. split; [exact D|]. split; [exact Ed|]. split; [right; apply String.eqb_eq; exact Y|].
    unfold started, approval. rewrite A. split; [exact E|]. destruct ok; inversion H; subst; rewrite ?app_nil_r; split; reflexivity.
Qed.

Lemma scan_head : forall s x l, scan_lines s = x :: l -> exists y rest, x = drop_cr y /\ no_nl y = true /\ (rest = "" \/ exists r, rest = (nl ++ r)%string) /\ s = (y ++ rest)%string.
Proof.
  intros s x l H. destruct (text_lines s) as [ls [z [E [Hl Hz]]]]. subst s. unfold scan_lines in H. rewrite split_unlines in H by assumption.
  destruct ls as [|y ls].
  - cbn [app scan_pieces] in H. destruct (String.eqb z ""); [discriminate H|]. destruct (fits_buffer z); [|discriminate H]. inversion H; subst.
    exists z, "". split; [reflexivity|]. split; [exact Hz|]. split; [left; reflexivity|]. cbn. rewrite app_empty. reflexivity.
  - cbn [app] in H. cbn [forallb] in Hl. apply andb_true_iff in Hl. destruct Hl as [Hy _].
    assert (X : x = drop_cr y) by (destruct (ls ++ [z])%list eqn:Q; cbn [scan_pieces] in H; [destruct ls; discriminate Q|]; destruct (fits_buffer y); inversion H; reflexivity).
    exists y, (nl ++ unlines ls ++ z)%string. split; [exact X|]. split; [exact Hy|]. split; [right; eexists; reflexivity|].
    unfold unlines. cbn [map concat_str]. rewrite !append_assoc. reflexivity.
Qed.
Lemma drop_last_snoc : forall c s, has_suffix_byte c s = true -> s = (drop_last s ++ String c "")%string.
Proof.
  induction s as [|x s IH]; intro H; [discriminate H|]. cbn [has_suffix_byte] in H. destruct s as [|y s].
  - apply Ascii.eqb_eq in H. subst x. reflexivity.
  - cbn [drop_last append]. f_equal. apply IH. exact H.
Qed.
Lemma typed_line_yes : forall s, typed_line s = "yes" -> typed_yes s.
Proof.
  intros s H. unfold typed_line in H. destruct (scan_lines s) as [|x l] eqn:E; [discriminate H|]. subst x.
  destruct (scan_head _ _ _ E) as [y [rest [X [Hy [R Es]]]]]. unfold drop_cr in X. destruct (has_suffix_byte ch_cr y) eqn:C.
  - exists (String ch_cr ""), rest. split; [right; reflexivity|]. split; [exact R|]. rewrite (drop_last_snoc _ _ C), <- X in Es. rewrite Es, append_assoc. reflexivity.
  - exists "", rest. split; [left; reflexivity|]. split; [exact R|]. subst y. exact Es.
Qed.

(** Apply, by dialect *)
Definition exec_of (d : dialect) (w : world) (s : string) (past : list event) : list event * bool :=
  match d with
  | My => split_exec w mysql_ignores s past
  | Pg | Crdb => split_exec w (fun _ => false) s past
  | Sp => batch_exec w s past
  end.
Lemma apply_cases : forall w d dsn s past evs ok, dialect_of (w_dialect w) = Some d -> apply w dsn s past = (evs, ok) ->
  (evs = [] /\ ok = false) \/
  exists e2, evs = EOpen dsn :: e2 /\ exec_of d w s (past ++ [EOpen dsn]) = (e2, ok).
Proof.
  intros w d dsn s past evs ok Ed E. unfold apply in E. destruct (w_open w past); cbn [negb] in E; [|inversion E; left; auto].
  right. unfold dialect_of in Ed.
  assert (X : exists e2, exec_of d w s (past ++ [EOpen dsn]) = (e2, ok) /\ evs = EOpen dsn :: e2).
  { destruct (String.eqb (w_dialect w) "mysql") eqn:D1.
    { apply String.eqb_eq in D1. rewrite D1 in E. cbn -[split_exec] in E. injection Ed as <-. cbn [exec_of].
      destruct (split_exec w mysql_ignores s (past ++ [EOpen dsn])) as [e2 ok2]. inversion E; subst. eauto. }
    destruct (String.eqb (w_dialect w) "postgres") eqn:D2.
    { apply String.eqb_eq in D2. rewrite D2 in E. cbn -[split_exec] in E. injection Ed as <-. cbn [exec_of].
      destruct (split_exec w (fun _ => false) s (past ++ [EOpen dsn])) as [e2 ok2]. inversion E; subst. eauto. }
    destruct (String.eqb (w_dialect w) "cockroachdb") eqn:D3.
    { apply String.eqb_eq in D3. rewrite D3 in E. cbn -[split_exec] in E. injection Ed as <-. cbn [exec_of].
      destruct (split_exec w (fun _ => false) s (past ++ [EOpen dsn])) as [e2 ok2]. inversion E; subst. eauto. }
    destruct (String.eqb (w_dialect w) "spanner") eqn:D4; [|discriminate Ed].
    apply String.eqb_eq in D4. rewrite D4 in E. cbn -[batch_exec] in E. injection Ed as <-. cbn [exec_of].
    destruct (batch_exec w s (past ++ [EOpen dsn])) as [e2 ok2]. inversion E; subst. eauto. }
  destruct X as [e2 [X1 X2]]. exists e2. auto.
Qed.

(** The run of apply, by dialect *)
Lemma command_cases : forall w args tr o, apply_command w args = (tr, o) ->
  (forallb silent tr = true /\ (o = Done -> exists dsn src, args = [dsn; src] /\ diff_text w dsn src = NoDifference)) \/
  (exists t, tr = started w t /\ o = Failed) \/
  exists dsn src d stmts e2 ok,
    args = [dsn; src] /\ diff_text w dsn src = Text (ddl_string d stmts) /\ dialect_of (w_dialect w) = Some d /\
    exec_of d w (ddl_string d stmts) (started w (ddl_string d stmts) ++ [EOpen dsn]) = (e2, ok) /\
    tr = ((started w (ddl_string d stmts) ++ [EOpen dsn]) ++ e2 ++ (if ok then [EPrint ("done" ++ nl)] else []))%list /\
    sent tr = sent e2 /\ o = (if ok then Done else Failed).
Proof.
  intros w args tr o H. destruct (command_shape _ _ _ _ H) as [S|[dsn [src [d [stmts [evs [ok [Ea [Et [Ed [A [E [T O]]]]]]]]]]]]].
  - left. split; [exact S|]. intro O. subst o. unfold apply_command in H. destruct (w_load w); cbn [negb] in H; [|discriminate H].
    destruct args as [|dsn [|src [|]]]; try discriminate H. exists dsn, src. split; [reflexivity|].
    destruct (diff_text w dsn src) as [t| | |] eqn:D; try discriminate H; [|reflexivity]. exfalso.
    destruct (w_out w [] (message t)); cbn [negb] in H; [|discriminate H].
    destruct (negb (snd _)) in H; [discriminate H|]. destruct (diff_text_printed _ _ _ _ D) as [d [s1 [s2 [lb [la [stmts [Ed _]]]]]]].
    destruct (apply w dsn t _) as [evs ok] eqn:E in H. destruct (apply_cases _ _ _ _ _ _ _ Ed E) as [[X1 X2]|[e2 [X1 X2]]]; subst ok || idtac.
    + discriminate H.
    + destruct ok; [|discriminate H]. apply (f_equal fst) in H. unfold fst at 1 in H. cbn [fst] in H. rewrite <- H, X1, forallb_app in S.
      cbn [app forallb silent andb] in S. rewrite andb_false_r in S. discriminate S.
  - right. destruct (apply_cases _ _ _ _ _ _ _ Ed E) as [[X1 X2]|[e2 [X1 X2]]].
    + left. exists (ddl_string d stmts). subst. rewrite app_nil_r. auto.
    + right. exists dsn, src, d, stmts, e2, ok. split; [exact Ea|]. split; [exact Et|]. split; [exact Ed|]. split; [exact X2|].
      assert (T2 : tr = ((started w (ddl_string d stmts) ++ [EOpen dsn]) ++ e2 ++ (if ok then [EPrint ("done" ++ nl)] else []))%list)
        by (rewrite T, X1, <- app_assoc; reflexivity).
      split; [exact T2|]. split; [|exact O]. rewrite T2, sent_app, (sent_app e2).
      assert (F1 : sent (started w (ddl_string d stmts) ++ [EOpen dsn]) = []) by (unfold started, approval; destruct (w_auto w); reflexivity).
      assert (F2 : sent (if ok then [EPrint ("done" ++ nl)] else []) = []) by (destruct ok; reflexivity).
      rewrite F1, F2, app_nil_r. reflexivity.
Qed.

(** * Retrying *)

Lemma before_mark_contains : forall p s, contains p s = true -> exists a b, s = (a ++ p ++ b)%string.
Proof. intros p s H. unfold contains in H. destruct (before_mark p s) as [b|] eqn:B; [|discriminate H]. destruct (before_mark_spec p s b B) as [r R]. eauto. Qed.
Lemma contains_self : forall p, contains p p = true.
Proof. intro p. apply prefix_contains. rewrite <- (app_empty p) at 2. apply prefix_app. Qed.
Definition ignored (d : dialect) : string -> bool := match d with My => mysql_ignores | _ => fun _ => false end.
Lemma good_acceptable : forall d o, bad_answer (ignored d) o = false <-> acceptable d o.
Proof.
  intros d [e|]; cbn [bad_answer acceptable]; [|split; auto]. rewrite negb_false_iff. split.
  - destruct d; cbn [ignored]; intro H; try discriminate H. unfold mysql_ignores in H. apply orb_true_iff in H. split; [reflexivity|].
    destruct H as [H|H]; [left|right]; apply before_mark_contains; exact H.
  - intros [D H]. subst d. cbn [ignored]. unfold mysql_ignores. apply orb_true_iff. destruct H as [[a [b H]]|[a [b H]]]; subst e; [left|right];
      apply contains_part; apply contains_self.
Qed.

Definition doneb (d : dialect) (past : list event) (q : string) : bool :=
  existsb (fun p => String.eqb (fst p) q && negb (bad_answer (ignored d) (snd p))) (sent past).
Lemma doneb_iff : forall d past q, doneb d past q = true <-> done_in d past q.
Proof.
  intros d past q. unfold doneb, done_in. rewrite existsb_exists. split.
  - intros [[q' o] [I H]]. cbn [fst snd] in H. apply andb_true_iff in H. destruct H as [H1 H2]. apply String.eqb_eq in H1. subst q'.
    exists o. split; [exact I|]. apply good_acceptable. apply negb_true_iff. exact H2.
  - intros [o [I A]]. exists (q, o). split; [exact I|]. cbn [fst snd]. rewrite String.eqb_refl. apply good_acceptable in A. rewrite A. reflexivity.
Qed.
Lemma done_later : forall d past evs q, done_in d past q -> done_in d (past ++ evs) q.
Proof. intros d past evs q [o [I A]]. exists o. split; [rewrite sent_app; apply in_or_app; left; exact I|exact A]. Qed.
Lemma attempt_answers : forall w ign ds past evs e, attempt w ign ds past = (evs, e) -> answers w past evs.
Proof.
  intros w ign. induction ds as [|q ds IH]; intros past evs e H; cbn [attempt] in H; [inversion H; constructor|].
  destruct (String.eqb q ""); [apply (IH _ _ _ H)|]. destruct (attempt w ign ds (past ++ [EExec q (w_exec w past q)])) as [evs' e'] eqn:E.
  inversion H; subst. constructor. apply (IH _ _ _ E).
Qed.
Lemma attempt_all_done : forall w d ds past evs e, repeatable w d (nonempty ds) -> (forall q, In q (nonempty ds) -> done_in d past q) ->
  attempt w (ignored d) ds past = (evs, e) -> e = false.
Proof.
  intros w d. induction ds as [|q ds IH]; intros past evs e R A H; cbn [attempt] in H; [inversion H; reflexivity|].
  cbn [nonempty filter] in R, A. destruct (String.eqb q "") eqn:Q; cbn [negb] in R, A; [apply (IH _ _ _ R A H)|].
  destruct (attempt w (ignored d) ds (past ++ [EExec q (w_exec w past q)])) as [evs' e'] eqn:E. inversion H; subst.
  apply orb_false_iff. split.
  - apply good_acceptable. apply R; [left; reflexivity|apply A; left; reflexivity].
  - refine (IH _ _ _ _ _ E).
    + intros p' q' I D. apply R; [right; exact I|exact D].
    + intros q' I. apply done_later. apply A. right. exact I.
Qed.
Lemma filter_less : forall A (f g : A -> bool) l, (forall x, g x = true -> f x = true) -> (exists x, In x l /\ f x = true /\ g x = false) ->
  List.length (filter g l) < List.length (filter f l).
Proof.
  intros A f g l M. assert (LE : forall k, List.length (filter g k) <= List.length (filter f k)).
  { induction k as [|x k IH]; [reflexivity|]. cbn [filter]. destruct (g x) eqn:G; [rewrite (M x G); cbn; lia|]. destruct (f x); cbn; lia. }
  induction l as [|x l IH]; intros [y [I [F G]]]; [contradiction|]. cbn [filter]. destruct I as [I|I].
  - subst y. rewrite F, G. cbn. specialize (LE l). lia.
  - assert (H : List.length (filter g l) < List.length (filter f l)) by (apply IH; eauto). destruct (g x) eqn:Gx; [rewrite (M x Gx); cbn; lia|].
    destruct (f x); cbn; lia.
Qed.
Definition missing (d : dialect) (qs : list string) (past : list event) : list string := filter (fun q => negb (doneb d past q)) qs.
Lemma retry_progress : forall w d ds, repeatable w d (nonempty ds) -> progressing w d (nonempty ds) -> (forall past, w_again w past = true) ->
  forall n past, List.length (missing d (nonempty ds) past) <= n -> snd (retry_do w (ignored d) ds n past) = true.
Proof.
  intros w d ds R P G. induction n as [|n IH]; intros past L; cbn [retry_do]; destruct (attempt w (ignored d) ds past) as [evs e] eqn:E.
  - assert (e = false).
    { refine (attempt_all_done _ _ _ _ _ _ R _ E). intros q I. apply doneb_iff. destruct (doneb d past q) eqn:D; [reflexivity|]. exfalso.
      assert (X : In q (missing d (nonempty ds) past)) by (apply filter_In; rewrite D; auto). destruct (missing d (nonempty ds) past); [contradiction|cbn in L; lia]. }
    subst e. reflexivity.
  - destruct e; [|reflexivity]. cbn [negb]. rewrite G. destruct (retry_do w (ignored d) ds n (past ++ evs)) as [more r] eqn:E2. cbn [snd].
    specialize (IH (past ++ evs)%list). rewrite E2 in IH. cbn [snd] in IH. apply IH.
    assert (X : exists q, In q (nonempty ds) /\ ~ done_in d past q).
    { destruct (missing d (nonempty ds) past) as [|q m] eqn:M.
      - exfalso. assert (true = false); [|discriminate]. refine (attempt_all_done _ _ _ _ _ _ R _ E). intros q I. apply doneb_iff.
        destruct (doneb d past q) eqn:D; [reflexivity|]. assert (X : In q (missing d (nonempty ds) past)) by (apply filter_In; rewrite D; auto). rewrite M in X. contradiction.
      - exists q. assert (X : In q (missing d (nonempty ds) past)) by (rewrite M; left; reflexivity). apply filter_In in X. destruct X as [X1 X2].
        split; [exact X1|]. intro D. apply doneb_iff in D. rewrite D in X2. discriminate X2. }
    destruct (attempt_sent _ _ _ _ _ _ E) as [S1 _]. destruct (P past evs (attempt_answers _ _ _ _ _ _ E) S1 X) as [q [Q1 [Q2 Q3]]].
    assert (LT : List.length (missing d (nonempty ds) (past ++ evs)) < List.length (missing d (nonempty ds) past)); [|lia].
    apply filter_less.
    + intros x F. apply negb_true_iff in F. apply negb_true_iff. destruct (doneb d past x) eqn:D; [|reflexivity]. apply doneb_iff in D.
      apply (done_later d past evs) in D. apply doneb_iff in D. rewrite D in F. discriminate F.
    + exists q. split; [exact Q1|]. split; [apply negb_true_iff|apply negb_false_iff].
      * destruct (doneb d past q) eqn:D; [|reflexivity]. apply doneb_iff in D. contradiction.
      * apply doneb_iff. exact Q3.
Qed.
Lemma nonempty_length : forall l, List.length (nonempty l) <= List.length l.
Proof. induction l as [|x l IH]; [reflexivity|]. cbn [nonempty filter]. destruct (negb _); unfold nonempty in IH; cbn; lia. Qed.
Lemma filter_length_le : forall A (f : A -> bool) l, List.length (filter f l) <= List.length l.
Proof. induction l as [|x l IH]; [reflexivity|]. cbn. destruct (f x); cbn; lia. Qed.

(** A database that rejects everything: all attempts are used up. *)
Lemma attempt_rejected : forall w ign ds past, nonempty ds <> [] -> (forall p q, bad_answer ign (w_exec w p q) = true) ->
  snd (attempt w ign ds past) = true.
Proof.
  intros w ign ds past N B. destruct (attempt w ign ds past) as [evs e] eqn:E. cbn [snd]. destruct e; [reflexivity|]. exfalso.
  destruct (attempt_sent _ _ _ _ _ _ E) as [S1 [S2 _]]. specialize (S2 eq_refl). pose proof (attempt_answers _ _ _ _ _ _ E) as A. clear E.
  induction A as [p|p q evs A IH]; [apply N; symmetry; exact S1|]. cbn [sent] in S2. inversion S2; subst. cbn [snd] in *. rewrite B in H1. discriminate H1.
Qed.
Lemma retry_rejected : forall w ign ds, nonempty ds <> [] -> (forall p q, bad_answer ign (w_exec w p q) = true) -> (forall p, w_again w p = true) ->
  forall n past, snd (retry_do w ign ds n past) = false /\ map fst (sent (fst (retry_do w ign ds n past))) = concat (repeat (nonempty ds) (S n)).
Proof.
  intros w ign ds N B G. induction n as [|n IH]; intro past; cbn [retry_do]; pose proof (attempt_rejected w ign ds past N B) as A;
    destruct (attempt w ign ds past) as [evs e] eqn:E; cbn [snd] in A; subst e; cbn [negb]; destruct (attempt_sent _ _ _ _ _ _ E) as [S1 _].
  - cbn [fst snd repeat concat]. rewrite app_nil_r. auto.
  - rewrite G. specialize (IH (past ++ evs)%list). destruct (retry_do w ign ds n (past ++ evs)) as [more r]. cbn [fst snd] in *.
    destruct IH as [I1 I2]. split; [exact I1|]. rewrite sent_app, map_app, S1, I2. reflexivity.
Qed.
