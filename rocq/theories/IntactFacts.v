(** Facts about statements that reach the database as they were displayed. *)
From Coq Require Import Lia.
From Verif Require Import GoStr Token Ast Tidy IndexText Lexer Parser Diff Lines LinesFacts Apply ApplySpec ApplyFacts Intact.

(** * Cutting *)
Lemma split_stop_last : forall y, contains stop y = false -> split stop y = [y].
Proof.
  unfold split, contains. induction y as [|c y IH]; intro H; [reflexivity|]. cbn [before_mark] in H. cbn [split_skip].
  destruct (String.prefix stop (String c y)); [discriminate H|]. rewrite IH; [reflexivity|]. destruct (before_mark stop y); [discriminate H|reflexivity].
Qed.
Definition stopped (qs : list string) : string := concat_str (map (fun q => q ++ stop)%string qs).
Lemma stopped_app : forall a b, stopped (a ++ b) = (stopped a ++ stopped b)%string.
Proof. unfold stopped. induction a as [|x a IH]; intro b; [reflexivity|]. cbn [app map concat_str]. rewrite IH, !append_assoc. reflexivity. Qed.
Lemma split_stopped : forall qs y, forallb (fun q => negb (contains stop q)) qs = true -> contains stop y = false ->
  split stop (stopped qs ++ y) = (qs ++ [y])%list.
Proof.
  unfold stopped. induction qs as [|q qs IH]; intros y H Hy; [apply split_stop_last; exact Hy|]. cbn [forallb] in H. apply andb_true_iff in H. destruct H as [H1 H2]. apply negb_true_iff in H1.
  cbn [map concat_str app]. rewrite !append_assoc, split_stop by exact H1. rewrite IH by assumption. reflexivity.
Qed.
Lemma stop_parts : forall s, exists qs y, s = (stopped qs ++ y)%string /\ forallb (fun q => negb (contains stop q)) qs = true /\ contains stop y = false.
Proof.
  intro s. remember (String.length s) as n eqn:N. revert s N. induction n as [n IH] using lt_wf_ind. intros s N.
  destruct (before_mark stop s) as [b|] eqn:B.
  - destruct (before_mark_spec _ _ _ B) as [r R].
    assert (L : String.length r < n) by (rewrite N, R, !append_length; cbn; lia).
    destruct (IH _ L r eq_refl) as [qs [y [E [F1 F2]]]]. exists (b :: qs), y. split; [|split; [|exact F2]].
    + unfold stopped in *. cbn [map concat_str]. rewrite R, E, !append_assoc. reflexivity.
    + cbn [forallb]. rewrite F1, andb_true_r. apply negb_true_iff. apply (before_mark_clean stop s b); [discriminate|exact B].
  - exists [], s. split; [reflexivity|]. split; [reflexivity|]. unfold contains. rewrite B. reflexivity.
Qed.
Definition weigh (l : list string) : nat := fold_right (fun x n => S (S (String.length x)) + n) 0 l.
Lemma stopped_length : forall qs, String.length (stopped qs) = weigh qs.
Proof. unfold stopped. induction qs as [|q qs IH]; [reflexivity|]. cbn [map concat_str weigh fold_right]. rewrite !append_length, IH. unfold weigh. cbn. lia. Qed.
Lemma weigh_app : forall a b, weigh (a ++ b) = weigh a + weigh b.
Proof. unfold weigh. induction a as [|x a IH]; intro b; [reflexivity|]. cbn [app fold_right]. rewrite IH. lia. Qed.
Lemma weigh_nonempty : forall l, weigh (nonempty l) <= weigh l.
Proof. unfold nonempty. induction l as [|x l IH]; [auto|]. cbn [filter]. destruct (negb (String.eqb x "")); unfold weigh in *; cbn [fold_right]; lia. Qed.
Lemma nonempty_all : forall qs, forallb (fun q => negb (String.eqb q "")) qs = true -> nonempty qs = qs.
Proof.
  unfold nonempty. induction qs as [|q qs IH]; intro H; [reflexivity|]. cbn [forallb] in H. apply andb_true_iff in H. destruct H as [H1 H2]. cbn [filter]. rewrite H1, IH by exact H2. reflexivity.
Qed.
Lemma nonempty_eq : forall l, weigh (nonempty l) = weigh l -> nonempty l = l.
Proof.
  intro l. unfold nonempty. induction l as [|x l IH]; intro H; [reflexivity|]. cbn [filter] in *. pose proof (weigh_nonempty l) as W. unfold nonempty in W.
  destruct (negb (String.eqb x "")); unfold weigh in *; cbn [fold_right] in *; [rewrite IH by lia; reflexivity|lia].
Qed.
Lemma suffix_last : forall c a, has_suffix_byte c (a ++ String c "") = true.
Proof. induction a as [|x a IH]; [cbn; apply Ascii.eqb_refl|]. cbn [append has_suffix_byte]. destruct (a ++ String c "")%string eqn:E; [destruct a; discriminate E|exact IH]. Qed.
Lemma suffix_part : forall c a b, b <> "" -> has_suffix_byte c (a ++ b) = has_suffix_byte c b.
Proof.
  intros c a b B. induction a as [|x a IH]; [reflexivity|]. cbn [append has_suffix_byte]. destruct (a ++ b)%string eqn:E; [|exact IH].
  destruct a; [cbn in E; contradiction|discriminate E].
Qed.
Lemma unlines_end : forall K, K = [] \/ has_suffix_byte ch_nl (unlines K) = true.
Proof.
  intro K. destruct K as [|x K] using rev_ind; [left; reflexivity|right]. rewrite unlines_app, suffix_part.
  - unfold unlines. cbn [map concat_str]. rewrite app_empty. apply suffix_last.
  - unfold unlines. cbn [map concat_str]. rewrite app_empty. destruct x; discriminate.
Qed.

(** The pieces of a text that consists of lines are the statements: then nothing is missing. *)
Lemma pieces_weigh : forall K qs, forallb (fun q => negb (String.eqb q "")) qs = true -> nonempty (split stop (unlines K)) = qs ->
  (forall qs' q, qs = (qs' ++ [q])%list -> has_suffix_byte ch_nl q = true -> exists K', K = (K' ++ [";"%string])%list) ->
  weigh qs <= String.length (unlines K) /\ (weigh qs = String.length (unlines K) -> unlines K = stopped qs /\ forallb (fun q => negb (contains stop q)) qs = true).
Proof.
  intros K qs N H L. destruct (stop_parts (unlines K)) as [ps [y [E [P Y]]]]. rewrite E in H |- *. rewrite split_stopped in H by assumption.
  unfold nonempty in H. rewrite filter_app in H. fold (nonempty ps) in H. cbn [filter] in H. rewrite append_length, stopped_length.
  destruct (String.eqb y "") eqn:Ey; cbn [negb] in H.
  - apply String.eqb_eq in Ey. subst y. rewrite app_nil_r in H. subst qs. cbn [String.length]. rewrite Nat.add_0_r. split; [apply weigh_nonempty|].
    intro W. rewrite (nonempty_eq _ W), app_empty. auto.
  - exfalso. apply String.eqb_neq in Ey. assert (S1 : has_suffix_byte ch_nl y = true).
    { destruct (unlines_end K) as [Z|Z]; [subst K; cbn in E; destruct (stopped ps); [cbn in E; congruence|discriminate E]|]. rewrite E, suffix_part in Z by exact Ey. exact Z. }
    destruct (L (nonempty ps) y) as [K' EK]; [symmetry; exact H|exact S1|].
    rewrite EK, unlines_app in E. destruct (stop_parts (unlines K')) as [ps' [y' [E' [P' Y']]]].
    assert (X : split stop (stopped ps ++ y) = (ps ++ [y])%list) by (apply split_stopped; assumption).
    rewrite <- E, E' in X. replace ((stopped ps' ++ y') ++ unlines [";"%string])%string with (stopped (ps' ++ [y']) ++ "")%string in X.
    + rewrite split_stopped in X; [|rewrite forallb_app, P'; cbn [forallb]; rewrite Y'; reflexivity|reflexivity].
      apply app_inj_tail in X. destruct X as [_ X]. congruence.
    + rewrite app_empty, stopped_app, !append_assoc. f_equal. unfold stopped. cbn [map concat_str]. rewrite app_empty. reflexivity.
Qed.

(** * Lines that are kept *)
Definition rem (ls : list string) : list string := flat_map (kept "--") (scan_pieces (ls ++ [""])).
Lemma rem_cons : forall x ls, rem (x :: ls) = if fits_buffer x then (kept "--" (drop_cr x) ++ rem ls)%list else [].
Proof.
  intros x ls. unfold rem. cbn [app]. destruct (ls ++ [""])%list as [|y l] eqn:E; [destruct ls; discriminate E|].
  cbn [scan_pieces]. destruct (fits_buffer x); reflexivity.
Qed.
Lemma rem_app : forall b ls, forallb fits_buffer b = true -> rem (b ++ ls) = (flat_map (kept "--") (map drop_cr b) ++ rem ls)%list.
Proof.
  induction b as [|x b IH]; intros ls H; [reflexivity|]. cbn [forallb] in H. apply andb_true_iff in H. destruct H as [H1 H2].
  cbn [app map flat_map]. rewrite rem_cons, H1, IH by exact H2. rewrite app_assoc. reflexivity.
Qed.
Definition size (l : list string) : nat := String.length (unlines l).
Lemma size_app : forall a b, size (a ++ b) = size a + size b.
Proof. intros. unfold size. rewrite unlines_app, append_length. reflexivity. Qed.
Lemma size_one : forall x, size [x] = S (String.length x).
Proof. intro x. unfold size, unlines. cbn [map concat_str]. rewrite app_empty, append_length. cbn. lia. Qed.
Lemma drop_last_length : forall s, String.length (drop_last s) = String.length s - 1.
Proof. induction s as [|c [|c2 s] IH]; [reflexivity|reflexivity|]. cbn [drop_last String.length] in *. rewrite IH. lia. Qed.
Lemma drop_cr_length : forall x, String.length (drop_cr x) <= String.length x /\ (String.length (drop_cr x) = String.length x -> has_suffix_byte ch_cr x = false).
Proof.
  intro x. unfold drop_cr. destruct (has_suffix_byte ch_cr x) eqn:E; [|auto]. rewrite drop_last_length. destruct x; [discriminate E|]. cbn. split; [lia|]. intro. lia.
Qed.
Lemma part_equal : forall a x b y : string, y = (a ++ x ++ b)%string -> String.length x = String.length y -> x = y.
Proof.
  intros a x b y E L. rewrite E, !append_length in L. assert (String.length a = 0) by lia. assert (String.length b = 0) by lia.
  destruct a; [|discriminate]. destruct b; [|discriminate]. rewrite E. cbn. rewrite app_empty. reflexivity.
Qed.
Lemma part_length : forall a x b y : string, y = (a ++ x ++ b)%string -> String.length x <= String.length y.
Proof. intros a x b y E. rewrite E, !append_length. lia. Qed.
Lemma kept_size : forall x, size (kept "--" (drop_cr x)) <= size [x] /\
  (size (kept "--" (drop_cr x)) = size [x] -> fits_buffer x = true -> intact_line x = true).
Proof.
  intro x. pose proof (kept_few "--" (drop_cr x)) as F. destruct (kept "--" (drop_cr x)) as [|y [|z l]] eqn:K; [|clear F|cbn in F; lia].
  - rewrite size_one. cbn. split; [lia|intro Z; discriminate Z].
  - destruct (kept_spec "--" (drop_cr x) y) as [C [N [a [b E]]]]; [discriminate|rewrite K; left; reflexivity|].
    rewrite !size_one. pose proof (part_length _ _ _ _ E) as L1. destruct (drop_cr_length x) as [L2 L3]. split; [lia|]. intros Z B.
    assert (Z1 : String.length (drop_cr x) = String.length x) by lia. specialize (L3 Z1).
    assert (X : drop_cr x = x) by (unfold drop_cr; rewrite L3; reflexivity). rewrite X in *.
    assert (Y : y = x) by (apply (part_equal a y b x E); lia). subst y. unfold intact_line. change (short x) with (fits_buffer x). rewrite C, L3, B. apply String.eqb_neq in N. rewrite N. reflexivity.
Qed.
Lemma intact_kept : forall x, intact_line x = true -> fits_buffer x = true /\ kept "--" (drop_cr x) = [x].
Proof.
  intros x H. unfold intact_line in H. change (short x) with (fits_buffer x) in H. rewrite !andb_true_iff, !negb_true_iff in H. destruct H as [[[H1 H2] H3] H4]. split; [exact H4|].
  unfold drop_cr. rewrite H3, kept_plain, H1 by exact H2. reflexivity.
Qed.
Lemma lines_kept : forall b, size (flat_map (kept "--") (map drop_cr b)) <= size b /\
  (size (flat_map (kept "--") (map drop_cr b)) = size b -> forallb fits_buffer b = true -> forallb intact_line b = true).
Proof.
  induction b as [|x b [I1 I2]]; [auto|]. cbn [map flat_map]. change (x :: b) with ([x] ++ b)%list. rewrite !size_app. destruct (kept_size x) as [K1 K2].
  split; [lia|]. intros E F. cbn [app forallb] in *. apply andb_true_iff in F. destruct F as [F1 F2]. rewrite K2, I2 by (assumption || lia). reflexivity.
Qed.
Lemma lines_intact : forall b, forallb intact_line b = true -> forallb fits_buffer b = true /\ flat_map (kept "--") (map drop_cr b) = b.
Proof.
  induction b as [|x b IH]; intro H; [auto|]. cbn [forallb map flat_map] in *. apply andb_true_iff in H. destruct H as [H1 H2]. destruct (intact_kept x H1) as [A B]. destruct (IH H2) as [C D].
  rewrite A, B, C, D. auto.
Qed.
Lemma misfit : forall x, fits_buffer x = false -> 3 <= String.length x.
Proof. intros x H. unfold fits_buffer in H. apply N.ltb_ge in H. lia. Qed.
Lemma rem_misfit : forall b ls, forallb fits_buffer b = false -> size (rem (b ++ ls)) + 3 <= size b.
Proof.
  induction b as [|x b IH]; intros ls H; [discriminate H|]. cbn [app]. rewrite rem_cons. change (x :: b) with ([x] ++ b)%list. rewrite size_app.
  cbn [forallb] in H. destruct (fits_buffer x) eqn:F.
  - cbn [andb] in H. rewrite size_app. specialize (IH ls H). destruct (kept_size x) as [K _]. lia.
  - pose proof (misfit x F) as M. rewrite size_one. cbn. lia.
Qed.
Lemma comment_fits : forall c, forallb fits_buffer (comment_lines c) = clean_comment c.
Proof.
  intro c. unfold comment_lines, clean_comment. induction (split nl c) as [|x l IH]; [reflexivity|]. cbn [filter forallb].
  destruct (String.eqb x "") eqn:E; cbn [negb]; [|cbn [map forallb]; rewrite IH; reflexivity].
  apply String.eqb_eq in E. subst x. rewrite IH. reflexivity.
Qed.
Lemma rem_comment_misfit : forall c ls, clean_comment c = false -> rem (comment_lines c ++ ls) = [].
Proof.
  intros c ls H. rewrite <- comment_fits in H.
  assert (D : forall x, In x (comment_lines c) -> kept "--" (drop_cr x) = []).
  { intros x I. pose proof (comment_lines_dropped c) as Z. revert I Z. generalize (comment_lines c). induction l as [|z l IH]; intros I Z; [contradiction|].
    cbn [map flat_map] in Z. apply app_eq_nil in Z. destruct Z as [Z1 Z2]. destruct I as [I|I]; [subst z; exact Z1|apply IH; assumption]. }
  revert H D. generalize (comment_lines c). induction l as [|x l IH]; intros H D; [discriminate H|]. cbn [app]. rewrite rem_cons. cbn [forallb] in H.
  destruct (fits_buffer x); [|reflexivity]. cbn [andb] in H. rewrite (D x (or_introl eq_refl)), (IH H); [reflexivity|]. intros y I. apply D. right. exact I.
Qed.
Lemma rem_comment : forall c ls, clean_comment c = true -> rem (comment_lines c ++ ls) = rem ls.
Proof. intros c ls H. rewrite rem_app by (rewrite comment_fits; exact H). rewrite comment_lines_dropped. reflexivity. Qed.

(** * The displayed text *)
Definition shown_lines (l : list stmt) (qs : list string) : list string :=
  flat_map (fun p => comment_lines (comment_of (fst p)) ++ body_lines (snd p))%list (combine l qs).
Lemma shown_unlines : forall d l qs, Forall2 (text_of d) l qs -> ddl_string d l = unlines (shown_lines l qs).
Proof.
  intros d l qs F. unfold ddl_string, shown_lines. induction F as [|s q l qs T F IH]; [reflexivity|]. cbn [map concat_str combine flat_map fst snd].
  rewrite IH, !unlines_app, body_unlines, printed_comment, T, comment_unlines, !append_assoc. reflexivity.
Qed.
Lemma shown_no_nl : forall l qs, forallb no_nl (shown_lines l qs) = true.
Proof.
  unfold shown_lines. induction l as [|s l IH]; intros [|q qs]; try reflexivity. cbn [combine flat_map fst snd]. rewrite !forallb_app, IH, andb_true_r.
  apply andb_true_iff. split; [|apply split_no_nl]. unfold comment_lines. pose proof (split_no_nl (comment_of s)) as N. clear - N.
  induction (split nl (comment_of s)) as [|x k IHk]; [reflexivity|]. cbn [forallb] in N. apply andb_true_iff in N. destruct N as [N1 N2]. cbn [filter].
  destruct (negb (String.eqb x "")); [|apply IHk; exact N2]. cbn [map forallb]. rewrite (IHk N2), andb_true_r. exact N1.
Qed.
Lemma split_shown : forall l qs, split nl (unlines (shown_lines l qs)) = (shown_lines l qs ++ [""])%list.
Proof. intros. rewrite <- (app_empty (unlines _)). apply split_unlines; [apply shown_no_nl|reflexivity]. Qed.
Lemma pieces_shown : forall d l qs, Forall2 (text_of d) l qs -> pieces (ddl_string d l) = split stop (unlines (rem (shown_lines l qs))).
Proof. intros d l qs F. unfold pieces. rewrite (shown_unlines _ _ _ F), remove_comments_kept. unfold scan_lines. rewrite split_shown. reflexivity. Qed.
Lemma batch_shown : forall d l qs, Forall2 (text_of d) l qs ->
  split stop (drop_comment_lines (ddl_string d l)) = split stop (unlines (filter (fun x => negb (String.prefix "--" x)) (shown_lines l qs))).
Proof.
  intros d l qs F. unfold drop_comment_lines. rewrite (shown_unlines _ _ _ F), split_shown, filter_app. cbn [filter String.prefix negb]. rewrite join_unlines. reflexivity.
Qed.
Lemma body_size : forall q, size (body_lines q) = S (S (String.length q)).
Proof. intro q. unfold size. rewrite body_unlines, append_length. cbn. lia. Qed.

Definition bodies_intact (qs : list string) : bool := forallb (fun q => forallb intact_line (body_lines q)) qs.
Definition comments_fit (l : list stmt) : bool := forallb (fun s => clean_comment (comment_of s)) l.
Lemma text_not_empty : forall d s q, text_of d s q -> q <> "".
Proof. intros d s q T E. subst q. unfold text_of in T. destruct s; cbn [uncommented stmt_string] in T; try (unfold create_table_string, create_index_string in T); cbn in T; discriminate T. Qed.
Lemma texts_not_empty : forall d l qs, Forall2 (text_of d) l qs -> forallb (fun q => negb (String.eqb q "")) qs = true.
Proof.
  intros d l qs F. induction F as [|s q l qs T F IH]; [reflexivity|]. cbn [forallb]. rewrite IH, andb_true_r. apply negb_true_iff, String.eqb_neq. exact (text_not_empty _ _ _ T).
Qed.

(** Too much is missing, or all lines fit. *)
Lemma rem_shown : forall l qs, List.length l = List.length qs -> forallb (fun q => negb (String.eqb q "")) qs = true ->
  size (rem (shown_lines l qs)) <= weigh qs /\
  (weigh qs <= size (rem (shown_lines l qs)) + 2 ->
     forallb fits_buffer (shown_lines l qs) = true /\
     (weigh qs = size (rem (shown_lines l qs)) -> bodies_intact qs && comments_fit l = true)).
Proof.
  induction l as [|s l IH]; intros [|q qs] L N; try discriminate L; [cbn; auto|]. injection L as L.
  cbn [forallb] in N. apply andb_true_iff in N. destruct N as [N1 N2]. destruct (IH qs L N2) as [I1 I2]. clear IH.
  unfold shown_lines in *. cbn [combine flat_map fst snd]. set (ls := flat_map _ (combine l qs)) in *.
  change (q :: qs) with ([q] ++ qs)%list. rewrite weigh_app. replace (weigh [q]) with (size (body_lines q)) by (rewrite body_size; cbn; lia).
  assert (Q : 3 <= size (body_lines q)) by (rewrite body_size; destruct q; [discriminate N1|cbn; lia]).
  rewrite <- app_assoc. destruct (clean_comment (comment_of s)) eqn:C.
  - rewrite rem_comment by exact C. destruct (forallb fits_buffer (body_lines q)) eqn:B.
    + rewrite rem_app, size_app by exact B. destruct (lines_kept (body_lines q)) as [K1 K2]. split; [lia|]. intro W.
      destruct I2 as [I2 I3]; [lia|]. split.
      * rewrite !forallb_app, comment_fits, C, B, I2. reflexivity.
      * intro E. unfold bodies_intact, comments_fit in *. cbn [app forallb]. rewrite C, K2 by (assumption || lia). cbn [andb]. apply I3. lia.
    + pose proof (rem_misfit _ ls B) as M. split; [lia|]. intro W. lia.
  - rewrite rem_comment_misfit by exact C. cbn [size unlines map concat_str]. change (size []) with 0. split; [lia|]. intro W. lia.
Qed.
Lemma body_end : forall q, has_suffix_byte ch_nl q = true -> exists b, body_lines q = (b ++ [";"%string])%list.
Proof.
  intros q H. unfold body_lines. destruct (text_lines q) as [l [y [E [Hl Hy]]]]. destruct (String.eqb y "") eqn:Y.
  - apply String.eqb_eq in Y. subst y. exists l. rewrite E, append_assoc. apply split_unlines; [exact Hl|reflexivity].
  - apply String.eqb_neq in Y. rewrite E, suffix_part in H by exact Y. apply suffix_has in H. unfold no_nl in Hy. rewrite H in Hy. discriminate Hy.
Qed.
Lemma shown_end : forall l qs q, List.length l = List.length (qs ++ [q]) -> has_suffix_byte ch_nl q = true ->
  exists k, shown_lines l (qs ++ [q]) = (k ++ [";"%string])%list.
Proof.
  intros l qs q L H. destruct (body_end q H) as [b B]. destruct l as [|s l] using rev_ind; [destruct qs; discriminate L|]. clear IHl.
  rewrite !app_length in L. cbn in L. assert (L' : List.length l = List.length qs) by lia.
  unfold shown_lines. assert (C : combine (l ++ [s]) (qs ++ [q]) = (combine l qs ++ [(s, q)])%list).
  { clear - L'. revert qs L'. induction l as [|x l IH]; intros [|y qs] L'; try discriminate L'; [reflexivity|]. injection L' as L'. cbn. rewrite IH by exact L'. reflexivity. }
  rewrite C, flat_map_app. cbn [flat_map fst snd]. rewrite app_nil_r, B. exists (flat_map (fun p => comment_lines (comment_of (fst p)) ++ body_lines (snd p))%list (combine l qs) ++ comment_lines (comment_of s) ++ b)%list.
  rewrite !app_assoc. reflexivity.
Qed.
Lemma forall2_length : forall A B (P : A -> B -> Prop) l l', Forall2 P l l' -> List.length l = List.length l'.
Proof. intros A B P l l' F. induction F; [reflexivity|]. cbn. congruence. Qed.

(** * Exactly the intact statements are sent as they are displayed *)
Theorem pieces_intact : forall d l qs, Forall2 (text_of d) l qs ->
  (nonempty (pieces (ddl_string d l)) = qs <-> forallb intact qs && comments_fit l = true).
Proof.
  intros d l qs F. pose proof (texts_not_empty _ _ _ F) as N. pose proof (forall2_length _ _ _ _ _ F) as L. rewrite (pieces_shown _ _ _ F).
  destruct (rem_shown l qs L N) as [R1 R2]. split.
  - intro H. destruct (pieces_weigh (rem (shown_lines l qs)) qs N H) as [W1 W2].
    + intros qs' q E S. (* the last line is a semicolon *)
      destruct (Nat.le_gt_cases (weigh qs) (size (rem (shown_lines l qs)) + 2)) as [G|G].
      * destruct (R2 G) as [B _]. rewrite E in L, B |- *. destruct (shown_end l qs' q L S) as [k K]. rewrite K in *. rewrite forallb_app in B. apply andb_true_iff in B. destruct B as [B _].
        rewrite rem_app by exact B. exists (flat_map (kept "--") (map drop_cr k)). reflexivity.
      * exfalso. unfold size in G. destruct (stop_parts (unlines (rem (shown_lines l qs)))) as [ps [y [E2 [P Y]]]]. rewrite E2 in H, G. rewrite split_stopped in H by assumption.
        unfold nonempty in H. rewrite filter_app in H. fold (nonempty ps) in H. rewrite append_length, stopped_length in G. pose proof (weigh_nonempty ps) as WP.
        assert (X : weigh qs <= weigh ps + String.length y + 2).
        { rewrite <- H, weigh_app. cbn [filter]. destruct (negb (String.eqb y "")); cbn; lia. }
        lia.
    + unfold size in R1, R2. assert (E : weigh qs = String.length (unlines (rem (shown_lines l qs)))) by lia.
      destruct R2 as [_ R3]; [lia|]. specialize (R3 E). apply andb_true_iff in R3. destruct R3 as [R3 R4]. rewrite R4, andb_true_r.
      destruct (W2 E) as [_ S]. unfold bodies_intact in R3. rewrite forallb_forall in *. intros q I. unfold intact. fold stop. rewrite (S q I). apply R3. exact I.
  - intro H. apply andb_true_iff in H. destruct H as [H1 H2].
    assert (E : rem (shown_lines l qs) = flat_map body_lines qs).
    { clear - H1 H2 L. unfold shown_lines. revert qs L H1. induction l as [|s l IH]; intros [|q qs] L H1; try discriminate L; [reflexivity|]. injection L as L.
      unfold comments_fit in *. cbn [forallb] in H1, H2. apply andb_true_iff in H1, H2. destruct H1 as [A B], H2 as [C D]. cbn [combine flat_map fst snd]. rewrite <- app_assoc, rem_comment by exact C.
      unfold intact in A. apply andb_true_iff in A. destruct A as [_ A]. destruct (lines_intact _ A) as [A1 A2]. rewrite rem_app by exact A1. fold (body_lines q) in A2. rewrite A2, IH by assumption. reflexivity. }
    rewrite E. replace (unlines (flat_map body_lines qs)) with (stopped qs).
    + rewrite <- (app_empty (stopped qs)), split_stopped; [unfold nonempty; rewrite filter_app; cbn [filter String.eqb negb]; rewrite app_nil_r; apply nonempty_all; exact N| |reflexivity].
      rewrite forallb_forall in *. intros q I. specialize (H1 q I). unfold intact in H1. apply andb_true_iff in H1. apply H1.
    + clear. unfold stopped. induction qs as [|q qs IH]; [reflexivity|]. cbn [map concat_str flat_map]. rewrite unlines_app, body_unlines, <- IH. reflexivity.
Qed.

Definition unmarked (x : string) : bool := negb (String.prefix "--" x).
Lemma unmarked_size : forall b, size (filter unmarked b) <= size b /\ (size (filter unmarked b) = size b -> forallb unmarked b = true).
Proof.
  induction b as [|x b [I1 I2]]; [auto|]. cbn [filter forallb]. change (x :: b) with ([x] ++ b)%list. rewrite size_app, size_one. destruct (unmarked x).
  - change (x :: filter unmarked b) with ([x] ++ filter unmarked b)%list. rewrite size_app, size_one. split; [lia|]. intro E. apply I2. lia.
  - split; [lia|]. intro E. lia.
Qed.
Lemma filter_shown : forall l qs, List.length l = List.length qs -> filter unmarked (shown_lines l qs) = flat_map (fun q => filter unmarked (body_lines q)) qs.
Proof.
  unfold shown_lines. induction l as [|s l IH]; intros [|q qs] L; try discriminate L; [reflexivity|]. injection L as L. cbn [combine flat_map fst snd]. rewrite !filter_app, IH by exact L.
  unfold unmarked at 1. rewrite comment_lines_marked. reflexivity.
Qed.
Lemma filter_weigh : forall qs, size (flat_map (fun q => filter unmarked (body_lines q)) qs) <= weigh qs /\
  (weigh qs = size (flat_map (fun q => filter unmarked (body_lines q)) qs) -> forallb (fun q => forallb unmarked (body_lines q)) qs = true).
Proof.
  induction qs as [|q qs [I1 I2]]; [cbn; auto|]. cbn [flat_map forallb]. rewrite size_app. change (q :: qs) with ([q] ++ qs)%list. rewrite weigh_app. replace (weigh [q]) with (size (body_lines q)) by (rewrite body_size; cbn; lia).
  destruct (unmarked_size (body_lines q)) as [U1 U2]. split; [lia|]. intro E. rewrite U2, I2 by lia. reflexivity.
Qed.
Theorem batch_intact : forall d l qs, Forall2 (text_of d) l qs ->
  (nonempty (split stop (drop_comment_lines (ddl_string d l))) = qs <-> forallb intact_batch qs = true).
Proof.
  intros d l qs F. pose proof (texts_not_empty _ _ _ F) as N. pose proof (forall2_length _ _ _ _ _ F) as L. rewrite (batch_shown _ _ _ F). fold unmarked.
  split.
  - intro H. destruct (pieces_weigh (filter unmarked (shown_lines l qs)) qs N H) as [W1 W2].
    + intros qs' q E S. rewrite E in L |- *. destruct (shown_end l qs' q L S) as [k K]. rewrite K, filter_app. exists (filter unmarked k). reflexivity.
    + rewrite filter_shown in W1, W2 by exact L. destruct (filter_weigh qs) as [U1 U2]. unfold size in *.
      assert (E : weigh qs = String.length (unlines (flat_map (fun q => filter unmarked (body_lines q)) qs))) by lia. specialize (U2 E). destruct (W2 E) as [_ S].
      rewrite forallb_forall in *. intros q I. unfold intact_batch. fold stop. rewrite (S q I). apply U2. exact I.
  - intro H. rewrite filter_shown by exact L.
    replace (unlines (flat_map (fun q => filter unmarked (body_lines q)) qs)) with (stopped qs).
    + rewrite <- (app_empty (stopped qs)), split_stopped; [unfold nonempty; rewrite filter_app; cbn [filter String.eqb negb]; rewrite app_nil_r; apply nonempty_all; exact N| |reflexivity].
      rewrite forallb_forall in *. intros q I. specialize (H q I). unfold intact_batch in H. apply andb_true_iff in H. apply H.
    + clear - H. unfold stopped. induction qs as [|q qs IH]; [reflexivity|]. cbn [forallb] in H. apply andb_true_iff in H. destruct H as [A B]. cbn [map concat_str flat_map]. rewrite unlines_app, <- IH by exact B. f_equal.
      unfold intact_batch in A. apply andb_true_iff in A. destruct A as [_ A]. fold unmarked (body_lines q) in A.
      replace (filter unmarked (body_lines q)) with (body_lines q); [symmetry; apply body_unlines|]. clear - A. induction (body_lines q) as [|x b IH]; [reflexivity|].
      cbn [forallb filter] in *. apply andb_true_iff in A. destruct A as [A1 A2]. rewrite A1, <- IH by exact A2. reflexivity.
Qed.

(** * By dialect *)
Definition cut (d : dialect) (s : string) : list string :=
  match d with Sp => nonempty (split stop (drop_comment_lines s)) | _ => nonempty (pieces s) end.
Theorem cut_arrives : forall d l qs, Forall2 (text_of d) l qs ->
  (cut d (ddl_string d l) = qs <-> forallb (arrives d) qs && forallb (fun s => comment_arrives d (comment_of s)) l = true).
Proof.
  intros d l qs F. pose proof (pieces_intact d l qs F) as P. unfold comments_fit in P. destruct d; try exact P.
  unfold cut. rewrite (batch_intact Sp l qs F). cbn [arrives comment_arrives]. assert (T : forallb (fun s : stmt => true) l = true) by (clear; induction l; auto).
  rewrite T, andb_true_r. reflexivity.
Qed.
Lemma clean_intact : forall d s q, text_of d s q -> clean q = true -> intact q = true /\ intact_batch q = true.
Proof.
  intros d s q T C.
  assert (U : Forall2 (text_of d) [uncommented s] [q]) by (constructor; [unfold text_of in *; destruct s; exact T|constructor]).
  assert (Z : forallb clean [q] = true) by (cbn [forallb]; rewrite C; reflexivity).
  split.
  - assert (P : nonempty (pieces (ddl_string d [uncommented s])) = [q]).
    { rewrite (pieces_printed d _ [q] U Z); [apply nonempty_clean; exact Z|]. cbn [forallb]. destruct s; reflexivity. }
    apply (pieces_intact d _ _ U) in P. cbn [forallb] in P. rewrite !andb_true_iff in P. apply P.
  - assert (P : nonempty (split stop (drop_comment_lines (ddl_string d [uncommented s]))) = [q]) by (rewrite (batch_printed d _ [q] U Z); apply nonempty_clean; exact Z).
    apply (batch_intact d _ _ U) in P. cbn [forallb] in P. rewrite andb_true_r in P. exact P.
Qed.
Lemma clean_arrives : forall d s q, text_of d s q -> clean q = true -> clean_comment (comment_of s) = true ->
  arrives d q = true /\ comment_arrives d (comment_of s) = true.
Proof. intros d s q T C K. destruct (clean_intact d s q T C) as [A B]. destruct d; auto. Qed.
Lemma attempt_nonempty : forall w ign ds past, attempt w ign (nonempty ds) past = attempt w ign ds past.
Proof.
  intros w ign. unfold nonempty. induction ds as [|q ds IH]; intro past; [reflexivity|]. cbn [filter attempt]. destruct (String.eqb q "") eqn:E; cbn [negb]; [apply IH|].
  cbn [attempt]. rewrite E, IH. reflexivity.
Qed.
Lemma send_nonempty : forall w ds past, send_all w (nonempty ds) past = send_all w ds past.
Proof.
  intros w. unfold nonempty. induction ds as [|q ds IH]; intro past; [reflexivity|]. cbn [filter send_all]. destruct (String.eqb q "") eqn:E; cbn [negb]; [apply IH|].
  cbn [send_all]. rewrite E, IH. reflexivity.
Qed.
Lemma nonempty_snoc : forall qs, forallb (fun q => negb (String.eqb q "")) qs = true -> nonempty (qs ++ [""]) = qs.
Proof. intros qs H. unfold nonempty. rewrite filter_app. cbn [filter String.eqb negb]. rewrite app_nil_r. apply nonempty_all. exact H. Qed.
