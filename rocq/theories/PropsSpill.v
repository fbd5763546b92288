(** C32, C39 and C46 exactly: which lines of a generated text are neither comments nor statements,
    when empty lines remain, and when the destination is lost. *)
From Coq Require Import Lia.
From Verif Require Import GoStr Token Lexer Ast Parser Lines Tidy IndexText LinesFacts Generate GenSpec GenFacts GenOrder GenText PropsGenerate.
Local Open Scope string_scope.

(** The lines of a comment after its first that are not comments themselves, whatever is printed in front of the first. *)
Definition spill (c : string) : list string := filter (fun l => negb (comment_line l)) (tl (split nl c)).
Definition spilled (s : gstmt) : list string := flat_map spill (all_comments s).

Lemma merged_app : forall A (a b l a' b' l' : list A), merged a b l -> merged a' b' l' -> merged (a ++ a')%list (b ++ b')%list (l ++ l')%list.
Proof. intros A a b l a' b' l' H H'. induction H; cbn [app]; [exact H'|constructor; assumption|constructor; assumption]. Qed.
Lemma merged_left_only : forall A (l : list A), merged l [] l.
Proof. induction l; constructor; assumption. Qed.
Lemma merged_right_only : forall A (l : list A), merged [] l l.
Proof. induction l; constructor; assumption. Qed.
Lemma merged_length : forall A (a b l : list A), merged a b l -> List.length l = List.length a + List.length b.
Proof. intros A a b l H. induction H; cbn [List.length]; lia. Qed.
Lemma merged_none : forall A (a l : list A), merged a [] l -> l = a.
Proof. intros A a l H. remember [] as b eqn:E. induction H; [reflexivity|rewrite IHmerged by exact E; reflexivity|discriminate E]. Qed.

Lemma split_prefix : forall p c, no_nl p = true -> split nl (p ++ c) = match split nl c with x :: r => (p ++ x) :: r | [] => [p] end.
Proof.
  intros p c P. destruct (text_lines c) as (l & y & -> & Hl & Hy). rewrite (split_unlines l y Hl Hy). destruct l as [|x l].
  - cbn [unlines map concat_str append app]. rewrite split_last; [reflexivity|]. rewrite no_nl_app, P, Hy. reflexivity.
  - cbn [forallb] in Hl. apply andb_true_iff in Hl. destruct Hl as [Hx Hl]. pose proof (split_unlines l y Hl Hy) as E. unfold unlines in *. cbn [map concat_str app].
    rewrite !append_assoc, <- (append_assoc p x), split_line by (rewrite no_nl_app, P, Hx; reflexivity). rewrite E. reflexivity.
Qed.
(** [a] has the code lines of [b] and those of [x]. *)
Definition adds (a b : string) (x : list string) : Prop := merged (code_lines b) x (code_lines a).
Lemma comment_adds : forall n c s s' x, adds s s' x -> adds (print_comment (blanks n) c ++ s) s' (spill c ++ x).
Proof.
  intros n c s s' x H. unfold adds in *.
  assert (E : code_lines (print_comment (blanks n) c ++ s) = (spill c ++ code_lines s)%list).
  { unfold print_comment. destruct (String.eqb c "") eqn:C.
    - apply String.eqb_eq in C. subst c. rewrite !append_assoc. rewrite <- (append_assoc (blanks n) "--"). rewrite code_app. unfold code_lines at 1.
      rewrite split_last by (rewrite no_nl_app, blanks_no_nl; reflexivity). cbn [filter]. rewrite comment_line_indent. reflexivity.
    - rewrite !append_assoc. rewrite <- (append_assoc " " c), <- (append_assoc "--"), <- (append_assoc (blanks n)). rewrite code_app. unfold code_lines at 1.
      f_equal. rewrite <- (append_assoc "--" " " c), <- (append_assoc (blanks n) _ c). rewrite split_prefix by (rewrite no_nl_app, blanks_no_nl; reflexivity).
      unfold spill. destruct (split nl c) as [|y r]; cbn [filter tl]; rewrite ?append_assoc, comment_line_indent; reflexivity. }
  rewrite E. change (code_lines s') with ([] ++ code_lines s')%list. apply merged_app; [apply merged_right_only|exact H].
Qed.
Lemma comments_add : forall n l s s' x, adds s s' x -> adds (print_comments (blanks n) l ++ s) s' (flat_map spill l ++ x).
Proof.
  intros n l s s' x H. induction l as [|c l IH]; [exact H|]. unfold print_comments in *. cbn [map concat_str flat_map]. rewrite append_assoc, <- app_assoc. apply comment_adds. exact IH.
Qed.
Lemma lines_add : forall p s s' x, adds s s' x -> adds (p ++ nl ++ s) (p ++ nl ++ s') x.
Proof. intros p s s' x H. unfold adds in *. rewrite !code_app. change x with ([] ++ x)%list. apply merged_app; [apply merged_left_only|exact H]. Qed.
Lemma lines_add5 : forall a b c d e s s' x, adds s s' x -> adds (a ++ b ++ c ++ d ++ e ++ nl ++ s) (a ++ b ++ c ++ d ++ e ++ nl ++ s') x.
Proof. intros a b c d e s s' x H. pose proof (lines_add (a ++ b ++ c ++ d ++ e) _ _ _ H) as K. rewrite !append_assoc in K. exact K. Qed.
Lemma columns_add : forall d n w l b s s' x, adds s s' x ->
  adds (print_columns d (blanks n) w l b ++ s) (print_columns d (blanks n) w (map bare_column l) b ++ s') (flat_map spill (flat_map gc_comments l) ++ x).
Proof.
  intros d n w. induction l as [|c l IH]; intros b s s' x E; [exact E|].
  cbn [flat_map]. rewrite flat_map_app, <- app_assoc. cbn [print_columns map bare_column gc_comments gc_name gc_type]. rewrite ?append_assoc. apply comments_add.
  cbn [print_comments map concat_str append]. specialize (IH b s s' x E).
  pose proof (fun m => lines_add5 (blanks n) (pad w (quotation d ++ gc_name c ++ quotation d)) " " (gc_type c) m _ _ _ IH) as K. destruct l as [|c' l].
  - cbn [map]. destruct b; [rewrite ?append_assoc; exact (K ",")|exact (K "")].
  - cbn [map]. rewrite ?append_assoc. exact (K ",").
Qed.
Lemma constraints_add : forall n l s s' x, adds s s' x ->
  adds (print_constraints (blanks n) l ++ s) (print_constraints (blanks n) (map bare_text l) ++ s') (flat_map spill (flat_map gt_comments l) ++ x).
Proof.
  intros n. induction l as [|y l IH]; intros s s' x E; [exact E|].
  cbn [flat_map]. rewrite flat_map_app, <- app_assoc. cbn [print_constraints map]. unfold print_text. cbn [bare_text gt_comments gt_text]. rewrite ?append_assoc. apply comments_add.
  cbn [print_comments map concat_str append]. specialize (IH s s' x E). destruct l as [|z l]; cbn [map].
  - exact (lines_add5 "" "" (blanks n) (gt_text y) "" _ _ _ IH).
  - exact (lines_add5 "" "" (blanks n) (gt_text y) "," _ _ _ IH).
Qed.
Lemma options_add : forall l p s s' x, (forall q, adds (q ++ s) (q ++ s') x) ->
  adds (p ++ print_options l ++ s) (p ++ print_options (map bare_text l) ++ s') (flat_map spill (flat_map gt_comments l) ++ x).
Proof.
  induction l as [|y l IH]; intros p s s' x E; [apply E|].
  cbn [flat_map]. rewrite flat_map_app, <- app_assoc. cbn [print_options map]. unfold print_text. cbn [bare_text gt_comments gt_text]. rewrite ?append_assoc. apply lines_add. apply (comments_add 0).
  cbn [print_comments map concat_str append]. destruct l as [|z l].
  - cbn [map append]. apply (IH (gt_text y) s s' x E).
  - cbn [map]. rewrite <- !(append_assoc (gt_text y)). apply (IH (gt_text y ++ ",")%string s s' x E).
Qed.
Lemma source_adds : forall short file n s s' x, one_line (short file) = true -> adds s s' x -> adds (print_source short file n ++ s) s' x.
Proof. intros short file n s s' x H E. unfold adds in *. rewrite source_code by exact H. exact E. Qed.
Lemma table_adds : forall d short n t s s' x, one_line (short (g_file t)) = true -> g_create t <> "" -> adds s s' x ->
  adds (print_stmt d short (blanks n) (GTable t) ++ s) (print_stmt d short (blanks n) (bare (GTable t)) ++ s') (spilled (GTable t) ++ x).
Proof.
  intros d short n t s s' x F C E. unfold spilled. cbn [all_comments]. rewrite !flat_map_app, <- !app_assoc.
  cbn [print_stmt bare]. unfold print_table. cbn [g_file g_line g_comments g_create g_columns g_constraints g_options g_pk]. rewrite ?append_assoc.
  apply source_adds; [exact F|]. change (print_source short "" 0) with "". rewrite ?empty_append. apply (comments_add 0). change (print_comments "" []) with "". rewrite ?empty_append.
  apply String.eqb_neq in C. rewrite C. fold bare_column. change (fun c : gcolumn => mkGColumn [] (gc_name c) (gc_type c)) with bare_column.
  rewrite width_bare, !nonempty_bare, ?append_assoc. rewrite <- !(append_assoc (g_create t)). apply lines_add.
  assert (T : forall q, adds (q ++ ";" ++ nl ++ s) (q ++ ";" ++ nl ++ s') x).
  { intro q. rewrite <- !(append_assoc q). apply lines_add. exact E. }
  destruct d; rewrite ?append_assoc; apply columns_add.
  - pose proof (constraints_add n (g_constraints t) _ _ _ (options_add (g_options t) ")" _ _ x T)) as K.
    destruct (nonempty (g_pk t)); [|exact K]. rewrite ?append_assoc. apply lines_add5. exact K.
  - pose proof (constraints_add n (g_constraints t) _ _ _ (options_add (g_options t) ")" _ _ x T)) as K.
    destruct (nonempty (g_pk t)); [|exact K]. rewrite ?append_assoc. apply lines_add5. exact K.
  - apply constraints_add. rewrite <- !(append_assoc ")"). apply options_add. exact T.
Qed.
Lemma index_adds : forall d short n i s s' x, one_line (short (gi_file i)) = true -> adds s s' x ->
  adds (print_stmt d short (blanks n) (GIndex i) ++ s) (print_stmt d short (blanks n) (bare (GIndex i)) ++ s') (spilled (GIndex i) ++ x).
Proof.
  intros d short n i s s' x F E. unfold spilled. cbn [all_comments print_stmt bare]. unfold print_index. cbn [gi_file gi_line gi_comments gi_create]. rewrite ?append_assoc.
  apply source_adds; [exact F|]. change (print_source short "" 0) with "". rewrite ?empty_append. apply (comments_add 0). change (print_comments "" []) with "". rewrite ?empty_append.
  rewrite <- !(append_assoc (gi_create i)). apply lines_add. exact E.
Qed.

(** The lines of a generated text that are not comments are those of its statements and, among
    them in the order of the comments, the further lines of comments of several lines. *)
Theorem C32_what_comments_leave : forall d short l,
  (forall s, In s l -> one_line (short (stmt_file s)) = true /\ match s with GTable t => g_create t <> "" | GIndex _ => True end) ->
  merged (code_lines (print_ddl d short (map bare l))) (flat_map spilled l) (code_lines (print_ddl d short l)).
Proof.
  intros d short l H. unfold print_ddl. rewrite !comments_dropped0 by reflexivity.
  induction l as [|y l IH]; [repeat constructor|]. cbn [map concat_str flat_map]. rewrite ?append_assoc. apply (lines_add "").
  assert (H' : forall s, In s l -> one_line (short (stmt_file s)) = true /\ match s with GTable t => g_create t <> "" | GIndex _ => True end) by (intros s I; apply H; right; exact I).
  destruct (H y (or_introl eq_refl)) as [F C]. destruct y as [t|i]; [apply (table_adds d short 4)|apply (index_adds d short 4)]; try assumption; apply IH; exact H'.
Qed.
Print Assumptions C32_what_comments_leave.
(** So comments stay comments exactly if every line of a comment after its first is empty of code. *)
Theorem C32_exactly : forall d short l,
  (forall s, In s l -> one_line (short (stmt_file s)) = true /\ match s with GTable t => g_create t <> "" | GIndex _ => True end) ->
  (code_lines (print_ddl d short l) = code_lines (print_ddl d short (map bare l))
   <-> forall s c x, In s l -> In c (all_comments s) -> In x (tl (split nl c)) -> comment_line x = true).
Proof.
  intros d short l H. pose proof (C32_what_comments_leave d short l H) as M.
  assert (N : flat_map spilled l = [] <-> forall s c x, In s l -> In c (all_comments s) -> In x (tl (split nl c)) -> comment_line x = true).
  { split.
    - intros E s c x Is Ic Ix. destruct (comment_line x) eqn:K; [reflexivity|]. exfalso.
      assert (I : In x (flat_map spilled l)).
      { apply in_flat_map. exists s. split; [exact Is|]. apply in_flat_map. exists c. split; [exact Ic|]. apply filter_In. split; [exact Ix|]. rewrite K. reflexivity. }
      rewrite E in I. destruct I.
    - intro A. destruct (flat_map spilled l) as [|x r] eqn:E; [reflexivity|]. exfalso.
      assert (I : In x (flat_map spilled l)) by (rewrite E; left; reflexivity).
      apply in_flat_map in I. destruct I as [s [Is I]]. apply in_flat_map in I. destruct I as [c [Ic I]]. apply filter_In in I. destruct I as [Ix K]. rewrite (A s c x Is Ic Ix) in K. discriminate K. }
  rewrite <- N. split.
  - intro E. pose proof (merged_length _ _ _ _ M) as L. rewrite E in L. destruct (flat_map spilled l); [reflexivity|]. cbn [List.length] in L. lia.
  - intro E. rewrite E in M. apply merged_none. exact M.
Qed.
Print Assumptions C32_exactly.
Example C32_exactly_example :
  let t c := GTable (mkGTable "" 0 [c] "CREATE TABLE t" [mkGColumn [] "id" "TEXT"] [] [] []) in
  spilled (t ("users" ++ nl ++ "DROP TABLE x;" ++ nl ++ "  -- kept")) = ["DROP TABLE x;"]
  /\ spilled (t ("users" ++ nl ++ "-- of the shop")) = [] /\ spilled (t ("users" ++ nl)) = [""].
Proof. repeat split. Qed.

(** C39: an empty line remains at the end exactly if there were two. *)
Theorem C39_exactly : forall l, (exists front, trim_tail_empty l = (front ++ [""])%list) <-> exists front, l = (front ++ [""; ""])%list.
Proof.
  intro l. destruct (C39_tail_line_partial l) as [[front [-> ->]]|[N ->]].
  - split; intros [f E].
    + exists f. rewrite E, <- app_assoc. reflexivity.
    + exists f. change [""; ""] with ([""] ++ [""])%list in E. rewrite app_assoc in E. apply app_inj_tail in E. exact (proj1 E).
  - split; intros [f E]; exfalso; [exact (N f E)|]. apply (N (f ++ [""])%list). rewrite <- app_assoc. exact E.
Qed.
Print Assumptions C39_exactly.
Example C39_exactly_example : trim_tail_empty ["a"; ""; ""] = ["a"; ""] /\ trim_tail_empty ["a"; ""] = ["a"] /\ trim_tail_empty [""; ""; "a"] = [""; ""; "a"].
Proof. repeat split. Qed.

(** C46: a command that fails leaves the destination alone exactly if it could not open it - or if there was nothing to lose;
    otherwise the destination is empty. *)
Theorem C46_exactly : forall cfg look short srt dialect language i old opens new result,
  generate_command cfg look short srt dialect language i old opens = (new, result) -> result <> Ok tt ->
  (new = old <-> opens = false \/ old = Some "") /\ (new <> old -> new = Some "").
Proof.
  intros cfg look short srt dialect language i old opens new result H F. unfold generate_command in H. destruct opens.
  - destruct (generate cfg look short srt dialect language i) as [t| | |]; injection H as <- <-; try congruence;
      (split; [split; [intros <-; right; reflexivity|intros [X|X]; [discriminate X|symmetry; exact X]]|reflexivity]).
  - injection H as <- <-. split; [split; [left; reflexivity|reflexivity]|congruence].
Qed.
Print Assumptions C46_exactly.
Example C46_exactly_example : forall opens, generate_command demo look_simple (fun s => s) sort_small "oracle" "go" (Tree []) (Some "old") opens
  = (Some (if opens then "" else "old"), Err).
Proof. intros []; reflexivity. Qed.
