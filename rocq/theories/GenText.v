(** The printed text: commas and comments. *)
From Coq Require Import Permutation Sorted Lia.
From Verif Require Import GoStr Token Lexer Ast Parser Lines Tidy IndexText LinesFacts Generate GenSpec GenFacts.

(** * Commas *)

Lemma print_names_join : forall d l, print_names d l = quoted_names (quotation d) l.
Proof.
  intros d. unfold quoted_names. induction l as [|x l IH]; [reflexivity|]. cbn [print_names map]. rewrite IH. destruct l as [|y l].
  - cbn [map join append]. rewrite !append_empty. reflexivity.
  - cbn [map join]. rewrite !append_assoc. reflexivity.
Qed.
Lemma comma_cons : forall indent c t i r,
  comma_lines indent ((c, t) :: i :: r) = (print_comments indent c ++ indent ++ t ++ "," ++ nl ++ comma_lines indent (i :: r))%string.
Proof. reflexivity. Qed.
Lemma columns_comma : forall d indent w l items,
  (print_columns d indent w l (nonempty items) ++ comma_lines indent items)%string = comma_lines indent (map (column_item (quotation d) w) l ++ items).
Proof.
  intros d indent w. induction l as [|c l IH]; intro items; [reflexivity|]. specialize (IH items). cbn [print_columns map app]. rewrite !append_assoc, IH. clear IH.
  unfold column_item at 2. destruct l as [|c' l].
  - cbn [map app]. destruct items as [|i items].
    + cbn [nonempty comma_lines]. rewrite !append_assoc, append_empty. reflexivity.
    + cbn [nonempty]. rewrite comma_cons, !append_assoc. reflexivity.
  - cbn [map app]. rewrite comma_cons, !append_assoc. reflexivity.
Qed.
Lemma constraints_comma : forall indent l, print_constraints indent l = comma_lines indent (map text_item l).
Proof.
  intros indent. induction l as [|x l IH]; [reflexivity|]. cbn [print_constraints map]. rewrite IH. unfold print_text, text_item at 2. destruct l as [|y l].
  - cbn [map comma_lines append]. rewrite !append_assoc, append_empty. reflexivity.
  - cbn [map]. rewrite comma_cons, !append_assoc. reflexivity.
Qed.
Lemma nonempty_map : forall A B (f : A -> B) l, nonempty (map f l) = nonempty l.
Proof. intros A B f [|x l]; reflexivity. Qed.
Lemma nonempty_app : forall A (a b : list A), nonempty (a ++ b) = nonempty a || nonempty b.
Proof. intros A [|x a] b; reflexivity. Qed.
Lemma key_comma : forall d indent pk items,
  ((if nonempty pk then indent ++ "PRIMARY KEY (" ++ print_names d pk ++ ")" ++ (if nonempty items then "," else "") ++ nl else "") ++ comma_lines indent items)%string
  = comma_lines indent (key_items (quotation d) pk ++ items).
Proof.
  intros d indent pk items. rewrite print_names_join. destruct pk as [|n pk]; [reflexivity|]. cbn [nonempty key_items app]. destruct items as [|i items].
  - cbn [nonempty comma_lines print_comments map concat_str append]. rewrite !append_assoc, append_empty. reflexivity.
  - cbn [nonempty]. rewrite comma_cons. cbn [print_comments map concat_str]. rewrite !append_assoc. reflexivity.
Qed.
Lemma join_more : forall sep x l, l <> [] -> join sep (x :: l) = (x ++ sep ++ join sep l)%string.
Proof. intros sep x [|y l] H; [exfalso; apply H; reflexivity|reflexivity]. Qed.
Lemma options_lines : forall l, print_options l = option_lines l.
Proof.
  induction l as [|x l IH]; [reflexivity|]. cbn [print_options]. rewrite IH. unfold print_text. destruct l as [|y l].
  - unfold option_block. cbn [map join append option_lines]. rewrite !append_empty. reflexivity.
  - unfold option_lines. fold option_block. change (map option_block (x :: y :: l)) with (option_block x :: map option_block (y :: l)).
    rewrite join_more by discriminate. unfold option_block at 2. rewrite !append_assoc. reflexivity.
Qed.

Definition table_items (d : printer) (t : gtable) : list (list string * string) :=
  let q := quotation d in
  (map (column_item q (name_width (g_columns t))) (g_columns t)
   ++ (match d with SpPrinter => [] | _ => key_items q (g_pk t) end)
   ++ map text_item (g_constraints t))%list.
Definition table_tail (d : printer) (t : gtable) : string :=
  match d with SpPrinter => sp_key (g_pk t) (g_options t) | _ => "" end.

Lemma nonempty_key : forall q l, nonempty (key_items q l) = nonempty l.
Proof. intros q [|x l]; reflexivity. Qed.
Lemma sp_key_text : forall pk (options : list gtext),
  (if nonempty pk then (" PRIMARY KEY (" ++ print_names SpPrinter pk ++ ")" ++ (if nonempty options then "," else ""))%string else "") = sp_key pk options.
Proof. intros [|n pk] [|o options]; try reflexivity; rewrite print_names_join; reflexivity. Qed.

Lemma print_table_items : forall d short indent t, g_create t <> "" ->
  print_table d short indent t =
  (print_source short (g_file t) (g_line t) ++ print_comments "" (g_comments t)
   ++ g_create t ++ " (" ++ nl ++ comma_lines indent (table_items d t) ++ ")" ++ table_tail d t ++ option_lines (g_options t) ++ ";" ++ nl)%string.
Proof.
  intros d short indent t H. unfold print_table. apply String.eqb_neq in H. rewrite H. rewrite options_lines, ?append_assoc.
  do 2 f_equal. f_equal. f_equal. f_equal. unfold table_items, table_tail.
  destruct d.
  - rewrite constraints_comma, ?append_assoc. rewrite <- (columns_comma PgPrinter), <- (key_comma PgPrinter), nonempty_app, nonempty_key, nonempty_map, ?append_assoc. reflexivity.
  - rewrite constraints_comma, ?append_assoc. rewrite <- (columns_comma MyPrinter), <- (key_comma MyPrinter), nonempty_app, nonempty_key, nonempty_map, ?append_assoc. reflexivity.
  - rewrite constraints_comma, ?append_assoc. cbn [app]. rewrite <- (columns_comma SpPrinter), nonempty_map, ?append_assoc.
    rewrite <- sp_key_text, ?append_assoc. reflexivity.
Qed.

(** Every table read has a name and columns. *)
Lemma set_create_nonempty : forall w s, set_create w s <> "".
Proof. intros w s. unfold set_create. destruct (search _ s) eqn:E; [|discriminate]. intros ->. discriminate E. Qed.

Definition proper (s : gstmt) : Prop := match s with GTable t => g_create t <> "" /\ g_columns t <> [] | GIndex i => gi_create i <> "" end.
Lemma read_comments_proper : forall file g l t out t' out', read_comments file g l (t, out) = Ok (t', out') -> Forall proper out -> Forall proper out'.
Proof.
  induction l as [|c l IH]; intros t out t' out' H F; [injection H as <- <-; exact F|]. cbn [read_comments] in H. unfold read_comment in H.
  destruct (match_index c) as [m|].
  - destruct (containing g c); [|discriminate]. cbn [bind] in H. apply IH in H; [exact H|]. apply Forall_app. split; [exact F|].
    constructor; [|constructor]. apply set_create_nonempty.
  - cbn [bind] in H. apply IH in H; assumption.
Qed.
Lemma read_source_proper : forall cfg look short file r out, good_source r -> read_source cfg look short file r = Ok out -> Forall proper out.
Proof.
  intros cfg look short file r out G H. unfold read_source in H.
  destruct (read_comments_ok file (s_group r) _ (mkGTable file (s_line r) [] "" [] [] [] []) [] _ (clean_members (s_group r)) eq_refl (Forall_nil _)) as (t & o & E & _ & _ & H3 & _).
  rewrite E in H. cbn [bind] in H. apply bind_Ok in H. destruct H as (t' & Ht & H). injection H as <-.
  apply Forall_app. split; [eapply read_comments_proper; [exact E|constructor]|].
  set (u := match s_type r with Some _ => _ | None => t end) in Ht.
  assert (s_type r <> None -> g_create u <> "") as U.
  { intro N. subst u. destruct (s_type r); [|exfalso; apply N; reflexivity]. destruct (String.eqb (g_create t) "") eqn:C; [apply set_create_nonempty|]. apply String.eqb_neq. exact C. }
  match goal with |- Forall _ (match g_columns ?v with [] => _ | _ => _ end) => set (w := v) end.
  assert (g_create w = g_create t' /\ g_columns w = g_columns t') as [W1 W2].
  { subst w. destruct (String.eqb (g_create t') ""); [|destruct (g_columns t') eqn:C']; split; try reflexivity; cbn; congruence. }
  destruct (g_columns w) as [|c cs] eqn:C; [constructor|]. constructor; [|constructor]. split; [|rewrite C; discriminate].
  rewrite W1. destruct (s_struct r) as [fs|] eqn:St.
  - apply read_fields_keeps in Ht. destruct Ht as (_ & _ & -> & _). apply U. apply G. rewrite St. discriminate.
  - exfalso. injection Ht as <-. assert (g_columns u = g_columns t) as Cu. { subst u. destruct (s_type r); [destruct (String.eqb _ _)|]; reflexivity. }
    rewrite Cu, H3 in W2. discriminate W2.
Qed.
Lemma read_sources_proper : forall cfg look short file l out, Forall good_source l -> read_sources cfg look short file l = Ok out -> Forall proper out.
Proof.
  intros cfg look short file l out G H. apply read_sources_Forall2 in H. destruct H as (outs & F & ->).
  induction F; [constructor|]. inversion G; subst. cbn [List.concat]. apply Forall_app. split; [eapply read_source_proper; eassumption|apply IHF; assumption].
Qed.

(** * Comments *)

Lemma one_line_no_nl : forall s, one_line s = no_nl s.
Proof.
  unfold no_nl. induction s as [|c s IH]; [reflexivity|]. cbn [one_line has_byte]. rewrite negb_orb, IH. reflexivity.
Qed.
Lemma split_app : forall a b, split nl (a ++ nl ++ b) = (split nl a ++ split nl b)%list.
Proof.
  intros a b. destruct (text_lines a) as (l & y & -> & Hl & Hy). rewrite (split_unlines l y Hl Hy), append_assoc.
  induction l as [|x l IH].
  - cbn [unlines map concat_str append app]. rewrite split_line by exact Hy. reflexivity.
  - cbn [forallb] in Hl. apply andb_true_iff in Hl. destruct Hl as [Hx Hl]. unfold unlines in *. cbn [map concat_str app]. rewrite !append_assoc, split_line by exact Hx.
    rewrite IH by exact Hl. reflexivity.
Qed.
Lemma code_app : forall a b, code_lines (a ++ nl ++ b) = (code_lines a ++ code_lines b)%list.
Proof. intros. unfold code_lines. rewrite split_app, filter_app. reflexivity. Qed.

Lemma comment_line_indent : forall n s, comment_line (blanks n ++ s) = comment_line s.
Proof. induction n as [|n IH]; intro s; [reflexivity|]. cbn [blanks append]. exact (IH s). Qed.
Lemma blanks_no_nl : forall n, no_nl (blanks n) = true.
Proof. induction n as [|n IH]; [reflexivity|]. unfold no_nl in *. cbn [blanks has_byte]. exact IH. Qed.
Lemma comment_dropped : forall n c s, one_line c = true -> code_lines (print_comment (blanks n) c ++ s) = code_lines s.
Proof.
  intros n c s H. rewrite one_line_no_nl in H. unfold print_comment. destruct (String.eqb c "").
  - rewrite !append_assoc. rewrite <- (append_assoc (blanks n) "--"). rewrite code_app. unfold code_lines at 1.
    rewrite split_last by (rewrite no_nl_app, blanks_no_nl; reflexivity). cbn [filter]. rewrite comment_line_indent. reflexivity.
  - rewrite !append_assoc. rewrite <- (append_assoc " " c), <- (append_assoc "--"), <- (append_assoc (blanks n)). rewrite code_app. unfold code_lines at 1.
    rewrite split_last by (rewrite !no_nl_app, blanks_no_nl; exact H). cbn [filter]. rewrite comment_line_indent. reflexivity.
Qed.
Lemma comments_dropped : forall n l s, forallb one_line l = true -> code_lines (print_comments (blanks n) l ++ s) = code_lines s.
Proof.
  intros n l s. induction l as [|c l IH]; intro H; [reflexivity|]. cbn [forallb] in H. apply andb_true_iff in H. destruct H as [H1 H2].
  unfold print_comments in *. cbn [map concat_str]. rewrite append_assoc, comment_dropped by exact H1. apply IH. exact H2.
Qed.
Lemma comments_dropped0 : forall l s, forallb one_line l = true -> code_lines (print_comments "" l ++ s) = code_lines s.
Proof. exact (comments_dropped 0). Qed.

Lemma empty_append : forall s, ("" ++ s)%string = s.
Proof. reflexivity. Qed.
Lemma cong5 : forall a b c d e s s', code_lines s = code_lines s' ->
  code_lines (a ++ b ++ c ++ d ++ e ++ nl ++ s) = code_lines (a ++ b ++ c ++ d ++ e ++ nl ++ s').
Proof.
  intros a b c d e s s' E. pose proof (code_app (a ++ b ++ c ++ d ++ e) s) as H. pose proof (code_app (a ++ b ++ c ++ d ++ e) s') as H'.
  rewrite !append_assoc in H, H'. rewrite H, H', E. reflexivity.
Qed.

(** The column width does not depend on comments. *)
Definition bare_column (c : gcolumn) : gcolumn := mkGColumn [] (gc_name c) (gc_type c).
Lemma width_bare : forall l, name_width (map bare_column l) = name_width l.
Proof.
  intro l. unfold name_width. f_equal. generalize 0. induction l as [|c l IH]; intro m; [reflexivity|]. cbn [map fold_left bare_column gc_name]. apply IH.
Qed.
Lemma columns_code : forall d n w l b s s', forallb one_line (flat_map gc_comments l) = true -> code_lines s = code_lines s' ->
  code_lines (print_columns d (blanks n) w l b ++ s) = code_lines (print_columns d (blanks n) w (map bare_column l) b ++ s').
Proof.
  intros d n w. induction l as [|c l IH]; intros b s s' H E; [exact E|]. cbn [flat_map] in H. rewrite forallb_app in H. apply andb_true_iff in H. destruct H as [H1 H2].
  cbn [print_columns map bare_column gc_comments gc_name gc_type]. rewrite ?append_assoc, comments_dropped by exact H1. cbn [print_comments map concat_str append].
  assert (forall m t t', code_lines t = code_lines t' ->
    code_lines (blanks n ++ pad w (quotation d ++ gc_name c ++ quotation d) ++ " " ++ gc_type c ++ m ++ nl ++ t)
    = code_lines (blanks n ++ pad w (quotation d ++ gc_name c ++ quotation d) ++ " " ++ gc_type c ++ m ++ nl ++ t')) as K.
  { intros m t t' Et. apply cong5. exact Et. }
  specialize (IH b s s' H2 E). destruct l as [|c' l].
  - cbn [map]. destruct b; [rewrite ?append_assoc; exact (K "," _ _ IH)|exact (K "" _ _ IH)].
  - cbn [map]. rewrite ?append_assoc. exact (K "," _ _ IH).
Qed.
Lemma constraints_code : forall n l s s', forallb one_line (flat_map gt_comments l) = true -> code_lines s = code_lines s' ->
  code_lines (print_constraints (blanks n) l ++ s) = code_lines (print_constraints (blanks n) (map bare_text l) ++ s').
Proof.
  intros n. induction l as [|x l IH]; intros s s' H E; [exact E|]. cbn [flat_map] in H. rewrite forallb_app in H. apply andb_true_iff in H. destruct H as [H1 H2].
  cbn [print_constraints map]. unfold print_text. cbn [bare_text gt_comments gt_text]. rewrite ?append_assoc, comments_dropped by exact H1. cbn [print_comments map concat_str append].
  specialize (IH s s' H2 E). destruct l as [|y l].
  - cbn [map append]. rewrite <- !(append_assoc (blanks n)), !code_app, IH. reflexivity.
  - cbn [map]. rewrite <- !(append_assoc (gt_text x)), <- !(append_assoc (blanks n)), !code_app, IH. reflexivity.
Qed.
(** Options begin with the line break that ends the line in front of them. *)
Lemma options_code : forall l p s s', forallb one_line (flat_map gt_comments l) = true -> (forall q, code_lines (q ++ s) = code_lines (q ++ s')) ->
  code_lines (p ++ print_options l ++ s) = code_lines (p ++ print_options (map bare_text l) ++ s').
Proof.
  induction l as [|x l IH]; intros p s s' H E; [apply E|]. cbn [flat_map] in H. rewrite forallb_app in H. apply andb_true_iff in H. destruct H as [H1 H2].
  cbn [print_options map]. unfold print_text. cbn [bare_text gt_comments gt_text]. rewrite ?append_assoc, !code_app. f_equal.
  rewrite comments_dropped0 by exact H1. cbn [print_comments map concat_str append].
  destruct l as [|y l].
  - cbn [map append]. apply (IH (gt_text x) s s' H2 E).
  - cbn [map]. rewrite <- !(append_assoc (gt_text x)). apply (IH (gt_text x ++ ",")%string s s' H2 E).
Qed.
Lemma source_code : forall short file n s, one_line (short file) = true -> code_lines (print_source short file n ++ s) = code_lines s.
Proof.
  intros short file n s H. unfold print_source. destruct (String.eqb file ""); [reflexivity|]. apply (comment_dropped 0).
  rewrite one_line_no_nl in *. rewrite !no_nl_app, H. cbn. unfold itoa. generalize (N.to_uint n). intro u.
  unfold no_nl. induction u; [reflexivity|..]; cbn; exact IHu.
Qed.
Lemma nonempty_bare : forall A B (f : A -> B) l, nonempty (map f l) = nonempty l.
Proof. intros A B f [|x l]; reflexivity. Qed.

Lemma table_code : forall d short n t s s', one_line (short (g_file t)) = true -> forallb one_line (all_comments (GTable t)) = true -> code_lines s = code_lines s' ->
  code_lines (print_stmt d short (blanks n) (GTable t) ++ s) = code_lines (print_stmt d short (blanks n) (bare (GTable t)) ++ s').
Proof.
  intros d short n t s s' F H E. cbn [all_comments] in H. rewrite !forallb_app, !andb_true_iff in H. destruct H as (H1 & H2 & H3 & H4).
  cbn [print_stmt bare]. unfold print_table. cbn [g_file g_line g_comments g_create g_columns g_constraints g_options g_pk].
  rewrite ?append_assoc, source_code, comments_dropped0 by assumption. change (print_source short "" 0) with "". change (print_comments "" []) with "". rewrite ?empty_append.
  destruct (String.eqb (g_create t) ""); [exact E|]. fold bare_column. change (fun c : gcolumn => mkGColumn [] (gc_name c) (gc_type c)) with bare_column.
  rewrite width_bare, !nonempty_bare, ?append_assoc. rewrite <- !(append_assoc (g_create t)), !code_app. f_equal.
  assert (forall q, code_lines (q ++ ";" ++ nl ++ s) = code_lines (q ++ ";" ++ nl ++ s')) as T.
  { intro q. rewrite <- !(append_assoc q), !code_app, E. reflexivity. }
  destruct d; rewrite ?append_assoc; apply columns_code; try exact H2.
  - assert (code_lines (print_constraints (blanks n) (g_constraints t) ++ ")" ++ print_options (g_options t) ++ ";" ++ nl ++ s)
      = code_lines (print_constraints (blanks n) (map bare_text (g_constraints t)) ++ ")" ++ print_options (map bare_text (g_options t)) ++ ";" ++ nl ++ s')) as K.
    { apply constraints_code; [exact H3|]. apply options_code; [exact H4|exact T]. }
    destruct (nonempty (g_pk t)); [|exact K]. rewrite ?append_assoc. apply cong5. exact K.
  - assert (code_lines (print_constraints (blanks n) (g_constraints t) ++ ")" ++ print_options (g_options t) ++ ";" ++ nl ++ s)
      = code_lines (print_constraints (blanks n) (map bare_text (g_constraints t)) ++ ")" ++ print_options (map bare_text (g_options t)) ++ ";" ++ nl ++ s')) as K.
    { apply constraints_code; [exact H3|]. apply options_code; [exact H4|exact T]. }
    destruct (nonempty (g_pk t)); [|exact K]. rewrite ?append_assoc. apply cong5. exact K.
  - apply constraints_code; [exact H3|]. rewrite <- !(append_assoc ")"). apply options_code; [exact H4|exact T].
Qed.
Lemma index_code : forall d short n i s s', one_line (short (gi_file i)) = true -> forallb one_line (all_comments (GIndex i)) = true -> code_lines s = code_lines s' ->
  code_lines (print_stmt d short (blanks n) (GIndex i) ++ s) = code_lines (print_stmt d short (blanks n) (bare (GIndex i)) ++ s').
Proof.
  intros d short n i s s' F H E. cbn [all_comments] in H. cbn [print_stmt bare]. unfold print_index. cbn [gi_file gi_line gi_comments gi_create].
  rewrite ?append_assoc, source_code, comments_dropped0 by assumption. change (print_source short "" 0) with "". change (print_comments "" []) with "". rewrite ?empty_append.
  rewrite <- !(append_assoc (gi_create i)), !code_app, E. reflexivity.
Qed.
Lemma ddl_code : forall d short l,
  (forall s, In s l -> one_line (short (stmt_file s)) = true /\ forallb one_line (all_comments s) = true) ->
  code_lines (print_ddl d short l) = code_lines (print_ddl d short (map bare l)).
Proof.
  intros d short l H. unfold print_ddl. rewrite !comments_dropped0 by reflexivity.
  induction l as [|x l IH]; [reflexivity|]. cbn [map concat_str]. rewrite ?append_assoc.
  assert (forall a b, code_lines a = code_lines b -> code_lines (nl ++ a) = code_lines (nl ++ b)) as K.
  { intros a b E. change (nl ++ a)%string with ("" ++ nl ++ a)%string. change (nl ++ b)%string with ("" ++ nl ++ b)%string. rewrite !code_app, E. reflexivity. }
  apply K. destruct (H x (or_introl eq_refl)) as [H1 H2]. assert (forall s, In s l -> one_line (short (stmt_file s)) = true /\ forallb one_line (all_comments s) = true) as H' by (intros s I; apply H; right; exact I).
  destruct x as [t|i]; [apply (table_code d short 4)|apply (index_code d short 4)]; try assumption; apply IH; exact H'.
Qed.
