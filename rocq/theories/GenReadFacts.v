(** Tokens of generated text (for C52). *)
From Coq Require Import Lia.
From Verif Require Import GoStr Token Lexer LexerFacts LexSpec LexLayout Ast Parser Printable Written PrintLex PrintToks PrintParse PrintStmt PrintDdl WrittenFacts.
From Verif Require Import Generate GenSpec GenText GenRead.

Local Open Scope list_scope.

(** * Gaps *)

Lemma gap_FF : forall d g, gap g -> FF d g [].
Proof. intros d g H. split; [apply nb_nil|]. intro r. apply lex_gap_start, H. Qed.
Lemma blanks_gap : forall k, gap (blanks k).
Proof. intro k. induction k as [|k IH]; [apply gap_nil|]. cbn [blanks]. apply gap_blank; [reflexivity|exact IH]. Qed.
Lemma comment_gap : forall indent c, gap indent -> LexSpec.one_line c = true -> gap (print_comment indent c).
Proof.
  intros indent c H K. unfold print_comment. destruct (String.eqb c ""); apply gap_app; try exact H.
  - apply (gap_comment "" ""); [reflexivity|apply gap_nil].
  - rewrite <- (app_s_nil nl). rewrite <- (app_s_assoc " "). apply (gap_comment (" " ++ c) ""); [exact K|apply gap_nil].
Qed.
Lemma comments_gap : forall indent l, gap indent -> forallb LexSpec.one_line l = true -> gap (print_comments indent l).
Proof.
  intros indent l H. induction l as [|c l IH]; intro K; [apply gap_nil|]. cbn [forallb] in K. apply andb_true_iff in K. destruct K as [K1 K2].
  unfold print_comments. cbn [map concat_str]. apply gap_app; [apply comment_gap; assumption|apply IH, K2].
Qed.
Lemma one_line_app : forall a b, LexSpec.one_line (a ++ b) = LexSpec.one_line a && LexSpec.one_line b.
Proof. intros. apply all_bytes_app. Qed.
Lemma one_line_n : forall n, LexSpec.one_line (itoa n) = true.
Proof. intro n. unfold itoa. generalize (N.to_uint n). intro u. unfold LexSpec.one_line. induction u; [reflexivity|..]; cbn; exact IHu. Qed.
Lemma source_gap : forall short file n, LexSpec.one_line (short file) = true -> gap (print_source short file n).
Proof.
  intros short file n H. unfold print_source. destruct (String.eqb file ""); [apply gap_nil|]. apply comment_gap; [apply gap_nil|].
  rewrite !one_line_app, H, one_line_n. reflexivity.
Qed.

(** * Texts *)

Lemma alike_TT : forall d a b ts, alike d a b -> lex d b = ts -> TT d a ts.
Proof. intros d a b ts (Z & O & E) <-. rewrite <- E. apply closed_TT; assumption. Qed.

(** Items on their lines. *)
Lemma comma_lines_FF : forall d indent l ts, gap indent -> Forall2 (fun x t => forallb LexSpec.one_line (fst x) = true /\ TT d (snd x) t) l ts ->
  FF d (comma_lines indent l) (commas ts).
Proof.
  intros d indent l ts G H. induction H as [|[cs s] t l ts [Hc Ht] H IH]; [apply FF_nil|]. cbn [fst snd] in Hc, Ht.
  destruct H as [|[cs' s'] t' l ts H' H].
  - cbn [comma_lines commas]. change t with ([] ++ [] ++ t). apply FF_FF_app; [apply gap_FF, comments_gap; assumption|]. apply FF_FF_app; [apply gap_FF, G|].
    rewrite <- (app_nil_r t). apply TT_FF_app; [exact Ht|apply nl_FF|apply lead1_byte; reflexivity].
  - change (comma_lines indent ((cs, s) :: (cs', s') :: l)) with (print_comments indent cs ++ indent ++ s ++ "," ++ nl ++ comma_lines indent ((cs', s') :: l))%string.
    change (commas (t :: t' :: ts)) with ([] ++ [] ++ t ++ [tComma] ++ [] ++ commas (t' :: ts)).
    apply FF_FF_app; [apply gap_FF, comments_gap; assumption|]. apply FF_FF_app; [apply gap_FF, G|].
    apply TT_FF_app; [exact Ht| |apply lead1_app, lead1_byte; reflexivity]. apply FF_FF_app; [lit_FF|]. apply FF_FF_app; [apply nl_FF|]. exact IH.
Qed.

(** * Columns and keys *)

Lemma column_TT : forall p d width c w, column_says p d c w -> wcolumn_ok d w = true ->
  TT d (snd (column_item (quotation p) width c)) (item_toks d (ICol w)).
Proof.
  intros p d width c w [N A] H. unfold column_item. cbn [snd item_toks]. unfold wcolumn_toks, pad.
  change (tI (id_raw (wc_name w)) :: type_toks d w) with ([tI (id_raw (wc_name w))] ++ type_toks d w).
  rewrite app_s_assoc. destruct (wcolumn_parts d w H) as (Hn & _). pose proof (name_TT d _ Hn) as T. rewrite N in T |- *. cbn [id_raw marked] in T |- *.
  pose proof (alike_TT d _ _ _ A (TT_lex _ _ _ (type_TT d w H))) as Ty.
  apply TT_SEG; [exact T|]. generalize (width - rune_count (quotation p ++ gc_name c ++ quotation p)). intro k.
  split.
  - change (type_toks d w) with ([] ++ [] ++ type_toks d w). apply FF_TT_app; [apply gap_FF, blanks_gap|]. apply FF_TT_app; [apply blank_FF|exact Ty].
  - apply lead1_lead. destruct k; apply lead1_byte; reflexivity.
Qed.
Lemma marked_cols : forall p d pk, cols_string d (map (fun n => mkCI (marked p n) None) pk) = ("(" ++ quoted_names (quotation p) pk ++ ")")%string.
Proof.
  intros p d pk. unfold cols_string, quoted_names. rewrite map_map. f_equal. f_equal. f_equal. apply map_ext. intro n.
  unfold colident_string. cbn [ci_ident ci_order]. unfold ident_string. cbn [id_raw marked]. destruct d; apply app_s_nil.
Qed.
Lemma key_TT : forall p d pk, pk <> [] -> forallb (item_ok d) (key_item p pk) = true ->
  TT d ("PRIMARY KEY (" ++ quoted_names (quotation p) pk ++ ")") (constraint_toks d (CPrimary None (map (fun n => mkCI (marked p n) None) pk))).
Proof.
  intros p d pk N H. destruct pk as [|n pk]; [congruence|]. set (l := n :: pk) in *.
  change (key_item p l) with [INameless (CPrimary None (map (fun n => mkCI (marked p n) None) l))] in H. cbn [forallb item_ok] in H. rewrite andb_true_r in H.
  pose proof (nameless_TT d _ H) as T. cbn [rename] in T. cbn [constraint_string] in T. rewrite marked_cols in T.
  cbn [name_prefix] in T. destruct d; exact T.
Qed.
Lemma comma_names_toks : forall p d l, (forall n, In n l -> name_ok d (marked p n) = true) ->
  piece_toks d (comma_names p l) = commas (map (fun n => [tI (id_raw (marked p n))]) l).
Proof.
  intros p d l. induction l as [|n l IH]; intro H; [reflexivity|].
  assert (E : lex d (id_raw (marked p n)) = [tI (id_raw (marked p n))]) by (apply TT_lex, name_TT, H; left; reflexivity).
  destruct l as [|m l].
  - cbn [comma_names piece_toks flat_map map commas]. rewrite E. reflexivity.
  - change (comma_names p (n :: m :: l)) with (marked p n :: plain_name "," :: comma_names p (m :: l)).
    unfold piece_toks. cbn [flat_map]. rewrite E. change (flat_map (fun i => lex d (id_raw i)) (comma_names p (m :: l))) with (piece_toks d (comma_names p (m :: l))).
    rewrite IH by (intros x Hx; apply H; right; exact Hx). assert (C : lex d (id_raw (plain_name ",")) = [tComma]) by (destruct d; reflexivity). rewrite C. reflexivity.
Qed.
Lemma key_option_TT : forall pk o, key_option SpPrinter pk = [o] -> (forall n, In n pk -> name_ok Sp (marked SpPrinter n) = true) ->
  FF Sp ("PRIMARY KEY (" ++ quoted_names bquote pk ++ ")") (option_toks Sp o).
Proof.
  intros pk o E H. destruct pk as [|n pk]; [discriminate E|]. set (l := n :: pk) in *.
  change (key_option SpPrinter l) with [mkOpt "PRIMARY KEY" (Some (plain_name "(" :: comma_names SpPrinter l ++ [plain_name ")"]))] in E.
  assert (Eo : o = mkOpt "PRIMARY KEY" (Some (plain_name "(" :: comma_names SpPrinter l ++ [plain_name ")"]))) by congruence. subst o. clear E. unfold option_toks. cbn [o_value o_name].
  change (String.eqb "PRIMARY KEY" "INTERLEAVE IN PARENT") with false. cbv iota.
  change (lex Sp "PRIMARY KEY") with [W Sp "PRIMARY"; W Sp "KEY"].
  assert (P : piece_toks Sp (plain_name "(" :: comma_names SpPrinter l ++ [plain_name ")"]) = [tOpen] ++ commas (map (fun n => [tI (id_raw (marked SpPrinter n))]) l) ++ [tClose]).
  { rewrite <- (comma_names_toks SpPrinter Sp l H). unfold piece_toks. cbn [flat_map]. rewrite flat_map_app. reflexivity. }
  rewrite P.
  rewrite app_assoc. apply (FF_FF_app Sp "PRIMARY KEY ("); [eapply lit_FF; reflexivity|].
  apply TT_FF_app; [|apply close_FF|apply lead1_byte; reflexivity]. unfold quoted_names. apply join_commas. intros x Hx. apply (name_TT Sp (marked SpPrinter x)), H, Hx.
Qed.

(** * Tables *)

Lemma items_lines : forall p d short t w cols cons, speaks p d = true -> remarks_ok short (GTable t) ->
  wt_items w = (map ICol cols ++ (match d with Sp => [] | _ => key_item p (g_pk t) end) ++ cons) ->
  Forall2 (column_says p d) (g_columns t) cols -> Forall2 (constraint_says d) (g_constraints t) cons -> forallb (item_ok d) (wt_items w) = true ->
  FF d (comma_lines indent4 (table_items p t)) (commas (map (item_toks d) (wt_items w))).
Proof.
  intros p d short t w cols cons S [_ R] E C K H. apply comma_lines_FF; [apply (blanks_gap 4)|].
  unfold all_comments in R. rewrite !forallb_app in R. repeat (apply andb_true_iff in R; let Q := fresh "R" in destruct R as [Q R]). rename R0 into Rt, R1 into Rc, R2 into Rk.
  rewrite E in *. rewrite !forallb_app in H. apply andb_true_iff in H. destruct H as [H1 H]. apply andb_true_iff in H. destruct H as [H2 H3].
  unfold table_items. rewrite !map_app, map_map. apply Forall2_app; [|apply Forall2_app].
  - clear - C H1 Rc. generalize (name_width (g_columns t)). intro width. revert H1 Rc. induction C as [|c w gs cols Hc C IH]; intros H1 Rc; [constructor|].
    cbn [map forallb flat_map] in *. rewrite forallb_app in Rc. apply andb_true_iff in Rc. destruct Rc as [R1 R2]. apply andb_true_iff in H1. destruct H1 as [H0 H1].
    constructor; [|apply IH; assumption]. split; [exact R1|]. apply column_TT; assumption.
  - assert (X : p = SpPrinter /\ d = Sp \/ (p <> SpPrinter /\ d <> Sp)) by (destruct p, d; try discriminate S; auto; right; split; discriminate).
    destruct X as [[-> ->]|[P D]]; [constructor|].
    replace (match p with SpPrinter => [] | _ => key_items (quotation p) (g_pk t) end) with (key_items (quotation p) (g_pk t)) by (destruct p; congruence).
    assert (Y : (match d with Sp => [] | _ => key_item p (g_pk t) end) = key_item p (g_pk t)) by (destruct d; congruence). rewrite Y in *.
    destruct (g_pk t) as [|n pk] eqn:Ek; [constructor|]. cbn [key_items key_item map]. constructor; [|constructor]. split; [reflexivity|].
    cbn [snd item_toks rename]. apply key_TT; [discriminate|exact H2].
  - clear - K H3 Rk. revert H3 Rk. induction K as [|x i xs is [Hi A] K IH]; intros H3 Rk; [constructor|].
    cbn [map forallb flat_map] in *. rewrite forallb_app in Rk. apply andb_true_iff in Rk. destruct Rk as [R1 R2]. apply andb_true_iff in H3. destruct H3 as [H0 H3].
    constructor; [|apply IH; assumption]. split; [exact R1|]. apply (alike_TT d _ _ _ A). apply TT_lex, item_TT, H0.
Qed.
Lemma option_blocks_TT : forall d l ts, Forall2 (fun x t => forallb LexSpec.one_line (gt_comments x) = true /\ TT d (gt_text x) t) l ts ->
  TT d (join ("," ++ nl) (map option_block l)) (commas ts).
Proof.
  intros d l ts H. induction H as [|x t l ts [Hc Ht] H IH]; [apply TT_nil|].
  assert (B : TT d (option_block x) t) by (unfold option_block; change t with ([] ++ t); apply FF_TT_app; [apply gap_FF, comments_gap; [apply gap_nil|exact Hc]|exact Ht]).
  destruct H as [|y t' l ts H' H]; [exact B|].
  change (join ("," ++ nl) (map option_block (x :: y :: l))) with (option_block x ++ ("," ++ nl) ++ join ("," ++ nl) (map option_block (y :: l)))%string.
  change (commas (t :: t' :: ts)) with (t ++ [tComma] ++ commas (t' :: ts)).
  apply TT_SEG; [exact B|]. split; [|apply lead1_lead, lead1_app, lead1_byte; reflexivity]. apply FF_TT_app; [lit_FF|exact IH].
Qed.
Lemma commas_rowdel : forall l o, l <> [] -> rowdel_ok Sp o = true ->
  commas (map (option_toks Sp) (l ++ match o with Some o => [o] | None => [] end)) = commas (map (option_toks Sp) l) ++ rowdel_toks Sp o.
Proof.
  intros l o N H. destruct o as [o|]; [|rewrite !app_nil_r; reflexivity].
  assert (E : rowdel_toks Sp (Some o) = tComma :: option_toks Sp o).
  { destruct o as [n v]. unfold rowdel_ok, rowdel_toks, option_toks in *. cbn [o_name o_value] in *. apply andb_true_iff in H. destruct H as [H1 H2].
    apply String.eqb_eq in H1. subst n. destruct v as [v|]; [|discriminate H2]. reflexivity. }
  rewrite E. rewrite map_app. cbn [map]. clear E H. generalize (option_toks Sp o). intro ts. induction l as [|x l IH]; [congruence|].
  destruct l as [|y l]; [reflexivity|]. cbn [map List.app] in *. change (commas (option_toks Sp x :: option_toks Sp y :: (map (option_toks Sp) l ++ [ts])))
    with (option_toks Sp x ++ tComma :: commas (option_toks Sp y :: (map (option_toks Sp) l ++ [ts]))). rewrite IH by discriminate.
  change (commas (option_toks Sp x :: option_toks Sp y :: map (option_toks Sp) l)) with (option_toks Sp x ++ tComma :: commas (option_toks Sp y :: map (option_toks Sp) l)).
  rewrite <- app_assoc. reflexivity.
Qed.
Lemma option_any_lex : forall o, option_ok Sp o = true \/ rowdel_ok Sp (Some o) = true -> lex Sp (option_string Sp o) = option_toks Sp o.
Proof.
  intros o [H|H]; [apply TT_lex, option_TT, H|]. pose proof (rowdel_SEG Sp (Some o) H) as [T _]. apply TT_lex in T.
  assert (F : FF Sp ("," ++ nl) [tComma]) by (eapply lit_FF; reflexivity). destruct F as [_ F]. rewrite <- app_s_assoc, F in T.
  destruct o as [n v]. unfold rowdel_ok, rowdel_toks, option_toks in *. cbn [o_name o_value] in *. apply andb_true_iff in H. destruct H as [H1 H2].
  apply String.eqb_eq in H1. subst n. destruct v as [v|]; [|discriminate H2]. apply (f_equal (@tl token)) in T. cbn [tl List.app] in T. exact T.
Qed.
Lemma options_lex : forall l, forallb (option_ok My) l = true -> lex My (options_string My l) = options_toks My l.
Proof.
  intros l H. destruct l as [|o l]; [reflexivity|]. pose proof (options_SEG My _ H) as [T _]. apply TT_lex in T.
  destruct (blank_FF My) as [_ F]. rewrite F in T. exact T.
Qed.
Lemma tail_SEG : forall p d short t w, speaks p d = true -> remarks_ok short (GTable t) -> options_say p d t w -> wtable_ok d w = true ->
  (forall n, In n (map gc_name (g_columns t)) -> name_ok d (marked p n) = true) ->
  SEG d (table_tail p t ++ option_lines (g_options t)) (options_toks d (wt_options w) ++ rowdel_toks d (wt_rowdel w)).
Proof.
  intros p d short t w S [_ R] O H N. destruct (wtable_parts d w H) as (_ & _ & _ & _ & H5 & H6).
  unfold all_comments in R. rewrite !forallb_app in R. repeat (apply andb_true_iff in R; let Q := fresh "Q" in destruct R as [Q R]). clear Q Q0 Q1.
  destruct p, d; try discriminate S; unfold table_tail, options_say in *.
  - destruct O as (-> & -> & ->). apply SEG_nil.
  - destruct O as (-> & -> & ->). apply SEG_nil.
  - destruct O as (-> & O). cbn [rowdel_toks]. rewrite app_nil_r. destruct (g_options t) as [|x [|y l]]; [rewrite O; apply SEG_nil| |destruct O].
    destruct O as [_ A]. cbn [flat_map] in R. rewrite app_nil_r in R. change ("" ++ option_lines [x])%string with (nl ++ print_comments "" (gt_comments x) ++ gt_text x)%string.
    split; [|apply lead1_lead, lead1_byte; reflexivity]. change (options_toks My (wt_options w)) with ([] ++ [] ++ options_toks My (wt_options w)).
    apply FF_TT_app; [apply nl_FF|]. apply FF_TT_app; [apply gap_FF, comments_gap; [apply gap_nil|exact R]|]. apply (alike_TT My _ _ _ A), options_lex, H5.
  - destruct O as (others & E & F & L & I).
    assert (T : Forall2 (fun x ts => forallb LexSpec.one_line (gt_comments x) = true /\ TT Sp (gt_text x) ts) (g_options t) (map (option_toks Sp) others)).
    { assert (A : forall o, In o others -> option_ok Sp o = true \/ rowdel_ok Sp (Some o) = true).
      { intros o Ho. assert (Hi : In o (wt_options w ++ match wt_rowdel w with Some o => [o] | None => [] end)) by (rewrite E; apply in_or_app; right; exact Ho).
        apply in_app_or in Hi. destruct Hi as [Hi|Hi]; [left; rewrite forallb_forall in H5; apply H5, Hi|]. destruct (wt_rowdel w); [|destruct Hi]. destruct Hi as [<-|[]]. right. exact H6. }
      clear - F R A. revert R A. induction F as [|x o xs os Hx F IH]; intros R A; [constructor|]. cbn [flat_map] in R. rewrite forallb_app in R. apply andb_true_iff in R. destruct R as [R1 R2].
      cbn [map]. constructor; [|apply IH; [exact R2|intros y Hy; apply A; right; exact Hy]]. split; [exact R1|]. apply (alike_TT Sp _ _ _ Hx), option_any_lex, A. left. reflexivity. }
    pose proof (option_blocks_TT Sp _ _ T) as B.
    assert (Ts : options_toks Sp (wt_options w) ++ rowdel_toks Sp (wt_rowdel w) = commas (map (option_toks Sp) (key_option SpPrinter (g_pk t) ++ others))).
    { rewrite <- E. destruct (wt_options w) as [|o l] eqn:Eo; [|symmetry; apply commas_rowdel; [discriminate|exact H6]].
      destruct (wt_rowdel w); [exfalso; apply L; [discriminate|reflexivity]|]. reflexivity. }
    rewrite Ts. unfold sp_key. destruct (g_pk t) as [|n pk] eqn:Ek.
    + cbn [key_option List.app]. change ("" ++ option_lines (g_options t))%string with (option_lines (g_options t)). unfold option_lines.
      destruct (g_options t) as [|x l]; [inversion F; subst; apply SEG_nil|]. split; [|apply lead1_lead, lead1_byte; reflexivity].
      change (commas (map (option_toks Sp) others)) with ([] ++ commas (map (option_toks Sp) others)). apply FF_TT_app; [apply nl_FF|exact B].
    + assert (K : exists o, key_option SpPrinter (n :: pk) = [o]) by (eexists; reflexivity). destruct K as [o K]. rewrite K.
      assert (KT : FF Sp ("PRIMARY KEY (" ++ quoted_names bquote (n :: pk) ++ ")") (option_toks Sp o)) by (apply key_option_TT; [exact K|intros m Hm; apply N, I, Hm]).
      set (K0 := ("PRIMARY KEY (" ++ quoted_names bquote (n :: pk) ++ ")")%string) in *.
      replace ((" PRIMARY KEY (" ++ quoted_names bquote (n :: pk) ++ ")" ++ match g_options t with [] => "" | _ => "," end) ++ option_lines (g_options t))%string
        with (" " ++ K0 ++ match g_options t with [] => "" | _ => "," end ++ option_lines (g_options t))%string
        by (unfold K0; rewrite !app_s_assoc; reflexivity).
      apply SEG_blank. cbn [List.app map]. destruct (g_options t) as [|x l].
      * inversion F; subst. cbn [map commas option_lines]. change ("" ++ "")%string with "". rewrite app_s_nil. apply FF_TT. exact KT.
      * inversion F as [|x' o' l' os Hx Hl]; subst. cbn [map] in *.
        change (commas (option_toks Sp o :: option_toks Sp o' :: map (option_toks Sp) os)) with (option_toks Sp o ++ [tComma] ++ [] ++ commas (option_toks Sp o' :: map (option_toks Sp) os)).
        apply FF_TT_app; [exact KT|]. apply FF_TT_app; [eapply lit_FF; reflexivity|]. unfold option_lines. apply FF_TT_app; [apply nl_FF|]. exact B.
Qed.

(** * Statements *)

Lemma column_names : forall p d (gs : list gcolumn) cols, Forall2 (column_says p d) gs cols -> forallb (item_ok d) (map ICol cols) = true ->
  forall n, In n (map gc_name gs) -> name_ok d (marked p n) = true.
Proof.
  intros p d gs cols C. induction C as [|c w gs cols [E _] C IH]; intros H n Hn; [destruct Hn|]. cbn [map forallb] in H. apply andb_true_iff in H. destruct H as [H1 H2].
  cbn [map] in Hn. destruct Hn as [<-|Hn]; [|apply IH; assumption]. rewrite <- E. cbn [item_ok] in H1. apply (wcolumn_parts d w H1).
Qed.
Lemma generated_FF : forall p d short s w, speaks p d = true -> remarks_ok short s -> says p d s w -> written_ok d w = true ->
  FF d (print_stmt p short indent4 s) (written_toks d w).
Proof.
  intros p d short s w S R H K. destruct H as [t w cols cons A E C X O|i x A]; cbn [written_ok written_toks print_stmt] in *.
  - pose proof R as R0. destruct R as [R1 R2]. cbn [stmt_file] in R1. destruct (wtable_parts d w K) as (H1 & _ & H3 & _).
    assert (N : g_create t <> "").
    { intro Z. destruct A as (_ & _ & A). rewrite Z in A. rewrite (TT_lex _ _ _ (head_TT d w H1)) in A. destruct d; discriminate A. }
    rewrite print_table_items by exact N. unfold wtable_toks.
    assert (Rt : forallb LexSpec.one_line (g_comments t) = true) by (cbn [all_comments] in R2; rewrite forallb_app in R2; apply andb_true_iff in R2; apply R2).
    rewrite 2 app_assoc. rewrite <- (app_assoc (lex d "CREATE TABLE ")).
    match goal with |- FF _ _ ?x => change x with ([] ++ [] ++ x) end. apply FF_FF_app; [apply gap_FF, source_gap, R1|].
    apply FF_FF_app; [apply gap_FF, comments_gap; [apply gap_nil|exact Rt]|].
    apply TT_FF_app; [apply (alike_TT d _ _ _ A), TT_lex, head_TT, H1| |apply lead1_app, lead1_byte; reflexivity].
    apply FF_FF_app; [lit_FF|]. apply (FF_FF_app d nl []); [apply nl_FF|].
    apply FF_FF_app; [apply (items_lines p d short t w cols cons); assumption|].
    apply FF_FF_app; [apply close_FF|]. rewrite <- app_s_assoc. rewrite app_assoc.
    apply TT_FF_app; [|lit_FF|apply lead1_byte; reflexivity]. apply (tail_SEG p d short t w S R0 O K).
    apply (column_names p d _ cols C). rewrite E, forallb_app in H3. apply andb_true_iff in H3. apply H3.
  - destruct R as [R1 R2]. cbn [stmt_file all_comments] in *. unfold print_index.
    change (create_index_toks d x) with ([] ++ [] ++ create_index_toks d x). apply FF_FF_app; [apply gap_FF, source_gap, R1|].
    apply FF_FF_app; [apply gap_FF, comments_gap; [apply gap_nil|exact R2]|]. rewrite <- app_s_assoc. rewrite <- (app_nil_r (create_index_toks d x)).
    apply TT_FF_app; [|apply nl_FF|apply lead1_byte; reflexivity]. apply (alike_TT d _ _ _ A), TT_lex, FF_TT, create_index_FF, K.
Qed.
Lemma generated_text : forall p d short l ws, speaks p d = true -> (forall s, In s l -> remarks_ok short s) -> Forall2 (says p d) l ws -> forallb (written_ok d) ws = true ->
  lex d (print_ddl p short l) = flat_map (written_toks d) ws.
Proof.
  intros p d short l ws S R H K. apply TT_lex, FF_TT. unfold print_ddl. change (flat_map (written_toks d) ws) with ([] ++ flat_map (written_toks d) ws).
  apply FF_FF_app; [apply gap_FF, comments_gap; [apply gap_nil|reflexivity]|]. revert R K. induction H as [|s w l ws Hs H IH]; intros R K; [apply FF_nil|].
  cbn [map concat_str flat_map forallb] in *. apply andb_true_iff in K. destruct K as [K1 K2]. rewrite app_s_assoc.
  match goal with |- FF _ _ ?x => change x with ([] ++ x) end. apply FF_FF_app; [apply nl_FF|].
  apply FF_FF_app; [apply generated_FF; auto; apply R; left; reflexivity|]. apply IH; [|exact K2]. intros y Hy. apply R. right. exact Hy.
Qed.
