(** Reading printed tables with index methods (for C08). *)
From Coq Require Import Lia.
From Verif Require Import GoStr Token Lexer LexerFacts LexSpec LexLayout LexKeyword LexPanic Ast Parser Printable PrintLex PrintToks PrintParse PrintColumn PrintStmt PrintDdl Method.
Local Open Scope list_scope.

Notation d := Crdb.
Definition m_toks (u : usingdef) : list token :=
  W d "USING" :: match us_value u with Some [v] => [tI (id_raw v)] | _ => [] end
  ++ match us_with u with Some (Some w) => W d "WITH" :: piece_toks d w | _ => [] end.
Definition mc_toks (c : constraint) : list token :=
  constraint_toks d (methodless c) ++ match method_of c with Some u => m_toks u | None => [] end.
Definition mc_ok (c : constraint) : bool :=
  constraint_ok d (methodless c) && match method_of c with Some u => named_method u | None => true end.

Lemma method_TT : forall u, named_method u = true -> SEG d (" " ++ using_string d u) (m_toks u).
Proof.
  intros [v w] H. unfold named_method in H. cbn [us_value us_with] in H. apply andb_true_iff in H. destruct H as [H1 H2].
  destruct v as [[|v [|]]|]; try discriminate H1. apply SEG_blank. unfold using_string, m_toks. cbn [us_value us_with expr_string].
  change (W d "USING" :: [tI (id_raw v)] ++ match w with Some (Some w) => W d "WITH" :: piece_toks d w | _ => [] end)
    with (lex d "USING " ++ [tI (id_raw v)] ++ match w with Some (Some w) => W d "WITH" :: piece_toks d w | _ => [] end).
  apply FF_TT_app; [lit_FF|]. apply TT_SEG.
  - unfold idents_string. cbn [idents_string_from]. rewrite app_s_nil. apply name_TT, H1.
  - destruct w as [[w|]|]; [|discriminate H2|apply SEG_nil]. apply SEG_blank. cbn [expr_string].
    change (W d "WITH" :: piece_toks d w) with (lex d "WITH " ++ piece_toks d w). apply FF_TT_app; [lit_FF|apply group_TT, H2].
Qed.
Lemma mc_TT : forall c, mc_ok c = true -> TT d (constraint_string d c) (mc_toks c).
Proof.
  intros c H. unfold mc_ok in H. apply andb_true_iff in H. destruct H as [H1 H2]. pose proof (constraint_TT d (methodless c) H1) as T.
  unfold mc_toks. destruct (method_of c) as [u|] eqn:M.
  - destruct c as [| | |n q pre cols post|]; try discriminate M. cbn [method_of] in M. subst post. cbn [methodless] in *.
    assert (E : constraint_string d (CIndex n q pre cols (Some u)) = (constraint_string d (CIndex n q pre cols None) ++ " " ++ using_string d u)%string).
    { cbn [constraint_string]. rewrite app_s_nil. rewrite !app_s_assoc. reflexivity. }
    rewrite E. apply TT_SEG; [exact T|apply method_TT, H2].
  - rewrite app_nil_r. destruct c as [| | |n q pre cols post|]; try exact T. cbn [method_of] in M. subst post. exact T.
Qed.

Lemma using_run : forall u st sr, named_method u = true -> nb (m_toks u ++ st :: sr) -> tk_type st = TOKEN_COMMA \/ tk_type st = TOKEN_CLOSE_PAREN ->
  parseUsing d (m_toks u ++ st :: sr) = Ok (u, st :: sr).
Proof.
  intros [v w] st sr H Hnb St. unfold named_method in H. unfold m_toks in *. cbn [us_value us_with] in *. apply andb_true_iff in H. destruct H as [H1 H2].
  destruct v as [[|v [|]]|]; try discriminate H1. pose proof (name_new d v H1) as N.
  assert (Stop : forall f e x, parseUsing_loop d (S f) e x (st :: sr) = Ok (mkUsing e x, st :: sr)).
  { intros f e x. cbn [parseUsing_loop]. unfold curT. cbn [cur]. destruct St as [St|St]; rewrite St; reflexivity. }
  unfold parseUsing. cbn [List.app List.length] in *. destruct w as [[w|]|]; [|discriminate H2|].
  - cbn [List.app List.length] in *. rewrite app_length. cbn [List.length]. destruct (group_part d w (st :: sr) H2) as [t [q [E [T [R _]]]]]; [nbs|].
    set (n := List.length (piece_toks d w) + S (List.length sr)). rewrite E in *. cbn [parseUsing_loop]. go. rewrite N. cbn [expr_append].
    assert (K : exists k, n = S k) by (exists (List.length (piece_toks d w) + List.length sr); unfold n; lia). destruct K as [k K]. rewrite K.
    apply Stop.
  - cbn [List.app List.length] in *. cbn [parseUsing_loop]. go. rewrite N. cbn [expr_append]. destruct St as [St|St]; rewrite St; reflexivity.
Qed.

Lemma mc_run : forall tbl c st sr, mc_ok c = true -> nb (mc_toks c ++ st :: sr) -> tk_type st = TOKEN_COMMA \/ tk_type st = TOKEN_CLOSE_PAREN ->
  parseTableConstraint d tbl (mc_toks c ++ st :: sr) = Ok (c, match method_of c with Some _ => sr | None => st :: sr end)
  /\ isConstraint d (curT (mc_toks c ++ st :: sr)) = true /\ eqs (curT (mc_toks c ++ st :: sr)) TOKEN_IDENT = false.
Proof.
  intros tbl c st sr H Hnb St. unfold mc_ok in H. apply andb_true_iff in H. destruct H as [H1 H2].
  assert (I : item_stop (curT (st :: sr)) = true) by (unfold curT; cbn [cur]; destruct St as [St|St]; rewrite St; reflexivity).
  unfold mc_toks in *. destruct (method_of c) as [m|] eqn:M.
  - destruct c as [| | |n u pre cols post|]; try discriminate M. cbn [method_of] in M. subst post. cbn [methodless constraint_ok constraint_toks] in *.
    apply andb_true_iff in H1. destruct H1 as [H1 K4]. apply andb_true_iff in H1. destruct H1 as [H1 K3]. apply andb_true_iff in H1. destruct H1 as [Hn Hc].
    destruct pre; [discriminate K3|]. destruct (named_run d n Hn) as [i [E [_ N]]]. subst n. rewrite <- !app_assoc in *.
    assert (NB : nb (m_toks m ++ st :: sr)) by (destruct u; cbn [List.app] in Hnb; nbs).
    pose proof (using_run m st sr H2 NB St) as U.
    assert (NS : nb (st :: sr)) by (apply nb_app_r in NB; exact NB).
    assert (F : exists r, m_toks m ++ st :: sr = W d "USING" :: r) by (eexists; reflexivity). destruct F as [r F]. rewrite F in *.
    destruct u; cbn [List.app] in *; (split; [|split; reflexivity]);
    part d cols Hc; unfold parseTableConstraint; go; rewrite N; unfold W in U; rewrite U; cbn [bind]; (rewrite next_ok by nbs); reflexivity.
  - rewrite app_nil_r in *.
    assert (E : methodless c = c) by (destruct c as [| | |n u pre cols post|]; try reflexivity; cbn [method_of] in M; subst post; reflexivity).
    rewrite E in *. apply constraint_run; assumption.
Qed.

(** * Collecting *)

Definition mcs_ok (cs : list constraint) : bool :=
  forallb mc_ok cs && distinct (constraint_names cs) && forallb (fun c => negb (is_pkey c)) (tl cs).
Lemma methodless_name : forall c, con_name (methodless c) = con_name c.
Proof. intro c. destruct c; reflexivity. Qed.
Lemma mc_named : forall c, mc_ok c = true -> named c.
Proof.
  intros c H. unfold mc_ok in H. apply andb_true_iff in H. destruct H as [H _]. apply constraint_named in H. unfold named in *. rewrite methodless_name in H. exact H.
Qed.
Lemma m_append : forall n srt cs c, keeps_primary_first n srt -> List.length (cs ++ [c]) <= n -> mcs_ok (cs ++ [c]) = true ->
  append_constraint d srt cs c = Ok (cs ++ [c]).
Proof.
  intros n srt cs c Hs Hn H. unfold mcs_ok in H. apply andb_true_iff in H. destruct H as [H H3]. apply andb_true_iff in H. destruct H as [H1 H2].
  rewrite forallb_forall in H1. unfold append_constraint. rewrite replace_none; [|intros x Hx; apply mc_named, H1, in_or_app; left; exact Hx|
    apply mc_named, H1, in_or_app; right; left; reflexivity|exact H2].
  rewrite (sort_same n); auto.
Qed.
Lemma mcs_prefix : forall l r, mcs_ok (l ++ r) = true -> mcs_ok l = true.
Proof.
  intros l r H. unfold mcs_ok in *. apply andb_true_iff in H. destruct H as [H H3]. apply andb_true_iff in H. destruct H as [H1 H2].
  rewrite forallb_app in H1. apply andb_true_iff in H1. destruct H1 as [H1 _]. rewrite H1. unfold constraint_names in *. rewrite map_app in H2.
  rewrite (distinct_prefix _ _ H2). cbn [andb]. apply (tl_prefix _ _ l r), H3.
Qed.

Definition at_end (rest p : list token) : Prop := p = tClose :: rest \/ p = rest.
Lemma semi_end : forall srt tbl cols cs fuel rest, curT rest = TOKEN_SEMICOLON -> parseColumns_loop d srt (S fuel) tbl cols cs rest = Ok (cols, cs, rest).
Proof. intros srt tbl cols cs fuel rest H. cbn [parseColumns_loop]. rewrite H. reflexivity. Qed.
Lemma m_constraints_loop : forall n srt tbl, keeps_primary_first n srt ->
  forall K cs cols fuel rest, List.length (cs ++ K) <= n -> mcs_ok (cs ++ K) = true -> nb (commas (map mc_toks K) ++ tClose :: rest) -> curT rest = TOKEN_SEMICOLON ->
  2 * List.length K < fuel ->
  exists p, parseColumns_loop d srt fuel tbl cols cs (commas (map mc_toks K) ++ tClose :: rest) = Ok (cols, cs ++ K, p) /\ at_end rest p.
Proof.
  intros n srt tbl Hs K. induction K as [|c K IH]; intros cs cols fuel rest Hn H Hnb He Hf; (destruct fuel as [|fuel]; [lia|]).
  - cbn [map commas List.app] in *. exists (tClose :: rest). rewrite columns_end by assumption. rewrite app_nil_r. split; [reflexivity|left; reflexivity].
  - cbn [map] in *. rewrite commas_cons in *.
    assert (Hc : mc_ok c = true).
    { unfold mcs_ok in H. apply andb_true_iff in H. destruct H as [H _]. apply andb_true_iff in H. destruct H as [H _]. rewrite forallb_forall in H. apply H, in_or_app. right. left. reflexivity. }
    change (cs ++ c :: K) with (cs ++ [c] ++ K) in *. rewrite app_assoc in *.
    assert (A : append_constraint d srt cs c = Ok (cs ++ [c])).
    { apply (m_append n); [exact Hs|rewrite app_length in Hn; lia|apply (mcs_prefix _ K), H]. }
    assert (S : exists st sr, behind (map mc_toks K) (tClose :: rest) = st :: sr /\ (tk_type st = TOKEN_COMMA \/ tk_type st = TOKEN_CLOSE_PAREN)).
    { destruct K; cbn [map behind]; eexists; eexists; (split; [reflexivity|]); [right|left]; reflexivity. }
    destruct S as [st [sr [Es St]]]. rewrite Es in *. destruct (mc_run tbl c st sr Hc Hnb St) as [R [C I]].
    cbn [parseColumns_loop]. rewrite I, C, R. cbn [bind]. rewrite A. cbn [bind]. clear R C I A. apply nb_app_r in Hnb.
    cbn [List.length] in Hf. destruct fuel as [|fuel]; [lia|]. destruct K as [|c' K]; cbn [map behind] in Es; inversion Es; subst st sr; clear Es.
    + rewrite app_nil_r. destruct (method_of c).
      * exists rest. split; [apply semi_end, He|right; reflexivity].
      * exists (tClose :: rest). split; [apply columns_end; assumption|left; reflexivity].
    + assert (Hnb' : nb (commas (map mc_toks (c' :: K)) ++ tClose :: rest)) by nbs.
      destruct (method_of c).
      * apply IH; [exact Hn|exact H|exact Hnb'|exact He|cbn [List.length] in *; lia].
      * rewrite comma_skip by exact Hnb. apply IH; [exact Hn|exact H|exact Hnb'|exact He|cbn [List.length] in *; lia].
Qed.
Lemma m_columns_loop : forall n srt tbl, keeps_primary_first n srt ->
  forall C K cols fuel rest, List.length K <= n -> forallb (column_ok d) C = true -> mcs_ok K = true ->
  nb (commas (map (column_toks d) C ++ map mc_toks K) ++ tClose :: rest) -> curT rest = TOKEN_SEMICOLON ->
  2 * (List.length C + List.length K) < fuel ->
  exists p, parseColumns_loop d srt fuel tbl cols [] (commas (map (column_toks d) C ++ map mc_toks K) ++ tClose :: rest) = Ok (cols ++ C, K, p) /\ at_end rest p.
Proof.
  intros n srt tbl Hs C K. induction C as [|c C IH]; intros cols fuel rest Hn HC HK Hnb He Hf; (destruct fuel as [|fuel]; [lia|]).
  - cbn [map List.app] in *. rewrite app_nil_r. apply (m_constraints_loop n srt tbl Hs K []); auto.
  - cbn [map List.app forallb List.length] in *. apply andb_true_iff in HC. destruct HC as [Hc HC]. rewrite commas_cons in *. rewrite column_step; [|exact Hc|exact Hnb|apply behind_stop].
    replace (cols ++ c :: C) with ((cols ++ [c]) ++ C) by (rewrite <- app_assoc; reflexivity).
    unfold behind in *. destruct (map (column_toks d) C ++ map mc_toks K) as [|x l] eqn:E.
    + apply app_eq_nil in E. destruct E as [E1 E2]. apply map_eq_nil in E1, E2. subst C K. rewrite app_nil_r. destruct fuel as [|fuel]; [lia|].
      exists (tClose :: rest). split; [apply columns_end; [nbs|exact He]|left; reflexivity].
    + rewrite <- E in *. destruct fuel as [|fuel]; [lia|]. apply nb_app_r in Hnb. rewrite comma_skip by exact Hnb. apply IH; auto; [nbs|lia].
Qed.

(** * Statements *)

Definition m_ok (s : stmt) : bool := stmt_ok d (without_methods s) && methods_named s.
Definition mt_toks (t : create_table) : list token :=
  (lex d "CREATE TABLE " ++ ine_toks d (ct_ifnotexists t) ++ [tI (objname_string (ct_name t))] ++ [tOpen]
   ++ commas (map (column_toks d) (ct_columns t) ++ map mc_toks (ct_constraints t)) ++ [tClose] ++ [tSemi]).
Definition ms_toks (s : stmt) : list token := match s with CreateTable t => mt_toks t | s => stmt_toks d s end.

Lemma m_table_parts : forall t, m_ok (CreateTable t) = true ->
  no_nul (ct_comment t) = true /\ objname_ok d (ct_name t) = true /\ forallb (column_ok d) (ct_columns t) = true /\ mcs_ok (ct_constraints t) = true
  /\ ct_options t = [] /\ ct_rowdel t = None.
Proof.
  intros t H. unfold m_ok in H. apply andb_true_iff in H. destruct H as [H M]. cbn [without_methods stmt_ok] in H. unfold create_table_ok in H.
  cbn [ct_comment ct_name ct_columns ct_constraints ct_options ct_rowdel] in H.
  apply andb_true_iff in H. destruct H as [H H6]. apply andb_true_iff in H. destruct H as [H H5]. apply andb_true_iff in H. destruct H as [H H4].
  apply andb_true_iff in H. destruct H as [H H3]. apply andb_true_iff in H. destruct H as [H1 H2].
  repeat split; try assumption.
  - cbn [methods_named] in M. unfold mcs_ok. unfold constraints_ok in H4. apply andb_true_iff in H4. destruct H4 as [H4 P]. apply andb_true_iff in H4. destruct H4 as [H4 D].
    assert (X : forallb mc_ok (ct_constraints t) = true).
    { rewrite forallb_forall in *. intros c Hc. unfold mc_ok. rewrite (H4 (methodless c) (in_map methodless _ c Hc)), (M c Hc). reflexivity. }
    assert (Y : constraint_names (map methodless (ct_constraints t)) = constraint_names (ct_constraints t)).
    { unfold constraint_names. rewrite map_map. apply map_ext. intro c. rewrite methodless_name. reflexivity. }
    rewrite Y in D. rewrite X, D. cbn [andb]. destruct (ct_constraints t) as [|c cs]; [reflexivity|]. cbn [map tl] in *. clear - P.
    induction cs as [|c cs IH]; [reflexivity|]. cbn [map forallb] in *. apply andb_true_iff in P. destruct P as [P1 P2]. rewrite (IH P2), andb_true_r.
    destruct c; exact P1 || reflexivity.
  - destruct (ct_options t); [reflexivity|discriminate H5].
  - destruct (ct_rowdel t); [discriminate H6|reflexivity].
Qed.
Lemma mt_FF : forall t, m_ok (CreateTable t) = true -> FF d (create_table_string d t) (mt_toks t).
Proof.
  intros t H. destruct (m_table_parts t H) as [H1 [H2 [H3 [H4 [H5 H6]]]]].
  unfold create_table_string, mt_toks. rewrite H5.
  match goal with |- FF d (?a ++ ?b) ?t => apply (FF_FF_app d a [] b t) end; [apply comment_FF, H1|].
  match goal with |- FF d (?a ++ ?b) (?s ++ ?t) => apply (FF_FF_app d a s b t) end; [lit_FF|].
  match goal with |- FF d (?a ++ ?b) (?s ++ ?t) => apply (FF_FF_app d a s b t) end; [destruct (ct_ifnotexists t); [unfold ine_toks; lit_FF|apply FF_nil]|].
  apply TT_FF_app; [apply (objname_facts d (ct_name t) H2)| |apply lead1_app, lead1_byte; reflexivity].
  apply FF_FF_app; [lit_FF|]. apply (FF_FF_app d nl []); [apply nl_FF|].
  apply FF_FF_app.
  - rewrite forallb_forall in H3. unfold mcs_ok in H4.
    assert (C : forall c, In c (ct_constraints t) -> mc_ok c = true).
    { repeat (apply andb_true_iff in H4; destruct H4 as [H4 _]). rewrite forallb_forall in H4. exact H4. }
    pose proof (lines_FF d (map (fun c => (column_string d c, column_toks d c)) (ct_columns t)
                            ++ map (fun c => (constraint_string d c, mc_toks c)) (ct_constraints t))) as L.
    rewrite !map_app, !map_map in L. cbn [fst snd] in L. apply L. intros a ta Hp. apply in_app_or in Hp. destruct Hp as [Hp|Hp];
    apply in_map_iff in Hp; destruct Hp as [c [E Hc]]; inversion E; subst a ta; [apply column_TT, H3, Hc|apply mc_TT, C, Hc].
  - apply FF_FF_app; [apply close_FF|]. cbn [append]. lit_FF.
Qed.
Lemma ms_FF : forall s, m_ok s = true -> FF d (stmt_string d s) (ms_toks s).
Proof.
  intros s H. destruct s as [t|x| | |]; try discriminate H; [exact (mt_FF t H)|]. apply create_index_FF. unfold m_ok in H. apply andb_true_iff in H. apply H.
Qed.
Lemma m_lex : forall l, forallb m_ok l = true -> FF d (ddl_string d l) (flat_map ms_toks l).
Proof.
  intro l. induction l as [|s l IH]; intro H; [apply FF_nil|]. cbn [forallb] in H. apply andb_true_iff in H. destruct H as [H1 H2].
  unfold ddl_string. cbn [map concat_str flat_map]. apply FF_FF_app; [apply ms_FF, H1|apply IH, H2].
Qed.

Lemma mt_run : forall srt t rest, keeps_primary_first (List.length (ct_constraints t)) srt -> m_ok (CreateTable t) = true -> nb (mt_toks t ++ rest) ->
  exists r p, mt_toks t ++ rest = W d "CREATE" :: r /\ parseCreate d srt (W d "CREATE" :: r) = Ok (without_comment (CreateTable t), p) /\ at_end (tSemi :: rest) p.
Proof.
  intros srt t rest Hs H Hnb. destruct (m_table_parts t H) as [H1 [H2 [H3 [H4 [H5 H6]]]]]. clear H.
  unfold mt_toks in *.
  assert (E : lex d "CREATE TABLE " = [W d "CREATE"; W d "TABLE"]) by reflexivity. rewrite E in *. rewrite <- !app_assoc in *. cbn [List.app] in *.
  assert (L : 2 * List.length (map (column_toks d) (ct_columns t) ++ map mc_toks (ct_constraints t)) <= S (List.length (commas (map (column_toks d) (ct_columns t) ++ map mc_toks (ct_constraints t))))).
  { apply commas_length. intros x Hx. apply in_app_or in Hx. destruct Hx as [Hx|Hx]; apply in_map_iff in Hx; destruct Hx as [c [E' _]]; subst x; [apply column_toks_pos|].
    unfold mc_toks. rewrite app_length. pose proof (constraint_toks_pos d (methodless c)). lia. }
  rewrite app_length, !map_length in L.
  set (B := commas (map (column_toks d) (ct_columns t) ++ map mc_toks (ct_constraints t)) ++ tClose :: tSemi :: rest) in *.
  assert (N0 : nb (tI (objname_string (ct_name t)) :: tOpen :: B)) by nbs.
  assert (NB : nb B) by nbs.
  destruct (m_columns_loop (List.length (ct_constraints t)) srt (on_name (ct_name t)) Hs (ct_columns t) (ct_constraints t) [] (S (List.length B)) (tSemi :: rest)) as [p [P Q]];
    [apply le_n|exact H3|exact H4|exact NB|reflexivity|unfold B; rewrite app_length; cbn [List.length]; lia|].
  eexists. exists p. split; [reflexivity|]. split; [|exact Q].
  unfold parseCreate. rewrite next_ok by nbs. cbn [bind].
  change (eqs (curT (W d "TABLE" :: ine_toks d (ct_ifnotexists t) ++ tI (objname_string (ct_name t)) :: tOpen :: B)) TOKEN_TABLE) with true. cbv iota. unfold parseCreateTable.
  destruct (ine_run d (ct_ifnotexists t) (W d "TABLE") (tI (objname_string (ct_name t))) (tOpen :: B)) as [z Z]; [nbs|reflexivity|].
  rewrite Z. cbn [bind]. clear Z.
  rewrite next_ok by exact N0. cbn [bind]. unfold curT at 1. cbn [cur tI tk_type]. test1. cbn [guard bind].
  rewrite next_ok by nbs. cbn [bind]. unfold curT at 1. cbn [cur tOpen tk_type]. test1. cbn [guard bind]. rewrite next_ok by nbs. cbn [bind].
  unfold curL. cbn [cur tI tk_lit]. destruct (objname_facts d (ct_name t) H2) as [_ N]. rewrite N. fold B in P. rewrite P. cbn [bind without_comment]. rewrite H5, H6. reflexivity.
Qed.

(** * The whole text *)

Lemma ms_pos : forall s, m_ok s = true -> 4 <= List.length (ms_toks s).
Proof.
  intros s H. destruct s as [t|x| | |]; try discriminate H.
  - cbn [ms_toks]. unfold mt_toks. rewrite !app_length. cbn [List.length]. fixed. cbn [List.length]. lia.
  - apply (stmt_pos d (CreateIndex x)). unfold m_ok in H. apply andb_true_iff in H. apply H.
Qed.
Lemma m_loop : forall srt l acc fuel, (forall s, In s l -> first_kept d srt s) -> forallb m_ok l = true -> nb (flat_map ms_toks l) -> 2 * List.length l < fuel ->
  parse_loop d srt fuel acc (flat_map ms_toks l) = Ok (acc ++ map without_comment l).
Proof.
  intros srt l. induction l as [|s l IH]; intros acc fuel Hs H Hnb Hf; (destruct fuel as [|fuel]; [lia|]).
  - cbn [map]. rewrite app_nil_r. reflexivity.
  - cbn [flat_map forallb map List.length] in *. apply andb_true_iff in H. destruct H as [H1 H2].
    assert (R : exists r p, ms_toks s ++ flat_map ms_toks l = W d "CREATE" :: r /\
              parseCreate d srt (W d "CREATE" :: r) = Ok (without_comment s, p) /\ at_end (tSemi :: flat_map ms_toks l) p).
    { destruct s as [t|x| | |]; try discriminate H1; [apply mt_run; [apply (Hs (CreateTable t)); left; reflexivity|assumption..]|].
      destruct (create_index_run d srt x (flat_map ms_toks l)) as [r [E R]]; [unfold m_ok in H1; apply andb_true_iff in H1; apply H1|exact Hnb|].
      exists r. eexists. split; [exact E|]. split; [exact R|right; reflexivity]. }
    assert (Hs' : forall s, In s l -> first_kept d srt s) by (intros y Hy; apply Hs; right; exact Hy).
    destruct R as [r [p [E [R Q]]]]. rewrite E in *. cbn [parse_loop].
    change (eqs (curT (W d "CREATE" :: r)) TOKEN_CREATE) with true. cbv iota. rewrite R. cbn [bind].
    assert (NL : nb (flat_map ms_toks l)) by (rewrite <- E in Hnb; apply nb_app_r in Hnb; exact Hnb).
    replace (acc ++ without_comment s :: map without_comment l) with ((acc ++ [without_comment s]) ++ map without_comment l) by (rewrite <- app_assoc; reflexivity).
    destruct Q as [Q|Q]; subst p.
    + destruct fuel as [|fuel]; [lia|].
      assert (NS : nb (tSemi :: flat_map ms_toks l)) by (apply nb_cons; [discriminate|exact NL]). rewrite next_ok by exact NS. cbn [bind].
      cbn [parse_loop]. unfold curT. cbn [cur tSemi tk_type]. repeat test1. rewrite next_ok by exact NL. cbn [bind]. apply IH; auto. lia.
    + rewrite next_ok by exact NL. cbn [bind]. apply IH; auto. lia.
Qed.
Lemma m_split : forall l, printable_with_methods l = true -> forallb m_ok l = true.
Proof.
  intros l H. unfold printable_with_methods, printable in H. apply andb_true_iff in H. destruct H as [A B]. rewrite forallb_forall in *. intros s I.
  unfold m_ok. rewrite (A (without_methods s) (in_map without_methods l s I)), (B s I). reflexivity.
Qed.
Lemma m_run : forall srt l, (forall s, In s l -> first_kept d srt s) -> printable_with_methods l = true -> parse d srt (ddl_string d l) = Ok (map without_comment l).
Proof.
  intros srt l Hs P. pose proof (m_split l P) as H. destruct (m_lex l H) as [Hnb F]. specialize (F ""). rewrite app_s_nil in F. rewrite lex_nil, app_nil_r in F.
  unfold parse. rewrite F. unfold parse_tokens.
  assert (B : eqs (curT (flat_map ms_toks l)) TOKEN_BOOM || eqs (peekT (flat_map ms_toks l)) TOKEN_BOOM = false).
  { destruct (flat_map ms_toks l) as [|x [|y r]]; [reflexivity| |]; inversion Hnb; subst; [|match goal with K : Forall _ (y :: r) |- _ => inversion K; subst end];
    unfold curT, peekT; cbn [cur peek];
    unfold eqs; repeat match goal with K : tk_type ?t <> TOKEN_BOOM |- context [String.eqb (tk_type ?t) TOKEN_BOOM] => rewrite (proj2 (String.eqb_neq _ _) K) end; reflexivity. }
  rewrite B. apply (m_loop srt l []); auto.
  clear - H. induction l as [|s l IH]; [cbn; lia|]. cbn [forallb flat_map List.length] in *. apply andb_true_iff in H. destruct H as [H1 H2].
  rewrite app_length. specialize (IH H2). pose proof (ms_pos s H1). lia.
Qed.
