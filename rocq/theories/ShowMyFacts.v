(** Tokens of the texts MySQL and CockroachDB answer (for C57, C58). *)
From Coq Require Import Lia.
From Verif Require Import GoStr Token Lexer LexerFacts LexSpec LexLayout Ast Parser Printable Written PrintLex PrintToks PrintParse PrintStmt PrintDdl WrittenFacts.
From Verif Require Import Generate GenRead GenReadFacts Show ShowFacts ShowPg ShowPgRead ShowPgFacts ShowMy ShowMyRead.

Local Open Scope list_scope.

Lemma Forall2_pieces : forall A B (f : A -> string) (g : B -> list token) d (R : A -> B -> Prop) (ok : B -> bool) l m,
  (forall a b, R a b -> ok b = true -> TT d (f a) (g b)) -> Forall2 R l m -> forallb ok m = true -> Forall2 (TT d) (map f l) (map g m).
Proof.
  intros A B f g d R ok l m H F. induction F as [|a b l m K F IH]; intro O; [constructor|]. cbn [forallb map] in *. apply andb_true_iff in O. destruct O as [O1 O2].
  constructor; [apply H; assumption|apply IH, O2].
Qed.
Lemma Forall2_map_map : forall A (f : A -> string) (g : A -> list token) d (l : list A), (forall a, In a l -> TT d (f a) (g a)) -> Forall2 (TT d) (map f l) (map g l).
Proof. intros A f g d l H. induction l as [|a l IH]; [constructor|]. constructor; [apply H; left; reflexivity|apply IH; intros x Hx; apply H; right; exact Hx]. Qed.

(** * MySQL *)

Lemma clause_SEG : forall d k, clause_ok d k = true -> SEG d (" " ++ clause_string d k) (clause_toks d k).
Proof. intros d k H. apply SEG_blank, clause_TT, H. Qed.
Lemma maybe_SEG : forall d (f : string -> clause) before x, (forall s, clause_string d (f s) = (before ++ s)%string) ->
  (forall k, In k (maybe f x) -> clause_ok d k = true) -> SEG d (told_opt (" " ++ before) x) (flat_map (clause_toks d) (maybe f x)).
Proof.
  intros d f before [x|] E H; [|apply SEG_nil]. cbn [maybe flat_map told_opt]. rewrite app_nil_r. rewrite app_s_assoc, <- E. apply clause_SEG, H. left. reflexivity.
Qed.
Lemma word_SEG : forall d (b : bool) k s, clause_string d k = s -> (forall x, In x (if b then [k] else []) -> clause_ok d x = true) ->
  SEG d (if b then " " ++ s else "") (flat_map (clause_toks d) (if b then [k] else [])).
Proof.
  intros d [|] k s <- H; [|apply SEG_nil]. cbn [flat_map]. rewrite app_nil_r. apply clause_SEG, H. left. reflexivity.
Qed.
Lemma default_SEG : forall d x ks, match x with None => ks = [] | Some x => exists v, ks = [KDefault v] /\ alike d x (idents_string d v) end ->
  (forall k, In k ks -> clause_ok d k = true) -> SEG d (told_opt " DEFAULT " x) (flat_map (clause_toks d) ks).
Proof.
  intros d [x|] ks D H; [|subst ks; apply SEG_nil].
  destruct D as (v & -> & A). specialize (H (KDefault v) (or_introl eq_refl)). cbn [clause_ok] in H.
  pose proof (alike_TT d _ _ _ A (TT_lex _ _ _ (value_TT d v H))) as T. cbn [told_opt flat_map clause_toks default_toks]. rewrite app_nil_r.
  apply SEG_stop; [|reflexivity]. change (TT d (" DEFAULT " ++ x) ([W d "DEFAULT"] ++ piece_toks d v)). apply FF_TT_app; [lit_FF|exact T].
Qed.
Ltac among := intros; match goal with H : forall k, In k _ -> clause_ok _ k = true |- _ => apply H end; repeat (apply in_or_app; (left; assumption) || right); assumption.

(** * Tables of items *)

Lemma items_FF : forall d sep head name items ts tail tts, FF d sep [tComma] -> lead1 sep -> FF d head [] -> TT d ("CREATE TABLE " ++ name) (lex d "CREATE TABLE " ++ [tI name]) ->
  Forall2 (TT d) items ts -> FF d tail ([tClose] ++ tts) -> lead1 tail ->
  FF d ("CREATE TABLE " ++ name ++ " (" ++ head ++ join sep items ++ tail) (lex d "CREATE TABLE " ++ [tI name] ++ [tOpen] ++ commas ts ++ [tClose] ++ tts).
Proof.
  intros d sep head name items ts tail tts S L G N F T LT. rewrite <- app_s_assoc. rewrite (app_assoc (lex d "CREATE TABLE ")).
  apply TT_FF_app; [exact N| |apply lead1_app, lead1_byte; reflexivity].
  apply FF_FF_app; [lit_FF|]. change (commas ts ++ [tClose] ++ tts) with ([] ++ commas ts ++ [tClose] ++ tts).
  apply FF_FF_app; [exact G|]. apply TT_FF_app; [apply join_TT; assumption|exact T|exact LT].
Qed.

(** * MySQL *)

Lemma ticked_raw : forall n, id_raw (ticked n) = tick n.
Proof. reflexivity. Qed.
Lemma m_column_TT : forall c w, m_column_says c w -> wcolumn_ok My w = true -> TT My (m_column_text c) (item_toks My (ICol w)).
Proof.
  intros c w (N & A & G & (ks & D & K) & Ki & L) H. unfold wcolumn_ok in H.
  apply andb_true_iff in H. destruct H as [H HL]. apply andb_true_iff in H. destruct H as [H _]. apply andb_true_iff in H. destruct H as [H HC].
  apply andb_true_iff in H. destruct H as [HN HT].
  assert (HK : forall k, In k (wc_clauses w) -> clause_ok My k = true) by (intros k I; apply (clauses_all My _ _ _ HC), I).
  cbn [item_toks]. unfold wcolumn_toks, type_toks. rewrite Ki, K in *. cbn [flat_map]. rewrite !flat_map_app. rewrite <- !app_assoc.
  pose proof (name_TT My _ HN) as TN. rewrite N in TN |- *. rewrite ticked_raw in *.
  unfold m_column_text. rewrite G. cbn [told_opt]. change (tI (tick (mc_name c)) :: ?x) with ([tI (tick (mc_name c))] ++ x).
  apply TT_blank; [exact TN|]. apply TT_SEG; [apply (alike_TT My _ _ _ A), TT_lex, datatype_TT, HT|].
  apply SEG_app; [apply (maybe_SEG My _ "CHARACTER SET "); [reflexivity|among]|].
  apply SEG_app; [apply (maybe_SEG My _ "COLLATE "); [reflexivity|among]|]. change ("" ++ ?x)%string with x.
  apply SEG_app; [apply (word_SEG My _ KNotNull "NOT NULL"); [reflexivity|among]|].
  apply SEG_app; [apply (word_SEG My _ KNull "NULL"); [reflexivity|among]|].
  apply SEG_app; [apply default_SEG; [exact D|among]|].
  apply SEG_app; [apply (maybe_SEG My _ "ON UPDATE "); [reflexivity|among]|].
  apply SEG_app; [apply (word_SEG My _ KAutoIncrement "AUTO_INCREMENT"); [reflexivity|among]|].
  rewrite L in HL |- *. destruct (mc_comment c) as [x|]; cbn [told_opt wlate_toks List.app]; [|apply SEG_nil]. cbn [late_ok] in HL.
  apply SEG_stop; [|reflexivity]. change (TT My (" COMMENT " ++ x) ([W My "COMMENT"] ++ [text_tok My x])). apply FF_TT_app; [eapply lit_FF; reflexivity|apply text_TT, HL].
Qed.
Lemma m_cols_FF : forall l, colidents_ok My (m_cols_say l) = true -> FF My (m_cols_text l) (cols_toks My (m_cols_say l)).
Proof.
  intros l H. unfold m_cols_text, cols_toks. unfold colidents_ok in H. rewrite forallb_forall in H.
  apply (FF_FF_app My "(" [tOpen]); [apply open_FF|]. apply TT_FF_app; [|eapply lit_FF; reflexivity|apply lead1_byte; reflexivity].
  apply join_TT; [eapply lit_FF; reflexivity|apply lead1_byte; reflexivity|]. unfold m_cols_say in *. rewrite map_map.
  apply Forall2_map_map. intros c Hc. specialize (H _ (in_map _ _ _ Hc)). apply colident_TT in H. destruct c as [n [|]]; exact H.
Qed.
Lemma m_names_string : forall l, ("(" ++ join ", " (map tick l) ++ ")")%string = cols_string My (m_names_say l).
Proof.
  intro l. unfold cols_string, m_names_say. rewrite map_map. do 3 f_equal. apply map_ext. intro n. unfold colident_string. cbn [ci_ident ci_order]. rewrite app_s_nil. reflexivity.
Qed.
Lemma m_key_TT : forall k i, m_key_says k i -> item_ok My i = true -> TT My (m_key_text k) (item_toks My i).
Proof.
  intros k i S H. destruct k as [l|u n l|n l r rl rules|n x]; cbn [m_key_says] in S.
  - subst i. cbn [item_ok nameless_ok item_toks rename constraint_toks List.app m_key_text] in *. apply FF_TT.
    change (W My "PRIMARY" :: W My "KEY" :: ?x) with ([W My "PRIMARY"; W My "KEY"] ++ x). apply FF_FF_app; [eapply lit_FF; reflexivity|apply m_cols_FF, H].
  - subst i. cbn [item_ok item_toks constraint_toks constraint_ok m_key_text] in *. apply FF_TT.
    apply andb_true_iff in H. destruct H as [H _]. apply andb_true_iff in H. destruct H as [H _]. apply andb_true_iff in H. destruct H as [H K]. cbn [oname_ok] in H.
    apply FF_FF_app; [destruct u; [eapply lit_FF; reflexivity|apply FF_nil]|]. apply FF_FF_app; [eapply lit_FF; reflexivity|].
    rewrite ticked_raw. apply TT_FF_app; [apply (name_TT My (ticked n)), H| |apply lead1_app, lead1_byte; reflexivity].
    apply (FF_FF_app My " " []); [apply blank_FF|]. apply m_cols_FF. assumption.
  - destruct S as [-> ->]. pose proof (item_TT My _ H) as T. cbn [item_string constraint_string name_prefix] in T. rewrite <- !m_names_string in T.
    match type of T with TT _ ?a _ => match goal with |- TT _ ?b _ => replace b with a; [exact T|] end end.
    cbn [m_key_text]. unfold ident_string. rewrite !ticked_raw. rewrite ?app_s_assoc. cbn [String.append]. rewrite ?app_s_assoc. reflexivity.
  - destruct S as (v & -> & A). pose proof (item_TT My _ H) as T. cbn [item_ok constraint_ok] in H. cbn [item_toks constraint_toks] in *.
    apply andb_true_iff in H. destruct H as [H1 H2]. cbn [m_key_text].
    pose proof (alike_TT My _ _ _ A (TT_lex _ _ _ (group_TT My v H2))) as TA.
    pose proof (named_FF My _ H1) as TN. cbn [name_prefix] in TN. unfold ident_string in TN. rewrite ticked_raw in TN.
    replace ("CONSTRAINT " ++ tick n ++ " CHECK " ++ x)%string with (("CONSTRAINT " ++ tick n ++ " ") ++ "CHECK " ++ x)%string by (rewrite !app_s_assoc; reflexivity).
    apply FF_TT_app; [exact TN|]. apply FF_TT_app; [eapply lit_FF; reflexivity|exact TA].
Qed.
Lemma line_FF : FF My line_sep [tComma].
Proof. eapply lit_FF; reflexivity. Qed.
Lemma m_table_FF : forall t w, m_table_says t w -> written_ok My w = true -> FF My (m_table_text t ++ ";" ++ nl) (written_toks My w).
Proof.
  intros t w (cols & cons & opts & -> & NC & C & K & NO & O) H. cbn [written_ok] in H. destruct (wtable_parts My _ H) as (H1 & _ & H3 & _ & H5 & H6). cbn [wt_items wt_name wt_options wt_rowdel] in *.
  rewrite forallb_app in H3. apply andb_true_iff in H3. destruct H3 as [H3 H4].
  assert (TI : Forall2 (TT My) (map m_column_text (mt_columns t) ++ map m_key_text (mt_keys t)) (map (item_toks My) (map ICol cols ++ cons))).
  { rewrite map_app. apply Forall2_app.
    - rewrite map_map. apply (Forall2_pieces _ _ _ _ My m_column_says (wcolumn_ok My)); [apply m_column_TT|exact C|]. clear - H3. induction cols; [reflexivity|]. cbn in *. apply andb_true_iff in H3. destruct H3 as [A B]. rewrite A. apply IHcols, B.
    - apply (Forall2_pieces _ _ _ _ My m_key_says (item_ok My)); [apply m_key_TT|exact K|exact H4]. }
  pose proof (head_TT My (mkWT false (mkON None (ticked (mt_name t))) [] [] None) H1) as T. unfold head_string in T. cbn [wt_ifnotexists wt_name] in T.
  cbn [written_toks]. unfold wtable_toks. cbn [wt_ifnotexists wt_name wt_items wt_options wt_rowdel rowdel_toks ine_toks].
  change (objname_string (mkON None (ticked (mt_name t)))) with (tick (mt_name t)) in *. cbn [List.app] in T |- *.
  unfold m_table_text.
  match goal with |- FF _ ?s _ => replace s with ("CREATE TABLE " ++ tick (mt_name t) ++ " (" ++ (nl ++ "  ")
     ++ join line_sep (map m_column_text (mt_columns t) ++ map m_key_text (mt_keys t)) ++ ((nl ++ ") ") ++ mt_options t ++ ";" ++ nl))%string by (rewrite !app_s_assoc; reflexivity) end.
  apply items_FF; [apply line_FF|apply lead1_byte; reflexivity|eapply lit_FF; reflexivity|exact T|exact TI| |apply lead1_byte; reflexivity].
  apply FF_FF_app; [eapply lit_FF; reflexivity|]. apply TT_FF_app; [|eapply lit_FF; reflexivity|apply lead1_byte; reflexivity].
  apply (alike_TT My _ _ _ O). apply options_lex, H5.
Qed.
Lemma shown_my : forall answers, show_mysql (map Some answers) = Some (concat_str (map (fun s => s ++ ";" ++ nl)%string answers)).
Proof. induction answers as [|a r IH]; [reflexivity|]. cbn [map show_mysql]. rewrite IH. reflexivity. Qed.
Lemma shown_my_text : forall db ws, Forall2 m_table_says db ws -> forallb (written_ok My) ws = true ->
  FF My (concat_str (map (fun s => s ++ ";" ++ nl)%string (map m_table_text db))) (flat_map (written_toks My) ws).
Proof.
  intros db ws F. induction F as [|t w db ws S F IH]; intro H; [apply FF_nil|]. cbn [forallb] in H. apply andb_true_iff in H. destruct H as [H1 H2].
  cbn [map concat_str flat_map]. apply FF_FF_app; [apply m_table_FF; assumption|apply IH, H2].
Qed.

(** * CockroachDB *)

Lemma computed_SEG : forall x ks, c_computed_says x ks -> (forall k, In k ks -> clause_ok Crdb k = true) -> SEG Crdb (told_opt " AS " x) (flat_map (clause_toks Crdb) ks).
Proof.
  intros [x|] ks D H; [|cbn in D; subst ks; apply SEG_nil]. destruct D as (a & -> & A). specialize (H (KAs a) (or_introl eq_refl)).
  cbn [told_opt flat_map]. rewrite app_nil_r. apply (SEG_blank Crdb ("AS " ++ x)). apply (alike_TT Crdb _ _ _ A), TT_lex, (clause_TT Crdb (KAs a)), H.
Qed.
Lemma c_column_TT : forall c w, c_column_says c w -> wcolumn_ok Crdb w = true -> TT Crdb (c_column_text c) (item_toks Crdb (ICol w)).
Proof.
  intros c w (N & A & (ks & ka & D & G & K) & Ki & L) H. unfold wcolumn_ok in H.
  apply andb_true_iff in H. destruct H as [H HL]. apply andb_true_iff in H. destruct H as [H _]. apply andb_true_iff in H. destruct H as [H HC].
  apply andb_true_iff in H. destruct H as [HN HT].
  assert (HK : forall k, In k (wc_clauses w) -> clause_ok Crdb k = true) by (intros k I; apply (clauses_all Crdb _ _ _ HC), I).
  cbn [item_toks]. unfold wcolumn_toks, type_toks. rewrite Ki, L, K in *. cbn [flat_map wlate_toks]. rewrite !app_nil_r, !flat_map_app.
  pose proof (name_TT Crdb _ HN) as TN. unfold named in N. rewrite N in TN |- *.
  unfold c_column_text. change (tI (cc_name c) :: ?x) with ([tI (cc_name c)] ++ x).
  apply TT_blank; [exact TN|]. apply TT_SEG; [apply (alike_TT Crdb _ _ _ A), TT_lex, datatype_TT, HT|].
  apply SEG_app.
  { destruct (cc_visible c); [apply SEG_nil|]. apply SEG_stop; [|reflexivity]. cbn. eapply lit_TT; reflexivity. }
  apply SEG_app.
  { destruct (cc_nullable c); (apply SEG_stop; [|reflexivity]); cbn; eapply lit_TT; reflexivity. }
  apply SEG_app; [apply default_SEG; [exact D|]|apply computed_SEG; [exact G|]]; intros k I; apply HK; rewrite !in_app_iff; auto.
Qed.
Lemma c_cols_string : forall l cs, c_cols_say l cs -> c_cols_text l = cols_string Crdb cs.
Proof.
  intros l cs H. unfold c_cols_text, cols_string. do 3 f_equal. induction H as [|[n o] x l cs [N O] H IH]; [reflexivity|]. cbn [map fst snd] in *. f_equal; [|exact IH].
  unfold colident_string, ident_string. rewrite N, O. destruct o; reflexivity.
Qed.
Lemma c_key_TT : forall k i, c_key_says k i -> item_ok Crdb i = true -> TT Crdb (c_key_text k) (item_toks Crdb i).
Proof.
  intros k i S H. destruct k as [n l|u n l s|n x]; cbn [c_key_says] in S; [| |contradiction].
  - destruct S as (a & cs & N & C & ->). pose proof (item_TT Crdb _ H) as T. cbn [item_string constraint_string name_prefix] in T. unfold ident_string in T. unfold named in N. rewrite N in T.
    cbn [c_key_text]. rewrite (c_cols_string l cs C).
    match type of T with TT _ ?a _ => match goal with |- TT _ ?b _ => replace b with a; [exact T|] end end. rewrite ?app_s_assoc. reflexivity.
  - destruct S as (-> & a & cs & N & C & ->). pose proof (item_TT Crdb _ H) as T. cbn [item_string constraint_string name_prefix] in T. unfold ident_string in T. unfold named in N. rewrite N in T.
    cbn [c_key_text]. rewrite (c_cols_string l cs C).
    match type of T with TT _ ?a _ => match goal with |- TT _ ?b _ => replace b with a; [exact T|] end end. rewrite ?app_s_assoc. reflexivity.
Qed.
Lemma c_table_FF : forall t w, c_table_says t w -> written_ok Crdb w = true -> FF Crdb (c_table_text t ++ nl) (written_toks Crdb w).
Proof.
  intros t w (a & b & cols & cons & -> & NA & NC & C & K) H. cbn [written_ok] in H. destruct (wtable_parts Crdb _ H) as (H1 & _ & H3 & _ & H5 & H6). cbn [wt_items wt_name wt_options wt_rowdel] in *.
  rewrite forallb_app in H3. apply andb_true_iff in H3. destruct H3 as [H3 H4].
  assert (TI : Forall2 (TT Crdb) (map c_column_text (cb_columns t) ++ map c_key_text (cb_keys t)) (map (item_toks Crdb) (map ICol cols ++ cons))).
  { rewrite map_app. apply Forall2_app.
    - rewrite map_map. apply (Forall2_pieces _ _ _ _ Crdb c_column_says (wcolumn_ok Crdb)); [apply c_column_TT|exact C|]. clear - H3. induction cols; [reflexivity|]. cbn in *. apply andb_true_iff in H3. destruct H3 as [A B]. rewrite A. apply IHcols, B.
    - apply (Forall2_pieces _ _ _ _ Crdb c_key_says (item_ok Crdb)); [apply c_key_TT|exact K|exact H4]. }
  pose proof (head_TT Crdb (mkWT false (mkON (Some a) b) [] [] None) H1) as T. unfold head_string in T. cbn [wt_ifnotexists wt_name] in T.
  cbn [written_toks]. unfold wtable_toks. cbn [wt_ifnotexists wt_name wt_items wt_options wt_rowdel rowdel_toks ine_toks options_toks].
  rewrite NA in *. cbn [List.app] in T |- *. unfold c_table_text.
  match goal with |- FF _ ?s _ => replace s with ("CREATE TABLE " ++ (cb_schema t ++ "." ++ cb_name t) ++ " (" ++ (nl ++ tab)
     ++ join tab_sep (map c_column_text (cb_columns t) ++ map c_key_text (cb_keys t)) ++ (nl ++ ");" ++ nl))%string by (rewrite !app_s_assoc; reflexivity) end.
  change (tClose :: [tSemi]) with ([tClose] ++ [tSemi]).
  apply (items_FF Crdb tab_sep); [eapply lit_FF; reflexivity|apply lead1_byte; reflexivity|eapply lit_FF; reflexivity|exact T|exact TI|eapply lit_FF; reflexivity|apply lead1_byte; reflexivity].
Qed.
Lemma shown_c_text : forall db ws, Forall2 c_table_says db ws -> forallb (written_ok Crdb) ws = true ->
  FF Crdb (concat_str (map (fun s => s ++ nl)%string (map c_table_text db))) (flat_map (written_toks Crdb) ws).
Proof.
  intros db ws F. induction F as [|t w db ws S F IH]; intro H; [apply FF_nil|]. cbn [forallb] in H. apply andb_true_iff in H. destruct H as [H1 H2].
  cbn [map concat_str flat_map]. apply FF_FF_app; [apply c_table_FF; assumption|apply IH, H2].
Qed.

(** A statement that is not a CREATE behind others. *)
Lemma written_loop_rest : forall d srt l rest acc fuel, (forall w, In w l -> wkept d srt w) -> forallb (written_ok d) l = true -> nb (flat_map (written_toks d) l ++ rest) ->
  (forall acc fuel, parse_loop d srt (S fuel) acc rest = Err) -> 2 * List.length l < fuel -> parse_loop d srt fuel acc (flat_map (written_toks d) l ++ rest) = Err.
Proof.
  intros d srt l rest. induction l as [|s l IH]; intros acc fuel Hs H Hnb HE Hf; (destruct fuel as [|fuel]; [lia|]).
  - apply HE.
  - cbn [flat_map forallb map List.length] in *. apply andb_true_iff in H. destruct H as [H1 H2]. rewrite <- app_assoc in *.
    set (more := flat_map (written_toks d) l ++ rest) in *.
    assert (R : exists r, written_toks d s ++ more = W d "CREATE" :: r /\
              parseCreate d srt (W d "CREATE" :: r) = Ok (meant d s, match s with WTable _ => table_behind d more | _ => tSemi :: more end)).
    { destruct s; [apply wtable_run; [apply Hs; left; reflexivity|..]|apply create_index_run]; assumption. }
    assert (Hs' : forall s, In s l -> wkept d srt s) by (intros y Hy; apply Hs; right; exact Hy).
    destruct R as [r [E R]]. rewrite E in *. cbn [parse_loop].
    assert (C : eqs (curT (W d "CREATE" :: r)) TOKEN_CREATE = true) by (destruct d; reflexivity). rewrite C, R. cbn [bind].
    assert (NL : nb more) by (rewrite <- E in Hnb; apply nb_app_r in Hnb; exact Hnb).
    assert (D : (exists t, s = WTable t /\ (d = Pg \/ d = Crdb)) \/
                match s with WTable _ => table_behind d more | _ => tSemi :: more end = tSemi :: more).
    { destruct s; [|right; reflexivity]. destruct d; try (right; reflexivity); left; eexists; (split; [reflexivity|auto]). }
    destruct D as [[t [Es D]]|D].
    + subst s. assert (B : table_behind d more = tClose :: tSemi :: more) by (destruct D; subst d; reflexivity).
      rewrite B. destruct fuel as [|fuel]; [lia|].
      assert (NS : nb (tSemi :: more)) by (apply nb_cons; [discriminate|exact NL]). rewrite next_ok by exact NS. cbn [bind].
      cbn [parse_loop]. unfold curT. cbn [cur tSemi tk_type]. repeat test1. rewrite next_ok by exact NL. cbn [bind]. apply IH; auto. lia.
    + rewrite D. rewrite next_ok by exact NL. cbn [bind]. apply IH; auto. lia.
Qed.
Lemma written_parse_rest : forall d srt l rest text, (forall w, In w l -> wkept d srt w) -> forallb (written_ok d) l = true -> lex d text = flat_map (written_toks d) l ++ rest -> nb rest ->
  (forall acc fuel, parse_loop d srt (S fuel) acc rest = Err) -> parse d srt text = Err.
Proof.
  intros d srt l rest text Hs H E Hr HE. destruct (written_FF d l H) as [Hl _]. unfold parse. rewrite E. unfold parse_tokens.
  assert (Hnb : nb (flat_map (written_toks d) l ++ rest)) by (apply nb_app; assumption).
  assert (B : eqs (curT (flat_map (written_toks d) l ++ rest)) TOKEN_BOOM || eqs (peekT (flat_map (written_toks d) l ++ rest)) TOKEN_BOOM = false).
  { destruct (flat_map (written_toks d) l ++ rest) as [|x [|y r]]; [reflexivity| |]; inversion Hnb; subst; [|inversion H3; subst]; unfold curT, peekT; cbn [cur peek];
    unfold eqs; repeat match goal with K : tk_type ?t <> TOKEN_BOOM |- context [String.eqb (tk_type ?t) TOKEN_BOOM] => rewrite (proj2 (String.eqb_neq _ _) K) end; reflexivity. }
  rewrite B. apply (written_loop_rest d srt l rest []); auto.
  clear - HE. rewrite app_length. assert (1 <= List.length rest \/ rest = []) as [R| ->] by (destruct rest; [right; reflexivity|left; cbn; lia]).
  - induction l as [|s l IH]; [cbn; lia|]. cbn [flat_map List.length] in *. rewrite app_length. pose proof (written_pos d s). lia.
  - specialize (HE [] 0). discriminate HE.
Qed.
Lemma closed_rows_FF : forall d l, (forall s, In s l -> no_nul s = true /\ outside d s) -> FF d (concat_str (map (fun s => s ++ nl)%string l)) (flat_map (lex d) l).
Proof.
  intros d l H. induction l as [|s l IH]; [apply FF_nil|]. cbn [map concat_str flat_map]. apply FF_FF_app; [|apply IH; intros x Hx; apply H; right; exact Hx].
  rewrite <- (app_nil_r (lex d s)). destruct (H s (or_introl eq_refl)) as [Z O]. apply TT_FF_app; [apply closed_TT; assumption|apply nl_FF|apply lead1_byte; reflexivity].
Qed.
Lemma foreign_lex : forall f, exists r, lex Crdb (c_foreign_text f) = W Crdb "ALTER" :: r.
Proof.
  intro f. unfold c_foreign_text. assert (F : FF Crdb "ALTER TABLE " (lex Crdb "ALTER TABLE ")) by (eapply lit_FF; reflexivity). destruct F as [_ F]. rewrite F. eexists. reflexivity.
Qed.
Lemma concat_str_app : forall a b, concat_str (a ++ b) = (concat_str a ++ concat_str b)%string.
Proof. intros a b. induction a as [|x a IH]; [reflexivity|]. cbn. rewrite IH, app_s_assoc. reflexivity. Qed.
Lemma foreign_rows : forall srt ts ws fs, Forall2 c_table_says ts ws -> forallb (written_ok Crdb) ws = true -> (forall w, In w ws -> wkept Crdb srt w) ->
  fs <> [] -> (forall f, In f fs -> no_nul (c_foreign_text f) = true /\ outside Crdb (c_foreign_text f)) ->
  parse Crdb srt (concat_str (map (fun s => s ++ nl)%string (c_rows ts fs))) = Err.
Proof.
  intros srt ts ws fs F H Hs N C. unfold c_rows. rewrite map_app, concat_str_app.
  assert (G : FF Crdb (concat_str (map (fun s => s ++ nl)%string (map c_foreign_text fs))) (flat_map (lex Crdb) (map c_foreign_text fs))).
  { apply closed_rows_FF. intros s Is. apply in_map_iff in Is. destruct Is as (f & <- & If). apply C, If. }
  apply (written_parse_rest Crdb srt ws (flat_map (lex Crdb) (map c_foreign_text fs))); [exact Hs|exact H| |apply G|].
  - apply TT_lex, FF_TT, FF_FF_app; [apply shown_c_text; assumption|exact G].
  - destruct fs as [|f fs]; [congruence|]. cbn [map flat_map]. destruct (foreign_lex f) as [r ->]. intros acc fuel. reflexivity.
Qed.
