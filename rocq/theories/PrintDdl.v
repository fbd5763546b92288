(** Reading printed statements and whole texts (for C08). *)
From Coq Require Import Lia.
From Verif Require Import GoStr Token Lexer LexerFacts LexSpec LexLayout LexKeyword LexPanic Ast Parser Printable PrintLex PrintToks PrintParse PrintColumn PrintStmt.
Local Open Scope list_scope.

(** * Table options *)

(** The tokens of a fixed text. *)
Ltac fixed :=
  repeat match goal with
         | |- context [lex ?d (String ?a ?b)] => let v := eval vm_compute in (lex d (String a b)) in change (lex d (String a b)) with v
         end.

Lemma option_My_step : forall o opts fuel r, option_ok My o = true -> nb (option_toks My o ++ r) ->
  parseOptionsMy_loop My (S fuel) opts (option_toks My o ++ r) = parseOptionsMy_loop My fuel (opts ++ [o]) r.
Proof.
  intros [n v] opts fuel r H Hnb. unfold option_ok, option_toks in *. cbn [o_name o_value] in *.
  destruct v as [[|v [|]]|]; try discriminate H. apply andb_true_iff in H. destruct H as [H1 H2]. pose proof (name_new My v H2) as N.
  apply existsb_exists in H1. destruct H1 as [x [Hx E]]. apply String.eqb_eq in E. subst x. cbn [map In] in *.
  repeat (destruct Hx as [Hx|Hx]; [subst n; revert Hnb; fixed; intro Hnb; cbn [List.app] in *; cbn [parseOptionsMy_loop]; unfold parseOptionValue; run; rewrite N; reflexivity|]).
  destruct Hx.
Qed.
Lemma options_My : forall l opts fuel rest, forallb (option_ok My) l = true -> nb (flat_map (option_toks My) l ++ tSemi :: rest) -> List.length l < fuel ->
  parseOptionsMy_loop My fuel opts (flat_map (option_toks My) l ++ tSemi :: rest) = Ok (opts ++ l, tSemi :: rest).
Proof.
  intro l. induction l as [|o l IH]; intros opts fuel rest H Hnb Hf; (destruct fuel as [|fuel]; [lia|]).
  - cbn [flat_map List.app] in *. cbn [parseOptionsMy_loop]. run. rewrite app_nil_r. reflexivity.
  - cbn [flat_map forallb List.length] in *. rewrite <- app_assoc in *. apply andb_true_iff in H. destruct H as [H1 H2]. rewrite option_My_step by assumption.
    rewrite IH; [rewrite <- app_assoc; reflexivity|exact H2|nbs|lia].
Qed.

Definition opt_stop (t : tokentype) : bool := isin t [TOKEN_COMMA; TOKEN_SEMICOLON].
Lemma option_Sp_step : forall o opts rdp fuel r, option_ok Sp o = true -> nb (option_toks Sp o ++ r) -> opt_stop (curT r) = true ->
  parseOptionsSp_loop Sp (S fuel) opts rdp (option_toks Sp o ++ r) = parseOptionsSp_loop Sp fuel (opts ++ [o]) rdp r.
Proof.
  intros [n v] opts rdp fuel r H Hnb Hs. unfold option_ok, option_toks in *. cbn [o_name o_value] in *. destruct v as [l|]; [|discriminate H].
  destruct r as [|st sr]; [discriminate Hs|].
  assert (O : eqs (tk_type st) TOKEN_ON = false).
  { unfold opt_stop, isin, curT in Hs. cbn [cur existsb] in Hs. apply orb_true_iff in Hs. destruct Hs as [Hs|Hs]; [|apply orb_true_iff in Hs; destruct Hs as [Hs|Hs]; [|discriminate Hs]];
    apply String.eqb_eq in Hs; rewrite Hs; reflexivity. }
  apply orb_true_iff in H. destruct H as [H|H]; apply andb_true_iff in H; destruct H as [H1 H2]; apply String.eqb_eq in H1; subst n.
  - cbn [String.eqb Ascii.eqb Bool.eqb] in *. revert Hnb. fixed. intro Hnb. rewrite <- app_assoc in *. cbn [List.app] in *.
    destruct (group_part Sp l (st :: sr) H2) as [t [q [E [T [R _]]]]]; [nbs|rewrite E in *].
    cbn [parseOptionsSp_loop]. unfold step. go. reflexivity.
  - rewrite String.eqb_refl in *. revert Hnb. fixed. intro Hnb. rewrite <- app_assoc in *. cbn [List.app] in *.
    destruct l as [|t [|on [|]]]; try discriminate H2.
    + pose proof (name_new Sp t H2) as N. cbn [flat_map List.app] in *. cbn [parseOptionsSp_loop]. unfold step. run. rewrite O. run. rewrite N. reflexivity.
    + apply andb_true_iff in H2. destruct H2 as [H2 H3]. pose proof (name_new Sp t H2) as N. cbn [flat_map] in *. rewrite app_nil_r in *.
      apply orb_true_iff in H3. destruct H3 as [H3|H3]; apply same_text_eq in H3; subst on; cbn [id_raw] in *; revert Hnb; fixed; intro Hnb; cbn [List.app] in *;
      cbn [parseOptionsSp_loop]; unfold step; run; rewrite N; reflexivity.
Qed.
Lemma comma_Sp : forall opts rdp fuel r, nb (tComma :: r) -> parseOptionsSp_loop Sp (S fuel) opts rdp (tComma :: r) = parseOptionsSp_loop Sp fuel opts rdp r.
Proof. intros. cbn [parseOptionsSp_loop]. run. reflexivity. Qed.
Lemma behind_opt : forall l s, opt_stop (curT s) = true -> opt_stop (curT (behind l s)) = true.
Proof. intros l s H. destruct l; [exact H|reflexivity]. Qed.
Lemma options_Sp : forall l opts rdp fuel s, forallb (option_ok Sp) l = true -> nb (commas (map (option_toks Sp) l) ++ s) -> opt_stop (curT s) = true -> 2 * List.length l <= fuel ->
  exists f, fuel <= 2 * List.length l + f /\ parseOptionsSp_loop Sp fuel opts rdp (commas (map (option_toks Sp) l) ++ s) = parseOptionsSp_loop Sp f (opts ++ l) rdp s.
Proof.
  intro l. induction l as [|o l IH]; intros opts rdp fuel s H Hnb Hs Hf.
  - exists fuel. rewrite app_nil_r. split; [lia|reflexivity].
  - cbn [map forallb List.length] in *. destruct fuel as [|fuel]; [lia|]. rewrite commas_cons in *. apply andb_true_iff in H. destruct H as [H1 H2].
    rewrite option_Sp_step; [|exact H1|exact Hnb|apply behind_opt, Hs]. unfold behind in *. destruct l as [|o' l].
    + cbn [map] in *. exists fuel. split; [lia|reflexivity].
    + cbn [map] in Hnb. apply nb_app_r in Hnb. destruct fuel as [|fuel]; [lia|]. cbn [map]. rewrite comma_Sp by exact Hnb.
      destruct (IH (opts ++ [o]) rdp fuel s H2) as [f [F1 F2]]; [nbs|exact Hs|lia|]. exists f. split; [lia|].
      cbn [map] in F2. rewrite F2. rewrite <- app_assoc. reflexivity.
Qed.

Lemma step_run : forall t x y r, nb (y :: r) -> eqs (tk_type y) t = true -> step Sp t (x :: y :: r) = Ok (NewRawIdent Sp (tk_lit y), y :: r).
Proof. intros t x y r H T. unfold step. rewrite next_ok by exact H. cbn [bind]. unfold curT, curL. cbn [cur]. rewrite T. reflexivity. Qed.
Definition word_tok (t : tokentype) (i : ident) : Prop := exists y, lex Sp (id_raw i) = [y] /\ eqs (tk_type y) t = true /\ NewRawIdent Sp (tk_lit y) = i.
Lemma word_for_tok : forall t i, word_for Sp t i = true -> word_tok t i.
Proof.
  intros t i H. apply word_for_parts in H. destruct H as [H1 [H2 H3]]. exists (W Sp (id_raw i)). split; [apply TT_lex, word_TT, H2|]. split; [cbn; rewrite H3; apply String.eqb_refl|].
  cbn [W tk_lit]. apply wellformed_new. unfold wellformed_ident. rewrite H1. apply orb_true_r.
Qed.
Lemma name_tok : forall i, name_ok Sp i = true -> word_tok TOKEN_IDENT i.
Proof. intros i H. exists (tI (id_raw i)). split; [apply TT_lex, name_TT, H|]. split; [reflexivity|apply name_new, H]. Qed.
Lemma open_tok : forall i, open_paren i = true -> word_tok TOKEN_OPEN_PAREN i.
Proof. intros i H. exists tOpen. destruct (open_toks Sp i H) as [E N]. split; [exact E|]. split; [reflexivity|exact N]. Qed.
Lemma close_tok : forall i, close_paren i = true -> word_tok TOKEN_CLOSE_PAREN i.
Proof. intros i H. exists tClose. destruct (close_toks Sp i H) as [E N]. split; [exact E|]. split; [reflexivity|exact N]. Qed.
Lemma comma_tok : forall i, same_text i "," = true -> word_tok TOKEN_COMMA i.
Proof. intros i H. apply same_text_eq in H. subst i. exists tComma. split; [reflexivity|]. split; reflexivity. Qed.
Lemma steps_run : forall ts is, Forall2 word_tok ts is -> forall x r, nb (x :: piece_toks Sp is ++ r) ->
  exists y, steps Sp ts (x :: piece_toks Sp is ++ r) = Ok (is, y :: r).
Proof.
  intros ts is H. induction H as [|t i ts is [y [E [T N]]] _ IH]; intros x r Hnb; [exists x; reflexivity|].
  rewrite piece_toks_cons, E in *. cbn [List.app] in *. cbn [steps]. rewrite step_run; [|nbs|exact T]. cbn [bind].
  destruct (IH y r) as [z Z]; [nbs|]. rewrite Z. cbn [bind]. exists z. rewrite N. reflexivity.
Qed.
Lemma rowdel_Sp : forall o opts fuel rest, rowdel_ok Sp o = true -> nb (rowdel_toks Sp o ++ tSemi :: rest) -> List.length (rowdel_toks Sp o) + 1 <= fuel ->
  parseOptionsSp_loop Sp fuel opts None (rowdel_toks Sp o ++ tSemi :: rest) = Ok (opts, o, tSemi :: rest).
Proof.
  intros o opts fuel rest H Hnb Hf. destruct fuel as [|fuel]; [lia|]. destruct o as [[n v]|].
  - unfold rowdel_ok, rowdel_toks in *. cbn [o_name o_value] in *. apply andb_true_iff in H. destruct H as [H1 H2]. apply String.eqb_eq in H1. subst n.
    destruct v as [l|]; [|discriminate H2]. cbn [List.app] in *. rewrite comma_Sp by exact Hnb.
    revert Hnb Hf. fixed. intros Hnb Hf. cbn [List.app List.length] in Hf. destruct fuel as [|[|fuel]]; [lia..|]. rewrite <- app_assoc in *. cbn [List.app] in *.
    assert (L : Forall2 word_tok [TOKEN_OPEN_PAREN; TOKEN_OLDER_THAN; TOKEN_OPEN_PAREN; TOKEN_IDENT; TOKEN_COMMA; TOKEN_INTERVAL; TOKEN_IDENT; TOKEN_DAY; TOKEN_CLOSE_PAREN; TOKEN_CLOSE_PAREN] l).
    { do 10 (destruct l as [|? l]; [discriminate H2|]). destruct l; [|discriminate H2].
      do 9 (apply andb_true_iff in H2; let K := fresh "K" in destruct H2 as [H2 K]).
      repeat (apply Forall2_cons || apply Forall2_nil); auto using word_for_tok, name_tok, open_tok, close_tok, comma_tok. }
    match goal with |- context [?x :: piece_toks Sp l ++ tSemi :: rest] => destruct (steps_run _ _ L x (tSemi :: rest)) as [y Y]; [nbs|] end.
    assert (Hrest : nb (tSemi :: rest)) by nbs.
    remember [TOKEN_OPEN_PAREN; TOKEN_OLDER_THAN; TOKEN_OPEN_PAREN; TOKEN_IDENT; TOKEN_COMMA; TOKEN_INTERVAL; TOKEN_IDENT; TOKEN_DAY; TOKEN_CLOSE_PAREN; TOKEN_CLOSE_PAREN] as ts eqn:Ets.
    cbn [parseOptionsSp_loop]. rewrite <- Ets. unfold step. run. unfold tSemi in Y, Hrest. rewrite Y. cbn [bind]. rewrite next_ok by exact Hrest. clear Hnb Y. run. reflexivity.
  - cbn [rowdel_toks List.app] in *. cbn [parseOptionsSp_loop]. run. reflexivity.
Qed.

(** * Statements *)

Definition first_kept (d : dialect) (srt : list constraint -> list constraint) (s : stmt) : Prop :=
  match d, s with
  | Crdb, CreateTable t | My, CreateTable t => keeps_primary_first (List.length (ct_constraints t)) srt
  | _, _ => True
  end.

Definition table_behind (d : dialect) (rest : list token) : list token :=
  match d with Pg | Crdb => tClose :: tSemi :: rest | _ => tSemi :: rest end.

Lemma commas_length : forall l, (forall x, In x l -> 1 <= List.length x) -> 2 * List.length l <= S (List.length (commas l)).
Proof.
  intro l. induction l as [|x l IH]; intro H; [cbn; lia|]. assert (Hx := H x (or_introl eq_refl)). destruct l as [|y l]; [cbn [commas List.length]; lia|].
  change (commas (x :: y :: l)) with (x ++ tComma :: commas (y :: l)). rewrite app_length. cbn [List.length] in *.
  assert (I : 2 * S (List.length l) <= S (List.length (commas (y :: l)))) by (apply IH; intros z Hz; apply H; right; exact Hz). lia.
Qed.
Lemma commas_length2 : forall l, (forall x, In x l -> 2 <= List.length x) -> 2 * List.length l <= List.length (commas l).
Proof.
  intro l. induction l as [|x l IH]; intro H; [cbn; lia|]. assert (Hx := H x (or_introl eq_refl)). destruct l as [|y l]; [cbn [commas List.length]; lia|].
  change (commas (x :: y :: l)) with (x ++ tComma :: commas (y :: l)). rewrite app_length. cbn [List.length] in *.
  assert (I : 2 * S (List.length l) <= List.length (commas (y :: l))) by (apply IH; intros z Hz; apply H; right; exact Hz). lia.
Qed.
Lemma option_pos : forall d o, option_ok d o = true -> 2 <= List.length (option_toks d o).
Proof.
  intros d [n v] H. unfold option_ok, option_toks in *. cbn [o_name o_value] in *. destruct d; try discriminate H.
  - destruct v as [[|v [|]]|]; try discriminate H. rewrite !app_length. cbn [map List.length]. lia.
  - destruct v as [l|]; [|discriminate H]. apply orb_true_iff in H. destruct H as [H|H]; apply andb_true_iff in H; destruct H as [H _]; apply String.eqb_eq in H; subst n;
    cbn [String.eqb Ascii.eqb Bool.eqb]; fixed; rewrite app_length; cbn [List.length]; lia.
Qed.
Lemma constraint_toks_pos : forall d c, 1 <= List.length (constraint_toks d c).
Proof. intros d c. destruct c; cbn [constraint_toks]; rewrite !app_length; cbn [List.length]; lia. Qed.
Lemma column_toks_pos : forall d c, 1 <= List.length (column_toks d c).
Proof. intros d c. unfold column_toks. cbn. lia. Qed.

Lemma ine_run : forall d b x y r, nb (x :: ine_toks d b ++ y :: r) -> eqs (tk_type y) TOKEN_IF = false ->
  exists z, parseIfNotExists (x :: ine_toks d b ++ y :: r) = Ok (b, z :: y :: r).
Proof.
  intros d b x y r Hnb Hy. unfold parseIfNotExists. destruct b; cbn [ine_toks List.app] in *.
  - revert Hnb. destruct d; fixed; intro Hnb; cbn [List.app] in *; run; eexists; reflexivity.
  - exists x. unfold peekT. cbn [peek]. rewrite Hy. reflexivity.
Qed.

Lemma create_table_run : forall d srt t rest, first_kept d srt (CreateTable t) -> create_table_ok d t = true -> nb (create_table_toks d t ++ rest) ->
  exists r, create_table_toks d t ++ rest = W d "CREATE" :: r /\ parseCreate d srt (W d "CREATE" :: r) = Ok (without_comment (CreateTable t), table_behind d rest).
Proof.
  intros d srt t rest Hs H Hnb. unfold create_table_ok in H.
  apply andb_true_iff in H. destruct H as [H H6]. apply andb_true_iff in H. destruct H as [H H5]. apply andb_true_iff in H. destruct H as [H H4].
  apply andb_true_iff in H. destruct H as [H H3]. apply andb_true_iff in H. destruct H as [H1 H2].
  unfold create_table_toks in *.
  assert (E : lex d "CREATE TABLE " = [W d "CREATE"; W d "TABLE"]) by (destruct d; reflexivity). rewrite E in *. rewrite <- !app_assoc in *. cbn [List.app] in *.
  eexists. split; [reflexivity|]. rewrite <- ?app_assoc in *. cbn [List.app] in *.
  unfold parseCreate. rewrite next_ok by nbs. cbn [bind].
  assert (T : eqs (curT (W d "TABLE" :: ine_toks d (ct_ifnotexists t) ++ tI (objname_string (ct_name t)) :: tOpen ::
       commas (map (column_toks d) (ct_columns t) ++ map (constraint_toks d) (ct_constraints t)) ++ tClose :: options_toks d (ct_options t) ++ rowdel_toks d (ct_rowdel t) ++ tSemi :: rest)) TOKEN_TABLE = true)
    by (destruct d; reflexivity). rewrite T. unfold parseCreateTable.
  destruct (ine_run d (ct_ifnotexists t) (W d "TABLE") (tI (objname_string (ct_name t))) (tOpen ::
       commas (map (column_toks d) (ct_columns t) ++ map (constraint_toks d) (ct_constraints t)) ++ tClose :: options_toks d (ct_options t) ++ rowdel_toks d (ct_rowdel t) ++ tSemi :: rest)) as [z Z]; [nbs|reflexivity|].
  rewrite Z. cbn [bind]. clear Z T.
  assert (N0 : nb (tI (objname_string (ct_name t)) :: tOpen ::
       commas (map (column_toks d) (ct_columns t) ++ map (constraint_toks d) (ct_constraints t)) ++ tClose :: options_toks d (ct_options t) ++ rowdel_toks d (ct_rowdel t) ++ tSemi :: rest)) by nbs.
  clear Hnb. set (B := commas _ ++ tClose :: _) in *.
  rewrite next_ok by exact N0. cbn [bind]. unfold curT at 1. cbn [cur tI tk_type]. test1. cbn [guard bind].
  rewrite next_ok by nbs. cbn [bind]. unfold curT at 1. cbn [cur tOpen tk_type]. test1. cbn [guard bind]. rewrite next_ok by nbs. cbn [bind].
  unfold curL. cbn [cur tI tk_lit]. destruct (objname_facts d (ct_name t) H2) as [_ N]. rewrite N.
  assert (NB : nb B) by nbs. unfold B in NB |- *. rewrite (columns_loop d (List.length (ct_constraints t))).
  - cbn [bind]. apply nb_app_r in NB. destruct d; cbn [table_end table_behind without_comment bind options_toks] in *.
    + destruct (ct_options t) as [|o l]; [|discriminate H5]. destruct (ct_rowdel t); [discriminate H6|]. reflexivity.
    + destruct (ct_options t) as [|o l]; [|discriminate H5]. destruct (ct_rowdel t); [discriminate H6|]. reflexivity.
    + destruct (ct_rowdel t); [discriminate H6|]. cbn [rowdel_toks List.app] in *. rewrite options_My; [reflexivity|exact H5|nbs|].
      rewrite app_length. assert (L : List.length (ct_options t) <= List.length (flat_map (option_toks My) (ct_options t))).
      { clear - H5. induction (ct_options t) as [|o l IH]; [cbn; lia|]. cbn [forallb] in H5. apply andb_true_iff in H5. destruct H5 as [O H5].
        cbn [flat_map List.length]. rewrite app_length. specialize (IH H5). pose proof (option_pos My o O). lia. }
      lens.
    + destruct (options_Sp (ct_options t) [] None (S (List.length (commas (map (option_toks Sp) (ct_options t)) ++ rowdel_toks Sp (ct_rowdel t) ++ tSemi :: rest)))
                (rowdel_toks Sp (ct_rowdel t) ++ tSemi :: rest) H5) as [f [F1 F2]]; [nbs|destruct (ct_rowdel t); reflexivity| |].
      * assert (L : 2 * List.length (map (option_toks Sp) (ct_options t)) <= S (List.length (commas (map (option_toks Sp) (ct_options t))))).
        { apply commas_length. intros x Hx. apply in_map_iff in Hx. destruct Hx as [o [E' Ho]]. subst x. rewrite forallb_forall in H5. pose proof (option_pos Sp o (H5 o Ho)). lia. }
        rewrite map_length in L. rewrite !app_length. lia.
      * rewrite F2. rewrite rowdel_Sp; [reflexivity|exact H6|nbs|].
        assert (L : 2 * List.length (map (option_toks Sp) (ct_options t)) <= List.length (commas (map (option_toks Sp) (ct_options t)))).
        { apply commas_length2. intros x Hx. apply in_map_iff in Hx. destruct Hx as [o [E' Ho]]. subst x. rewrite forallb_forall in H5. exact (option_pos Sp o (H5 o Ho)). }
        rewrite map_length in L. rewrite !app_length in F1. cbn [List.length] in F1.
        lia.
  - destruct d; exact Hs.
  - apply le_n.
  - exact H3.
  - exact H4.
  - exact NB.
  - unfold end_ok. destruct d; try exact I; (destruct (ct_options t) as [|o l]; [|discriminate H5]); (destruct (ct_rowdel t); [discriminate H6|]); reflexivity.
  - assert (L : 2 * List.length (map (column_toks d) (ct_columns t) ++ map (constraint_toks d) (ct_constraints t)) <= S (List.length (commas (map (column_toks d) (ct_columns t) ++ map (constraint_toks d) (ct_constraints t))))).
    { apply commas_length. intros x Hx. apply in_app_or in Hx. destruct Hx as [Hx|Hx]; apply in_map_iff in Hx; destruct Hx as [c [E' _]]; subst x; [apply column_toks_pos|apply constraint_toks_pos]. }
    rewrite app_length, !map_length in L. rewrite app_length. cbn [List.length]. lia.
Qed.

Lemma create_index_run : forall d srt x rest, create_index_ok d x = true -> nb (create_index_toks d x ++ rest) ->
  exists r, create_index_toks d x ++ rest = W d "CREATE" :: r /\ parseCreate d srt (W d "CREATE" :: r) = Ok (without_comment (CreateIndex x), tSemi :: rest).
Proof.
  intros d srt x rest H Hnb. unfold create_index_ok in H.
  apply andb_true_iff in H. destruct H as [H H7]. apply andb_true_iff in H. destruct H as [H H6]. apply andb_true_iff in H. destruct H as [H H5].
  apply andb_true_iff in H. destruct H as [H H4]. apply andb_true_iff in H. destruct H as [H H3]. apply andb_true_iff in H. destruct H as [H1 H2].
  unfold create_index_toks in *.
  assert (E : lex d "CREATE " = [W d "CREATE"]) by (destruct d; reflexivity). rewrite E in *. rewrite <- !app_assoc in *. cbn [List.app] in *.
  assert (EI : lex d "INDEX " = [W d "INDEX"]) by (destruct d; reflexivity). rewrite EI in *.
  assert (EO : lex d " ON " = [W d "ON"]) by (destruct d; reflexivity). rewrite EO in *.
  eexists. split; [reflexivity|]. rewrite <- ?app_assoc in *. cbn [List.app] in *.
  set (B := using_toks d (cx_using x) ++ cols_toks d (cx_columns x) ++ tSemi :: rest) in *.
  set (A := tI (objname_string (cx_name x)) :: W d "ON" :: tI (objname_string (cx_table x)) :: B) in *.
  assert (NA : nb A) by nbs. assert (NI : nb (W d "INDEX" :: ine_toks d (cx_ifnotexists x) ++ A)) by nbs.
  assert (P0 : parseCreate d srt (W d "CREATE" :: (if cx_unique x then lex d "UNIQUE " else []) ++ W d "INDEX" :: ine_toks d (cx_ifnotexists x) ++ A) =
               parseCreateIndex d ((if cx_unique x then [W d "UNIQUE"] else []) ++ W d "INDEX" :: ine_toks d (cx_ifnotexists x) ++ A)).
  { unfold parseCreate. rewrite next_ok by nbs. cbn [bind]. destruct (cx_unique x); destruct d; reflexivity. }
  rewrite P0. clear P0. unfold parseCreateIndex.
  assert (U : eqs (curT ((if cx_unique x then [W d "UNIQUE"] else []) ++ W d "INDEX" :: ine_toks d (cx_ifnotexists x) ++ A)) TOKEN_UNIQUE = cx_unique x)
    by (destruct (cx_unique x); destruct d; reflexivity). rewrite U. clear U.
  match goal with |- context [if cx_unique x then next ?p else ?q] =>
    assert (U : (if cx_unique x then next p else q) = Ok (W d "INDEX" :: ine_toks d (cx_ifnotexists x) ++ A))
      by (destruct (cx_unique x); [apply next_ok; exact NI|reflexivity]); rewrite U; clear U
  end.
  cbn [bind]. destruct (ine_run d (cx_ifnotexists x) (W d "INDEX") (tI (objname_string (cx_name x))) (W d "ON" :: tI (objname_string (cx_table x)) :: B)) as [z Z]; [exact NI|reflexivity|].
  fold A in Z. rewrite Z. cbn [bind]. rewrite next_ok by exact NA. cbn [bind]. unfold A. clear Z NI Hnb.
  unfold curT at 1, curL. cbn [cur tI tk_type tk_lit]. test1. cbn [guard bind]. unfold A in NA.
  assert (NB : nb B) by nbs. rewrite next_ok by nbs. cbn [bind].
  assert (ON : eqs (curT (W d "ON" :: tI (objname_string (cx_table x)) :: B)) TOKEN_ON = true) by (destruct d; reflexivity). rewrite ON. cbn [guard bind].
  rewrite next_ok by nbs. cbn [bind]. unfold curT at 1. cbn [cur tI tk_type tk_lit]. test1. cbn [guard bind]. rewrite next_ok by exact NB. cbn [bind].
  destruct (objname_facts d (cx_table x) H3) as [_ NT]. rewrite NT.
  assert (NX : match d with Pg | Crdb => mkON None (NewRawIdent d (objname_string (cx_name x))) | _ => NewObjectName d (objname_string (cx_name x)) end = cx_name x).
  { destruct d; try (apply (objname_facts _ (cx_name x) H2)); apply andb_true_iff in H2; destruct H2 as [Ha Hb]; destruct (cx_name x) as [[s|] n]; try discriminate Ha;
    cbn [objname_string on_schema on_name] in *; unfold ident_string; rewrite (name_new _ _ Hb); reflexivity. }
  rewrite NX. clear NX.
  match goal with |- context [if eqs (curT B) TOKEN_USING then ?a else ?b] =>
    assert (PU : (if eqs (curT B) TOKEN_USING then a else b) = Ok (cx_using x, None, cols_toks d (cx_columns x) ++ tSemi :: rest)) end.
  { unfold B in *. unfold using_toks in *. destruct (cx_using x) as [|u [|]]; [|clear - H7 NB|destruct d; discriminate H7].
    - destruct d; reflexivity.
    - destruct d; try discriminate H7; apply andb_true_iff in H7; destruct H7 as [H7 T]; apply andb_true_iff in H7; destruct H7 as [Q Nm]; apply String.eqb_eq in Q, Nm;
      revert NB; fixed; intro NB; cbn [map List.app] in *; unfold curT; cbn [cur tk_type]; test1; rewrite next_ok by nbs; cbn [bind]; rewrite next_ok by nbs; cbn [bind];
      unfold curL; cbn [cur]; unfold text_tok; destruct u as [un uq ur]; cbn [id_name id_quote id_raw] in *; subst; destruct (is_word ur); reflexivity. }
  rewrite PU. cbn [bind]. assert (NC : nb (cols_toks d (cx_columns x) ++ tSemi :: rest)) by (unfold B in NB; nbs).
  change (eqs (curT (cols_toks d (cx_columns x) ++ tSemi :: rest)) TOKEN_OPEN_PAREN) with true. cbn [guard bind]. rewrite cols_run by assumption. cbn [bind].
  assert (V : match d with Crdb => eqs (curT (tSemi :: rest)) TOKEN_USING | _ => false end = false) by (destruct d; reflexivity). rewrite V. cbn [bind without_comment].
  destruct (cx_pre x); [discriminate H5|]. destruct (cx_post x); [discriminate H6|]. reflexivity.
Qed.

(** * The whole text *)

Lemma stmt_pos : forall d s, stmt_ok d s = true -> 4 <= List.length (stmt_toks d s).
Proof.
  intros d s H. destruct s; try discriminate H; cbn [stmt_toks]; unfold create_table_toks, create_index_toks; rewrite !app_length; cbn [List.length];
  destruct d; fixed; cbn [List.length]; lia.
Qed.
Lemma loop_run : forall d srt l acc fuel, (forall s, In s l -> first_kept d srt s) -> forallb (stmt_ok d) l = true -> nb (flat_map (stmt_toks d) l) -> 2 * List.length l < fuel ->
  parse_loop d srt fuel acc (flat_map (stmt_toks d) l) = Ok (acc ++ map without_comment l).
Proof.
  intros d srt l. induction l as [|s l IH]; intros acc fuel Hs H Hnb Hf; (destruct fuel as [|fuel]; [lia|]).
  - cbn [map]. rewrite app_nil_r. reflexivity.
  - cbn [flat_map forallb map List.length] in *. apply andb_true_iff in H. destruct H as [H1 H2].
    assert (R : exists r, stmt_toks d s ++ flat_map (stmt_toks d) l = W d "CREATE" :: r /\
              parseCreate d srt (W d "CREATE" :: r) = Ok (without_comment s, match s with CreateTable _ => table_behind d (flat_map (stmt_toks d) l) | _ => tSemi :: flat_map (stmt_toks d) l end)).
    { destruct s; try discriminate H1; [apply create_table_run; [apply Hs; left; reflexivity|..]|apply create_index_run]; assumption. }
    assert (Hs' : forall s, In s l -> first_kept d srt s) by (intros y Hy; apply Hs; right; exact Hy).
    destruct R as [r [E R]]. rewrite E in *. cbn [parse_loop].
    assert (C : eqs (curT (W d "CREATE" :: r)) TOKEN_CREATE = true) by (destruct d; reflexivity). rewrite C, R. cbn [bind].
    assert (NL : nb (flat_map (stmt_toks d) l)) by (rewrite <- E in Hnb; apply nb_app_r in Hnb; exact Hnb).
    replace (acc ++ without_comment s :: map without_comment l) with ((acc ++ [without_comment s]) ++ map without_comment l) by (rewrite <- app_assoc; reflexivity).
    assert (D : (exists t, s = CreateTable t /\ (d = Pg \/ d = Crdb)) \/
                match s with CreateTable _ => table_behind d (flat_map (stmt_toks d) l) | _ => tSemi :: flat_map (stmt_toks d) l end = tSemi :: flat_map (stmt_toks d) l).
    { destruct s; try discriminate H1; [|right; reflexivity]. destruct d; try (right; reflexivity); left; eexists; (split; [reflexivity|auto]). }
    destruct D as [[t [Es D]]|D].
    + subst s. assert (B : table_behind d (flat_map (stmt_toks d) l) = tClose :: tSemi :: flat_map (stmt_toks d) l) by (destruct D; subst d; reflexivity).
      rewrite B. destruct fuel as [|fuel]; [lia|].
      assert (NS : nb (tSemi :: flat_map (stmt_toks d) l)) by (apply nb_cons; [discriminate|exact NL]). rewrite next_ok by exact NS. cbn [bind].
      cbn [parse_loop]. unfold curT. cbn [cur tSemi tk_type]. repeat test1. rewrite next_ok by exact NL. cbn [bind]. apply IH; auto. lia.
    + rewrite D. rewrite next_ok by exact NL. cbn [bind]. apply IH; auto. lia.
Qed.
Lemma ddl_run : forall d srt l, (forall s, In s l -> first_kept d srt s) -> printable d l = true -> parse d srt (ddl_string d l) = Ok (map without_comment l).
Proof.
  intros d srt l Hs H. destruct (ddl_lex d l H) as [E Hnb]. unfold parse. rewrite E. unfold parse_tokens.
  assert (B : eqs (curT (flat_map (stmt_toks d) l)) TOKEN_BOOM || eqs (peekT (flat_map (stmt_toks d) l)) TOKEN_BOOM = false).
  { destruct (flat_map (stmt_toks d) l) as [|x [|y r]]; [reflexivity| |]; inversion Hnb; subst; [|inversion H3; subst]; unfold curT, peekT; cbn [cur peek];
    unfold eqs; repeat match goal with K : tk_type ?t <> TOKEN_BOOM |- context [String.eqb (tk_type ?t) TOKEN_BOOM] => rewrite (proj2 (String.eqb_neq _ _) K) end; reflexivity. }
  rewrite B. apply (loop_run d srt l []); auto.
  clear - H. unfold printable in H. induction l as [|s l IH]; [cbn; lia|]. cbn [forallb flat_map List.length] in *. apply andb_true_iff in H. destruct H as [H1 H2].
  rewrite app_length. specialize (IH H2). pose proof (stmt_pos d s H1). lia.
Qed.
