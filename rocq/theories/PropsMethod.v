(** C47 for the index methods of CockroachDB: [USING method WITH (...)] in front of and behind the
    columns of CREATE INDEX. *)
From Verif Require Import GoStr Token Lexer LexSpec Ast Parser Printable LexerFacts PrintLex PrintToks.

(** The words of a method, in the order in which SQL wants them. *)
Definition words_of (e : expr) : list string := match e with Some l => map id_raw l | None => [] end.
Definition method_words (u : option usingdef) : list string :=
  match u with
  | None => []
  | Some u => "USING" :: words_of (us_value u) ++ match us_with u with Some w => "WITH" :: words_of w | None => [] end
  end%list.
(** A method is a value, its parameters are a group in parentheses. *)
Definition method_ok (u : option usingdef) : bool :=
  match u with
  | None => true
  | Some u =>
      match us_value u with Some l => value_ok Crdb l | None => false end
      && match us_with u with Some (Some w) => group_ok Crdb w | Some None => false | None => true end
  end.

(** The statement without its methods. *)
Definition bare (x : create_index) : create_index :=
  mkCX (cx_comment x) (cx_unique x) (cx_ifnotexists x) (cx_name x) (cx_table x) (cx_using x) None (cx_columns x) None.
(** What is written in front of the first parenthesis, and from there to the final semicolon. *)
Definition tokens_of (l : list string) : list token := flat_map (lex Crdb) l.

Lemma words_toks : forall l, piece_toks Crdb l = tokens_of (map id_raw l).
Proof. intro l. unfold piece_toks, tokens_of. induction l as [|i l IH]; [reflexivity|]. cbn [flat_map map]. rewrite IH. reflexivity. Qed.
Lemma method_SEG : forall u, method_ok u = true ->
  SEG Crdb match u with Some u => " " ++ using_string Crdb u | None => "" end (tokens_of (method_words u)).
Proof.
  intros [[v w]|] H; [|apply SEG_nil]. cbn [method_ok us_value us_with] in H. apply andb_true_iff in H. destruct H as [H1 H2].
  destruct v as [v|]; [|discriminate H1]. apply SEG_blank. unfold using_string. cbn [us_value us_with expr_string].
  unfold method_words. cbn [us_value us_with words_of].
  replace (tokens_of ("USING" :: map id_raw v ++ match w with Some w => "WITH" :: words_of w | None => [] end))
    with (lex Crdb "USING " ++ piece_toks Crdb v ++ tokens_of match w with Some w => "WITH" :: words_of w | None => [] end)%list
    by (rewrite words_toks; unfold tokens_of; cbn [flat_map]; rewrite flat_map_app; f_equal).
  apply FF_TT_app; [lit_FF|]. apply TT_SEG; [apply value_TT, H1|].
  destruct w as [[w|]|]; [|discriminate H2|apply SEG_nil]. apply SEG_blank. cbn [words_of expr_string].
  replace (tokens_of ("WITH" :: map id_raw w)) with (lex Crdb "WITH " ++ piece_toks Crdb w)%list
    by (rewrite words_toks; unfold tokens_of; cbn [flat_map]; f_equal).
  apply FF_TT_app; [lit_FF|]. apply group_TT, H2.
Qed.

(** The text of the statement is read as the tokens of the statement without its methods, with the
    words of the first method in front of the columns and of the second one behind them. *)
Theorem C47_cockroach_methods_are_said : forall x, create_index_ok Crdb (bare x) = true ->
  method_ok (cx_pre x) = true -> method_ok (cx_post x) = true ->
  exists front columns,
    lex Crdb (create_index_string Crdb (bare x)) = (front ++ columns ++ lex Crdb ";")%list
    /\ columns = lex Crdb (cols_string Crdb (cx_columns x))
    /\ lex Crdb (create_index_string Crdb x)
       = (front ++ tokens_of (method_words (cx_pre x)) ++ columns ++ tokens_of (method_words (cx_post x)) ++ lex Crdb ";")%list.
Proof.
  intros x H P Q. set (d := Crdb).
  assert (K : forall u w, method_ok u = true -> method_ok w = true ->
    FF d (create_index_string d (mkCX (cx_comment x) (cx_unique x) (cx_ifnotexists x) (cx_name x) (cx_table x) (cx_using x) u (cx_columns x) w))
      ((lex d "CREATE " ++ (if cx_unique x then lex d "UNIQUE " else []) ++ lex d "INDEX " ++ ine_toks d (cx_ifnotexists x)
        ++ [tI (objname_string (cx_name x))] ++ lex d " ON " ++ [tI (objname_string (cx_table x))])
       ++ tokens_of (method_words u) ++ cols_toks d (cx_columns x) ++ tokens_of (method_words w) ++ [tSemi])%list).
  - intros u w U V. unfold create_index_ok, bare in H. cbn [cx_comment cx_unique cx_ifnotexists cx_name cx_table cx_using cx_pre cx_columns cx_post] in H.
    apply andb_true_iff in H. destruct H as [H H7]. apply andb_true_iff in H. destruct H as [H H6]. apply andb_true_iff in H. destruct H as [H H5].
    apply andb_true_iff in H. destruct H as [H H4]. apply andb_true_iff in H. destruct H as [H H3]. apply andb_true_iff in H. destruct H as [H1 H2].
    unfold create_index_string. cbn [cx_comment cx_unique cx_ifnotexists cx_name cx_table cx_using cx_pre cx_columns cx_post].
    rewrite <- !app_assoc.
    match goal with |- FF _ _ ?t => change t with ([] ++ t)%list end.
    apply FF_FF_app; [apply comment_FF, H1|]. apply FF_FF_app; [lit_FF|].
    apply FF_FF_app; [destruct (cx_unique x); [lit_FF|apply FF_nil]|]. apply FF_FF_app; [lit_FF|].
    apply FF_FF_app; [destruct (cx_ifnotexists x); [unfold ine_toks; lit_FF|apply FF_nil]|].
    apply TT_FF_app; [apply index_name_TT, H2| |apply lead1_app, lead1_byte; reflexivity].
    apply FF_FF_app; [lit_FF|].
    rewrite <- (app_s_assoc (objname_string (cx_table x))). rewrite (app_assoc [tI (objname_string (cx_table x))]).
    apply TT_FF_app; [| |apply lead1_app, lead1_byte; reflexivity].
    + apply TT_SEG; [apply (objname_facts d (cx_table x) H3)|]. apply (method_SEG u U).
    + apply (FF_FF_app d " " [] _ (cols_toks d (cx_columns x) ++ tokens_of (method_words w) ++ [tSemi])); [apply blank_FF|].
      apply FF_FF_app; [apply cols_FF, H4|].
      rewrite <- (app_nil_r [tSemi]).
      apply TT_FF_app; [apply (method_SEG w V)|apply FF_FF_app; [lit_FF|apply nl_FF]|apply lead1_byte; reflexivity].
  - pose proof (K None None eq_refl eq_refl) as B. pose proof (K _ _ P Q) as A.
    assert (L : forall s ts, FF d s ts -> lex d s = ts).
    { intros s ts [_ F]. specialize (F ""). rewrite app_s_nil in F. rewrite lex_nil, app_nil_r in F. exact F. }
    assert (C : FF d (cols_string d (cx_columns x)) (cols_toks d (cx_columns x))).
    { apply cols_FF. unfold create_index_ok, bare in H. cbn [cx_columns] in H. repeat (apply andb_true_iff in H; destruct H as [H ?]). assumption. }
    apply L in A, B, C.
    exists (lex d "CREATE " ++ (if cx_unique x then lex d "UNIQUE " else []) ++ lex d "INDEX " ++ ine_toks d (cx_ifnotexists x)
        ++ [tI (objname_string (cx_name x))] ++ lex d " ON " ++ [tI (objname_string (cx_table x))])%list, (cols_toks d (cx_columns x)).
    split; [exact B|]. split; [symmetry; exact C|]. destruct x; exact A.
Qed.
Print Assumptions C47_cockroach_methods_are_said.

(** Statements that differ in nothing but their second method are told apart by their texts. *)
Theorem C47_cockroach_methods_are_told_apart : forall x u v,
  let y w := mkCX (cx_comment x) (cx_unique x) (cx_ifnotexists x) (cx_name x) (cx_table x) (cx_using x) (cx_pre x) (cx_columns x) w in
  create_index_ok Crdb (bare x) = true -> method_ok (cx_pre x) = true -> method_ok u = true -> method_ok v = true ->
  create_index_string Crdb (y u) = create_index_string Crdb (y v) ->
  tokens_of (method_words u) = tokens_of (method_words v).
Proof.
  intros x u v y H P U V E.
  destruct (C47_cockroach_methods_are_said (y u) H P U) as [f [c [A [B C]]]]. destruct (C47_cockroach_methods_are_said (y v) H P V) as [f' [c' [A' [B' C']]]].
  change (cx_columns (y u)) with (cx_columns x) in B. change (cx_columns (y v)) with (cx_columns x) in B'. rewrite <- B in B'. subst c'. clear B.
  change (bare (y u)) with (bare x) in A. change (bare (y v)) with (bare x) in A'. rewrite A in A'. rewrite E, C' in C. clear E C'.
  apply app_inv_tail in A'. subst f'. apply app_inv_head in C. cbn [y cx_pre cx_post] in C. apply app_inv_head in C. apply app_inv_head in C.
  apply app_inv_tail in C. symmetry. exact C.
Qed.
Print Assumptions C47_cockroach_methods_are_told_apart.

(** ddl_index_create_test.go:34-43 of cockroachdb, with parameters. *)
Definition w (s : string) : ident := mkIdent s "" s.
Definition by_method : create_index :=
  mkCX "" false false (mkON None (w "by_email")) (mkON None (w "users")) [] (Some (mkUsing (Some [w "hash"]) None)) [mkCI (w "email") None]
    (Some (mkUsing (Some [w "hash"]) (Some (Some [w "("; w "bucket_count"; w "="; w "8"; w ")"])))).
Example C47_example_method :
  create_index_ok Crdb (bare by_method) = true /\ method_ok (cx_pre by_method) = true /\ method_ok (cx_post by_method) = true
  /\ map tk_lit (lex Crdb (create_index_string Crdb by_method))
     = ["CREATE"; "INDEX"; "by_email"; "ON"; "users"; "USING"; "hash"; "("; "email"; ")"; "USING"; "hash"; "WITH"; "("; "bucket_count"; "="; "8"; ")"; ";"].
Proof. vm_compute. repeat split; reflexivity. Qed.
