(** Reading printed statements (for C47). *)
From Coq Require Import Lia.
From Verif Require Import GoStr Token Lexer LexerFacts LexSpec LexLayout LexKeyword LexPanic Ast Parser Printable PrintLex PrintToks PrintParse PrintColumn PrintStmt PrintDdl Apply ApplySpec SqlRead.
Local Open Scope list_scope.

(** * Tokens of an action *)

Definition policy_toks (o : option_) : list token := tl (rowdel_toks Sp (Some o)).
Definition action_toks (d : dialect) (a : action) : list token :=
  match a with
  | RenameTable n => [W d "RENAME"; W d "TO"] ++ [tI (objname_string n)]
  | RenameColumn n m => [W d "RENAME"; W d "COLUMN"] ++ [tI (id_raw n)] ++ [W d "TO"] ++ [tI (id_raw m)]
  | RenameConstraint n m => [W d "RENAME"; W d "CONSTRAINT"] ++ [tI (id_raw n)] ++ [W d "TO"] ++ [tI (id_raw m)]
  | AddColumn c => [W d "ADD"; W d "COLUMN"] ++ column_toks d c
  | DropColumn n => [W d "DROP"; W d "COLUMN"] ++ [tI (id_raw n)]
  | SetDataType n t => [W d "ALTER"; W d "COLUMN"] ++ [tI (id_raw n)] ++ [W d "SET"; W d "DATA"; W d "TYPE"] ++ dt_toks d t
  | SetDefault n v => [W d "ALTER"; W d "COLUMN"] ++ [tI (id_raw n)] ++ [W d "SET"] ++ default_toks d v
  | DropDefault n => [W d "ALTER"] ++ match d with My => [] | _ => [W d "COLUMN"] end ++ [tI (id_raw n)] ++ [W d "DROP"; W d "DEFAULT"]
  | SetNotNull n => [W d "ALTER"; W d "COLUMN"] ++ [tI (id_raw n)] ++ [W d "SET"; W d "NOT"; W d "NULL"]
  | DropNotNull n => [W d "ALTER"; W d "COLUMN"] ++ [tI (id_raw n)] ++ [W d "DROP"; W d "NOT"; W d "NULL"]
  | AddConstraint c nv => [W d "ADD"] ++ constraint_toks d c ++ (if nv then [W d "NOT"; W d "VALID"] else [])
  | DropConstraint n =>
      [W d "DROP"]
      ++ match d, eqs (oident_string n) "PRIMARY KEY" with
         | My, true => [W d "PRIMARY"; W d "KEY"]
         | _, _ => [W d "CONSTRAINT"] ++ [tI (oident_string n)]
         end
  | AlterConstraint n df ii =>
      [W d "ALTER"; W d "CONSTRAINT"] ++ [tI (id_raw n)] ++ (if df then [W d "DEFERRABLE"] else [W d "NOT"; W d "DEFERRABLE"])
      ++ (if ii then [W d "INITIALLY"; W d "DEFERRED"] else [W d "INITIALLY"; W d "IMMEDIATE"])
  | ModifyColumn c => [W d "MODIFY"] ++ column_toks d c
  | TableOption n v => option_toks d (mkOpt n v)
  | AlterDataType n t nn => [W d "ALTER"; W d "COLUMN"] ++ [tI (id_raw n)] ++ dt_toks d t ++ notnull_toks d nn
  | SetOptions n v => [W d "ALTER"; W d "COLUMN"] ++ [tI (id_raw n)] ++ [W d "SET"; W d "OPTIONS"] ++ match v with Some l => piece_toks d l | None => [] end
  | DropOptions n => [W d "ALTER"; W d "COLUMN"] ++ [tI (id_raw n)] ++ [W d "DROP"; W d "OPTIONS"]
  | AddRowDeletion o => [W d "ADD"] ++ policy_toks o
  | ReplaceRowDeletion o => [W d "REPLACE"] ++ policy_toks o
  | DropRowDeletion => [W d "DROP"; W d "ROW"; W d "DELETION"; W d "POLICY"]
  end.

Lemma policy_TT : forall o, rowdel_ok Sp (Some o) = true -> TT Sp (option_string Sp o) (policy_toks o).
Proof.
  intros o H. destruct (rowdel_SEG Sp (Some o) H) as [[N T] _]. unfold policy_toks.
  destruct o as [n v]. unfold rowdel_toks, rowdel_ok in *. cbn [o_name o_value] in *. destruct v as [l|]; [|apply andb_true_iff in H; destruct H as [_ H]; discriminate H].
  cbn [tl] in *. split; [apply nb_tail in N; exact N|]. intros r Hr. specialize (T r Hr). rewrite app_s_assoc in T.
  change (lex Sp ("," ++ (nl ++ option_string Sp (mkOpt n (Some l))) ++ r) = tComma :: (lex Sp n ++ piece_toks Sp l) ++ lex Sp r) in T.
  rewrite (proj2 (lit_FF Sp "," "," [tComma] eq_refl eq_refl eq_refl eq_refl eq_refl)) in T. cbn [List.app] in T. apply (f_equal (@tl token)) in T. cbn [tl] in T.
  rewrite app_s_assoc in T. rewrite (proj2 (nl_FF Sp)) in T. cbn [List.app] in T. exact T.
Qed.

Lemma name_then_TT : forall d i s ts, name_ok d i = true -> SEG d s ts -> TT d (id_raw i ++ s) ([tI (id_raw i)] ++ ts).
Proof. intros. apply TT_SEG; [apply name_TT; assumption|assumption]. Qed.
Ltac lit_SEG := match goal with |- SEG _ (String ?c ?s ++ _) _ => fail | |- SEG _ _ _ => apply SEG_stop; [lit_TT|reflexivity] end.


Lemma text_of_ident : forall d p i, ident_text_ok d i = true ->
  nonempty_prefixed p (oident_string i) = match i with Some i => (p ++ ident_string i)%string | None => ""%string end.
Proof.
  intros d p [i|] H; [|reflexivity]. cbn [ident_text_ok] in H. apply andb_true_iff in H. destruct H as [_ H].
  cbn [oident_string]. apply nonempty_prefixed_some. apply (text_nonempty d), H.
Qed.
Lemma modify_string : forall c, column_ok My c = true -> action_string My (ModifyColumn c) = ("MODIFY " ++ column_string My c)%string.
Proof.
  intros c H. unfold column_ok in H. apply andb_true_iff in H. destruct H as [H H6]. apply andb_true_iff in H. destruct H as [H H5].
  apply andb_true_iff in H. destruct H as [H H4]. apply andb_true_iff in H. destruct H as [_ Hd].
  repeat (apply andb_true_iff in H5; let K := fresh "K" in destruct H5 as [H5 K]).
  cbn [action_string]. unfold column_string. rewrite (text_of_ident My _ (c_charset c)), (text_of_ident My _ (c_collate c)) by assumption.
  do 7 f_equal. destruct (c_default c) as [[l|]|] eqn:E; [|discriminate Hd|].
  - destruct (c_autoinc c); [discriminate K1|]. match goal with |- context [nonempty_prefixed ?p (default_string ?x ?y)] => rewrite (nonempty_prefixed_some p (default_string x y)) by (cbn [default_string]; discriminate) end. reflexivity.
  - destruct (c_autoinc c); reflexivity.
Qed.

Lemma action_TT : forall d a, action_ok d a = true -> TT d (action_string d a) (action_toks d a).
Proof.
  intros d a H.
  destruct a as [n|n m|n m|c|n|n t|n v|n|n|n|c nv|n|n df ii|c|n v|n t nn|n v|n|o|o|]; cbn [action_ok action_toks] in *;
    repeat match goal with K : _ && _ = true |- _ => apply andb_true_iff in K; let L := fresh "L" in destruct K as [K L] end.
  - cbn [action_string]. apply FF_TT_app; [lit_FF|apply (objname_facts d n H)].
  - cbn [action_string]. unfold ident_string. apply FF_TT_app; [lit_FF|]. apply name_then_TT; [exact H|].
    apply (SEG_blank d ("TO " ++ id_raw m)). apply FF_TT_app; [lit_FF|apply name_TT; assumption].
  - cbn [action_string]. unfold ident_string. apply FF_TT_app; [lit_FF|]. apply name_then_TT; [exact H|].
    apply (SEG_blank d ("TO " ++ id_raw m)). apply FF_TT_app; [lit_FF|apply name_TT; assumption].
  - cbn [action_string]. apply FF_TT_app; [lit_FF|apply column_TT, H].
  - cbn [action_string]. apply FF_TT_app; [lit_FF|apply name_TT, H].
  - cbn [action_string]. unfold ident_string. apply FF_TT_app; [lit_FF|]. apply name_then_TT; [exact H|].
    apply (SEG_blank d ("SET DATA TYPE " ++ datatype_string d t)). apply FF_TT_app; [lit_FF|apply datatype_TT; assumption].
  - destruct v as [[l|]|]; try discriminate L. cbn [action_string]. unfold ident_string. apply FF_TT_app; [lit_FF|]. apply name_then_TT; [exact H|].
    apply (SEG_blank d ("SET " ++ default_string d (Some (Some l)))). apply FF_TT_app; [lit_FF|].
    destruct (default_SEG d (Some (Some l)) L) as [[N T] _]. split; [exact N|]. intros r Hr. specialize (T r Hr).
    rewrite nonempty_prefixed_some in T by (cbn [default_string]; discriminate). rewrite app_s_assoc in T. rewrite (proj2 (blank_FF d)) in T. exact T.
  - replace (action_string d (DropDefault n)) with ("ALTER " ++ match d with My => "" | _ => "COLUMN " end ++ id_raw n ++ " DROP DEFAULT")%string by (destruct d; reflexivity).
    apply FF_TT_app; [lit_FF|]. apply FF_TT_app; [destruct d; try apply FF_nil; eapply lit_FF; reflexivity|]. apply name_then_TT; [exact H|]. lit_SEG.
  - cbn [action_string]. unfold ident_string. apply FF_TT_app; [lit_FF|]. apply name_then_TT; [exact H|]. lit_SEG.
  - cbn [action_string]. unfold ident_string. apply FF_TT_app; [lit_FF|]. apply name_then_TT; [exact H|]. lit_SEG.
  - cbn [action_string]. apply FF_TT_app; [lit_FF|]. apply TT_SEG; [apply constraint_TT, H|]. destruct nv; [lit_SEG|apply SEG_nil].
  - destruct n as [n|]; [|discriminate H]. cbn [dropped_ok oident_string] in *. unfold ident_string, eqs in *.
    assert (K : name_ok d n = true /\ String.eqb (id_raw n) "PRIMARY KEY" = false \/ d = My /\ String.eqb (id_raw n) "PRIMARY KEY" = true).
    { apply orb_true_iff in H. destruct H as [H|H].
      - left. split; [exact H|]. destruct (String.eqb (id_raw n) "PRIMARY KEY") eqn:E; [|reflexivity]. apply String.eqb_eq in E.
        apply name_text in H. rewrite E in H. destruct d; discriminate H.
      - right. destruct d; try discriminate H. split; [reflexivity|]. apply andb_true_iff in H. destruct H as [H1 H2]. unfold bare_ident in H2.
        apply andb_true_iff in H2. destruct H2 as [H2 _]. apply andb_true_iff in H2. destruct H2 as [_ H2]. apply String.eqb_eq in H2. rewrite <- H2. exact H1. }
    destruct K as [[K1 K2]|[K1 K2]].
    + rewrite K2. replace (action_string d (DropConstraint (Some n))) with ("DROP " ++ "CONSTRAINT " ++ id_raw n)%string
        by (cbn [action_string oident_string]; unfold ident_string, eqs; rewrite K2; destruct d; reflexivity).
      apply FF_TT_app; [lit_FF|]. replace (match d with My => [W d "CONSTRAINT"] ++ [tI (id_raw n)] | _ => [W d "CONSTRAINT"] ++ [tI (id_raw n)] end)
        with ([W d "CONSTRAINT"] ++ [tI (id_raw n)]) by (destruct d; reflexivity). apply FF_TT_app; [lit_FF|apply name_TT, K1].
    + subst d. rewrite K2. cbn [action_string oident_string]. unfold ident_string, eqs. rewrite K2. apply (lit_TT My); reflexivity.
  - cbn [action_string]. unfold ident_string. apply FF_TT_app; [lit_FF|]. apply name_then_TT; [exact H|]. apply (SEG_blank d).
    apply TT_SEG; [destruct df; lit_TT|]. destruct ii; lit_SEG.
  - destruct d; try discriminate H. rewrite modify_string by exact H. apply FF_TT_app; [eapply lit_FF; reflexivity|apply column_TT, H].
  - destruct d; try discriminate H. pose proof (option_TT My _ H) as T. unfold option_string in T. cbn [o_value o_name] in T.
    cbn [action_string]. destruct v as [v|]; [exact T|discriminate H].
  - destruct d; try discriminate L. cbn [action_string]. unfold ident_string. apply FF_TT_app; [eapply lit_FF; reflexivity|]. apply name_then_TT; [exact H|].
    apply (SEG_blank Sp). apply TT_SEG; [apply datatype_TT, L|apply notnull_SEG].
  - destruct v as [l|]; [|discriminate L]. cbn [action_string expr_string]. unfold ident_string. apply FF_TT_app; [lit_FF|]. apply name_then_TT; [exact H|].
    apply (SEG_blank d ("SET OPTIONS " ++ idents_string d l)). apply FF_TT_app; [lit_FF|apply group_TT, L].
  - cbn [action_string]. unfold ident_string. apply FF_TT_app; [lit_FF|]. apply name_then_TT; [exact H|]. lit_SEG.
  - destruct d; try discriminate H. cbn [action_string]. apply FF_TT_app; [eapply lit_FF; reflexivity|apply policy_TT, H].
  - destruct d; try discriminate H. cbn [action_string]. apply FF_TT_app; [eapply lit_FF; reflexivity|apply policy_TT, H].
  - cbn [action_string]. lit_TT.
Qed.

(** * Reading an action *)

Lemma comma_stop : item_stop (curT [comma]) = true.
Proof. reflexivity. Qed.
Lemma nb_comma : forall ts, nb ts -> nb (ts ++ [comma]).
Proof. intros ts H. apply nb_app; [exact H|]. apply nb1. discriminate. Qed.
Lemma column_clause_read : forall d srt tbl c, column_ok d c = true -> nb (column_toks d c) -> column_clause d srt tbl (column_toks d c) = Some c.
Proof.
  intros d srt tbl c H N. unfold column_clause. rewrite column_run; [|exact H|apply nb_comma, N|reflexivity].
  assert (V : with_value (c_default c) = true).
  { unfold column_ok in H. apply andb_true_iff in H. destruct H as [H _]. apply andb_true_iff in H. destruct H as [H _]. apply andb_true_iff in H. destruct H as [H _].
    apply andb_true_iff in H. destruct H as [_ H]. destruct (c_default c) as [[l|]|]; try reflexivity. discriminate H. }
  rewrite V. reflexivity.
Qed.
Lemma constraint_clause_read : forall d tbl c, constraint_ok d c = true -> nb (constraint_toks d c) -> constraint_clause d tbl (constraint_toks d c) = Some c.
Proof.
  intros d tbl c H N. unfold constraint_clause. destruct (constraint_run d tbl c [comma] H (nb_comma _ N) eq_refl) as [E _]. rewrite E. reflexivity.
Qed.
Lemma type_clause_read : forall d t r, datatype_ok d t = true -> nb (dt_toks d t ++ r) ->
  negb (isin (curT (r ++ [comma])) [TOKEN_WITH; TOKEN_PRECISION; TOKEN_OPEN_PAREN]) = true ->
  type_clause d (dt_toks d t ++ r) = Some (t, r ++ [comma]).
Proof.
  intros d t r H N S. unfold type_clause.
  destruct (datatype_run d t (r ++ [comma]) H) as [x [E I]]; [rewrite app_assoc; apply nb_comma, N|exact S|].
  rewrite <- app_assoc, E. destruct (dt_toks d t ++ r) as [|y l] eqn:Ey.
  - apply app_eq_nil in Ey. destruct Ey as [Ey _]. rewrite Ey in I. unfold dt_toks in Ey. apply app_eq_nil in Ey. destruct Ey as [Ey _].
    unfold datatype_ok in H. apply andb_true_iff in H. destruct H as [H _]. apply andb_true_iff in H. destruct H as [_ H].
    apply map_eq_nil in Ey. rewrite Ey in H. discriminate H.
  - assert (T : curT (dt_toks d t ++ r ++ [comma]) = tk_type y) by (rewrite app_assoc, Ey; reflexivity). rewrite T in I. rewrite I. reflexivity.
Qed.
Lemma value_clause_read : forall d l, value_ok d l = true -> nb (piece_toks d l) -> value_clause d (piece_toks d l) = Some (Some l).
Proof. intros d l H N. unfold value_clause. rewrite value_run; [reflexivity|exact H|apply nb_comma, N|reflexivity]. Qed.
Lemma group_clause_read : forall d l, group_ok d l = true -> nb (piece_toks d l) -> group_clause d (piece_toks d l) = Some l.
Proof. intros d l H N. unfold group_clause. rewrite <- (app_nil_r (piece_toks d l)). rewrite group_run; [reflexivity|exact H|rewrite app_nil_r; exact N]. Qed.
Lemma policy_clause_read : forall o, rowdel_ok Sp (Some o) = true -> nb (policy_toks o) -> policy_clause Sp (policy_toks o) = Some o.
Proof.
  intros o H N. unfold policy_clause.
  assert (E : rowdel_toks Sp (Some o) = tComma :: policy_toks o).
  { unfold policy_toks. destruct o as [n v]. unfold rowdel_toks, rowdel_ok in *. cbn [o_name o_value] in *. destruct v as [l|]; [reflexivity|].
    apply andb_true_iff in H. destruct H as [_ H]. discriminate H. }
  assert (N2 : nb (policy_toks o ++ [tSemi])) by (apply nb_app; [exact N|apply nb1; discriminate]).
  pose proof (rowdel_Sp (Some o) [] (S (S (S (List.length (policy_toks o))))) [] H) as R. rewrite E in R. cbn [List.app] in R.
  rewrite comma_Sp in R by (apply nb_cons; [discriminate|exact N2]). change SqlRead.semicolon with tSemi. rewrite R; [reflexivity|apply nb_cons; [discriminate|exact N2]|cbn [List.length]; lia].
Qed.

(** Nothing printed for a constraint ends with VALID. *)
Lemma balanced_close : forall d n l, balanced d (fun _ => false) (S n) l = true -> exists l' c, l = l' ++ [c] /\ close_paren c = true.
Proof.
  intros d n l. revert n. induction l as [|i l IH]; intros n H; [discriminate H|]. cbn [balanced] in H.
  destruct (open_paren i).
  - destruct (IH (S n) H) as [l' [c [E C]]]. exists (i :: l'), c. rewrite E. auto.
  - destruct (close_paren i) eqn:Ec.
    + destruct n as [|n].
      * destruct l as [|j l]; [exists [], i; auto|]. discriminate H.
      * destruct (IH n H) as [l' [c [E C]]]. exists (i :: l'), c. rewrite E. auto.
    + apply andb_true_iff in H. destruct H as [_ H]. destruct (IH n H) as [l' [c [E C]]]. exists (i :: l'), c. rewrite E. auto.
Qed.
Lemma group_close : forall d l, group_ok d l = true -> exists x, piece_toks d l = x ++ [tClose].
Proof.
  intros d l H. destruct l as [|i l]; [discriminate H|]. unfold group_ok in H. apply andb_true_iff in H. destruct H as [H _]. apply andb_true_iff in H. destruct H as [_ H].
  destruct (balanced_close d 0 l H) as [l' [c [E C]]]. subst l. destruct (close_toks d c C) as [T _]. exists (lex d (id_raw i) ++ piece_toks d l').
  rewrite piece_toks_cons. unfold piece_toks. rewrite flat_map_app. cbn [flat_map]. rewrite T, <- app_assoc. reflexivity.
Qed.
Lemma constraint_close : forall d c, constraint_ok d c = true -> exists x, constraint_toks d c = x ++ [tClose].
Proof.
  intros d c H.
  assert (A : forall y cs, exists x, y ++ cols_toks d cs = x ++ [tClose]).
  { intros y cs. unfold cols_toks. exists (y ++ tOpen :: commas (map (ci_toks d) cs)). rewrite <- app_assoc. reflexivity. }
  destruct c as [n cols|n cols ref refcols on|n cols|n u pre cols post|n e]; cbn [constraint_ok constraint_toks] in *.
  - rewrite app_assoc. apply A.
  - rewrite !app_assoc. apply A.
  - rewrite app_assoc. apply A.
  - rewrite !app_assoc. apply A.
  - assert (G : exists l, e = Some l /\ group_ok d l = true).
    { destruct d, e as [l|]; try discriminate H; apply andb_true_iff in H; destruct H as [_ H]; exists l; auto. }
    destruct G as [l [E G]]. subst e. destruct (group_close d l G) as [x X]. rewrite X. exists ((named_toks d n ++ [W d "CHECK"]) ++ x). rewrite <- !app_assoc. reflexivity.
Qed.
Lemma no_valid : forall x, ends_not_valid (x ++ [tClose]) = false.
Proof. intro x. unfold ends_not_valid. rewrite rev_app_distr. cbn [rev List.app]. destruct (rev x); reflexivity. Qed.
Lemma yes_valid : forall d x, ends_not_valid (x ++ [W d "NOT"; W d "VALID"]) = true.
Proof. intros d x. unfold ends_not_valid. rewrite rev_app_distr. reflexivity. Qed.
Lemma removelast_snoc : forall A (x : list A) y, removelast (x ++ [y]) = x.
Proof. intros A x y. rewrite removelast_app by discriminate. cbn. apply app_nil_r. Qed.
Lemma cut_valid : forall x (y z : token), without_last_two (x ++ [y; z]) = x.
Proof. intros x y z. unfold without_last_two. change [y; z] with ([y] ++ [z]). rewrite app_assoc, !removelast_snoc. reflexivity. Qed.

(** Words that are spelled out. *)
Ltac spelled :=
  repeat match goal with
         | |- context [spells ?w (W ?d ?v)] => let b := eval vm_compute in (String.eqb (to_upper v) w) in match b with true => idtac | false => idtac end; change (spells w (W d v)) with b; cbv beta iota
         end.
Ltac steps :=
  repeat (progress (unfold reading, either; cbn [after_words List.app]; spelled)).

Lemma isname_tI : forall s, is_name (tI s) = true.
Proof. reflexivity. Qed.

Lemma name_then_read : forall d A (f : ident -> list token -> option A) i r, name_ok d i = true -> name_then d f (tI (id_raw i) :: r) = f i r.
Proof. intros d A f i r H. unfold name_then. cbn [is_name tI tk_type tk_lit]. rewrite (name_new d i H). reflexivity. Qed.
Lemma object_then_read : forall d A (f : objname -> list token -> option A) n r, objname_ok d n = true -> object_then d f (tI (objname_string n) :: r) = f n r.
Proof. intros d A f n r H. unfold object_then. cbn [is_name tI tk_type tk_lit]. rewrite (proj2 (objname_facts d n H)). reflexivity. Qed.
Lemma only_name_read : forall d A (f : ident -> A) i, name_ok d i = true -> only_name d f [tI (id_raw i)] = Some (f i).
Proof. intros d A f i H. unfold only_name. rewrite name_then_read by exact H. reflexivity. Qed.
Lemma type_head : forall t r, datatype_ok Sp t = true -> exists w l, dt_toks Sp t ++ r = W Sp w :: l /\ spells "SET" (W Sp w) = false /\ spells "DROP" (W Sp w) = false.
Proof.
  intros t r H. unfold datatype_ok in H. apply andb_true_iff in H. destruct H as [H _]. apply andb_true_iff in H. destruct H as [_ H]. unfold dt_toks.
  destruct (split " " (dt_name t)) as [|w [|w2 [|w3 [|w4 [|]]]]]; cbn [type_of_words] in H; try discriminate H.
  destruct (existsb (String.eqb (lookupIdent Sp w)) (type_tokens Sp)) eqn:E; [|discriminate H].
  exists w. eexists. split; [reflexivity|].
  assert (K : forall v, existsb (String.eqb (lookupIdent Sp v)) (type_tokens Sp) = false -> to_upper v = v -> spells v (W Sp w) = false).
  { intros v Hv U. unfold spells. cbn [tk_lit W]. destruct (String.eqb (to_upper w) v) eqn:Ew; [|reflexivity]. apply String.eqb_eq in Ew.
    unfold lookupIdent in E, Hv. rewrite Ew in E. rewrite U in Hv. congruence. }
  split; apply K; vm_compute; reflexivity.
Qed.

Lemma nb_app_left : forall a b, nb (a ++ b) -> nb a.
Proof. intros a b H. apply Forall_app in H. apply H. Qed.
Lemma action_read : forall d srt tbl a, action_ok d a = true -> nb (action_toks d a) -> read_action d srt tbl (action_toks d a) = Some a.
Proof.
  intros d srt tbl a H N. unfold read_action.
  destruct a as [n|n m|n m|c|n|n t|n v|n|n|n|c nv|n|n df ii|c|n v|n t nn|n v|n|o|o|]; cbn [action_ok action_toks] in *;
    repeat match goal with K : _ && _ = true |- _ => apply andb_true_iff in K; let L := fresh "L" in destruct K as [K L] end.
  - steps. rewrite object_then_read by exact H. reflexivity.
  - steps. rewrite name_then_read by exact H. steps. rewrite only_name_read by assumption. reflexivity.
  - steps. rewrite name_then_read by exact H. steps. rewrite only_name_read by assumption. reflexivity.
  - steps. rewrite column_clause_read; [reflexivity|exact H|apply nb_app_r in N; exact N].
  - steps. rewrite only_name_read by assumption. reflexivity.
  - steps. rewrite name_then_read by exact H. unfold column_change. steps.
    rewrite <- (app_nil_r (dt_toks d t)), type_clause_read; [reflexivity|assumption|rewrite app_nil_r|reflexivity].
    cbn [List.app] in N. nbs.
  - destruct v as [[l|]|]; try discriminate L. cbn [default_toks] in *. steps. rewrite name_then_read by exact H. unfold column_change. steps.
    rewrite value_clause_read; [reflexivity|assumption|]. cbn [List.app] in N. nbs.
  - destruct d; steps; rewrite ?name_then_read by exact H; try reflexivity.
    destruct (spells "CONSTRAINT" (tI (id_raw n))), (spells "COLUMN" (tI (id_raw n))); reflexivity.
  - steps. rewrite name_then_read by exact H. unfold column_change. steps. reflexivity.
  - steps. rewrite name_then_read by exact H. unfold column_change. steps. reflexivity.
  - destruct (constraint_close d c H) as [x X].
    assert (Hd : exists w r, constraint_toks d c = W d w :: r /\ spells "COLUMN" (W d w) = false /\ spells "ROW" (W d w) = false).
    { destruct c as [i cols|i cols ref refcols on|i cols|i u pre cols post|i e]; cbn [constraint_ok constraint_toks] in *;
      [destruct d; try discriminate H; destruct i as [i|]; try discriminate H| destruct i as [i|]; try discriminate H
      |destruct d; try discriminate H; destruct i as [i|]; try discriminate H|destruct d, u; try discriminate H|destruct d, e; try discriminate H; destruct i as [i|]; try discriminate H];
      eexists; eexists; (split; [reflexivity|split; reflexivity]). }
    destruct Hd as [w [r [E [E1 E2]]]].
    assert (Nc : nb (constraint_toks d c)) by (destruct nv; [apply nb_app_r in N; apply nb_app_left in N; exact N|rewrite app_nil_r in N; apply nb_app_r in N; exact N]).
    pose proof (constraint_clause_read d (on_name tbl) c H Nc) as R.
    assert (G : forall tail, (if ends_not_valid (constraint_toks d c ++ tail) then match constraint_clause d (on_name tbl) (without_last_two (constraint_toks d c ++ tail)) with Some c => Some (AddConstraint c true) | None => None end
       else match constraint_clause d (on_name tbl) (constraint_toks d c ++ tail) with Some c => Some (AddConstraint c false) | None => None end) = Some (AddConstraint c nv) ->
       read_action d srt tbl ([W d "ADD"] ++ constraint_toks d c ++ tail) = Some (AddConstraint c nv)).
    { intros tail G. unfold read_action. rewrite E in *. steps. rewrite E1, E2. cbn [List.app] in G. rewrite G. reflexivity. }
    apply G. destruct nv.
    + rewrite yes_valid, cut_valid, R. reflexivity.
    + rewrite app_nil_r, X, no_valid, <- X, R. reflexivity.
  - destruct n as [n|]; [|discriminate H]. cbn [dropped_ok oident_string] in *. unfold ident_string, eqs in *.
    destruct (name_ok d n) eqn:Hn.
    + assert (E : String.eqb (id_raw n) "PRIMARY KEY" = false).
      { destruct (String.eqb (id_raw n) "PRIMARY KEY") eqn:E; [|reflexivity]. apply String.eqb_eq in E. apply name_text in Hn. rewrite E in Hn. destruct d; discriminate Hn. }
      rewrite E in *. replace (match d with My => [W d "CONSTRAINT"] ++ [tI (id_raw n)] | _ => [W d "CONSTRAINT"] ++ [tI (id_raw n)] end)
        with ([W d "CONSTRAINT"] ++ [tI (id_raw n)]) in * by (destruct d; reflexivity). steps. rewrite only_name_read by exact Hn. reflexivity.
    + cbn [orb] in H. destruct d; try discriminate H. apply andb_true_iff in H. destruct H as [H1 H2].
      pose proof (wellformed_new My n ltac:(unfold wellformed_ident; rewrite H2; apply orb_true_r)) as Wn.
      unfold bare_ident in H2. apply andb_true_iff in H2. destruct H2 as [H2 _]. apply andb_true_iff in H2. destruct H2 as [_ H2]. apply String.eqb_eq in H1, H2.
      assert (E : id_raw n = "PRIMARY KEY"%string) by congruence. rewrite E in *. rewrite <- Wn. reflexivity.
  - steps. rewrite name_then_read by exact H. unfold constraint_change. destruct df, ii; steps; reflexivity.
  - destruct d; try discriminate H. steps. rewrite column_clause_read; [reflexivity|exact H|apply nb_app_r in N; exact N].
  - destruct d; try discriminate H. unfold option_ok, option_toks in *. cbn [o_name o_value] in *.
    destruct v as [[|v [|]]|]; try discriminate H. apply andb_true_iff in H. destruct H as [H1 H2]. pose proof (name_new My v H2) as Nn.
    apply existsb_exists in H1. destruct H1 as [x [Hx E]]. apply String.eqb_eq in E. subst x. cbn [map In] in *.
    repeat (destruct Hx as [Hx|Hx]; [subst n; cbn [map List.app]; fixed; cbn [List.app]; unfold reading, either; cbn -[NewRawIdent]; rewrite Nn; reflexivity|]). destruct Hx.
  - destruct d; try discriminate L. steps. rewrite name_then_read by exact H. unfold column_change.
    destruct (type_head t (notnull_toks Sp nn) L) as [w [l [E [E1 E2]]]].
    assert (C : type_clause Sp (dt_toks Sp t ++ notnull_toks Sp nn) = Some (t, notnull_toks Sp nn ++ [comma])).
    { apply type_clause_read; [exact L| |destruct nn; reflexivity]. cbn [List.app] in N. nbs. }
    rewrite C. rewrite E. steps. rewrite E1, E2. destruct nn; reflexivity.
  - destruct v as [l|]; [|discriminate L]. steps. rewrite name_then_read by exact H. unfold column_change. steps.
    rewrite group_clause_read; [reflexivity|assumption|]. cbn [List.app] in N. nbs.
  - steps. rewrite name_then_read by exact H. unfold column_change. steps. reflexivity.
  - destruct d; try discriminate H. assert (E : exists l, policy_toks o = W Sp "ROW" :: l).
    { unfold policy_toks. destruct o as [n v]. unfold rowdel_toks, rowdel_ok in *. cbn [o_name o_value] in *. apply andb_true_iff in H. destruct H as [H1 H2]. apply String.eqb_eq in H1. subst n.
      destruct v as [l|]; [|discriminate H2]. cbn [tl]. fixed. eexists. reflexivity. }
    destruct E as [l E]. pose proof (policy_clause_read o H ltac:(apply nb_app_r in N; exact N)) as R. rewrite E in *. steps. cbn [tl]. rewrite R. reflexivity.
  - destruct d; try discriminate H. steps. rewrite policy_clause_read; [reflexivity|exact H|apply nb_app_r in N; exact N].
  - steps. reflexivity.
Qed.

(** * Reading a statement *)

(** The text and the tokens of a statement, without comment and final semicolon. *)
Definition head (d : dialect) (s : stmt) : string :=
  (match s with
   | CreateTable t =>
       "CREATE TABLE " ++ (if ct_ifnotexists t then "IF NOT EXISTS " else "") ++ objname_string (ct_name t) ++ " (" ++ nl
       ++ lines_string (map (column_string d) (ct_columns t) ++ map (constraint_string d) (ct_constraints t))%list ++ ")"
       ++ match ct_options t with [] => "" | l => match d with My | Sp => " " | _ => nl end ++ options_string d l end
       ++ match d, ct_rowdel t with Sp, Some o => "," ++ nl ++ option_string d o | _, _ => "" end
   | CreateIndex x =>
       "CREATE " ++ (if cx_unique x then "UNIQUE " else "") ++ "INDEX " ++ (if cx_ifnotexists x then "IF NOT EXISTS " else "")
       ++ objname_string (cx_name x) ++ " ON " ++ objname_string (cx_table x)
       ++ match d, cx_using x with
          | Crdb, _ => match cx_pre x with Some u => " " ++ using_string d u | None => "" end
          | _, [] => ""
          | _, l => " USING " ++ join " " (map ident_string l)
          end
       ++ " " ++ cols_string d (cx_columns x)
       ++ match d, cx_post x with Crdb, Some u => " " ++ using_string d u | _, _ => "" end
   | DropTable _ ie n => "DROP TABLE " ++ (if ie then "IF EXISTS " else "") ++ objname_string n
   | DropIndex _ ie n => "DROP INDEX " ++ (if ie then "IF EXISTS " else "") ++ objname_string n
   | AlterTable _ n a => "ALTER TABLE " ++ objname_string n ++ " " ++ action_string d a
   end)%string.
Definition head_toks (d : dialect) (s : stmt) : list token :=
  match s with
  | CreateTable t => removelast (create_table_toks d t)
  | CreateIndex x => removelast (create_index_toks d x)
  | DropTable _ ie n => [W d "DROP"; W d "TABLE"] ++ (if ie then [W d "IF"; W d "EXISTS"] else []) ++ [tI (objname_string n)]
  | DropIndex _ ie n => [W d "DROP"; W d "INDEX"] ++ (if ie then [W d "IF"; W d "EXISTS"] else []) ++ [tI (objname_string n)]
  | AlterTable _ n a => [W d "ALTER"; W d "TABLE"] ++ [tI (objname_string n)] ++ action_toks d a
  end.
Lemma head_string : forall d s, stmt_string d s = (comment_string (comment_of s) ++ head d s ++ ";" ++ nl)%string.
Proof.
  intros d s. destruct s as [t|x|c ie n|c ie n|c n a]; cbn [stmt_string comment_of head]; unfold create_table_string, create_index_string;
  rewrite ?app_s_assoc; try reflexivity.
Qed.
Lemma table_toks_semi : forall d t, exists x, create_table_toks d t = x ++ [tSemi].
Proof. intros d t. unfold create_table_toks. rewrite !app_assoc. eexists. reflexivity. Qed.
Lemma index_toks_semi : forall d t, exists x, create_index_toks d t = x ++ [tSemi].
Proof. intros d t. unfold create_index_toks. rewrite !app_assoc. eexists. reflexivity. Qed.
Lemma head_semi : forall d s, stmt_ok d s = true -> head_toks d s ++ [tSemi] = stmt_toks d s.
Proof.
  intros d s H. destruct s as [t|x| | |]; try discriminate H; cbn [head_toks stmt_toks].
  - destruct (table_toks_semi d t) as [y E]. rewrite E, removelast_snoc. reflexivity.
  - destruct (index_toks_semi d x) as [y E]. rewrite E, removelast_snoc. reflexivity.
Qed.
Lemma head_TT : forall d s, readable d s = true -> TT d (head d s) (head_toks d s).
Proof.
  intros d s H. destruct s as [t|x|c ie n|c ie n|c n a]; cbn [readable stmt_ok] in H.
  - assert (E : head_toks d (CreateTable t) = lex d "CREATE TABLE " ++ ine_toks d (ct_ifnotexists t) ++ [tI (objname_string (ct_name t))] ++ [tOpen]
       ++ commas (map (column_toks d) (ct_columns t) ++ map (constraint_toks d) (ct_constraints t)) ++ [tClose]
       ++ options_toks d (ct_options t) ++ rowdel_toks d (ct_rowdel t)).
    { cbn [head_toks]. unfold create_table_toks. rewrite !app_assoc, removelast_snoc. reflexivity. }
    rewrite E. unfold create_table_ok in H.
    apply andb_true_iff in H. destruct H as [H H6]. apply andb_true_iff in H. destruct H as [H H5]. apply andb_true_iff in H. destruct H as [H H4].
    apply andb_true_iff in H. destruct H as [H H3]. apply andb_true_iff in H. destruct H as [H1 H2].
    cbn [head]. apply FF_TT_app; [lit_FF|].
    apply FF_TT_app; [destruct (ct_ifnotexists t); [unfold ine_toks; lit_FF|apply FF_nil]|].
    apply TT_TT; [apply (objname_facts d (ct_name t) H2)| |apply lead1_lead, lead1_app, lead1_byte; reflexivity].
    apply FF_TT_app; [lit_FF|]. apply (FF_TT_app d nl []); [apply nl_FF|].
    apply FF_TT_app.
    + rewrite forallb_forall in H3. unfold constraints_ok in H4.
      assert (C : forall c, In c (ct_constraints t) -> constraint_ok d c = true).
      { repeat (apply andb_true_iff in H4; destruct H4 as [H4 _]). rewrite forallb_forall in H4. exact H4. }
      pose proof (lines_FF d (map (fun c => (column_string d c, column_toks d c)) (ct_columns t)
                            ++ map (fun c => (constraint_string d c, constraint_toks d c)) (ct_constraints t))) as L.
      rewrite !map_app, !map_map in L. cbn [fst snd] in L. apply L. intros a ta Hp. apply in_app_or in Hp. destruct Hp as [Hp|Hp];
      apply in_map_iff in Hp; destruct Hp as [c [E' Hc]]; inversion E'; subst a ta; [apply column_TT, H3, Hc|apply constraint_TT, C, Hc].
    + apply FF_TT_app; [apply close_FF|].
      apply (SEG_app d); [pose proof (options_SEG d _ H5) as O; destruct (ct_options t); exact O|apply rowdel_SEG, H6].
  - assert (E : head_toks d (CreateIndex x) = lex d "CREATE " ++ (if cx_unique x then lex d "UNIQUE " else []) ++ lex d "INDEX " ++ ine_toks d (cx_ifnotexists x)
       ++ [tI (objname_string (cx_name x))] ++ lex d " ON " ++ [tI (objname_string (cx_table x))]
       ++ using_toks d (cx_using x) ++ cols_toks d (cx_columns x)).
    { cbn [head_toks]. unfold create_index_toks. rewrite !app_assoc, removelast_snoc. reflexivity. }
    rewrite E. unfold create_index_ok in H.
    apply andb_true_iff in H. destruct H as [H H7]. apply andb_true_iff in H. destruct H as [H H6]. apply andb_true_iff in H. destruct H as [H H5].
    apply andb_true_iff in H. destruct H as [H H4]. apply andb_true_iff in H. destruct H as [H H3]. apply andb_true_iff in H. destruct H as [H1 H2].
    destruct (cx_pre x) eqn:Ep; [discriminate H5|]. destruct (cx_post x) eqn:Eq; [discriminate H6|].
    cbn [head]. rewrite Ep, Eq. apply FF_TT_app; [lit_FF|].
    apply FF_TT_app; [destruct (cx_unique x); [lit_FF|apply FF_nil]|]. apply FF_TT_app; [lit_FF|].
    apply FF_TT_app; [destruct (cx_ifnotexists x); [unfold ine_toks; lit_FF|apply FF_nil]|].
    apply TT_TT; [apply index_name_TT, H2| |apply lead1_lead, lead1_app, lead1_byte; reflexivity].
    apply FF_TT_app; [lit_FF|].
    rewrite <- (app_s_assoc (objname_string (cx_table x))). rewrite (app_assoc [tI (objname_string (cx_table x))]).
    apply TT_TT; [| |apply lead1_lead, lead1_app, lead1_byte; reflexivity].
    + apply TT_SEG; [apply (objname_facts d (cx_table x) H3)|]. unfold using_toks.
      destruct (cx_using x) as [|u [|]]; [destruct d; apply SEG_nil| |destruct d; discriminate H7].
      destruct d; try discriminate H7; apply andb_true_iff in H7; destruct H7 as [H7 H8]; (apply SEG_stop; [|reflexivity]);
      cbn [map join]; apply (FF_TT_app _ " USING "); try (eapply lit_FF; reflexivity); apply text_TT, H8.
    + replace (match d with Crdb => "" | _ => "" end) with "" by (destruct d; reflexivity). rewrite app_s_nil.
      apply (FF_TT_app d " " [] _ (cols_toks d (cx_columns x))); [apply blank_FF|]. apply FF_TT, cols_FF, H4.
  - apply andb_true_iff in H. destruct H as [H1 H2]. cbn [head head_toks]. apply FF_TT_app; [lit_FF|].
    apply FF_TT_app; [destruct ie; [lit_FF|apply FF_nil]|apply (objname_facts d n H2)].
  - apply andb_true_iff in H. destruct H as [H1 H2]. cbn [head head_toks]. apply FF_TT_app; [lit_FF|].
    apply FF_TT_app; [destruct ie; [lit_FF|apply FF_nil]|apply index_name_TT; exact H2].
  - apply andb_true_iff in H. destruct H as [H H2]. apply andb_true_iff in H. destruct H as [H1 H3]. cbn [head head_toks]. apply FF_TT_app; [lit_FF|].
    apply (TT_blank d); [apply (objname_facts d n H3)|apply action_TT, H2].
Qed.

Lemma read_tokens : forall d srt text s, readable d s = true -> first_kept d srt s -> nb (head_toks d s) ->
  lex d text = head_toks d s ++ [tSemi] -> read_text d srt text = Some (uncommented s).
Proof.
  intros d srt text s H K N E. unfold read_text. rewrite E.
  assert (X : ends_statement (head_toks d s ++ [tSemi]) = true) by (unfold ends_statement; rewrite rev_app_distr; reflexivity). rewrite X, removelast_snoc.
  assert (E1 : exists t r, head_toks d s ++ [tSemi] = t :: r) by (destruct (head_toks d s); eexists; eexists; reflexivity).
  destruct E1 as [t [r E1]]. rewrite E1. rewrite <- E1. clear X E.
  destruct s as [ct|x|c ie n|c ie n|c n a].
  - assert (T : t = W d "CREATE").
    { destruct (create_table_run d srt ct [] K H) as [q [Q _]]; [rewrite app_nil_r; change (nb (stmt_toks d (CreateTable ct))); rewrite <- head_semi by exact H; apply nb_app; [exact N|apply nb1; discriminate]|].
      rewrite app_nil_r in Q. change (stmt_toks d (CreateTable ct) = W d "CREATE" :: q) in Q. rewrite <- head_semi in Q by exact H. rewrite E1 in Q. inversion Q. reflexivity. }
    subst t. spelled. rewrite head_semi by exact H.
    assert (P : printable d [CreateTable ct] = true) by (unfold printable; cbn [forallb]; rewrite andb_true_r; exact H).
    assert (R := ddl_run d srt [CreateTable ct] (fun s Hs => match Hs with or_introl e => eq_ind _ (first_kept d srt) K s e | or_intror f => match f with end end) P).
    unfold parse in R. rewrite (proj1 (ddl_lex d _ P)) in R. cbn [flat_map map] in R. rewrite app_nil_r in R. rewrite R. reflexivity.
  - assert (T : t = W d "CREATE").
    { destruct (create_index_run d srt x [] H) as [q [Q _]]; [rewrite app_nil_r; change (nb (stmt_toks d (CreateIndex x))); rewrite <- head_semi by exact H; apply nb_app; [exact N|apply nb1; discriminate]|].
      rewrite app_nil_r in Q. change (stmt_toks d (CreateIndex x) = W d "CREATE" :: q) in Q. rewrite <- head_semi in Q by exact H. rewrite E1 in Q. inversion Q. reflexivity. }
    subst t. spelled. rewrite head_semi by exact H.
    assert (P : printable d [CreateIndex x] = true) by (unfold printable; cbn [forallb]; rewrite andb_true_r; exact H).
    assert (R := ddl_run d srt [CreateIndex x] (fun s Hs => match Hs with or_introl e => eq_ind _ (first_kept d srt) K s e | or_intror f => match f with end end) P).
    unfold parse in R. rewrite (proj1 (ddl_lex d _ P)) in R. cbn [flat_map map] in R. rewrite app_nil_r in R. rewrite R. reflexivity.
  - cbn [readable] in H. apply andb_true_iff in H. destruct H as [_ H]. cbn [head_toks] in E1. cbn [List.app] in E1. inversion E1. subst t. spelled.
    unfold read_body. cbn [head_toks uncommented]. destruct ie; cbn [List.app].
    + steps. rewrite object_then_read by exact H. reflexivity.
    + steps. destruct (spells "IF" (tI (objname_string n))); steps; rewrite object_then_read by exact H; reflexivity.
  - cbn [readable] in H. apply andb_true_iff in H. destruct H as [_ H]. cbn [head_toks] in E1. cbn [List.app] in E1. inversion E1. subst t. spelled.
    unfold read_body. cbn [head_toks uncommented].
    assert (I : index_name d (tI (objname_string n)) = n).
    { unfold index_name. cbn [tk_lit tI]. unfold index_name_ok in H. destruct d; try (apply (proj2 (objname_facts _ n H)));
      apply andb_true_iff in H; destruct H as [Ha Hb]; destruct n as [[s|] n]; try discriminate Ha; cbn [on_name] in Hb; unfold objname_string, ident_string; cbn [on_schema on_name]; rewrite (name_new _ n Hb); reflexivity. }
    destruct ie; cbn [List.app].
    + steps. cbn [is_name tI tk_type]. rewrite I. reflexivity.
    + steps. destruct (spells "IF" (tI (objname_string n))); steps; rewrite I; reflexivity.
  - cbn [readable] in H. apply andb_true_iff in H. destruct H as [H H2]. apply andb_true_iff in H. destruct H as [H1 H3].
    cbn [head_toks] in E1, N. cbn [List.app] in E1. inversion E1. subst t. spelled.
    unfold read_body. cbn [head_toks uncommented List.app]. steps. rewrite object_then_read by exact H3. rewrite action_read; [reflexivity|exact H2|].
    cbn [List.app] in N. nbs.
Qed.

Lemma stmt_read : forall d srt s, readable d s = true -> first_kept d srt s -> read_text d srt (stmt_string d s) = Some (uncommented s).
Proof.
  intros d srt s H K. destruct (head_TT d s H) as [N T]. apply read_tokens; auto. rewrite head_string.
  assert (C : no_nul (comment_of s) = true).
  { destruct s as [t|x|c ie n|c ie n|c n a]; cbn [readable stmt_ok comment_of] in *; unfold create_table_ok, create_index_ok in *;
    repeat match goal with K : _ && _ = true |- _ => apply andb_true_iff in K; destruct K as [K _] end; exact H. }
  rewrite (proj2 (comment_FF d _ C)). cbn [List.app]. rewrite T by reflexivity. reflexivity || (destruct d; reflexivity).
Qed.
Lemma app_s_inj : forall a b c, (a ++ c)%string = (b ++ c)%string -> a = b.
Proof.
  intros a b c H. assert (L : String.length a = String.length b).
  { apply (f_equal String.length) in H. rewrite !length_app_s in H. lia. }
  revert b L H. induction a as [|x a IH]; intros [|y b] L H; try discriminate L; [reflexivity|]. cbn [append] in H. inversion H. f_equal. apply IH; [cbn in L; lia|assumption].
Qed.
Lemma sent_read : forall d srt s q, readable d s = true -> first_kept d srt s -> text_of d s q -> read_sent d srt q = Some (uncommented s).
Proof.
  intros d srt s q H K Q. destruct (head_TT d s H) as [N T]. unfold read_sent. apply read_tokens; auto.
  assert (E : q = head d s).
  { unfold text_of in Q. rewrite head_string in Q. replace (comment_string (comment_of (uncommented s))) with "" in Q by (destruct s; reflexivity).
    replace (head d (uncommented s)) with (head d s) in Q by (destruct s; reflexivity). symmetry. exact (app_s_inj (head d s) q (";" ++ nl) Q). }
  subst q. rewrite T by reflexivity. destruct d; reflexivity.
Qed.
