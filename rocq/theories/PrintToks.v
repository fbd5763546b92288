(** The tokens of printed statements (for C08). *)
From Coq Require Import Lia.
From Verif Require Import GoStr Token Lexer LexerFacts LexSpec LexLayout LexKeyword LexPanic Ast Parser Printable PrintLex.

(** * Composition *)

(** A part of a text that is empty or begins with a stop. *)
Definition SEG (d : dialect) (s : string) (ts : list token) : Prop := TT d s ts /\ lead s.
Lemma SEG_nil : forall d, SEG d "" [].
Proof. intro d. split; [apply TT_nil|apply lead_nil]. Qed.
Lemma SEG_app : forall d a ta b tb, SEG d a ta -> SEG d b tb -> SEG d (a ++ b) (ta ++ tb).
Proof. intros d a ta b tb [A1 A2] [B1 B2]. split; [apply TT_TT; assumption|apply lead_app; assumption]. Qed.
Lemma TT_SEG : forall d a ta b tb, TT d a ta -> SEG d b tb -> TT d (a ++ b) (ta ++ tb).
Proof. intros d a ta b tb A [B1 B2]. apply TT_TT; assumption. Qed.
Lemma blank_FF : forall d, FF d " " [].
Proof. intro d. lit_FF. Qed.
Lemma SEG_blank : forall d s ts, TT d s ts -> SEG d (" " ++ s) ts.
Proof.
  intros d s ts H. split; [apply (FF_TT_app d " " [] s ts); [apply blank_FF|exact H]|].
  apply lead1_lead, lead1_app, lead1_byte. reflexivity.
Qed.
Lemma SEG_stop : forall d c s ts, TT d (String c s) ts -> inert c = true -> SEG d (String c s) ts.
Proof. intros d c s ts H Hc. split; [exact H|apply lead1_lead, lead1_byte, Hc]. Qed.
Lemma TT_blank : forall d a ta b tb, TT d a ta -> TT d b tb -> TT d (a ++ " " ++ b) (ta ++ tb).
Proof. intros. apply TT_SEG; [assumption|apply SEG_blank; assumption]. Qed.
Lemma open_FF : forall d, FF d "(" [tOpen].
Proof. intro d. lit_FF. Qed.
Lemma close_FF : forall d, FF d ")" [tClose].
Proof. intro d. lit_FF. Qed.
Lemma nl_FF : forall d, FF d nl [].
Proof. intro d. lit_FF. Qed.

(** Items separated by commas. *)
Fixpoint commas (l : list (list token)) : list token :=
  match l with [] => [] | [x] => x | x :: r => (x ++ tComma :: commas r)%list end.
Lemma join_commas : forall d (A : Type) (f : A -> string) (g : A -> list token) l,
  (forall x, In x l -> TT d (f x) (g x)) -> TT d (join ", " (map f l)) (commas (map g l)).
Proof.
  intros d A f g l. induction l as [|x l IH]; intro H; [apply TT_nil|]. destruct l as [|y l].
  - cbn [map join commas]. apply H. left. reflexivity.
  - change (join ", " (map f (x :: y :: l))) with (f x ++ ", " ++ join ", " (map f (y :: l)))%string.
    change (commas (map g (x :: y :: l))) with (g x ++ [tComma] ++ commas (map g (y :: l)))%list.
    apply TT_TT; [apply H; left; reflexivity| |apply lead1_lead, lead1_app, lead1_byte; reflexivity].
    apply FF_TT_app; [lit_FF|]. apply IH. intros z Hz. apply H. right. exact Hz.
Qed.
Lemma join_blanks : forall d (A : Type) (f : A -> string) (g : A -> list token) l,
  (forall x, In x l -> TT d (f x) (g x)) -> TT d (join " " (map f l)) (flat_map g l).
Proof.
  intros d A f g l. induction l as [|x l IH]; intro H; [apply TT_nil|]. destruct l as [|y l].
  - cbn [map join flat_map]. rewrite app_nil_r. apply H. left. reflexivity.
  - change (join " " (map f (x :: y :: l))) with (f x ++ " " ++ join " " (map f (y :: l)))%string.
    change (flat_map g (x :: y :: l)) with (g x ++ flat_map g (y :: l))%list.
    apply TT_blank; [apply H; left; reflexivity|]. apply IH. intros z Hz. apply H. right. exact Hz.
Qed.
Lemma lines_FF : forall d l, (forall s ts, In (s, ts) l -> TT d s ts) -> FF d (lines_string (map fst l)) (commas (map snd l)).
Proof.
  intros d l. induction l as [|[s ts] l IH]; intro H; [apply FF_nil|]. destruct l as [|y l].
  - cbn [map fst snd lines_string commas]. change ts with ([] ++ ts)%list. apply FF_FF_app; [lit_FF|].
    rewrite <- (app_nil_r ts). apply TT_FF_app; [apply H; left; reflexivity|apply nl_FF|apply lead1_byte; reflexivity].
  - change (lines_string (map fst ((s, ts) :: y :: l))) with (Indent ++ s ++ "," ++ nl ++ lines_string (map fst (y :: l)))%string.
    change (commas (map snd ((s, ts) :: y :: l))) with ([] ++ ts ++ [tComma] ++ [] ++ commas (map snd (y :: l)))%list.
    apply FF_FF_app; [lit_FF|]. apply TT_FF_app; [apply H; left; reflexivity| |apply lead1_app, lead1_byte; reflexivity].
    apply FF_FF_app; [lit_FF|]. apply FF_FF_app; [apply nl_FF|]. apply IH. intros s' ts' Hi. apply H. right. exact Hi.
Qed.

(** * Columns of keys and indexes *)

Definition order_toks (d : dialect) (o : option bool) : list token :=
  match d, o with
  | Pg, _ => []
  | My, Some true => [W d "DESC"]
  | My, _ => []
  | _, Some true => [W d "DESC"]
  | _, Some false => [W d "ASC"]
  | _, None => []
  end.
Definition ci_toks (d : dialect) (c : colident) : list token := tI (id_raw (ci_ident c)) :: order_toks d (ci_order c).
Definition cols_toks (d : dialect) (cs : list colident) : list token := (tOpen :: commas (map (ci_toks d) cs) ++ [tClose])%list.
Lemma colident_TT : forall d c, colident_ok d c = true -> TT d (colident_string d c) (ci_toks d c).
Proof.
  intros d c H. unfold colident_ok in H. apply andb_true_iff in H. destruct H as [H _].
  unfold colident_string, ci_toks, ident_string. change (tI (id_raw (ci_ident c)) :: order_toks d (ci_order c))
    with ([tI (id_raw (ci_ident c))] ++ order_toks d (ci_order c))%list.
  apply TT_SEG; [apply name_TT, H|]. destruct d; destruct (ci_order c) as [[|]|]; cbn [order_toks];
    try apply SEG_nil; apply SEG_stop; try reflexivity; apply lit_TT; reflexivity.
Qed.
Lemma cols_FF : forall d cs, colidents_ok d cs = true -> FF d (cols_string d cs) (cols_toks d cs).
Proof.
  intros d cs H. unfold cols_string, cols_toks. change (tOpen :: commas (map (ci_toks d) cs) ++ [tClose])%list
    with ([tOpen] ++ commas (map (ci_toks d) cs) ++ [tClose])%list.
  apply FF_FF_app; [apply open_FF|]. apply TT_FF_app; [|apply close_FF|apply lead1_byte; reflexivity].
  apply join_commas. intros x Hx. apply colident_TT. unfold colidents_ok in H. rewrite forallb_forall in H. apply H, Hx.
Qed.

(** * Expressions, types, columns *)

Lemma inner_piece_piece : forall d i r, inner_piece d i r = true -> piece d (id_raw i) = true.
Proof.
  intros d i r H. unfold inner_piece in H. apply andb_true_iff in H. destruct H as [_ H]. unfold piece.
  destruct (is_word (id_raw i)); [reflexivity|]. cbn [andb orb] in *. destruct (quoted_text d (id_raw i)); [reflexivity|].
  destruct (sign d (id_raw i)); [reflexivity|]. cbn [andb orb] in *. destruct (long_operator d (id_raw i)); [reflexivity|].
  destruct (long_comparison (id_raw i)); [reflexivity|]. discriminate H.
Qed.
Lemma open_piece : forall d i, open_paren i = true -> piece d (id_raw i) = true.
Proof.
  intros d i H. unfold open_paren in H. apply andb_true_iff in H. destruct H as [H _]. apply andb_true_iff in H. destruct H as [H _].
  unfold piece. rewrite H. rewrite !orb_true_r. reflexivity.
Qed.
Lemma close_piece : forall d i, close_paren i = true -> piece d (id_raw i) = true.
Proof.
  intros d i H. unfold close_paren in H. apply andb_true_iff in H. destruct H as [H _]. apply andb_true_iff in H. destruct H as [H _].
  unfold piece. rewrite H. rewrite !orb_true_r. reflexivity.
Qed.
Lemma operator_piece : forall d s, operator_text d s = true -> piece d s = true.
Proof.
  intros d s H. unfold operator_text in H. apply orb_true_iff in H. destruct H as [H|H].
  - apply existsb_exists in H. destruct H as [x [Hx E]]. apply String.eqb_eq in E. subst x.
    cbn [In] in Hx. repeat (destruct Hx as [Hx|Hx]; [subst s; destruct d; reflexivity|]). destruct Hx.
  - unfold piece. rewrite H. rewrite !orb_true_r. reflexivity.
Qed.
Lemma known_sign_piece : forall d s, known_sign s = true -> piece d s = true.
Proof.
  intros d s H. unfold known_sign in H. apply existsb_exists in H. destruct H as [x [Hx E]]. apply String.eqb_eq in E. subst x.
  cbn [In] in Hx. repeat (destruct Hx as [Hx|Hx]; [subst s; destruct d; reflexivity|]). destruct Hx.
Qed.
Lemma text_piece_piece : forall d s, text_piece d s = true -> piece d s = true.
Proof. intros d s H. unfold text_piece in H. unfold piece. rewrite H. reflexivity. Qed.
Lemma outer_piece_piece : forall d i, outer_piece d i = true -> piece d (id_raw i) = true.
Proof.
  intros d i H. unfold outer_piece in H. apply orb_true_iff in H. destruct H as [H|H].
  - apply orb_true_iff in H. destruct H as [H|H]; [apply open_piece, H|]. apply andb_true_iff in H. destruct H as [_ H].
    apply orb_true_iff in H. destruct H as [H|H].
    + apply text_piece_piece. unfold text_piece. apply orb_true_iff in H. destruct H as [H|H].
      * apply orb_true_iff in H. destruct H as [H|H]; [rewrite H; apply orb_true_r|]. apply andb_true_iff in H. destruct H as [H _]. rewrite H. reflexivity.
      * destruct d; try discriminate H. apply andb_true_iff in H. destruct H as [H _]. rewrite H. reflexivity.
    + apply andb_true_iff in H. destruct H as [_ H]. apply orb_true_iff in H. destruct H as [H|H]; [apply operator_piece, H|].
      unfold type_word in H. apply andb_true_iff in H. destruct H as [H _]. unfold piece. rewrite H. reflexivity.
  - apply andb_true_iff in H. destruct H as [H _]. apply andb_true_iff in H. destruct H as [H _]. apply andb_true_iff in H. destruct H as [H _].
    unfold piece. rewrite H. reflexivity.
Qed.
Lemma balanced_pieces : forall d outer, (forall i, outer i = true -> piece d (id_raw i) = true) ->
  forall l n, balanced d outer n l = true -> forallb (fun i => piece d (id_raw i)) l = true.
Proof.
  intros d outer Ho l. induction l as [|i l IH]; intros n H; [reflexivity|]. cbn [balanced] in H. cbn [forallb]. destruct n as [|n].
  - apply andb_true_iff in H. destruct H as [H1 H2]. rewrite (Ho i H1), (IH _ H2). reflexivity.
  - destruct (open_paren i) eqn:E1; [rewrite (open_piece d i E1), (IH _ H); reflexivity|].
    destruct (close_paren i) eqn:E2; [rewrite (close_piece d i E2), (IH _ H); reflexivity|].
    apply andb_true_iff in H. destruct H as [H1 H2]. rewrite (inner_piece_piece d i l H1), (IH _ H2). reflexivity.
Qed.
Lemma group_TT : forall d l, group_ok d l = true -> TT d (idents_string d l) (piece_toks d l).
Proof.
  intros d l H. destruct l as [|i l]; [discriminate H|]. unfold group_ok in H. apply andb_true_iff in H. destruct H as [H H3].
  apply andb_true_iff in H. destruct H as [H1 H2]. apply pieces_TT; [|exact H3]. cbn [forallb].
  rewrite (open_piece d i H1). apply (balanced_pieces d (fun _ => false)) in H2; [exact H2|discriminate].
Qed.
Lemma value_TT : forall d l, value_ok d l = true -> TT d (idents_string d l) (piece_toks d l).
Proof.
  intros d l H. destruct l as [|i l]; [discriminate H|]. unfold value_ok in H. apply andb_true_iff in H. destruct H as [H H3].
  apply andb_true_iff in H. destruct H as [_ H2]. apply pieces_TT; [|exact H3].
  apply (balanced_pieces d (outer_piece d)) in H2; [exact H2|]. apply outer_piece_piece.
Qed.

Definition dt_toks (d : dialect) (t : datatype) : list token :=
  (map (W d) (split " " (dt_name t)) ++
   match dt_expr t with Some (i :: l) => tOpen :: piece_toks d (i :: l) ++ [tClose] | _ => [] end)%list.
Lemma datatype_TT : forall d t, datatype_ok d t = true -> TT d (datatype_string d t) (dt_toks d t).
Proof.
  intros d t H. unfold datatype_ok in H. apply andb_true_iff in H. destruct H as [H H4]. apply andb_true_iff in H. destruct H as [H _].
  apply andb_true_iff in H. destruct H as [H1 H2]. apply String.eqb_eq in H1. unfold datatype_string, dt_toks.
  apply TT_SEG.
  - rewrite <- H1 at 1. rewrite forallb_forall in H2.
    pose proof (join_blanks d string (fun w => w) (fun w => [W d w]) (split " " (dt_name t)) (fun w Hw => word_TT d w (H2 w Hw))) as J.
    rewrite map_id in J. replace (map (W d) (split " " (dt_name t))) with (flat_map (fun w => [W d w]) (split " " (dt_name t))); [exact J|].
    clear. induction (split " " (dt_name t)) as [|w ws IH]; [reflexivity|]. cbn. rewrite IH. reflexivity.
  - destruct (dt_expr t) as [[|i l]|]; try apply SEG_nil. set (k := i :: l) in *.
    change (tOpen :: piece_toks d k ++ [tClose])%list with ([tOpen] ++ piece_toks d k ++ [tClose])%list.
    apply SEG_stop; [|reflexivity]. apply (FF_TT_app d "("); [apply open_FF|]. apply FF_TT. apply TT_FF_app; [|apply close_FF|apply lead1_byte; reflexivity].
    unfold k in *. clear k. apply andb_true_iff in H4. destruct H4 as [H4 H5]. apply pieces_TT; [|exact H5].
    apply forallb_forall. intros x Hx. rewrite forallb_forall in H4. specialize (H4 x Hx). unfold argument_ok in H4.
    apply andb_true_iff in H4. destruct H4 as [_ H4]. apply orb_true_iff in H4. destruct H4 as [H4|H4]; [|apply known_sign_piece, H4].
    apply orb_true_iff in H4. destruct H4 as [H4|H4]; [apply text_piece_piece, H4|]. unfold piece. rewrite H4, !orb_true_r. reflexivity.
Qed.

Definition default_toks (d : dialect) (v : default) : list token :=
  match v with Some (Some l) => W d "DEFAULT" :: piece_toks d l | _ => [] end.
Lemma nonempty_prefixed_some : forall p s, s <> "" -> nonempty_prefixed p s = (p ++ s)%string.
Proof. intros p s H. unfold nonempty_prefixed, eqs. apply String.eqb_neq in H. rewrite H. reflexivity. Qed.
Lemma default_SEG : forall d v, default_ok d v = true -> SEG d (nonempty_prefixed " " (default_string d v)) (default_toks d v).
Proof.
  intros d v H. destruct v as [[l|]|]; try discriminate H; [|apply SEG_nil]. cbn [default_string default_toks].
  rewrite nonempty_prefixed_some by discriminate. apply SEG_blank.
  change (W d "DEFAULT" :: piece_toks d l) with ([W d "DEFAULT"] ++ piece_toks d l)%list.
  apply FF_TT_app; [lit_FF|]. apply value_TT, H.
Qed.

Definition as_toks (d : dialect) (a : asdef) : list token :=
  match as_value a with
  | Some l => (W d "AS" :: piece_toks d l ++ (if eqs (as_type a) "" then [] else [W d (as_type a)]))%list
  | None => []
  end.
Lemma as_TT : forall d a, as_ok d a = true -> TT d (as_string d (Some a)) (as_toks d a).
Proof.
  intros d [v t] H. unfold as_ok in H. cbn [as_value as_type as_string] in *. apply andb_true_iff in H. destruct H as [H1 H2].
  destruct v as [l|]; [|discriminate H1]. unfold as_toks. cbn [as_value as_type].
  match goal with |- TT _ _ (?x :: ?y) => change (x :: y) with ([x] ++ y)%list end.
  apply FF_TT_app; [lit_FF|]. apply TT_SEG; [apply value_TT, H1|].
  apply existsb_exists in H2. destruct H2 as [x [Hx E]]. apply String.eqb_eq in E. subst x.
  cbn [In] in Hx. destruct Hx as [Hx|[Hx|[Hx|[]]]]; subst t; [apply SEG_nil| |]; apply SEG_blank; cbn [eqs]; lit_TT.
Qed.

Definition onaction_toks (d : dialect) (s : string) : list token :=
  match split " " s with [o; u; v] => [W d o; W d u; W d v] | _ => [] end.
Lemma onaction_TT : forall d s, onaction_ok d s = true -> TT d s (onaction_toks d s).
Proof.
  intros d s H. unfold onaction_ok in H. unfold onaction_toks.
  destruct (split " " s) as [|o [|u [|v [|]]]]; try discriminate H.
  repeat (apply andb_true_iff in H; let K := fresh "K" in destruct H as [H K]).
  apply String.eqb_eq in H. subst o. match goal with K : String.eqb s _ = true |- _ => apply String.eqb_eq in K; rewrite K end.
  change [W d "ON"; W d u; W d v] with ([W d "ON"] ++ [W d u] ++ [W d v])%list. apply FF_TT_app; [lit_FF|].
  apply TT_blank; apply word_TT; assumption.
Qed.
Definition text_tok (d : dialect) (s : string) : token := if is_word s then W d s else tI s.
Lemma text_TT : forall d s, text_piece d s = true -> TT d s [text_tok d s].
Proof.
  intros d s H. unfold text_piece in H. unfold text_tok. destruct (is_word s) eqn:E; [apply word_TT, E|]. apply FF_TT, quoted_FF, H.
Qed.

Definition notnull_toks (d : dialect) (b : bool) : list token := if b then [W d "NOT"; W d "NULL"] else [].
Definition oident_toks (d : dialect) (kw : list token) (i : option ident) : list token :=
  match i with Some i => (kw ++ [text_tok d (id_raw i)])%list | None => [] end.
Definition attr_toks (d : dialect) (c : column) : list token :=
  match d with
  | Pg => default_toks d (c_default c) ++ notnull_toks d (c_notnull c)
  | Crdb => (if c_notvisible c then [W d "NOT"; W d "VISIBLE"] else []) ++ notnull_toks d (c_notnull c)
            ++ default_toks d (c_default c) ++ match c_as c with Some a => as_toks d a | None => [] end
  | My => oident_toks d [W d "CHARACTER"; W d "SET"] (c_charset c) ++ oident_toks d [W d "COLLATE"] (c_collate c)
          ++ (if c_notnull c then [W d "NOT"; W d "NULL"] else [W d "NULL"]) ++ default_toks d (c_default c)
          ++ (if c_autoinc c then [W d "AUTO_INCREMENT"] else []) ++ onaction_toks d (c_onaction c)
          ++ (if eqs (c_comment c) "" then [] else [W d "COMMENT"; text_tok d (c_comment c)])
  | Sp => notnull_toks d (c_notnull c) ++ default_toks d (c_default c)
          ++ match c_options c with Some l => W d "OPTIONS" :: piece_toks d l | None => [] end
  end%list.
Definition column_toks (d : dialect) (c : column) : list token :=
  (tI (id_raw (c_name c)) :: dt_toks d (c_type c) ++ attr_toks d c)%list.

Lemma text_nonempty : forall d s, text_piece d s = true -> s <> "".
Proof. intros d s H E. subst s. destruct d; discriminate H. Qed.
Lemma notnull_SEG : forall d (b : bool), SEG d (if b then " NOT NULL" else "") (notnull_toks d b).
Proof. intros d b. destruct b; [|apply SEG_nil]. apply SEG_stop; [|reflexivity]. lit_TT. Qed.
Lemma oident_SEG : forall d p kw i, FF d p kw -> lead1 p -> ident_text_ok d i = true ->
  SEG d (nonempty_prefixed p (oident_string i)) (oident_toks d kw i).
Proof.
  intros d p kw i Hp Hl H. destruct i as [i|]; [|apply SEG_nil]. cbn [ident_text_ok] in H. apply andb_true_iff in H. destruct H as [_ H].
  cbn [oident_string oident_toks]. unfold ident_string. rewrite nonempty_prefixed_some by (apply (text_nonempty d), H). split.
  - apply FF_TT_app; [exact Hp|]. apply text_TT, H.
  - apply lead1_lead, lead1_app, Hl.
Qed.
Lemma onaction_SEG : forall d s, String.eqb s "" || onaction_ok d s = true -> SEG d (nonempty_prefixed " " s) (onaction_toks d s).
Proof.
  intros d s H. apply orb_true_iff in H. destruct H as [H|H]; [apply String.eqb_eq in H; subst s; apply SEG_nil|].
  rewrite nonempty_prefixed_some; [apply SEG_blank, onaction_TT, H|]. intro E. subst s. discriminate H.
Qed.
Lemma comment_SEG : forall d s, String.eqb s "" || text_piece d s = true ->
  SEG d (nonempty_prefixed " COMMENT " s) (if eqs s "" then [] else [W d "COMMENT"; text_tok d s]).
Proof.
  intros d s H. unfold nonempty_prefixed, eqs. destruct (String.eqb s "") eqn:E; [apply SEG_nil|]. cbn [orb] in H.
  split; [|apply lead1_lead, lead1_app, lead1_byte; reflexivity]. change [W d "COMMENT"; text_tok d s] with ([W d "COMMENT"] ++ [text_tok d s])%list.
  apply FF_TT_app; [lit_FF|apply text_TT, H].
Qed.
Lemma bool_SEG : forall d (b : bool) s ts, SEG d s ts -> SEG d (if b then s else "") (if b then ts else []).
Proof. intros d b s ts H. destruct b; [exact H|apply SEG_nil]. Qed.

Lemma idents_nonempty : forall d l, group_ok d l = true -> idents_string d l <> "".
Proof.
  intros d l H E. destruct l as [|i l]; [discriminate H|]. unfold group_ok in H. apply andb_true_iff in H. destruct H as [H _].
  apply andb_true_iff in H. destruct H as [H _]. unfold open_paren in H. apply andb_true_iff in H. destruct H as [H _].
  apply andb_true_iff in H. destruct H as [H _]. apply String.eqb_eq in H. cbn [idents_string] in E. unfold ident_string in E. rewrite H in E. discriminate E.
Qed.
Lemma column_TT : forall d c, column_ok d c = true -> TT d (column_string d c) (column_toks d c).
Proof.
  intros d c H. unfold column_ok in H. apply andb_true_iff in H. destruct H as [H H6]. apply andb_true_iff in H. destruct H as [H H5].
  apply andb_true_iff in H. destruct H as [H H4]. apply andb_true_iff in H. destruct H as [H H3]. apply andb_true_iff in H. destruct H as [H1 H2].
  unfold column_string, column_toks, ident_string.
  match goal with |- TT _ _ (?x :: ?y) => change (x :: y) with ([x] ++ y)%list end.
  apply TT_blank; [apply name_TT, H1|]. apply TT_SEG; [apply datatype_TT, H2|]. unfold attr_toks. destruct d.
  - apply SEG_app; [apply default_SEG, H3|apply notnull_SEG].
  - apply SEG_app; [apply bool_SEG, SEG_stop; [|reflexivity]; apply lit_TT; reflexivity|]. apply SEG_app; [apply notnull_SEG|].
    apply SEG_app; [apply default_SEG, H3|]. destruct (c_as c) as [a|]; [|apply SEG_nil]. apply SEG_blank, as_TT.
    apply andb_true_iff in H4. apply H4.
  - repeat (apply andb_true_iff in H5; let K := fresh "K" in destruct H5 as [H5 K]).
    apply SEG_app; [apply oident_SEG; [eapply lit_FF; reflexivity|apply lead1_byte; reflexivity|assumption]|].
    apply SEG_app; [apply oident_SEG; [eapply lit_FF; reflexivity|apply lead1_byte; reflexivity|assumption]|].
    apply SEG_app; [destruct (c_notnull c); (apply SEG_stop; [apply lit_TT; reflexivity|reflexivity])|].
    apply SEG_app; [apply default_SEG, H3|].
    apply SEG_app; [apply bool_SEG, SEG_stop; [apply lit_TT; reflexivity|reflexivity]|].
    apply SEG_app; [apply onaction_SEG; assumption|]. apply comment_SEG. assumption.
  - apply SEG_app; [apply notnull_SEG|]. apply SEG_app; [apply default_SEG, H3|].
    destruct (c_options c) as [l|]; [|apply SEG_nil]. apply andb_true_iff in H6. destruct H6 as [H6 _]. cbn [expr_string].
    rewrite nonempty_prefixed_some by (apply idents_nonempty, H6). split; [|apply lead1_lead, lead1_app, lead1_byte; reflexivity].
    match goal with |- TT _ _ (?x :: ?y) => change (x :: y) with ([x] ++ y)%list end. apply FF_TT_app; [eapply lit_FF; reflexivity|apply group_TT, H6].
Qed.

(** * Constraints *)

Definition named_toks (d : dialect) (n : option ident) : list token :=
  match n with Some n => [W d "CONSTRAINT"; tI (id_raw n)] | None => [] end.
Definition constraint_toks (d : dialect) (c : constraint) : list token :=
  match c with
  | CPrimary n cols =>
      match d with My => [] | _ => named_toks d n end ++ [W d "PRIMARY"; W d "KEY"] ++ cols_toks d cols
  | CForeign n cols ref refcols _ =>
      named_toks d n ++ [W d "FOREIGN"; W d "KEY"] ++ cols_toks d cols ++ [W d "REFERENCES"; tI (id_raw ref)] ++ cols_toks d refcols
  | CUnique n cols => named_toks d n ++ [W d "UNIQUE"] ++ cols_toks d cols
  | CIndex n unique _ cols _ =>
      (if unique then [W d "UNIQUE"] else []) ++ [W d (match d with My => "KEY" | _ => "INDEX" end)]
      ++ match n with Some n => [tI (id_raw n)] | None => [] end ++ cols_toks d cols
  | CCheck n e => named_toks d n ++ [W d "CHECK"] ++ match e with Some l => piece_toks d l | None => [] end
  end%list.
Lemma named_FF : forall d n, oname_ok d n = true -> FF d (name_prefix "CONSTRAINT " ident_string n) (named_toks d n).
Proof.
  intros d n H. destruct n as [n|]; [|discriminate H]. cbn [name_prefix named_toks]. change [W d "CONSTRAINT"; tI (id_raw n)]
    with ([W d "CONSTRAINT"] ++ [tI (id_raw n)] ++ [])%list.
  apply FF_FF_app; [lit_FF|]. apply TT_FF_app; [apply name_TT, H|apply blank_FF|apply lead1_byte; reflexivity].
Qed.
Lemma kw_FF : forall d s ts b tb, FF d s ts -> FF d b tb -> FF d (s ++ b) (ts ++ tb).
Proof. intros. apply FF_FF_app; assumption. Qed.
Lemma constraint_TT : forall d c, constraint_ok d c = true -> TT d (constraint_string d c) (constraint_toks d c).
Proof.
  intros d c H. destruct c as [n cols|n cols ref refcols on|n cols|n u pre cols post|n e]; cbn [constraint_ok constraint_string constraint_toks] in *.
  - apply FF_TT. apply FF_FF_app.
    + destruct d; try discriminate H; try apply FF_nil; apply named_FF; apply andb_true_iff in H; apply H.
    + change ([W d "PRIMARY"; W d "KEY"] ++ cols_toks d cols)%list with ([W d "PRIMARY"; W d "KEY"] ++ [] ++ cols_toks d cols)%list.
      apply TT_FF_app; [lit_TT| |apply lead1_app, lead1_byte; reflexivity]. apply FF_FF_app; [apply blank_FF|]. apply cols_FF.
      destruct d; try discriminate H; apply andb_true_iff in H; apply H.
  - repeat (apply andb_true_iff in H; let K := fresh "K" in destruct H as [H K]). apply String.eqb_eq in K. subst on.
    replace (match d with Pg | Crdb => nonempty_prefixed " " "" | _ => "" end) with "" by (destruct d; reflexivity). rewrite app_s_nil.
    apply FF_TT. apply FF_FF_app; [apply named_FF, H|].
    change ([W d "FOREIGN"; W d "KEY"] ++ cols_toks d cols ++ [W d "REFERENCES"; tI (id_raw ref)] ++ cols_toks d refcols)%list
      with ([W d "FOREIGN"; W d "KEY"] ++ [] ++ cols_toks d cols ++ [W d "REFERENCES"] ++ [tI (id_raw ref)] ++ [] ++ cols_toks d refcols)%list.
    apply TT_FF_app; [lit_TT| |apply lead1_app, lead1_byte; reflexivity]. apply FF_FF_app; [apply blank_FF|].
    apply FF_FF_app; [apply cols_FF; assumption|]. apply FF_FF_app; [lit_FF|].
    apply TT_FF_app; [apply name_TT; assumption| |apply lead1_app, lead1_byte; reflexivity]. apply FF_FF_app; [apply blank_FF|]. apply cols_FF. assumption.
  - apply FF_TT. destruct d; try discriminate H. apply andb_true_iff in H. destruct H as [H1 H2].
    apply FF_FF_app; [apply named_FF, H1|]. apply FF_FF_app; [eapply lit_FF; reflexivity|apply cols_FF, H2].
  - apply FF_TT. assert (K : oname_ok d n && colidents_ok d cols && missing pre && missing post = true) by (destruct d; try discriminate H; exact H).
    assert (D : d = Crdb \/ d = My) by (destruct d; try discriminate H; auto). clear H.
    apply andb_true_iff in K. destruct K as [K K4]. apply andb_true_iff in K. destruct K as [K K3]. apply andb_true_iff in K. destruct K as [K1 K2].
    destruct pre; [discriminate K3|]. destruct post; [discriminate K4|]. destruct n as [n|]; [|discriminate K1]. rewrite app_s_nil.
    cbn [append]. apply FF_FF_app; [destruct u; [lit_FF|apply FF_nil]|]. cbn [name_prefix]. rewrite app_s_assoc.
    apply FF_FF_app; [destruct D; subst d; eapply lit_FF; reflexivity|]. rewrite app_s_assoc.
    apply TT_FF_app; [apply name_TT, K1| |apply lead1_app, lead1_byte; reflexivity].
    change (cols_toks d cols) with ([] ++ cols_toks d cols)%list. apply FF_FF_app; [apply blank_FF|apply cols_FF, K2].
  - destruct e as [l|]; [|destruct d; discriminate H].
    assert (K : oname_ok d n && group_ok d l = true) by (destruct d; try discriminate H; exact H).
    apply andb_true_iff in K. destruct K as [K1 K2]. apply FF_TT_app; [apply named_FF, K1|]. apply FF_TT_app; [lit_FF|apply group_TT, K2].
Qed.

(** * Names of tables and indexes *)

Lemma word_no_mark : forall d w, is_word w = true -> starts_with_mark d w = false.
Proof.
  intros d w H. destruct (is_word_all w H) as [H1 H2]. destruct w as [|c w]; [congruence|]. cbn [all_bytes starts_with_mark] in *.
  apply andb_true_iff in H1. destruct H1 as [Hc _]. destruct (existsb (Ascii.eqb c) (name_marks d)) eqn:E; [|reflexivity].
  apply existsb_exists in E. destruct E as [q [Hq E]]. apply Ascii.eqb_eq in E. subst q.
  destruct d; cbn in Hq; repeat (destruct Hq as [Hq|Hq]; [subst c; discriminate Hc|]); destruct Hq.
Qed.
Lemma quotable_app : forall q a b, quotable q (a ++ b) = quotable q a && quotable q b.
Proof. intros. unfold quotable. apply all_bytes_app. Qed.
Lemma objname_facts : forall d n, objname_ok d n = true ->
  TT d (objname_string n) [tI (objname_string n)] /\ NewObjectName d (objname_string n) = n.
Proof.
  intros d [[s|] n] H; unfold objname_ok in H; cbn [on_schema on_name] in H; unfold objname_string, NewObjectName; cbn [on_schema on_name].
  - apply andb_true_iff in H. destruct H as [H H3]. apply andb_true_iff in H. destruct H as [H1 H2].
    apply String.eqb_eq in H1. unfold ident_diff.
    destruct (split "." (id_name s ++ "." ++ id_name n)) as [|a [|b [|]]] eqn:Es; try discriminate H2.
    apply andb_true_iff in H2. destruct H2 as [Ea Eb]. apply String.eqb_eq in Ea, Eb. subst a b.
    apply orb_true_iff in H3. destruct H3 as [H3|H3].
    + apply andb_true_iff in H3. destruct H3 as [Q1 Q2].
      pose proof (wellformed_new d s ltac:(unfold wellformed_ident; rewrite Q1; reflexivity)) as Ws.
      pose proof (wellformed_new d n ltac:(unfold wellformed_ident; rewrite Q2; reflexivity)) as Wn.
      destruct (quoted_ident_parts d s Q1) as [q [M1 [M2 M3]]]. destruct (quoted_ident_parts d n Q2) as [q2 [N1 [N2 N3]]].
      assert (q2 = q) by (rewrite M3, N3 in H1; cbn [id_quote] in H1; congruence). subst q2.
      assert (Qn : id_quote n = String q "") by (rewrite N3; reflexivity).
      assert (Rs : id_raw s = String q (id_name s ++ String q "")) by (rewrite M3 at 1; reflexivity).
      assert (Rn : id_raw n = String q (id_name n ++ String q "")) by (rewrite N3 at 1; reflexivity).
      rewrite Qn. set (body := (id_name s ++ "." ++ id_name n)%string) in *.
      assert (E : (String q "" ++ id_name s ++ "." ++ id_name n ++ String q "" = String q (body ++ String q ""))%string)
        by (unfold body; rewrite !app_s_assoc; reflexivity). rewrite E.
      assert (Hb : quotable q body = true).
      { unfold body. rewrite !quotable_app, M2, N2. cbn [andb]. rewrite andb_true_r. clear - M1. destruct d; cbn in M1;
        repeat (destruct M1 as [M1|M1]; [subst q; reflexivity|]); destruct M1. }
      split.
      * apply FF_TT, quoted_FF. cbn [quoted_text]. rewrite (mark_quote d q M1), (closed_by_end q body Hb). reflexivity.
      * rewrite (quoted_new d q body M1 Hb). cbn [id_name id_quote]. rewrite Es. cbn [append].
        rewrite <- Rs, <- Rn, Ws, Wn. reflexivity.
    + apply andb_true_iff in H3. destruct H3 as [H3 K]. apply andb_true_iff in H3. destruct H3 as [H3 Hw]. apply andb_true_iff in H3. destruct H3 as [Q1 Q2].
      apply negb_true_iff in K.
      pose proof (wellformed_new d s ltac:(unfold wellformed_ident; rewrite Q1; apply orb_true_r)) as Ws.
      pose proof (wellformed_new d n ltac:(unfold wellformed_ident; rewrite Q2; apply orb_true_r)) as Wn.
      destruct (bare_ident_parts d s Q1) as [P1 _]. destruct (bare_ident_parts d n Q2) as [P2 _].
      assert (Qn : id_quote n = "") by (rewrite P2; reflexivity).
      assert (Rs : id_name s = id_raw s) by (rewrite P1; reflexivity). assert (Rn : id_name n = id_raw n) by (rewrite P2; reflexivity).
      rewrite Qn, app_s_nil. cbn [append].
      change ((id_name s ++ String "." (id_name n))%string) with ((id_name s ++ "." ++ id_name n)%string). split.
      * unfold tI. rewrite <- (not_keyword d _ K). apply word_TT, Hw.
      * rewrite (prefix_mark d _ (word_no_mark d _ Hw)). cbn [id_name id_quote]. rewrite Es. rewrite !app_s_nil. cbn [append].
        rewrite Rs, Rn, Ws, Wn. reflexivity.
  - apply andb_true_iff in H. destruct H as [H1 H2]. unfold ident_string. split; [apply name_TT, H1|].
    rewrite (name_new d n H1). destruct (split "." (id_name n)) as [|a [|b [|]]]; try discriminate H2; reflexivity.
Qed.

(** * Statements *)

Definition option_name_toks (d : dialect) (s : string) : list token := lex d s.
Definition option_toks (d : dialect) (o : option_) : list token :=
  match d, o_value o with
  | My, Some l => lex d (o_name o) ++ [tEqual] ++ map (fun i => tI (id_raw i)) l
  | Sp, Some l =>
      if String.eqb (o_name o) "INTERLEAVE IN PARENT"
      then lex d (o_name o) ++ match l with t :: r => tI (id_raw t) :: flat_map (fun i => lex d (id_raw i)) r | [] => [] end
      else lex d (o_name o) ++ piece_toks d l
  | _, _ => []
  end%list.
Lemma expr_sep_name : forall d a b, piece d a = true -> is_word a || quoted_text d a = true ->
  String.prefix "ON DELETE" b = true -> expr_sep d a b = " ".
Proof.
  intros d a b _ H Hb.
  assert (B : forall s, String.prefix "ON DELETE" s = false -> eqs b s = false).
  { intros s Hs. unfold eqs. destruct (String.eqb b s) eqn:E; [|reflexivity]. apply String.eqb_eq in E. congruence. }
  assert (A : forall s, is_word s || quoted_text d s = false -> eqs a s = false).
  { intros s Hs. unfold eqs. destruct (String.eqb a s) eqn:E; [|reflexivity]. apply String.eqb_eq in E. congruence. }
  unfold expr_sep. rewrite (A "||"), (A "("), (A "::"), (A ":::") by (destruct d; reflexivity).
  rewrite (B "||"), (B "("), (B ")"), (B "::"), (B ":::"), (B ",") by reflexivity. destruct d; reflexivity.
Qed.
Lemma name_text : forall d i, name_ok d i = true -> is_word (id_raw i) || quoted_text d (id_raw i) = true.
Proof.
  intros d i H. unfold name_ok in H. apply orb_true_iff in H. destruct H as [H|H]; [rewrite (quoted_ident_text d i H); apply orb_true_r|].
  apply andb_true_iff in H. destruct H as [H _]. apply andb_true_iff in H. destruct H as [_ H]. rewrite H. reflexivity.
Qed.
Lemma same_text_eq : forall i s, same_text i s = true -> i = mkIdent s "" s.
Proof.
  intros [n q r] s H. unfold same_text in H. cbn [id_name id_quote id_raw] in H. apply andb_true_iff in H. destruct H as [H H3].
  apply andb_true_iff in H. destruct H as [H1 H2]. apply String.eqb_eq in H1, H2, H3. subst. reflexivity.
Qed.
Lemma option_TT : forall d o, option_ok d o = true -> TT d (option_string d o) (option_toks d o).
Proof.
  intros d [n v] H. unfold option_ok, option_string, option_toks in *. cbn [o_name o_value] in *. destruct d; try discriminate H.
  - destruct v as [[|v [|]]|]; try discriminate H. apply andb_true_iff in H. destruct H as [H1 H2].
    apply existsb_exists in H1. destruct H1 as [x [Hx E]]. apply String.eqb_eq in E. subst x.
    apply TT_TT; [| |apply lead1_lead, lead1_app, lead1_byte; reflexivity].
    + cbn [In] in Hx. repeat (destruct Hx as [Hx|Hx]; [subst n; apply lit_TT; reflexivity|]). destruct Hx.
    + apply FF_TT_app; [eapply lit_FF; reflexivity|]. cbn [map idents_string idents_string_from]. rewrite app_s_nil. apply name_TT, H2.
  - destruct v as [l|]; [|discriminate H]. apply orb_true_iff in H. destruct H as [H|H].
    + apply andb_true_iff in H. destruct H as [H1 H2]. apply String.eqb_eq in H1. subst n. cbn [String.eqb].
      change (TT Sp ("PRIMARY KEY" ++ " " ++ idents_string Sp l) (lex Sp "PRIMARY KEY" ++ piece_toks Sp l)).
      apply TT_blank; [apply lit_TT; reflexivity|apply group_TT, H2].
    + apply andb_true_iff in H. destruct H as [H1 H2]. apply String.eqb_eq in H1. subst n. rewrite String.eqb_refl.
      apply TT_blank; [apply lit_TT; reflexivity|]. destruct l as [|t [|on [|]]]; try discriminate H2.
      * cbn [idents_string idents_string_from flat_map]. rewrite app_s_nil. apply name_TT, H2.
      * apply andb_true_iff in H2. destruct H2 as [H2 H3]. cbn [idents_string idents_string_from flat_map]. rewrite app_s_nil, app_nil_r.
        assert (P : String.prefix "ON DELETE" (id_raw on) = true /\ TT Sp (id_raw on) (lex Sp (id_raw on))).
        { apply orb_true_iff in H3. destruct H3 as [H3|H3]; apply same_text_eq in H3; subst on; cbn [id_raw]; (split; [reflexivity|]); apply lit_TT; reflexivity. }
        destruct P as [P1 P2]. unfold ident_string.
        rewrite (expr_sep_name Sp) by (try apply text_piece_piece; try unfold text_piece; try apply name_text; assumption).
        match goal with |- TT _ _ (?x :: ?y) => change (x :: y) with ([x] ++ y)%list end.
        apply TT_blank; [apply name_TT, H2|exact P2].
Qed.
Definition sp_join_toks : list (list token) -> list token := commas.
Definition options_toks (d : dialect) (l : list option_) : list token :=
  match d with My => flat_map (option_toks d) l | _ => commas (map (option_toks d) l) end.
Lemma join_lines : forall d (A : Type) (f : A -> string) (g : A -> list token) l,
  (forall x, In x l -> TT d (f x) (g x)) -> TT d (join ("," ++ nl) (map f l)) (commas (map g l)).
Proof.
  intros d A f g l. induction l as [|x l IH]; intro H; [apply TT_nil|]. destruct l as [|y l].
  - cbn [map join commas]. apply H. left. reflexivity.
  - change (join ("," ++ nl) (map f (x :: y :: l))) with (f x ++ ("," ++ nl) ++ join ("," ++ nl) (map f (y :: l)))%string.
    change (commas (map g (x :: y :: l))) with (g x ++ [tComma] ++ commas (map g (y :: l)))%list.
    apply TT_TT; [apply H; left; reflexivity| |apply lead1_lead, lead1_app, lead1_byte; reflexivity].
    apply FF_TT_app; [lit_FF|]. apply IH. intros z Hz. apply H. right. exact Hz.
Qed.
Lemma options_SEG : forall d l, forallb (option_ok d) l = true ->
  SEG d (match l with [] => "" | l => match d with My | Sp => " " | _ => nl end ++ options_string d l end) (options_toks d l).
Proof.
  intros d l H. destruct l as [|o l]; [replace (options_toks d []) with (@nil token) by (destruct d; reflexivity); apply SEG_nil|].
  rewrite forallb_forall in H.
  assert (T : forall x, In x (o :: l) -> TT d (option_string d x) (option_toks d x)) by (intros x Hx; apply option_TT, H, Hx).
  set (k := o :: l) in *. unfold options_string, options_toks.
  destruct d; try (exfalso; specialize (H o (or_introl eq_refl)); unfold option_ok in H; discriminate H).
  - apply SEG_blank, join_blanks, T.
  - apply SEG_blank, join_lines, T.
Qed.
Definition rowdel_toks (d : dialect) (o : option option_) : list token :=
  match d, o with
  | Sp, Some o => tComma :: lex d (o_name o) ++ match o_value o with Some l => piece_toks d l | None => [] end
  | _, _ => []
  end%list.
Lemma word_for_parts : forall d t i, word_for d t i = true -> bare_ident d i = true /\ is_word (id_raw i) = true /\ lookupIdent d (id_raw i) = t.
Proof.
  intros d t i H. unfold word_for in H. apply andb_true_iff in H. destruct H as [H H3]. apply andb_true_iff in H. destruct H as [H1 H2].
  apply String.eqb_eq in H3. auto.
Qed.
Lemma text_no_colon : forall d i, is_word (id_raw i) || quoted_text d (id_raw i) = true -> starts_colon i = false.
Proof.
  intros d i H. unfold starts_colon. destruct (id_raw i) as [|c r] eqn:E; [reflexivity|].
  destruct (Ascii.eqb c ":") eqn:Ec; [|reflexivity]. apply Ascii.eqb_eq in Ec. subst c. destruct d; discriminate H.
Qed.
Lemma open_no_colon : forall i, open_paren i = true -> starts_colon i = false.
Proof.
  intros i H. unfold open_paren in H. apply andb_true_iff in H. destruct H as [H _]. apply andb_true_iff in H. destruct H as [H _].
  apply String.eqb_eq in H. unfold starts_colon. rewrite H. reflexivity.
Qed.
Lemma close_no_colon : forall i, close_paren i = true -> starts_colon i = false.
Proof.
  intros i H. unfold close_paren in H. apply andb_true_iff in H. destruct H as [H _]. apply andb_true_iff in H. destruct H as [H _].
  apply String.eqb_eq in H. unfold starts_colon. rewrite H. reflexivity.
Qed.
Lemma rowdel_SEG : forall d o, rowdel_ok d o = true ->
  SEG d (match d, o with Sp, Some o => "," ++ nl ++ option_string d o | _, _ => "" end) (rowdel_toks d o).
Proof.
  intros d o H. destruct o as [[n v]|]; [|destruct d; apply SEG_nil]. destruct d; try discriminate H.
  unfold rowdel_ok, option_string, rowdel_toks in *. cbn [o_name o_value] in *. apply andb_true_iff in H. destruct H as [H1 H2].
  apply String.eqb_eq in H1. subst n. destruct v as [l|]; [|discriminate H2].
  apply SEG_stop; [|reflexivity]. match goal with |- TT _ _ (?x :: ?y) => change (x :: y) with ([x] ++ [] ++ y)%list end.
  apply (FF_TT_app Sp ","); [eapply lit_FF; reflexivity|]. apply (FF_TT_app Sp nl); [apply nl_FF|].
  apply TT_blank; [apply lit_TT; reflexivity|].
  do 10 (destruct l as [|? l]; [discriminate H2|]). destruct l; [|discriminate H2].
  repeat match goal with H : (_ && open_paren _ = true) |- _ => apply andb_true_iff in H; let K := fresh "K" in destruct H as [H K]
                       | H : (_ && close_paren _ = true) |- _ => apply andb_true_iff in H; let K := fresh "K" in destruct H as [H K]
                       | H : (_ && name_ok _ _ = true) |- _ => apply andb_true_iff in H; let K := fresh "K" in destruct H as [H K]
                       | H : (_ && word_for _ _ _ = true) |- _ => apply andb_true_iff in H; let K := fresh "K" in destruct H as [H K]
                       | H : (_ && same_text _ _ = true) |- _ => apply andb_true_iff in H; let K := fresh "K" in destruct H as [H K]
                       end.
  repeat match goal with
         | H : word_for _ _ _ = true |- _ => apply word_for_parts in H; destruct H as [_ [H _]]
         | H : name_ok _ ?i = true |- _ => apply name_text in H
         end.
  match goal with H : same_text _ "," = true |- _ => apply same_text_eq in H; subst end.
  apply pieces_TT.
  - cbn [forallb id_raw].
    repeat match goal with
           | H : is_word ?i || quoted_text Sp ?i = true |- _ => rewrite (text_piece_piece Sp i H); clear H
           | H : open_paren ?i = true |- _ => rewrite (open_piece Sp i H); clear H
           | H : close_paren ?i = true |- _ => rewrite (close_piece Sp i H); clear H
           | H : is_word ?i = true |- _ => rewrite (text_piece_piece Sp i (ltac:(unfold text_piece; rewrite H; reflexivity))); clear H
           end. reflexivity.
  - cbn [no_colons].
    repeat match goal with
           | H : is_word (id_raw ?i) || quoted_text Sp (id_raw ?i) = true |- _ => rewrite (text_no_colon Sp i H); clear H
           | H : open_paren ?i = true |- _ => rewrite (open_no_colon i H); clear H
           | H : close_paren ?i = true |- _ => rewrite (close_no_colon i H); clear H
           | H : is_word (id_raw ?i) = true |- _ => rewrite (text_no_colon Sp i (ltac:(rewrite H; reflexivity))); clear H
           end. reflexivity.
Qed.

Lemma split_skip_lines : forall s k, no_nul s = true -> forallb one_line (split_skip nl k s) = true.
Proof.
  intro s. induction s as [|c s IH]; intros k H; [reflexivity|]. cbn [no_nul all_bytes] in H. unfold no_nul in H. cbn [all_bytes] in H.
  apply andb_true_iff in H. destruct H as [Hc H]. cbn [split_skip]. destruct k; [|apply IH, H].
  destruct (String.prefix nl (String c s)) eqn:E.
  - cbn [forallb]. rewrite (IH _ H). reflexivity.
  - assert (Ec : Ascii.eqb c ch_nl = false).
    { destruct (Ascii.eqb c ch_nl) eqn:Ec; [|reflexivity]. apply Ascii.eqb_eq in Ec. subst c. destruct s; discriminate E. }
    specialize (IH 0 H). destruct (split_skip nl 0 s) as [|x r]; unfold one_line in *; cbn [forallb all_bytes] in *; rewrite Ec, Hc; [reflexivity|].
    apply andb_true_iff in IH. destruct IH as [I1 I2]. rewrite I1, I2. reflexivity.
Qed.
Lemma comment_FF : forall d c, no_nul c = true -> FF d (comment_string c) [].
Proof.
  intros d c H. unfold comment_string, eqs. destruct (String.eqb c ""); [apply FF_nil|]. pose proof (split_skip_lines c 0 H) as L.
  unfold split. induction (split_skip nl 0 c) as [|x l IH]; [apply FF_nil|]. cbn [forallb] in L. apply andb_true_iff in L. destruct L as [Lx L].
  cbn [map concat_str]. apply (FF_FF_app d _ [] _ []); [|apply IH, L]. unfold comment_line, eqs. destruct (String.eqb x ""); [apply FF_nil|].
  split; [constructor|]. intro r. cbn [List.app]. apply lex_gap_start.
  assert (G : gap ("--" ++ (String " " x) ++ nl ++ "")) by (apply gap_comment; [exact Lx|constructor]). rewrite app_s_nil in G. exact G.
Qed.

Definition ine_toks (d : dialect) (b : bool) : list token := if b then lex d "IF NOT EXISTS " else [].
Definition create_table_toks (d : dialect) (t : create_table) : list token :=
  (lex d "CREATE TABLE " ++ ine_toks d (ct_ifnotexists t) ++ [tI (objname_string (ct_name t))] ++ [tOpen]
   ++ commas (map (column_toks d) (ct_columns t) ++ map (constraint_toks d) (ct_constraints t)) ++ [tClose]
   ++ options_toks d (ct_options t) ++ rowdel_toks d (ct_rowdel t) ++ [tSemi])%list.
Lemma create_table_FF : forall d t, create_table_ok d t = true -> FF d (create_table_string d t) (create_table_toks d t).
Proof.
  intros d t H. unfold create_table_ok in H.
  apply andb_true_iff in H. destruct H as [H H6]. apply andb_true_iff in H. destruct H as [H H5]. apply andb_true_iff in H. destruct H as [H H4].
  apply andb_true_iff in H. destruct H as [H H3]. apply andb_true_iff in H. destruct H as [H1 H2].
  unfold create_table_string, create_table_toks.
  apply (FF_FF_app d _ []); [apply comment_FF, H1|]. apply FF_FF_app; [lit_FF|].
  apply FF_FF_app; [destruct (ct_ifnotexists t); [unfold ine_toks; lit_FF|apply FF_nil]|].
  apply TT_FF_app; [apply (objname_facts d (ct_name t) H2)| |apply lead1_app, lead1_byte; reflexivity].
  apply FF_FF_app; [lit_FF|]. apply (FF_FF_app d nl []); [apply nl_FF|].
  apply FF_FF_app.
  - rewrite forallb_forall in H3. unfold constraints_ok in H4.
    assert (C : forall c, In c (ct_constraints t) -> constraint_ok d c = true).
    { repeat (apply andb_true_iff in H4; destruct H4 as [H4 _]). rewrite forallb_forall in H4. exact H4. }
    pose proof (lines_FF d (map (fun c => (column_string d c, column_toks d c)) (ct_columns t)
                            ++ map (fun c => (constraint_string d c, constraint_toks d c)) (ct_constraints t))) as L.
    rewrite !map_app, !map_map in L. cbn [fst snd] in L. apply L. intros a ta Hp. apply in_app_or in Hp. destruct Hp as [Hp|Hp];
    apply in_map_iff in Hp; destruct Hp as [c [E Hc]]; inversion E; subst a ta; [apply column_TT, H3, Hc|apply constraint_TT, C, Hc].
  - change ([tClose] ++ options_toks d (ct_options t) ++ rowdel_toks d (ct_rowdel t) ++ [tSemi])%list with
      ([tClose] ++ (options_toks d (ct_options t) ++ (rowdel_toks d (ct_rowdel t) ++ [tSemi])))%list.
    apply FF_FF_app; [apply close_FF|].
    rewrite <- !app_s_assoc. rewrite app_assoc. rewrite app_s_assoc.
    apply TT_FF_app; [apply (SEG_app d); [pose proof (options_SEG d _ H5) as O; destruct (ct_options t); exact O|apply rowdel_SEG, H6]|lit_FF|apply lead1_byte; reflexivity].
Qed.
Definition using_toks (d : dialect) (l : list ident) : list token :=
  match d, l with Crdb, _ => [] | _, [] => [] | _, l => lex d " USING " ++ map (fun i => text_tok d (id_raw i)) l end%list.
Definition create_index_toks (d : dialect) (x : create_index) : list token :=
  (lex d "CREATE " ++ (if cx_unique x then lex d "UNIQUE " else []) ++ lex d "INDEX " ++ ine_toks d (cx_ifnotexists x)
   ++ [tI (objname_string (cx_name x))] ++ lex d " ON " ++ [tI (objname_string (cx_table x))]
   ++ using_toks d (cx_using x) ++ cols_toks d (cx_columns x) ++ [tSemi])%list.
Lemma index_name_TT : forall d n, match d with Pg | Crdb => missing (on_schema n) && name_ok d (on_name n) | _ => objname_ok d n end = true ->
  TT d (objname_string n) [tI (objname_string n)].
Proof.
  intros d n H.
  assert (A : objname_ok d n = true \/ (missing (on_schema n) && name_ok d (on_name n) = true)) by (destruct d; auto).
  destruct A as [A|A]; [apply (objname_facts d n A)|]. apply andb_true_iff in A. destruct A as [A1 A2].
  destruct n as [[s|] n]; [discriminate A1|]. apply name_TT, A2.
Qed.
Lemma create_index_FF : forall d x, create_index_ok d x = true -> FF d (create_index_string d x) (create_index_toks d x).
Proof.
  intros d x H. unfold create_index_ok in H.
  apply andb_true_iff in H. destruct H as [H H7]. apply andb_true_iff in H. destruct H as [H H6]. apply andb_true_iff in H. destruct H as [H H5].
  apply andb_true_iff in H. destruct H as [H H4]. apply andb_true_iff in H. destruct H as [H H3]. apply andb_true_iff in H. destruct H as [H1 H2].
  destruct (cx_pre x) eqn:Ep; [discriminate H5|]. destruct (cx_post x) eqn:Eq; [discriminate H6|].
  unfold create_index_string, create_index_toks. rewrite Ep, Eq.
  apply (FF_FF_app d _ []); [apply comment_FF, H1|]. apply FF_FF_app; [lit_FF|].
  apply FF_FF_app; [destruct (cx_unique x); [lit_FF|apply FF_nil]|]. apply FF_FF_app; [lit_FF|].
  apply FF_FF_app; [destruct (cx_ifnotexists x); [unfold ine_toks; lit_FF|apply FF_nil]|].
  apply TT_FF_app; [apply index_name_TT, H2| |apply lead1_app, lead1_byte; reflexivity].
  apply FF_FF_app; [lit_FF|].
  rewrite <- (app_s_assoc (objname_string (cx_table x))). rewrite (app_assoc [tI (objname_string (cx_table x))]).
  apply TT_FF_app; [| |apply lead1_app, lead1_byte; reflexivity].
  - apply TT_SEG; [apply (objname_facts d (cx_table x) H3)|]. unfold using_toks.
    destruct (cx_using x) as [|u [|]]; [destruct d; apply SEG_nil| |destruct d; discriminate H7].
    destruct d; try discriminate H7; apply andb_true_iff in H7; destruct H7 as [H7 H8]; (apply SEG_stop; [|reflexivity]);
    cbn [map join]; apply (FF_TT_app _ " USING "); try (eapply lit_FF; reflexivity); apply text_TT, H8.
  - apply (FF_FF_app d " " [] _ (cols_toks d (cx_columns x) ++ [tSemi])); [apply blank_FF|]. apply FF_FF_app; [apply cols_FF, H4|].
    replace (match d with Crdb => "" | _ => "" end) with "" by (destruct d; reflexivity).
    change (FF d (";" ++ nl) ([tSemi] ++ [])). apply FF_FF_app; [lit_FF|apply nl_FF].
Qed.

Definition stmt_toks (d : dialect) (s : stmt) : list token :=
  match s with CreateTable t => create_table_toks d t | CreateIndex x => create_index_toks d x | _ => [] end.
Lemma ddl_lex : forall d l, printable d l = true -> lex d (ddl_string d l) = flat_map (stmt_toks d) l /\ nb (flat_map (stmt_toks d) l).
Proof.
  intros d l H.
  assert (F : FF d (ddl_string d l) (flat_map (stmt_toks d) l)).
  { unfold printable in H. unfold ddl_string. induction l as [|s l IH]; [apply FF_nil|]. cbn [forallb] in H. apply andb_true_iff in H. destruct H as [H1 H2].
    cbn [map concat_str flat_map]. apply FF_FF_app; [|apply IH, H2].
    destruct s; try discriminate H1; [apply create_table_FF, H1|apply create_index_FF, H1]. }
  destruct F as [F1 F2]. split; [|exact F1]. specialize (F2 ""). rewrite app_s_nil, lex_nil, app_nil_r in F2. exact F2.
Qed.
