(** Reading the tokens of printed statements (for C08). *)
From Coq Require Import Lia.
From Verif Require Import GoStr Token Lexer LexerFacts LexSpec LexLayout LexKeyword LexPanic Ast Parser Printable PrintLex PrintToks.
Local Open Scope list_scope.

(** * Stepping *)

Lemma nb_not : forall t r, nb (t :: r) -> eqs (tk_type t) TOKEN_BOOM = false.
Proof. intros t r H. inversion H; subst. unfold eqs. apply String.eqb_neq. assumption. Qed.
Lemma next_ok : forall t r, nb r -> next (t :: r) = Ok r.
Proof.
  intros t r H. unfold next. cbn [tl]. destruct r as [|a [|b r]]; try reflexivity.
  unfold peekT. cbn [peek]. inversion H as [|? ? _ H2]; subst. rewrite (nb_not b r H2). reflexivity.
Qed.
Lemma nb_tl : forall t r, nb (t :: r) -> nb r.
Proof. intros t r H. inversion H; assumption. Qed.
Lemma nb_cons : forall t r, tk_type t <> TOKEN_BOOM -> nb r -> nb (t :: r).
Proof. intros. constructor; assumption. Qed.

Ltac nbs :=
  try assumption;
  match goal with
  | |- nb [] => constructor
  | H : nb (?t :: ?r) |- _ => assert (nb r) by (inversion H; assumption); clear H; nbs
  | H : nb (?a ++ ?r) |- _ => assert (nb r) by (apply (nb_app_r a), H); clear H; nbs
  end.

(** Tests on known token types. *)
Ltac known a :=
  lazymatch a with
  | context [lookupIdent _ ?w] => lazymatch w with String _ _ => idtac | _ => fail end
  | _ => idtac
  end.
Ltac test1 :=
  match goal with
  | |- context [eqs ?a ?b] =>
      known a;
      let v := eval vm_compute in (eqs a b) in
      match v with true => change (eqs a b) with true | false => change (eqs a b) with false end
  | |- context [isin ?a ?b] =>
      known a;
      let v := eval vm_compute in (isin a b) in
      match v with true => change (isin a b) with true | false => change (isin a b) with false end
  | |- context [isReservedValue ?a] =>
      known a;
      let v := eval vm_compute in (isReservedValue a) in
      match v with true => change (isReservedValue a) with true | false => change (isReservedValue a) with false end
  | |- context [isDataType ?d ?a] =>
      known a;
      let v := eval vm_compute in (isDataType d a) in
      match v with true => change (isDataType d a) with true | false => change (isDataType d a) with false end
  | |- context [isOperator ?d ?a] =>
      known a;
      let v := eval vm_compute in (isOperator d a) in
      match v with true => change (isOperator d a) with true | false => change (isOperator d a) with false end
  | |- context [isConstraint ?d ?a] =>
      known a;
      let v := eval vm_compute in (isConstraint d a) in
      match v with true => change (isConstraint d a) with true | false => change (isConstraint d a) with false end
  | |- context [isCmp ?a] =>
      known a;
      let v := eval vm_compute in (isCmp a) in
      match v with true => change (isCmp a) with true | false => change (isCmp a) with false end
  end.
Ltac see := unfold curT, peekT, curL, peekL, W, tI, tOpen, tClose, tComma, tSemi, tEqual; cbn [curT peekT curL peekL cur peek tk_type tk_lit W tI tOpen tClose tComma tSemi tEqual List.app bind guard orb andb negb].
Ltac run := repeat (see; first [rewrite next_ok by nbs | test1]); see.

Ltac lens := repeat (cbn [List.length] in *; rewrite ?app_length in *); lia.

(** * Keywords *)

Lemma lookup_all : forall d (P : string -> tokentype -> bool), forallb (fun kv => P (fst kv) (snd kv)) (keywords d) = true ->
  forall w, lookupIdent d w = TOKEN_IDENT \/ P (to_upper w) (lookupIdent d w) = true.
Proof.
  intros d P H w. unfold lookupIdent. induction (keywords d) as [|[k v] ks IH]; [left; reflexivity|].
  cbn [forallb fst snd] in H. apply andb_true_iff in H. destruct H as [H1 H2]. cbn [assoc].
  destruct (String.eqb (to_upper w) k) eqn:E; [|apply IH, H2]. apply String.eqb_eq in E. rewrite E. right. exact H1.
Qed.
Definition punctuation : list tokentype :=
  [TOKEN_EOF; TOKEN_BOOM; TOKEN_ILLEGAL; TOKEN_OPEN_PAREN; TOKEN_CLOSE_PAREN; TOKEN_COMMA; TOKEN_SEMICOLON].
Lemma lookup_plain : forall d w, isin (lookupIdent d w) punctuation = false.
Proof.
  intros d w. destruct (lookup_all d (fun _ t => negb (isin t punctuation)) ltac:(destruct d; vm_compute; reflexivity) w) as [H|H].
  - rewrite H. reflexivity.
  - apply negb_true_iff in H. exact H.
Qed.
Lemma lookup_value : forall d w, isReservedValue (lookupIdent d w) = true -> lookupIdent d w = to_upper w.
Proof.
  intros d w H. destruct (lookup_all d (fun k t => implb (isReservedValue t) (String.eqb t k)) ltac:(destruct d; vm_compute; reflexivity) w) as [K|K].
  - rewrite K in H. discriminate H.
  - rewrite H in K. cbn [implb] in K. apply String.eqb_eq in K. exact K.
Qed.
Lemma isin_false : forall t l x, isin t l = false -> In x l -> eqs t x = false.
Proof.
  intros t l x H Hx. destruct (eqs t x) eqn:E; [|reflexivity]. rewrite <- H. symmetry. apply existsb_exists. exists x. auto.
Qed.
Lemma means_isin : forall d w ts, means_one_of d w ts = isin (lookupIdent d w) ts.
Proof. intros. reflexivity. Qed.

(** * Pieces of expressions *)

(** A token that is one piece by itself inside parentheses. *)
Definition inert_type (t : tokentype) : bool :=
  negb (isin t [TOKEN_EOF; TOKEN_OPEN_PAREN; TOKEN_CLOSE_PAREN]) && negb (isCmp t).
Lemma inert_type_facts : forall t, inert_type t = true ->
  eqs t TOKEN_EOF = false /\ eqs t TOKEN_OPEN_PAREN = false /\ eqs t TOKEN_CLOSE_PAREN = false /\ isCmp t = false.
Proof.
  intros t H. unfold inert_type in H. apply andb_true_iff in H. destruct H as [H1 H2]. apply negb_true_iff in H1, H2.
  repeat split; try assumption; apply (isin_false t _ _ H1); cbn; auto.
Qed.
Lemma cmp_type : forall c, comparison_byte c = true -> isCmp (sign_type c) = true.
Proof.
  intros c H. unfold comparison_byte in H. apply orb_true_iff in H. destruct H as [H|H]; [apply orb_true_iff in H; destruct H as [H|H]|];
    apply Ascii.eqb_eq in H; subst c; reflexivity.
Qed.
Lemma sign_inert : forall d c, sign d (String c "") = true -> comparison_byte c = false -> inert_type (sign_type c) = true /\ isReservedValue (sign_type c) = false.
Proof.
  intros d c H Hc. destruct (sign_facts d c H) as [_ [_ [_ [_ [_ [Ho Hcl]]]]]].
  unfold sign_type, single. unfold comparison_byte in Hc. apply orb_false_iff in Hc. destruct Hc as [Hc C3]. apply orb_false_iff in Hc. destruct Hc as [C1 C2].
  rewrite C1, C2, C3, Ho, Hcl. repeat match goal with |- context [if ?b then _ else _] => destruct b; [split; reflexivity|] end. split; reflexivity.
Qed.

Inductive inner_shape (d : dialect) (i : ident) (r : list ident) : Prop :=
| shape_one : forall t, lex d (id_raw i) = [mkTok t (id_raw i)] -> inert_type t = true ->
    NewRawIdent d (if isReservedValue t then t else id_raw i) = i -> inner_shape d i r
| shape_cmp : forall c, id_raw i = String c "" -> comparison_byte c = true -> lex d (id_raw i) = [mkTok (sign_type c) (id_raw i)] ->
    comparison_next r = false -> inner_shape d i r
| shape_two : forall a b, id_raw i = String a (String b "") -> comparison_byte a = true -> comparison_byte b = true ->
    lex d (id_raw i) = [mkTok (sign_type a) (String a ""); mkTok (sign_type b) (String b "")] -> inner_shape d i r.
Lemma inner_piece_shape : forall d i r, inner_piece d i r = true -> NewRawIdent d (id_raw i) = i /\ inner_shape d i r.
Proof.
  intros d i r H. unfold inner_piece in H. apply andb_true_iff in H. destruct H as [Hw H]. apply wellformed_new in Hw. split; [exact Hw|].
  apply orb_true_iff in H. destruct H as [H|H].
  1:apply orb_true_iff in H; destruct H as [H|H].
  1:apply orb_true_iff in H; destruct H as [H|H].
  1:apply orb_true_iff in H; destruct H as [H|H].
  - apply andb_true_iff in H. destruct H as [H H3]. apply andb_true_iff in H. destruct H as [H1 H2]. apply negb_true_iff in H2.
    apply (shape_one d i r (lookupIdent d (id_raw i))).
    + apply TT_lex, word_TT, H1.
    + unfold inert_type. pose proof (lookup_plain d (id_raw i)) as P. unfold isCmp. rewrite means_isin in H2. change (isin (lookupIdent d (id_raw i)) [TOKEN_EQUAL; TOKEN_GREATER; TOKEN_LESS]) with (isin (lookupIdent d (id_raw i)) comparison_words). rewrite H2.
      assert (E : isin (lookupIdent d (id_raw i)) [TOKEN_EOF; TOKEN_OPEN_PAREN; TOKEN_CLOSE_PAREN] = false).
      { unfold isin. cbn [existsb]. rewrite !(isin_false _ _ _ P) by (cbn; auto 10). reflexivity. }
      rewrite E. reflexivity.
    + destruct (isReservedValue (lookupIdent d (id_raw i))) eqn:E; [|exact Hw].
      change (means_one_of d (id_raw i) value_words) with (isReservedValue (lookupIdent d (id_raw i))) in H3. rewrite E in H3. cbn [implb] in H3.
      apply String.eqb_eq in H3. rewrite (lookup_value d _ E), <- H3. exact Hw.
  - apply (shape_one d i r TOKEN_IDENT); [apply TT_lex, FF_TT, quoted_FF, H|reflexivity|exact Hw].
  - destruct (long_operator_TT d _ H) as [t [T [Ht _]]]. apply (shape_one d i r t); [apply TT_lex, T| |];
      cbn [In] in Ht; destruct Ht as [Ht|[Ht|[Ht|[]]]]; subst t; try reflexivity; exact Hw.
  - destruct (long_comparison_TT d _ H) as [a [b [E [T [Ha Hb]]]]]. apply (shape_two d i r a b E Ha Hb). apply TT_lex, T.
  - apply andb_true_iff in H. destruct H as [H1 H2]. destruct (id_raw i) as [|c [|]] eqn:E; try discriminate H1.
    pose proof (TT_lex d _ _ (sign_TT d c H1)) as T. destruct (comparison_byte c) eqn:Ec.
    + apply (shape_cmp d i r c); rewrite ?E; auto. cbn [comparison] in H2. rewrite Ec in H2. cbn [implb] in H2. apply negb_true_iff in H2. exact H2.
    + destruct (sign_inert d c H1 Ec) as [I1 I2]. apply (shape_one d i r (sign_type c)); rewrite ?E; auto. rewrite I2, <- E. congruence.
Qed.
Lemma open_toks : forall d i, open_paren i = true -> lex d (id_raw i) = [tOpen] /\ NewRawIdent d "(" = i.
Proof.
  intros d [n q r] H. unfold open_paren in H. cbn [id_raw id_name id_quote] in *. apply andb_true_iff in H. destruct H as [H H3]. apply andb_true_iff in H. destruct H as [H1 H2].
  apply String.eqb_eq in H1, H2, H3. subst. split; destruct d; reflexivity.
Qed.
Lemma close_toks : forall d i, close_paren i = true -> lex d (id_raw i) = [tClose] /\ NewRawIdent d ")" = i.
Proof.
  intros d [n q r] H. unfold close_paren in H. cbn [id_raw id_name id_quote] in *. apply andb_true_iff in H. destruct H as [H H3]. apply andb_true_iff in H. destruct H as [H1 H2].
  apply String.eqb_eq in H1, H2, H3. subst. split; destruct d; reflexivity.
Qed.
Lemma piece_toks_cons : forall d i l, piece_toks d (i :: l) = (lex d (id_raw i) ++ piece_toks d l)%list.
Proof. reflexivity. Qed.

(** What follows a comparison sign is no comparison sign. *)
Lemma next_no_cmp : forall d outer n l rest, balanced d outer (S n) l = true -> comparison_next l = false ->
  exists t r, (piece_toks d l ++ rest)%list = t :: r /\ isCmp (tk_type t) = false.
Proof.
  intros d outer n l rest H Hc. destruct l as [|i l]; [discriminate H|]. rewrite piece_toks_cons. cbn [balanced] in H.
  destruct (open_paren i) eqn:Eo; [destruct (open_toks d i Eo) as [E _]; rewrite E; eexists; eexists; split; [reflexivity|reflexivity]|].
  destruct (close_paren i) eqn:Ecl; [destruct (close_toks d i Ecl) as [E _]; rewrite E; eexists; eexists; split; [reflexivity|reflexivity]|].
  apply andb_true_iff in H. destruct H as [H _]. destruct (inner_piece_shape d i l H) as [_ S]. cbn [comparison_next] in Hc. destruct S as [t E I _|c E C _ _|a b E A B _].
  - rewrite E. eexists; eexists; split; [reflexivity|]. apply inert_type_facts in I. apply I.
  - rewrite E in Hc. congruence.
  - rewrite E in Hc. congruence.
Qed.

Lemma expr_run : forall d outer n l m, List.length l <= n -> balanced d outer (S m) l = true ->
  exists b c r, l = (b ++ c :: r)%list /\ close_paren c = true /\ balanced d outer m r = true /\
  forall fuel acc rest, nb (piece_toks d l ++ rest) -> List.length (piece_toks d l ++ rest) < fuel ->
    parseExpr_loop d fuel acc (piece_toks d l ++ rest) = Ok ((acc ++ b ++ [c])%list, (piece_toks d r ++ rest)%list).
Proof.
  intros d outer n. induction n as [|n IH]; intros l m Hn H; [destruct l; [discriminate H|cbn in Hn; lia]|].
  destruct l as [|i l]; [discriminate H|]. cbn [List.length] in Hn. cbn [balanced] in H.
  destruct (open_paren i) eqn:Eo.
  - destruct (IH l (S m) ltac:(lia) H) as [b1 [c1 [r1 [E1 [C1 [B1 R1]]]]]].
    assert (L1 : List.length r1 <= n) by (rewrite E1, app_length in Hn; cbn [List.length] in Hn; lia).
    destruct (IH r1 m L1 B1) as [b2 [c2 [r2 [E2 [C2 [B2 R2]]]]]].
    exists (i :: b1 ++ c1 :: b2)%list, c2, r2. split; [rewrite E1, E2; cbn [List.app]; rewrite <- app_assoc; reflexivity|].
    split; [exact C2|]. split; [exact B2|]. intros fuel acc rest Hnb Hf. destruct fuel as [|fuel]; [lia|].
    rewrite piece_toks_cons in *. destruct (open_toks d i Eo) as [E N]. rewrite E in *. cbn [List.app List.length] in *.
    pose proof (nb_tl _ _ Hnb) as Hnb1. cbn [parseExpr_loop]. run. rewrite N.
    rewrite R1 by (assumption || lia). run. rewrite R2.
    + f_equal. f_equal. rewrite <- !app_assoc. cbn [List.app]. rewrite <- app_assoc. reflexivity.
    + rewrite E1 in Hnb1. unfold piece_toks in Hnb1. rewrite flat_map_app in Hnb1. cbn [flat_map] in Hnb1. rewrite <- !app_assoc in Hnb1.
      apply nb_app_r in Hnb1. apply nb_app_r in Hnb1. exact Hnb1.
    + rewrite E1 in Hf. unfold piece_toks in *. rewrite flat_map_app in Hf. cbn [flat_map] in Hf. rewrite !app_length in *. lia.
  - destruct (close_paren i) eqn:Ec.
    + exists [], i, l. split; [reflexivity|]. split; [exact Ec|]. split; [exact H|]. intros fuel acc rest Hnb Hf. destruct fuel as [|fuel]; [lia|].
      rewrite piece_toks_cons in *. destruct (close_toks d i Ec) as [E N]. rewrite E in *. cbn [List.app] in *. cbn [parseExpr_loop]. run. rewrite N. reflexivity.
    + apply andb_true_iff in H. destruct H as [H1 H2]. destruct (IH l m ltac:(lia) H2) as [b [c [r [E1 [C1 [B1 R1]]]]]].
      destruct (inner_piece_shape d i l H1) as [Nw S]. exists (i :: b), c, r. split; [rewrite E1; reflexivity|]. split; [exact C1|]. split; [exact B1|].
      intros fuel acc rest Hnb Hf. destruct fuel as [|fuel]; [lia|]. rewrite piece_toks_cons in *. rewrite <- app_assoc in *.
      assert (F : forall x, (acc ++ (i :: b) ++ x = (acc ++ [i]) ++ b ++ x)%list) by (intro x; rewrite <- app_assoc; reflexivity).
      rewrite F. clear F.
      destruct S as [t E I N|c1 E C E' Hn1|a1 b2 E A B E'].
      * rewrite E in *. cbn [List.app List.length] in *. destruct (inert_type_facts t I) as [I1 [I2 [I3 I4]]].
        cbn [parseExpr_loop]. see. rewrite I1, I2, I3, I4. run. rewrite N. apply R1; [nbs|lia].
      * rewrite E' in *. cbn [List.app List.length] in *. pose proof (cmp_type c1 C) as Ct.
        destruct (next_no_cmp d outer m l rest H2 Hn1) as [t [r' [Er Et]]].
        rewrite Er in *. cbn [parseExpr_loop]. see.
        assert (O : eqs (sign_type c1) TOKEN_OPEN_PAREN = false /\ eqs (sign_type c1) TOKEN_CLOSE_PAREN = false).
        { clear - C. unfold comparison_byte in C. apply orb_true_iff in C. destruct C as [C|C]; [apply orb_true_iff in C; destruct C as [C|C]|];
          apply Ascii.eqb_eq in C; subst c1; split; reflexivity. }
        destruct O as [O1 O2]. rewrite O1, O2, Ct. rewrite next_ok by nbs. see. rewrite Et. rewrite Nw. rewrite <- Er. apply R1; [rewrite Er; nbs|rewrite Er; cbn [List.length] in *; lia].
      * rewrite E' in *. cbn [List.app List.length] in *. pose proof (cmp_type a1 A) as Ct. pose proof (cmp_type b2 B) as Ct2.
        cbn [parseExpr_loop]. see.
        assert (O : eqs (sign_type a1) TOKEN_OPEN_PAREN = false /\ eqs (sign_type a1) TOKEN_CLOSE_PAREN = false).
        { clear - A. unfold comparison_byte in A. apply orb_true_iff in A. destruct A as [C|C]; [apply orb_true_iff in C; destruct C as [C|C]|];
          apply Ascii.eqb_eq in C; subst a1; split; reflexivity. }
        destruct O as [O1 O2]. rewrite O1, O2, Ct, Ct2. rewrite next_ok by nbs. see. rewrite next_ok by nbs. see.
        change (String a1 "" ++ String b2 "")%string with (String a1 (String b2 "")). rewrite <- E, Nw. apply R1; [nbs|lia].
Qed.

Lemma group_run : forall d l rest, group_ok d l = true -> nb (piece_toks d l ++ rest) ->
  parseExpr d (piece_toks d l ++ rest) = Ok (l, rest).
Proof.
  intros d l rest H Hnb. destruct l as [|i l]; [discriminate H|]. unfold group_ok in H. apply andb_true_iff in H. destruct H as [H _].
  apply andb_true_iff in H. destruct H as [H1 H2]. destruct (expr_run d _ (List.length l) l 0 (le_n _) H2) as [b [c [r [E [C [B R]]]]]].
  assert (Er : r = []) by (destruct r; [reflexivity|discriminate B]). subst r.
  rewrite piece_toks_cons in *. destruct (open_toks d i H1) as [Eo N]. rewrite Eo in *. cbn [List.app] in *.
  unfold parseExpr. run. rewrite N, R; [|nbs|cbn [List.length]; lia]. rewrite E. reflexivity.
Qed.
Lemma group_first : forall d l rest, group_ok d l = true -> exists r, piece_toks d l ++ rest = tOpen :: r.
Proof.
  intros d l rest H. destruct l as [|i l]; [discriminate H|]. unfold group_ok in H. apply andb_true_iff in H. destruct H as [H _].
  apply andb_true_iff in H. destruct H as [H1 _]. rewrite piece_toks_cons. destruct (open_toks d i H1) as [E _]. rewrite E. eexists. reflexivity.
Qed.

(** * Values *)

Inductive outer_shape (d : dialect) (i : ident) : Prop :=
| outer_name : lex d (id_raw i) = [tI (id_raw i)] -> NewRawIdent d (id_raw i) = i -> outer_shape d i
| outer_now : d = My -> lex d (id_raw i) = [mkTok TOKEN_CURRENT_TIMESTAMP (id_raw i)] -> NewRawIdent d (id_raw i) = i -> outer_shape d i
| outer_value : forall t, lex d (id_raw i) = [mkTok t (id_raw i)] -> In t value_words -> i = mkIdent t "" (id_raw i) -> outer_shape d i
| outer_operator : forall t, casts d = true -> lex d (id_raw i) = [mkTok t (id_raw i)] ->
    In t ([TOKEN_EQUAL; TOKEN_GREATER; TOKEN_LESS; TOKEN_PLUS; TOKEN_MINUS; TOKEN_ASTERISK; TOKEN_SLASH; TOKEN_STRING_CONCAT; TOKEN_TYPECAST]
          ++ match d with Crdb => [TOKEN_TYPE_ANNOTATION] | _ => [] end) -> NewRawIdent d (id_raw i) = i -> outer_shape d i
| outer_type : forall t, casts d = true -> type_word d i = true -> lex d (id_raw i) = [mkTok t (id_raw i)] -> In t (type_tokens d) ->
    NewRawIdent d (id_raw i) = i -> outer_shape d i.
Lemma means_in : forall d w ts, means_one_of d w ts = true -> In (lookupIdent d w) ts.
Proof.
  intros d w ts H. unfold means_one_of in H. apply existsb_exists in H. destruct H as [t [Ht E]]. apply String.eqb_eq in E. rewrite E. exact Ht.
Qed.
Lemma outer_piece_shape : forall d i, open_paren i = false -> outer_piece d i = true -> outer_shape d i.
Proof.
  intros d i Ho H. unfold outer_piece in H. rewrite Ho in H. cbn [orb] in H. apply orb_true_iff in H. destruct H as [H|H].
  - apply andb_true_iff in H. destruct H as [Hw H]. apply wellformed_new in Hw. apply orb_true_iff in H. destruct H as [H|H].
    1:apply orb_true_iff in H; destruct H as [H|H].
    1:apply orb_true_iff in H; destruct H as [H|H].
    + apply outer_name; [apply TT_lex, FF_TT, quoted_FF, H|exact Hw].
    + apply andb_true_iff in H. destruct H as [H1 H2]. apply negb_true_iff in H2. apply outer_name; [|exact Hw].
      unfold tI. rewrite <- (not_keyword d _ H2). apply TT_lex, word_TT, H1.
    + destruct d; try discriminate H. apply andb_true_iff in H. destruct H as [H1 H2]. apply outer_now; [reflexivity| |exact Hw].
      apply String.eqb_eq in H2. rewrite <- H2. apply TT_lex, word_TT, H1.
    + apply andb_true_iff in H. destruct H as [Hc H]. apply orb_true_iff in H. destruct H as [H|H].
      * unfold operator_text in H. apply orb_true_iff in H. destruct H as [H|H].
        -- apply existsb_exists in H. destruct H as [x [Hx E]]. apply String.eqb_eq in E. subst x. cbn [In] in Hx.
           repeat (destruct Hx as [Hx|Hx]; [apply (outer_operator d i (sign_type (match id_raw i with String c _ => c | "" => ch_nul end)) Hc); [|apply in_or_app; left; rewrite <- Hx; cbn; auto 10|exact Hw];
             rewrite <- Hx; destruct d; reflexivity|]). destruct Hx.
        -- destruct (long_operator_TT d _ H) as [t [T [Ht Ha]]]. apply (outer_operator d i t Hc); [apply TT_lex, T| |exact Hw].
           cbn [In] in Ht. destruct Ht as [Ht|[Ht|[Ht|[]]]]; subst t; apply in_or_app; [left; cbn; auto 10|left; cbn; auto 10|right]. rewrite Ha by reflexivity. cbn. auto.
      * apply (outer_type d i (lookupIdent d (id_raw i)) Hc H); [| |exact Hw]; unfold type_word in H; apply andb_true_iff in H; destruct H as [H1 H2];
        [apply TT_lex, word_TT, H1|apply means_in, H2].
  - apply andb_true_iff in H. destruct H as [H H4]. apply andb_true_iff in H. destruct H as [H H3]. apply andb_true_iff in H. destruct H as [H1 H2].
    apply String.eqb_eq in H3, H4. apply (outer_value d i (lookupIdent d (id_raw i))); [apply TT_lex, word_TT, H1|apply means_in, H2|].
    rewrite (lookup_value d _ H2). destruct i as [n q r]. cbn [id_name id_quote id_raw] in *. congruence.
Qed.

Definition default_stop (d : dialect) (t : tokentype) : bool :=
  isin t [TOKEN_NOT; TOKEN_COMMA; TOKEN_CLOSE_PAREN; TOKEN_PRIMARY; TOKEN_UNIQUE; TOKEN_REFERENCES; TOKEN_CHECK] || match d with My => isin t [TOKEN_ON; TOKEN_COMMENT] | _ => false end.
Definition begins_with_type (d : dialect) (l : list ident) : bool :=
  match l with i :: _ => casts d && type_word d i | [] => false end.
Lemma some_append : forall v ids, exists l, expr_append v ids = Some l.
Proof. intros [v|] ids; eexists; reflexivity. Qed.
Lemma append_append : forall v a b, expr_append (expr_append v a) b = expr_append v (a ++ b).
Proof. intros [v|] a b; cbn [expr_append]; [rewrite app_assoc|]; reflexivity. Qed.
Definition append_all (v : expr) (l : list ident) : expr := match l with [] => v | l => expr_append v l end.
Lemma append_all_app : forall v a b, a <> [] -> append_all (expr_append v a) b = append_all v (a ++ b).
Proof.
  intros v a b H. destruct a as [|x a]; [congruence|]. cbn [List.app append_all]. destruct b as [|y b]; [cbn; rewrite app_nil_r; reflexivity|].
  cbn [append_all]. apply append_append.
Qed.

Lemma default_run : forall d n l, List.length l <= n -> balanced d (outer_piece d) 0 l = true ->
  forall v fuel rest, (v <> None \/ begins_with_type d l = false) -> nb (piece_toks d l ++ rest) -> List.length (piece_toks d l ++ rest) < fuel ->
  default_stop d (curT rest) = true -> parseDefault_loop d fuel v (piece_toks d l ++ rest) = Ok (append_all v l, rest).
Proof.
  intros d n. induction n as [|n IH]; intros l Hn H v fuel rest Hv Hnb Hf Hs; (destruct fuel as [|fuel]; [lia|]).
  - destruct l; [|cbn in Hn; lia]. cbn [piece_toks flat_map List.app append_all] in *. destruct rest as [|t rest]; [destruct d; discriminate Hs|].
    unfold default_stop in Hs. see. unfold curT in Hs. cbn [cur] in Hs. cbn [parseDefault_loop]. see.
    apply orb_true_iff in Hs. destruct Hs as [Hs|Hs].
    + assert (Hi : In (tk_type t) [TOKEN_NOT; TOKEN_COMMA; TOKEN_CLOSE_PAREN; TOKEN_PRIMARY; TOKEN_UNIQUE; TOKEN_REFERENCES; TOKEN_CHECK]) by (apply existsb_exists in Hs; destruct Hs as [x [Hx E]]; apply String.eqb_eq in E; rewrite E; exact Hx).
      cbn [In] in Hi. destruct Hi as [Hi|[Hi|[Hi|[Hi|[Hi|[Hi|[Hi|[]]]]]]]]; rewrite <- Hi; destruct d; run; reflexivity.
    + destruct d; try discriminate Hs.
      assert (Hi : In (tk_type t) [TOKEN_ON; TOKEN_COMMENT]) by (apply existsb_exists in Hs; destruct Hs as [x [Hx E]]; apply String.eqb_eq in E; rewrite E; exact Hx).
      cbn [In] in Hi. destruct Hi as [Hi|[Hi|[]]]; rewrite <- Hi; run; reflexivity.
  - destruct l as [|i l]; [apply (IH [] ltac:(cbn; lia) eq_refl v (S fuel) rest); auto|].
    cbn [List.length] in Hn. cbn [balanced] in H. apply andb_true_iff in H. destruct H as [H1 H2].
    rewrite piece_toks_cons in *. rewrite <- app_assoc in *. destruct (open_paren i) eqn:Eo.
    + destruct (expr_run d _ (List.length l) l 0 (le_n _) H2) as [b [c [r [E [C [B R]]]]]].
      destruct (open_toks d i Eo) as [Et N]. rewrite Et in *. cbn [List.app] in *. cbn [parseDefault_loop]. unfold parseExpr.
      see. rewrite ?orb_false_r. replace (match d with My => _ | _ => _ end) with false by (destruct d; reflexivity). run. rewrite N.
      rewrite R; [|nbs|cbn [List.length]; lia]. run.
      rewrite (IH r); [|subst l; rewrite app_length in Hn; cbn [List.length] in Hn; lia|exact B| | | |exact Hs].
      * f_equal. f_equal. rewrite append_all_app by discriminate. rewrite E. cbn [List.app]. rewrite <- app_assoc. reflexivity.
      * left. destruct v; discriminate.
      * rewrite E in Hnb. unfold piece_toks in Hnb. rewrite flat_map_app in Hnb. cbn [flat_map] in Hnb. rewrite <- !app_assoc in Hnb.
        apply nb_tl in Hnb. apply nb_app_r in Hnb. apply nb_app_r in Hnb. exact Hnb.
      * rewrite E in Hf. unfold piece_toks in *. rewrite flat_map_app in Hf. cbn [flat_map] in Hf. cbn [List.length] in Hf. rewrite !app_length in *. lia.
    + assert (Go : forall f, List.length (piece_toks d l ++ rest) < f -> forall k, nb (piece_toks d l ++ rest) ->
                parseDefault_loop d f (expr_append v [k]) (piece_toks d l ++ rest) = Ok (append_all v (k :: l), rest)).
      { intros f Hff k Hk. rewrite (IH l); [|lia|exact H2| |exact Hk|exact Hff|exact Hs].
        - rewrite append_all_app by discriminate. reflexivity.
        - left. destruct v; discriminate. }
      destruct (outer_piece_shape d i Eo H1) as [E N|D E N|t E T N|t Ca E T N|t Ca Tw E T N]; rewrite E in *; cbn [List.app List.length] in *; cbn [parseDefault_loop].
      * run. rewrite N. apply Go; [lia|nbs].
      * subst d. run. rewrite N. apply Go; [lia|nbs].
      * cbn [value_words In] in T. destruct T as [T|[T|[T|[]]]]; rewrite <- T in *; destruct d; run; rewrite <- N; (apply Go; [lia|nbs]).
      * destruct d; try discriminate Ca; cbn [List.app In] in T;
          repeat (destruct T as [T|T]; [rewrite <- T in *; run; rewrite N; apply Go; [lia|nbs]|]); destruct T.
      * destruct Hv as [Hv|Hv]; [|cbn [begins_with_type] in Hv; rewrite Ca, Tw in Hv; discriminate Hv].
        destruct v as [v|]; [|congruence].
        destruct d; try discriminate Ca; cbn [type_tokens In] in T;
          repeat (destruct T as [T|T]; [rewrite <- T in *; run; rewrite N; apply (Go fuel); [lia|nbs]|]); destruct T.
Qed.
Lemma value_run : forall d l rest, value_ok d l = true -> nb (piece_toks d l ++ rest) -> default_stop d (curT rest) = true ->
  parseColumnDefault d (piece_toks d l ++ rest) = Ok (Some l, rest).
Proof.
  intros d l rest H Hnb Hs. destruct l as [|i l]; [discriminate H|]. unfold value_ok in H. apply andb_true_iff in H. destruct H as [H _].
  apply andb_true_iff in H. destruct H as [H1 H2]. apply negb_true_iff in H1. unfold parseColumnDefault.
  rewrite (default_run d (List.length (i :: l)) (i :: l)); auto.
Qed.

Definition as_stop (t : tokentype) : bool := isin t [TOKEN_COMMA; TOKEN_CLOSE_PAREN].
Lemma as_pieces : forall n l, List.length l <= n -> balanced Crdb (outer_piece Crdb) 0 l = true ->
  forall v ty fuel rest, (v <> None \/ begins_with_type Crdb l = false) -> nb (piece_toks Crdb l ++ rest) -> List.length (piece_toks Crdb l ++ rest) < fuel ->
  exists f, List.length rest < f /\ parseAs_loop Crdb fuel v ty (piece_toks Crdb l ++ rest) = parseAs_loop Crdb f (append_all v l) ty rest.
Proof.
  set (d := Crdb). intros n. induction n as [|n IH]; intros l Hn H v ty fuel rest Hv Hnb Hf.
  - destruct l; [|cbn in Hn; lia]. exists fuel. split; [exact Hf|reflexivity].
  - destruct l as [|i l]; [exists fuel; split; [exact Hf|reflexivity]|]. destruct fuel as [|fuel]; [lia|].
    cbn [List.length] in Hn. cbn [balanced] in H. apply andb_true_iff in H. destruct H as [H1 H2].
    rewrite piece_toks_cons in *. rewrite <- app_assoc in *. destruct (open_paren i) eqn:Eo.
    + destruct (expr_run d _ (List.length l) l 0 (le_n _) H2) as [b [c [r [E [C [B R]]]]]].
      destruct (open_toks d i Eo) as [Et N]. rewrite Et in *. cbn [List.app] in *. cbn [parseAs_loop]. unfold parseExpr. run. rewrite N.
      rewrite R; [|nbs|cbn [List.length]; lia]. run.
      destruct (IH r ltac:(subst l; rewrite app_length in Hn; cbn [List.length] in Hn; lia) B (expr_append v ((i :: b) ++ [c])) ty fuel rest) as [f [F1 F2]].
      * left. destruct v; discriminate.
      * rewrite E in Hnb. unfold piece_toks in Hnb. rewrite flat_map_app in Hnb. cbn [flat_map] in Hnb. rewrite <- !app_assoc in Hnb.
        apply nb_tl in Hnb. apply nb_app_r in Hnb. apply nb_app_r in Hnb. exact Hnb.
      * rewrite E in Hf. unfold piece_toks in *. rewrite flat_map_app in Hf. cbn [flat_map] in Hf. cbn [List.length] in Hf. rewrite !app_length in *. lia.
      * exists f. split; [exact F1|]. cbn [List.app] in F2. rewrite F2. f_equal. change (i :: b ++ [c]) with ((i :: b) ++ [c]).
        rewrite append_all_app by discriminate. rewrite E. rewrite <- app_assoc. reflexivity.
    + assert (Go : List.length (piece_toks d l ++ rest) < fuel -> forall k, nb (piece_toks d l ++ rest) ->
                exists f, List.length rest < f /\ parseAs_loop d fuel (expr_append v [k]) ty (piece_toks d l ++ rest) = parseAs_loop d f (append_all v (k :: l)) ty rest).
      { intros Hff k Hk. destruct (IH l ltac:(lia) H2 (expr_append v [k]) ty fuel rest) as [f [F1 F2]]; [left; destruct v; discriminate|exact Hk|exact Hff|].
        exists f. split; [exact F1|]. rewrite F2, append_all_app by discriminate. reflexivity. }
      destruct (outer_piece_shape d i Eo H1) as [E N|D E N|t E T N|t Ca E T N|t Ca Tw E T N]; rewrite E in *; cbn [List.app List.length] in *; cbn [parseAs_loop].
      * run. rewrite N. apply Go; [lia|nbs].
      * discriminate D.
      * cbn [value_words In] in T. destruct T as [T|[T|[T|[]]]]; rewrite <- T in *; run; rewrite <- N; (apply Go; [lia|nbs]).
      * cbn [d List.app In] in T. 
          repeat (destruct T as [T|T]; [rewrite <- T in *; run; rewrite N; apply Go; [lia|nbs]|]); destruct T.
      * destruct Hv as [Hv|Hv]; [|cbn [begins_with_type] in Hv; rewrite Ca, Tw in Hv; discriminate Hv].
        destruct v as [v|]; [|congruence]. cbn [d type_tokens In] in T;
          repeat (destruct T as [T|T]; [rewrite <- T in *; run; rewrite N; apply Go; [lia|nbs]|]); destruct T.
Qed.
Lemma isin_in : forall t l, isin t l = true -> In t l.
Proof. intros t l H. apply existsb_exists in H. destruct H as [x [Hx E]]. apply String.eqb_eq in E. rewrite E. exact Hx. Qed.
Lemma as_run : forall a rest, as_ok Crdb a = true -> nb (as_toks Crdb a ++ rest) -> as_stop (curT rest) = true ->
  parseColumnAs Crdb (tl (as_toks Crdb a) ++ rest) = Ok (a, rest).
Proof.
  intros [v ty] rest H Hnb Hs. unfold as_ok in H. cbn [as_value as_type] in *. apply andb_true_iff in H. destruct H as [H1 H2].
  destruct v as [l|]; [|discriminate H1]. unfold as_toks in *. cbn [as_value as_type tl List.app] in *.
  destruct l as [|i l]; [discriminate H1|]. unfold value_ok in H1. apply andb_true_iff in H1. destruct H1 as [H1 _].
  apply andb_true_iff in H1. destruct H1 as [H0 H1]. apply negb_true_iff in H0.
  rewrite <- app_assoc in *. apply nb_tl in Hnb. unfold parseColumnAs.
  destruct (as_pieces (List.length (i :: l)) (i :: l) (le_n _) H1 None "" (S (List.length (piece_toks Crdb (i :: l) ++ (if eqs ty "" then [] else [W Crdb ty]) ++ rest)))
              ((if eqs ty "" then [] else [W Crdb ty]) ++ rest)) as [f [F1 F2]]; [right; exact H0|exact Hnb|lia|].
  rewrite F2. cbn [append_all expr_append]. apply nb_app_r in Hnb. destruct f as [|f]; [lia|].
  assert (End : forall g, forall ty, List.length rest < g -> nb rest -> parseAs_loop Crdb g (Some (i :: l)) ty rest = Ok (mkAs (Some (i :: l)) ty, rest)).
  { intros g ty' Hg Hr. destruct g as [|g]; [lia|]. destruct rest as [|t rest]; [discriminate Hs|]. unfold as_stop in Hs. apply isin_in in Hs.
    unfold curT in Hs. cbn [cur In] in Hs. cbn [parseAs_loop]. see. destruct Hs as [Hs|[Hs|[]]]; rewrite <- Hs; run; reflexivity. }
  apply isin_in in H2. cbn [In] in H2. destruct H2 as [H2|[H2|[H2|[]]]]; subst ty.
  - cbn [eqs String.eqb List.app] in *. apply (End (S f)); [exact F1|exact Hnb].
  - change (eqs TOKEN_STORED "") with false in *. cbn [List.app List.length] in *. cbn [parseAs_loop]. run. apply End; [lia|nbs].
  - change (eqs TOKEN_VIRTUAL "") with false in *. cbn [List.app List.length] in *. cbn [parseAs_loop]. run. apply End; [lia|nbs].
Qed.

(** * Columns of keys *)

Lemma cols_loop_run : forall d cs, colidents_ok d cs = true -> forall acc fuel rest, nb (commas (map (ci_toks d) cs) ++ tClose :: rest) ->
  List.length (commas (map (ci_toks d) cs) ++ tClose :: rest) < fuel ->
  parseColumnIdents_loop d fuel acc (commas (map (ci_toks d) cs) ++ tClose :: rest) = Ok (acc ++ cs, rest).
Proof.
  intros d cs. induction cs as [|c cs IH]; intros H acc fuel rest Hnb Hf; (destruct fuel as [|fuel]; [lia|]).
  - cbn [map commas List.app] in *. cbn [parseColumnIdents_loop]. run. rewrite app_nil_r. reflexivity.
  - cbn [colidents_ok forallb] in H. apply andb_true_iff in H. destruct H as [Hc H].
    assert (E : exists s tail, commas (map (ci_toks d) (c :: cs)) ++ tClose :: rest = ci_toks d c ++ s :: tail
              /\ isin (tk_type s) [TOKEN_COMMA; TOKEN_CLOSE_PAREN] = true
              /\ forall f acc', List.length (s :: tail) < f -> nb (s :: tail) -> parseColumnIdents_loop d f acc' (s :: tail) = Ok (acc' ++ cs, rest)).
    { destruct cs as [|c' cs].
      - exists tClose, rest. split; [reflexivity|]. split; [reflexivity|]. intros f acc' Hf' Hnb'. destruct f as [|f]; [lia|].
        cbn [parseColumnIdents_loop]. run. rewrite app_nil_r. reflexivity.
      - exists tComma, (commas (map (ci_toks d) (c' :: cs)) ++ tClose :: rest). split.
        + change (commas (map (ci_toks d) (c :: c' :: cs))) with (ci_toks d c ++ tComma :: commas (map (ci_toks d) (c' :: cs))). rewrite <- app_assoc. reflexivity.
        + split; [reflexivity|]. intros f acc' Hf' Hnb'. destruct f as [|f]; [lia|]. cbn [parseColumnIdents_loop]. run. apply IH; [exact H|nbs|cbn [List.length] in Hf'; lia]. }
    destruct E as [s [tail [E [Hs Go]]]]. rewrite E in *. unfold colident_ok in Hc. apply andb_true_iff in Hc. destruct Hc as [Hn Ho].
    pose proof (name_new d _ Hn) as Nn. destruct c as [i o]. cbn [ci_ident ci_order] in *. unfold ci_toks in *. cbn [ci_ident ci_order] in *.
    assert (St : eqs (tk_type s) TOKEN_ASC = false /\ eqs (tk_type s) TOKEN_DESC = false).
    { apply isin_in in Hs. cbn [In] in Hs. destruct Hs as [Hs|[Hs|[]]]; rewrite <- Hs; split; reflexivity. }
    destruct St as [S1 S2].
    assert (Ap : forall x, acc ++ x :: cs = (acc ++ [x]) ++ cs) by (intro x; rewrite <- app_assoc; reflexivity). rewrite Ap. clear Ap E.
    cbn [parseColumnIdents_loop].
    destruct d; destruct o as [[|]|]; try discriminate Ho; cbn [order_toks List.app List.length] in *; run; rewrite ?S1, ?S2; run; rewrite Nn; (apply Go; [cbn [List.length] in *; lia|nbs]).
Qed.
Lemma cols_run : forall d cs rest, colidents_ok d cs = true -> nb (cols_toks d cs ++ rest) ->
  parseColumnIdents d (cols_toks d cs ++ rest) = Ok (cs, rest).
Proof.
  intros d cs rest H Hnb. unfold parseColumnIdents, cols_toks in *. cbn [List.app] in *. rewrite <- app_assoc in *. cbn [List.app] in *.
  cbn [parseColumnIdents_loop]. run. rewrite cols_loop_run; [reflexivity|exact H|nbs|lens].
Qed.

(** * Types *)

Lemma argument_shape : forall d i, argument_ok d i = true -> exists t, lex d (id_raw i) = [mkTok t (id_raw i)] /\
  isin t [TOKEN_OPEN_PAREN; TOKEN_CLOSE_PAREN; TOKEN_EOF; TOKEN_ILLEGAL] = false /\ NewRawIdent d (id_raw i) = i.
Proof.
  intros d i H. unfold argument_ok in H. apply andb_true_iff in H. destruct H as [Hw H]. apply wellformed_new in Hw.
  apply orb_true_iff in H. destruct H as [H|H]; [apply orb_true_iff in H; destruct H as [H|H]|].
  - unfold text_piece in H. apply orb_true_iff in H. destruct H as [H|H].
    + exists (lookupIdent d (id_raw i)). split; [apply TT_lex, word_TT, H|]. split; [|exact Hw]. pose proof (lookup_plain d (id_raw i)) as P.
      unfold isin. cbn [existsb]. rewrite !(isin_false _ _ _ P) by (cbn; auto 10). reflexivity.
    + exists TOKEN_IDENT. split; [apply TT_lex, FF_TT, quoted_FF, H|]. split; [reflexivity|exact Hw].
  - destruct (long_operator_TT d _ H) as [t [T [Ht _]]]. exists t. split; [apply TT_lex, T|]. split; [|exact Hw].
    cbn [In] in Ht. destruct Ht as [Ht|[Ht|[Ht|[]]]]; subst t; reflexivity.
  - unfold known_sign in H. apply existsb_exists in H. destruct H as [x [Hx E]]. apply String.eqb_eq in E. subst x. cbn [In] in Hx.
    repeat (destruct Hx as [Hx|Hx]; [rewrite <- Hx in *; eexists; split; [destruct d; reflexivity|split; [reflexivity|exact Hw]]|]). destruct Hx.
Qed.
Lemma idents_loop_run : forall d l, forallb (argument_ok d) l = true -> forall acc fuel rest, nb (piece_toks d l ++ tClose :: rest) ->
  List.length (piece_toks d l ++ tClose :: rest) < fuel -> parseIdents_loop d fuel acc (piece_toks d l ++ tClose :: rest) = Ok (acc ++ l, tClose :: rest).
Proof.
  intros d l. induction l as [|i l IH]; intros H acc fuel rest Hnb Hf; (destruct fuel as [|fuel]; [lia|]).
  - cbn [piece_toks flat_map List.app] in *. cbn [parseIdents_loop]. run. rewrite app_nil_r. reflexivity.
  - cbn [forallb] in H. apply andb_true_iff in H. destruct H as [Hi H]. destruct (argument_shape d i Hi) as [t [E [T N]]].
    rewrite piece_toks_cons, E in *. cbn [List.app List.length] in *. cbn [parseIdents_loop]. see.
    rewrite (isin_false _ _ TOKEN_OPEN_PAREN T), (isin_false _ _ TOKEN_CLOSE_PAREN T) by (cbn; auto).
    replace (isin t [TOKEN_EOF; TOKEN_ILLEGAL]) with false
      by (unfold isin; cbn [existsb]; rewrite (isin_false _ _ TOKEN_EOF T), (isin_false _ _ TOKEN_ILLEGAL T) by (cbn; auto); reflexivity).
    run. rewrite N, IH; [|exact H|nbs|lia]. rewrite <- app_assoc. reflexivity.
Qed.
Lemma idents_run : forall d l rest, forallb (argument_ok d) l = true -> nb (tOpen :: piece_toks d l ++ tClose :: rest) ->
  parseIdents d (tOpen :: piece_toks d l ++ tClose :: rest) = Ok (l, tClose :: rest).
Proof.
  intros d l rest H Hnb. unfold parseIdents.
  assert (F : forall fuel, List.length (piece_toks d l ++ tClose :: rest) < fuel ->
            parseIdents_loop d (S fuel) [] (tOpen :: piece_toks d l ++ tClose :: rest) = Ok (l, tClose :: rest)).
  { intros fuel Hf. cbn [parseIdents_loop]. unfold curT at 1. cbn [cur tOpen tk_type]. test1. rewrite next_ok by nbs. cbn [bind].
    rewrite idents_loop_run; [reflexivity|exact H|nbs|exact Hf]. }
  apply F. cbn [List.length]. lia.
Qed.
Definition type_stop (t : tokentype) : bool := negb (isin t [TOKEN_WITH; TOKEN_PRECISION]).
Lemma type_name_run : forall d ws k r, type_of_words d ws = Some k -> nb (map (W d) ws ++ r) -> type_stop (curT r) = true ->
  exists x, parseDataTypeName d (map (W d) ws ++ r) = Ok (join " " ws, k, None, x :: r) /\ isDataType d (curT (map (W d) ws ++ r)) = true.
Proof.
  intros d ws k r H Hnb Hs. unfold type_stop in Hs. apply negb_true_iff in Hs.
  assert (P1 : eqs (tk_type match r with [] => eof_token | t :: _ => t end) TOKEN_WITH = false).
  { destruct r as [|y r]; [reflexivity|]. apply (isin_false _ _ _ Hs). cbn; auto. }
  assert (P2 : eqs (tk_type match r with [] => eof_token | t :: _ => t end) TOKEN_PRECISION = false).
  { destruct r as [|y r]; [reflexivity|]. apply (isin_false _ _ _ Hs). cbn; auto. }
  destruct ws as [|w [|w2 [|w3 [|w4 [|]]]]]; try discriminate H; cbn [type_of_words] in H.
  - match type of H with (if ?b && ?c then _ else _) = _ => destruct b eqn:Ei; [|discriminate H]; destruct c eqn:Ec; [|discriminate H] end.
    cbn [andb] in H. inversion H as [K]. clear H. apply isin_in in Ei. apply negb_true_iff in Ec. cbn [map List.app join] in *. exists (W d w).
    unfold parseDataTypeName. see.
    destruct d; cbn [type_tokens In] in Ei;
      repeat (destruct Ei as [Ei|Ei]; [rewrite <- Ei in *; first [discriminate Ec|run; rewrite ?P1, ?P2; run; split; reflexivity]|]); destruct Ei.
  - cbn [map List.app join] in *. exists (W d w2). unfold parseDataTypeName. unfold W in Hnb. see. destruct d; try discriminate H;
    (match type of H with (if ?b then _ else _) = _ => destruct b eqn:Ei end;
     [apply andb_true_iff in Ei; destruct Ei as [E1 E2]; apply String.eqb_eq in E1, E2; rewrite E1, E2 in *; inversion H; run; split; reflexivity|];
     match type of H with (if ?b then _ else _) = _ => destruct b eqn:Ej end; [|discriminate H];
     apply andb_true_iff in Ej; destruct Ej as [E1 E2]; apply String.eqb_eq in E1, E2; rewrite E1, E2 in *; inversion H; run; split; reflexivity).
  - cbn [map List.app join] in *. exists (W d w4). unfold parseDataTypeName. unfold W in Hnb. see. destruct d; try discriminate H;
    (match type of H with (if ?b then _ else _) = _ => destruct b eqn:Ei end; [|discriminate H];
     apply andb_true_iff in Ei; destruct Ei as [Ei E4]; apply andb_true_iff in Ei; destruct Ei as [Ei E3]; apply andb_true_iff in Ei; destruct Ei as [E1 E2];
     apply String.eqb_eq in E1, E2, E3, E4; rewrite E1, E2, E3, E4 in *; inversion H; run; split; reflexivity).
Qed.
Lemma datatype_run : forall d t rest, datatype_ok d t = true -> nb (dt_toks d t ++ rest) ->
  negb (isin (curT rest) [TOKEN_WITH; TOKEN_PRECISION; TOKEN_OPEN_PAREN]) = true ->
  exists x, parseDataType d (dt_toks d t ++ rest) = Ok (t, x :: rest) /\ isDataType d (curT (dt_toks d t ++ rest)) = true.
Proof.
  intros d [n k e] rest H Hnb Hs. unfold datatype_ok in H. cbn [dt_name dt_type dt_expr] in H.
  apply andb_true_iff in H. destruct H as [H H4]. apply andb_true_iff in H. destruct H as [H H3]. apply andb_true_iff in H. destruct H as [H1 H2].
  apply String.eqb_eq in H1. destruct (type_of_words d (split " " n)) as [k'|] eqn:Et; [|discriminate H3]. apply String.eqb_eq in H3. subst k'.
  unfold dt_toks in *. cbn [dt_name dt_expr] in *. rewrite <- app_assoc in *. unfold parseDataType. apply negb_true_iff in Hs.
  destruct e as [[|i l]|]; [discriminate H4| |].
  - apply andb_true_iff in H4. destruct H4 as [H4 _]. cbn [List.app] in *. rewrite <- app_assoc in *. cbn [List.app] in *.
    destruct (type_name_run d _ k (tOpen :: piece_toks d (i :: l) ++ tClose :: rest) Et Hnb eq_refl) as [x [E1 E2]].
    rewrite E1, H1. exists tClose. split; [|exact E2]. apply nb_app_r in Hnb. cbn [bind]. unfold peekT. cbn [peek tOpen tk_type]. test1.
    rewrite next_ok by nbs. cbn [bind]. change (mkTok TOKEN_OPEN_PAREN "(") with tOpen.
    rewrite (idents_run d (i :: l)) by assumption. reflexivity.
  - cbn [List.app] in *.
    assert (Hs' : type_stop (curT rest) = true).
    { unfold type_stop, isin. cbn [existsb]. rewrite (isin_false _ _ TOKEN_WITH Hs), (isin_false _ _ TOKEN_PRECISION Hs) by (cbn; auto). reflexivity. }
    destruct (type_name_run d _ k rest Et Hnb Hs') as [x [E1 E2]]. rewrite E1, H1. exists x. split; [|exact E2]. see.
    replace (eqs (tk_type match rest with [] => eof_token | t :: _ => t end) TOKEN_OPEN_PAREN) with false; [reflexivity|].
    destruct rest as [|y rest]; [reflexivity|]. symmetry. apply (isin_false _ _ _ Hs). cbn; auto.
Qed.
