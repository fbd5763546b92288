(** Reading printed constraints, tables, indexes and whole texts (for C08). *)
From Coq Require Import Lia.
From Verif Require Import GoStr Token Lexer LexerFacts LexSpec LexLayout LexKeyword LexPanic Ast Parser Printable PrintLex PrintToks PrintParse PrintColumn.
Local Open Scope list_scope.

(** * Constraints *)

Lemma named_run : forall d n, oname_ok d n = true -> exists i, n = Some i /\ name_ok d i = true /\ NewRawIdent d (id_raw i) = i.
Proof. intros d n H. destruct n as [i|]; [|discriminate H]. exists i. split; [reflexivity|]. split; [exact H|apply name_new, H]. Qed.
Lemma cols_part : forall d cs rest, colidents_ok d cs = true -> nb (cols_toks d cs ++ rest) ->
  exists t r, cols_toks d cs ++ rest = t :: r /\ tk_type t = TOKEN_OPEN_PAREN /\ parseColumnIdents d (t :: r) = Ok (cs, rest) /\ nb (t :: r).
Proof. intros d cs rest H Hnb. pose proof (cols_run d cs rest H Hnb) as R. eexists. eexists. split; [reflexivity|]. split; [reflexivity|]. split; [exact R|exact Hnb]. Qed.
Lemma group_part : forall d l rest, group_ok d l = true -> nb (piece_toks d l ++ rest) ->
  exists t r, piece_toks d l ++ rest = t :: r /\ tk_type t = TOKEN_OPEN_PAREN /\ parseExpr d (t :: r) = Ok (l, rest) /\ nb (t :: r).
Proof.
  intros d l rest H Hnb. destruct (group_first d l rest H) as [r E]. pose proof (group_run d l rest H Hnb) as R. exists tOpen, r.
  split; [exact E|]. split; [reflexivity|]. rewrite <- E. split; [exact R|exact Hnb].
Qed.

(** Replace the printed list of columns behind some tokens by the facts about it. *)
Ltac part d cs H :=
  match goal with
  | |- context [cols_toks d cs ++ ?r] =>
      let t := fresh "t" in let q := fresh "q" in let E := fresh "E" in let T := fresh "T" in let R := fresh "R" in
      destruct (cols_part d cs r H) as [t [q [E [T [R _]]]]]; [nbs|rewrite E in *]
  end.
Ltac go := repeat (run; match goal with T : tk_type ?t = _ |- context [tk_type ?t] => rewrite T | R : ?f ?d ?p = Ok _ |- context [?f ?d ?p] => rewrite R end); run.

Lemma constraint_run : forall d tbl c rest, constraint_ok d c = true -> nb (constraint_toks d c ++ rest) -> item_stop (curT rest) = true ->
  parseTableConstraint d tbl (constraint_toks d c ++ rest) = Ok (c, rest) /\ isConstraint d (curT (constraint_toks d c ++ rest)) = true
  /\ eqs (curT (constraint_toks d c ++ rest)) TOKEN_IDENT = false.
Proof.
  intros d tbl c rest H Hnb Hs.
  destruct (item_stop_cases rest Hs) as [st [sr [Es St]]]. subst rest.
  destruct c as [n cls|n cls ref refcols on|n cls|n u pre cls post|n e]; cbn [constraint_ok constraint_toks] in *.
  - destruct d; try discriminate H; apply andb_true_iff in H; destruct H as [Hn Hc].
    + destruct (named_run Pg n Hn) as [i [E [_ N]]]. subst n. cbn [named_toks List.app] in *. split; [|split; reflexivity].
      part Pg cls Hc. unfold parseTableConstraint. go. rewrite N. reflexivity.
    + destruct (named_run Crdb n Hn) as [i [E [_ N]]]. subst n. cbn [named_toks List.app] in *. split; [|split; reflexivity].
      part Crdb cls Hc. unfold parseTableConstraint. go. rewrite N. reflexivity.
    + destruct n as [i|]; [|discriminate Hn]. apply andb_true_iff in Hn. destruct Hn as [Hn Hb]. apply String.eqb_eq in Hn.
      destruct (bare_ident_parts My i Hb) as [Ei _]. rewrite Ei in Hn. cbn [id_name] in Hn. rewrite Hn in Ei. subst i.
      cbn [List.app] in *. split; [|split; reflexivity].
      part My cls Hc. unfold parseTableConstraint. go. reflexivity.
  - apply andb_true_iff in H. destruct H as [H K]. apply andb_true_iff in H. destruct H as [H K0]. apply andb_true_iff in H. destruct H as [H K1].
    apply andb_true_iff in H. destruct H as [H K2]. apply String.eqb_eq in K. subst on.
    destruct (named_run d n H) as [i [E [_ N]]]. subst n. cbn [named_toks List.app] in *. rewrite <- app_assoc in *. cbn [List.app] in *.
    split; [|split; destruct d; reflexivity]. pose proof (name_new d ref K1) as Nr.
    assert (Hnb2 : nb (W d "REFERENCES" :: tI (id_raw ref) :: cols_toks d refcols ++ st :: sr)) by nbs. part d refcols K0. part d cls K2.
    assert (O : parseTableOn d (st :: sr) = Ok ("", st :: sr)) by (unfold parseTableOn; unfold curT; cbn [cur]; destruct d; destruct St as [St|St]; cbn [eqs cur]; rewrite ?St; cbn; rewrite ?St; reflexivity).
    destruct d; unfold parseTableConstraint; go; rewrite ?O, N, Nr; reflexivity.
  - destruct d; try discriminate H. apply andb_true_iff in H. destruct H as [Hn Hc].
    destruct (named_run Pg n Hn) as [i [E [_ N]]]. subst n. cbn [named_toks List.app] in *. split; [|split; reflexivity].
    part Pg cls Hc. unfold parseTableConstraint. go. rewrite N. reflexivity.
  - assert (U : eqs (tk_type st) TOKEN_USING = false) by (destruct St as [St|St]; rewrite St; reflexivity).
    destruct d; try discriminate H; apply andb_true_iff in H; destruct H as [H K4]; apply andb_true_iff in H; destruct H as [H K3];
    apply andb_true_iff in H; destruct H as [Hn Hc]; (destruct pre; [discriminate K3|]); (destruct post; [discriminate K4|]).
    + destruct (named_run Crdb n Hn) as [i [E [_ N]]]. subst n. destruct u; cbn [List.app] in *; (split; [|split; reflexivity]);
      part Crdb cls Hc; unfold parseTableConstraint; go; rewrite U, N; reflexivity.
    + destruct (named_run My n Hn) as [i [E [_ N]]]. subst n. destruct u; cbn [List.app] in *; (split; [|split; reflexivity]);
      part My cls Hc; unfold parseTableConstraint; go; rewrite N; reflexivity.
  - destruct e as [l|]; [|destruct d; discriminate H]. assert (K : oname_ok d n && group_ok d l = true) by (destruct d; try discriminate H; exact H).
    apply andb_true_iff in K. destruct K as [Hn Hg]. destruct (named_run d n Hn) as [i [E [_ N]]]. subst n. cbn [named_toks List.app] in *.
    split; [|split; destruct d; reflexivity].
    destruct (group_part d l (st :: sr) Hg) as [t [q [E [T [R _]]]]]; [nbs|rewrite E in *].
    destruct d; try discriminate H; unfold parseTableConstraint; go; rewrite N; reflexivity.
Qed.

(** * Collecting the constraints *)

(** The library's sort leaves lists of up to [n] elements whose only primary key, if any,
    comes first as they are. *)
Definition keeps_primary_first (n : nat) (srt : list constraint -> list constraint) : Prop :=
  forall cs, 12 < List.length cs <= n -> forallb (fun c => negb (is_pkey c)) (tl cs) = true -> srt cs = cs.

Lemma insert_primaries_none : forall todo done, forallb (fun c => negb (is_pkey c)) todo = true -> insert_primaries done todo = done ++ todo.
Proof.
  intro todo. induction todo as [|c todo IH]; intros done H; [rewrite app_nil_r; reflexivity|]. cbn [forallb] in H. apply andb_true_iff in H. destruct H as [H1 H2].
  cbn [insert_primaries]. assert (P : is_primary c = false) by (destruct c; [discriminate H1|reflexivity..]). rewrite P, IH by exact H2. rewrite <- app_assoc. reflexivity.
Qed.
Lemma sort_same : forall n srt cs, keeps_primary_first n srt -> List.length cs <= n -> forallb (fun c => negb (is_pkey c)) (tl cs) = true -> sort_constraints srt cs = cs.
Proof.
  intros n srt cs Hs Hn H. unfold sort_constraints. destruct (Nat.leb (List.length cs) 12) eqn:L; [|apply Nat.leb_gt in L; apply Hs; [lia|exact H]]. destruct cs as [|c r]; [reflexivity|].
  rewrite insert_primaries_none by exact H. reflexivity.
Qed.
Definition named (c : constraint) : Prop := con_name c <> None.
Lemma constraint_named : forall d c, constraint_ok d c = true -> named c.
Proof.
  intros d c H. unfold named. destruct c as [n|n|n|n|n]; cbn [constraint_ok con_name] in *; destruct n as [n|]; try discriminate; cbn [oname_ok andb] in H;
  destruct d; try discriminate H; destruct e; discriminate H.
Qed.
Lemma existsb_app_false : forall x (l r : list string), existsb (String.eqb x) (l ++ r) = false -> existsb (String.eqb x) l = false /\ existsb (String.eqb x) r = false.
Proof. intros x l r H. rewrite existsb_app in H. apply orb_false_iff in H. exact H. Qed.
Lemma replace_none : forall cs c, (forall x, In x cs -> named x) -> named c -> distinct (constraint_names (cs ++ [c])) = true -> replace_constraint cs c = Some None.
Proof.
  intros cs c Hn Hc. induction cs as [|x cs IH]; intro D; [reflexivity|]. cbn [List.app constraint_names map distinct] in D. apply andb_true_iff in D. destruct D as [D1 D2].
  cbn [replace_constraint]. specialize (Hn x (or_introl eq_refl)) as Hx. unfold named in Hx, Hc. destruct (con_name x) as [n|] eqn:En; [|congruence].
  destruct (con_name c) as [m|] eqn:Em; [|congruence]. apply negb_true_iff in D1. change (existsb (String.eqb (id_name n)) (constraint_names (cs ++ [c])) = false) in D1.
  unfold constraint_names in D1. rewrite map_app in D1. apply existsb_app_false in D1. destruct D1 as [_ D1]. cbn [map existsb] in D1. rewrite Em in D1.
  apply orb_false_iff in D1. destruct D1 as [D1 _]. unfold eqs. rewrite D1. rewrite IH; [reflexivity|intros y Hy; apply Hn; right; exact Hy|exact D2].
Qed.
Lemma append_run : forall d n srt cs c, (match d with Crdb | My => keeps_primary_first n srt | _ => True end) -> List.length (cs ++ [c]) <= n -> constraints_ok d (cs ++ [c]) = true ->
  append_constraint d srt cs c = Ok (cs ++ [c]).
Proof.
  intros d n srt cs c Hs Hn H. unfold constraints_ok in H. apply andb_true_iff in H. destruct H as [H H3]. apply andb_true_iff in H. destruct H as [H1 H2].
  rewrite forallb_forall in H1. unfold append_constraint. rewrite replace_none; [|intros x Hx; apply (constraint_named d), H1, in_or_app; left; exact Hx|
    apply (constraint_named d), H1, in_or_app; right; left; reflexivity|exact H2].
  destruct d; try reflexivity; rewrite (sort_same n); auto.
Qed.
Lemma distinct_prefix : forall l r, distinct (l ++ r) = true -> distinct l = true.
Proof.
  intro l. induction l as [|x l IH]; intros r H; [reflexivity|]. cbn [List.app distinct] in *. apply andb_true_iff in H. destruct H as [H1 H2].
  rewrite (IH r H2), andb_true_r. apply negb_true_iff in H1. apply existsb_app_false in H1. destruct H1 as [H1 _]. rewrite H1. reflexivity.
Qed.
Lemma tl_prefix : forall A (P : A -> bool) l r, forallb P (tl (l ++ r)) = true -> forallb P (tl l) = true.
Proof. intros A P l r H. destruct l as [|x l]; [reflexivity|]. cbn [List.app tl] in *. rewrite forallb_app in H. apply andb_true_iff in H. apply H. Qed.
Lemma constraints_prefix : forall d l r, constraints_ok d (l ++ r) = true -> constraints_ok d l = true.
Proof.
  intros d l r H. unfold constraints_ok in *. apply andb_true_iff in H. destruct H as [H H3]. apply andb_true_iff in H. destruct H as [H1 H2].
  rewrite forallb_app in H1. apply andb_true_iff in H1. destruct H1 as [H1 _]. rewrite H1. unfold constraint_names in *. rewrite map_app in H2.
  rewrite (distinct_prefix _ _ H2). cbn [andb]. destruct d; try reflexivity; apply (tl_prefix _ _ l r), H3.
Qed.

(** * Columns and constraints *)

Definition behind (l : list (list token)) (s : list token) : list token := match l with [] => s | _ => tComma :: commas l ++ s end.
Lemma commas_cons : forall x l s, commas (x :: l) ++ s = x ++ behind l s.
Proof. intros x l s. destruct l as [|y l]; [reflexivity|]. cbn [commas behind]. rewrite <- app_assoc. reflexivity. Qed.
Lemma behind_stop : forall l s, item_stop (curT (behind l (tClose :: s))) = true.
Proof. intros l s. destruct l; reflexivity. Qed.
Definition table_end (d : dialect) (rest : list token) : list token := match d with Pg | Crdb => tClose :: rest | _ => rest end.
Definition end_ok (d : dialect) (rest : list token) : Prop := match d with Pg | Crdb => curT rest = TOKEN_SEMICOLON | _ => True end.
Lemma columns_end : forall d srt tbl cols cs fuel rest, nb (tClose :: rest) -> end_ok d rest ->
  parseColumns_loop d srt (S fuel) tbl cols cs (tClose :: rest) = Ok (cols, cs, table_end d rest).
Proof.
  intros d srt tbl cols cs fuel rest Hnb He. cbn [parseColumns_loop].
  assert (P : match d with Pg | Crdb => peekT (tClose :: rest) = TOKEN_SEMICOLON | _ => True end) by (destruct d; try exact I; exact He).
  destruct d; unfold table_end; unfold curT; cbn [cur tClose tk_type]; repeat test1; cbn [bind guard]; try (rewrite P; reflexivity); rewrite next_ok by nbs; reflexivity.
Qed.
Lemma comma_skip : forall d srt tbl cols cs fuel r, nb (tComma :: r) ->
  parseColumns_loop d srt (S fuel) tbl cols cs (tComma :: r) = parseColumns_loop d srt fuel tbl cols cs r.
Proof.
  intros d srt tbl cols cs fuel r Hnb. cbn [parseColumns_loop]. destruct d; unfold curT; cbn [cur tComma tk_type]; repeat test1; cbn [bind]; rewrite next_ok by nbs; reflexivity.
Qed.
Lemma constraint_step : forall d n srt tbl cols cs c fuel r, (match d with Crdb | My => keeps_primary_first n srt | _ => True end) -> List.length (cs ++ [c]) <= n ->
  constraints_ok d (cs ++ [c]) = true -> nb (constraint_toks d c ++ r) -> item_stop (curT r) = true ->
  parseColumns_loop d srt (S fuel) tbl cols cs (constraint_toks d c ++ r) = parseColumns_loop d srt fuel tbl cols (cs ++ [c]) r.
Proof.
  intros d n srt tbl cols cs c fuel r Hs Hn H Hnb Hr.
  assert (Hc : constraint_ok d c = true).
  { unfold constraints_ok in H. apply andb_true_iff in H. destruct H as [H _]. apply andb_true_iff in H. destruct H as [H _]. rewrite forallb_forall in H. apply H, in_or_app. right. left. reflexivity. }
  destruct (constraint_run d tbl c r Hc Hnb Hr) as [R [C I]]. cbn [parseColumns_loop]. rewrite I, C, R. cbn [bind]. rewrite (append_run d n) by assumption. reflexivity.
Qed.
Lemma constraints_loop : forall d n srt tbl, (match d with Crdb | My => keeps_primary_first n srt | _ => True end) ->
  forall K cs cols fuel rest, List.length (cs ++ K) <= n -> constraints_ok d (cs ++ K) = true -> nb (commas (map (constraint_toks d) K) ++ tClose :: rest) -> end_ok d rest ->
  2 * List.length K < fuel ->
  parseColumns_loop d srt fuel tbl cols cs (commas (map (constraint_toks d) K) ++ tClose :: rest) = Ok (cols, cs ++ K, table_end d rest).
Proof.
  intros d n srt tbl Hs K. induction K as [|c K IH]; intros cs cols fuel rest Hn H Hnb He Hf; (destruct fuel as [|fuel]; [lia|]).
  - cbn [map commas List.app] in *. rewrite columns_end by assumption. rewrite app_nil_r. reflexivity.
  - cbn [map] in *. rewrite commas_cons in *. rewrite (constraint_step d n); [|exact Hs|rewrite app_length in *; cbn [List.length] in *; lia| |exact Hnb|apply behind_stop].
    + change (cs ++ c :: K) with (cs ++ [c] ++ K) in *. rewrite app_assoc in *. cbn [List.length] in Hf. destruct K as [|c' K].
      * cbn [map behind] in *. destruct fuel as [|fuel]; [lia|]. rewrite app_nil_r. apply columns_end; [|exact He]. apply nb_app_r in Hnb. exact Hnb.
      * cbn [map behind] in *. destruct fuel as [|fuel]; [lia|]. apply nb_app_r in Hnb. rewrite comma_skip by exact Hnb. apply IH; [exact Hn|exact H|nbs|exact He|].
        cbn [List.length] in *. lia.
    + change (cs ++ c :: K) with (cs ++ [c] ++ K) in H. rewrite app_assoc in H. apply (constraints_prefix d _ K), H.
Qed.
Lemma column_step : forall d srt tbl cols c cs fuel r, column_ok d c = true -> nb (column_toks d c ++ r) -> item_stop (curT r) = true ->
  parseColumns_loop d srt (S fuel) tbl cols cs (column_toks d c ++ r) = parseColumns_loop d srt fuel tbl (cols ++ [c]) cs r.
Proof.
  intros d srt tbl cols c cs fuel r H Hnb Hr. cbn [parseColumns_loop]. rewrite (column_run d srt tbl c r H Hnb Hr).
  assert (I : eqs (curT (column_toks d c ++ r)) TOKEN_IDENT = true) by reflexivity. rewrite I. reflexivity.
Qed.
Lemma columns_loop : forall d n srt tbl, (match d with Crdb | My => keeps_primary_first n srt | _ => True end) ->
  forall C K cols fuel rest, List.length K <= n -> forallb (column_ok d) C = true -> constraints_ok d K = true ->
  nb (commas (map (column_toks d) C ++ map (constraint_toks d) K) ++ tClose :: rest) -> end_ok d rest ->
  2 * (List.length C + List.length K) < fuel ->
  parseColumns_loop d srt fuel tbl cols [] (commas (map (column_toks d) C ++ map (constraint_toks d) K) ++ tClose :: rest) = Ok (cols ++ C, K, table_end d rest).
Proof.
  intros d n srt tbl Hs C K. induction C as [|c C IH]; intros cols fuel rest Hn HC HK Hnb He Hf; (destruct fuel as [|fuel]; [lia|]).
  - cbn [map List.app] in *. rewrite (constraints_loop d n srt tbl Hs K []); auto. rewrite app_nil_r. reflexivity.
  - cbn [map List.app forallb List.length] in *. apply andb_true_iff in HC. destruct HC as [Hc HC]. rewrite commas_cons in *. rewrite column_step; [|exact Hc|exact Hnb|apply behind_stop].
    replace (cols ++ c :: C) with ((cols ++ [c]) ++ C) by (rewrite <- app_assoc; reflexivity).
    unfold behind in *. destruct (map (column_toks d) C ++ map (constraint_toks d) K) as [|x l] eqn:E.
    + apply app_eq_nil in E. destruct E as [E1 E2]. apply map_eq_nil in E1, E2. subst C K. rewrite app_nil_r. destruct fuel as [|fuel]; [lia|]. apply columns_end; [nbs|exact He].
    + rewrite <- E in *. destruct fuel as [|fuel]; [lia|]. apply nb_app_r in Hnb. rewrite comma_skip by exact Hnb. apply IH; auto; [nbs|lia].
Qed.
