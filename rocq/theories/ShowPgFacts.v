(** Tokens of shown text in postgres (for C55). *)
From Coq Require Import Lia.
From Verif Require Import GoStr Token Lexer LexerFacts LexSpec LexLayout Ast Parser Printable Written PrintLex PrintToks PrintParse PrintStmt PrintDdl WrittenFacts.
From Verif Require Import GenRead GenReadFacts Show ShowFacts ShowPg ShowPgRead.

Local Open Scope list_scope.

Lemma join_TT : forall d sep l ts, FF d sep [tComma] -> lead1 sep -> Forall2 (TT d) l ts -> TT d (join sep l) (commas ts).
Proof.
  intros d sep l ts S L F. induction F as [|s t l ts H F IH]; [apply TT_nil|]. destruct F as [|s' t' l ts H' F]; [exact H|].
  change (join sep (s :: s' :: l)) with (s ++ sep ++ join sep (s' :: l))%string. change (commas (t :: t' :: ts)) with (t ++ [tComma] ++ commas (t' :: ts)).
  apply TT_SEG; [exact H|]. split; [apply FF_TT_app; [exact S|exact IH]|apply lead1_lead, lead1_app, L].
Qed.
Lemma agg_FF : FF Pg agg_sep [tComma].
Proof. eapply lit_FF; reflexivity. Qed.
Lemma agg_lead : lead1 agg_sep.
Proof. apply lead1_byte. reflexivity. Qed.

(** * Columns *)

Lemma p_default_text : forall x ks, p_default_says x ks -> (forall k, In k ks -> clause_ok Pg k = true) ->
  SEG Pg (match x with Some x => " DEFAULT " ++ x | None => "" end)%string (flat_map (clause_toks Pg) ks).
Proof.
  intros [x|] ks D H; [|cbn in D; subst ks; apply SEG_nil].
  destruct D as (v & -> & A). specialize (H (KDefault v) (or_introl eq_refl)). cbn [clause_ok] in H.
  pose proof (alike_TT Pg _ _ _ A (TT_lex _ _ _ (value_TT Pg v H))) as T. apply SEG_stop; [|reflexivity]. cbn [flat_map clause_toks default_toks]. rewrite app_nil_r.
  change (TT Pg (" DEFAULT " ++ x) ([W Pg "DEFAULT"] ++ piece_toks Pg v)). apply FF_TT_app; [eapply lit_FF; reflexivity|exact T].
Qed.
Lemma p_column_TT : forall c w, p_column_says c w -> pc_detail c = "" -> wcolumn_ok Pg w = true -> TT Pg (p_column_text c) (item_toks Pg (ICol w)).
Proof.
  intros c w (N & A & (ks & D & K) & Ki & L) Z H. unfold wcolumn_ok in H.
  apply andb_true_iff in H. destruct H as [H HL]. apply andb_true_iff in H. destruct H as [H _]. apply andb_true_iff in H. destruct H as [H HC].
  apply andb_true_iff in H. destruct H as [HN HT].
  cbn [item_toks]. unfold wcolumn_toks, type_toks. rewrite Ki, K, L. cbn [flat_map wlate_toks]. rewrite !app_nil_r. rewrite flat_map_app.
  assert (HK : forall k, In k ks -> clause_ok Pg k = true) by (intros k I; apply (clauses_all Pg _ _ _ HC); rewrite K; apply in_or_app; right; exact I).
  pose proof (name_TT Pg _ HN) as TN. rewrite N in TN |- *. cbn [id_raw plain_name] in TN |- *. rewrite Z, app_s_nil in A.
  unfold p_column_text. change (tI (pc_name c) :: ?x) with ([tI (pc_name c)] ++ x).
  apply TT_blank; [exact TN|]. fold (length_text (pc_length c)). rewrite <- app_s_assoc. apply TT_SEG; [apply (alike_TT Pg _ _ _ A), TT_lex, datatype_TT, HT|].
  apply SEG_app; [|apply p_default_text; assumption]. destruct (pc_nullable c); [apply SEG_nil|]. apply SEG_stop; [|reflexivity]. cbn. eapply lit_TT; reflexivity.
Qed.

(** * Constraints *)

Lemma no_rules : forall db c, ~ In (pk_name c) (foreign_names db) -> constraint_rows db c = [constraint_row c None].
Proof.
  intros db c H. unfold constraint_rows. rewrite filter_none; [reflexivity|]. intros [n r] I. cbn [fst]. apply String.eqb_neq. intro E. subst n. apply H.
  unfold referential_rows in I. unfold foreign_names. apply in_flat_map in I. destruct I as (t & It & I). apply in_flat_map in I. destruct I as (c' & Ic & I).
  apply in_flat_map. exists t. split; [exact It|]. apply in_flat_map. exists c'. split; [exact Ic|]. destruct (pk_kind c'); try contradiction. destruct I as [I|[]]. left. congruence.
Qed.
Lemma key_columns_string : forall l, cols_string Pg (key_columns l) = ("(" ++ join ", " l ++ ")")%string.
Proof.
  intro l. unfold cols_string, key_columns. rewrite map_map. f_equal. f_equal. f_equal. rewrite <- (map_id l) at 2. apply map_ext. intro n. unfold colident_string. cbn. apply app_s_nil.
Qed.
Lemma p_constraint_TT : forall c i, p_constraint_says c i -> key_kind (pk_kind c) = true -> item_ok Pg i = true -> TT Pg (constraint_row c None) (item_toks Pg i).
Proof.
  intros c i S K H. unfold p_constraint_says in S. unfold constraint_row. destruct (pk_kind c); try discriminate K; subst i; pose proof (item_TT Pg _ H) as T; cbn [item_string constraint_string] in T;
    rewrite key_columns_string in T; cbn [kind_text]; cbn [name_prefix ident_string plain_name id_raw] in T; rewrite ?app_s_assoc in T;
    match type of T with TT _ ?a _ => match goal with |- TT _ ?b _ => replace b with a; [exact T|] end end;
    cbn [ident_string plain_name id_raw]; rewrite ?app_s_assoc; reflexivity.
Qed.
Lemma keys_asked : forall l : list p_constraint, (forall c, In c l -> key_kind (pk_kind c) = true /\ pk_columns c <> []) ->
  filter (fun c => asked_kind (pk_kind c) && has_columns c) l = l.
Proof.
  intros l H. apply filter_all. intros c I. destruct (H c I) as [K N]. unfold has_columns. destruct (pk_kind c); try discriminate K; (destruct (pk_columns c); [congruence|reflexivity]).
Qed.

(** * Tables and indexes *)

Lemma p_table_FF : forall db l t w, plain_pg db l -> In t l -> p_table_says t w -> written_ok Pg w = true ->
  exists s, p_table_text db t = Some s /\ FF Pg (s ++ nl) (written_toks Pg w).
Proof.
  intros db l t w P It (_ & cols & cons & -> & C & K) H. cbn [written_ok] in H. destruct (wtable_parts Pg _ H) as (H1 & _ & H3 & _). cbn [wt_items wt_name] in *.
  destruct (pp_columns db l P t It) as [NC D]. pose proof (fun c Ic => pp_constraints db l P t c It Ic) as PC.
  rewrite forallb_app in H3. apply andb_true_iff in H3. destruct H3 as [H3 H4].
  assert (TC : Forall2 (TT Pg) (map p_column_text (pt_columns t)) (map (item_toks Pg) (map ICol cols))).
  { clear - C D H3. revert D H3. induction C as [|c w cs ws Hc C IH]; intros D H3; [constructor|]. cbn [map forallb] in *. apply andb_true_iff in H3. destruct H3 as [H0 H3].
    constructor; [|apply IH; [intros x Hx; apply D; right; exact Hx|exact H3]]. apply p_column_TT; [exact Hc|apply D; left; reflexivity|exact H0]. }
  assert (RK : flat_map (constraint_rows db) (pt_constraints t) = map (fun c => constraint_row c None) (pt_constraints t)).
  { clear - PC. induction (pt_constraints t) as [|c cs IH]; [reflexivity|]. cbn [flat_map map]. rewrite no_rules by (apply PC; left; reflexivity). rewrite IH; [reflexivity|].
    intros x Hx. apply PC. right. exact Hx. }
  assert (TK : Forall2 (TT Pg) (map (fun c => constraint_row c None) (pt_constraints t)) (map (item_toks Pg) cons)).
  { clear - K PC H4. revert PC H4. induction K as [|c i cs is Hi K IH]; intros PC H4; [constructor|]. cbn [map forallb] in *. apply andb_true_iff in H4. destruct H4 as [H0 H4].
    constructor; [|apply IH; [intros x Hx; apply PC; right; exact Hx|exact H4]]. apply p_constraint_TT; [exact Hi|apply PC; left; reflexivity|exact H0]. }
  unfold p_table_text. unfold column_defs. destruct (pt_columns t) as [|c0 cs] eqn:Ec; [congruence|]. rewrite <- Ec in *. eexists. split; [reflexivity|].
  assert (TD : TT Pg (join agg_sep (map p_column_text (pt_columns t)) ++ match constraint_defs db t with Some cs => "," ++ nl ++ "  " ++ cs | None => "" end)
                 (commas (map (item_toks Pg) (map ICol cols ++ cons)))).
  { unfold constraint_defs. rewrite keys_asked by (intros c Ic; destruct (PC c Ic) as (A & B & _); split; assumption). rewrite RK, map_app.
    destruct (pt_constraints t) as [|k ks] eqn:Ek.
    - inversion K; subst. cbn [map]. rewrite app_nil_r, app_s_nil. apply join_TT; [apply agg_FF|apply agg_lead|exact TC].
    - cbn [map]. fold (map (fun c => constraint_row c None) ks). change (constraint_row k None :: map (fun c => constraint_row c None) ks) with (map (fun c => constraint_row c None) (k :: ks)).
      rewrite <- (app_s_assoc ","), <- (app_s_assoc ("," ++ nl)). fold agg_sep.
      assert (J : forall a b sep, a <> [] -> b <> [] -> join sep (a ++ b) = (join sep a ++ sep ++ join sep b)%string).
      { clear. intros a b sep. induction a as [|x a IH]; intros A B; [congruence|]. destruct a as [|y a]; [destruct b; [congruence|reflexivity]|].
        change (join sep ((x :: y :: a) ++ b)) with (x ++ sep ++ join sep ((y :: a) ++ b))%string. rewrite IH by (try discriminate; exact B).
        change (join sep (x :: y :: a)) with (x ++ sep ++ join sep (y :: a))%string. rewrite !app_s_assoc. reflexivity. }
      change (("," ++ nl) ++ "  ")%string with agg_sep. rewrite <- J; [|rewrite Ec; discriminate|discriminate].
      apply join_TT; [apply agg_FF|apply agg_lead|]. apply Forall2_app; assumption. }
  pose proof (head_TT Pg (mkWT false (mkON (Some (plain_name (pt_schema t))) (plain_name (pt_name t))) [] [] None) H1) as T. unfold head_string in T. cbn [wt_ifnotexists wt_name] in T.
  cbn [written_toks]. unfold wtable_toks. cbn [wt_ifnotexists wt_name wt_items wt_options wt_rowdel options_toks rowdel_toks].
  set (name := objname_string (mkON (Some (plain_name (pt_schema t))) (plain_name (pt_name t)))) in *.
  assert (En : name = (pt_schema t ++ "." ++ pt_name t)%string) by (unfold name, objname_string; cbn [on_schema on_name plain_name id_quote]; unfold ident_diff; cbn [id_name]; rewrite !app_s_nil; reflexivity).

  match goal with |- FF _ ?s _ => replace s with (("CREATE TABLE " ++ "" ++ name) ++ (" (" ++ nl ++ "  ")
     ++ (join agg_sep (map p_column_text (pt_columns t)) ++ match constraint_defs db t with Some cs => "," ++ nl ++ "  " ++ cs | None => "" end) ++ (nl ++ ");" ++ nl))%string
     by (rewrite En; rewrite !app_s_assoc; reflexivity) end.
  match goal with |- FF _ _ (?a ++ ?b ++ ?c ++ ?o ++ ?i ++ ?r) => replace (a ++ b ++ c ++ o ++ i ++ r) with ((a ++ b ++ c) ++ o ++ i ++ [tClose; tSemi]) by (rewrite <- !app_assoc; reflexivity) end.
  apply TT_FF_app; [exact T| |apply lead1_app, lead1_byte; reflexivity]. apply FF_FF_app; [eapply lit_FF; reflexivity|].
  apply TT_FF_app; [exact TD|eapply lit_FF; reflexivity|apply lead1_byte; reflexivity].
Qed.
Lemma by_name_order : forall l, (forall a x b y c, l = a ++ x :: b ++ y :: c -> String.compare (pt_name x) (pt_name y) = Lt) -> order_by le_table l = l.
Proof.
  intros l H. apply order_by_id. induction l as [|x l IH]; [reflexivity|]. destruct l as [|y l]; [reflexivity|].
  change (le_table x y && ShowFacts.in_order le_table (y :: l) = true). rewrite (IH (fun a u b v c E => H (x :: a) u b v c (f_equal (cons x) E))), andb_true_r. unfold le_table. rewrite (H [] x [] y l eq_refl). reflexivity.
Qed.
Lemma index_rows_kept : forall schema db l, plain_pg db l -> l = of_schema schema db ->
  index_statements schema db = map pi_def (flat_map pt_indexes l).
Proof.
  intros schema db l P E. unfold index_statements, schema_constraint_names. rewrite <- E. f_equal.
  set (f := fun r => negb (existsb (String.eqb (pi_name r)) (flat_map (fun t => map pk_name (pt_constraints t)) l))).
  assert (G : forall m, (forall t, In t m -> In t l) -> filter f (flat_map index_rows m) = flat_map pt_indexes m).
  { induction m as [|t m IH]; intro S; [reflexivity|]. cbn [flat_map]. rewrite filter_app. rewrite IH by (intros x Hx; apply S; right; exact Hx). f_equal.
    assert (It : In t l) by (apply S; left; reflexivity). unfold index_rows. rewrite filter_app. rewrite filter_none, filter_all; [reflexivity| |].
    - intros i Ii. unfold f. apply negb_true_iff. destruct (existsb _ _) eqn:Ex; [|reflexivity]. apply existsb_exists in Ex. destruct Ex as (n & In' & En). apply String.eqb_eq in En. subst n.
      apply in_flat_map in In'. destruct In' as (t' & It' & Ic). apply in_map_iff in Ic. destruct Ic as (c & Ec & Ic). exfalso. apply (pp_indexes db l P t i t' c It Ii It' Ic). congruence.
    - intros r Ir. apply in_flat_map in Ir. destruct Ir as (c & Ic & Ir). unfold f. apply negb_false_iff, existsb_exists. exists (pk_name c). split.
      + apply in_flat_map. exists t. split; [exact It|]. apply in_map, Ic.
      + destruct (pk_kind c); try contradiction; destruct Ir as [<-|[]]; apply String.eqb_refl. }
  apply G. auto.
Qed.
Lemma shown_pg_text : forall schema db l tables indexes, by_name schema db l -> plain_pg db l -> p_consists l tables indexes -> forallb (written_ok Pg) (tables ++ indexes) = true ->
  FF Pg (show_postgres schema db) (flat_map (written_toks Pg) (tables ++ indexes)).
Proof.
  intros schema db l tables indexes [E O] P [C X] H. rewrite forallb_app in H. apply andb_true_iff in H. destruct H as [H1 H2]. rewrite flat_map_app.
  unfold show_postgres. apply FF_FF_app.
  - unfold table_statements. unfold of_schema. rewrite <- E, (by_name_order l O).
    assert (G : forall m ts, (forall t, In t m -> In t l) -> Forall2 p_table_says m ts -> forallb (written_ok Pg) ts = true ->
      FF Pg (concat_str (map (fun s => s ++ nl)%string (flat_map (fun t => match p_table_text db t with Some s => [s] | None => [] end) m))) (flat_map (written_toks Pg) ts)).
    { intros m ts S F. induction F as [|t w m ts Ht F IH]; intro K; [apply FF_nil|]. cbn [forallb] in K. apply andb_true_iff in K. destruct K as [K1 K2].
      destruct (p_table_FF db l t w P (S t (or_introl eq_refl)) Ht K1) as (s & Es & Fs). cbn [flat_map]. rewrite Es, map_app. cbn [map List.app concat_str].
      apply FF_FF_app; [exact Fs|]. apply IH; [intros x Hx; apply S; right; exact Hx|exact K2]. }
    apply G; auto.
  - rewrite (index_rows_kept schema db l P E). clear - X H2. induction X as [|i w is ws (x & -> & A) X IH]; [apply FF_nil|]. cbn [forallb] in H2. apply andb_true_iff in H2. destruct H2 as [K1 K2].
    cbn [map concat_str flat_map written_toks]. apply FF_FF_app; [|apply IH, K2]. rewrite <- app_s_assoc.
    rewrite <- (app_nil_r (create_index_toks Pg x)).
    apply TT_FF_app; [|apply nl_FF|apply lead1_byte; reflexivity]. apply (alike_TT Pg _ _ _ A), TT_lex, FF_TT, create_index_FF, K1.
Qed.
