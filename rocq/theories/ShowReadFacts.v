(** Tokens of shown text (for C54). *)
From Coq Require Import Lia.
From Verif Require Import GoStr Token Lexer LexerFacts LexSpec LexLayout Ast Parser Printable Written PrintLex PrintToks PrintParse PrintStmt PrintDdl WrittenFacts.
From Verif Require Import GenRead GenReadFacts Show ShowFacts ShowRead.

Local Open Scope list_scope.

(** * Columns *)

Lemma group_toks : forall v x, group_ok Sp v = true -> alike Sp x (idents_string Sp v) -> TT Sp x (piece_toks Sp v).
Proof. intros v x H A. apply (alike_TT Sp _ _ _ A), TT_lex, group_TT, H. Qed.
Lemma value_toks : forall v x, value_ok Sp v = true -> alike Sp x (idents_string Sp v) -> TT Sp x (piece_toks Sp v).
Proof. intros v x H A. apply (alike_TT Sp _ _ _ A), TT_lex, value_TT, H. Qed.
Lemma default_text : forall x ks, default_says x ks -> (forall k, In k ks -> clause_ok Sp k = true) ->
  SEG Sp (match x with Some d => " DEFAULT (" ++ d ++ ")" | None => "" end)%string (flat_map (clause_toks Sp) ks).
Proof.
  intros [x|] ks D H.
  - destruct D as (v & -> & A). specialize (H (KDefault v) (or_introl eq_refl)). cbn [clause_ok] in H. pose proof (value_toks v _ H A) as T.
    apply SEG_stop; [|reflexivity]. cbn [flat_map clause_toks default_toks]. rewrite app_nil_r.
    change (TT Sp (" DEFAULT " ++ "(" ++ x ++ ")") (default_toks Sp (Some (Some v)))). unfold default_toks.
    change (W Sp "DEFAULT" :: piece_toks Sp v) with ([W Sp "DEFAULT"] ++ piece_toks Sp v).
    apply FF_TT_app; [eapply lit_FF; reflexivity|exact T].
  - cbn in D. subst ks. apply SEG_nil.
Qed.
Lemma options_filter : forall t c, filter (fun o => String.eqb (sc_name c) (so_column o)) (st_options t) = options_of t c.
Proof. intros t c. unfold options_of. apply filter_ext. intro o. apply String.eqb_sym. Qed.
Lemma options_text_SEG : forall t c k, options_say (options_of t c) k -> late_ok Sp k = true -> SEG Sp (options_text t c) (wlate_toks Sp k).
Proof.
  intros t c k O H. unfold options_text. rewrite options_filter. destruct (options_of t c) as [|o l]; [cbn in O; subst k; apply SEG_nil|].
  destruct O as (v & -> & A). cbn [late_ok] in H. pose proof (group_toks v _ H A) as T. apply SEG_stop; [|reflexivity].
  change (wlate_toks Sp (LOptions v)) with ([W Sp "OPTIONS"] ++ piece_toks Sp v).
  match type of T with TT _ ?x _ => change (TT Sp (" OPTIONS " ++ x) ([W Sp "OPTIONS"] ++ piece_toks Sp v)) end.
  apply FF_TT_app; [eapply lit_FF; reflexivity|exact T].
Qed.
Lemma column_text_TT : forall t c w, column_says t c w -> wcolumn_ok Sp w = true ->
  TT Sp (column_text c ++ options_text t c) (item_toks Sp (ICol w)).
Proof.
  intros t c w (N & A & (ks & D & K) & Ki & O) H. pose proof H as H0. unfold wcolumn_ok in H.
  apply andb_true_iff in H. destruct H as [H HL]. apply andb_true_iff in H. destruct H as [H _]. apply andb_true_iff in H. destruct H as [H HC].
  apply andb_true_iff in H. destruct H as [HN HT].
  cbn [item_toks]. unfold wcolumn_toks, type_toks. rewrite Ki, K. cbn [flat_map]. rewrite flat_map_app.
  assert (HK : forall k, In k ks -> clause_ok Sp k = true) by (intros k I; apply (clauses_all Sp _ _ _ HC); rewrite K; apply in_or_app; left; exact I).
  pose proof (name_TT Sp _ HN) as TN. rewrite N in TN |- *. cbn [id_raw plain_name] in TN |- *.
  unfold column_text. rewrite !app_s_assoc.
  change (tI (sc_name c) :: dt_toks Sp (wc_type w) ++ (flat_map (clause_toks Sp) ks ++ flat_map (clause_toks Sp) (if sc_nullable c then [] else [KNotNull])) ++ [] ++ wlate_toks Sp (wc_late w))
    with ([tI (sc_name c)] ++ dt_toks Sp (wc_type w) ++ (flat_map (clause_toks Sp) ks ++ flat_map (clause_toks Sp) (if sc_nullable c then [] else [KNotNull])) ++ wlate_toks Sp (wc_late w)).
  apply TT_blank; [exact TN|]. apply TT_SEG; [apply (alike_TT Sp _ _ _ A), TT_lex, datatype_TT, HT|].
  rewrite <- app_assoc. apply SEG_app; [apply default_text; assumption|]. apply SEG_app; [|apply options_text_SEG; assumption].
  destruct (sc_nullable c); [apply SEG_nil|]. apply SEG_stop; [|reflexivity]. cbn. eapply lit_TT; reflexivity.
Qed.
Lemma columns_text_FF : forall t cs ws, Forall2 (column_says t) cs ws -> forallb (item_ok Sp) (map ICol ws) = true ->
  FF Sp (columns_text t cs) (commas (map (item_toks Sp) (map ICol ws))).
Proof.
  intros t cs ws F. induction F as [|c w cs ws Hc F IH]; intro H; [apply FF_nil|]. cbn [map forallb] in H. apply andb_true_iff in H. destruct H as [H1 H2].
  pose proof (column_text_TT t c w Hc H1) as T. specialize (IH H2). cbn [columns_text]. destruct F as [|c' w' cs ws Hc' F].
  - cbn [map commas columns_text]. change (item_toks Sp (ICol w)) with ([] ++ item_toks Sp (ICol w)). apply FF_FF_app; [eapply lit_FF; reflexivity|].
    rewrite <- app_s_assoc. rewrite <- (app_nil_r (item_toks Sp (ICol w))). change ("" ++ nl ++ "")%string with nl.
    apply TT_FF_app; [exact T|apply nl_FF|apply lead1_byte; reflexivity].
  - change (commas (map (item_toks Sp) (map ICol (w :: w' :: ws)))) with ([] ++ item_toks Sp (ICol w) ++ [tComma] ++ [] ++ commas (map (item_toks Sp) (map ICol (w' :: ws)))).
    apply FF_FF_app; [eapply lit_FF; reflexivity|]. rewrite <- app_s_assoc. apply TT_FF_app; [exact T| |apply lead1_app; apply lead1_byte; reflexivity].
    apply FF_FF_app; [eapply lit_FF; reflexivity|]. apply FF_FF_app; [apply nl_FF|exact IH].
Qed.

(** * The primary key *)

Lemma primary_key_columns : forall t, map icr_column (query_primary_key t) = map pt_column (st_key t).
Proof.
  intro t. unfold query_primary_key.
  assert (R : filter (fun r => String.eqb (icr_type r) "PRIMARY_KEY") (index_columns_rows t) = column_rows "PRIMARY_KEY" "PRIMARY_KEY" (st_key t) []).
  { unfold index_columns_rows. rewrite filter_app, filter_all, filter_none, app_nil_r; [reflexivity| |].
    - intros r I. apply in_flat_map in I. destruct I as (i & _ & I). unfold column_rows in I. apply in_app_or in I.
      destruct I as [I|I]; apply in_map_iff in I; destruct I as (x & <- & _); reflexivity.
    - intros r I. unfold column_rows in I. apply in_app_or in I. destruct I as [I|I]; apply in_map_iff in I; destruct I as (x & <- & _); reflexivity. }
  rewrite R. unfold indexes_rows. rewrite filter_app.
  assert (N : filter (fun r => String.eqb (ir_type r) "PRIMARY_KEY") (map (fun i => mkIR (si_name i) "INDEX" (si_unique i)) (st_indexes t)) = []).
  { apply filter_none. intros x I. apply in_map_iff in I. destruct I as (i & <- & _). reflexivity. }
  rewrite N, app_nil_r. destruct (st_key t) as [|p k]; [reflexivity|]. cbn [filter ir_type]. change (String.eqb "PRIMARY_KEY" "PRIMARY_KEY") with true. cbv iota.
  unfold join_rows. cbn [flat_map]. rewrite app_nil_r. rewrite order_by_id.
  - apply column_rows_columns.
  - generalize (p :: k). intro key. unfold column_rows. cbn [map]. rewrite app_nil_r. generalize 1. induction key as [|c key IH]; intro n; [reflexivity|].
    specialize (IH (S n)). destruct key as [|c' key]; [reflexivity|]. cbn [List.length seq combine map] in *. cbn [in_order] in *. rewrite IH, andb_true_r.
    unfold le_position. cbn [icr_position fst]. apply Nat.leb_le. lia.
Qed.
Lemma part_ascending : forall p, pt_desc p = false -> part_says p = [plain_name (pt_column p)].
Proof. intros p H. unfold part_says. rewrite H. reflexivity. Qed.
Lemma parts_toks : forall k, ascending k -> (forall p, In p k -> name_ok Sp (plain_name (pt_column p)) = true) ->
  piece_toks Sp (parts_say k) = commas (map (fun p => [tI (pt_column p)]) k).
Proof.
  intros k. induction k as [|p k IH]; intros A H; [reflexivity|].
  assert (E : lex Sp (pt_column p) = [tI (pt_column p)]) by (apply (TT_lex Sp), (name_TT Sp (plain_name (pt_column p))), H; left; reflexivity).
  assert (Ap : part_says p = [plain_name (pt_column p)]) by (apply part_ascending, A; left; reflexivity).
  destruct k as [|q k]; [cbn [parts_say]; rewrite Ap; cbn [piece_toks flat_map plain_name id_raw map commas]; rewrite E; reflexivity|].
  change (parts_say (p :: q :: k)) with (part_says p ++ plain_name "," :: parts_say (q :: k)). rewrite Ap. unfold piece_toks. cbn [flat_map List.app plain_name id_raw]. rewrite E.
  change (flat_map (fun i => lex Sp (id_raw i)) (parts_say (q :: k))) with (piece_toks Sp (parts_say (q :: k))).
  rewrite IH; [reflexivity| |]; intros x I; [apply A|apply H]; right; exact I.
Qed.
Lemma key_text_FF : forall k, ascending k -> (forall p, In p k -> name_ok Sp (plain_name (pt_column p)) = true) ->
  FF Sp ("PRIMARY KEY (" ++ join ", " (map pt_column k) ++ ")") (option_toks Sp (key_says k)).
Proof.
  intros k A H. unfold key_says, option_toks. cbn [o_name o_value]. change (String.eqb "PRIMARY KEY" "INTERLEAVE IN PARENT") with false. cbv iota.
  change (lex Sp "PRIMARY KEY") with [W Sp "PRIMARY"; W Sp "KEY"].
  assert (P : piece_toks Sp (plain_name "(" :: parts_say k ++ [plain_name ")"]) = [tOpen] ++ commas (map (fun p => [tI (pt_column p)]) k) ++ [tClose]).
  { rewrite <- (parts_toks k A H). unfold piece_toks. cbn [flat_map]. rewrite flat_map_app. reflexivity. }
  rewrite P. rewrite app_assoc. apply (FF_FF_app Sp "PRIMARY KEY ("); [eapply lit_FF; reflexivity|].
  apply TT_FF_app; [|apply close_FF|apply lead1_byte; reflexivity]. apply join_commas. intros x Hx. apply (name_TT Sp (plain_name (pt_column x))), H, Hx.
Qed.

(** * Tables and indexes *)

Lemma policy_SEG : forall x o, policy_says x o -> rowdel_ok Sp o = true ->
  SEG Sp (if String.eqb x "" then "" else "," ++ nl ++ "ROW DELETION POLICY (" ++ x ++ ")")%string (rowdel_toks Sp o).
Proof.
  intros x o P H. destruct x as [|a x]; [cbn in P; subst o; apply SEG_nil|]. set (y := String a x) in *.
  assert (Q : exists v, o = Some (mkOpt "ROW DELETION POLICY" (Some v)) /\ alike Sp ("(" ++ y ++ ")") (idents_string Sp v)) by exact P. clear P. destruct Q as (v & -> & A).
  change (String.eqb y "") with false. cbv iota. apply SEG_stop; [|reflexivity].
  assert (F : FF Sp "ROW DELETION POLICY " (lex Sp "ROW DELETION POLICY")) by (eapply lit_FF; [reflexivity|reflexivity|reflexivity|reflexivity|vm_compute; reflexivity]).
  assert (L : lex Sp (idents_string Sp v) = piece_toks Sp v).
  { pose proof (option_any_lex _ (or_intror H)) as L. unfold option_string, option_toks in L. cbn [o_name o_value] in L.
    change (String.eqb "ROW DELETION POLICY" "INTERLEAVE IN PARENT") with false in L. cbv iota in L.
    destruct F as [_ F].
    rewrite <- app_s_assoc in L. change ("ROW DELETION POLICY" ++ " ")%string with "ROW DELETION POLICY " in L. rewrite F in L. apply app_inv_head in L. exact L. }
  unfold rowdel_toks. cbn [o_name o_value].
  change (TT Sp (("," ++ nl) ++ "ROW DELETION POLICY " ++ "(" ++ y ++ ")") ([tComma] ++ lex Sp "ROW DELETION POLICY" ++ piece_toks Sp v)).
  apply FF_TT_app; [eapply lit_FF; reflexivity|]. apply FF_TT_app; [exact F|]. apply (alike_TT Sp _ _ _ A L).
Qed.
Lemma table_text_FF : forall t w, plain_table t -> table_says t w -> wtable_ok Sp w = true -> FF Sp (table_text t) (wtable_toks Sp w).
Proof.
  intros t w P (I & N & (cols & cons & E & C & X) & O & R) H. destruct (wtable_parts Sp w H) as (H1 & _ & H3 & _ & H5 & H6).
  pose proof (pt_further t P) as Z. rewrite Z in X. inversion X; subst cons. rewrite app_nil_r in E. rewrite E in H3.
  rewrite (pt_parent t P) in O. cbn [parent_says] in O.
  pose proof (head_TT Sp w H1) as T. unfold head_string in T. rewrite I, N in T. cbn [bare_name objname_string plain_name] in T.
  unfold table_text, wtable_toks. rewrite I, N, E, O.
  rewrite <- (app_s_assoc "CREATE TABLE ").
  match goal with |- FF _ _ (?a ++ ?b ++ ?c ++ ?r) => replace (a ++ b ++ c ++ r) with ((a ++ b ++ c) ++ r) by (rewrite <- !app_assoc; reflexivity) end.
  apply TT_FF_app; [exact T| |apply lead1_app, lead1_byte; reflexivity]. apply FF_FF_app; [lit_FF|]. apply (FF_FF_app Sp nl []); [apply nl_FF|].
  apply FF_FF_app; [apply columns_text_FF; assumption|]. apply FF_FF_app; [apply close_FF|].
  rewrite <- app_s_assoc. rewrite (app_assoc (options_toks Sp [key_says (st_key t)])).
  apply TT_FF_app; [|change [tSemi] with ([tSemi] ++ []); apply FF_FF_app; [lit_FF|apply nl_FF]|apply lead1_app, lead1_byte; reflexivity].
  apply SEG_app; [|apply policy_SEG; assumption].
  assert (K : forall p, In p (st_key t) -> name_ok Sp (plain_name (pt_column p)) = true).
  { intros p Ip. pose proof (pt_key_columns t P (pt_column p) (in_map pt_column _ _ Ip)) as Q. clear - Q C H3.
    induction C as [|c w cs ws (Nc & _) C IH]; [destruct Q|]. cbn [map forallb] in *. apply andb_true_iff in H3. destruct H3 as [H3 H4].
    destruct Q as [Q|Q]; [|apply IH; assumption]. rewrite <- Q, <- Nc. apply (wcolumn_parts Sp w H3). }
  pose proof (key_text_FF _ (pt_key_ascending t P) K) as F.
  pose proof (primary_key_columns t) as Q. destruct (query_primary_key t) as [|r l] eqn:Eq.
  { exfalso. apply (pt_key t P). destruct (st_key t); [reflexivity|discriminate Q]. }
  rewrite Q. apply SEG_stop; [|reflexivity]. apply (FF_TT_app Sp " " []); [apply blank_FF|]. apply FF_TT. exact F.
Qed.
Lemma index_text_FF : forall t i x, st_indexes t = [i] -> index_says t i x -> ascending (si_columns i) -> si_name i <> "PRIMARY_KEY" -> create_index_ok Sp x = true ->
  FF Sp (concat_str (index_texts t)) (create_index_toks Sp x).
Proof.
  intros t i x E [S X] A N H. pose proof (create_index_FF Sp x H) as F. rewrite X in F at 1.
  unfold index_texts. rewrite query_indexes_all, E. cbn [map concat_str]. rewrite app_s_nil. unfold index_text. rewrite (one_index_columns t i E S N).
  match type of F with FF _ ?a _ => match goal with |- FF _ ?b _ => replace b with a; [exact F|] end end.
  unfold create_index_string. cbn [cx_comment cx_unique cx_ifnotexists cx_name cx_table cx_using cx_pre cx_columns cx_post ir_unique ir_name].
  assert (Ec : cols_string Sp (map (fun p => mkCI (plain_name (pt_column p)) (if pt_desc p then Some true else None)) (si_columns i)) = ("(" ++ join ", " (map pt_column (si_columns i)) ++ ")")%string).
  { unfold cols_string. rewrite map_map. f_equal. f_equal. f_equal. apply map_ext_in. intros p Ip. rewrite (A p Ip). unfold colident_string. cbn [ci_ident ci_order]. apply app_s_nil. }
  rewrite Ec. unfold comment_string. cbn -[append]. rewrite !app_s_assoc. reflexivity.
Qed.
Lemma shown_text : forall db wss, Forall2 consists db wss -> (forall t, In t db -> plain_table t) -> forallb (written_ok Sp) (List.concat wss) = true ->
  FF Sp (show_spanner db) (flat_map (written_toks Sp) (List.concat wss)).
Proof.
  intros db wss F. induction F as [|t ws db wss C F IH]; intros P H; [apply FF_nil|]. cbn [List.concat] in *. rewrite forallb_app in H. apply andb_true_iff in H. destruct H as [H1 H2].
  specialize (IH (fun x I => P x (or_intror I)) H2). specialize (P t (or_introl eq_refl)). rewrite flat_map_app. cbn [show_spanner].
  destruct C as [w xs T X]. cbn [forallb flat_map written_ok written_toks] in *. apply andb_true_iff in H1. destruct H1 as [Hw Hx]. rewrite <- app_assoc.
  apply FF_FF_app; [apply table_text_FF; assumption|].
  match goal with |- FF _ _ (?a ++ ?b) => change (a ++ b) with (a ++ [] ++ b) end.
  apply FF_FF_app; [|apply FF_FF_app; [destruct db; [apply FF_nil|apply nl_FF]|exact IH]].
  pose proof (pt_one_index t P) as L. pose proof (pt_index t P) as Q. destruct (st_indexes t) as [|i [|j l]] eqn:E; [| |cbn in L; lia].
  - inversion X; subst. unfold index_texts. rewrite query_indexes_all, E. apply FF_nil.
  - inversion X as [|i' x l' xs' Xi Xl]; subst. inversion Xl; subst. cbn [map flat_map forallb written_ok written_toks] in *. rewrite app_nil_r. rewrite andb_true_r in Hx.
    destruct (Q i (or_introl eq_refl)) as [A N]. apply (index_text_FF t i x); assumption.
Qed.
