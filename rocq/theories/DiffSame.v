(** Schemas that describe the same catalogue do not differ. *)
From Coq Require Import Lia Permutation.
From Verif Require Import GoStr Token Ast Parser Diff Db DbFacts AppendFacts DiffTable DiffPair DiffSound Tidy TidyFacts.

(** * Equal descriptions have equal texts *)
Lemma neqs_refl : forall a, neqs a a = false.
Proof. intro a. apply neqs_false. reflexivity. Qed.
Lemma map_to : forall A (f g : A -> string) (h : string -> string) l, (forall x, f x = h (g x)) -> map f l = map h (map g l).
Proof. intros A f g h l H. rewrite map_map. apply map_ext. exact H. Qed.

Lemma idents_diff_toks : forall l, idents_diff l = join " " (map snd (toks l)).
Proof. intro l. unfold idents_diff, toks. rewrite map_map. reflexivity. Qed.
Lemma expr_diff_toks : forall e, expr_diff e = join " " (map snd (etoks e)).
Proof. intros [l|]; [apply idents_diff_toks|reflexivity]. Qed.
Lemma datatype_diff_eq : forall a b, dt_type a = dt_type b -> etoks (dt_expr a) = etoks (dt_expr b) -> datatype_diff a = datatype_diff b.
Proof.
  assert (H : forall t, datatype_diff t = ((if eqs (dt_type t) "" then TOKEN_ILLEGAL else dt_type t) ++
    match etoks (dt_expr t) with [] => "" | l => "(" ++ concat_str (map snd l) ++ ")" end)%string).
  { intro t. unfold datatype_diff. destruct (dt_expr t) as [[|i l]|]; try reflexivity. cbn [etoks]. unfold toks.
    rewrite <- (map_map tok_of snd (i :: l)) at 1. reflexivity. }
  intros a b E1 E2. rewrite !H, E1, E2. reflexivity.
Qed.
Lemma default_diff_eq : forall d a b, sem_default a = sem_default b -> default_diff d a = default_diff d b.
Proof.
  assert (H : forall d v, default_diff d v = match sem_default v with
     Some l => match d with Sp => "DEFAULT (" ++ join " " (map snd l) ++ ")" | _ => "DEFAULT " ++ join " " (map snd l) end | None => "" end%string).
  { intros d [[l|]|]; try reflexivity. cbn [default_diff sem_default]. rewrite idents_diff_toks. reflexivity. }
  intros d a b E. rewrite !H, E. reflexivity.
Qed.
Lemma default_is_some : forall a b : default, a <> Some None -> b <> Some None -> sem_default a = sem_default b -> is_some a = is_some b.
Proof. intros [[l|]|] [[l'|]|] Ha Hb H; try reflexivity; first [discriminate H | exfalso; apply Ha; reflexivity | exfalso; apply Hb; reflexivity]. Qed.
Lemma oident_diff_eq : forall a b, option_map id_name a = option_map id_name b -> oident_diff a = oident_diff b.
Proof. intros [a|] [b|] H; try discriminate H; [inversion H; unfold oident_diff, ident_diff; assumption|reflexivity]. Qed.
Lemma options_eq : forall a b : expr, option_map toks a = option_map toks b -> is_some a = is_some b /\ expr_diff a = expr_diff b.
Proof. intros [a|] [b|] H; try discriminate H; [|auto]. inversion H. split; [reflexivity|]. rewrite !expr_diff_toks. cbn [etoks]. congruence. Qed.

Lemma colident_diff_sem : forall d c, colident_diff d c =
  (fst (sem_keycol d c) ++ match d with Pg => "" | My => if snd (sem_keycol d c) then " DESC" else ""
                           | _ => if snd (sem_keycol d c) then " DESC" else " ASC" end)%string.
Proof. intros d [i [[]|]]; destruct d; reflexivity. Qed.
Lemma cols_diff_eq : forall d a b, sem_keycols d a = sem_keycols d b -> cols_diff d a = cols_diff d b.
Proof.
  intros d a b H. unfold cols_diff. do 2 f_equal.
  set (h := fun x : keycol => (fst x ++ match d with Pg => "" | My => if snd x then " DESC" else ""
                           | _ => if snd x then " DESC" else " ASC" end)%string).
  assert (E : forall l, map (colident_diff d) l = map h (sem_keycols d l)).
  { intro l. unfold sem_keycols. rewrite map_map. apply map_ext. intro c. apply colident_diff_sem. }
  rewrite !E, H. reflexivity.
Qed.

Fixpoint raws_string_from (d : dialect) (prev : string) (l : list string) : string :=
  match l with [] => "" | s :: r => expr_sep d prev s ++ s ++ raws_string_from d s r end%string.
Lemma idents_from_raws : forall d l p, idents_string_from d p l = raws_string_from d p (map id_raw l).
Proof. intros d l. induction l as [|i r IH]; intro p; [reflexivity|]. cbn [idents_string_from map raws_string_from]. rewrite IH. reflexivity. Qed.
Lemma expr_string_raws : forall d a b, raws a = raws b -> expr_string d a = expr_string d b.
Proof.
  assert (H : forall d e, expr_string d e = match raws e with [] => "" | s :: r => s ++ raws_string_from d s r end%string).
  { intros d [[|i l]|]; try reflexivity. cbn [expr_string idents_string raws map]. rewrite idents_from_raws. reflexivity. }
  intros d a b E. rewrite !H, E. reflexivity.
Qed.
Lemma using_eq : forall d a b, sem_using a = sem_using b ->
  match a with Some u => " " ++ using_string d u | None => "" end%string = match b with Some u => " " ++ using_string d u | None => "" end%string.
Proof.
  intros d [[v w]|] [[v' w']|] H; try discriminate H; [|reflexivity]. cbn in H. inversion H as [[H1 H2]]. f_equal. unfold using_string. cbn.
  rewrite (expr_string_raws d v v' H1). do 2 f_equal. destruct w as [w|], w' as [w'|]; try discriminate H2; [|reflexivity].
  cbn in H2. inversion H2 as [H3]. rewrite (expr_string_raws d w w' H3). reflexivity.
Qed.

Lemma constraint_diff_eq : forall d t b a, tidy_con d b = true -> tidy_con d a = true -> con_key b = con_key a ->
  cval d t b = cval d t a -> constraint_diff d b = constraint_diff d a.
Proof.
  assert (Hname : forall kw n m, present n = true -> present m = true -> id_name (match n with Some i => i | None => mkIdent "" "" "" end) =
     id_name (match m with Some i => i | None => mkIdent "" "" "" end) -> name_prefix kw ident_diff n = name_prefix kw ident_diff m).
  { intros kw [n|] [m|] H1 H2 H; try discriminate H1; try discriminate H2. unfold name_prefix, ident_diff. rewrite H. reflexivity. }
  intros d t b a Tb Ta Hk Hv. unfold tidy_con in Tb, Ta. apply andb_true_iff in Tb, Ta. destruct Tb as [Nb Tb], Ta as [Na Ta].
  unfold con_key, con_ident in Hk. destruct b, a; cbn [con_name] in *; try discriminate Hv; cbn [cval sem_con] in Hv; inversion Hv; subst; clear Hv;
    cbn [constraint_diff].
  - rewrite (Hname "CONSTRAINT " name name0 Nb Na Hk). rewrite (cols_diff_eq d _ _ H0). reflexivity.
  - rewrite (Hname "CONSTRAINT " name name0 Nb Na Hk), (cols_diff_eq d _ _ H0), (cols_diff_eq d _ _ H2), H1.
    destruct d; try reflexivity; rewrite H3; reflexivity.
  - rewrite (Hname "CONSTRAINT " name name0 Nb Na Hk), (cols_diff_eq d _ _ H0). reflexivity.
  - unfold sem_intable in *. rewrite (Hname _ name name0 Nb Na Hk), (cols_diff_eq d _ _ H1). destruct d; try discriminate Tb.
    + rewrite (using_eq Crdb pre pre0 H2), (using_eq Crdb post post0 H3). reflexivity.
    + apply andb_true_iff in Tb, Ta. destruct Tb as [T1 T2], Ta as [T3 T4].
      destruct pre, post, pre0, post0; try discriminate T1; try discriminate T2; try discriminate T3; try discriminate T4. reflexivity.
  - rewrite (Hname "CONSTRAINT " name name0 Nb Na Hk). do 2 f_equal. rewrite !expr_diff_toks. congruence.
Qed.

Lemma create_index_diff_eq : forall d b a, qname (cx_name b) = qname (cx_name a) -> sem_index d b = sem_index d a ->
  create_index_diff d b = create_index_diff d a.
Proof.
  intros d b a Hn Hs. unfold sem_index in Hs. inversion Hs as [[H1 H2 H3 H4 H5 H6]]. unfold create_index_diff.
  rewrite (objname_diff_qname (cx_name b)), (objname_diff_qname (cx_table b)), (objname_diff_qname (cx_name a)), (objname_diff_qname (cx_table a)).
  rewrite Hn, H1, H2, (cols_diff_eq d _ _ H3). destruct d; try reflexivity.
  pose proof (using_eq Crdb _ _ H5) as E5. pose proof (using_eq Crdb _ _ H6) as E6.
  rewrite E5, E6. reflexivity.
Qed.

Lemma option_diff_eq : forall d b a, present (o_value b) = true -> present (o_value a) = true -> o_name b = o_name a ->
  etoks (o_value b) = etoks (o_value a) -> option_diff d b = option_diff d a.
Proof.
  intros d [n v] [n' v'] H1 H2 H3 H4. cbn in *. destruct v as [v|], v' as [v'|]; try discriminate. unfold option_diff. cbn in *. subst.
  rewrite !idents_diff_toks, H4. reflexivity.
Qed.

(** * Columns, constraints, options *)
Lemma common_column_same : forall d sdiff n b a, c_default b <> Some None -> c_default a <> Some None ->
  sem_col d b = sem_col d a -> diff_common_column d sdiff n b a = [].
Proof.
  intros d sdiff n b a Db Da H. unfold sem_col in H. inversion H as [[H1 H2 H3 H4 H5 H6 H7 H8 H9 H10 H11 H12]]. clear H.
  pose proof (datatype_diff_eq _ _ H1 H2) as E1. pose proof (default_diff_eq d _ _ H3) as E3.
  pose proof (default_is_some _ _ Db Da H3) as E3'.
  unfold diff_common_column, diff_default, diff_notnull, diff_options.
  destruct d; cbv zeta; rewrite E1, E3, E3', H4, !neqs_refl.
  - destruct (is_some (c_default a)), (c_notnull a); reflexivity.
  - destruct (is_some (c_default a)), (c_notnull a); reflexivity.
  - rewrite (oident_diff_eq _ _ H7), (oident_diff_eq _ _ H8), H9, H10, H11, !neqs_refl, !Bool.eqb_reflx.
    destruct (is_some (c_default a)); reflexivity.
  - destruct (options_eq _ _ H12) as [E12 E12']. rewrite E12, E12', neqs_refl, Bool.eqb_reflx.
    destruct (is_some (c_default a)), (is_some (c_options a)); reflexivity.
Qed.

Lemma flat_map_nil : forall A B (f : A -> list B) l, (forall x, In x l -> f x = []) -> flat_map f l = [].
Proof.
  intros A B f l H. induction l as [|x r IH]; [reflexivity|]. cbn [flat_map]. rewrite (H x (or_introl eq_refl)).
  apply IH. intros y Hy. apply H. right; exact Hy.
Qed.
Lemma filter_nil : forall A (f : A -> bool) l, (forall x, In x l -> f x = false) -> filter f l = [].
Proof.
  intros A f l H. induction l as [|x r IH]; [reflexivity|]. cbn [filter]. rewrite (H x (or_introl eq_refl)).
  apply IH. intros y Hy. apply H. right; exact Hy.
Qed.

Section SameTable.
Variable d : dialect.
Variable srt : list constraint -> list constraint.
Variable sdiff : string -> string -> string.
Variables tb ta : create_table.
Hypothesis Tb : tidy_spec d tb.
Hypothesis Ta : tidy_spec d ta.
Hypothesis Hq : qname (ct_name tb) = qname (ct_name ta).
Hypothesis Nb : all_con_named tb = true.
Hypothesis Na : all_con_named ta = true.
Hypothesis Db : NoDup (map fst (table_entries d tb)).
Hypothesis Da : NoDup (map fst (table_entries d ta)).
Hypothesis Heq : forall k, assoc_key k (table_entries d tb) = assoc_key k (table_entries d ta).
Let T := qname (ct_name ta).

Lemma same_cols : forall c, option_map (sem_col d) (find_column c (ct_columns tb)) = option_map (sem_col d) (find_column c (ct_columns ta)).
Proof.
  intro c. pose proof (Heq (KCol T c)) as H. unfold T in H. rewrite assoc_table_col in H by exact Na. rewrite <- Hq in H.
  rewrite assoc_table_col in H by exact Nb. destruct (find_column c (ct_columns tb)), (find_column c (ct_columns ta)); cbn in *;
  try discriminate H; [congruence|reflexivity].
Qed.
Lemma find_column_in : forall t x, NoDup (map fst (table_entries d t)) -> In x (ct_columns t) ->
  find_column (id_name (c_name x)) (ct_columns t) = Some x.
Proof.
  intros t x D H. apply find_unique; [|exact H|apply eqs_refl]. apply uniq_col. apply (nodup_cols d t). exact D.
Qed.

Lemma columns_nil : forall n, diff_columns d sdiff n (ct_columns tb) (ct_columns ta) = [].
Proof.
  intro n. unfold diff_columns. rewrite flat_map_nil.
  - cbn [app]. unfold only_left_columns. rewrite filter_nil; [reflexivity|]. intros x Hx.
    pose proof (same_cols (id_name (c_name x))) as H. rewrite (find_column_in ta x Da Hx) in H.
    destruct (find_column _ (ct_columns tb)); [reflexivity|discriminate H].
  - intros x Hx. unfold diff_before_column. pose proof (same_cols (id_name (c_name x))) as H. rewrite (find_column_in tb x Db Hx) in H.
    destruct (find_column _ (ct_columns ta)) as [y|] eqn:E; [|discriminate H]. cbn [option_map] in H. assert (Hs : sem_col d x = sem_col d y) by congruence.
    apply find_col_some in E. apply common_column_same; [apply (ti_col _ _ Tb); exact Hx|apply (ti_col _ _ Ta); tauto|assumption].
Qed.

Lemma schema_same : option_map id_name (on_schema (ct_name tb)) = option_map id_name (on_schema (ct_name ta)).
Proof. apply qname_schema; [apply (ti_name _ _ Tb)|apply (ti_name _ _ Ta)|exact Hq]. Qed.
Lemma qname_mk : forall n m i j, option_map id_name (on_schema n) = option_map id_name (on_schema m) -> id_name i = id_name j ->
  qname (mkON (on_schema n) i) = qname (mkON (on_schema m) j).
Proof. intros [[s|] n] [[s'|] m] i j H E; cbn in *; try discriminate H; [inversion H|]; congruence. Qed.
Lemma qname_mk_inj : forall n m i j, option_map id_name (on_schema n) = option_map id_name (on_schema m) ->
  qname (mkON (on_schema n) i) = qname (mkON (on_schema m) j) -> id_name i = id_name j.
Proof.
  intros [[s|] n] [[s'|] m] i j H E; cbn in *; try discriminate H; [|exact E]. inversion H as [H1]. rewrite H1 in E.
  apply (append_inj_l "." _ _). apply (append_inj_l (id_name s')). exact E.
Qed.
Lemma ckey_inj2 : forall b a, ckey d (ct_name tb) b = ckey d (ct_name ta) a -> con_key b = con_key a /\ is_idx b = is_idx a.
Proof.
  intros b a H. unfold ckey in H. destruct (is_idx b), (is_idx a); try discriminate H.
  - split; [|reflexivity]. unfold intable_key in H. unfold con_key. pose proof (qname_mk_inj _ _ (con_ident b) (con_ident a) schema_same) as Em.
    destruct d; injection H as H1; first [exact H1 | apply Em; exact H1].
  - inversion H. split; reflexivity || assumption.
Qed.
Lemma ckey_same : forall b a, con_key b = con_key a -> is_idx b = is_idx a -> ckey d (ct_name tb) b = ckey d (ct_name ta) a.
Proof.
  intros b a H E. unfold ckey. rewrite E, Hq, H. destruct (is_idx a); [|reflexivity]. unfold intable_key. unfold con_key in H.
  rewrite H. pose proof (qname_mk _ _ _ _ schema_same H) as Em. destruct d; try reflexivity. f_equal. exact Em.
Qed.
Lemma cval_same : forall c, cval d (ct_name tb) c = cval d (ct_name ta) c.
Proof. intros c. destruct c; try reflexivity. cbn. unfold sem_intable. rewrite Hq. reflexivity. Qed.

Lemma find_con_in : forall t c, NoDup (map con_key (ct_constraints t)) -> In c (ct_constraints t) ->
  find_constraint (con_key c) (ct_constraints t) = Some c.
Proof.
  intros t c D H. unfold find_constraint. apply find_unique; [|exact H|apply eqs_refl].
  apply (atmost1_key _ _ eqs con_key (con_key c)); [|exact D]. intros x y. apply eqs_eq.
Qed.

Lemma con_partner : forall x, In x (ct_constraints tb) -> exists y, find_constraint (con_key x) (ct_constraints ta) = Some y /\
   constraint_diff d x = constraint_diff d y.
Proof.
  intros x Hx. pose proof (Heq (ckey d (ct_name tb) x)) as H.
  assert (E : assoc_key (ckey d (ct_name tb) x) (table_entries d tb) = Some (cval d (ct_name tb) x)).
  { apply In_assoc; [exact Db|]. unfold table_entries. right. apply in_or_app. right. apply in_or_app. left.
    rewrite con_entries_map by exact Nb. apply in_map_iff. exists x. auto. }
  rewrite E in H. symmetry in H. rewrite assoc_table_con in H; [|exact Na|apply ckey_conkey].
  destruct (find _ (ct_constraints ta)) as [y|] eqn:F; [|discriminate H]. cbn in H. inversion H as [Hv].
  apply find_some in F. destruct F as [Fy Fk]. apply key_eqb_eq in Fk. symmetry in Fk. destruct (ckey_inj2 _ _ Fk) as [Hk Hi].
  exists y. rewrite Hk. split; [apply find_con_in; [apply (ti_nodup _ _ Ta)|exact Fy]|].
  apply (constraint_diff_eq d (ct_name ta)); [apply (ti_con _ _ Tb); exact Hx|apply (ti_con _ _ Ta); exact Fy|exact Hk|].
  rewrite <- cval_same, Hv. reflexivity.
Qed.
Lemma con_partner_back : forall y, In y (ct_constraints ta) -> find_constraint (con_key y) (ct_constraints tb) <> None.
Proof.
  intros y Hy. pose proof (Heq (ckey d (ct_name ta) y)) as H.
  assert (E : assoc_key (ckey d (ct_name ta) y) (table_entries d ta) = Some (cval d (ct_name ta) y)).
  { apply In_assoc; [exact Da|]. unfold table_entries. right. apply in_or_app. right. apply in_or_app. left.
    rewrite con_entries_map by exact Na. apply in_map_iff. exists y. auto. }
  rewrite E in H. rewrite assoc_table_con in H; [|exact Nb|apply ckey_conkey].
  destruct (find _ (ct_constraints tb)) as [x|] eqn:F; [|discriminate H].
  apply find_some in F. destruct F as [Fx Fk]. apply key_eqb_eq in Fk. destruct (ckey_inj2 _ _ Fk) as [Hk _].
  intro G. apply (find_con_none _ _ G x Fx). exact Hk.
Qed.

Definition opt_value (t : create_table) (n : string) : option value := assoc_key (KOpt (qname (ct_name t)) n) (table_entries d t).
Lemma opt_value_same : forall n, opt_value tb n = opt_value ta n.
Proof. intro n. unfold opt_value. rewrite Hq. apply Heq. Qed.
Lemma opt_value_in : forall t o, all_con_named t = true -> NoDup (map fst (table_entries d t)) -> In o (ct_options t) ->
  (d = My -> counter_option o = false) -> opt_value t (o_name o) = Some (VOpt (etoks (o_value o))).
Proof.
  intros t o N D H Hc. unfold opt_value. apply In_assoc; [exact D|]. unfold table_entries. right.
  apply in_or_app. right. apply in_or_app. right. apply in_or_app. left. apply in_flat_map. exists o. split; [exact H|].
  unfold opt_entries. destruct d; try (left; reflexivity). rewrite Hc by reflexivity. left; reflexivity.
Qed.

Lemma my_options_nil : forall n, d = My -> diff_table_options d sdiff n (ct_options tb) (ct_options ta) = [].
Proof.
  intros n Hd.
  assert (Hpart : forall t u o, all_con_named t = true -> all_con_named u = true -> NoDup (map fst (table_entries d t)) ->
     (forall x, opt_value t x = opt_value u x) -> In o (ct_options t) -> counter_option o = false ->
     exists x, find_option (o_name o) (ct_options u) = Some x /\ etoks (o_value o) = etoks (o_value x)).
  { intros t u o N N' D Hs Ho Hc. pose proof (opt_value_in t o N D Ho (fun _ => Hc)) as E. rewrite Hs in E. unfold opt_value in E.
    rewrite assoc_table_opt in E by exact N'. rewrite (find_ext _ _ (fun x => eqs (o_name x) (o_name o))) in E.
    - unfold find_option. destruct (find _ (ct_options u)) as [x|] eqn:F; [|discriminate E]. cbn in E. inversion E. eauto.
    - intros x _. destruct (eqs (o_name x) (o_name o)) eqn:Ex; [|reflexivity]. apply eqs_eq in Ex. rewrite Hd. unfold counter_option in *.
      rewrite Ex, Hc. reflexivity. }
  assert (Hauto : forall t o, tidy_spec d t -> In o (ct_options t) -> is_auto_increment o = counter_option o /\ present (o_value o) = true).
  { intros t o Tt Ho. pose proof (ti_opt _ _ Tt o Ho) as H. unfold tidy_opt in H. apply andb_true_iff in H. destruct H as [H1 H2].
    rewrite Hd in H2. split; [|exact H1]. apply Bool.eqb_prop in H2. exact H2. }
  unfold diff_table_options. rewrite Hd. rewrite flat_map_nil.
  - cbn [app]. rewrite (filter_nil _ _ (only_left_options _ _)); [reflexivity|]. intros x Hx. apply filter_In in Hx. destruct Hx as [Hx Hn'].
    destruct (Hauto ta x Ta Hx) as [E _]. rewrite E. destruct (counter_option x) eqn:Ec; [reflexivity|].
    destruct (Hpart ta tb x Na Nb Da (fun n => eq_sym (opt_value_same n)) Hx Ec) as [y [F _]]. rewrite F in Hn'. discriminate.
  - intros x Hx. destruct (Hauto tb x Tb Hx) as [E P]. rewrite E. destruct (counter_option x) eqn:Ec; [reflexivity|].
    destruct (Hpart tb ta x Nb Na Db opt_value_same Hx Ec) as [y [F G]]. rewrite F.
    apply find_opt_some in F. destruct F as [F1 F2]. rewrite (option_diff_eq My x y P); [rewrite neqs_refl; reflexivity| |congruence|exact G].
    apply (Hauto ta y Ta F1).
Qed.

Lemma sp_options_eq : d = Sp -> map o_name (ct_options tb) = map o_name (ct_options ta) ->
  options_diff d (ct_options tb) = options_diff d (ct_options ta).
Proof.
  intros Hd Hn. unfold options_diff. f_equal.
  set (g := fun t n => match opt_value t n with Some (VOpt l) => (n ++ " " ++ join " " (map snd l))%string | _ => "" end).
  assert (E : forall t, tidy_spec d t -> all_con_named t = true -> NoDup (map fst (table_entries d t)) ->
     map (option_diff d) (ct_options t) = map (g t) (map o_name (ct_options t))).
  { intros t Tt N D. rewrite map_map. apply map_ext_in. intros o Ho. unfold g. rewrite (opt_value_in t o N D Ho) by (rewrite Hd; discriminate).
    pose proof (ti_opt _ _ Tt o Ho) as H. unfold tidy_opt in H. apply andb_true_iff in H. destruct H as [H _].
    apply present_some in H. destruct H as [l H]. unfold option_diff. rewrite H, Hd, idents_diff_toks. reflexivity. }
  rewrite (E tb Tb Nb Db), (E ta Ta Na Da), Hn. apply map_ext. intro n. unfold g. rewrite opt_value_same. reflexivity.
Qed.

Lemma row_nil : forall n, diff_row_deletion d sdiff n (ct_rowdel tb) (ct_rowdel ta) = [].
Proof.
  intro n. unfold diff_row_deletion. destruct d eqn:Ed; try reflexivity. rewrite <- Ed in *.
  pose proof (Heq (KRow T)) as H. unfold T in H. rewrite assoc_table_row in H by exact Na. rewrite <- Hq in H. rewrite assoc_table_row in H by exact Nb.
  pose proof (ti_row _ _ Tb) as R1. pose proof (ti_row _ _ Ta) as R2. rewrite Ed in *. unfold tidy_row in *.
  destruct (ct_rowdel tb) as [x|], (ct_rowdel ta) as [y|]; cbn in H; try discriminate H; [|reflexivity].
  apply andb_true_iff in R1, R2. destruct R1 as [R1 R1'], R2 as [R2 R2']. apply String.eqb_eq in R1, R2. inversion H as [H1].
  cbn [ooption_diff]. rewrite (option_diff_eq Sp x y R1' R2'); [rewrite neqs_refl; reflexivity|congruence|exact H1].
Qed.

Lemma same_table_nodiff : (d = Sp -> map o_name (ct_options tb) = map o_name (ct_options ta)) ->
  diff_create_table d srt sdiff false tb ta = DNoDiff.
Proof.
  intro Hopt. unfold diff_create_table.
  assert (E0 : match d with Sp => neqs (options_diff d (ct_options tb)) (options_diff d (ct_options ta)) | _ => false end = false).
  { destruct d eqn:Ed; try reflexivity. rewrite <- Ed in *. apply neqs_false. apply sp_options_eq; [exact Ed|apply Hopt; reflexivity]. }
  rewrite E0. destruct (eqs _ _); [reflexivity|].
  replace (all_named (ct_constraints tb)) with true by (symmetry; exact Nb).
  replace (all_named (ct_constraints ta)) with true by (symmetry; exact Na). cbn [andb].
  unfold diff_tables, only_left_constraints.
  rewrite (filter_nil _ _ (ct_constraints ta)).
  2:{ intros y Hy. pose proof (con_partner_back y Hy). destruct (find_constraint _ _); [reflexivity|congruence]. }
  cbn [append_constraints bind map].
  assert (Er : renamed (ct_name tb) (ct_name ta) = false).
  { unfold renamed. rewrite !objname_diff_qname, Hq. apply neqs_refl. }
  unfold diff_rename. rewrite Er, columns_nil, row_nil. cbn [app].
  rewrite (flat_map_nil _ _ (drop_gone_constraint d sdiff _ _ _)).
  2:{ intros x Hx. unfold drop_gone_constraint. destruct (con_partner x Hx) as [y [F _]]. rewrite F. reflexivity. }
  rewrite (flat_map_nil _ _ (change_constraint d sdiff _ _ _ _)).
  2:{ intros x Hx. unfold change_constraint. destruct (con_partner x Hx) as [y [F G]]. rewrite F, G, neqs_refl. reflexivity. }
  assert (Eo : diff_table_options d sdiff (final_name (ct_name tb) (ct_name ta)) (ct_options tb) (ct_options ta) = []).
  { pose proof (my_options_nil (final_name (ct_name tb) (ct_name ta))) as Em. destruct d; try reflexivity. apply Em. reflexivity. }
  rewrite Eo. reflexivity.
Qed.
End SameTable.

(** * Whole schemas *)
Section Same.
Variable d : dialect.
Variable srt : list constraint -> list constraint.
Variable sdiff : string -> string -> string.
Variables B A : ddl.
Hypothesis CB : forallb is_create B = true.
Hypothesis CA : forallb is_create A = true.
Hypothesis NB : NoDup (map fst (entries d B)).
Hypothesis NA : NoDup (map fst (entries d A)).
Hypothesis KB : forall t, In (CreateTable t) B -> all_con_named t = true.
Hypothesis KA : forall t, In (CreateTable t) A -> all_con_named t = true.
Hypothesis TB : tidy d B = true.
Hypothesis TA : tidy d A = true.
Hypothesis Style : same_style d B A = true.
Hypothesis Heq : forall k, assoc_key k (entries d B) = assoc_key k (entries d A).

Lemma inner_in : forall l t c n, In (CreateTable t) l -> In c (ct_constraints t) -> is_idx c = true -> con_named c = true ->
  ckey d (ct_name t) c = KIdx n -> In n (inner_indexes d l).
Proof.
  intros l t c n Hl Hc Hi Hn Hk. unfold inner_indexes. apply in_flat_map. exists (CreateTable t). split; [exact Hl|].
  apply in_flat_map. exists c. split; [exact Hc|]. destruct c; try discriminate Hi. destruct name as [i|]; [|discriminate Hn].
  unfold ckey, intable_key in Hk. cbn in Hk. cbn [inner_index]. left. destruct d; inversion Hk; reflexivity.
Qed.
Lemma outer_in : forall l i, In (CreateIndex i) l -> In (qname (cx_name i)) (outer_indexes l).
Proof. intros l i H. unfold outer_indexes. apply in_flat_map. exists (CreateIndex i). split; [exact H|left; reflexivity]. Qed.

Lemma entry_value : forall l s k, NoDup (map fst (entries d l)) -> In s l -> declares d k s = true ->
  assoc_key k (entries d l) = assoc_key k (stmt_entries d s).
Proof.
  intros l s k N Hs D. rewrite assoc_home. unfold home. rewrite (find_unique _ _ _ s); [reflexivity| |exact Hs|exact D].
  apply declares_unique. exact N.
Qed.

Lemma partner_exists : forall l l' s, forallb is_create l = true -> NoDup (map fst (entries d l)) ->
  forallb is_create l' = true ->
  (forall t, In (CreateTable t) l' -> all_con_named t = true) -> disjoint (outer_indexes l) (inner_indexes d l') = true ->
  (forall k, assoc_key k (entries d l) = assoc_key k (entries d l')) -> In s l -> exists p, In p l' /\ same_object s p = true.
Proof.
  intros l l' s C N C' K' Dj E Hs. assert (Cs : is_create s = true) by (rewrite forallb_forall in C; apply C; exact Hs).
  pose proof (okey_declared d s Cs) as D. pose proof (entry_value l s _ N Hs D) as V. rewrite E in V.
  assert (V' : assoc_key (okey s) (stmt_entries d s) <> None) by (intro F; apply assoc_None in F; apply F; apply declares_In; exact D).
  rewrite <- V, assoc_home in V'. destruct (home d (okey s) l') as [p|] eqn:Hh; [|congruence]. apply home_some in Hh. destruct Hh as [Hp Dp].
  exists p. split; [exact Hp|].
  assert (Cp : is_create p = true) by (rewrite forallb_forall in C'; apply C'; exact Hp).
  apply same_object_okey; [exact Cs|exact Cp|].
  destruct s as [t|i| | |]; try discriminate Cs.
  - destruct p as [t'|i'| | |]; try discriminate Cp.
    + unfold okey in *. apply declares_In in Dp. cbn [stmt_entries] in Dp. change (table_entries d t') with ((KTab (qname (ct_name t')), VTab) :: table_adds d t') in Dp.
      cbn [map fst] in Dp. destruct Dp as [Dp|Dp]; [congruence|]. apply table_adds_owner in Dp. destruct Dp as [[Dp _]|Dp]; [|discriminate Dp].
      cbn in Dp. inversion Dp. congruence.
    + apply declares_In in Dp. cbn in Dp. destruct Dp as [Dp|[]]. discriminate Dp.
  - destruct p as [t'|i'| | |]; try discriminate Cp.
    + exfalso. apply declares_In in Dp. cbn [stmt_entries] in Dp.
      destruct (assoc_key (okey (CreateIndex i)) (table_entries d t')) eqn:F; [|apply assoc_None in F; contradiction].
      unfold okey in F. rewrite assoc_table_con in F; [|apply K'; exact Hp|exact I].
      destruct (find _ (ct_constraints t')) as [c|] eqn:G; [|discriminate F]. apply find_some in G. destruct G as [G1 G2]. apply key_eqb_eq in G2.
      apply (disjoint_spec _ _ Dj (stmt_name (CreateIndex i))).
      * rewrite stmt_name_index. apply outer_in. exact Hs.
      * apply (inner_in l' t' c); try assumption; [|apply (named_in t'); [apply K'; exact Hp|exact G1]].
        unfold ckey in G2. destruct (is_idx c); [reflexivity|discriminate G2].
    + apply declares_In in Dp. cbn in Dp. destruct Dp as [Dp|[]]. unfold okey in *. rewrite !stmt_name_index in *.
      symmetry. exact Dp.
Qed.

Lemma style1 : disjoint (inner_indexes d B) (outer_indexes A) = true.
Proof. unfold same_style in Style. apply andb_true_iff in Style. tauto. Qed.
Lemma style2 : disjoint (outer_indexes B) (inner_indexes d A) = true.
Proof. unfold same_style in Style. apply andb_true_iff in Style. tauto. Qed.
Lemma disjoint_sym : forall a b, disjoint a b = true -> disjoint b a = true.
Proof.
  intros a b H. unfold disjoint. apply forallb_forall. intros x Hx. apply negb_true_iff. apply memb_false. intro Hy.
  apply (disjoint_spec _ _ H x); assumption.
Qed.

(** The entries of two tables of the same name agree. *)
Lemma tables_agree : forall tb ta, In (CreateTable tb) B -> In (CreateTable ta) A -> qname (ct_name tb) = qname (ct_name ta) ->
  forall k, assoc_key k (table_entries d tb) = assoc_key k (table_entries d ta).
Proof.
  assert (Half : forall l l' t t' k v, NoDup (map fst (entries d l)) -> NoDup (map fst (entries d l')) ->
    forallb is_create l' = true ->
    (forall t, In (CreateTable t) l -> all_con_named t = true) -> (forall t, In (CreateTable t) l' -> all_con_named t = true) ->
    disjoint (inner_indexes d l) (outer_indexes l') = true ->
    (forall k, assoc_key k (entries d l) = assoc_key k (entries d l')) ->
    In (CreateTable t) l -> In (CreateTable t') l' -> qname (ct_name t) = qname (ct_name t') ->
    assoc_key k (table_entries d t) = Some v -> assoc_key k (table_entries d t') = Some v).
  { intros l l' t t' k v N N' C' K K' Dj E Ht Ht' Hq Hv.
    assert (D : declares d k (CreateTable t) = true) by (apply declares_In; apply assoc_In in Hv; apply (in_map fst) in Hv; exact Hv).
    pose proof (entry_value l _ k N Ht D) as V. cbn [stmt_entries] in V. rewrite E, Hv, assoc_home in V.
    destruct (home d k l') as [p|] eqn:Hh; [|discriminate V]. apply home_some in Hh. destruct Hh as [Hp Dp].
    assert (Es : p = CreateTable t').
    { assert (Cp : is_create p = true) by (rewrite forallb_forall in C'; apply C'; exact Hp).
      destruct p as [u|i| | |]; try discriminate Cp.
      - assert (Hu : qname (ct_name u) = qname (ct_name t')).
        { cbn [stmt_entries] in V. destruct (owner k) as [w|] eqn:Ew.
          - destruct (string_dec w (qname (ct_name u))) as [H1|H1]; [|rewrite (assoc_table_other d u k w Ew H1) in V; discriminate V].
            destruct (string_dec w (qname (ct_name t))) as [H2|H2]; [|rewrite (assoc_table_other d t k w Ew H2) in Hv; discriminate Hv].
            congruence.
          - destruct k; try discriminate Ew. rewrite assoc_table_con in V; [|apply K'; exact Hp|exact I].
            rewrite assoc_table_con in Hv; [|apply K; exact Ht|exact I].
            destruct (find _ (ct_constraints u)) as [c|] eqn:G; [|discriminate V]. destruct (find _ (ct_constraints t)) as [c'|] eqn:G'; [|discriminate Hv].
            apply find_some in G, G'. destruct G as [_ G], G' as [_ G']. apply key_eqb_eq in G, G'. unfold ckey in G, G'.
            destruct (is_idx c) eqn:I1; [|discriminate G]. destruct (is_idx c') eqn:I2; [|discriminate G'].
            destruct c; try discriminate I1. destruct c'; try discriminate I2. cbn in V, Hv. rewrite <- Hv in V. inversion V. congruence. }
        apply (same_unique d l' (CreateTable t') _ _ C' N' eq_refl Hp Ht'); apply same_table; congruence.
      - exfalso. apply declares_In in Dp. cbn in Dp. destruct Dp as [Dp|[]]. subst k.
        rewrite assoc_table_con in Hv; [|apply K; exact Ht|exact I].
        destruct (find _ (ct_constraints t)) as [c'|] eqn:G'; [|discriminate Hv]. apply find_some in G'. destruct G' as [G1 G2]. apply key_eqb_eq in G2.
        apply (disjoint_spec _ _ Dj (qname (cx_name i))); [|apply outer_in; exact Hp].
        apply (inner_in l t c'); try assumption; [|apply (named_in t); [apply K; exact Ht|exact G1]].
        unfold ckey in G2. destruct (is_idx c'); [reflexivity|discriminate G2]. }
    subst p. exact V. }
  intros tb ta Hb Ha Hq k. destruct (assoc_key k (table_entries d tb)) as [v|] eqn:E1.
  - symmetry. apply (Half B A tb ta k v); try assumption. apply style1.
  - destruct (assoc_key k (table_entries d ta)) as [v|] eqn:E2; [|reflexivity].
    rewrite <- E1. apply (Half A B ta tb k v); try assumption; [apply disjoint_sym, style2|intro; symmetry; apply Heq|congruence].
Qed.

Lemma index_agree : forall ib ia, In (CreateIndex ib) B -> In (CreateIndex ia) A -> qname (cx_name ib) = qname (cx_name ia) ->
  sem_index d ib = sem_index d ia.
Proof.
  intros ib ia Hb Ha Hq. pose proof (Heq (KIdx (qname (cx_name ib)))) as H.
  rewrite (entry_value B (CreateIndex ib)) in H; [|exact NB|exact Hb|unfold declares; cbn [stmt_entries existsb fst]; rewrite key_eqb_refl; reflexivity].
  rewrite (entry_value A (CreateIndex ia)) in H; [|exact NA|exact Ha|unfold declares; cbn [stmt_entries existsb fst]; rewrite Hq, key_eqb_refl; reflexivity].
  cbn [stmt_entries assoc_key] in H. rewrite key_eqb_refl in H. rewrite Hq, key_eqb_refl in H. congruence.
Qed.

Lemma same_nodiff : (d = Sp -> same_option_order B A = true) -> diff d srt sdiff (Some B) (Some A) = DNoDiff.
Proof.
  intro Ho. cbn [diff]. unfold diff_ddl. destruct (eqs _ _); [reflexivity|].
  assert (E1 : only_left_stmts B A = []).
  { apply filter_nil. intros s Hs. destruct (find_stmt s A) eqn:F; [reflexivity|]. exfalso.
    destruct (partner_exists B A s CB NB CA KA style2 Heq Hs) as [p [Hp Es]].
    assert (G : forall x, In x A -> same_object s x = false) by (intros x Hx; apply (proj1 (find_none_iff _ _ _) F x Hx)).
    rewrite (G p Hp) in Es. discriminate. }
  assert (E2 : only_left_stmts A B = []).
  { apply filter_nil. intros s Hs. destruct (find_stmt s B) eqn:F; [reflexivity|]. exfalso.
    destruct (partner_exists A B s CA NA CB KB (disjoint_sym _ _ style1) (fun k => eq_sym (Heq k)) Hs) as [p [Hp Es]].
    assert (G : forall x, In x B -> same_object s x = false) by (intros x Hx; apply (proj1 (find_none_iff _ _ _) F x Hx)).
    rewrite (G p Hp) in Es. discriminate. }
  rewrite E1, E2. cbn [map_opt app].
  assert (E3 : forall l, (forall s, In s l -> In s B) -> diff_stmts d srt sdiff l A = Ok []).
  { induction l as [|s r IH]; intro H; [reflexivity|]. cbn [diff_stmts].
    assert (Es : diff_stmt d srt sdiff s A = Ok []).
    { pose proof (H s (or_introl eq_refl)) as Hs. destruct (is_create_cases B s CB Hs) as [[tb Et]|[ib Ei]]; subst s.
      - cbn [diff_stmt]. destruct (find_stmt (CreateTable tb) A) as [p|] eqn:F; [|reflexivity].
        destruct (find_stmt_some _ _ _ F) as [Hp Eo]. destruct (same_table_inv _ _ Eo) as [ta [E Hq]]. subst p.
        rewrite (same_table_nodiff d srt sdiff tb ta); try reflexivity.
        + apply tidy_table_spec. apply (tidy_in d B (CreateTable tb) TB Hs).
        + apply tidy_table_spec. apply (tidy_in d A (CreateTable ta) TA Hp).
        + exact Hq.
        + apply KB; exact Hs.
        + apply KA; exact Hp.
        + apply (nodup_flat_stmt d B (CreateTable tb) NB Hs).
        + apply (nodup_flat_stmt d A (CreateTable ta) NA Hp).
        + apply tables_agree; assumption.
        + intro Hd. specialize (Ho Hd). unfold same_option_order in Ho. rewrite forallb_forall in Ho. specialize (Ho _ Hs). cbn in Ho.
          rewrite forallb_forall in Ho. specialize (Ho _ Hp). cbn in Ho. rewrite Hq, String.eqb_refl in Ho. apply eq_strings_eq. exact Ho.
      - cbn [diff_stmt]. destruct (find_stmt (CreateIndex ib) A) as [p|] eqn:F; [|reflexivity].
        destruct (find_stmt_some _ _ _ F) as [Hp Eo]. destruct (same_index_inv _ _ Eo) as [ia [E Hq]]. subst p.
        rewrite (create_index_diff_eq d ib ia Hq (index_agree ib ia Hs Hp Hq)), neqs_refl. reflexivity. }
    rewrite Es. cbn [bind]. rewrite IH; [reflexivity|]. intros x Hx. apply H. right; exact Hx. }
  rewrite E3 by auto. reflexivity.
Qed.
End Same.

Theorem same_catalogue_no_difference : forall d srt sdiff B A mb ma,
  describes d B mb -> describes d A ma -> db_eq mb ma ->
  tidy d B = true -> tidy d A = true -> same_style d B A = true -> (d = Sp -> same_option_order B A = true) ->
  diff d srt sdiff (Some B) (Some A) = DNoDiff.
Proof.
  intros d srt sdiff B A mb ma HB HA E TB TA St Ho.
  destruct (describes_entries d B mb HB) as [NB [VB KB]]. destruct (describes_entries d A ma HA) as [NA [VA KA]].
  destruct HB as [CB _]. destruct HA as [CA _].
  apply (same_nodiff d srt sdiff B A); try assumption. intro k. rewrite <- VB, <- VA. apply E.
Qed.
