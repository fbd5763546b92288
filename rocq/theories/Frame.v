(** A diff only touches tables and indexes that differ. *)
From Coq Require Import Lia Permutation.
From Verif Require Import GoStr Token Ast Parser Diff Db DbFacts AppendFacts DiffTable DiffPair DiffSound
  Tidy TidyFacts DiffSame Reconcile ReconcileFacts Honest DiffSpec Justified.

(** ** Reading a described catalogue *)
Section Read.
Variable d : dialect.
Variable l : ddl.
Variable m : db.
Hypothesis D : describes d l m.

Lemma read_nodup : NoDup (map fst (entries d l)).
Proof. apply (describes_entries d l m D). Qed.
Lemma read_create : forallb is_create l = true.
Proof. apply D. Qed.
Lemma read_named : forall t, In (CreateTable t) l -> all_con_named t = true.
Proof. apply (describes_entries d l m D). Qed.
Lemma read_assoc : forall k, m k = assoc_key k (entries d l).
Proof. apply (describes_entries d l m D). Qed.

Lemma read_owned : forall t k, In (CreateTable t) l -> owner k = Some (qname (ct_name t)) -> m k = assoc_key k (table_entries d t).
Proof.
  intros t k Ht Ho. rewrite read_assoc, assoc_home. destruct (home d k l) as [s|] eqn:E.
  - apply home_some in E. destruct E as [Hs Ds]. destruct (owner_declares d k _ s Ho Ds) as [u [E1 E2]]. subst s.
    assert (E : CreateTable u = CreateTable t).
    { apply (same_unique d l (CreateTable t) _ _ read_create read_nodup eq_refl Hs Ht); apply same_table; congruence. }
    inversion E. reflexivity.
  - symmetry. apply assoc_None. intro F. unfold home in E. apply (find_none _ _ E) in Ht. apply declares_In with (s := CreateTable t) in F. congruence.
Qed.
Lemma read_missing : forall t k, (forall u, In (CreateTable u) l -> qname (ct_name u) <> t) -> owner k = Some t -> m k = None.
Proof.
  intros t k Hn Ho. rewrite read_assoc, assoc_home. destruct (home d k l) as [s|] eqn:E; [|reflexivity].
  apply home_some in E. destruct E as [Hs Ds]. destruct (owner_declares d k _ s Ho Ds) as [u [E1 E2]]. subst s. exfalso. exact (Hn u Hs E2).
Qed.
Lemma read_table : forall t, In (CreateTable t) l -> m (KTab (qname (ct_name t))) = Some VTab.
Proof. intros t Ht. rewrite (read_owned t (KTab (qname (ct_name t))) Ht eq_refl). unfold table_entries. cbn [assoc_key]. rewrite key_eqb_refl. reflexivity. Qed.
Lemma read_col : forall t n, In (CreateTable t) l ->
  m (KCol (qname (ct_name t)) n) = option_map (fun x => VCol (sem_col d x)) (find_column n (ct_columns t)).
Proof.
  intros t n Ht. rewrite (read_owned t (KCol (qname (ct_name t)) n) Ht eq_refl). apply assoc_table_col. apply read_named. exact Ht.
Qed.
Lemma read_row : forall t, In (CreateTable t) l ->
  m (KRow (qname (ct_name t))) = option_map (fun x => VRow (etoks (o_value x))) (ct_rowdel t).
Proof.
  intros t Ht. rewrite (read_owned t (KRow (qname (ct_name t))) Ht eq_refl). apply assoc_table_row. apply read_named. exact Ht.
Qed.
Lemma read_opt : forall t n, In (CreateTable t) l ->
  m (KOpt (qname (ct_name t)) n) = assoc_key (KOpt (qname (ct_name t)) n) (table_entries d t).
Proof. intros t n Ht. apply read_owned; [exact Ht|reflexivity]. Qed.
Lemma read_index : forall i, In (CreateIndex i) l -> m (KIdx (qname (cx_name i))) = Some (VIdx (sem_index d i)).
Proof.
  intros i Hi. rewrite read_assoc, (entry_value d l (CreateIndex i) _ read_nodup Hi).
  - cbn [stmt_entries assoc_key]. rewrite key_eqb_refl. reflexivity.
  - unfold declares. cbn [stmt_entries existsb fst]. rewrite key_eqb_refl. reflexivity.
Qed.
Lemma read_inner : forall t c n, In (CreateTable t) l -> In c (ct_constraints t) -> inner_name d t c = Some n ->
  is_inner_index c = true /\ Some n = match ckey d (ct_name t) c with KIdx n => Some n | _ => None end /\ m (KIdx n) = con_value d (ct_name t) c.
Proof.
  intros t c n Ht Hc Hi.
  assert (E : con_entries d (ct_name t) c = [(KIdx n, cval d (ct_name t) c)] /\ is_inner_index c = true /\ ckey d (ct_name t) c = KIdx n).
  { unfold inner_name in Hi. destruct c; try discriminate Hi. destruct name; try discriminate Hi. cbn in Hi. inversion Hi. unfold ckey. cbn.
    unfold intable_key. destruct d; auto. }
  destruct E as [E [E2 E3]]. split; [exact E2|]. rewrite E3. split; [reflexivity|]. rewrite con_value_cval.
  assert (I : In (KIdx n, cval d (ct_name t) c) (entries d l)).
  { unfold entries. apply in_flat_map. exists (CreateTable t). split; [exact Ht|]. cbn [stmt_entries table_entries]. right. apply in_or_app. right.
    apply in_or_app. left. apply in_flat_map. exists c. split; [exact Hc|]. rewrite E. left. reflexivity. }
  rewrite read_assoc. apply In_assoc; [exact read_nodup|exact I].
Qed.
(** An index is declared by CREATE INDEX or inside a table. *)
Lemma read_idx : forall n v, m (KIdx n) = Some v ->
  (exists i, In (CreateIndex i) l /\ qname (cx_name i) = n /\ v = VIdx (sem_index d i)) \/
  (exists t c, In (CreateTable t) l /\ In c (ct_constraints t) /\ inner_name d t c = Some n /\ con_value d (ct_name t) c = Some v).
Proof.
  intros n v H. rewrite read_assoc, assoc_home in H. destruct (home d (KIdx n) l) as [s|] eqn:E; [|discriminate H].
  apply home_some in E. destruct E as [Hs Ds]. destruct (is_create_cases l s read_create Hs) as [[t Et]|[i Ei]]; subst s; cbn [stmt_entries] in H.
  - right. rewrite assoc_table_con in H; [|apply read_named; exact Hs|exact I].
    destruct (find _ (ct_constraints t)) as [c|] eqn:F; [|discriminate H]. apply find_some in F. destruct F as [F1 F2]. apply key_eqb_eq in F2.
    exists t, c. split; [exact Hs|]. split; [exact F1|]. rewrite con_value_cval. cbn [option_map] in H. split; [|exact H].
    assert (Nc : con_named c = true).
    { pose proof (read_named t Hs) as N. unfold all_con_named in N. rewrite forallb_forall in N. apply N. exact F1. }
    unfold ckey in F2. destruct (is_idx c) eqn:Ic; [|discriminate F2]. destruct c; try discriminate Ic. destruct name; [|discriminate Nc].
    unfold inner_name. cbn in F2. cbn. unfold intable_key in F2. destruct d; inversion F2; reflexivity.
  - left. exists i. split; [exact Hs|]. cbn [assoc_key] in H. destruct (key_eqb (KIdx (qname (cx_name i))) (KIdx n)) eqn:F; [|discriminate H].
    apply key_eqb_eq in F. inversion F. split; [reflexivity|]. congruence.
Qed.
End Read.

Lemma find_column_unique : forall d l m t c, describes d l m -> In (CreateTable t) l -> In c (ct_columns t) ->
  find_column (id_name (c_name c)) (ct_columns t) = Some c.
Proof.
  intros d l m t c D Ht Hc. apply (find_column_in d); [|exact Hc].
  exact (nodup_flat_stmt d l (CreateTable t) (read_nodup d l m D) Ht).
Qed.

Lemma opt_entry : forall d t o, NoDup (map fst (table_entries d t)) -> In o (ct_options t) -> (d = My -> counter_option o = false) ->
  assoc_key (KOpt (qname (ct_name t)) (o_name o)) (table_entries d t) = Some (VOpt (etoks (o_value o))).
Proof.
  intros d t o N Ho C. apply In_assoc; [exact N|]. unfold table_entries. right. apply in_or_app. right. apply in_or_app. right. apply in_or_app. left.
  apply in_flat_map. exists o. split; [exact Ho|]. unfold opt_entries. destruct d; try (left; reflexivity). rewrite C by reflexivity. left; reflexivity.
Qed.

Section Frame.
Variable d : dialect.
Variables B A : ddl.
Variables mb ma : db.
Hypothesis DB : describes d B mb.
Hypothesis DA : describes d A ma.
Hypothesis TB : tidy d B = true.
Hypothesis TA : tidy d A = true.
Hypothesis Style : same_style d B A = true.
Hypothesis Order : d = Sp -> same_option_order B A = true.

Lemma con_find : forall t c, tidy_table d t = true -> In c (ct_constraints t) ->
  find_constraint (con_key c) (ct_constraints t) = Some c.
Proof. intros t c T Hc. apply find_con_in; [|exact Hc]. exact (ti_nodup _ _ (tidy_table_spec _ _ T)). Qed.

(** The description of a constraint that is not an index, by its name *)
Lemma read_con : forall l m t n, describes d l m -> tidy d l = true -> In (CreateTable t) l ->
  m (KCon (qname (ct_name t)) n) =
  match find_constraint n (ct_constraints t) with
  | Some c => if is_inner_index c then None else con_value d (ct_name t) c
  | None => None
  end.
Proof.
  intros l m t n D T Ht. rewrite (read_owned d l m D t (KCon (qname (ct_name t)) n) Ht eq_refl), (assoc_table_con d t); [|exact (read_named d l m D t Ht)|exact I].
  pose proof (tidy_in _ _ _ T Ht) as Tt. cbn [tidy_stmt] in Tt.
  destruct (find (fun c => key_eqb _ _) (ct_constraints t)) as [c|] eqn:F.
  - apply find_some in F. destruct F as [F1 F2]. apply key_eqb_eq in F2. unfold ckey in F2. destruct (is_idx c) eqn:Ic; [discriminate F2|].
    inversion F2. rewrite (con_find t c Tt F1), (is_inner_idx c), Ic, con_value_cval. reflexivity.
  - destruct (find_constraint n (ct_constraints t)) as [c|] eqn:G; [|reflexivity]. apply find_some in G. destruct G as [G1 G2]. apply String.eqb_eq in G2.
    apply (find_none _ _ F) in G1. cbv beta in G1. unfold ckey in G1. rewrite (is_inner_idx c). destruct (is_idx c); [reflexivity|].
    rewrite G2, key_eqb_refl in G1. discriminate G1.
Qed.

Lemma action_changes : forall tb ta act, table_pair B A tb ta -> action_justified d tb ta act ->
  table_changes mb ma (table_name ta).
Proof.
  intros tb ta act P J. pose proof P as [P1 [P2 P3]]. apply in_tables in P1. apply in_tables in P2. unfold table_name in *.
  pose proof (tidy_in _ _ _ TB P1) as Tb. pose proof (tidy_in _ _ _ TA P2) as Ta. cbn [tidy_stmt] in Tb, Ta.
  assert (Col : forall n (Q : column -> column -> Prop), (forall b a, Q b a -> sem_col d b <> sem_col d a) -> column_change tb ta n Q -> table_changes mb ma (qname (ct_name ta))).
  { intros n Q HQ [b [a [Hb [Ha [Eb [Ea HP]]]]]]. exists (KCol (qname (ct_name ta)) (id_name n)). split; [reflexivity|].
    rewrite (read_col d A ma DA ta _ P2).
    rewrite <- P3, (read_col d B mb DB tb _ P1).
    rewrite <- Ea at 2. rewrite (find_column_unique d A ma ta a DA P2 Ha). rewrite <- Eb, (find_column_unique d B mb tb b DB P1 Hb).
    cbn [option_map]. intro F. apply (HQ b a HP). congruence. }
  assert (ColB : forall n, In n (col_names tb) -> mb (KCol (qname (ct_name ta)) n) <> None).
  { intros n Hn. rewrite <- P3, (read_col d B mb DB tb _ P1).
    destruct (find_column n (ct_columns tb)) eqn:F; [discriminate|]. apply find_column_memb in F. apply memb_false in F. contradiction. }
  assert (ColA : forall n, In n (col_names ta) -> ma (KCol (qname (ct_name ta)) n) <> None).
  { intros n Hn. rewrite (read_col d A ma DA ta _ P2).
    destruct (find_column n (ct_columns ta)) eqn:F; [discriminate|]. apply find_column_memb in F. apply memb_false in F. contradiction. }
  assert (ColB0 : forall n, ~ In n (col_names tb) -> mb (KCol (qname (ct_name ta)) n) = None).
  { intros n Hn. rewrite <- P3, (read_col d B mb DB tb _ P1).
    apply memb_false in Hn. apply find_column_memb in Hn. rewrite Hn. reflexivity. }
  assert (ColA0 : forall n, ~ In n (col_names ta) -> ma (KCol (qname (ct_name ta)) n) = None).
  { intros n Hn. rewrite (read_col d A ma DA ta _ P2).
    apply memb_false in Hn. apply find_column_memb in Hn. rewrite Hn. reflexivity. }
  destruct act; cbn [action_justified] in J; try contradiction J.
  - destruct J as [J1 J2]. exists (KCol (qname (ct_name ta)) (id_name (c_name c))). split; [reflexivity|]. rewrite (ColB0 _ J2). intro F. symmetry in F. revert F.
    apply ColA. apply (in_map (fun c => id_name (c_name c))). exact J1.
  - destruct J as [J1 J2]. exists (KCol (qname (ct_name ta)) (id_name name)). split; [reflexivity|]. rewrite (ColA0 _ J2). apply ColB. exact J1.
  - revert J. apply Col. intros b a [H _] F. apply H. unfold type_of. inversion F. congruence.
  - revert J. apply Col. intros b a [H _] F. apply H. inversion F. congruence.
  - revert J. apply Col. intros b a [H1 H2] F. inversion F. congruence.
  - revert J. apply Col. intros b a [H1 H2] F. inversion F. congruence.
  - revert J. apply Col. intros b a [H1 H2] F. inversion F. congruence.
  - destruct J as [J1 [J2 J3]]. exists (KCon (qname (ct_name ta)) (con_label c)). split; [reflexivity|]. rewrite <- P3 at 1.
    rewrite (read_con A ma ta (con_label c) DA TA P2), (read_con B mb tb (con_label c) DB TB P1). rewrite con_label_key at 2.
    rewrite (con_find ta c Ta J2), J1. destruct J3 as [J3|[b [Hb [Hl Hv]]]].
    + apply memb_false in J3. apply find_constraint_memb in J3. rewrite J3. rewrite con_value_cval. discriminate.
    + rewrite <- Hl. rewrite (con_label_key b). rewrite (con_find tb b Tb Hb). destruct (is_inner_index b); [rewrite con_value_cval; discriminate|exact Hv].
  - destruct J as [b [J0 [J1 [J2 J3]]]]. exists (KCon (qname (ct_name ta)) (con_label b)). split; [reflexivity|]. rewrite <- P3 at 1.
    rewrite (read_con A ma ta (con_label b) DA TA P2), (read_con B mb tb (con_label b) DB TB P1). rewrite (con_label_key b) at 1.
    rewrite (con_find tb b Tb J2), J1. destruct J3 as [J3|[a [Ha [Hl Hv]]]].
    + apply memb_false in J3. apply find_constraint_memb in J3. rewrite J3. rewrite con_value_cval. discriminate.
    + rewrite Hl. rewrite (con_label_key a). rewrite (con_find ta a Ta Ha). destruct (is_inner_index a); [rewrite con_value_cval; discriminate|exact Hv].
  - revert J. apply Col. intros b a [H1 H2] F. contradiction.
  - destruct J as [x [J1 [J2 [J3 [J4 J5]]]]]. exists (KOpt (qname (ct_name ta)) name). split; [reflexivity|].
    pose proof (read_named d A ma DA ta P2) as Na. pose proof (read_named d B mb DB tb P1) as Nb.
    pose proof (nodup_flat_stmt d A (CreateTable ta) (read_nodup d A ma DA) P2) as Ua.
    pose proof (nodup_flat_stmt d B (CreateTable tb) (read_nodup d B mb DB) P1) as Ub.
    assert (Va : assoc_key (KOpt (qname (ct_name ta)) name) (table_entries d ta) = Some (VOpt (etoks (o_value x)))).
    { rewrite <- J2. exact (opt_entry d ta x Ua J1 (fun _ => J4)). }
    rewrite (read_opt d A ma DA ta _ P2), Va. rewrite <- P3, (read_opt d B mb DB tb _ P1).
    destruct J5 as [J5|[b [Hb [Eb Vb]]]].
    + rewrite (assoc_table_opt d tb); [|exact Nb]. destruct (find _ (ct_options tb)) as [y|] eqn:F; [|discriminate]. exfalso. apply J5.
      apply find_some in F. destruct F as [F1 F2]. apply andb_true_iff in F2. destruct F2 as [F2 _]. apply String.eqb_eq in F2. rewrite <- F2. apply in_map. exact F1.
    + assert (Vb' : assoc_key (KOpt (qname (ct_name tb)) name) (table_entries d tb) = Some (VOpt (etoks (o_value b)))).
      { rewrite <- Eb. apply (opt_entry d tb b Ub Hb). intros _. unfold counter_option in *. congruence. }
      rewrite Vb'. intro F. apply Vb. inversion F. congruence.
  - revert J. apply Col. intros b a [[H|H] _] F.
    + apply H. unfold type_of. inversion F. congruence.
    + apply H. inversion F. congruence.
  - revert J. apply Col. intros b a [H1 [H2 _]] F. apply H2. pose proof (f_equal sc_options F) as G. cbn in G. rewrite H1 in G. exact G.
  - revert J. apply Col. intros b a [H1 [H2 H3]] F. pose proof (f_equal sc_options F) as G. cbn in G. rewrite H1, H3 in G.
    destruct (c_options b); [discriminate G|congruence].
  - destruct J as [J1 J2]. exists (KRow (qname (ct_name ta))). split; [reflexivity|].
    rewrite (read_row d A ma DA ta P2).
    rewrite <- P3, (read_row d B mb DB tb P1). rewrite J1, J2. discriminate.
  - destruct J as [b [J1 [J2 J3]]]. exists (KRow (qname (ct_name ta))). split; [reflexivity|].
    rewrite (read_row d A ma DA ta P2).
    rewrite <- P3, (read_row d B mb DB tb P1). rewrite J1, J2.
    cbn [option_map]. intro F. apply J3. inversion F. reflexivity.
  - destruct J as [J1 J2]. exists (KRow (qname (ct_name ta))). split; [reflexivity|].
    rewrite (read_row d A ma DA ta P2).
    rewrite <- P3, (read_row d B mb DB tb P1). rewrite J2.
    destruct (ct_rowdel tb); [discriminate|congruence].
Qed.

Lemma options_change : forall tb ta, map o_name (ct_options tb) = map o_name (ct_options ta) ->
  map (fun o => (o_name o, etoks (o_value o))) (ct_options tb) <> map (fun o => (o_name o, etoks (o_value o))) (ct_options ta) ->
  exists b a, In b (ct_options tb) /\ In a (ct_options ta) /\ o_name b = o_name a /\ etoks (o_value b) <> etoks (o_value a).
Proof.
  intros tb ta. generalize (ct_options ta). induction (ct_options tb) as [|b r IH]; intros l E N; destruct l as [|a l]; try discriminate E.
  - exfalso. apply N. reflexivity.
  - cbn [map] in E, N. inversion E as [[E1 E2]]. destruct (toks_dec (etoks (o_value b)) (etoks (o_value a))) as [V|V].
    + destruct (IH l E2) as [x [y [X1 [X2 X3]]]].
      * intro F. apply N. rewrite F, E1, V. reflexivity.
      * exists x, y. split; [right; exact X1|]. split; [right; exact X2|]. exact X3.
    + exists b, a. split; [left; reflexivity|]. split; [left; reflexivity|]. split; [exact E1|exact V].
Qed.

Lemma recreated_changes : forall t, recreated d B A t -> table_changes mb ma t.
Proof.
  intros t [Sp_ [tb [ta [[P1 [P2 P3]] [E O]]]]]. apply in_tables in P1. apply in_tables in P2. unfold table_name in *. subst t.
  assert (N : map o_name (ct_options tb) = map o_name (ct_options ta)).
  { specialize (Order Sp_). unfold same_option_order in Order. rewrite forallb_forall in Order. specialize (Order _ P1). cbv beta iota in Order.
    rewrite forallb_forall in Order. specialize (Order _ P2). cbv beta iota in Order. rewrite P3, String.eqb_refl in Order. apply eq_strings_eq. exact Order. }
  destruct (options_change tb ta N O) as [b [a [Hb [Ha [E V]]]]]. exists (KOpt (qname (ct_name tb)) (o_name b)). split; [reflexivity|].
  pose proof (nodup_flat_stmt d A (CreateTable ta) (read_nodup d A ma DA) P2) as Ua.
  pose proof (nodup_flat_stmt d B (CreateTable tb) (read_nodup d B mb DB) P1) as Ub.
  rewrite (read_opt d B mb DB tb _ P1). rewrite (opt_entry d tb b Ub Hb); [|intro F; rewrite Sp_ in F; discriminate F].
  rewrite P3, (read_opt d A ma DA ta _ P2), E. rewrite (opt_entry d ta a Ua Ha); [|intro F; rewrite Sp_ in F; discriminate F].
  intro F. apply V. congruence.
Qed.

Lemma missing_table : forall l m t, describes d l m -> ~ has_table t l -> m (KTab t) = None.
Proof.
  intros l m t D N. apply (read_missing d l m D t); [|reflexivity]. intros u Hu E. apply N. rewrite <- E. apply (in_map table_name). apply in_tables. exact Hu.
Qed.
Lemma present_table : forall l m t, describes d l m -> has_table t l -> m (KTab t) = Some VTab.
Proof.
  intros l m t D H. apply in_map_iff in H. destruct H as [u [H1 H2]]. subst t. apply (read_table d l m D). apply in_tables. exact H2.
Qed.

Lemma in_inner : forall l t c n, In (CreateTable t) l -> In c (ct_constraints t) -> inner_name d t c = Some n -> In n (inner_indexes d l).
Proof.
  intros l t c n Ht Hc Hi. unfold inner_indexes. apply in_flat_map. exists (CreateTable t). split; [exact Ht|]. apply in_flat_map. exists c. split; [exact Hc|].
  unfold inner_name in Hi. destruct (inner_index d (ct_name t) c) as [|x [|? ?]]; inversion Hi. left. reflexivity.
Qed.
Lemma inner_label : forall tb ta b a n, tidy_name (ct_name tb) = true -> tidy_name (ct_name ta) = true -> qname (ct_name tb) = qname (ct_name ta) ->
  inner_name d tb b = Some n -> inner_name d ta a = Some n -> con_label b = con_label a.
Proof.
  intros tb ta b a n Nb Na E Hb Ha. unfold inner_name in *. destruct b as [| | |ob ? ? ? ?|], a as [| | |oa ? ? ? ?|]; try discriminate Hb; try discriminate Ha.
  destruct ob, oa; try discriminate Hb; try discriminate Ha. cbn in *. destruct d; try congruence.
  destruct (qname_schema _ _ Nb Na E) as [S _]. inversion Hb as [Hb']. inversion Ha as [Ha']. rewrite <- Ha' in Hb'. revert S Hb'. unfold qname. cbn.
  destruct (on_schema (ct_name tb)), (on_schema (ct_name ta)); cbn; intros S H; try discriminate S; [|exact H].
  inversion S as [S']. rewrite S' in H. apply (append_inj_l "." _ _). apply (append_inj_l (id_name i2)). exact H.
Qed.

(** An in-table index with the same description under the same name is the partner. *)
Lemma inner_partner : forall X Y mx my tx ty c n, describes d X mx -> describes d Y my -> tidy d X = true -> tidy d Y = true ->
  disjoint (inner_indexes d X) (outer_indexes Y) = true ->
  In (CreateTable tx) X -> In (CreateTable ty) Y -> qname (ct_name tx) = qname (ct_name ty) ->
  In c (ct_constraints tx) -> inner_name d tx c = Some n -> mx (KIdx n) = my (KIdx n) ->
  exists c', In c' (ct_constraints ty) /\ con_label c' = con_label c /\ con_value d (ct_name ty) c' = con_value d (ct_name tx) c.
Proof.
  intros X Y mx my tx ty c n DX DY TX TY Dj Hx Hy Hq Hc Hn E.
  destruct (read_inner d X mx DX tx c n Hx Hc Hn) as [Hi [_ V]]. rewrite E in V.
  pose proof V as V0. rewrite con_value_cval in V0.
  destruct (read_idx d Y my DY n _ V0) as [[i [I1 [I2 I3]]]|[t' [c' [I1 [I2 [I3 I4]]]]]].
  - exfalso. apply (disjoint_spec _ _ Dj n); [apply (in_inner X tx c); assumption|]. rewrite <- I2. apply outer_in. exact I1.
  - assert (Q : qname (ct_name t') = qname (ct_name ty)).
    { rewrite con_value_cval in I4. destruct (read_inner d Y my DY t' c' n I1 I2 I3) as [Hi' _]. destruct c; try discriminate Hi. destruct c'; try discriminate Hi'.
      cbn [cval] in I4. unfold sem_intable in I4. inversion I4. congruence. }
    assert (t' = ty).
    { assert (S : CreateTable t' = CreateTable ty).
      { apply (same_unique d Y (CreateTable ty) _ _ (read_create d Y my DY) (read_nodup d Y my DY) eq_refl I1 Hy); apply same_table; congruence. }
      inversion S. reflexivity. }
    subst t'. exists c'. split; [exact I2|]. split.
    + pose proof (tidy_in _ _ _ TX Hx) as T1. pose proof (tidy_in _ _ _ TY Hy) as T2. cbn [tidy_stmt] in T1, T2.
      apply (inner_label ty tx c' c n); try assumption; [exact (ti_name _ _ (tidy_table_spec _ _ T2))|exact (ti_name _ _ (tidy_table_spec _ _ T1))|congruence].
    + rewrite I4. symmetry. apply con_value_cval.
Qed.

Lemma label_unique : forall l t x y, tidy d l = true -> In (CreateTable t) l -> In x (ct_constraints t) -> In y (ct_constraints t) ->
  con_label x = con_label y -> x = y.
Proof.
  intros l t x y T Ht Hx Hy E. pose proof (tidy_in _ _ _ T Ht) as T1. cbn [tidy_stmt] in T1.
  pose proof (con_find t x T1 Hx) as F1. pose proof (con_find t y T1 Hy) as F2. rewrite <- !con_label_key, E in F1. rewrite <- con_label_key in F2. congruence.
Qed.

Theorem justified_changes : forall s, stmt_justified d B A s -> subject_changes mb ma s.
Proof.
  pose proof Style as Sty. unfold same_style in Sty. apply andb_true_iff in Sty. destruct Sty as [Sty1 Sty2].
  intros s J. destruct s as [t|i|cm ie n|cm ie n|cm n act]; cbn [stmt_justified subject_changes] in *.
  - destruct J as [J1 [J2|J2]]; [|apply recreated_changes; exact J2]. exists (KTab (table_name t)). split; [reflexivity|].
    rewrite (missing_table B mb _ DB J2), (present_table A ma _ DA (in_map table_name _ _ J1)). discriminate.
  - destruct J as [[J1 [J2|[ib [H1 [H2 H3]]]]]|[tb [ta [c [P [[C1 C2] [C3 C4]]]]]]].
    + apply in_indexes in J1. rewrite (read_index d A ma DA i J1). intro F.
      destruct (read_idx d B mb DB _ _ F) as [[x [I1 [I2 I3]]]|[t' [c' [I1 [I2 [I3 I4]]]]]].
      * apply J2. rewrite <- I2. apply (in_map (fun i => qname (cx_name i))). apply in_indexes. exact I1.
      * apply (disjoint_spec _ _ Sty1 (qname (cx_name i))); [apply (in_inner B t' c'); assumption|apply outer_in; exact J1].
    + apply in_indexes in J1. apply in_indexes in H1. rewrite (read_index d A ma DA i J1), <- H2, (read_index d B mb DB ib H1). congruence.
    + destruct P as [P1 [P2 P3]]. apply in_tables in P1. apply in_tables in P2. unfold table_name in *. intro F.
      destruct (inner_partner A B ma mb ta tb c _ DA DB TA TB (disjoint_sym _ _ Sty2) P2 P1 (eq_sym P3) C1 C3 (eq_sym F)) as [c' [D1 [D2 D3]]].
      destruct C2 as [C2|[b [E1 [E2 E3]]]].
      * apply C2. rewrite <- D2. unfold con_labels. apply in_map. exact D1.
      * assert (b = c') by (apply (label_unique B tb); try assumption; congruence). subst c'. congruence.
  - destruct J as [J1 [J2|J2]]; [|apply recreated_changes; exact J2]. exists (KTab (qname n)). split; [reflexivity|].
    rewrite (missing_table A ma _ DA J2), (present_table B mb _ DB J1). discriminate.
  - destruct J as [[J1 [J2|[ib [ia [H1 [H2 [H3 [H4 H5]]]]]]]]|[tb [ta [c [P [[C1 C2] C3]]]]]].
    + apply in_map_iff in J1. destruct J1 as [x [J0 J1]]. apply in_indexes in J1. rewrite <- J0, (read_index d B mb DB x J1). intro F. symmetry in F.
      destruct (read_idx d A ma DA _ _ F) as [[y [I1 [I2 I3]]]|[t' [c' [I1 [I2 [I3 I4]]]]]].
      * apply J2. rewrite <- J0, <- I2. apply (in_map (fun i => qname (cx_name i))). apply in_indexes. exact I1.
      * apply (disjoint_spec _ _ Sty2 (qname (cx_name x))); [apply outer_in; exact J1|apply (in_inner A t' c'); assumption].
    + apply in_indexes in H1. apply in_indexes in H2. rewrite <- H3 at 1. rewrite (read_index d B mb DB ib H1), <- H4, (read_index d A ma DA ia H2). congruence.
    + destruct P as [P1 [P2 P3]]. apply in_tables in P1. apply in_tables in P2. unfold table_name in *. intro F.
      destruct (inner_partner B A mb ma tb ta c _ DB DA TB TA Sty1 P1 P2 P3 C1 C3 F) as [c' [D1 [D2 D3]]].
      destruct C2 as [C2|[a [E1 [E2 E3]]]].
      * apply C2. rewrite <- D2. unfold con_labels. apply in_map. exact D1.
      * assert (a = c') by (apply (label_unique A ta); try assumption; congruence). subst c'. congruence.
  - destruct J as [tb [ta [P [E J]]]]. rewrite E. apply (action_changes tb ta act P J).
Qed.

(** A statement for a constraint that turned into an index, or vice versa, too. *)
Lemma swapped_changes : forall tb ta s, table_pair B A tb ta -> swapped d tb ta (ct_name ta) s -> subject_changes mb ma s.
Proof.
  pose proof Style as Sty. unfold same_style in Sty. apply andb_true_iff in Sty. destruct Sty as [Sty1 Sty2].
  intros tb ta s [P1 [P2 P3]] [b [a [Hb [Ha [El [N J]]]]]]. apply in_tables in P1. apply in_tables in P2. unfold table_name in *.
  pose proof (tidy_in _ _ _ TB P1) as Tb. pose proof (tidy_in _ _ _ TA P2) as Ta. cbn [tidy_stmt] in Tb, Ta.
  destruct s as [t|i|cm ie n|cm ie n|cm n act]; try contradiction J; cbn [subject_changes].
  - intro F. destruct (inner_partner A B ma mb ta tb a _ DA DB TA TB (disjoint_sym _ _ Sty2) P2 P1 (eq_sym P3) Ha J (eq_sym F)) as [c' [D1 [D2 D3]]].
    assert (b = c') by (apply (label_unique B tb); try assumption; congruence). subst c'. apply N.
    destruct a; try discriminate J. cbn [con_value] in D3. destruct b; cbn in D3; try discriminate D3. reflexivity.
  - destruct act; try contradiction J. destruct J as [Jn [_ Jb]]. subst n. exists (KCon (qname (ct_name ta)) (con_label b)). split; [reflexivity|].
    rewrite <- P3 at 1. rewrite (read_con A ma ta (con_label b) DA TA P2), (read_con B mb tb (con_label b) DB TB P1).
    rewrite El at 2. rewrite (con_label_key b) at 1. rewrite (con_label_key a). rewrite (con_find tb b Tb Hb), (con_find ta a Ta Ha), Jb.
    destruct (is_inner_index a); [exfalso; apply N; exact Jb|]. rewrite con_value_cval. discriminate.
Qed.
End Frame.
