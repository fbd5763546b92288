(** The tests of Reconcile.v imply the conditions of DiffSound.v. *)
From Coq Require Import Lia Permutation.
From Verif Require Import GoStr Token Ast Parser Diff Db DbFacts AppendFacts DiffTable DiffPair DiffSound Tidy TidyFacts Reconcile.

Lemma same_eq : forall A (dec : forall a b : A, {a = b} + {a <> b}) x y, same dec x y = true -> x = y.
Proof. intros A dec x y H. unfold same in H. destruct (dec x y); [assumption|discriminate]. Qed.
Lemma told_eq : forall A (dec : forall a b : A, {a = b} + {a <> b}) tb ta vb va,
  told dec tb ta vb va = true -> tb = ta -> vb = va.
Proof. intros A dec tb ta vb va H E. unfold told in H. subst. rewrite String.eqb_refl in H. apply same_eq in H. exact H. Qed.

Lemma all_pairs_in : forall A (name : A -> string) f b a, all_pairs name f b a = true ->
  forall x y, In x b -> In y a -> name x = name y -> f x y = true.
Proof.
  intros A name f b a H x y Hx Hy E. unfold all_pairs in H. rewrite forallb_forall in H. specialize (H x Hx).
  rewrite forallb_forall in H. specialize (H y Hy). rewrite E, String.eqb_refl in H. exact H.
Qed.

Lemma in_tables : forall l t, In t (tables l) <-> In (CreateTable t) l.
Proof.
  intros l t. unfold tables. rewrite in_flat_map. split.
  - intros [s [H1 H2]]. destruct s; cbn in H2; try contradiction. destruct H2 as [H2|[]]. subst. exact H1.
  - intro H. exists (CreateTable t). split; [exact H|left; reflexivity].
Qed.
Lemma in_indexes : forall l i, In i (indexes l) <-> In (CreateIndex i) l.
Proof.
  intros l t. unfold indexes. rewrite in_flat_map. split.
  - intros [s [H1 H2]]. destruct s; cbn in H2; try contradiction. destruct H2 as [H2|[]]. subst. exact H1.
  - intro H. exists (CreateIndex t). split; [exact H|left; reflexivity].
Qed.

Lemma find_column_memb : forall n t, find_column n (ct_columns t) = None <-> memb n (col_names t) = false.
Proof.
  intros n t. unfold find_column, col_names. rewrite find_none_iff, memb_false, in_map_iff. split.
  - intros H [c [H1 H2]]. specialize (H c H2). unfold eqs in H. rewrite H1, String.eqb_refl in H. discriminate.
  - intros H c Hc. destruct (eqs (id_name (c_name c)) n) eqn:E; [|reflexivity]. exfalso. apply H. exists c. split; [|exact Hc].
    apply String.eqb_eq. exact E.
Qed.
Lemma find_constraint_memb : forall n t, find_constraint n (ct_constraints t) = None <-> memb n (con_labels t) = false.
Proof.
  intros n t. unfold find_constraint, con_labels. rewrite find_none_iff, memb_false, in_map_iff. split.
  - intros H [c [H1 H2]]. specialize (H c H2). unfold eqs in H. rewrite <- con_label_key, H1, String.eqb_refl in H. discriminate.
  - intros H c Hc. destruct (eqs (con_key c) n) eqn:E; [|reflexivity]. exfalso. apply H. exists c. split; [|exact Hc].
    rewrite con_label_key. apply String.eqb_eq. exact E.
Qed.

Lemma lookup_assoc : forall k l, lookup_key k l = assoc_key k l.
Proof. intros k l. induction l as [|[x v] r IH]; [reflexivity|]. cbn. rewrite IH. reflexivity. Qed.

Lemma flat_created_adds : forall l, flat_map created (adds l) = l.
Proof. induction l as [|[k v] r IH]; [reflexivity|]. cbn. rewrite <- IH at 2. reflexivity. Qed.

Lemma created_entries : forall d s, is_create s = true -> (forall t, s = CreateTable t -> all_con_named t = true) ->
  flat_map created (stmt_ops d s) = stmt_entries d s.
Proof.
  intros d s Hc Hn. destruct s as [t|i| | |]; try discriminate Hc; [|reflexivity].
  cbn [stmt_ops stmt_entries]. specialize (Hn t eq_refl). rewrite create_table_ops_adds by exact Hn.
  cbn [flat_map created app]. unfold table_entries. f_equal. rewrite flat_created_adds. reflexivity.
Qed.
Lemma objects_entries : forall d l, forallb is_create l = true -> (forall t, In (CreateTable t) l -> all_con_named t = true) ->
  objects d l = entries d l.
Proof.
  intros d l Hc Hn. unfold objects, entries. induction l as [|s r IH]; [reflexivity|]. cbn [flat_map forallb] in *.
  apply andb_true_iff in Hc. destruct Hc as [H1 H2]. rewrite flat_map_app, created_entries; [|exact H1|].
  - f_equal. apply IH; [exact H2|]. intros t Ht. apply Hn. right; exact Ht.
  - intros t Ht. apply Hn. left; exact Ht.
Qed.
Lemma same_objects_assoc : forall x y, same_objects x y = true -> forall k, assoc_key k x = assoc_key k y.
Proof.
  intros x y H k. unfold same_objects in H. rewrite forallb_forall in H.
  destruct (assoc_key k x) as [v|] eqn:E.
  - pose proof (assoc_In _ _ _ E) as Hi. specialize (H (k, v) (in_or_app _ _ _ (or_introl Hi))). apply same_eq in H. cbn [fst] in H.
    rewrite (lookup_assoc k x), (lookup_assoc k y) in H. congruence.
  - destruct (assoc_key k y) as [v|] eqn:E'; [|reflexivity].
    pose proof (assoc_In _ _ _ E') as Hi. specialize (H (k, v) (in_or_app _ _ _ (or_intror Hi))). apply same_eq in H. cbn [fst] in H.
    rewrite (lookup_assoc k x), (lookup_assoc k y) in H. congruence.
Qed.

Lemma bool_eqb_eq : forall a b, Bool.eqb a b = true -> a = b.
Proof. intros [] []; cbn; congruence. Qed.
Lemma present_none : forall A (o : option A), negb (present o) = true -> o = None.
Proof. intros A [x|] H; [discriminate H|reflexivity]. Qed.

Lemma col_ok_agree : forall d b a, tidy_col b = true -> tidy_col a = true -> col_ok d b a = true -> col_agree d b a.
Proof.
  intros d b a Tb Ta H. unfold col_ok in H. apply andb_true_iff in H. destruct H as [H H3]. apply andb_true_iff in H. destruct H as [H1 H2].
  unfold col_agree. refine (conj _ (conj _ (conj _ (conj _ _)))).
  - intro E. pose proof (told_eq _ _ _ _ _ _ H1 E) as H. split; congruence.
  - intro E. exact (told_eq _ _ _ _ _ _ H2 E).
  - intro E. unfold tidy_col in Tb. rewrite E in Tb. discriminate.
  - intro E. unfold tidy_col in Ta. rewrite E in Ta. discriminate.
  - destruct d; [exact I| | |].
    + apply andb_true_iff in H3. destruct H3 as [H3 H4]. apply bool_eqb_eq in H3. apply same_eq in H4. auto.
    + apply andb_true_iff in H3. destruct H3 as [H3 H4]. apply andb_true_iff in H3. destruct H3 as [H3 H5].
      apply present_none in H3. apply present_none in H5. split; [exact H3|split; [exact H5|]]. intro E. exact (told_eq _ _ _ _ _ _ H4 E).
    + intros Hs E. destruct (c_options a); [|discriminate Hs]. cbn [present] in H3. exact (told_eq _ _ _ _ _ _ H3 E).
Qed.

Lemma is_inner_idx : forall c, is_inner_index c = is_idx c.
Proof. intros []; reflexivity. Qed.
Lemma con_value_cval : forall d t c, con_value d t c = Some (cval d t c).
Proof. intros d t []; reflexivity. Qed.

Lemma con_uses_involves : forall d t c b, named b = true -> con_uses d t c b = involves (qname t) c (ckey d t b) (cval d t b).
Proof.
  intros d t c b Hn. unfold con_uses. rewrite con_value_cval. unfold ckey. destruct b; cbn [cval sem_con is_idx involves]; try (rewrite String.eqb_refl; reflexivity).
  unfold intable_key. destruct d; cbn [involves si_table sem_intable si_cols]; rewrite String.eqb_refl; reflexivity.
Qed.

Lemma tidy_con_named : forall d c, tidy_con d c = true -> named c = true.
Proof. intros d c H. unfold tidy_con in H. apply andb_true_iff in H. destruct H as [H _]. unfold named. destruct (con_name c); [reflexivity|discriminate H]. Qed.
Lemma tidy_con_idx : forall d c, tidy_con d c = true -> d = Pg \/ d = Sp -> is_idx c = false.
Proof.
  intros d c H [E|E]; subst; destruct c; try reflexivity; unfold tidy_con in H; apply andb_true_iff in H; destruct H as [_ H]; discriminate H.
Qed.

Lemma option_value_find : forall l n, option_value l n = option_map (fun o => etoks (o_value o)) (find_option n l).
Proof. reflexivity. Qed.

Lemma option_value_none : forall l n, ~ In n (map o_name l) -> option_value l n = None.
Proof.
  intros l n H. unfold option_value. destruct (find (fun o => String.eqb (o_name o) n) l) as [x|] eqn:E; [|reflexivity].
  apply find_some in E. destruct E as [E1 E2]. apply String.eqb_eq in E2. exfalso. apply H. rewrite <- E2. apply in_map. exact E1.
Qed.

Lemma pair_ok_b_ok : forall d tb ta, tidy_table d tb = true -> tidy_table d ta = true -> qname (ct_name tb) = qname (ct_name ta) ->
  pair_ok_b d tb ta = true -> pair_ok d tb ta.
Proof.
  intros d tb ta Tb0 Ta0 Hq H. pose proof (tidy_table_spec _ _ Tb0) as Tb. pose proof (tidy_table_spec _ _ Ta0) as Ta.
  unfold pair_ok_b in H. apply andb_true_iff in H. destruct H as [H Hrow]. apply andb_true_iff in H. destruct H as [H Hopt].
  apply andb_true_iff in H. destruct H as [H Hmy]. apply andb_true_iff in H. destruct H as [H Hkeep]. apply andb_true_iff in H. destruct H as [H Hcon].
  apply andb_true_iff in H. destruct H as [Hcol Hsticky].
  unfold tidy_table in Tb0, Ta0. repeat (apply andb_true_iff in Tb0; destruct Tb0 as [Tb0 ?]). repeat (apply andb_true_iff in Ta0; destruct Ta0 as [Ta0 ?]).
  rewrite forallb_forall in *.
  constructor.
  - exact Hq.
  - intro Hd. apply (qname_schema _ _ (ti_name _ _ Tb) (ti_name _ _ Ta) Hq).
  - intros b a Hb Ha E. apply col_ok_agree; auto. exact (all_pairs_in _ _ _ _ _ Hcol b a Hb Ha E).
  - intros b Hb F. specialize (Hsticky b Hb). apply find_column_memb in F. rewrite F in Hsticky. cbn [orb] in Hsticky.
    apply negb_true_iff in Hsticky. unfold keep_hidden, sticky in *. destruct d; try reflexivity. exact Hsticky.
  - intros b a Hb Ha E. rewrite <- !con_label_key in E. pose proof (all_pairs_in _ _ _ _ _ Hcon b a Hb Ha E) as G. unfold con_pair_ok in G.
    apply andb_true_iff in G. destruct G as [G _]. apply andb_true_iff in G. destruct G as [G1 G2]. apply bool_eqb_eq in G1. rewrite !is_inner_idx in G1.
    split; [exact G1|]. intro E2. pose proof (told_eq _ _ _ _ _ _ G2 E2) as G. rewrite !con_value_cval in G. congruence.
  - intros c b Hc F Hb G. apply find_column_memb in F.
    assert (Hg : In (id_name (c_name c)) (gone_columns tb ta)).
    { unfold gone_columns. apply filter_In. split; [|rewrite F; reflexivity]. unfold col_names. apply (in_map (fun c => id_name (c_name c))). exact Hc. }
    specialize (Hkeep _ Hg). rewrite forallb_forall in Hkeep. specialize (Hkeep b Hb). apply orb_true_iff in Hkeep.
    assert (Hn : named b = true) by (apply (tidy_con_named d); apply (ti_con _ _ Tb); exact Hb).
    destruct Hkeep as [K|K]; apply negb_true_iff in K.
    + exfalso. apply G. apply find_constraint_memb. rewrite <- con_label_key. exact K.
    + rewrite <- con_uses_involves by exact Hn. exact K.
  - intros Hd c [Hc|Hc]; apply (tidy_con_idx d); try exact Hd; [apply (ti_con _ _ Tb)|apply (ti_con _ _ Ta)]; exact Hc.
  - intros Hd b Hb Hi. subst d. rewrite forallb_forall in Hmy. specialize (Hmy b Hb). rewrite is_inner_idx, Hi in Hmy. cbn [negb orb] in Hmy.
    rewrite con_label_key in Hmy. destruct (find_constraint (con_key b) (ct_constraints ta)) as [a|] eqn:F.
    + exists a. split; [reflexivity|]. unfold find_constraint in F. apply find_some in F. destruct F as [F1 F2]. apply eqs_eq in F2.
      assert (E : con_label b = con_label a) by (rewrite !con_label_key; congruence).
      pose proof (all_pairs_in _ _ _ _ _ Hcon b a Hb F1 E) as G. unfold con_pair_ok in G. apply andb_true_iff in G. destruct G as [_ G].
      rewrite is_inner_idx, Hi in G. cbn [negb orb] in G. apply String.eqb_eq. exact G.
    + apply find_constraint_memb in F. rewrite F in Hmy. discriminate.
  - apply (ti_nodup _ _ Tb).
  - apply (ti_nodup _ _ Ta).
  - unfold options_ok in Hopt. pose proof (ti_opt _ _ Tb) as Ob. pose proof (ti_opt _ _ Ta) as Oa. destruct d.
    + split; [destruct (ct_options tb) as [|o r]|destruct (ct_options ta) as [|o r]]; try reflexivity;
        [specialize (Ob o (or_introl eq_refl))|specialize (Oa o (or_introl eq_refl))]; unfold tidy_opt in *; rewrite andb_false_r in *; discriminate.
    + split; [destruct (ct_options tb) as [|o r]|destruct (ct_options ta) as [|o r]]; try reflexivity;
        [specialize (Ob o (or_introl eq_refl))|specialize (Oa o (or_introl eq_refl))]; unfold tidy_opt in *; rewrite andb_false_r in *; discriminate.
    + apply andb_true_iff in Hopt. destruct Hopt as [Hopt O4]. apply andb_true_iff in Hopt. destruct Hopt as [Hopt O3].
      apply andb_true_iff in Hopt. destruct Hopt as [O1 O2]. apply nodupb_NoDup in O1. apply nodupb_NoDup in O2.
      refine (conj O1 (conj O2 (conj _ (conj _ _)))).
      * intros o [Ho|Ho]; [specialize (Ob o Ho); rename Ob into X|specialize (Oa o Ho); rename Oa into X]; unfold tidy_opt in X;
          apply andb_true_iff in X; destruct X as [_ X]; apply bool_eqb_eq in X; exact X.
      * intros b Hb Hc F. rewrite forallb_forall in O3. specialize (O3 b Hb). rewrite Hc in O3. cbn [orb] in O3. apply memb_In in O3.
        apply in_map_iff in O3. destruct O3 as [o [G1 G2]]. unfold find_option in F. pose proof (proj1 (find_none_iff _ _ _) F o G2) as G.
        cbv beta in G. rewrite G1, eqs_refl in G. discriminate.
      * intros b a Hb Ha E1 E2. exact (told_eq _ _ _ _ _ _ (all_pairs_in _ _ _ _ _ O4 b a Hb Ha E1) E2).
    + intros E o. rewrite E, String.eqb_refl in Hopt. rewrite forallb_forall in Hopt.
      assert (Hv : option_value (ct_options tb) o = option_value (ct_options ta) o).
      { destruct (in_dec string_dec o (map o_name (ct_options tb) ++ map o_name (ct_options ta))%list) as [Hi|Hi].
        - specialize (Hopt o Hi). apply same_eq in Hopt. exact Hopt.
        - rewrite !option_value_none; [reflexivity| |]; intro K; apply Hi; apply in_or_app; auto. }
      rewrite !option_value_find in Hv. destruct (find_option o (ct_options tb)), (find_option o (ct_options ta)); cbn in *; congruence.
  - unfold row_ok in Hrow. pose proof (ti_row _ _ Tb) as Rb. pose proof (ti_row _ _ Ta) as Ra. unfold tidy_row in Rb, Ra. destruct d.
    1-3: destruct (ct_rowdel tb), (ct_rowdel ta); try discriminate; auto.
    intro E. exact (told_eq _ _ _ _ _ _ Hrow E).
Qed.

Section Schemas.
Variable d : dialect.
Variables B A : ddl.
Hypothesis CB : forallb is_create B = true.
Hypothesis CA : forallb is_create A = true.
Hypothesis KB : forall t, In (CreateTable t) B -> all_con_named t = true.
Hypothesis KA : forall t, In (CreateTable t) A -> all_con_named t = true.
Hypothesis R : reconcilable d B A = true.
Hypothesis T : text_ok d B A = true.

Lemma declares_inner : forall l i s, In s l -> forallb is_create l = true -> (forall t, In (CreateTable t) l -> all_con_named t = true) ->
  declares d (KIdx i) s = true ->
  match s with
  | CreateTable t => In i (inner_indexes d [CreateTable t])
  | CreateIndex x => qname (cx_name x) = i
  | _ => False
  end.
Proof.
  intros l i s Hs Hc Hn H. apply declares_In in H. destruct s as [t|x| | |]; cbn [stmt_entries] in H.
  - unfold table_entries in H. cbn [map fst] in H. destruct H as [H|H]; [discriminate H|]. rewrite !map_app in H.
    assert (Hi : In (KIdx i) (map fst (flat_map (con_entries d (ct_name t)) (ct_constraints t)))).
    { repeat (apply in_app_or in H; destruct H as [H|H]).
      - apply in_map_iff in H. destruct H as [e [H1 H2]]. apply in_map_iff in H2. destruct H2 as [c [H2 _]]. subst. discriminate H1.
      - exact H.
      - apply in_map_iff in H. destruct H as [e [H1 H2]]. apply in_flat_map in H2. destruct H2 as [o [_ H2]]. unfold opt_entries in H2.
        destruct d; [| |destruct (counter_option o)|]; cbn in H2; intuition (subst; discriminate).
      - unfold row_entries in H. destruct (ct_rowdel t); cbn in H; intuition discriminate. }
    apply in_map_iff in Hi. destruct Hi as [e [H1 H2]]. apply in_flat_map in H2. destruct H2 as [c [H2 H3]].
    cbn [inner_indexes flat_map]. rewrite app_nil_r. apply in_flat_map. exists c. split; [exact H2|].
    destruct c; destruct name; cbn in H3; try contradiction; destruct H3 as [H3|[]]; subst; try discriminate H1.
    cbn in H1. unfold intable_key in H1. cbn [inner_index]. left. congruence.
  - cbn in H. destruct H as [H|[]]. congruence.
  - destruct H.
  - destruct H.
  - destruct H.
Qed.

Lemma reconcilable_parts :
  tidy d B = true /\ tidy d A = true /\ same_style d B A = true /\ inner_stay d B A = true /\
  all_pairs table_name (pair_ok_b d) (tables B) (tables A) = true /\
  all_pairs (fun i => qname (cx_name i)) (index_pair_ok d) (indexes B) (indexes A) = true /\
  (d = My -> forallb (fun i => memb (qname (cx_name i)) (index_names A)) (indexes B) = true) /\
  no_wipe d B A = true /\ dropped_unused d B A = true.
Proof.
  pose proof R as H. unfold reconcilable in H. repeat (apply andb_true_iff in H; destruct H as [H ?]).
  repeat (split; [assumption|]). split; [|split; assumption]. intro E. subst d. assumption.
Qed.

Lemma inner_one : forall l t i, In (CreateTable t) l -> In i (inner_indexes d [CreateTable t]) -> In i (inner_indexes d l).
Proof.
  intros l t i Hl H. unfold inner_indexes in *. cbn [flat_map] in H. rewrite app_nil_r in H. apply in_flat_map. exists (CreateTable t). auto.
Qed.

Lemma reconcilable_ok : schemas_ok d B A.
Proof.
  destruct reconcilable_parts as [TB [TA [Style [Stay [Pairs [Idx [My' [Wipe Drop]]]]]]]].
  assert (HTB : forall t, In (CreateTable t) B -> tidy_table d t = true) by (intros t Ht; exact (tidy_in d B _ TB Ht)).
  assert (HTA : forall t, In (CreateTable t) A -> tidy_table d t = true) by (intros t Ht; exact (tidy_in d A _ TA Ht)).
  pose proof T as T0. unfold text_ok in T0. apply andb_true_iff in T0. destruct T0 as [T1 T2].
  constructor.
  - intros tb ta Hb Ha E. apply pair_ok_b_ok; auto. apply (all_pairs_in _ _ _ _ _ Pairs); [apply in_tables|apply in_tables|]; assumption.
  - intros tb ta Hb Ha E Ht. pose proof (all_pairs_in _ _ _ _ _ T2 tb ta (proj2 (in_tables _ _) Hb) (proj2 (in_tables _ _) Ha) E) as H.
    cbv beta in H. rewrite Ht, String.eqb_refl in H. pose proof (same_objects_assoc _ _ H) as H'. intro k. specialize (H' k).
    rewrite !objects_entries in H'; try reflexivity.
    + unfold entries in H'. cbn [flat_map stmt_entries] in H'. rewrite !app_nil_r in H'. exact H'.
    + intros t [Hx|[]]. inversion Hx; subst. apply KA. exact Ha.
    + intros t [Hx|[]]. inversion Hx; subst. apply KB. exact Hb.
  - intros Ht k. rewrite Ht, String.eqb_refl in T1. pose proof (same_objects_assoc _ _ T1 k) as H. rewrite !objects_entries in H; assumption.
  - intros i sb sa Hb Ha Db Da. pose proof (declares_inner B i sb Hb CB KB Db) as H1. pose proof (declares_inner A i sa Ha CA KA Da) as H2.
    unfold same_style in Style. apply andb_true_iff in Style. destruct Style as [S1 S2].
    destruct sb as [tb|ib| | |]; try contradiction; destruct sa as [ta|ia| | |]; try contradiction.
    + unfold same_object. cbn [same_type andb stmt_name]. rewrite !objname_diff_qname. unfold inner_stay in Stay. rewrite forallb_forall in Stay.
      specialize (Stay tb (proj2 (in_tables _ _) Hb)). rewrite forallb_forall in Stay. specialize (Stay ta (proj2 (in_tables _ _) Ha)).
      apply orb_true_iff in Stay. destruct Stay as [S|S]; [exact S|]. exfalso. exact (disjoint_spec _ _ S i H1 H2).
    + exfalso. apply (disjoint_spec _ _ S1 i); [apply (inner_one B tb); assumption|]. unfold outer_indexes. apply in_flat_map.
      exists (CreateIndex ia). split; [exact Ha|left; exact H2].
    + exfalso. apply (disjoint_spec _ _ S2 i); [|apply (inner_one A ta); assumption]. unfold outer_indexes. apply in_flat_map.
      exists (CreateIndex ib). split; [exact Hb|left; exact H1].
    + unfold same_object. cbn [same_type andb stmt_name]. rewrite !objname_diff_qname. apply String.eqb_eq. cbv beta iota in H1, H2. rewrite (objname_diff_qname (cx_name ia)). congruence.
  - intros ib ia Hb Ha E Ht. pose proof (all_pairs_in _ _ _ _ _ Idx ib ia (proj2 (in_indexes _ _) Hb) (proj2 (in_indexes _ _) Ha) E) as H.
    unfold index_pair_ok in H. apply andb_true_iff in H. destruct H as [H _]. exact (told_eq _ _ _ _ _ _ H Ht).
  - intros Hd ib Hb. specialize (My' Hd). rewrite forallb_forall in My'. specialize (My' ib (proj2 (in_indexes _ _) Hb)). apply memb_In in My'.
    unfold index_names in My'. apply in_map_iff in My'. destruct My' as [ia [E Ha]]. exists ia. split; [apply in_indexes; exact Ha|].
    split; [symmetry; exact E|]. pose proof (all_pairs_in _ _ _ _ _ Idx ib ia (proj2 (in_indexes _ _) Hb) Ha (eq_sym E)) as H.
    unfold index_pair_ok in H. apply andb_true_iff in H. destruct H as [_ H]. rewrite Hd in *. apply String.eqb_eq. exact H.
  - intros i tb Hi Hb E. unfold no_wipe in Wipe. rewrite forallb_forall in Wipe.
    assert (Hin : In i (indexes B ++ indexes A)%list) by (apply in_or_app; rewrite !in_indexes; exact Hi).
    specialize (Wipe i Hin). rewrite forallb_forall in Wipe. specialize (Wipe tb (proj2 (in_tables _ _) Hb)).
    unfold table_name in Wipe. rewrite E, String.eqb_refl in Wipe. cbn [negb orb] in Wipe. apply existsb_exists in Wipe.
    destruct Wipe as [ta [Ha W]]. apply andb_true_iff in W. destruct W as [W1 W2]. exists ta. split; [apply in_tables; exact Ha|].
    split; [apply String.eqb_eq; exact W1|]. intro Hd. rewrite Hd in W2 |- *. apply String.eqb_eq. exact W2.
  - intros tb ta c i Hb Ha E Hc F Hi Ht. unfold dropped_unused in Drop.
    pose proof (all_pairs_in _ _ _ _ _ Drop tb ta (proj2 (in_tables _ _) Hb) (proj2 (in_tables _ _) Ha) E) as H. cbv beta in H.
    rewrite forallb_forall in H. apply find_column_memb in F.
    assert (Hg : In (id_name (c_name c)) (gone_columns tb ta)).
    { unfold gone_columns. apply filter_In. split; [|rewrite F; reflexivity]. unfold col_names. apply (in_map (fun c => id_name (c_name c))). exact Hc. }
    specialize (H _ Hg). rewrite forallb_forall in H.
    assert (Hin : In i (indexes B ++ indexes A)%list) by (apply in_or_app; rewrite !in_indexes; tauto).
    specialize (H i Hin). unfold table_name in H. rewrite Ht, String.eqb_refl in H. cbn [negb orb] in H.
    assert (Hm : memb (qname (cx_name i)) (index_names A) = true).
    { apply memb_In. unfold index_names. apply in_map_iff. destruct Hi as [Hi|[Hi Hf]].
      - exists i. split; [reflexivity|apply in_indexes; exact Hi].
      - destruct (find_stmt (CreateIndex i) A) as [x|] eqn:Fx; [|exfalso; apply Hf; reflexivity].
        unfold find_stmt in Fx. apply find_some in Fx. destruct Fx as [F1 F2]. apply andb_true_iff in F2. destruct F2 as [F2 F3].
        destruct x as [|ia| | |]; try discriminate F2. exists ia. split; [|apply in_indexes; exact F1].
        apply eqs_eq in F3. cbn [stmt_name] in F3. rewrite (objname_diff_qname (cx_name i)), (objname_diff_qname (cx_name ia)) in F3. congruence. }
    rewrite Hm in H. cbn [negb orb] in H. apply negb_true_iff in H. exact H.
Qed.
End Schemas.

(** The main theorem with executable hypotheses. *)
Theorem diff_reconciles : forall d srt sdiff before after db0 dba,
  srt_ok srt -> describes d before db0 -> describes d after dba ->
  reconcilable d before after = true -> text_ok d before after = true ->
  match diff d srt sdiff (Some before) (Some after) with
  | DOk stmts => exists m, exec_all d stmts db0 = Some m /\ db_eq m dba
  | DNoDiff => db_eq db0 dba
  | _ => False
  end.
Proof.
  intros d srt sdiff B A db0 dba Hs HB HA R T. apply diff_sound; try assumption.
  destruct (describes_entries d B db0 HB) as [_ [_ KB]]. destruct (describes_entries d A dba HA) as [_ [_ KA]].
  destruct HB as [CB _]. destruct HA as [CA _]. apply reconcilable_ok; assumption.
Qed.
