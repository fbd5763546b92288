(** When Diff reports no difference, the two schemas describe the same catalogue. *)
From Coq Require Import Lia Permutation.
From Verif Require Import GoStr Token Ast Parser Diff Db DbFacts AppendFacts DiffTable DiffPair DiffSound Tidy TidyFacts DiffSame
  Reconcile ReconcileFacts.

Lemma app_nil : forall A (x y : list A), (x ++ y)%list = [] -> x = [] /\ y = [].
Proof. intros A x y H. apply app_eq_nil in H. exact H. Qed.
Lemma flat_map_nil_inv : forall A B (f : A -> list B) l, flat_map f l = [] -> forall x, In x l -> f x = [].
Proof.
  intros A B f l. induction l as [|y r IH]; intros H x Hx; [destruct Hx|]. cbn [flat_map] in H. apply app_nil in H. destruct H as [H1 H2].
  destruct Hx as [Hx|Hx]; [subst; exact H1|apply IH; assumption].
Qed.
Lemma filter_nil_inv : forall A (f : A -> bool) l, filter f l = [] -> forall x, In x l -> f x = false.
Proof.
  intros A f l H x Hx. destruct (f x) eqn:E; [|reflexivity]. exfalso. assert (Hi : In x (filter f l)) by (apply filter_In; auto). rewrite H in Hi. exact Hi.
Qed.
Lemma if_nil : forall A (b : bool) (x : A) r, (if b then x :: r else []) = [] -> b = false.
Proof. intros A [] x r H; [discriminate H|reflexivity]. Qed.

Lemma default_nil : forall d sd n b a, tidy_col b = true -> tidy_col a = true ->
  diff_default d sd n b a = [] -> default_diff d (c_default b) = default_diff d (c_default a).
Proof.
  intros d sd n b a Tb Ta H. unfold diff_default in H. unfold tidy_col in *.
  destruct (c_default b) as [[x|]|] eqn:Eb; [|discriminate Tb|]; destruct (c_default a) as [[y|]|] eqn:Ea; try discriminate Ta.
  - cbn [is_some andb negb] in H. apply if_nil in H. apply neqs_false. exact H.
  - discriminate H.
  - cbn [is_some andb negb] in H. apply if_nil in H. apply neqs_false. exact H.
  - reflexivity.
Qed.

Lemma common_column_honest : forall d sdiff n b a, tidy_col b = true -> tidy_col a = true -> col_cmp d b a = true ->
  diff_common_column d sdiff n b a = [] -> sem_col d b = sem_col d a.
Proof.
  intros d sdiff n b a Tb Ta C H. unfold col_cmp in C. apply andb_true_iff in C. destruct C as [C C3]. apply andb_true_iff in C. destruct C as [C1 C2].
  unfold diff_common_column in H. cbv zeta in H.
  assert (Ht : datatype_diff (c_type b) = datatype_diff (c_type a)).
  { destruct d; apply app_nil in H; destruct H as [H _]; apply if_nil in H.
    - apply neqs_false. exact H.
    - apply neqs_false. exact H.
    - repeat (apply orb_false_iff in H; destruct H as [H _]). apply neqs_false. exact H.
    - apply orb_false_iff in H. destruct H as [H _]. apply neqs_false. exact H. }
  pose proof (told_eq _ _ _ _ _ _ C1 Ht) as E1.
  assert (Hd : default_diff d (c_default b) = default_diff d (c_default a)).
  { destruct d; apply app_nil in H; destruct H as [H H'].
    - apply app_nil in H'. destruct H' as [H' _]. apply default_nil in H'; assumption.
    - apply app_nil in H'. destruct H' as [H' _]. apply default_nil in H'; assumption.
    - apply if_nil in H. apply if_nil in H'. rewrite H' in H. cbn [negb andb] in H.
      do 3 (apply orb_false_iff in H; destruct H as [H _]). apply orb_false_iff in H. destruct H as [_ H]. apply neqs_false. exact H.
    - apply app_nil in H'. destruct H' as [H' _]. apply default_nil in H'; assumption. }
  pose proof (told_eq _ _ _ _ _ _ C2 Hd) as E2.
  assert (Hn : c_notnull b = c_notnull a).
  { destruct d; apply app_nil in H; destruct H as [H H'].
    - apply app_nil in H'. destruct H' as [_ H']. unfold diff_notnull in H'. destruct (c_notnull b), (c_notnull a); try reflexivity; discriminate.
    - apply app_nil in H'. destruct H' as [_ H']. unfold diff_notnull in H'. destruct (c_notnull b), (c_notnull a); try reflexivity; discriminate.
    - apply if_nil in H. do 4 (apply orb_false_iff in H; destruct H as [H _]). apply orb_false_iff in H. destruct H as [_ H].
      apply negb_false_iff in H. apply bool_eqb_eq. exact H.
    - apply if_nil in H. apply orb_false_iff in H. destruct H as [_ H]. apply negb_false_iff in H. apply bool_eqb_eq. exact H. }
  unfold sem_col. destruct d.
  - congruence.
  - apply andb_true_iff in C3. destruct C3 as [C3 C4]. apply bool_eqb_eq in C3. apply same_eq in C4. congruence.
  - apply andb_true_iff in C3. destruct C3 as [C3 C4]. apply app_nil in H. destruct H as [H _]. apply if_nil in H.
    apply orb_false_iff in H. destruct H as [H G8]. apply orb_false_iff in H. destruct H as [H G7]. apply orb_false_iff in H. destruct H as [H G6].
    apply orb_false_iff in H. destruct H as [H _]. apply orb_false_iff in H. destruct H as [H _]. apply orb_false_iff in H. destruct H as [H G3].
    apply orb_false_iff in H. destruct H as [_ G2].
    apply neqs_false in G8, G7, G3, G2. apply negb_false_iff in G6. apply bool_eqb_eq in G6.
    pose proof (told_eq _ _ _ _ _ _ C3 G2) as E3. pose proof (told_eq _ _ _ _ _ _ C4 G3) as E4. congruence.
  - apply app_nil in H. destruct H as [_ H]. apply app_nil in H. destruct H as [_ H]. unfold diff_options in H.
    assert (E5 : option_map toks (c_options b) = option_map toks (c_options a)).
    { destruct (c_options a) as [y|] eqn:Ea.
      - cbn [present] in C3. cbn [is_some negb andb] in H. rewrite andb_false_r in H. apply if_nil in H. apply neqs_false in H.
        exact (told_eq _ _ _ _ _ _ C3 H).
      - destruct (c_options b) as [x|]; [discriminate H|reflexivity]. }
    congruence.
Qed.

Lemma ckey_same_table : forall d tb ta b a, tidy_name (ct_name tb) = true -> tidy_name (ct_name ta) = true ->
  qname (ct_name tb) = qname (ct_name ta) -> con_key b = con_key a -> is_idx b = is_idx a ->
  ckey d (ct_name tb) b = ckey d (ct_name ta) a.
Proof.
  intros d tb ta b a Tb Ta Hq H E. destruct (qname_schema _ _ Tb Ta Hq) as [Hs _].
  unfold ckey. rewrite E, Hq, H. destruct (is_idx a); [|reflexivity]. unfold intable_key. unfold con_key in H. rewrite H.
  destruct d; try reflexivity. f_equal. unfold qname. cbn [on_schema on_name].
  destruct (on_schema (ct_name tb)), (on_schema (ct_name ta)); cbn in Hs; try discriminate Hs; congruence.
Qed.

Lemma row_honest : forall d sdiff n b a, tidy_row d b = true -> tidy_row d a = true -> row_ok d b a = true ->
  diff_row_deletion d sdiff n b a = [] ->
  option_map (fun o => etoks (o_value o)) b = option_map (fun o => etoks (o_value o)) a.
Proof.
  intros d sdiff n b a Tb Ta R H. unfold tidy_row, row_ok, diff_row_deletion in *.
  destruct d; try (destruct b, a; try discriminate; reflexivity).
  destruct (neqs (ooption_diff Sp b) (ooption_diff Sp a)) eqn:E.
  - destruct b, a; try discriminate H; reflexivity.
  - apply neqs_false in E. exact (told_eq _ _ _ _ _ _ R E).
Qed.

Lemma options_honest : forall d sdiff n tb ta o, tidy_spec d tb -> tidy_spec d ta ->
  (d = Sp -> options_diff d (ct_options tb) = options_diff d (ct_options ta)) ->
  options_ok d (ct_options tb) (ct_options ta) = true ->
  diff_table_options d sdiff n (ct_options tb) (ct_options ta) = [] ->
  option_map (fun x => VOpt (etoks (o_value x)))
    (find (fun x => eqs (o_name x) o && negb (match d with My => counter_option x | _ => false end)) (ct_options tb)) =
  option_map (fun x => VOpt (etoks (o_value x)))
    (find (fun x => eqs (o_name x) o && negb (match d with My => counter_option x | _ => false end)) (ct_options ta)).
Proof.
  intros d sdiff n tb ta o Sb Sa Hopt Ok H. pose proof (ti_opt _ _ Sb) as Ob. pose proof (ti_opt _ _ Sa) as Oa. clear Sb Sa.
  revert Ok H Ob Oa Hopt. generalize (ct_options tb) (ct_options ta). clear tb ta. intros B A Ok H Ob Oa Hopt.
  assert (Hnone : forall X : list option_, (forall x, In x X -> tidy_opt Pg x = true) -> X = []).
  { intros [|x r] Hx; [reflexivity|]. specialize (Hx x (or_introl eq_refl)). unfold tidy_opt in Hx. rewrite andb_false_r in Hx. discriminate. }
  destruct d.
  - rewrite (Hnone B Ob), (Hnone A Oa). reflexivity.
  - rewrite (Hnone B Ob), (Hnone A Oa). reflexivity.
  - assert (Auto : forall X x, (forall y, In y X -> tidy_opt My y = true) -> In x X -> is_auto_increment x = counter_option x).
    { intros X x Hx Hi. specialize (Hx x Hi). unfold tidy_opt in Hx. apply andb_true_iff in Hx. destruct Hx as [_ Hx]. apply bool_eqb_eq in Hx. exact Hx. }
    unfold options_ok in Ok. apply andb_true_iff in Ok. destruct Ok as [Ok O4]. apply andb_true_iff in Ok. destruct Ok as [Ok O3].
    apply andb_true_iff in Ok. destruct Ok as [O1 O2]. apply nodupb_NoDup in O1. apply nodupb_NoDup in O2.
    unfold diff_table_options in H. apply app_nil in H. destruct H as [H1 H2]. pose proof (flat_map_nil_inv _ _ _ _ H1) as H1'.
    apply map_eq_nil in H2. pose proof (filter_nil_inv _ _ _ H2) as H2'.
    assert (Uniq : forall X x, NoDup (map o_name X) -> In x X -> counter_option x = false ->
       find (fun y => eqs (o_name y) (o_name x) && negb (counter_option y)) X = Some x).
    { intros X x Nd Hx Hc. apply find_unique.
      - assert (U : atmost1 (fun y => eqs (o_name y) (o_name x)) X) by (apply (atmost1_key _ _ eqs); [intros; apply eqs_eq|exact Nd]).
        clear -U. induction X as [|y r IH]; [exact I|]. cbn [atmost1] in *. destruct U as [U1 U2]. split; [|apply IH; exact U2].
        intros Hy z Hz. apply andb_true_iff in Hy. rewrite (U1 (proj1 Hy) z Hz). reflexivity.
      - exact Hx.
      - rewrite eqs_refl, Hc. reflexivity. }
    destruct (find (fun x => eqs (o_name x) o && negb (counter_option x)) B) as [b|] eqn:Fb.
    + apply find_some in Fb. destruct Fb as [Hb Hn]. apply andb_true_iff in Hn. destruct Hn as [Hn Hc]. apply eqs_eq in Hn. subst o.
      apply negb_true_iff in Hc. rewrite forallb_forall in O3. pose proof (O3 b Hb) as M. rewrite Hc in M. cbn [orb] in M. apply memb_In in M.
      apply in_map_iff in M. destruct M as [a [En Ha]].
      assert (Hca : counter_option a = false) by (unfold counter_option in *; rewrite En; exact Hc).
      rewrite <- En. rewrite (Uniq A a O2 Ha Hca). cbn [option_map]. do 2 f_equal.
      apply (told_eq _ _ _ _ _ _ (all_pairs_in _ _ _ _ _ O4 b a Hb Ha (eq_sym En))).
      specialize (H1' b Hb). cbv beta in H1'. rewrite (Auto B b Ob Hb), Hc in H1'.
      assert (Fa : find_option (o_name b) A = Some a).
      { unfold find_option. apply find_unique; [|exact Ha|rewrite En; apply eqs_refl].
        apply (atmost1_key _ _ eqs); [intros; apply eqs_eq|exact O2]. }
      rewrite Fa in H1'. apply if_nil in H1'. apply neqs_false. exact H1'.
    + destruct (find (fun x => eqs (o_name x) o && negb (counter_option x)) A) as [a|] eqn:Fa; [|reflexivity]. exfalso.
      apply find_some in Fa. destruct Fa as [Ha Hn]. apply andb_true_iff in Hn. destruct Hn as [Hn Hc]. apply eqs_eq in Hn. subst o.
      apply negb_true_iff in Hc.
      destruct (find_option (o_name a) B) as [b|] eqn:G.
      * apply find_opt_some in G. destruct G as [G1 G2]. pose proof (proj1 (find_none_iff _ _ _) Fb b G1) as Z. cbv beta in Z.
        rewrite G2, eqs_refl in Z. unfold counter_option in *. rewrite G2, Hc in Z. discriminate Z.
      * assert (Hi : In a (only_left_options A B)) by (unfold only_left_options; apply filter_In; split; [exact Ha|rewrite G; reflexivity]).
        specialize (H2' a Hi). cbv beta in H2'. rewrite (Auto A a Oa Ha), Hc in H2'. discriminate.
  - specialize (Hopt eq_refl). unfold options_ok in Ok. rewrite Hopt, String.eqb_refl in Ok. rewrite forallb_forall in Ok.
    assert (Hv : option_value B o = option_value A o).
    { destruct (in_dec string_dec o (map o_name B ++ map o_name A)%list) as [Hi|Hi].
      - specialize (Ok o Hi). apply same_eq in Ok. exact Ok.
      - rewrite !option_value_none; [reflexivity| |]; intro K; apply Hi; apply in_or_app; auto. }
    unfold option_value in Hv.
    rewrite (find_ext _ (fun x => eqs (o_name x) o && negb false) (fun x => String.eqb (o_name x) o) B) by (intros; apply andb_true_r).
    rewrite (find_ext _ (fun x => eqs (o_name x) o && negb false) (fun x => String.eqb (o_name x) o) A) by (intros; apply andb_true_r).
    destruct (find _ B), (find _ A); cbn in *; congruence.
Qed.

Section Table.
Variable d : dialect.
Variable srt : list constraint -> list constraint.
Variable sdiff : string -> string -> string.
Hypothesis Hsrt : srt_ok srt.
Variables tb ta : create_table.
Hypothesis Tb : tidy_table d tb = true.
Hypothesis Ta : tidy_table d ta = true.
Hypothesis Hq : qname (ct_name tb) = qname (ct_name ta).
Hypothesis Nb : all_con_named tb = true.
Hypothesis Na : all_con_named ta = true.
Hypothesis Db : NoDup (map fst (table_entries d tb)).
Hypothesis Da : NoDup (map fst (table_entries d ta)).
Hypothesis C : table_cmp d tb ta = true.
Hypothesis Hopt : d = Sp -> options_diff d (ct_options tb) = options_diff d (ct_options ta).
Hypothesis Hnil : diff_tables d srt sdiff false tb ta = Ok [].

Let n := final_name (ct_name tb) (ct_name ta).

Lemma only_left_cons_nil : only_left_constraints d srt (ct_constraints ta) (ct_constraints tb) = Ok [] ->
  forall a, In a (ct_constraints ta) -> find_constraint (con_key a) (ct_constraints tb) <> None.
Proof.
  intros H a Ha F. unfold only_left_constraints in H.
  set (L := filter (fun c => match find_constraint (con_key c) (ct_constraints tb) with None => true | Some _ => false end) (ct_constraints ta)) in H.
  destruct (append_all d srt Hsrt L []) as [cs' [E P]].
  - cbn [app]. unfold L. rewrite forallb_forall. intros x Hx. apply filter_In in Hx. destruct Hx as [Hx _].
    unfold all_con_named in Na. rewrite forallb_forall in Na. exact (Na x Hx).
  - cbn [app]. unfold L. pose proof (ti_nodup _ _ (tidy_table_spec _ _ Ta)) as U. generalize U. generalize (ct_constraints ta). intro l.
    induction l as [|x r IH]; intro V; [constructor|]. cbn [map] in V. inversion V as [|? ? V1 V2]; subst. cbn [filter].
    destruct (match find_constraint (con_key x) (ct_constraints tb) with None => true | Some _ => false end); [|apply IH; exact V2].
    cbn [map]. constructor; [|apply IH; exact V2]. intro F'. apply V1. apply in_map_iff in F'. destruct F' as [y [Y1 Y2]].
    apply filter_In in Y2. rewrite <- Y1. apply in_map. tauto.
  - rewrite E in H. injection H as H1. subst cs'. cbn [app] in P. apply Permutation_nil in P.
    assert (Hi : In a L) by (unfold L; apply filter_In; split; [exact Ha|rewrite F; reflexivity]). rewrite P in Hi. exact Hi.
Qed.

Lemma nil_parts :
  (forall b, In b (ct_constraints tb) -> drop_gone_constraint d sdiff (ct_name tb) n (ct_constraints ta) b = []) /\
  (forall b, In b (ct_columns tb) -> diff_before_column d sdiff n (ct_columns ta) b = []) /\
  (forall a, In a (ct_columns ta) -> find_column (id_name (c_name a)) (ct_columns tb) <> None) /\
  (forall b, In b (ct_constraints tb) -> change_constraint d sdiff false (ct_name tb) n (ct_constraints ta) b = []) /\
  (forall a, In a (ct_constraints ta) -> find_constraint (con_key a) (ct_constraints tb) <> None) /\
  diff_table_options d sdiff n (ct_options tb) (ct_options ta) = [] /\
  diff_row_deletion d sdiff n (ct_rowdel tb) (ct_rowdel ta) = [].
Proof.
  pose proof Hnil as H. unfold diff_tables in H. fold n in H.
  destruct (only_left_constraints d srt (ct_constraints ta) (ct_constraints tb)) as [added| | |] eqn:E; try discriminate H. cbn [bind] in H.
  injection H as H. apply app_nil in H. destruct H as [_ H]. apply app_nil in H. destruct H as [H1 H]. apply app_nil in H. destruct H as [H2 H].
  apply app_nil in H. destruct H as [H3 H]. apply app_nil in H. destruct H as [H4 H]. apply app_nil in H. destruct H as [H5 H6].
  unfold diff_columns in H2. apply app_nil in H2. destruct H2 as [H2 H2'].
  refine (conj _ (conj _ (conj _ (conj _ (conj _ (conj H5 H6)))))).
  - exact (flat_map_nil_inv _ _ _ _ H1).
  - exact (flat_map_nil_inv _ _ _ _ H2).
  - intros a Ha F. apply map_eq_nil in H2'. pose proof (filter_nil_inv _ _ _ H2' a Ha) as G. cbv beta in G. rewrite F in G. discriminate.
  - exact (flat_map_nil_inv _ _ _ _ H3).
  - apply map_eq_nil in H4. rewrite H4 in E. apply only_left_cons_nil. exact E.
Qed.

Lemma cmp_parts :
  (forall b a, In b (ct_columns tb) -> In a (ct_columns ta) -> id_name (c_name b) = id_name (c_name a) -> col_cmp d b a = true) /\
  (forall b, In b (ct_columns tb) -> find_column (id_name (c_name b)) (ct_columns ta) = None -> keep_hidden d b = false) /\
  (forall b a, In b (ct_constraints tb) -> In a (ct_constraints ta) -> con_key b = con_key a -> constraint_diff d b = constraint_diff d a ->
     cval d (ct_name tb) b = cval d (ct_name ta) a) /\
  options_ok d (ct_options tb) (ct_options ta) = true /\ row_ok d (ct_rowdel tb) (ct_rowdel ta) = true.
Proof.
  pose proof C as H. unfold table_cmp in H. apply andb_true_iff in H. destruct H as [H H5]. apply andb_true_iff in H. destruct H as [H H4].
  apply andb_true_iff in H. destruct H as [H H3]. apply andb_true_iff in H. destruct H as [H1 H2].
  refine (conj _ (conj _ (conj _ (conj H4 H5)))).
  - intros b a Hb Ha E. exact (all_pairs_in _ _ _ _ _ H1 b a Hb Ha E).
  - intros b Hb F. rewrite forallb_forall in H2. specialize (H2 b Hb). apply find_column_memb in F. rewrite F in H2. cbn [orb] in H2.
    apply negb_true_iff in H2. unfold keep_hidden, sticky in *. destruct d; try reflexivity. exact H2.
  - intros b a Hb Ha E Et. rewrite <- !con_label_key in E. pose proof (all_pairs_in _ _ _ _ _ H3 b a Hb Ha E) as G. cbv beta in G.
    pose proof (told_eq _ _ _ _ _ _ G Et) as G'. rewrite !con_value_cval in G'. congruence.
Qed.

Lemma cval_idx : forall t t' b a, cval d t b = cval d t' a -> is_idx b = is_idx a.
Proof. intros t t' b a H. destruct b, a; cbn in H; try discriminate H; reflexivity. Qed.

Lemma table_honest : forall k, assoc_key k (table_entries d tb) = assoc_key k (table_entries d ta).
Proof.
  destruct nil_parts as [P1 [P2 [P3 [P4 [P5 [P6 P7]]]]]]. destruct cmp_parts as [Q1 [Q2 [Q3 [Q4 Q5]]]].
  pose proof (tidy_table_spec _ _ Tb) as Sb. pose proof (tidy_table_spec _ _ Ta) as Sa.
  assert (Tcb : forall c, In c (ct_columns tb) -> tidy_col c = true).
  { intros c Hc. pose proof (ti_col _ _ Sb c Hc) as X. unfold tidy_col. destruct (c_default c) as [[l|]|]; [reflexivity|exfalso; apply X; reflexivity|reflexivity]. }
  assert (Tca : forall c, In c (ct_columns ta) -> tidy_col c = true).
  { intros c Hc. pose proof (ti_col _ _ Sa c Hc) as X. unfold tidy_col. destruct (c_default c) as [[l|]|]; [reflexivity|exfalso; apply X; reflexivity|reflexivity]. }
  assert (Hcon : forall k, conkey k -> assoc_key k (table_entries d tb) = assoc_key k (table_entries d ta)).
  { assert (Partner : forall b, In b (ct_constraints tb) -> exists a, In a (ct_constraints ta) /\
        ckey d (ct_name tb) b = ckey d (ct_name ta) a /\ cval d (ct_name tb) b = cval d (ct_name ta) a /\ con_key b = con_key a).
    { intros b Hb. specialize (P1 b Hb). specialize (P4 b Hb). unfold drop_gone_constraint, change_constraint in *.
      destruct (find_constraint (con_key b) (ct_constraints ta)) as [a|] eqn:F; [|destruct (is_index d b); discriminate P1].
      assert (Et : constraint_diff d b = constraint_diff d a).
      { destruct (neqs (constraint_diff d b) (constraint_diff d a)) eqn:En; [destruct (is_index d a); discriminate P4|apply neqs_false; exact En]. }
      unfold find_constraint in F. apply find_some in F. destruct F as [F1 F2]. apply eqs_eq in F2. symmetry in F2.
      pose proof (Q3 b a Hb F1 F2 Et) as V. exists a. split; [exact F1|]. split; [|auto].
      apply ckey_same_table; [apply (ti_name _ _ Sb)|apply (ti_name _ _ Sa)|exact Hq|exact F2|exact (cval_idx _ _ _ _ V)]. }
    intros k Hk. rewrite !assoc_table_con by assumption.
    destruct (find (fun c => key_eqb (ckey d (ct_name tb) c) k) (ct_constraints tb)) as [b|] eqn:Fb.
    - apply find_some in Fb. destruct Fb as [Fb Fk]. apply key_eqb_eq in Fk. destruct (Partner b Fb) as [a [Ha [K1 [K2 _]]]].
      rewrite (find_unique _ (fun c => key_eqb (ckey d (ct_name ta) c) k) (ct_constraints ta) a).
      + cbn [option_map]. congruence.
      + apply atmost1_key; [apply key_eqb_eq|]. apply nodup_ckey; assumption.
      + exact Ha.
      + apply key_eqb_eq. congruence.
    - destruct (find (fun c => key_eqb (ckey d (ct_name ta) c) k) (ct_constraints ta)) as [a|] eqn:Fa; [|reflexivity].
      exfalso. apply find_some in Fa. destruct Fa as [Fa Fk]. apply key_eqb_eq in Fk. specialize (P5 a Fa).
      destruct (find_constraint (con_key a) (ct_constraints tb)) as [b|] eqn:G; [|apply P5; reflexivity].
      unfold find_constraint in G. apply find_some in G. destruct G as [G1 G2]. apply eqs_eq in G2.
      destruct (Partner b G1) as [a' [Ha' [K1 [_ K3]]]].
      assert (Ea : a' = a).
      { pose proof (find_con_in ta a' (ti_nodup _ _ Sa) Ha') as X. pose proof (find_con_in ta a (ti_nodup _ _ Sa) Fa) as Y.
        rewrite <- K3, G2 in X. congruence. }
      subst a'. pose proof (proj1 (find_none_iff _ _ _) Fb b G1) as Z. cbv beta in Z. apply key_eqb_neq in Z. congruence. }
  intro k. destruct (owner k) as [u|] eqn:Eo.
  - destruct (string_dec u (qname (ct_name ta))) as [Eu|Eu].
    2:{ rewrite (assoc_table_other d tb k u), (assoc_table_other d ta k u); try assumption; [reflexivity|congruence]. }
    destruct k as [t|t c|t c|t o|t|i]; cbn in Eo; inversion Eo; subst u; try subst t.
    + unfold table_entries. cbn [assoc_key key_eqb]. rewrite Hq, String.eqb_refl. reflexivity.
    + rewrite <- Hq at 1. rewrite !assoc_table_col by assumption.
      destruct (find_column c (ct_columns tb)) as [b|] eqn:Fb.
      * apply find_col_some in Fb. destruct Fb as [Fb Fn]. specialize (P2 b Fb). unfold diff_before_column in P2. rewrite Fn in P2.
        destruct (find_column c (ct_columns ta)) as [a|] eqn:Fa.
        -- apply find_col_some in Fa. destruct Fa as [Fa Fn']. cbn [option_map]. do 2 f_equal.
           apply (common_column_honest d sdiff n); auto. apply Q1; auto. congruence.
        -- rewrite <- Fn in Fa. rewrite (Q2 b Fb Fa) in P2. discriminate P2.
      * destruct (find_column c (ct_columns ta)) as [a|] eqn:Fa; [|reflexivity]. exfalso. apply find_col_some in Fa. destruct Fa as [Fa Fn].
        apply (P3 a Fa). congruence.
    + apply Hcon. exact I.
    + rewrite <- Hq at 1. rewrite !assoc_table_opt by assumption. apply (options_honest d sdiff n); assumption.
    + rewrite <- Hq at 1. rewrite !assoc_table_row by assumption.
      pose proof (row_honest d sdiff n _ _ (ti_row _ _ Sb) (ti_row _ _ Sa) Q5 P7) as V.
      destruct (ct_rowdel tb), (ct_rowdel ta); cbn in *; congruence.
  - destruct k; try discriminate Eo. apply Hcon. exact I.
Qed.
End Table.

Lemma map_opt_nil : forall A B (f : A -> option B) l, map_opt f l = Some [] -> l = [].
Proof. intros A B f [|x r] H; [reflexivity|]. cbn [map_opt] in H. destruct (f x); [|discriminate H]. destruct (map_opt f r); discriminate H. Qed.
Lemma diff_stmts_nil : forall d srt sdiff B A, diff_stmts d srt sdiff B A = Ok [] -> forall s, In s B -> diff_stmt d srt sdiff s A = Ok [].
Proof.
  intros d srt sdiff B A. induction B as [|x r IH]; intros H s Hs; [destruct Hs|]. cbn [diff_stmts] in H.
  destruct (diff_stmt d srt sdiff x A) as [l| | |] eqn:E; try discriminate H. cbn [bind] in H.
  destruct (diff_stmts d srt sdiff r A) as [l'| | |] eqn:E'; try discriminate H. cbn [bind] in H. injection H as H.
  apply app_nil in H. destruct H as [H1 H2]. subst. destruct Hs as [Hs|Hs]; [subst; exact E|apply IH; auto].
Qed.
Lemma only_left_nil : forall B A, only_left_stmts B A = [] -> forall s, In s B -> exists p, find_stmt s A = Some p.
Proof.
  intros B A H s Hs. pose proof (filter_nil_inv _ _ _ H s Hs) as G. cbv beta in G. destruct (find_stmt s A) as [p|]; [eauto|discriminate G].
Qed.

Lemma diff_ddl_nodiff : forall d srt sdiff B A, diff d srt sdiff (Some B) (Some A) = DNoDiff ->
  ddl_string d B = ddl_string d A \/
  (only_left_stmts B A = [] /\ only_left_stmts A B = [] /\ diff_stmts d srt sdiff B A = Ok []).
Proof.
  intros d srt sdiff B A H. cbn [diff] in H. unfold diff_ddl in H. destruct (eqs (ddl_string d B) (ddl_string d A)) eqn:E.
  - left. apply eqs_eq. exact E.
  - right. destruct (map_opt drop_stmt (only_left_stmts B A)) as [drops|] eqn:E1; [|discriminate H].
    destruct (map_opt create_stmt (only_left_stmts A B)) as [creates|] eqn:E2; [|discriminate H].
    destruct (diff_stmts d srt sdiff B A) as [ch| | |]; try discriminate H.
    destruct (drops ++ creates ++ ch)%list eqn:E3; [|discriminate H]. apply app_nil in E3. destruct E3 as [F1 F2]. apply app_nil in F2.
    destruct F2 as [F2 F3]. subst. apply map_opt_nil in E1. apply map_opt_nil in E2. auto.
Qed.

Theorem nodiff_honest : forall d srt sdiff B A mb ma,
  srt_ok srt -> describes d B mb -> describes d A ma -> comparable d B A = true -> text_ok d B A = true ->
  diff d srt sdiff (Some B) (Some A) = DNoDiff -> db_eq mb ma.
Proof.
  intros d srt sdiff B A mb ma Hs HB HA R T H.
  destruct (describes_entries d B mb HB) as [NB [VB KB]]. destruct (describes_entries d A ma HA) as [NA [VA KA]].
  destruct HB as [CB _]. destruct HA as [CA _]. intro k. rewrite VB, VA. revert k.
  unfold text_ok in T. apply andb_true_iff in T. destruct T as [T1 T2].
  apply diff_ddl_nodiff in H. destruct H as [H|[H1 [H2 H3]]].
  { rewrite H, String.eqb_refl in T1. intro k. pose proof (same_objects_assoc _ _ T1 k) as G. rewrite !objects_entries in G; assumption. }
  unfold comparable in R. apply andb_true_iff in R. destruct R as [R R4]. apply andb_true_iff in R. destruct R as [R R3].
  apply andb_true_iff in R. destruct R as [R1 R2].
  assert (Partner : forall s, In s B -> exists p, In p A /\ same_object s p = true /\
            forall k, assoc_key k (stmt_entries d s) = assoc_key k (stmt_entries d p)).
  { intros s Hs'. destruct (only_left_nil _ _ H1 s Hs') as [p F]. pose proof (diff_stmts_nil _ _ _ _ _ H3 s Hs') as G.
    destruct (find_stmt_some _ _ _ F) as [Hp Eo]. exists p. split; [exact Hp|]. split; [exact Eo|].
    pose proof (crB B CB s Hs') as Cs. destruct s as [tb|ib| | |]; try discriminate Cs.
    - destruct (same_table_inv _ _ Eo) as [ta [Ep Eq]]. subst p. cbn [diff_stmt] in G. rewrite F in G.
      cbn [stmt_entries].
      destruct (diff_create_table d srt sdiff false tb ta) eqn:E; try discriminate G.
      + injection G as G. subst l. exfalso. unfold diff_create_table in E.
        destruct (match d with Sp => _ | _ => false end); [discriminate E|]. destruct (eqs _ _); [discriminate E|].
        destruct (all_named _ && _); [|discriminate E]. destruct (diff_tables d srt sdiff false tb ta) as [[|]| | |]; discriminate E.
      + unfold diff_create_table in E.
        destruct (match d with Sp => neqs (options_diff d (ct_options tb)) (options_diff d (ct_options ta)) | _ => false end) eqn:Eopt; [discriminate E|].
        destruct (eqs (create_table_string d tb) (create_table_string d ta)) eqn:Etx.
        * apply eqs_eq in Etx.
          pose proof (all_pairs_in _ _ _ _ _ T2 tb ta (proj2 (in_tables _ _) Hs') (proj2 (in_tables _ _) Hp) Eq) as X.
          cbv beta in X. rewrite Etx, String.eqb_refl in X. pose proof (same_objects_assoc _ _ X) as X'. intro k. specialize (X' k).
          rewrite !objects_entries in X'; try reflexivity.
          -- unfold entries in X'. cbn [flat_map stmt_entries] in X'. rewrite !app_nil_r in X'. exact X'.
          -- intros t [Hx|[]]. inversion Hx; subst. apply KA. exact Hp.
          -- intros t [Hx|[]]. inversion Hx; subst. apply KB. exact Hs'.
        * destruct (all_named (ct_constraints tb) && all_named (ct_constraints ta)); [|discriminate E].
          destruct (diff_tables d srt sdiff false tb ta) as [[|x r]| | |] eqn:Ed; try discriminate E.
          apply (table_honest d srt sdiff Hs tb ta); try assumption.
          -- exact (tidy_in d B _ R1 Hs').
          -- exact (tidy_in d A _ R2 Hp).
          -- apply KB. exact Hs'.
          -- apply KA. exact Hp.
          -- apply (nodup_flat_stmt d B (CreateTable tb) NB Hs').
          -- apply (nodup_flat_stmt d A (CreateTable ta) NA Hp).
          -- apply (all_pairs_in _ _ _ _ _ R3); [apply in_tables|apply in_tables|]; assumption.
          -- intro Hd. rewrite Hd in Eopt |- *. apply neqs_false. exact Eopt.
    - destruct (same_index_inv _ _ Eo) as [ia [Ep Eq]]. subst p. cbn [diff_stmt] in G. rewrite F in G. cbn [stmt_entries].
      destruct (neqs (create_index_diff d ib) (create_index_diff d ia)) eqn:E; [discriminate G|]. apply neqs_false in E.
      pose proof (all_pairs_in _ _ _ _ _ R4 ib ia (proj2 (in_indexes _ _) Hs') (proj2 (in_indexes _ _) Hp) Eq) as X. cbv beta in X.
      pose proof (told_eq _ _ _ _ _ _ X E) as X'. intro k. rewrite Eq, X'. reflexivity. }
  intro k. destruct (assoc_key k (entries d B)) as [v|] eqn:Eb.
  - rewrite (assoc_home d k B) in Eb. destruct (home d k B) as [s|] eqn:Hh; [|discriminate Eb]. destruct (home_some _ _ _ _ Hh) as [Hs' Dk].
    destruct (Partner s Hs') as [p [Hp [_ Ea]]]. rewrite (Ea k) in Eb. symmetry.
    rewrite (entry_value d A p k NA Hp); [exact Eb|]. apply declares_In. apply assoc_In in Eb. apply (in_map fst) in Eb. exact Eb.
  - destruct (assoc_key k (entries d A)) as [v|] eqn:Ea; [|reflexivity]. exfalso.
    pose proof Ea as Ea'. rewrite (assoc_home d k A) in Ea. destruct (home d k A) as [p|] eqn:Hh; [|discriminate Ea].
    destruct (home_some _ _ _ _ Hh) as [Hp Dk].
    destruct (only_left_nil _ _ H2 p Hp) as [s F]. destruct (find_stmt_some _ _ _ F) as [Hs' Eo]. destruct (Partner s Hs') as [p' [Hp' [Eo' Ek]]].
    assert (Ep : p' = p).
    { apply (same_unique d A s); try assumption; [apply (crB B CB); exact Hs'|rewrite same_object_sym; exact Eo]. }
    subst p'. rewrite <- (Ek k) in Ea. rewrite (entry_value d B s k NB Hs') in Eb; [congruence|].
    apply declares_In. apply assoc_In in Ea. apply (in_map fst) in Ea. exact Ea.
Qed.
