(** A difference of a schema that only gains objects only adds; of one that only loses
    objects only removes. *)
From Coq Require Import Lia.
From Verif Require Import GoStr Token Ast Parser Diff Db DbFacts AppendFacts DiffTable DiffPair DiffSound
  Tidy TidyFacts DiffSame Reconcile ReconcileFacts Honest DiffSpec Justified Frame Ordinary OrdinaryFacts Needed3 InPlace.

(** An object that is there before and not so after; one that is there after and was not so before *)
Definition left_behind (mb ma : db) : Prop := exists k, mb k <> None /\ mb k <> ma k.
Definition come_by (mb ma : db) : Prop := exists k, ma k <> None /\ mb k <> ma k.
Definition strays (mb ma : db) (s : stmt) : Prop :=
  (only_adds s = false -> left_behind mb ma) /\ (only_removes s = false -> come_by mb ma).

Lemma both : forall mb ma k s, mb k <> None -> ma k <> None -> mb k <> ma k -> strays mb ma s.
Proof. intros mb ma k s H1 H2 H3. split; intros _; exists k; split; assumption. Qed.
Lemma new_ : forall mb ma k s, only_adds s = true -> ma k <> None -> mb k <> ma k -> strays mb ma s.
Proof. intros mb ma k s H H1 H2. split; [rewrite H; discriminate|]. intros _. exists k. split; assumption. Qed.
Lemma old_ : forall mb ma k s, only_removes s = true -> mb k <> None -> mb k <> ma k -> strays mb ma s.
Proof. intros mb ma k s H H1 H2. split; [|rewrite H; discriminate]. intros _. exists k. split; assumption. Qed.

Lemma part_left : forall mb ma, part_of mb ma -> ~ left_behind mb ma.
Proof. intros mb ma W [k [H1 H2]]. destruct (mb k) as [v|] eqn:E; [|congruence]. apply H2. symmetry. exact (W k v E). Qed.
Lemma part_come : forall mb ma, part_of ma mb -> ~ come_by mb ma.
Proof. intros mb ma W [k [H1 H2]]. destruct (ma k) as [v|] eqn:E; [|congruence]. apply H2. exact (W k v E). Qed.

Section InPlace.
Variable d : dialect.
Variables B A : ddl.
Variables mb ma : db.
Hypothesis DB : describes d B mb.
Hypothesis DA : describes d A ma.
Hypothesis TB : tidy d B = true.
Hypothesis TA : tidy d A = true.
Hypothesis Style : same_style d B A = true.
Hypothesis Order : d = Sp -> same_option_order B A = true.

Lemma con_value_some : forall t c, con_value d t c <> None.
Proof. intros t c. rewrite con_value_cval. discriminate. Qed.

Lemma action_strays : forall cm n tb ta act, table_pair B A tb ta -> action_justified d tb ta act -> qname n = table_name ta ->
  strays mb ma (AlterTable cm n act) /\
  (forall k, sets_option (AlterTable cm n act) = Some k -> ma k <> None /\ mb k <> ma k).
Proof.
  intros cm nm tb ta act P J Q. pose proof P as [P1 [P2 P3]]. apply in_tables in P1. apply in_tables in P2. unfold table_name in *.
  pose proof (tidy_in _ _ _ TB P1) as Tb. pose proof (tidy_in _ _ _ TA P2) as Ta. cbn [tidy_stmt] in Tb, Ta.
  assert (Col : forall s n (Q : column -> column -> Prop), (forall b a, Q b a -> sem_col d b <> sem_col d a) -> column_change tb ta n Q -> strays mb ma s).
  { intros s n R HR [b [a [Hb [Ha [Eb [Ea HP]]]]]].
    assert (X : mb (KCol (qname (ct_name ta)) (id_name n)) = Some (VCol (sem_col d b))).
    { rewrite <- P3, (read_col d B mb DB tb _ P1). rewrite <- Eb, (find_column_unique d B mb tb b DB P1 Hb). reflexivity. }
    assert (Y : ma (KCol (qname (ct_name ta)) (id_name n)) = Some (VCol (sem_col d a))).
    { rewrite (read_col d A ma DA ta _ P2). rewrite <- Ea, (find_column_unique d A ma ta a DA P2 Ha). reflexivity. }
    apply (both mb ma (KCol (qname (ct_name ta)) (id_name n))); [congruence|congruence|]. rewrite X, Y. intro F. apply (HR b a HP). congruence. }
  assert (ColB : forall n, In n (col_names tb) -> mb (KCol (qname (ct_name ta)) n) <> None).
  { intros n Hn. rewrite <- P3, (read_col d B mb DB tb _ P1).
    destruct (find_column n (ct_columns tb)) eqn:F; [discriminate|]. apply find_column_memb in F. apply memb_false in F. contradiction. }
  assert (ColA : forall n, In n (col_names ta) -> ma (KCol (qname (ct_name ta)) n) <> None).
  { intros n Hn. rewrite (read_col d A ma DA ta _ P2).
    destruct (find_column n (ct_columns ta)) eqn:F; [discriminate|]. apply find_column_memb in F. apply memb_false in F. contradiction. }
  assert (ColB0 : forall n, ~ In n (col_names tb) -> mb (KCol (qname (ct_name ta)) n) = None).
  { intros n Hn. rewrite <- P3, (read_col d B mb DB tb _ P1).
    apply memb_false in Hn. apply find_column_memb in Hn. rewrite Hn. reflexivity. }
  assert (ColA0 : forall n, ~ In n (col_names ta) -> ma (KCol (qname (ct_name ta)) n) = None).
  { intros n Hn. rewrite (read_col d A ma DA ta _ P2).
    apply memb_false in Hn. apply find_column_memb in Hn. rewrite Hn. reflexivity. }
  destruct act; cbn [action_justified] in J; try contradiction J.
  all: try (split; [|intros k0 K0; discriminate K0]).
  - destruct J as [J1 J2]. assert (Y := ColA _ (in_map (fun c => id_name (c_name c)) _ _ J1)). cbv beta in Y.
    apply (new_ mb ma (KCol (qname (ct_name ta)) (id_name (c_name c)))); [reflexivity|exact Y|]. rewrite (ColB0 _ J2). congruence.
  - destruct J as [J1 J2]. apply (old_ mb ma (KCol (qname (ct_name ta)) (id_name name))); [reflexivity|exact (ColB _ J1)|]. rewrite (ColA0 _ J2). exact (ColB _ J1).
  - revert J. apply Col. intros b a [H _] F. apply H. unfold type_of. inversion F. congruence.
  - revert J. apply Col. intros b a [H _] F. apply H. inversion F. congruence.
  - revert J. apply Col. intros b a [H1 H2] F. inversion F. congruence.
  - revert J. apply Col. intros b a [H1 H2] F. inversion F. congruence.
  - revert J. apply Col. intros b a [H1 H2] F. inversion F. congruence.
  - destruct J as [J1 [J2 J3]].
    assert (Y : ma (KCon (qname (ct_name ta)) (con_label c)) = con_value d (ct_name ta) c).
    { rewrite (read_con d A ma ta (con_label c) DA TA P2). rewrite con_label_key. rewrite (con_find d ta c Ta J2), J1. reflexivity. }
    apply (new_ mb ma (KCon (qname (ct_name ta)) (con_label c))); [reflexivity|rewrite Y; apply con_value_some|]. rewrite Y.
    rewrite <- P3, (read_con d B mb tb (con_label c) DB TB P1). destruct J3 as [J3|[b [Hb [Hl Hv]]]].
    + apply memb_false in J3. apply find_constraint_memb in J3. rewrite J3. intro F. symmetry in F. revert F. apply con_value_some.
    + rewrite <- Hl. rewrite (con_label_key b). rewrite (con_find d tb b Tb Hb). destruct (is_inner_index b); [|exact Hv]. intro F. symmetry in F. revert F. apply con_value_some.
  - destruct J as [b [J0 [J1 [J2 J3]]]].
    assert (X : mb (KCon (qname (ct_name ta)) (con_label b)) = con_value d (ct_name tb) b).
    { rewrite <- P3, (read_con d B mb tb (con_label b) DB TB P1). rewrite con_label_key. rewrite (con_find d tb b Tb J2), J1. reflexivity. }
    apply (old_ mb ma (KCon (qname (ct_name ta)) (con_label b))); [reflexivity|rewrite X; apply con_value_some|]. rewrite X.
    rewrite (read_con d A ma ta (con_label b) DA TA P2). destruct J3 as [J3|[a [Ha [Hl Hv]]]].
    + apply memb_false in J3. apply find_constraint_memb in J3. rewrite J3. apply con_value_some.
    + rewrite Hl. rewrite (con_label_key a). rewrite (con_find d ta a Ta Ha). destruct (is_inner_index a); [apply con_value_some|exact Hv].
  - revert J. apply Col. intros b a [H1 H2] F. contradiction.
  - destruct J as [x [J1 [J2 [J3 [J4 J5]]]]].
    pose proof (read_named d A ma DA ta P2) as Na. pose proof (read_named d B mb DB tb P1) as Nb.
    pose proof (nodup_flat_stmt d A (CreateTable ta) (read_nodup d A ma DA) P2) as Ua.
    pose proof (nodup_flat_stmt d B (CreateTable tb) (read_nodup d B mb DB) P1) as Ub.
    assert (Va : ma (KOpt (qname (ct_name ta)) name) = Some (VOpt (etoks (o_value x)))).
    { rewrite (read_opt d A ma DA ta _ P2). rewrite <- J2. exact (opt_entry d ta x Ua J1 (fun _ => J4)). }
    assert (W : ma (KOpt (qname (ct_name ta)) name) <> None /\ mb (KOpt (qname (ct_name ta)) name) <> ma (KOpt (qname (ct_name ta)) name)).
    { split; [congruence|]. rewrite Va. rewrite <- P3, (read_opt d B mb DB tb _ P1).
      destruct J5 as [J5|[b [Hb [Eb Vb]]]].
      + rewrite (assoc_table_opt d tb); [|exact Nb]. destruct (find _ (ct_options tb)) as [y|] eqn:F; [|discriminate]. exfalso. apply J5.
        apply find_some in F. destruct F as [F1 F2]. apply andb_true_iff in F2. destruct F2 as [F2 _]. apply String.eqb_eq in F2. rewrite <- F2. apply in_map. exact F1.
      + assert (Vb' : assoc_key (KOpt (qname (ct_name tb)) name) (table_entries d tb) = Some (VOpt (etoks (o_value b)))).
        { rewrite <- Eb. apply (opt_entry d tb b Ub Hb). intros _. unfold counter_option in *. congruence. }
        rewrite Vb'. intro F. apply Vb. inversion F. congruence. }
    split; [apply (new_ mb ma (KOpt (qname (ct_name ta)) name)); [reflexivity|apply W|apply W]|].
    intros k K. cbn [sets_option] in K. rewrite Q in K. inversion K. exact W.
  - revert J. apply Col. intros b a [[H|H] _] F.
    + apply H. unfold type_of. inversion F. congruence.
    + apply H. inversion F. congruence.
  - revert J. apply Col. intros b a [H1 [H2 _]] F. apply H2. pose proof (f_equal sc_options F) as G. cbn in G. rewrite H1 in G. exact G.
  - revert J. apply Col. intros b a [H1 [H2 H3]] F. pose proof (f_equal sc_options F) as G. cbn in G. rewrite H1, H3 in G.
    destruct (c_options b); [discriminate G|congruence].
  - destruct J as [J1 J2].
    assert (X := read_row d B mb DB tb P1). assert (Y := read_row d A ma DA ta P2). rewrite P3, J1 in X. rewrite J2 in Y. cbn [option_map] in X, Y.
    apply (new_ mb ma (KRow (qname (ct_name ta)))); [reflexivity|congruence|congruence].
  - destruct J as [b [J1 [J2 J3]]].
    assert (X := read_row d B mb DB tb P1). assert (Y := read_row d A ma DA ta P2). rewrite P3, J1 in X. rewrite J2 in Y. cbn [option_map] in X, Y.
    apply (both mb ma (KRow (qname (ct_name ta)))); [congruence|congruence|]. rewrite X, Y. intro F. apply J3. inversion F. reflexivity.
  - destruct J as [J1 J2].
    assert (X := read_row d B mb DB tb P1). assert (Y := read_row d A ma DA ta P2). rewrite P3 in X. rewrite J2 in Y. cbn [option_map] in Y.
    assert (Z : mb (KRow (qname (ct_name ta))) <> None) by (rewrite X; destruct (ct_rowdel tb); [discriminate|congruence]).
    apply (old_ mb ma (KRow (qname (ct_name ta)))); [reflexivity|exact Z|]. rewrite Y. exact Z.
Qed.

Lemma recreated_strays : forall t s, recreated d B A t -> strays mb ma s.
Proof.
  intros t s [Sp_ [tb [ta [[P1 [P2 P3]] [E O]]]]]. apply in_tables in P1. apply in_tables in P2. unfold table_name in *. subst t.
  assert (N : map o_name (ct_options tb) = map o_name (ct_options ta)).
  { specialize (Order Sp_). unfold same_option_order in Order. rewrite forallb_forall in Order. specialize (Order _ P1). cbv beta iota in Order.
    rewrite forallb_forall in Order. specialize (Order _ P2). cbv beta iota in Order. rewrite P3, String.eqb_refl in Order. apply eq_strings_eq. exact Order. }
  destruct (options_change tb ta N O) as [b [a [Hb [Ha [E V]]]]].
  pose proof (nodup_flat_stmt d A (CreateTable ta) (read_nodup d A ma DA) P2) as Ua.
  pose proof (nodup_flat_stmt d B (CreateTable tb) (read_nodup d B mb DB) P1) as Ub.
  assert (X : mb (KOpt (qname (ct_name tb)) (o_name b)) = Some (VOpt (etoks (o_value b)))).
  { rewrite (read_opt d B mb DB tb _ P1). apply (opt_entry d tb b Ub Hb). intro F; rewrite Sp_ in F; discriminate F. }
  assert (Y : ma (KOpt (qname (ct_name tb)) (o_name b)) = Some (VOpt (etoks (o_value a)))).
  { rewrite P3, E. rewrite (read_opt d A ma DA ta _ P2). apply (opt_entry d ta a Ua Ha). intro F; rewrite Sp_ in F; discriminate F. }
  apply (both mb ma (KOpt (qname (ct_name tb)) (o_name b))); [congruence|congruence|]. rewrite X, Y. intro F. apply V. congruence.
Qed.

Lemma justified_strays : forall s, stmt_justified d B A s ->
  strays mb ma s /\ (forall k, sets_option s = Some k -> ma k <> None /\ mb k <> ma k).
Proof.
  pose proof Style as Sty. unfold same_style in Sty. apply andb_true_iff in Sty. destruct Sty as [Sty1 Sty2].
  intros s J. pose proof (justified_changes d B A mb ma DB DA TB TA Style Order s J) as C.
  destruct s as [t|i|cm ie n|cm ie n|cm n act]; cbn [stmt_justified subject_changes] in *.
  5: { destruct J as [tb [ta [P [E J]]]]. exact (action_strays cm n tb ta act P J E). }
  all: split; [|intros k K; discriminate K].
  - destruct J as [J1 [J2|J2]]; [|apply (recreated_strays _ _ J2)].
    assert (Y := present_table d A ma _ DA (in_map table_name _ _ J1)). assert (X := missing_table d B mb _ DB J2).
    apply (new_ mb ma (KTab (table_name t))); [reflexivity|congruence|congruence].
  - apply (new_ mb ma (KIdx (qname (cx_name i)))); [reflexivity| |exact C].
    destruct J as [[J1 _]|[tb [ta [c [P [[C1 C2] [C3 C4]]]]]]].
    + apply in_indexes in J1. rewrite (read_index d A ma DA i J1). discriminate.
    + destruct P as [P1 [P2 P3]]. apply in_tables in P2. destruct (read_inner d A ma DA ta c _ P2 C1 C3) as [_ [_ V]]. rewrite V. apply con_value_some.
  - destruct J as [J1 [J2|J2]]; [|apply (recreated_strays _ _ J2)].
    assert (Y := missing_table d A ma _ DA J2). assert (X := present_table d B mb _ DB J1).
    apply (old_ mb ma (KTab (qname n))); [reflexivity|congruence|congruence].
  - apply (old_ mb ma (KIdx (qname n))); [reflexivity| |exact C].
    destruct J as [[J1 _]|[tb [ta [c [P [[C1 C2] C3]]]]]].
    + apply in_map_iff in J1. destruct J1 as [x [J0 J1]]. apply in_indexes in J1. rewrite <- J0, (read_index d B mb DB x J1). discriminate.
    + destruct P as [P1 [P2 P3]]. apply in_tables in P1. destruct (read_inner d B mb DB tb c _ P1 C1 C3) as [_ [_ V]]. rewrite V. apply con_value_some.
Qed.

(** An index inside a table has a name. *)
Lemma inner_some : forall t c, tidy_table d t = true -> In c (ct_constraints t) -> is_inner_index c = true -> exists n, inner_name d t c = Some n.
Proof.
  intros t c T Hc Hi. pose proof (ti_con _ _ (tidy_table_spec _ _ T) c Hc) as H. unfold tidy_con in H. apply andb_true_iff in H. destruct H as [H _].
  destruct c; try discriminate Hi. destruct name as [i|]; [|discriminate H]. eexists. reflexivity.
Qed.

(** A constraint that turned into an index, or vice versa: one goes, the other comes. *)
Lemma turned : forall tb ta b a, table_pair B A tb ta -> In b (ct_constraints tb) -> In a (ct_constraints ta) ->
  con_label b = con_label a -> is_inner_index b <> is_inner_index a -> left_behind mb ma /\ come_by mb ma.
Proof.
  pose proof Style as Sty. unfold same_style in Sty. apply andb_true_iff in Sty. destruct Sty as [Sty1 Sty2].
  intros tb ta b a [P1 [P2 P3]] Hb Ha El N. apply in_tables in P1. apply in_tables in P2. unfold table_name in *.
  pose proof (tidy_in _ _ _ TB P1) as Tb. pose proof (tidy_in _ _ _ TA P2) as Ta. cbn [tidy_stmt] in Tb, Ta.
  assert (X : mb (KCon (qname (ct_name ta)) (con_label b)) = if is_inner_index b then None else con_value d (ct_name tb) b).
  { rewrite <- P3, (read_con d B mb tb _ DB TB P1), con_label_key, (con_find d tb b Tb Hb). reflexivity. }
  assert (Y : ma (KCon (qname (ct_name ta)) (con_label b)) = if is_inner_index a then None else con_value d (ct_name ta) a).
  { rewrite (read_con d A ma ta _ DA TA P2), El, con_label_key, (con_find d ta a Ta Ha). reflexivity. }
  destruct (is_inner_index b) eqn:Ib; destruct (is_inner_index a) eqn:Ia; try (exfalso; apply N; reflexivity).
  - split.
    + destruct (inner_some tb b Tb Hb Ib) as [n Hn]. destruct (read_inner d B mb DB tb b n P1 Hb Hn) as [_ [_ V]].
      exists (KIdx n). split; [rewrite V; apply con_value_some|]. intro F.
      destruct (inner_partner d B A mb ma DB DA TB TA Style Order B A mb ma tb ta b n DB DA TB TA Sty1 P1 P2 P3 Hb Hn F) as [c' [D1 [D2 D3]]].
      assert (a = c') by (apply (label_unique d A ta); try assumption; congruence). subst c'.
      destruct b; try discriminate Ib. destruct a; try discriminate Ia; cbn in D3; discriminate D3.
    + exists (KCon (qname (ct_name ta)) (con_label b)). rewrite X, Y. split; [apply con_value_some|]. intro F. symmetry in F. revert F. apply con_value_some.
  - split.
    + exists (KCon (qname (ct_name ta)) (con_label b)). rewrite X, Y. split; apply con_value_some.
    + destruct (inner_some ta a Ta Ha Ia) as [n Hn]. destruct (read_inner d A ma DA ta a n P2 Ha Hn) as [_ [_ V]].
      exists (KIdx n). split; [rewrite V; apply con_value_some|]. intro F.
      destruct (inner_partner d B A mb ma DB DA TB TA Style Order A B ma mb ta tb a n DA DB TA TB (disjoint_sym _ _ Sty2) P2 P1 (eq_sym P3) Ha Hn (eq_sym F)) as [c' [D1 [D2 D3]]].
      assert (b = c') by (apply (label_unique d B tb); try assumption; congruence). subst c'.
      destruct a; try discriminate Ia. destruct b; try discriminate Ib; cbn in D3; discriminate D3.
Qed.

Lemma swapped_strays : forall tb ta s, table_pair B A tb ta -> swapped d tb ta (ct_name ta) s ->
  strays mb ma s /\ (forall k, sets_option s = Some k -> ma k <> None /\ mb k <> ma k).
Proof.
  intros tb ta s P [b [a [Hb [Ha [El [N J]]]]]]. destruct (turned tb ta b a P Hb Ha El N) as [L C]. split; [split; intros _; assumption|].
  intros k K. destruct s as [t|i|cm ie n|cm ie n|cm n act]; try contradiction J; try discriminate K. destruct act; try contradiction J. discriminate K.
Qed.

Lemma loose_strays : forall srt sdiff stmts s, srt_ok srt -> diff d srt sdiff (Some B) (Some A) = DOk stmts -> In s stmts ->
  strays mb ma s /\ (forall k, sets_option s = Some k -> ma k <> None /\ mb k <> ma k).
Proof.
  intros srt sdiff stmts s Hs E I. destruct (diff_loose d srt sdiff B A stmts s Hs TB TA E I) as [J|[tb [ta [P W]]]].
  - exact (justified_strays s J).
  - exact (swapped_strays tb ta s P W).
Qed.

(** * Growing *)
Section Grow.
Hypothesis W : part_of mb ma.
Lemma no_left : ~ left_behind mb ma.
Proof. exact (part_left mb ma W). Qed.

Lemma grow_adds : forall s, strays mb ma s -> only_adds s = true.
Proof. intros s [L _]. destruct (only_adds s) eqn:E; [reflexivity|]. exfalso. exact (no_left (L eq_refl)). Qed.

Lemma grow_pair : forall tb, In tb (tables B) -> exists ta, In ta (tables A) /\ table_name ta = table_name tb.
Proof.
  intros tb H. apply in_tables in H. pose proof (W _ _ (read_table d B mb DB tb H)) as X.
  destruct (in_dec String.string_dec (table_name tb) (map table_name (tables A))) as [I|N].
  - apply in_map_iff in I. destruct I as [ta [I1 I2]]. exists ta. split; assumption.
  - exfalso. pose proof (missing_table d A ma (table_name tb) DA N) as Y. unfold table_name in Y. congruence.
Qed.

Section Pair.
Variables tb ta : create_table.
Hypothesis P : table_pair B A tb ta.
Let P1 : In (CreateTable tb) B := proj1 (in_tables _ _) (proj1 P).
Let P2 : In (CreateTable ta) A := proj1 (in_tables _ _) (proj1 (proj2 P)).
Let P3 : qname (ct_name tb) = qname (ct_name ta) := proj2 (proj2 P).
Let Tb : tidy_table d tb = true := tidy_in _ _ _ TB P1.
Let Ta : tidy_table d ta = true := tidy_in _ _ _ TA P2.

Lemma grow_column : forall b a, In b (ct_columns tb) -> In a (ct_columns ta) -> id_name (c_name b) = id_name (c_name a) -> sem_col d b = sem_col d a.
Proof.
  intros b a Hb Ha E. pose proof (read_col d B mb DB tb (id_name (c_name b)) P1) as X. rewrite (find_column_unique d B mb tb b DB P1 Hb) in X. cbn [option_map] in X.
  apply W in X. rewrite P3, E, (read_col d A ma DA ta _ P2), (find_column_unique d A ma ta a DA P2 Ha) in X. cbn [option_map] in X. congruence.
Qed.
Lemma grow_gone : gone_columns tb ta = [].
Proof.
  unfold gone_columns. assert (H : forall n, In n (col_names tb) -> memb n (col_names ta) = true).
  { intros n Hn. apply in_map_iff in Hn. destruct Hn as [b [E Hb]]. subst n.
    pose proof (read_col d B mb DB tb (id_name (c_name b)) P1) as X. rewrite (find_column_unique d B mb tb b DB P1 Hb) in X. cbn [option_map] in X.
    apply W in X. rewrite P3, (read_col d A ma DA ta _ P2) in X. destruct (memb (id_name (c_name b)) (col_names ta)) eqn:M; [reflexivity|].
    apply find_column_memb in M. rewrite M in X. discriminate X. }
  induction (col_names tb) as [|n r IH]; [reflexivity|]. cbn [filter]. rewrite (H n (or_introl eq_refl)). apply IH. intros x Hx. apply H. right. exact Hx.
Qed.
Lemma grow_inner : forall b, In b (ct_constraints tb) -> is_inner_index b = true ->
  exists a, In a (ct_constraints ta) /\ con_label a = con_label b /\ con_value d (ct_name ta) a = con_value d (ct_name tb) b.
Proof.
  pose proof Style as Sty. unfold same_style in Sty. apply andb_true_iff in Sty. destruct Sty as [Sty1 Sty2].
  intros b Hb Ib. destruct (inner_some tb b Tb Hb Ib) as [n Hn]. destruct (read_inner d B mb DB tb b n P1 Hb Hn) as [_ [_ V]].
  apply (inner_partner d B A mb ma DB DA TB TA Style Order B A mb ma tb ta b n DB DA TB TA Sty1 P1 P2 P3 Hb Hn). rewrite V. rewrite con_value_cval in V. rewrite (W _ _ V). apply con_value_cval.
Qed.
Lemma grow_same_options : d = Sp -> same_options (ct_options tb) (ct_options ta) = true.
Proof.
  intro D_. unfold same_options. apply same_intro.
  destruct (list_eq_dec (pair_dec string_eq_dec toks_dec) (map (fun o => (o_name o, etoks (o_value o))) (ct_options tb)) (map (fun o => (o_name o, etoks (o_value o))) (ct_options ta))) as [E|N]; [exact E|].
  exfalso. apply no_left.
  assert (R : recreated d B A (table_name tb)) by (split; [exact D_|]; exists tb, ta; split; [exact P|]; split; [reflexivity|exact N]).
  destruct (recreated_strays _ (DropTable ""%string false (ct_name tb)) R) as [L _]. exact (L eq_refl).
Qed.

Lemma grow_safe_table : safe_table d tb ta = true.
Proof.
  unfold safe_table. rewrite grow_gone. rewrite !andb_true_iff. cbn [forallb]. repeat split.
  - apply all_pairs_intro. intros b a Hb Ha E. pose proof (grow_column b a Hb Ha E) as S1. unfold safe_column. destruct d; try reflexivity.
    pose proof (f_equal sc_hidden S1) as S2. pose proof (f_equal sc_as S1) as S3. cbn in S2, S3. rewrite S2, S3, Bool.eqb_reflx. apply same_intro. reflexivity.
  - apply forallb_forall. intros b Hb. apply orb_true_iff. left. destruct (memb (id_name (c_name b)) (col_names ta)) eqn:M; [reflexivity|].
    assert (G : In (id_name (c_name b)) (gone_columns tb ta)).
    { unfold gone_columns. apply filter_In. split; [|rewrite M; reflexivity]. apply (in_map (fun c => id_name (c_name c))). exact Hb. }
    rewrite grow_gone in G. destruct G.
  - apply all_pairs_intro. intros b a Hb Ha E. unfold safe_constraint.
    assert (K : is_inner_index b = is_inner_index a).
    { destruct (Bool.bool_dec (is_inner_index b) (is_inner_index a)) as [K|K]; [exact K|]. exfalso. apply no_left. exact (proj1 (turned tb ta b a P Hb Ha E K)). }
    rewrite <- K, Bool.eqb_reflx. cbn [andb].
    assert (G : negb (is_inner_index b) || same (option_dec value_dec) (con_value d (ct_name tb) b) (con_value d (ct_name ta) a) = true).
    { destruct (is_inner_index b) eqn:Ib; [|reflexivity]. cbn [negb orb]. apply same_intro. destruct (grow_inner b Hb Ib) as [c [C1 [C2 C3]]].
      assert (c = a) by (apply (label_unique d A ta); try assumption; congruence). subst c. congruence. }
    clear - G. destruct d; try reflexivity. exact G.
  - assert (G : forallb (fun b => negb (is_inner_index b) || memb (con_label b) (con_labels ta)) (ct_constraints tb) = true).
    { apply forallb_forall. intros b Hb. destruct (is_inner_index b) eqn:Ib; [|reflexivity]. cbn [negb orb].
      destruct (grow_inner b Hb Ib) as [c [C1 [C2 _]]]. destruct (memb (con_label b) (con_labels ta)) eqn:M; [reflexivity|]. apply memb_false in M.
      exfalso. apply M. rewrite <- C2. unfold con_labels. apply in_map. exact C1. }
    clear - G. destruct d; try reflexivity. exact G.
  - unfold safe_options. assert (G : forallb (fun o => counter_option o || memb (o_name o) (map o_name (ct_options ta))) (ct_options tb) = true); [|clear - G; destruct d; try reflexivity; exact G].
    apply forallb_forall. intros o Ho. destruct (counter_option o) eqn:Co; [reflexivity|]. cbn [orb].
    destruct (memb (o_name o) (map o_name (ct_options ta))) eqn:M; [reflexivity|]. apply memb_false in M. exfalso. apply M.
    pose proof (nodup_flat_stmt _ B (CreateTable tb) (read_nodup _ B mb DB) P1) as Ub.
    pose proof (read_opt _ B mb DB tb (o_name o) P1) as X. rewrite (opt_entry _ tb o Ub Ho (fun _ => Co)) in X. apply W in X.
    rewrite P3, (read_opt _ A ma DA ta _ P2), (assoc_table_opt _ ta) in X; [|exact (read_named _ A ma DA ta P2)].
    destruct (find _ (ct_options ta)) as [y|] eqn:F; [|discriminate X].
    apply find_some in F. destruct F as [F1 F2]. apply andb_true_iff in F2. destruct F2 as [F2 _]. apply String.eqb_eq in F2. rewrite <- F2. apply in_map. exact F1.
Qed.
End Pair.

Lemma grow_safe : safe_change d B A = true.
Proof.
  pose proof Style as Sty. unfold same_style in Sty. apply andb_true_iff in Sty. destruct Sty as [Sty1 Sty2].
  unfold safe_change. rewrite Style. rewrite !andb_true_iff. repeat split.
  - unfold inner_stay. apply forallb_forall. intros tb Hb. apply forallb_forall. intros ta Ha.
    destruct (String.eqb (table_name tb) (table_name ta)) eqn:E; [reflexivity|]. cbn [orb]. apply String.eqb_neq in E.
    unfold disjoint. apply forallb_forall. intros n Hn. destruct (memb n (inner_indexes d [CreateTable ta])) eqn:M; [|reflexivity]. exfalso. apply E.
    apply memb_In in M. unfold inner_indexes in Hn, M. cbn [flat_map] in Hn, M. rewrite app_nil_r in Hn, M. apply in_flat_map in Hn. apply in_flat_map in M.
    destruct Hn as [b [Hcb Nb]]. destruct M as [a [Hca Na]]. apply in_tables in Hb. apply in_tables in Ha.
    assert (Ib : inner_name d tb b = Some n).
    { unfold inner_name. unfold inner_index in *. destruct b; try destruct Nb. destruct name; [|destruct Nb]. destruct Nb as [Nb|[]]. rewrite Nb. reflexivity. }
    assert (Ia : inner_name d ta a = Some n).
    { unfold inner_name. unfold inner_index in *. destruct a; try destruct Na. destruct name; [|destruct Na]. destruct Na as [Na|[]]. rewrite Na. reflexivity. }
    destruct (read_inner d B mb DB tb b n Hb Hcb Ib) as [X1 [_ X2]]. destruct (read_inner d A ma DA ta a n Ha Hca Ia) as [Y1 [_ Y2]].
    destruct b; try discriminate X1. destruct a; try discriminate Y1. cbn [con_value] in X2, Y2. apply W in X2. rewrite X2 in Y2. unfold sem_intable in Y2. inversion Y2. unfold table_name. congruence.
  - apply all_pairs_intro. intros tb ta Hb Ha E. apply grow_safe_table. split; [exact Hb|]. split; [exact Ha|exact E].
  - apply all_pairs_intro. intros b a Hb Ha E. apply in_indexes in Hb. apply in_indexes in Ha.
    pose proof (W _ _ (read_index d B mb DB b Hb)) as X. rewrite E, (read_index d A ma DA a Ha) in X.
    assert (K : sem_index d b = sem_index d a) by congruence. unfold safe_index. pose proof (same_index_noticed d b a K) as N. clear - N K. destruct d; try exact N. apply same_intro. exact K.
  - assert (G : forallb (fun i => memb (qname (cx_name i)) (index_names A)) (indexes B) = true); [|clear - G; destruct d; try reflexivity; exact G].
    apply forallb_forall. intros i Hi. apply in_indexes in Hi. pose proof (W _ _ (read_index _ B mb DB i Hi)) as X.
    destruct (memb (qname (cx_name i)) (index_names A)) eqn:M; [reflexivity|]. apply memb_false in M. exfalso.
    destruct (read_idx _ A ma DA _ _ X) as [[y [I1 [I2 I3]]]|[t' [c' [I1 [I2 [I3 I4]]]]]].
    + apply M. rewrite <- I2. unfold index_names. apply (in_map (fun i => qname (cx_name i))). apply in_indexes. exact I1.
    + apply (disjoint_spec _ _ Sty2 (qname (cx_name i))); [apply outer_in; exact Hi|apply (in_inner _ A t' c'); assumption].
  - unfold safe_wipe. apply forallb_forall. intros i _. apply forallb_forall. intros tb Hb. apply orb_true_iff. right.
    destruct (grow_pair tb Hb) as [ta [Ha E]]. apply existsb_exists. exists ta. split; [exact Ha|]. rewrite E, String.eqb_refl. cbn [andb].
    pose proof (grow_same_options tb ta (conj Hb (conj Ha (eq_sym E)))) as G. clear - G. destruct d; try reflexivity. exact (G eq_refl).
  - unfold dropped_unused. apply all_pairs_intro. intros tb ta Hb Ha E. rewrite (grow_gone tb ta (conj Hb (conj Ha E))). reflexivity.
Qed.
End Grow.
End InPlace.

(** * Growing, with dependencies *)
From Verif Require Import Token Ast Diff DbDep DepFacts.
Section GrowDep.
Variable d : dialect.
Variables B A : ddl.
Variables mb ma : db.
Hypothesis DB : describes d B mb.
Hypothesis DA : describes d A ma.
Hypothesis TB : tidy d B = true.
Hypothesis TA : tidy d A = true.
Hypothesis Style : same_style d B A = true.
Hypothesis Order : d = Sp -> same_option_order B A = true.
Hypothesis W : part_of mb ma.
Hypothesis G : grows_in_order d B A = true.

Lemma grow_stay : forall s, In s B -> exists p, partner s A = Some p /\ In p A.
Proof.
  intros s Hs. unfold grows_in_order in G. rewrite !andb_true_iff in G. destruct G as [_ G3]. rewrite forallb_forall in G3. specialize (G3 s Hs).
  destruct (partner s A) as [p|] eqn:E; [|discriminate G3]. exists p. split; [reflexivity|]. unfold partner in E. apply find_some in E. apply E.
Qed.
Lemma grow_filter : filter (stays A) B = B.
Proof.
  assert (H : forall s, In s B -> stays A s = true) by (intros s Hs; destruct (grow_stay s Hs) as [p [E _]]; unfold stays; rewrite E; reflexivity).
  clear - H. induction B as [|s r IH]; [reflexivity|]. cbn [filter]. rewrite (H s (or_introl eq_refl)). f_equal. apply IH. intros x Hx. apply H. right. exact Hx.
Qed.
Lemma keys_read : forall l m k, describes d l m -> In k (keys d l) <-> m k <> None.
Proof.
  intros l m k D. unfold keys. rewrite (objects_entries d l (read_create d l m D) (read_named d l m D)). rewrite (read_assoc d l m D).
  destruct (assoc_key k (entries d l)) as [v|] eqn:E.
  - split; [discriminate|]. intros _. apply assoc_In in E. apply (in_map fst) in E. exact E.
  - apply assoc_None in E. split; [contradiction|congruence].
Qed.
Lemma keys_grow : forall k, In k (keys d B) -> In k (keys d A).
Proof.
  intros k H. apply (keys_read B mb k DB) in H. apply (keys_read A ma k DA). destruct (mb k) as [v|] eqn:E; [|congruence]. rewrite (W k v E). discriminate.
Qed.
Lemma con_added : forall t c k v, In (Add k v) (add_con_ops d t c) -> refers v <> [] -> exists x, k = KCon (qname t) x.
Proof.
  intros t c k v H R. unfold add_con_ops in H. destruct c as [n ?|n ? ? ? ?|n ?|n ? ? ? ?|n ?]; cbn in H; destruct n; cbn in H.
  all: destruct H as [H|[]]; inversion H; subst k v; try (eexists; reflexivity). exfalso. apply R. reflexivity.
Qed.
Lemma object_refers : forall s e, is_create s = true -> In e (objects d [s]) -> refers (snd e) <> [] -> exists t x, fst e = KCon t x.
Proof.
  intros s [k v] C H R. cbn [fst snd] in *. unfold objects in H. cbn [flat_map] in H. rewrite app_nil_r in H. apply in_flat_map in H. destruct H as [o [Ho H]].
  destruct s as [t|i| | |]; try discriminate C; cbn [stmt_ops] in Ho.
  - unfold create_table_ops in Ho. cbn [In] in Ho. destruct Ho as [Ho|Ho]; [subst o; destruct H as [H|[]]; inversion H; subst v; exfalso; apply R; reflexivity|].
    assert (A1 : o = Add k v) by (destruct o; cbn in H; try contradiction; destruct H as [H|[]]; inversion H; subst; try reflexivity; exfalso; apply R; reflexivity). subst o.
    apply in_app_or in Ho. destruct Ho as [Ho|Ho]; [apply in_flat_map in Ho; destruct Ho as [c [_ Ho]]; destruct Ho as [Ho|[]]; inversion Ho; subst v; exfalso; apply R; reflexivity|].
    apply in_app_or in Ho. destruct Ho as [Ho|Ho].
    { apply in_flat_map in Ho. destruct Ho as [c [_ Ho]]. destruct (con_added _ c k v Ho R) as [x X]. exists (qname (ct_name t)), x. exact X. }
    exfalso. apply R. apply in_app_or in Ho. destruct Ho as [Ho|Ho].
    + apply in_flat_map in Ho. destruct Ho as [x [_ Ho]]. unfold add_opt_ops in Ho. destruct d; try destruct (counter_option x); cbn in Ho; repeat match goal with H : _ \/ _ |- _ => destruct H end; try contradiction; match goal with Z : Add _ _ = Add k v |- _ => inversion Z; reflexivity end.
    + unfold add_row_ops in Ho. destruct (ct_rowdel t); cbn in Ho; [|contradiction]. destruct Ho as [Ho|[]]. inversion Ho. reflexivity.
  - destruct Ho as [Ho|[]]. subst o. destruct H as [H|[]]. inversion H. subst v. exfalso. apply R. reflexivity.
Qed.
Lemma objects_in : forall l s e, In s l -> In e (objects d [s]) -> In e (objects d l).
Proof.
  intros l s e Hs H. unfold objects in *. cbn [flat_map] in H. rewrite app_nil_r in H. apply in_flat_map in H. destruct H as [o [Ho H]].
  apply in_flat_map. exists o. split; [|exact H]. apply in_flat_map. exists s. split; assumption.
Qed.
Lemma referred_key : forall s k, In s B -> In k (referred d [s]) -> In k (keys d B).
Proof.
  intros s k Hs H. unfold referred in H. apply in_flat_map in H. destruct H as [e [He H]].
  assert (C : is_create s = true) by (pose proof (read_create d B mb DB) as C; rewrite forallb_forall in C; apply C; exact Hs).
  destruct (object_refers s e C He) as [t [x E]]; [intro F; rewrite F in H; destruct H|].
  pose proof G as G0. unfold grows_in_order in G0. rewrite !andb_true_iff in G0. destruct G0 as [[[G1 _] _] _]. unfold closed in G1. apply (proj1 (within_In _ _) G1).
  unfold needed. apply in_flat_map. exists e. split; [exact (objects_in B s e Hs He)|]. rewrite E. apply refers_needs. exact H.
Qed.

Lemma grow_changed : forall l known, (forall s, In s l -> In s B) -> (forall k, In k (keys d B ++ keys d (fresh B A))%list -> In k known) ->
  changed_in_order d A known l = true.
Proof.
  induction l as [|s r IH]; intros known Hl Hk; [reflexivity|]. cbn [changed_in_order]. pose proof (Hl s (or_introl eq_refl)) as Hs.
  pose proof G as G0. unfold grows_in_order in G0. rewrite !andb_true_iff in G0. destruct G0 as [_ G3]. rewrite forallb_forall in G3. specialize (G3 s Hs).
  destruct (partner s A) as [p|] eqn:E; [|discriminate G3]. rewrite !andb_true_iff. repeat split.
  - apply within_In. intros k K. apply (proj1 (within_In _ _) G3) in K. rewrite app_assoc in K. apply in_app_or in K. apply in_or_app. destruct K as [K|K]; [left; apply Hk; exact K|right; exact K].
  - unfold partner in E. apply find_some in E. destruct E as [Hp E]. destruct s as [tb| | | |]; try reflexivity. destruct p as [ta| | | |]; try reflexivity.
    cbn [columns_unreferred]. cbn [same_thing] in E. apply String.eqb_eq in E. apply in_tables in Hs. apply in_tables in Hp.
    rewrite (grow_gone d B A mb ma DB DA W tb ta (conj Hs (conj Hp E))). reflexivity.
  - unfold partner in E. apply find_some in E. destruct E as [Hp E]. destruct s as [tb| | | |]; try (destruct d; reflexivity). destruct p as [ta| | | |]; try (destruct d; reflexivity).
    cbn [same_thing] in E. apply String.eqb_eq in E. pose proof (tidy_in _ _ _ TB Hs) as T1. pose proof (tidy_in _ _ _ TA Hp) as T2. cbn [tidy_stmt] in T1, T2.
    unfold tidy_table in T1, T2. rewrite !andb_true_iff in T1, T2. destruct T1 as [[_ T1] _]. destruct T2 as [[_ T2] _].
    apply in_tables in Hs. apply in_tables in Hp.
    pose proof (grow_same_options d B A mb ma DB DA Order W tb ta (conj Hs (conj Hp E))) as O. clear - O T1 T2. unfold not_recreated. destruct d; try reflexivity.
    apply String.eqb_eq. apply same_options_text; [exact T1|exact T2|exact (O eq_refl)].
  - apply IH; [intros x Hx; apply Hl; right; exact Hx|]. intros k K. apply in_or_app. left. apply Hk. exact K.
Qed.

Lemma grow_in_order : in_order d B A = true.
Proof.
  pose proof G as G0. unfold grows_in_order in G0. rewrite !andb_true_iff in G0. destruct G0 as [[[G1 G2] G3] _].
  unfold in_order. rewrite G1, G2, grow_filter, G3. rewrite (grow_changed B); [|intros s Hs; exact Hs|intros k K; exact K]. rewrite !andb_true_r. cbn [andb].
  unfold gone_unreferred. apply forallb_forall. intros s Hs. apply orb_true_iff. right. apply forallb_forall. intros k K. destruct k; try reflexivity.
  apply mem_key_In. apply keys_grow. exact (referred_key s _ Hs K).
Qed.
End GrowDep.

(** * Carrying such statements out *)
Definition keeps (mb : db) (o : op) : Prop :=
  match o with
  | Has _ | Add _ _ | Fresh _ | Fail => True
  | Put k _ => mb k = None
  | _ => False
  end.
Lemma keeps_op : forall mb o m, (forall t k, mb (KTab t) = None -> owner k = Some t -> mb k = None) -> keeps mb o -> part_of mb m -> op_ok o m = true -> part_of mb (op_db o m).
Proof.
  intros mb o m C K W O k v E. destruct o as [k0|k0 v0|k0 f|k0|k0 v0|t|t|t c|]; cbn [keeps op_ok op_db] in *; try contradiction K; try (exact (W k v E)).
  - destruct (key_eqb k0 k) eqn:X; [|exact (W k v E)]. apply key_eqb_eq in X. subst k0. rewrite (W k v E) in O. discriminate O.
  - destruct (key_eqb k0 k) eqn:X; [|exact (W k v E)]. apply key_eqb_eq in X. congruence.
  - assert (N : mb (KTab t) = None).
    { destruct (mb (KTab t)) as [u|] eqn:U; [|reflexivity]. rewrite (W _ _ U) in O. discriminate O. }
    destruct (key_eqb (KTab t) k) eqn:X; [apply key_eqb_eq in X; congruence|].
    destruct (owned_by t k) eqn:Y; [|exact (W k v E)]. unfold owned_by in Y. destruct (owner k) as [u|] eqn:Z; [|discriminate Y]. apply String.eqb_eq in Y. subst u.
    rewrite (C t k N Z) in E. discriminate E.
Qed.
Lemma keeps_run : forall mb os m m', (forall t k, mb (KTab t) = None -> owner k = Some t -> mb k = None) ->
  (forall o, In o os -> keeps mb o) -> part_of mb m -> run os m = Some m' -> part_of mb m'.
Proof.
  intros mb os. induction os as [|o r IH]; intros m m' C K W R; cbn [run] in R.
  - inversion R. subst m'. exact W.
  - destruct (op_ok o m) eqn:O; [|discriminate R]. apply (IH (op_db o m) m' C); [|apply keeps_op; auto; apply K; left; reflexivity|exact R].
    intros x Hx. apply K. right. exact Hx.
Qed.
Lemma add_con_keeps : forall mb d t c o, In o (add_con_ops d t c) -> keeps mb o.
Proof.
  intros mb d t c o H. unfold add_con_ops in H. destruct c as [n ?|n ? ? ? ?|n ?|n ? ? ? ?|n ?]; cbn in H; destruct n; cbn in H.
  all: repeat match goal with H : _ \/ _ |- _ => destruct H end; try contradiction; subst o; exact I.
Qed.
Lemma adds_ops : forall mb d s o, only_adds s = true -> (forall k, sets_option s = Some k -> mb k = None) -> In o (stmt_ops d s) -> keeps mb o.
Proof.
  intros mb d s o A S1 H. destruct s as [t|i|cm ie n|cm ie n|cm n act]; try discriminate A; cbn [stmt_ops] in H.
  - unfold create_table_ops in H. cbn [In] in H. destruct H as [H|H]; [subst o; exact I|].
    apply in_app_or in H. destruct H as [H|H]; [apply in_flat_map in H; destruct H as [c [_ H]]; destruct H as [H|[]]; subst o; exact I|].
    apply in_app_or in H. destruct H as [H|H]; [apply in_flat_map in H; destruct H as [c [_ H]]; apply (add_con_keeps mb d _ c o H)|].
    apply in_app_or in H. destruct H as [H|H].
    + apply in_flat_map in H. destruct H as [x [_ H]]. unfold add_opt_ops in H. destruct d; try destruct (counter_option x); cbn in H; repeat match goal with H : _ \/ _ |- _ => destruct H end; try contradiction; subst o; exact I.
    + unfold add_row_ops in H. destruct (ct_rowdel t); cbn in H; [|contradiction]. destruct H as [H|[]]. subst o. exact I.
  - destruct H as [H|[]]. subst o. exact I.
  - destruct H as [H|H]; [subst o; exact I|]. destruct act; try discriminate A; cbn [action_ops] in H.
    + destruct H as [H|[]]. subst o. exact I.
    + apply (add_con_keeps mb d n c o H).
    + destruct H as [H|[]]. subst o. cbn [keeps]. apply S1. reflexivity.
    + destruct H as [H|[]]. subst o. exact I.
Qed.
Lemma adds_exec : forall mb d l m m', (forall t k, mb (KTab t) = None -> owner k = Some t -> mb k = None) ->
  (forall s, In s l -> only_adds s = true /\ forall k, sets_option s = Some k -> mb k = None) ->
  part_of mb m -> exec_all d l m = Some m' -> part_of mb m'.
Proof.
  intros mb d l. induction l as [|s r IH]; intros m m' C A W R; cbn [exec_all] in R.
  - inversion R. subst m'. exact W.
  - destruct (exec d s m) as [m1|] eqn:E; [|discriminate R]. apply (IH m1 m' C); [intros x Hx; apply A; right; exact Hx| |exact R].
    destruct (A s (or_introl eq_refl)) as [A1 A2].
    assert (Q : run (stmt_ops d s) m = Some m1 -> part_of mb m1).
    { intro Z. apply (keeps_run mb (stmt_ops d s) m m1 C); [|exact W|exact Z]. intros o Ho. exact (adds_ops mb d s o A1 A2 Ho). }
    destruct s as [t|i|cm ie n|cm ie n|cm n act]; try discriminate A1; cbn [exec] in E.
    + destruct (ct_ifnotexists t && _); [inversion E; subst m1; exact W|exact (Q E)].
    + destruct (cx_ifnotexists i && _); [inversion E; subst m1; exact W|exact (Q E)].
    + apply Q. destruct act; try discriminate A1; exact E.
Qed.

Definition lessens (o : op) : Prop := match o with Has _ | Del _ | Wipe _ | DelCol _ _ | Fail => True | _ => False end.
Lemma unless_some : forall b o v, unless b o = Some v -> o = Some v.
Proof. intros b o v H. unfold unless in H. destruct o as [w|]; [|discriminate H]. destruct (b w); [discriminate H|exact H]. Qed.
Lemma lessens_op : forall o m, lessens o -> part_of (op_db o m) m.
Proof.
  intros o m L k v E. destruct o; cbn [lessens op_db] in *; try contradiction L; try exact E.
  - destruct (key_eqb k0 k); [discriminate E|exact E].
  - destruct (owned_by t k); [discriminate E|exact (unless_some _ _ _ E)].
  - destruct (key_eqb (KCol t c) k); [discriminate E|exact (unless_some _ _ _ E)].
Qed.
Lemma lessens_run : forall os m m', (forall o, In o os -> lessens o) -> run os m = Some m' -> part_of m' m.
Proof.
  intros os. induction os as [|o r IH]; intros m m' L R k v E; cbn [run] in R.
  - inversion R. subst m'. exact E.
  - destruct (op_ok o m); [|discriminate R]. apply (lessens_op o m (L o (or_introl eq_refl))).
    apply (IH (op_db o m) m'); [intros x Hx; apply L; right; exact Hx|exact R|exact E].
Qed.
Lemma removes_exec : forall d l m m', (forall s, In s l -> only_removes s = true) -> exec_all d l m = Some m' -> part_of m' m.
Proof.
  intros d l. induction l as [|s r IH]; intros m m' A R k v X; cbn [exec_all] in R.
  - inversion R. subst m'. exact X.
  - destruct (exec d s m) as [m1|] eqn:E; [|discriminate R]. pose proof (A s (or_introl eq_refl)) as A1.
    pose proof (IH m1 m' (fun x Hx => A x (or_intror Hx)) R k v X) as Y.
    assert (L : forall o, In o (stmt_ops d s) -> lessens o).
    { intros o Ho. destruct s as [t|i|cm ie n|cm ie n|cm n act]; try discriminate A1; cbn [stmt_ops] in Ho.
      - destruct Ho as [Ho|[]]. subst o. exact I.
      - unfold drop_index_ops in Ho. destruct d; destruct Ho as [Ho|[]]; subst o; exact I.
      - destruct Ho as [Ho|Ho]; [subst o; exact I|]. destruct act; try discriminate A1; cbn [action_ops] in Ho; try destruct name; destruct Ho as [Ho|[]]; subst o; exact I. }
    assert (Q : run (stmt_ops d s) m = Some m1 -> m k = Some v) by (intro Z; exact (lessens_run (stmt_ops d s) m m1 L Z k v Y)).
    destruct s as [t|i|cm ie n|cm ie n|cm n act]; try discriminate A1; cbn [exec] in E.
    + destruct (ie && _); [inversion E; subst m1; exact Y|exact (Q E)].
    + destruct (ie && _); [inversion E; subst m1; exact Y|exact (Q E)].
    + apply Q. destruct act; try discriminate A1; exact E.
Qed.

(** Without its table nothing of it is there. *)
Lemma described_owned : forall d l m, describes d l m -> forall t k, m (KTab t) = None -> owner k = Some t -> m k = None.
Proof.
  intros d l m D t k H O. apply (read_missing d l m D t); [|exact O]. intros u Hu E. pose proof (read_table d l m D u Hu) as X. rewrite E in X. congruence.
Qed.

(** For the examples: testing whether one schema is part_of the other. *)
Definition part_test (d : dialect) (b a : ddl) : bool :=
  forallb (fun e => same (option_dec value_dec) (assoc_key (fst e) (entries d a)) (Some (snd e))) (entries d b).
Lemma part_test_ok : forall d b a mb ma, describes d b mb -> describes d a ma -> part_test d b a = true -> part_of mb ma.
Proof.
  intros d b a mb ma DB DA T k v E. rewrite (read_assoc d b mb DB) in E. rewrite (read_assoc d a ma DA). apply assoc_In in E.
  unfold part_test in T. rewrite forallb_forall in T. specialize (T _ E). apply same_eq in T. exact T.
Qed.
