(** Facts for C88: an index that changes while one of its columns goes. *)
From Verif Require ReconcileFacts.
From Verif Require Import GoStr Token Ast Parser Diff Db DbFacts AppendFacts DiffTable DiffPair DiffSound Tidy Reconcile DbDep DepFacts DbRefuse DoomFacts.
Local Open Scope list_scope.

(** What the other objects of the old schema contribute does not create the index. *)
Lemma others_silent_idx : forall d srt sdiff B A i j s l, srt_ok srt ->
  forallb is_create B = true -> forallb is_create A = true -> NoDup (map fst (entries d B)) -> NoDup (map fst (entries d A)) ->
  In (CreateIndex i) B -> In (CreateIndex j) A -> qname (cx_name i) = qname (cx_name j) ->
  In s B -> s <> CreateIndex i -> diff_stmt d srt sdiff s A = Ok l -> forallb (silent d (KIdx (qname (cx_name i)))) l = true.
Proof.
  intros d srt sdiff B A i j s l Hs CB CA NB NA Ii Ij En Is Ns El. pose proof CB as CB'. rewrite forallb_forall in CB'. pose proof (CB' s Is) as C.
  apply forallb_forall. intros x Ix. destruct s as [t|i0| | |]; try discriminate C.
  - cbn [diff_stmt] in El. destruct (find_stmt (CreateTable t) A) as [p|] eqn:F; [|injection El as <-; destruct Ix].
    destruct (found_table t A p F) as [u [-> [Iu Eu]]].
    assert (Fr : inner_free d (ct_name u) (qname (cx_name i)) (ct_constraints u)) by (rewrite En; apply (index_inner_free d A j u); assumption).
    unfold diff_create_table in El. match type of El with context [if ?b then DOk _ else _] => destruct b end.
    + injection El as <-. destruct Ix as [<-|[<-|[]]]; [reflexivity|]. apply create_silent_idx. exact Fr.
    + destruct (eqs (create_table_string d t) (create_table_string d u)); [injection El as <-; destruct Ix|].
      destruct (all_named (ct_constraints t) && all_named (ct_constraints u)) eqn:N; [|discriminate El]. apply andb_true_iff in N. destruct N as [_ N].
      destruct (diff_tables d srt sdiff false t u) as [l0| | |] eqn:Et'; try discriminate El.
      assert (Il : In x l0) by (destruct l0; injection El as <-; exact Ix).
      apply (about_silent_idx d (ct_name u) _ (ct_constraints u)); [exact N|exact Fr|]. apply (tables_about d srt sdiff false t u l0 x Hs); try assumption.
      unfold renamed, neqs, eqs. change (negb (String.eqb (qname (ct_name t)) (qname (ct_name u))) = false). rewrite Eu, String.eqb_refl. reflexivity.
  - cbn [diff_stmt] in El. destruct (find_stmt (CreateIndex i0) A) as [p|] eqn:F; [|injection El as <-; destruct Ix].
    destruct (found_index i0 A p F) as [u [-> [Iu Eu]]]. destruct (neqs (create_index_diff d i0) (create_index_diff d u)); [|injection El as <-; destruct Ix].
    assert (Nn : qname (cx_name u) <> qname (cx_name i)) by (intro G; apply Ns; f_equal; apply (index_names_eq d B i0 i CB NB Is Ii); congruence).
    injection El as <-. destruct Ix as [<-|[<-|[]]].
    + unfold silent. cbn [no_rename stmt_ops andb]. unfold drop_index_ops. destruct d; reflexivity.
    + unfold silent. cbn [no_rename stmt_ops create_index_ops andb]. apply mute_add. intro G. injection G as G. contradiction.
Qed.
Lemma fresh_silent_idx : forall d B A i j, forallb is_create B = true -> forallb is_create A = true -> NoDup (map fst (entries d B)) -> NoDup (map fst (entries d A)) ->
  In (CreateIndex i) B -> In (CreateIndex j) A -> qname (cx_name i) = qname (cx_name j) ->
  forallb (silent d (KIdx (qname (cx_name i)))) (map drop1 (only_left_stmts B A) ++ only_left_stmts A B) = true.
Proof.
  intros d B A i j CB CA NB NA Ii Ij En. rewrite forallb_app, andb_true_iff. pose proof CB as CB'. pose proof CA as CA'. rewrite forallb_forall in CB', CA'. split.
  - apply forallb_forall. intros s I. apply in_map_iff in I. destruct I as [x [<- I]]. apply only_left_in in I. apply drop_silent. apply CB'. tauto.
  - apply forallb_forall. intros s I. apply only_left_in in I. destruct I as [I F]. pose proof (CA' s I) as C. destruct s as [t|i0| | |]; try discriminate C.
    + apply create_silent_idx. rewrite En. apply (index_inner_free d A j t); assumption.
    + unfold silent. cbn [no_rename stmt_ops create_index_ops andb]. apply mute_add. intro G. injection G as G.
      rewrite (find_index d B i0 i CB NB Ii G) in F. discriminate F.
Qed.
(** The statement that drops the column is there. *)
Lemma drops_column : forall d srt sdiff A t u b l, forallb is_create A = true -> NoDup (map fst (entries d A)) ->
  In (CreateTable u) A -> qname (ct_name t) = qname (ct_name u) -> create_table_string d t <> create_table_string d u ->
  (d = Sp -> options_diff Sp (ct_options t) = options_diff Sp (ct_options u)) ->
  In b (ct_columns t) -> ~ In (id_name (c_name b)) (col_names u) -> sticky d b = false ->
  diff_stmt d srt sdiff (CreateTable t) A = Ok l -> exists cm, In (AlterTable cm (ct_name u) (DropColumn (c_name b))) l.
Proof.
  intros d srt sdiff A t u b l CA NA Iu Et Eo Hsp Ib Nb St El. unfold diff_stmt in El. rewrite (find_table d A t u CA NA Iu Et) in El. unfold diff_create_table in El.
  assert (Gd : (match d with Sp => neqs (options_diff d (ct_options t)) (options_diff d (ct_options u)) | _ => false end) = false).
  { destruct d; try reflexivity. unfold neqs, eqs. rewrite (Hsp eq_refl), String.eqb_refl. reflexivity. }
  rewrite Gd in El. unfold eqs in El at 1. destruct (String.eqb_spec (create_table_string d t) (create_table_string d u)) as [G|_]; [contradiction|].
  destruct (all_named (ct_constraints t) && all_named (ct_constraints u)); [|discriminate El].
  destruct (diff_tables d srt sdiff false t u) as [l0| | |] eqn:Ed; try discriminate El.
  assert (l = l0) by (destruct l0; congruence). subst l. clear El.
  assert (R : renamed (ct_name t) (ct_name u) = false).
  { unfold renamed, neqs, eqs. change (negb (String.eqb (qname (ct_name t)) (qname (ct_name u))) = false). rewrite Et, String.eqb_refl. reflexivity. }
  unfold diff_tables in Ed. unfold final_name, diff_rename in Ed. rewrite R in Ed. cbn [andb] in Ed.
  destruct (only_left_constraints d srt (ct_constraints u) (ct_constraints t)) as [added| | |]; cbn [bind] in Ed; try discriminate Ed. injection Ed as <-.
  assert (F : find_column (id_name (c_name b)) (ct_columns u) = None).
  { destruct (find_column (id_name (c_name b)) (ct_columns u)) as [y|] eqn:F; [|reflexivity]. exfalso. apply find_some in F. destruct F as [F1 F2]. apply String.eqb_eq in F2. apply Nb. unfold col_names. apply in_map_iff. exists y. auto. }
  assert (K : keep_hidden d b = false) by exact St.
  eexists. cbn [app]. apply in_or_app. right. apply in_or_app. left. unfold diff_columns. apply in_or_app. left. apply in_flat_map. exists b. split; [exact Ib|].
  unfold diff_before_column. rewrite F, K. left. reflexivity.
Qed.
Lemma drop_column_index : forall d cm n c m m' k v, exec d (AlterTable cm n (DropColumn c)) m = Some m' ->
  (m (KIdx k) = Some (VIdx v) \/ m (KIdx k) = None) -> si_table v = qname n -> existsb (fun x => String.eqb (fst x) (id_name c)) (si_cols v) = true -> m' (KIdx k) = None.
Proof.
  intros d cm n c m m' k v X V T Inv. cbn [exec stmt_ops action_ops] in X. cbn [run] in X. destruct (op_ok (Has (KTab (qname n))) m); [|discriminate X]. cbn [op_db] in X.
  destruct (op_ok (DelCol (qname n) (id_name c)) m); [|discriminate X]. injection X as <-. cbv beta iota.
  destruct V as [V|V]; rewrite V; [|reflexivity]. cbn [unless involves]. rewrite T, String.eqb_refl, Inv. reflexivity.
Qed.

Theorem index_column_doomed : forall d srt sdiff B A mb ma t u i j b stmts, srt_ok srt ->
  forallb is_create B = true -> dep_exec_all d (map forget_ine B) empty_db = Some mb -> describes d A ma ->
  In (CreateTable t) B -> In (CreateTable u) A -> qname (ct_name t) = qname (ct_name u) ->
  create_table_string d t <> create_table_string d u -> (d = Sp -> options_diff Sp (ct_options t) = options_diff Sp (ct_options u)) ->
  In (CreateIndex i) B -> In (CreateIndex j) A -> qname (cx_name i) = qname (cx_name j) -> qname (cx_table i) = qname (ct_name t) ->
  create_index_diff d i <> create_index_diff d j ->
  In b (ct_columns t) -> ~ In (id_name (c_name b)) (col_names u) -> sticky d b = false ->
  existsb (fun x => String.eqb (fst x) (id_name (c_name b))) (si_cols (sem_index d i)) = true ->
  diff d srt sdiff (Some B) (Some A) = DOk stmts -> exec_all d stmts mb = None.
Proof.
  intros d srt sdiff B A mb ma t u i j b stmts Hs CB EB DA It Iu Et Eo Hsp Ii Ij En Ti Ex Ib Nb St Inv E.
  destruct (table_first d B mb t i CB EB It Ii Ti) as [p [q [r Eb]]]. pose proof (dep_describes d B mb CB EB) as DB.
  destruct (describes_entries d B mb DB) as [NB _]. destruct (describes_entries d A ma DA) as [NA _]. pose proof (index_value d B mb i DB Ii) as V. destruct DA as [CA _].
  cbn [diff] in E. destruct (diff_ddl_shape d srt sdiff B A stmts CB CA E) as [changes [Ec ->]]. clear E. set (k := KIdx (qname (cx_name i))) in *.
  pose proof (fresh_silent_idx d B A i j CB CA NB NA Ii Ij En) as S0. fold k in S0.
  pose proof (nodup_stmts d B CB NB) as ND.
  assert (So : forall l0 lr, (forall x, In x l0 -> In x B /\ x <> CreateIndex i) -> diff_stmts d srt sdiff l0 A = Ok lr -> forallb (silent d k) lr = true).
  { intros l0 lr Hr Er. apply forallb_forall. intros x Ix. destruct (diff_stmts_from d srt sdiff l0 A lr x Er Ix) as [z [lz [Iz [Ez Ixz]]]]. destruct (Hr z Iz) as [H1 H2].
    pose proof (others_silent_idx d srt sdiff B A i j z lz Hs CB CA NB NA Ii Ij En H1 H2 Ez) as G. rewrite forallb_forall in G. exact (G x Ixz). }
  assert (Ni : forall x, In x (p ++ CreateTable t :: q) -> In x B /\ x <> CreateIndex i).
  { intros x Ix. split; [rewrite Eb; apply in_app_or in Ix; destruct Ix as [Ix|[<-|Ix]]; apply in_or_app; [left; exact Ix|right; left; reflexivity|right; right; apply in_or_app; left; exact Ix]|].
    intros ->. assert (E2 : B = (p ++ CreateTable t :: q) ++ CreateIndex i :: r) by (rewrite Eb, <- app_assoc; reflexivity). rewrite E2 in ND. apply NoDup_remove_2 in ND. apply ND. apply in_or_app. left. exact Ix. }
  rewrite Eb in Ec. destruct (diff_stmts_split d srt sdiff p (CreateTable t) _ A changes Ec) as [l1 [l [l2 [E1 [El [E2 ->]]]]]].
  destruct (diff_stmts_split d srt sdiff q (CreateIndex i) r A l2 E2) as [l3 [lx [l4 [E3 [Ex' [E4 ->]]]]]].
  assert (S1 : forallb (silent d k) l1 = true) by (apply (So p l1); [intros x H; apply Ni; apply in_or_app; left; exact H|exact E1]).
  assert (S3 : forallb (silent d k) l3 = true) by (apply (So q l3); [intros x H; apply Ni; apply in_or_app; right; right; exact H|exact E3]).
  pose proof (others_silent_idx d srt sdiff B A i j (CreateTable t) l Hs CB CA NB NA Ii Ij En It ltac:(discriminate) El) as S2. fold k in S2.
  destruct (drops_column d srt sdiff A t u b l CA NA Iu Et Eo Hsp Ib Nb St El) as [cm Id]. destruct (in_split _ _ Id) as [la [lb Ell]].
  cbn [diff_stmt] in Ex'. rewrite (find_index d A i j CA NA Ij En) in Ex'. unfold neqs, eqs in Ex'.
  destruct (String.eqb_spec (create_index_diff d i) (create_index_diff d j)) as [G|_]; [contradiction|]. cbn [negb] in Ex'. injection Ex' as <-.
  rewrite Ell in S2 |- *. rewrite forallb_app in S2. apply andb_true_iff in S2. destruct S2 as [Sa Sb]. cbn [forallb] in Sb. apply andb_true_iff in Sb. destruct Sb as [_ Sb].
  match goal with |- exec_all d ?x mb = None => replace x with (((map drop1 (only_left_stmts B A) ++ only_left_stmts A B) ++ l1 ++ la) ++ AlterTable cm (ct_name u) (DropColumn (c_name b)) :: (lb ++ l3)
     ++ DropIndex (sdiff (create_index_diff d i) (create_index_diff d j)) false (cx_name i) :: CreateIndex j :: l4) by (rewrite <- ?app_assoc; cbn [app]; rewrite <- ?app_assoc; cbn [app]; rewrite <- ?app_assoc; cbn [app]; reflexivity) end.
  rewrite exec_all_app. match goal with |- match ?x with _ => _ end = _ => destruct x as [m1|] eqn:X1; [|reflexivity] end.
  assert (V1 : m1 k = Some (VIdx (sem_index d i)) \/ m1 k = None).
  { assert (Q : forallb (silent d k) ((map drop1 (only_left_stmts B A) ++ only_left_stmts A B) ++ l1 ++ la) = true).
    { rewrite forallb_app, S0. cbn [andb]. rewrite forallb_app, S1, Sa. reflexivity. }
    destruct (silent_exec d k _ mb m1 Q X1) as [H|H]; [left; rewrite H; exact V|right; exact H]. }
  cbn [exec_all]. match goal with |- match ?x with _ => _ end = _ => destruct x as [m2|] eqn:X2; [|reflexivity] end.
  assert (V2 : m2 k = None) by (apply (drop_column_index d cm (ct_name u) (c_name b) m1 m2 _ (sem_index d i) X2 V1); [exact (eq_trans Ti Et)|exact Inv]).
  rewrite exec_all_app. match goal with |- match ?x with _ => _ end = _ => destruct x as [m3|] eqn:X3; [|reflexivity] end.
  assert (V3 : m3 k = None) by (refine (silent_none d k _ m2 m3 _ X3 V2); rewrite forallb_app, Sb, S3; reflexivity).
  pose proof (drop_index_missing d i m3 V3) as D. cbn [exec_all].
  match goal with |- match exec d ?s m3 with _ => _ end = _ => change (exec d s m3) with (exec d (drop1 (CreateIndex i)) m3) end. rewrite D. reflexivity.
Qed.

(** ** A new index on a new column of a table that is there *)
Lemma create_silent_col : forall d T c t, qname (ct_name t) <> T -> silent d (KCol T c) (CreateTable t) = true.
Proof.
  intros d T c t N. unfold silent. cbn [no_rename stmt_ops andb]. unfold create_table_ops. cbn [forallb mute negb key_eqb andb]. rewrite !forallb_app, !andb_true_iff. repeat split.
  - apply forallb_forall. intros o I. apply in_flat_map in I. destruct I as [x [_ [<-|[]]]]. cbn [mute]. rewrite key_eqb_false; [reflexivity|]. intro G. injection G as G _. contradiction.
  - apply forallb_forall. intros o I. apply in_flat_map in I. destruct I as [x [_ I]].
    assert (G : forallb (mute (KCol T c)) (add_con_ops d (ct_name t) x) = true).
    { destruct x as [n ?|n ? ? ? ?|n ?|n u pre cols post|n ?]; cbn [add_con_ops con_name];
        try (match goal with |- context [sem_con d ?y] => destruct (sem_con d y) end; destruct n; reflexivity); destruct n; try reflexivity; apply mute_add; unfold intable_key; destruct d; discriminate. }
    rewrite forallb_forall in G. exact (G o I).
  - apply forallb_forall. intros o I. apply in_flat_map in I. destruct I as [x [_ I]]. unfold add_opt_ops in I. destruct d; try (destruct I as [<-|[]]; reflexivity).
    destruct (counter_option x); [destruct I|]. destruct I as [<-|[]]. reflexivity.
  - unfold add_row_ops. destruct (ct_rowdel t); reflexivity.
Qed.
Lemma dep_silent : forall d k l m m', forallb (silent d k) l = true -> dep_exec_all d l m = Some m' -> m k = None -> m' k = None.
Proof.
  induction l as [|s l IH]; intros m m' Q E N; [injection E as <-; exact N|]. cbn [forallb] in Q. apply andb_true_iff in Q. destruct Q as [Q1 Q2].
  cbn [dep_exec_all] in E. destruct (dep_exec d s m) as [m1|] eqn:E1; [|discriminate E]. apply (IH m1 m' Q2 E). unfold dep_exec in E1.
  destruct (exec d s m) as [m2|] eqn:E2; [|discriminate E1]. unfold silent in Q1. apply andb_true_iff in Q1. destruct Q1 as [R Q1].
  assert (N2 : m2 k = None) by (destruct (mute_exec d k s m m2 R Q1 E2) as [H|H]; congruence).
  destruct (removes s); [injection E1 as <-; unfold sweep; rewrite N2; reflexivity|]. destruct (new_intact d s m m2); [|discriminate E1]. injection E1 as <-. exact N2.
Qed.
Lemma no_column : forall d B mb t c, describes d B mb -> In (CreateTable t) B -> ~ In c (col_names t) -> mb (KCol (qname (ct_name t)) c) = None.
Proof.
  intros d B mb t c D It Nc. destruct (describes_entries d B mb D) as [N [V _]]. destruct D as [CB _]. rewrite V.
  destruct (assoc_key (KCol (qname (ct_name t)) c) (entries d B)) as [v|] eqn:E; [|reflexivity]. exfalso.
  destruct (assoc_in_stmt d B _ v CB N E) as [s [Is [Hh Ha]]]. destruct (hm_some _ _ _ _ Hh) as [_ Hb]. unfold belongs in Hb. cbn [owner] in Hb. destruct s as [x| | | |]; try discriminate Hb. apply String.eqb_eq in Hb.
  assert (x = t) by exact (table_names_eq d B x t CB N Is It Hb). subst x. apply assoc_In in Ha. cbn [stmt_entries] in Ha. unfold table_entries in Ha. destruct Ha as [Ha|Ha]; [discriminate Ha|].
  apply in_app_or in Ha. destruct Ha as [Ha|Ha].
  - apply in_map_iff in Ha. destruct Ha as [y [Hy Iy]]. unfold col_entry in Hy. injection Hy as Hy _. apply Nc. unfold col_names. apply in_map_iff. exists y. auto.
  - apply in_app_or in Ha. destruct Ha as [Ha|Ha]; [|apply in_app_or in Ha; destruct Ha as [Ha|Ha]].
    + apply in_flat_map in Ha. destruct Ha as [y [_ Hy]]. unfold con_entries, intable_key in Hy. destruct y as [n ?|n ? ? ? ?|n ?|n u pre cols post|n ?]; cbn [con_name] in Hy; destruct n;
        repeat match type of Hy with context [match ?z with _ => _ end] => destruct z end; first [destruct Hy as [Hy|[]]; discriminate Hy | destruct Hy].
    + apply in_flat_map in Ha. destruct Ha as [y [_ Hy]]. unfold opt_entries in Hy. repeat match type of Hy with context [match ?z with _ => _ end] => destruct z end; first [destruct Hy as [Hy|[]]; discriminate Hy | destruct Hy].
    + unfold row_entries in Ha. destruct (ct_rowdel t); [destruct Ha as [Hy|[]]; discriminate Hy|destruct Ha].
Qed.
Theorem new_index_doomed : forall d srt sdiff B A mb ma t j c stmts,
  describes d B mb -> describes d A ma -> In (CreateTable t) B -> In (CreateIndex j) A -> qname (cx_table j) = qname (ct_name t) ->
  mb (KIdx (qname (cx_name j))) = None -> In c (cx_columns j) -> ~ In (id_name (ci_ident c)) (col_names t) ->
  diff d srt sdiff (Some B) (Some A) = DOk stmts -> dep_exec_all d stmts mb = None.
Proof.
  intros d srt sdiff B A mb ma t j c stmts DB DA It Ij T Nj Ic Nc E.
  pose proof (no_column d B mb t _ DB It Nc) as V. destruct (describes_entries d A ma DA) as [NA _]. destruct (describes_entries d B mb DB) as [NB _].
  assert (Fj : find_stmt (CreateIndex j) B = None).
  { destruct (find_stmt (CreateIndex j) B) as [s|] eqn:F; [|reflexivity]. exfalso. destruct (found_index j B s F) as [i [-> [Ii Ei]]].
    rewrite Ei, (index_value d B mb i DB Ii) in Nj. discriminate Nj. }
  destruct DB as [CB _]. destruct DA as [CA _]. pose proof CA as CA'. pose proof CB as CB'. rewrite forallb_forall in CA', CB'.
  cbn [diff] in E. destruct (diff_ddl_shape d srt sdiff B A stmts CB CA E) as [changes [_ ->]]. clear E.
  assert (Fr : In (CreateIndex j) (only_left_stmts A B)) by (apply only_left_in; split; [exact Ij|exact Fj]).
  destruct (in_split _ _ Fr) as [f1 [f2 Ef]]. rewrite Ef.
  assert (Nf : forall x, In x f1 -> x <> CreateIndex j).
  { intros x Ix ->. pose proof (nodup_stmts d A CA NA) as ND. apply (NoDup_filter (fun s => match find_stmt s B with None => true | Some _ => false end)) in ND.
    assert (G : NoDup (only_left_stmts A B)) by (unfold only_left_stmts; exact ND). rewrite Ef in G. apply NoDup_remove_2 in G. apply G. apply in_or_app. left. exact Ix. }
  assert (If : forall x, In x f1 -> In x A /\ find_stmt x B = None).
  { intros x Ix. apply only_left_in. rewrite Ef. apply in_or_app. left. exact Ix. }
  replace (map drop1 (only_left_stmts B A) ++ (f1 ++ CreateIndex j :: f2) ++ changes) with ((map drop1 (only_left_stmts B A) ++ f1) ++ CreateIndex j :: f2 ++ changes) by (rewrite <- !app_assoc; reflexivity).
  rewrite dep_all_app. match goal with |- match ?x with _ => _ end = _ => destruct x as [m1|] eqn:X1; [|reflexivity] end.
  assert (V1 : m1 (KCol (qname (ct_name t)) (id_name (ci_ident c))) = None).
  { refine (dep_silent d _ _ mb m1 _ X1 V). rewrite forallb_app, andb_true_iff. split; apply forallb_forall; intros x Ix.
    - apply in_map_iff in Ix. destruct Ix as [y [<- Iy]]. apply only_left_in in Iy. apply drop_silent. apply CB'. tauto.
    - destruct (If x Ix) as [Ia Fx]. pose proof (CA' x Ia) as C. destruct x as [y|y| | |]; try discriminate C; [|reflexivity].
      apply create_silent_col. intro G. rewrite (find_table d B y t CB NB It G) in Fx. discriminate Fx. }
  assert (V2 : m1 (KIdx (qname (cx_name j))) = None).
  { refine (dep_silent d _ _ mb m1 _ X1 Nj). rewrite forallb_app, andb_true_iff. split; apply forallb_forall; intros x Ix.
    - apply in_map_iff in Ix. destruct Ix as [y [<- Iy]]. apply only_left_in in Iy. apply drop_silent. apply CB'. tauto.
    - destruct (If x Ix) as [Ia Fx]. pose proof (CA' x Ia) as C. destruct x as [y|y| | |]; try discriminate C.
      + apply create_silent_idx. apply (index_inner_free d A j y); assumption.
      + unfold silent. cbn [no_rename stmt_ops create_index_ops andb]. apply mute_add. intro G. injection G as G. apply (Nf _ Ix). f_equal. apply (index_names_eq d A y j CA NA Ia Ij G). }
  cbn [dep_exec_all]. unfold dep_exec. destruct (exec d (CreateIndex j) m1) as [m2|] eqn:X2; [|reflexivity]. cbn [removes].
  assert (Ni : new_intact d (CreateIndex j) m1 m2 = false); [|rewrite Ni; reflexivity].
  cbn [exec] in X2. rewrite V2, andb_false_r in X2. cbn [stmt_ops create_index_ops run op_ok] in X2. rewrite V2 in X2. cbn [present negb] in X2. injection X2 as <-.
  unfold new_intact. change (objects d [CreateIndex j]) with [(KIdx (qname (cx_name j)), VIdx (sem_index d j))]. cbn [forallb fst snd]. rewrite V2, String.eqb_refl. cbn [present negb orb]. rewrite andb_true_r.
  unfold intact. apply not_true_is_false. intro G. rewrite forallb_forall in G.
  specialize (G (KCol (qname (ct_name t)) (id_name (ci_ident c)))). cbv beta iota in G. rewrite V1 in G.
  assert (In (KCol (qname (ct_name t)) (id_name (ci_ident c))) (needs (KIdx (qname (cx_name j))) (VIdx (sem_index d j)))) as H; [|discriminate (G H)].
  cbn [needs]. right. unfold columns_of. apply in_map_iff. exists (sem_keycol d c). split; [change (si_table (sem_index d j)) with (qname (cx_table j)); rewrite T; reflexivity|]. apply in_map. exact Ic.
Qed.

(** ** A new table that refers to a new column of a table that is there *)
Lemma create_silent_tab : forall d T t, qname (ct_name t) <> T -> silent d (KTab T) (CreateTable t) = true.
Proof.
  intros d T t N. unfold silent. cbn [no_rename stmt_ops andb]. unfold create_table_ops. cbn [forallb mute].
  assert (Z : key_eqb (KTab (qname (ct_name t))) (KTab T) = false) by (apply key_eqb_false; intro G; injection G; exact N). rewrite Z. cbn [negb andb]. rewrite !forallb_app, !andb_true_iff. repeat split.
  - apply forallb_forall. intros o I. apply in_flat_map in I. destruct I as [x [_ [<-|[]]]]. reflexivity.
  - apply forallb_forall. intros o I. apply in_flat_map in I. destruct I as [x [_ I]].
    assert (G : forallb (mute (KTab T)) (add_con_ops d (ct_name t) x) = true).
    { destruct x as [n ?|n ? ? ? ?|n ?|n u pre cols post|n ?]; cbn [add_con_ops con_name];
        try (match goal with |- context [sem_con d ?y] => destruct (sem_con d y) end; destruct n; reflexivity); destruct n; try reflexivity; apply mute_add; unfold intable_key; destruct d; discriminate. }
    rewrite forallb_forall in G. exact (G o I).
  - apply forallb_forall. intros o I. apply in_flat_map in I. destruct I as [x [_ I]]. unfold add_opt_ops in I. destruct d; try (destruct I as [<-|[]]; reflexivity).
    destruct (counter_option x); [destruct I|]. destruct I as [<-|[]]. reflexivity.
  - unfold add_row_ops. destruct (ct_rowdel t); reflexivity.
Qed.
Lemma no_table : forall d B mb k T, describes d B mb -> owner k = Some T -> (forall x, In (CreateTable x) B -> qname (ct_name x) <> T) -> mb k = None.
Proof.
  intros d B mb k T D O N. destruct (describes_entries d B mb D) as [ND [V _]]. destruct D as [CB _]. rewrite V.
  destruct (assoc_key k (entries d B)) as [v|] eqn:E; [|reflexivity]. exfalso.
  destruct (assoc_in_stmt d B _ v CB ND E) as [s [Is [Hh _]]]. destruct (hm_some _ _ _ _ Hh) as [_ Hb]. unfold belongs in Hb. rewrite O in Hb. destruct s as [x| | | |]; try discriminate Hb. apply String.eqb_eq in Hb. exact (N x Is Hb).
Qed.
Theorem new_reference_doomed : forall d srt sdiff B A mb ma t y n cols ref refcols act c stmts,
  describes d B mb -> describes d A ma -> In (CreateTable t) B -> In (CreateTable y) A ->
  (forall x, In (CreateTable x) B -> qname (ct_name x) <> qname (ct_name y)) ->
  In (CForeign n cols ref refcols act) (ct_constraints y) -> id_name ref = qname (ct_name t) ->
  In c refcols -> ~ In (id_name (ci_ident c)) (col_names t) ->
  diff d srt sdiff (Some B) (Some A) = DOk stmts -> dep_exec_all d stmts mb = None.
Proof.
  intros d srt sdiff B A mb ma t y n cols ref refcols act c stmts DB DA It Iy Ny If Er Ic Nc E.
  pose proof (no_column d B mb t _ DB It Nc) as V. destruct (describes_entries d A ma DA) as [NA _]. destruct (describes_entries d B mb DB) as [NB _].
  assert (Fy : find_stmt (CreateTable y) B = None).
  { destruct (find_stmt (CreateTable y) B) as [s|] eqn:F; [|reflexivity]. exfalso. destruct (found_table y B s F) as [u [-> [Iu Eu]]]. exact (Ny u Iu (eq_sym Eu)). }
  pose proof (no_table d B mb (KTab (qname (ct_name y))) _ DB eq_refl Ny) as VT.
  assert (VC : forall l, mb (KCon (qname (ct_name y)) l) = None) by (intro l; exact (no_table d B mb (KCon (qname (ct_name y)) l) _ DB eq_refl Ny)).
  destruct DB as [CB _]. destruct DA as [CA _]. pose proof CA as CA'. pose proof CB as CB'. rewrite forallb_forall in CA', CB'.
  cbn [diff] in E. destruct (diff_ddl_shape d srt sdiff B A stmts CB CA E) as [changes [_ ->]]. clear E.
  assert (Fr : In (CreateTable y) (only_left_stmts A B)) by (apply only_left_in; split; [exact Iy|exact Fy]).
  destruct (in_split _ _ Fr) as [f1 [f2 Ef]]. rewrite Ef.
  assert (Nf : forall x, In x f1 -> x <> CreateTable y).
  { intros x Ix ->. pose proof (nodup_stmts d A CA NA) as ND. apply (NoDup_filter (fun s => match find_stmt s B with None => true | Some _ => false end)) in ND.
    assert (G : NoDup (only_left_stmts A B)) by (unfold only_left_stmts; exact ND). rewrite Ef in G. apply NoDup_remove_2 in G. apply G. apply in_or_app. left. exact Ix. }
  assert (Ig : forall x, In x f1 -> In x A /\ find_stmt x B = None).
  { intros x Ix. apply only_left_in. rewrite Ef. apply in_or_app. left. exact Ix. }
  replace (map drop1 (only_left_stmts B A) ++ (f1 ++ CreateTable y :: f2) ++ changes) with ((map drop1 (only_left_stmts B A) ++ f1) ++ CreateTable y :: f2 ++ changes) by (rewrite <- !app_assoc; reflexivity).
  rewrite dep_all_app. match goal with |- match ?x with _ => _ end = _ => destruct x as [m1|] eqn:X1; [|reflexivity] end.
  assert (Sil : forall k, (forall x, In (CreateTable x) f1 -> silent d k (CreateTable x) = true) -> (forall x, silent d k (CreateIndex x) = true) -> mb k = None -> m1 k = None).
  { intros k S1 S2 Vk. refine (dep_silent d _ _ mb m1 _ X1 Vk). rewrite forallb_app, andb_true_iff. split; apply forallb_forall; intros x Ix.
    - apply in_map_iff in Ix. destruct Ix as [z [<- Iz]]. apply only_left_in in Iz. apply drop_silent. apply CB'. tauto.
    - destruct (Ig x Ix) as [Ia Fx]. pose proof (CA' x Ia) as C. destruct x as [z|z| | |]; try discriminate C; [apply S1; exact Ix|apply S2]. }
  assert (Oth : forall x, In (CreateTable x) f1 -> qname (ct_name x) <> qname (ct_name y)).
  { intros x Ix G. apply (Nf _ Ix). f_equal. apply (table_names_eq d A x y CA NA (proj1 (Ig _ Ix)) Iy G). }
  assert (V1 : m1 (KCol (qname (ct_name t)) (id_name (ci_ident c))) = None).
  { apply Sil; [|reflexivity|exact V]. intros x Ix. apply create_silent_col. intro G. pose proof (proj2 (Ig _ Ix)) as Fx. rewrite (find_table d B x t CB NB It G) in Fx. discriminate Fx. }
  assert (V2 : m1 (KTab (qname (ct_name y))) = None).
  { apply Sil; [|reflexivity|exact VT]. intros x Ix. apply create_silent_tab. exact (Oth x Ix). }
  assert (V3 : forall l, m1 (KCon (qname (ct_name y)) l) = None).
  { intro l. apply Sil; [|reflexivity|apply VC]. intros x Ix. apply create_silent_con. exact (Oth x Ix). }
  cbn [dep_exec_all]. unfold dep_exec. destruct (exec d (CreateTable y) m1) as [m2|] eqn:X2; [|reflexivity]. cbn [removes].
  assert (Ni : new_intact d (CreateTable y) m1 m2 = false); [|rewrite Ni; reflexivity].
  cbn [exec] in X2. rewrite V2 in X2. cbn [present] in X2. rewrite andb_false_r in X2. cbn [stmt_ops] in X2.
  pose proof (create_table_ops_named d y m1 m2 X2) as Nm. rewrite create_table_ops_adds in X2 by exact Nm. cbn [run op_ok] in X2. rewrite V2 in X2. cbn [present negb] in X2.
  destruct (run_adds _ _ _ X2) as [NDa [_ Vm]].
  destruct n as [n|]; [|unfold all_con_named in Nm; rewrite forallb_forall in Nm; discriminate (Nm _ If)].
  set (k := KCon (qname (ct_name y)) (id_name n)) in *. set (v := VCon (SForeign (sem_keycols d cols) (id_name ref) (sem_keycols d refcols) (match d with Sp => "" | _ => act end))) in *.
  assert (Ie : In (k, v) (table_adds d y)).
  { unfold table_adds. apply in_or_app. right. apply in_or_app. left. apply in_flat_map. eexists. split; [exact If|]. left. reflexivity. }
  assert (Pk : present (m2 k) = true).
  { rewrite Vm. destruct (assoc_key k (table_adds d y)) eqn:Z; [reflexivity|]. apply assoc_None in Z. exfalso. apply Z. apply in_map_iff. exists (k, v). auto. }
  assert (Pc : m2 (KCol (qname (ct_name t)) (id_name (ci_ident c))) = None).
  { rewrite Vm. destruct (assoc_key _ (table_adds d y)) as [w|] eqn:Z.
    - exfalso. assert (M : m2 (KCol (qname (ct_name t)) (id_name (ci_ident c))) = Some w) by (rewrite Vm, Z; reflexivity).
      pose proof (create_silent_col d (qname (ct_name t)) (id_name (ci_ident c)) y (fun G => Ny t It (eq_sym G))) as S. unfold silent in S. apply andb_true_iff in S. destruct S as [R S].
      assert (X : exec d (CreateTable y) m1 = Some m2).
      { cbn [exec]. rewrite V2. cbn [present]. rewrite andb_false_r. cbn [stmt_ops]. rewrite create_table_ops_adds by exact Nm. cbn [run op_ok]. rewrite V2. exact X2. }
      destruct (mute_exec d _ _ m1 m2 R S X) as [H|H]; congruence.
    - cbn [op_db key_eqb]. destruct (owned_by _ _); [reflexivity|exact V1]. }
  apply not_true_is_false. intro G. unfold new_intact in G. rewrite ReconcileFacts.objects_entries in G; [|reflexivity|intros z [Hz|[]]; injection Hz as <-; exact Nm].
  rewrite forallb_forall in G. specialize (G (k, v)). cbn [fst snd] in G. unfold k in G at 2. rewrite (V3 (id_name n)), Pk in G. cbn [present negb orb] in G.
  assert (H : In (k, v) (entries d [CreateTable y])) by (unfold entries; cbn [flat_map stmt_entries]; rewrite app_nil_r; right; exact Ie).
  specialize (G H). unfold intact in G. rewrite forallb_forall in G. specialize (G (KCol (qname (ct_name t)) (id_name (ci_ident c)))). cbv beta in G. rewrite Pc in G.
  assert (In (KCol (qname (ct_name t)) (id_name (ci_ident c))) (needs k v)) as J; [|discriminate (G J)].
  cbn [needs k v refers]. apply in_or_app. right. right. rewrite Er. unfold columns_of. apply in_map_iff. exists (sem_keycol d c). split; [reflexivity|]. apply in_map. exact Ic.
Qed.
