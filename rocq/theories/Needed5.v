(** The conditions under which a difference of ordinary schemas reaches its target are
    needed (for C73): MySQL, and Spanner without re-created tables. *)
From Coq Require Import Lia Permutation.
From Verif Require Import GoStr Token Ast Parser Diff Db DbFacts AppendFacts DiffTable DiffPair DiffSound
  Tidy TidyFacts DiffSame Reconcile ReconcileFacts Honest DiffSpec Justified Frame Shape InterruptFacts Needed Needed2 Placed Needed3 Needed4
  Printable Ordinary OrdinaryText OrdinaryFacts.
Local Open Scope list_scope.

(** An option of a table survives what does not replace the table. *)
Lemma exec_option : forall d s m m' t o, exec d s m = Some m' -> no_rename s -> ~ replaces_table t s -> there (m (KOpt t o)) -> there (m' (KOpt t o)).
Proof.
  intros d s m m' t o0 H N R V. destruct (exec_at d s m m' H N) as [E|E]; [rewrite E; exact V|]. specialize (E (KOpt t o0)).
  set (k := KOpt t o0) in *.
  assert (O : owner k = Some t) by reflexivity.
  assert (NC : forall u n, k <> KCon u n) by (intros u n F; discriminate F).
  assert (X : forall u, u <> t -> key_eqb (KTab u) k = false /\ owned_by u k = false).
  { intros u Hu. split; [reflexivity|]. unfold owned_by. rewrite O. apply String.eqb_neq. congruence. }
  assert (Z : forall n, key_eqb (KIdx n) k = false) by (intro n; reflexivity).
  assert (P : forall w, there w -> present w = true /\ solid w) by (intros [[]|] Hw; try (split; [reflexivity|exact I]); destruct Hw).
  refine (keeps_all there k (stmt_ops d s) _ _ _ V E). intros o Ho w w' Hw F.
  assert (A : forall q v, eff (Add q v) k w = Some w' -> there w').
  { intros q v G. cbn [eff] in G. rewrite (proj1 (P w Hw)) in G. destruct (key_eqb q k); [discriminate G|]. inversion G; subst. exact Hw. }
  destruct s as [ct|i|c ie n|c ie n|c n a]; cbn [replaces_table stmt_ops] in *.
  - apply create_ops_in in Ho. destruct Ho as [Ho|[Ho|[q [v [Ho _]]]]]; subst o.
    + cbn [eff] in F. destruct (X _ R) as [X1 X2]. unfold table_name in *. rewrite X1, X2 in F. congruence.
    + discriminate F.
    + exact (A _ _ F).
  - destruct Ho as [Ho|[]]. subst o. exact (A _ _ F).
  - destruct Ho as [Ho|[]]. subst o. cbn [eff] in F. destruct (X _ R) as [X1 X2]. rewrite X1, X2, (unless_index _ _ (proj2 (P w Hw))) in F. congruence.
  - unfold drop_index_ops in Ho. destruct d; destruct Ho as [Ho|[]]; subst o; cbn [eff] in F; try discriminate F; rewrite Z in F; congruence.
  - destruct Ho as [Ho|Ho].
    + subst o. cbn [eff] in F. rewrite (proj1 (P w Hw)) in F. destruct (key_eqb _ k); congruence.
    + apply alter_ops_in in Ho. destruct Ho as [|q f Q Qf|q v Q|o v|x| |q Q|q b j v Q _].
      * discriminate F.
      * cbn [eff] in F. rewrite (proj1 (P w Hw)) in F. destruct (key_eqb q k); [|congruence]. inversion F; subst w'.
        destruct w as [x|]; [|destruct Hw]. cbn [option_map]. pose proof (Qf x (proj2 (P _ Hw))) as Y. destruct (f x); try exact I. destruct Y.
      * exact (A _ _ F).
      * cbn [eff] in F. destruct (key_eqb _ k); [inversion F; exact I|congruence].
      * cbn [eff] in F. change (key_eqb (KCon (qname n) x) k) with false in F. congruence.
      * cbn [eff] in F. change (key_eqb (KRow (qname n)) k) with false in F. congruence.
      * subst a. cbn [eff] in F. change (key_eqb (KCol (qname n) (id_name q)) k) with false in F.
        rewrite (unless_involves _ _ _ _ NC (proj2 (P w Hw))) in F. congruence.
      * exact (A _ _ F).
Qed.
Lemma options_stay : forall d l m m' t o, exec_all d l m = Some m' -> (forall s, In s l -> no_rename s /\ ~ replaces_table t s) ->
  there (m (KOpt t o)) -> there (m' (KOpt t o)).
Proof.
  intros d. induction l as [|s l IH]; intros m m' t o X N V; cbn [exec_all] in X; [inversion X; subst; exact V|].
  destruct (exec d s m) as [m1|] eqn:E; [|discriminate X]. destruct (N s (or_introl eq_refl)) as [N1 N2].
  apply (IH m1 m' t o X); [|exact (exec_option d s m m1 t o E N1 N2 V)]. intros x Hx. apply N. right. exact Hx.
Qed.
(** MySQL: no DROP INDEX is executed. *)
Lemma my_no_drop_index : forall l m m' c n, exec_all My l m = Some m' -> ~ In (DropIndex c false n) l.
Proof.
  induction l as [|s l IH]; intros m m' c n X H; [destruct H|]. cbn [exec_all] in X. destruct (exec My s m) as [m1|] eqn:E; [|discriminate X].
  destruct H as [H|H]; [subst s; discriminate E|exact (IH m1 m' c n X H)].
Qed.

Section Core.
Variable d : dialect.
Variables B A : ddl.
Variables mb ma : db.
Hypothesis DB : describes d B mb.
Hypothesis DA : describes d A ma.
Hypothesis OB : ordinary d B = true.
Hypothesis OA : ordinary d A = true.
Hypothesis St : same_style d B A = true.
Hypothesis Sy : inner_stay d B A = true.
Hypothesis PB : placed d B = true.
Hypothesis PA : placed d A = true.
(** Spanner: no table is re-created. *)
Hypothesis Opt : d = Sp -> forall tb ta, table_pair B A tb ta -> same_options (ct_options tb) (ct_options ta) = true.

Let TB : tidy d B = true := proj1 (ordinary_parts d B OB).
Let TA : tidy d A = true := proj1 (ordinary_parts d A OA).

Record core : Prop := {
  c_kind : forall tb ta b a, table_pair B A tb ta -> In b (ct_constraints tb) -> In a (ct_constraints ta) -> con_key b = con_key a -> is_idx b = is_idx a;
  c_unused : forall tb ta b a c, table_pair B A tb ta -> In b (ct_constraints tb) -> In a (ct_constraints ta) -> con_key b = con_key a ->
    In c (ct_columns tb) -> find_column (id_name (c_name c)) (ct_columns ta) = None ->
    involves (qname (ct_name tb)) (id_name (c_name c)) (ckey d (ct_name tb) b) (cval d (ct_name tb) b) = false;
  c_index : forall ib ia, In (CreateIndex ib) B -> In (CreateIndex ia) A -> qname (cx_name ib) = qname (cx_name ia) ->
    create_index_diff d ib = create_index_diff d ia -> sem_index d ib = sem_index d ia;
  c_table : forall i tb, In (CreateIndex i) B -> In (CreateTable tb) B -> qname (cx_table i) = table_name tb -> find_stmt (CreateTable tb) A <> None;
  c_used : forall i tb ta c, table_pair B A tb ta -> In c (ct_columns tb) -> find_column (id_name (c_name c)) (ct_columns ta) = None ->
    (In (CreateIndex i) B /\ In (qname (cx_name i)) (index_names A)) \/ In (CreateIndex i) A -> qname (cx_table i) = table_name tb ->
    existsb (fun x => String.eqb (fst x) (id_name (c_name c))) (sem_keycols d (cx_columns i)) = false;
  c_hidden : d = Crdb -> False;
  c_inner : d = My -> forall tb ta b a, table_pair B A tb ta -> In b (ct_constraints tb) -> In a (ct_constraints ta) -> con_key b = con_key a ->
    is_idx b = true -> cval d (ct_name tb) b = cval d (ct_name ta) a;
  c_gone : d = My -> forall tb ta b, table_pair B A tb ta -> In b (ct_constraints tb) -> is_idx b = true -> find_constraint (con_key b) (ct_constraints ta) <> None;
  c_opt : d = My -> forall tb ta o, table_pair B A tb ta -> In o (ct_options tb) -> counter_option o = false -> In (o_name o) (map o_name (ct_options ta));
  c_whole : d = My -> forall ib ia, In (CreateIndex ib) B -> In (CreateIndex ia) A -> qname (cx_name ib) = qname (cx_name ia) -> sem_index d ib = sem_index d ia;
  c_stay : d = My -> forall ib, In (CreateIndex ib) B -> In (qname (cx_name ib)) (index_names A) }.

Theorem core_safe : core -> safe_change d B A = true.
Proof.
  intro F. unfold safe_change. rewrite St, Sy. cbn [andb]. rewrite !andb_true_iff. split; [split; [split; [split|]|]|].
  - apply all_pairs_intro. intros tb ta Hb Ha E. assert (P : table_pair B A tb ta) by (repeat split; assumption).
    unfold safe_table. rewrite !andb_true_iff. split; [split; [split; [split; [split|]|]|]|].
    + apply all_pairs_intro. intros b a _ _ _. pose proof (c_hidden F) as Nc. unfold safe_column. destruct d; try reflexivity. destruct (Nc eq_refl).
    + apply forallb_forall. intros c _. pose proof (c_hidden F) as Nc. apply orb_true_iff. right. unfold sticky. destruct d; try reflexivity. destruct (Nc eq_refl).
    + apply all_pairs_intro. intros b a Hb' Ha' E'. assert (K : con_key b = con_key a) by (rewrite !con_label_key in E'; exact E').
      pose proof (c_kind F tb ta b a P Hb' Ha' K) as Ki. unfold safe_constraint. rewrite !is_inner_idx, Ki, Bool.eqb_reflx. cbn [andb].
      pose proof (c_inner F) as Fi. destruct d eqn:Ed; try reflexivity. destruct (is_idx a) eqn:Ia; [|reflexivity]. cbn [negb orb]. apply same_refl.
      rewrite !OrdinaryFacts.con_value_cval. f_equal. exact (Fi eq_refl tb ta b a P Hb' Ha' K Ki).
    + apply forallb_forall. intros c Hc. apply forallb_forall. intros b Hb'. destruct (memb (con_label b) (con_labels ta)) eqn:M; [|reflexivity]. cbn [negb orb].
      apply memb_In in M. apply in_map_iff in M. destruct M as [a [M Ha']]. assert (K : con_key b = con_key a) by (rewrite !con_label_key in M; congruence).
      destruct (gone_in tb ta c Hc) as [x [X1 [X2 X3]]]. pose proof (c_unused F tb ta b a x P Hb' Ha' K X1 X3) as U. apply negb_true_iff.
      rewrite con_uses_involves; [rewrite <- X2; exact U|]. apply in_tables in Hb. pose proof (tidy_in _ _ _ TB Hb) as Tb. cbn [tidy_stmt] in Tb. exact (named_b d tb Tb b Hb').
    + pose proof (c_gone F) as Fg. destruct d eqn:Ed; try reflexivity. apply forallb_forall. intros b Hb'. rewrite is_inner_idx. destruct (is_idx b) eqn:Ib; [|reflexivity]. cbn [negb orb].
      pose proof (Fg eq_refl tb ta b P Hb' Ib) as N. destruct (find_constraint (con_key b) (ct_constraints ta)) as [a|] eqn:Fa; [|contradiction].
      destruct (find_con_some _ _ _ Fa) as [Ha' Hk]. apply memb_In. unfold con_labels. rewrite con_label_key, <- Hk, <- con_label_key. apply in_map. exact Ha'.
    + pose proof (c_opt F) as Fo. unfold safe_options. destruct d eqn:Ed; try reflexivity. apply forallb_forall. intros o Ho.
      destruct (counter_option o) eqn:Co; [reflexivity|]. cbn [orb]. apply memb_In. exact (Fo eq_refl tb ta o P Ho Co).
  - apply all_pairs_intro. intros ib ia Hb Ha E. pose proof Hb as Hb'. pose proof Ha as Ha'. apply in_indexes in Hb'. apply in_indexes in Ha'.
    pose proof (c_whole F) as Fw. pose proof (c_index F ib ia Hb' Ha' E) as Fi. pose proof (c_hidden F) as Nc.
    assert (G : noticed_index d ib ia = true).
    { unfold noticed_index. destruct (Bool.eqb _ _ && _ && _) eqn:G; [|destruct d; reflexivity].
      rewrite !andb_true_iff in G. destruct G as [[G1 G2] G3]. apply Bool.eqb_prop in G1. apply String.eqb_eq in G2. apply same_eq in G3.
      assert (Dc : d <> Crdb) by (intro Z; exact (Nc Z)).
      assert (T : create_index_diff d ib = create_index_diff d ia).
      { unfold create_index_diff. rewrite (objname_diff_qname (cx_name ib)), (objname_diff_qname (cx_table ib)), (objname_diff_qname (cx_name ia)), (objname_diff_qname (cx_table ia)), E, G1, G2, (cols_diff_eq d _ _ G3).
        destruct d; try reflexivity. contradiction. }
      pose proof (f_equal si_using (Fi T)) as U. unfold sem_index in U. cbn [si_using] in U.
      destruct d; try contradiction; apply same_refl; exact U. }
    unfold safe_index. destruct d eqn:Ed; try exact G. apply same_refl. exact (Fw eq_refl ib ia Hb' Ha' E).
  - pose proof (c_stay F) as Fs. destruct d eqn:Ed; try reflexivity. apply forallb_forall. intros i Hi. apply memb_In. apply (Fs eq_refl). apply in_indexes. exact Hi.
  - unfold safe_wipe. apply forallb_forall. intros i Hi. apply forallb_forall. intros tb Hb. destruct (String.eqb (qname (cx_table i)) (table_name tb)) eqn:E; [|reflexivity].
    apply String.eqb_eq in E. cbn [negb orb]. pose proof Hb as Hb'. apply in_tables in Hb'.
    assert (exists ta, In (CreateTable ta) A /\ table_name ta = table_name tb) as [ta [Ha Et]].
    { apply in_app_or in Hi. destruct Hi as [Hi|Hi]; apply in_indexes in Hi.
      - pose proof (c_table F i tb Hi Hb' E) as N. destruct (find_stmt (CreateTable tb) A) as [h|] eqn:Fh; [|contradiction].
        apply find_some in Fh. destruct Fh as [F1 F2]. destruct h as [ta| | | |]; try discriminate F2. cbn [same_type andb] in F2. apply eqs_eq in F2. rewrite !stmt_name_table in F2.
        exists ta. split; [exact F1|]. unfold table_name. symmetry. exact F2.
      - destruct (in_split _ _ Hi) as [l1 [l2 EA]]. destruct (placed_is_behind d A PA l1 i l2 EA) as [t [T1 [T2 _]]]. exists t. split; [rewrite EA; apply in_or_app; left; exact T1|congruence]. }
    apply existsb_exists. exists ta. split; [apply in_tables; exact Ha|]. rewrite Et, String.eqb_refl. cbn [andb].
    pose proof Opt as Op. destruct d eqn:Ed; try reflexivity. apply (Op eq_refl). repeat split; [exact Hb|apply in_tables; exact Ha|symmetry; exact Et].
  - unfold dropped_unused. apply all_pairs_intro. intros tb ta Hb Ha E. assert (P : table_pair B A tb ta) by (repeat split; assumption).
    apply forallb_forall. intros c Hc. apply forallb_forall. intros i Hi. destruct (gone_in tb ta c Hc) as [x [X1 [X2 X3]]].
    destruct (String.eqb (qname (cx_table i)) (table_name tb)) eqn:Et; [|reflexivity]. apply String.eqb_eq in Et.
    destruct (memb (qname (cx_name i)) (index_names A)) eqn:M; [|reflexivity]. cbn [negb orb]. apply memb_In in M. apply negb_true_iff. rewrite <- X2.
    apply (c_used F i tb ta x P X1 X3); [|exact Et]. apply in_app_or in Hi. destruct Hi as [Hi|Hi]; apply in_indexes in Hi; [left; auto|right; exact Hi].
Qed.

(** An index inside a table of before that the catalogue of after has, is in the same table there. *)
Lemma inner_home : forall tb ta b v, table_pair B A tb ta -> In b (ct_constraints tb) -> is_idx b = true -> ma (ckey d (ct_name tb) b) = Some v ->
  find_constraint (con_key b) (ct_constraints ta) <> None.
Proof.
  intros tb ta b v P Hb Ib V.
  assert (Htb : In (CreateTable tb) B) by (apply in_tables; apply P). assert (Hta : In (CreateTable ta) A) by (apply in_tables; apply P).
  pose proof (tidy_in _ _ _ TB Htb) as Tb. pose proof (tidy_in _ _ _ TA Hta) as Ta. cbn [tidy_stmt] in Tb, Ta.
  destruct (some_declared d A ma _ v DA V) as [h [Hh Dh]].
  assert (Db : declares d (ckey d (ct_name tb) b) (CreateTable tb) = true) by (apply con_declared; [exact Hb|exact (named_b d tb Tb b Hb)]).
  pose proof (one_table d B A ma DA St Sy tb ta h _ P Db Hh Dh) as Z. subst h.
  apply declares_In in Dh. apply in_map_iff in Dh. destruct Dh as [[q u] [Q Dh]]. cbn [fst] in Q. subst q.
  pose proof (in_entries d A ma (CreateTable ta) _ u DA Hta Dh) as U. cbn [stmt_entries] in Dh. destruct Dh as [Dh|Dh]; [unfold ckey in Dh; rewrite Ib in Dh; discriminate Dh|].
  assert (exists n, ckey d (ct_name tb) b = KIdx n) as [n Kn] by (unfold ckey; rewrite Ib; unfold intable_key; eexists; reflexivity).
  rewrite Kn in *. destruct (read_idx d A ma DA n u U) as [[i [I1 [I2 _]]]|[t [c [I1 [I2 [I3 _]]]]]].
  - exfalso. assert (Di : declares d (KIdx n) (CreateIndex i) = true) by (unfold declares; cbn [stmt_entries existsb fst]; rewrite I2, key_eqb_refl; reflexivity).
    discriminate (one_table d B A ma DA St Sy tb ta (CreateIndex i) _ P Db I1 Di).
  - assert (Nc : In c (ct_constraints t) -> ckey d (ct_name t) c = KIdx n).
    { intros _. unfold inner_name, inner_index in I3. destruct c as [| | |[m|]|]; try discriminate I3. inversion I3. unfold ckey, intable_key. cbn [is_idx con_ident con_name]. destruct d; reflexivity. }
    pose proof (tidy_in _ _ _ TA I1) as Tt. cbn [tidy_stmt] in Tt.
    assert (Dt : declares d (KIdx n) (CreateTable t) = true) by (rewrite <- (Nc I2); apply con_declared; [exact I2|exact (named_a d t Tt c I2)]).
    pose proof (one_table d B A ma DA St Sy tb ta (CreateTable t) _ P Db I1 Dt) as Z. inversion Z. subst t.
    specialize (Nc I2). rewrite <- Kn in Nc. rewrite !ckey_label in Nc. rewrite (label_key_same d (ct_name tb) (ct_name ta)) in Nc;
      [|apply (ti_name _ _ (tidy_table_spec _ _ Tb))|apply (ti_name _ _ (tidy_table_spec _ _ Ta))|apply P].
    apply label_key_inj in Nc. destruct Nc as [_ Nc]. rewrite <- Nc, (con_find d ta c Ta I2). discriminate.
Qed.
Lemma option_names : forall ta o v, In (CreateTable ta) A -> ma (KOpt (table_name ta) o) = Some v -> In o (map o_name (ct_options ta)).
Proof.
  intros ta o v Ha V. unfold table_name in V. rewrite (read_opt d A ma DA ta o Ha) in V. apply assoc_In in V. unfold table_entries in V.
  destruct V as [V|V]; [discriminate V|]. repeat rewrite in_app_iff in V. destruct V as [V|[V|[V|V]]].
  - apply in_map_iff in V. destruct V as [z [V _]]. discriminate V.
  - apply in_flat_map in V. destruct V as [c [_ V]]. destruct c as [[m|]|[m|]|[m|]|[m|] u pre cs post|[m|]]; cbn in V; try (destruct V as [V|[]]); try contradiction; discriminate V.
  - apply in_flat_map in V. destruct V as [z [Z V]]. unfold opt_entries in V.
    assert (E : o_name z = o) by (destruct d; [| |destruct (counter_option z); [destruct V|]|]; (destruct V as [V|[]]; inversion V; reflexivity)).
    rewrite <- E. apply in_map. exact Z.
  - unfold row_entries in V. destruct (ct_rowdel ta); [|destruct V]. destruct V as [V|[]]. discriminate V.
Qed.
Lemma option_there : forall tb o, In (CreateTable tb) B -> In o (ct_options tb) -> counter_option o = false -> mb (KOpt (table_name tb) (o_name o)) = Some (VOpt (etoks (o_value o))).
Proof.
  intros tb o Hb Ho C. unfold table_name. rewrite (read_opt d B mb DB tb (o_name o) Hb). apply opt_entry; [|exact Ho|intros _; exact C].
  exact (nodup_flat_stmt d B (CreateTable tb) (read_nodup d B mb DB) Hb).
Qed.

(** ** Nothing to do *)
Theorem core_same : d <> Crdb -> (forall k, mb k = ma k) -> core.
Proof.
  intros Nc EQ. pose proof (facts_same d B A mb ma DB DA TB TA St Sy EQ) as F. constructor.
  - exact (f_kind _ _ _ _ _ F).
  - exact (f_unused _ _ _ _ _ F).
  - exact (f_index _ _ _ _ _ F).
  - exact (f_table _ _ _ _ _ F).
  - exact (f_used _ _ _ _ _ F).
  - exact Nc.
  - intros _ tb ta b a P Hb Ha K _. assert (Htb : In (CreateTable tb) B) by (apply in_tables; apply P). assert (Hta : In (CreateTable ta) A) by (apply in_tables; apply P).
    pose proof (read_ckey d B mb tb b DB TB Htb Hb) as R1. pose proof (read_ckey d A ma ta a DA TA Hta Ha) as R2.
    assert (Kk : ckey d (ct_name tb) b = ckey d (ct_name ta) a).
    { pose proof (tidy_in _ _ _ TB Htb) as Tb. pose proof (tidy_in _ _ _ TA Hta) as Ta. cbn [tidy_stmt] in Tb, Ta.
      rewrite !ckey_label, K, (f_kind _ _ _ _ _ F tb ta b a P Hb Ha K). apply label_key_same; [apply (ti_name _ _ (tidy_table_spec _ _ Tb))|apply (ti_name _ _ (tidy_table_spec _ _ Ta))|apply P]. }
    rewrite Kk, EQ, R2 in R1. congruence.
  - intros _ tb ta b P Hb Ib. assert (Htb : In (CreateTable tb) B) by (apply in_tables; apply P).
    pose proof (read_ckey d B mb tb b DB TB Htb Hb) as R1. rewrite EQ in R1. exact (inner_home tb ta b _ P Hb Ib R1).
  - intros _ tb ta o P Ho C. assert (Htb : In (CreateTable tb) B) by (apply in_tables; apply P). assert (Hta : In (CreateTable ta) A) by (apply in_tables; apply P).
    pose proof (option_there tb o Htb Ho C) as R. rewrite EQ in R. replace (table_name tb) with (table_name ta) in R by (symmetry; apply P). exact (option_names ta _ _ Hta R).
  - intros _ ib ia Hb Ha E. pose proof (read_index d B mb DB ib Hb) as R1. pose proof (read_index d A ma DA ia Ha) as R2. rewrite <- EQ, <- E, R1 in R2. congruence.
  - intros _ ib Hb. pose proof (read_index d B mb DB ib Hb) as R1. rewrite EQ in R1. destruct (read_idx d A ma DA _ _ R1) as [[i [I1 [I2 _]]]|[t [c [I1 [I2 [I3 _]]]]]].
    + unfold index_names. rewrite <- I2. apply (in_map (fun i => qname (cx_name i))). apply in_indexes. exact I1.
    + exfalso. unfold same_style in St. apply andb_true_iff in St. destruct St as [_ St']. apply (disjoint_spec _ _ St' (qname (cx_name ib))).
      * unfold outer_indexes. apply in_flat_map. exists (CreateIndex ib). split; [exact Hb|left; reflexivity].
      * unfold inner_indexes. apply in_flat_map. exists (CreateTable t). split; [exact I1|]. apply in_flat_map. exists c. split; [exact I2|].
        unfold inner_name in I3. destruct (inner_index d (ct_name t) c) as [|z [|z' r]]; inversion I3. left. reflexivity.
Qed.

(** ** The difference reaches its target *)
Variable srt : list constraint -> list constraint.
Variable sdiff : string -> string -> string.
Hypothesis Hsrt : srt_ok srt.
Variable l : ddl.
Hypothesis H : diff d srt sdiff (Some B) (Some A) = DOk l.
Variable mf : db.
Hypothesis X : exec_all d l mb = Some mf.
Hypothesis EQ : db_eq mf ma.

Lemma keep_options : d = Sp -> forall tb ta, table_pair B A tb ta -> options_diff d (ct_options tb) = options_diff d (ct_options ta).
Proof.
  intros Z tb ta P. pose proof (Opt Z tb ta P) as S0. pose proof (proj1 (proj2 (proj2 (ordinary_parts d B OB)))) as FB. pose proof (proj1 (proj2 (proj2 (ordinary_parts d A OA)))) as FA.
  destruct (FB tb (proj1 P)) as [T1 _]. destruct (FA ta (proj1 (proj2 P))) as [T2 _]. unfold tidy_table in T1, T2. rewrite !andb_true_iff in T1, T2. rewrite Z in *.
  apply same_options_text; tauto.
Qed.

Theorem core_reached : d <> Crdb -> core.
Proof.
  intro Nc. pose proof keep_options as Keep. pose proof (placed_is_behind d B PB) as BB. pose proof (placed_is_behind d A PA) as BA.
  assert (Kind : forall tb ta b a, table_pair B A tb ta -> In b (ct_constraints tb) -> In a (ct_constraints ta) -> con_key b = con_key a -> is_idx b = is_idx a).
  { intros tb ta b a P Hb Ha K. exact (con_kind d srt sdiff Hsrt B A mb ma DB DA TB TA l H Keep mf X EQ tb ta b a P Hb Ha K St Sy). }
  assert (NoDrop : d = My -> forall c n, ~ In (DropIndex c false n) l) by (intros Z c n; pose proof X as X'; rewrite Z in X'; exact (my_no_drop_index l mb mf c n X')).
  constructor.
  - exact Kind.
  - intros tb ta b a c P Hb Ha K Hc F. exact (con_unused d srt sdiff Hsrt B A mb ma DB DA TB TA l H Keep mf X EQ tb ta b a c P Hb Ha K (Kind tb ta b a P Hb Ha K) Hc F).
  - exact (index_same d srt sdiff Hsrt B A mb ma DB DA TB TA l H mf X EQ).
  - intros i tb. exact (table_stays d srt sdiff Hsrt B A mb ma DB DA TB TA l H mf X EQ i tb BB).
  - intros i tb ta c. exact (index_unused d srt sdiff Hsrt B A mb ma DB DA TB TA l H Keep mf X EQ i tb ta c BB BA).
  - exact Nc.
  - intros Z tb ta b a P Hb Ha K Ib. pose proof (Kind tb ta b a P Hb Ha K) as Ki.
    pose proof (con_same d srt sdiff Hsrt B A mb ma DB DA TB TA l H Keep mf X EQ tb ta b a P Hb Ha K Ki) as Same.
    destruct (string_dec (constraint_diff d b) (constraint_diff d a)) as [T|T]; [exact (Same (or_introl T))|].
    destruct (pair_find d B A ma DA tb ta P) as [Htb [Hta [Fx E]]]. pose proof (tidy_in _ _ _ TA Hta) as Ta. cbn [tidy_stmt] in Ta.
    destruct (home d srt sdiff Hsrt B A mb ma DB DA TB TA l H _ _ Htb Fx) as [l1 [lt [l2 [B1 [B2 [L [Lt _]]]]]]].
    destruct (block_cases d srt sdiff B A mb ma DB DA TB TA l H Keep tb ta lt P Lt) as [[_ Y]|Y]; [exact (Same (or_intror Y))|exfalso].
    destruct (lt_phases d srt sdiff Hsrt tb ta Ta E lt Y) as [added [Lp _]].
    assert (Fa : find_constraint (con_key b) (ct_constraints ta) = Some a) by (rewrite K; apply (con_find d); assumption).
    assert (Ia : is_index d a = true) by (rewrite Z; destruct a; try (rewrite Ki in Ib; discriminate Ib); reflexivity).
    eapply (NoDrop Z). rewrite L, Lp. repeat rewrite in_app_iff. right. left. right. right. left. apply in_flat_map. exists b. split; [exact Hb|].
    unfold change_constraint. rewrite Fa, Ia. apply String.eqb_neq in T. unfold neqs, eqs. rewrite T. left. reflexivity.
  - intros Z tb ta b P Hb Ib Fa.
    destruct (pair_find d B A ma DA tb ta P) as [Htb [Hta [Fx E]]]. pose proof (tidy_in _ _ _ TA Hta) as Ta. cbn [tidy_stmt] in Ta.
    pose proof (tidy_in _ _ _ TB Htb) as Tb. cbn [tidy_stmt] in Tb.
    destruct (home d srt sdiff Hsrt B A mb ma DB DA TB TA l H _ _ Htb Fx) as [l1 [lt [l2 [B1 [B2 [L [Lt _]]]]]]].
    destruct (block_cases d srt sdiff B A mb ma DB DA TB TA l H Keep tb ta lt P Lt) as [[_ Y]|Y].
    + (* the tables print the same *)
      pose proof (ordinary_text d B A OB OA) as Tx. unfold text_ok in Tx. apply andb_true_iff in Tx. destruct Tx as [_ Tx].
      pose proof (all_pairs_in _ _ _ _ _ Tx tb ta (proj1 P) (proj1 (proj2 P)) (proj2 (proj2 P))) as Q. cbv beta in Q. rewrite Y, String.eqb_refl in Q.
      assert (Ob : objects d [CreateTable tb] = entries d [CreateTable tb]).
      { apply objects_entries; [reflexivity|]. intros t [T|[]]. injection T as T; rewrite <- T; exact (read_named d B mb DB tb Htb). }
      assert (Oa : objects d [CreateTable ta] = entries d [CreateTable ta]).
      { apply objects_entries; [reflexivity|]. intros t [T|[]]. injection T as T; rewrite <- T; exact (read_named d A ma DA ta Hta). }
      rewrite Ob, Oa in Q. unfold same_objects in Q. rewrite forallb_forall in Q.
      assert (I1 : In (ckey d (ct_name tb) b, cval d (ct_name tb) b) (entries d [CreateTable tb])).
      { unfold entries. cbn [flat_map]. rewrite app_nil_r. cbn [stmt_entries]. unfold table_entries. right. apply in_or_app. right. apply in_or_app. left.
        apply in_flat_map. exists b. split; [exact Hb|]. rewrite (con_entries_named d (ct_name tb) b (named_b d tb Tb b Hb)). left. reflexivity. }
      specialize (Q _ (in_or_app _ _ _ (or_introl I1))). apply same_eq in Q. cbn [fst] in Q. rewrite !lookup_assoc in Q.
      assert (Vb : assoc_key (ckey d (ct_name tb) b) (entries d [CreateTable tb]) = Some (cval d (ct_name tb) b)).
      { apply In_assoc; [|exact I1]. unfold entries. cbn [flat_map]. rewrite app_nil_r. exact (nodup_flat_stmt d B (CreateTable tb) (read_nodup d B mb DB) Htb). }
      rewrite Vb in Q. symmetry in Q. apply assoc_In in Q. unfold entries in Q. cbn [flat_map] in Q. rewrite app_nil_r in Q.
      pose proof (in_entries d A ma (CreateTable ta) _ _ DA Hta Q) as V. exact (inner_home tb ta b _ P Hb Ib V Fa).
    + destruct (lt_phases d srt sdiff Hsrt tb ta Ta E lt Y) as [added [Lp _]].
      assert (Ix : is_index d b = true) by (rewrite Z; destruct b; try discriminate Ib; reflexivity).
      eapply (NoDrop Z). rewrite L, Lp. repeat rewrite in_app_iff. right. left. left. apply in_flat_map. exists b. split; [exact Hb|].
      unfold drop_gone_constraint. rewrite Fa, Ix. left. reflexivity.
  - intros _ tb ta o P Ho C. assert (Htb : In (CreateTable tb) B) by (apply in_tables; apply P). assert (Hta : In (CreateTable ta) A) by (apply in_tables; apply P).
    assert (Et : table_name tb = table_name ta) by apply P.
    pose proof (option_there tb o Htb Ho C) as R. rewrite Et in R.
    assert (T : there (mf (KOpt (table_name ta) (o_name o)))).
    { apply (options_stay d l mb mf _ _ X); [|rewrite R; exact I].
      intros s Hs. split; [exact (no_renames d srt sdiff Hsrt B A TB TA l H s Hs)|]. exact (not_replaced d srt sdiff Hsrt B A mb ma DB DA TB TA l H Keep tb ta s P Hs). }
    rewrite EQ in T. destruct (ma (KOpt (table_name ta) (o_name o))) as [v|] eqn:V; [|destruct T]. exact (option_names ta _ v Hta V).
  - intros Z ib ia Hb Ha E. destruct (string_dec (create_index_diff d ib) (create_index_diff d ia)) as [T|T].
    + exact (index_same d srt sdiff Hsrt B A mb ma DB DA TB TA l H mf X EQ ib ia Hb Ha E T).
    + exfalso. pose proof (index_find d B A ma DA ib ia Hb Ha E) as F.
      destruct (home d srt sdiff Hsrt B A mb ma DB DA TB TA l H _ _ Hb F) as [l1 [lx [l2 [B1 [B2 [L [Lx _]]]]]]].
      unfold diff_stmt in Lx. rewrite F in Lx. apply String.eqb_neq in T. unfold neqs, eqs in Lx. rewrite T in Lx. inversion Lx; subst lx.
      eapply (NoDrop Z). rewrite L. apply in_or_app. right. left. reflexivity.
  - intros Z ib Hb. destruct (find_stmt (CreateIndex ib) A) as [h|] eqn:F.
    + pose proof (find_some _ _ F) as [Hh Sx]. cbn [same_type] in Sx. destruct h as [|ia| | |]; try discriminate Sx. cbn [andb] in Sx. apply eqs_eq in Sx.
      rewrite !stmt_name_index in Sx. rewrite Sx. unfold index_names. apply (in_map (fun i => qname (cx_name i))). apply in_indexes. exact Hh.
    + exfalso. destruct (diff_parts _ _ _ _ _ _ H) as [dr [cr [ch [H1 [_ [_ H4]]]]]]. pose proof (read_create d B mb DB) as CB.
      rewrite map_opt_drop in H1.
      2:{ rewrite forallb_forall in *. intros z Hz. apply Justified.only_left_in in Hz. apply CB. apply Hz. }
      injection H1 as H1. apply (NoDrop Z "" (cx_name ib)). rewrite H4, <- H1. apply in_or_app. left.
      change (DropIndex "" false (cx_name ib)) with (drop1 (CreateIndex ib)). apply in_map. apply Justified.only_left_in. auto.
Qed.
End Core.

Theorem ordinary_needed : forall d srt sdiff B A mb ma, d = My \/ d = Sp -> srt_ok srt -> describes d B mb -> describes d A ma ->
  ordinary d B = true -> ordinary d A = true -> same_style d B A = true -> inner_stay d B A = true -> placed d B = true -> placed d A = true ->
  (d = Sp -> forall tb ta, table_pair B A tb ta -> same_options (ct_options tb) (ct_options ta) = true) ->
  match diff d srt sdiff (Some B) (Some A) with
  | DOk stmts => exists m, exec_all d stmts mb = Some m /\ db_eq m ma
  | DNoDiff => db_eq mb ma
  | _ => False
  end -> safe_change d B A = true.
Proof.
  intros d srt sdiff B A mb ma Hd Hs DB DA OB OA St Sy PB PA Opt R.
  assert (Nc : d <> Crdb) by (destruct Hd as [Z|Z]; rewrite Z; discriminate).
  apply (core_safe d B A mb ma DB DA OB OA St Sy PB PA Opt).
  destruct (diff d srt sdiff (Some B) (Some A)) as [l| | |] eqn:E; try contradiction R.
  - destruct R as [mf [X EQ]]. exact (core_reached d B A mb ma DB DA OB OA St Sy PB PA Opt srt sdiff Hs l E mf X EQ Nc).
  - exact (core_same d B A mb ma DB DA OB OA St Sy PB PA Opt Nc R).
Qed.
