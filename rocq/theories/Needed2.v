(** The conditions under which a difference reaches its target are needed (for C72),
    second part: whole schemas. *)
From Coq Require Import Lia Permutation.
From Verif Require Import GoStr Token Ast Parser Diff Db DbFacts AppendFacts DiffTable DiffPair DiffSound
  Tidy TidyFacts DiffSame Reconcile ReconcileFacts Honest DiffSpec Justified Frame Shape InterruptFacts Needed.
Local Open Scope list_scope.

Lemma just_maker : forall d tb ta s k, tidy_table d ta = true -> conkey k -> just d tb ta (ct_name ta) s -> maker d k s ->
  declares d k (CreateTable ta) = true.
Proof.
  intros d tb ta s k Ta C J [v M].
  assert (Nm : forall c, In c (ct_constraints ta) -> con_named c = true)
    by (intros c H; exact (tidy_con_named d c (ti_con _ _ (tidy_table_spec _ _ Ta) c H))).
  destruct s as [|i| | |cm n a]; cbn [just] in J; try contradiction J.
  - destruct J as [c [[Hc _] [Hi _]]]. cbn [stmt_ops] in M. destruct M as [M|[]]. inversion M; subst k. pose proof (con_declared d ta c Hc (Nm c Hc)) as D.
    unfold inner_name, inner_index in Hi. destruct c as [| | |[m|]|]; try discriminate Hi. injection Hi as E. unfold ckey in D. cbn [is_idx] in D.
    unfold intable_key in D. cbn [con_ident con_name] in D. destruct d; rewrite E in D; exact D.
  - exfalso. exact (drop_no_maker d _ k C (ex_intro _ v M)).
  - destruct J as [E J]. subst n. cbn [stmt_ops] in M. destruct M as [M|M]; [discriminate M|].
    destruct a as [u|z y|z y|c0|z|z ty|z dv|z|z|z|c0 b0|nm|z b1 b2|c0|z ov|z ty nn|z ov|z|z|z|]; cbn [action_ops] in M; cbn [action_justified] in J;
      try contradiction J; try (destruct M as [M|[]]; inversion M; subst k; contradiction C); try (destruct M as [M|[]]; discriminate M).
    + destruct dv as [[l|]|]; destruct M as [M|[]]; discriminate M.
    + destruct J as [_ [Hc _]]. rewrite (con_ops_add d (ct_name ta) c0 (Nm c0 Hc)) in M. destruct M as [M|[]]. inversion M; subst k.
      exact (con_declared d ta c0 Hc (Nm c0 Hc)).
    + destruct nm; destruct M as [M|[]]; discriminate M.
Qed.

Lemma in_entries : forall d l m s k v, describes d l m -> In s l -> In (k, v) (stmt_entries d s) -> m k = Some v.
Proof.
  intros d l m s k v D Hs He. destruct (describes_entries d l m D) as [N [M _]]. rewrite M. apply In_assoc; [exact N|].
  unfold entries. apply in_flat_map. exists s. auto.
Qed.
Lemma read_ckey : forall d l m t c, describes d l m -> tidy d l = true -> In (CreateTable t) l -> In c (ct_constraints t) ->
  m (ckey d (ct_name t) c) = Some (cval d (ct_name t) c).
Proof.
  intros d l m t c D T Ht Hc. apply (in_entries d l m (CreateTable t)); [exact D|exact Ht|]. cbn [stmt_entries]. unfold table_entries. right.
  apply in_or_app. right. apply in_or_app. left. apply in_flat_map. exists c. split; [exact Hc|].
  pose proof (tidy_in _ _ _ T Ht) as Tt. rewrite (con_entries_named d (ct_name t) c (tidy_con_named d c (ti_con _ _ (tidy_table_spec _ _ Tt) c Hc))).
  left. reflexivity.
Qed.
Lemma not_declared : forall d l m k, describes d l m -> (forall s, In s l -> declares d k s = false) -> m k = None.
Proof.
  intros d l m k D H. destruct (describes_entries d l m D) as [_ [M _]]. rewrite M. destruct (assoc_key k (entries d l)) as [v|] eqn:E; [|reflexivity].
  apply assoc_In in E. unfold entries in E. apply in_flat_map in E. destruct E as [s [Hs E]]. specialize (H s Hs).
  assert (X : declares d k s = true) by (apply declares_In; exact (in_map fst _ _ E)). congruence.
Qed.

Section Whole.
Variable d : dialect.
Variable srt : list constraint -> list constraint.
Variable sdiff : string -> string -> string.
Hypothesis Hsrt : srt_ok srt.
Variables B A : ddl.
Variables mb ma : db.
Hypothesis DB : describes d B mb.
Hypothesis DA : describes d A ma.
Hypothesis TB : tidy d B = true.
Hypothesis TA : tidy d A = true.
Variable l : ddl.
Hypothesis H : diff d srt sdiff (Some B) (Some A) = DOk l.

Lemma no_renames : forall s, In s l -> no_rename s.
Proof. exact (diff_no_rename d srt sdiff B A l Hsrt TB TA H). Qed.

Lemma same_home : forall x h k, In x A -> In h A -> declares d k x = true -> declares d k h = true -> x = h.
Proof.
  intros x h k Hx Hh D1 D2. apply (belongs_eq d A k); try assumption; try (apply declares_belongs; assumption).
  - exact (read_create d A ma DA).
  - exact (read_nodup d A ma DA).
Qed.

(** The block of [x], and what is outside. *)
Lemma home : forall x h, In x B -> find_stmt x A = Some h ->
  exists l1 lx l2 B1 B2, l = l1 ++ lx ++ l2 /\ diff_stmt d srt sdiff x A = Ok lx /\ B = B1 ++ x :: B2 /\
    (forall y, In y B -> find_stmt y A = None -> In (drop1 y) l1) /\
    (forall y ly s, In y B1 -> diff_stmt d srt sdiff y A = Ok ly -> In s ly -> In s l1) /\
    forall s k, In s (l1 ++ l2) -> conkey k -> declares d k h = true -> ~ maker d k s.
Proof.
  intros x h Hx F. pose proof (find_some _ _ F) as [Hh Sx]. change (same_object x h = true) in Sx.
  pose proof (read_create d B mb DB) as CB. pose proof (read_create d A ma DA) as CA.
  assert (Cx : is_create x = true) by (rewrite forallb_forall in CB; apply CB; exact Hx).
  destruct (diff_parts _ _ _ _ _ _ H) as [dr [cr [ch [H1 [H2 [H3 H4]]]]]].
  pose proof (in_split _ _ Hx) as [B1 [B2 E]]. rewrite E, diff_stmts_app in H3.
  destruct (diff_stmts d srt sdiff B1 A) as [c1| | |] eqn:E1; cbn [bind] in H3; try discriminate H3. cbn [diff_stmts] in H3.
  destruct (diff_stmt d srt sdiff x A) as [lx| | |] eqn:Ex; cbn [bind] in H3; try discriminate H3.
  destruct (diff_stmts d srt sdiff B2 A) as [c2| | |] eqn:E2; cbn [bind] in H3; try discriminate H3. inversion H3; subst ch.
  exists (dr ++ cr ++ c1), lx, c2, B1, B2. split; [subst l; rewrite <- !app_assoc; reflexivity|]. split; [reflexivity|]. split; [exact E|]. split; [|split].
  - intros y Hy Fy. apply in_or_app. left. assert (X : In y (only_left_stmts B A)) by (apply Justified.only_left_in; auto).
    rewrite map_opt_drop in H1; [inversion H1; apply in_map; exact X|]. rewrite forallb_forall in *. intros z Hz. apply Justified.only_left_in in Hz. apply CB. apply Hz.
  - intros y ly s Hy Dy Hs. apply in_or_app. right. apply in_or_app. right. clear -E1 Hy Dy Hs. revert c1 E1. induction B1 as [|z r IH]; intros c1 E1; [destruct Hy|].
    cbn [diff_stmts] in E1. destruct (diff_stmt d srt sdiff z A) as [lz| | |] eqn:Ez; cbn [bind] in E1; try discriminate E1.
    destruct (diff_stmts d srt sdiff r A) as [lr| | |] eqn:Er; cbn [bind] in E1; try discriminate E1. inversion E1. apply in_or_app.
    destruct Hy as [Hy|Hy]; [left; subst z; congruence|right; apply (IH Hy lr eq_refl)].
  - intros s k Hs C Dh M.
    assert (Other : forall y ly, In y (B1 ++ B2) -> diff_stmt d srt sdiff y A = Ok ly -> In s ly -> False).
    { intros y ly Hy Dy Hl. destruct (others_ne d B mb DB B1 x B2 E y Hy) as [HyB Ne].
      destruct (diff_stmt_block d srt sdiff B A y ly s Hsrt TB TA HyB Dy Hl) as [[ib [ia [Y1 [Y2 [Y3 [_ Y4]]]]]]|[tb [ta [Y1 [Y2 [Y3 Y4]]]]]].
      - destruct Y4 as [[c Y4]|Y4]; subst s; [exact (drop_no_maker d _ k C M)|].
        pose proof (create_maker d (CreateIndex ia) k C eq_refl M) as D1. pose proof (same_home _ _ k Y2 Hh D1 Dh) as X. subst h y.
        destruct x as [|ix| | |]; try discriminate Sx; try discriminate Cx. unfold same_object in *. cbn [same_type andb] in *. rewrite stmt_name_index, stmt_name_index in *.
        apply String.eqb_eq in Sx. rewrite Y3, <- Sx in Ne. unfold eqs in Ne. rewrite String.eqb_refl in Ne. discriminate Ne.
      - assert (D1 : declares d k (CreateTable ta) = true).
        { destruct Y4 as [[_ [_ [[c Y4]|Y4]]]|[Y4|Y4]].
          - subst s. destruct (drop_no_maker d _ k C M).
          - subst s. apply create_maker; [exact C|reflexivity|exact M].
          - pose proof (tidy_in _ _ _ TA Y2) as Ta. exact (just_maker d tb ta s k Ta C Y4 M).
          - exfalso. destruct Y4 as [b0 [a0 [_ [_ [_ [_ Y4]]]]]]. destruct s as [| | |cm ie n|cm n a]; try contradiction Y4; [exact (drop_no_maker d _ k C M)|].
            destruct a; try contradiction Y4. destruct M as [v M]. cbn [stmt_ops action_ops] in M. destruct name; destruct M as [M|[M|[]]]; discriminate M. }
        pose proof (same_home _ _ k Y2 Hh D1 Dh) as X. subst h y.
        destruct x as [tx| | | |]; try discriminate Sx; try discriminate Cx. unfold same_object in *. cbn [same_type andb] in *. rewrite stmt_name_table, stmt_name_table in *.
        apply String.eqb_eq in Sx. rewrite Y3, <- Sx in Ne. unfold eqs in Ne. rewrite String.eqb_refl in Ne. discriminate Ne. }
    apply in_app_or in Hs. destruct Hs as [Hs|Hs].
    + apply in_app_or in Hs. destruct Hs as [Hs|Hs]; [|apply in_app_or in Hs; destruct Hs as [Hs|Hs]].
      * destruct (map_opt_in _ _ _ _ _ _ H1 Hs) as [y [X1 X2]]. destruct y; try discriminate X2; inversion X2; subst s; exact (drop_no_maker d _ k C M).
      * destruct (map_opt_in _ _ _ _ _ _ H2 Hs) as [y [X1 X2]]. apply Justified.only_left_in in X1. destruct X1 as [X1 X3].
        assert (y = s /\ is_create s = true) as [X4 X5] by (destruct y; cbn [create_stmt] in X2; try discriminate X2; inversion X2; subst; split; reflexivity).
        subst y. pose proof (create_maker d s k C X5 M) as D1. pose proof (same_home _ _ k X1 Hh D1 Dh) as X. subst h.
        pose proof (find_stmt_none _ _ X3 x Hx) as G. clear -Sx G Cx X5. unfold same_object in *.
        destruct x as [tx|ix| | |], s as [ts|is_| | |]; try discriminate Sx; try discriminate Cx; cbn [same_type andb] in *;
        rewrite ?stmt_name_table, ?stmt_name_index in *; apply String.eqb_eq in Sx; rewrite Sx in G; unfold eqs in G; rewrite String.eqb_refl in G; discriminate G.
      * destruct (diff_stmts_in _ _ _ _ _ _ _ E1 Hs) as [y [l' [Y1 [Y2 Y3]]]]. apply (Other y l'); [apply in_or_app; left; exact Y1|exact Y2|exact Y3].
    + destruct (diff_stmts_in _ _ _ _ _ _ _ E2 Hs) as [y [l' [Y1 [Y2 Y3]]]]. apply (Other y l'); [apply in_or_app; right; exact Y1|exact Y2|exact Y3].
Qed.

Lemma pair_find : forall tb ta, table_pair B A tb ta -> In (CreateTable tb) B /\ In (CreateTable ta) A /\
  find_stmt (CreateTable tb) A = Some (CreateTable ta) /\ qname (ct_name tb) = qname (ct_name ta).
Proof.
  intros tb ta [Hb [Ha E]]. apply in_tables in Hb. apply in_tables in Ha. split; [exact Hb|]. split; [exact Ha|]. split; [|exact E].
  apply (find_stmt_unique d); [exact (read_create d A ma DA)|exact (read_nodup d A ma DA)|reflexivity|exact Ha|]. apply same_table. exact E.
Qed.
Lemma same_tb : forall tb tb', In (CreateTable tb) B -> In (CreateTable tb') B -> qname (ct_name tb) = qname (ct_name tb') -> tb = tb'.
Proof.
  intros tb tb' H1 H2 E. assert (K : CreateTable tb = CreateTable tb'); [|congruence].
  apply (belongs_eq d B (KTab (qname (ct_name tb)))); try assumption.
  - exact (read_create d B mb DB).
  - exact (read_nodup d B mb DB).
  - unfold belongs. cbn [owner]. apply String.eqb_refl.
  - unfold belongs. cbn [owner]. apply String.eqb_eq. congruence.
Qed.
Lemma same_ta : forall tb tb', In (CreateTable tb) A -> In (CreateTable tb') A -> qname (ct_name tb) = qname (ct_name tb') -> tb = tb'.
Proof.
  intros tb tb' H1 H2 E. assert (K : CreateTable tb = CreateTable tb'); [|congruence].
  apply (belongs_eq d A (KTab (qname (ct_name tb)))); try assumption.
  - exact (read_create d A ma DA).
  - exact (read_nodup d A ma DA).
  - unfold belongs. cbn [owner]. apply String.eqb_refl.
  - unfold belongs. cbn [owner]. apply String.eqb_eq. congruence.
Qed.

(** The object that the constraint of after stands for is not there before, when the
    one of before is of the other kind. *)
Lemma other_kind_none : forall tb ta b a, table_pair B A tb ta -> In b (ct_constraints tb) -> In a (ct_constraints ta) -> con_key b = con_key a ->
  is_idx b <> is_idx a -> same_style d B A = true -> inner_stay d B A = true -> mb (ckey d (ct_name ta) a) = None.
Proof.
  clear H l. intros tb ta b a P Hb Ha K Y St Sy. destruct (pair_find tb ta P) as [Htb [Hta [F E]]].
  pose proof (tidy_in _ _ _ TB Htb) as Tb. pose proof (tidy_in _ _ _ TA Hta) as Ta. cbn [tidy_stmt] in Tb, Ta.
  assert (Ck : conkey (ckey d (ct_name ta) a)) by (rewrite ckey_label; apply label_key_conkey).
  apply (not_declared d B mb _ DB). intros s Hs. destruct (declares d (ckey d (ct_name ta) a) s) eqn:D; [exfalso|reflexivity].
  pose proof (tidy_in _ _ _ TB Hs) as Ts.
  destruct s as [t|i| | |]; try discriminate D.
  - (* declared by a table of before *)
    apply declares_In in D. apply in_map_iff in D. destruct D as [[k v] [Dk D]]. cbn [fst] in Dk. subst k. cbn [stmt_entries] in D. unfold table_entries in D.
    cbn [tidy_stmt] in Ts.
    assert (exists c, In c (ct_constraints t) /\ ckey d (ct_name t) c = ckey d (ct_name ta) a) as [c [Hc Kc]].
    { destruct D as [D|D]; [inversion D as [[D1 D2]]; rewrite <- D1 in Ck; contradiction Ck|]. repeat rewrite in_app_iff in D. destruct D as [D|[D|[D|D]]].
      - apply in_map_iff in D. destruct D as [z [D _]]. inversion D as [[D1 D2]]. rewrite <- D1 in Ck. contradiction Ck.
      - apply in_flat_map in D. destruct D as [c [D1 D2]]. exists c. split; [exact D1|].
        rewrite (con_entries_named d (ct_name t) c (named_b d t Ts c D1)) in D2. destruct D2 as [D2|[]]. congruence.
      - apply in_flat_map in D. destruct D as [z [_ D]]. unfold opt_entries in D. destruct d; try (destruct D; fail).
        + destruct D as [D|[]]. inversion D as [[D1 D2]]. rewrite <- D1 in Ck. contradiction Ck.
        + destruct D as [D|[]]. inversion D as [[D1 D2]]. rewrite <- D1 in Ck. contradiction Ck.
        + destruct (counter_option z); [destruct D|]. destruct D as [D|[]]. inversion D as [[D1 D2]]. rewrite <- D1 in Ck. contradiction Ck.
        + destruct D as [D|[]]. inversion D as [[D1 D2]]. rewrite <- D1 in Ck. contradiction Ck.
      - unfold row_entries in D. destruct (ct_rowdel t); [|destruct D]. destruct D as [D|[]]. inversion D as [[D1 D2]]. rewrite <- D1 in Ck. contradiction Ck. }
    assert (t = tb \/ (is_idx a = true /\ qname (ct_name t) <> qname (ct_name ta))) as [Z|[Z1 Z2]].
    { destruct (string_dec (qname (ct_name t)) (qname (ct_name ta))) as [Z|Z]; [left; apply same_tb; [exact Hs|exact Htb|congruence]|right].
      split; [|exact Z]. destruct (is_idx a) eqn:Ia; [reflexivity|]. exfalso. unfold ckey in Kc. rewrite Ia in Kc. destruct (is_idx c); inversion Kc. contradiction. }
    + subst t. rewrite !ckey_label in Kc. rewrite (label_key_same d (ct_name tb) (ct_name ta)) in Kc;
        [|apply (ti_name _ _ (tidy_table_spec _ _ Tb))|apply (ti_name _ _ (tidy_table_spec _ _ Ta))|exact E].
      apply label_key_inj in Kc. destruct Kc as [K1 K2]. pose proof (con_find d tb c Tb Hc) as F1. pose proof (con_find d tb b Tb Hb) as F2. rewrite K2, <- K in F1. congruence.
    + (* an index of another table *)
      assert (Ic : is_idx c = true) by (unfold ckey in Kc; rewrite Z1 in Kc; destruct (is_idx c); [reflexivity|discriminate Kc]).
      unfold inner_stay in Sy. rewrite forallb_forall in Sy. specialize (Sy t (proj2 (in_tables B t) Hs)). rewrite forallb_forall in Sy.
      specialize (Sy ta (proj2 (in_tables A ta) Hta)). apply String.eqb_neq in Z2. unfold table_name in Sy. rewrite Z2 in Sy. cbn [orb] in Sy.
      assert (Y1 : forall t c, In c (ct_constraints t) -> con_named c = true -> is_idx c = true -> forall n, ckey d (ct_name t) c = KIdx n -> In n (inner_indexes d [CreateTable t])).
      { intros t0 c0 Hc0 Nc0 Ic0 n Kn. unfold inner_indexes. cbn [flat_map]. rewrite app_nil_r. apply in_flat_map. exists c0. split; [exact Hc0|].
        destruct c0 as [| | |[m|]|]; try discriminate Ic0; try discriminate Nc0. cbn [inner_index]. left. unfold ckey in Kn. cbn [is_idx] in Kn. unfold intable_key in Kn. cbn in Kn.
        destruct d; inversion Kn; reflexivity. }
      assert (exists n, ckey d (ct_name ta) a = KIdx n) as [n Kn] by (unfold ckey; rewrite Z1; unfold intable_key; destruct d; eexists; reflexivity).
      pose proof (Y1 t c Hc (named_b d t Ts c Hc) Ic n (eq_trans Kc Kn)) as I1. pose proof (Y1 ta a Ha (named_a d ta Ta a Ha) Z1 n Kn) as I2.
      exact (disjoint_spec _ _ Sy n I1 I2).
  - (* declared by CREATE INDEX *)
    unfold declares in D. cbn [stmt_entries existsb fst] in D. rewrite orb_false_r in D. apply key_eqb_eq in D.
    assert (Ia : is_idx a = true) by (unfold ckey in D; destruct (is_idx a); [reflexivity|discriminate D]).
    unfold same_style in St. apply andb_true_iff in St. destruct St as [_ St].
    apply (disjoint_spec _ _ St (qname (cx_name i))).
    + unfold outer_indexes. apply in_flat_map. exists (CreateIndex i). split; [exact Hs|left; reflexivity].
    + unfold inner_indexes. apply in_flat_map. exists (CreateTable ta). split; [exact Hta|]. apply in_flat_map. exists a. split; [exact Ha|].
      pose proof (named_a d ta Ta a Ha) as Na. destruct a as [| | |[m|]|]; try discriminate Ia; try discriminate Na. cbn [inner_index]. left.
      unfold ckey in D. cbn [is_idx] in D. unfold intable_key in D. cbn in D. destruct d; inversion D; reflexivity.
Qed.

(** No table is re-created. *)
Hypothesis Keep : d = Sp -> forall tb ta, table_pair B A tb ta -> options_diff d (ct_options tb) = options_diff d (ct_options ta).

Lemma block_cases : forall tb ta lt, table_pair B A tb ta -> diff_stmt d srt sdiff (CreateTable tb) A = Ok lt ->
  (lt = [] /\ create_table_string d tb = create_table_string d ta) \/ diff_tables d srt sdiff false tb ta = Ok lt.
Proof.
  intros tb ta lt P L. destruct (pair_find tb ta P) as [_ [_ [F _]]]. unfold diff_stmt in L. rewrite F in L. unfold diff_create_table in L.
  replace (match d with Sp => neqs (options_diff d (ct_options tb)) (options_diff d (ct_options ta)) | _ => false end) with false in L.
  - destruct (eqs (create_table_string d tb) (create_table_string d ta)) eqn:E; [left; inversion L; split; [reflexivity|apply eqs_eq; exact E]|].
    destruct (_ && _); [|discriminate L]. destruct (diff_tables d srt sdiff false tb ta) as [[|s r]| | |]; try discriminate L; right; inversion L; reflexivity.
  - destruct d eqn:Ed; try reflexivity. rewrite (Keep eq_refl tb ta P). symmetry. apply neqs_refl.
Qed.

(** Statements about a table that stays. *)
Lemma alter_home : forall tb ta lt s, table_pair B A tb ta -> diff_stmt d srt sdiff (CreateTable tb) A = Ok lt -> In s l ->
  mentions_table (table_name ta) s = true -> In s lt.
Proof.
  intros tb ta lt s P L Hs M. destruct (pair_find tb ta P) as [Hb [Ha [F E]]].
  destruct (diff_in d srt sdiff B A l s H Hs) as [[x [X1 [X2 X3]]]|[[X1 [X2 X3]]|[x [lx [X1 [X2 X3]]]]]].
  - exfalso. destruct x as [t|i| | |]; try discriminate X3; inversion X3; subst s; cbn [mentions_table] in M; [|discriminate M].
    apply String.eqb_eq in M. unfold table_name in M. rewrite <- E in M. pose proof (same_tb t tb X1 Hb M) as Z. subst t. congruence.
  - exfalso. destruct s as [t|i| | |]; try discriminate X3; cbn [mentions_table] in M; [|discriminate M].
    apply String.eqb_eq in M. pose proof (find_stmt_none _ _ X2 _ Hb) as Z. unfold table_name in M. rewrite <- E in M.
    rewrite (same_table t tb M) in Z. discriminate Z.
  - destruct (diff_stmt_block d srt sdiff B A x lx s Hsrt TB TA X1 X2 X3) as [[ib [ia [Y1 [Y2 [Y3 [_ Y4]]]]]]|[tb' [ta' [Y1 [Y2 [Y3 Y4]]]]]].
    + destruct Y4 as [[c Y4]|Y4]; subst s; discriminate M.
    + assert (N : mentions_table (qname (ct_name ta')) s = true -> qname (ct_name ta') = qname (ct_name ta)).
      { intro N. destruct s; cbn [mentions_table] in *; try discriminate M; apply String.eqb_eq in M; apply String.eqb_eq in N; unfold table_name in *; congruence. }
      assert (N' : mentions_table (qname (ct_name ta')) s = true).
      { destruct Y4 as [[_ [_ [[c Y4]|Y4]]]|[Y4|Y4]].
        - subst s. cbn [mentions_table]. apply String.eqb_eq. exact Y3.
        - subst s. cbn [mentions_table]. apply String.eqb_refl.
        - destruct s; try discriminate M; cbn [just] in Y4; try contradiction Y4. destruct Y4 as [Y4 _]. subst. apply String.eqb_refl.
        - destruct s; try discriminate M; destruct Y4 as [b0 [a0 [_ [_ [_ [_ Y4]]]]]]; try contradiction Y4. destruct a; try contradiction Y4.
          destruct Y4 as [Y4 _]. subst. apply String.eqb_refl. }
      specialize (N N'). subst x. assert (tb' = tb) by (apply same_tb; [exact X1|exact Hb|congruence]). subst tb'. congruence.
Qed.

Lemma not_replaced : forall tb ta s, table_pair B A tb ta -> In s l -> ~ replaces_table (table_name ta) s.
Proof.
  intros tb ta s P Hs R. destruct (pair_find tb ta P) as [Hb [Ha [F E]]].
  assert (M : mentions_table (table_name ta) s = true) by (destruct s; try contradiction R; cbn [mentions_table replaces_table] in *; apply String.eqb_eq; exact R).
  destruct (home _ _ Hb F) as [l1 [lt [l2 [B1 [B2 [_ [Lt _]]]]]]]. pose proof (alter_home tb ta lt s P Lt Hs M) as I.
  destruct (block_cases tb ta lt P Lt) as [[Z _]|Z]; [subst lt; destruct I|].
  pose proof (tidy_in _ _ _ TB Hb) as Tb. pose proof (tidy_in _ _ _ TA Ha) as Ta.
  destruct (tables_loose d srt sdiff Hsrt tb ta Tb Ta E false lt s Z I) as [J|J].
  - pose proof (just_no_table _ _ _ _ _ J). destruct s; try contradiction R; contradiction.
  - pose proof (swapped_no_table _ _ _ _ _ J). destruct s; try contradiction R; contradiction.
Qed.

Variable mf : db.
Hypothesis X : exec_all d l mb = Some mf.
Hypothesis EQ : db_eq mf ma.

(** A constraint on both sides. *)
Lemma con_core : forall tb ta b a, table_pair B A tb ta -> In b (ct_constraints tb) -> find_constraint (con_key b) (ct_constraints ta) = Some a ->
  exists p q r, l = p ++ q ++ r /\
    (q = [] \/ (constraint_diff d b <> constraint_diff d a /\ exists s s', q = [s; s'] /\ needs d (ckey d (ct_name ta) a) s)) /\
    (forall lt, diff_stmt d srt sdiff (CreateTable tb) A = Ok lt -> lt <> [] ->
       forall s, In s (diff_columns d sdiff (ct_name ta) (ct_columns tb) (ct_columns ta)) -> In s p) /\
    forall s, In s (p ++ r) -> ~ maker d (ckey d (ct_name ta) a) s.
Proof.
  intros tb ta b a P Hb Fa. destruct (pair_find tb ta P) as [Htb [Hta [F E]]]. destruct (find_con_some _ _ _ Fa) as [Ha Hk].
  pose proof (tidy_in _ _ _ TB Htb) as Tb. pose proof (tidy_in _ _ _ TA Hta) as Ta. cbn [tidy_stmt] in Tb, Ta.
  destruct (home _ _ Htb F) as [l1 [lt [l2 [B1 [B2 [L [Lt [_ [_ [_ Out]]]]]]]]]].
  assert (Dk : declares d (ckey d (ct_name ta) a) (CreateTable ta) = true) by (apply con_declared; [exact Ha|exact (named_a d ta Ta a Ha)]).
  assert (Ck : conkey (ckey d (ct_name ta) a)) by (rewrite ckey_label; apply label_key_conkey).
  destruct (block_cases tb ta lt P Lt) as [[Z _]|Z].
  - subst lt. exists l1, [], l2. split; [exact L|]. split; [left; reflexivity|]. split.
    + intros lt Lt'. rewrite Lt in Lt'. inversion Lt'. subst. intro F'. destruct (F' eq_refl).
    + intros s Hs. exact (Out s _ Hs Ck Dk).
  - destruct (con_segment d srt sdiff Hsrt tb ta Tb Ta E lt Z b a Hb Fa) as [m1 [m2 [S1 [S2 S3]]]].
    exists (l1 ++ m1), (change_constraint d sdiff false (ct_name tb) (ct_name ta) (ct_constraints ta) b), (m2 ++ l2).
    split; [rewrite L, S1; rewrite <- !app_assoc; reflexivity|]. split; [|split].
    + unfold change_constraint. rewrite Fa. destruct (neqs _ _) eqn:N; [|left; reflexivity]. right. apply neqs_neq in N. split; [exact N|].
      assert (Lb : label_key d (ct_name tb) (is_idx a) (con_key b) = ckey d (ct_name ta) a).
      { rewrite ckey_label, <- Hk. apply label_key_same; [apply (ti_name _ _ (tidy_table_spec _ _ Tb))|apply (ti_name _ _ (tidy_table_spec _ _ Ta))|exact E]. }
      destruct (is_index d a) eqn:Ix; eexists; eexists; (split; [reflexivity|]).
      * assert (Ia : is_idx a = true) by (destruct d, a; try discriminate Ix; reflexivity). rewrite Ia in Lb. rewrite <- Lb.
        replace (label_key d (ct_name tb) true (con_key b)) with (KIdx (qname (index_objname d (on_schema (ct_name tb)) (con_ident b)))); [apply needs_index|].
        unfold label_key, index_objname, con_key. destruct d; try reflexivity.
      * assert (Ia : is_idx a = false) by (rewrite <- (index_tidy d tb ta Tb Ta ta a Ta Ha); exact Ix). rewrite Ia in Lb. rewrite <- Lb.
        unfold label_key. rewrite E. pose proof (named_b d tb Tb b Hb) as Nb. unfold con_named in Nb. unfold con_key, con_ident. destruct (con_name b) as [i|] eqn:Cn; [|discriminate Nb].
        apply needs_con.
    + intros lt' _ _ s Hs. apply in_or_app. right. apply S2. exact Hs.
    + intros s Hs. assert (In s (l1 ++ l2) \/ In s (m1 ++ m2)) as [Hs'|Hs'].
      { repeat rewrite in_app_iff in *. tauto. }
      * exact (Out s _ Hs' Ck Dk).
      * rewrite ckey_label, Hk. apply S3. exact Hs'.
Qed.

Lemma sub_renames : forall p, (forall s, In s p -> In s l) -> forall s, In s p -> no_rename s.
Proof. intros p Hp s Hs. apply no_renames. apply Hp. exact Hs. Qed.

Lemma con_after : forall tb ta b a, table_pair B A tb ta -> In b (ct_constraints tb) -> find_constraint (con_key b) (ct_constraints ta) = Some a ->
  exists p q r mp, l = p ++ q ++ r /\ exec_all d p mb = Some mp /\ mp (ckey d (ct_name ta) a) <> None /\
    (forall lt, diff_stmt d srt sdiff (CreateTable tb) A = Ok lt -> lt <> [] ->
       forall s, In s (diff_columns d sdiff (ct_name ta) (ct_columns tb) (ct_columns ta)) -> In s p) /\
    forall s, In s p -> no_rename s /\ ~ maker d (ckey d (ct_name ta) a) s.
Proof.
  intros tb ta b a P Hb Fa. destruct (con_core tb ta b a P Hb Fa) as [p [q [r [L [Q [Cols Mk]]]]]]. destruct (pair_find tb ta P) as [Htb [Hta [F E]]].
  destruct (find_con_some _ _ _ Fa) as [Ha Hk].
  assert (Ck : conkey (ckey d (ct_name ta) a)) by (rewrite ckey_label; apply label_key_conkey).
  assert (Nr : forall s, In s (p ++ q ++ r) -> no_rename s) by (intros s Hs; apply no_renames; rewrite L; exact Hs).
  pose proof X as X'. rewrite L, exec_all_app in X'. destruct (exec_all d p mb) as [mp|] eqn:Ep; [|discriminate X'].
  exists p, q, r, mp. split; [exact L|]. split; [exact Ep|]. split; [|split; [exact Cols|]].
  - intro V. rewrite exec_all_app in X'. destruct Q as [Q|[_ [s [s' [Q N]]]]].
    + subst q. cbn [exec_all] in X'. assert (Z : mf (ckey d (ct_name ta) a) = None).
      { apply (none_stays d _ r mp mf Ck X'); [|exact V]. intros s Hs. split; [apply Nr; apply in_or_app; right; exact Hs|apply Mk; apply in_or_app; right; exact Hs]. }
      rewrite EQ, (read_ckey d A ma ta a DA TA Hta Ha) in Z. discriminate Z.
    + subst q. cbn [exec_all] in X'. rewrite (N mp V) in X'. discriminate X'.
  - intros s Hs. split; [apply Nr; apply in_or_app; left; exact Hs|apply Mk; apply in_or_app; left; exact Hs].
Qed.

(** Constraints that look the same are the same. *)
Lemma con_same : forall tb ta b a, table_pair B A tb ta -> In b (ct_constraints tb) -> In a (ct_constraints ta) -> con_key b = con_key a ->
  is_idx b = is_idx a -> constraint_diff d b = constraint_diff d a \/ create_table_string d tb = create_table_string d ta ->
  cval d (ct_name tb) b = cval d (ct_name ta) a.
Proof.
  intros tb ta b a P Hb Ha K I T. destruct (pair_find tb ta P) as [Htb [Hta [F E]]].
  pose proof (tidy_in _ _ _ TB Htb) as Tb. pose proof (tidy_in _ _ _ TA Hta) as Ta. cbn [tidy_stmt] in Tb, Ta.
  assert (Fa : find_constraint (con_key b) (ct_constraints ta) = Some a) by (rewrite K; apply (con_find d); assumption).
  assert (Ck : conkey (ckey d (ct_name ta) a)) by (rewrite ckey_label; apply label_key_conkey).
  assert (Kk : ckey d (ct_name tb) b = ckey d (ct_name ta) a).
  { rewrite !ckey_label, K, I. apply label_key_same; [apply (ti_name _ _ (tidy_table_spec _ _ Tb))|apply (ti_name _ _ (tidy_table_spec _ _ Ta))|exact E]. }
  assert (All : forall s, In s l -> no_rename s /\ ~ maker d (ckey d (ct_name ta) a) s).
  { intros s Hs. split; [apply no_renames; exact Hs|].
    destruct T as [T|T].
    - destruct (con_core tb ta b a P Hb Fa) as [p [q [r [L [Q [Cols Mk]]]]]]. destruct Q as [Q|[Q _]]; [|contradiction]. subst q. apply Mk. rewrite L in Hs. exact Hs.
    - destruct (home _ _ Htb F) as [l1 [lt [l2 [B1 [B2 [L [Lt [_ [_ [_ Out]]]]]]]]]].
      assert (lt = []) as Z.
      { pose proof Lt as Lt'. unfold diff_stmt in Lt'. rewrite F in Lt'. unfold diff_create_table in Lt'.
        replace (match d with Sp => neqs (options_diff d (ct_options tb)) (options_diff d (ct_options ta)) | _ => false end) with false in Lt'.
        - rewrite T, eqs_refl in Lt'. congruence.
        - destruct d eqn:Ed; try reflexivity. rewrite (Keep eq_refl tb ta P). symmetry. apply neqs_refl. }
      subst lt. apply (Out s); [rewrite L in Hs; exact Hs|exact Ck|]. apply con_declared; [exact Ha|exact (named_a d ta Ta a Ha)]. }
  pose proof (read_ckey d A ma ta a DA TA Hta Ha) as Ra. pose proof (read_ckey d B mb tb b DB TB Htb Hb) as Rb. rewrite Kk in Rb.
  destruct (shrink_all d _ l mb mf Ck X All) as [Z|Z]; rewrite EQ in Z; congruence.
Qed.

(** No constraint turns into an index. *)
Lemma con_kind : forall tb ta b a, table_pair B A tb ta -> In b (ct_constraints tb) -> In a (ct_constraints ta) -> con_key b = con_key a ->
  same_style d B A = true -> inner_stay d B A = true -> is_idx b = is_idx a.
Proof.
  intros tb ta b a P Hb Ha K St Sy. destruct (Bool.bool_dec (is_idx b) (is_idx a)) as [Y|Y]; [exact Y|exfalso].
  destruct (pair_find tb ta P) as [Htb [Hta [F E]]].
  pose proof (tidy_in _ _ _ TB Htb) as Tb. pose proof (tidy_in _ _ _ TA Hta) as Ta. cbn [tidy_stmt] in Tb, Ta.
  assert (Fa : find_constraint (con_key b) (ct_constraints ta) = Some a) by (rewrite K; apply (con_find d); assumption).
  destruct (con_after tb ta b a P Hb Fa) as [p [q [r [mp [L [Ep [V [_ Mk]]]]]]]].
  assert (Ck : conkey (ckey d (ct_name ta) a)) by (rewrite ckey_label; apply label_key_conkey).
  apply V. apply (none_stays d _ p mb mp Ck Ep Mk).
  apply (other_kind_none tb ta b a P Hb Ha K Y St Sy).
Qed.

(** A column that is gone is dropped in the block of its table. *)
Lemma gone_dropped : forall tb ta c lt, table_pair B A tb ta -> In c (ct_columns tb) -> find_column (id_name (c_name c)) (ct_columns ta) = None ->
  diff_stmt d srt sdiff (CreateTable tb) A = Ok lt ->
  keep_hidden d c = false /\ lt <> [] /\
  exists cm, In (AlterTable cm (ct_name ta) (DropColumn (c_name c))) (diff_columns d sdiff (ct_name ta) (ct_columns tb) (ct_columns ta)).
Proof.
  intros tb ta c lt P Hc Fc Lt. destruct (pair_find tb ta P) as [Htb [Hta [F E]]].
  pose proof (tidy_in _ _ _ TB Htb) as Tb. pose proof (tidy_in _ _ _ TA Hta) as Ta. cbn [tidy_stmt] in Tb, Ta.
  set (T := qname (ct_name ta)). set (n := id_name (c_name c)). pose proof Fc as Fc'. fold n in Fc'.
  assert (Rem : (forall s, In s l -> ~ removes_column T n s) -> False).
  { intro N.
    assert (Z : forall p m m', (forall s, In s p -> In s l) -> exec_all d p m = Some m' -> there (m (KCol T n)) -> there (m' (KCol T n))).
    { induction p as [|s p IH]; intros m m' Hp Hx V; cbn [exec_all] in Hx; [congruence|]. destruct (exec d s m) as [m1|] eqn:E1; [|discriminate Hx].
      apply (IH m1 m' (fun z Hz => Hp z (or_intror Hz)) Hx). pose proof (Hp s (or_introl eq_refl)) as Hs.
      apply (exec_there d s m m1 T (KCol T n) E1 (no_renames s Hs) (not_replaced tb ta s P Hs)); [|exact V]. right. exists n. split; [reflexivity|apply N; exact Hs]. }
    specialize (Z l mb mf (fun s h => h) X). rewrite EQ in Z. unfold T in Z at 2. rewrite (read_col d A ma DA ta n Hta), Fc' in Z. cbn [option_map there] in Z. apply Z.
    unfold T. rewrite <- E, (read_col d B mb DB tb n Htb). unfold n. rewrite (find_column_unique d B mb tb c DB Htb Hc). exact I. }
  assert (Back : forall s, In s l -> removes_column T n s -> In s lt).
  { intros s Hs R. apply (alter_home tb ta lt s P Lt Hs). destruct s as [| | | |cm m a]; try contradiction R. cbn [mentions_table removes_column] in *. destruct a; try contradiction R.
    apply String.eqb_eq. apply R. }
  assert (Ne : lt <> []) by (intro Z; apply Rem; intros s Hs R; specialize (Back s Hs R); rewrite Z in Back; destruct Back).
  destruct (block_cases tb ta lt P Lt) as [[Z _]|Z]; [contradiction|].
  assert (Kh : keep_hidden d c = false).
  { destruct (keep_hidden d c) eqn:Kh; [exfalso|reflexivity]. apply Rem. intros s Hs R. specialize (Back s Hs R).
    destruct (lt_phases d srt sdiff Hsrt tb ta Ta E lt Z) as [added [Lp _]]. rewrite Lp in Back. clear Lp.
    destruct s as [| | | |cm m a]; try contradiction R. cbn [removes_column] in R. destruct a as [| | | |x| | | | | | | | | | | | | | | |]; try contradiction R. destruct R as [_ R].
    repeat rewrite in_app_iff in Back. destruct Back as [G|[G|[G|[G|[G|G]]]]].
    - apply in_flat_map in G. destruct G as [b0 [_ G]]. unfold drop_gone_constraint in G. destruct (find_constraint (con_key b0) (ct_constraints ta)); [destruct G|].
      destruct (is_index d b0); destruct G as [G|[]]; discriminate G.
    - unfold diff_columns in G. apply in_app_or in G. destruct G as [G|G].
      + apply in_flat_map in G. destruct G as [b0 [Hb0 G]]. unfold diff_before_column in G. destruct (find_column (id_name (c_name b0)) (ct_columns ta)) as [a0|] eqn:F0.
        * clear -G. exfalso. unfold diff_common_column in G. destruct d; repeat rewrite in_app_iff in G; unfold diff_default, diff_notnull, diff_options in G;
          repeat match goal with
          | G : _ \/ _ |- _ => destruct G as [G|G]
          | G : In _ (if ?b then _ else _) |- _ => destruct b
          | G : In _ [] |- _ => destruct G
          | G : In _ [_] |- _ => destruct G as [G|[]]; discriminate G
          end.
        * destruct (keep_hidden d b0) eqn:K0; [destruct G|]. destruct G as [G|[]]. inversion G as [[G1 G2 G3]]. subst x.
          assert (b0 = c); [|congruence]. pose proof (find_column_unique d B mb tb b0 DB Htb Hb0) as U1. pose proof (find_column_unique d B mb tb c DB Htb Hc) as U2.
          unfold n in R. rewrite R in U1. congruence.
      + apply in_map_iff in G. destruct G as [a0 [G _]]. discriminate G.
    - apply in_flat_map in G. destruct G as [b0 [_ G]]. unfold change_constraint in G. destruct (find_constraint (con_key b0) (ct_constraints ta)) as [a0|]; [|destruct G].
      destruct (neqs _ _); [|destruct G]. destruct (is_index d a0); destruct G as [G|[G|[]]]; try discriminate G. unfold index_of_constraint in G. destruct a0; discriminate G.
    - apply in_map_iff in G. destruct G as [a0 [G _]]. unfold add_constraint in G. destruct (is_index d a0); [|discriminate G]. unfold index_of_constraint in G. destruct a0; discriminate G.
    - unfold diff_table_options in G. destruct d; try (destruct G; fail). apply in_app_or in G. destruct G as [G|G].
      + apply in_flat_map in G. destruct G as [o [_ G]]. destruct (is_auto_increment o); [destruct G|]. destruct (find_option _ _); [|destruct G].
        destruct (neqs _ _); [|destruct G]. destruct G as [G|[]]; discriminate G.
      + apply in_map_iff in G. destruct G as [o [G _]]. discriminate G.
    - unfold diff_row_deletion in G. destruct d; try (destruct G; fail). destruct (neqs _ _); [|destruct G].
      destruct (ct_rowdel tb), (ct_rowdel ta); try (destruct G; fail); destruct G as [G|[]]; discriminate G. }
  split; [exact Kh|]. split; [exact Ne|]. eexists. unfold diff_columns. apply in_or_app. left. apply in_flat_map. exists c. split; [exact Hc|].
  unfold diff_before_column. rewrite Fc, Kh. left. reflexivity.
Qed.

(** A dropped column is not used by a constraint that stays. *)
Lemma con_unused : forall tb ta b a c, table_pair B A tb ta -> In b (ct_constraints tb) -> In a (ct_constraints ta) -> con_key b = con_key a ->
  is_idx b = is_idx a -> In c (ct_columns tb) -> find_column (id_name (c_name c)) (ct_columns ta) = None ->
  involves (qname (ct_name tb)) (id_name (c_name c)) (ckey d (ct_name tb) b) (cval d (ct_name tb) b) = false.
Proof.
  intros tb ta b a c P Hb Ha K I Hc Fc. destruct (involves _ _ _ _) eqn:U; [exfalso|reflexivity].
  destruct (pair_find tb ta P) as [Htb [Hta [F E]]].
  pose proof (tidy_in _ _ _ TB Htb) as Tb. pose proof (tidy_in _ _ _ TA Hta) as Ta. cbn [tidy_stmt] in Tb, Ta.
  assert (Fa : find_constraint (con_key b) (ct_constraints ta) = Some a) by (rewrite K; apply (con_find d); assumption).
  assert (Ck : conkey (ckey d (ct_name ta) a)) by (rewrite ckey_label; apply label_key_conkey).
  assert (Kk : ckey d (ct_name tb) b = ckey d (ct_name ta) a).
  { rewrite !ckey_label, K, I. apply label_key_same; [apply (ti_name _ _ (tidy_table_spec _ _ Tb))|apply (ti_name _ _ (tidy_table_spec _ _ Ta))|exact E]. }
  destruct (con_after tb ta b a P Hb Fa) as [p [q [r [mp [L [Ep [V [Cols Mk]]]]]]]].
  destruct (home _ _ Htb F) as [l1 [lt [l2 [B1 [B2 [_ [Lt _]]]]]]].
  destruct (gone_dropped tb ta c lt P Hc Fc Lt) as [_ [Ne [cm G]]]. apply V.
  apply (removed d _ p mb mp (AlterTable cm (ct_name ta) (DropColumn (c_name c))) (cval d (ct_name tb) b) Ck Ep Mk).
  - exact (Cols lt Lt Ne _ G).
  - apply remover_column. rewrite <- Kk, <- E. exact U.
  - left. rewrite <- Kk. exact (read_ckey d B mb tb b DB TB Htb Hb).
Qed.

(** ** Indexes *)
Lemma index_find : forall ib ia, In (CreateIndex ib) B -> In (CreateIndex ia) A -> qname (cx_name ib) = qname (cx_name ia) ->
  find_stmt (CreateIndex ib) A = Some (CreateIndex ia).
Proof.
  intros ib ia Hb Ha E. apply (find_stmt_unique d); [exact (read_create d A ma DA)|exact (read_nodup d A ma DA)|reflexivity|exact Ha|]. apply same_index. exact E.
Qed.

Lemma index_after : forall ib ia, In (CreateIndex ib) B -> In (CreateIndex ia) A -> qname (cx_name ib) = qname (cx_name ia) ->
  exists p q r mp B1 B2, l = p ++ q ++ r /\ exec_all d p mb = Some mp /\ mp (KIdx (qname (cx_name ib))) <> None /\ B = B1 ++ CreateIndex ib :: B2 /\
    (create_index_diff d ib = create_index_diff d ia -> q = []) /\
    (forall y, In y B -> find_stmt y A = None -> In (drop1 y) p) /\
    (forall y ly s, In y B1 -> diff_stmt d srt sdiff y A = Ok ly -> In s ly -> In s p) /\
    forall s, In s (p ++ r) -> no_rename s /\ ~ maker d (KIdx (qname (cx_name ib))) s.
Proof.
  intros ib ia Hb Ha E. pose proof (index_find ib ia Hb Ha E) as F.
  destruct (home _ _ Hb F) as [p [q [r [B1 [B2 [L [Lx [EB [Dr [Bl Out]]]]]]]]]].
  assert (Dk : declares d (KIdx (qname (cx_name ib))) (CreateIndex ia) = true) by (unfold declares; cbn [stmt_entries existsb fst]; rewrite E, key_eqb_refl; reflexivity).
  assert (Mk : forall s, In s (p ++ r) -> no_rename s /\ ~ maker d (KIdx (qname (cx_name ib))) s).
  { intros s Hs. split; [apply no_renames; rewrite L; repeat rewrite in_app_iff in *; tauto|]. apply (Out s); [exact Hs|exact I|exact Dk]. }
  pose proof X as X'. rewrite L, exec_all_app in X'. destruct (exec_all d p mb) as [mp|] eqn:Ep; [|discriminate X']. rewrite exec_all_app in X'.
  assert (Q : (create_index_diff d ib = create_index_diff d ia -> q = []) /\ (q = [] \/ exists c, q = [DropIndex c false (cx_name ib); CreateIndex ia])).
  { unfold diff_stmt in Lx. rewrite F in Lx. destruct (neqs _ _) eqn:N; inversion Lx; [|split; auto]. apply neqs_neq in N. split; [contradiction|right; eexists; reflexivity]. }
  destruct Q as [Q1 Q2]. exists p, q, r, mp, B1, B2. repeat (split; [assumption|]). split; [|repeat (split; [assumption|]); assumption].
  intro V. destruct Q2 as [Q2|[c Q2]]; subst q; cbn [exec_all] in X'.
  - assert (Z : mf (KIdx (qname (cx_name ib))) = None).
    { apply (none_stays d (KIdx (qname (cx_name ib))) r mp mf I X'); [|exact V]. intros s Hs. apply Mk. apply in_or_app. right. exact Hs. }
    rewrite EQ, E, (read_index d A ma DA ia Ha) in Z. discriminate Z.
  - rewrite (needs_index d c (cx_name ib) mp V) in X'. discriminate X'.
Qed.

Lemma index_same : forall ib ia, In (CreateIndex ib) B -> In (CreateIndex ia) A -> qname (cx_name ib) = qname (cx_name ia) ->
  create_index_diff d ib = create_index_diff d ia -> sem_index d ib = sem_index d ia.
Proof.
  intros ib ia Hb Ha E T. destruct (index_after ib ia Hb Ha E) as [p [q [r [mp [B1 [B2 [L [_ [_ [_ [Q [_ [_ Mk]]]]]]]]]]]]]. specialize (Q T). subst q. cbn [app] in L.
  rewrite <- L in Mk. pose proof (read_index d A ma DA ia Ha) as Ra. pose proof (read_index d B mb DB ib Hb) as Rb. rewrite <- E in Ra.
  destruct (shrink_all d (KIdx (qname (cx_name ib))) l mb mf I X Mk) as [Z|Z]; rewrite EQ in Z; congruence.
Qed.

(** Every table of a schema comes before the indexes on it. *)
Definition behind (l : ddl) : Prop := forall l1 i l2, l = l1 ++ CreateIndex i :: l2 ->
  exists t, In (CreateTable t) l1 /\ table_name t = qname (cx_table i) /\
    forall k, In k (sem_keycols d (cx_columns i)) -> In (fst k) (col_names t).

(** The table of an index is not dropped. *)
Lemma table_stays : forall i tb, behind B -> In (CreateIndex i) B -> In (CreateTable tb) B -> qname (cx_table i) = table_name tb ->
  find_stmt (CreateTable tb) A <> None.
Proof.
  intros i tb Be Hi Ht E F.
  assert (On : index_on (qname (ct_name tb)) (VIdx (sem_index d i)) = true) by (cbn; apply String.eqb_eq; exact E).
  destruct (find_stmt (CreateIndex i) A) as [h|] eqn:Fi.
  - pose proof (find_some _ _ Fi) as [Hh Sx]. cbn [same_type] in Sx. destruct h as [|ia| | |]; try discriminate Sx. cbn [andb] in Sx. apply eqs_eq in Sx.
    rewrite !stmt_name_index in Sx.
    destruct (index_after i ia Hi Hh Sx) as [p [q [r [mp [B1 [B2 [L [Ep [V [_ [_ [Dr [_ Mk]]]]]]]]]]]]]. apply V.
    apply (removed d (KIdx (qname (cx_name i))) p mb mp (drop1 (CreateTable tb)) (VIdx (sem_index d i)) I Ep).
    + intros s Hs. apply Mk. apply in_or_app. left. exact Hs.
    + apply Dr; assumption.
    + apply remover_table. exact On.
    + left. exact (read_index d B mb DB i Hi).
  - destruct (in_split _ _ Hi) as [l1 [l2 EB]]. destruct (Be l1 i l2 EB) as [t [Hl [Ht' _]]].
    assert (t = tb) by (apply same_tb; [rewrite EB; apply in_or_app; left; exact Hl|exact Ht|unfold table_name in *; congruence]). subst t.
    destruct (diff_parts _ _ _ _ _ _ H) as [dr [cr [ch [H1 [_ [_ H4]]]]]].
    pose proof (read_create d B mb DB) as CB.
    rewrite map_opt_drop in H1.
    2:{ rewrite forallb_forall in *. intros z Hz. apply Justified.only_left_in in Hz. apply CB. apply Hz. }
    injection H1 as H1. unfold only_left_stmts in H1. rewrite EB, filter_app in H1. cbn [filter] in H1. rewrite Fi, map_app in H1. cbn [map] in H1.
    pose proof X as X'. rewrite H4, <- H1, <- app_assoc, exec_all_app in X'.
    set (pre := map drop1 _) in X'. destruct (exec_all d pre mb) as [mp|] eqn:Ep; [|discriminate X']. cbn [app exec_all] in X'.
    assert (Ne : exec d (drop1 (CreateIndex i)) mp = None).
    { apply needs_index. assert (Dp : forall s, In s pre -> no_rename s /\ ~ maker d (KIdx (qname (cx_name i))) s).
      { intros s Hs. apply in_map_iff in Hs. destruct Hs as [z [Hs Hz]]. apply filter_In in Hz. destruct Hz as [Hz _].
        assert (Cz : is_create z = true) by (rewrite forallb_forall in CB; apply CB; rewrite EB; apply in_or_app; left; exact Hz).
        subst s. split; [destruct z; try discriminate Cz; exact I|]. intro M. pose proof (drop_no_maker d (drop1 z) (KIdx (qname (cx_name i))) I M) as N. destruct z; try discriminate Cz; exact N. }
      apply (removed d (KIdx (qname (cx_name i))) pre mb mp (drop1 (CreateTable tb)) (VIdx (sem_index d i)) I Ep Dp).
      - apply in_map. apply filter_In. split; [exact Hl|rewrite F; reflexivity].
      - apply remover_table. exact On.
      - left. exact (read_index d B mb DB i Hi). }
    rewrite Ne in X'. discriminate X'.
Qed.

(** A dropped column is not used by an index that stays. *)
Lemma index_unused : forall i tb ta c, behind B -> behind A -> table_pair B A tb ta -> In c (ct_columns tb) -> find_column (id_name (c_name c)) (ct_columns ta) = None ->
  (In (CreateIndex i) B /\ In (qname (cx_name i)) (index_names A)) \/ In (CreateIndex i) A -> qname (cx_table i) = table_name tb ->
  existsb (fun x => String.eqb (fst x) (id_name (c_name c))) (sem_keycols d (cx_columns i)) = false.
Proof.
  intros i tb ta c BeB BeA P Hc Fc Hi E. destruct (existsb _ _) eqn:U; [exfalso|reflexivity].
  destruct (pair_find tb ta P) as [Htb [Hta [F Eq]]]. destruct Hi as [[Hi Hn]|Hi].
  - apply in_map_iff in Hn. destruct Hn as [ia [En Ha]]. apply in_indexes in Ha.
    destruct (index_after i ia Hi Ha (eq_sym En)) as [p [q [r [mp [B1 [B2 [L [Ep [V [EB [_ [_ [Bl Mk]]]]]]]]]]]]]. apply V.
    destruct (home _ _ Htb F) as [l1 [lt [l2 [Bx [By [_ [Lt _]]]]]]].
    destruct (gone_dropped tb ta c lt P Hc Fc Lt) as [_ [Ne [cm G]]].
    destruct (BeB B1 i B2 EB) as [t [Ht [Et _]]].
    assert (t = tb) by (apply same_tb; [rewrite EB; apply in_or_app; left; exact Ht|exact Htb|unfold table_name in *; congruence]). subst t.
    apply (removed d (KIdx (qname (cx_name i))) p mb mp (AlterTable cm (ct_name ta) (DropColumn (c_name c))) (VIdx (sem_index d i)) I Ep).
    + intros s Hs. apply Mk. apply in_or_app. left. exact Hs.
    + apply (Bl (CreateTable tb) lt _ Ht Lt). destruct (block_cases tb ta lt P Lt) as [[Z _]|Z]; [contradiction|].
      pose proof (tidy_in _ _ _ TA Hta) as Ta. destruct (lt_phases d srt sdiff Hsrt tb ta Ta Eq lt Z) as [added [Lp _]]. rewrite Lp.
      apply in_or_app. right. apply in_or_app. left. exact G.
    + apply remover_column. cbn [involves]. apply andb_true_iff. split; [apply String.eqb_eq; cbn; unfold table_name in *; congruence|exact U].
    + left. exact (read_index d B mb DB i Hi).
  - destruct (in_split _ _ Hi) as [l1 [l2 EA]]. destruct (BeA l1 i l2 EA) as [t [Ht [Et Cols]]].
    assert (t = ta) by (apply same_ta; [rewrite EA; apply in_or_app; left; exact Ht|exact Hta|unfold table_name in *; congruence]). subst t.
    apply existsb_exists in U. destruct U as [k [Hk U]]. apply String.eqb_eq in U. specialize (Cols k Hk). rewrite U in Cols. apply memb_In in Cols.
    apply find_column_memb in Fc. congruence.
Qed.

(** ** Columns *)
Lemma column_home : forall tb ta b a s f, table_pair B A tb ta -> In b (ct_columns tb) -> In a (ct_columns ta) -> id_name (c_name b) = id_name (c_name a) ->
  In s l -> In (Upd (KCol (table_name ta) (id_name (c_name a))) f) (stmt_ops d s) -> In s (diff_common_column d sdiff (ct_name ta) b a).
Proof.
  intros tb ta b a s f P Hb Ha E Hs U. destruct (pair_find tb ta P) as [Htb [Hta [F Eq]]].
  pose proof (tidy_in _ _ _ TB Htb) as Tb. pose proof (tidy_in _ _ _ TA Hta) as Ta. cbn [tidy_stmt] in Tb, Ta.
  destruct (home _ _ Htb F) as [l1 [lt [l2 [Bx [By [_ [Lt _]]]]]]].
  destruct s as [t|i|cm ie n|cm ie n|cm n act]; cbn [stmt_ops] in U.
  - destruct (create_ops_in d t _ U) as [Z|[Z|[q [u [Z _]]]]]; discriminate Z.
  - destruct U as [U|[]]; discriminate U.
  - destruct U as [U|[]]; discriminate U.
  - unfold drop_index_ops in U. destruct d; destruct U as [U|[]]; discriminate U.
  - destruct U as [U|U]; [discriminate U|].
    assert (N : qname n = table_name ta /\ (exists x, id_name x = id_name (c_name a) /\
       match act with SetDataType z _ | SetDefault z _ | DropDefault z | SetNotNull z | DropNotNull z | AlterDataType z _ _ | SetOptions z _ | DropOptions z => z = x
                    | ModifyColumn c => c_name c = x | _ => False end)).
    { clear -U. destruct act as [u|z y|z y|c0|z|z ty|z dv|z|z|z|c0 b0|nm|z b1 b2|c0|z ov|z ty nn|z ov|z|z|z|]; cbn [action_ops] in U;
      try (destruct U as [U|[]]; first [discriminate U|inversion U; split; [reflexivity|eexists; split; [|reflexivity]; assumption || reflexivity]]; fail).
      - destruct dv as [[l0|]|]; destruct U as [U|[]]; try discriminate U. inversion U. split; [reflexivity|eexists; split; [|reflexivity]; assumption || reflexivity].
      - unfold add_con_ops in U. destruct c0 as [nm cs|nm cs r rc ac|nm cs|[nm|] u pre cs post|nm e]; cbn [con_name] in U; try destruct nm; cbn [sem_con] in U;
        destruct U as [U|[]]; discriminate U.
      - destruct nm; destruct U as [U|[]]; discriminate U. }
    destruct N as [N1 [x [N2 N3]]]. clear U.
    assert (Hl : In (AlterTable cm n act) lt) by (apply (alter_home tb ta lt _ P Lt Hs); cbn [mentions_table]; apply String.eqb_eq; exact N1).
    destruct (block_cases tb ta lt P Lt) as [[Z _]|Z]; [subst lt; destruct Hl|].
    destruct (lt_phases d srt sdiff Hsrt tb ta Ta Eq lt Z) as [added [Lp _]]. rewrite Lp in Hl. clear Lp.
    repeat rewrite in_app_iff in Hl. destruct Hl as [G|[G|[G|[G|[G|G]]]]].
    + exfalso. apply in_flat_map in G. destruct G as [b0 [_ G]]. unfold drop_gone_constraint in G. destruct (find_constraint (con_key b0) (ct_constraints ta)); [destruct G|].
      destruct (is_index d b0); destruct G as [G|[]]; inversion G; subst act; contradiction N3.
    + unfold diff_columns in G. apply in_app_or in G. destruct G as [G|G].
      * apply in_flat_map in G. destruct G as [b0 [Hb0 G]]. unfold diff_before_column in G. destruct (find_column (id_name (c_name b0)) (ct_columns ta)) as [a0|] eqn:F0.
        -- assert (In a0 (ct_columns ta) /\ id_name (c_name a0) = id_name (c_name b0)) as [Ha0 E0].
           { apply find_some in F0. destruct F0 as [Q1 Q2]. apply eqs_eq in Q2. split; assumption. }
           assert (X0 : id_name (c_name a0) = id_name (c_name a)).
           { rewrite <- N2. clear -G N3. unfold diff_common_column in G. destruct d; repeat rewrite in_app_iff in G; unfold diff_default, diff_notnull, diff_options in G;
             repeat match goal with
             | G : _ \/ _ |- _ => destruct G as [G|G]
             | G : In _ (if ?b then _ else _) |- _ => destruct b
             | G : In _ [] |- _ => destruct G
             | G : In _ [_] |- _ => destruct G as [G|[]]; inversion G; subst act; try (subst x; reflexivity); try (rewrite <- N3; reflexivity)
             end. }
           pose proof (find_column_unique d A ma ta a0 DA Hta Ha0) as U1. pose proof (find_column_unique d A ma ta a DA Hta Ha) as U2.
           pose proof (find_column_unique d B mb tb b0 DB Htb Hb0) as U3. pose proof (find_column_unique d B mb tb b DB Htb Hb) as U4.
           rewrite X0 in U1. rewrite U2 in U1. injection U1 as U1. subst a0. rewrite <- E0 in U3. rewrite E in U4. rewrite U4 in U3. injection U3 as U3. subst b0. exact G.
        -- exfalso. destruct (keep_hidden d b0); [destruct G|]. destruct G as [G|[]]. inversion G. subst act. contradiction N3.
      * exfalso. apply in_map_iff in G. destruct G as [a0 [G _]]. inversion G. subst act. contradiction N3.
    + exfalso. apply in_flat_map in G. destruct G as [b0 [_ G]]. unfold change_constraint in G. destruct (find_constraint (con_key b0) (ct_constraints ta)) as [a0|]; [|destruct G].
      destruct (neqs _ _); [|destruct G]. destruct (is_index d a0); destruct G as [G|[G|[]]]; try discriminate G; try (inversion G; subst act; contradiction N3).
      unfold index_of_constraint in G. destruct a0; discriminate G.
    + exfalso. apply in_map_iff in G. destruct G as [a0 [G _]]. unfold add_constraint in G. destruct (is_index d a0); [|inversion G; subst act; contradiction N3].
      unfold index_of_constraint in G. destruct a0; discriminate G.
    + exfalso. unfold diff_table_options in G. destruct d; try (destruct G; fail). apply in_app_or in G. destruct G as [G|G].
      * apply in_flat_map in G. destruct G as [o [_ G]]. destruct (is_auto_increment o); [destruct G|]. destruct (find_option _ _); [|destruct G].
        destruct (neqs _ _); [|destruct G]. destruct G as [G|[]]; inversion G; subst act; contradiction N3.
      * apply in_map_iff in G. destruct G as [o [G _]]. inversion G; subst act; contradiction N3.
    + exfalso. unfold diff_row_deletion in G. destruct d; try (destruct G; fail). destruct (neqs _ _); [|destruct G].
      destruct (ct_rowdel tb), (ct_rowdel ta); try (destruct G; fail); destruct G as [G|[]]; inversion G; subst act; contradiction N3.
Qed.

Lemma not_removed : forall tb ta a s, table_pair B A tb ta -> In a (ct_columns ta) -> In s l -> ~ removes_column (table_name ta) (id_name (c_name a)) s.
Proof.
  intros tb ta a s P Ha Hs R. destruct (pair_find tb ta P) as [Htb [Hta [F Eq]]].
  destruct s as [| | | |cm n act]; try contradiction R. destruct act as [| | | |x| | | | | | | | | | | | | | | |]; try contradiction R. destruct R as [R1 R2].
  destruct (diff_loose d srt sdiff B A l _ Hsrt TB TA H Hs) as [J|[tb' [ta' [_ [b0 [a0 [_ [_ [_ [_ W]]]]]]]]]]; [|contradiction W].
  destruct J as [tb' [ta' [P' [N [_ J]]]]]. destruct (pair_find tb' ta' P') as [_ [Hta' _]].
  assert (ta' = ta) by (apply same_ta; [exact Hta'|exact Hta|unfold table_name in *; congruence]). subst ta'. apply J. rewrite R2.
  unfold col_names. apply (in_map (fun c => id_name (c_name c))). exact Ha.
Qed.

Lemma column_kept : forall tb ta b a (P : scol -> Prop), table_pair B A tb ta -> In b (ct_columns tb) -> In a (ct_columns ta) -> id_name (c_name b) = id_name (c_name a) ->
  (forall s, In s (diff_common_column d sdiff (ct_name ta) b a) -> keeps_column d (table_name ta) (id_name (c_name a)) P s) ->
  P (sem_col d b) -> P (sem_col d a).
Proof.
  intros tb ta b a P Pr Hb Ha E K Pb. destruct (pair_find tb ta Pr) as [Htb [Hta [F Eq]]].
  assert (Z : column_is P (mf (KCol (table_name ta) (id_name (c_name a))))).
  { apply (column_inv d _ _ P l mb mf X).
    - intros s Hs. split; [exact (no_renames s Hs)|]. split; [exact (not_replaced tb ta s Pr Hs)|]. split; [exact (not_removed tb ta a s Pr Ha Hs)|].
      intros f Hf. exact (K s (column_home tb ta b a s f Pr Hb Ha E Hs Hf) f Hf).
    - unfold table_name. rewrite <- Eq, <- E, (read_col d B mb DB tb _ Htb), (find_column_unique d B mb tb b DB Htb Hb). exists (sem_col d b). split; [reflexivity|exact Pb]. }
  rewrite EQ in Z. unfold table_name in Z. rewrite (read_col d A ma DA ta _ Hta), (find_column_unique d A ma ta a DA Hta Ha) in Z. destruct Z as [x [Z1 Z2]].
  cbn [option_map] in Z1. injection Z1 as Z1. subst x. exact Z2.
Qed.
End Whole.
