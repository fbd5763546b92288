(** The conditions under which a difference reaches its target are needed (for C72),
    fourth part: they hold when the difference reaches it. *)
From Coq Require Import Lia Permutation.
From Verif Require Import GoStr Token Ast Parser Diff Db DbFacts AppendFacts DiffTable DiffPair DiffSound
  Tidy TidyFacts DiffSame Reconcile ReconcileFacts Honest DiffSpec Justified Frame Shape InterruptFacts Needed Needed2 Placed Needed3.
Local Open Scope list_scope.

Lemma frame_all : forall d l m m' t k, exec_all d l m = Some m' -> (forall s, In s l -> no_rename s /\ mentions_table t s = false) ->
  owner k = Some t -> solid (m k) -> m' k = m k.
Proof.
  intros d. induction l as [|s l IH]; intros m m' t k X N O S0; cbn [exec_all] in X; [inversion X; reflexivity|].
  destruct (exec d s m) as [m1|] eqn:E; [|discriminate X]. destruct (N s (or_introl eq_refl)) as [N1 N2].
  pose proof (exec_frame d s m m1 t k E N1 N2 O S0) as F. rewrite <- F in S0 |- *.
  apply (IH m1 m' t k X); [|exact O|exact S0]. intros x Hx. apply N. right. exact Hx.
Qed.
Lemma index_all : forall d l m m' i v, exec_all d l m = Some m' -> (forall s, In s l -> no_rename s /\ ~ removes_index i v s) ->
  m (KIdx i) = Some v -> m' (KIdx i) = Some v.
Proof.
  intros d. induction l as [|s l IH]; intros m m' i v X N V; cbn [exec_all] in X; [inversion X; subst; exact V|].
  destruct (exec d s m) as [m1|] eqn:E; [|discriminate X]. destruct (N s (or_introl eq_refl)) as [N1 N2].
  apply (IH m1 m' i v X); [|exact (exec_index_kept d s m m1 i v E N1 V N2)]. intros x Hx. apply N. right. exact Hx.
Qed.

Lemma default_shown : forall d l v, default_diff d (Some (Some l)) = default_diff d v -> exists r, v = Some (Some r).
Proof. intros d l [[r|]|] E; [eauto|destruct d; discriminate E|destruct d; discriminate E]. Qed.

Section Reached.
Variable d : dialect.
Hypothesis Hd : d = Pg \/ d = Crdb.
Variable srt : list constraint -> list constraint.
Variable sdiff : string -> string -> string.
Hypothesis Hsrt : srt_ok srt.
Variables B A : ddl.
Variables mb ma : db.
Hypothesis DB : describes d B mb.
Hypothesis DA : describes d A ma.
Hypothesis TB : tidy d B = true.
Hypothesis TA : tidy d A = true.
Hypothesis St : same_style d B A = true.
Hypothesis Sy : inner_stay d B A = true.
Hypothesis PB : placed d B = true.
Hypothesis PA : placed d A = true.
Variable l : ddl.
Hypothesis H : diff d srt sdiff (Some B) (Some A) = DOk l.
Variable mf : db.
Hypothesis X : exec_all d l mb = Some mf.
Hypothesis EQ : db_eq mf ma.

Lemma keep : d = Sp -> forall tb ta, table_pair B A tb ta -> options_diff d (ct_options tb) = options_diff d (ct_options ta).
Proof. intro Z. destruct Hd as [Y|Y]; rewrite Y in Z; discriminate Z. Qed.

(** What the statements for a column do to a catalogue. *)
Lemma common_keeps : forall n b a (P : scol -> Prop),
  (datatype_diff (c_type b) <> datatype_diff (c_type a) -> forall x, P x -> P (set_type (c_type a) x)) ->
  (default_diff d (c_default b) <> default_diff d (c_default a) -> forall v x, P x -> P (set_dflt v x)) ->
  (is_some (c_default b) = true -> c_default a = None -> forall x, P x -> P (set_dflt None x)) ->
  (forall v x, P x -> P (set_nn v x)) ->
  forall s, In s (diff_common_column d sdiff n b a) -> keeps_column d (qname n) (id_name (c_name a)) P s.
Proof.
  intros n b a P P1 P2 P3 P4 s Hs f Hf x Px.
  assert (K : forall g, In (Upd (KCol (qname n) (id_name (c_name a))) f) [Has (KTab (qname n)); Upd (KCol (qname n) (id_name (c_name a))) (on_col g)] ->
    (P (g x)) -> exists y, f (VCol x) = VCol y /\ P y).
  { intros g [G|[G|[]]] Pg0; [discriminate G|]. inversion G. exists (g x). auto. }
  assert (D : diff_common_column d sdiff n b a =
    (if neqs (datatype_diff (c_type b)) (datatype_diff (c_type a))
       then [AlterTable (sdiff (column_string d b) (column_string d a)) n (SetDataType (c_name a) (c_type a))] else [])
      ++ diff_default d (sdiff (column_string d b) (column_string d a)) n b a ++ diff_notnull (sdiff (column_string d b) (column_string d a)) n b a)
    by (unfold diff_common_column; destruct Hd as [Z|Z]; rewrite Z; reflexivity).
  rewrite D in Hs. repeat rewrite in_app_iff in Hs. destruct Hs as [Hs|[Hs|Hs]].
  - destruct (neqs _ _) eqn:N; [|destruct Hs]. destruct Hs as [Hs|[]]. subst s. apply neqs_neq in N. apply (K _ Hf). apply P1; assumption.
  - unfold diff_default in Hs. destruct (is_some (c_default b) && negb (is_some (c_default a))) eqn:C1.
    + destruct Hs as [Hs|[]]. subst s. apply andb_true_iff in C1. destruct C1 as [C1 C2]. apply (K _ Hf). apply P3; [exact C1| |exact Px].
      destruct (c_default a); [discriminate C2|reflexivity].
    + destruct (is_some (c_default a) && _) eqn:C2; [|destruct Hs]. destruct Hs as [Hs|[]]. subst s. apply andb_true_iff in C2. destruct C2 as [_ C2]. apply neqs_neq in C2.
      cbn [stmt_ops action_ops] in Hf. destruct (c_default a) as [[v|]|]; [apply (K _ Hf); apply P2; assumption| |]; (destruct Hf as [Hf|[Hf|[]]]; discriminate Hf).
  - unfold diff_notnull in Hs. destruct (c_notnull b && _); [|destruct (_ && _); [|destruct Hs]]; (destruct Hs as [Hs|[]]; subst s; apply (K _ Hf); apply P4; exact Px).
Qed.

Theorem facts_reached : facts d B A mb ma.
Proof.
  pose proof keep as Keep. pose proof (placed_is_behind d B PB) as BB. pose proof (placed_is_behind d A PA) as BA.
  assert (Kind : forall tb ta b a, table_pair B A tb ta -> In b (ct_constraints tb) -> In a (ct_constraints ta) -> con_key b = con_key a -> is_idx b = is_idx a).
  { intros tb ta b a P Hb Ha K. exact (con_kind d srt sdiff Hsrt B A mb ma DB DA TB TA l H Keep mf X EQ tb ta b a P Hb Ha K St Sy). }
  constructor.
  - intros tb ta b a P Hb Ha E D.
    pose proof (column_kept d srt sdiff Hsrt B A mb ma DB DA TB TA l H Keep mf X EQ tb ta b a
      (fun x => (sc_type x, sc_args x) = type_of b) P Hb Ha E) as K. symmetry. apply K; [|reflexivity].
    intros s Hs. apply (common_keeps _ b a); [contradiction| | | |exact Hs]; intros; cbn; assumption.
  - intros tb ta b a P Hb Ha E D.
    pose proof (column_kept d srt sdiff Hsrt B A mb ma DB DA TB TA l H Keep mf X EQ tb ta b a
      (fun x => sc_default x = sem_default (c_default b)) P Hb Ha E) as K. symmetry. apply K; [|reflexivity].
    intros s Hs. apply (common_keeps _ b a); [|contradiction| | |exact Hs]; [intros; cbn; assumption| |intros; cbn; assumption].
    intros S1 N1 x _. cbn. rewrite N1 in D. destruct (c_default b) as [[v|]|] eqn:Eb; [|reflexivity|reflexivity]. destruct (default_shown d v None D) as [r R]. discriminate R.
  - intros Hc tb ta b a P Hb Ha E.
    pose proof (column_kept d srt sdiff Hsrt B A mb ma DB DA TB TA l H Keep mf X EQ tb ta b a
      (fun x => c_notvisible b = sc_hidden x /\ sem_as (c_as b) = sc_as x) P Hb Ha E) as K.
    assert (Z : forall c, sc_hidden (sem_col d c) = c_notvisible c /\ sc_as (sem_col d c) = sem_as (c_as c)) by (intro c; rewrite Hc; split; reflexivity).
    destruct (Z b) as [Z1 Z2]. destruct (Z a) as [Z3 Z4]. cbv beta in K. rewrite Z1, Z2, Z3, Z4 in K. apply K; [|split; reflexivity].
    intros s Hs. apply (common_keeps _ b a); [| | | |exact Hs]; intros; cbn; assumption.
  - intros tb ta c P Hc F. destruct (pair_find d B A ma DA tb ta P) as [Htb [Hta [Fx E]]].
    destruct (home d srt sdiff Hsrt B A mb ma DB DA TB TA l H _ _ Htb Fx) as [l1 [lt [l2 [B1 [B2 [_ [Lt _]]]]]]].
    exact (proj1 (gone_dropped d srt sdiff Hsrt B A mb ma DB DA TB TA l H Keep mf X EQ tb ta c lt P Hc F Lt)).
  - exact Kind.
  - intros tb ta b a P Hb Ha K D. exact (con_same d srt sdiff Hsrt B A mb ma DB DA TB TA l H Keep mf X EQ tb ta b a P Hb Ha K (Kind tb ta b a P Hb Ha K) (or_introl D)).
  - intros tb ta b a c P Hb Ha K Hc F. exact (con_unused d srt sdiff Hsrt B A mb ma DB DA TB TA l H Keep mf X EQ tb ta b a c P Hb Ha K (Kind tb ta b a P Hb Ha K) Hc F).
  - exact (index_same d srt sdiff Hsrt B A mb ma DB DA TB TA l H mf X EQ).
  - intros i tb. exact (table_stays d srt sdiff Hsrt B A mb ma DB DA TB TA l H mf X EQ i tb BB).
  - intros i tb ta c. exact (index_unused d srt sdiff Hsrt B A mb ma DB DA TB TA l H Keep mf X EQ i tb ta c BB BA).
  - intros tb ta k P T Dk. destruct (pair_find d B A ma DA tb ta P) as [Htb [Hta [Fx E]]].
    destruct (home d srt sdiff Hsrt B A mb ma DB DA TB TA l H _ _ Htb Fx) as [l1 [lt [l2 [B1 [B2 [L [Lt [_ [_ [_ Out]]]]]]]]]].
    assert (Z : lt = []).
    { unfold diff_stmt in Lt. rewrite Fx in Lt. unfold diff_create_table in Lt.
      replace (match d with Sp => neqs (options_diff d (ct_options tb)) (options_diff d (ct_options ta)) | _ => false end) with false in Lt by (destruct Hd as [Z|Z]; rewrite Z; reflexivity).
      rewrite T in Lt. unfold eqs in Lt. rewrite String.eqb_refl in Lt. congruence. }
    subst lt.
    assert (Nm : forall s, In s l -> mentions_table (table_name ta) s = false).
    { intros s Hs. destruct (mentions_table (table_name ta) s) eqn:M; [|reflexivity].
      destruct (alter_home d srt sdiff Hsrt B A mb ma DB DA TB TA l H tb ta [] s P Lt Hs M). }
    assert (Nr : forall s, In s l -> no_rename s) by exact (no_renames d srt sdiff Hsrt B A TB TA l H).
    assert (Cases : owner k = Some (table_name ta) \/ exists n, k = KIdx n).
    { destruct Dk as [Dk|Dk]; destruct (table_keys d _ _ Dk) as [O|[n [O _]]]; [left; rewrite O; unfold table_name; congruence|right; eauto|left; exact O|right; eauto]. }
    destruct Cases as [O|[n O]].
    + rewrite <- (EQ k). symmetry. apply (frame_all d l mb mf (table_name ta) k X); [intros s Hs; split; auto|exact O|exact (owned_solid d B mb k _ DB O)].
    + subst k. destruct (declares d (KIdx n) (CreateTable ta)) eqn:Da.
      * destruct (declared_some d A ma _ _ DA Hta Da) as [v V]. cbn [app] in L.
        destruct (shrink_all d (KIdx n) l mb mf I X) as [Y|Y].
        -- intros s Hs. split; [exact (Nr s Hs)|]. apply (Out s (KIdx n)); [rewrite L in Hs; exact Hs|exact I|exact Da].
        -- rewrite <- Y. apply EQ.
        -- rewrite (EQ (KIdx n)), V in Y. discriminate Y.
      * destruct Dk as [Dk|Dk]; [|discriminate Dk].
        assert (V : exists v, mb (KIdx n) = Some (VIdx v) /\ si_table v = table_name ta).
        { apply declares_In in Dk. apply in_map_iff in Dk. destruct Dk as [[q v] [Q Dk]]. cbn [fst] in Q. subst q.
          pose proof (in_entries d B mb _ _ _ DB Htb Dk) as V. cbn [stmt_entries] in Dk. destruct Dk as [Dk|Dk]; [discriminate Dk|].
          destruct (adds_keys d tb _ v Dk) as [[O _]|[n' [x [O1 [O2 [O3 _]]]]]]; [discriminate O|]. subst v. exists x. split; [exact V|]. rewrite O3. exact E. }
        destruct V as [v [V Tv]]. rewrite V. symmetry. rewrite <- (EQ (KIdx n)). apply (index_all d l mb mf n (VIdx v) X); [|exact V].
        intros s Hs. split; [exact (Nr s Hs)|]. intro R. pose proof (Nm s Hs) as M.
        destruct s as [t|i|cm ie o|cm ie o|cm o ac]; cbn [removes_index mentions_table index_on] in *; try contradiction R.
        -- rewrite Tv in R. apply String.eqb_eq in R. rewrite R, String.eqb_refl in M. discriminate M.
        -- assert (Home : forall x, In x B -> declares d (KIdx n) x = true -> x = CreateTable tb).
           { intros x Hx Dx. apply (belongs_eq d B (KIdx n)); try assumption; try (apply declares_belongs; assumption); [exact (read_create d B mb DB)|exact (read_nodup d B mb DB)]. }
           assert (Inner : forall t c, In c (ct_constraints t) -> inner_name d t c = Some n -> declares d (KIdx n) (CreateTable t) = true).
           { intros t c Hc Nc. unfold inner_name, inner_index in Nc. destruct c as [| | |[m|]|]; try discriminate Nc. inversion Nc as [Nn].
             apply declares_In. cbn [stmt_entries]. unfold table_entries. right. rewrite map_app. apply in_or_app. right. rewrite map_app. apply in_or_app. left.
             apply in_map_iff. eexists. split; [|apply in_flat_map; eexists; split; [exact Hc|left; reflexivity]]. cbn [fst]. unfold intable_key. rewrite Nn. reflexivity. }
           destruct (diff_in d srt sdiff B A l _ H Hs) as [[x [X1 [X2 X3]]]|[[X1 [X2 X3]]|[x [lx [X1 [X2 X3]]]]]].
           ++ destruct x as [t|i| | |]; try discriminate X3. inversion X3; subst.
              assert (Dx : declares d (KIdx (qname (cx_name i))) (CreateIndex i) = true) by (unfold declares; cbn; rewrite String.eqb_refl; reflexivity).
              discriminate (Home _ X1 Dx).
           ++ discriminate X3.
           ++ destruct (diff_stmt_block d srt sdiff B A x lx _ Hsrt TB TA X1 X2 X3) as [[ib [ia [Y1 [Y2 [Y3 [_ Y4]]]]]]|[tb' [ta' [Y1 [Y2 [Y3 Y4]]]]]].
              ** destruct Y4 as [[c Y4]|Y4]; [|discriminate Y4]. inversion Y4; subst.
                 assert (Dx : declares d (KIdx (qname (cx_name ib))) (CreateIndex ib) = true) by (unfold declares; cbn; rewrite String.eqb_refl; reflexivity).
                 discriminate (Home _ X1 Dx).
              ** assert (Same : tb' = tb).
                 { destruct Y4 as [[Y4 _]|[[c [[Y4 _] Y5]]|[b0 [a0 [Y4 [Y5 [_ [_ Y6]]]]]]]].
                   - destruct Hd as [Z|Z]; rewrite Z in Y4; discriminate Y4.
                   - rewrite R in Y5. pose proof (Home (CreateTable tb')) as Z. rewrite <- Y1 in Z. specialize (Z X1). rewrite Y1 in Z. specialize (Z (Inner tb' c Y4 Y5)). congruence.
                   - rewrite R in Y6. pose proof (one_table d B A ma DA St Sy tb ta (CreateTable ta') _ P Dk Y2 (Inner ta' a0 Y5 Y6)) as Z. inversion Z; subst ta'.
                     apply (same_tb d B mb DB); [rewrite <- Y1; exact X1|exact Htb|congruence]. }
                 subst tb' x. rewrite Lt in X2. inversion X2; subst lx. destruct X3.
        -- destruct ac; try contradiction R. rewrite Tv in R. apply String.eqb_eq in R. rewrite R, String.eqb_refl in M. discriminate M.
  - intros T k. exfalso. cbn [diff] in H. unfold diff_ddl in H. rewrite T in H. unfold eqs in H. rewrite String.eqb_refl in H. discriminate H.
Qed.
End Reached.

(** ** The conditions are needed *)
Theorem conditions_needed : forall d srt sdiff before after db0 dba, d = Pg \/ d = Crdb -> srt_ok srt ->
  describes d before db0 -> describes d after dba -> tidy d before = true -> tidy d after = true ->
  same_style d before after = true -> inner_stay d before after = true -> placed d before = true -> placed d after = true ->
  match diff d srt sdiff (Some before) (Some after) with
  | DOk stmts => exists m, exec_all d stmts db0 = Some m /\ db_eq m dba
  | DNoDiff => db_eq db0 dba
  | _ => False
  end -> reconcilable d before after = true /\ text_ok d before after = true.
Proof.
  intros d srt sdiff B A mb ma Hd Hsrt DB DA TB TA St Sy PB PA R.
  assert (F : facts d B A mb ma).
  { destruct (diff d srt sdiff (Some B) (Some A)) as [l| | |] eqn:E; try contradiction R.
    - destruct R as [mf [X EQ]]. exact (facts_reached d Hd srt sdiff Hsrt B A mb ma DB DA TB TA St Sy PB PA l E mf X EQ).
    - exact (facts_same d B A mb ma DB DA TB TA St Sy R). }
  split; [exact (together d Hd B A mb ma TB TA St Sy PA F)|exact (together_text d B A mb ma DB DA St Sy F)].
Qed.
