(** Nothing is ever left without what it needs (for C86). *)
From Coq Require Import Lia Permutation.
From Verif Require Import GoStr Token Ast Parser Diff Db DbFacts AppendFacts DiffTable DiffPair DiffSound Tidy TidyFacts Reconcile ReconcileFacts DbDep DepFacts DbRefuse.
Local Open Scope list_scope.

Lemma prefix_cases : forall X (a b c e : list X), a ++ b = c ++ e -> (exists z, a = c ++ z /\ e = z ++ b) \/ (exists z, c = a ++ z /\ b = z ++ e).
Proof.
  intros X a. induction a as [|x a IH]; intros b c e H.
  - right. exists c. split; [reflexivity|exact H].
  - destruct c as [|y c]; [left; exists (x :: a); split; [reflexivity|symmetry; exact H]|]. cbn [app] in H. injection H as -> H.
    destruct (IH b c e H) as [[z [E F]]|[z [E F]]]; [left|right]; exists z; split; try exact F; cbn [app]; rewrite E; reflexivity.
Qed.
Lemma prefix_flat : forall X Y (f : X -> list Y) l p q, flat_map f l = p ++ q ->
  p = flat_map f l \/ exists l1 s l2 P Q, l = l1 ++ s :: l2 /\ p = flat_map f l1 ++ P /\ f s = P ++ Q.
Proof.
  intros X Y f l. induction l as [|x l IH]; intros p q H.
  - left. cbn in H. symmetry in H. apply app_eq_nil in H. apply H.
  - cbn [flat_map] in H. destruct (prefix_cases _ _ _ _ _ H) as [[z [E F]]|[z [E F]]].
    + right. exists [], x, l, p, z. auto.
    + destruct (IH z q F) as [G|[l1 [s [l2 [P [Q [G1 [G2 G3]]]]]]]].
      * left. cbn [flat_map]. rewrite E, G. reflexivity.
      * right. exists (x :: l1), s, l2, P, Q. cbn [flat_map app]. rewrite E, G1, G2, app_assoc. auto.
Qed.

Section Order.
Variable d : dialect.
Variable srt : list constraint -> list constraint.
Variable sdiff : string -> string -> string.
Hypothesis Hsrt : srt_ok srt.
Variables B A : ddl.
Hypothesis CB : forallb is_create B = true.
Hypothesis CA : forallb is_create A = true.
Hypothesis NB : NoDup (map fst (entries d B)).
Hypothesis NA : NoDup (map fst (entries d A)).
Hypothesis KB : forall t, In (CreateTable t) B -> all_con_named t = true.
Hypothesis KA : forall t, In (CreateTable t) A -> all_con_named t = true.
Hypothesis OK : schemas_ok d B A.
Notation oB k := (assoc_key k (entries d B)).

(** ** Drops *)
Definition left_of (l : ddl) (k : key) : option value := match find (belongs d k) l with Some _ => None | None => oB k end.
Lemma no_index_left : forall t i, In (CreateTable t) B -> find_stmt (CreateTable t) A = None -> In (CreateIndex i) B -> qname (cx_table i) = qname (ct_name t) -> False.
Proof.
  intros t i Ht F Hi Hq. destruct (so_wiped _ _ _ OK i t (or_introl Hi) Ht Hq) as [ta [Ha [Hqa _]]].
  pose proof (same_table t ta (eq_sym Hqa)) as Es. rewrite (find_stmt_none _ _ F _ Ha) in Es. discriminate.
Qed.
Lemma drops_prefix : forall l r k, only_left_stmts B A = l ++ r -> at_key k (col_ops d (map drop1 l)) (oB k) = Some (left_of l k).
Proof.
  intros l r k El. set (v0 := oB k). rewrite col_ops_map.
  assert (Hl : forall s, In s l -> In s B /\ find_stmt s A = None) by (intros s Hs; apply only_left_in; rewrite El; apply in_or_app; left; exact Hs).
  rewrite (at_flat_unique (fun v => v = v0 \/ v = None) _ _ (belongs d k)).
  - unfold left_of. fold v0. destruct (find (belongs d k) l) as [s|] eqn:E; [|reflexivity].
    apply find_some in E. destruct E as [Is Hb]. destruct (Hl s Is) as [Hs F].
    assert (Ev : v0 = assoc_key k (stmt_entries d s)) by (unfold v0; rewrite assoc_hm by assumption; rewrite (hm_in d k B s CB NB Hs Hb); reflexivity).
    destruct (is_create_cases B s CB Hs) as [[t Et]|[i Ei]]; subst s.
    + cbn [col_ops flat_map drop1 drop_stmt stmt_ops app at_key]. cbn [stmt_entries] in Ev.
      destruct (owner k) as [u|] eqn:Eo.
      * destruct (belongs_owner d k u _ Eo Hb) as [t' [E1 E2]]. inversion E1; subst t'. cbn [eff].
        destruct (key_eqb (KTab (qname (ct_name t))) k) eqn:Ek.
        -- apply key_eqb_eq in Ek. subst k. rewrite Ev. unfold table_entries. cbn [assoc_key]. rewrite key_eqb_refl. reflexivity.
        -- unfold owned_by. rewrite Eo, E2, String.eqb_refl. reflexivity.
      * destruct k; try discriminate Eo. cbn [eff key_eqb owned_by owner].
        destruct v0 as [x|]; [|reflexivity]. symmetry in Ev. destruct (intable_value d B A NB NA OK _ _ _ Ev) as [y [E1 E2]]. subst x.
        cbn [unless index_on]. rewrite E2, String.eqb_refl. reflexivity.
    + destruct (owner k) as [u|] eqn:Eo; [destruct (belongs_owner d k u _ Eo Hb) as [t' [E1 _]]; discriminate E1|].
      unfold belongs in Hb. rewrite Eo in Hb. apply declares_In in Hb. destruct Hb as [Hb|[]]. cbn [fst] in Hb. subst k.
      cbn [stmt_entries assoc_key] in Ev. rewrite key_eqb_refl in Ev. rewrite Ev.
      cbn [col_ops flat_map drop1 drop_stmt stmt_ops app]. unfold drop_index_ops.
      destruct d eqn:Ed; cbn [app at_key eff]; rewrite ?key_eqb_refl; try reflexivity.
      exfalso. rewrite <- Ed in *. apply (my_index_partner d B A OK i Ed Hs). exact F.
  - intros s Hs Hb v Hv. destruct (Hl s Hs) as [Hs' F].
    destruct (is_create_cases B s CB Hs') as [[t Et]|[i Ei]]; subst s.
    + cbn [col_ops flat_map drop1 drop_stmt stmt_ops app at_key]. rewrite wipe_idle; [reflexivity| |].
      * intro Eo. unfold belongs in Hb. rewrite Eo, String.eqb_refl in Hb. discriminate.
      * intros x Hx. destruct Hv as [Hv|Hv]; [|congruence]. destruct (index_on (qname (ct_name t)) x) eqn:Ei; [|reflexivity]. exfalso.
        destruct (quiet_value d B A CB CA NB NA OK B k _ t x CB NB (or_introl Hs') eq_refl Hb (eq_trans (eq_sym Hv) Hx) Ei) as [i [Hi [_ [Hq _]]]].
        exact (no_index_left t i Hs' F Hi Hq).
    + assert (Hne : KIdx (qname (cx_name i)) <> k).
      { intro E. subst k. unfold belongs, declares in Hb. cbn [owner stmt_entries existsb fst] in Hb. rewrite key_eqb_refl in Hb. discriminate. }
      cbn [col_ops flat_map drop1 drop_stmt stmt_ops app]. unfold drop_index_ops.
      assert (Hd : d <> My) by (intro Ed; apply (my_index_partner d B A OK i Ed Hs'); exact F).
      apply key_eqb_neq in Hne. destruct d; try contradiction; cbn [app at_key eff]; rewrite Hne; reflexivity.
  - apply (atmost1_app_l _ _ l r). rewrite <- El. unfold only_left_stmts. apply atmost1_filter. apply belongs_unique; assumption.
  - left; reflexivity.
  - intros s Hs Hb w Hw. destruct (Hl s Hs) as [Hs' F].
    destruct (is_create_cases B s CB Hs') as [[t Et]|[i Ei]]; subst s; cbn [col_ops flat_map drop1 drop_stmt stmt_ops app] in Hw.
    + cbn [at_key eff] in Hw. destruct (key_eqb (KTab (qname (ct_name t))) k).
      { destruct (present v0); inversion Hw; auto. }
      destruct (owned_by (qname (ct_name t)) k); [inversion Hw; auto|]. destruct v0 as [x|]; cbn [unless] in Hw; [|inversion Hw; auto].
      destruct (index_on _ x); inversion Hw; auto.
    + unfold drop_index_ops in Hw. destruct d; cbn [app at_key eff] in Hw;
      try (destruct (key_eqb _ k); [destruct (present v0); inversion Hw; auto|inversion Hw; auto]). discriminate Hw.
Qed.
Lemma gone_eq : gone B A = only_left_stmts B A.
Proof.
  unfold gone, only_left_stmts. apply filter_ext_in. intros s Hs. unfold stays. rewrite (partner_A B A CB CA) by (left; exact Hs).
  destruct (find_stmt s A); reflexivity.
Qed.

Hypothesis IO : in_order d B A = true.
Lemma in_order_at : forall l s x, dropped_in_order d l = true -> In s l -> In x l -> forall t, s = CreateTable t -> In (KTab (table_name t)) (referred d [x]) ->
  forall p q, l = p ++ q -> In s p -> In x p.
Proof.
  intros l s x H Hs Hx t Es R p q El Ip. destruct (in_app_or p q x) as [G|G]; [rewrite <- El; exact Hx|exact G|]. exfalso.
  apply in_split in Ip. destruct Ip as [p1 [p2 Ep]]. subst l p s. clear Hs Hx. rewrite <- app_assoc in H.
  induction p1 as [|y p1 IH]; cbn [app dropped_in_order] in H.
  - apply andb_true_iff in H. destruct H as [H _]. rewrite forallb_forall in H. specialize (H x). rewrite (proj2 (mem_key_In _ _) R) in H.
    assert (F : negb true = true); [|discriminate F]. apply H. apply in_or_app. right. exact G.
  - apply andb_true_iff in H. destruct H as [_ H]. exact (IH H).
Qed.
Lemma left_sound : forall l r, only_left_stmts B A = l ++ r -> dropped_in_order d (only_left_stmts B A) = true -> sound (left_of l).
Proof.
  intros l r El Or k v Hv. apply intact_iff. intros n Hn. unfold left_of in Hv. destruct (find (belongs d k) l) as [?|] eqn:Fk; [discriminate Hv|].
  pose proof (closed_B d B A CB CA NB KB KA IO k v n Hv Hn) as Pn. unfold left_of. destruct (find (belongs d n) l) as [s|] eqn:Fn; [exfalso|exact Pn].
  apply find_some in Fn. destruct Fn as [Is Bn]. assert (Hs : In s B /\ find_stmt s A = None) by (apply only_left_in; rewrite El; apply in_or_app; left; exact Is). destruct Hs as [Hs F].
  destruct (tabcol_owner n (needs_tabcol _ _ _ Hn)) as [u Ou]. destruct (belongs_owner d n u s Ou Bn) as [t [Es Et]]. subst s.
  assert (Nb : belongs d k (CreateTable t) = false) by (exact (find_none _ _ Fk _ Is)).
  destruct (needs_owner k v n u Hn Ou) as [O|[O|O]].
  - unfold belongs in Nb. rewrite O, Et, String.eqb_refl in Nb. discriminate Nb.
  - rewrite <- Et in O. destruct (quiet_value d B A CB CA NB NA OK B k _ t v CB NB (or_introl Hs) eq_refl Nb Hv O) as [i [Hi [_ [Hq _]]]]. exact (no_index_left t i Hs F Hi Hq).
  - rewrite <- Et in O. assert (Ok : owner k <> None).
    { destruct k; try discriminate. destruct v as [| |[]| | |]; contradiction Hn || contradiction O. }
    destruct (refers_gone d B A CB CA NB NA KB KA IO k v t Hv Hs F Ok (needs_conkey _ _ _ Hn) O) as [_ [tw [Hw [Fw Ow]]]].
    assert (Iw : In (CreateTable tw) (only_left_stmts B A)) by (apply only_left_in; split; assumption).
    assert (Bw : belongs d k (CreateTable tw) = true) by (unfold belongs; rewrite Ow; apply String.eqb_refl).
    assert (Vw : assoc_key k (stmt_entries d (CreateTable tw)) = Some v) by (rewrite assoc_hm in Hv by assumption; rewrite (hm_in d k B _ CB NB Hw Bw) in Hv; exact Hv).
    assert (R : In (KTab (table_name t)) (referred d [CreateTable tw])) by exact (referred_in d B A CB CA KB KA _ k v _ (or_introl Hw) Vw O).
    assert (It : In (CreateTable t) (only_left_stmts B A)) by (apply only_left_in; split; assumption).
    pose proof (in_order_at _ _ _ Or It Iw t eq_refl R l r El Is) as J. pose proof (find_none _ _ Fk _ J) as Z. congruence.
Qed.

(** ** All of the diff *)
Hypothesis DO : dropped_in_order d (gone B A) = true.
Notation change := (chg d srt sdiff A).
Lemma gone_sound : sound (gone_value d B A).
Proof.
  rewrite gone_eq in DO. apply (sound_ext (left_of (only_left_stmts B A))); [|apply (left_sound _ []); [rewrite app_nil_r; reflexivity|exact DO]].
  intro k. pose proof (drops_prefix (only_left_stmts B A) [] k ltac:(rewrite app_nil_r; reflexivity)) as H. rewrite (phase1 d B A CB CA NB NA OK) in H. congruence.
Qed.
Lemma made_sound : forall p q, only_left_stmts A B = p ++ q -> sound (made d B A p).
Proof.
  induction p as [|s p IH] using rev_ind; intros q E.
  - exact gone_sound.
  - assert (E' : only_left_stmts A B = p ++ s :: q) by (rewrite E, <- app_assoc; reflexivity).
    refine (proj1 (create_step d B A CB CA NB NA KB KA OK IO p s q (made d B A p) (made d B A (p ++ [s])) E' _ _ (IH (s :: q) E'))); reflexivity.
Qed.
Lemma mid_sound : sound (mid_value d B A).
Proof.
  apply (sound_ext (made d B A (only_left_stmts A B))); [|apply (made_sound _ []); rewrite app_nil_r; reflexivity].
  intro k. pose proof (phase2_prefix d B A CB CA NB NA KA OK (only_left_stmts A B) [] k ltac:(rewrite app_nil_r; reflexivity)) as H. rewrite (phase2 d B A CB CA NB NA KA OK) in H. congruence.
Qed.
Lemma val_sound : forall l r, B = l ++ r -> sound (val d B A l).
Proof.
  induction l as [|s l IH] using rev_ind; intros r E; [exact mid_sound|].
  assert (E' : B = l ++ s :: r) by (rewrite E, <- app_assoc; reflexivity). pose proof (IH (s :: r) E') as SV.
  pose proof (fun k => change_value d srt sdiff Hsrt B A CB CA NB NA KB KA OK l s r k E') as V.
  assert (Hs : In s B) by (rewrite E'; apply in_or_app; right; left; reflexivity).
  destruct (find_stmt s A) as [p|] eqn:F.
  - destruct (io_split d B A IO) as [_ [_ [_ [_ H]]]]. rewrite E' in H at 3.
    destruct (changed_at d A l s r p _ H) as [_ [_ H3]]; [rewrite (partner_A B A CB CA) by (left; exact Hs); exact F|].
    destruct (chg_shape d srt sdiff Hsrt B A CB CA NB NA KB KA OK IO s p Hs F H3) as [cs1 [cs2 Sh]].
    apply (prefix_sound d srt sdiff B A CB CA NB NA KB KA OK IO l r s p cs1 cs2 E' F Sh SV (change s) []); [rewrite app_nil_r; reflexivity|exact V].
  - destruct (change_stmt d srt sdiff Hsrt B A CB CA NB NA KB KA OK s Hs) as [c [Ec [_ [H2 _]]]].
    assert (Ech : change s = []) by (unfold chg; rewrite Ec; apply H2; exact F). apply (sound_ext (val d B A l)); [|exact SV]. intro k. specialize (V k). rewrite Ech in V. cbn in V. congruence.
Qed.
Lemma change_sound : forall l s r P Q (m : db), B = l ++ s :: r -> change s = P ++ Q -> (forall k, at_key k (col_ops d P) (val d B A l k) = Some (m k)) -> sound m.
Proof.
  intros l s r P Q m E Ec V. pose proof (val_sound l (s :: r) E) as SV.
  assert (Hs : In s B) by (rewrite E; apply in_or_app; right; left; reflexivity).
  destruct (find_stmt s A) as [p|] eqn:F.
  - destruct (io_split d B A IO) as [_ [_ [_ [_ H]]]]. rewrite E in H at 3.
    destruct (changed_at d A l s r p _ H) as [_ [_ H3]]; [rewrite (partner_A B A CB CA) by (left; exact Hs); exact F|].
    destruct (chg_shape d srt sdiff Hsrt B A CB CA NB NA KB KA OK IO s p Hs F H3) as [cs1 [cs2 Sh]].
    exact (prefix_sound d srt sdiff B A CB CA NB NA KB KA OK IO l r s p cs1 cs2 E F Sh SV P Q m Ec V).
  - destruct (change_stmt d srt sdiff Hsrt B A CB CA NB NA KB KA OK s Hs) as [c [Ed [_ [H2 _]]]].
    assert (Ech : change s = []) by (unfold chg; rewrite Ed; apply H2; exact F). rewrite Ech in Ec. symmetry in Ec. apply app_eq_nil in Ec. destruct Ec as [-> _].
    apply (sound_ext (val d B A l)); [|exact SV]. intro k. specialize (V k). cbn in V. congruence.
Qed.
Lemma changes_prefix : forall l r k, B = l ++ r -> at_key k (col_ops d (flat_map change l)) (mid_value d B A k) = Some (val d B A l k).
Proof.
  induction l as [|s l IH] using rev_ind; intros r k E; [reflexivity|]. rewrite flat_map_app, at_col_app.
  assert (E' : B = l ++ s :: r) by (rewrite E, <- app_assoc; reflexivity).
  rewrite (IH (s :: r) k E'). cbn [flat_map]. rewrite app_nil_r.
  exact (change_value d srt sdiff Hsrt B A CB CA NB NA KB KA OK l s r k E').
Qed.

Theorem prefix_whole : forall p q (m : db), result d srt sdiff B A = p ++ q -> (forall k, at_key k (col_ops d p) (oB k) = Some (m k)) -> sound m.
Proof.
  intros p q m E V. unfold result in E. destruct (prefix_cases _ _ _ _ _ E) as [[z [E1 F1]]|[z [E1 F1]]].
  - assert (Z : exists l r, only_left_stmts B A = l ++ r /\ p = map drop1 l).
    { exists (firstn (List.length p) (only_left_stmts B A)), (skipn (List.length p) (only_left_stmts B A)). split; [symmetry; apply firstn_skipn|].
      rewrite <- firstn_map, E1, firstn_app, firstn_all, Nat.sub_diag. cbn [firstn]. rewrite app_nil_r. reflexivity. }
    destruct Z as [l [r [El Ep]]]. subst p. rewrite gone_eq in DO.
    apply (sound_ext (left_of l)); [|exact (left_sound l r El DO)]. intro k. specialize (V k). rewrite (drops_prefix l r k El) in V. congruence.
  - subst p. destruct (prefix_cases _ _ _ _ _ F1) as [[y [E2 F2]]|[y [E2 F2]]].
    + apply (sound_ext (made d B A z)); [|exact (made_sound z y E2)]. intro k. specialize (V k).
      rewrite at_col_app, (phase1 d B A CB CA NB NA OK), (phase2_prefix d B A CB CA NB NA KA OK z y k E2) in V. congruence.
    + subst z. assert (V' : forall k, at_key k (col_ops d y) (mid_value d B A k) = Some (m k)).
      { intro k. specialize (V k). rewrite at_col_app, (phase1 d B A CB CA NB NA OK), at_col_app, (phase2 d B A CB CA NB NA KA OK) in V. exact V. }
      destruct (prefix_flat _ _ _ _ _ _ F2) as [G|[l [s [r [P [Q [G1 [G2 G3]]]]]]]].
      * subst y. apply (sound_ext (val d B A B)); [|apply (val_sound B []); rewrite app_nil_r; reflexivity]. intro k. specialize (V' k).
        rewrite (changes_prefix B [] k) in V' by (rewrite app_nil_r; reflexivity). congruence.
      * subst y. apply (change_sound l s r P Q m G1 G3). intro k. specialize (V' k). rewrite at_col_app, (changes_prefix l (s :: r) k G1) in V'. exact V'.
Qed.
End Order.

Lemma tolerates_run : forall d l m, forallb no_rename l = true -> (forall p q m', l = p ++ q -> run (col_ops d p) m = Some m' -> sound m') ->
  forall m', run (col_ops d l) m = Some m' -> tolerates d l m m'.
Proof.
  intros d l. induction l as [|s l IH]; intros m N H m' R.
  - cbn in R. injection R as <-. constructor.
  - cbn [forallb] in N. apply andb_true_iff in N. destruct N as [N1 N2]. change (col_ops d (s :: l)) with (stmt_ops d s ++ col_ops d l) in R. rewrite run_app in R.
    destruct (run (stmt_ops d s) m) as [m1|] eqn:E; [|discriminate R].
    apply (tolerates_cons d s l m m1 m' (exec_run d s m m1 N1 E)).
    + apply (H [s] l m1 eq_refl). unfold col_ops. cbn [flat_map]. rewrite app_nil_r. exact E.
    + apply IH; try assumption. intros p q m2 El R2. apply (H (s :: p) q m2); [rewrite El; reflexivity|].
      change (col_ops d (s :: p)) with (stmt_ops d s ++ col_ops d p). rewrite run_app, E. exact R2.
Qed.
Theorem diff_tolerated : forall d srt sdiff before after db0 dba,
  srt_ok srt -> describes d before db0 -> describes d after dba ->
  reconcilable d before after = true -> text_ok d before after = true -> in_order d before after = true ->
  dropped_in_order d (gone before after) = true ->
  match diff d srt sdiff (Some before) (Some after) with
  | DOk stmts => exists m, tolerates d stmts db0 m /\ db_eq m dba
  | DNoDiff => db_eq db0 dba
  | _ => False
  end.
Proof.
  intros d srt sdiff B A db0 dba Hs HB HA R T IO DO.
  destruct (describes_entries d B db0 HB) as [NB [VB KB]]. destruct (describes_entries d A dba HA) as [NA [VA KA]].
  pose proof (diff_reconciles d srt sdiff B A db0 dba Hs HB HA R T) as Hd.
  destruct HB as [CB _]. destruct HA as [CA _].
  assert (OK : schemas_ok d B A) by (apply reconcilable_ok; assumption).
  destruct (run_by_key (col_ops d (result d srt sdiff B A)) db0 dba) as [m [Hm Hme]].
  { intro k. rewrite VB, VA. exact (result_sound d srt sdiff Hs B A CB CA NB NA KB KA OK k). }
  assert (Ac : tolerates d (result d srt sdiff B A) db0 m).
  { apply tolerates_run; [exact (result_no_rename d srt sdiff Hs B A CB CA NB NA KA OK)| |exact Hm]. intros p q m' Ep Hr.
    apply (prefix_whole d srt sdiff Hs B A CB CA NB NA KB KA OK IO DO p q m' Ep). intro k. rewrite <- VB. exact (run_at_key _ _ _ Hr k). }
  cbn [diff] in *. rewrite (diff_ddl_result d srt sdiff Hs B A CB CA NB NA KB KA OK) in *.
  destruct (eqs (ddl_string d B) (ddl_string d A)); [exact Hd|].
  destruct (result d srt sdiff B A) as [|x rs]; [exact Hd|]. exists m. split; [exact Ac|exact Hme].
Qed.

(** ** The order of the tables that go is needed *)
Lemma entry_refers : forall d s k v n, is_create s = true -> In (k, v) (stmt_entries d s) -> In n (refers v) -> exists t x, k = KCon t x.
Proof.
  intros d s k v n C I R. destruct s as [t|i|?|?|?]; try discriminate C; cbn [stmt_entries] in I.
  - destruct I as [I|I]; [injection I as <- <-; destruct R|]. repeat rewrite in_app_iff in I. destruct I as [I|[I|[I|I]]].
    + apply in_map_iff in I. destruct I as [c [I _]]. inversion I; subst. destruct R.
    + apply in_flat_map in I. destruct I as [c [_ I]]. destruct c as [o|o|o|o|o]; destruct o; cbn in I; try (destruct I as [I|[]]); try contradiction; inversion I; subst; try destruct R; eauto.
    + apply in_flat_map in I. destruct I as [c [_ I]]. unfold opt_entries in I. destruct d; [| |destruct (counter_option c); [destruct I|]|]; destruct I as [I|[]]; inversion I; subst; destruct R.
    + unfold row_entries in I. destruct (ct_rowdel t); [|destruct I]. destruct I as [I|[]]; inversion I; subst; destruct R.
  - destruct I as [I|[]]. injection I as <- <-. destruct R.
Qed.
Lemma out_of_order : forall d l, dropped_in_order d l = false -> exists p t q x, l = p ++ CreateTable t :: q /\ In x q /\ In (KTab (table_name t)) (referred d [x]).
Proof.
  intros d l. induction l as [|s l IH]; intro H; [discriminate H|]. cbn [dropped_in_order] in H. apply andb_false_iff in H. destruct H as [H|H].
  - destruct s as [t|?|?|?|?]; try discriminate H. exists [], t, l.
    assert (Z : existsb (fun x => mem_key (KTab (table_name t)) (referred d [x])) l = true).
    { clear IH. induction l as [|y l IH]; [discriminate H|]. cbn [forallb existsb] in *. destruct (mem_key _ (referred d [y])); [reflexivity|]. exact (IH H). }
    apply existsb_exists in Z. destruct Z as [x [I Z]]. exists x. split; [reflexivity|]. split; [exact I|]. apply mem_key_In. exact Z.
  - destruct (IH H) as [p [t [q [x [E F]]]]]. exists (s :: p), t, q, x. split; [rewrite E; reflexivity|exact F].
Qed.
Lemma tolerates_prefix : forall d p q m m', tolerates d (p ++ q) m m' -> p <> [] -> exists m1, exec_all d p m = Some m1 /\ whole m1.
Proof.
  intros d p. induction p as [|s p IH]; intros q m m' H N; [contradiction|]. cbn [app] in H. inversion H as [|? ? ? m1 ? X W H']; subst. cbn [exec_all]. rewrite X.
  destruct p as [|s2 p]; [exists m1; split; [reflexivity|exact W]|]. apply (IH q m1 m' H'). discriminate.
Qed.

Theorem tolerated_in_order : forall d srt sdiff before after db0 dba stmts m,
  srt_ok srt -> describes d before db0 -> describes d after dba ->
  reconcilable d before after = true -> text_ok d before after = true ->
  diff d srt sdiff (Some before) (Some after) = DOk stmts -> tolerates d stmts db0 m ->
  dropped_in_order d (gone before after) = true.
Proof.
  intros d srt sdiff B A db0 dba stmts m Hs HB HA R T E Ac.
  destruct (describes_entries d B db0 HB) as [NB [VB KB]]. destruct (describes_entries d A dba HA) as [NA [VA KA]].
  destruct HB as [CB _]. destruct HA as [CA _].
  assert (OK : schemas_ok d B A) by (apply reconcilable_ok; assumption).
  cbn [diff] in E. rewrite (diff_ddl_result d srt sdiff Hs B A CB CA NB NA KB KA OK) in E.
  destruct (eqs (ddl_string d B) (ddl_string d A)); [discriminate E|].
  assert (Es : stmts = result d srt sdiff B A) by (destruct (result d srt sdiff B A); [discriminate E|congruence]). subst stmts. clear E.
  rewrite (gone_eq B A CB CA). destruct (dropped_in_order d (only_left_stmts B A)) eqn:Or; [reflexivity|]. exfalso.
  destruct (out_of_order d _ Or) as [p [t [q [x [El [Ix Rx]]]]]].
  assert (El' : only_left_stmts B A = (p ++ [CreateTable t]) ++ q) by (rewrite El, <- app_assoc; reflexivity).
  unfold result in Ac. rewrite El', map_app, <- app_assoc in Ac.
  destruct (tolerates_prefix d _ _ _ _ Ac) as [m1 [X W]]; [destruct p; discriminate|].
  assert (Lm : forall k, m1 k = left_of d B (p ++ [CreateTable t]) k).
  { destruct (run_by_key (col_ops d (map drop1 (p ++ [CreateTable t]))) db0 (left_of d B (p ++ [CreateTable t]))) as [m2 [Hr Em]].
    { intro k. rewrite VB. exact (drops_prefix d B A CB CA NB NA OK _ _ k El'). }
    assert (Nr : forallb no_rename (map drop1 (p ++ [CreateTable t])) = true).
    { pose proof (result_no_rename d srt sdiff Hs B A CB CA NB NA KA OK) as Q. unfold result in Q. rewrite El', map_app, !forallb_app in Q. rewrite !andb_true_iff in Q. tauto. }
    pose proof (exec_all_run d _ _ _ Nr Hr) as Y. rewrite X in Y. injection Y as ->. exact Em. }
  assert (Hx : In x B /\ find_stmt x A = None) by (apply only_left_in; rewrite El'; apply in_or_app; right; exact Ix). destruct Hx as [Hx Fx].
  unfold referred in Rx. apply in_flat_map in Rx. destruct Rx as [[k v] [Io Rv]]. cbn [snd] in Rv.
  rewrite (objects_stmt d B A CB CA KB KA x (or_introl Hx)) in Io.
  pose proof (In_assoc _ _ _ (nodup_flat_stmt d B x NB Hx) Io) as Vx.
  assert (Bx : belongs d k x = true) by (apply declares_belongs, declares_assoc; rewrite Vx; reflexivity).
  assert (Vk : m1 k = Some v).
  { rewrite Lm. unfold left_of. destruct (find (belongs d k) (p ++ [CreateTable t])) as [y|] eqn:Fy.
    - exfalso. apply find_some in Fy. destruct Fy as [Iy By]. assert (Hy : In y B) by (apply (proj1 (only_left_in B A y)); rewrite El'; apply in_or_app; left; exact Iy).
      pose proof (belongs_eq d B k x y CB NB Hx Hy Bx By) as Exy. subst y.
      assert (Nd : NoDup (only_left_stmts B A)) by (apply NoDup_filter; exact (nodup_stmts d B CB NB)). rewrite El' in Nd.
      exact (nodup_app_disjoint _ _ _ x Nd Iy Ix).
    - rewrite assoc_hm by assumption. rewrite (hm_in d k B x CB NB Hx Bx). exact Vx. }
  destruct (entry_refers d x k v _ (known_create B A CB CA x (or_introl Hx)) Io Rv) as [u [y Ek]]. subst k.
  pose proof (W _ _ Vk) as I0. rewrite intact_iff in I0. specialize (I0 _ (refers_needs u y v _ Rv)). rewrite Lm in I0. unfold left_of in I0.
  destruct (find (belongs d (KTab (table_name t))) (p ++ [CreateTable t])) as [z|] eqn:Fz; [discriminate I0|].
  assert (F : belongs d (KTab (table_name t)) (CreateTable t) = true) by (unfold belongs; cbn [owner]; apply String.eqb_refl).
  rewrite (find_none _ _ Fz (CreateTable t)) in F; [discriminate F|]. apply in_or_app. right. left. reflexivity.
Qed.
