(** The conditions under which a difference reaches its target are needed (for C72). *)
From Coq Require Import Lia Permutation.
From Verif Require Import GoStr Token Ast Parser Diff Db DbFacts AppendFacts DiffTable DiffPair DiffSound
  Tidy TidyFacts DiffSame Reconcile ReconcileFacts Honest DiffSpec Justified Frame Shape InterruptFacts.
Local Open Scope list_scope.

(** ** Keys of constraints and indexes: statements that do not add them can only remove them *)
Definition shrinks (k : key) (o : op) : Prop := forall v w, eff o k v = Some w -> w = v \/ w = None.

Lemma unless_shrinks : forall p v, unless p v = v \/ unless p v = None.
Proof. intros p [x|]; cbn; [destruct (p x)|]; auto. Qed.

Lemma key_neq_eqb : forall a b, a <> b -> key_eqb a b = false.
Proof. intros a b H. apply key_eqb_neq. exact H. Qed.

Lemma upd_col_shrinks : forall k T c f, conkey k -> shrinks k (Upd (KCol T c) f).
Proof. intros k T c f C v w H. destruct k; try contradiction C; cbn in H; inversion H; auto. Qed.

Lemma ops_shrink : forall d k s o, conkey k -> In o (stmt_ops d s) -> (exists v, o = Add k v) \/ shrinks k o.
Proof.
  intros d k s o C H.
  assert (A0 : forall q v, o = Add q v -> (exists v, o = Add k v) \/ shrinks k o).
  { intros q v E. destruct (key_dec q k) as [Q|Q]; [left; exists v; congruence|]. right. intros x w F. subst o. cbn [eff] in F.
    rewrite (key_neq_eqb _ _ Q) in F. inversion F; auto. }
  assert (D0 : forall q, o = Del q -> shrinks k o).
  { intros q E x w F. subst o. cbn [eff] in F. destruct (key_eqb q k); [destruct (present x); inversion F; auto|inversion F; auto]. }
  assert (F0 : o = Fail -> shrinks k o) by (intros E x w F; subst o; discriminate F).
  assert (H0 : forall q, o = Has q -> shrinks k o).
  { intros q E x w F. subst o. cbn [eff] in F. destruct (key_eqb q k); [destruct (present x); inversion F; auto|inversion F; auto]. }
  destruct s as [t|i|c ie n|c ie n|c n a]; cbn [stmt_ops] in H.
  - destruct (create_ops_in d t o H) as [E|[E|[q [v [E _]]]]]; [|right; auto|eauto].
    right. intros x w F. subst o. cbn [eff] in F. destruct k; try contradiction C; cbn [key_eqb] in F.
    + destruct (owned_by _ _); inversion F; auto.
    + destruct (owned_by _ _); inversion F; auto.
  - destruct H as [H|[]]. symmetry in H. eauto.
  - destruct H as [H|[]]. right. intros x w F. subst o. cbn [eff] in F. destruct k; try contradiction C; cbn [key_eqb] in F.
    + destruct (owned_by _ _); inversion F; [auto|apply unless_shrinks].
    + destruct (owned_by _ _); inversion F; [auto|apply unless_shrinks].
  - right. unfold drop_index_ops in H. destruct d; destruct H as [H|[]]; symmetry in H; eauto.
  - destruct H as [H|H]; [right; apply (H0 (KTab (qname n))); congruence|].
    assert (U0 : forall T e f, o = Upd (KCol T e) f -> shrinks k o) by (intros; subst o; apply upd_col_shrinks; exact C).
    assert (R0 : forall T f, o = Upd (KRow T) f -> shrinks k o).
    { intros T f E v w F. subst o. destruct k; try contradiction C; cbn in F; inversion F; auto. }
    destruct a as [u|x y|x y|c0|x|x ty|x v|x|x|x|c0 b0|nm|x b1 b2|c0|x v|x ty nn|x v|x|x|x|]; cbn [action_ops] in H;
      try (destruct H as [H|[]]; symmetry in H; first [solve [eauto]|right; solve [eauto]]; fail).
    + right. destruct H as [H|[]]. intros y w F. subst o. cbn [eff] in F. destruct k; try contradiction C; cbn [key_eqb] in F; inversion F; apply unless_shrinks.
    + right. destruct v as [[l|]|]; destruct H as [H|[]]; symmetry in H; eauto.
    + unfold add_con_ops in H. destruct c0 as [nm cs|nm cs r rc ac|nm cs|[nm|] u pre cs post|nm e]; cbn [con_name] in H;
        try (destruct H as [H|[]]; symmetry in H; first [solve [eauto]|right; solve [eauto]]; fail);
        destruct nm; cbn [sem_con] in H; destruct H as [H|[]]; symmetry in H; first [solve [eauto]|right; solve [eauto]].
    + right. destruct nm; destruct H as [H|[]]; symmetry in H; eauto.
    + right. destruct H as [H|[]]. intros y w F. subst o. destruct k; try contradiction C; cbn in F; inversion F; auto.
Qed.

Lemma at_shrinks : forall k os v w, (forall o, In o os -> shrinks k o) -> at_key k os v = Some w -> w = v \/ w = None.
Proof.
  intros k os v w H E. apply (keeps_all (fun x => x = v \/ x = None) k os) with (v := v); [|left; reflexivity|exact E].
  intros o I x y [X|X] F; subst x; [exact (H o I _ _ F)|]. destruct (H o I _ _ F) as [Y|Y]; auto.
Qed.

(** The statement can make the object [k]. *)
Definition maker (d : dialect) (k : key) (s : stmt) : Prop := exists v, In (Add k v) (stmt_ops d s).

Lemma shrink_exec : forall d k s m m', conkey k -> exec d s m = Some m' -> no_rename s -> ~ maker d k s -> m' k = m k \/ m' k = None.
Proof.
  intros d k s m m' C H N M. destruct (exec_at d s m m' H N) as [E|E]; [left; subst; reflexivity|].
  apply (at_shrinks k (stmt_ops d s)); [|apply E]. intros o I. destruct (ops_shrink d k s o C I) as [[v X]|X]; [|exact X].
  exfalso. apply M. exists v. rewrite <- X. exact I.
Qed.

Lemma shrink_all : forall d k l m m', conkey k -> exec_all d l m = Some m' -> (forall s, In s l -> no_rename s /\ ~ maker d k s) ->
  m' k = m k \/ m' k = None.
Proof.
  intros d k. induction l as [|s l IH]; intros m m' C H A; cbn [exec_all] in H; [left; congruence|].
  destruct (exec d s m) as [m1|] eqn:E; [|discriminate H].
  destruct (IH m1 m' C H (fun x Hx => A x (or_intror Hx))) as [X|X]; [|right; exact X]. rewrite X.
  destruct (A s (or_introl eq_refl)) as [N M]. exact (shrink_exec d k s m m1 C E N M).
Qed.

Lemma none_stays : forall d k l m m', conkey k -> exec_all d l m = Some m' -> (forall s, In s l -> no_rename s /\ ~ maker d k s) ->
  m k = None -> m' k = None.
Proof. intros d k l m m' C H A E. destruct (shrink_all d k l m m' C H A) as [X|X]; congruence. Qed.

(** A statement that removes the object. *)
Definition remover (d : dialect) (k : key) (v0 : value) (s : stmt) : Prop :=
  forall m m', exec d s m = Some m' -> m k = Some v0 \/ m k = None -> m' k = None.

Lemma removed : forall d k l m m' s v0, conkey k -> exec_all d l m = Some m' -> (forall s, In s l -> no_rename s /\ ~ maker d k s) ->
  In s l -> remover d k v0 s -> m k = Some v0 \/ m k = None -> m' k = None.
Proof.
  intros d k l m m' s v0 C H A I R V. apply in_split in I. destruct I as [l1 [l2 E]]. subst l. rewrite exec_all_app in H.
  destruct (exec_all d l1 m) as [m1|] eqn:E1; [|discriminate H]. cbn [exec_all] in H. destruct (exec d s m1) as [m2|] eqn:E2; [|discriminate H].
  apply (none_stays d k l2 m2 m' C H); [intros x Hx; apply A; apply in_or_app; right; right; exact Hx|].
  apply (R m1 m2 E2). destruct (shrink_all d k l1 m m1 C E1) as [X|X]; [intros x Hx; apply A; apply in_or_app; left; exact Hx|rewrite X; exact V|right; exact X].
Qed.

Lemma remover_column : forall d k c n x v0, involves (qname n) (id_name x) k v0 = true -> remover d k v0 (AlterTable c n (DropColumn x)).
Proof.
  intros d k c n x v0 I m m' H V. cbn [exec] in H. pose proof (run_at_key _ _ _ H k) as K. cbn [stmt_ops action_ops at_key] in K.
  assert (C : conkey k) by (destruct k; cbn in I; try discriminate I; exact Logic.I).
  assert (E1 : eff (Has (KTab (qname n))) k (m k) = Some (m k)) by (destruct k; try contradiction C; reflexivity).
  rewrite E1 in K. cbn [eff] in K. replace (key_eqb (KCol (qname n) (id_name x)) k) with false in K by (destruct k; try contradiction C; reflexivity).
  inversion K as [K']. destruct V as [V|V]; rewrite V; cbn [unless]; [rewrite I; reflexivity|reflexivity].
Qed.

Lemma remover_table : forall d i c n v0, index_on (qname n) v0 = true -> remover d (KIdx i) v0 (DropTable c false n).
Proof.
  intros d i c n v0 I m m' H V. cbn [exec andb] in H. pose proof (run_at_key _ _ _ H (KIdx i)) as K. cbn [stmt_ops at_key eff key_eqb] in K.
  change (owned_by (qname n) (KIdx i)) with false in K. cbv iota in K. inversion K as [K'].
  destruct V as [V|V]; rewrite V; cbn [unless]; [rewrite I; reflexivity|reflexivity].
Qed.

(** A statement that needs the object to exist. *)
Definition needs (d : dialect) (k : key) (s : stmt) : Prop := forall m, m k = None -> exec d s m = None.
Lemma needs_index : forall d c n, needs d (KIdx (qname n)) (DropIndex c false n).
Proof.
  intros d c n m H. cbn [exec andb stmt_ops]. unfold drop_index_ops. destruct d; cbn [run op_ok]; try reflexivity; rewrite H; reflexivity.
Qed.
Lemma needs_con : forall d c n i, needs d (KCon (qname n) (id_name i)) (AlterTable c n (DropConstraint (Some i))).
Proof.
  intros d c n i m H. cbn [exec stmt_ops action_ops run op_ok op_db]. destruct (present (m (KTab (qname n)))); [|reflexivity]. rewrite H. reflexivity.
Qed.

(** ** Keys of columns *)
(** What holds of a column and is kept by every change to it still holds while the
    column is there. *)
Definition column_is (P : scol -> Prop) (v : option value) : Prop := exists x, v = Some (VCol x) /\ P x.
Definition keeps_column (d : dialect) (t c : string) (P : scol -> Prop) (s : stmt) : Prop :=
  forall f, In (Upd (KCol t c) f) (stmt_ops d s) -> forall x, P x -> exists y, f (VCol x) = VCol y /\ P y.

Lemma ops_column : forall d t c P s o v w, ~ replaces_table t s -> ~ removes_column t c s -> keeps_column d t c P s ->
  In o (stmt_ops d s) -> column_is P v -> eff o (KCol t c) v = Some w -> column_is P w.
Proof.
  intros d t c P s o v w R C K H [x [V X]] E. subst v.
  assert (Same : Some (Some (VCol x)) = Some w -> column_is P w) by (intro F; inversion F; subst; exists x; auto).
  assert (U : forall q f, o = Upd q f -> column_is P w).
  { intros q f F. subst o. cbn [eff present option_map] in E. destruct (key_eqb q (KCol t c)) eqn:Q; [|auto]. apply key_eqb_eq in Q. subst q.
    destruct (K f H x X) as [y [Y1 Y2]]. rewrite Y1 in E. inversion E. exists y. auto. }
  assert (A0 : forall q f, o = Add q f -> column_is P w).
  { intros q f F. subst o. cbn [eff present] in E. destruct (key_eqb q (KCol t c)); [discriminate E|auto]. }
  assert (D0 : forall q, o = Del q -> q <> KCol t c -> column_is P w).
  { intros q F Q. subst o. cbn [eff] in E. rewrite (key_neq_eqb _ _ Q) in E. auto. }
  assert (F0 : o = Fail -> column_is P w) by (intro F; subst o; discriminate E).
  destruct s as [ct|i|cm ie n|cm ie n|cm n a]; cbn [stmt_ops] in H; cbn [replaces_table removes_column] in R, C.
  - destruct (create_ops_in d ct o H) as [F|[F|[q [u [F I]]]]]; [|auto|eauto].
    subst o. cbn [eff key_eqb] in E. unfold owned_by in E. cbn [owner] in E. unfold table_name in R. apply String.eqb_neq in R. rewrite R in E. auto.
  - destruct H as [H|[]]. symmetry in H. eauto.
  - destruct H as [H|[]]. subst o. cbn [eff key_eqb] in E. unfold owned_by in E. cbn [owner] in E. apply String.eqb_neq in R. rewrite R in E.
    cbn [unless index_on] in E. auto.
  - unfold drop_index_ops in H. destruct d; destruct H as [H|[]]; symmetry in H; auto; apply (D0 _ H); discriminate.
  - destruct H as [H|H]; [subst o; cbn in E; auto|].
    destruct a as [u|z y|z y|c0|z|z ty|z dv|z|z|z|c0 b0|nm|z b1 b2|c0|z ov|z ty nn|z ov|z|z|z|]; cbn [action_ops] in H;
      try (destruct H as [H|[]]; symmetry in H; first [solve [eauto]|solve [eapply D0; [exact H|discriminate]]]; fail).
    + destruct H as [H|[]]. subst o. cbn [eff] in E. rewrite key_neq_eqb in E; [cbn [unless involves] in E; auto|]. intro Q. inversion Q. apply C. auto.
    + destruct dv as [[l|]|]; destruct H as [H|[]]; symmetry in H; eauto.
    + unfold add_con_ops in H. destruct c0 as [nm cs|nm cs r rc ac|nm cs|[nm|] u pre cs post|nm e]; cbn [con_name] in H; try destruct nm; cbn [sem_con] in H;
      destruct H as [H|[]]; symmetry in H; eauto.
    + destruct nm; destruct H as [H|[]]; symmetry in H; auto. apply (D0 _ H); discriminate.
    + destruct H as [H|[]]. subst o. cbn in E. auto.
Qed.

Lemma column_inv : forall d t c P l m m', exec_all d l m = Some m' ->
  (forall s, In s l -> no_rename s /\ ~ replaces_table t s /\ ~ removes_column t c s /\ keeps_column d t c P s) ->
  column_is P (m (KCol t c)) -> column_is P (m' (KCol t c)).
Proof.
  intros d t c P. induction l as [|s l IH]; intros m m' H A V; cbn [exec_all] in H; [congruence|].
  destruct (exec d s m) as [m1|] eqn:E; [|discriminate H]. apply (IH m1 m' H (fun x Hx => A x (or_intror Hx))).
  destruct (A s (or_introl eq_refl)) as [N [R [C K]]]. destruct (exec_at d s m m1 E N) as [F|F]; [subst; exact V|].
  apply (keeps_all (column_is P) (KCol t c) (stmt_ops d s)) with (v := m (KCol t c)); [|exact V|apply F].
  intros o I x y X G. exact (ops_column d t c P s o x y R C K I X G).
Qed.

(** ** Keys by label *)
Definition label_key (d : dialect) (n : objname) (idx : bool) (lab : string) : key :=
  if idx then KIdx (match d with My => match on_schema n with Some s => id_name s ++ "." ++ lab | None => lab end | _ => lab end)%string
  else KCon (qname n) lab.
Lemma ckey_label : forall d n c, ckey d n c = label_key d n (is_idx c) (con_key c).
Proof.
  intros d n c. unfold ckey, label_key, con_key. destruct (is_idx c); [|reflexivity]. unfold intable_key. destruct d; reflexivity.
Qed.
Lemma label_key_inj : forall d n x y p q, label_key d n x p = label_key d n y q -> x = y /\ p = q.
Proof.
  intros d n x y p q H. unfold label_key in H. destruct x, y; try discriminate H; split; try reflexivity; inversion H as [E]; try reflexivity.
  destruct d; try exact E. destruct (on_schema n); [|exact E]. apply (append_inj_l "."). apply (append_inj_l (id_name i)). exact E.
Qed.
Lemma label_key_conkey : forall d n x p, conkey (label_key d n x p).
Proof. intros d n [] p; exact I. Qed.
Lemma label_key_same : forall d n m x p, tidy_name n = true -> tidy_name m = true -> qname n = qname m -> label_key d n x p = label_key d m x p.
Proof.
  intros d n m x p Tn Tm E. destruct (qname_schema _ _ Tn Tm E) as [Hs _]. unfold label_key. rewrite E. destruct x; [|reflexivity]. destruct d; try reflexivity.
  destruct (on_schema n), (on_schema m); cbn in Hs; try discriminate Hs; [|reflexivity]. inversion Hs as [Hs']. rewrite Hs'. reflexivity.
Qed.

(** ** Inside one table *)
Lemma about_no_maker : forall d k s, conkey k -> about_column s = true -> ~ maker d k s.
Proof.
  intros d k s C H [v M]. destruct s as [| | | |cm n a]; try discriminate H. cbn [stmt_ops] in M. destruct M as [M|M]; [discriminate M|].
  destruct a as [u|x y|x y|c0|x|x ty|x dv|x|x|x|c0 b0|nm|x b1 b2|c0|x ov|x ty nn|x ov|x|x|x|]; try discriminate H; cbn [action_ops] in M;
    try (destruct M as [M|[]]; inversion M; subst k; contradiction C; fail); try (destruct M as [M|[]]; discriminate M).
  destruct dv as [[l|]|]; destruct M as [M|[]]; discriminate M.
Qed.

Section InTable.
Variable d : dialect.
Variable srt : list constraint -> list constraint.
Variable sdiff : string -> string -> string.
Hypothesis Hsrt : srt_ok srt.
Variables tb ta : create_table.
Hypothesis Tb : tidy_table d tb = true.
Hypothesis Ta : tidy_table d ta = true.
Hypothesis Hn : qname (ct_name tb) = qname (ct_name ta).
Variable lt : list stmt.
Hypothesis Hlt : diff_tables d srt sdiff false tb ta = Ok lt.
Let n := ct_name ta.
Let bn := ct_name tb.
Let T := qname n.

Lemma lt_phases : exists added,
  lt = flat_map (drop_gone_constraint d sdiff bn n (ct_constraints ta)) (ct_constraints tb)
    ++ diff_columns d sdiff n (ct_columns tb) (ct_columns ta)
    ++ flat_map (change_constraint d sdiff false bn n (ct_constraints ta)) (ct_constraints tb)
    ++ map (add_constraint d sdiff false n) added
    ++ diff_table_options d sdiff n (ct_options tb) (ct_options ta)
    ++ diff_row_deletion d sdiff n (ct_rowdel tb) (ct_rowdel ta) /\
  forall a, In a added -> In a (ct_constraints ta) /\ find_constraint (con_key a) (ct_constraints tb) = None.
Proof.
  pose proof Hlt as H. unfold diff_tables in H.
  destruct (only_left_constraints d srt (ct_constraints ta) (ct_constraints tb)) as [added| | |] eqn:Eadd; cbn [bind] in H; try discriminate H.
  assert (R : renamed (ct_name tb) (ct_name ta) = false).
  { unfold renamed. rewrite (objname_diff_qname (ct_name tb)), (objname_diff_qname (ct_name ta)), Hn. apply neqs_refl. }
  assert (F : final_name (ct_name tb) (ct_name ta) = ct_name ta) by (unfold final_name; rewrite R; reflexivity).
  rewrite F in H. unfold diff_rename in H. rewrite R in H. cbn [app] in H. injection H as H. exists added. split; [symmetry; exact H|].
  intros a Ha. exact (added_in d srt Hsrt tb ta Ta added a Eadd Ha).
Qed.

Lemma named_b : forall c, In c (ct_constraints tb) -> con_named c = true.
Proof. intros c H. exact (tidy_con_named d c (ti_con _ _ (tidy_table_spec _ _ Tb) c H)). Qed.
Lemma named_a : forall c, In c (ct_constraints ta) -> con_named c = true.
Proof. intros c H. exact (tidy_con_named d c (ti_con _ _ (tidy_table_spec _ _ Ta) c H)). Qed.

Lemma con_maker : forall k c nv cm s, In c (ct_constraints ta) ->
  s = (if is_index d c then index_of_constraint d cm n c else AlterTable cm n (AddConstraint c nv)) -> maker d k s ->
  k = KTab T \/ k = label_key d n (is_idx c) (con_key c).
Proof.
  intros k c nv cm s Hc E [v M]. subst s. rewrite <- ckey_label.
  destruct (is_index d c) eqn:I.
  - rewrite (index_ops d cm n c) in M; [destruct M as [M|[]]; right; congruence| |apply named_a; exact Hc|exact (is_index_dialect d c I)].
    rewrite <- (index_tidy d tb ta Tb Ta ta c Ta Hc). exact I.
  - cbn [stmt_ops action_ops] in M. destruct M as [M|M]; [discriminate M|]. rewrite (con_ops_add d n c (named_a c Hc)) in M. destruct M as [M|[]]. right. congruence.
Qed.

(** Only the block of a constraint makes it. *)
Lemma con_segment : forall b a, In b (ct_constraints tb) -> find_constraint (con_key b) (ct_constraints ta) = Some a ->
  exists m1 m2, lt = m1 ++ change_constraint d sdiff false bn n (ct_constraints ta) b ++ m2 /\
    (forall s, In s (diff_columns d sdiff n (ct_columns tb) (ct_columns ta)) -> In s m1) /\
    forall s x, In s (m1 ++ m2) -> ~ maker d (label_key d n x (con_key b)) s.
Proof.
  intros b a Hb Fa. destruct lt_phases as [added [E Hadd]]. destruct (in_split _ _ Hb) as [c1 [c2 Ec]].
  assert (Oth : forall b', In b' (c1 ++ c2) -> con_key b' <> con_key b).
  { intros b' I X. pose proof (ti_nodup _ _ (tidy_table_spec _ _ Tb)) as N. rewrite Ec, map_app in N. cbn [map] in N.
    apply NoDup_remove_2 in N. apply N. rewrite <- X, <- map_app. apply in_map. exact I. }
  assert (Ch : forall b' s x, In b' (c1 ++ c2) -> In s (change_constraint d sdiff false bn n (ct_constraints ta) b') -> ~ maker d (label_key d n x (con_key b)) s).
  { intros b' s x I Hs M. unfold change_constraint in Hs. destruct (find_constraint (con_key b') (ct_constraints ta)) as [a'|] eqn:F; [|destruct Hs].
    destruct (neqs _ _); [|destruct Hs]. destruct (find_con_some _ _ _ F) as [Ha' Hk].
    assert (Z : forall cm, In s [if is_index d a' then index_of_constraint d cm n a' else AlterTable cm n (AddConstraint a' false)] -> False).
    { intros cm [Z|[]]. destruct (con_maker _ a' false cm s Ha' (eq_sym Z) M) as [K|K]; [destruct x; discriminate K|].
      apply label_key_inj in K. destruct K as [_ K]. apply (Oth b' I). congruence. }
    destruct (is_index d a'); destruct Hs as [Hs|[Hs|[]]].
    - subst s. destruct M as [v M]. cbn [stmt_ops] in M. unfold drop_index_ops in M. destruct d; destruct M as [M|[]]; discriminate M.
    - apply (Z ""%string). left. exact Hs.
    - subst s. destruct M as [v M]. cbn [stmt_ops action_ops] in M. destruct (con_name b'); destruct M as [M|[M|[]]]; discriminate M.
    - eapply Z. left. exact Hs. }
  exists (flat_map (drop_gone_constraint d sdiff bn n (ct_constraints ta)) (ct_constraints tb) ++ diff_columns d sdiff n (ct_columns tb) (ct_columns ta)
          ++ flat_map (change_constraint d sdiff false bn n (ct_constraints ta)) c1).
  exists (flat_map (change_constraint d sdiff false bn n (ct_constraints ta)) c2 ++ map (add_constraint d sdiff false n) added
          ++ diff_table_options d sdiff n (ct_options tb) (ct_options ta) ++ diff_row_deletion d sdiff n (ct_rowdel tb) (ct_rowdel ta)).
  split; [|split].
  - rewrite E. rewrite Ec at 2. rewrite !flat_map_app. cbn [flat_map]. rewrite <- !app_assoc. reflexivity.
  - intros s Hs. apply in_or_app. right. apply in_or_app. left. exact Hs.
  - intros s x Hs. rewrite <- !app_assoc in Hs. repeat rewrite in_app_iff in Hs. destruct Hs as [Hs|[Hs|[Hs|[Hs|[Hs|[Hs|Hs]]]]]].
    + apply in_flat_map in Hs. destruct Hs as [b' [_ Hs]]. unfold drop_gone_constraint in Hs. destruct (find_constraint (con_key b') (ct_constraints ta)); [destruct Hs|].
      destruct (is_index d b'); destruct Hs as [Hs|[]]; subst s; intros [v M]; cbn [stmt_ops action_ops] in M.
      * unfold drop_index_ops in M. destruct d; destruct M as [M|[]]; discriminate M.
      * destruct (con_name b'); destruct M as [M|[M|[]]]; discriminate M.
    + apply about_no_maker; [apply label_key_conkey|]. exact (columns_about _ _ _ _ _ _ Hs).
    + apply in_flat_map in Hs. destruct Hs as [b' [Hb' Hs]]. apply (Ch b'); [apply in_or_app; left; exact Hb'|exact Hs].
    + apply in_flat_map in Hs. destruct Hs as [b' [Hb' Hs]]. apply (Ch b'); [apply in_or_app; right; exact Hb'|exact Hs].
    + apply in_map_iff in Hs. destruct Hs as [a' [Hs Ha']]. destruct (Hadd a' Ha') as [A1 A2]. unfold add_constraint in Hs. intro M.
      assert (Z : forall cm, s = (if is_index d a' then index_of_constraint d cm n a' else AlterTable cm n (AddConstraint a' false)) -> False).
      { intros cm Z. destruct (con_maker _ a' false cm s A1 Z M) as [K|K]; [destruct x; discriminate K|].
        apply label_key_inj in K. destruct K as [_ K]. rewrite <- K in A2. rewrite (con_find d tb b Tb Hb) in A2. discriminate A2. }
      destruct (is_index d a'); symmetry in Hs; eapply Z; exact Hs.
    + intros [v M]. unfold diff_table_options in Hs. destruct d; try (destruct Hs; fail). apply in_app_or in Hs. destruct Hs as [Hs|Hs].
      * apply in_flat_map in Hs. destruct Hs as [o [_ Hs]]. destruct (is_auto_increment o); [destruct Hs|]. destruct (find_option _ _); [|destruct Hs].
        destruct (neqs _ _); [|destruct Hs]. destruct Hs as [Hs|[]]. subst s. destruct M as [M|[M|[]]]; discriminate M.
      * apply in_map_iff in Hs. destruct Hs as [o [Hs _]]. subst s. destruct M as [M|[M|[]]]; discriminate M.
    + intros [v M]. unfold diff_row_deletion in Hs. destruct d; try (destruct Hs; fail). destruct (neqs _ _); [|destruct Hs].
      destruct (ct_rowdel tb), (ct_rowdel ta); try (destruct Hs; fail); destruct Hs as [Hs|[]]; subst s; destruct M as [M|[M|[]]]; try discriminate M;
      inversion M; destruct x; discriminate.
Qed.
End InTable.

(** ** Who makes an object *)
Lemma in_entries_maker : forall d t k, conkey k -> maker d k (CreateTable t) -> declares d k (CreateTable t) = true.
Proof.
  intros d t k C [v M]. cbn [stmt_ops] in M. destruct (create_ops_in d t _ M) as [E|[E|[q [u [E I]]]]]; try discriminate E. inversion E; subst q u.
  apply declares_In. cbn [stmt_entries]. unfold table_entries. right. change (In k (map fst (table_adds d t))). exact (in_map fst _ _ I).
Qed.
Lemma create_maker : forall d s k, conkey k -> is_create s = true -> maker d k s -> declares d k s = true.
Proof.
  intros d s k C X M. destruct s as [t|i| | |]; try discriminate X; [apply in_entries_maker; assumption|].
  destruct M as [v [M|[]]]. inversion M. unfold declares. cbn [stmt_entries existsb fst]. rewrite key_eqb_refl. reflexivity.
Qed.
Lemma drop_no_maker : forall d s k, conkey k -> maker d k s -> match s with DropTable _ _ _ | DropIndex _ _ _ => False | _ => True end.
Proof.
  intros d s k C [v M]. destruct s; try exact I; cbn [stmt_ops] in M; [destruct M as [M|[]]; discriminate M|].
  unfold drop_index_ops in M. destruct d; destruct M as [M|[]]; discriminate M.
Qed.
Lemma con_declared : forall d t c, In c (ct_constraints t) -> con_named c = true -> declares d (ckey d (ct_name t) c) (CreateTable t) = true.
Proof.
  intros d t c H N. apply declares_In. cbn [stmt_entries]. unfold table_entries. right. rewrite !map_app. apply in_or_app. right. apply in_or_app. left.
  apply in_map_iff. exists (ckey d (ct_name t) c, cval d (ct_name t) c). split; [reflexivity|]. apply in_flat_map. exists c. split; [exact H|].
  destruct c as [[]|[]|[]|[] u pre cs post|[]]; try discriminate N; left; reflexivity.
Qed.
