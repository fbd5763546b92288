(** The catalogue between two statements of a diff (for C68). *)
From Coq Require Import Lia.
From Verif Require Import GoStr Token Ast Parser Diff Db DbFacts AppendFacts DiffTable DiffPair DiffSound
  Tidy TidyFacts DiffSame Reconcile ReconcileFacts Honest DiffSpec Justified Frame.
Local Open Scope list_scope.

Lemma exec_all_app : forall d a b m, exec_all d (a ++ b) m = match exec_all d a m with Some m' => exec_all d b m' | None => None end.
Proof. intros d a. induction a as [|s a IH]; intros b m; cbn [List.app exec_all]; [reflexivity|]. destruct (exec d s m); [apply IH|reflexivity]. Qed.

(** ** One statement, key by key *)
Definition no_rename (s : stmt) : Prop := match s with AlterTable _ _ (RenameTable _) => False | _ => True end.
Lemma exec_at : forall d s m m', exec d s m = Some m' -> no_rename s ->
  m' = m \/ forall k, at_key k (stmt_ops d s) (m k) = Some (m' k).
Proof.
  intros d s m m' H N. destruct s as [t|i|c ie n|c ie n|c n a]; cbn [exec] in H.
  - destruct (_ && _); [left; congruence|right; apply run_at_key; exact H].
  - destruct (_ && _); [left; congruence|right; apply run_at_key; exact H].
  - destruct (_ && _); [left; congruence|right; apply run_at_key; exact H].
  - destruct (_ && _); [left; congruence|right; apply run_at_key; exact H].
  - right. apply run_at_key. destruct a; try exact H. destruct N.
Qed.

(** [keeps Q k os]: the operations do not falsify Q at the key. *)
Definition keeps (Q : option value -> Prop) (k : key) (o : op) : Prop := forall v w, Q v -> eff o k v = Some w -> Q w.
Lemma keeps_all : forall Q k os, (forall o, In o os -> keeps Q k o) -> forall v w, Q v -> at_key k os v = Some w -> Q w.
Proof.
  intros Q k. induction os as [|o os IH]; intros H v w Hv E; cbn [at_key] in E; [inversion E; subst; exact Hv|].
  destruct (eff o k v) as [u|] eqn:F; [|discriminate E]. apply (IH (fun x Hx => H x (or_intror Hx)) u w); [|exact E].
  exact (H o (or_introl eq_refl) v u Hv F).
Qed.

(** A value that is not an index. *)
Definition solid (v : option value) : Prop := match v with Some (VIdx _) => False | _ => True end.
Definition there (v : option value) : Prop := match v with Some (VIdx _) | None => False | _ => True end.
Lemma unless_index : forall t v, solid v -> unless (index_on t) v = v.
Proof. intros t [x|] H; [|reflexivity]. destruct x; try reflexivity. destruct H. Qed.
Lemma unless_involves : forall t c k v, (forall u n, k <> KCon u n) -> solid v -> unless (involves t c k) v = v.
Proof. intros t c k [x|] N H; [|reflexivity]. destruct k; try reflexivity; [destruct (N t0 n eq_refl)|]. destruct x; try reflexivity. destruct H. Qed.
Lemma unless_other : forall t u c k v, owner k = Some t -> t <> u -> unless (involves u c k) v = v.
Proof.
  intros t u c k [x|] O N; [|reflexivity]. destruct k; try reflexivity; try discriminate O. cbn in O. inversion O; subst.
  cbn [unless involves]. destruct x; try reflexivity. apply String.eqb_neq in N. rewrite N. reflexivity.
Qed.

Section Ops.
Variable d : dialect.

Lemma create_ops_in : forall t o, In o (create_table_ops d t) ->
  o = Fresh (qname (ct_name t)) \/ o = Fail \/ exists k v, o = Add k v /\ In (k, v) (table_adds d t).
Proof.
  intros t o H. unfold create_table_ops in H. destruct H as [H|H]; [left; congruence|]. right. unfold table_adds.
  repeat rewrite in_app_iff in H. destruct H as [H|[H|[H|H]]].
  - right. apply in_flat_map in H. destruct H as [c [H1 H2]]. destruct H2 as [H2|[]]. exists (KCol (qname (ct_name t)) (id_name (c_name c))), (VCol (sem_col d c)).
    split; [congruence|]. apply in_or_app. left. apply in_map_iff. exists c. split; [reflexivity|exact H1].
  - apply in_flat_map in H. destruct H as [c [H1 H2]]. destruct (con_named c) eqn:N.
    + rewrite (con_ops_adds d _ _ N) in H2. right. unfold adds in H2. apply in_map_iff in H2. destruct H2 as [[k v] [E H2]]. exists k, v. split; [symmetry; exact E|].
      apply in_or_app. right. apply in_or_app. left. apply in_flat_map. exists c. split; assumption.
    + rewrite (con_ops_fail d _ _ N) in H2. left. destruct H2 as [H2|[]]. congruence.
  - apply in_flat_map in H. destruct H as [c [H1 H2]]. right.
    assert (E : add_opt_ops d (ct_name t) c = adds (opt_entries d (ct_name t) c)) by (unfold add_opt_ops, opt_entries; destruct d; try reflexivity; destruct (counter_option c); reflexivity).
    rewrite E in H2. unfold adds in H2. apply in_map_iff in H2. destruct H2 as [[k v] [F H2]]. exists k, v. split; [symmetry; exact F|].
    apply in_or_app. right. apply in_or_app. right. apply in_or_app. left. apply in_flat_map. exists c. split; assumption.
  - right. unfold add_row_ops in H. destruct (ct_rowdel t) as [r|] eqn:E; [|destruct H]. destruct H as [H|[]]. exists (KRow (qname (ct_name t))), (VRow (etoks (o_value r))).
    split; [congruence|]. apply in_or_app. right. apply in_or_app. right. apply in_or_app. right. left. reflexivity.
Qed.

(** The entries of a table: what belongs to it, and its indexes. *)
Lemma adds_keys : forall t k v, In (k, v) (table_adds d t) ->
  (owner k = Some (qname (ct_name t)) /\ solid (Some v)) \/ (exists n x, k = KIdx n /\ v = VIdx x /\ si_table x = qname (ct_name t) /\
     exists c, In c (ct_constraints t) /\ is_inner_index c = true).
Proof.
  intros t k v H. unfold table_adds in H. repeat rewrite in_app_iff in H. destruct H as [H|[H|[H|H]]].
  - left. apply in_map_iff in H. destruct H as [c [H _]]. inversion H; subst. split; [reflexivity|exact I].
  - apply in_flat_map in H. destruct H as [c [H1 H2]]. destruct c as [o|o|o|o|o]; destruct o; cbn in H2;
      try (destruct H2 as [H2|[]]); try contradiction; inversion H2; subst; try (left; split; [reflexivity|exact I]).
    right. do 2 eexists. split; [reflexivity|]. split; [reflexivity|]. split; [reflexivity|]. eexists. split; [exact H1|reflexivity].
  - left. apply in_flat_map in H. destruct H as [c [_ H]]. unfold opt_entries in H. destruct d; [| |destruct (counter_option c); [destruct H|]|];
      destruct H as [H|[]]; inversion H; subst; (split; [reflexivity|exact I]).
  - left. unfold row_entries in H. destruct (ct_rowdel t); [|destruct H]. destruct H as [H|[]]; inversion H; subst. split; [reflexivity|exact I].
Qed.

(** The operations of ALTER TABLE *)
Inductive alters (n : objname) (a : action) : op -> Prop :=
| al_fail : alters n a Fail
| al_upd : forall q f, owner q = Some (qname n) -> (forall v, solid (Some v) -> solid (Some (f v))) -> alters n a (Upd q f)
| al_add : forall q v, owner q = Some (qname n) -> alters n a (Add q v)
| al_put : forall o v, alters n a (Put (KOpt (qname n) o) (VOpt v))
| al_con : forall x, alters n a (Del (KCon (qname n) x))
| al_row : alters n a (Del (KRow (qname n)))
| al_col : forall c, a = DropColumn c -> alters n a (DelCol (qname n) (id_name c))
| al_idx : forall c b i v, a = AddConstraint c b -> is_inner_index c = true -> alters n a (Add (KIdx i) v).
Lemma on_col_solid : forall f v, solid (Some v) -> solid (Some (on_col f v)).
Proof. intros f v H. destruct v; try exact I. destruct H. Qed.
Lemma alter_ops_in : forall n a o, In o (action_ops d n a) -> alters n a o.
Proof.
  intros n a o H. destruct a as [new|nm new|nm new|c|nm|nm ty|nm v|nm|nm|nm|c nv|nm|nm x y|c|nm v|nm ty nn|nm v|nm|r|r|]; cbn [action_ops add_col_ops] in H;
    try (destruct v as [[?|]|]); try match type of nm with option _ => destruct nm end;
    try (destruct H as [H|[]]; subst o);
    try (apply al_fail); try (apply al_upd; [reflexivity|apply on_col_solid || (intros; exact I)]); try (apply al_add; reflexivity);
    try (apply al_put); try (apply al_con); try (apply al_row).
  1: { apply al_col. reflexivity. }
  destruct c as [o1|o1|o1|o1|o1]; destruct o1; cbn in H; destruct H as [H|[]]; subst o; try (apply al_fail); try (apply al_add; reflexivity).
  eapply al_idx; reflexivity.
Qed.
End Ops.

(** Nothing that belongs to a table is touched by a statement about another one. *)
Lemma exec_frame : forall d s m m' t k, exec d s m = Some m' -> no_rename s -> mentions_table t s = false ->
  owner k = Some t -> solid (m k) -> m' k = m k.
Proof.
  intros d s m m' t k H N M O V. destruct (exec_at d s m m' H N) as [E|E]; [rewrite E; reflexivity|]. specialize (E k).
  assert (X : forall u, u <> t -> key_eqb (KTab u) k = false /\ owned_by u k = false).
  { intros u Hu. split; [apply key_eqb_neq; intro F; subst k; cbn in O; congruence|]. unfold owned_by. rewrite O. apply String.eqb_neq. congruence. }
  assert (Y : forall u q, owner q = Some u -> u <> t -> key_eqb q k = false) by (intros u q Hq Hu; apply key_eqb_neq; intro F; subst q; congruence).
  assert (Z : forall n, key_eqb (KIdx n) k = false) by (intro n; apply key_eqb_neq; intro F; subst k; discriminate O).
  assert (K : forall o, In o (stmt_ops d s) -> forall w, solid w -> forall w', eff o k w = Some w' -> w' = w).
  { intros o Ho w Sw w' F. destruct s as [ct|i|c ie n|c ie n|c n a]; cbn [mentions_table stmt_ops] in *.
    - apply String.eqb_neq in M. unfold table_name in M. apply create_ops_in in Ho. destruct Ho as [Ho|[Ho|[q [v [Ho Hq]]]]]; subst o; cbn [eff] in F.
      + destruct (X _ M) as [X1 X2]. rewrite X1, X2 in F. congruence.
      + discriminate F.
      + destruct (adds_keys d ct q v Hq) as [[A _]|[j [x [A _]]]]; [rewrite (Y _ _ A M) in F|subst q; rewrite Z in F]; congruence.
    - destruct Ho as [Ho|[]]. subst o. cbn [eff] in F. rewrite Z in F. congruence.
    - apply String.eqb_neq in M. destruct Ho as [Ho|[]]. subst o. cbn [eff] in F. destruct (X _ M) as [X1 X2]. rewrite X1, X2, (unless_index _ _ Sw) in F. congruence.
    - unfold drop_index_ops in Ho. destruct d; destruct Ho as [Ho|[]]; subst o; cbn [eff] in F; try discriminate F; rewrite Z in F; congruence.
    - apply String.eqb_neq in M. destruct Ho as [Ho|Ho]; [subst o; cbn [eff] in F; rewrite (Y _ (KTab (qname n)) eq_refl M) in F; congruence|].
      apply alter_ops_in in Ho. destruct Ho as [|q f Q _|q v Q|o v|x| |q Q|q b j v Q _]; cbn [eff] in F; try discriminate F;
        try (rewrite (Y _ q Q M) in F; congruence); try (match type of F with context [key_eqb ?q k] => rewrite (Y _ q eq_refl M) in F end; congruence).
      + rewrite (Y _ (KCol (qname n) (id_name q)) eq_refl M), (unless_other t) in F; [congruence|exact O|congruence].
      + rewrite Z in F. congruence. }
  assert (R : forall os, (forall o, In o os -> In o (stmt_ops d s)) -> forall w w', solid w -> at_key k os w = Some w' -> w' = w).
  { induction os as [|o os IH]; intros Ho w w' Sw F; cbn [at_key] in F; [congruence|]. destruct (eff o k w) as [u|] eqn:G; [|discriminate F].
    pose proof (K o (Ho o (or_introl eq_refl)) w Sw u G) as U. subst u. exact (IH (fun x Hx => Ho x (or_intror Hx)) w w' Sw F). }
  exact (R _ (fun o Ho => Ho) _ _ V E).
Qed.

(** A table that exists, and a column of it, survive what does not remove them. *)
Definition removes_column (t c : string) (s : stmt) : Prop :=
  match s with AlterTable _ n (DropColumn x) => qname n = t /\ id_name x = c | _ => False end.
Definition replaces_table (t : string) (s : stmt) : Prop :=
  match s with CreateTable x => table_name x = t | DropTable _ _ n => qname n = t | _ => False end.
Lemma exec_there : forall d s m m' t k, exec d s m = Some m' -> no_rename s -> ~ replaces_table t s ->
  (k = KTab t \/ exists c, k = KCol t c /\ ~ removes_column t c s) -> there (m k) -> there (m' k).
Proof.
  intros d s m m' t k H N R K V. destruct (exec_at d s m m' H N) as [E|E]; [rewrite E; exact V|]. specialize (E k).
  assert (O : owner k = Some t) by (destruct K as [K|[c [K _]]]; subst k; reflexivity).
  assert (NC : forall u n, k <> KCon u n) by (intros u n F; destruct K as [K|[c [K _]]]; congruence).
  assert (X : forall u, u <> t -> key_eqb (KTab u) k = false /\ owned_by u k = false).
  { intros u Hu. split; [apply key_eqb_neq; intro F; subst k; cbn in O; congruence|]. unfold owned_by. rewrite O. apply String.eqb_neq. congruence. }
  assert (Z : forall n, key_eqb (KIdx n) k = false) by (intro n; apply key_eqb_neq; intro F; subst k; discriminate O).
  assert (P : forall w, there w -> present w = true /\ solid w) by (intros [[]|] Hw; try (split; [reflexivity|exact I]); destruct Hw).
  refine (keeps_all there k (stmt_ops d s) _ _ _ V E). intros o Ho w w' Hw F.
  assert (A : forall q v, eff (Add q v) k w = Some w' -> there w').
  { intros q v G. cbn [eff] in G. rewrite (proj1 (P w Hw)) in G. destruct (key_eqb q k); [discriminate G|]. inversion G; subst. exact Hw. }
  destruct s as [ct|i|c ie n|c ie n|c n a]; cbn [replaces_table stmt_ops] in *.
  - apply create_ops_in in Ho. destruct Ho as [Ho|[Ho|[q [v [Ho _]]]]]; subst o.
    + cbn [eff] in F. destruct (X _ R) as [X1 X2]. unfold table_name in *. rewrite X1, X2 in F. congruence.
    + discriminate F.
    + exact (A _ _ F).
  - destruct Ho as [Ho|[]]. subst o. exact (A _ _ F).
  - destruct Ho as [Ho|[]]. subst o. cbn [eff] in F. destruct (X _ R) as [X1 X2]. rewrite X1, X2, (unless_index _ _ (proj2 (P w Hw))) in F. congruence.
  - unfold drop_index_ops in Ho. destruct d; destruct Ho as [Ho|[]]; subst o; cbn [eff] in F; try discriminate F; rewrite Z in F; congruence.
  - destruct Ho as [Ho|Ho].
    + subst o. cbn [eff] in F. rewrite (proj1 (P w Hw)) in F. destruct (key_eqb _ k); congruence.
    + apply alter_ops_in in Ho. destruct Ho as [|q f Q Qf|q v Q|o v|x| |q Q|q b j v Q _].
      * discriminate F.
      * cbn [eff] in F. rewrite (proj1 (P w Hw)) in F. destruct (key_eqb q k); [|congruence]. inversion F; subst w'.
        destruct w as [x|]; [|destruct Hw]. cbn [option_map]. pose proof (Qf x (proj2 (P _ Hw))) as Y. destruct (f x); try exact I. destruct Y.
      * exact (A _ _ F).
      * cbn [eff] in F. destruct (key_eqb _ k); [inversion F; exact I|congruence].
      * cbn [eff] in F. replace (key_eqb (KCon (qname n) x) k) with false in F; [congruence|]. symmetry. apply key_eqb_neq. intro G. symmetry in G. exact (NC _ _ G).
      * cbn [eff] in F. replace (key_eqb (KRow (qname n)) k) with false in F; [congruence|]. symmetry. apply key_eqb_neq. intro G. destruct K as [K|[e [K _]]]; congruence.
      * subst a. cbn [eff] in F. replace (key_eqb (KCol (qname n) (id_name q)) k) with false in F.
        { rewrite (unless_involves _ _ _ _ NC (proj2 (P w Hw))) in F. congruence. }
        symmetry. apply key_eqb_neq. intro G. destruct K as [K|[e [K1 K2]]]; [congruence|]. apply K2. cbn [removes_column]. split; congruence.
      * exact (A _ _ F).
Qed.

(** An index: who removes it, who makes it. *)
Definition removes_index (i : string) (v : value) (s : stmt) : Prop :=
  match s with
  | DropIndex _ _ n => qname n = i
  | DropTable _ _ n => index_on (qname n) v = true
  | AlterTable _ n (DropColumn _) => index_on (qname n) v = true
  | _ => False
  end.
Definition makes_index (d : dialect) (i : string) (s : stmt) : Prop :=
  match s with
  | CreateIndex x => qname (cx_name x) = i
  | CreateTable t => In (KIdx i) (map fst (table_adds d t))
  | AlterTable _ n (AddConstraint c _) => is_inner_index c = true
  | _ => False
  end.
Lemma exec_index_kept : forall d s m m' i v, exec d s m = Some m' -> no_rename s -> m (KIdx i) = Some v ->
  ~ removes_index i v s -> m' (KIdx i) = Some v.
Proof.
  intros d s m m' i v H N V R. destruct (exec_at d s m m' H N) as [E|E]; [rewrite E; exact V|]. specialize (E (KIdx i)).
  refine (keeps_all (fun w => w = Some v) (KIdx i) (stmt_ops d s) _ _ _ V E). intros o Ho w w' Hw F. subst w.
  assert (A : forall q x, eff (Add q x) (KIdx i) (Some v) = Some w' -> w' = Some v).
  { intros q x G. cbn [eff present] in G. destruct (key_eqb q _); [discriminate G|congruence]. }
  destruct s as [ct|x|c ie n|c ie n|c n a]; cbn [removes_index stmt_ops] in *.
  - apply create_ops_in in Ho. destruct Ho as [Ho|[Ho|[q [x [Ho _]]]]]; subst o; [|discriminate F|exact (A _ _ F)]. cbn in F. congruence.
  - destruct Ho as [Ho|[]]. subst o. exact (A _ _ F).
  - destruct Ho as [Ho|[]]. subst o. cbn in F. destruct (index_on (qname n) v); [|congruence]. exfalso. apply R. reflexivity.
  - unfold drop_index_ops in Ho. destruct d; destruct Ho as [Ho|[]]; subst o; cbn in F; try discriminate F; destruct (String.eqb (qname n) i) eqn:Q; try congruence;
      apply String.eqb_eq in Q; exfalso; apply R; exact Q.
  - destruct Ho as [Ho|Ho]; [subst o; cbn in F; congruence|]. apply alter_ops_in in Ho. destruct Ho as [|q f Q Qf|q x Q|o x|x| |q Q|q b j x Q _].
    + discriminate F.
    + cbn [eff] in F. replace (key_eqb q (KIdx i)) with false in F; [congruence|]. symmetry. apply key_eqb_neq. intro G. subst q. discriminate Q.
    + exact (A _ _ F).
    + cbn in F. congruence.
    + cbn in F. congruence.
    + cbn in F. congruence.
    + subst a. cbn in F. destruct v; try congruence. cbn [removes_index index_on] in R. destruct (String.eqb (si_table i0) (qname n)); [exfalso; apply R; reflexivity|]. cbn in F. congruence.
    + exact (A _ _ F).
Qed.
Lemma exec_index_same : forall d s m m' i v v', exec d s m = Some m' -> no_rename s -> m (KIdx i) = Some v -> m' (KIdx i) = Some v' -> v' = v.
Proof.
  intros d s m m' i v v' H N V V'. destruct (exec_at d s m m' H N) as [E|E]; [subst m'; congruence|]. specialize (E (KIdx i)).
  assert (K : ~ removes_index i v s -> v' = v) by (intro R; pose proof (exec_index_kept d s m m' i v H N V R); congruence).
  rewrite V, V' in E. destruct s as [ct|x|c ie n|c ie n|c n a]; try (apply K; intro R; exact R).
  - cbn [stmt_ops at_key eff key_eqb owned_by owner unless] in E. destruct (index_on (qname n) v); congruence.
  - cbn [stmt_ops drop_index_ops] in E. destruct d; cbn in E; try discriminate E; destruct (String.eqb _ i); congruence.
  - destruct a; try (apply K; intro R; exact R). cbn in E. destruct v; try congruence. destruct (_ && _); congruence.
Qed.
Lemma exec_index_missing : forall d s m m' i, exec d s m = Some m' -> no_rename s -> m (KIdx i) = None ->
  ~ makes_index d i s -> m' (KIdx i) = None.
Proof.
  intros d s m m' i H N V R. destruct (exec_at d s m m' H N) as [E|E]; [rewrite E; exact V|]. specialize (E (KIdx i)).
  refine (keeps_all (fun w => w = None) (KIdx i) (stmt_ops d s) _ _ _ V E). intros o Ho w w' Hw F. subst w.
  destruct s as [ct|x|c ie n|c ie n|c n a]; cbn [makes_index stmt_ops] in *.
  - apply create_ops_in in Ho. destruct Ho as [Ho|[Ho|[q [x [Ho Hq]]]]]; subst o; [cbn in F; congruence|discriminate F|]. cbn [eff present] in F.
    destruct (key_eqb q (KIdx i)) eqn:Q; [|congruence]. apply key_eqb_eq in Q. subst q. exfalso. apply R. exact (in_map fst _ _ Hq).
  - destruct Ho as [Ho|[]]. subst o. cbn in F. destruct (String.eqb _ i) eqn:Q; [|congruence]. apply String.eqb_eq in Q. contradiction.
  - destruct Ho as [Ho|[]]. subst o. cbn in F. congruence.
  - unfold drop_index_ops in Ho. destruct d; destruct Ho as [Ho|[]]; subst o; cbn in F; try discriminate F; destruct (String.eqb (qname n) i); congruence.
  - destruct Ho as [Ho|Ho]; [subst o; cbn in F; congruence|]. apply alter_ops_in in Ho. destruct Ho as [|q f Q Qf|q x Q|o x|x| |q Q|q b j x Q I2].
    + discriminate F.
    + cbn [eff present] in F. destruct (key_eqb q _); congruence.
    + cbn [eff] in F. replace (key_eqb q (KIdx i)) with false in F; [congruence|]. symmetry. apply key_eqb_neq. intro G. subst q. discriminate Q.
    + cbn in F. congruence.
    + cbn in F. congruence.
    + cbn in F. congruence.
    + cbn in F. congruence.
    + subst a. contradiction (R I2).
Qed.

(** ** Between the statements of a diff *)
Section Between.
Variables (d : dialect) (srt : list constraint -> list constraint) (sdiff : string -> string -> string).
Variables (before after : ddl) (mb ma : db) (stmts : ddl).
Hypothesis Hs : srt_ok srt.
Hypothesis DB : describes d before mb.
Hypothesis DA : describes d after ma.
Hypothesis TB : tidy d before = true.
Hypothesis TA : tidy d after = true.
Hypothesis E : diff d srt sdiff (Some before) (Some after) = DOk stmts.

Lemma diff_no_rename : forall s, In s stmts -> no_rename s.
Proof.
  intros s I. destruct (diff_loose d srt sdiff before after stmts s Hs TB TA E I) as [J|[tb [ta [_ [x [y [_ [_ [_ [_ W]]]]]]]]]].
  - destruct s as [| | | |c n a]; try exact Logic.I. destruct a; try exact Logic.I. destruct J as [tb [ta [_ [_ J]]]]. destruct J.
  - destruct s as [| | | |c n a]; try exact Logic.I. destruct a; try exact Logic.I. destruct W.
Qed.
Lemma has_iff : forall l m t, describes d l m -> (has_table t l <-> present (m (KTab t)) = true).
Proof.
  intros l m t D. split; intro H; [rewrite (present_table d l m t D H); reflexivity|].
  destruct (in_dec string_eq_dec t (map table_name (tables l))) as [Y|N]; [exact Y|]. rewrite (missing_table d l m t D N) in H. discriminate H.
Qed.
Lemma owned_solid : forall l m k t, describes d l m -> owner k = Some t -> solid (m k).
Proof.
  intros l m k t D O. rewrite (read_assoc d l m D). destruct (assoc_key k (entries d l)) as [v|] eqn:A; [|exact I]. apply assoc_In in A.
  unfold entries in A. apply in_flat_map in A. destruct A as [s [_ A]]. destruct s; try (destruct A; fail).
  - cbn [stmt_entries] in A. destruct A as [A|A]; [inversion A; exact I|]. destruct (adds_keys d t0 k v A) as [[_ S1]|[n [x [K _]]]]; [exact S1|]. subst k. discriminate O.
  - destruct A as [A|[]]. inversion A; subst. discriminate O.
Qed.
Lemma owned_has : forall l m k t, describes d l m -> owner k = Some t -> present (m k) = true -> has_table t l.
Proof.
  intros l m k t D O P. destruct (in_dec string_eq_dec t (map table_name (tables l))) as [Y|N]; [exact Y|].
  rewrite (read_missing d l m D t k) in P; [discriminate P| |exact O]. intros u Hu Eu. apply N. rewrite <- Eu. apply (in_map table_name). apply in_tables. exact Hu.
Qed.

Lemma between_kept : forall k t, owner k = Some t -> mb k <> None -> ma k <> None -> ~ recreated d before after t ->
  (k = KTab t \/ exists c, k = KCol t c) -> forall p r m, stmts = p ++ r -> exec_all d p mb = Some m -> there (m k).
Proof.
  intros k t O Pb Pa NR K.
  assert (P1 : present (mb k) = true) by (destruct (mb k); [reflexivity|contradiction]).
  assert (P2 : present (ma k) = true) by (destruct (ma k); [reflexivity|contradiction]).
  pose proof (owned_has before mb k t DB O P1) as HB. pose proof (owned_has after ma k t DA O P2) as HA.
  assert (St : forall s, In s stmts -> ~ replaces_table t s /\ (k = KTab t \/ exists c, k = KCol t c /\ ~ removes_column t c s)).
  { intros s I. destruct (diff_loose d srt sdiff before after stmts s Hs TB TA E I) as [J|[tb [ta [_ [x [y [_ [_ [_ [_ W]]]]]]]]]].
    - split.
      + intro F. destruct s as [ct|i|c ie n|c ie n|c n a]; try exact (False_ind _ F); cbn [replaces_table stmt_justified] in *.
        * destruct J as [_ [J|J]]; [|subst t; contradiction]. subst t. contradiction.
        * destruct J as [_ [J|J]]; [|subst t; contradiction]. subst t. contradiction.
      + destruct K as [K|[c K]]; [left; exact K|right]. exists c. split; [exact K|]. intro F. destruct s as [ct|i|cm ie n|cm ie n|cm n a]; try exact (False_ind _ F); cbn in F.
        destruct a; try exact (False_ind _ F). destruct J as [tb [ta [[T1 [T2 T3]] [N [J1 J2]]]]]. apply J2. apply memb_In. destruct (memb (id_name name) (col_names ta)) eqn:M; [reflexivity|].
        apply find_column_memb in M. apply in_tables in T2. pose proof (read_col d after ma DA ta (id_name name) T2) as R. rewrite M in R. cbn in R.
        subst k. unfold table_name in N. rewrite <- N in R. destruct F as [F1 F2]. rewrite F1, F2 in R. contradiction.
    - destruct s as [ct|i|cm ie n|cm ie n|cm n a]; try exact (False_ind _ W); split; try (intro F; exact F);
        (destruct K as [K|[c K]]; [left; exact K|right; exists c; split; [exact K|]]); intro F; try exact (False_ind _ F). destruct a; try exact (False_ind _ W); destruct F. }
  assert (Base : there (mb k)).
  { pose proof (owned_solid before mb k t DB O) as S1. destruct (mb k) as [[]|]; try exact I; [destruct S1|contradiction]. }
  intro p. assert (G : forall q m0 m, (forall s, In s q -> In s stmts) -> there (m0 k) -> exec_all d q m0 = Some m -> there (m k)).
  { induction q as [|s q IH]; intros m0 m Hq T X; cbn [exec_all] in X; [inversion X; subst; exact T|]. destruct (exec d s m0) as [m1|] eqn:X1; [|discriminate X].
    apply (IH m1 m (fun x Hx => Hq x (or_intror Hx))); [|exact X]. destruct (St s (Hq s (or_introl eq_refl))) as [S1 S2].
    exact (exec_there d s m0 m1 t k X1 (diff_no_rename s (Hq s (or_introl eq_refl))) S1 S2 T). }
  intros r m L X. apply (G p mb m); [|exact Base|exact X]. intros s I. rewrite L. apply in_or_app. left. exact I.
Qed.

Hypothesis Style : same_style d before after = true.
Hypothesis Order : d = Sp -> same_option_order before after = true.

Lemma diff_changes : forall s, In s stmts -> subject_changes mb ma s.
Proof.
  intros s I. destruct (diff_loose d srt sdiff before after stmts s Hs TB TA E I) as [J|[tb [ta [P W]]]].
  - exact (justified_changes d before after mb ma DB DA TB TA Style Order s J).
  - exact (swapped_changes d before after mb ma DB DA TB TA Style Order tb ta s P W).
Qed.

Lemma between_frame : forall t, (forall k, owner k = Some t -> mb k = ma k) ->
  forall p r m, stmts = p ++ r -> exec_all d p mb = Some m -> forall k, owner k = Some t -> m k = mb k.
Proof.
  intros t Eq p r m L X k O.
  assert (M : forall s, In s stmts -> mentions_table t s = false).
  { intros s I. pose proof (diff_changes s I) as C. destruct (mentions_table t s) eqn:Q; [|reflexivity]. exfalso.
    destruct s as [ct|i|cm ie n|cm ie n|cm n a]; cbn [mentions_table subject_changes] in *; try discriminate Q; apply String.eqb_eq in Q; destruct C as [q [Oq Nq]];
      apply Nq; apply Eq; congruence. }
  assert (G : forall q m0 m, (forall s, In s q -> In s stmts) -> m0 k = mb k -> exec_all d q m0 = Some m -> m k = mb k).
  { induction q as [|s q IH]; intros m0 m' Hq T X0; cbn [exec_all] in X0; [inversion X0; subst; exact T|]. destruct (exec d s m0) as [m1|] eqn:X1; [|discriminate X0].
    apply (IH m1 m' (fun x Hx => Hq x (or_intror Hx))); [|exact X0]. rewrite <- T.
    apply (exec_frame d s m0 m1 t k X1 (diff_no_rename s (Hq s (or_introl eq_refl))) (M s (Hq s (or_introl eq_refl))) O). rewrite T. exact (owned_solid before mb k t DB O). }
  apply (G p mb m); [|reflexivity|exact X]. intros s I. rewrite L. apply in_or_app. left. exact I.
Qed.

Lemma makes_dec : forall i s, {makes_index d i s} + {~ makes_index d i s}.
Proof.
  intros i s. destruct s as [ct|x|cm ie n|cm ie n|cm n a]; cbn [makes_index]; try (right; intro F; exact F).
  - apply (in_dec key_dec).
  - apply string_eq_dec.
  - destruct a; try (right; intro F; exact F). destruct (is_inner_index c); [left; reflexivity|right; discriminate].
Qed.

(** A statement making an index that is the same on both sides creates its table, which is new. *)
Lemma maker : forall i s, In s stmts -> mb (KIdx i) = ma (KIdx i) -> makes_index d i s ->
  exists t x, ~ has_table t before /\ ma (KIdx i) = Some (VIdx x) /\ si_table x = t.
Proof.
  intros i s I Eq M. pose proof (diff_changes s I) as C. destruct s as [ct|x|cm ie n|cm ie n|cm n a]; cbn [makes_index subject_changes] in *; try contradiction.
  - destruct (diff_loose d srt sdiff before after stmts _ Hs TB TA E I) as [J|[tb [ta [_ [u [y [_ [_ [_ [_ W]]]]]]]]]]; [|destruct W].
    cbn [stmt_justified] in J. destruct J as [J1 J2]. apply in_tables in J1. apply in_map_iff in M. destruct M as [[k v] [K M]]. cbn [fst] in K. subst k.
    destruct (adds_keys d ct _ v M) as [[O _]|[n [x [K [V [T [c [C1 C2]]]]]]]]; [discriminate O|].
    exists (table_name ct), x. split; [|split; [|exact T]].
    + destruct J2 as [J2|[Sp_ _]]; [exact J2|]. exfalso. pose proof (tidy_in _ _ _ TA J1) as Tt. cbn [tidy_stmt] in Tt.
      pose proof (ti_con _ _ (tidy_table_spec _ _ Tt) c C1) as H1. destruct c; try discriminate C2. rewrite Sp_ in H1. cbn in H1. destruct name; discriminate H1.
    + assert (Hd : declares d (KIdx i) (CreateTable ct) = true).
      { apply declares_In. cbn [stmt_entries]. right. exact (in_map fst _ _ M). }
      rewrite (read_assoc d after ma DA), (entry_value d after (CreateTable ct) _ (read_nodup d after ma DA) J1 Hd). cbn [stmt_entries].
      apply (in_map fst) in M as M'. pose proof (nodup_flat_stmt d after (CreateTable ct) (read_nodup d after ma DA) J1) as U. cbn [stmt_entries] in U.
      subst v. apply In_assoc; [exact U|]. right. exact M.
  - subst i. contradiction.
  - destruct a; try contradiction. destruct (diff_loose d srt sdiff before after stmts _ Hs TB TA E I) as [J|[tb [ta [_ [u [y [_ [_ [_ [_ W]]]]]]]]]]; [|destruct W].
    destruct J as [tb [ta [_ [_ [J _]]]]]. congruence.
Qed.

Lemma remover : forall i s v, In s stmts -> mb (KIdx i) = ma (KIdx i) -> mb (KIdx i) = Some v -> removes_index i v s ->
  exists t, index_on t v = true /\ has_table t before.
Proof.
  intros i s v I Eq V R. pose proof (diff_changes s I) as C. destruct s as [ct|x|cm ie n|cm ie n|cm n a]; cbn [removes_index subject_changes] in *; try contradiction.
  - destruct (diff_loose d srt sdiff before after stmts _ Hs TB TA E I) as [J|[tb [ta [_ [u [y [_ [_ [_ [_ W]]]]]]]]]]; [|destruct W].
    exists (qname n). split; [exact R|apply J].
  - subst i. contradiction.
  - destruct a; try contradiction. destruct (diff_loose d srt sdiff before after stmts _ Hs TB TA E I) as [J|[tb [ta [_ [u [y [_ [_ [_ [_ W]]]]]]]]]]; [|destruct W].
    destruct J as [tb [ta [[T1 [T2 T3]] [N _]]]]. exists (qname n). split; [exact R|]. rewrite N, <- T3. apply in_map. exact T1.
Qed.

Lemma between_index : forall i mf, mb (KIdx i) = ma (KIdx i) -> exec_all d stmts mb = Some mf -> mf (KIdx i) = ma (KIdx i) ->
  forall p r m, stmts = p ++ r -> exec_all d p mb = Some m -> m (KIdx i) = mb (KIdx i).
Proof.
  intros i mf Eq XF F p r m L X.
  assert (Ip : forall s, In s p -> In s stmts) by (intros s I; rewrite L; apply in_or_app; left; exact I).
  assert (Ir : forall s, In s r -> In s stmts) by (intros s I; rewrite L; apply in_or_app; right; exact I).
  assert (Miss : forall q m0 m1, (forall s, In s q -> In s stmts) -> (forall s, In s q -> ~ makes_index d i s) -> m0 (KIdx i) = None -> exec_all d q m0 = Some m1 -> m1 (KIdx i) = None).
  { induction q as [|s q IH]; intros m0 m1 Hq Hm T X0; cbn [exec_all] in X0; [inversion X0; subst; exact T|]. destruct (exec d s m0) as [m2|] eqn:X1; [|discriminate X0].
    apply (IH m2 m1 (fun x Hx => Hq x (or_intror Hx)) (fun x Hx => Hm x (or_intror Hx))); [|exact X0].
    exact (exec_index_missing d s m0 m2 i X1 (diff_no_rename s (Hq s (or_introl eq_refl))) T (Hm s (or_introl eq_refl))). }
  destruct (mb (KIdx i)) as [v|] eqn:V.
  - destruct (Exists_dec (makes_index d i) stmts (makes_dec i)) as [Y|N].
    + apply Exists_exists in Y. destruct Y as [s [I M]]. destruct (maker i s I (eq_trans V Eq) M) as [t [x [NT [Vx T]]]].
      assert (NR : forall s, In s stmts -> ~ removes_index i v s).
      { intros s0 I0 R0. destruct (remover i s0 v I0 (eq_trans V Eq) V R0) as [u [U1 U2]]. assert (v = VIdx x) by congruence. subst v. cbn [index_on] in U1. apply String.eqb_eq in U1. apply NT. congruence. }
      assert (G : forall q m0 m1, (forall s, In s q -> In s stmts) -> m0 (KIdx i) = Some v -> exec_all d q m0 = Some m1 -> m1 (KIdx i) = Some v).
      { induction q as [|s1 q IH]; intros m0 m1 Hq T0 X0; cbn [exec_all] in X0; [inversion X0; subst; exact T0|]. destruct (exec d s1 m0) as [m2|] eqn:X1; [|discriminate X0].
        apply (IH m2 m1 (fun y Hy => Hq y (or_intror Hy))); [|exact X0].
        exact (exec_index_kept d s1 m0 m2 i v X1 (diff_no_rename s1 (Hq s1 (or_introl eq_refl))) T0 (NR s1 (Hq s1 (or_introl eq_refl)))). }
      exact (G p mb m Ip V X).
    + assert (NM : forall s, In s stmts -> ~ makes_index d i s) by (intros s I M; apply N; apply Exists_exists; exists s; split; assumption).
      assert (G : forall q m0 m1, (forall s, In s q -> In s stmts) -> m0 (KIdx i) = Some v -> exec_all d q m0 = Some m1 -> m1 (KIdx i) = Some v \/ m1 (KIdx i) = None).
      { induction q as [|s1 q IH]; intros m0 m1 Hq T0 X0; cbn [exec_all] in X0; [inversion X0; subst; left; exact T0|]. destruct (exec d s1 m0) as [m2|] eqn:X1; [|discriminate X0].
        destruct (m2 (KIdx i)) as [v2|] eqn:V2.
        - apply (IH m2 m1 (fun y Hy => Hq y (or_intror Hy))); [|exact X0]. rewrite V2.
          destruct (exec_index_same d s1 m0 m2 i v v2 X1 (diff_no_rename s1 (Hq s1 (or_introl eq_refl))) T0 V2). reflexivity.
        - right. exact (Miss q m2 m1 (fun y Hy => Hq y (or_intror Hy)) (fun y Hy => NM y (Hq y (or_intror Hy))) V2 X0). }
      destruct (G p mb m Ip V X) as [Y|Y]; [exact Y|]. exfalso. rewrite L, exec_all_app, X in XF.
      pose proof (Miss r m mf Ir (fun s I => NM s (Ir s I)) Y XF) as Z. congruence.
  - apply (Miss p mb m Ip); [|exact V|exact X]. intros s I M. destruct (maker i s (Ip s I) (eq_trans V Eq) M) as [t [x [_ [Vx _]]]]. congruence.
Qed.
End Between.
