(** The keys foreign keys refer to, between two statements of a diff (for C85). *)
From Verif Require Import GoStr Token Ast Parser Diff Db DbFacts AppendFacts DiffTable DiffPair DiffSound
  Tidy TidyFacts DiffSame Reconcile ReconcileFacts Honest DiffSpec Justified Frame InterruptFacts DbDep DepFacts InPlaceFacts DbKeyed.
Local Open Scope list_scope.

(** Executing, and dropping or not dropping what lacks its needs *)
Definition trimmed (x y : db) : Prop := y = x \/ y = sweep x.
Inductive steps (d : dialect) : ddl -> db -> db -> Prop :=
| steps_nil : forall m, steps d [] m m
| steps_cons : forall s r m x y m', exec d s m = Some x -> trimmed x y -> steps d r y m' -> steps d (s :: r) m m'.
Lemma dep_steps : forall d l m m', dep_exec_all d l m = Some m' -> steps d l m m'.
Proof.
  intros d l. induction l as [|s r IH]; intros m m' H; cbn [dep_exec_all] in H; [inversion H; constructor|].
  unfold dep_exec in H. destruct (exec d s m) as [x|] eqn:X; [|discriminate H].
  destruct (removes s); [|destruct (new_intact d s m x); [|discriminate H]].
  - exact (steps_cons d s r m x _ m' X (or_intror eq_refl) (IH _ _ H)).
  - exact (steps_cons d s r m x _ m' X (or_introl eq_refl) (IH _ _ H)).
Qed.

(** What does not go away by itself: tables, columns, and keys whose columns are there *)
Lemma sweep_some : forall x k v, sweep x k = Some v -> x k = Some v.
Proof. intros x k v H. unfold sweep in H. destruct (x k) as [w|]; [|discriminate H]. destruct (intact x k w); [exact H|discriminate H]. Qed.
Lemma sweep_free : forall x k, (forall v, x k = Some v -> needs k v = []) -> sweep x k = x k.
Proof. intros x k H. unfold sweep. destruct (x k) as [v|]; [|reflexivity]. unfold intact. rewrite (H v eq_refl). reflexivity. Qed.
Lemma sweep_tabcol : forall x k, tabcol k -> sweep x k = x k.
Proof. intros x k H. apply sweep_free. intros v _. destruct k; try destruct H; destruct v; reflexivity. Qed.

Definition is_key (v : value) : Prop := match v with VCon (SPrimary _) | VCon (SUnique _) => True | _ => False end.
Definition foreign (v : value) : Prop := match v with VCon (SForeign _ _ _ _) => True | _ => False end.
Lemma key_involves : forall t x v c, is_key v -> involves t c (KCon t x) v = true -> In (KCol t c) (needs (KCon t x) v).
Proof.
  intros t x v c K I. destruct v as [|?|s|?|?|?]; try destruct K. cbn [involves] in I. apply andb_true_iff in I. destruct I as [_ I].
  destruct s; try destruct K; cbn [con_involves needs] in *; unfold columns_of; apply existsb_exists in I; destruct I as [e [I1 I2]]; apply String.eqb_eq in I2;
    apply in_map_iff; exists e; split; congruence.
Qed.

Section Between.
Variables (d : dialect) (srt : list constraint -> list constraint) (sdiff : string -> string -> string).
Variables (before after : ddl) (mb ma : db) (stmts : ddl).
Hypothesis Hs : srt_ok srt.
Hypothesis DB : describes d before mb.
Hypothesis DA : describes d after ma.
Hypothesis TB : tidy d before = true.
Hypothesis TA : tidy d after = true.
Hypothesis E : diff d srt sdiff (Some before) (Some after) = DOk stmts.
Hypothesis CB : closed d before = true.
Hypothesis CA : closed d after = true.

Lemma closed_read : forall l m k v n, describes d l m -> closed d l = true -> m k = Some v -> In n (needs k v) -> m n <> None.
Proof.
  intros l m k v n D C V N. apply (keys_read d l m n D). unfold closed in C. rewrite within_In in C. apply C. unfold needed. apply in_flat_map. exists (k, v). split; [|exact N].
  rewrite (objects_entries d l (read_create d l m D) (read_named d l m D)). rewrite (read_assoc d l m D) in V. apply assoc_In in V. exact V.
Qed.

(** A constraint that is dropped is not the same on both sides. *)
Lemma drop_differs : forall cm n x, In (AlterTable cm n (DropConstraint (Some x))) stmts -> mb (KCon (qname n) (id_name x)) <> ma (KCon (qname n) (id_name x)).
Proof.
  intros cm n x I. destruct (diff_loose d srt sdiff before after stmts _ Hs TB TA E I) as [J|[tb [ta [[P1 [P2 P3]] [b [a [Hb [Ha [El [N J]]]]]]]]]].
  - destruct J as [tb [ta [[P1 [P2 P3]] [Hn [b [Nb [Ib [C1 C2]]]]]]]]. apply in_tables in P1. apply in_tables in P2. unfold table_name in *.
    pose proof (tidy_in _ _ _ TB P1) as Tb. pose proof (tidy_in _ _ _ TA P2) as Ta. cbn [tidy_stmt] in Tb, Ta.
    assert (Lb : id_name x = con_label b) by (unfold con_label; rewrite Nb; reflexivity). rewrite Lb, Hn. rewrite <- P3 at 1.
    rewrite (read_con d before mb tb _ DB TB P1), (read_con d after ma ta _ DA TA P2).
    rewrite (con_label_key b) at 1. rewrite (con_find d tb b Tb C1), Ib, con_value_cval.
    destruct C2 as [C2|[a [A1 [A2 A3]]]].
    + destruct (find_constraint (con_label b) (ct_constraints ta)) as [c|] eqn:F; [|discriminate]. exfalso. apply C2. apply find_some in F. destruct F as [F1 F2].
      apply String.eqb_eq in F2. unfold con_labels. rewrite <- F2. rewrite <- con_label_key. apply in_map. exact F1.
    + rewrite A2, (con_label_key a), (con_find d ta a Ta A1). destruct (is_inner_index a); [discriminate|]. rewrite con_value_cval in A3. exact A3.
  - apply in_tables in P1. apply in_tables in P2. unfold table_name in *.
    pose proof (tidy_in _ _ _ TB P1) as Tb. pose proof (tidy_in _ _ _ TA P2) as Ta. cbn [tidy_stmt] in Tb, Ta.
    destruct J as [Jn [Jx Jb]]. subst n. assert (Lb : id_name x = con_label b) by (unfold con_label; rewrite <- Jx; reflexivity). rewrite Lb. rewrite <- P3 at 1.
    rewrite (read_con d before mb tb _ DB TB P1), (read_con d after ma ta _ DA TA P2).
    rewrite (con_label_key b) at 1. rewrite (con_find d tb b Tb Hb), Jb, El, (con_label_key a), (con_find d ta a Ta Ha).
    destruct (is_inner_index a); [exfalso; apply N; exact Jb|]. rewrite con_value_cval. discriminate.
Qed.

(** A table, all statements about which say what becomes of it *)
Lemma about : forall s t, In s stmts -> mentions_table t s = true ->
  match s with
  | CreateTable c => In c (tables after) /\ (~ has_table t before \/ recreated d before after t)
  | DropTable _ _ _ => has_table t before /\ (~ has_table t after \/ recreated d before after t)
  | _ => has_table t before /\ has_table t after
  end.
Proof.
  intros s t I M. destruct (diff_loose d srt sdiff before after stmts s Hs TB TA E I) as [J|[tb [ta [[P1 [P2 P3]] [b [a [_ [_ [_ [_ W]]]]]]]]]].
  - destruct s as [ct|i|c ie n|c ie n|c n act]; cbn [mentions_table stmt_justified] in *; try discriminate M; apply String.eqb_eq in M; subst t; try exact J.
    destruct J as [tb [ta [[P1 [P2 P3]] [Hn _]]]]. rewrite Hn. split; [rewrite <- P3|]; apply (in_map table_name); assumption.
  - destruct s as [ct|i|c ie n|c ie n|c n act]; try destruct W; try discriminate M. cbn [mentions_table] in M. apply String.eqb_eq in M. subst t. destruct act; try contradiction. destruct W as [W _]. subst n.
    change (qname (ct_name ta)) with (table_name ta). split; [rewrite <- P3|]; apply (in_map table_name); assumption.
Qed.

(** Where a foreign key comes from *)
Lemma create_value : forall c k v, In c (tables after) -> In (k, v) (table_adds d c) -> ma k = Some v.
Proof.
  intros c k v I H. apply in_tables in I. rewrite (read_assoc d after ma DA).
  assert (Hd : declares d k (CreateTable c) = true) by (apply declares_In; cbn [stmt_entries]; right; exact (in_map fst _ _ H)).
  rewrite (entry_value d after (CreateTable c) _ (read_nodup d after ma DA) I Hd). cbn [stmt_entries].
  apply In_assoc; [exact (nodup_flat_stmt d after (CreateTable c) (read_nodup d after ma DA) I)|]. right. exact H.
Qed.
Lemma origin_step : forall s m m' k v, In s stmts -> exec d s m = Some m' -> foreign v -> m' k = Some v -> m k = Some v \/ ma k = Some v.
Proof.
  intros s m m' k v I X Fv V. destruct (exec_at d s m m' X (diff_no_rename d srt sdiff before after stmts Hs TB TA E s I)) as [Q|Q]; [left; congruence|]. specialize (Q k).
  refine (keeps_all (fun w => w = Some v -> m k = Some v \/ ma k = Some v) k (stmt_ops d s) _ (m k) (m' k) (fun H => or_introl H) Q V).
  intros o Ho w w' Hw F V'. clear Q. subst w'.
  assert (A0 : forall q z, eff (Add q z) k w = Some (Some v) -> w = Some v \/ (q = k /\ z = v)).
  { intros q z G. cbn [eff] in G. destruct (key_eqb q k) eqn:Ek; [|left; congruence]. apply key_eqb_eq in Ek. destruct (present w); [discriminate G|]. right. split; congruence. }
  assert (U0 : forall q g, (forall z, g z = v -> z = v) -> eff (Upd q g) k w = Some (Some v) -> w = Some v).
  { intros q g Hg G. cbn [eff] in G. destruct (key_eqb q k); [|congruence]. destruct (present w); [|discriminate G]. destruct w as [z|]; [|discriminate G]. cbn [option_map] in G. f_equal. apply Hg. congruence. }
  assert (C0 : forall g z, on_col g z = v -> z = v) by (intros g z G; destruct z; cbn in G; try exact G; subst v; destruct Fv).
  assert (L0 : forall b, unless b w = Some v -> w = Some v) by (intros b G; destruct w as [z|]; cbn in G; [destruct (b z); [discriminate G|exact G]|discriminate G]).
  destruct s as [ct|x|c ie n|c ie n|c n a]; cbn [stmt_ops] in Ho.
  - pose proof (about (CreateTable ct) (table_name ct) I (String.eqb_refl _)) as [J _]. apply create_ops_in in Ho. destruct Ho as [Ho|[Ho|[q [z [Ho Hq]]]]]; subst o.
    + cbn [eff] in F. destruct (key_eqb _ k); [destruct (present w); [discriminate F|]; inversion F; subst v; destruct Fv|]. destruct (owned_by _ k); [discriminate F|]. apply Hw. congruence.
    + discriminate F.
    + destruct (A0 q z F) as [G|[G1 G2]]; [exact (Hw G)|]. subst q z. right. exact (create_value ct k v J Hq).
  - destruct Ho as [Ho|[]]. subst o. destruct (A0 _ _ F) as [G|[_ G]]; [exact (Hw G)|]. subst v. destruct Fv.
  - destruct Ho as [Ho|[]]. subst o. cbn [eff] in F. destruct (key_eqb _ k); [destruct (present w); discriminate F|]. destruct (owned_by _ k); [discriminate F|]. apply Hw. injection F as G. exact (L0 _ G).
  - unfold drop_index_ops in Ho. destruct d; destruct Ho as [Ho|[]]; subst o; cbn [eff] in F; try discriminate F; (destruct (key_eqb _ k); [destruct (present w); discriminate F|]; apply Hw; congruence).
  - destruct Ho as [Ho|Ho].
    { subst o. cbn [eff] in F. destruct (key_eqb _ k); [destruct (present w); [|discriminate F]|]; apply Hw; congruence. }
    destruct a as [new|nm new|nm new|c0|nm|nm ty|nm dv|nm|nm|nm|c0 nv|nm|nm y z|c0|nm ov|nm ty nn|nm ov|nm|r|r|]; cbn [action_ops add_col_ops] in Ho;
      try (destruct Ho as [Ho|[]]; subst o);
      try discriminate F;
      try (apply Hw; refine (U0 _ _ _ F); intros z0 G; exact (C0 _ _ G));
      try (apply Hw; refine (U0 _ _ _ F); intros z0 G; subst v; destruct Fv);
      try (destruct (A0 _ _ F) as [G|[_ G]]; [exact (Hw G)|subst v; destruct Fv]).
    + cbn [eff] in F. destruct (key_eqb _ k); [destruct (present w); discriminate F|]. apply Hw. injection F as G. exact (L0 _ G).
    + destruct dv as [[l|]|]; destruct Ho as [Ho|[]]; subst o; try discriminate F. apply Hw; refine (U0 _ _ _ F); intros z0 G; exact (C0 _ _ G).
    + destruct (diff_loose d srt sdiff before after stmts _ Hs TB TA E I) as [J|[tb [ta [_ [b [a [_ [_ [_ [_ W]]]]]]]]]]; [|destruct W].
      destruct J as [tb [ta [[P1 [P2 P3]] [Hn [Ii [C1 C2]]]]]]. apply in_tables in P2. unfold table_name in *.
      pose proof (tidy_in _ _ _ TA P2) as Ta. cbn [tidy_stmt] in Ta.
      pose proof (read_con d after ma ta (con_label c0) DA TA P2) as R. rewrite (con_label_key c0) in R at 2. rewrite (con_find d ta c0 Ta C1), Ii in R. rewrite <- Hn in R.
      destruct c0 as [o1 cols|o1 cols ref rc act|o1 cols|o1 ex|o1 un]; try discriminate Ii; destruct o1 as [i0|]; cbn [add_con_ops con_name sem_con] in Ho; destruct Ho as [Ho|[]]; subst o; try discriminate F;
        (destruct (A0 _ _ F) as [G|[G1 G2]]; [exact (Hw G)|]); subst v; subst k; right; exact R.
    + destruct nm as [x|]; destruct Ho as [Ho|[]]; subst o; try discriminate F. cbn [eff] in F. destruct (key_eqb _ k); [destruct (present w); discriminate F|]. apply Hw. congruence.
    + cbn [eff] in F. destruct (key_eqb _ k); [inversion F; subst v; destruct Fv|]. apply Hw. congruence.
    + cbn [eff] in F. destruct (key_eqb _ k); [destruct (present w); discriminate F|]. apply Hw. congruence.
Qed.
Lemma origin : forall l m m', (forall s, In s l -> In s stmts) -> steps d l m m' -> forall k v, foreign v -> m' k = Some v -> m k = Some v \/ ma k = Some v.
Proof.
  intros l m m' Hl H. induction H as [m|s r m x y m' X Tr H IH]; intros k v Fv V; [left; exact V|].
  destruct (IH (fun z Hz => Hl z (or_intror Hz)) k v Fv V) as [Y|Y]; [|right; exact Y]. assert (Vx : x k = Some v) by (destruct Tr; subst y; [exact Y|exact (sweep_some _ _ _ Y)]).
  exact (origin_step s m x k v (Hl s (or_introl eq_refl)) X Fv Vx).
Qed.

Hypothesis NS : d <> Sp.
Lemma not_recreated_ : forall t, ~ recreated d before after t.
Proof. intros t [F _]. exact (NS F). Qed.
Lemma drop_col : forall cm n c, In (AlterTable cm n (DropColumn c)) stmts -> ma (KCol (qname n) (id_name c)) = None.
Proof.
  intros cm n c I. destruct (diff_loose d srt sdiff before after stmts _ Hs TB TA E I) as [J|[tb [ta [_ [b [a [_ [_ [_ [_ W]]]]]]]]]]; [|destruct W].
  destruct J as [tb [ta [[T1 [T2 T3]] [N [J1 J2]]]]]. apply in_tables in T2. pose proof (read_col d after ma DA ta (id_name c) T2) as R.
  destruct (find_column (id_name c) (ct_columns ta)) as [x|] eqn:F.
  - exfalso. apply J2. apply memb_In. destruct (memb (id_name c) (col_names ta)) eqn:M; [reflexivity|]. apply find_column_memb in M. congruence.
  - cbn in R. rewrite N. exact R.
Qed.
Lemma replaced : forall s t, In s stmts -> has_table t before -> has_table t after -> ~ replaces_table t s.
Proof.
  intros s t I HB HA R. assert (M : mentions_table t s = true) by (destruct s; cbn in *; try destruct R; subst; apply String.eqb_refl).
  pose proof (about s t I M) as J. pose proof (not_recreated_ t) as NR. destruct s; cbn in R; try destruct R; tauto.
Qed.

(** Tables and columns of both sides *)
Lemma kept_step : forall s m m' k t, In s stmts -> exec d s m = Some m' -> owner k = Some t -> tabcol k -> has_table t before -> has_table t after -> ma k <> None ->
  there (m k) -> there (m' k).
Proof.
  intros s m m' k t I X O K HB HA Pa T. apply (exec_there d s m m' t k X (diff_no_rename d srt sdiff before after stmts Hs TB TA E s I) (replaced s t I HB HA)); [|exact T].
  destruct k as [u|u c|u n|u o|u|i]; try destruct K; cbn in O; injection O as ->; [left; reflexivity|]. right. exists c. split; [reflexivity|].
  intro R. destruct s as [ct|i|cm ie n|cm ie n|cm n a]; try destruct R. destruct a; try contradiction. cbn in R. destruct R as [R1 R2]. apply Pa. rewrite <- R1, <- R2. exact (drop_col _ _ _ I).
Qed.
Lemma kept : forall l m m', (forall s, In s l -> In s stmts) -> steps d l m m' -> forall k t, owner k = Some t -> tabcol k -> has_table t before -> has_table t after -> ma k <> None ->
  there (m k) -> there (m' k).
Proof.
  intros l m m' Hl H. induction H as [m|s r m x y m' X Tr H IH]; intros k t O K HB HA Pa T; [exact T|].
  apply (IH (fun z Hz => Hl z (or_intror Hz)) k t O K HB HA Pa). pose proof (kept_step s m x k t (Hl s (or_introl eq_refl)) X O K HB HA Pa T) as Y.
  destruct Tr; subst y; [exact Y|]. rewrite sweep_tabcol by exact K. exact Y.
Qed.
Lemma there_present : forall v, there v -> present v = true.
Proof. intros [[]|] H; try reflexivity; destruct H. Qed.
Lemma some_there : forall l m k t, describes d l m -> owner k = Some t -> m k <> None -> there (m k).
Proof. intros l m k t D O N. pose proof (owned_solid d l m k t D O) as S1. destruct (m k) as [[]|]; try exact I; [destruct S1|contradiction]. Qed.

(** A key that is the same on both sides *)
Lemma key_step : forall s m m' t x v, In s stmts -> exec d s m = Some m' -> is_key v -> mb (KCon t x) = Some v -> ma (KCon t x) = Some v ->
  m (KCon t x) = Some v -> m' (KCon t x) = Some v.
Proof.
  intros s m m' t x v I X Kv Vb Va V.
  assert (HB : has_table t before) by (apply (owned_has d before mb (KCon t x) t DB eq_refl); rewrite Vb; reflexivity).
  assert (HA : has_table t after) by (apply (owned_has d after ma (KCon t x) t DA eq_refl); rewrite Va; reflexivity).
  pose proof (replaced s t I HB HA) as R.
  destruct (exec_at d s m m' X (diff_no_rename d srt sdiff before after stmts Hs TB TA E s I)) as [Q|Q]; [congruence|]. specialize (Q (KCon t x)).
  refine (keeps_all (fun w => w = Some v) (KCon t x) (stmt_ops d s) _ _ _ V Q). intros o Ho w w' Hw F. subst w. clear Q.
  assert (A0 : forall q z, eff (Add q z) (KCon t x) (Some v) = Some w' -> w' = Some v).
  { intros q z G. cbn [eff present] in G. destruct (key_eqb q _); [discriminate G|congruence]. }
  assert (U0 : forall u c g, eff (Upd (KCol u c) g) (KCon t x) (Some v) = Some w' -> w' = Some v) by (intros u c g G; cbn in G; congruence).
  assert (S0 : forall b, (forall i, b (VIdx i) = true \/ b (VIdx i) = false) -> (forall z, is_key z -> b z = false) -> unless b (Some v) = Some v) by (intros b _ Hb; cbn; rewrite (Hb v Kv); reflexivity).
  destruct s as [ct|i|c ie n|c ie n|c n a]; cbn [stmt_ops replaces_table] in *.
  - apply create_ops_in in Ho. destruct Ho as [Ho|[Ho|[q [z [Ho _]]]]]; subst o; [|discriminate F|exact (A0 _ _ F)].
    cbn [eff key_eqb owned_by owner] in F. destruct (String.eqb_spec (qname (ct_name ct)) t) as [G|G]; [contradiction|congruence].
  - destruct Ho as [Ho|[]]. subst o. exact (A0 _ _ F).
  - destruct Ho as [Ho|[]]. subst o. cbn [eff key_eqb owned_by owner] in F. destruct (String.eqb_spec (qname n) t) as [G|G]; [contradiction|]. cbn [unless] in F.
    destruct v; try destruct Kv. cbn [index_on] in F. congruence.
  - unfold drop_index_ops in Ho. destruct d; destruct Ho as [Ho|[]]; subst o; cbn in F; try discriminate F; congruence.
  - destruct Ho as [Ho|Ho].
    { subst o. cbn in F. congruence. }
    destruct a as [new|nm new|nm new|c0|nm|nm ty|nm dv|nm|nm|nm|c0 nv|nm|nm y z|c0|nm ov|nm ty nn|nm ov|nm|r|r|]; cbn [action_ops add_col_ops] in Ho;
      try (destruct Ho as [Ho|[]]; subst o);
      try discriminate F; try exact (U0 _ _ _ F); try exact (A0 _ _ F); try (cbn in F; congruence).
    + cbn [eff key_eqb unless] in F. destruct (involves (qname n) (id_name nm) (KCon t x) v) eqn:G; [|congruence]. exfalso.
      assert (T : t = qname n) by (destruct v as [|?|?|?|?|?]; try destruct Kv; cbn [involves] in G; apply andb_true_iff in G; apply String.eqb_eq; apply G). subst t.
      pose proof (key_involves _ _ _ _ Kv G) as N. exact (closed_read after ma _ _ _ DA CA Va N (drop_col _ _ _ I)).
    + destruct dv as [[l|]|]; destruct Ho as [Ho|[]]; subst o; try discriminate F. exact (U0 _ _ _ F).
    + destruct c0 as [o1 cols|o1 cols ref rc act|o1 cols|o1 ex|o1 un]; destruct o1 as [i0|]; cbn [add_con_ops con_name sem_con] in Ho; destruct Ho as [Ho|[]]; subst o; try discriminate F; exact (A0 _ _ F).
    + destruct nm as [y|]; destruct Ho as [Ho|[]]; subst o; try discriminate F. cbn [eff key_eqb present] in F.
      destruct (String.eqb (qname n) t && String.eqb (id_name y) x) eqn:G; [|congruence]. exfalso. apply andb_true_iff in G. destruct G as [G1 G2]. apply String.eqb_eq in G1. apply String.eqb_eq in G2.
      apply (drop_differs _ _ _ I). rewrite G1, G2. congruence.
Qed.
Lemma needs_key : forall t x v n, is_key v -> In n (needs (KCon t x) v) -> owner n = Some t /\ tabcol n.
Proof.
  intros t x v n K H. destruct v as [|?|s|?|?|?]; try destruct K. destruct s; try destruct K; cbn [needs] in H; apply columns_of_in in H; destruct H as [c [H _]]; subst n; split; try reflexivity; exact I.
Qed.
Lemma key_kept : forall l m m', (forall s, In s l -> In s stmts) -> steps d l m m' -> forall t x v, is_key v -> mb (KCon t x) = Some v -> ma (KCon t x) = Some v ->
  (forall n, In n (needs (KCon t x) v) -> there (m n)) -> m (KCon t x) = Some v -> m' (KCon t x) = Some v.
Proof.
  intros l m m' Hl H. induction H as [m|s r m z y m' X Tr H IH]; intros t x v Kv Vb Va Nd V; [exact V|].
  pose proof (Hl s (or_introl eq_refl)) as I. pose proof (key_step s m z t x v I X Kv Vb Va V) as Y.
  assert (HB : has_table t before) by (apply (owned_has d before mb (KCon t x) t DB eq_refl); rewrite Vb; reflexivity).
  assert (HA : has_table t after) by (apply (owned_has d after ma (KCon t x) t DA eq_refl); rewrite Va; reflexivity).
  assert (Nz : forall n, In n (needs (KCon t x) v) -> there (z n)).
  { intros n Hn. destruct (needs_key _ _ _ _ Kv Hn) as [O T]. exact (kept_step s m z n t I X O T HB HA (closed_read after ma _ _ _ DA CA Va Hn) (Nd n Hn)). }
  apply (IH (fun q Hq => Hl q (or_intror Hq)) t x v Kv Vb Va).
  - intros n Hn. destruct Tr; subst y; [exact (Nz n Hn)|]. rewrite sweep_tabcol by apply (needs_key _ _ _ _ Kv Hn). exact (Nz n Hn).
  - destruct Tr; subst y; [exact Y|]. unfold sweep. rewrite Y. replace (intact z (KCon t x) v) with true; [reflexivity|]. symmetry. apply intact_iff. intros n Hn. exact (there_present _ (Nz n Hn)).
Qed.

(** A unique index that is the same on both sides *)
Hypothesis Style : same_style d before after = true.
Lemma drop_index_differs : forall cm ie n, In (DropIndex cm ie n) stmts -> mb (KIdx (qname n)) <> ma (KIdx (qname n)).
Proof.
  intros cm ie n I. exact (diff_changes d srt sdiff before after mb ma stmts Hs DB DA TB TA E Style (fun F => False_ind _ (NS F)) _ I).
Qed.
Lemma index_has : forall l m i x, describes d l m -> closed d l = true -> m (KIdx i) = Some (VIdx x) -> has_table (si_table x) l.
Proof.
  intros l m i x D C V. apply (owned_has d l m (KTab (si_table x)) (si_table x) D eq_refl).
  pose proof (closed_read l m _ _ (KTab (si_table x)) D C V (or_introl eq_refl)) as P. destruct (m (KTab (si_table x))); [reflexivity|contradiction].
Qed.
Lemma index_step : forall s m m' i x, In s stmts -> exec d s m = Some m' -> mb (KIdx i) = Some (VIdx x) -> ma (KIdx i) = Some (VIdx x) ->
  m (KIdx i) = Some (VIdx x) -> m' (KIdx i) = Some (VIdx x).
Proof.
  intros s m m' i x I X Vb Va V. pose proof (diff_no_rename d srt sdiff before after stmts Hs TB TA E s I) as NR.
  assert (HB : has_table (si_table x) before) by exact (index_has before mb i x DB CB Vb).
  assert (HA : has_table (si_table x) after) by exact (index_has after ma i x DA CA Va).
  pose proof (replaced s _ I HB HA) as R. pose proof (fun N => exec_index_kept d s m m' i _ X NR V N) as K.
  destruct s as [ct|y|c ie n|c ie n|c n a]; cbn [removes_index replaces_table] in *; try (apply K; intro F; exact F).
  - apply K. cbn [index_on]. intro F. apply String.eqb_eq in F. apply R. congruence.
  - apply K. intro F. subst i. exact (drop_index_differs _ _ _ I (eq_trans Vb (eq_sym Va))).
  - destruct a as [new|nm new|nm new|c0|nm|nm ty|nm dv|nm|nm|nm|c0 nv|nm|nm y z|c0|nm ov|nm ty nn|nm ov|nm|r|r|]; try (apply K; intro F; exact F).
    destruct (exec_at d _ m m' X NR) as [Q|Q]; [congruence|]. specialize (Q (KIdx i)). rewrite V in Q. clear K.
    cbn [stmt_ops action_ops at_key eff key_eqb unless involves] in Q.
    destruct (String.eqb (si_table x) (qname n) && _) eqn:G; [|congruence]. exfalso. apply andb_true_iff in G. destruct G as [G1 G2]. apply String.eqb_eq in G1.
    apply existsb_exists in G2. destruct G2 as [e [G2 G3]]. apply String.eqb_eq in G3.
    refine (closed_read after ma _ _ (KCol (qname n) (id_name nm)) DA CA Va _ (drop_col _ _ _ I)). cbn [needs]. right. unfold columns_of. apply in_map_iff. exists e. split; congruence.
Qed.
Lemma needs_index : forall i x n, In n (needs (KIdx i) (VIdx x)) -> owner n = Some (si_table x) /\ tabcol n.
Proof.
  intros i x n H. cbn [needs] in H. destruct H as [H|H]; [subst n; split; [reflexivity|exact I]|]. apply columns_of_in in H. destruct H as [c [H _]]. subst n. split; [reflexivity|exact I].
Qed.
Lemma index_kept : forall l m m', (forall s, In s l -> In s stmts) -> steps d l m m' -> forall i x, mb (KIdx i) = Some (VIdx x) -> ma (KIdx i) = Some (VIdx x) ->
  (forall n, In n (needs (KIdx i) (VIdx x)) -> there (m n)) -> m (KIdx i) = Some (VIdx x) -> m' (KIdx i) = Some (VIdx x).
Proof.
  intros l m m' Hl H. induction H as [m|s r m z y m' X Tr H IH]; intros i x Vb Va Nd V; [exact V|].
  pose proof (Hl s (or_introl eq_refl)) as I. pose proof (index_step s m z i x I X Vb Va V) as Y.
  assert (Nz : forall n, In n (needs (KIdx i) (VIdx x)) -> there (z n)).
  { intros n Hn. destruct (needs_index _ _ _ Hn) as [O T].
    exact (kept_step s m z n _ I X O T (index_has before mb i x DB CB Vb) (index_has after ma i x DA CA Va) (closed_read after ma _ _ _ DA CA Va Hn) (Nd n Hn)). }
  apply (IH (fun q Hq => Hl q (or_intror Hq)) i x Vb Va).
  - intros n Hn. destruct Tr; subst y; [exact (Nz n Hn)|]. rewrite sweep_tabcol by apply (needs_index _ _ _ Hn). exact (Nz n Hn).
  - destruct Tr; subst y; [exact Y|]. unfold sweep. rewrite Y. replace (intact z (KIdx i) (VIdx x)) with true; [reflexivity|]. symmetry. apply intact_iff. intros n Hn. exact (there_present _ (Nz n Hn)).
Qed.

(** The table of one side: as it is there, or not at all *)
Definition lasting (m0 : db) (k : key) : Prop := tabcol k \/ (exists t x v, k = KCon t x /\ m0 k = Some v /\ is_key v).
Definition entire (m0 : db) (t : string) (m : db) : Prop := m (KTab t) = None \/ forall k, owner k = Some t -> lasting m0 k -> m k = m0 k.
Lemma entire_sweep : forall l m0 t m, describes d l m0 -> closed d l = true -> entire m0 t m -> entire m0 t (sweep m).
Proof.
  intros l m0 t m D C [H|H]; [left; rewrite sweep_tabcol by exact I; exact H|right]. intros k O L. pose proof (H k O L) as V. destruct L as [L|[u [x [v [K [V0 Kv]]]]]]; [rewrite sweep_tabcol by exact L; exact V|].
  subst k. cbn in O. injection O as ->. unfold sweep. rewrite V, V0. replace (intact m (KCon t x) v) with true; [reflexivity|]. symmetry. apply intact_iff. intros n Hn.
  destruct (needs_key _ _ _ _ Kv Hn) as [On Tn]. rewrite (H n On (or_introl Tn)). pose proof (closed_read l m0 _ _ _ D C V0 Hn) as P. destruct (m0 n); [reflexivity|contradiction].
Qed.
Lemma entire_frame : forall l m0 t s m m', describes d l m0 -> In s stmts -> exec d s m = Some m' -> mentions_table t s = false -> entire m0 t m -> entire m0 t m'.
Proof.
  intros l m0 t s m m' D I X M [H|H].
  - left. rewrite (exec_frame d s m m' t (KTab t) X (diff_no_rename d srt sdiff before after stmts Hs TB TA E s I) M eq_refl); [exact H|rewrite H; exact Logic.I].
  - right. intros k O L. rewrite <- (H k O L). apply (exec_frame d s m m' t k X (diff_no_rename d srt sdiff before after stmts Hs TB TA E s I) M O). rewrite (H k O L). exact (owned_solid d l m0 k t D O).
Qed.
Lemma fresh_step : forall s m m' t, In s stmts -> exec d s m = Some m' -> ~ has_table t before -> entire ma t m -> entire ma t m'.
Proof.
  intros s m m' t I X N H. destruct (mentions_table t s) eqn:M; [|exact (entire_frame after ma t s m m' DA I X M H)].
  pose proof (about s t I M) as J. destruct s as [ct|i|c ie n|c ie n|c n a]; try discriminate M; try (destruct J; contradiction).
  destruct J as [J _]. apply in_tables in J. cbn [mentions_table] in M. apply String.eqb_eq in M. unfold table_name in M. subst t. cbn [exec] in X.
  destruct (_ && _); [injection X as <-; exact H|]. right. intros k O _. rewrite (read_owned d after ma DA ct k J O). pose proof (run_at_key _ _ _ X k) as Q.
  pose proof (create_sound d (CreateTable ct) k eq_refl) as S1. cbn [stmt_entries] in S1.
  assert (Nm : forall u, CreateTable ct = CreateTable u -> all_con_named u = true) by (intros u Eu; injection Eu as <-; exact (read_named d after ma DA ct J)).
  specialize (S1 Nm (nodup_flat_stmt d after (CreateTable ct) (read_nodup d after ma DA) J)). cbn [stmt_ops create_table_ops at_key eff] in Q, S1.
  assert (Ob : owned_by (qname (ct_name ct)) k = true) by (unfold owned_by; rewrite O; apply String.eqb_refl). rewrite Ob in Q, S1. cbn [present] in S1.
  destruct (key_eqb (KTab (qname (ct_name ct))) k) eqn:Ek; [destruct (present (m k)); [discriminate Q|]|]; congruence.
Qed.
Lemma gone_step : forall s m m' t, In s stmts -> exec d s m = Some m' -> ~ has_table t after -> entire mb t m -> entire mb t m'.
Proof.
  intros s m m' t I X N H. destruct (mentions_table t s) eqn:M; [|exact (entire_frame before mb t s m m' DB I X M H)].
  pose proof (about s t I M) as J. destruct s as [ct|i|c ie n|c ie n|c n a]; try discriminate M; try (destruct J; contradiction).
  - destruct J as [J _]. exfalso. apply N. cbn [mentions_table] in M. apply String.eqb_eq in M. subst t. apply (in_map table_name). exact J.
  - cbn [mentions_table] in M. apply String.eqb_eq in M. subst t. cbn [exec] in X. destruct (_ && _); [injection X as <-; exact H|]. left.
    pose proof (run_at_key _ _ _ X (KTab (qname n))) as Q. cbn [stmt_ops at_key eff] in Q. rewrite (proj2 (key_eqb_eq _ _) eq_refl) in Q. destruct (present _); [congruence|discriminate Q].
Qed.
Lemma entire_steps : forall l m m' t, (forall s, In s l -> In s stmts) -> steps d l m m' ->
  (~ has_table t before -> entire ma t m -> entire ma t m') /\ (~ has_table t after -> entire mb t m -> entire mb t m').
Proof.
  intros l m m' t Hl H. induction H as [m|s r m x y m' X Tr H IH]; [split; auto|]. destruct (IH (fun z Hz => Hl z (or_intror Hz))) as [I1 I2].
  pose proof (Hl s (or_introl eq_refl)) as I. split; intros N Q.
  - apply (I1 N). pose proof (fresh_step s m x t I X N Q) as Z. destruct Tr; subst y; [exact Z|exact (entire_sweep after ma t x DA CA Z)].
  - apply (I2 N). pose proof (gone_step s m x t I X N Q) as Z. destruct Tr; subst y; [exact Z|exact (entire_sweep before mb t x DB CB Z)].
Qed.

Hypothesis Cover : keys_in_place d before after = true.
Lemma covered_read : forall l l' m0 m1 k cols ref refcols act, describes d l m0 -> describes d l' m1 -> covered d l l' = true -> m0 k = Some (VCon (SForeign cols ref refcols act)) ->
  exists q v, backs ref refcols q v = true /\ m0 q = Some v /\ (m1 q = Some v \/ (is_con q = true /\ ~ has_table ref l')).
Proof.
  intros l l' m0 m1 k cols ref refcols act D D' C V. rewrite (read_assoc d l m0 D) in V. apply assoc_In in V.
  pose proof (objects_entries d l (read_create d l m0 D) (read_named d l m0 D)) as Eo. pose proof (objects_entries d l' (read_create d l' m1 D') (read_named d l' m1 D')) as Eo'.
  unfold covered in C. rewrite forallb_forall in C. rewrite Eo, Eo' in C. specialize (C _ V). cbn [snd] in C. apply existsb_exists in C. destruct C as [[q v] [I C]]. cbn [fst snd] in C.
  rewrite !andb_true_iff in C. destruct C as [C2 C3].
  pose proof (In_assoc _ _ _ (read_nodup d l m0 D) I) as A. exists q, v. split; [exact C2|]. split; [rewrite (read_assoc d l m0 D); exact A|].
  apply orb_true_iff in C3. destruct C3 as [C3|C3].
  - left. apply same_eq in C3. rewrite (lookup_assoc _ (entries d l)), (lookup_assoc _ (entries d l')) in C3. rewrite (read_assoc d l' m1 D'). congruence.
  - right. apply andb_true_iff in C3. destruct C3 as [C1 C3]. split; [exact C1|]. intro F. apply negb_true_iff in C3. pose proof (proj2 (keys_read d l' m1 (KTab ref) D')) as K. rewrite (present_table d l' m1 ref D' F) in K. specialize (K ltac:(discriminate)).
    apply mem_key_In in K. congruence.
Qed.
Lemma backs_con : forall ref cols q v, backs ref cols q v = true -> is_con q = true -> exists x, q = KCon ref x /\ is_key v.
Proof.
  intros ref cols q v B C. destruct q as [u|u c|u x|u o|u|i]; try discriminate C. exists x. cbn [backs] in B.
  destruct v as [|?|s|?|?|?]; try discriminate B. destruct s; try discriminate B; apply andb_true_iff in B; destruct B as [B _]; apply String.eqb_eq in B; split; try exact Logic.I; congruence.
Qed.
Lemma backs_idx : forall ref cols q v, backs ref cols q v = true -> is_con q = false -> exists i x, q = KIdx i /\ v = VIdx x.
Proof.
  intros ref cols q v B C. destruct q as [u|u c|u x|u o|u|i]; try discriminate C; try discriminate B. exists i. destruct v as [|?|s|?|?|x]; try discriminate B. exists x. split; reflexivity.
Qed.
Theorem steps_keyed : forall l r m, stmts = l ++ r -> steps d l mb m -> keyed m.
Proof.
  intros l r m Es H k v V. assert (Hl : forall s, In s l -> In s stmts) by (intros s I; rewrite Es; apply in_or_app; left; exact I).
  destruct v as [|?|s|?|?|?]; try exact I. destruct s as [|cols ref refcols act| |]; try exact I. cbn [backed]. intro P.
  pose proof Cover as C. unfold keys_in_place in C. apply andb_true_iff in C. destruct C as [C1 C2].
  destruct (entire_steps l mb m ref Hl H) as [Ef Eg].
  assert (St : forall q v, backs ref refcols q v = true -> mb q = Some v -> ma q = Some v -> m q = Some v).
  { intros q v B Vb Va. destruct (is_con q) eqn:Q.
    - destruct (backs_con _ _ _ _ B Q) as [x [-> Kv]]. apply (key_kept l mb m Hl H ref x v Kv Vb Va); [|exact Vb]. intros n Hn.
      apply (some_there before mb n ref DB); [apply (needs_key _ _ _ _ Kv Hn)|exact (closed_read before mb _ _ _ DB CB Vb Hn)].
    - destruct (backs_idx _ _ _ _ B Q) as [i [x [-> ->]]]. apply (index_kept l mb m Hl H i x Vb Va); [|exact Vb]. intros n Hn.
      apply (some_there before mb n (si_table x) DB); [apply (needs_index _ _ _ Hn)|exact (closed_read before mb _ _ _ DB CB Vb Hn)]. }
  destruct (origin l mb m Hl H k (VCon (SForeign cols ref refcols act)) Logic.I V) as [Y|Y].
  - destruct (covered_read before after mb ma k cols ref refcols act DB DA C1 Y) as [q [v [Bk [V0 [V1|[Q N]]]]]]; exists q, v; (split; [|exact Bk]); [exact (St q v Bk V0 V1)|].
    destruct (backs_con _ _ _ _ Bk Q) as [x [-> Kv]].
    destruct (Eg N) as [F|F]; [right; reflexivity|rewrite F in P; discriminate P|]. rewrite <- V0. apply (F (KCon ref x) eq_refl). right. exists ref, x, v. auto.
  - destruct (covered_read after before ma mb k cols ref refcols act DA DB C2 Y) as [q [v [Bk [V0 [V1|[Q N]]]]]]; exists q, v; (split; [|exact Bk]); [exact (St q v Bk V1 V0)|].
    destruct (backs_con _ _ _ _ Bk Q) as [x [-> Kv]].
    destruct (Ef N) as [F|F]; [left; exact (missing_table d before mb ref DB N)|rewrite F in P; discriminate P|]. rewrite <- V0. apply (F (KCon ref x) eq_refl). right. exists ref, x, v. auto.
Qed.
End Between.
